(** Parse in closed form: which locales are tried, in which order, and the answer *)
From Verif Require Import GoBase SMap Regex GoTime Setting Strutil Timezone Env Common Tokenizer GoTimeParse Timestamp Formatted Relative Absolute NoSpace Calendars Language Parser History Spec
  ParserFacts LocaleFacts SelectFacts Prop_Parser Prop_Locale Prop_Total NumLift.

(** ** the sub-parsers do not look at DefaultLanguages *)
Definition wd (c : config) (d : list str) : config :=
  {| c_order := c_order c; c_now := c_now c; c_tz := c_tz c; c_pday := c_pday c; c_pmonth := c_pmonth c; c_src := c_src c;
     c_strict := c_strict c; c_required := c_required c; c_skip := c_skip c; c_deflang := d;
     c_timeperiod := c_timeperiod c; c_preserve := c_preserve c |}.
Lemma wd_applicable E c d ld s b : is_applicable E (wd c d) ld s b = is_applicable E c ld s b. Proof. reflexivity. Qed.
Lemma wd_translate E c d ld s b : translate E (wd c d) ld s b = translate E c ld s b. Proof. reflexivity. Qed.
Lemma wd_timestamp E c d s b : timestamp_parse E (wd c d) s b = timestamp_parse E c s b. Proof. reflexivity. Qed.
Lemma wd_relative E c d t : relative_parse E (wd c d) t = relative_parse E c t. Proof. reflexivity. Qed.
Lemma wd_formatted E c d t f : formatted_parse E (wd c d) t f = formatted_parse E c t f.
Proof. unfold formatted_parse. change (fmt_loc E (wd c d) t) with (fmt_loc E c t). generalize (fmt_loc E c t). intros l. induction f as [|x f IH]; cbn [fmt_loop]; [reflexivity|]. rewrite IH. reflexivity. Qed.
Lemma wd_absolute E c d t z : absolute_parse E (wd c d) t z = absolute_parse E c t z. Proof. reflexivity. Qed.
Lemma wd_nospace E c d t : nospace_parse E (wd c d) t = nospace_parse E c t.
Proof.
  assert (C1 : forall f l cs amb, ns_cands E (wd c d) f l cs amb = ns_cands E c f l cs amb).
  { intros f l. induction cs as [|x cs IH]; intros amb; cbn [ns_cands]; [reflexivity|]. change (check_strict (wd c d)) with (check_strict c). rewrite !IH. destruct (time_parse _ _ _) as [t0|]; [|reflexivity]. destruct (is_zero t0); [reflexivity|]. cbv zeta. destruct (_ <? _); [apply IH|reflexivity]. }
  assert (C2 : forall t' fs amb, ns_formats E (wd c d) t' fs amb = ns_formats E c t' fs amb).
  { intros t'. induction fs as [|f fs IH]; intros amb; cbn [ns_formats]; [reflexivity|]. cbv zeta. rewrite C1. destruct (ns_cands _ _ _ _ _ _); [reflexivity|apply IH]. }
  assert (C3 : forall fs ts amb, ns_tokens E (wd c d) fs ts amb = ns_tokens E c fs ts amb).
  { intros fs. induction ts as [|x ts IH]; intros amb; cbn [ns_tokens]; [reflexivity|]. rewrite C2. destruct (ttype_eqb _ _); [|apply IH]. destruct (ns_formats _ _ _ _ _); [reflexivity|apply IH]. }
  unfold nospace_parse. cbn [wd c_order]. destruct (negb _); [reflexivity|]. cbv zeta. destruct (empty _); [reflexivity|]. destruct (if _ && _ then _ else _); [reflexivity|]. destruct (datetime_formats _); [|reflexivity]. rewrite C3. reflexivity.
Qed.

Lemma first_date_ext {A} (f g : A -> res date) l : (forall x, f x = g x) -> first_date f l = first_date g l.
Proof. intros H. induction l as [|x l IH]; cbn [first_date]; [reflexivity|]. rewrite H. destruct (g x); cbn [rbind]; [|reflexivity|reflexivity]. now rewrite IH. Qed.
Lemma wd_type E c d s a b fs ty : try_type E (wd c d) s a b fs ty = try_type E c s a b fs ty.
Proof.
  unfold try_type. rewrite !wd_timestamp. destruct (ty =? TTimestamp); [reflexivity|]. destruct (ty =? TNegTimestamp); [reflexivity|].
  destruct (ty =? TRelative); [unfold try_relative; apply first_date_ext; intros t; now rewrite wd_relative|].
  destruct (ty =? TCustom); [unfold try_custom; apply first_date_ext; intros t; now rewrite wd_formatted|].
  destruct (ty =? TAbsolute); [unfold try_absolute; apply first_date_ext; intros t; unfold abs_one; destruct (strip_tz E t) as [[|x l] z]; [reflexivity|rewrite wd_absolute; reflexivity]|].
  destruct (ty =? TNoSpaces); [unfold try_nospace; apply first_date_ext; intros t; unfold nospace_one; destruct (strip_tz E t) as [[|x l] z]; [reflexivity|rewrite wd_nospace; reflexivity]|reflexivity].
Qed.

(** no sub-parser returns an error *)
Definition no_err {A} (r : res A) : Prop := forall e, r <> Err e.
Lemma bind_no_err {A B} (r : res A) (f : A -> res B) : no_err r -> (forall x, no_err (f x)) -> no_err (rbind r f).
Proof. intros H1 H2 e. destruct r as [x|e'|]; cbn [rbind]; [apply H2|now specialize (H1 e')|discriminate]. Qed.
Lemma lsplit_no_err E ld s k sk : no_err (lsplit E ld s k sk).
Proof.
  unfold lsplit. apply bind_no_err; [|intros x e; discriminate]. destruct (ld_rx ld) as [rx|]; [|intros e; discriminate].
  assert (SO : forall y m g, no_err (sub_or_panic y m g)) by (intros y m g e; unfold sub_or_panic; destruct (cap m g) as [[? ?]|]; discriminate).
  assert (SR : forall n y, no_err (split_with_regex E n y rx)); [|apply SR]. induction n as [|n IH]; intros y; cbn [split_with_regex]; [intros e; discriminate|].
  destruct (Regex.find (e_uni E) rx y) as [m|]; [|intros e; discriminate]. apply bind_no_err; [|intros mid; apply bind_no_err; [apply IH|intros r e; discriminate]].
  destruct (Nat.eqb _ 1); [apply bind_no_err; [apply SO|intros x e; discriminate]|]. destruct (Nat.eqb _ 3); [|intros e; discriminate].
  apply bind_no_err; [apply SO|intros g1]. apply bind_no_err; [apply SO|intros g2]. apply bind_no_err; [apply SO|intros g3 e; discriminate].
Qed.
Lemma first_date_no_err {A} (f : A -> res date) l : (forall x, no_err (f x)) -> no_err (first_date f l).
Proof. intros H. induction l as [|x l IH]; cbn [first_date]; [intros e; discriminate|]. apply bind_no_err; [apply H|]. intros d. destruct (date_is_zero d); [exact IH|intros e; discriminate]. Qed.
Lemma drop_no_err r : no_err (drop_err r). Proof. intros e. destruct r; discriminate. Qed.
Lemma locale_no_err E cfg icfg types s fs ld : no_err (try_locale E cfg icfg types s fs ld).
Proof.
  assert (TR : forall c t k, no_err (translate E c ld t k)).
  { intros c t k. unfold translate. apply bind_no_err; [apply lsplit_no_err|]. intros tk. apply bind_no_err; [|intros x e; discriminate]. intros e. unfold create_permutation. destruct (existsb _ _); discriminate. }
  unfold try_locale. apply bind_no_err; [apply TR|intros a]. apply bind_no_err; [apply TR|intros b]. apply first_date_no_err. intros ty. unfold try_type.
  destruct (ty =? TTimestamp); [intros e; discriminate|]. destruct (ty =? TNegTimestamp); [intros e; discriminate|]. destruct (ty =? TRelative); [apply first_date_no_err; intros x e; discriminate|]. destruct (ty =? TCustom); [apply first_date_no_err; intros x e; discriminate|].
  destruct (ty =? TAbsolute); [apply first_date_no_err; intros x; unfold abs_one; destruct (strip_tz E x) as [[|y l] z]; [intros e; discriminate|]; apply bind_no_err; [apply drop_no_err|intros w e; discriminate]|].
  destruct (ty =? TNoSpaces); [apply first_date_no_err; intros x; unfold nospace_one; destruct (strip_tz E x) as [[|y l] z]; [intros e; discriminate|]; apply bind_no_err; [apply drop_no_err|intros w e; discriminate]|intros e; discriminate].
Qed.
Lemma any_no_err E c ld dss : no_err (any_applicable E c ld dss).
Proof. induction dss as [|x dss IH]; cbn [any_applicable]; [intros e; discriminate|]. apply bind_no_err; [unfold is_applicable; apply bind_no_err; [apply lsplit_no_err|intros y e; discriminate]|]. intros []; [intros e; discriminate|exact IH]. Qed.

(** ** the closed form *)
Section C.
Variables (E : env) (D : langdb) (det : option (str -> list str)).
Hypothesis (TS : tables_sound D) (NM : db_named D).
Notation U := (e_uni E).

Definition c1 (cfg : uconfig) : uconfig := initiate (e_now E) cfg.
Definition text_of (s : str) : str := sanitize_date U s.
(** the texts for which a locale must be applicable *)
Definition dss_of (s : str) : list str :=
  let n := normalize_string U (text_of s) in let popped := fst (etz_pop E n) in if eqs popped n then [n] else [n; popped].
Definition app_ (cfg : uconfig) (s : str) (ld : locale) : bool :=
  match any_applicable E (to_internal (c1 cfg)) ld (dss_of s) with Ok b => b | _ => false end.
Definition date_of (p : pstate) (cfg : uconfig) (s : str) (fs : list str) (ld : locale) : date :=
  match try_locale E (c1 cfg) (to_internal (c1 cfg)) (eff_types p) (text_of s) fs ld with Ok d => d | _ => zero_date end.
Definition good (p : pstate) (cfg : uconfig) (s : str) (fs : list str) (ld : locale) : bool := negb (date_is_zero (date_of p cfg s fs ld)).
Definition selection (cfg : uconfig) (s : str) : res (list locale) :=
  get_locales E D (u_locales cfg) (detected_languages det cfg (normalize_string U (text_of s))) (u_region cfg) (u_given_order cfg) false.
Definition defaults (cfg : uconfig) : list locale :=
  match u_deflang cfg with [] => [] | _ => match get_locales E D [] (u_deflang cfg) (u_region cfg) (u_given_order cfg) false with Ok l => l | _ => [] end end.
Definition remembered (p : pstate) (cfg : uconfig) (s : str) : list locale :=
  if u_try_prev cfg then match List.find (app_ cfg s) (p_used p) with Some ld => [ld] | None => [] end else [].
Definition named_in (ld : locale) (l : list locale) : bool := mem (ld_name ld) (map ld_name l).
Definition chosen_locales (p : pstate) (cfg : uconfig) (s : str) (lds : list locale) : list locale :=
  let r := remembered p cfg s ++ filter (fun ld => app_ cfg s ld && negb (named_in ld (remembered p cfg s))) lds in
  r ++ filter (fun ld => negb (named_in ld r)) (defaults cfg).
Definition ans (p : pstate) (cfg : uconfig) (s : str) (fs : list str) (o : option locale) : res ret :=
  match o with
  | Some ld => Ok (with_locale (date_of p cfg s fs ld) (ld_name ld), None)
  | None => Ok (zero_date, Some ENoParse)
  end.

Lemma app_ok cfg s ld : sound ld -> any_applicable E (to_internal (c1 cfg)) ld (dss_of s) = Ok (app_ cfg s ld).
Proof.
  intros SO. unfold app_. pose proof (any_applicable_returns E ld SO (to_internal (c1 cfg)) (dss_of s)) as R. pose proof (any_no_err E (to_internal (c1 cfg)) ld (dss_of s)) as N.
  destruct (any_applicable _ _ _ _) as [b|e|]; [reflexivity|now specialize (N e)|now elim R].
Qed.
Lemma date_ok p cfg s fs ld : sound ld -> try_locale E (c1 cfg) (to_internal (c1 cfg)) (eff_types p) (text_of s) fs ld = Ok (date_of p cfg s fs ld).
Proof.
  intros SO. unfold date_of. pose proof (locale_no_err E (c1 cfg) (to_internal (c1 cfg)) (eff_types p) (text_of s) fs ld) as N.
  pose proof (try_locales_returns E (c1 cfg) (to_internal (c1 cfg)) (eff_types p) (text_of s) fs [ld]) as R. cbn [try_locales] in R.
  destruct (try_locale _ _ _ _ _ _ _) as [b|e|]; [reflexivity|now specialize (N e)|]. cbn [rbind] in R. elim R; [|reflexivity]. intros l [<-|[]]. exact SO.
Qed.
Lemma previous_closed cfg s used : (forall l, In l used -> sound l) ->
  check_previous E (to_internal (c1 cfg)) used (dss_of s) = Ok (List.find (app_ cfg s) used).
Proof.
  induction used as [|ld used IH]; cbn [check_previous List.find]; intros SO; [reflexivity|]. rewrite app_ok by (apply SO; now left). cbn [rbind].
  destruct (app_ cfg s ld); [reflexivity|]. apply IH. intros; apply SO; now right.
Qed.
Lemma mem_app_names x a b : mem x (a ++ b) = mem x a || mem x b.
Proof. unfold mem. apply existsb_app. Qed.
Lemma filter_closed cfg s : forall lds acc, (forall l, In l lds -> sound l) -> NoDup (map ld_name lds) ->
  filter_applicable E (to_internal (c1 cfg)) (dss_of s) acc lds = Ok (acc ++ filter (fun ld => app_ cfg s ld && negb (named_in ld acc)) lds).
Proof.
  induction lds as [|ld lds IH]; intros acc SO ND; cbn [filter_applicable filter]; [now rewrite app_nil_r|].
  assert (SO' : forall l, In l lds -> sound l) by (intros; apply SO; now right). inversion ND as [|? ? N1 N2]; subst.
  fold (named_in ld acc). destruct (named_in ld acc) eqn:M; [rewrite andb_false_r; now apply IH|]. rewrite app_ok by (apply SO; now left). cbn [rbind negb]. rewrite andb_true_r.
  rewrite IH by assumption. destruct (app_ cfg s ld); [|reflexivity]. rewrite <- app_assoc. cbn [app]. f_equal. f_equal. f_equal. apply filter_ext_in. intros x Hx.
  unfold named_in. rewrite map_app, mem_app_names. cbn [map mem existsb]. rewrite orb_false_r. destruct (eqs_spec (ld_name x) (ld_name ld)) as [EQ|]; [|now rewrite orb_false_r].
  elim N1. rewrite <- EQ. now apply in_map.
Qed.
Lemma locales_closed p cfg s fs lds : (forall l, In l lds -> sound l) ->
  try_locales E (c1 cfg) (to_internal (c1 cfg)) (eff_types p) (text_of s) fs lds =
  Ok (match List.find (good p cfg s fs) lds with Some ld => Some (ld, date_of p cfg s fs ld) | None => None end).
Proof.
  induction lds as [|ld lds IH]; cbn [try_locales List.find]; intros SO; [reflexivity|]. rewrite date_ok by (apply SO; now left). cbn [rbind]. unfold good at 1.
  destruct (date_is_zero (date_of p cfg s fs ld)); cbn [negb]; [|reflexivity]. apply IH. intros; apply SO; now right.
Qed.
Lemma selected_sound cfg s lds : selection cfg s = Ok lds -> forall l, In l lds -> sound l.
Proof. intros G l HI. eapply get_locales_sound; eassumption. Qed.
Lemma selected_nodup cfg s lds : selection cfg s = Ok lds -> NoDup (map ld_name lds).
Proof. intros G. exact (proj1 (proj2 (C30_selected_locales E D _ _ _ _ _ _ NM G))). Qed.
Lemma defaults_named cfg l : In l (defaults cfg) -> db_get D (ld_name l) = Some l.
Proof.
  unfold defaults. destruct (u_deflang cfg) as [|d0 ds] eqn:DL; [intros []|]. destruct (get_locales _ _ _ _ _ _ _) as [dl|e|] eqn:G; [|intros []|intros []]. intros HI.
  apply (proj1 (proj1 (proj2 (proj2 (C30_selected_locales E D _ _ _ _ _ _ NM G))) l) HI).
Qed.
Lemma selected_named cfg s lds l : selection cfg s = Ok lds -> In l lds -> db_get D (ld_name l) = Some l.
Proof. intros G HI. apply (proj1 (proj1 (proj2 (proj2 (C30_selected_locales E D _ _ _ _ _ _ NM G))) l) HI). Qed.
Lemma defaults_sound cfg l : In l (defaults cfg) -> sound l.
Proof. intros HI. eapply TS, defaults_named, HI. Qed.

Definition not_found_empty (r : res (list locale)) : res (list locale) := match r with Err ENotFound => Ok [] | r => r end.
Lemma applicable_closed p cfg s : (forall l, In l (p_used p) -> sound l) ->
  get_applicable E D det (p_used p) (c1 cfg) (to_internal (c1 cfg)) (text_of s) =
  do lds <- not_found_empty (selection cfg s) ; Ok (chosen_locales p cfg s lds).
Proof.
  intros SU. unfold get_applicable. cbv zeta. match goal with |- context [check_previous E _ _ ?d] => change d with (dss_of s) end. change (u_try_prev (c1 cfg)) with (u_try_prev cfg).
  assert (PV : (if u_try_prev cfg then check_previous E (to_internal (c1 cfg)) (p_used p) (dss_of s) else Ok None) = Ok (if u_try_prev cfg then List.find (app_ cfg s) (p_used p) else None)).
  { destruct (u_try_prev cfg); [now apply previous_closed|reflexivity]. }
  rewrite PV. clear PV. cbn [rbind].
  assert (RM : match (if u_try_prev cfg then List.find (app_ cfg s) (p_used p) else None) with Some ld => [ld] | None => [] end = remembered p cfg s) by (unfold remembered; destruct (u_try_prev cfg); reflexivity).
  rewrite RM.
  change (get_locales E D (u_locales (c1 cfg)) (detected_languages det (c1 cfg) (normalize_string U (text_of s))) (u_region (c1 cfg)) (u_given_order (c1 cfg)) false) with (selection cfg s).
  match goal with |- rbind ?m _ = _ => replace m with (not_found_empty (selection cfg s)) by (destruct (selection cfg s) as [|[]|]; reflexivity) end.
  assert (SL : forall lds, not_found_empty (selection cfg s) = Ok lds -> (forall l, In l lds -> sound l) /\ NoDup (map ld_name lds)).
  { intros lds HL. destruct (selection cfg s) as [l|e|] eqn:G.
    - cbn [not_found_empty] in HL. assert (l = lds) by congruence. subst l. split; [now apply (selected_sound cfg s)|now apply (selected_nodup cfg s)].
    - assert (lds = []) as -> by (destruct e; cbn in HL; congruence). split; [intros l []|constructor].
    - discriminate HL. }
  destruct (not_found_empty (selection cfg s)) as [lds|e|]; cbn [rbind]; [|reflexivity|reflexivity]. destruct (SL lds eq_refl) as [S1 S2].
  rewrite (filter_closed cfg s lds (remembered p cfg s) S1 S2). cbn [rbind].
  change (c_deflang (to_internal (c1 cfg))) with (u_deflang cfg). change (u_deflang (c1 cfg)) with (u_deflang cfg). change (u_region (c1 cfg)) with (u_region cfg). change (u_given_order (c1 cfg)) with (u_given_order cfg).
  unfold chosen_locales, defaults. destruct (u_deflang cfg) as [|d0 ds]; [cbn [filter]; now rewrite app_nil_r|].
  pose proof (get_locales_returns E D [] (d0 :: ds) (u_region cfg) (u_given_order cfg) false) as R. destruct (get_locales E D [] (d0 :: ds) (u_region cfg) (u_given_order cfg) false) as [dl|e|]; [reflexivity|reflexivity|now elim R].
Qed.

(** a call that gets as far as the locales *)
Definition proceeds (p : pstate) (cfg : uconfig) (s : str) (fs : list str) : bool :=
  negb (existsb (fun t => TNoSpaces <? t) (p_types p)) && validate U (c1 cfg) && date_is_zero (formatted_parse E (to_internal (c1 cfg)) s fs).
Lemma find_filter {A} (f g : A -> bool) l : List.find f (filter g l) = List.find (fun x => g x && f x) l.
Proof. induction l as [|x l IH]; cbn [filter List.find]; [reflexivity|]. destruct (g x); cbn [List.find andb]; [destruct (f x); auto|exact IH]. Qed.
Lemma chosen_sound p cfg s lds : (forall l, In l (p_used p) -> sound l) -> (forall l, In l lds -> sound l) -> forall l, In l (chosen_locales p cfg s lds) -> sound l.
Proof.
  intros SU SL l. unfold chosen_locales. cbv zeta. rewrite !in_app_iff. intros [[HI|HI]|HI].
  - unfold remembered in HI. destruct (u_try_prev cfg); [|destruct HI]. destruct (List.find _ _) as [x|] eqn:F; [|destruct HI]. destruct HI as [<-|[]]. apply find_some in F as [F _]. auto.
  - apply filter_In in HI as [HI _]. auto.
  - apply filter_In in HI as [HI _]. now apply (defaults_sound cfg).
Qed.
Theorem parse_closed p cfg s fs : (forall l, In l (p_used p) -> sound l) ->
  snd (parse E D det p cfg s fs) =
  if existsb (fun t => TNoSpaces <? t) (p_types p) then Ok (zero_date, Some EParserType)
  else if negb (validate U (c1 cfg)) then Ok (zero_date, Some EConfig)
  else if negb (date_is_zero (formatted_parse E (to_internal (c1 cfg)) s fs)) then Ok (formatted_parse E (to_internal (c1 cfg)) s fs, None)
  else match not_found_empty (selection cfg s) with
       | Ok lds => ans p cfg s fs (List.find (good p cfg s fs) (chosen_locales p cfg s lds))
       | Err e => Ok (zero_date, Some e)
       | Panic => Panic
       end.
Proof.
  intros SU. unfold parse. destruct (existsb _ (p_types p)); [reflexivity|]. fold (typed p). cbv zeta. assert (E1 : initiate (e_now E) cfg = c1 cfg) by reflexivity. assert (E2 : sanitize_date U s = text_of s) by (unfold text_of; reflexivity). rewrite E1, E2. clear E1 E2. destruct (negb (validate U (c1 cfg))); [reflexivity|]. destruct (negb (date_is_zero _)); [reflexivity|].
  rewrite typed_used, typed_types. rewrite applicable_closed by exact SU.
  assert (SL : forall lds, not_found_empty (selection cfg s) = Ok lds -> forall l, In l lds -> sound l).
  { intros lds HL. destruct (selection cfg s) as [l|e|] eqn:G.
    - cbn [not_found_empty] in HL. assert (l = lds) by congruence. subst l. now apply (selected_sound cfg s).
    - assert (lds = []) as -> by (destruct e; cbn in HL; congruence). intros l [].
    - discriminate HL. }
  destruct (not_found_empty (selection cfg s)) as [lds|e|]; cbn [rbind]; [|reflexivity|reflexivity]. specialize (SL lds eq_refl).
  rewrite locales_closed by now apply chosen_sound. destruct (List.find _ _) as [ld|]; reflexivity.
Qed.
End C.
