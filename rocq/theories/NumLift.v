(** Lifting what one locale does with a text of numbers to the whole of Parse *)
From Verif Require Import GoBase SMap Regex GoTime Setting Strutil Timezone Env Timestamp Formatted Relative Absolute Language Parser ParserFacts LocaleFacts SelectFacts Search History AbsFacts2 NumericFacts NumTranslate.

Lemma try_locales_first E cfg icfg types s fs ld lds d : try_locale E cfg icfg types s fs ld = Ok d -> date_is_zero d = false ->
  try_locales E cfg icfg types s fs (ld :: lds) = Ok (Some (ld, d)).
Proof. intros H Z. cbn [try_locales]. rewrite H. cbn [rbind]. now rewrite Z. Qed.

(** the result of the first locale is the result *)
Lemma parse_first E D det p cfg0 s0 fs ld lds d :
  existsb (fun t => TNoSpaces <? t) (eff_types p) = false -> validate (e_uni E) (initiate (e_now E) cfg0) = true ->
  date_is_zero (formatted_parse E (to_internal (initiate (e_now E) cfg0)) s0 fs) = true ->
  get_applicable E D det (p_used p) (initiate (e_now E) cfg0) (to_internal (initiate (e_now E) cfg0)) (sanitize_date (e_uni E) s0) = Ok (ld :: lds) ->
  try_locale E (initiate (e_now E) cfg0) (to_internal (initiate (e_now E) cfg0)) (eff_types p) (sanitize_date (e_uni E) s0) fs ld = Ok d ->
  date_is_zero d = false ->
  snd (parse E D det p cfg0 s0 fs) = Ok (with_locale d (ld_name ld), None).
Proof.
  intros HT HV HF HG HL HZ. unfold parse. rewrite bad_types_eff, HT. fold (typed p). rewrite HV. cbn [negb]. rewrite HF. cbn [negb].
  rewrite typed_used, typed_types, HG. rewrite (try_locales_first _ _ _ _ _ _ _ _ _ HL HZ). reflexivity.
Qed.

Lemma first_date_zeros {A} (f : A -> res date) l1 x l2 d : (forall y, In y l1 -> exists z, f y = Ok z /\ date_is_zero z = true) -> f x = Ok d -> date_is_zero d = false ->
  first_date f (l1 ++ x :: l2) = Ok d.
Proof.
  intros H1 Hx Hd. induction l1 as [|y l1 IH]; cbn [app first_date].
  - rewrite Hx. cbn [rbind]. now rewrite Hd.
  - destruct (H1 y) as (z & -> & Hz); [now left|]. cbn [rbind]. rewrite Hz. apply IH. intros w Hw. apply H1. now right.
Qed.

Section E.
Variable E : env.
Variable D : langdb.
Notation U := (e_uni E).
Hypothesis UA : uni_ascii U.
Hypothesis HD : forall n ld, db_get D n = Some ld -> numeric_locale ld = true.

Lemma fetch_numeric ns : Forall (fun ld => numeric_locale ld = true) (fetch D ns).
Proof. induction ns as [|n ns IH]; cbn [fetch]; [constructor|]. destruct (db_get D n) as [ld|] eqn:G; [|exact IH]. constructor; [exact (HD n ld G)|exact IH]. Qed.
Lemma locales_numeric a b c d e lds : get_locales E D a b c d e = Ok lds -> Forall (fun ld => numeric_locale ld = true) lds /\ lds <> [].
Proof.
  unfold get_locales. destruct (match a with [] => _ | _ :: _ => _ end) as [names|x|]; cbn [rbind]; try discriminate.
  destruct (fetch D _) as [|ld l] eqn:F; [discriminate|]. intros HE. assert (lds = ld :: l) as -> by congruence. split; [|discriminate]. rewrite <- F. apply fetch_numeric.
Qed.

Lemma pick_languages_no_panic region : forall ls tr lg b, pick_languages D region ls tr lg b <> Panic.
Proof.
  induction ls as [|x ls IH]; intros tr lg b; cbn [pick_languages]; [destruct b; discriminate|]. destruct (mem x lg); [apply IH|]. destruct (negb _); [apply IH|]. destruct (mem _ tr); [apply IH|]. destruct (negb _); apply IH.
Qed.

Section Text.
Variables (A : str) (l : list (Z * str)).
Hypothesis HN : numbers A l.
Notation s := (numtext A l).
Variable icfg : config.
Hypothesis SK : no_skip (c_skip icfg).
Hypothesis SE : ~ In [] (c_skip icfg).
Variable dss : list str.
Lemma filter_app : forall lds acc, Forall (fun ld => numeric_locale ld = true) acc -> Forall (fun ld => numeric_locale ld = true) lds -> (acc <> [] \/ lds <> []) ->
  exists r, filter_applicable E icfg (s :: dss) acc lds = Ok r /\ Forall (fun ld => numeric_locale ld = true) r /\ r <> [].
Proof.
  induction lds as [|ld lds IH]; intros acc HA HL NE; cbn [filter_applicable].
  - exists acc. split; [reflexivity|]. split; [exact HA|]. tauto.
  - inversion HL as [|? ? H1 H2]; subst. destruct (mem (ld_name ld) (map ld_name acc)) eqn:M.
    + apply IH; auto. left. intros ->. discriminate M.
    + cbn [any_applicable]. rewrite (applicable_num E UA ld H1 icfg A l HN SK SE). cbn [rbind]. apply IH; auto; [apply Forall_app; split; [exact HA|repeat constructor; exact H1]|]. left. destruct acc; discriminate.
Qed.
Lemma previous_app used : Forall (fun ld => numeric_locale ld = true) used -> exists o, check_previous E icfg used (s :: dss) = Ok o /\ forall ld, o = Some ld -> numeric_locale ld = true.
Proof.
  intros HU. destruct used as [|ld used]; cbn [check_previous]; [exists None; split; [reflexivity|discriminate]|]. inversion HU; subst. cbn [any_applicable].
  rewrite (applicable_num E UA ld) by assumption. cbn [rbind]. exists (Some ld). split; [reflexivity|]. intros ? X. assert (ld = ld0) by congruence. now subst.
Qed.
End Text.

Lemma get_applicable_num A l det used cfg icfg lds0 : numbers A l -> no_skip (c_skip icfg) -> ~ In [] (c_skip icfg) -> 
  Forall (fun ld => numeric_locale ld = true) used ->
  get_locales E D (u_locales cfg) (detected_languages det cfg (numtext A l)) (u_region cfg) (u_given_order cfg) false = Ok lds0 ->
  exists ld r, get_applicable E D det used cfg icfg (numtext A l) = Ok (ld :: r) /\ numeric_locale ld = true.
Proof.
  intros HN SK SE HU HG. destruct (locales_numeric _ _ _ _ _ _ HG) as [F0 N0]. unfold get_applicable. rewrite (normalize_num E UA (match lds0 as l return l <> [] -> locale with [] => fun n => False_rect _ (n eq_refl) | x :: _ => fun _ => x end N0) A l HN).
  assert (exists x, (if eqs (fst (etz_pop E (numtext A l))) (numtext A l) then [numtext A l] else [numtext A l; fst (etz_pop E (numtext A l))]) = numtext A l :: x) as [x ->] by (destruct (eqs _ _); eexists; reflexivity).
  destruct (previous_app A l HN icfg SK SE x used HU) as (o & HO & HO2).
  assert (exists o, (if u_try_prev cfg then check_previous E icfg used (numtext A l :: x) else Ok None) = Ok o /\ forall ld, o = Some ld -> numeric_locale ld = true) as (o2 & -> & H2).
  { destruct (u_try_prev cfg); [exists o; auto|exists None; split; [reflexivity|discriminate]]. }
  cbn [rbind]. rewrite HG. cbn [rbind].
  destruct (filter_app A l HN icfg SK SE x lds0 (match o2 with Some ld => [ld] | None => [] end)) as (r & HR & FR & NR); [destruct o2; repeat constructor; auto|exact F0|auto|].
  rewrite HR. cbn [rbind]. destruct r as [|ld r]; [congruence|]. inversion FR; subst. destruct (c_deflang icfg); [eauto|].
  assert (exists y, match get_locales E D [] (u_deflang cfg) (u_region cfg) (u_given_order cfg) false with Err _ => Ok [] | r0 => r0 end = Ok y \/ match get_locales E D [] (u_deflang cfg) (u_region cfg) (u_given_order cfg) false with Err _ => Ok [] | r0 => r0 end = Panic) as [y [-> | HP]].
  { destruct (get_locales E D [] _ _ _ _) as [y|e|]; [exists y|exists []|exists []]; auto. }
  - cbn [rbind app]. eauto.
  - exfalso. revert HP. unfold get_locales. destruct (pick_languages _ _ _ _ _ _) as [nm|e|] eqn:P; cbn [rbind]; try discriminate.
    + destruct (fetch D _); discriminate.
    + intros _. now apply pick_languages_no_panic in P.
Qed.
End E.

(** the locales a parser remembers come from the tables *)
Lemma exec_from D det (P : locale -> Prop) : (forall n ld, db_get D n = Some ld -> P ld) -> forall p o, Forall P (p_used p) -> Forall P (p_used (exec D det p o)).
Proof.
  intros HD p o HP. destruct o as [E cfg s fs|l]; cbn [exec].
  - pose proof (parse_outcome E D det p cfg s fs) as O. remember (fst (parse E D det p cfg s fs)) as p' eqn:EP. clear EP. remember (snd (parse E D det p cfg s fs)) as r' eqn:ER. clear ER.
    destruct O; rewrite ?typed_used; auto. destruct (u_try_prev cfg); rewrite ?typed_used; auto. cbn [p_used with_used].
    destruct (save_used_cases (p_used p) ld) as [[-> _]|[-> _]]; auto. apply Forall_app. split; [exact HP|]. constructor; [|constructor].
    match goal with H : get_applicable _ _ _ _ _ _ _ = Ok _, H2 : lds = _ |- _ => rename H into HG; rename H2 into HL end.
    assert (X : forall x1 x2 x3 x4 x5 l, get_locales E D x1 x2 x3 x4 x5 = Ok l -> In ld l -> P ld).
    { intros x1 x2 x3 x4 x5 l Hg Hi. destruct (get_locales_ok _ _ _ _ _ _ _ _ Hg) as (names & _ & _ & Hm & _). assert (Hs : In (Some ld) (map Some l)) by now apply in_map. rewrite Hm in Hs. apply in_map_iff in Hs as (code & Hc & _). eauto. }
    destruct (get_applicable_In _ _ _ _ _ _ _ _ HG ld) as [[_ Hb]|[(l & Ha & Hb)|(_ & l & Ha & Hb)]]; eauto.
    + rewrite HL. apply in_app_iff. right. now left.
    + rewrite Forall_forall in HP. auto.
  - unfold init_charsets. destruct (_ || _); exact HP.
Qed.
Lemma reachable_from D det (P : locale -> Prop) p : (forall n ld, db_get D n = Some ld -> P ld) -> reachable D det p -> Forall P (p_used p).
Proof.
  intros HD (types & ops & ->). assert (G : forall ops p, Forall P (p_used p) -> Forall P (p_used (run D det p ops))).
  { clear ops. induction ops as [|o ops IH]; intros p HP; [exact HP|]. cbn [run fold_left]. apply (IH (exec D det p o)). now apply exec_from. }
  apply G. constructor.
Qed.
