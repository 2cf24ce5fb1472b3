From Coq Require Import ZifyBool.
(** C01-C06, C10, C40: what Parse returns and remembers *)
From Verif Require Import GoBase SMap GoTime Setting Env Strutil Timezone Timestamp Formatted Relative Absolute NoSpace Language Parser
  Search History Spec ParserFacts LocaleFacts SelectFacts Shows Concrete LocaleData Utf8Facts.

Lemma usable_iff d : date_is_zero d = false <-> usable d.
Proof.
  unfold date_is_zero, usable, is_zero. change zero_sec with (-62135596800).
  rewrite orb_false_iff, andb_false_iff, !Z.eqb_neq.
  assert (P : period_eqb (d_period d) PNone = false <-> d_period d <> PNone) by (destruct (d_period d); cbn; split; congruence).
  rewrite P. destruct (Z.eq_dec (t_sec (d_time d)) (-62135596800)), (Z.eq_dec (t_nsec (d_time d)) 0); tauto.
Qed.
Lemma not_usable_iff d : date_is_zero d = true <-> ~ usable d.
Proof. rewrite <- usable_iff. destruct (date_is_zero d); intuition congruence. Qed.

(** C01 *)
Theorem C01_parse_error_xor_date : forall E D det p cfg s formats p' d err,
  parse E D det p cfg s formats = (p', Ok (d, err)) ->
  (err = None -> usable d) /\ (err <> None -> d = zero_date).
Proof.
  intros E D det p cfg s fs p' d err H.
  pose proof (parse_outcome E D det p cfg s fs) as O. rewrite H in O. cbn [fst snd] in O.
  inversion O; subst; split; intros Hx; try congruence.
  - now apply usable_iff.
  - apply usable_iff. now rewrite with_locale_zero.
Qed.
Print Assumptions C01_parse_error_xor_date.

Example C01_success : shows (snd (parse env0 db0 None (new_parser []) uconfig0 (lit "12 August 2021") [])) 2021 8 12 0 0 0 0 PDay (lit "en").
Proof. apply shows_by. vm_compute. reflexivity. Qed.
Example C01_failure : snd (parse env0 db0 None (new_parser []) uconfig0 (lit "no date here") []) = Ok (zero_date, Some ENoParse).
Proof. vm_compute. reflexivity. Qed.

(** C02 *)
Lemma named_requested E D locales languages region g allow lds ld : db_named D ->
  get_locales E D locales languages region g allow = Ok lds -> In ld lds ->
  db_get D (ld_name ld) = Some ld /\ asks (e_uni E) D locales languages region (ld_name ld).
Proof.
  intros HD Hg Hi. destruct (get_locales_ok _ _ _ _ _ _ _ _ Hg) as (names & Hn & Hk & Hm & _).
  assert (Hs : In (Some ld) (map Some lds)) by now apply in_map.
  rewrite Hm in Hs. apply in_map_iff in Hs as (code & Hc & Hin).
  destruct (HD _ _ Hc) as [<- Hne]. split; [exact Hc|].
  assert (Hr : In (ld_name ld) (requested E D locales languages region)).
  { subst names. destruct g; [exact Hin|]. eapply Permutation.Permutation_in; [apply sort_by_perm | exact Hin]. }
  unfold requested in Hr. destruct locales as [|l0 locales].
  - apply filter_In in Hr as [Hr _]. apply in_map_iff in Hr as (lang & <- & Hl).
    apply firsts_In in Hl as [Hl _]. unfold localize.
    destruct (empty (trim_space (to_upper (e_uni E) region))) eqn:Er.
    + assert (trim_space (to_upper (e_uni E) region) = []) by (destruct (trim_space _); [reflexivity|discriminate]).
      destruct languages; [apply asks_any | apply asks_language]; auto.
    + assert (trim_space (to_upper (e_uni E) region) <> []) by (destruct (trim_space _); discriminate).
      destruct languages; [apply asks_any_region | apply asks_region]; auto.
  - apply asks_locale. now apply firsts_In in Hr as [Hr _].
Qed.

Theorem C02_reported_locale_is_allowed : forall E D det p cfg s formats p' d,
  db_named D ->
  parse E D det p cfg s formats = (p', Ok (d, None)) ->
  (d_locale d = [] /\ d = formatted_parse E (to_internal (initiate (e_now E) cfg)) s formats) \/
  (exists ld, d_locale d = ld_name ld /\ usable d /\
    ((u_try_prev cfg = true /\ In ld (p_used p)) \/
     (db_get D (ld_name ld) = Some ld /\
      (asks (e_uni E) D (u_locales cfg)
            (effective_languages det cfg (normalize_string (e_uni E) (sanitize_date (e_uni E) s))) (u_region cfg) (ld_name ld) \/
       (u_deflang cfg <> [] /\ asks (e_uni E) D [] (u_deflang cfg) (u_region cfg) (ld_name ld)))))).
Proof.
  intros E D det p cfg s fs p' d HD H.
  pose proof (parse_outcome E D det p cfg s fs) as O. rewrite H in O. cbn [fst snd] in O.
  inversion O as [| |d0 ? ? Hd Hz| | |lds l1 l2 ld d0 ? ? ? Hg Hl Ht Hz Hn]; subst; try congruence.
  - left. split; [apply fmt_locale | reflexivity].
  - right. exists ld. split; [reflexivity|]. split; [now apply usable_iff|].
    destruct (get_applicable_In _ _ _ _ _ _ _ _ Hg ld) as [[Ha Hb]|[(l & Ha & Hb)|(Hne & l & Ha & Hb)]].
    + apply in_app_iff. right. now left.
    + left. auto.
    + right. destruct (named_requested _ _ _ _ _ _ _ _ _ HD Ha Hb) as [Hx Hy]. auto.
    + right. destruct (named_requested _ _ _ _ _ _ _ _ _ HD Ha Hb) as [Hx Hy]. auto.
Qed.
Print Assumptions C02_reported_locale_is_allowed.

Example C02_tables_are_named : db_named db0. Proof. exact db0_named. Qed.

(** C03 *)
Theorem C03_no_memory_without_try_previous : forall E D det types (earlier : list op) cfg s formats,
  u_try_prev cfg = false ->
  snd (parse E D det (run D det (new_parser types) earlier) cfg s formats)
    = snd (parse E D det (new_parser types) cfg s formats)
  /\ p_used (fst (parse E D det (run D det (new_parser types) earlier) cfg s formats))
    = p_used (run D det (new_parser types) earlier).
Proof.
  intros E D det types ops cfg s fs Hp. split.
  - apply parse_result_dep; [apply run_eff | congruence].
  - set (p := run _ _ _ _). destruct (parse_outcome E D det p cfg s fs); rewrite ?typed_used; auto.
    rewrite Hp. apply typed_used.
Qed.
Print Assumptions C03_no_memory_without_try_previous.

(** C04 *)
Theorem C04_remembered_no_duplicates : forall D det types ops,
  NoDup (map ld_name (p_used (run D det (new_parser types) ops))).
Proof. intros. apply run_nodup. constructor. Qed.
Print Assumptions C04_remembered_no_duplicates.

Theorem C04_remembered_append_only : forall D det types ops more,
  exists added, p_used (run D det (new_parser types) (ops ++ more)) = p_used (run D det (new_parser types) ops) ++ added.
Proof. intros. rewrite run_app. apply run_prefix. Qed.
Print Assumptions C04_remembered_append_only.

Theorem C04_remembered_only_on_success : forall D det E p cfg s formats,
  let p' := fst (parse E D det p cfg s formats) in
  (p_used p' = p_used p \/
   exists ld d, p_used p' = p_used p ++ [ld] /\ u_try_prev cfg = true /\
     snd (parse E D det p cfg s formats) = Ok (d, None) /\ d_locale d = ld_name ld /\ ~ In (ld_name ld) (map ld_name (p_used p)))
  /\ (u_try_prev cfg = true -> forall d, snd (parse E D det p cfg s formats) = Ok (d, None) -> d_locale d <> [] ->
      In (d_locale d) (map ld_name (p_used p'))).
Proof.
  intros D det E p cfg s fs p'. subst p'.
  destruct (parse_outcome E D det p cfg s fs); rewrite ?typed_used; (split; [auto | try (intros; congruence)]).
  - intros _ d0 Hd Hne. exfalso. apply Hne. injection Hd as <-. subst d. apply fmt_locale.
  - destruct (u_try_prev cfg) eqn:Ep; [|left; apply typed_used]. cbn [p_used with_used].
    destruct (save_used_cases (p_used p) ld) as [[-> _]|[-> Hx]]; [now left|].
    right. exists ld, (with_locale d (ld_name ld)). auto.
  - intros Hp d0 Hd _. rewrite Hp. injection Hd as <-. cbn [d_locale with_locale p_used with_used].
    destruct (save_used_cases (p_used p) ld) as [[-> Hi]|[-> Hx]]; [exact Hi|].
    rewrite map_app, in_app_iff. right. now left.
Qed.
Print Assumptions C04_remembered_only_on_success.

Definition cfg_try : uconfig :=
  {| u_locales := []; u_languages := [lit "en"]; u_region := []; u_try_prev := true; u_given_order := false;
     u_deflang := []; u_order := None; u_now := zero_time; u_tz := None; u_pday := 0; u_pmonth := 0; u_src := 0;
     u_strict := false; u_required := []; u_skip := []; u_timeperiod := false; u_preserve := false |}.
Example C04_something_is_remembered :
  map ld_name (p_used (run db0 None (new_parser []) [OpParse env0 cfg_try (lit "10 March 2015") []; OpParse env0 cfg_try (lit "11 March 2015") []]))
  = [lit "en"].
Proof. vm_compute. reflexivity. Qed.

(** C05: the full claim is refuted by a two-call history; without TryPreviousLocales it holds *)
Definition cfg_fr_try : uconfig :=
  {| u_locales := [lit "fr"]; u_languages := []; u_region := []; u_try_prev := true; u_given_order := false;
     u_deflang := []; u_order := None; u_now := zero_time; u_tz := None; u_pday := 0; u_pmonth := 0; u_src := 0;
     u_strict := false; u_required := []; u_skip := []; u_timeperiod := false; u_preserve := false |}.
Theorem C05_locales_restrict_refuted : exists p,
  p = run db0 None (new_parser []) [OpParse env0 cfg_try (lit "10 March 2015") []] /\
  u_locales cfg_fr_try = [lit "fr"] /\ u_deflang cfg_fr_try = [] /\
  shows (snd (parse env0 db0 None p cfg_fr_try (lit "3/10/2015") [])) 2015 3 10 0 0 0 0 PDay (lit "en").
Proof. eexists. split; [reflexivity|]. split; [reflexivity|]. split; [reflexivity|]. apply shows_by. vm_compute. reflexivity. Qed.
Print Assumptions C05_locales_restrict_refuted.

Theorem C05_locales_restrict_partial : forall E D det p cfg s formats p' d,
  db_named D ->
  parse E D det p cfg s formats = (p', Ok (d, None)) ->
  u_locales cfg <> [] -> u_deflang cfg = [] -> u_try_prev cfg = false -> d_locale d <> [] ->
  In (d_locale d) (u_locales cfg).
Proof.
  intros E D det p cfg s fs p' d HD H HL Hd Hp Hne.
  destruct (C02_reported_locale_is_allowed _ _ _ _ _ _ _ _ _ HD H) as [[Hx _]|(ld & -> & _ & [[Ht _]|[_ [Ha|[Hx _]]]])]; try congruence.
  inversion Ha; congruence.
Qed.
Print Assumptions C05_locales_restrict_partial.

(** C06 *)
Lemma first_hit_of {A} (f : A -> res date) (R : A -> date -> Prop) l d :
  (forall x z, f x = Ok z -> usable z -> R x z) -> (forall x z z', f x = Ok z -> R x z' -> usable z' -> z = z') ->
  first_date f l = Ok d -> usable d -> first_hit R l d.
Proof.
  intros H1 H2 H Hu. apply first_date_spec in H as [[Hz _]|[Hz (l1 & x & l2 & -> & Hx & Hn)]].
  - apply not_usable_iff in Hz. contradiction.
  - exists l1, x, l2. split; [reflexivity|]. split; [auto|]. split; [exact Hu|].
    intros y d' Hy HR Hu'. destruct (Hn y Hy) as (z & Hz1 & Hz2). apply not_usable_iff in Hz2.
    apply Hz2. now rewrite (H2 _ _ _ Hz1 HR Hu').
Qed.
Lemma hit_unique {A} (R : A -> date -> Prop) l d d' : (forall x a b, R x a -> R x b -> a = b) ->
  first_hit R l d -> first_hit R l d' -> d = d'.
Proof.
  intros HR (l1 & x & l2 & -> & Hx & Hu & Hn) (k1 & y & k2 & He & Hy & Hu' & Hn').
  assert (l1 = k1).
  { revert k1 He Hn Hn'. induction l1 as [|a l1 IH]; intros [|b k1] He Hn Hn'; cbn [app] in He.
    - reflexivity.
    - injection He as -> _. exfalso. now apply (Hn' b d); [left|..].
    - injection He as -> _. exfalso. now apply (Hn y d'); [left|..].
    - injection He as -> He. f_equal. apply IH; auto; intros; [eapply Hn | eapply Hn']; eauto; now right. }
  subst k1. apply app_inv_head in He. injection He as -> _. eauto.
Qed.
Lemma hit_none {A} (f : A -> res date) (R : A -> date -> Prop) l d d' :
  (forall x z', R x z' -> usable z' -> f x = Ok z') ->
  first_date f l = Ok d -> ~ usable d -> ~ first_hit R l d'.
Proof.
  intros H1 H Hu (l1 & x & l2 & -> & Hx & Hu' & _).
  apply first_date_spec in H as [[_ Hz]|[Hz _]]; [|apply Hu; now apply usable_iff].
  destruct (Hz x) as (z & Hz1 & Hz2); [apply in_app_iff; right; now left|].
  rewrite (H1 _ _ Hx Hu') in Hz1. injection Hz1 as <-. apply not_usable_iff in Hz2. contradiction.
Qed.

Lemma zoned_one E cfg (parser : str -> offset_data -> res date) t z :
  (let '(r, tz) := strip_tz E t in match r with [] => Ok zero_date | _ => do dt <- drop_err (parser r tz) ; Ok (apply_timezone cfg dt tz) end) = Ok z ->
  usable z -> zoned E cfg parser t z.
Proof.
  unfold strip_tz. destruct (etz_pop E (strip_braces t)) as [r tz] eqn:Ee. intros H Hu. exists r, tz.
  assert (Hne : r <> []) by (intros ->; injection H as <-; destruct Hu as [Hu _]; now apply Hu).
  destruct r as [|c r]; [congruence|].
  assert (Z0 : ~ usable zero_date) by (intros [Hx _]; now apply Hx).
  destruct (parser (c :: r) tz) as [d0|e|] eqn:Hp; cbn [drop_err rbind] in H; try discriminate.
  - injection H as <-. exists d0. auto.
  - injection H as <-. exfalso. apply Z0. exact Hu.
Qed.
Lemma zoned_one_inv E cfg (parser : str -> offset_data -> res date) t z :
  zoned E cfg parser t z -> usable z ->
  (let '(r, tz) := strip_tz E t in match r with [] => Ok zero_date | _ => do dt <- drop_err (parser r tz) ; Ok (apply_timezone cfg dt tz) end) = Ok z.
Proof.
  intros (r & tz & d0 & He & Hne & Hp & ->) Hu. unfold strip_tz. rewrite He.
  destruct r; [congruence|]. rewrite Hp. reflexivity.
Qed.

Lemma try_type_sub E cfg s trs trsf fs ty d : try_type E cfg s trs trsf fs ty = Ok d -> usable d ->
  sub_parser E cfg s trs trsf fs ty d.
Proof.
  unfold try_type, sub_parser. intros H Hu. split; [exact Hu|].
  change TTimestamp with 0 in H. change TNegTimestamp with 1 in H. change TRelative with 2 in H. change TCustom with 3 in H.
  change TAbsolute with 4 in H. change TNoSpaces with 5 in H.
  destruct (Z.eqb_spec ty 0); [left; split; congruence|]. right.
  destruct (Z.eqb_spec ty 1); [left; split; congruence|]. right.
  destruct (Z.eqb_spec ty 2).
  { left. split; [auto|]. eapply first_hit_of; [| |exact H|exact Hu]; intros; congruence. }
  right. destruct (Z.eqb_spec ty 3).
  { left. split; [auto|]. eapply first_hit_of; [| |exact H|exact Hu]; intros; congruence. }
  right. destruct (Z.eqb_spec ty 4).
  { left. split; [auto|]. eapply first_hit_of; [| |exact H|exact Hu]; unfold abs_one.
    - intros. now apply zoned_one.
    - intros x z z' Hx HR Hz. apply zoned_one_inv in HR; auto. congruence. }
  right. destruct (Z.eqb_spec ty 5).
  { split; [auto|]. eapply first_hit_of; [| |exact H|exact Hu]; unfold nospace_one.
    - intros. now apply (zoned_one E cfg (fun t _ => nospace_parse E cfg t)).
    - intros x z z' Hx HR Hz. apply (zoned_one_inv E cfg (fun t _ => nospace_parse E cfg t)) in HR; auto. congruence. }
  injection H as <-. destruct Hu as [Hu _]. now contradiction Hu.
Qed.
Lemma try_type_none E cfg s trs trsf fs ty d d' : try_type E cfg s trs trsf fs ty = Ok d -> ~ usable d ->
  ~ sub_parser E cfg s trs trsf fs ty d'.
Proof.
  unfold try_type, sub_parser. intros H Hu [Hu' HH].
  change TTimestamp with 0 in H. change TNegTimestamp with 1 in H. change TRelative with 2 in H. change TCustom with 3 in H.
  change TAbsolute with 4 in H. change TNoSpaces with 5 in H.
  destruct HH as [[-> ->]|[[-> ->]|[[-> HH]|[[-> HH]|[[-> HH]|[-> HH]]]]]]; cbn [Z.eqb Pos.eqb] in H.
  - injection H as <-. contradiction.
  - injection H as <-. contradiction.
  - revert HH. eapply hit_none; [|exact H|exact Hu]. intros; congruence.
  - revert HH. eapply hit_none; [|exact H|exact Hu]. intros; congruence.
  - revert HH. eapply hit_none; [|exact H|exact Hu]. intros; now apply zoned_one_inv.
  - revert HH. eapply hit_none; [|exact H|exact Hu]. intros; now apply (zoned_one_inv E cfg (fun t _ => nospace_parse E cfg t)).
Qed.

(** a locale-based result comes from the first listed sub-parser that yields a date for the first locale that has one *)
Theorem C06_first_sub_parser_wins : forall E D det p cfg s formats p' d,
  parse E D det p cfg s formats = (p', Ok (d, None)) -> d_locale d <> [] ->
  let types := match p_types p with [] => [0; 1; 2; 3; 4; 5] | l => l end in
  exists ld lcfg before ty after translations translations_fmt d0,
    d = with_locale d0 (ld_name ld) /\
    types = before ++ ty :: after /\ 0 <= Z.max 0 ty <= 5 /\
    translate E lcfg ld (sanitize_date (e_uni E) s) false = Ok translations /\
    translate E lcfg ld (sanitize_date (e_uni E) s) true = Ok translations_fmt /\
    lcfg = with_order (to_internal (initiate (e_now E) cfg)) (order_for E cfg ld) /\
    sub_parser E lcfg (sanitize_date (e_uni E) s) translations translations_fmt formats ty d0 /\
    forall ty' d', In ty' before -> ~ sub_parser E lcfg (sanitize_date (e_uni E) s) translations translations_fmt formats ty' d'.
Proof.
  intros E D det p cfg s fs p' d H Hne types.
  pose proof (parse_outcome E D det p cfg s fs) as O. rewrite H in O. cbn [fst snd] in O.
  inversion O as [| |d0 ? ? Hd Hz| | |lds l1 l2 ld d0 Hty ? ? Hg Hl Ht Hz Hn]; subst; try congruence.
  - exfalso. apply Hne. apply fmt_locale.
  - unfold try_locale in Ht. cbv zeta in Ht.
    set (lcfg := with_order _ _) in Ht.
    destruct (translate E lcfg ld _ false) as [trs| |] eqn:T1; cbn [rbind] in Ht; try discriminate.
    destruct (translate E lcfg ld _ true) as [trsf| |] eqn:T2; cbn [rbind] in Ht; try discriminate.
    apply first_date_spec in Ht as [[Hz' _]|[_ (bef & ty & aft & Hty' & Hx & Hb)]]; [congruence|].
    exists ld, lcfg, bef, ty, aft, trs, trsf, d0. split; [reflexivity|]. split; [exact Hty'|].
    split.
    { split; [lia|]. apply Z.max_lub; [lia|].
      assert (Hin : In ty (eff_types p)) by (rewrite Hty'; apply in_app_iff; right; now left).
      rewrite bad_types_eff in Hty. destruct (Z.ltb_spec TNoSpaces ty) as [Hlt|Hle]; [|exact Hle].
      assert (existsb (fun t => TNoSpaces <? t) (eff_types p) = true); [|congruence].
      apply existsb_exists. exists ty. split; [exact Hin | now apply Z.ltb_lt]. }
    split; [exact T1|]. split; [exact T2|]. split; [reflexivity|].
    split; [apply try_type_sub; [exact Hx | now apply usable_iff]|].
    intros ty' d' Hi. destruct (Hb ty' Hi) as (z & Hz1 & Hz2). apply not_usable_iff in Hz2.
    now apply (try_type_none _ _ _ _ _ _ _ z).
Qed.
Print Assumptions C06_first_sub_parser_wins.

Theorem C06_unknown_type_fails : forall E D det p cfg s formats ty,
  In ty (p_types p) -> 5 < ty ->
  parse E D det p cfg s formats = (p, Ok (zero_date, Some EParserType)).
Proof.
  intros E D det p cfg s fs ty Hi Hlt. unfold parse. replace (existsb _ (p_types p)) with true; [reflexivity|].
  symmetry. apply existsb_exists. exists ty. split; [exact Hi | now apply Z.ltb_lt].
Qed.
Print Assumptions C06_unknown_type_fails.

(** an empty list is replaced by all six sub-parsers, in their documented order, for this and every later call; any other
    list never changes *)
Theorem C06_types_fixed_at_first_call : forall D det types ops E cfg s formats,
  let p := run D det (new_parser types) (OpParse E cfg s formats :: ops) in
  p_types p = match types with [] => [0; 1; 2; 3; 4; 5] | _ => types end.
Proof.
  intros D det types ops E cfg s fs p. subst p.
  change (run D det (new_parser types) (OpParse E cfg s fs :: ops)) with (run D det (fst (parse E D det (new_parser types) cfg s fs)) ops).
  set (want := match types with [] => _ | _ => _ end).
  assert (H0 : p_types (fst (parse E D det (new_parser types) cfg s fs)) = want).
  { assert (T : p_types (typed (new_parser types)) = want) by (rewrite typed_types; subst want; now destruct types).
    destruct (parse_outcome E D det (new_parser types) cfg s fs) as [Hx| | | | |]; auto.
    - cbn [p_types new_parser] in *. subst want. destruct types; [discriminate | reflexivity].
    - destruct (u_try_prev cfg); auto. }
  revert H0. generalize (fst (parse E D det (new_parser types) cfg s fs)). induction ops as [|o ops IH]; intros p Hp; [exact Hp|].
  change (run D det p (o :: ops)) with (run D det (exec D det p o) ops). apply IH.
  destruct (exec_types D det p o) as [-> | [He _]]; [exact Hp|].
  exfalso. rewrite Hp in He. subst want. destruct types; discriminate.
Qed.
Print Assumptions C06_types_fixed_at_first_call.

(** a configuration with only the timestamp parser does not understand absolute dates *)
Example C06_types_matter :
  shows (snd (parse env0 db0 None (new_parser [0]) uconfig0 (lit "1484823450") [])) 2017 1 19 10 57 30 0 PDay (lit "en") /\
  snd (parse env0 db0 None (new_parser [0]) uconfig0 (lit "12 August 2021") []) = Ok (zero_date, Some ENoParse).
Proof. split; [apply shows_by|]; vm_compute; reflexivity. Qed.

(** C10 *)
(** what a DateOrder function contributes for a locale: one of the six orders, in any letter case, or nothing *)
Definition order_choice (f : option (str -> str)) (name : str) : option str :=
  match f with
  | None => None
  | Some f => if mem (map upperA (f name)) six_orders then Some (map upperA (f name)) else None
  end.

Lemma runes_encode_fix l : exists l', runes (encode l) = l' /\ length l' = length l /\ (forall i, nth_error l i = Some 65533 -> nth_error l' i = Some 65533).
Proof.
  induction l as [|r l (l' & H1 & H2 & H3)]; [exists []; auto|].
  rewrite encode_cons.
  assert (K : exists r', runes (encode_rune r ++ encode l) = r' :: runes (encode l) /\ (r = 65533 -> r' = 65533)).
  { destruct ((r <? 0) || (1114111 <? r) || ((55296 <=? r) && (r <=? 57343))) eqn:Eb.
    - assert (encode_rune r = encode_rune 65533) as ->.
      { unfold encode_rune at 1. replace ((0 <=? r) && (r <? 128)) with false by lia.
        replace ((0 <=? r) && (r <? 2048)) with false by lia. rewrite Eb. reflexivity. }
      exists 65533. split; [|auto]. apply runes_encode_app. unfold scalar. lia.
    - exists r. split; [|auto]. apply runes_encode_app. unfold scalar. lia. }
  destruct K as (r' & K1 & K2). exists (r' :: l'). rewrite K1, H1. split; [reflexivity|]. split; [cbn; lia|].
  intros [|i]; cbn [nth_error]; [intros Hr; injection Hr as Hr; now rewrite K2|auto].
Qed.

Lemma validate_order_spec U o : uni_ascii U ->
  validate_order U o = if mem (map upperA o) six_orders then Some (map upperA o) else None.
Proof.
  intros HU. unfold validate_order, slen.
  destruct (Z.eqb_spec (Z.of_nat (length o)) 3) as [Hl|Hl]; cbn [negb].
  2: { destruct (mem (map upperA o) six_orders) eqn:Em; [|reflexivity]. exfalso. apply Hl.
       apply mem_In in Em. rewrite <- (map_length upperA o). unfold six_orders in Em. cbn [map] in Em.
       repeat destruct Em as [<-|Em]; try reflexivity. destruct Em. }
  destruct (is_ascii o) eqn:Ha.
  - unfold to_upper. rewrite Ha.
    assert (Ha' : is_ascii (map upperA o) = true).
    { unfold is_ascii in *. rewrite forallb_forall in *. intros c Hc. apply in_map_iff in Hc as (c' & <- & Hc).
      specialize (Ha c' Hc). unfold upperA, is_lowerA. destruct (_ && _) eqn:?; lia. }
    rewrite (runes_ascii _ Ha').
    destruct o as [|a [|b [|c [|d o]]]]; cbn [length] in Hl; try lia. clear Hl Ha Ha'. cbn [map].
    generalize (upperA a) (upperA b) (upperA c). clear. intros x y z.
    unfold mem, six_orders. cbn [map lit existsb forallb eqs].
    cbv [lit]. cbn.
    destruct (Z.eqb_spec x 68), (Z.eqb_spec x 77), (Z.eqb_spec x 89); try lia; subst;
    destruct (Z.eqb_spec y 68), (Z.eqb_spec y 77), (Z.eqb_spec y 89); try lia; subst;
    destruct (Z.eqb_spec z 68), (Z.eqb_spec z 77), (Z.eqb_spec z 89); try lia; subst;
    cbn [andb orb Z.eqb Pos.eqb]; try reflexivity.
  - assert (Hex : exists i c, nth_error o i = Some c /\ 128 <= c).
    { clear -Ha. induction o as [|c o IH]; [discriminate|]. unfold is_ascii in Ha. cbn [forallb] in Ha.
      destruct (Z.ltb_spec c 128); [|exists O, c; split; [reflexivity|lia]].
      destruct (IH Ha) as (i & c' & H1 & H2). exists (S i), c'. auto. }
    assert (Hm : mem (map upperA o) six_orders = false).
    { destruct (mem (map upperA o) six_orders) eqn:Em; [|reflexivity]. exfalso. apply mem_In in Em.
      destruct Hex as (i & c & Hi & Hc). apply (map_nth_error upperA) in Hi.
      assert (Hu : 128 <= upperA c) by (unfold upperA, is_lowerA; destruct (_ && _) eqn:?; lia).
      apply nth_error_In in Hi. unfold six_orders in Em. cbn [map] in Em.
      assert (forall l x, In x l -> forallb (fun y => y <? 128) l = true -> x < 128) as K.
      { intros l x Hx HL. rewrite forallb_forall in HL. specialize (HL x Hx). lia. }
      apply K in Hi; [lia|].
      repeat destruct Em as [<-|Em]; try contradiction; reflexivity. }
    rewrite Hm. cbv zeta. unfold to_upper. rewrite Ha.
    destruct (runes_encode_fix (map (u_upper U) (runes o))) as (l' & -> & H2 & H3). rewrite map_length in H2.
    destruct (_ && _) eqn:Eb; [|reflexivity]. exfalso.
    rewrite !andb_true_iff, !existsb_exists, forallb_forall in Eb.
    destruct Eb as [[[Hf (a & Ia & Ea)] (b & Ib & Eb)] (c & Ic & Ec)]. apply Z.eqb_eq in Ea, Eb, Ec. subst a b c.
    assert (H3' : (3 <= length l')%nat).
    { assert (N : NoDup [68; 77; 89]) by (repeat constructor; cbn; lia).
      apply (NoDup_incl_length N). intros x [<-|[<-|[<-|[]]]]; assumption. }
    pose proof (rune_count_le o) as Hle. assert (Hlo : length o = 3%nat) by lia.
    assert (Heq : length (runes o) = length o) by lia. apply rune_count_eq in Heq.
    destruct Hex as (i & c & Hi & Hc).
    assert (Hr : nth_error (runes o) i = Some 65533).
    { clear -Heq Hi Hc. revert i Hi. induction Heq as [|x y lx ly Hxy Hf IH]; intros [|i] Hi; cbn [nth_error] in *; try discriminate; auto.
      injection Hi as ->. destruct Hxy as [[? ?]| ->]; [lia|reflexivity]. }
    assert (Hr' : nth_error l' i = Some 65533).
    { apply H3. apply (map_nth_error (u_upper U)) in Hr. now rewrite (ua_upper_fffd U HU) in Hr. }
    apply nth_error_In in Hr'. specialize (Hf _ Hr'). discriminate.
Qed.

(** the order used for a locale is the function's, upper-cased, exactly if it is a permutation of D, M, Y; else the locale's *)
Theorem C10_date_order_validated : forall E cfg ld, uni_ascii (e_uni E) ->
  order_for E cfg ld = match order_choice (u_order cfg) (ld_name ld) with Some o => o | None => ld_order ld end.
Proof.
  intros E cfg ld HU. unfold order_for, order_choice. destruct (u_order cfg) as [f|]; [|reflexivity].
  rewrite validate_order_spec by exact HU. now destruct (mem _ _).
Qed.
Print Assumptions C10_date_order_validated.

Lemma try_locales_order E c1 c2 icfg types s fs lds : (forall ld, order_for E c1 ld = order_for E c2 ld) ->
  try_locales E c1 icfg types s fs lds = try_locales E c2 icfg types s fs lds.
Proof.
  intros H. induction lds as [|ld lds IH]; cbn [try_locales]; [reflexivity|].
  unfold try_locale. now rewrite H, IH.
Qed.

(** and Parse (result, error, and the parser's later behaviour) depends on the function only through those choices: an invalid
    order is as if no function had been given *)
Theorem C10_invalid_order_is_ignored : forall E D det p cfg f g s formats, uni_ascii (e_uni E) ->
  (forall name, order_choice f name = order_choice g name) ->
  parse E D det p (set_order cfg f) s formats = parse E D det p (set_order cfg g) s formats.
Proof.
  intros E D det p cfg f g s fs HU H. unfold parse.
  destruct (existsb _ _); [reflexivity|]. fold (typed p).
  change (validate (e_uni E) (initiate (e_now E) (set_order cfg g))) with (validate (e_uni E) (initiate (e_now E) (set_order cfg f))).
  destruct (validate _ _); [cbn [negb]|reflexivity].
  change (to_internal (initiate (e_now E) (set_order cfg g))) with (to_internal (initiate (e_now E) (set_order cfg f))).
  destruct (date_is_zero _); cbn [negb]; [|reflexivity].
  change (get_applicable E D det (p_used (typed p)) (initiate (e_now E) (set_order cfg g)))
    with (get_applicable E D det (p_used (typed p)) (initiate (e_now E) (set_order cfg f))).
  destruct (get_applicable _ _ _ _ _ _ _); try reflexivity.
  rewrite (try_locales_order E (initiate (e_now E) (set_order cfg f)) (initiate (e_now E) (set_order cfg g))); [reflexivity|].
  intros ld. rewrite !C10_date_order_validated by exact HU. cbn [u_order initiate uclone set_order]. now rewrite H.
Qed.
Print Assumptions C10_invalid_order_is_ignored.

Example C10_lower_case_is_accepted : order_choice (Some (fun _ => lit "dMy")) (lit "en") = Some (lit "DMY").
Proof. reflexivity. Qed.
Example C10_duplicates_are_rejected : order_choice (Some (fun _ => lit "DDM")) (lit "en") = None.
Proof. reflexivity. Qed.
Example C10_tables : uni_ascii (e_uni env0). Proof. exact uni0_ascii. Qed.

(** C40 *)
(** the configuration Parse works with: the caller's, with the clock for an unset CurrentTime and ["t"] for empty SkipTokens *)
Definition with_defaults (now : time) (c : uconfig) : uconfig :=
  {| u_locales := u_locales c; u_languages := u_languages c; u_region := u_region c; u_try_prev := u_try_prev c;
     u_given_order := u_given_order c; u_deflang := u_deflang c; u_order := u_order c;
     u_now := if (t_sec (u_now c) =? -62135596800) && (t_nsec (u_now c) =? 0)
              then {| t_sec := t_sec now; t_nsec := t_nsec now; t_loc := utc |} else u_now c;
     u_tz := u_tz c; u_pday := u_pday c; u_pmonth := u_pmonth c; u_src := u_src c; u_strict := u_strict c;
     u_required := u_required c; u_skip := match u_skip c with [] => [lit "t"] | l => l end;
     u_timeperiod := u_timeperiod c; u_preserve := u_preserve c |}.
Theorem C40_effective_configuration : forall now cfg, initiate now cfg = with_defaults now cfg.
Proof. intros now cfg. unfold initiate, with_defaults, uclone, is_zero. cbn. now destruct (u_skip cfg). Qed.
Print Assumptions C40_effective_configuration.

(** writing the defaults into the configuration changes nothing *)
Theorem C40_defaults_are_explicit : forall E D det p cfg s formats,
  is_zero (e_now E) = false ->
  parse E D det p (with_defaults (e_now E) cfg) s formats = parse E D det p cfg s formats.
Proof.
  intros E D det p cfg s fs Hz. rewrite <- C40_effective_configuration.
  assert (I : initiate (e_now E) (initiate (e_now E) cfg) = initiate (e_now E) cfg).
  { unfold initiate, uclone. cbn. f_equal.
    - destruct (is_zero (u_now cfg)) eqn:Ez; [|now rewrite Ez].
      change (is_zero (in_loc (e_now E) utc)) with (is_zero (e_now E)). now rewrite Hz.
    - now destruct (u_skip cfg). }
  unfold parse. now rewrite I.
Qed.
Print Assumptions C40_defaults_are_explicit.
