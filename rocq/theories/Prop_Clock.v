(** C29: a set CurrentTime makes the result independent of the wall clock *)
From Verif Require Import GoBase SMap Regex GoTime GoTimeFacts GoTimeParse GoFloat Civil DateutilFacts Setting Strutil Dateutil Timezone Env Common Timestamp Formatted Relative Absolute NoSpace
  Calendars JalaliData Language Parser Search Tokenizer Spec Shows ParserFacts Concrete LocaleData.
From Coq Require Import ZifyBool.

(** the year shown by a local clock at [now] *)
Definition clock_year_of (E : env) (now : time) : Z := year (in_loc now (e_local E)).

Local Opaque time_parse time_parse_in match_string find find_string find_all replace_all_string rsplit pop_tz parse_float tokenize sanitize_spaces.
Section C.
Variable E : env.
Variable now' : time.
Notation E' := (at_clock E now').

Lemma fmt_clock cfg s formats : is_zero (c_now cfg) = false -> formatted_parse E' cfg s formats = formatted_parse E cfg s formats.
Proof.
  intros Hz. unfold formatted_parse. change (fmt_loc E' cfg s) with (fmt_loc E cfg s).
  induction formats as [|f fs IH]; cbn [fmt_loop]; [reflexivity|].
  destruct (time_parse_in f s (fmt_loc E cfg s)) as [t|]; [|exact IH].
  unfold fmt_fill, apply_day, apply_month, pref_day, pref_month. rewrite Hz. reflexivity.
Qed.
Lemma raw_clock s : raw_durations E' s = raw_durations E s.
Proof. reflexivity. Qed.
Lemma durations_clock s : get_durations E' s = get_durations E s.
Proof. unfold get_durations. now rewrite raw_clock. Qed.
Lemma parse_time_clock s : parse_time E' s = parse_time E s.
Proof.
  unfold parse_time. change (e_uni E') with (e_uni E). generalize (to_upper (e_uni E) (trim_space s)). intros x.
  generalize time_formats. intros fs. induction fs as [|[pat per] fs IH]; cbn [parse_time_loop]; [reflexivity|].
  change (e_local E') with (e_local E). now rewrite IH.
Qed.
Lemma rel_clock cfg s : is_zero (c_now cfg) = false -> relative_parse E' cfg s = relative_parse E cfg s.
Proof.
  intros Hz. unfold relative_parse. change (etz_pop E' (strip_braces s)) with (etz_pop E (strip_braces s)).
  destruct (etz_pop E (strip_braces s)) as [s' tz]. unfold rel_parse_time. rewrite parse_time_clock.
  change (e_uni E') with (e_uni E). unfold rel_parse_date. rewrite durations_clock.
  change (all_words_units E' s') with (all_words_units E s'). unfold rel_now. rewrite Hz. reflexivity.
Qed.

Lemma init_loop_clock H ord toks fts rest : forall i a, init_loop E' H ord toks fts i rest a = init_loop E H ord toks fts i rest a.
Proof.
  induction rest as [|ft rest IH]; intros i a; cbn [init_loop]; [reflexivity|].
  change (init_step E' H ord toks fts i ft a) with (init_step E H ord toks fts i ft a).
  destruct (init_step E H ord toks fts i ft a); [apply IH|reflexivity].
Qed.
Lemma abs_init_clock H cfg s : abs_init E' H cfg s = abs_init E H cfg s.
Proof.
  unfold abs_init. destruct (sanitize_spaces s); [reflexivity|]. rewrite init_loop_clock. reflexivity.
Qed.
Lemma abs_clock H cfg s tz : is_zero (c_now cfg) = false -> abs_run E' H cfg s tz = abs_run E H cfg s tz.
Proof.
  intros Hz. unfold abs_run. rewrite abs_init_clock. destruct (abs_init E H cfg s) as [a|]; [|reflexivity].
  unfold abs_finish, abs_now. rewrite Hz. destruct (check_strict _ _); cbn [negb]; [|reflexivity].
  destruct (a_time a) as [tk|]; [rewrite parse_time_clock|]; cbn [rbind].
  - destruct (parse_time E (tk_text tk)) as [[tm per]|]; reflexivity.
  - reflexivity.
Qed.
Lemma absolute_clock cfg s tz : is_zero (c_now cfg) = false -> absolute_parse E' cfg s tz = absolute_parse E cfg s tz.
Proof. intros Hz. unfold absolute_parse. change (greg_hooks E') with (greg_hooks E). now apply abs_clock. Qed.

(** no-space dates: the clock only guesses the century of two digits, to know whether February has 29 days *)
Definition same_guess : Prop := forall yy, 0 <= yy <= 99 -> leap (guess_year E' yy) = leap (guess_year E yy).

Lemma cut_valid : forall ps s limits l, cut s ps limits = Some l -> forall p x v, In (p, x, v) l -> value_valid p v = true.
Proof.
  induction ps as [|p ps IH]; intros s limits l; cbn [cut].
  - intros [= <-] q x v [].
  - destruct limits as [|n limits]; [intros [= <-] q x v []|].  cbv zeta.
    match goal with |- context [match ?a with Some _ => _ | None => None end] => destruct a as [v0|]; [|discriminate] end. destruct (value_valid p v0) eqn:V; cbn [negb]; [|discriminate].
    destruct (cut (skipn (Z.to_nat n) s) ps limits) as [l'|] eqn:C; cbn [option_map]; [|discriminate].
    intros [= <-] q x v [Hx|Hi]; [injection Hx as -> _ ->; exact V | eapply IH; eauto].
Qed.
Lemma part_value_In l p v : part_value l p = Some v -> exists x, In (p, x, v) l.
Proof.
  unfold part_value. destruct (List.find _ l) as [[[q x] w]|] eqn:F; [|discriminate]. intros [= <-].
  apply find_some in F as [Hi Hq]. cbn [fst] in Hq. destruct p, q; try discriminate Hq; eauto.
Qed.
Lemma days_in_leap y y' m : leap y = leap y' -> days_in y m = days_in y' m.
Proof. intros H. unfold days_in. now rewrite H. Qed.
Lemma cand_valid_clock l : same_guess -> (forall p x v, In (p, x, v) l -> value_valid p v = true) ->
  candidate_valid E' l = candidate_valid E l.
Proof.
  intros HG HV. unfold candidate_valid, candidate_year. destruct (part_value l FY); [reflexivity|].
  destruct (part_value l Fy) as [yy|] eqn:Ey; cbn [option_map]; [|reflexivity].
  destruct (part_value l Fm) as [m|] eqn:Em; [|reflexivity]. destruct (part_value l Fd); [|reflexivity].
  apply part_value_In in Ey as (x1 & Ey), Em as (x2 & Em). apply HV in Ey, Em. cbn [value_valid] in Ey, Em.
  rewrite !last_day by lia. rewrite (days_in_leap (guess_year E' yy) (guess_year E yy)); [reflexivity|]. apply HG. lia.
Qed.
Lemma candidates_clock s ps : same_guess -> candidates E' s ps = candidates E s ps.
Proof.
  intros HG. unfold candidates. induction (limit_permutations ps) as [|lm r IH]; cbn [flat_map]; [reflexivity|]. rewrite IH. f_equal.
  destruct (zsum lm =? slen s); [|reflexivity]. destruct (cut s ps lm) as [l|] eqn:C; [|reflexivity].
  rewrite cand_valid_clock; [reflexivity | exact HG | exact (cut_valid _ _ _ _ C)].
Qed.
Lemma ns_cands_clock cfg f lay cs : forall amb, ns_cands E' cfg f lay cs amb = ns_cands E cfg f lay cs amb.
Proof.
  induction cs as [|c cs IH]; intros amb; cbn [ns_cands]; [reflexivity|]. change (e_local E') with (e_local E).
  destruct (time_parse (e_local E) lay (candidate_text c)) as [t|]; [|apply IH].
  destruct (is_zero t); [apply IH|]. destruct (year t <? 1000); [apply IH|]. destruct (check_strict _ _); cbn [negb]; [reflexivity|apply IH].
Qed.
Lemma ns_formats_clock cfg x fs : same_guess -> forall amb, ns_formats E' cfg x fs amb = ns_formats E cfg x fs amb.
Proof.
  intros HG. induction fs as [|f fs IH]; intros amb; cbn [ns_formats]; [reflexivity|]. rewrite candidates_clock by exact HG.
  rewrite ns_cands_clock. destruct (ns_cands E cfg f _ _ amb); [reflexivity|apply IH].
Qed.
Lemma ns_tokens_clock cfg fs toks : same_guess -> forall amb, ns_tokens E' cfg fs toks amb = ns_tokens E cfg fs toks amb.
Proof.
  intros HG. induction toks as [|t toks IH]; intros amb; cbn [ns_tokens]; [reflexivity|].
  destruct (ttype_eqb (tk_type t) TDigit); [|apply IH]. rewrite ns_formats_clock by exact HG.
  destruct (ns_formats E cfg (tk_text t) fs amb); [reflexivity|apply IH].
Qed.
Lemma find_best_clock fs s : find_best E' fs s = find_best E fs s.
Proof.
  induction fs as [|f fs IH]; cbn [find_best]; [reflexivity|]. change (e_local E') with (e_local E). rewrite IH. reflexivity.
Qed.
Lemma nospace_clock cfg s : same_guess -> nospace_parse E' cfg s = nospace_parse E cfg s.
Proof.
  intros HG. unfold nospace_parse. change (is_eligible E' s) with (is_eligible E s). destruct (is_eligible E s); cbn [negb]; [|reflexivity].
  destruct (empty (replace_all _ _ _)); [reflexivity|]. change (e_uni E') with (e_uni E). rewrite find_best_clock.
  destruct (if _ && _ then _ else _) as [d|]; [reflexivity|]. destruct (datetime_formats _) as [fs|]; [|reflexivity].
  rewrite ns_tokens_clock by exact HG. reflexivity.
Qed.
End C.

Section D.
Variable E : env.
Variable D : langdb.
Variable det : option (str -> list str).
Variable now' : time.
Notation E' := (at_clock E now').

Lemma first_date_ext {A} (f g : A -> res date) l : (forall x, In x l -> f x = g x) -> first_date f l = first_date g l.
Proof.
  induction l as [|x l IH]; intros H; cbn [first_date]; [reflexivity|]. rewrite H by now left.
  destruct (g x) as [d| |]; cbn [rbind]; [|reflexivity|reflexivity]. destruct (date_is_zero d); [|reflexivity]. apply IH. intros y Hy. apply H. now right.
Qed.
Lemma try_type_clock cfg s trs trsf formats ty :
  is_zero (c_now cfg) = false -> (ty = 5 -> same_guess E now') ->
  try_type E' cfg s trs trsf formats ty = try_type E cfg s trs trsf formats ty.
Proof.
  intros Hz HG. unfold try_type. change (timestamp_parse E' cfg s) with (timestamp_parse E cfg s).
  destruct (ty =? TTimestamp); [reflexivity|]. destruct (ty =? TNegTimestamp); [reflexivity|].
  destruct (ty =? TRelative). { unfold try_relative. apply first_date_ext. intros x _. now rewrite rel_clock. }
  destruct (ty =? TCustom). { unfold try_custom. apply first_date_ext. intros x _. now rewrite fmt_clock. }
  destruct (ty =? TAbsolute).
  { unfold try_absolute. apply first_date_ext. intros x _. unfold abs_one. change (strip_tz E' x) with (strip_tz E x).
    destruct (strip_tz E x) as [[|c t] tz]; [reflexivity|]. now rewrite absolute_clock. }
  destruct (Z.eqb_spec ty TNoSpaces) as [->|]; [|reflexivity].
  unfold try_nospace. apply first_date_ext. intros x _. unfold nospace_one. change (strip_tz E' x) with (strip_tz E x).
  destruct (strip_tz E x) as [[|c t] tz]; [reflexivity|]. rewrite nospace_clock by (apply HG; reflexivity). reflexivity.
Qed.
Lemma try_locales_clock cfg icfg types s formats lds :
  is_zero (c_now icfg) = false -> (In 5 types -> same_guess E now') ->
  try_locales E' cfg icfg types s formats lds = try_locales E cfg icfg types s formats lds.
Proof.
  intros Hz HG. induction lds as [|ld lds IH]; cbn [try_locales]; [reflexivity|]. rewrite IH.
  assert (T : try_locale E' cfg icfg types s formats ld = try_locale E cfg icfg types s formats ld); [|now rewrite T].
  unfold try_locale. change (translate E' ?c ld s ?k) with (translate E c ld s k). change (order_for E' cfg ld) with (order_for E cfg ld).
  destruct (translate E _ ld s false) as [trs| |]; cbn [rbind]; [|reflexivity|reflexivity].
  destruct (translate E _ ld s true) as [trsf| |]; cbn [rbind]; [|reflexivity|reflexivity].
  apply first_date_ext. intros ty Ht. apply try_type_clock; [exact Hz|]. intros ->. auto.
Qed.
Lemma parse_clock p cfg s formats :
  is_zero (u_now cfg) = false -> (In 5 (eff_types p) -> same_guess E now') ->
  parse E' D det p cfg s formats = parse E D det p cfg s formats.
Proof.
  intros Hz HG. unfold parse. destruct (existsb _ (p_types p)); [reflexivity|].
  assert (I : initiate (e_now E') cfg = initiate (e_now E) cfg) by (unfold initiate, uclone; cbn [u_now]; now rewrite Hz).
  rewrite I. change (e_uni E') with (e_uni E).
  set (c := initiate (e_now E) cfg).
  assert (Hc : is_zero (c_now (to_internal c)) = false) by (subst c; unfold initiate, uclone, to_internal; cbn [c_now u_now]; now rewrite Hz).
  destruct (validate (e_uni E) c); cbn [negb]; [|reflexivity].
  rewrite fmt_clock by exact Hc. destruct (date_is_zero (formatted_parse E (to_internal c) s formats)); cbn [negb]; [|reflexivity].
  change (get_applicable E' D det) with (get_applicable E D det).
  destruct (get_applicable E D det _ c (to_internal c) _) as [lds| |]; [|reflexivity|reflexivity].
  rewrite try_locales_clock; [reflexivity|exact Hc|]. intros Hi. apply HG. unfold eff_types. destruct (p_types p) eqn:T; [exact Hi | now rewrite T in Hi].
Qed.
Lemma parse_date_clock p cfg x : is_zero (u_now cfg) = false -> same_guess E now' ->
  parse_date E' D det p cfg x = parse_date E D det p cfg x.
Proof. intros Hz HG. unfold parse_date. now rewrite parse_clock. Qed.
Lemma parse_entry_clock p icfg e t acc : is_zero (c_now icfg) = false -> same_guess E now' ->
  parse_entry E' D det p icfg e t acc false = parse_entry E D det p icfg e t acc false.
Proof. intros Hz HG. unfold parse_entry. change (is_zero zero_time) with true. cbv iota. rewrite parse_date_clock by assumption. reflexivity. Qed.
Lemma parse_entry_icfg p icfg e t acc p' icfg' ps :
  parse_entry E D det p icfg e t acc false = Ok (p', icfg', ps) -> icfg' = icfg.
Proof.
  unfold parse_entry. destruct (parse_date E D det p _ _) as [[q d]| |]; cbn [rbind]; try discriminate.
  change (is_zero zero_time) with true. cbv iota. now intros [= <- <- <-].
Qed.
Lemma parse_split_clock icfg parts : is_zero (c_now icfg) = false -> same_guess E now' -> forall p acc,
  parse_split E' D det p icfg false parts acc = parse_split E D det p icfg false parts acc /\
  forall p' icfg' c, parse_split E D det p icfg false parts acc = Ok (p', icfg', c) -> icfg' = icfg.
Proof.
  intros Hz HG. induction parts as [|[e o] r IH]; intros p acc; cbn [parse_split].
  - split; [reflexivity|]. now intros p' i' c [= <- <- <-].
  - destruct (Nat.leb (rune_count e) 2); [apply IH|]. rewrite parse_entry_clock by assumption.
    destruct (parse_entry E D det p icfg e e (map fst acc) false) as [[[q i] ps]| |] eqn:P; cbn [rbind];
      [|split; [reflexivity|discriminate]|split; [reflexivity|discriminate]].
    apply parse_entry_icfg in P. subst i. apply IH.
Qed.
Lemma parse_splits_clock icfg sps : is_zero (c_now icfg) = false -> same_guess E now' -> forall p,
  parse_splits E' D det p icfg false sps = parse_splits E D det p icfg false sps /\
  forall p' icfg' c, parse_splits E D det p icfg false sps = Ok (p', icfg', c) -> icfg' = icfg.
Proof.
  intros Hz HG. induction sps as [|sp r IH]; intros p; cbn [parse_splits].
  - split; [reflexivity|]. now intros p' i' c [= <- <- <-].
  - destruct (parse_split_clock icfg (combine (sp_entry sp) (sp_orig sp)) Hz HG p []) as [-> HI].
    destruct (parse_split E D det p icfg false _ []) as [[[q i] c]| |]; cbn [rbind];
      [|split; [reflexivity|discriminate]|split; [reflexivity|discriminate]].
    rewrite (HI _ _ _ eq_refl). destruct (IH q) as [-> HI2].
    destruct (parse_splits E D det q icfg false r) as [[[q2 i2] cs]| |]; cbn [rbind];
      [|split; [reflexivity|discriminate]|split; [reflexivity|discriminate]].
    split; [reflexivity|]. intros p' i' c' [= <- <- <-]. eapply HI2. reflexivity.
Qed.
Lemma parse_found_clock icfg l : is_zero (c_now icfg) = false -> same_guess E now' -> forall p acc,
  parse_found E' D det p icfg false l acc = parse_found E D det p icfg false l acc.
Proof.
  intros Hz HG. induction l as [|[[e t] o] r IH]; intros p acc; cbn [parse_found]; [reflexivity|].
  destruct (Nat.leb (rune_count e) 2); [apply IH|]. rewrite parse_entry_clock by assumption.
  destruct (parse_entry E D det p icfg e t (map fst acc) false) as [[[q i] ps]| |] eqn:P; cbn [rbind]; [|reflexivity|reflexivity].
  apply parse_entry_icfg in P. subst i. destruct (date_is_zero (fst ps)); cbn [negb]; [|apply IH].
  destruct (split_if_not_parsed e o) as [|sp sps]; [apply IH|].
  destruct (parse_splits_clock icfg (sp :: sps) Hz HG q) as [-> HI].
  destruct (parse_splits E D det q icfg false (sp :: sps)) as [[[q2 i2] cs]| |]; cbn [rbind]; [|reflexivity|reflexivity].
  rewrite (HI _ _ _ eq_refl). rewrite IH. reflexivity.
Qed.
Lemma search_with_language_clock p cfg lang text : is_zero (u_now cfg) = false -> same_guess E now' ->
  search_with_language E' D det p cfg lang text = search_with_language E D det p cfg lang text.
Proof.
  intros Hz HG. unfold search_with_language, init_search_config. rewrite Hz.
  assert (I : initiate (e_now E') cfg = initiate (e_now E) cfg) by (unfold initiate, uclone; cbn [u_now]; now rewrite Hz).
  rewrite I. change (e_uni E') with (e_uni E). set (c := initiate (e_now E) cfg).
  assert (Hc : is_zero (c_now (to_internal c)) = false) by (subst c; unfold initiate, uclone, to_internal; cbn [c_now u_now]; now rewrite Hz).
  destruct (validate (e_uni E) c); cbn [negb]; [|reflexivity]. destruct (db_get D lang) as [ld|]; [|reflexivity].
  change (translate_search E') with (translate_search E). destruct (translate_search E _ ld text) as [[tr orig]| |]; cbn [rbind]; [|reflexivity|reflexivity].
  rewrite Hc. rewrite parse_found_clock by assumption. reflexivity.
Qed.
Lemma search_clock p cfg text : is_zero (u_now cfg) = false -> same_guess E now' ->
  search E' D det p cfg text = search E D det p cfg text.
Proof.
  intros Hz HG. unfold search, init_search_config. rewrite Hz.
  assert (I : initiate (e_now E') cfg = initiate (e_now E) cfg) by (unfold initiate, uclone; cbn [u_now]; now rewrite Hz).
  rewrite I. change (e_uni E') with (e_uni E). set (c := initiate (e_now E) cfg).
  assert (Hc : is_zero (u_now c) = false) by (subst c; unfold initiate, uclone; cbn [u_now]; now rewrite Hz).
  destruct (validate (e_uni E) c); cbn [negb]; [|reflexivity].
  change (get_languages E' D) with (get_languages E D). destruct (get_languages E D _ _ _) as [langs| |]; [|reflexivity|reflexivity].
  change (detect_language E' D) with (detect_language E D). destruct (detect_language E D _ _ _ _) as [lang| |]; [|reflexivity|reflexivity].
  rewrite search_with_language_clock by assumption. reflexivity.
Qed.
Lemma repl_days_clock s : replace_days E' s = replace_days E s.
Proof. unfold replace_days. generalize (flat_map (fun '(n, ps) => map (fun p => (lit p, itoa n)) ps) day_numbers). intros l. reflexivity. Qed.
Lemma repl_match_clock r s : repl_match E' r s = repl_match E r s.
Proof. reflexivity. Qed.
Lemma repl_time_clock s : replace_time E' s = replace_time E s.
Proof. unfold replace_time. rewrite !repl_match_clock. change (e_uni E') with (e_uni E). reflexivity. Qed.
Lemma jl_prepare_clock s : jl_prepare E' s = jl_prepare E s.
Proof. unfold jl_prepare. rewrite repl_days_clock, repl_time_clock. change (e_uni E') with (e_uni E). reflexivity. Qed.
Lemma calendar_clock K (hj : bool) cfg s : is_zero (u_now cfg) = false ->
  (if hj then parse_hijri E' K cfg s else parse_jalali E' K cfg s) = (if hj then parse_hijri E K cfg s else parse_jalali E K cfg s).
Proof.
  intros Hz.
  assert (I : initiate (e_now E') cfg = initiate (e_now E) cfg) by (unfold initiate, uclone; cbn [u_now]; now rewrite Hz).
  assert (Hc : forall o, is_zero (c_now (with_order (to_internal (initiate (e_now E) cfg)) o)) = false)
    by (intros o; unfold initiate, uclone, to_internal, with_order; cbn [c_now u_now]; now rewrite Hz).
  destruct hj; [unfold parse_hijri | unfold parse_jalali]; unfold parse_calendar; rewrite I; change (e_uni E') with (e_uni E);
  change (calendar_order E' cfg) with (calendar_order E cfg); (destruct (validate (e_uni E) _); cbn [negb]; [|reflexivity]).
  - unfold hijri_parse. change (hj_prepare E' s) with (hj_prepare E s). destruct (hj_prepare E s) as [s' tz].
    change (hj_hooks E' K) with (hj_hooks E K). rewrite abs_clock by apply Hc. reflexivity.
  - unfold jalali_parse. rewrite jl_prepare_clock. destruct (jl_prepare E s) as [s' tz].
    change (jl_hooks E' K) with (jl_hooks E K). rewrite abs_clock by apply Hc. reflexivity.
Qed.
End D.

Lemma guess_2000s E now' :
  2001 <= clock_year_of E (e_now E) <= 2999 -> 2001 <= clock_year_of E now' <= 2999 -> same_guess E now'.
Proof.
  unfold clock_year_of. intros H1 H2 yy Hy. unfold guess_year, clock_year. cbn [at_clock e_now e_local].
  set (a := year (in_loc now' (e_local E))) in *. set (b := year (in_loc (e_now E) (e_local E))) in *. clearbody a b.
  rewrite !Z.quot_div_nonneg by lia.
  replace (a / 1000) with 2 by (Z.div_mod_to_equations; lia). replace (b / 1000) with 2 by (Z.div_mod_to_equations; lia).
  destruct (Z.eq_dec yy 0) as [->|Hn].
  - assert (X : 0 <? a - 2 * 1000 = true) by lia. assert (Y : 0 <? b - 2 * 1000 = true) by lia. now rewrite X, Y.
  - assert (L : leap (yy + 2 * 1000) = leap (yy + (2 * 1000 - 100))).
    { unfold leap. apply eq_true_iff_eq. Z.div_mod_to_equations. lia. }
    destruct (yy <? a - 2 * 1000), (yy <? b - 2 * 1000); auto.
Qed.

(** With CurrentTime set, every entry point returns the same (and leaves the Parser in the same state) at every reading of the clock
    in the years 2001..2999. *)
Theorem C29_clock_independent : forall E D det p cfg s formats lang K now',
  is_zero (u_now cfg) = false ->
  2001 <= clock_year_of E (e_now E) <= 2999 -> 2001 <= clock_year_of E now' <= 2999 ->
  parse (at_clock E now') D det p cfg s formats = parse E D det p cfg s formats /\
  search (at_clock E now') D det p cfg s = search E D det p cfg s /\
  search_with_language (at_clock E now') D det p cfg lang s = search_with_language E D det p cfg lang s /\
  parse_hijri (at_clock E now') K cfg s = parse_hijri E K cfg s /\
  parse_jalali (at_clock E now') K cfg s = parse_jalali E K cfg s.
Proof.
  intros E D det p cfg s formats lang K now' Hz H1 H2. pose proof (guess_2000s E now' H1 H2) as HG.
  split; [now apply parse_clock|]. split; [now apply search_clock|]. split; [now apply search_with_language_clock|].
  split; [exact (calendar_clock E now' K true cfg s Hz) | exact (calendar_clock E now' K false cfg s Hz)].
Qed.
Print Assumptions C29_clock_independent.

(** Without the no-space parser: at every reading of the clock whatsoever. *)
Theorem C29_clock_independent_without_nospace : forall E D det p cfg s formats now',
  is_zero (u_now cfg) = false -> p_types p <> [] -> ~ In TNoSpaces (p_types p) ->
  parse (at_clock E now') D det p cfg s formats = parse E D det p cfg s formats.
Proof.
  intros E D det p cfg s formats now' Hz Hne Hn. apply parse_clock; [exact Hz|]. intros Hi. exfalso. apply Hn.
  unfold eff_types in Hi. destruct (p_types p); [congruence|exact Hi].
Qed.
Print Assumptions C29_clock_independent_without_nospace.

(** The hypotheses are met; the range is needed: in the year 2000 the two digits 00 were taken for 1900, which had no 29 February. *)
Definition cfg_c29 : uconfig := mkcfg [lit "en"] (lit "DMY") (utc_at 2020 6 1 0 0 0) 0 0 0.
Example C29_hypotheses :
  is_zero (u_now cfg_c29) = false /\ clock_year_of env0 (e_now env0) = 2026 /\ clock_year_of env0 (utc_at 2031 1 1 0 0 0) = 2031.
Proof. vm_compute. auto. Qed.
Example C29_in_2026 : shows (snd (parse env0 db0 None (new_parser [TNoSpaces]) cfg_c29 (lit "290200") [])) 2000 2 29 0 0 0 0 PDay (lit "en").
Proof. apply shows_by. vm_compute. reflexivity. Qed.
Example C29_in_2000_differs :
  shows (snd (parse (at_clock env0 (utc_at 2000 6 1 0 0 0)) db0 None (new_parser [TNoSpaces]) cfg_c29 (lit "290200") [])) 2002 9 2 0 0 0 0 PDay (lit "en").
Proof. apply shows_by. vm_compute. reflexivity. Qed.
