(** Parse on texts of words and numbers: the text is translated word by word, and the translation goes to the absolute parser. *)
From Coq Require Import ZifyBool.
From Verif Require Import GoBase SMap Regex RegexFacts RegexFacts2 RegexFacts3 GoTime Setting Strutil Digit Utf8Facts SpaceFacts Tokenizer Timezone Env Common Timestamp Formatted Relative Absolute Language Parser ParserFacts LocaleFacts SelectFacts
  History AbsFacts2 NumericFacts NumTranslate NumParse NumLift ZoneWords Prop_Total Prop_RelWhole RegexWiden TextRename TextFront TextActs.

(** a translation that is no relative date and names no zone *)
Definition quiet (t : str) : bool :=
  ascb t && spaced t && dotless t && freeb t && forallb (fun c => negb (is_brace c)) t && negb (match_string uni_min rxRelativePattern t).
(** what a locale makes of a text: its tokens, its translation, the actions of the absolute parser; computed on one text of the shape *)
Definition shape (ld : locale) (s : str) : option (list str * str * list action) :=
  if tidy s then
    match analysis ld s false, analysis ld s true with
    | Some (toks, [t]), Some (toks2, _) =>
      if quiet t then if forallb (fun t => mem t always_kept) toks then None else if forallb (known_min ld) toks then Some (toks ++ toks2, t, actions emin t) else None else None
    | _, _ => None
    end
  else None.

Lemma relative_ok : respects dig0 (rx_ast rxRelativePattern) = true. Proof. vm_compute. reflexivity. Qed.
Section Q.
Variable f : Z -> Z.
Hypothesis RF : renames f.
Variable E : env.
Hypothesis UA : uni_ascii (e_uni E).
Hypothesis TZ : tz_order (e_tz E).
Variable t : str.
Hypothesis QT : quiet t = true.
Lemma quiet_facts : asc t /\ spaced t = true /\ dotless t = true /\ zone_free t /\ forallb (fun c => negb (is_brace c)) t = true /\ match_string uni_min rxRelativePattern t = false.
Proof. unfold quiet in QT. rewrite !andb_true_iff in QT. destruct QT as (((((H1 & H2) & H3) & H4) & H5) & H6). split; [now apply ascb_asc|]. split; [exact H2|]. split; [exact H3|]. split; [now apply freeb_ok|]. split; [exact H5|now apply negb_true_iff]. Qed.
Lemma ren_sh c : 0 <= c < 128 -> sh (f c) = sh c.
Proof. intros Hc. specialize (RF c Hc). unfold sh. destruct (is_digitA c) eqn:D; [now rewrite RF|]. now rewrite RF, D. Qed.
Lemma ren_shs s : asc s -> map sh (map f s) = map sh s.
Proof. induction 1 as [|c s Hc _ IH]; [reflexivity|]. cbn [map]. now rewrite IH, ren_sh. Qed.
Lemma ren_spaced s : asc s -> spaced (map f s) = spaced s.
Proof. intros HS. unfold spaced. rewrite <- (spaced_sh (map f s)) by now apply ren_asc. rewrite ren_shs by exact HS. now apply spaced_sh. Qed.
Lemma ren_runs s : asc s -> forall cur, runs_from cur (map f s) = runs_from cur s.
Proof.
  induction 1 as [|c s Hc _ IH]; intros cur; [reflexivity|]. cbn [map runs_from]. rewrite (ren_alpha f RF c Hc). destruct (is_alphaA c) eqn:A; [|now rewrite IH]. assert (f c = c) as ->; [|apply IH]. apply (ren_other f RF); [exact Hc|]. unfold is_alphaA, is_upperA, is_lowerA in A. unfold is_digitA. lia.
Qed.
Lemma ren_free : zone_free (map f t).
Proof.
  destruct quiet_facts as (A & _ & _ & (_ & F2 & F3) & _). split; [now apply ren_asc|]. split.
  - intros c HI. apply in_map_iff in HI as (x & <- & HX). unfold asc in A. rewrite Forall_forall in A. specialize (A x HX). specialize (F2 x HX). unfold sign in *. rewrite !(ren_eqb f RF x) by (exact A || reflexivity). exact F2.
  - intros x HI. unfold runs in HI. rewrite ren_runs in HI by exact A. now apply F3.
Qed.
Lemma ren_strip : strip_braces (map f t) = map f t.
Proof.
  destruct quiet_facts as (A & _ & _ & _ & B & _). apply strip_asc; [now apply ren_asc|]. intros c HI. apply in_map_iff in HI as (x & <- & HX). unfold asc in A. rewrite Forall_forall in A. specialize (A x HX). rewrite forallb_forall in B. specialize (B x HX). apply negb_true_iff in B.
  unfold is_brace in *. cbn [existsb] in *. rewrite !(ren_eqb f RF x) by (exact A || reflexivity). exact B.
Qed.
Lemma ren_strip_tz : strip_tz E (map f t) = (map f t, od_zero).
Proof. unfold strip_tz. rewrite ren_strip. unfold etz_pop. apply no_zone; [exact UA|exact TZ|exact ren_free]. Qed.
Lemma ren_no_relative cfg : date_is_zero (relative_parse E cfg (map f t)) = true.
Proof.
  destruct quiet_facts as (A & _ & _ & _ & _ & M). pose proof ren_strip_tz as ST. unfold strip_tz in ST. unfold relative_parse. rewrite ST. destruct (match rel_parse_time E (map f t) with Some p => p | None => _ end) as [u tper].
  assert (RP : rel_parse_date E cfg (map f t) (rel_now E cfg od_zero) = (zero_time, PNone)).
  { unfold rel_parse_date. destruct (negb _); [reflexivity|]. assert (RD : raw_durations E (map f t) = []).
    { unfold raw_durations. rewrite find_all_none; [reflexivity|]. rewrite <- (ren_match f RF E UA rxRelativePattern t relative_ok A) in M. unfold match_string in M. destruct (Regex.find (e_uni E) rxRelativePattern (map f t)); [discriminate M|reflexivity]. }
    unfold get_durations. rewrite RD. reflexivity. }
  rewrite RP. change (is_zero zero_time) with true. cbn [negb andb]. unfold date_is_zero. cbn [d_time d_period]. change (is_zero zero_time) with true. apply orb_true_r.
Qed.
Lemma ren_init H cfg a : run_acts E H (number_directives E (c_order cfg)) (map (ract f) (actions emin t)) ast0 = Some a -> exists k, abs_init E H cfg (map f t) = Some (skips k (fallback a)).
Proof.
  destruct quiet_facts as (A & S & DL & _). intros HR. apply init_acts; [now apply ren_asc|now rewrite ren_spaced|]. now rewrite (ren_actions f RF E UA t A DL).
Qed.
End Q.

Lemma with_order_skip cfg o : c_skip (with_order (clone cfg) o) = c_skip cfg. Proof. reflexivity. Qed.

(** A call of Parse whose first locale is [ld] and which tries absolute dates before dates without spaces; no formats *)
Record plain_call (E : env) (D : langdb) (det : option (str -> list str)) (p : pstate) (cfg : uconfig) (s : str) (ld : locale) : Prop := {
  pc_ascii : uni_ascii (e_uni E);
  pc_zones : tz_order (e_tz E);
  pc_tables : tables_sound D;
  pc_fresh : u_try_prev cfg = false \/ p_used p = [];
  pc_types : exists before after, eff_types p = before ++ 4 :: after /\ Forall (fun t => 0 <= t <= 3) before /\ Forall (fun t => t <= 5) after;
  pc_valid : validate (e_uni E) cfg = true;
  pc_first : exists rest, get_locales E D (u_locales cfg) (detected_languages det cfg (normalize_string (e_uni E) s)) (u_region cfg) (u_given_order cfg) false = Ok (ld :: rest) }.
(** the configuration given to the parsers of single kinds of dates *)
Definition inner (E : env) (cfg : uconfig) (ld : locale) : config := with_order (clone (to_internal (initiate (e_now E) cfg))) (order_for E (initiate (e_now E) cfg) ld).
(** tokens to skip, which are "t" if none are given *)
Definition skipping (cfg : uconfig) : list str := match u_skip cfg with [] => [lit "t"] | l => l end.

Section P.
Variables (E : env) (D : langdb) (det : option (str -> list str)) (p : pstate) (cfg : uconfig) (ld : locale).
Variable f : Z -> Z.
Hypothesis RF : renames f.
Variables s0 s t0 : str.
Variable toks : list str.
Variable l0 : list action.
Hypothesis PC : plain_call E D det p cfg s ld.
Hypothesis BL : blind ld = true.
Hypothesis SH : shape ld s0 = Some (toks, t0, l0).
Hypothesis HA : asc s.
Hypothesis HM : map lowerA s = map f s0.
Hypothesis SP : spares (skipping cfg) toks.
Let UA := pc_ascii _ _ _ _ _ _ _ PC.
Let TZ := pc_zones _ _ _ _ _ _ _ PC.
Notation cfg1 := (initiate (e_now E) cfg).
Notation lcfg := (inner E cfg ld).
Lemma shape_facts : tidy s0 = true /\ quiet t0 = true /\ l0 = actions emin t0 /\ exists toks1 toks2 trs, toks = toks1 ++ toks2 /\ analysis ld s0 false = Some (toks1, [t0]) /\ analysis ld s0 true = Some (toks2, trs) /\
  forallb (fun t => mem t always_kept) toks1 = false /\ forallb (known_min ld) toks1 = true.
Proof.
  revert SH. unfold shape. destruct (tidy s0); [|discriminate]. destruct (analysis ld s0 false) as [[a [|t [|u r]]]|]; try discriminate. destruct (analysis ld s0 true) as [[b trs]|]; [|discriminate]. destruct (quiet t) eqn:Q; [|discriminate].
  destruct (forallb _ a) eqn:K; [discriminate|]. destruct (forallb (known_min ld) a) eqn:KM; [|discriminate]. intros X. assert (toks = a ++ b) by congruence. assert (t = t0) by congruence. assert (l0 = actions emin t) by congruence. subst. split; [reflexivity|]. split; [exact Q|]. split; [reflexivity|]. exists a, b, trs. auto.
Qed.
Lemma lower_sh c : 0 <= c < 128 -> sh (lowerA c) = sh c.
Proof. intros Hc. unfold sh, lowerA, is_upperA, is_lowerA, is_digitA, is_alphaA, is_upperA, is_lowerA. destruct ((65 <=? c) && (c <=? 90)) eqn:A; [|rewrite A; reflexivity]. assert ((48 <=? c + 32) && (c + 32 <=? 57) = false) as -> by lia. assert ((48 <=? c) && (c <=? 57) = false) as -> by lia. assert ((65 <=? c + 32) && (c + 32 <=? 90) || (97 <=? c + 32) && (c + 32 <=? 122) = true) as -> by lia. reflexivity. Qed.
Lemma lower_shs x : asc x -> map sh (map lowerA x) = map sh x.
Proof. induction 1 as [|c x Hc _ IH]; [reflexivity|]. cbn [map]. now rewrite IH, lower_sh. Qed.
Lemma same_shape : map sh s = map sh s0.
Proof. rewrite <- (lower_shs s HA), HM. apply (ren_shs f RF). destruct shape_facts as (T & _). exact (tidy_asc0 s0 T). Qed.
Lemma lower_lower x : map lowerA (map lowerA x) = map lowerA x.
Proof. rewrite map_map. apply map_ext. intros c. unfold lowerA, is_upperA. destruct ((65 <=? c) && (c <=? 90)) eqn:A; [|now rewrite A]. assert ((65 <=? c + 32) && (c + 32 <=? 90) = false) as -> by lia. reflexivity. Qed.
Lemma norm_string : normalize_string (e_uni E) s = map lowerA s.
Proof.
  destruct shape_facts as (T & _). unfold normalize_string, normalize_unicode. rewrite (ua_nfkd _ UA) by (now apply asc_ascii). rewrite (to_lower_asc E s HA).
  apply spaced_sanitize; [now apply lower_asc|]. unfold spaced. rewrite lower_spaced. apply (tidy_spaced s0 s T HA same_shape).
Qed.
Lemma norm_token : normalize_token E s = map f s0.
Proof. destruct shape_facts as (T & _). rewrite (tidy_normalize E UA s0 s T HA same_shape). exact HM. Qed.
Lemma norm_token2 : normalize_token E (map lowerA s) = map f s0.
Proof.
  destruct shape_facts as (T & _). rewrite (tidy_normalize E UA s0 (map lowerA s) T (lower_asc s HA)); [rewrite lower_lower; exact HM|]. rewrite lower_shs by exact HA. exact same_shape.
Qed.
Lemma skip_cfg : u_skip cfg1 = skipping cfg. Proof. reflexivity. Qed.
Lemma spares_app a b skip : spares skip (a ++ b) -> spares skip a /\ spares skip b.
Proof. intros [H1 H2]. split; (split; [exact H1|]); intros t HT; apply H2, in_app_iff; auto. Qed.
Lemma text_translate k : exists trs, translate E lcfg ld s k = Ok trs /\ (k = false -> trs = [map f t0]).
Proof.
  destruct shape_facts as (_ & _ & _ & a & b & trs & EQ & A1 & A2 & _). pose proof SP as SP2. rewrite EQ in SP2. apply spares_app in SP2 as [S1 S2]. destruct k.
  - exists (map (map f) trs). split; [|discriminate]. apply (ren_translate f RF E UA ld BL lcfg s0 s norm_token true b trs A2). exact S2.
  - exists [map f t0]. split; [|reflexivity]. apply (ren_translate f RF E UA ld BL lcfg s0 s norm_token false a [t0] A1). exact S1.
Qed.
Lemma text_applicable : is_applicable E (to_internal cfg1) ld (map lowerA s) false = Ok true.
Proof.
  destruct shape_facts as (_ & _ & _ & a & b & trs & EQ & A1 & _ & K1 & K2). pose proof SP as SP2. rewrite EQ in SP2. apply spares_app in SP2 as [S1 _]. apply (ren_applicable f RF E UA ld BL (to_internal cfg1) s0 (map lowerA s) norm_token2 a [t0] A1 S1 K1 K2).
Qed.
Lemma applicable_no_err l x b e : is_applicable E (to_internal cfg1) l x b <> Err e.
Proof.
  unfold is_applicable, lsplit. assert (SR : forall rx n y, split_with_regex E n y rx <> Err e).
  { intros rx. induction n as [|n IH]; intros y; cbn [split_with_regex]; [discriminate|]. destruct (Regex.find (e_uni E) rx y) as [m|]; [|discriminate].
    assert (SO : forall g, sub_or_panic y m g <> Err e) by (intros g; unfold sub_or_panic; destruct (cap m g) as [[? ?]|]; discriminate).
    assert (MID : (if Nat.eqb (rx_ngroups rx) 1 then do g1 <- sub_or_panic y m 1; Ok (split_separator ++ g1 ++ split_separator)
      else if Nat.eqb (rx_ngroups rx) 3 then do g1 <- sub_or_panic y m 1; do g2 <- sub_or_panic y m 2; do g3 <- sub_or_panic y m 3; Ok (g1 ++ split_separator ++ g2 ++ split_separator ++ g3)
      else Ok (split_separator ++ slice y (mt_start m) (mt_end m) ++ split_separator)) <> Err e).
    { destruct (Nat.eqb _ 1); [specialize (SO 1%nat); destruct (sub_or_panic y m 1); cbn [rbind]; congruence|]. destruct (Nat.eqb _ 3); [|discriminate]. pose proof (SO 1%nat) as S1. pose proof (SO 2%nat) as S2. pose proof (SO 3%nat) as S3.
      destruct (sub_or_panic y m 1); cbn [rbind]; try congruence. destruct (sub_or_panic y m 2); cbn [rbind]; try congruence. destruct (sub_or_panic y m 3); cbn [rbind]; congruence. }
    match goal with |- rbind ?r _ <> _ => destruct r end; cbn [rbind]; try congruence. specialize (IH (skipn (mt_end m) y)). destruct (split_with_regex E n _ rx); cbn [rbind]; congruence. }
  destruct (ld_rx l) as [rx|]; [|discriminate]. match goal with |- rbind (rbind (split_with_regex E ?n ?y rx) _) _ <> _ => pose proof (SR rx n y) as S; destruct (split_with_regex E n y rx) end; cbn [rbind]; congruence.
Qed.
Lemma any_app_ok l dss : sound l -> exists b, any_applicable E (to_internal cfg1) l dss = Ok b.
Proof.
  intros SO. induction dss as [|x dss IH]; cbn [any_applicable]; [eauto|]. pose proof (is_applicable_returns E l SO (to_internal cfg1) x false) as R. pose proof (applicable_no_err l x false) as N. unfold returns in R.
  destruct (is_applicable E (to_internal cfg1) l x false) as [b|e|]; [|now specialize (N e)|congruence]. cbn [rbind]. destruct b; [eauto|exact IH].
Qed.
Lemma filter_app_ok dss : forall lds acc, (forall l, In l lds -> sound l) -> exists r, filter_applicable E (to_internal cfg1) dss acc lds = Ok (acc ++ r).
Proof.
  induction lds as [|l lds IH]; intros acc SO; cbn [filter_applicable]; [exists []; now rewrite app_nil_r|]. assert (SO' : forall x, In x lds -> sound x) by (intros; apply SO; now right). destruct (mem _ _); [now apply IH|].
  destruct (any_app_ok l dss) as (b & ->); [apply SO; now left|]. cbn [rbind]. destruct b; [|now apply IH]. destruct (IH (acc ++ [l]) SO') as (r & ->). exists (l :: r). now rewrite <- app_assoc.
Qed.
Lemma locales_no_panic a b c d e : get_locales E D [] a b c d <> Panic \/ e = 0%nat.
Proof.
  left. unfold get_locales. destruct (pick_languages _ _ _ _ _ _) as [nm|x|] eqn:P; cbn [rbind]; try discriminate.
  - destruct (fetch D _); discriminate.
  - intros _. now apply pick_languages_no_panic in P.
Qed.
Lemma text_locales : exists rest, get_applicable E D det (p_used p) cfg1 (to_internal cfg1) s = Ok (ld :: rest).
Proof.
  destruct (pc_first _ _ _ _ _ _ _ PC) as (rest & HG). unfold get_applicable. rewrite norm_string. rewrite norm_string in HG.
  cbv zeta. match goal with |- context [check_previous E _ _ ?d] => assert (X : exists x, d = map lowerA s :: x) by (destruct (eqs _ _); eexists; reflexivity) end. destruct X as [x ->].
  assert ((if u_try_prev cfg1 then check_previous E (to_internal cfg1) (p_used p) (map lowerA s :: x) else Ok None) = Ok None) as ->.
  { change (u_try_prev cfg1) with (u_try_prev cfg). destruct (pc_fresh _ _ _ _ _ _ _ PC) as [-> | ->]; [reflexivity|]. destruct (u_try_prev cfg); reflexivity. }
  cbn [rbind]. change (detected_languages det cfg1 (map lowerA s)) with (detected_languages det cfg (map lowerA s)). change (u_locales cfg1) with (u_locales cfg). change (u_region cfg1) with (u_region cfg). change (u_given_order cfg1) with (u_given_order cfg). rewrite HG. cbn [rbind filter_applicable map mem existsb any_applicable].
  rewrite text_applicable. cbn [rbind app]. destruct (filter_app_ok (map lowerA s :: x) rest [ld]) as (r & ->).
  { intros l HL. apply (get_locales_sound E D (pc_tables _ _ _ _ _ _ _ PC) _ _ _ _ _ _ _ HG). now right. }
  cbn [rbind app]. destruct (c_deflang (to_internal cfg1)); [eauto|]. match goal with |- context [rbind ?r] => assert (X : exists y, r = Ok y) end.
  { destruct (locales_no_panic (u_deflang cfg1) (u_region cfg) (u_given_order cfg) false 1%nat) as [N|N]; [|discriminate N]. change (u_region cfg1) with (u_region cfg). change (u_given_order cfg1) with (u_given_order cfg). destruct (get_locales E D [] (u_deflang cfg1) (u_region cfg) (u_given_order cfg) false); [eauto|eauto|congruence]. }
  destruct X as (y & ->). cbn [rbind app]. eauto.
Qed.
(** the date of the absolute parser is the result *)
Theorem text_parse d0 : absolute_parse E lcfg (map f t0) od_zero = Ok d0 -> date_is_zero (apply_timezone lcfg d0 od_zero) = false ->
  snd (parse E D det p cfg s []) = Ok (with_locale (apply_timezone lcfg d0 od_zero) (ld_name ld), None).
Proof.
  intros HP HZ. destruct text_locales as (rest & HL). destruct shape_facts as (T & Q & _). pose proof (tidy_sanitize E UA s0 s T HA same_shape) as SD. destruct (pc_types _ _ _ _ _ _ _ PC) as (before & after & HT & HB & HF).
  eapply parse_first with (ld := ld) (lds := rest).
  - apply not_true_iff_false. rewrite existsb_exists. intros (x & Hx & Hgt). unfold TNoSpaces in Hgt. rewrite HT in Hx. apply in_app_iff in Hx as [Hx|[<-|Hx]]; [|lia|]; rewrite Forall_forall in *; [apply HB in Hx|apply HF in Hx]; lia.
  - exact (pc_valid _ _ _ _ _ _ _ PC).
  - reflexivity.
  - rewrite SD. exact HL.
  - rewrite SD. unfold try_locale. fold lcfg. destruct (text_translate false) as (trs & -> & K). destruct (text_translate true) as (trs2 & -> & _). rewrite (K eq_refl). cbn [rbind]. rewrite HT.
    assert (RA : try_absolute E lcfg [map f t0] = Ok (apply_timezone lcfg d0 od_zero)).
    { unfold try_absolute. cbn [first_date]. unfold abs_one. rewrite (ren_strip_tz f RF E UA TZ t0 Q). rewrite HP. cbn [drop_err rbind].
      assert (NE : map f t0 <> []) by (destruct (quiet_facts t0 Q) as (_ & SP0 & _); destruct t0; [discriminate SP0|discriminate]). destruct (map f t0) as [|c r]; [congruence|]. cbn [rbind]. rewrite HZ. reflexivity. }
    apply first_date_zeros; [|exact RA|exact HZ]. intros x Hx. rewrite Forall_forall in HB. apply HB in Hx. unfold try_type, TTimestamp, TNegTimestamp, TRelative, TCustom.
    pose proof (tidy_timestamp E UA s0 s T HA same_shape lcfg) as NT.
    destruct (x =? 0) eqn:T0; [eexists; split; [reflexivity|]; rewrite NT; reflexivity|].
    destruct (x =? 1) eqn:T1; [eexists; split; [reflexivity|]; rewrite NT; reflexivity|].
    destruct (x =? 2) eqn:T2.
    { unfold try_relative. cbn [first_date rbind]. rewrite (ren_no_relative f RF E UA TZ t0 Q lcfg). eexists. split; reflexivity. }
    destruct (x =? 3) eqn:T3; [|lia]. unfold try_custom. assert (FD : forall l, first_date (fun t => Ok (formatted_parse E lcfg t [])) l = Ok zero_date) by (induction l as [|y l IH]; [reflexivity|]; cbn [first_date rbind]; exact IH). rewrite FD. eexists. split; reflexivity.
  - exact HZ.
Qed.
End P.
