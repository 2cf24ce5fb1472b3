(** A date of three numbers, the letter t or T and a time of day: from the text to the absolute parser *)
From Coq Require Import ZifyBool.
From Verif Require Import GoBase SMap Regex RegexFacts RegexFacts2 RegexFacts3 RegexFacts4 GoTime GoTimeFacts Setting Strutil Utf8Facts SpaceFacts Digit Timezone Env Common Timestamp Formatted Relative
  Absolute Language LocaleFacts SelectFacts Parser ParserFacts Prop_Total Tokenizer AbsFacts2 NumericFacts NumTranslate NumParse RegexWiden TextRename TextFront TextActs TextParse NumClock NumLift Prop_Parser Prop_Numeric.
From Verif Require IsoTranslate.
From Verif Require Import ClockTranslate.

Definition isotext (A : str) (p : Z) (B : str) (q : Z) (C : str) (tc : Z) (h : str) (ms : list str) : str := three A p B q C ++ tc :: clock_text h ms.
Definition ipairs (p : Z) (B : str) (q : Z) (C : str) (tc : Z) (h : str) (ms : list str) : list (Z * str) := (p, B) :: (q, C) :: (tc, h) :: map (pair 58) ms.
Lemma iso_numtext A p B q C tc h ms : isotext A p B q C tc h ms = numtext A (ipairs p B q C tc h ms).
Proof. unfold isotext, three, ipairs, clock_text. cbn [numtext]. rewrite <- !app_assoc. cbn [app]. now rewrite <- app_assoc. Qed.

(** digits, separators, colons, t and T *)
Definition xother (c : Z) : bool := negb (cplain c || (c =? 116) || (c =? 84)).
Definition ishapes : list str :=
  flat_map (fun x => let '(a, b, c) := x in flat_map (fun y => let '(h, ms) := y in flat_map (fun pq => [isotext (zeros a) (fst pq) (zeros b) (snd pq) (zeros c) 84 (zeros h) (map zeros ms); isotext (zeros a) (fst pq) (zeros b) (snd pq) (zeros c) 116 (zeros h) (map zeros ms)]) sep_pairs) clock_lengths) date_lengths.
Definition inever (r : regex) : bool := respects dig0 (rx_ast r) && forallb (fun s => negb (match_string uni_min r s)) ishapes.
Lemma inever_all : Forall (fun r => inever r = true) [rxSanitizeCroatian; rxSanitizePeriod; rxTimestamp; rxNegativeTimestamp].
Proof. repeat (apply Forall_cons; [vm_compute; reflexivity|]). constructor. Qed.
Lemma ineeds_all : Forall (fun r => needs xother (rx_ast r) = true) [rxSanitizeSkip; rxSanitizeRussian; rxSanitizeOn].
Proof. repeat (apply Forall_cons; [vm_compute; reflexivity|]). constructor. Qed.

Section T.
Variable E : env.
Notation U := (e_uni E).
Hypothesis UA : uni_ascii U.
Variables (A B C h : str) (p q tc : Z) (ms : list str).
Hypothesis HT : timed_ok A p B q C h ms.
Hypothesis HL : tc = 84 \/ tc = 116.
Let HA := to_A _ _ _ _ _ _ _ HT. Let HB := to_B _ _ _ _ _ _ _ HT. Let HC := to_C _ _ _ _ _ _ _ HT. Let Hh := to_h _ _ _ _ _ _ _ HT. Let Hms := to_ms _ _ _ _ _ _ _ HT.
Let Hp := to_p _ _ _ _ _ _ _ HT. Let Hq := to_q _ _ _ _ _ _ _ HT. Let PQ := to_pq _ _ _ _ _ _ _ HT.
Notation s := (isotext A p B q C tc h ms).
Notation low := (isotext A p B q C 116 h ms).
(** the text around the letter *)
Lemma around c : isotext A p B q C c h ms = numtext A [(p, B); (q, C)] ++ c :: clock_text h ms.
Proof. unfold isotext, three. cbn [numtext]. now rewrite <- !app_assoc. Qed.
Lemma clock_groups_ok : groups h (map (pair 58) ms).
Proof.
  split; [exact Hh|]. apply Forall_forall. intros x HX. apply in_map_iff in HX as (m & <- & HI). cbn [fst snd]. split; [unfold csep; lia|]. rewrite Forall_forall in Hms. now apply Hms.
Qed.
Lemma sep_c c : separator c -> csep c. Proof. unfold separator, csep. lia. Qed.
Lemma date_groups_ok : groups A [(p, B); (q, C)].
Proof. split; [exact HA|]. apply Forall_cons; [split; [now apply sep_c|exact HB]|]. apply Forall_cons; [split; [now apply sep_c|exact HC]|constructor]. Qed.
Lemma iso_groups : IsoTranslate.igroups A (ipairs p B q C 116 h ms).
Proof.
  assert (SC : forall c, separator c -> IsoTranslate.isep c) by (unfold separator, IsoTranslate.isep; intros; lia).
  split; [exact HA|]. unfold ipairs. apply Forall_cons; [split; [now apply SC|exact HB]|]. apply Forall_cons; [split; [now apply SC|exact HC]|]. apply Forall_cons; [split; [unfold IsoTranslate.isep; cbn; lia|exact Hh]|].
  apply Forall_forall. intros x HX. apply in_map_iff in HX as (m & <- & HI). cbn [fst snd]. split; [unfold IsoTranslate.isep; lia|]. rewrite Forall_forall in Hms. now apply Hms.
Qed.
Lemma iso_no_plus : Forall (fun x => fst x <> 43) (ipairs p B q C 116 h ms).
Proof.
  assert (SC : forall c, separator c -> c <> 43) by (unfold separator; intros; lia). unfold ipairs. repeat (apply Forall_cons; [cbn [fst]; first [now apply SC|lia]|]).
  apply Forall_forall. intros x HX. apply in_map_iff in HX as (m & <- & HI). cbn [fst]. lia.
Qed.
Lemma iso_blanked : numtext A (IsoTranslate.blanked (ipairs p B q C 116 h ms)) = timed A p B q C h ms.
Proof.
  rewrite timed_numtext. f_equal. unfold ipairs, pairs, IsoTranslate.blanked. cbn [map fst snd]. assert (N : forall c, separator c -> c =? 116 = false) by (unfold separator; intros; lia). rewrite (N p Hp), (N q Hq). change (116 =? 116) with true. cbv iota.
  do 3 f_equal. rewrite map_map. apply map_ext. intros x. reflexivity.
Qed.
Lemma iso_plain c : c = 84 \/ c = 116 -> lacks xother (isotext A p B q C c h ms).
Proof.
  intros Hc. rewrite around. assert (W : forall x, lacks cother x -> lacks xother x).
  { intros x H. eapply Forall_impl; [|exact H]. cbv beta. intros z [H1 H2]. split; [exact H1|]. unfold cother in H2. unfold xother. apply negb_false_iff in H2. now rewrite H2. }
  apply Forall_app. split; [apply W, groups_plain, date_groups_ok|]. constructor; [split; [lia|destruct Hc as [-> | ->]; reflexivity]|apply W, groups_plain, clock_groups_ok].
Qed.
Lemma iso_asc : asc s. Proof. eapply Forall_impl; [|exact (iso_plain tc HL)]. cbv beta. tauto. Qed.
Lemma spaced_app x : forall b r, spaced_from b (x ++ 116 :: r) = true -> spaced_from b (x ++ 84 :: r) = true.
Proof. induction x as [|c x IH]; intros b r; cbn [app spaced_from]; [exact (fun H => H)|]. destruct (c =? 32); [|destruct (negb (is_space c)); cbn [andb]; auto]. destruct b; cbn [negb andb]; [discriminate|apply IH]. Qed.
Lemma iso_spaced : spaced s = true.
Proof.
  assert (SL : spaced low = true).
  { rewrite iso_numtext. destruct (IsoTranslate.num_words _ _ iso_groups) as (ws & -> & W1 & _ & NW). clear - W1 NW. unfold spaced.
    assert (WB : forall w b r, word w -> spaced_from b (w ++ r) = spaced_from false r).
    { intros w b r [NE F]. destruct w as [|c w]; [congruence|]. clear NE. revert c b F. induction w as [|d w IH]; intros c b F; inversion F as [|? ? H1 H2]; subst; cbn [app spaced_from].
      - assert (c =? 32 = false) as -> by (destruct (Z.eqb_spec c 32); [subst; discriminate H1|reflexivity]). rewrite H1. reflexivity.
      - assert (c =? 32 = false) as -> by (destruct (Z.eqb_spec c 32); [subst; discriminate H1|reflexivity]). rewrite H1. cbn [negb andb]. exact (IH d false H2). }
    destruct W1 as [|w ws Hw W1]; [congruence|]. clear NW. cut (forall b, spaced_from b (join_words (w :: ws)) = true); [auto|]. revert w Hw. induction W1 as [|v ws Hv W1 IH]; intros w Hw b; cbn [join_words].
    - rewrite <- (app_nil_r w). rewrite WB by exact Hw. reflexivity.
    - rewrite WB by exact Hw. cbn [spaced_from Z.eqb Pos.eqb negb andb]. now apply IH. }
  unfold spaced in *. destruct HL as [-> | ->]; [|exact SL]. rewrite around in SL |- *. now apply spaced_app.
Qed.
Lemma iso_lower : map lowerA s = low.
Proof.
  assert (ID : forall x, lacks cother x -> map lowerA x = x).
  { intros x H. rewrite <- (map_id x) at 2. apply map_ext_in. intros c Hc. unfold lacks in H. rewrite Forall_forall in H. apply H in Hc as [_ Hc]. unfold cother, cplain, csepb, is_digitA in Hc. cbn [existsb cseps] in Hc. unfold lowerA, is_upperA. destruct ((65 <=? c) && (c <=? 90)) eqn:BB; [lia|reflexivity]. }
  rewrite !around, map_app. cbn [map]. rewrite (ID (numtext A _)) by (apply groups_plain, date_groups_ok). rewrite (ID (clock_text h ms)) by (apply groups_plain, clock_groups_ok). destruct HL as [-> | ->]; reflexivity.
Qed.
Lemma iso_normal : normalize_string U s = low.
Proof.
  unfold normalize_string, normalize_unicode. rewrite (ua_nfkd _ UA) by (apply asc_ascii, iso_asc). rewrite (to_lower_asc E s iso_asc). rewrite <- iso_lower.
  apply spaced_sanitize; [apply lower_asc, iso_asc|]. unfold spaced. rewrite lower_spaced. exact iso_spaced.
Qed.
Lemma iso_normal_low : normalize_string U low = low.
Proof.
  assert (LL : map lowerA low = low) by (rewrite <- iso_lower, map_map; apply map_ext; intros c; unfold lowerA, is_upperA; destruct ((65 <=? c) && (c <=? 90)) eqn:LA; [|now rewrite LA]; assert ((65 <=? c + 32) && (c + 32 <=? 90) = false) as -> by lia; reflexivity).
  assert (AL : asc low) by (rewrite <- iso_lower; apply lower_asc, iso_asc).
  unfold normalize_string, normalize_unicode. rewrite (ua_nfkd _ UA) by (now apply asc_ascii). rewrite (to_lower_asc E low AL), LL.
  apply spaced_sanitize; [exact AL|]. rewrite <- iso_lower. unfold spaced. rewrite lower_spaced. exact iso_spaced.
Qed.
Lemma iso_token : normalize_token E s = normalize_token E low.
Proof. unfold normalize_token. now rewrite iso_normal, iso_normal_low. Qed.
Lemma iso_shape : In (map dig0 s) ishapes.
Proof.
  rewrite iso_numtext, map_dig0_numtext. unfold ipairs. cbn [map fst snd]. rewrite !dig0_digits by assumption. rewrite map_map. cbn [fst snd].
  assert (DS : forall c, separator c -> dig0 c = c) by (intros c [-> | [-> | [-> | ->]]]; reflexivity). rewrite (DS p Hp), (DS q Hq).
  assert (EM : map (fun x : str => (dig0 58, map dig0 x)) ms = map (pair 58) (map zeros (map (@length Z) ms))).
  { rewrite !map_map. apply map_ext_in. intros x HX. change (dig0 58) with 58. f_equal. apply dig0_digits. pose proof Hms as F. rewrite Forall_forall in F. now apply F. }
  rewrite EM. unfold ishapes. apply in_flat_map. exists (length A, length B, length C). split; [apply HT|]. apply in_flat_map. exists (length h, map (@length Z) ms). split; [apply HT|].
  apply in_flat_map. exists (p, q). split; [now apply in_map_pairs|]. cbn [fst snd]. rewrite !iso_numtext. unfold ipairs, zeros. destruct HL as [-> | ->]; [now left|right; now left].
Qed.
Lemma iso_never r : inever r = true -> find U r s = None.
Proof.
  intros HN. unfold inever in HN. apply andb_true_iff in HN as [HR HF]. rewrite forallb_forall in HF. specialize (HF _ iso_shape).
  rewrite (find_norm dig0 U UA dig0_ok) by (assumption || exact iso_asc). unfold match_string in HF. destruct (find uni_min r _); [discriminate|reflexivity].
Qed.
Lemma last_after c (x r : str) : r <> [] -> last (x ++ c :: r) 0 = last r 0.
Proof. intros N. induction x as [|d x IH]; [destruct r; [congruence|reflexivity]|]. cbn [app]. destruct (x ++ c :: r) eqn:EX; [now destruct x|]. exact IH. Qed.
Lemma iso_last : 48 <= last s 0 <= 57.
Proof. rewrite around, last_after by (apply groups_ne, clock_groups_ok). apply groups_last, clock_groups_ok. Qed.
Lemma iso_sanitize : sanitize_date U s = s.
Proof.
  pose proof ineeds_all as NS. inversion NS as [|? ? N1 NS1]; inversion NS1 as [|? ? N2 NS2]; inversion NS2 as [|? ? N3 _]; subst.
  pose proof inever_all as VS. inversion VS as [|? ? V1 VS1]; inversion VS1 as [|? ? V2 _]; subst. clear NS NS1 NS2 VS VS1. pose proof (iso_plain tc HL) as TP.
  assert (SS : sanitize_spaces s = s) by (apply spaced_sanitize; [exact iso_asc|exact iso_spaced]).
  unfold sanitize_date. rewrite (replace_none _ rxSanitizeSkip) by (apply (lacks_none xother); auto). rewrite (replace_none _ rxSanitizeRussian) by (apply (lacks_none xother); auto).
  rewrite (replace_none _ rxSanitizeCroatian) by (now apply iso_never). rewrite SS. rewrite (replace_none _ rxSanitizePeriod) by (now apply iso_never).
  rewrite (replace_none _ rxSanitizeOn) by (apply (lacks_none xother); auto).
  assert (trim_suffix s (lit ":") = s) as ->.
  { unfold trim_suffix, has_suffix. change (rev (lit ":")) with [58]. pose proof iso_last as TL. destruct (rev s) as [|c l] eqn:ER; [reflexivity|]. cbn [has_prefix].
    assert (ES : s = rev l ++ [c]) by (rewrite <- (rev_involutive s), ER; reflexivity). rewrite ES, last_app_ne in TL. assert (58 =? c = false) as -> by lia. reflexivity. }
  unfold normalize_apos. rewrite runes_asc by exact iso_asc.
  assert (map apos_map s = s) as ->.
  { rewrite <- (map_id s) at 2. apply map_ext_in. intros c Hc. pose proof iso_asc as TA. unfold asc in TA. rewrite Forall_forall in TA. apply TA in Hc. unfold apos_map. cbn [existsb]. destruct (_ || _) eqn:O; [lia|reflexivity]. }
  rewrite encode_asc by exact iso_asc. apply spaced_trim; [exact iso_asc|exact iso_spaced].
Qed.
Lemma iso_no_timestamp cfg neg : timestamp_parse E cfg s neg = zero_date.
Proof.
  pose proof inever_all as VS. inversion VS as [|? ? _ VS1]; inversion VS1 as [|? ? _ VS2]; inversion VS2 as [|? ? V3 VS3]; inversion VS3 as [|? ? V4 _]; subst.
  unfold timestamp_parse. destruct neg; now rewrite iso_never.
Qed.

(** ** One locale *)
Section P.
Variables (D : langdb) (det : option (str -> list str)) (ps : pstate) (cfg : uconfig) (ld : locale).
Hypothesis PC : plain_call E D det ps cfg s ld.
Hypothesis IL : IsoTranslate.iso_locale ld = true.
Hypothesis SK : IsoTranslate.iso_skip (skipping cfg).
Hypothesis SE : ~ In [] (skipping cfg).
Notation cfg1 := (initiate (e_now E) cfg).
Notation lcfg := (inner E cfg ld).
Lemma iso_translate k : exists r, translate E lcfg ld s k = Ok r /\ (k = false -> r = [timed A p B q C h ms]).
Proof.
  destruct (IsoTranslate.translate_num E UA ld IL lcfg A (ipairs p B q C 116 h ms) k iso_groups SK SE) as (r & TR & RK). exists r. rewrite iso_blanked in RK. split; [|exact RK].
  rewrite <- iso_numtext in TR. rewrite <- TR. unfold translate. now rewrite iso_token.
Qed.
Lemma iso_applicable : is_applicable E (to_internal cfg1) ld low false = Ok true.
Proof. rewrite iso_numtext. exact (IsoTranslate.applicable_num E UA ld IL (to_internal cfg1) A _ iso_groups iso_no_plus SK SE). Qed.
Lemma iso_locales : exists rest, get_applicable E D det (p_used ps) cfg1 (to_internal cfg1) s = Ok (ld :: rest).
Proof.
  destruct (pc_first _ _ _ _ _ _ _ PC) as (rest & HG). unfold get_applicable. rewrite iso_normal. rewrite iso_normal in HG.
  cbv zeta. match goal with |- context [check_previous E _ _ ?d] => assert (X : exists x, d = low :: x) by (destruct (eqs _ _); eexists; reflexivity) end. destruct X as [x ->].
  assert ((if u_try_prev cfg1 then check_previous E (to_internal cfg1) (p_used ps) (low :: x) else Ok None) = Ok None) as ->.
  { change (u_try_prev cfg1) with (u_try_prev cfg). destruct (pc_fresh _ _ _ _ _ _ _ PC) as [-> | ->]; [reflexivity|]. destruct (u_try_prev cfg); reflexivity. }
  cbn [rbind]. change (detected_languages det cfg1 low) with (detected_languages det cfg low). change (u_locales cfg1) with (u_locales cfg). change (u_region cfg1) with (u_region cfg). change (u_given_order cfg1) with (u_given_order cfg). rewrite HG. cbn [rbind filter_applicable map mem existsb any_applicable].
  rewrite iso_applicable. cbn [rbind app]. destruct (filter_app_ok E cfg (low :: x) rest [ld]) as (r & ->).
  { intros l HLL. apply (get_locales_sound E D (pc_tables _ _ _ _ _ _ _ PC) _ _ _ _ _ _ _ HG). now right. }
  cbn [rbind app]. destruct (c_deflang (to_internal cfg1)); [eauto|]. match goal with |- context [rbind ?r] => assert (X : exists y, r = Ok y) end.
  { destruct (locales_no_panic E D (u_deflang cfg1) (u_region cfg) (u_given_order cfg) false 1%nat) as [N|N]; [|discriminate N]. change (u_region cfg1) with (u_region cfg). change (u_given_order cfg1) with (u_given_order cfg). destruct (get_locales E D [] (u_deflang cfg1) (u_region cfg) (u_given_order cfg) false); [eauto|eauto|congruence]. }
  destruct X as (y & ->). cbn [rbind app]. eauto.
Qed.
(** the date of the absolute parser is the result *)
Theorem iso_parse d0 : etz_pop E (timed A p B q C h ms) = (timed A p B q C h ms, od_zero) -> absolute_parse E lcfg (timed A p B q C h ms) od_zero = Ok d0 -> date_is_zero (apply_timezone lcfg d0 od_zero) = false ->
  snd (parse E D det ps cfg s []) = Ok (with_locale (apply_timezone lcfg d0 od_zero) (ld_name ld), None).
Proof.
  intros TZ HP HZ. destruct iso_locales as (rest & HG). pose proof iso_sanitize as SD. destruct (pc_types _ _ _ _ _ _ _ PC) as (before & after & HTy & HBf & HF).
  eapply parse_first with (ld := ld) (lds := rest).
  - apply not_true_iff_false. rewrite existsb_exists. intros (x & Hx & Hgt). unfold TNoSpaces in Hgt. rewrite HTy in Hx. apply in_app_iff in Hx as [Hx|[<-|Hx]]; [|lia|]; rewrite Forall_forall in *; [apply HBf in Hx|apply HF in Hx]; lia.
  - exact (pc_valid _ _ _ _ _ _ _ PC).
  - reflexivity.
  - rewrite SD. exact HG.
  - rewrite SD. unfold try_locale. fold lcfg. destruct (iso_translate false) as (trs & -> & K). destruct (iso_translate true) as (trs2 & -> & _). rewrite (K eq_refl). cbn [rbind]. rewrite HTy.
    assert (RA : try_absolute E lcfg [timed A p B q C h ms] = Ok (apply_timezone lcfg d0 od_zero)).
    { unfold try_absolute. cbn [first_date]. unfold abs_one, strip_tz. rewrite (strip_timed A B C h p q ms HT), TZ. rewrite HP. cbn [drop_err rbind].
      assert (NE : timed A p B q C h ms <> []) by (rewrite timed_numtext; apply groups_ne, timed_groups, HT). destruct (timed A p B q C h ms) as [|c r]; [congruence|]. cbn [rbind]. rewrite HZ. reflexivity. }
    apply first_date_zeros; [|exact RA|exact HZ]. intros x Hx. rewrite Forall_forall in HBf. apply HBf in Hx. unfold try_type, TTimestamp, TNegTimestamp, TRelative, TCustom.
    destruct (x =? 0) eqn:T0; [eexists; split; [reflexivity|]; rewrite iso_no_timestamp; reflexivity|].
    destruct (x =? 1) eqn:T1; [eexists; split; [reflexivity|]; rewrite iso_no_timestamp; reflexivity|].
    destruct (x =? 2) eqn:T2.
    { unfold try_relative. cbn [first_date rbind]. rewrite (timed_no_relative E UA A B C h p q ms HT lcfg TZ). eexists. split; reflexivity. }
    destruct (x =? 3) eqn:T3; [|lia]. unfold try_custom. assert (FD : forall l, first_date (fun t => Ok (formatted_parse E lcfg t [])) l = Ok zero_date) by (induction l as [|y l IH]; [reflexivity|]; cbn [first_date rbind]; exact IH). rewrite FD. eexists. split; reflexivity.
  - exact HZ.
Qed.
End P.
End T.

(** ** The letter is no time zone *)
Lemma tz_xlits : exists ls, lits xother (rx_ast rxSearchIgnoreCase) = Some ls /\ Forall (fun w => offset_text w = true /\ ~ In 116 w) ls.
Proof.
  assert (H : match lits xother (rx_ast rxSearchIgnoreCase) with Some ls => forallb (fun w => if offset_text w then negb (existsb (Z.eqb 116) w) else false) ls | None => false end = true) by (vm_compute; reflexivity).
  destruct (lits xother (rx_ast rxSearchIgnoreCase)) as [ls|]; [|discriminate]. exists ls. split; [reflexivity|]. apply Forall_forall. intros x Hx. rewrite forallb_forall in H. specialize (H x Hx).
  destruct (offset_text x); [|discriminate H]. split; [reflexivity|]. intros I. assert (X : existsb (Z.eqb 116) x = true) by (apply existsb_exists; exists 116; split; [exact I|reflexivity]). rewrite X in H. discriminate H.
Qed.
Definition no_t (c : Z) : Z := if c =? 116 then 32 else c.
Lemma iso_low_tz E (UA : uni_ascii (e_uni E)) A B C h p q ms : timed_ok A p B q C h ms -> (forall Y, (Y = B /\ p = 45 \/ Y = C /\ q = 45) -> ~ In (45 :: Y) tz_texts) ->
  etz_pop E (isotext A p B q C 116 h ms) = (isotext A p B q C 116 h ms, od_zero).
Proof.
  intros HT HY. unfold etz_pop, pop_tz. set (t := isotext A p B q C 116 h ms). assert (match_string (e_uni E) rxSearchIgnoreCase t = false) as ->; [|reflexivity].
  unfold match_string. destruct (find (e_uni E) rxSearchIgnoreCase t) as [m|] eqn:F; [|reflexivity]. exfalso. destruct tz_xlits as (ls & HL & HI).
  assert (TP : lacks xother t) by (apply (iso_plain A B C h p q ms HT 116); now right).
  destruct (lits_occur xother (e_uni E) UA rxSearchIgnoreCase ls t m HL TP F) as (a & l & b & Hl & Hs). rewrite Forall_forall in HI. apply HI in Hl as [HO NT].
  apply (timed_no_offset A B C h p q ms HT HY (map no_t a) l (map no_t b) HO).
  assert (ET : map no_t t = timed A p B q C h ms).
  { assert (GN : forall x, lacks cother x -> map no_t x = x) by (intros x HX; rewrite <- (map_id x) at 2; apply map_ext_in; intros c Hc; unfold lacks in HX; rewrite Forall_forall in HX; apply HX in Hc as [_ Hc]; unfold no_t; destruct (Z.eqb_spec c 116) as [->|]; [discriminate Hc|reflexivity]).
    pose proof (timed_plain A B C h p q ms HT) as PT. unfold t, isotext, timed in *. unfold lacks in PT. apply Forall_app in PT as [P1 P2]. inversion P2 as [|? ? _ P3]; subst.
    rewrite map_app. cbn [map]. rewrite (GN _ P1), (GN _ P3). reflexivity. }
  rewrite <- ET, Hs, !map_app. do 2 f_equal. rewrite <- (map_id l) at 2. symmetry. apply map_ext_in. intros c Hc. unfold no_t. destruct (Z.eqb_spec c 116) as [->|]; [now exfalso|reflexivity].
Qed.
