(** C69: dates and times in the form of ISO 8601 may be written in the digits of any script *)
From Coq Require Import ZifyBool.
From Verif Require Import GoBase SMap Regex RegexFacts RegexFacts3 Civil GoTime GoTimeFacts GoTimeParse Setting Strutil Utf8Facts SpaceFacts Digit Timezone Env Common Timestamp Formatted Relative Absolute NoSpace Language Parser Tokenizer
  AbsFacts2 NumericFacts NumericFacts2 NumTranslate NumParse ClockTranslate NumClock TextFront ParserFacts Shows Spec Concrete LocaleData Prop_Parser Prop_Numeric Prop_Clocktime Prop_Timed Prop_Text ScriptDigits Prop_Script ScriptParse Prop_Script2
  TextParse Prop_Timezone IsoClock Prop_Iso TextResult Prop_Words Prop_Words2 LocaleAll Prop_Vocabulary.

Section S.
Variable E : env.
Notation U := (e_uni E).
Hypotheses (UA : uni_ascii U) (ST : script_tables U) (SP : script_plain U).
(** a text in foreign digits is read as the same text in ASCII digits, if that is clean, single-spaced, and neither a timestamp nor with a time zone *)
Lemma foreign_parse_t D det p cfg l t : same_languages det -> Forall foreign_char l -> latin_digits l = t -> spaced t = true -> 48 <= last t 0 <= 57 ->
  sanitize_date U t = t -> normalize_string U t = map lowerA t -> etz_pop E (map lowerA t) = (map lowerA t, od_zero) -> (forall c neg, timestamp_parse E c t neg = zero_date) ->
  parse E D det p cfg (encode l) [] = parse E D det p cfg t [].
Proof.
  intros SL HF EL HS HL SA NS TZ TS. subst t. assert (HS2 : spaced l = true) by (unfold spaced in *; now rewrite <- (spaced_lat l HF true)). destruct (spaced_join l HS2) as (ws & HW & HJ).
  assert (HF' : Forall foreign_char (map (u_lower U) l)).
  { apply Forall_map. eapply Forall_impl; [|exact HF]. intros r [[S L]|I]; [left; now rewrite (st_lower _ ST)|right]. rewrite (ua_lower _ UA) by (cbn in I; lia). cbn in I. repeat (destruct I as [<-|I]; [vm_compute; tauto|]). destruct I. }
  assert (NL : normalize_string U (encode l) = encode (map (u_lower U) l)).
  { apply (normal_text E UA ST SP l ws); [eapply Forall_impl; [|exact HF]; intros r [[S _]|I]; [now left|right; cbn in I; lia]|eapply Forall_impl; [|exact HF]; apply foreign_scalar|exact HW|exact HJ]. }
  assert (EM : latin_digits (map (u_lower U) l) = map lowerA (latin_digits l)).
  { pose proof (latin_ascii l HF) as LA. transitivity (map (u_lower U) (latin_digits l)).
    - rewrite (latin_map l), (latin_map (map (u_lower U) l)), !map_map. apply map_ext. intros r. symmetry. apply (lower_lat E ST).
    - apply map_ext_in. intros r Hr. rewrite Forall_forall in LA. apply LA in Hr. now apply (ua_lower _ UA). }
  apply (script_parse E UA ST SP D det p cfg l ws HF HW HJ); [|exact SA|now rewrite NS|exact TS|].
  - intros Q. assert (QL : last (latin_digits l) 0 = 58); [|lia]. revert Q. clear. rewrite latin_map. destruct l as [|x m] using rev_ind; [discriminate|]. rewrite last_last, map_app. cbn [map]. rewrite last_last. intros ->. reflexivity.
  - rewrite NL, NS. unfold detected_languages. destruct det as [f|] eqn:ED; [|reflexivity]. destruct (u_locales _); [|reflexivity]. destruct (u_languages _); [|reflexivity]. rewrite <- EM. now apply (SL f).
Qed.
Lemma iso_foreign D det p cfg l A B C p1 q1 h ms tc : same_languages det -> timed_ok A p1 B q1 C h ms -> tc = 84 \/ tc = 116 ->
  (forall Y, (Y = B /\ p1 = 45 \/ Y = C /\ q1 = 45) -> ~ In (45 :: Y) tz_texts) ->
  Forall foreign_char l -> latin_digits l = isotext A p1 B q1 C tc h ms ->
  parse E D det p cfg (encode l) [] = parse E D det p cfg (isotext A p1 B q1 C tc h ms) [].
Proof.
  intros SL OK HL HY HF EL. pose proof (iso_lower A B C h p1 q1 tc ms OK HL) as LO. apply foreign_parse_t; auto.
  - now apply (iso_spaced A B C h p1 q1 tc ms).
  - now apply (iso_last A B C h p1 q1 tc ms).
  - now apply (iso_sanitize E UA A B C h p1 q1 tc ms).
  - rewrite LO. now apply (iso_normal E UA A B C h p1 q1 tc ms).
  - rewrite LO. now apply (iso_low_tz E UA).
  - intros c neg. now apply (iso_no_timestamp E UA A B C h p1 q1 tc ms).
Qed.
End S.

(** The dates and times of C65 (year, month, day, the letter T, a time of day in digits and colons), written in digits of any script but the
    Latin one ("۲۰۱۵-۰۳-۱۲T۰۹:۰۴:۰۵"), are read as these. *)
Theorem C69_iso_date_times : forall E D det p cfg ld order td tm ty d m y tc k h mi sec per l,
  script_tables (e_uni E) -> script_plain (e_uni E) -> same_languages det ->
  digits td -> digits tm -> digits ty -> (length td <= 2)%nat -> (length tm <= 2)%nat -> length ty = 4%nat ->
  number 0 td = d -> number 0 tm = m -> number 0 ty = y -> valid_date y m d -> 1000 <= y <= 9999 ->
  In order ["MDY"; "MYD"; "YMD"]%string -> order_for E cfg ld = lit order ->
  In tc (lit "Tt") -> clock k h mi sec 0 per -> Forall (fun c => 48 <= c <= 58) k ->
  (* the text, and what it is in ASCII digits *)
  Forall foreign_char l -> latin_digits l = ty ++ lit "-" ++ tm ++ lit "-" ++ td ++ tc :: k ->
  iso_call E D det p cfg (ty ++ lit "-" ++ tm ++ lit "-" ++ td ++ tc :: k) ld ->
  shows (snd (parse E D det p cfg (encode l) [])) y m d h mi sec 0 (if u_timeperiod cfg then per else PDay) (ld_name ld).
Proof.
  intros E D det p cfg ld order td tm ty d m y tc k h mi sec per l ST SP SL Dd Dm Dy Ld Lm Ly Nd Nm Ny Hv Hy HOr HC Htc CK KF HF EL HO.
  pose proof (C65_iso_date_times E D det p cfg ld order td tm ty d m y tc k h mi sec per Dd Dm Dy Ld Lm Ly Nd Nm Ny Hv Hy HOr HC Htc CK KF HO) as C65.
  pose proof (pc_ascii _ _ _ _ _ _ _ (ic_plain _ _ _ _ _ _ _ HO)) as UA. clear HO HC HOr.
  destruct (clock_groups k h mi sec 0 per CK KF) as (hw & ms & EK & Dh & Dms & NM & CL & _). rewrite EK in EL, C65. clear CK KF EK.
  assert (ES : ty ++ lit "-" ++ tm ++ lit "-" ++ td ++ tc :: clock_text hw ms = isotext ty 45 tm 45 td tc hw ms) by (unfold isotext, three; rewrite <- app_assoc; cbn [lit app]; rewrite <- app_assoc; reflexivity).
  rewrite ES in EL, C65. assert (L12 : forall x, digits x -> (length x <= 2)%nat -> length x = 1%nat \/ length x = 2%nat) by (intros x [N _] L; destruct x as [|? [|? [|? ?]]]; cbn [length] in *; auto; try lia; congruence).
  assert (OK : timed_ok ty 45 tm 45 td hw ms).
  { constructor; auto; try (vm_compute; tauto). rewrite Ly. destruct (L12 td Dd Ld) as [-> | ->], (L12 tm Dm Lm) as [-> | ->]; vm_compute; tauto. }
  rewrite (iso_foreign E UA ST SP D det p cfg l ty tm td 45 45 hw ms tc); auto.
  - cbn in Htc. lia.
  - intros Y HY HI. destruct (tz_form _ HI) as (x & EX & _ & Lx). assert (x = Y) as -> by congruence. destruct HY as [[-> _]|[-> _]]; lia.
Qed.
Print Assumptions C69_iso_date_times.

(** The library with its own tables and no DateOrder. *)
Theorem C69_library : forall E p cfg td tm ty d m y tc k h mi sec per l,
  script_tables (e_uni E) -> script_plain (e_uni E) ->
  library_call E p cfg -> u_order cfg = None ->
  digits td -> digits tm -> digits ty -> (length td <= 2)%nat -> (length tm <= 2)%nat -> length ty = 4%nat ->
  number 0 td = d -> number 0 tm = m -> number 0 ty = y -> valid_date y m d -> 1000 <= y <= 9999 ->
  In tc (lit "Tt") -> clock k h mi sec 0 per -> Forall (fun c => 48 <= c <= 58) k ->
  Forall foreign_char l -> latin_digits l = ty ++ lit "-" ++ tm ++ lit "-" ++ td ++ tc :: k ->
  shows (snd (parse E full_db None p cfg (encode l) [])) y m d h mi sec 0 (if u_timeperiod cfg then per else PDay) (lit "en").
Proof.
  intros E p cfg td tm ty d m y tc k h mi sec per l ST SP HC HO Dd Dm Dy Ld Lm Ly Nd Nm Ny Hv Hy Htc CK KF HF EL.
  apply (C69_iso_date_times E full_db None p cfg loc_en "MDY" td tm ty d m y tc k h mi sec per l); auto.
  - intros f x H. discriminate H.
  - now left.
  - unfold order_for. rewrite HO. reflexivity.
  - now apply library_iso.
Qed.
Print Assumptions C69_library.

(** 2015-03-12T09:04:05 in Persian digits *)
Lemma library_case1 : library_call env1 (new_parser []) (mkcfg [] [] (utc_at 2016 2 28 10 0 0) Past 0 0).
Proof.
  constructor; [exact uni1_ascii|exact tz_source_is_order|reflexivity|now left|vm_compute; reflexivity|left; repeat split; reflexivity|reflexivity| |].
  - split; [vm_compute; reflexivity|]. split; [unfold wf_time; vm_compute; split; [discriminate|reflexivity]|]. split; [unfold wf_time; vm_compute; split; [discriminate|reflexivity]|]. split; [apply fixed_utc|vm_compute; discriminate].
  - intros l sec X. discriminate X.
Qed.
Example C69_case : shows (snd (parse env1 full_db None (new_parser []) (mkcfg [] [] (utc_at 2016 2 28 10 0 0) Past 0 0)
  (encode [1778; 1776; 1777; 1781; 45; 1776; 1779; 45; 1777; 1778; 84; 1776; 1785; 58; 1776; 1780; 58; 1776; 1781]) [])) 2015 3 12 9 4 5 0 PDay (lit "en").
Proof.
  apply (C69_library env1 (new_parser []) (mkcfg [] [] (utc_at 2016 2 28 10 0 0) Past 0 0) (lit "12") (lit "03") (lit "2015") 12 3 2015 84 (lit "09:04:05") 9 4 5 PSecond _ uni1_tables uni1_plain library_case1).
  - reflexivity.
  - apply digits_by; reflexivity.
  - apply digits_by; reflexivity.
  - apply digits_by; reflexivity.
  - cbn; lia.
  - cbn; lia.
  - reflexivity.
  - reflexivity.
  - reflexivity.
  - reflexivity.
  - unfold valid_date; vm_compute; repeat split; discriminate.
  - lia.
  - now left.
  - apply (hms (lit "09") 9 (lit "04") 4 (lit "05") 5 [] 0).
    all: try (split; [apply digits_by; reflexivity|split; [cbn; lia|reflexivity]]). all: try lia. left; auto.
  - apply Forall_forall. intros x HX. cbn in HX. lia.
  - apply foreign_by. vm_compute. reflexivity.
  - vm_compute. reflexivity.
Qed.
