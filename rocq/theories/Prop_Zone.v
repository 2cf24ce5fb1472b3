(** C66: dates with a time of day and an offset from UTC (RFC 3339) *)
From Coq Require Import ZifyBool.
From Verif Require Import GoBase SMap Regex Civil GoTime GoTimeFacts GoTimeParse Setting Strutil Dateutil DateutilFacts Tokenizer Timezone Env Common Timestamp Formatted Relative Absolute
  Language Parser ParserFacts History Shows Concrete LocaleData Spec AbsSpec AbsFacts AbsFacts2 AbsFacts3 AbsFacts4 RegexFacts NumericFacts NumTranslate NumParse NumLift Prop_Total Prop_Parser Prop_Absolute Prop_Numeric
  Prop_Clocktime Prop_Timezone TextFront TextActs TextParse TextRead NumClock IsoTranslate IsoClock ClockTranslate Prop_Timed Prop_Iso ZoneOffset IsoZone.

Lemma known_shape z : In z known_offsets -> offset_shape (lit z) = true.
Proof. revert z. apply Forall_forall. unfold known_offsets. repeat (apply Forall_cons; [vm_compute; reflexivity|]). constructor. Qed.
Lemma known_range z : In z known_offsets -> -86400 <= seconds_east (lit z) <= 86400.
Proof. assert (F : forallb (fun z => (-86400 <=? seconds_east (lit z)) && (seconds_east (lit z) <=? 86400)) known_offsets = true) by (vm_compute; reflexivity). intros HI. rewrite forallb_forall in F. specialize (F z HI). lia. Qed.

Lemma zone_result E D det p cfg ld order td tm ty d m y a b c sp sq tc k h mi sec per z :
  digits td -> digits tm -> digits ty -> (length td <= 2)%nat -> (length tm <= 2)%nat -> length ty = 4%nat ->
  number 0 td = d -> number 0 tm = m -> number 0 ty = y -> valid_date y m d -> 1000 <= y <= 9999 ->
  In order orders -> order_for E cfg ld = lit order ->
  (forall H, parts H td tm ty d m y -> ends E H [ADigit a; ADigit b; ADigit c] order (Some d) (Some m) (Some (ty, y)) None None) ->
  In (length a, length b, length c) date_lengths -> digits a -> digits b -> digits c -> (forall x, In x [a; b; c] -> x = td \/ x = tm \/ x = ty) ->
  In sp (lit "-/. ") -> In sq (lit "-/. ") -> (sp = 46 <-> sq = 46) ->
  tc = 84 \/ tc = 116 \/ tc = 32 ->
  clock k h mi sec 0 per -> Forall (fun c => 48 <= c <= 58) k ->
  In z known_offsets ->
  let s := a ++ sp :: b ++ sq :: c ++ tc :: k ++ lit z in
  iso_call E D det p cfg s ld ->
  let r := snd (parse E D det p cfg s []) in
  shows r y m d h mi sec 0 (if u_timeperiod cfg then per else PDay) (ld_name ld) /\ offset_of r = Some (seconds_east (lit z)).
Proof.
  intros Dd Dm Dy Ld Lm Ly Nd Nm Ny Hv Hy HOr HC HEnds DL D1 D2 D3 INA Hsp Hsq PQ Htc CK KF HZ s HO r.
  destruct (clock_groups k h mi sec 0 per CK KF) as (hw & ms & -> & Dh & Dms & NM & CL & _).
  assert (Sp : separator sp) by (unfold separator; cbn in Hsp; lia). assert (Sq : separator sq) by (unfold separator; cbn in Hsq; lia).
  destruct HO as [PC IT [SK SE] HNow HZone]. pose proof (pc_ascii _ _ _ _ _ _ _ PC) as UA.
  assert (ES : s = isotext a sp b sq c tc hw ms ++ lit z).
  { unfold s, isotext, three. repeat (rewrite <- app_assoc; cbn [app]). reflexivity. }
  assert (OK : timed_ok a sp b sq c hw ms) by (constructor; assumption). set (w := timed a sp b sq c hw ms).
  assert (VC : valid_clock h mi sec 0) by (eapply clock_range; exact CK).
  assert (PT : parse_time E (clock_text hw ms) = Some (mk_date 0 1 1 h mi sec 0 utc, per)).
  { apply (proj2 (C38_exact E (clock_text hw ms) (mk_date 0 1 1 h mi sec 0 utc) per)). split; [apply mk_date_wf|]. exists h, mi, sec, 0. assert (AK : asc (clock_text hw ms)) by (eapply clock_asc; exact OK). split; [|exact (tod_mk _ _ _ _ _ _ CK)].
    assert (trim_space (clock_text hw ms) = clock_text hw ms) as ->. { apply (trim_kind TDigit). apply forallb_forall. destruct (clock_tdigits a b c hw sp sq ms OK) as [_ F]. rewrite Forall_forall in F. exact F. }
    assert (to_upper (e_uni E) (clock_text hw ms) = clock_text hw ms) as ->; [|exact CK].
    unfold to_upper. rewrite asc_ascii by exact AK. rewrite <- (map_id (clock_text hw ms)) at 2. apply map_ext_in. intros x HX. rewrite Forall_forall in KF. apply KF in HX. unfold upperA, is_lowerA. destruct (_ && _) eqn:B; [lia|reflexivity]. }
  set (lcfg := inner E cfg ld). set (P := if u_timeperiod cfg then per else PDay). set (now := u_now (initiate (e_now E) cfg)). set (T := mk_date y m d h mi sec 0 (t_loc now)).
  assert (N3 : is_zero now = false /\ wf_time now /\ fixed (t_loc now) /\ -86400 <= z_off (l_base (t_loc now)) <= 86400).
  { destruct HNow as (M1 & M2 & M3 & M4 & M5). unfold now, initiate, uclone. cbn [u_now]. destruct (is_zero (u_now cfg)) eqn:Z.
    - split; [exact M1|]. split; [exact M2|]. split; [apply fixed_utc|]. cbn. lia.
    - split; [exact Z|]. split; [exact M3|]. split; [exact M4|]. lia. }
  destruct N3 as (N1 & N2 & N3 & N4).
  assert (PP : P = PSecond \/ P = PMinute \/ P = PHour \/ P = PDay) by (unfold P; destruct (u_timeperiod cfg); [|auto]; destruct (parse_time_per _ _ _ _ PT) as [-> | [-> | ->]]; auto).
  assert (CU : current lcfg now) by (constructor; [reflexivity|assumption..]).
  pose proof (known_shape z HZ) as SH. rewrite ES in PC. destruct (z_parse E UA a b c hw sp sq tc ms OK Htc (lit z) SH D det p cfg ld PC IT SK SE (ex_intro _ z (conj HZ eq_refl))) as (od & OO & ON & IP).
  fold lcfg in IP. fold w in IP.
  assert (AP : absolute_parse E lcfg w od = Ok (mkd P T)).
  { assert (OC : c_order lcfg = lit order) by (cbn [lcfg inner with_order c_order]; exact HC).
    pose proof (reads_with E lcfg order d m ty y a sp b sq c hw ms (mk_date 0 1 1 h mi sec 0 utc) per UA OC HOr) as RD.
    specialize (RD (HEnds _ (greg_parts E td tm ty d m y Dd Dm Dy Ld Lm Ly Nd Nm Ny Hv ltac:(lia) ltac:(lia))) OK NM PT).
    destruct (mk_date_clock 0 1 1 h mi sec 0 utc fixed_utc ltac:(lia) VC) as (E1 & E2 & E3 & E4). rewrite E1, E2, E3, E4 in RD.
    rewrite (abs_timed E lcfg w _ now od d m ty y h mi sec 0 per RD CU eq_refl Hv ltac:(lia) ltac:(unfold slen; lia)). change (c_timeperiod lcfg) with (u_timeperiod cfg). unfold P, T.
    destruct (u_timeperiod cfg); [|reflexivity]. destruct (parse_time_per _ _ _ _ PT) as [-> | [-> | ->]]; reflexivity. }
  pose proof (known_range z HZ) as OL. rewrite <- OO in OL. set (l := fixed_zone (od_name od) (od_off od)). assert (FL : fixed l) by apply fixed_fixed_zone.
  assert (EA : apply_timezone lcfg (mkd P T) od = mkd P (mk_date y m d h mi sec 0 l)).
  { unfold apply_timezone. assert (date_is_zero (mkd P T) = false) as ->.
    { unfold date_is_zero. cbn [d_period d_time mkd]. unfold T. rewrite timed_not_zero by (assumption || lia). destruct PP as [-> | [-> | [-> | ->]]]; reflexivity. }
    rewrite ON. cbn [orb andb negb d_time mkd with_time d_locale d_period].
    destruct (mk_date_clock y m d h mi sec 0 (t_loc now) N3 (proj1 Hv) VC) as (E1 & E2 & E3 & E4). fold T in E1, E2, E3, E4. rewrite E1, E2, E3, E4.
    pose proof (mk_date_year y m d h mi sec 0 (t_loc now) N3 Hv VC) as Y1. pose proof (mk_date_month y m d h mi sec 0 (t_loc now) N3 Hv VC) as Y2. pose proof (mk_date_day y m d h mi sec 0 (t_loc now) N3 Hv VC) as Y3. fold T in Y1, Y2, Y3. rewrite Y1, Y2, Y3. reflexivity. }
  specialize (IP _ AP). rewrite EA in IP.
  assert (ZA : date_is_zero (mkd P (mk_date y m d h mi sec 0 l)) = false).
  { unfold date_is_zero. cbn [d_period d_time mkd]. rewrite timed_not_zero by (first [assumption|cbn [l_base l fixed_zone z_off]; lia|lia]). destruct PP as [-> | [-> | [-> | ->]]]; reflexivity. }
  specialize (IP ZA). unfold r. rewrite ES, IP. split; [now apply timed_shows|].
  unfold offset_of, with_locale. cbn [d_time mkd]. f_equal. rewrite <- OO. unfold utc_offset. change (z_off (zone_of (mk_date y m d h mi sec 0 l))) with (off_at l (t_sec (mk_date y m d h mi sec 0 l))). now rewrite (off_at_fixed l _ FL).
Qed.

(** A date in the form of ISO 8601, year-month-day, the letter T (or t), and a time of day in digits and colons ("2014-10-09T08:07:06", "2014-10-9t8:07";
    see C38 for [clock]) is that day at that time, in every locale whose order of day, month and year (given by DateOrder or the locale's own) has
    the month before the day; the period is day, or the resolution of the time of day if ReturnTimeAsPeriod is set. *)
Theorem C66_iso_offsets : forall E D det p cfg ld order td tm ty d m y tc k h mi sec per z,
  digits td -> digits tm -> digits ty -> (length td <= 2)%nat -> (length tm <= 2)%nat -> length ty = 4%nat ->
  number 0 td = d -> number 0 tm = m -> number 0 ty = y -> valid_date y m d -> 1000 <= y <= 9999 ->
  In order ["MDY"; "MYD"; "YMD"]%string -> order_for E cfg ld = lit order ->
  In tc (lit "Tt ") -> clock k h mi sec 0 per -> Forall (fun c => 48 <= c <= 58) k ->
  In z known_offsets ->
  let s := ty ++ lit "-" ++ tm ++ lit "-" ++ td ++ tc :: k ++ lit z in
  iso_call E D det p cfg s ld ->
  let r := snd (parse E D det p cfg s []) in
  shows r y m d h mi sec 0 (if u_timeperiod cfg then per else PDay) (ld_name ld) /\ offset_of r = Some (seconds_east (lit z)).
Proof.
  intros E D det p cfg ld order td tm ty d m y tc k h mi sec per z Dd Dm Dy Ld Lm Ly Nd Nm Ny Hv Hy HOr HC Htc CK KF HZ s HO.
  assert (L12 : forall x, digits x -> (length x <= 2)%nat -> length x = 1%nat \/ length x = 2%nat) by (intros x [N _] L; destruct x as [|? [|? [|? ?]]]; cbn [length] in *; auto; try lia; congruence).
  assert (NE : forall x, (length x <= 2)%nat -> x <> ty) by (intros x L ->; lia).
  apply (zone_result E D det p cfg ld order td tm ty d m y ty tm td 45 45 tc k h mi sec per z); auto.
  - cbn [In orders] in *. tauto.
  - intros H HP. now apply ends_year_first.
  - rewrite Ly. destruct (L12 td Dd Ld) as [-> | ->], (L12 tm Dm Lm) as [-> | ->]; vm_compute; tauto.
  - cbn [In]. intros x [<-|[<-|[<-|[]]]]; auto.
  - vm_compute; tauto.
  - vm_compute; tauto.
  - lia.
  - cbn in Htc. lia.
Qed.
Print Assumptions C66_iso_offsets.

(** The same for the numbers in the order of day, month and year of the locale, with the separators of C09. *)
Theorem C66_numeric_dates_with_offset : forall E D det p cfg ld order td tm ty d m y a b c sp sq tc k h mi sec per z,
  digits td -> digits tm -> digits ty -> (length td <= 2)%nat -> (length tm <= 2)%nat -> length ty = 4%nat ->
  number 0 td = d -> number 0 tm = m -> number 0 ty = y -> valid_date y m d -> 1000 <= y <= 9999 ->
  In order ["DMY"; "DYM"; "MDY"; "MYD"; "YDM"; "YMD"]%string -> order_for E cfg ld = lit order ->
  map (fun c => if c =? 68 then td else if c =? 77 then tm else ty) (lit order) = [a; b; c] ->
  In sp (lit "-/. ") -> In sq (lit "-/. ") -> (sp = 46 <-> sq = 46) ->
  In tc (lit "Tt ") -> clock k h mi sec 0 per -> Forall (fun c => 48 <= c <= 58) k ->
  In z known_offsets ->
  let s := a ++ sp :: b ++ sq :: c ++ tc :: k ++ lit z in
  iso_call E D det p cfg s ld ->
  let r := snd (parse E D det p cfg s []) in
  shows r y m d h mi sec 0 (if u_timeperiod cfg then per else PDay) (ld_name ld) /\ offset_of r = Some (seconds_east (lit z)).
Proof.
  intros E D det p cfg ld order td tm ty d m y a b c sp sq tc k h mi sec per z Dd Dm Dy Ld Lm Ly Nd Nm Ny Hv Hy HOr HC HA Hsp Hsq PQ Htc CK KF HZ s HO.
  assert (Q : forall x y z u v w : str, [x; y; z] = [u; v; w] -> x = u /\ y = v /\ z = w) by (intros; repeat split; congruence).
  assert (L12 : forall x, digits x -> (length x <= 2)%nat -> length x = 1%nat \/ length x = 2%nat) by (intros x [N _] L; destruct x as [|? [|? [|? ?]]]; cbn [length] in *; auto; try lia; congruence).
  assert (DL : In (length a, length b, length c) date_lengths /\ digits a /\ digits b /\ digits c /\ (a = ty -> b <> ty /\ c <> ty)).
  { assert (NE : forall x, (length x <= 2)%nat -> x <> ty) by (intros x L ->; lia). pose proof (NE td Ld) as NE1. pose proof (NE tm Lm) as NE2. apply L12 in Ld; [|exact Dd]. apply L12 in Lm; [|exact Dm]. cbn [In] in HOr.
    destruct HOr as [<-|[<-|[<-|[<-|[<-|[<-|[]]]]]]]; cbn in HA; apply Q in HA as (<- & <- & <-); (split; [rewrite Ly; destruct Ld as [-> | ->], Lm as [-> | ->]; vm_compute; tauto|]); do 3 (split; [assumption|]); intros ?; split; congruence. }
  destruct DL as (DL & D1 & D2 & D3 & NB).
  apply (zone_result E D det p cfg ld order td tm ty d m y a b c sp sq tc k h mi sec per z); auto.
  - intros H HP. eapply ends_three; eassumption.
  - rewrite <- HA. intros x Hx. apply in_map_iff in Hx as (g & <- & _). destruct (g =? 68); [auto|]. destruct (g =? 77); auto.
  - cbn in Htc. lia.
Qed.
Print Assumptions C66_numeric_dates_with_offset.

(** ** The library with its own tables and no DateOrder, in English (the language tried first) *)
From Verif Require Import TextResult Prop_Words Prop_Words2 LocaleAll Prop_Vocabulary.
From Verif Require Import TextResult Prop_Words Prop_Words2 LocaleAll Prop_Vocabulary.
Theorem C66_library : forall E p cfg td tm ty d m y tc k h mi sec per z,
  library_call E p cfg -> u_order cfg = None ->
  digits td -> digits tm -> digits ty -> (length td <= 2)%nat -> (length tm <= 2)%nat -> length ty = 4%nat ->
  number 0 td = d -> number 0 tm = m -> number 0 ty = y -> valid_date y m d -> 1000 <= y <= 9999 ->
  In tc (lit "Tt ") -> clock k h mi sec 0 per -> Forall (fun c => 48 <= c <= 58) k -> In z known_offsets ->
  let r := snd (parse E full_db None p cfg (ty ++ lit "-" ++ tm ++ lit "-" ++ td ++ tc :: k ++ lit z) []) in
  shows r y m d h mi sec 0 (if u_timeperiod cfg then per else PDay) (lit "en") /\ offset_of r = Some (seconds_east (lit z)).
Proof.
  intros E p cfg td tm ty d m y tc k h mi sec per z HC HO Dd Dm Dy Ld Lm Ly Nd Nm Ny Hv Hy Htc CK KF HZ.
  apply (C66_iso_offsets E full_db None p cfg loc_en "MDY" td tm ty d m y tc k h mi sec per z); auto; [now left| |now apply library_iso].
  unfold order_for. rewrite HO. reflexivity.
Qed.
Print Assumptions C66_library.

Definition go_zone (s : string) : res ret := snd (parse env0 full_db None (new_parser []) (mkcfg [] [] (utc_at 2016 2 28 10 0 0) Past 0 0) (lit s) []).
Example C66_case : shows (go_zone "2014-10-09T08:07:06+02:00") 2014 10 9 8 7 6 0 PDay (lit "en") /\ offset_of (go_zone "2014-10-09T08:07:06+02:00") = Some 7200.
Proof.
  change (Some 7200) with (Some (seconds_east (lit "+02:00"))).
  apply (C66_library env0 (new_parser []) (mkcfg [] [] (utc_at 2016 2 28 10 0 0) Past 0 0) (lit "09") (lit "10") (lit "2014") 9 10 2014 84 (lit "08:07:06") 8 7 6 PSecond "+02:00" library_case).
  - reflexivity.
  - apply digits_by; reflexivity.
  - apply digits_by; reflexivity.
  - apply digits_by; reflexivity.
  - cbn; lia.
  - cbn; lia.
  - reflexivity.
  - reflexivity.
  - reflexivity.
  - reflexivity.
  - unfold valid_date; vm_compute; repeat split; discriminate.
  - lia.
  - now left.
  - apply (hms (lit "08") 8 (lit "07") 7 (lit "06") 6 [] 0).
    all: try (split; [apply digits_by; reflexivity|split; [cbn; lia|reflexivity]]). all: try lia. left; auto.
  - apply Forall_forall. intros x HX. cbn in HX. lia.
  - unfold known_offsets. cbn [In]. repeat (first [left; reflexivity|right]).
Qed.
(** the offsets of the library matter: RFC 3339 allows any, and one that is not among them is read as a second time of day, without a time zone or an error *)
Definition rfc3339_reads (off : string) (sec : Z) : Prop := let r := go_zone ("2014-10-09T08:07:06" ++ off) in shows r 2014 10 9 8 7 6 0 PDay (lit "en") /\ offset_of r = Some sec.
Theorem C66_known_offsets_needed : exists off, offset_shape (lit off) = true /\ ~ In off known_offsets /\ ~ rfc3339_reads off (seconds_east (lit off)) /\
  shows (go_zone ("2014-10-09T08:07:06" ++ off)) 2014 10 9 4 15 0 0 PDay (lit "en").
Proof.
  exists "+04:15"%string. split; [reflexivity|]. split; [unfold known_offsets; cbn [In]; intuition discriminate|].
  assert (S : shows (go_zone ("2014-10-09T08:07:06" ++ "+04:15")) 2014 10 9 4 15 0 0 PDay (lit "en")) by (apply shows_by; vm_compute; reflexivity). split; [|exact S].
  intros [(dt & ER & _ & _ & _ & HH & _) _]. destruct S as (dt' & ER' & _ & _ & _ & HH' & _). rewrite ER in ER'. assert (dt = dt') as -> by congruence. congruence.
Qed.
Print Assumptions C66_known_offsets_needed.
(** day first, with DateOrder *)
Lemma dmy_case : library_call env0 (new_parser []) (mkcfg [] (lit "DMY") (utc_at 2016 2 28 10 0 0) Past 0 0).
Proof.
  constructor; [exact uni0_ascii|exact tz_source_is_order|reflexivity|now left|vm_compute; reflexivity|left; repeat split; reflexivity|reflexivity| |].
  - split; [vm_compute; reflexivity|]. split; [unfold wf_time; vm_compute; split; [discriminate|reflexivity]|]. split; [unfold wf_time; vm_compute; split; [discriminate|reflexivity]|]. split; [apply fixed_utc|vm_compute; discriminate].
  - intros l sec X. discriminate X.
Qed.
Example C66_numeric_case : let r := snd (parse env0 full_db None (new_parser []) (mkcfg [] (lit "DMY") (utc_at 2016 2 28 10 0 0) Past 0 0) (lit "9.10.2014 18:07-03:30") []) in
  shows r 2014 10 9 18 7 0 0 PDay (lit "en") /\ offset_of r = Some (-12600).
Proof.
  change (Some (-12600)) with (Some (seconds_east (lit "-03:30"))).
  apply (C66_numeric_dates_with_offset env0 full_db None (new_parser []) (mkcfg [] (lit "DMY") (utc_at 2016 2 28 10 0 0) Past 0 0) loc_en "DMY" (lit "9") (lit "10") (lit "2014") 9 10 2014 (lit "9") (lit "10") (lit "2014") 46 46 32 (lit "18:07") 18 7 0 PMinute "-03:30").
  - apply digits_by; reflexivity.
  - apply digits_by; reflexivity.
  - apply digits_by; reflexivity.
  - cbn; lia.
  - cbn; lia.
  - reflexivity.
  - reflexivity.
  - reflexivity.
  - reflexivity.
  - unfold valid_date; vm_compute; repeat split; discriminate.
  - lia.
  - now left.
  - reflexivity.
  - reflexivity.
  - cbn [In]; cbn; tauto.
  - cbn; tauto.
  - tauto.
  - cbn; tauto.
  - apply (hm (lit "18") 18 (lit "07") 7).
    all: try (split; [apply digits_by; reflexivity|split; [cbn; lia|reflexivity]]). all: try lia.
  - apply Forall_forall. intros x HX. cbn in HX. lia.
  - unfold known_offsets. cbn [In]. repeat (first [left; reflexivity|right]).
  - apply library_iso, dmy_case.
Qed.
