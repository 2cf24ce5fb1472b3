(** C65: dates and times in the form of ISO 8601 *)
From Coq Require Import ZifyBool.
From Verif Require Import GoBase SMap Regex Civil GoTime GoTimeFacts GoTimeParse Setting Strutil Dateutil DateutilFacts Tokenizer Timezone Env Common Timestamp Formatted Relative Absolute
  Language Parser ParserFacts History Shows Concrete LocaleData Spec AbsSpec AbsFacts AbsFacts2 AbsFacts3 AbsFacts4 RegexFacts NumericFacts NumTranslate NumParse NumLift Prop_Total Prop_Parser Prop_Absolute Prop_Numeric
  Prop_Clocktime TextFront TextActs TextParse TextRead NumClock IsoTranslate IsoClock ClockTranslate Prop_Timed.

(** year, month and day in this order, read with an order that has the month before the day *)
Lemma ends_year_first E H order td tm ty d m y : In order ["MDY"; "MYD"; "YMD"]%string -> parts H td tm ty d m y ->
  ends E H [ADigit ty; ADigit tm; ADigit td] order (Some d) (Some m) (Some (ty, y)) None None.
Proof.
  intros HO HP. pose proof HP as [Pd Pm Py Nd Nm Ny L4 Yd Ym]. apply Z.eqb_neq in Nd, Nm, Ny. apply Z.eqb_eq in L4.
  assert (X : exists a1 a2 a3, dstep H (dirs_of order) ty ast0 = Some a1 /\ dstep H (dirs_of order) tm a1 = Some a2 /\ dstep H (dirs_of order) td a2 = Some a3 /\ final td tm ty d m y a3).
  { destruct HO as [<-|[<-|[<-|[]]]].
    all: match goal with |- context [dirs_of ?o] => let x := eval vm_compute in (dirs_of o) in change (dirs_of o) with x end.
    all: unfold dstep; destruct (h_value H CDay tm "2") eqn:Dm, (h_value H CMonth td "1") eqn:Md.
    all: do 3 eexists.
    all: repeat (split; [
      repeat (cbn [digit_token digit_directives a_skipyear ast0 a_vals a_toks cget cm0 cm_day cm_month cm_year cm_wd comp_eqb andb orb set_tok add_unset save_result fold_left fst snd cset tk_type tk_text ttype_eqb];
        rewrite ?Pd, ?Pm, ?Py, ?Nd, ?Nm, ?Ny, ?L4, ?Yd, ?Ym, ?Dm, ?Md; rewrite ?Z.eqb_refl, ?andb_false_r); reflexivity|]).
    all: repeat split. }
  destruct X as (a1 & a2 & a3 & S1 & S2 & S3 & HF). exists a3. split.
  - cbn [run_acts act]. unfold dstep in S1, S2, S3. destruct (digit_token H ast0 ty (dirs_of order)) as [[b1 r1]|]; [|discriminate S1]. apply some_inj in S1. rewrite S1.
    destruct (digit_token H a1 tm (dirs_of order)) as [[b2 r2]|]; [|discriminate S2]. apply some_inj in S2. rewrite S2. destruct (digit_token H a2 td (dirs_of order)) as [[b3 r3]|]; [|discriminate S3]. apply some_inj in S3. now rewrite S3.
  - rewrite (fallback_final _ _ _ _ _ _ _ HF). destruct HF as (F1 & F2 & F3 & F4). rewrite F1, F2, F3. repeat split.
Qed.

(** An ordinary call of Parse whose first locale is [ld]; its tables, except for the letter t, take nothing of digits, separators, colons and t,
    and the words to skip have the letter t (the default is this letter only) and no other word of these characters. *)
Record iso_call (E : env) (D : langdb) (det : option (str -> list str)) (p : pstate) (cfg : uconfig) (s : str) (ld : locale) : Prop := {
  ic_plain : plain_call E D det p cfg s ld;
  ic_table : iso_locale ld = true;
  ic_skip : iso_skip (skipping cfg) /\ ~ In [] (skipping cfg);
  ic_now : is_zero (e_now E) = false /\ wf_time (e_now E) /\ wf_time (u_now cfg) /\ fixed (t_loc (u_now cfg)) /\ Z.abs (z_off (l_base (t_loc (u_now cfg)))) <= 86400;
  ic_zone : forall l sec, u_tz cfg = Some l -> Z.abs (z_off (zone_at l sec)) <= 86400 }.

Lemma reads_with E cfg order d m ty y A p B q C h ms t per : uni_ascii (e_uni E) -> c_order cfg = lit order -> In order orders ->
  ends E (greg_hooks E) [ADigit A; ADigit B; ADigit C] order (Some d) (Some m) (Some (ty, y)) None None ->
  timed_ok A p B q C h ms -> ms <> [] -> parse_time E (clock_text h ms) = Some (t, per) ->
  reads E cfg (timed A p B q C h ms) {| r_day := Some d; r_month := Some m; r_year := Some (ty, y); r_weekday := None; r_clock := Some (hour t, minute t, second t, nanosecond t, per) |}.
Proof.
  intros UA HC HO HE HT NM PT. pose proof (ends_time E (greg_hooks E) _ order _ _ _ _ _ (clock_text h ms) HE) as (a & R & K1 & K2 & K3 & K4 & K5 & K6).
  destruct (init_acts E (greg_hooks E) cfg (timed A p B q C h ms) a) as (k & HI).
  - now apply timed_asc.
  - now apply timed_spaced.
  - rewrite HC, (number_directives_lit E order HO), (actions_timed E UA A B C h p q ms HT NM). exact R.
  - exists (skips k (fallback a)). split; [exact HI|]. cbn [skips a_vals a_toks a_time r_day r_month r_year r_weekday r_clock]. rewrite K1, K2, K3, K4, K5. repeat (split; [reflexivity|]).
    destruct (a_time (fallback a)) as [tk|]; [|discriminate K6]. cbn [option_map] in K6. apply some_inj in K6. rewrite K6. eauto.
Qed.

Lemma iso_result E D det p cfg ld order td tm ty d m y a b c sp sq tc k h mi sec per :
  digits td -> digits tm -> digits ty -> (length td <= 2)%nat -> (length tm <= 2)%nat -> length ty = 4%nat ->
  number 0 td = d -> number 0 tm = m -> number 0 ty = y -> valid_date y m d -> 1000 <= y <= 9999 ->
  In order orders -> order_for E cfg ld = lit order ->
  (forall H, parts H td tm ty d m y -> ends E H [ADigit a; ADigit b; ADigit c] order (Some d) (Some m) (Some (ty, y)) None None) ->
  In (length a, length b, length c) date_lengths -> digits a -> digits b -> digits c -> (forall x, In x [a; b; c] -> x = td \/ x = tm \/ x = ty) ->
  In sp (lit "-/. ") -> In sq (lit "-/. ") -> (sp = 46 <-> sq = 46) ->
  (In y [1000; 1100; 1200] -> (b <> ty /\ c <> ty) \/ (sp <> 45 /\ sq <> 45)) ->
  tc = 84 \/ tc = 116 ->
  clock k h mi sec 0 per -> Forall (fun c => 48 <= c <= 58) k ->
  let s := a ++ sp :: b ++ sq :: c ++ tc :: k in
  iso_call E D det p cfg s ld ->
  shows (snd (parse E D det p cfg s [])) y m d h mi sec 0 (if u_timeperiod cfg then per else PDay) (ld_name ld).
Proof.
  intros Dd Dm Dy Ld Lm Ly Nd Nm Ny Hv Hy HOr HC HEnds DL D1 D2 D3 INA Hsp Hsq PQ HTZ Htc CK KF s HO.
  destruct (clock_groups k h mi sec 0 per CK KF) as (hw & ms & -> & Dh & Dms & NM & CL & _).
  assert (Sp : separator sp) by (unfold separator; cbn in Hsp; lia). assert (Sq : separator sq) by (unfold separator; cbn in Hsq; lia).
  destruct HO as [PC IT [SK SE] HNow HZone]. pose proof (pc_ascii _ _ _ _ _ _ _ PC) as UA.
  assert (ES : s = isotext a sp b sq c tc hw ms) by (unfold s, isotext, three; rewrite <- app_assoc; cbn [app]; now rewrite <- app_assoc).
  assert (OK : timed_ok a sp b sq c hw ms) by (constructor; assumption). set (w := timed a sp b sq c hw ms).
  assert (TZ : etz_pop E w = (w, od_zero)).
  { apply (timed_no_tz E UA a b c hw sp sq ms OK). intros Y HY HI. destruct (tz_form _ HI) as (x & EX & Dx & Lx). assert (x = Y) as -> by congruence. clear EX.
    pose proof tz_years as TY. rewrite forallb_forall in TY. specialize (TY _ HI). cbv beta iota in TY.
    assert (Y = ty) as ->. { destruct (INA Y) as [-> | [-> | ->]]; [destruct HY as [[-> _]|[-> _]]; cbn; auto|lia|lia|reflexivity]. }
    rewrite Ny in TY. assert (IY : In y [1000; 1100; 1200]) by (cbn [existsb] in TY; cbn [In]; lia). specialize (HTZ IY). destruct HTZ as [[N1 N2] | [N1 N2]]; destruct HY as [[? ?]|[? ?]]; congruence. }
  assert (VC : valid_clock h mi sec 0) by (eapply clock_range; exact CK).
  assert (PT : parse_time E (clock_text hw ms) = Some (mk_date 0 1 1 h mi sec 0 utc, per)).
  { apply (proj2 (C38_exact E (clock_text hw ms) (mk_date 0 1 1 h mi sec 0 utc) per)). split; [apply mk_date_wf|]. exists h, mi, sec, 0. assert (AK : asc (clock_text hw ms)) by (eapply clock_asc; exact OK). split; [|exact (tod_mk _ _ _ _ _ _ CK)].
    assert (trim_space (clock_text hw ms) = clock_text hw ms) as ->. { apply (trim_kind TDigit). apply forallb_forall. destruct (clock_tdigits a b c hw sp sq ms OK) as [_ F]. rewrite Forall_forall in F. exact F. }
    assert (to_upper (e_uni E) (clock_text hw ms) = clock_text hw ms) as ->; [|exact CK].
    unfold to_upper. rewrite asc_ascii by exact AK. rewrite <- (map_id (clock_text hw ms)) at 2. apply map_ext_in. intros z HZ. rewrite Forall_forall in KF. apply KF in HZ. unfold upperA, is_lowerA. destruct (_ && _) eqn:B; [lia|reflexivity]. }
  set (lcfg := inner E cfg ld). set (P := if u_timeperiod cfg then per else PDay). set (now := u_now (initiate (e_now E) cfg)). set (T := mk_date y m d h mi sec 0 (t_loc now)).
  assert (N3 : is_zero now = false /\ wf_time now /\ fixed (t_loc now) /\ -86400 <= z_off (l_base (t_loc now)) <= 86400).
  { destruct HNow as (M1 & M2 & M3 & M4 & M5). unfold now, initiate, uclone. cbn [u_now]. destruct (is_zero (u_now cfg)) eqn:Z.
    - split; [exact M1|]. split; [exact M2|]. split; [apply fixed_utc|]. cbn. lia.
    - split; [exact Z|]. split; [exact M3|]. split; [exact M4|]. lia. }
  destruct N3 as (N1 & N2 & N3 & N4).
  assert (AT : exists l, fixed l /\ apply_timezone lcfg (mkd P T) od_zero = mkd P (mk_date y m d h mi sec 0 l) /\ -86400 <= z_off (l_base l) <= 86400).
  { unfold apply_timezone. destruct (date_is_zero (mkd P T) || _) eqn:Cz; [exists (t_loc now); auto|]. apply orb_false_iff in Cz as [_ Cz]. change (od_is_zero od_zero) with true in *. cbn [andb negb] in *.
    change (c_tz lcfg) with (u_tz cfg) in *. destruct (u_tz cfg) as [l|] eqn:TZ2; [|discriminate Cz]. pose proof (HZone l (t_sec T) eq_refl) as OZ. cbn [d_time mkd with_time d_locale d_period].
    exists (fixed_zone (z_name (zone_at l (t_sec T))) (z_off (zone_at l (t_sec T)))). split; [apply fixed_fixed_zone|]. split; [|cbn [l_base fixed_zone z_off]; lia].
    destruct (mk_date_clock y m d h mi sec 0 (t_loc now) N3 (proj1 Hv) VC) as (E1 & E2 & E3 & E4). fold T in E1, E2, E3, E4. rewrite E1, E2, E3, E4.
    pose proof (mk_date_year y m d h mi sec 0 (t_loc now) N3 Hv VC) as Y1. pose proof (mk_date_month y m d h mi sec 0 (t_loc now) N3 Hv VC) as Y2. pose proof (mk_date_day y m d h mi sec 0 (t_loc now) N3 Hv VC) as Y3. fold T in Y1, Y2, Y3. rewrite Y1, Y2, Y3. reflexivity. }
  destruct AT as (l & FL & EA & OL).
  assert (PP : P = PSecond \/ P = PMinute \/ P = PHour \/ P = PDay) by (unfold P; destruct (u_timeperiod cfg); [|auto]; destruct (parse_time_per _ _ _ _ PT) as [-> | [-> | ->]]; auto).
  assert (ZA : date_is_zero (mkd P (mk_date y m d h mi sec 0 l)) = false).
  { unfold date_is_zero. cbn [d_period d_time mkd]. rewrite timed_not_zero by (assumption || lia). destruct PP as [-> | [-> | [-> | ->]]]; reflexivity. }
  assert (CU : current lcfg now) by (constructor; [reflexivity|assumption..]).
  assert (AP : absolute_parse E lcfg w od_zero = Ok (mkd P T)).
  { assert (OC : c_order lcfg = lit order) by (cbn [lcfg inner with_order c_order]; exact HC).
    pose proof (reads_with E lcfg order d m ty y a sp b sq c hw ms (mk_date 0 1 1 h mi sec 0 utc) per UA OC HOr) as RD.
    specialize (RD (HEnds _ (greg_parts E td tm ty d m y Dd Dm Dy Ld Lm Ly Nd Nm Ny Hv ltac:(lia) ltac:(lia))) OK NM PT).
    destruct (mk_date_clock 0 1 1 h mi sec 0 utc fixed_utc ltac:(lia) VC) as (E1 & E2 & E3 & E4). rewrite E1, E2, E3, E4 in RD.
    rewrite (abs_timed E lcfg w _ now od_zero d m ty y h mi sec 0 per RD CU eq_refl Hv ltac:(lia) ltac:(unfold slen; lia)). change (c_timeperiod lcfg) with (u_timeperiod cfg). unfold P, T.
    destruct (u_timeperiod cfg); [|reflexivity]. destruct (parse_time_per _ _ _ _ PT) as [-> | [-> | ->]]; reflexivity. }
  rewrite ES in PC |- *. pose proof (iso_parse E UA a b c hw sp sq tc ms OK Htc D det p cfg ld PC IT SK SE (mkd P T) TZ AP) as IP. fold lcfg in IP. rewrite EA in IP. rewrite (IP ZA). now apply timed_shows.
Qed.

(** A date in the form of ISO 8601, year-month-day, the letter T (or t), and a time of day in digits and colons ("2014-10-09T08:07:06", "2014-10-9t8:07";
    see C38 for [clock]) is that day at that time, in every locale whose order of day, month and year (given by DateOrder or the locale's own) has
    the month before the day; the period is day, or the resolution of the time of day if ReturnTimeAsPeriod is set. *)
Theorem C65_iso_date_times : forall E D det p cfg ld order td tm ty d m y tc k h mi sec per,
  digits td -> digits tm -> digits ty -> (length td <= 2)%nat -> (length tm <= 2)%nat -> length ty = 4%nat ->
  number 0 td = d -> number 0 tm = m -> number 0 ty = y -> valid_date y m d -> 1000 <= y <= 9999 ->
  In order ["MDY"; "MYD"; "YMD"]%string -> order_for E cfg ld = lit order ->
  In tc (lit "Tt") -> clock k h mi sec 0 per -> Forall (fun c => 48 <= c <= 58) k ->
  let s := ty ++ lit "-" ++ tm ++ lit "-" ++ td ++ tc :: k in
  iso_call E D det p cfg s ld ->
  shows (snd (parse E D det p cfg s [])) y m d h mi sec 0 (if u_timeperiod cfg then per else PDay) (ld_name ld).
Proof.
  intros E D det p cfg ld order td tm ty d m y tc k h mi sec per Dd Dm Dy Ld Lm Ly Nd Nm Ny Hv Hy HOr HC Htc CK KF s HO.
  assert (L12 : forall x, digits x -> (length x <= 2)%nat -> length x = 1%nat \/ length x = 2%nat) by (intros x [N _] L; destruct x as [|? [|? [|? ?]]]; cbn [length] in *; auto; try lia; congruence).
  assert (NE : forall x, (length x <= 2)%nat -> x <> ty) by (intros x L ->; lia).
  apply (iso_result E D det p cfg ld order td tm ty d m y ty tm td 45 45 tc k h mi sec per); auto.
  - cbn [In orders] in *. tauto.
  - intros H HP. now apply ends_year_first.
  - rewrite Ly. destruct (L12 td Dd Ld) as [-> | ->], (L12 tm Dm Lm) as [-> | ->]; vm_compute; tauto.
  - cbn [In]. intros x [<-|[<-|[<-|[]]]]; auto.
  - vm_compute; tauto.
  - vm_compute; tauto.
  - lia.
  - cbn in Htc. lia.
Qed.
Print Assumptions C65_iso_date_times.

(** The same for the numbers in the order of day, month and year of the locale, with the separators of C09. *)
Theorem C65_numeric_dates_with_t : forall E D det p cfg ld order td tm ty d m y a b c sp sq tc k h mi sec per,
  digits td -> digits tm -> digits ty -> (length td <= 2)%nat -> (length tm <= 2)%nat -> length ty = 4%nat ->
  number 0 td = d -> number 0 tm = m -> number 0 ty = y -> valid_date y m d -> 1000 <= y <= 9999 ->
  In order ["DMY"; "DYM"; "MDY"; "MYD"; "YDM"; "YMD"]%string -> order_for E cfg ld = lit order ->
  map (fun c => if c =? 68 then td else if c =? 77 then tm else ty) (lit order) = [a; b; c] ->
  In sp (lit "-/. ") -> In sq (lit "-/. ") -> (sp = 46 <-> sq = 46) ->
  (In y [1000; 1100; 1200] -> a = ty \/ (sp <> 45 /\ sq <> 45)) ->
  In tc (lit "Tt") -> clock k h mi sec 0 per -> Forall (fun c => 48 <= c <= 58) k ->
  let s := a ++ sp :: b ++ sq :: c ++ tc :: k in
  iso_call E D det p cfg s ld ->
  shows (snd (parse E D det p cfg s [])) y m d h mi sec 0 (if u_timeperiod cfg then per else PDay) (ld_name ld).
Proof.
  intros E D det p cfg ld order td tm ty d m y a b c sp sq tc k h mi sec per Dd Dm Dy Ld Lm Ly Nd Nm Ny Hv Hy HOr HC HA Hsp Hsq PQ HTZ Htc CK KF s HO.
  assert (Q : forall x y z u v w : str, [x; y; z] = [u; v; w] -> x = u /\ y = v /\ z = w) by (intros; repeat split; congruence).
  assert (L12 : forall x, digits x -> (length x <= 2)%nat -> length x = 1%nat \/ length x = 2%nat) by (intros x [N _] L; destruct x as [|? [|? [|? ?]]]; cbn [length] in *; auto; try lia; congruence).
  assert (DL : In (length a, length b, length c) date_lengths /\ digits a /\ digits b /\ digits c /\ (a = ty -> b <> ty /\ c <> ty)).
  { assert (NE : forall x, (length x <= 2)%nat -> x <> ty) by (intros x L ->; lia). pose proof (NE td Ld) as NE1. pose proof (NE tm Lm) as NE2. apply L12 in Ld; [|exact Dd]. apply L12 in Lm; [|exact Dm]. cbn [In] in HOr.
    destruct HOr as [<-|[<-|[<-|[<-|[<-|[<-|[]]]]]]]; cbn in HA; apply Q in HA as (<- & <- & <-); (split; [rewrite Ly; destruct Ld as [-> | ->], Lm as [-> | ->]; vm_compute; tauto|]); do 3 (split; [assumption|]); intros ?; split; congruence. }
  destruct DL as (DL & D1 & D2 & D3 & NB).
  apply (iso_result E D det p cfg ld order td tm ty d m y a b c sp sq tc k h mi sec per); auto.
  - intros H HP. eapply ends_three; eassumption.
  - rewrite <- HA. intros x Hx. apply in_map_iff in Hx as (z & <- & _). destruct (z =? 68); [auto|]. destruct (z =? 77); auto.
  - intros IY. destruct (HTZ IY) as [->|]; auto.
  - cbn in Htc. lia.
Qed.
Print Assumptions C65_numeric_dates_with_t.

(** ** The library with its own tables and no DateOrder, in English (the language tried first) *)
From Verif Require Import TextResult Prop_Words Prop_Words2 LocaleAll Prop_Vocabulary.
Lemma en_iso : iso_locale loc_en = true.
Proof. vm_compute. reflexivity. Qed.
Lemma library_iso E p cfg s : library_call E p cfg -> iso_call E full_db None p cfg s loc_en.
Proof.
  intros HC. pose proof (library_english E p cfg s HC) as [PC _ HN HZ]. constructor; [exact PC|exact en_iso| |exact HN|exact HZ].
  unfold skipping. rewrite (lc_skip _ _ _ HC). split; [|intros [X|[]]; discriminate X]. split; [now left|]. constructor; [now left|constructor].
Qed.
Theorem C65_library : forall E p cfg td tm ty d m y tc k h mi sec per,
  library_call E p cfg -> u_order cfg = None ->
  digits td -> digits tm -> digits ty -> (length td <= 2)%nat -> (length tm <= 2)%nat -> length ty = 4%nat ->
  number 0 td = d -> number 0 tm = m -> number 0 ty = y -> valid_date y m d -> 1000 <= y <= 9999 ->
  In tc (lit "Tt") -> clock k h mi sec 0 per -> Forall (fun c => 48 <= c <= 58) k ->
  shows (snd (parse E full_db None p cfg (ty ++ lit "-" ++ tm ++ lit "-" ++ td ++ tc :: k) [])) y m d h mi sec 0 (if u_timeperiod cfg then per else PDay) (lit "en").
Proof.
  intros E p cfg td tm ty d m y tc k h mi sec per HC HO Dd Dm Dy Ld Lm Ly Nd Nm Ny Hv Hy Htc CK KF.
  apply (C65_iso_date_times E full_db None p cfg loc_en "MDY" td tm ty d m y tc k h mi sec per); auto; [now left| |now apply library_iso].
  unfold order_for. rewrite HO. reflexivity.
Qed.
Print Assumptions C65_library.

Example C65_case : shows (snd (parse env0 full_db None (new_parser []) (mkcfg [] [] (utc_at 2016 2 28 10 0 0) Past 0 0) (lit "2014" ++ lit "-" ++ lit "10" ++ lit "-" ++ lit "09" ++ 84 :: lit "8:07:06") [])) 2014 10 9 8 7 6 0 PDay (lit "en").
Proof.
  apply (C65_library env0 (new_parser []) (mkcfg [] [] (utc_at 2016 2 28 10 0 0) Past 0 0) (lit "09") (lit "10") (lit "2014") 9 10 2014 84 (lit "8:07:06") 8 7 6 PSecond library_case).
  - reflexivity.
  - apply digits_by; reflexivity.
  - apply digits_by; reflexivity.
  - apply digits_by; reflexivity.
  - cbn; lia.
  - cbn; lia.
  - reflexivity.
  - reflexivity.
  - reflexivity.
  - reflexivity.
  - unfold valid_date; vm_compute; repeat split; discriminate.
  - lia.
  - now left.
  - apply (hms (lit "8") 8 (lit "07") 7 (lit "06") 6 [] 0).
    all: try (split; [apply digits_by; reflexivity|split; [cbn; lia|reflexivity]]). all: try lia. left; auto.
  - apply Forall_forall. intros x HX. cbn in HX. lia.
Qed.
(** the order matters: with the day before the month, the same text is another day *)
Example C65_order_needed : shows (snd (parse env0 db0 None (new_parser []) (order_cfg "DMY") (lit "2014-10-09T08:07:06") [])) 2014 9 10 8 7 6 0 PDay (lit "en").
Proof. apply shows_by. vm_compute. reflexivity. Qed.
(** and so does the letter: it must be among the words to skip *)
Definition skip_cfg : uconfig := let c := order_cfg "YMD" in {| u_locales := u_locales c; u_languages := u_languages c; u_region := u_region c; u_try_prev := u_try_prev c; u_given_order := u_given_order c; u_deflang := u_deflang c; u_order := u_order c;
  u_now := u_now c; u_tz := u_tz c; u_pday := u_pday c; u_pmonth := u_pmonth c; u_src := u_src c; u_strict := u_strict c; u_required := u_required c; u_skip := [lit "x"]; u_timeperiod := u_timeperiod c; u_preserve := u_preserve c |}.
Example C65_skip_needed : snd (parse env0 db0 None (new_parser []) skip_cfg (lit "2014-10-09T08:07:06") []) = Ok (zero_date, Some ENoParse).
Proof. vm_compute. reflexivity. Qed.
(** the tables of the eight locales of db0 but Finnish (where t is a word of its own) are such *)
Lemma db0_iso : forall n ld, db_get db0 n = Some ld -> ld_name ld = lit "fi" \/ iso_locale ld = true.
Proof. apply db0_all. repeat (apply Forall_cons; [first [left; reflexivity|right; vm_compute; reflexivity]|]). constructor. Qed.
