(** C11-C18: cases in which the theorems apply, and the cases in which the full claims fail *)
From Coq Require Import ZifyBool.
From Verif Require Import GoBase SMap Regex Civil GoTime GoTimeFacts GoTimeParse Setting Strutil Dateutil Tokenizer Timezone Env Common Absolute
  Parser Shows Concrete LocaleData AbsSpec AbsFacts AbsFacts2 AbsFacts3 Prop_Absolute Prop_Absolute2.

(** computing a reading *)
Definition read_of (E : env) (cfg : config) (s : str) : option reading :=
  match abs_init E (greg_hooks E) cfg s with
  | None => None
  | Some a =>
    let R c := {| r_day := cm_day (a_vals a); r_month := cm_month (a_vals a);
         r_year := match cm_year (a_toks a), cm_year (a_vals a) with Some k, Some v => Some (tk_text k, v) | _, _ => None end;
         r_weekday := option_map tk_text (cm_wd (a_toks a)); r_clock := c |} in
    match a_time a with
    | None => Some (R None)
    | Some tk => match parse_time E (tk_text tk) with
                 | Some (t, p) => Some (R (Some (hour t, minute t, second t, nanosecond t, p)))
                 | None => None
                 end
    end
  end.
Lemma read_of_ok E cfg s R : read_of E cfg s = Some R -> reads E cfg s R.
Proof.
  unfold read_of. destruct (abs_init E (greg_hooks E) cfg s) as [a|] eqn:I; [|discriminate]. cbv zeta.
  assert (DY : chas (a_toks a) CYear = chas (a_vals a) CYear) by (apply greg_init_inv in I; apply (bi_dom _ _ _ I)). unfold chas in DY. cbn [cget] in DY.
  destruct (a_time a) as [tk|] eqn:T.
  - destruct (parse_time E (tk_text tk)) as [[t p]|] eqn:P; [|discriminate]. intros XE. apply some_inj in XE. subst R. exists a. split; [exact I|]. cbn [r_day r_month r_year r_weekday r_clock].
    split; [reflexivity|]. split; [reflexivity|].
    destruct (cm_year (a_toks a)), (cm_year (a_vals a)); try discriminate; (split; [reflexivity|]; split; [reflexivity|]; split; [reflexivity|]); rewrite T; exists t, p; auto.
  - intros XE. apply some_inj in XE. subst R. exists a. split; [exact I|]. cbn [r_day r_month r_year r_weekday r_clock].
    split; [reflexivity|]. split; [reflexivity|].
    destruct (cm_year (a_toks a)), (cm_year (a_vals a)); try discriminate; (split; [reflexivity|]; split; [reflexivity|]; split; [reflexivity|]); rewrite T; reflexivity.
Qed.
Definition acfg (order : string) (now : time) (src pday pmonth : Z) : config :=
  {| c_order := lit order; c_now := now; c_tz := None; c_pday := pday; c_pmonth := pmonth; c_src := src; c_strict := false; c_required := [];
     c_skip := []; c_deflang := []; c_timeperiod := false; c_preserve := false |}.
Lemma acfg_lenient o n s d m : lenient (acfg o n s d m). Proof. split; reflexivity. Qed.
Lemma acfg_current o n s d m : is_zero n = false -> wf_time n -> fixed (t_loc n) -> current (acfg o n s d m) n. Proof. now constructor. Qed.
Definition R0 := {| r_day := None; r_month := None; r_year := None; r_weekday := None; r_clock := None |}.

(** the hypotheses of the theorems are met by ordinary strings *)
Example C11_hyp : reads env0 (acfg "MDY" (utc_at 2016 3 1 10 0 0) Future 0 0) (lit "monday 10:15")
  {| r_day := None; r_month := None; r_year := None; r_weekday := Some (lit "monday"); r_clock := Some (10, 15, 0, 0, PMinute) |}.
Proof. apply read_of_ok. vm_compute. reflexivity. Qed.
Example C12_hyp : reads env0 (acfg "MDY" (utc_at 2016 3 1 10 0 0) Future 0 0) (lit "29 february")
  {| r_day := Some 29; r_month := Some 2; r_year := None; r_weekday := None; r_clock := None |}.
Proof. apply read_of_ok. vm_compute. reflexivity. Qed.
Example C13_hyp : reads env0 (acfg "MDY" (utc_at 2016 3 15 10 0 0) Past 0 0) (lit "10:15:30.25 pm")
  {| r_day := None; r_month := None; r_year := None; r_weekday := None; r_clock := Some (22, 15, 30, 250000000, PSecond) |}.
Proof. apply read_of_ok. vm_compute. reflexivity. Qed.
Example C14_hyp : reads env0 (acfg "MDY" (utc_at 2016 3 15 10 0 0) Past 0 0) (lit "february 2015")
  {| r_day := None; r_month := Some 2; r_year := Some (lit "2015", 2015); r_weekday := None; r_clock := None |}.
Proof. apply read_of_ok. vm_compute. reflexivity. Qed.
Example C15_hyp : reads env0 (acfg "MDY" (utc_at 2016 3 15 10 0 0) Past 0 0) (lit "2015")
  {| r_day := None; r_month := None; r_year := Some (lit "2015", 2015); r_weekday := None; r_clock := None |}.
Proof. apply read_of_ok. vm_compute. reflexivity. Qed.
Example C16_hyp : reads env0 (acfg "DMY" (utc_at 2016 3 15 10 0 0) Past 0 0) (lit "31/4/2015 8:30")
  {| r_day := Some 31; r_month := Some 4; r_year := Some (lit "2015", 2015); r_weekday := None; r_clock := Some (8, 30, 0, 0, PMinute) |}.
Proof. apply read_of_ok. vm_compute. reflexivity. Qed.
Example C18_hyp : reads env0 (acfg "DMY" (utc_at 2016 3 15 10 0 0) Past 0 0) (lit "30/4/55")
  {| r_day := Some 30; r_month := Some 4; r_year := Some (lit "55", 2055); r_weekday := None; r_clock := None |}.
Proof. apply read_of_ok. vm_compute. reflexivity. Qed.

(** * End to end *)
Definition go (order : string) (now : time) (src pday pmonth : Z) (s : string) : res ret :=
  snd (parse env0 db0 None (new_parser []) (mkcfg [lit "en"] (lit order) now src pday pmonth) (lit s) []).
(** the instant of the returned date *)
Definition instant_of (r : res ret) : option Z := match r with Ok (d, None) => Some (instant (d_time d)) | _ => None end.

Example C11_case : shows (go "" (utc_at 2016 3 1 10 0 0) Future 0 0 "Tuesday") 2016 3 8 0 0 0 0 PDay (lit "en").
Proof. apply shows_by. vm_compute. reflexivity. Qed.
Example C12_case : shows (go "" (utc_at 2016 3 1 10 0 0) Future 0 0 "29 February") 2020 2 29 0 0 0 0 PDay (lit "en").
Proof. apply shows_by. vm_compute. reflexivity. Qed.
Example C13_case : shows (go "" (utc_at 2016 3 15 10 0 0) Past 0 0 "22:15") 2016 3 14 22 15 0 0 PDay (lit "en").
Proof. apply shows_by. vm_compute. reflexivity. Qed.
Example C14_case : shows (go "" (utc_at 2016 3 15 10 0 0) Past Last 0 "February 2015") 2015 2 28 0 0 0 0 PMonth (lit "en").
Proof. apply shows_by. vm_compute. reflexivity. Qed.
Example C15_case : shows (go "" (utc_at 2016 3 15 10 0 0) Past Last LastMonth "2014") 2014 12 31 0 0 0 0 PYear (lit "en").
Proof. apply shows_by. vm_compute. reflexivity. Qed.
Example C16_case : shows (go "DMY" (utc_at 2016 3 15 10 0 0) Past 0 0 "31/4/2015 8:30") 2015 4 30 8 30 0 0 PDay (lit "en").
Proof. apply shows_by. vm_compute. reflexivity. Qed.
Example C18_case : shows (go "DMY" (utc_at 2016 3 15 10 0 0) Past 0 0 "30/4/55") 1955 4 30 0 0 0 0 PDay (lit "en").
Proof. apply shows_by. vm_compute. reflexivity. Qed.

(** C12 with a timezone: "10 March 00:00 EST" asked for in the past lies after the current time *)
Theorem C12_timezone_refuted : exists now i, now = utc_at 2015 3 10 0 30 0 /\
  instant_of (go "" now Past 0 0 "10 March 00:00 EST") = Some i /\ instant now < i.
Proof. exists (utc_at 2015 3 10 0 30 0), 1425963600000000000. vm_compute. auto. Qed.
Print Assumptions C12_timezone_refuted.
(** C13: across the end of a month the past time lies four weeks in the future; with FirstMonth a time alone means a day in January;
    with a timezone the past time lies after the current time *)
Theorem C13_month_boundary_refuted : shows (go "" (utc_at 2016 3 1 10 0 0) Past 0 0 "22:00") 2016 3 29 22 0 0 0 PDay (lit "en").
Proof. apply shows_by. vm_compute. reflexivity. Qed.
Print Assumptions C13_month_boundary_refuted.
Theorem C13_first_month_refuted : shows (go "" (utc_at 2016 3 15 10 0 0) Past 0 FirstMonth "09:00") 2016 1 15 9 0 0 0 PDay (lit "en").
Proof. apply shows_by. vm_compute. reflexivity. Qed.
Print Assumptions C13_first_month_refuted.
Theorem C13_timezone_refuted : exists now i, now = utc_at 2015 3 10 0 30 0 /\
  instant_of (go "" now Past 0 0 "23:00 EST") = Some i /\ instant now < i.
Proof. exists (utc_at 2015 3 10 0 30 0), 1425960000000000000. vm_compute. auto. Qed.
Print Assumptions C13_timezone_refuted.
(** C14: the year changes on 29 February; the preference is ignored if there is a time *)
Theorem C14_leap_day_refuted : shows (go "" (utc_at 2016 2 29 10 0 0) Past First 0 "February 2015") 2012 2 1 0 0 0 0 PMonth (lit "en").
Proof. apply shows_by. vm_compute. reflexivity. Qed.
Print Assumptions C14_leap_day_refuted.
Theorem C14_with_time_refuted : shows (go "" (utc_at 2016 2 29 10 0 0) Past First 0 "March 2015 10:30") 2015 3 29 10 30 0 0 PMonth (lit "en").
Proof. apply shows_by. vm_compute. reflexivity. Qed.
Print Assumptions C14_with_time_refuted.
(** C15: the year changes on 29 February *)
Theorem C15_leap_day_refuted : shows (go "" (utc_at 2016 2 29 10 0 0) Past 0 FirstMonth "2015") 2012 1 29 0 0 0 0 PYear (lit "en").
Proof. apply shows_by. vm_compute. reflexivity. Qed.
Print Assumptions C15_leap_day_refuted.
(** C17: a number too large for a month is used as a month and rolls over into another year *)
Theorem C17_year_refuted : shows (go "YMD" (utc_at 2016 2 28 10 0 0) CurrentPeriod 0 0 "45 2015") 2018 9 30 0 0 0 0 PDay (lit "en").
Proof. apply shows_by. vm_compute. reflexivity. Qed.
Print Assumptions C17_year_refuted.
(** C18: 29 February becomes 1 March; after 2068 the result of a past date is in the wrong direction *)
Theorem C18_leap_day_refuted : shows (go "" (utc_at 2016 2 28 10 0 0) Future 0 0 "29 February 00") 2100 3 1 0 0 0 0 PDay (lit "en").
Proof. apply shows_by. vm_compute. reflexivity. Qed.
Print Assumptions C18_leap_day_refuted.
Theorem C18_far_future_refuted : shows (go "" (utc_at 2180 2 28 10 0 0) Future 0 0 "10 March 30") 2130 3 10 0 0 0 0 PDay (lit "en").
Proof. apply shows_by. vm_compute. reflexivity. Qed.
Print Assumptions C18_far_future_refuted.

(** C16 with a two-digit year, except in February *)
Theorem C16_two_digit_year_partial : forall E cfg s R now tz d m yt y,
  reads E cfg s R -> current cfg now ->
  r_day R = Some d -> r_month R = Some m -> r_year R = Some (yt, y) -> slen yt = 2 ->
  1 <= d -> 1 <= m <= 12 -> m <> 2 ->
  result (absolute_parse E cfg s tz) (fun p t =>
    at_ t (clock_of R) /\ year t mod 100 = number 0 yt /\ month t = m /\ day t = Z.min d (days_in (year t) m)).
Proof.
  intros E cfg s R now tz d m yt y Hr Hn HD HM HY H2 Hd Hm Hm2. destruct (year2_range _ _ _ _ _ _ Hr HY H2) as [Hy Hmod].
  start R Hr Hn. subst.
  destruct (clock_of _) as [[[h mi] sc] ns] eqn:CK. specialize (Hc _ _ _ _ eq_refl). pose proof (cur_fixed _ _ Hn) as Hl. pose proof (cur_wf _ _ Hn) as Hw.
  unfold run, missing_of. rewrite CK. cbn [r_day r_month r_year is_some app]. rewrite check_none. cbn [negb r_day r_month r_year option_map snd]. unfold or_default.
  assert (y =? 0 = false) as -> by lia. assert (m =? 0 = false) as -> by lia. assert (d =? 0 = false) as -> by lia.
  rewrite AbsFacts4.create_spec by lia. cbn [rbind].
  rewrite AbsFacts4.fix_year_same by auto. 
  assert (DI : forall z, days_in z m = days_in y m) by (intros z; unfold days_in; assert (m =? 2 = false) as -> by lia; reflexivity).
  set (D := Z.min d (days_in y m)). assert (HV : forall z, valid_date z m D) by (intros z; pose proof (days_in_bounds y m); split; [exact Hm|rewrite DI; subst D; lia]).
  unfold f_weekday. cbn [r_weekday r_day r_month r_year is_some negb andb]. set (l := t_loc now) in *. set (t := mk_date y m D h mi sc ns l).
  assert (EW : match rw with Some w => Ok t | None => Ok t end = Ok t) by (now destruct rw). rewrite EW. cbn [rbind]. clear EW.
  eexists _, _. split; [reflexivity|].
  unfold f_setday, f_setmonth, f_time, f_year2, f_month. cbn [r_weekday r_day r_month r_year r_clock is_some negb andb orb]. rewrite H2, !andb_false_r. change (2 =? 2) with true. cbv iota. cbn [andb].
  unfold t. rewrite !AbsFacts4.add_date_mk by auto. rewrite !Z.add_0_r.
  assert (G : forall z, z mod 100 = number 0 yt -> at_ (mk_date z m D h mi sc ns l) (h, mi, sc, ns) /\ year (mk_date z m D h mi sc ns l) mod 100 = number 0 yt /\ month (mk_date z m D h mi sc ns l) = m /\ day (mk_date z m D h mi sc ns l) = Z.min d (days_in (year (mk_date z m D h mi sc ns l)) m)).
  { intros z Hz. rewrite (mk_date_year z m D h mi sc ns l), (mk_date_month z m D h mi sc ns l), (mk_date_day z m D h mi sc ns l) by auto. split; [now apply AbsFacts4.at_mk|]. split; [exact Hz|]. split; [reflexivity|]. rewrite DI. reflexivity. }
  assert (M1 : (y + -100) mod 100 = y mod 100) by (replace (y + -100) with (y + (-1) * 100) by lia; now rewrite Z.mod_add).
  assert (M2 : (y + 100) mod 100 = y mod 100) by (replace (y + 100) with (y + 1 * 100) by lia; now rewrite Z.mod_add).
  destruct (before _ _); [destruct (_ =? Past)|destruct (_ =? Future)]; apply G; congruence.
Qed.
Print Assumptions C16_two_digit_year_partial.
Theorem C16_two_digit_year_refuted : shows (go "" (utc_at 2016 2 28 10 0 0) Future 0 0 "31 February 00") 2100 3 1 0 0 0 0 PDay (lit "en").
Proof. apply shows_by. vm_compute. reflexivity. Qed.
Print Assumptions C16_two_digit_year_refuted.
