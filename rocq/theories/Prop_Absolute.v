(** C11-C19: dates given by their parts *)
From Coq Require Import ZifyBool.
From Verif Require Import GoBase SMap Regex Civil GoTime GoTimeFacts GoTimeParse Setting Strutil Dateutil DateutilFacts Tokenizer Timezone Env Common Absolute
  Parser Shows Concrete LocaleData AbsSpec AbsFacts AbsFacts2 AbsFacts3 AbsFacts4.
Ltac Zify.zify_post_hook ::= Z.div_mod_to_equations.

Definition result (r : res date) (P : period -> time -> Prop) : Prop := exists p t, r = Ok (mkd p t) /\ P p t.

Lemma check_none cfg : check_strict cfg [] = true.
Proof. unfold check_strict. rewrite andb_false_r. induction (c_required cfg); [reflexivity|]. cbn. exact IHl. Qed.
Lemma check_lenient cfg l : lenient cfg -> check_strict cfg l = true.
Proof. intros [H1 H2]. unfold check_strict. rewrite H1, H2. reflexivity. Qed.
(** common start of the proofs *)
Ltac start R Hr Hn :=
  let Hc := fresh "Hc" in
  pose proof (reads_clock _ _ _ _ Hr) as Hc;
  match goal with |- context [absolute_parse _ _ _ ?tz] => rewrite (reads_run _ _ _ _ tz _ Hr (cur_now _ _ Hn) (cur_set _ _ Hn)) end;
  let rd := fresh "rd" in let rm := fresh "rm" in let ry := fresh "ry" in let rw := fresh "rw" in let rc := fresh "rc" in
  destruct R as [rd rm ry rw rc]; cbn [r_day r_month r_year r_weekday r_clock] in *.

Definition civil_ok (now : time) := proj1 (civil_valid now).

(** * C16: a date with day, month and year *)
Theorem C16_impossible_days_are_clamped : forall E cfg s R now tz d m yt y,
  reads E cfg s R -> current cfg now ->
  r_day R = Some d -> r_month R = Some m -> r_year R = Some (yt, y) ->
  1 <= d -> 1 <= m <= 12 -> y <> 0 -> slen yt <> 2 ->
  result (absolute_parse E cfg s tz) (fun p t =>
    at_ t (clock_of R) /\
    (d <= days_in y m -> on t y m d) /\
    (days_in y m < d -> ~ (m = 2 /\ d = 29) -> on t y m (days_in y m)) /\
    (days_in y m < d -> m = 2 -> d = 29 -> exists z, adjusted (c_src cfg) y z /\ on t z 2 29)).
Proof.
  intros E cfg s R now tz d m yt y Hr Hn HD HM HY Hd Hm Hy H2. start R Hr Hn. subst.
  destruct (clock_of _) as [[[h mi] sc] ns] eqn:CK. specialize (Hc _ _ _ _ eq_refl). pose proof (cur_fixed _ _ Hn) as Hl.
  unfold run, missing_of. rewrite CK. cbn [r_day r_month r_year is_some app].
  rewrite check_none. cbn [negb r_day r_month r_year option_map snd]. unfold or_default.
  assert (y =? 0 = false) as -> by lia. assert (m =? 0 = false) as -> by lia. assert (d =? 0 = false) as -> by lia.
  rewrite create_spec by lia. cbn [rbind]. unfold f_weekday. cbn [r_weekday r_day r_month r_year is_some negb andb].
  pose proof (fix_year_valid cfg y m d Hm Hd) as HV. set (Y := fix_year cfg y m d) in *. set (D := Z.min d (days_in Y m)) in *.
  set (t := mk_date Y m D h mi sc ns (t_loc now)).
  assert (EW : match rw with Some w => Ok t | None => Ok t end = Ok t) by (now destruct rw). rewrite EW. cbn [rbind].
  eexists _, _. split; [reflexivity|].
  unfold f_setday, f_setmonth, f_time, f_year2, f_month. cbn [r_weekday r_day r_month r_year r_clock is_some negb andb orb].
  assert (slen yt =? 2 = false) as -> by lia. rewrite !andb_false_r. cbn [andb].
  pose proof (days_in_bounds y m) as DB.
  split; [now apply at_mk|]. split; [|split].
  - intros Hle. assert (Y = y) as EY.
    { apply fix_year_same. destruct (leap y) eqn:L; [auto|]. unfold days_in in Hle. rewrite L in Hle. destruct (m =? 2) eqn:?; lia. }
    subst D. rewrite EY in HV. unfold t. rewrite EY. replace (Z.min d (days_in y m)) with d in * by lia. now apply on_mk.
  - intros Hgt Hx. assert (Y = y) as EY by (apply fix_year_same; lia). subst D. rewrite EY in HV. unfold t. rewrite EY.
    replace (Z.min d (days_in y m)) with (days_in y m) in * by lia. now apply on_mk.
  - intros Hgt -> ->. assert (L : leap y = false) by (destruct (leap y) eqn:L; [unfold days_in in Hgt; rewrite L in Hgt; change (2 =? 2) with true in Hgt; cbv iota in Hgt; lia|reflexivity]).
    destruct (fix_year_adj cfg y L) as [HA HL]. fold Y in HA, HL. exists Y. split; [exact HA|].
    assert (days_in Y 2 = 29) as D29 by (unfold days_in; now rewrite HL). subst D. rewrite D29 in HV. unfold t. rewrite D29. now apply on_mk.
Qed.
Print Assumptions C16_impossible_days_are_clamped.

(** * C11: a weekday alone *)
(** the [j]-th weekday (Sunday = 0) is written *)
Definition wd_check (src i j : Z) : bool :=
  match wd_steps src i (wd_name j) with
  | Some n => ((i + n) mod 7 =? j) && (if src =? Future then (1 <=? n) && (n <=? 7) else if src =? Past then (-7 <=? n) && (n <=? -1) else (-6 <=? n) && (n <=? 0))
  | None => false
  end.
Lemma wd_check_all : forallb (fun src => forallb (fun i => forallb (wd_check src i) [0;1;2;3;4;5;6]) [0;1;2;3;4;5;6]) [0;1;2] = true.
Proof. vm_compute. reflexivity. Qed.
Lemma in7 i : 0 <= i < 7 -> In i [0;1;2;3;4;5;6].
Proof. intros. cbn [In]. lia. Qed.
Lemma wd_steps_ok src i j : 0 <= i < 7 -> 0 <= j < 7 -> (src = CurrentPeriod \/ src = Past \/ src = Future) ->
  exists n, wd_steps src i (wd_name j) = Some n /\ (i + n) mod 7 = j /\
    (src = Future -> 1 <= n <= 7) /\ (src = Past -> -7 <= n <= -1) /\ (src = CurrentPeriod -> -6 <= n <= 0).
Proof.
  intros Hi Hj Hs. pose proof wd_check_all as W. rewrite forallb_forall in W. assert (Is : In src [0;1;2]) by (unfold CurrentPeriod, Past, Future in Hs; cbn [In]; lia).
  specialize (W _ Is). rewrite forallb_forall in W. specialize (W _ (in7 _ Hi)). rewrite forallb_forall in W. specialize (W _ (in7 _ Hj)).
  unfold wd_check in W. destruct (wd_steps src i (wd_name j)) as [n|]; [|discriminate]. exists n. split; [reflexivity|].
  unfold CurrentPeriod, Past, Future in *. apply andb_true_iff in W as [W1 W2]. apply Z.eqb_eq in W1. split; [exact W1|]. clear W1.
  destruct (src =? 2) eqn:?; [lia|]. destruct (src =? 1) eqn:?; lia.
Qed.
Lemma spells_first3 j w : 0 <= j < 7 -> spells short_days j w \/ spells long_days j w -> map lowerA (firstn 3 w) = wd_name j /\ slen w <? 3 = false.
Proof.
  intros Hj Hw. assert (Cj : j = 0 \/ j = 1 \/ j = 2 \/ j = 3 \/ j = 4 \/ j = 5 \/ j = 6) by lia.
  assert (X : exists n, In n [nth (Z.to_nat j) short_days ""; nth (Z.to_nat j) long_days ""]%string /\ map lowerA w = map lowerA (lit n)).
  { destruct Hw as [(n & Hn & _ & E)|(n & Hn & _ & E)]; exists n; (split; [|exact E]); apply nth_error_nth with (d := ""%string) in Hn; rewrite <- Hn; cbn [In]; auto. }
  destruct X as (n & Hn & E). unfold slen. rewrite <- (map_length lowerA w), E, map_length. rewrite <- firstn_map, E.
  destruct Cj as [->|[->|[->|[->|[->|[->| ->]]]]]]; destruct Hn as [<-|[<-|[]]]; vm_compute; auto.
Qed.

(** a string with a weekday and no day, month or year *)
Theorem C11_weekday_alone : forall E cfg s R now tz w,
  reads E cfg s R -> current cfg now -> lenient cfg ->
  r_weekday R = Some w -> r_day R = None -> r_month R = None -> r_year R = None ->
  (c_src cfg = CurrentPeriod \/ c_src cfg = Past \/ c_src cfg = Future) ->
  exists j, 0 <= j < 7 /\ (spells short_days j w \/ spells long_days j w) /\
  result (absolute_parse E cfg s tz) (fun p t =>
    at_ t (clock_of R) /\ weekday t = j /\ t_loc t = t_loc now /\
    let n := local_days t - local_days now in
    (c_src cfg = Future -> 1 <= n <= 7) /\ (c_src cfg = Past -> -7 <= n <= -1) /\ (c_src cfg = CurrentPeriod -> -6 <= n <= 0)).
Proof.
  intros E cfg s R now tz w Hr Hn Hlen HW HD HM HY Hsrc.
  assert (SP : exists j, 0 <= j < 7 /\ (spells short_days j w \/ spells long_days j w) /\ forallb is_alphaA w = true).
  { destruct Hr as (a & HI & _ & _ & _ & _ & Rw & _). apply greg_init_inv in HI. rewrite HW in Rw. destruct (cm_wd (a_toks a)) as [tk|] eqn:TK; [|discriminate].
    assert (w = tk_text tk) as -> by (cbn in Rw; congruence). pose proof (bi_dom _ _ _ HI CWeekday) as DOM. unfold chas in DOM. cbn [cget] in DOM. rewrite TK in DOM.
    destruct (cm_wd (a_vals a)) as [v|] eqn:V; [|discriminate]. destruct (bi_src _ _ _ HI CWeekday tk v TK V) as [S0 Hin].
    destruct S0 as [[(d & Hd & Hv)|[? _]]|[[X|X] _]]; [|discriminate..].
    destruct (tk_type tk) eqn:TY; cbn [layouts] in Hd; try (destruct Hd; fail).
    pose proof (token_kind _ _ Hin) as [_ K]; [rewrite TY; discriminate|]. rewrite TY in K.
    unfold greg_hooks in Hv; cbn [h_value] in Hv. destruct (V_weekday E _ _ _ K Hd Hv) as (j & Hj & Hs). exists j. auto. }
  destruct SP as (j & Hj & Hs & Ha). exists j. split; [exact Hj|]. split; [exact Hs|].
  destruct (spells_first3 j w Hj Hs) as [F3 L3]. 
  start R Hr Hn. subst.
  destruct (clock_of _) as [[[h mi] sc] ns] eqn:CK. specialize (Hc _ _ _ _ eq_refl). pose proof (cur_fixed _ _ Hn) as Hl.
  unfold run, missing_of. rewrite CK. cbn [r_day r_month r_year is_some app]. rewrite check_lenient by exact Hlen. cbn [negb option_map or_default].
  destruct (civil_valid now) as [Hv Hdays]. pose proof Hv as [Hm Hd]. 
  rewrite create_spec by lia. cbn [rbind].
  assert (EY : fix_year cfg (year now) (month now) (day now) = year now).
  { apply fix_year_same. destruct (leap (year now)) eqn:L; [auto|]. unfold days_in in Hd. rewrite L in Hd. destruct (month now =? 2) eqn:?; lia. }
  rewrite EY. replace (Z.min (day now) (days_in (year now) (month now))) with (day now) by lia.
  set (t := mk_date (year now) (month now) (day now) h mi sc ns (t_loc now)).
  assert (TD : local_days t = local_days now) by (unfold t; rewrite mk_date_days, Hdays by assumption; reflexivity).
  assert (TC : at_ t (h, mi, sc, ns)) by now apply at_mk.
  assert (TW : wf_time t) by apply mk_date_wf. assert (TL : fixed (t_loc t)) by exact Hl.
  unfold f_weekday. cbn [r_weekday r_day r_month r_year is_some negb andb]. rewrite L3.
  assert (HF : forallb is_alphaA (firstn 3 w) = true).
  { rewrite forallb_forall in *. intros x Hx. apply Ha. rewrite <- (firstn_skipn 3 w). apply in_or_app. now left. }
  rewrite (to_lower_kind _ TLetter) by exact HF. rewrite F3.
  assert (W7 : 0 <= weekday t < 7) by (unfold weekday, weekday_of_days; lia).
  destruct (wd_steps_ok (c_src cfg) (weekday t) j W7 Hj Hsrc) as (n & Hst & Hmod & HB). rewrite Hst. cbn [rbind].
  eexists _, _. split; [reflexivity|].
  unfold f_setday, f_setmonth, f_time, f_year2, f_month. cbn [r_weekday r_day r_month r_year r_clock is_some negb andb orb].
  rewrite !orb_true_r, !andb_false_r.
  pose proof (add_days_days t n TW TL) as AD. pose proof (add_days_sec t n TW TL) as [AS AN].
  split.
  - unfold at_ in *. rewrite <- TC. unfold hour, minute, second, nanosecond, sod. rewrite AN. rewrite !local_sec_fixed by (rewrite ?add_date_loc; exact TL). rewrite add_date_loc, AS.
    replace ((t_sec t + 86400 * n + z_off (l_base (t_loc t))) mod 86400) with ((t_sec t + z_off (l_base (t_loc t))) mod 86400) by lia. reflexivity.
  - split; [|split; [reflexivity|]].
    + unfold weekday. rewrite AD. unfold weekday, weekday_of_days in Hmod. unfold weekday_of_days. lia.
    + rewrite AD, TD. replace (local_days now + n - local_days now) with n by lia. exact HB.
Qed.
Print Assumptions C11_weekday_alone.
(** there is only one such day *)
Theorem C11_unique : forall days j lo n n', lo <= n <= lo + 6 -> lo <= n' <= lo + 6 ->
  weekday_of_days (days + n) = j -> weekday_of_days (days + n') = j -> n = n'.
Proof. unfold weekday_of_days. intros days j lo n n' H1 H2 H3 H4. lia. Qed.
Print Assumptions C11_unique.

(** * C12: day and month without a year *)
Lemma wall_order now y m d h mi sc ns : wf_time now -> fixed (t_loc now) -> valid_date y m d -> valid_clock h mi sc ns ->
  (y < year now -> instant (mk_date y m d h mi sc ns (t_loc now)) < instant now) /\
  (year now < y -> instant now < instant (mk_date y m d h mi sc ns (t_loc now))).
Proof.
  intros Hw Hl Hv Hc. destruct (civil_valid now) as [Hvn Hdn]. pose proof (clock_valid now Hw) as Hcn.
  destruct Hv as [Hm Hd] eqn:EV. destruct Hvn as [Hmn Hd'] eqn:EVn.
  assert (EN : instant now = (86400 * days_of_civil (year now) (month now) (day now) + 3600 * hour now + 60 * minute now + second now - z_off (l_base (t_loc now))) * 1000000000 + nanosecond now).
  { rewrite <- (time_of_fields now Hw Hl) at 1. now rewrite instant_mk_date by assumption. }
  rewrite EN, !instant_mk_date by assumption. clear EN.
  unfold valid_clock in *. split; intros Hy.
  - assert (L : days_of_civil y m d < days_of_civil (year now) (month now) (day now)) by (apply days_of_civil_lt; [split; assumption..|lia]). lia.
  - assert (L : days_of_civil (year now) (month now) (day now) < days_of_civil y m d) by (apply days_of_civil_lt; [split; assumption..|lia]). lia.
Qed.
Lemma wall_mono l y y' m d h mi sc ns : fixed l -> valid_date y m d -> valid_date y' m d -> y < y' -> instant (mk_date y m d h mi sc ns l) < instant (mk_date y' m d h mi sc ns l).
Proof.
  intros Hl Hv Hv' Hy. rewrite !instant_mk_date by (assumption || apply Hv). assert (L : days_of_civil y m d < days_of_civil y' m d) by (apply days_of_civil_lt; [assumption..|lia]). lia.
Qed.
(** some year has this date; every year, or every leap year *)
Lemma valid_some y m d : 1 <= m <= 12 -> 1 <= d <= days_in 2000 m -> (valid_date y m d <-> ~ (m = 2 /\ d = 29) \/ leap y = true).
Proof.
  intros Hm Hd. unfold valid_date, days_in in *. change (leap 2000) with true in Hd.
  destruct (m =? 2) eqn:M; [|split; [intros _; left; lia|intros _; lia]]. destruct (leap y); split; intros H; try lia; auto.
Qed.
Definition final_year (cfg : config) (m d : Z) (nowt : bool) (y : Z) : Z :=
  let y := if nowt then (if c_src cfg =? Past then y - 1 else y) else (if c_src cfg =? Future then y + 1 else y) in
  if (d =? 29) && (m =? 2) && negb (leap y) then correct_leap_year cfg y else y.
Lemma final_year_ok cfg m d (T : Z -> Z) now y0 : 1 <= m <= 12 -> 1 <= d <= days_in 2000 m ->
  (forall y, valid_date y m d -> (y < y0 -> T y < now) /\ (y0 < y -> now < T y)) ->
  (forall y y', valid_date y m d -> valid_date y' m d -> y < y' -> T y < T y') ->
  let Y0 := fix_year cfg y0 m d in let Y := final_year cfg m d (now <? T Y0) Y0 in
  valid_date Y m d /\
  (c_src cfg = Past -> T Y <= now /\ forall y, valid_date y m d -> T Y < T y -> now < T y) /\
  (c_src cfg = Future -> now < T Y /\ forall y, valid_date y m d -> T y < T Y -> T y <= now) /\
  (c_src cfg <> Past -> c_src cfg <> Future -> (valid_date y0 m d /\ Y = y0) \/ (~ valid_date y0 m d /\ adjusted (c_src cfg) y0 Y)).
Proof.
  intros Hm Hd HT HM Y0 Y. subst Y. unfold final_year.
  assert (HM' : forall y y', valid_date y m d -> valid_date y' m d -> T y < T y' -> y < y').
  { intros y y' Hy Hy' HL. destruct (Z.lt_trichotomy y y') as [H|[H|H]]; [exact H|subst; lia|]. specialize (HM _ _ Hy' Hy H). lia. }
  assert (HV : forall y, valid_date y m d <-> ~ (m = 2 /\ d = 29) \/ leap y = true) by (intros; now apply valid_some).
  unfold fix_year in Y0. destruct ((d =? 29) && (m =? 2)) eqn:C.
  2: { (* every year has this date *)
    cbn [andb] in *. subst Y0. assert (A : forall y, valid_date y m d) by (intros y; apply HV; left; lia).
    unfold Past, Future in *. cbv zeta. pose proof (HT (y0 - 1) (A _)) as [HT1 _]. pose proof (HT (y0 + 1) (A _)) as [_ HT2].
    split; [apply A|]. split; [|split].
    - intros HS. assert (c_src cfg =? 1 = true) as -> by lia. assert (c_src cfg =? 2 = false) as -> by lia. destruct (now <? T y0) eqn:B.
      + split; [lia|]. intros y _ HL. apply HM' in HL; [|apply A..]. destruct (Z.eq_dec y y0) as [->|]; [lia|]. destruct (HT y (A _)). lia.
      + split; [lia|]. intros y _ HL. apply HM' in HL; [|apply A..]. destruct (HT y (A _)). lia.
    - intros HS. assert (c_src cfg =? 1 = false) as -> by lia. assert (c_src cfg =? 2 = true) as -> by lia. destruct (now <? T y0) eqn:B.
      + split; [lia|]. intros y _ HL. apply HM' in HL; [|apply A..]. destruct (HT y (A _)). lia.
      + split; [lia|]. intros y _ HL. apply HM' in HL; [|apply A..]. destruct (Z.eq_dec y y0) as [->|]; [lia|]. destruct (HT y (A _)). lia.
    - intros S1 S2. left. split; [apply A|]. assert (c_src cfg =? 1 = false) as -> by lia. assert (c_src cfg =? 2 = false) as -> by lia. now destruct (now <? T y0). }
  assert (m = 2 /\ d = 29) as [-> ->] by lia. cbn [andb] in *. clear C.
  assert (HV' : forall y, valid_date y 2 29 <-> leap y = true) by (intros y; rewrite HV; split; [intros [H|H]; [lia|exact H]|auto]). clear HV.
  destruct (leap y0) eqn:L0; cbn [negb] in Y0; subst Y0.
  - assert (V0 : valid_date y0 2 29) by now apply HV'.
    assert (LN : leap (y0 - 1) = false /\ leap (y0 + 1) = false) by (unfold leap in *; lia). destruct LN as [LM LP].
    destruct (now <? T y0) eqn:B; destruct (c_src cfg =? Past) eqn:P; destruct (c_src cfg =? Future) eqn:F; unfold Past, Future in *; cbv zeta; try lia.
    all: rewrite ?L0, ?LM, ?LP; cbn [negb].
    + (* Past, in the future this year: the previous leap year *)
      destruct (correct_leap_adjusted cfg (y0 - 1)) as [(_ & AP & _) AL]. destruct (AP ltac:(unfold Past; lia)) as (_ & PL & PN). set (z := correct_leap_year cfg (y0 - 1)) in *.
      assert (Vz : valid_date z 2 29) by now apply HV'. split; [exact Vz|]. split; [intros _|split; intros; lia].
      split; [destruct (HT z Vz); lia|]. intros y Hy HL. apply HM' in HL; [|assumption..].
      assert (y0 <= y). { destruct (Z.lt_ge_cases y y0); [|assumption]. exfalso. apply HV' in Hy. assert (y = y0 - 1 \/ z < y < y0 - 1) as [->|Hb] by lia; [congruence|]. rewrite PN in Hy by lia. discriminate. }
      destruct (Z.eq_dec y y0) as [->|]; [lia|]. destruct (HT y Hy). lia.
    + split; [exact V0|]. split; [intros; lia|]. split; [intros _|intros; lia]. split; [lia|]. intros y Hy HL. apply HM' in HL; [|assumption..]. destruct (HT y Hy). lia.
    + split; [exact V0|]. split; [intros; lia|]. split; [intros; lia|]. intros _ _. left. auto.
    + split; [exact V0|]. split; [intros _|split; intros; lia]. split; [lia|]. intros y Hy HL. apply HM' in HL; [|assumption..]. destruct (HT y Hy). lia.
    + destruct (correct_leap_adjusted cfg (y0 + 1)) as [(AP & _ & _) AL]. destruct (AP ltac:(unfold Future; lia)) as (_ & PL & PN). set (z := correct_leap_year cfg (y0 + 1)) in *.
      assert (Vz : valid_date z 2 29) by now apply HV'. split; [exact Vz|]. split; [intros; lia|]. split; [intros _|intros; lia].
      split; [destruct (HT z Vz); lia|]. intros y Hy HL. apply HM' in HL; [|assumption..].
      assert (y <= y0). { destruct (Z.lt_ge_cases y0 y); [|assumption]. exfalso. apply HV' in Hy. assert (y = y0 + 1 \/ y0 + 1 < y < z) as [->|Hb] by lia; [congruence|]. rewrite PN in Hy by lia. discriminate. }
      destruct (Z.eq_dec y y0) as [->|]; [lia|]. destruct (HT y Hy). lia.
    + split; [exact V0|]. split; [intros; lia|]. split; [intros; lia|]. intros _ _. left. auto.
  - destruct (correct_leap_adjusted cfg y0) as [AA AL]. set (z := correct_leap_year cfg y0) in *. pose proof AA as (AF & AP & _).
    assert (Vz : valid_date z 2 29) by now apply HV'.
    assert (NV : ~ valid_date y0 2 29) by (rewrite HV'; congruence).
    unfold Past, Future in *. destruct (c_src cfg =? 1) eqn:P; [|destruct (c_src cfg =? 2) eqn:F].
    + destruct (AP ltac:(lia)) as (_ & PL & PN). destruct (HT z Vz) as [Hz _]. specialize (Hz PL). assert (now <? T z = false) as -> by lia. assert (c_src cfg =? 2 = false) as -> by lia. cbv zeta. rewrite AL. cbn [negb].
      split; [exact Vz|]. split; [intros _|split; intros; lia]. split; [lia|]. intros y Hy HL. apply HM' in HL; [|assumption..].
      assert (y0 < y). { apply HV' in Hy. assert (z < y < y0 \/ y = y0 \/ y0 < y) as [Hb|[->|Hb]] by lia; [rewrite PN in Hy by lia; discriminate|congruence|exact Hb]. }
      destruct (HT y Hy). lia.
    + destruct (AF ltac:(lia)) as (_ & PL & PN). destruct (HT z Vz) as [_ Hz]. specialize (Hz PL). assert (now <? T z = true) as -> by lia. cbv zeta. rewrite AL. cbn [negb].
      split; [exact Vz|]. split; [intros; lia|]. split; [intros _|intros; lia]. split; [lia|]. intros y Hy HL. apply HM' in HL; [|assumption..].
      assert (y < y0). { apply HV' in Hy. assert (y0 < y < z \/ y = y0 \/ y < y0) as [Hb|[->|Hb]] by lia; [rewrite PN in Hy by lia; discriminate|congruence|exact Hb]. }
      destruct (HT y Hy). lia.
    + assert (EX : (if now <? T z then z else z) = z) by (now destruct (_ <? _)). cbv zeta. rewrite EX, AL. cbn [negb].
      split; [exact Vz|]. split; [intros; lia|]. split; [intros; lia|]. intros _ _. right. auto.
Qed.

(** The occurrences of a day and month at a time of day are the instants [T y], [y] any year that has that date. *)
Theorem C12_day_and_month : forall E cfg s R now tz d m,
  reads E cfg s R -> current cfg now -> lenient cfg ->
  r_day R = Some d -> r_month R = Some m -> r_year R = None ->
  1 <= m <= 12 -> 1 <= d <= days_in 2000 m ->
  result (absolute_parse E cfg s tz) (fun p t =>
    on t (year t) m d /\ at_ t (clock_of R) /\ t_loc t = t_loc now /\
    let T y := let '(h, mi, sc, ns) := clock_of R in instant (mk_date y m d h mi sc ns (t_loc now)) in
    (c_src cfg = Past -> instant t <= instant now /\ forall y, valid_date y m d -> instant t < T y -> instant now < T y) /\
    (c_src cfg = Future -> instant now < instant t /\ forall y, valid_date y m d -> T y < instant t -> T y <= instant now) /\
    (c_src cfg <> Past -> c_src cfg <> Future ->
       (valid_date (year now) m d /\ year t = year now) \/ (~ valid_date (year now) m d /\ adjusted (c_src cfg) (year now) (year t)))).
Proof.
  intros E cfg s R now tz d m Hr Hn Hlen HD HM HY Hm Hd. start R Hr Hn. subst.
  destruct (clock_of _) as [[[h mi] sc] ns] eqn:CK. specialize (Hc _ _ _ _ eq_refl). pose proof (cur_fixed _ _ Hn) as Hl. pose proof (cur_wf _ _ Hn) as Hw.
  unfold run, missing_of. rewrite CK. cbn [r_day r_month r_year is_some app]. rewrite check_lenient by exact Hlen. cbn [negb option_map].
  unfold or_default. assert (m =? 0 = false) as -> by lia. assert (d =? 0 = false) as -> by lia.
  rewrite create_spec by lia. cbn [rbind].
  set (l := t_loc now) in *. set (T := fun y => instant (mk_date y m d h mi sc ns l)).
  assert (HT : forall y, valid_date y m d -> (y < year now -> T y < instant now) /\ (year now < y -> instant now < T y)) by (intros y Hy; now apply wall_order).
  assert (HMo : forall y y', valid_date y m d -> valid_date y' m d -> y < y' -> T y < T y') by (intros y y' Hy Hy' HL; now apply wall_mono).
  pose proof (final_year_ok cfg m d T (instant now) (year now) Hm Hd HT HMo) as FY. cbv zeta in FY. set (Y0 := fix_year cfg (year now) m d) in *.
  assert (V0 : valid_date Y0 m d).
  { apply valid_some; auto. subst Y0. unfold fix_year. destruct ((d =? 29) && (m =? 2)) eqn:C; [right|left; lia]. cbn [andb]. destruct (leap (year now)) eqn:L; cbn [negb]; [exact L|apply correct_leap_adjusted]. }
  assert (Z.min d (days_in Y0 m) = d) as -> by (destruct V0; lia).
  set (t0 := mk_date Y0 m d h mi sc ns l).
  unfold f_weekday. cbn [r_weekday r_day r_month r_year is_some negb andb].
  assert (EW : match rw with Some w => Ok t0 | None => Ok t0 end = Ok t0) by (now destruct rw). rewrite EW. cbn [rbind].
  eexists _, _. split; [reflexivity|].
  unfold f_setday, f_setmonth, f_time, f_year2. cbn [r_weekday r_day r_month r_year r_clock is_some negb andb orb]. rewrite !andb_false_r. cbn [andb].
  unfold f_month. cbn [r_weekday r_day r_month r_year r_clock is_some negb andb orb]. cbv zeta. rewrite is_leap_leap.
  unfold t0. rewrite (mk_date_year Y0 m d h mi sc ns l), (mk_date_month Y0 m d h mi sc ns l), (mk_date_day Y0 m d h mi sc ns l), (hour_mk Y0 m d h mi sc ns l), (minute_mk Y0 m d h mi sc ns l), (second_mk Y0 m d h mi sc ns l), (nanosecond_mk Y0 m d h mi sc ns l) by assumption.
  rewrite before_instant by (exact Hw || apply mk_date_wf). fold (T Y0).
  match goal with |- context [mk_date ?X m d h mi sc ns _] => change X with (final_year cfg m d (instant now <? T Y0) Y0) end.
  destruct FY as (VY & F1 & F2 & F3). set (Y := final_year _ _ _ _ _) in *. change (t_loc (mk_date Y0 m d h mi sc ns l)) with l.
  rewrite (mk_date_year Y m d h mi sc ns l) by assumption.
  split; [now apply on_mk|]. split; [now apply at_mk|]. split; [reflexivity|]. split; [exact F1|]. split; [exact F2|exact F3].
Qed.
Print Assumptions C12_day_and_month.
