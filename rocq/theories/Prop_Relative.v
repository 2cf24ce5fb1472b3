(** C22: adding years and months to a date, with and without PreserveEndOfMonth *)
From Coq Require Import ZifyBool.
From Verif Require Import GoBase Civil GoTime GoTimeFacts Dateutil DateutilFacts Setting Env Relative AbsSpec.
Ltac Zify.zify_post_hook ::= Z.div_mod_to_equations.

(** the month that lies [n] months after month [m] of year [y]: (year, month) *)
Definition months_later (y m n : Z) : Z * Z := ((12 * y + (m - 1) + n) / 12, (12 * y + (m - 1) + n) mod 12 + 1).

Lemma months_later_ok y m dy dm : let '(ty, tm) := months_later y m (12 * dy + dm) in 1 <= tm <= 12 /\ 12 * ty + tm = 12 * (y + dy) + (m + dm).
Proof. unfold months_later. lia. Qed.

Lemma wall_sec_norm y m d h mi s ty tm : 1 <= tm <= 12 -> 12 * ty + tm = 12 * y + m -> wall_sec y m d h mi s = wall_sec ty tm d h mi s.
Proof.
  intros H1 H2. unfold wall_sec. replace (y + (m - 1) / 12) with (ty + (tm - 1) / 12) by lia.
  replace ((m - 1) mod 12) with ((tm - 1) mod 12) by lia. reflexivity.
Qed.
Lemma mk_date_norm y m d h mi s ns l ty tm : 1 <= tm <= 12 -> 12 * ty + tm = 12 * y + m -> mk_date y m d h mi s ns l = mk_date ty tm d h mi s ns l.
Proof. intros H1 H2. unfold mk_date. now rewrite (wall_sec_norm y m d h mi s ty tm). Qed.

Lemma last_of_month ty tm : 1 <= tm <= 12 -> day (mk_date ty (tm + 1) 0 0 0 0 0 utc) = days_in ty tm.
Proof.
  intros H. unfold day, civil, local_days. rewrite local_sec_mk_date by reflexivity. rewrite wall_sec_next by exact H.
  replace ((86400 * days_of_civil ty tm (days_in ty tm) + 3600 * 0 + 60 * 0 + 0 + 0 / 1000000000) / 86400) with (days_of_civil ty tm (days_in ty tm)) by lia.
  rewrite civil_days; [reflexivity|]. now apply last_valid.
Qed.
Lemma last_of_month' y m ty tm : 1 <= tm <= 12 -> 12 * ty + tm = 12 * y + m -> day (mk_date y (m + 1) 0 0 0 0 0 utc) = days_in ty tm.
Proof.
  intros H1 H2. rewrite <- last_of_month by exact H1. f_equal.
  destruct (Z.eq_dec tm 12) as [->|N].
  - rewrite (mk_date_norm y (m + 1) 0 0 0 0 0 utc (ty + 1) 1) by lia.
    now rewrite (mk_date_norm ty (12 + 1) 0 0 0 0 0 utc (ty + 1) 1) by lia.
  - apply mk_date_norm; lia.
Qed.

Lemma civil_on t y m d : civil t = (y, m, d) -> on t y m d.
Proof. unfold on, year, month, day. intros ->. repeat split. Qed.

(** The calendar step of a relative date, with PreserveEndOfMonth: the result is in the month reached by counting months, on the current day of
    the month or the last day of that month if it is shorter; the time of day and the zone are kept. *)
Theorem C22_preserve_end_of_month : forall cfg now dy dm,
  c_preserve cfg = true -> wf_time now -> fixed (t_loc now) ->
  let '(ty, tm) := months_later (year now) (month now) (12 * dy + dm) in
  let r := rel_add_date cfg now dy dm 0 in
  on r ty tm (Z.min (day now) (days_in ty tm)) /\ at_ r (hour now, minute now, second now, nanosecond now) /\ t_loc r = t_loc now.
Proof.
  intros cfg now dy dm HP HW HF. pose proof (months_later_ok (year now) (month now) dy dm) as HM.
  destruct (months_later (year now) (month now) (12 * dy + dm)) as [ty tm]. destruct HM as [M1 M2]. cbv zeta.
  unfold rel_add_date. rewrite HP. cbn [negb]. rewrite (last_of_month' (year now + dy) (month now + dm) ty tm) by (assumption || lia).
  set (dd := if days_in ty tm <? day now then days_in ty tm else day now).
  assert (Hdd : dd = Z.min (day now) (days_in ty tm)) by (unfold dd; destruct (days_in ty tm <? day now) eqn:C; lia).
  destruct (civil_valid now) as [[V1 V2] _]. pose proof (days_in_bounds ty tm) as B.
  rewrite (mk_date_norm (year now + dy) (month now + dm) dd _ _ _ _ _ ty tm) by (assumption || lia).
  assert (VD : valid_date ty tm dd) by (split; lia). pose proof (clock_valid now HW) as VC.
  set (t := mk_date ty tm dd (hour now) (minute now) (second now) (nanosecond now) (t_loc now)).
  assert (Ht : add_date t 0 0 0 = t).
  { unfold add_date. rewrite !Z.add_0_r. apply time_of_fields; [apply mk_date_wf | exact HF]. }
  rewrite Ht. unfold on, at_, t. rewrite mk_date_year, mk_date_month, mk_date_day by assumption.
  pose proof (mk_date_clock ty tm dd (hour now) (minute now) (second now) (nanosecond now) (t_loc now) HF M1 VC) as (-> & -> & -> & ->).
  repeat split; congruence || reflexivity.
Qed.

(** days are counted after the month has been fixed *)
Theorem C22_days_come_after_the_month : forall cfg now dy dm dd,
  c_preserve cfg = true -> wf_time now -> fixed (t_loc now) ->
  instant (rel_add_date cfg now dy dm dd) = instant (rel_add_date cfg now dy dm 0) + dd * (86400 * 1000000000).
Proof.
  intros cfg now dy dm dd HP HW HF. unfold rel_add_date. rewrite HP. cbn [negb].
  set (t := mk_date _ _ _ _ _ _ _ _). assert (HF' : fixed (t_loc t)) by exact HF. pose proof (mk_date_wf (year now + dy) (month now + dm)
    (if day (mk_date (year now + dy) (month now + dm + 1) 0 0 0 0 0 utc) <? day now then day (mk_date (year now + dy) (month now + dm + 1) 0 0 0 0 0 utc) else day now)
    (hour now) (minute now) (second now) (nanosecond now) (t_loc now)) as HW'. fold t in HW'. clearbody t.
  destruct (add_days_sec t dd HW' HF') as [A1 A2]. destruct (add_days_sec t 0 HW' HF') as [B1 B2].
  unfold instant. rewrite A1, A2, B1, B2. lia.
Qed.

(** Without the option the day of the month is kept when the target month has it, and otherwise the excess days run into the next month *)
Theorem C22_rolls_over_by_default : forall cfg now dy dm,
  c_preserve cfg = false -> wf_time now -> fixed (t_loc now) ->
  let '(ty, tm) := months_later (year now) (month now) (12 * dy + dm) in
  let r := rel_add_date cfg now dy dm 0 in
  (day now <= days_in ty tm -> on r ty tm (day now)) /\
  (days_in ty tm < day now -> on r ty (tm + 1) (day now - days_in ty tm)) /\
  at_ r (hour now, minute now, second now, nanosecond now) /\ t_loc r = t_loc now.
Proof.
  intros cfg now dy dm HP HW HF. pose proof (months_later_ok (year now) (month now) dy dm) as HM.
  destruct (months_later (year now) (month now) (12 * dy + dm)) as [ty tm]. destruct HM as [M1 M2]. cbv zeta.
  unfold rel_add_date. rewrite HP. cbn [negb]. unfold add_date. rewrite Z.add_0_r.
  destruct (civil_valid now) as [[V1 V2] _]. pose proof (days_in_bounds ty tm) as B. pose proof (clock_valid now HW) as VC.
  rewrite (mk_date_norm (year now + dy) (month now + dm) (day now) _ _ _ _ _ ty tm) by (assumption || lia).
  assert (CL : at_ (mk_date ty tm (day now) (hour now) (minute now) (second now) (nanosecond now) (t_loc now)) (hour now, minute now, second now, nanosecond now)).
  { unfold at_. pose proof (mk_date_clock ty tm (day now) (hour now) (minute now) (second now) (nanosecond now) (t_loc now) HF M1 VC) as (-> & -> & -> & ->). reflexivity. }
  split; [|split; [|split; [exact CL | reflexivity]]].
  - intros Hd. assert (VD : valid_date ty tm (day now)) by (split; lia). split; [|split]; [apply mk_date_year | apply mk_date_month | apply mk_date_day]; assumption.
  - intros Hd. pose proof (days_in_bounds (year now) (month now)) as B'.
    assert (Hn : tm <> 12) by (intros ->; change (days_in ty 12) with 31 in *; lia).
    assert (He : days_of_civil ty tm (day now) = days_of_civil ty (tm + 1) (day now - days_in ty tm)) by (unfold days_of_civil; rewrite dbm_succ by lia; lia).
    assert (VD : valid_date ty (tm + 1) (day now - days_in ty tm)) by (pose proof (days_in_bounds ty (tm + 1)); split; lia).
    apply civil_on. unfold civil. rewrite mk_date_days by assumption. rewrite He. apply civil_days, VD.
Qed.

(** the options differ exactly when the target month is shorter: one month after 31 January 2021 *)
Definition jan31 : time := mk_date 2021 1 31 9 30 0 0 utc.
Definition with_preserve (b : bool) (now : time) : config :=
  {| c_order := []; c_now := now; c_pday := 0; c_pmonth := 0; c_src := 0; c_strict := false; c_required := []; c_tz := None;
     c_timeperiod := false; c_preserve := b; c_skip := []; c_deflang := [] |}.
Example preserve_case : wf_time jan31 /\ fixed (t_loc jan31) /\ c_preserve (with_preserve true jan31) = true /\
  on (rel_add_date (with_preserve true jan31) jan31 0 1 0) 2021 2 28 /\ on (rel_add_date (with_preserve false jan31) jan31 0 1 0) 2021 3 3 /\
  on (rel_add_date (with_preserve true jan31) jan31 0 (-23) 0) 2019 2 28.
Proof. vm_compute. repeat split; congruence. Qed.

Print Assumptions C22_preserve_end_of_month.
Print Assumptions C22_days_come_after_the_month.
Print Assumptions C22_rolls_over_by_default.
