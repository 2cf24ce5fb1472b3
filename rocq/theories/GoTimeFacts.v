(** Facts about the time model used by the proofs. *)
From Coq Require Import ZifyBool.
From Verif Require Import GoBase Civil GoTime.
Ltac Zify.zify_post_hook ::= Z.div_mod_to_equations.

(** locations without transitions: UTC and FixedZone *)
Definition fixed (l : location) : Prop := l_trans l = [].
Lemma fixed_utc : fixed utc. Proof. reflexivity. Qed.
Lemma fixed_fixed_zone n o : fixed (fixed_zone n o). Proof. reflexivity. Qed.

Lemma off_at_fixed l u : fixed l -> off_at l u = z_off (l_base l).
Proof. unfold fixed, off_at, zone_at, lookup. intros ->. reflexivity. Qed.

Lemma resolve_fixed l w : fixed l -> resolve l w = w - z_off (l_base l).
Proof.
  unfold fixed, resolve, lookup. intros ->. cbn.
  destruct (z_off (l_base l) =? 0) eqn:E; cbn; lia.
Qed.

Definition valid_clock (h mi s ns : Z) : Prop :=
  0 <= h < 24 /\ 0 <= mi < 60 /\ 0 <= s < 60 /\ 0 <= ns < 1000000000.

Lemma local_sec_fixed t : fixed (t_loc t) -> local_sec t = t_sec t + z_off (l_base (t_loc t)).
Proof. intros H. unfold local_sec, zone_of. f_equal. exact (off_at_fixed _ _ H). Qed.

Lemma days_of_civil_shift y m d k : days_of_civil y m d + k = days_of_civil y m (d + k).
Proof. unfold days_of_civil. lia. Qed.

Lemma local_sec_mk_date y m d h mi s ns l :
  fixed l -> local_sec (mk_date y m d h mi s ns l) = wall_sec y m d h mi s + ns / 1000000000.
Proof. intros H. rewrite local_sec_fixed by exact H. cbn. rewrite resolve_fixed by exact H. lia. Qed.

Lemma wall_sec_valid y m d h mi s : 1 <= m <= 12 ->
  wall_sec y m d h mi s = 86400 * days_of_civil y m d + 3600 * h + 60 * mi + s.
Proof.
  intros H. unfold wall_sec.
  replace ((m - 1) / 12) with 0 by lia. replace ((m - 1) mod 12 + 1) with m by lia.
  replace (y + 0) with y by lia. unfold days_of_civil. lia.
Qed.

(** fields of Date(...) with valid arguments *)
Lemma mk_date_days y m d h mi s ns l :
  fixed l -> 1 <= m <= 12 -> valid_clock h mi s ns ->
  local_days (mk_date y m d h mi s ns l) = days_of_civil y m d.
Proof.
  intros Hl Hm (Hh & Hmi & Hs & Hns). unfold local_days. rewrite local_sec_mk_date, wall_sec_valid by assumption.
  lia.
Qed.

Lemma mk_date_civil y m d h mi s ns l :
  fixed l -> valid_date y m d -> valid_clock h mi s ns ->
  civil (mk_date y m d h mi s ns l) = (y, m, d).
Proof.
  intros Hl Hd Hc. unfold civil. rewrite mk_date_days by (try assumption; destruct Hd; assumption).
  apply civil_days, Hd.
Qed.

Lemma mk_date_sod y m d h mi s ns l :
  fixed l -> 1 <= m <= 12 -> valid_clock h mi s ns ->
  sod (mk_date y m d h mi s ns l) = 3600 * h + 60 * mi + s.
Proof.
  intros Hl Hm (Hh & Hmi & Hs & Hns). unfold sod. rewrite local_sec_mk_date, wall_sec_valid by assumption. lia.
Qed.

Lemma mk_date_clock y m d h mi s ns l :
  fixed l -> 1 <= m <= 12 -> valid_clock h mi s ns ->
  let t := mk_date y m d h mi s ns l in hour t = h /\ minute t = mi /\ second t = s /\ nanosecond t = ns.
Proof.
  intros Hl Hm Hc t. subst t. unfold hour, minute, second. rewrite mk_date_sod by assumption.
  destruct Hc as (Hh & Hmi & Hs & Hns). unfold nanosecond, mk_date; cbn [t_nsec]. repeat split; lia.
Qed.

Lemma mk_date_year y m d h mi s ns l : fixed l -> valid_date y m d -> valid_clock h mi s ns ->
  year (mk_date y m d h mi s ns l) = y.
Proof. intros. unfold year. rewrite mk_date_civil by assumption. reflexivity. Qed.
Lemma mk_date_month y m d h mi s ns l : fixed l -> valid_date y m d -> valid_clock h mi s ns ->
  month (mk_date y m d h mi s ns l) = m.
Proof. intros. unfold month. rewrite mk_date_civil by assumption. reflexivity. Qed.
Lemma mk_date_day y m d h mi s ns l : fixed l -> valid_date y m d -> valid_clock h mi s ns ->
  day (mk_date y m d h mi s ns l) = d.
Proof. intros. unfold day. rewrite mk_date_civil by assumption. reflexivity. Qed.

(** every time has valid fields *)
Definition wf_time (t : time) : Prop := 0 <= t_nsec t < 1000000000.
Lemma mk_date_wf y m d h mi s ns l : wf_time (mk_date y m d h mi s ns l).
Proof. unfold wf_time, mk_date; cbn. apply Z.mod_pos_bound. lia. Qed.

Lemma civil_valid t : valid_date (year t) (month t) (day t) /\ days_of_civil (year t) (month t) (day t) = local_days t.
Proof.
  unfold year, month, day, civil. pose proof (days_civil (local_days t)) as H.
  destruct (civil_of_days (local_days t)) as [[y m] d]. exact H.
Qed.

Lemma clock_valid t : wf_time t -> valid_clock (hour t) (minute t) (second t) (nanosecond t).
Proof.
  unfold wf_time, valid_clock, hour, minute, second, nanosecond, sod. intros H.
  pose proof (Z.mod_pos_bound (local_sec t) 86400 ltac:(lia)).
  set (x := local_sec t mod 86400) in *. clearbody x. repeat split; lia.
Qed.

Lemma local_sec_split t : local_sec t = 86400 * local_days t + 3600 * hour t + 60 * minute t + second t.
Proof. unfold local_days, hour, minute, second, sod. lia. Qed.

(** a time in a fixed zone is determined by its fields *)
Lemma time_of_fields t : wf_time t -> fixed (t_loc t) ->
  mk_date (year t) (month t) (day t) (hour t) (minute t) (second t) (nanosecond t) (t_loc t) = t.
Proof.
  intros Hw Hl. destruct (civil_valid t) as [Hv Hd]. unfold mk_date.
  rewrite resolve_fixed by exact Hl. rewrite wall_sec_valid by (destruct Hv; assumption).
  rewrite Hd. pose proof (local_sec_split t) as HS. rewrite local_sec_fixed in HS by exact Hl.
  unfold nanosecond. unfold wf_time in Hw.
  replace (t_nsec t / 1000000000) with 0 by lia. replace (t_nsec t mod 1000000000) with (t_nsec t) by lia.
  destruct t as [ts tn tl]; cbn in *. f_equal. lia.
Qed.

(** AddDate(0,0,k) moves the local day number by k and keeps the time of day *)
Lemma add_days_days t k : wf_time t -> fixed (t_loc t) ->
  local_days (add_date t 0 0 k) = local_days t + k.
Proof.
  intros Hw Hl. unfold add_date. destruct (civil_valid t) as [Hv Hd].
  rewrite !Z.add_0_r. rewrite mk_date_days; [|exact Hl|destruct Hv; assumption|apply clock_valid, Hw].
  rewrite <- days_of_civil_shift. lia.
Qed.
Lemma add_date_loc t y m d : t_loc (add_date t y m d) = t_loc t. Proof. reflexivity. Qed.
Lemma add_date_wf t y m d : wf_time (add_date t y m d). Proof. apply mk_date_wf. Qed.

Lemma add_days_sec t k : wf_time t -> fixed (t_loc t) ->
  t_sec (add_date t 0 0 k) = t_sec t + 86400 * k /\ t_nsec (add_date t 0 0 k) = t_nsec t.
Proof.
  intros Hw Hl.
  assert (E : local_sec (add_date t 0 0 k) = local_sec t + 86400 * k).
  { unfold add_date. destruct (civil_valid t) as [Hv Hd]. rewrite !Z.add_0_r.
    rewrite local_sec_mk_date by exact Hl. rewrite wall_sec_valid by (destruct Hv; assumption).
    rewrite <- days_of_civil_shift, Hd. rewrite (local_sec_split t). unfold nanosecond, wf_time in *. lia. }
  rewrite !local_sec_fixed in E by (try exact Hl). rewrite add_date_loc in E. split; [lia|].
  unfold add_date, mk_date, nanosecond, wf_time in *. cbn. lia.
Qed.

(** comparison of instants *)
Lemma before_instant a b : wf_time a -> wf_time b -> before a b = (instant a <? instant b).
Proof. unfold before, instant, wf_time. intros. lia. Qed.

Lemma instant_mk_date y m d h mi s ns l :
  fixed l -> 1 <= m <= 12 ->
  instant (mk_date y m d h mi s ns l) =
  (86400 * days_of_civil y m d + 3600 * h + 60 * mi + s - z_off (l_base l)) * 1000000000 + ns.
Proof.
  intros Hl Hm. unfold instant, mk_date; cbn [t_sec t_nsec]. rewrite resolve_fixed by exact Hl.
  rewrite wall_sec_valid by exact Hm. lia.
Qed.
