(** Facts about internal/dateutil *)
From Coq Require Import ZifyBool.
From Verif Require Import GoBase Civil GoTime GoTimeFacts Dateutil.
Ltac Zify.zify_post_hook ::= Z.div_mod_to_equations.

Lemma rem_mod_0 y k : 0 < k -> (Z.rem y k =? 0) = (y mod k =? 0).
Proof.
  intros Hk. apply eq_true_iff_eq. rewrite !Z.eqb_eq. rewrite Z.rem_divide, Z.mod_divide by lia. tauto.
Qed.
Lemma is_leap_leap y : is_leap_year y = leap y.
Proof. unfold is_leap_year, leap. rewrite !rem_mod_0 by lia. destruct (y mod 400 =? 0) eqn:A, (y mod 100 =? 0) eqn:B, (y mod 4 =? 0) eqn:C; cbn [andb orb negb]; try reflexivity; lia. Qed.

Lemma wall_sec_next y m h mi s : 1 <= m <= 12 ->
  wall_sec y (m + 1) 0 h mi s = 86400 * days_of_civil y m (days_in y m) + 3600 * h + 60 * mi + s.
Proof.
  intros Hm. unfold wall_sec. destruct (Z.eq_dec m 12) as [->|H].
  - replace ((12 + 1 - 1) / 12) with 1 by lia. replace ((12 + 1 - 1) mod 12 + 1) with 1 by lia.
    unfold days_of_civil. rewrite dby_succ, <- dbm_last. replace (dbm (y + 1) 1) with 0 by reflexivity. lia.
  - replace ((m + 1 - 1) / 12) with 0 by lia. replace ((m + 1 - 1) mod 12 + 1) with (m + 1) by lia.
    rewrite Z.add_0_r. unfold days_of_civil. rewrite dbm_succ by lia. lia.
Qed.
Lemma last_valid y m : 1 <= m <= 12 -> valid_date y m (days_in y m).
Proof. intros. pose proof (days_in_bounds y m). split; lia. Qed.

(** GetLastDayOfMonth *)
Lemma last_day y m : 1 <= m <= 12 -> get_last_day_of_month y m = days_in y m.
Proof.
  intros Hm. unfold get_last_day_of_month.
  assert (V : valid_date y m 1) by (unfold valid_date; pose proof (days_in_bounds y m); lia).
  assert (C : valid_clock 0 0 0 0) by (unfold valid_clock; lia).
  unfold add_date. rewrite (mk_date_year y m 1 0 0 0 0 utc fixed_utc V C), (mk_date_month y m 1 0 0 0 0 utc fixed_utc V C), (mk_date_day y m 1 0 0 0 0 utc fixed_utc V C).
  destruct (mk_date_clock y m 1 0 0 0 0 utc fixed_utc Hm C) as (-> & -> & -> & ->).
  unfold day, civil, local_days. rewrite local_sec_mk_date by apply fixed_utc.
  replace (1 + -1) with 0 by lia. rewrite Z.add_0_r, wall_sec_next by lia.
  match goal with |- context [civil_of_days ?n] => replace n with (days_of_civil y m (days_in y m)) by (replace (y + 0) with y by lia; lia) end.
  rewrite civil_days by (apply last_valid; lia). reflexivity.
Qed.

(** a leap year lies within 8 years in both directions *)
Lemma leap_near y : (exists k, 1 <= k <= 8 /\ leap (y + k) = true) /\ (exists k, 1 <= k <= 8 /\ leap (y - k) = true).
Proof.
  split.
  - assert (H : exists k, 1 <= k <= 4 /\ (y + k) mod 4 = 0) by (exists (4 - y mod 4); lia). destruct H as (k & Hk & H4).
    destruct (leap (y + k)) eqn:L; [exists k; split; [lia|exact L]|]. exists (k + 4). split; [lia|]. unfold leap in *.
    assert ((y + k) mod 100 = 0) by lia. assert ((y + (k + 4)) mod 4 = 0) by lia. assert ((y + (k + 4)) mod 100 <> 0) by lia. lia.
  - assert (H : exists k, 1 <= k <= 4 /\ (y - k) mod 4 = 0).
    { exists (if y mod 4 =? 0 then 4 else y mod 4). destruct (y mod 4 =? 0) eqn:?; lia. } destruct H as (k & Hk & H4).
    destruct (leap (y - k)) eqn:L; [exists k; split; [lia|exact L]|]. exists (k + 4). split; [lia|]. unfold leap in *.
    assert ((y - k) mod 100 = 0) by lia. assert ((y - (k + 4)) mod 4 = 0) by lia. assert ((y - (k + 4)) mod 100 <> 0) by lia. lia.
Qed.
Lemma leap_fuel step : forall fuel y r,
  get_leap_year_fuel fuel y step = r ->
  match r with
  | Some z => leap z = true /\ exists k, 1 <= k <= Z.of_nat fuel /\ z = y + k * step /\ forall j, 1 <= j < k -> leap (y + j * step) = false
  | None => forall j, 1 <= j <= Z.of_nat fuel -> leap (y + j * step) = false
  end.
Proof.
  induction fuel as [|f IH]; intros y r; cbn [get_leap_year_fuel]; intros <-.
  - intros j Hj. lia.
  - rewrite is_leap_leap. destruct (leap (y + step)) eqn:L.
    + split; [exact L|]. exists 1. repeat split; try lia.
    + specialize (IH (y + step) _ eq_refl). destruct (get_leap_year_fuel f (y + step) step) as [z|].
      * destruct IH as (Hz & k & Hk & -> & Hj). split; [exact Hz|]. exists (k + 1). repeat split; try lia.
        intros j Hj'. destruct (Z.eq_dec j 1) as [->|]; [now replace (y + 1 * step) with (y + step) by lia|].
        replace (y + j * step) with (y + step + (j - 1) * step) by lia. apply Hj. lia.
      * intros j Hj. destruct (Z.eq_dec j 1) as [->|]; [now replace (y + 1 * step) with (y + step) by lia|].
        replace (y + j * step) with (y + step + (j - 1) * step) by lia. apply IH. lia.
Qed.
(** the next / previous leap year: the loop of GetLeapYear ends *)
Lemma get_leap_future y : leap (get_leap_year y true) = true /\ y < get_leap_year y true <= y + 8 /\
  forall z, y < z < get_leap_year y true -> leap z = false.
Proof.
  unfold get_leap_year. pose proof (leap_fuel 1 8 y _ eq_refl) as H. destruct (get_leap_year_fuel 8 y 1) as [z|].
  - destruct H as (Hz & k & Hk & -> & Hj). repeat split; try lia; auto. intros z Hlt. replace z with (y + (z - y) * 1) by lia. apply Hj. lia.
  - exfalso. destruct (leap_near y) as [(k & Hk & Hl) _]. specialize (H k). replace (y + k * 1) with (y + k) in H by lia. rewrite H in Hl; [discriminate|lia].
Qed.
Lemma get_leap_past y : leap (get_leap_year y false) = true /\ y - 8 <= get_leap_year y false < y /\
  forall z, get_leap_year y false < z < y -> leap z = false.
Proof.
  unfold get_leap_year. pose proof (leap_fuel (-1) 8 y _ eq_refl) as H. destruct (get_leap_year_fuel 8 y (-1)) as [z|].
  - destruct H as (Hz & k & Hk & -> & Hj). repeat split; try lia; auto. intros z Hlt. replace z with (y + (y - z) * -1) by lia. apply Hj. lia.
  - exfalso. destruct (leap_near y) as [_ (k & Hk & Hl)]. specialize (H k). replace (y + k * -1) with (y - k) in H by lia. rewrite H in Hl; [discriminate|lia].
Qed.
