(** C70: the 30th of the twelfth month of a Jalali or Hijri year without that day is taken in a year that has it *)
From Coq Require Import ZifyBool.
From Verif Require Import GoBase SMap Regex Civil GoTime GoTimeFacts Setting Strutil Digit Dateutil Tokenizer Timezone Env Common Absolute JalaliData Calendars Language Parser Shows Spec
  AbsFacts2 NumericFacts Prop_Numeric Prop_Calendar Concrete LocaleData.

(** ** Specification *)
(** the years y+step, y+2*step, ... are asked in turn whether they have that day: the first that has it is the answer; if the calendar has no
    answer for one of them (the end of its range), it is the year y itself *)
Definition first_leap (leap : Z -> option bool) (step y r : Z) : Prop :=
  exists k, 1 <= k <= 400 /\ (forall j, 1 <= j < k -> leap (y + j * step) = Some false) /\
    (leap (y + k * step) = Some true /\ r = y + k * step \/ leap (y + k * step) = None /\ r = y).
(** with dates of the future preferred the next such year, with dates of the past the previous one, else the nearer of both (the earlier, if equally near) *)
Definition leap_move (leap : Z -> option bool) (src y r : Z) : Prop :=
  if src =? Future then first_leap leap 1 y r
  else if src =? Past then first_leap leap (-1) y r
  else exists next prev, first_leap leap 1 y next /\ first_leap leap (-1) y prev /\ r = (if next - y <? y - prev then next else prev).

Lemma jl_next K y step : forall fuel y0 k, (k < fuel)%nat -> (forall j, 0 <= j < Z.of_nat k -> jl_leap K (y0 + (j + 1) * step) = Some false) ->
  (jl_leap K (y0 + (Z.of_nat k + 1) * step) = Some true -> jl_next_leap K fuel y y0 step = Some (y0 + (Z.of_nat k + 1) * step)) /\
  (jl_leap K (y0 + (Z.of_nat k + 1) * step) = None -> jl_next_leap K fuel y y0 step = Some y).
Proof.
  induction fuel as [|f IH]; intros y0 k HK HB; [lia|]. cbn [jl_next_leap]. destruct k as [|k].
  - replace (y0 + (Z.of_nat 0 + 1) * step) with (y0 + step) by lia. split; intros ->; reflexivity.
  - pose proof (HB 0 ltac:(lia)) as H0. replace (y0 + (0 + 1) * step) with (y0 + step) in H0 by lia. rewrite H0.
    replace (y0 + (Z.of_nat (S k) + 1) * step) with (y0 + step + (Z.of_nat k + 1) * step) by lia. apply IH; [lia|].
    intros j Hj. replace (y0 + step + (j + 1) * step) with (y0 + ((j + 1) + 1) * step) by lia. apply HB. lia.
Qed.
Lemma jl_first K y step r : first_leap (jl_leap K) step y r -> jl_next_leap K jl_fuel y y step = Some r.
Proof.
  intros (k & Hk & HB & HR). destruct (jl_next K y step jl_fuel y (Z.to_nat (k - 1))) as [H1 H2].
  - unfold jl_fuel. lia.
  - intros j Hj. apply HB. lia.
  - replace (Z.of_nat (Z.to_nat (k - 1)) + 1) with k in * by lia. destruct HR as [[L ->]|[L ->]]; auto.
Qed.
Lemma jl_moved K cfg y r : leap_move (jl_leap K) (c_src cfg) y r -> jl_correct_leap K cfg y = Some r.
Proof.
  unfold leap_move, jl_correct_leap. destruct (c_src cfg =? Future); [apply jl_first|]. destruct (c_src cfg =? Past); [apply jl_first|].
  intros (next & prev & H1 & H2 & ->). now rewrite (jl_first _ _ _ _ H1), (jl_first _ _ _ _ H2).
Qed.
Lemma hj_next K step : forall fuel y0 k, (k < fuel)%nat -> (forall j, 0 <= j < Z.of_nat k -> hj_leap K (y0 + (j + 1) * step) = false) ->
  hj_leap K (y0 + (Z.of_nat k + 1) * step) = true -> hj_next_leap K fuel y0 step = Some (y0 + (Z.of_nat k + 1) * step).
Proof.
  induction fuel as [|f IH]; intros y0 k HK HB; [lia|]. cbn [hj_next_leap]. destruct k as [|k].
  - replace (y0 + (Z.of_nat 0 + 1) * step) with (y0 + step) by lia. intros ->. reflexivity.
  - pose proof (HB 0 ltac:(lia)) as H0. replace (y0 + (0 + 1) * step) with (y0 + step) in H0 by lia. rewrite H0.
    replace (y0 + (Z.of_nat (S k) + 1) * step) with (y0 + step + (Z.of_nat k + 1) * step) by lia. apply IH; [lia|].
    intros j Hj. replace (y0 + step + (j + 1) * step) with (y0 + ((j + 1) + 1) * step) by lia. apply HB. lia.
Qed.
(** does the Hijri year have a 30th day of the twelfth month (see [hijri_long_year])? *)
Definition hijri_long (K : calendars) (y : Z) : option bool := let '(gy, gm, gd) := hj_to K y 12 30 in Some (snd (hj_of K (mk_date gy gm gd 0 0 0 0 utc)) =? 30).
Lemma hijri_long_is K y : hijri_long K y = Some (hj_leap K y).
Proof. unfold hijri_long, hj_leap, hj_greg_time. destruct (hj_to K y 12 30) as [[gy gm] gd]. reflexivity. Qed.
Lemma hj_first K y step r : first_leap (hijri_long K) step y r -> hj_next_leap K hj_fuel y step = Some r.
Proof.
  intros (k & Hk & HB & HR). rewrite hijri_long_is in HR. destruct HR as [[L ->]|[L _]]; [|discriminate L]. assert (L' : hj_leap K (y + k * step) = true) by congruence.
  pose proof (hj_next K step hj_fuel y (Z.to_nat (k - 1))) as H. replace (Z.of_nat (Z.to_nat (k - 1)) + 1) with k in * by lia. apply H; [unfold hj_fuel; lia| |exact L'].
  intros j Hj. specialize (HB (j + 1) ltac:(lia)). rewrite hijri_long_is in HB. congruence.
Qed.
Lemma hj_moved K cfg y r : leap_move (hijri_long K) (c_src cfg) y r -> hj_correct_leap K cfg y = Some r.
Proof.
  unfold leap_move, hj_correct_leap. destruct (c_src cfg =? Future); [apply hj_first|]. destruct (c_src cfg =? Past); [apply hj_first|].
  intros (next & prev & H1 & H2 & ->). now rewrite (hj_first _ _ _ _ H1), (hj_first _ _ _ _ H2).
Qed.
Lemma moved_leap K y src r : leap_move (hijri_long K) src y r -> hj_leap K r = true.
Proof.
  assert (F : forall step x, first_leap (hijri_long K) step y x -> hj_leap K x = true).
  { intros step x (k & _ & _ & [[L ->]|[L _]]); rewrite hijri_long_is in L; congruence. }
  unfold leap_move. destruct (src =? Future); [apply F|]. destruct (src =? Past); [apply F|]. intros (a & b & H1 & H2 & ->). destruct (_ <? _); eapply F; eassumption.
Qed.

(** ** Theorems *)
(** ParseJalali: the day of the result is the last day of that month in the year it moved to (day 30, or, at the end of the calendar's range, an
    earlier day of the year itself). *)
Theorem C70_jalali : forall E K cfg order loc td tm ty y y' n s gy gm gd,
  calendar_call E cfg order loc -> numeric_date jalali_century order td tm ty 30 12 y s ->
  length ty = 4%nat \/ ~ In (u_src cfg) [Past; Future] ->
  jl_leap K y = Some false -> leap_move (jl_leap K) (u_src cfg) y y' ->
  jl_mlen K y' 12 = Some n -> jl_to K y' 12 (Z.min 30 n) = Some (gy, gm, gd) -> valid_date gy gm gd ->
  shows (parse_jalali E K cfg s) gy gm gd 0 0 0 0 PDay [].
Proof.
  intros E K cfg order loc td tm ty y y' n s gy gm gd HC ND HS HL HM HN HT HV.
  rewrite (jalali_run E K cfg order loc td tm ty 30 12 y s (mk_date gy gm gd 0 0 0 0 loc) HC ND ltac:(lia) ltac:(lia)).
  - rewrite kept_century by exact HS. destruct (call_now E cfg order loc HC) as (now & _ & _ & _ & FL & _). exact (in_zone_shows gy gm gd loc [] HV FL).
  - unfold jl_create. rewrite HL. cbn [Z.eqb Pos.eqb andb negb]. rewrite (jl_moved K _ y y') by exact HM. rewrite HN.
    replace (if n <? 30 then n else 30) with (Z.min 30 n) by (destruct (n <? 30) eqn:Q; lia). rewrite HT. reflexivity.
Qed.
Print Assumptions C70_jalali.
(** ParseHijri: the 30th of the twelfth month of the year it moved to. *)
Theorem C70_hijri : forall E K cfg order loc td tm ty y y' s gy gm gd,
  calendar_call E cfg order loc -> numeric_date hijri_century order td tm ty 30 12 y s ->
  length ty = 4%nat \/ ~ In (u_src cfg) [Past; Future] ->
  ~ hijri_long_year K y -> leap_move (hijri_long K) (u_src cfg) y y' ->
  hj_to K y' 12 30 = (gy, gm, gd) -> valid_date gy gm gd ->
  shows (parse_hijri E K cfg s) gy gm gd 0 0 0 0 PDay [].
Proof.
  intros E K cfg order loc td tm ty y y' s gy gm gd HC ND HS HL HM HT HV.
  rewrite (hijri_run E K cfg order loc td tm ty 30 12 y s (mk_date gy gm gd 0 0 0 0 loc) HC ND ltac:(lia) ltac:(lia)).
  - rewrite kept_century by exact HS. destruct (call_now E cfg order loc HC) as (now & _ & _ & _ & FL & _). exact (in_zone_shows gy gm gd loc [] HV FL).
  - unfold hj_create. rewrite long_iff in HL. apply not_true_is_false in HL. rewrite HL. cbn [Z.eqb Pos.eqb andb negb]. rewrite (hj_moved K _ y y') by exact HM.
    unfold hj_last_day. rewrite (moved_leap K y _ y' HM). cbn [Z.eqb Pos.eqb andb Z.ltb Z.compare Pos.compare Pos.compare_cont]. rewrite HT. reflexivity.
Qed.
Print Assumptions C70_hijri.

(** ** Cases: the tabular Islamic calendar (forwards and backwards) and the 33-year Jalali calendar, which ends with the year [last] *)
Definition dh (y m d : Z) : Z := 354 * y + (11 * y + 3) / 30 + 30 * m - (m - 1) / 2 + d - 492533.
Definition hij (n : Z) : Z * Z * Z :=
  let y0 := (n + 492503) * 30 / 10631 in
  let y := if dh (y0 + 1) 1 1 <=? n then y0 + 1 else if dh y0 1 1 <=? n then y0 else y0 - 1 in
  let m := fold_left (fun m k => if dh y k 1 <=? n then k else m) [2; 3; 4; 5; 6; 7; 8; 9; 10; 11; 12] 1 in
  (y, m, n - dh y m 1 + 1).
Definition cal1 (last : Z) : calendars :=
  {| hj_to := hj_to cal0; hj_of := fun t => hij (days_of_civil (year t) (month t) (day t));
     jl_to := fun y m d => Some (civil_of_days (365 * y + (8 * y + 21) / 33 + (if m <=? 7 then 31 * (m - 1) else 30 * (m - 1) + 6) + d - 492634)); jl_of := jl_of cal0;
     jl_leap := fun y => if last <? y then None else jl_leap cal0 y;
     jl_mlen := fun y m => Some (if m <=? 6 then 31 else if (m <=? 11) || match jl_leap cal0 y with Some b => b | None => false end then 30 else 29) |}.
Lemma first_by leap step y r k : 1 <= k <= 400 -> forallb (fun j => match leap (y + (Z.of_nat j + 1) * step) with Some false => true | _ => false end) (seq 0 (Z.to_nat (k - 1))) = true ->
  (leap (y + k * step) = Some true /\ r = y + k * step \/ leap (y + k * step) = None /\ r = y) -> first_leap leap step y r.
Proof.
  intros Hk HF HR. exists k. split; [exact Hk|]. split; [|exact HR]. intros j Hj. rewrite forallb_forall in HF. specialize (HF (Z.to_nat (j - 1))).
  assert (IN : In (Z.to_nat (j - 1)) (seq 0 (Z.to_nat (k - 1)))) by (apply in_seq; lia). apply HF in IN. replace (Z.of_nat (Z.to_nat (j - 1)) + 1) with j in IN by lia. destruct (leap (y + j * step)) as [[|]|]; congruence.
Qed.
(** 30 Esfand 1402: in 1403, or, with dates of the past, in 1399; and with a calendar that ends with 1402, the 29th *)
Ltac jalali_case := first [apply cal_call; cbn; auto | apply (cal_date jalali_century (lit "30") (lit "12") (lit "1402") 1402 47 47); try (apply digits_by; reflexivity); try (cbn; lia); left; cbn; repeat split; lia
  | now left | match goal with |- jl_to _ _ _ _ = _ => vm_compute; reflexivity end | reflexivity | unfold valid_date; vm_compute; repeat split; discriminate | idtac].
Example C70_jalali_case : shows (parse_jalali env0 (cal1 3177) (cal_cfg CurrentPeriod) (lit "30/12/1402")) 2025 3 20 0 0 0 0 PDay [].
Proof.
  apply (C70_jalali env0 (cal1 3177) (cal_cfg CurrentPeriod) "DMY" utc (lit "30") (lit "12") (lit "1402") 1402 1403 30 (lit "30/12/1402") 2025 3 20); jalali_case.
  cbn -[first_leap]. exists 1403, 1399. split; [|split; [|reflexivity]].
  - apply (first_by _ _ _ _ 1); [lia|reflexivity|]. left. split; reflexivity.
  - apply (first_by _ _ _ _ 3); [lia|reflexivity|]. left. split; reflexivity.
Qed.
Example C70_jalali_past_case : shows (parse_jalali env0 (cal1 3177) (cal_cfg Past) (lit "30/12/1402")) 2021 3 20 0 0 0 0 PDay [].
Proof.
  apply (C70_jalali env0 (cal1 3177) (cal_cfg Past) "DMY" utc (lit "30") (lit "12") (lit "1402") 1402 1399 30 (lit "30/12/1402") 2021 3 20); jalali_case.
  cbn -[first_leap]. apply (first_by _ _ _ _ 3); [lia|reflexivity|]. left. split; reflexivity.
Qed.
Example C70_jalali_end_case : shows (parse_jalali env0 (cal1 1402) (cal_cfg Future) (lit "30/12/1402")) 2024 3 19 0 0 0 0 PDay [].
Proof.
  apply (C70_jalali env0 (cal1 1402) (cal_cfg Future) "DMY" utc (lit "30") (lit "12") (lit "1402") 1402 1402 29 (lit "30/12/1402") 2024 3 19); jalali_case.
  cbn -[first_leap]. apply (first_by _ _ _ _ 1); [lia|reflexivity|]. right. split; reflexivity.
Qed.
(** 30 Dhu al-Hijja 1446: in 1445, which is as near as 1447 *)
Example C70_hijri_case : shows (parse_hijri env0 (cal1 3177) (cal_cfg CurrentPeriod) (lit "30/12/1446")) 2024 7 7 0 0 0 0 PDay [].
Proof.
  apply (C70_hijri env0 (cal1 3177) (cal_cfg CurrentPeriod) "DMY" utc (lit "30") (lit "12") (lit "1446") 1446 1445 (lit "30/12/1446") 2024 7 7).
  - apply cal_call. now left.
  - apply (cal_date hijri_century (lit "30") (lit "12") (lit "1446") 1446 47 47); try (apply digits_by; reflexivity); try (cbn; lia). left. cbn. repeat split; lia.
  - now left.
  - vm_compute. discriminate.
  - unfold leap_move. change (u_src (cal_cfg CurrentPeriod)) with CurrentPeriod. cbn [Z.eqb]. exists 1447, 1445. split; [|split; [|reflexivity]].
    + apply (first_by _ _ _ _ 1); [lia|reflexivity|]. left. split; vm_compute; reflexivity.
    + apply (first_by _ _ _ _ 1); [lia|reflexivity|]. left. split; vm_compute; reflexivity.
  - vm_compute. reflexivity.
  - unfold valid_date. vm_compute. repeat split; discriminate.
Qed.
