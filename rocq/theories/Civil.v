(** Proleptic Gregorian calendar, as implemented by Go's [time] package (outside /repo).
    Day numbers count from 1970-01-01.  Definitions are the textbook ones; the inverse
    ([civil_of_days]) is proved correct here, so any correct algorithm is the same function. *)
From Coq Require Import ZArith Lia Bool List ZifyBool.
Import ListNotations.
Open Scope Z_scope.
Ltac Zify.zify_post_hook ::= Z.div_mod_to_equations.

Definition leap (y : Z) : bool :=
  (y mod 4 =? 0) && (negb (y mod 100 =? 0) || (y mod 400 =? 0)).

(** days in month [m] (1..12) of year [y] *)
Definition days_in (y m : Z) : Z :=
  if m =? 2 then (if leap y then 29 else 28)
  else if (m =? 4) || (m =? 6) || (m =? 9) || (m =? 11) then 30 else 31.

(** days before year [y], counted from 0001-01-01 *)
Definition dby (y : Z) : Z := 365 * (y - 1) + (y - 1) / 4 - (y - 1) / 100 + (y - 1) / 400.

(** days before month [m] in year [y] *)
Definition dbm (y m : Z) : Z :=
  let l := if leap y then 1 else 0 in
  if m <=? 1 then 0 else if m =? 2 then 31
  else if m =? 3 then 59 + l else if m =? 4 then 90 + l else if m =? 5 then 120 + l
  else if m =? 6 then 151 + l else if m =? 7 then 181 + l else if m =? 8 then 212 + l
  else if m =? 9 then 243 + l else if m =? 10 then 273 + l else if m =? 11 then 304 + l
  else 334 + l.

(** day number (0 = 1970-01-01) of a date with month in 1..12 *)
Definition days_of_civil (y m d : Z) : Z := dby y + dbm y m + (d - 1) - 719162.

Definition year_of_daynum (n : Z) : Z :=      (* n counted from 0001-01-01 *)
  let y := (400 * n) / 146097 + 1 in
  if n <? dby y then y - 1 else if dby (y + 1) <=? n then y + 1 else y.

Definition month_of_yday (y k : Z) : Z :=
  if k <? dbm y 2 then 1 else if k <? dbm y 3 then 2 else if k <? dbm y 4 then 3
  else if k <? dbm y 5 then 4 else if k <? dbm y 6 then 5 else if k <? dbm y 7 then 6
  else if k <? dbm y 8 then 7 else if k <? dbm y 9 then 8 else if k <? dbm y 10 then 9
  else if k <? dbm y 11 then 10 else if k <? dbm y 12 then 11 else 12.

(** (year, month, day) of a day number *)
Definition civil_of_days (n : Z) : Z * Z * Z :=
  let a := n + 719162 in
  let y := year_of_daynum a in
  let k := a - dby y in
  let m := month_of_yday y k in
  (y, m, k - dbm y m + 1).

Definition valid_date (y m d : Z) : Prop := 1 <= m <= 12 /\ 1 <= d <= days_in y m.
Definition valid_dateb (y m d : Z) : bool := (1 <=? m) && (m <=? 12) && (1 <=? d) && (d <=? days_in y m).

Lemma valid_dateb_iff y m d : valid_dateb y m d = true <-> valid_date y m d.
Proof. unfold valid_dateb, valid_date. lia. Qed.

(** weekday, 0 = Sunday; 1970-01-01 was a Thursday *)
Definition weekday_of_days (n : Z) : Z := (n + 4) mod 7.

Definition ylen (y : Z) : Z := if leap y then 366 else 365.

Lemma dby_succ y : dby (y + 1) = dby y + ylen y.
Proof. unfold dby, ylen, leap. destruct (y mod 4 =? 0) eqn:E4; destruct (y mod 100 =? 0) eqn:E100;
  destruct (y mod 400 =? 0) eqn:E400; cbn [andb orb negb]; lia. Qed.

Lemma ylen_bounds y : 365 <= ylen y <= 366.
Proof. unfold ylen; destruct (leap y); lia. Qed.

Lemma dby_mono y z : y < z -> dby y < dby z.
Proof. unfold dby. lia. Qed.

Lemma year_of_daynum_spec n : dby (year_of_daynum n) <= n < dby (year_of_daynum n + 1).
Proof.
  unfold year_of_daynum.
  set (y := 400 * n / 146097 + 1).
  assert (H1 : dby (y - 1) <= n) by (unfold dby, y; lia).
  assert (H2 : n < dby (y + 2)) by (unfold dby, y; lia).
  destruct (n <? dby y) eqn:E1.
  - replace (y - 1 + 1) with y by lia. lia.
  - destruct (dby (y + 1) <=? n) eqn:E2.
    + replace (y + 1 + 1) with (y + 2) by lia. lia.
    + lia.
Qed.

Lemma year_of_daynum_unique n y : dby y <= n < dby (y + 1) -> year_of_daynum n = y.
Proof.
  intros H. pose proof (year_of_daynum_spec n) as S.
  destruct (Z.lt_trichotomy (year_of_daynum n) y) as [L|[E|L]]; [|exact E|].
  - assert (year_of_daynum n + 1 <= y) by lia.
    assert (dby (year_of_daynum n + 1) <= dby y).
    { destruct (Z.eq_dec (year_of_daynum n + 1) y) as [->|]; [lia|]. apply Z.lt_le_incl, dby_mono; lia. }
    lia.
  - assert (dby (y + 1) <= dby (year_of_daynum n)).
    { destruct (Z.eq_dec (year_of_daynum n) (y + 1)) as [->|]; [lia|]. apply Z.lt_le_incl, dby_mono; lia. }
    lia.
Qed.

Lemma month_cases m : 1 <= m <= 12 ->
  m = 1 \/ m = 2 \/ m = 3 \/ m = 4 \/ m = 5 \/ m = 6 \/ m = 7 \/ m = 8 \/ m = 9 \/ m = 10 \/ m = 11 \/ m = 12.
Proof. lia. Qed.

Ltac by_month_ m H :=
  destruct (month_cases m H) as [?|[?|[?|[?|[?|[?|[?|[?|[?|[?|[?|?]]]]]]]]]]]; subst m.
Tactic Notation "by_month" ident(m) :=
  let H := fresh in assert (H : 1 <= m <= 12) by lia; by_month_ m H; clear H.

Lemma dbm_succ y m : 1 <= m <= 11 -> dbm y (m + 1) = dbm y m + days_in y m.
Proof. intros H. by_month m; try lia; unfold dbm, days_in; cbn; destruct (leap y); reflexivity. Qed.

Lemma dbm_last y : dbm y 12 + days_in y 12 = ylen y.
Proof. unfold dbm, days_in, ylen; cbn; destruct (leap y); reflexivity. Qed.

Lemma days_in_bounds y m : 28 <= days_in y m <= 31.
Proof. unfold days_in. destruct (m =? 2); [destruct (leap y); lia|].
  destruct ((m =? 4) || (m =? 6) || (m =? 9) || (m =? 11)); lia. Qed.

Lemma yday_bounds y m d : valid_date y m d -> 0 <= dbm y m + (d - 1) < ylen y.
Proof.
  unfold valid_date, ylen. intros [H1 H2]. unfold days_in in H2.
  by_month m; unfold dbm; cbn -[Z.le Z.lt Z.add Z.sub leap] in *; destruct (leap y); lia.
Qed.

Lemma month_of_yday_spec y m d : valid_date y m d -> month_of_yday y (dbm y m + (d - 1)) = m.
Proof.
  unfold valid_date. intros [H1 H2]. unfold days_in in H2. unfold month_of_yday.
  by_month m; unfold dbm; cbn -[Z.le Z.lt Z.add Z.sub leap Z.ltb] in *; destruct (leap y);
    repeat (match goal with |- context [if ?a <? ?b then _ else _] => destruct (a <? b) eqn:? end); lia.
Qed.

Lemma month_of_yday_range y k : 0 <= k < ylen y ->
  let m := month_of_yday y k in 1 <= m <= 12 /\ dbm y m <= k < dbm y m + days_in y m.
Proof.
  intros H. unfold month_of_yday, ylen in *. cbv zeta.
  repeat (match goal with |- context [if ?a <? ?b then _ else _] => destruct (a <? b) eqn:? end);
  unfold dbm, days_in in *; cbn -[Z.le Z.lt Z.add Z.sub leap Z.ltb] in *; destruct (leap y); lia.
Qed.

Theorem civil_days y m d : valid_date y m d -> civil_of_days (days_of_civil y m d) = (y, m, d).
Proof.
  intros H. unfold civil_of_days, days_of_civil.
  replace (dby y + dbm y m + (d - 1) - 719162 + 719162) with (dby y + (dbm y m + (d - 1))) by lia.
  pose proof (yday_bounds _ _ _ H) as B.
  rewrite (year_of_daynum_unique _ y) by (rewrite dby_succ; lia).
  replace (dby y + (dbm y m + (d - 1)) - dby y) with (dbm y m + (d - 1)) by lia.
  rewrite (month_of_yday_spec _ _ _ H). f_equal. lia.
Qed.

Theorem days_civil n : let '(y, m, d) := civil_of_days n in valid_date y m d /\ days_of_civil y m d = n.
Proof.
  unfold civil_of_days, days_of_civil.
  set (a := n + 719162). set (y := year_of_daynum a). set (k := a - dby y).
  assert (B : 0 <= k < ylen y).
  { pose proof (year_of_daynum_spec a) as S. fold y in S. rewrite dby_succ in S. unfold k. lia. }
  pose proof (month_of_yday_range y k B) as [M1 M2]. cbv zeta in *.
  set (m := month_of_yday y k) in *.
  split; [unfold valid_date; lia|]. unfold k, a. lia.
Qed.

Lemma days_of_civil_inj y m d y' m' d' :
  valid_date y m d -> valid_date y' m' d' ->
  days_of_civil y m d = days_of_civil y' m' d' -> y = y' /\ m = m' /\ d = d'.
Proof.
  intros H H' E. pose proof (civil_days _ _ _ H) as C. rewrite E, (civil_days _ _ _ H') in C.
  inversion C; auto.
Qed.

(** the day number is the lexicographic order *)
Lemma days_of_civil_lt y m d y' m' d' :
  valid_date y m d -> valid_date y' m' d' ->
  (days_of_civil y m d < days_of_civil y' m' d' <->
   y < y' \/ (y = y' /\ (m < m' \/ (m = m' /\ d < d')))).
Proof.
  intros H H'.
  pose proof (yday_bounds _ _ _ H) as B. pose proof (yday_bounds _ _ _ H') as B'.
  unfold days_of_civil.
  assert (Hm : forall m1 m2, 1 <= m1 -> m2 <= 12 -> m1 < m2 -> dbm y m1 + days_in y m1 <= dbm y m2).
  { intros m1 m2 L1 L2 L. unfold dbm, days_in.
    by_month m1; by_month m2; try lia; cbn -[Z.le Z.lt Z.add Z.sub leap]; destruct (leap y); lia. }
  destruct (Z.lt_trichotomy y y') as [L|[E|L]].
  - assert (dby y + ylen y <= dby y').
    { rewrite <- dby_succ. destruct (Z.eq_dec (y+1) y') as [->|]; [lia|]. apply Z.lt_le_incl, dby_mono; lia. }
    lia.
  - subst y'. destruct H as [[Ha Hb] Hd]. destruct H' as [[Ha' Hb'] Hd'].
    destruct (Z.lt_trichotomy m m') as [L|[E|L]].
    + pose proof (Hm m m' Ha Hb' L). lia.
    + subst m'. lia.
    + pose proof (Hm m' m Ha' Hb L). lia.
  - assert (dby y' + ylen y' <= dby y).
    { rewrite <- dby_succ. destruct (Z.eq_dec (y'+1) y) as [->|]; [lia|]. apply Z.lt_le_incl, dby_mono; lia. }
    lia.
Qed.
