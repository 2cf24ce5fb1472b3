(** Steps of the absolute parser in calendar terms *)
From Coq Require Import ZifyBool.
From Verif Require Import GoBase SMap Regex Civil GoTime GoTimeFacts GoTimeParse Setting Strutil Dateutil DateutilFacts Tokenizer Timezone Env Common Absolute
  AbsSpec AbsFacts3.
Ltac Zify.zify_post_hook ::= Z.div_mod_to_equations.

Lemma next_leap_get y : next_leap y (get_leap_year y true).
Proof. destruct (get_leap_future y) as (H1 & H2 & H3). repeat split; auto; lia. Qed.
Lemma prev_leap_get y : prev_leap y (get_leap_year y false).
Proof. destruct (get_leap_past y) as (H1 & H2 & H3). repeat split; auto; lia. Qed.
Lemma next_leap_unique y a b : next_leap y a -> next_leap y b -> a = b.
Proof.
  intros (A1 & A2 & A3) (B1 & B2 & B3). destruct (Z.lt_trichotomy a b) as [H|[H|H]]; [|exact H|].
  - specialize (B3 a ltac:(lia)). congruence.
  - specialize (A3 b ltac:(lia)). congruence.
Qed.
Lemma prev_leap_unique y a b : prev_leap y a -> prev_leap y b -> a = b.
Proof.
  intros (A1 & A2 & A3) (B1 & B2 & B3). destruct (Z.lt_trichotomy a b) as [H|[H|H]]; [|exact H|].
  - specialize (A3 b ltac:(lia)). congruence.
  - specialize (B3 a ltac:(lia)). congruence.
Qed.
Lemma correct_leap_adjusted cfg y : adjusted (c_src cfg) y (correct_leap_year cfg y) /\ leap (correct_leap_year cfg y) = true.
Proof.
  unfold adjusted, correct_leap_year, Future, Past. pose proof (next_leap_get y) as N. pose proof (prev_leap_get y) as P.
  destruct (c_src cfg =? 2) eqn:F; [split; [|apply N]; repeat split; intros; try lia; apply N; lia|].
  destruct (c_src cfg =? 1) eqn:Q; [split; [|apply P]; repeat split; intros; try lia; apply P; lia|].
  split; [split; [lia|]; split; [lia|]; intros _ _|].
  - destruct (_ <? _) eqn:C; [left|right]; (split; [assumption|]).
    + intros x Hx. rewrite (prev_leap_unique _ _ _ Hx P). lia.
    + intros x Hx. rewrite (next_leap_unique _ _ _ Hx N). lia.
  - cbv zeta. destruct (_ <? _); [apply N|apply P].
Qed.

(** the year used for day [D] of month [M] *)
Definition fix_year (cfg : config) (Y M D : Z) : Z := if (D =? 29) && (M =? 2) && negb (leap Y) then correct_leap_year cfg Y else Y.
Lemma fix_year_valid cfg Y M D : 1 <= M <= 12 -> 1 <= D -> valid_date (fix_year cfg Y M D) M (Z.min D (days_in (fix_year cfg Y M D) M)).
Proof. intros HM HD. pose proof (days_in_bounds (fix_year cfg Y M D) M). unfold valid_date. lia. Qed.
Lemma create_spec cfg Y M D h mi s ns l : 1 <= M <= 12 -> 
  greg_create cfg Y M D h mi s ns l = Ok (mk_date (fix_year cfg Y M D) M (Z.min D (days_in (fix_year cfg Y M D) M)) h mi s ns l).
Proof.
  intros HM. unfold greg_create, fix_year. rewrite is_leap_leap. cbv zeta. rewrite last_day by lia.
  match goal with |- context [days_in ?Y' M <? D] => destruct (days_in Y' M <? D) eqn:C end; do 2 f_equal; lia.
Qed.
Lemma fix_year_same cfg Y M D : D <> 29 \/ M <> 2 \/ leap Y = true -> fix_year cfg Y M D = Y.
Proof. unfold fix_year. intros H. destruct ((D =? 29) && (M =? 2) && negb (leap Y)) eqn:C; [|reflexivity]. exfalso. destruct H as [H|[H|H]]; [lia..|]. rewrite H in C. cbn in C. lia. Qed.
Lemma fix_year_adj cfg Y : leap Y = false -> adjusted (c_src cfg) Y (fix_year cfg Y 2 29) /\ leap (fix_year cfg Y 2 29) = true.
Proof. unfold fix_year. intros ->. apply correct_leap_adjusted. Qed.

Lemma on_mk y m d h mi s ns l : fixed l -> valid_date y m d -> valid_clock h mi s ns -> on (mk_date y m d h mi s ns l) y m d.
Proof. intros. unfold on. rewrite mk_date_year, mk_date_month, mk_date_day by assumption. auto. Qed.
Lemma at_mk y m d h mi s ns l : fixed l -> valid_date y m d -> valid_clock h mi s ns -> at_ (mk_date y m d h mi s ns l) (h, mi, s, ns).
Proof. intros Hl [Hm _] Hc. unfold at_. destruct (mk_date_clock y m d h mi s ns l Hl Hm Hc) as (-> & -> & -> & ->). reflexivity. Qed.
Ltac fields_of y m d h mi s ns l :=
  rewrite ?(mk_date_year y m d h mi s ns l), ?(mk_date_month y m d h mi s ns l), ?(mk_date_day y m d h mi s ns l) by assumption.
Lemma hour_mk y m d h mi s ns l : fixed l -> valid_date y m d -> valid_clock h mi s ns -> hour (mk_date y m d h mi s ns l) = h.
Proof. intros Hl [Hm _] Hc. apply (mk_date_clock y m d h mi s ns l Hl Hm Hc). Qed.
Lemma minute_mk y m d h mi s ns l : fixed l -> valid_date y m d -> valid_clock h mi s ns -> minute (mk_date y m d h mi s ns l) = mi.
Proof. intros Hl [Hm _] Hc. apply (mk_date_clock y m d h mi s ns l Hl Hm Hc). Qed.
Lemma second_mk y m d h mi s ns l : fixed l -> valid_date y m d -> valid_clock h mi s ns -> second (mk_date y m d h mi s ns l) = s.
Proof. intros Hl [Hm _] Hc. apply (mk_date_clock y m d h mi s ns l Hl Hm Hc). Qed.
Lemma nanosecond_mk y m d h mi s ns l : fixed l -> valid_date y m d -> valid_clock h mi s ns -> nanosecond (mk_date y m d h mi s ns l) = ns.
Proof. intros Hl [Hm _] Hc. apply (mk_date_clock y m d h mi s ns l Hl Hm Hc). Qed.

(** replacing fields of a date in normal form *)
Lemma add_date_mk y m d h mi s ns l a b c : fixed l -> valid_date y m d -> valid_clock h mi s ns ->
  add_date (mk_date y m d h mi s ns l) a b c = mk_date (y + a) (m + b) (d + c) h mi s ns l.
Proof.
  intros Hl Hv Hc. unfold add_date.
  rewrite (mk_date_year y m d h mi s ns l), (mk_date_month y m d h mi s ns l), (mk_date_day y m d h mi s ns l), (hour_mk y m d h mi s ns l), (minute_mk y m d h mi s ns l), (second_mk y m d h mi s ns l), (nanosecond_mk y m d h mi s ns l) by assumption.
  reflexivity.
Qed.
Lemma apply_month_mk E cfg cur y m d h mi s ns l : fixed l -> valid_date y m d -> valid_clock h mi s ns ->
  apply_month E cfg (mk_date y m d h mi s ns l) (Some cur) = mk_date y (if c_pmonth cfg =? FirstMonth then 1 else if c_pmonth cfg =? LastMonth then 12 else cur) d h mi s ns l.
Proof.
  intros Hl Hv Hc. unfold apply_month, pref_month.
  rewrite (mk_date_year y m d h mi s ns l), (mk_date_day y m d h mi s ns l), (hour_mk y m d h mi s ns l), (minute_mk y m d h mi s ns l), (second_mk y m d h mi s ns l), (nanosecond_mk y m d h mi s ns l) by assumption.
  reflexivity.
Qed.
Lemma day_zero y m h mi s ns l : fixed l -> 1 <= m <= 12 -> valid_clock h mi s ns -> day (mk_date y (m + 1) 0 h mi s ns l) = days_in y m.
Proof.
  intros Hl Hm (Hh & Hmi & Hs & Hns). unfold day, civil, local_days. rewrite local_sec_mk_date by assumption. rewrite wall_sec_next by lia.
  match goal with |- context [civil_of_days ?n] => replace n with (days_of_civil y m (days_in y m)) by lia end.
  rewrite civil_days by (apply last_valid; lia). reflexivity.
Qed.
Definition pref_day_of (cfg : config) (cur last : Z) : Z :=
  if c_pday cfg =? First then 1 else if c_pday cfg =? Last then last else Z.min cur last.
Lemma apply_day_mk E cfg cur y m d h mi s ns l : fixed l -> valid_date y m d -> valid_clock h mi s ns -> 1 <= cur ->
  apply_day E cfg (mk_date y m d h mi s ns l) (Some cur) = mk_date y m (pref_day_of cfg cur (days_in y m)) h mi s ns l.
Proof.
  intros Hl Hv Hc Hcur. pose proof (days_in_bounds y m) as DB. pose proof Hv as [Hm _]. unfold apply_day, pref_day, pref_day_of. rewrite add_date_mk by assumption.
  rewrite (mk_date_year y m d h mi s ns l), (mk_date_month y m d h mi s ns l), (mk_date_day y m d h mi s ns l), (hour_mk y m d h mi s ns l), (minute_mk y m d h mi s ns l), (second_mk y m d h mi s ns l), (nanosecond_mk y m d h mi s ns l) by assumption.
  rewrite last_day by lia. replace (d + - d) with 0 by lia. rewrite Z.add_0_r. rewrite day_zero by assumption. cbv zeta. f_equal.
  destruct (c_pday cfg =? First), (c_pday cfg =? Last); destruct (_ <? _) eqn:?; lia.
Qed.
