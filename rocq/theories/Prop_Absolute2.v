(** C13, C14, C15, C17, C18, C19: dates with missing parts *)
From Coq Require Import ZifyBool.
From Verif Require Import GoBase SMap Regex Civil GoTime GoTimeFacts GoTimeParse Setting Strutil Dateutil DateutilFacts Tokenizer Timezone Env Common Absolute
  Parser Shows Concrete LocaleData AbsSpec AbsFacts AbsFacts2 AbsFacts3 AbsFacts4 Prop_Absolute.

(** * Where the numbers come from *)
Lemma reads_year E cfg s R yt y : reads E cfg s R -> r_year R = Some (yt, y) ->
  (exists tk, In tk (trimmed_tokens (sanitize_spaces s)) /\ tk_text tk = yt) /\ digits yt /\
  ((length yt = 4%nat /\ y = number 0 yt) \/ (length yt = 2%nat /\ y = if 69 <=? number 0 yt then number 0 yt + 1900 else number 0 yt + 2000)).
Proof.
  intros (a & HI & _ & _ & Ry & Ryt & _ & _) HY. apply greg_init_inv in HI. rewrite HY in Ry, Ryt. cbn [option_map fst snd] in Ry, Ryt.
  destruct (cm_year (a_toks a)) as [tk|] eqn:TK; [|discriminate]. assert (yt = tk_text tk) as -> by (cbn in Ryt; congruence).
  destruct (bi_src _ _ _ HI CYear tk y TK (eq_sym Ry)) as [S0 Hin]. destruct S0 as [[(d & Hd & Hv)|[? _]]|[[X|X] _]]; [|discriminate..].
  split; [now exists tk|]. destruct (tk_type tk) eqn:TY; cbn [layouts] in Hd; try (destruct Hd; fail).
  pose proof (token_kind _ _ Hin) as [_ K]; [rewrite TY; discriminate|]. rewrite TY in K. unfold greg_hooks in Hv; cbn [h_value] in Hv. now apply (V_year E _ d).
Qed.
Lemma number_bounds s : Forall (fun c => 48 <= c <= 57) s -> forall acc, 0 <= acc -> acc * 10 ^ slen s <= number acc s < (acc + 1) * 10 ^ slen s.
Proof.
  unfold slen. induction 1 as [|c s Hc _ IH]; intros acc Ha; cbn [number length]; [lia|].
  specialize (IH (acc * 10 + (c - 48)) ltac:(lia)). rewrite Nat2Z.inj_succ, Z.pow_succ_r by lia. set (p := 10 ^ Z.of_nat (length s)) in *. assert (0 <= p) by (subst p; apply Z.pow_nonneg; lia). nia.
Qed.
Lemma digits_nonneg s : digits s -> 0 <= number 0 s.
Proof. intros [_ H]. pose proof (number_bounds s H 0 ltac:(lia)). lia. Qed.
Lemma year2_range E cfg s R yt y : reads E cfg s R -> r_year R = Some (yt, y) -> slen yt = 2 -> 1969 <= y <= 2068 /\ y mod 100 = number 0 yt.
Proof.
  intros Hr HY H2. destruct (reads_year _ _ _ _ _ _ Hr HY) as (_ & [_ Hd] & [[L _]|[L ->]]); [unfold slen in H2; lia|].
  pose proof (number_bounds _ Hd 0 ltac:(lia)) as B. unfold slen in *. rewrite L in B. change (10 ^ Z.of_nat 2) with 100 in B. destruct (69 <=? number 0 yt) eqn:C; lia.
Qed.
(** a day is never negative *)
Lemma atoi0_nonneg s : forallb is_tdigit s = true -> 0 <= atoi0 s.
Proof.
  intros H. unfold atoi0. destruct (atoi s) as [v|] eqn:A; [|lia]. apply atoi_digits in A as [A ->]; [|exact H]. now apply digits_nonneg.
Qed.
Lemma src0_day_nonneg E toks tk d c : In tk (trimmed_tokens toks) -> c = CDay \/ c = CMonth -> src0 (greg_hooks E) c tk d -> 1 <= d.
Proof.
  intros Hin Hc S. destruct S as [(l & Hl & Hv)|(_ & l & Hl & Hv)]; unfold greg_hooks in Hv; cbn [h_value] in Hv.
  - destruct (tk_type tk) eqn:TY; destruct Hc as [-> | ->]; cbn [layouts] in Hl; try (destruct Hl; fail); pose proof (token_kind _ _ Hin) as [_ K]; (try (rewrite TY; discriminate)); rewrite TY in K.
    + destruct Hl as [<-|[]]. apply V_day in Hv; [lia|exact K].
    + destruct Hl as [<-|[]]. apply V_month in Hv; [lia|exact K].
    + apply V_month_name in Hv; [lia|exact K|exact Hl].
  - destruct (tk_type tk) eqn:TY; cbn [layouts] in Hl; try (destruct Hl; fail); pose proof (token_kind _ _ Hin) as [_ K]; (try (rewrite TY; discriminate)); rewrite TY in K.
    + destruct Hl as [<-|[]]. apply V_month in Hv; [lia|exact K].
    + apply V_month_name in Hv; [lia|exact K|exact Hl].
Qed.
Lemma reads_day E cfg s R d : reads E cfg s R -> r_day R = Some d -> 0 <= d.
Proof.
  intros (a & HI & Rd & _) HD. apply greg_init_inv in HI. rewrite HD in Rd. pose proof (bi_dom _ _ _ HI CDay) as DOM. unfold chas in DOM. cbn [cget] in DOM.
  destruct (cm_day (a_toks a)) as [tk|] eqn:TK; [|rewrite <- Rd in DOM; discriminate].
  destruct (bi_src _ _ _ HI CDay tk d TK (eq_sym Rd)) as [[S0|(_ & TY & -> & _)] Hin].
  - apply (src0_day_nonneg _ _ _ _ _ Hin) in S0; [lia|auto].
  - pose proof (token_kind _ _ Hin) as [_ K]; [rewrite TY; discriminate|]. rewrite TY in K. now apply atoi0_nonneg.
Qed.

(** * Dates with a year *)
Definition pref_month_of (cfg : config) (cur : Z) : Z := if c_pmonth cfg =? FirstMonth then 1 else if c_pmonth cfg =? LastMonth then 12 else cur.
Lemma days_in_pref cfg y m : 1 <= m <= 12 -> 1 <= pref_month_of cfg m <= 12 /\ days_in y m <= days_in y (pref_month_of cfg m).
Proof.
  intros Hm. pose proof (days_in_bounds y m). unfold pref_month_of. assert (days_in y 1 = 31 /\ days_in y 12 = 31) as [E1 E2] by (unfold days_in; auto).
  destruct (_ =? FirstMonth); [rewrite E1; lia|]. destruct (_ =? LastMonth); [rewrite E2; lia|lia].
Qed.
Lemma year_given E cfg s R now tz yt y : reads E cfg s R -> current cfg now -> (lenient cfg \/ (is_some (r_day R) = true /\ is_some (r_month R) = true)) ->
  r_year R = Some (yt, y) -> y <> 0 -> slen yt <> 2 -> 
  let M0 := or_default (r_month R) (month now) in let D0 := or_default (r_day R) (day now) in
  let M := if is_some (r_month R) then M0 else pref_month_of cfg (month now) in
  1 <= M0 <= 12 ->
  let Y := fix_year cfg y M0 D0 in
  result (absolute_parse E cfg s tz) (fun p t => p = f_period cfg R /\ at_ t (clock_of R) /\ t_loc t = t_loc now /\
     on t Y M (if is_some (r_day R) || is_some (r_clock R) || is_some (r_weekday R) then Z.min D0 (days_in Y M0) else pref_day_of cfg (day now) (days_in Y M))).
Proof.
  intros Hr Hn Hlen HY Hy H2 M0 D0 M HM0 Y. pose proof (reads_day E cfg s R) as HDD.
  assert (HD0 : 1 <= D0). { subst D0. destruct (r_day R) as [d|] eqn:RD; cbn [or_default]; [|destruct (civil_valid now) as [[_ ?] _]; lia]. specialize (HDD d Hr eq_refl). destruct (civil_valid now) as [[_ ?] _]. unfold or_default. destruct (d =? 0) eqn:?; lia. }
  clear HDD. start R Hr Hn. subst ry.
  destruct (clock_of _) as [[[h mi] sc] ns] eqn:CK. specialize (Hc _ _ _ _ eq_refl). pose proof (cur_fixed _ _ Hn) as Hl.
  unfold run. rewrite CK. unfold missing_of. cbn [r_day r_month r_year is_some].
  assert (check_strict cfg ((if is_some rd then [] else [lit "day"]) ++ (if is_some rm then [] else [lit "month"]) ++ []) = true) as ->.
  { destruct Hlen as [Hlen|[H1' H2']]; [now apply check_lenient|]. rewrite H1', H2'. apply check_none. }
  cbn [negb option_map snd]. fold M0. fold D0. change (or_default (Some y) (year now)) with (if y =? 0 then year now else y). assert (y =? 0 = false) as -> by lia.
  rewrite create_spec by exact HM0. cbn [rbind]. fold Y. pose proof (fix_year_valid cfg y M0 D0 HM0 HD0) as HV. fold Y in HV.
  set (D1 := Z.min D0 (days_in Y M0)) in *. unfold f_weekday. cbn [r_weekday r_day r_month r_year is_some negb andb].
  set (t := mk_date Y M0 D1 h mi sc ns (t_loc now)).
  assert (EW : match rw with Some w => Ok t | None => Ok t end = Ok t) by (now destruct rw). rewrite EW. cbn [rbind].
  eexists _, _. split; [reflexivity|]. split; [reflexivity|].
  unfold f_time, f_year2, f_month. cbn [r_weekday r_day r_month r_year r_clock is_some negb andb orb].
  assert (slen yt =? 2 = false) as -> by lia. rewrite !andb_false_r. cbn [andb].
  unfold f_setmonth. cbn [r_weekday r_day r_month r_year r_clock is_some negb andb orb]. rewrite !andb_false_r. cbn [andb].
  assert (HV' : valid_date Y M D1).
  { subst M. destruct rm; [exact HV|]. cbn [is_some or_default] in *. subst M0. cbn [or_default] in *. destruct (days_in_pref cfg Y (month now) HM0). destruct HV. split; lia. }
  assert (EM : (if is_some rm then t else apply_month E cfg t (Some (month now))) = mk_date Y M D1 h mi sc ns (t_loc now)).
  { unfold t. destruct rm as [m|]; cbn [is_some] in M; [reflexivity|]. rewrite apply_month_mk by assumption. reflexivity. }
  rewrite EM. clear EM EW t. unfold f_setday. cbn [r_day r_clock r_weekday].
  destruct (is_some rd || is_some rc || is_some rw).
  - split; [now apply at_mk|]. split; [reflexivity|]. now apply on_mk.
  - destruct (civil_valid now) as [[? ?] _]. rewrite apply_day_mk by (assumption || lia).
    assert (valid_date Y M (pref_day_of cfg (day now) (days_in Y M))).
    { destruct HV' as [HM' HD']. split; [exact HM'|]. unfold pref_day_of. destruct (_ =? First); [lia|]. destruct (_ =? Last); lia. }
    split; [now apply at_mk|]. split; [reflexivity|]. now apply on_mk.
Qed.

(** * C17 *)
(** [needs_leap y m d]: the date is 29 February and [y] is not a leap year *)
Definition needs_leap (y m d : Z) : Prop := m = 2 /\ d = 29 /\ leap y = false.
Lemma fix_year_spec cfg y m d : (needs_leap y m d /\ adjusted (c_src cfg) y (fix_year cfg y m d)) \/ (~ needs_leap y m d /\ fix_year cfg y m d = y).
Proof.
  unfold needs_leap. destruct (Z.eq_dec m 2) as [->|]; [|right; split; [lia|apply fix_year_same; auto]].
  destruct (Z.eq_dec d 29) as [->|]; [|right; split; [lia|apply fix_year_same; auto]].
  destruct (leap y) eqn:L; [right; split; [intuition congruence|apply fix_year_same; auto]|]. left. split; [auto|]. now apply fix_year_adj.
Qed.

Theorem C17_the_year_is_a_number_in_the_string : forall E cfg s R yt y, reads E cfg s R -> r_year R = Some (yt, y) ->
  (exists tk, In tk (trimmed_tokens (sanitize_spaces s)) /\ tk_text tk = yt) /\ digits yt /\
  ((length yt = 4%nat /\ y = number 0 yt) \/ (length yt = 2%nat /\ y mod 100 = number 0 yt /\ 1969 <= y <= 2068)).
Proof.
  intros E cfg s R yt y Hr HY. destruct (reads_year _ _ _ _ _ _ Hr HY) as (H1 & H2 & H3). split; [exact H1|]. split; [exact H2|].
  destruct H3 as [H3|[L _]]; [now left|]. right. split; [exact L|]. destruct (year2_range _ _ _ _ _ _ Hr HY) as [? ?]; [unfold slen; lia|]. auto.
Qed.
Print Assumptions C17_the_year_is_a_number_in_the_string.

(** the year is kept unless the day and month, written or taken from the current date, are 29 February *)
Theorem C17_year_is_kept_partial : forall E cfg s R now tz yt y,
  reads E cfg s R -> current cfg now -> lenient cfg ->
  r_year R = Some (yt, y) -> slen yt = 4 -> y <> 0 ->
  (forall m, r_month R = Some m -> 1 <= m <= 12) ->
  let m := match r_month R with Some m => m | None => month now end in
  let d := match r_day R with Some d => if d =? 0 then day now else d | None => day now end in
  result (absolute_parse E cfg s tz) (fun p t =>
    (~ needs_leap y m d -> year t = y) /\ (needs_leap y m d -> adjusted (c_src cfg) y (year t)) /\
    (forall m, r_month R = Some m -> month t = m) /\ at_ t (clock_of R)).
Proof.
  intros E cfg s R now tz yt y Hr Hn Hlen HY H4 Hy HM m d.
  pose proof (year_given E cfg s R now tz yt y Hr Hn (or_introl Hlen) HY Hy ltac:(lia)) as G. cbv zeta in G.
  assert (EM : or_default (r_month R) (month now) = m).
  { subst m. destruct (r_month R) as [k|]; [|reflexivity]. specialize (HM _ eq_refl). unfold or_default. assert (k =? 0 = false) as -> by lia. reflexivity. }
  assert (ED : or_default (r_day R) (day now) = d) by (subst d; destruct (r_day R) as [k|]; reflexivity).
  rewrite EM, ED in G.
  assert (1 <= m <= 12) as Hm by (subst m; destruct (r_month R) as [k|]; [now apply HM|destruct (civil_valid now) as [[? _] _]; lia]).
  destruct (G Hm) as (p & t & -> & -> & HA & _ & HO1 & HO2 & HO3). eexists _, _. split; [reflexivity|]. rewrite HO1, HO2.
  destruct (fix_year_spec cfg y m d) as [[F1 F2]|[F1 F2]].
  - split; [intros; contradiction|]. split; [intros _; exact F2|]. split; [|exact HA]. intros k Hk. rewrite Hk. cbn [is_some]. subst m. now rewrite Hk.
  - split; [intros _; exact F2|]. split; [intros; contradiction|]. split; [|exact HA]. intros k Hk. rewrite Hk. cbn [is_some]. subst m. now rewrite Hk.
Qed.
Print Assumptions C17_year_is_kept_partial.

(** * C14: month and year *)
Theorem C14_missing_day_partial : forall E cfg s R now tz m yt y,
  reads E cfg s R -> current cfg now -> lenient cfg ->
  r_day R = None -> r_weekday R = None -> r_month R = Some m -> r_year R = Some (yt, y) -> 1 <= m <= 12 -> slen yt = 4 -> y <> 0 ->
  ~ needs_leap y m (day now) ->
  result (absolute_parse E cfg s tz) (fun p t =>
    year t = y /\ month t = m /\ at_ t (clock_of R) /\
    (r_clock R = None -> p = PMonth /\
       (c_pday cfg = First -> day t = 1) /\ (c_pday cfg = Last -> day t = days_in y m) /\
       (c_pday cfg = Current -> day t = Z.min (day now) (days_in y m))) /\
    (r_clock R <> None -> day t = Z.min (day now) (days_in y m))).
Proof.
  intros E cfg s R now tz m yt y Hr Hn Hlen HD HW HM HY Hm H4 Hy HNL.
  pose proof (year_given E cfg s R now tz yt y Hr Hn (or_introl Hlen) HY Hy ltac:(lia)) as G. cbv zeta in G. rewrite HD, HM, HW in G. cbn [or_default is_some orb] in G.
  unfold or_default in G. assert (m =? 0 = false) as E0 by lia. rewrite E0 in G. destruct (G Hm) as (p & t & -> & -> & HA & _ & HO1 & HO2 & HO3). clear G.
  eexists _, _. split; [reflexivity|]. destruct (fix_year_spec cfg y m (day now)) as [[F1 F2]|[F1 F2]]; [contradiction|]. rewrite F2 in *.
  split; [exact HO1|]. split; [exact HO2|]. split; [exact HA|]. rewrite HO3. unfold f_period. rewrite HD, HM.
  split; intros HC.
  - rewrite HC. cbn [is_some orb]. split; [reflexivity|]. unfold pref_day_of, First, Last, Current. repeat split; intros ->; reflexivity.
  - destruct (r_clock R) as [c|]; [reflexivity|congruence].
Qed.
Print Assumptions C14_missing_day_partial.

(** * C15: only a year *)
Theorem C15_missing_month_partial : forall E cfg s R now tz yt y,
  reads E cfg s R -> current cfg now -> lenient cfg ->
  r_day R = None -> r_weekday R = None -> r_month R = None -> r_year R = Some (yt, y) -> slen yt = 4 -> y <> 0 ->
  ~ needs_leap y (month now) (day now) ->
  result (absolute_parse E cfg s tz) (fun p t =>
    year t = y /\ at_ t (clock_of R) /\
    (c_pmonth cfg = FirstMonth -> month t = 1) /\ (c_pmonth cfg = LastMonth -> month t = 12) /\ (c_pmonth cfg = CurrentMonth -> month t = month now) /\
    (r_clock R = None -> p = PYear /\
       (c_pday cfg = First -> day t = 1) /\ (c_pday cfg = Last -> day t = days_in y (month t)) /\
       (c_pday cfg = Current -> day t = Z.min (day now) (days_in y (month t))))).
Proof.
  intros E cfg s R now tz yt y Hr Hn Hlen HD HW HM HY H4 Hy HNL.
  pose proof (year_given E cfg s R now tz yt y Hr Hn (or_introl Hlen) HY Hy ltac:(lia)) as G. cbv zeta in G. rewrite HD, HM, HW in G. cbn [or_default is_some orb] in G.
  assert (Hm : 1 <= month now <= 12) by (destruct (civil_valid now) as [[? _] _]; lia). destruct (G Hm) as (p & t & -> & -> & HA & _ & HO1 & HO2 & HO3). clear G.
  eexists _, _. split; [reflexivity|]. destruct (fix_year_spec cfg y (month now) (day now)) as [[F1 F2]|[F1 F2]]; [contradiction|]. rewrite F2 in *.
  split; [exact HO1|]. split; [exact HA|]. rewrite HO2. unfold pref_month_of at 1 2 3. unfold FirstMonth, LastMonth, CurrentMonth.
  split; [intros ->; reflexivity|]. split; [intros ->; reflexivity|]. split; [intros ->; reflexivity|].
  intros HC. rewrite HO3. rewrite HC. cbn [is_some orb]. unfold f_period. rewrite HD, HM, HC, HY. cbn [is_some]. split; [reflexivity|].
  unfold pref_day_of, First, Last, Current. repeat split; intros ->; reflexivity.
Qed.
Print Assumptions C15_missing_month_partial.

(** * C18: two-digit years *)
Lemma days_in_nonleap y m : 1 <= m <= 12 -> days_in 1999 m <= days_in y m.
Proof. intros. unfold days_in. change (leap 1999) with false. destruct (m =? 2); [destruct (leap y); lia|lia]. Qed.
Theorem C18_two_digit_years_partial : forall E cfg s R now tz d m yt y,
  reads E cfg s R -> current cfg now ->
  r_day R = Some d -> r_month R = Some m -> r_year R = Some (yt, y) -> slen yt = 2 ->
  1 <= m <= 12 -> 1 <= d <= days_in 1999 m -> 1969 <= year now <= 2068 ->
  result (absolute_parse E cfg s tz) (fun p t =>
    on t (year t) m d /\ at_ t (clock_of R) /\ year t mod 100 = number 0 yt /\
    t_loc t = t_loc now /\
    let T z := let '(h, mi, sc, ns) := clock_of R in instant (mk_date z m d h mi sc ns (t_loc now)) in
    (c_src cfg = Past -> instant t <= instant now /\ forall z, z mod 100 = number 0 yt -> instant t < T z -> instant now < T z) /\
    (c_src cfg = Future -> instant now < instant t /\ forall z, z mod 100 = number 0 yt -> T z < instant t -> T z <= instant now) /\
    (c_src cfg <> Past -> c_src cfg <> Future -> 1969 <= year t <= 2068)).
Proof.
  intros E cfg s R now tz d m yt y Hr Hn HD HM HY H2 Hm Hd Hyr. destruct (year2_range _ _ _ _ _ _ Hr HY H2) as [Hy Hmod].
  start R Hr Hn. subst.
  destruct (clock_of _) as [[[h mi] sc] ns] eqn:CK. specialize (Hc _ _ _ _ eq_refl). pose proof (cur_fixed _ _ Hn) as Hl. pose proof (cur_wf _ _ Hn) as Hw.
  unfold run, missing_of. rewrite CK. cbn [r_day r_month r_year is_some app]. rewrite check_none. cbn [negb r_day r_month r_year option_map snd]. unfold or_default.
  assert (y =? 0 = false) as -> by lia. assert (m =? 0 = false) as -> by lia. assert (d =? 0 = false) as -> by lia.
  rewrite create_spec by lia. cbn [rbind].
  assert (HV : forall z, valid_date z m d) by (intros z; pose proof (days_in_nonleap z m Hm); split; lia).
  assert (fix_year cfg y m d = y) as ->.
  { apply fix_year_same. destruct (Z.eq_dec m 2) as [->|]; [|auto]. unfold days_in in Hd. change (leap 1999) with false in Hd. change (2 =? 2) with true in Hd. cbv iota in Hd. lia. }
  replace (Z.min d (days_in y m)) with d by (destruct (HV y); lia).
  unfold f_weekday. cbn [r_weekday r_day r_month r_year is_some negb andb]. set (l := t_loc now) in *. set (t := mk_date y m d h mi sc ns l).
  assert (EW : match rw with Some w => Ok t | None => Ok t end = Ok t) by (now destruct rw). rewrite EW. cbn [rbind]. clear EW.
  eexists _, _. split; [reflexivity|].
  unfold f_setday, f_setmonth, f_time, f_year2, f_month. cbn [r_weekday r_day r_month r_year r_clock is_some negb andb orb]. rewrite H2, !andb_false_r. change (2 =? 2) with true. cbv iota. cbn [andb].
  unfold t. rewrite !add_date_mk by (auto). rewrite !Z.add_0_r. rewrite before_instant by (exact Hw || apply mk_date_wf).
  assert (TT : forall z z', instant (mk_date z m d h mi sc ns l) < instant (mk_date z' m d h mi sc ns l) <-> z < z').
  { assert (F : forall z z', z < z' -> instant (mk_date z m d h mi sc ns l) < instant (mk_date z' m d h mi sc ns l)).
    { intros z z' L. rewrite !instant_mk_date by (assumption || lia). pose proof (proj2 (days_of_civil_lt z m d z' m d (HV _) (HV _)) (or_introl L)). lia. }
    intros z z'. split; [|apply F]. intros X. destruct (Z_lt_le_dec z z') as [L|L]; [exact L|]. destruct (Z.eq_dec z' z) as [->|N]; [lia|]. specialize (F z' z ltac:(lia)). lia. }
  assert (WO : forall z, (z < year now -> instant (mk_date z m d h mi sc ns l) < instant now) /\ (year now < z -> instant now < instant (mk_date z m d h mi sc ns l))) by (intros z; exact (wall_order now z m d h mi sc ns Hw Hl (HV _) Hc)).
  assert (G : forall z, z mod 100 = number 0 yt -> on (mk_date z m d h mi sc ns l) (year (mk_date z m d h mi sc ns l)) m d /\ at_ (mk_date z m d h mi sc ns l) (h, mi, sc, ns) /\ year (mk_date z m d h mi sc ns l) mod 100 = number 0 yt /\ t_loc (mk_date z m d h mi sc ns l) = l).
  { intros z Hz. rewrite (mk_date_year z m d h mi sc ns l) by auto. split; [now apply on_mk|]. split; [now apply at_mk|]. split; [exact Hz|reflexivity]. }
  cbv zeta. unfold Past, Future in *. destruct (instant now <? _) eqn:B.
  - destruct (c_src cfg =? 1) eqn:S.
    + destruct (G (y + -100)) as (G1 & G2 & G3 & G4); [lia|]. do 4 (split; [assumption|]). split; [intros _|split; intros; lia]. split; [pose proof (proj1 (WO (y + -100))); lia|].
      intros z Hz L. apply (proj1 (TT _ _)) in L. assert (y <= z) by (pose proof (Z.div_mod y 100); pose proof (Z.div_mod z 100); lia). destruct (Z.eq_dec y z) as [->|]; [lia|]. assert (LL : y < z) by lia. apply (proj2 (TT _ _)) in LL. lia.
    + destruct (G y) as (G1 & G2 & G3 & G4); [lia|]. do 4 (split; [assumption|]). split; [intros; lia|]. split; [|intros; rewrite mk_date_year by auto; lia]. intros _. split; [lia|]. intros z Hz L. apply (proj1 (TT _ _)) in L. assert (z < year now) as LN by (pose proof (Z.div_mod y 100); pose proof (Z.div_mod z 100); lia). apply WO in LN. lia.
  - destruct (c_src cfg =? 2) eqn:S.
    + destruct (G (y + 100)) as (G1 & G2 & G3 & G4); [lia|]. do 4 (split; [assumption|]). split; [intros; lia|]. split; [intros _|intros; lia]. split; [pose proof (proj2 (WO (y + 100))); lia|].
      intros z Hz L. apply (proj1 (TT _ _)) in L. assert (z <= y) by (pose proof (Z.div_mod y 100); pose proof (Z.div_mod z 100); lia). destruct (Z.eq_dec y z) as [->|]; [lia|]. assert (LL : z < y) by lia. apply (proj2 (TT _ _)) in LL. lia.
    + destruct (G y) as (G1 & G2 & G3 & G4); [lia|]. do 4 (split; [assumption|]). split; [|split; [intros; lia|intros; rewrite mk_date_year by auto; lia]]. intros _. split; [lia|]. intros z Hz L. apply (proj1 (TT _ _)) in L. assert (year now < z) as LN by (pose proof (Z.div_mod y 100); pose proof (Z.div_mod z 100); lia). apply WO in LN. lia.
Qed.
Print Assumptions C18_two_digit_years_partial.

(** * C13: only a time of day *)
Definition day_ns : Z := 86400 * 1000000000.
Lemma before_now now t : wf_time now -> wf_time t -> before now (add t (- 0 * 1000000000)) = (instant now <? instant t).
Proof.
  intros Hw Ht. rewrite <- before_instant by assumption. unfold add, before. cbn [t_sec t_nsec]. unfold wf_time in Ht.
  replace (t_nsec t + - 0 * 1000000000) with (t_nsec t) by lia. rewrite Z.div_small, Z.mod_small by lia. now rewrite Z.add_0_r.
Qed.
Lemma after_now now t : wf_time now -> wf_time t -> after now (add t (- 0 * 1000000000)) = (instant t <? instant now).
Proof.
  intros Hw Ht. rewrite <- before_instant by assumption. unfold after, add, before. cbn [t_sec t_nsec]. unfold wf_time in Ht.
  replace (t_nsec t + - 0 * 1000000000) with (t_nsec t) by lia. rewrite Z.div_small, Z.mod_small by lia. now rewrite Z.add_0_r.
Qed.
Theorem C13_time_only_partial : forall E cfg s R now c,
  reads E cfg s R -> current cfg now -> lenient cfg ->
  r_day R = None -> r_month R = None -> r_year R = None -> r_weekday R = None -> r_clock R = Some c ->
  c_tz cfg = None -> c_pmonth cfg = CurrentMonth ->
  (c_src cfg = Past -> 1 < day now) -> (c_src cfg = Future -> day now < days_in (year now) (month now)) ->
  result (absolute_parse E cfg s od_zero) (fun p t =>
    at_ t (clock_of R) /\
    (c_src cfg = Past -> instant now - day_ns < instant t <= instant now) /\
    (c_src cfg = Future -> instant now <= instant t < instant now + day_ns) /\
    (c_src cfg <> Past -> c_src cfg <> Future -> on t (year now) (month now) (day now))).
Proof.
  intros E cfg s R now c Hr Hn Hlen HD HM HY HW HC Htz Hpm HP HF. start R Hr Hn. subst.
  destruct (clock_of _) as [[[h mi] sc] ns] eqn:CK. specialize (Hc _ _ _ _ eq_refl). pose proof (cur_fixed _ _ Hn) as Hl. pose proof (cur_wf _ _ Hn) as Hw.
  unfold run, missing_of. rewrite CK. cbn [r_day r_month r_year is_some app]. rewrite check_lenient by exact Hlen. cbn [negb option_map or_default].
  destruct (civil_valid now) as [Hv Hdays]. pose proof Hv as [Hm Hd]. 
  rewrite create_spec by lia. cbn [rbind].
  assert (EY : fix_year cfg (year now) (month now) (day now) = year now).
  { apply fix_year_same. destruct (leap (year now)) eqn:L; [auto|]. unfold days_in in Hd. rewrite L in Hd. destruct (month now =? 2) eqn:?; lia. }
  rewrite EY. replace (Z.min (day now) (days_in (year now) (month now))) with (day now) by lia. clear EY.
  set (l := t_loc now) in *. set (Y := year now) in *. set (M := month now) in *. set (D := day now) in *. set (t := mk_date Y M D h mi sc ns l).
  unfold f_weekday. cbn [r_weekday rbind]. eexists _, _. split; [reflexivity|].
  unfold f_setday, f_setmonth, f_time, f_year2, f_month. cbn [r_weekday r_day r_month r_year r_clock is_some negb andb orb]. rewrite Htz.
  assert (match od_is_zero od_zero, @None location with true, Some l => off_at l (t_sec t) | _, _ => od_off od_zero end = 0) as -> by reflexivity.
  assert (Wt : wf_time t) by apply mk_date_wf. rewrite before_now, after_now by assumption.
  assert (IN : instant now = (86400 * days_of_civil Y M D + 3600 * hour now + 60 * minute now + second now - z_off (l_base l)) * 1000000000 + nanosecond now).
  { rewrite <- (time_of_fields now Hw Hl) at 1. rewrite instant_mk_date; [reflexivity|assumption..]. }
  assert (IT : forall d, instant (mk_date Y M d h mi sc ns l) = (86400 * days_of_civil Y M d + 3600 * h + 60 * mi + sc - z_off (l_base l)) * 1000000000 + ns).
  { intros d. apply instant_mk_date; assumption. }
  pose proof (clock_valid now Hw) as Hcn. unfold valid_clock in Hcn.
  assert (DM : forall k, days_of_civil Y M (D + k) = days_of_civil Y M D + k) by (intros k; now rewrite days_of_civil_shift).
  assert (AM : forall d, valid_date Y M d -> apply_month E cfg (mk_date Y M d h mi sc ns l) (Some M) = mk_date Y M d h mi sc ns l).
  { intros d Hvd. rewrite apply_month_mk by assumption. rewrite Hpm. reflexivity. }
  assert (AT : forall d, valid_date Y M d -> at_ (mk_date Y M d h mi sc ns l) (h, mi, sc, ns)) by (intros; now apply at_mk).
  assert (IDn := IT (D - 1)). assert (IUp := IT (D + 1)). rewrite (DM 1) in IUp. replace (D - 1) with (D + -1) in IDn by lia. rewrite (DM (-1)) in IDn. assert (I0 := IT D).
  pose proof Hc as (Hh & Hmi & Hs & Hns). change (instant t) with (instant (mk_date Y M D h mi sc ns l)). unfold day_ns.
  unfold Past, Future, CurrentPeriod in *. destruct (c_src cfg =? 1) eqn:S1; [|destruct (c_src cfg =? 2) eqn:S2]; cbn [andb].
  - assert (c_src cfg =? 2 = false) as -> by lia. cbn [andb]. specialize (HP ltac:(lia)). destruct (instant now <? _) eqn:B.
    + unfold t. rewrite add_date_mk by assumption. rewrite !Z.add_0_r. rewrite AM by (split; lia). split; [apply AT; split; lia|]. split; [intros _|split; intros; lia]. rewrite IDn, IN. rewrite I0, IN in B. lia.
    + unfold t. rewrite AM by assumption. split; [now apply AT|]. split; [intros _|split; intros; lia]. rewrite I0, IN. rewrite I0, IN in B. lia.
  - specialize (HF ltac:(lia)). destruct (_ <? instant now) eqn:B.
    + unfold t. rewrite add_date_mk by assumption. rewrite !Z.add_0_r. rewrite AM by (split; lia). split; [apply AT; split; lia|]. split; [intros; lia|]. split; [intros _|intros; lia]. rewrite IUp, IN. rewrite I0, IN in B. lia.
    + unfold t. rewrite AM by assumption. split; [now apply AT|]. split; [intros; lia|]. split; [intros _|intros; lia]. rewrite I0, IN. rewrite I0, IN in B. lia.
  - unfold t. rewrite AM by assumption. split; [now apply AT|]. split; [intros; lia|]. split; [intros; lia|]. intros _ _. now apply on_mk.
Qed.
Print Assumptions C13_time_only_partial.
