(** Facts about the durations read from a relative string *)
From Coq Require Import ZifyBool SpecFloat.
From Verif Require Import GoBase SMap Regex Civil GoTime GoTimeFacts GoFloat FloatFacts FloatBound Strutil Setting Env Common Relative AbsFacts2 Prop_Timestamp Prop_Relative Dateutil DateutilFacts AbsSpec.
Ltac Zify.zify_post_hook ::= Z.div_mod_to_equations.

(** ** Amounts *)
Definition decimal (c : Z) : Prop := 48 <= c <= 57.
Lemma replace_one (o n : Z) : forall s acc, sjoin (split_from 0 acc s [o]) [n] = rev acc ++ map (fun c => if o =? c then n else c) s.
Proof.
  induction s as [|c s IH]; intros acc; cbn [split_from map]; [cbn; now rewrite app_nil_r|]. cbn [has_prefix]. rewrite andb_true_r. destruct (o =? c) eqn:C.
  - cbn [length pred]. specialize (IH []). destruct (split_from 0 [] s [o]) as [|x l] eqn:X.
    + exfalso. revert X. clear. assert (forall s acc, split_from 0 acc s [o] <> []) as N; [|apply N]. clear. induction s as [|c s IH]; intros acc; cbn [split_from]; [discriminate|]. cbn [has_prefix length pred]. destruct (_ && _); [discriminate|apply IH].
    + change (rev acc ++ [n] ++ sjoin (x :: l) [n] = rev acc ++ n :: map (fun c => if o =? c then n else c) s). rewrite IH. reflexivity.
  - rewrite IH. cbn [rev]. rewrite <- app_assoc. reflexivity.
Qed.
Lemma replace_all_one o n s : replace_all s [o] [n] = map (fun c => if o =? c then n else c) s.
Proof. unfold replace_all, split. apply (replace_one o n s []). Qed.
Lemma index_dot a b : Forall decimal a -> index (a ++ 46 :: b) [46] = Some (length a).
Proof.
  induction 1 as [|c a Hc _ IH]; cbn [index app has_prefix length]; [reflexivity|]. unfold decimal in Hc. replace (46 =? c) with false by lia. cbn [andb]. now rewrite IH.
Qed.
Lemma index_none a : Forall decimal a -> index a [46] = None.
Proof.
  induction 1 as [|c a Hc _ IH]; cbn [index app has_prefix length]; [reflexivity|]. unfold decimal in Hc. replace (46 =? c) with false by lia. cbn [andb]. now rewrite IH.
Qed.
(** a decimal number: digits, and possibly a period or comma and more digits *)
Definition amount (w ip fp : str) : Prop :=
  Forall decimal ip /\ Forall decimal fp /\ (w = ip /\ fp = [] \/ exists c, (c = 46 \/ c = 44) /\ w = ip ++ c :: fp).
Definition comma_dot (w : str) : str := replace_all w (lit ",") (lit ".").
Lemma comma_dot_digits a : Forall decimal a -> map (fun c => if 44 =? c then 46 else c) a = a.
Proof. induction 1 as [|c a Hc _ IH]; cbn [map]; [reflexivity|]. unfold decimal in Hc. replace (44 =? c) with false by lia. now rewrite IH. Qed.
Lemma amount_dot w ip fp : amount w ip fp -> comma_dot w = ip /\ fp = [] \/ comma_dot w = ip ++ 46 :: fp.
Proof.
  intros (D1 & D2 & [[-> ->]|(c & Hc & ->)]); unfold comma_dot; change (lit ",") with [44]; change (lit ".") with [46]; rewrite replace_all_one.
  - left. now rewrite comma_dot_digits.
  - right. rewrite map_app. cbn [map]. rewrite !comma_dot_digits by assumption. f_equal. f_equal. destruct Hc; subst; reflexivity.
Qed.
Lemma number_nonneg s : Forall decimal s -> 0 <= number 0 s < 10 ^ Z.of_nat (length s).
Proof. intros H. destruct s as [|c s]; [cbn; lia|]. apply number_bound. split; [discriminate|exact H]. Qed.
Lemma amount_le w ip fp B : amount w ip fp -> number 0 ip < B -> B < 2 ^ 53 -> lef (parse_float (comma_dot w)) B.
Proof.
  intros A L HB. pose proof A as (D1 & D2 & _). pose proof (number_nonneg ip D1) as N1. destruct (amount_dot w ip fp A) as [[-> ->]| ->]; unfold parse_float.
  - change (lit ".") with [46]. rewrite index_none by exact D1. rewrite digits_dec_val by exact D1. apply f_of_Z_le; lia.
  - change (lit ".") with [46]. rewrite index_dot by exact D1. rewrite firstn_app, firstn_all, Nat.sub_diag. cbn [firstn]. rewrite app_nil_r.
    replace (skipn (S (length ip)) (ip ++ 46 :: fp)) with fp.
    2:{ replace (S (length ip)) with (length ip + 1)%nat by lia. rewrite skipn_app. replace (length ip + 1 - length ip)%nat with 1%nat by lia. rewrite skipn_all2 by lia. reflexivity. }
    rewrite digits_dec_val by (apply Forall_app; split; assumption). rewrite number_app, number_lin. destruct fp as [|c fp].
    + cbn [number length]. change (10 ^ Z.of_nat 0) with 1. apply f_of_Z_le; lia.
    + pose proof (number_nonneg (c :: fp) D2) as N2. set (k := length (c :: fp)) in *. assert (K : (0 < k)%nat) by (unfold k; cbn [length]; lia).
      assert (P : 0 < 10 ^ Z.of_nat k) by (apply Z.pow_pos_nonneg; lia). apply f_of_ratio_le; [nia|lia|]. rewrite Pos2Z.inj_pow.
      assert (Z.pos (Pos.of_nat k) = Z.of_nat k) as -> by (rewrite <- (Nat2Pos.id k) at 2 by lia; now rewrite positive_nat_Z). nia.
Qed.

(** ** The map of durations *)
Lemma lit_inj a : forall b, lit a = lit b -> a = b.
Proof.
  induction a as [|x a IH]; intros [|y b]; cbn [lit]; intros E; try discriminate E; [reflexivity|].
  assert (EX : Z.of_N (Ascii.N_of_ascii x) = Z.of_N (Ascii.N_of_ascii y)) by congruence. assert (EL : lit a = lit b) by congruence.
  apply N2Z.inj in EX. assert (x = y) as -> by (rewrite <- (Ascii.ascii_N_embedding x), <- (Ascii.ascii_N_embedding y); now f_equal). f_equal. now apply IH.
Qed.
Lemma dget_set_same m k v : dget (dset m k v) k = v.
Proof. unfold dget, dset, mget_or. now rewrite mget_mset_same. Qed.
Lemma dget_set_other m k k' v : k <> k' -> dget (dset m k v) k' = dget m k'.
Proof. intros N. unfold dget, dset, mget_or. rewrite mget_mset_other; [reflexivity|]. intros E. apply N. now apply lit_inj. Qed.

(** bounds for all units *)
Definition bnd (m : durs) (f : string -> Z) : Prop := forall u, lef (dget m u) (f u).
Definition more (f : string -> Z) (n : Z) : string -> Z := fun u => f u + n.
Lemma bnd_mono m f g : bnd m f -> (forall u, f u <= g u) -> bnd m g.
Proof. intros H L u. apply (lef_mono _ (f u)); auto. Qed.
Lemma add_bnd m f k v n : bnd m f -> lef v n -> (forall u, f u + n < 2 ^ 53) -> bnd (add_map_value m k v) (more f n).
Proof.
  intros H V L u. unfold add_map_value, more. pose proof (lef_nonneg _ _ V). destruct (negb (feqb v fzero)).
  - destruct (String.eqb_spec k u) as [-> | N]; [rewrite dget_set_same; apply fadd_le; auto|]. rewrite dget_set_other by exact N. apply (lef_mono _ (f u)); [apply H|lia].
  - apply (lef_mono _ (f u)); [apply H|lia].
Qed.
Lemma split_le x B : B < 2 ^ 53 -> lef x B -> let '(v, fr, _) := split_fraction x in lef v B /\ lef fr 1.
Proof.
  intros L H. pose proof (lef_nonneg _ _ H). unfold split_fraction. destruct (feqb x fzero); [split; unfold fzero; cbn [lef]; lia|]. split; [apply ffloor_le; [exact L|now apply fabs_le]|].
  apply (frac_le _ B); [exact L|now apply fabs_le].
Qed.
Lemma cascade_le lower : forall fr, lef fr 1 -> Forall (fun p => 0 < fst p <= 60) lower -> Forall (fun p => lef (snd p) 60) (cascade fr lower).
Proof.
  induction lower as [|[k n] lower IH]; intros fr H F; cbn [cascade]; [constructor|]. inversion F as [|? ? Hk F']; subst. cbn [fst] in Hk.
  assert (HV : lef (fmul fr (f_of_Z k)) (1 * 60)) by (apply fmul_le; [exact H|apply f_of_Z_le; lia|lia]).
  pose proof (split_le _ (1 * 60) ltac:(lia) HV) as S. destruct (split_fraction _) as [[v fr'] b]. destruct S as [S1 S2]. constructor; [exact S1|]. now apply IH.
Qed.
Lemma lower_ok u : Forall (fun p => 0 < fst p <= 60) (lower_units u) /\ (length (lower_units u) <= 5)%nat.
Proof. unfold lower_units. repeat (destruct (String.eqb u _); [split; [repeat constructor; cbn; lia|cbn; lia]|]). split; [constructor|cbn; lia]. Qed.
Lemma cascade_length lower : forall fr, length (cascade fr lower) = length lower.
Proof. induction lower as [|[k n] lower IH]; intros fr; cbn [cascade]; [reflexivity|]. destruct (split_fraction _) as [[v fr'] b]. cbn [length]. now rewrite IH. Qed.
Lemma fold_add_bnd l : forall m f, bnd m f -> Forall (fun p => lef (snd p) 60) l -> (forall u, f u + 60 * Z.of_nat (length l) < 2 ^ 53) ->
  bnd (fold_left (fun m '(name, v) => add_map_value m name (sgn false v)) l m) (more f (60 * Z.of_nat (length l))).
Proof.
  induction l as [|[n v] l IH]; intros m f H F L; cbn [fold_left].
  - apply (bnd_mono _ f); [exact H|]. intros u. unfold more. cbn [length]. lia.
  - inversion F as [|? ? HV F']; subst. cbn [snd] in HV. cbn [sgn]. apply (bnd_mono _ (more (more f 60) (60 * Z.of_nat (length l)))).
    + apply IH; [|exact F'|]; [apply add_bnd; [exact H|exact HV|]|]; intros u; specialize (L u); cbn [length] in L; unfold more; lia.
    + intros u. unfold more. cbn [length]. lia.
Qed.
Lemma le_nlt x B : lef x B -> fltb x fzero = false.
Proof. destruct x as [s|s| |s m e]; cbn [lef]; try tauto. intros (-> & _). reflexivity. Qed.
Lemma spread_bnd m f u : bnd m f -> (forall k, f k + 301 < 2 ^ 53) -> bnd (spread_unit m u) (more f 301).
Proof.
  intros H L. assert (MO : bnd m (more f 301)) by (apply (bnd_mono _ f); [exact H|intros k; unfold more; lia]).
  unfold spread_unit. destruct (mget m (lit u)) as [x|] eqn:G; [|exact MO].
  assert (HX : lef x (f u)) by (specialize (H u); unfold dget, mget_or in H; now rewrite G in H). rewrite (le_nlt _ _ HX).
  pose proof (split_le x (f u) ltac:(specialize (L u); lia) HX) as S. destruct (split_fraction x) as [[v fr] hf]. destruct S as [S1 S2]. destruct (negb hf); [exact MO|].
  destruct (String.eqb u "second") eqn:US.
  - cbn [sgn]. intros k. destruct (String.eqb_spec "second" k) as [<- | N]; [|rewrite dget_set_other by exact N; apply MO]. rewrite dget_set_same.
    apply String.eqb_eq in US. subst u. apply fround_le; [unfold more; specialize (L "second"%string); lia|]. apply (lef_mono _ (f "second"%string + 1)); [|unfold more; lia]. apply fadd_le; [exact S1|exact S2|specialize (L "second"%string); lia].
  - destruct (_ || _); [exact MO|]. cbn [sgn]. destruct (lower_ok u) as [LO1 LO2]. set (l := cascade fr (lower_units u)).
    assert (LL : (length l <= 5)%nat) by (unfold l; now rewrite cascade_length).
    apply (bnd_mono _ (more f (60 * Z.of_nat (length l)))); [|intros k; unfold more; lia]. apply fold_add_bnd.
    + intros k. destruct (String.eqb_spec u k) as [<- | N]; [now rewrite dget_set_same|rewrite dget_set_other by exact N; apply H].
    + now apply cascade_le.
    + intros k. specialize (L k). lia.
Qed.
Lemma spreads_bnd us : forall m f, bnd m f -> (forall k, f k + 301 * Z.of_nat (length us) < 2 ^ 53) -> bnd (fold_left spread_unit us m) (more f (301 * Z.of_nat (length us))).
Proof.
  induction us as [|u us IH]; intros m f H L; cbn [fold_left].
  - apply (bnd_mono _ f); [exact H|]. intros k. unfold more. cbn [length]. lia.
  - apply (bnd_mono _ (more (more f 301) (301 * Z.of_nat (length us)))).
    + apply IH; [apply spread_bnd; [exact H|]|]; intros k; specialize (L k); cbn [length] in L; unfold more; lia.
    + intros k. unfold more. cbn [length]. lia.
Qed.
Lemma dget_del_same m k : dget (mdel m (lit k)) k = fzero.
Proof. unfold dget, mget_or. now rewrite mget_mdel_same. Qed.
Lemma del_bnd m f k : bnd m f -> bnd (mdel m k) f.
Proof.
  intros H u. specialize (H u). pose proof (lef_nonneg _ _ H). unfold dget, mget_or in *. destruct (eqs_spec k (lit u)) as [-> | N]; [rewrite mget_mdel_same; unfold fzero; cbn [lef]; assumption|]. now rewrite mget_mdel_other.
Qed.
(** the bounds on the final durations; [f] bounds the amounts as written *)
Definition fin (f : string -> Z) : string -> Z := fun u =>
  f u + (if String.eqb u "year" then f "decade"%string * 10 else 0) + (if String.eqb u "day" then f "week"%string * 7 else 0) + 2408.
Lemma merge_bnd m f a b n : bnd m f -> a <> b -> 0 < n < 100 -> (forall u, f u + f a * n < 2 ^ 53) ->
  let m' := match mget m (lit a) with Some d => mdel (dset m b (fadd (dget m b) (fmul d (f_of_Z n)))) (lit a) | None => m end in
  bnd m' (fun u => f u + (if String.eqb u b then f a * n else 0)).
Proof.
  intros H N Hn L. cbv zeta. pose proof (lef_nonneg _ _ (H a)) as NA. pose proof (lef_nonneg _ _ (H b)) as NB.
  assert (MO : bnd m (fun u => f u + (if String.eqb u b then f a * n else 0))) by (apply (bnd_mono _ f); [exact H|intros u; destruct (String.eqb u b); nia]).
  destruct (mget m (lit a)) as [d|] eqn:G; [|exact MO]. apply del_bnd. intros u. destruct (String.eqb_spec u b) as [-> | NU]; [|rewrite dget_set_other by congruence; rewrite Z.add_0_r; apply H].
  rewrite dget_set_same. specialize (L b). apply fadd_le; [apply H| |lia].
  apply fmul_le; [specialize (H a); unfold dget, mget_or in H; now rewrite G in H|apply f_of_Z_le; lia|lia].
Qed.

(** ** The amounts in a text *)
(** how large an amount of a unit may be so that no 64-bit duration overflows *)
Definition limit (unit : str) : Z :=
  if eqs unit (lit "hour") then 2559000 else if eqs unit (lit "minute") then 153000000 else if eqs unit (lit "second") then 9000000000 else 1000000000.
(** every amount with a unit found in the text is a decimal number whose integer part is below the limit of its unit *)
Definition amounts_ok (U : uni) (s : str) : Prop :=
  forall mt, In mt (find_all U rxRelativePattern s) -> exists ip fp, amount (cap_str s mt 1) ip fp /\ number 0 ip < limit (cap_str s mt 2).
Lemma limit_pos u : 0 < limit u <= 9000000000.
Proof. unfold limit. repeat destruct (eqs _ _); lia. Qed.
Lemma raw_bnd E s : amounts_ok (e_uni E) s -> bnd (raw_durations E s) (fun u => limit (lit u)).
Proof.
  unfold raw_durations, amounts_ok. intros A. assert (H0 : bnd [] (fun u => limit (lit u))) by (intros u; cbn [lef dget mget_or mget fzero]; pose proof (limit_pos (lit u)); cbn; lia).
  revert A H0. generalize (find_all (e_uni E) rxRelativePattern s) as l. generalize (@nil (str * f64)) as m. intros m l. revert m.
  induction l as [|mt l IH]; intros m A H; cbn [fold_left]; [exact H|]. apply IH; [intros x Hx; apply A; now right|].
  destruct (A mt (or_introl eq_refl)) as (ip & fp & AM & L). intros u. unfold dget, mget_or. destruct (eqs_spec (cap_str s mt 2) (lit u)) as [EQ|N].
  - rewrite EQ, mget_mset_same. rewrite EQ in L. apply (amount_le _ ip fp); [exact AM|exact L|pose proof (limit_pos (lit u)); lia].
  - rewrite mget_mset_other by exact N. apply H.
Qed.
Lemma durations_bnd E s : amounts_ok (e_uni E) s -> bnd (get_durations E s) (fin (fun u => limit (lit u))).
Proof.
  intros A. unfold get_durations. pose proof (raw_bnd E s A) as H. set (m := raw_durations E s) in *. clearbody m. clear A s.
  pose proof (merge_bnd m _ "decade" "year" 10 H ltac:(discriminate) ltac:(lia)) as H1. cbv zeta in H1.
  assert (LB : forall u, limit (lit u) + limit (lit "decade") * 10 < 2 ^ 53) by (intros u; pose proof (limit_pos (lit u)); pose proof (limit_pos (lit "decade")); lia). specialize (H1 LB).
  set (m1 := match mget m (lit "decade") with Some _ => _ | None => _ end) in *. clearbody m1.
  pose proof (merge_bnd m1 _ "week" "day" 7 H1 ltac:(discriminate) ltac:(lia)) as H2. cbv zeta in H2.
  assert (LB2 : forall u, limit (lit u) + (if (u =? "year")%string then limit (lit "decade") * 10 else 0) + (limit (lit "week") + (if ("week" =? "year")%string then limit (lit "decade") * 10 else 0)) * 7 < 2 ^ 53).
  { intros u. pose proof (limit_pos (lit u)). pose proof (limit_pos (lit "decade")). pose proof (limit_pos (lit "week")). change ("week" =? "year")%string with false. destruct (u =? "year")%string; lia. }
  specialize (H2 LB2). set (m2 := match mget m1 (lit "week") with Some _ => _ | None => _ end) in *. clearbody m2.
  apply (spreads_bnd relative_units) in H2.
  - apply (bnd_mono _ _ _ H2). intros u. unfold more, fin. change ("week" =? "year")%string with false. rewrite Z.add_0_r. change (301 * Z.of_nat (length relative_units)) with 2408. lia.
  - intros u. cbv beta. specialize (LB2 u). change (301 * Z.of_nat (length relative_units)) with 2408. change ("week" =? "year")%string with false in *.
    pose proof (limit_pos (lit u)). pose proof (limit_pos (lit "decade")). pose proof (limit_pos (lit "week")). destruct (u =? "year")%string, (u =? "day")%string; lia.
Qed.
(** the whole numbers that are applied: all non-negative, and the durations fit in 64 bits *)
Lemma durations_ints E s : amounts_ok (e_uni E) s -> let m := get_durations E s in
  0 <= int_of_f (dget m "year") /\ 0 <= int_of_f (dget m "month") /\ 0 <= int_of_f (dget m "day") /\
  0 <= int_of_f (dget m "hour") * hour_ns < 2 ^ 63 /\ 0 <= int_of_f (dget m "minute") * minute_ns < 2 ^ 63 /\ 0 <= int_of_f (dget m "second") * second_ns < 2 ^ 63.
Proof.
  intros A. cbv zeta. pose proof (durations_bnd E s A) as H. set (m := get_durations E s) in *. clearbody m.
  assert (I : forall u B, fin (fun u => limit (lit u)) u = B -> B < 2 ^ 53 -> 0 <= int_of_f (dget m u) <= B) by (intros u B <- L; apply int_le; [exact L|apply H]).
  pose proof (I "year"%string _ eq_refl eq_refl). pose proof (I "month"%string _ eq_refl eq_refl). pose proof (I "day"%string _ eq_refl eq_refl).
  pose proof (I "hour"%string 2561408 eq_refl eq_refl). pose proof (I "minute"%string 153002408 eq_refl eq_refl). pose proof (I "second"%string 9000002408 eq_refl eq_refl).
  unfold hour_ns, minute_ns, second_ns. lia.
Qed.

(** ** Moving a date *)
(** first day of the [k]-th month counted from January of year 0 *)
Definition month_start (k : Z) : Z := days_of_civil (k / 12) (k mod 12 + 1) 1.
Definition month_index (t : time) : Z := 12 * year t + (month t - 1).
Lemma valid_first y m : 1 <= m <= 12 -> valid_date y m 1.
Proof. intros H. pose proof (days_in_bounds y m). split; [exact H|lia]. Qed.
Lemma month_step k : month_start k + days_in (k / 12) (k mod 12 + 1) <= month_start (k + 1).
Proof.
  unfold month_start. set (y := k / 12). set (m := k mod 12 + 1). set (y' := (k + 1) / 12). set (m' := (k + 1) mod 12 + 1).
  assert (M : 1 <= m <= 12) by (unfold m; lia). assert (M' : 1 <= m' <= 12) by (unfold m'; lia).
  assert (L : days_of_civil y m (days_in y m) < days_of_civil y' m' 1).
  { apply days_of_civil_lt; [now apply last_valid|now apply valid_first|]. unfold y, m, y', m'. lia. }
  pose proof (days_of_civil_shift y m 1 (days_in y m - 1)) as S. replace (1 + (days_in y m - 1)) with (days_in y m) in S by lia. lia.
Qed.
Lemma month_mono k n : 0 <= n -> month_start k <= month_start (k + n).
Proof.
  intros H. replace n with (Z.of_nat (Z.to_nat n)) by lia. induction (Z.to_nat n) as [|i IH]; [rewrite Z.add_0_r; lia|].
  pose proof (month_step (k + Z.of_nat i)) as S. pose proof (days_in_bounds ((k + Z.of_nat i) / 12) ((k + Z.of_nat i) mod 12 + 1)). replace (k + Z.of_nat (Datatypes.S i)) with (k + Z.of_nat i + 1) by lia. lia.
Qed.
Lemma month_mono_strict k n : 0 < n -> month_start k + days_in (k / 12) (k mod 12 + 1) <= month_start (k + n).
Proof. intros H. pose proof (month_step k). pose proof (month_mono (k + 1) (n - 1) ltac:(lia)) as M. replace (k + 1 + (n - 1)) with (k + n) in M by lia. lia. Qed.
Lemma local_days_index t : local_days t = month_start (month_index t) + (day t - 1).
Proof.
  destruct (civil_valid t) as [[V1 V2] <-]. unfold month_start, month_index. replace ((12 * year t + (month t - 1)) / 12) with (year t) by lia. replace ((12 * year t + (month t - 1)) mod 12 + 1) with (month t) by lia.
  rewrite days_of_civil_shift. f_equal. lia.
Qed.
Lemma moved_date t dy dm d : fixed (t_loc t) -> wf_time t ->
  instant (mk_date (year t + dy) (month t + dm) d (hour t) (minute t) (second t) (nanosecond t) (t_loc t)) =
  instant t + (month_start (month_index t + (12 * dy + dm)) + (d - 1) - local_days t) * (86400 * 1000000000).
Proof.
  intros HF HW. destruct (civil_valid t) as [[V1 V2] _].
  set (k := month_index t + (12 * dy + dm)). rewrite (mk_date_norm _ _ _ _ _ _ _ _ (k / 12) (k mod 12 + 1)) by (unfold k, month_index; lia).
  rewrite instant_mk_date by (exact HF || lia). pose proof (local_sec_split t) as S. rewrite local_sec_fixed in S by exact HF.
  replace (days_of_civil (k / 12) (k mod 12 + 1) d) with (month_start k + (d - 1)) by (unfold month_start; rewrite days_of_civil_shift; f_equal; lia). unfold instant, nanosecond. lia.
Qed.
Lemma add_date_dir cfg t y m d : fixed (t_loc t) -> wf_time t ->
  (0 <= y -> 0 <= m -> 0 <= d -> instant t <= instant (rel_add_date cfg t y m d)) /\
  (y <= 0 -> m <= 0 -> d <= 0 -> instant (rel_add_date cfg t y m d) <= instant t) /\
  t_loc (rel_add_date cfg t y m d) = t_loc t /\ wf_time (rel_add_date cfg t y m d).
Proof.
  intros HF HW. pose proof (local_days_index t) as LD. destruct (civil_valid t) as [[V1 V2] _]. unfold rel_add_date. destruct (c_preserve cfg); cbn [negb].
  - set (k := month_index t + (12 * y + m)). rewrite (last_of_month' (year t + y) (month t + m) (k / 12) (k mod 12 + 1)) by (unfold k, month_index; lia).
    set (D := days_in (k / 12) (k mod 12 + 1)). set (dd := if D <? day t then D else day t). pose proof (moved_date t y m dd HF HW) as MD. fold k in MD.
    set (t1 := mk_date _ _ dd _ _ _ _ _) in *. assert (W1 : wf_time t1) by apply mk_date_wf. assert (F1 : fixed (t_loc t1)) by exact HF.
    destruct (add_days_sec t1 d W1 F1) as [A1 A2].
    assert (I : instant (add_date t1 0 0 d) = instant t1 + d * (86400 * 1000000000)) by (unfold instant; rewrite A1, A2; lia).
    rewrite I, MD. split; [|split; [|split; [reflexivity|apply mk_date_wf]]].
    + intros Hy Hm Hd. destruct (Z.eq_dec (12 * y + m) 0) as [Z0|NZ].
      * assert (K : k = month_index t) by (unfold k; lia). assert (DD : dd = day t).
        { unfold dd, D. rewrite K. unfold month_index. replace ((12 * year t + (month t - 1)) / 12) with (year t) by lia. replace ((12 * year t + (month t - 1)) mod 12 + 1) with (month t) by lia. destruct (days_in (year t) (month t) <? day t) eqn:C; lia. }
        rewrite K, DD. nia.
      * pose proof (month_mono_strict (month_index t) (12 * y + m) ltac:(lia)) as MM. fold k in MM. unfold month_index in MM at 2 3. replace ((12 * year t + (month t - 1)) / 12) with (year t) in MM by lia. replace ((12 * year t + (month t - 1)) mod 12 + 1) with (month t) in MM by lia.
        assert (1 <= dd) by (unfold dd, D; pose proof (days_in_bounds (k / 12) (k mod 12 + 1)); destruct (_ <? _); lia). nia.
    + intros Hy Hm Hd. pose proof (month_mono k (- (12 * y + m)) ltac:(lia)) as MM. replace (k + - (12 * y + m)) with (month_index t) in MM by (unfold k; lia).
      assert (dd <= day t) by (unfold dd; destruct (_ <? _) eqn:C; lia). nia.
  - unfold add_date. rewrite (moved_date t y m (day t + d) HF HW). split; [|split; [|split; [reflexivity|apply mk_date_wf]]].
    + intros Hy Hm Hd. pose proof (month_mono (month_index t) (12 * y + m) ltac:(lia)). nia.
    + intros Hy Hm Hd. pose proof (month_mono (month_index t + (12 * y + m)) (- (12 * y + m)) ltac:(lia)) as MM. replace (month_index t + (12 * y + m) + - (12 * y + m)) with (month_index t) in MM by lia. nia.
Qed.
Lemma instant_add t n : instant (add t n) = instant t + n.
Proof. unfold add, instant. cbn [t_sec t_nsec]. lia. Qed.
Lemma add_wf t n : wf_time (add t n).
Proof. unfold wf_time, add. cbn [t_nsec]. lia. Qed.
Lemma wrap_id z : - 2 ^ 63 <= z < 2 ^ 63 -> wrap64 z = z.
Proof. change (2 ^ 63) with 9223372036854775808. intros H. unfold wrap64. cbv zeta. destruct (_ <? _) eqn:C; lia. Qed.
(** the direction of the step *)
Lemma rel_apply_dir E s cfg fwd now : amounts_ok (e_uni E) s -> fixed (t_loc now) -> wf_time now ->
  let r := rel_apply cfg (get_durations E s) fwd now in
  (if fwd then instant now <= instant r else instant r <= instant now) /\ t_loc r = t_loc now /\ wf_time r.
Proof.
  intros A HF HW. cbv zeta. pose proof (durations_ints E s A) as (I1 & I2 & I3 & I4 & I5 & I6). unfold rel_apply. set (m := get_durations E s) in *. clearbody m.
  rewrite !(wrap_id (int_of_f _ * _)) by lia. rewrite !wrap_id by lia. destruct fwd; (split; [|split; [|apply add_wf]]).
  - rewrite !instant_add. destruct (add_date_dir cfg now (int_of_f (dget m "year")) (int_of_f (dget m "month")) (int_of_f (dget m "day")) HF HW) as (D & _). specialize (D I1 I2 I3). lia.
  - cbn [add t_loc]. now apply add_date_dir.
  - rewrite !instant_add. destruct (add_date_dir cfg now (- int_of_f (dget m "year")) (- int_of_f (dget m "month")) (- int_of_f (dget m "day")) HF HW) as (_ & D & _). specialize (D ltac:(lia) ltac:(lia) ltac:(lia)). lia.
  - cbn [add t_loc]. now apply add_date_dir.
Qed.
