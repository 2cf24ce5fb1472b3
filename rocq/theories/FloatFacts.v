(** binary64 arithmetic is exact on integers below 2^53; non-negative numbers stay non-negative *)
From Coq Require Import SpecFloat ZifyBool.
From Verif Require Import GoBase GoFloat.

(** ** Integers *)
Lemma digits2 p : Zpos (digits2_pos p) = Z.log2 (Zpos p) + 1.
Proof.
  induction p as [p IH|p IH|]; cbn [digits2_pos]; [| |reflexivity]; rewrite Pos2Z.inj_succ, IH; unfold Z.succ.
  - change (Zpos p~1) with (2 * Zpos p + 1). rewrite Z.log2_succ_double by lia. lia.
  - change (Zpos p~0) with (2 * Zpos p). rewrite Z.log2_double by lia. lia.
Qed.
Lemma shr_1_even m : 0 < m -> shr_1 {| shr_m := 2 * m; shr_r := false; shr_s := false |} = {| shr_m := m; shr_r := false; shr_s := false |}.
Proof. destruct m as [|p|p]; try lia. intros _. reflexivity. Qed.
Lemma shr_pow p : forall m, 0 < m -> SpecFloat.iter_pos shr_1 p {| shr_m := m * 2 ^ Zpos p; shr_r := false; shr_s := false |} = {| shr_m := m; shr_r := false; shr_s := false |}.
Proof.
  induction p as [p IH|p IH|]; intros m H; cbn [SpecFloat.iter_pos].
  - replace (m * 2 ^ Zpos p~1) with (2 * ((m * 2 ^ Zpos p) * 2 ^ Zpos p)) by (change (Zpos p~1) with (2 * Zpos p + 1); rewrite Z.pow_add_r, Z.pow_1_r, Z.pow_twice_r by lia; ring).
    rewrite shr_1_even by (pose proof (Z.pow_pos_nonneg 2 (Zpos p)); nia). rewrite IH by (pose proof (Z.pow_pos_nonneg 2 (Zpos p)); nia). now apply IH.
  - replace (m * 2 ^ Zpos p~0) with ((m * 2 ^ Zpos p) * 2 ^ Zpos p) by (change (Zpos p~0) with (2 * Zpos p); rewrite Z.pow_twice_r by lia; ring).
    rewrite IH by (pose proof (Z.pow_pos_nonneg 2 (Zpos p)); nia). now apply IH.
  - replace (m * 2 ^ 1) with (2 * m) by lia. now apply shr_1_even.
Qed.
Definition canon (n : Z) : f64 := S754_finite false (Z.to_pos (n * 2 ^ (52 - Z.log2 n))) (Z.log2 n - 52).
Definition fi (n : Z) : f64 := if n =? 0 then S754_zero false else canon n.
Lemma canon_pos n : 0 < n < 2 ^ 53 -> 0 <= Z.log2 n <= 52 /\ Zpos (Z.to_pos (n * 2 ^ (52 - Z.log2 n))) = n * 2 ^ (52 - Z.log2 n) /\ Z.log2 (n * 2 ^ (52 - Z.log2 n)) = 52.
Proof.
  intros H. assert (B : 0 <= Z.log2 n <= 52). { split; [apply Z.log2_nonneg|]. assert (Z.log2 n < 53) by (apply Z.log2_lt_pow2; lia). lia. }
  split; [exact B|]. assert (P : 0 < 2 ^ (52 - Z.log2 n)) by (apply Z.pow_pos_nonneg; lia). split; [apply Z2Pos.id; nia|].
  rewrite Z.log2_mul_pow2 by lia. lia.
Qed.
(** a mantissa of at least 53 bits *)
Lemma round_exact n mz k : 0 < n < 2 ^ 53 -> 52 - Z.log2 n <= k <= 1000 -> Zpos mz = n * 2 ^ k ->
  binary_round_aux prec emax false (Zpos mz) (- k) loc_Exact = canon n.
Proof.
  intros Hn Hk Hm. destruct (canon_pos n Hn) as (HL & HC & HD).
  assert (D : Zdigits2 (Zpos mz) = Z.log2 n + k + 1). { cbn [Zdigits2]. rewrite digits2, Hm, Z.log2_mul_pow2 by lia. lia. }
  assert (S1 : shr_fexp prec emax (Zpos mz) (- k) loc_Exact = ({| shr_m := n * 2 ^ (52 - Z.log2 n); shr_r := false; shr_s := false |}, Z.log2 n - 52)).
  { unfold shr_fexp. rewrite D. cbn [shr_record_of_loc]. unfold fexp, emin. change prec with 53. change emax with 1024.
    replace (Z.max (Z.log2 n + k + 1 + - k - 53) (3 - 1024 - 53) - - k) with (k - (52 - Z.log2 n)) by lia. rewrite Hm.
    remember (k - (52 - Z.log2 n)) as j eqn:Ej. destruct j as [|p|p]; [| |lia]; cbn [shr].
    - replace k with (52 - Z.log2 n) by lia. f_equal. lia.
    - replace (n * 2 ^ k) with ((n * 2 ^ (52 - Z.log2 n)) * 2 ^ Zpos p) by (rewrite <- Z.mul_assoc, <- Z.pow_add_r by lia; do 2 f_equal; lia).
      rewrite shr_pow by lia. f_equal. lia. }
  unfold binary_round_aux. rewrite S1. cbn [shr_m loc_of_shr_record round_nearest_even].
  assert (S2 : shr_fexp prec emax (n * 2 ^ (52 - Z.log2 n)) (Z.log2 n - 52) loc_Exact = ({| shr_m := n * 2 ^ (52 - Z.log2 n); shr_r := false; shr_s := false |}, Z.log2 n - 52)).
  { unfold shr_fexp. rewrite <- HC at 2. cbn [Zdigits2]. rewrite digits2, HC, HD. unfold fexp, emin. change prec with 53. change emax with 1024.
    replace (Z.max (52 + 1 + (Z.log2 n - 52) - 53) (3 - 1024 - 53) - (Z.log2 n - 52)) with 0 by lia. reflexivity. }
  rewrite S2. cbn [shr_m]. rewrite <- HC. cbv iota. change (emax - prec) with 971. destruct (Z.log2 n - 52 <=? 971) eqn:C; [|lia].
  unfold canon. reflexivity.
Qed.
Lemma round_any n mz k : 0 < n < 2 ^ 53 -> 0 <= k <= 1000 -> Zpos mz = n * 2 ^ k -> binary_round prec emax false mz (- k) = canon n.
Proof.
  intros Hn Hk Hm. destruct (canon_pos n Hn) as (HL & HC & HD). unfold binary_round.
  assert (D : Zpos (digits2_pos mz) = Z.log2 n + k + 1) by (rewrite digits2, Hm, Z.log2_mul_pow2 by lia; lia).
  rewrite D. unfold fexp, emin. change prec with 53 at 1 2. change emax with 1024 at 1.
  replace (Z.max (Z.log2 n + k + 1 + - k - 53) (3 - 1024 - 53)) with (Z.log2 n - 52) by lia. unfold shl_align.
  destruct (Z.log2 n - 52 - - k) as [|p|p] eqn:Ej.
  - apply round_exact; lia || assumption.
  - apply round_exact; lia || assumption.
  - replace (Z.log2 n - 52) with (- (52 - Z.log2 n)) by lia. apply round_exact; [exact Hn|lia|]. rewrite Zpower.shift_pos_correct, Hm.
    assert (Z.pow_pos 2 p = 2 ^ Zpos p) as -> by reflexivity. rewrite Z.mul_comm, <- Z.mul_assoc, <- Z.pow_add_r by lia. do 2 f_equal. lia.
Qed.
Lemma f_of_Z_int n : 0 <= n < 2 ^ 53 -> f_of_Z n = fi n.
Proof.
  intros H. unfold fi, f_of_Z. destruct n as [|p|p]; [reflexivity| |lia]. cbn [Z.eqb]. change 0 with (- 0) at 1. apply round_any; lia.
Qed.
Lemma align m e e' : e' <= e -> Zpos (fst (shl_align m e e')) = Zpos m * 2 ^ (e - e').
Proof.
  intros H. unfold shl_align. destruct (e' - e) as [|p|p] eqn:E; [| lia |]; cbn [fst].
  - replace (e - e') with 0 by lia. lia.
  - rewrite Zpower.shift_pos_correct. change (Z.pow_pos 2 p) with (2 ^ Zpos p). replace (e - e') with (Zpos p) by lia. lia.
Qed.
Lemma canon_value n e' : 0 < n < 2 ^ 53 -> e' <= Z.log2 n - 52 -> Zpos (Z.to_pos (n * 2 ^ (52 - Z.log2 n))) * 2 ^ (Z.log2 n - 52 - e') = n * 2 ^ (- e').
Proof.
  intros Hn He. destruct (canon_pos n Hn) as (HL & HC & HD). rewrite HC, <- Z.mul_assoc, <- Z.pow_add_r by lia. do 2 f_equal. lia.
Qed.
Lemma fadd_int a b : 0 <= a -> 0 <= b -> a + b < 2 ^ 53 -> fadd (fi a) (fi b) = fi (a + b).
Proof.
  intros Ha Hb Hab. unfold fi. destruct (a =? 0) eqn:A; [|destruct (b =? 0) eqn:B].
  - apply Z.eqb_eq in A. subst. rewrite Z.add_0_l. destruct (b =? 0) eqn:B; reflexivity.
  - apply Z.eqb_eq in B. subst. rewrite Z.add_0_r, A. reflexivity.
  - destruct (a + b =? 0) eqn:C; [lia|]. assert (HA : 0 < a < 2 ^ 53) by lia. assert (HB : 0 < b < 2 ^ 53) by lia.
    destruct (canon_pos a HA) as (LA & _ & _). destruct (canon_pos b HB) as (LB & _ & _).
    unfold fadd, canon at 1 2, SFadd. set (ez := Z.min (Z.log2 a - 52) (Z.log2 b - 52)). cbn [cond_Zopp].
    rewrite !align by (unfold ez; lia). rewrite !canon_value by (unfold ez; assumption || lia).
    replace (a * 2 ^ (- ez) + b * 2 ^ (- ez)) with ((a + b) * 2 ^ (- ez)) by ring.
    assert (P : 0 < 2 ^ (- ez)) by (apply Z.pow_pos_nonneg; unfold ez; lia).
    destruct ((a + b) * 2 ^ (- ez)) as [|m|m] eqn:E; [nia| |nia]. unfold binary_normalize.
    replace ez with (- - ez) by lia. apply round_any; [lia|unfold ez; lia|]. now rewrite <- E.
Qed.
Lemma fmul_int a b : 0 <= a -> 0 < b -> a * b < 2 ^ 53 -> fmul (fi a) (fi b) = fi (a * b).
Proof.
  intros Ha Hb Hab. unfold fi. destruct (b =? 0) eqn:B; [lia|]. destruct (a =? 0) eqn:A.
  - apply Z.eqb_eq in A. subst. reflexivity.
  - destruct (a * b =? 0) eqn:C; [lia|]. assert (HA : 0 < a < 2 ^ 53) by nia. assert (HB : 0 < b < 2 ^ 53) by nia. assert (HC : 0 < a * b < 2 ^ 53) by nia.
    destruct (canon_pos a HA) as (LA & CA & DA). destruct (canon_pos b HB) as (LB & CB & DB). destruct (canon_pos (a * b) HC) as (LC & _ & _).
    unfold fmul, canon at 1 2, SFmul. cbn [xorb]. replace (Z.log2 a - 52 + (Z.log2 b - 52)) with (- (104 - Z.log2 a - Z.log2 b)) by lia.
    apply round_exact; [exact HC| |].
    + pose proof (Z.log2_mul_above a b ltac:(lia) ltac:(lia)). pose proof (Z.log2_mul_below a b ltac:(lia) ltac:(lia)). lia.
    + rewrite Pos2Z.inj_mul, CA, CB. replace (104 - Z.log2 a - Z.log2 b) with ((52 - Z.log2 a) + (52 - Z.log2 b)) by lia. rewrite Z.pow_add_r by lia. ring.
Qed.
Lemma trunc_canon n : 0 < n < 2 ^ 53 -> trunc_mag (Z.to_pos (n * 2 ^ (52 - Z.log2 n))) (Z.log2 n - 52) = n.
Proof.
  intros H. destruct (canon_pos n H) as (L & C & _). unfold trunc_mag. rewrite C. destruct (0 <=? Z.log2 n - 52) eqn:E.
  - replace (Z.log2 n) with 52 by lia. cbn. lia.
  - replace (- (Z.log2 n - 52)) with (52 - Z.log2 n) by lia. apply Z.div_mul. apply Z.pow_nonzero; lia.
Qed.
Lemma int_int n : 0 <= n < 2 ^ 53 -> int_of_f (fi n) = n.
Proof.
  intros H. unfold fi. destruct (n =? 0) eqn:N; [apply Z.eqb_eq in N; subst; reflexivity|]. unfold canon, int_of_f. rewrite trunc_canon by lia. unfold min_int64. destruct (_ && _) eqn:E; lia.
Qed.
Lemma feqb_refl_fin s m e : feqb (S754_finite s m e) (S754_finite s m e) = true.
Proof. unfold feqb, SFeqb, SFcompare. rewrite Z.compare_refl. destruct s; change (Pcompare m m Eq) with (Pos.compare m m); now rewrite Pos.compare_refl. Qed.
Lemma floor_int n : 0 <= n < 2 ^ 53 -> ffloor (fabs (fi n)) = fi n.
Proof.
  intros H. unfold fi. destruct (n =? 0) eqn:N; [reflexivity|]. unfold canon. cbn [fabs SFabs ffloor]. destruct (0 <=? Z.log2 n - 52) eqn:E; [reflexivity|].
  rewrite trunc_canon by lia. rewrite f_of_Z_int by lia. unfold fi. now rewrite N.
Qed.

(** ** Non-negative numbers (or not a number) *)
Definition nn (f : f64) : Prop := match f with S754_zero _ | S754_nan => True | S754_infinity s => s = false | S754_finite s m _ => s = false /\ Zpos m < 2 ^ 53 end.
Lemma shr_1_div r : 0 <= shr_m r -> shr_m (shr_1 r) = shr_m r / 2.
Proof.
  destruct r as [[|[p|p|]|p] a b]; cbn [shr_1 shr_m]; intros H; try reflexivity; try lia.
  - change (Zpos p~1) with (2 * Zpos p + 1). rewrite Z.add_comm, Z.mul_comm, Z.div_add by lia. cbn. lia.
  - change (Zpos p~0) with (2 * Zpos p). now rewrite Z.mul_comm, Z.div_mul by lia.
Qed.
Lemma iter_div p : forall r, 0 <= shr_m r -> shr_m (SpecFloat.iter_pos shr_1 p r) = shr_m r / 2 ^ Zpos p.
Proof.
  assert (P : forall q, 0 < 2 ^ Zpos q) by (intros q; apply Z.pow_pos_nonneg; lia).
  induction p as [p IH|p IH|]; intros r H; cbn [SpecFloat.iter_pos].
  - assert (H1 : 0 <= shr_m (shr_1 r)) by (rewrite shr_1_div by exact H; apply Z.div_pos; lia).
    assert (H2 : 0 <= shr_m (SpecFloat.iter_pos shr_1 p (shr_1 r))) by (rewrite IH by exact H1; apply Z.div_pos; [exact H1|apply P]).
    rewrite IH by exact H2. rewrite IH by exact H1. rewrite shr_1_div by exact H. pose proof (P p). rewrite !Z.div_div by (try lia; nia). f_equal. replace (Zpos p~1) with (1 + Zpos p + Zpos p) by lia. rewrite !Z.pow_add_r by lia. ring.
  - assert (H2 : 0 <= shr_m (SpecFloat.iter_pos shr_1 p r)) by (rewrite IH by exact H; apply Z.div_pos; [exact H|apply P]).
    rewrite IH by exact H2. rewrite IH by exact H. pose proof (P p). rewrite Z.div_div by lia. f_equal. change (Zpos p~0) with (2 * Zpos p). now rewrite Z.pow_twice_r.
  - now apply shr_1_div.
Qed.
Lemma shr_fexp_bound m e l : 0 <= m -> 0 <= shr_m (fst (shr_fexp prec emax m e l)) < 2 ^ 53.
Proof.
  intros H. assert (HM : forall l, shr_m (shr_record_of_loc m l) = m) by (intros [|[]]; reflexivity).
  assert (HD : m < 2 ^ Zdigits2 m).
  { destruct m as [|p|p]; [cbn; lia| |lia]. cbn [Zdigits2]. rewrite digits2. apply Z.log2_spec. lia. }
  assert (D0 : 0 <= Zdigits2 m) by (destruct m; cbn; lia).
  assert (FE : Zdigits2 m - 53 <= fexp prec emax (Zdigits2 m + e) - e) by (unfold fexp; change prec with 53; lia).
  unfold shr_fexp, shr. destruct (fexp prec emax (Zdigits2 m + e) - e) as [|p|p]; cbn [fst].
  - rewrite HM. split; [exact H|]. eapply Z.lt_le_trans; [exact HD|]. apply Z.pow_le_mono_r; lia.
  - rewrite iter_div, HM by (rewrite HM; exact H). assert (P : 0 < 2 ^ Zpos p) by (apply Z.pow_pos_nonneg; lia). split; [apply Z.div_pos; lia|].
    apply Z.div_lt_upper_bound; [exact P|]. rewrite <- Z.pow_add_r by lia. eapply Z.lt_le_trans; [exact HD|]. apply Z.pow_le_mono_r; lia.
  - rewrite HM. split; [exact H|]. eapply Z.lt_le_trans; [exact HD|]. apply Z.pow_le_mono_r; lia.
Qed.
Lemma round_nn m e l : 0 <= m -> nn (binary_round_aux prec emax false m e l).
Proof.
  intros H. unfold binary_round_aux. pose proof (shr_fexp_bound m e l H) as B. destruct (shr_fexp prec emax m e l) as [r1 e1]. cbn [fst] in B.
  assert (R : 0 <= round_nearest_even (shr_m r1) (loc_of_shr_record r1)) by (unfold round_nearest_even; destruct (loc_of_shr_record r1) as [|[]]; try destruct (Z.even _); lia).
  pose proof (shr_fexp_bound _ e1 loc_Exact R) as B2. destruct (shr_fexp prec emax _ e1 loc_Exact) as [r2 e2]. cbn [fst] in B2.
  destruct (shr_m r2) as [|q|q]; [exact I| |exact I]. destruct (e2 <=? emax - prec); [|reflexivity]. split; [reflexivity|apply B2].
Qed.
Lemma binary_round_nn m e : nn (binary_round prec emax false m e).
Proof. unfold binary_round. destruct (shl_align _ _ _). apply round_nn. lia. Qed.
Lemma f_of_Z_nn n : 0 <= n -> nn (f_of_Z n).
Proof. intros H. destruct n as [|p|p]; [exact I|apply binary_round_nn|lia]. Qed.
Lemma f_of_ratio_nn n d : nn (f_of_ratio n d).
Proof.
  unfold f_of_ratio. destruct n as [|p|p]; [exact I| |exact I]. unfold SFdiv, SFdiv_core_binary. set (m' := match _ with Z0 => _ | Zpos _ => _ | Zneg _ => _ end).
  assert (HM : 0 <= m') by (unfold m'; destruct (_ - _ - _); [lia|apply Z.shiftl_nonneg; lia|lia]).
  pose proof (Z_div_pos m' (Zpos d)). unfold Z.div in H. destruct (Z.div_eucl m' (Zpos d)) as [q r] eqn:E. apply round_nn. apply H; lia.
Qed.
Lemma normalize_nn z e : 0 <= z -> nn (binary_normalize prec emax z e false).
Proof. intros H. destruct z as [|p|p]; [exact I|apply binary_round_nn|lia]. Qed.
Lemma fadd_nn x y : nn x -> nn y -> nn (fadd x y).
Proof.
  intros X Y. unfold fadd. destruct x as [sx|sx| |sx mx ex], y as [sy|sy| |sy my ey]; cbn [nn] in *; try exact I; subst; try reflexivity; try (destruct sx, sy; exact I); try exact Y; try exact X.
  destruct X as [-> _], Y as [-> _]. unfold SFadd. cbn [cond_Zopp]. apply normalize_nn. lia.
Qed.
Lemma fmul_nn x y : nn x -> nn y -> nn (fmul x y).
Proof.
  intros X Y. unfold fmul. destruct x as [sx|sx| |sx mx ex], y as [sy|sy| |sy my ey]; cbn [nn] in *; try exact I; subst; try reflexivity; try (destruct X as [-> _]); try (destruct Y as [-> _]); try reflexivity.
  unfold SFmul. cbn [xorb]. apply round_nn. lia.
Qed.
Lemma fabs_nn x : nn x -> nn (fabs x). Proof. destruct x; cbn; tauto. Qed.
Lemma trunc_nonneg m e : 0 <= trunc_mag m e.
Proof. unfold trunc_mag. destruct (0 <=? e) eqn:E; [pose proof (Z.pow_nonneg 2 e); nia|]. apply Z.div_pos; [lia|]. apply Z.pow_pos_nonneg; lia. Qed.
Lemma ffloor_nn x : nn x -> nn (ffloor x).
Proof. destruct x as [| | |s m e]; cbn [nn ffloor]; auto. intros [-> B]. destruct (0 <=? e); [split; [reflexivity|exact B]|]. apply f_of_Z_nn, trunc_nonneg. Qed.
Lemma fround_nn x : nn x -> nn (fround x).
Proof.
  destruct x as [| | |s m e]; cbn [nn fround]; auto. intros [-> B]. destruct (0 <=? e) eqn:E; [split; [reflexivity|exact B]|]. apply f_of_Z_nn.
  assert (P : 0 < 2 ^ (- e)) by (apply Z.pow_pos_nonneg; lia). apply Z.div_pos; lia.
Qed.
Lemma flt_nn x : nn x -> fltb x fzero = false.
Proof. destruct x as [| | |s m e]; cbn; auto; [intros -> | intros [-> _]]; reflexivity. Qed.
(** what is left after taking off the integer part *)
Lemma frac_nn x : nn x -> nn (fsub x (ffloor x)).
Proof.
  destruct x as [s|s| |s m e]; cbn [nn ffloor]; auto; [intros _; destruct s; exact I|intros ->; exact I|]. intros [-> B]. destruct (0 <=? e) eqn:E.
  - unfold fsub, SFsub. cbn [cond_Zopp]. rewrite Z.sub_diag. exact I.
  - assert (P : 0 < 2 ^ (- e)) by (apply Z.pow_pos_nonneg; lia). unfold trunc_mag. rewrite E. set (q := Zpos m / 2 ^ (- e)).
    assert (Q : 0 <= q /\ q * 2 ^ (- e) <= Zpos m). { split; [apply Z.div_pos; lia|]. unfold q. rewrite Z.mul_comm. apply Z.mul_div_le. exact P. }
    rewrite f_of_Z_int by nia. unfold fi. destruct (q =? 0) eqn:Q0; [split; [reflexivity|exact B]|]. assert (HQ : 0 < q < 2 ^ 53) by nia. destruct (canon_pos q HQ) as (LQ & _ & _).
    unfold fsub, canon, SFsub. cbn [cond_Zopp]. set (ez := Z.min e (Z.log2 q - 52)). rewrite !align by (unfold ez; lia). rewrite canon_value by (unfold ez; assumption || lia).
    apply normalize_nn. replace (- ez) with ((- e) + (e - ez)) by lia. rewrite Z.pow_add_r by (unfold ez; lia). assert (0 < 2 ^ (e - ez)) by (apply Z.pow_pos_nonneg; unfold ez; lia). nia.
Qed.
Lemma int_nn x : nn x -> 0 <= int_of_f x \/ int_of_f x = min_int64.
Proof.
  destruct x as [s|s| |s m e]; cbn [nn int_of_f]; auto; [left; lia|]. intros [-> _]. pose proof (trunc_nonneg m e). destruct (_ && _); [left; assumption|now right].
Qed.
Lemma dec_val_nonneg s : forall acc v, 0 <= acc -> dec_val acc s = Some v -> 0 <= v.
Proof.
  induction s as [|c s IH]; intros acc v H; cbn [dec_val]; [intros E; assert (acc = v) by congruence; lia|]. destruct (is_digitA c) eqn:C; [|discriminate]. unfold is_digitA in C. apply IH. lia.
Qed.
Lemma parse_float_nn s : nn (parse_float s).
Proof.
  unfold parse_float. destruct (index s _) as [i|].
  - destruct (dec_val 0 _) as [n|] eqn:D; [|exact I]. destruct (skipn (S i) s); [|apply f_of_ratio_nn]. apply f_of_Z_nn. eapply dec_val_nonneg; [|exact D]. lia.
  - destruct (dec_val 0 s) as [n|] eqn:D; [|exact I]. apply f_of_Z_nn. eapply dec_val_nonneg; [|exact D]. lia.
Qed.
