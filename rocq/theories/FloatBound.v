(** Bounded non-negative floats: [lef x B] says that [x] is a number between 0 and [B] (B < 2^53) *)
From Coq Require Import ZifyBool SpecFloat.
From Verif Require Import GoBase GoFloat FloatFacts.

Definition lef (x : f64) (B : Z) : Prop :=
  match x with S754_zero _ => 0 <= B | S754_finite s m e => s = false /\ e <= 0 /\ Zpos m <= B * 2 ^ (- e) | _ => False end.

Definition inex (r : shr_record) : Z := if shr_r r || shr_s r then 1 else 0.
Definition up (r : shr_record) : Z := shr_m r + inex r.
Lemma shr_1_up r X : 0 <= shr_m r -> up r <= 2 * X -> up (shr_1 r) <= X.
Proof.
  destruct r as [[|[p|p|]|p] a b]; unfold up, inex; cbn [shr_1 shr_m shr_r shr_s]; intros H; try lia.
  - destruct a, b; cbn [orb]; lia.
  - change (Zpos p~1) with (2 * Zpos p + 1). destruct a, b; cbn [orb]; lia.
  - change (Zpos p~0) with (2 * Zpos p). destruct a, b; cbn [orb]; lia.
  - destruct a, b; cbn [orb]; lia.
Qed.
Lemma iter_up p : forall r X, 0 <= shr_m r -> up r <= X * 2 ^ Zpos p -> up (SpecFloat.iter_pos shr_1 p r) <= X.
Proof.
  assert (P : forall q, 0 < 2 ^ Zpos q) by (intros q; apply Z.pow_pos_nonneg; lia).
  induction p as [p IH|p IH|]; intros r X H HX; cbn [SpecFloat.iter_pos].
  - assert (H1 : 0 <= shr_m (shr_1 r)) by (rewrite shr_1_div by exact H; apply Z.div_pos; lia).
    apply IH; [rewrite iter_div by exact H1; apply Z.div_pos; [exact H1|apply P]|]. apply IH; [exact H1|]. apply shr_1_up; [exact H|].
    replace (Zpos p~1) with (1 + Zpos p + Zpos p) in HX by lia. rewrite !Z.pow_add_r in HX by lia. change (2 ^ 1) with 2 in HX. nia.
  - apply IH; [rewrite iter_div by exact H; apply Z.div_pos; [exact H|apply P]|]. apply IH; [exact H|].
    replace (Zpos p~0) with (Zpos p + Zpos p) in HX by lia. rewrite Z.pow_add_r in HX by lia. nia.
  - apply shr_1_up; [exact H|]. change (2 ^ 1) with 2 in HX. lia.
Qed.
Definition lost (l : location) : Z := match l with loc_Exact => 0 | _ => 1 end.
Lemma up_loc m l : up (shr_record_of_loc m l) = m + lost l.
Proof. destruct l as [|[]]; reflexivity. Qed.
Lemma shr_fexp_up m e l B : 0 <= m -> e <= 0 -> 0 <= B < 2 ^ 53 -> m + lost l <= B * 2 ^ (- e) ->
  let '(r, e') := shr_fexp prec emax m e l in 0 <= shr_m r /\ e' <= 0 /\ up r <= B * 2 ^ (- e').
Proof.
  intros H He HB HX. assert (HM : shr_m (shr_record_of_loc m l) = m) by (destruct l as [|[]]; reflexivity).
  assert (HD : m = 0 \/ (0 <= Zdigits2 m <= 53 - e)).
  { destruct m as [|p|p]; [left; reflexivity| |lia]. right. cbn [Zdigits2]. rewrite digits2. split; [pose proof (Z.log2_nonneg (Zpos p)); lia|].
    assert (Z.log2 (Zpos p) < 53 - e); [|lia]. apply Z.log2_lt_pow2; [lia|]. replace (53 - e) with (53 + - e) by lia. rewrite Z.pow_add_r by lia.
    assert (0 < 2 ^ (- e)) by (apply Z.pow_pos_nonneg; lia). assert (0 <= lost l) by (destruct l; cbn; lia). nia. }
  assert (FE : fexp prec emax (Zdigits2 m + e) - e <= - e).
  { unfold fexp. change prec with 53. change (SpecFloat.emin 53 emax) with (-1074). destruct HD as [-> | HD]; cbn [Zdigits2]; lia. }
  unfold shr_fexp, shr. destruct (fexp prec emax (Zdigits2 m + e) - e) as [|p|p].
  - rewrite HM, up_loc. auto.
  - assert (P : 0 < 2 ^ Zpos p) by (apply Z.pow_pos_nonneg; lia). split; [rewrite iter_div by (rewrite HM; exact H); apply Z.div_pos; [rewrite HM; exact H|exact P]|]. split; [lia|].
    apply iter_up; [rewrite HM; exact H|]. rewrite up_loc. rewrite <- Z.mul_assoc, <- Z.pow_add_r by lia. replace (- (e + Zpos p) + Zpos p) with (- e) by lia. exact HX.
  - rewrite HM, up_loc. auto.
Qed.
Lemma round_le m e l B : 0 <= m -> e <= 0 -> 0 <= B < 2 ^ 53 -> m + lost l <= B * 2 ^ (- e) -> lef (binary_round_aux prec emax false m e l) B.
Proof.
  intros H He HB HX. unfold binary_round_aux. pose proof (shr_fexp_up m e l B H He HB HX) as S1. destruct (shr_fexp prec emax m e l) as [r1 e1]. destruct S1 as (A1 & A2 & A3).
  set (m1 := round_nearest_even (shr_m r1) (loc_of_shr_record r1)).
  assert (R : 0 <= m1 <= up r1).
  { unfold m1, up, inex. destruct r1 as [q a b]. cbn [shr_m shr_r shr_s] in *. unfold round_nearest_even. destruct a, b; cbn [loc_of_shr_record orb]; try destruct (Z.even q); lia. }
  pose proof (shr_fexp_up m1 e1 loc_Exact B ltac:(lia) A2 HB ltac:(cbn [lost]; lia)) as S2. destruct (shr_fexp prec emax m1 e1 loc_Exact) as [r2 e2]. destruct S2 as (C1 & C2 & C3).
  assert (I2 : shr_m r2 <= up r2) by (unfold up, inex; destruct (_ || _); lia).
  destruct (shr_m r2) as [|q|q]; [cbn [lef]; lia| |lia]. replace (e2 <=? emax - prec) with true by (change (emax - prec) with 971; lia). cbn [lef]. split; [reflexivity|]. lia.
Qed.
Lemma align_snd m e e' : snd (shl_align m e e') = Z.min e e'.
Proof. unfold shl_align. destruct (e' - e) as [|p|p] eqn:D; cbn [snd]; lia. Qed.
Lemma align_val m e e' : Zpos (fst (shl_align m e e')) = Zpos m * 2 ^ (e - Z.min e e').
Proof.
  destruct (Z.le_ge_cases e' e) as [L|L]; [rewrite align by exact L; now rewrite Z.min_r|]. rewrite Z.min_l by exact L. rewrite Z.sub_diag, Z.mul_1_r.
  unfold shl_align. destruct (e' - e) as [|p|p] eqn:D; cbn [fst]; try reflexivity. lia.
Qed.
Lemma binary_round_le m e B : e <= 0 -> 0 <= B < 2 ^ 53 -> Zpos m <= B * 2 ^ (- e) -> lef (binary_round prec emax false m e) B.
Proof.
  intros He HB HX. unfold binary_round. set (f := fexp _ _ _). pose proof (align_val m e f) as V. pose proof (align_snd m e f) as S. destruct (shl_align m e f) as [mz ez]. cbn [fst snd] in *. subst ez.
  apply round_le; [lia|lia|exact HB|]. cbn [lost]. rewrite V, Z.add_0_r. replace (- Z.min e f) with (- e + (e - Z.min e f)) by lia. rewrite Z.pow_add_r by lia.
  assert (0 < 2 ^ (e - Z.min e f)) by (apply Z.pow_pos_nonneg; lia). nia.
Qed.
Lemma f_of_Z_le n B : 0 <= n <= B -> B < 2 ^ 53 -> lef (f_of_Z n) B.
Proof. intros H HB. destruct n as [|p|p]; [cbn [lef f_of_Z]; lia| |lia]. apply binary_round_le; [lia|lia|]. change (2 ^ (- 0)) with 1. lia. Qed.
Lemma normalize_le z e B : 0 <= z -> e <= 0 -> 0 <= B < 2 ^ 53 -> z <= B * 2 ^ (- e) -> lef (binary_normalize prec emax z e false) B.
Proof. intros H He HB HX. destruct z as [|p|p]; [cbn [lef binary_normalize]; lia| |lia]. now apply binary_round_le. Qed.
Lemma lef_mono x B C : lef x B -> B <= C -> lef x C.
Proof. destruct x as [s|s| |s m e]; cbn [lef]; auto; [lia|]. intros (H1 & H2 & H3) L. split; [exact H1|]. split; [exact H2|]. assert (0 < 2 ^ (- e)) by (apply Z.pow_pos_nonneg; lia). nia. Qed.
Lemma lef_nonneg x B : lef x B -> 0 <= B.
Proof. destruct x as [s|s| |s m e]; cbn [lef]; auto; try tauto. intros (H1 & H2 & H3). assert (0 < 2 ^ (- e)) by (apply Z.pow_pos_nonneg; lia). nia. Qed.
Lemma fadd_le x y A B : lef x A -> lef y B -> A + B < 2 ^ 53 -> lef (fadd x y) (A + B).
Proof.
  intros X Y L. pose proof (lef_nonneg _ _ X) as NA. pose proof (lef_nonneg _ _ Y) as NB. unfold fadd. destruct x as [sx|sx| |sx mx ex], y as [sy|sy| |sy my ey]; cbn [lef] in X, Y; try tauto.
  - destruct sx, sy; cbn [SFadd lef Bool.eqb]; lia.
  - cbn [SFadd]. apply (lef_mono _ B); [exact Y|lia].
  - cbn [SFadd]. apply (lef_mono _ A); [exact X|lia].
  - destruct X as (-> & EX & X), Y as (-> & EY & Y). unfold SFadd. cbn [cond_Zopp]. set (ez := Z.min ex ey). rewrite !align by (unfold ez; lia).
    apply normalize_le; [|unfold ez; lia|lia|].
    + pose proof (Z.pow_nonneg 2 (ex - ez)). pose proof (Z.pow_nonneg 2 (ey - ez)). nia.
    + assert (P1 : 0 < 2 ^ (ex - ez)) by (apply Z.pow_pos_nonneg; unfold ez; lia). assert (P2 : 0 < 2 ^ (ey - ez)) by (apply Z.pow_pos_nonneg; unfold ez; lia).
      assert (Q1 : 2 ^ (- ez) = 2 ^ (- ex) * 2 ^ (ex - ez)) by (rewrite <- Z.pow_add_r by (unfold ez; lia); f_equal; lia).
      assert (Q2 : 2 ^ (- ez) = 2 ^ (- ey) * 2 ^ (ey - ez)) by (rewrite <- Z.pow_add_r by (unfold ez; lia); f_equal; lia).
      rewrite Z.mul_add_distr_r. rewrite Q1 at 1. rewrite Q2. nia.
Qed.
Lemma fmul_le x y A B : lef x A -> lef y B -> A * B < 2 ^ 53 -> lef (fmul x y) (A * B).
Proof.
  intros X Y L. pose proof (lef_nonneg _ _ X) as NA. pose proof (lef_nonneg _ _ Y) as NB. unfold fmul. destruct x as [sx|sx| |sx mx ex], y as [sy|sy| |sy my ey]; cbn [lef] in X, Y; try tauto; try (cbn [SFmul lef]; nia).
  destruct X as (-> & EX & X), Y as (-> & EY & Y). unfold SFmul. cbn [xorb]. apply round_le; [lia|lia|nia|]. cbn [lost]. replace (- (ex + ey)) with (- ex + - ey) by lia. rewrite Z.pow_add_r by lia.
  rewrite Z.add_0_r, Pos2Z.inj_mul. assert (P1 : 0 < 2 ^ (- ex)) by (apply Z.pow_pos_nonneg; lia). assert (P2 : 0 < 2 ^ (- ey)) by (apply Z.pow_pos_nonneg; lia).
  replace (A * B * (2 ^ (- ex) * 2 ^ (- ey))) with ((A * 2 ^ (- ex)) * (B * 2 ^ (- ey))) by ring. apply Z.mul_le_mono_nonneg; lia.
Qed.
Lemma fabs_le x B : lef x B -> lef (fabs x) B.
Proof. destruct x as [s|s| |s m e]; cbn; auto. intros (H1 & H2). auto. Qed.
Lemma trunc_le m e B : e <= 0 -> Zpos m <= B * 2 ^ (- e) -> 0 <= trunc_mag m e <= B.
Proof.
  intros He HX. split; [apply trunc_nonneg|]. unfold trunc_mag. destruct (0 <=? e) eqn:E; [assert (e = 0) by lia; subst e; cbn in *; lia|].
  assert (0 < 2 ^ (- e)) by (apply Z.pow_pos_nonneg; lia). apply Z.div_le_upper_bound; lia.
Qed.
Lemma ffloor_le x B : B < 2 ^ 53 -> lef x B -> lef (ffloor x) B.
Proof. intros L. destruct x as [s|s| |s m e]; cbn [lef ffloor]; auto. intros (-> & H2 & H3). destruct (0 <=? e) eqn:E; [cbn [lef]; auto|]. apply f_of_Z_le; [|exact L]. now apply trunc_le. Qed.
Lemma fround_le x B : B < 2 ^ 53 -> lef x B -> lef (fround x) B.
Proof.
  intros L. destruct x as [s|s| |s m e]; cbn [lef fround]; auto. intros (-> & H2 & H3). destruct (0 <=? e) eqn:E; [cbn [lef]; auto|].
  assert (P : 0 < 2 ^ (- e)) by (apply Z.pow_pos_nonneg; lia). apply f_of_Z_le; [|exact L]. split; [apply Z.div_pos; lia|].
  assert ((2 * Zpos m + 2 ^ (- e)) / (2 * 2 ^ (- e)) < B + 1); [|lia]. apply Z.div_lt_upper_bound; lia.
Qed.
Lemma frac_le x B : B < 2 ^ 53 -> lef x B -> lef (fsub x (ffloor x)) 1.
Proof.
  intros L. destruct x as [s|s| |s m e]; cbn [lef ffloor]; try tauto; [intros _; destruct s; cbn; lia|]. intros (-> & H2 & H3). destruct (0 <=? e) eqn:E.
  - unfold fsub, SFsub. cbn [cond_Zopp]. rewrite Z.sub_diag. cbn. lia.
  - assert (P : 0 < 2 ^ (- e)) by (apply Z.pow_pos_nonneg; lia). unfold trunc_mag. rewrite E. set (q := Zpos m / 2 ^ (- e)).
    assert (Q : 0 <= q /\ 0 <= Zpos m - q * 2 ^ (- e) < 2 ^ (- e)).
    { split; [apply Z.div_pos; lia|]. unfold q. pose proof (Z_mod_lt (Zpos m) (2 ^ (- e))). rewrite Z.mod_eq in H by lia. lia. }
    assert (HQB : 0 <= q <= B) by (split; [lia|]; unfold q; apply Z.div_le_upper_bound; lia).
    rewrite f_of_Z_int by lia. unfold fi. destruct (q =? 0) eqn:Q0.
    + unfold fsub, SFsub. cbn [lef]. split; [reflexivity|]. split; [exact H2|]. assert (q = 0) by lia. lia.
    + assert (HQ : 0 < q < 2 ^ 53) by lia. destruct (canon_pos q HQ) as (LQ & _ & _).
      unfold fsub, canon, SFsub. cbn [cond_Zopp]. set (ez := Z.min e (Z.log2 q - 52)). rewrite !align by (unfold ez; lia). rewrite canon_value by (unfold ez; assumption || lia).
      assert (HP : 2 ^ (- ez) = 2 ^ (- e) * 2 ^ (e - ez)) by (rewrite <- Z.pow_add_r by (unfold ez; lia); f_equal; lia). assert (P2 : 0 < 2 ^ (e - ez)) by (apply Z.pow_pos_nonneg; unfold ez; lia).
      apply normalize_le; [|unfold ez; lia|lia|]; rewrite HP; nia.
Qed.
Lemma int_le x B : B < 2 ^ 53 -> lef x B -> 0 <= int_of_f x <= B.
Proof.
  intros L. destruct x as [s|s| |s m e]; cbn [lef int_of_f]; try tauto; [lia|]. intros (-> & H2 & H3). pose proof (trunc_le m e B H2 H3) as T.
  replace ((min_int64 <=? trunc_mag m e) && (trunc_mag m e <=? 9223372036854775807)) with true by (unfold min_int64; lia). exact T.
Qed.
Lemma new_location_lost d k : 0 <= k -> lost (new_location d k) <= k.
Proof.
  intros H. unfold new_location, new_location_even, new_location_odd. destruct (Z.even d); destruct k as [|p|p]; cbn [Z.eqb]; try lia; try (cbn; lia).
Qed.
Lemma f_of_ratio_le n d B : 0 <= n -> 0 <= B < 2 ^ 53 -> n <= B * Zpos d -> lef (f_of_ratio n d) B.
Proof.
  intros H HB HX. unfold f_of_ratio. destruct n as [|p|p]; [cbn; lia| |lia]. unfold SFdiv, SFdiv_core_binary.
  set (e' := Z.min _ _). assert (HE : e' <= 0) by (unfold e'; lia). set (m' := match _ with Z0 => _ | Zpos _ => _ | Zneg _ => _ end).
  assert (HM : m' = Zpos p * 2 ^ (- e')). { unfold m'. destruct (0 - 0 - e') as [|q|q] eqn:D; [replace e' with 0 by lia; cbn; lia| |lia]. rewrite Z.shiftl_mul_pow2 by lia. f_equal. f_equal. lia. }
  clearbody e' m'. pose proof (Z_div_mod m' (Zpos d) ltac:(lia)) as DM. destruct (Z.div_eucl m' (Zpos d)) as [q r]. destruct DM as [D1 D2]. cbn [xorb].
  assert (P : 0 < 2 ^ (- e')) by (apply Z.pow_pos_nonneg; lia). pose proof (new_location_lost (Zpos d) r ltac:(lia)) as NL.
  assert (NL1 : lost (new_location (Zpos d) r) <= 1) by (destruct (new_location (Zpos d) r); cbn; lia).
  apply round_le; [nia|exact HE|exact HB|]. assert (Zpos d * q + r <= B * 2 ^ (- e') * Zpos d) by nia. set (X := B * 2 ^ (- e')) in *. clearbody X.
  destruct (Z.eq_dec r 0) as [-> | NR]; [nia|]. assert (q < X) by nia. lia.
Qed.
