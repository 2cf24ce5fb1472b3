(** What replacing [\s{2,}] by a space does *)
From Coq Require Import ZifyBool.
From Verif Require Import GoBase Regex Utf8Facts RegexFacts RegexFacts2 RegexFacts3 RegexFacts5 Strutil Env Language.

(** the white space of [\s] *)
Definition wb (c : Z) : bool := ((9 <=? c) && (c <=? 10)) || ((12 <=? c) && (c <=? 13)) || (c =? 32).
Fixpoint lead (s : str) : nat := match s with [] => 0 | c :: t => if wb c then S (lead t) else 0 end.
(** the first run of at least two: where it begins, its length *)
Fixpoint dw (s : str) : option (nat * nat) :=
  match s with
  | [] => None
  | c :: t => if wb c && Nat.leb 1 (lead t) then Some (0%nat, S (lead t)) else option_map (fun p => (S (fst p), snd p)) (dw t)
  end.
Fixpoint collapse (s : str) : str :=
  match s with
  | [] => []
  | c :: t => if wb c && Nat.leb 1 (lead t) then collapse t else c :: collapse t
  end.
Lemma collapse_run : forall s, Forall (fun c => wb c = true -> c = 32) s -> (1 <= lead s)%nat -> collapse s = 32 :: collapse (skipn (lead s) s).
Proof.
  induction s as [|c t IH]; intros HF HL; cbn [lead] in HL |- *; [lia|]. inversion_clear HF as [|? ? H1 H2]. cbn [collapse]. destruct (wb c) eqn:WC; [|lia]. cbn [andb]. destruct (Nat.leb_spec 1 (lead t)) as [L|L].
  - cbn [skipn]. now apply IH.
  - replace (lead t) with 0%nat by lia. cbn [skipn]. now rewrite (H1 eq_refl).
Qed.
Lemma collapse_none : forall s, dw s = None -> collapse s = s.
Proof. induction s as [|c t IH]; cbn [dw collapse]; [reflexivity|]. destruct (wb c && _); [intros H; discriminate H|]. destruct (dw t); [intros H; discriminate H|]. intros _. now rewrite IH. Qed.
Lemma collapse_some : forall s i n, Forall (fun c => wb c = true -> c = 32) s -> dw s = Some (i, n) -> collapse s = firstn i s ++ 32 :: collapse (skipn (i + n) s) /\ (i + n <= length s)%nat /\ (2 <= n)%nat.
Proof.
  assert (LL : forall t, (lead t <= length t)%nat) by (induction t as [|c t IH]; cbn [lead length]; [lia|]; destruct (wb c); lia).
  induction s as [|c t IH]; intros i n HF; [intros H; discriminate H|]. intros H. cbn [dw] in H. cbn [collapse]. inversion_clear HF as [|? ? H1 H2]. destruct (wb c && Nat.leb 1 (lead t)) eqn:W.
  - assert (i = 0%nat) by congruence. assert (n = S (lead t)) by congruence. subst i n. apply andb_true_iff in W as [W1 W2]. apply Nat.leb_le in W2. cbn [firstn app Nat.add skipn length]. specialize (LL t). split; [|lia]. now apply collapse_run.
  - destruct (dw t) as [[i' n']|]; [|discriminate H]. cbn [option_map fst snd] in H. assert (i = S i') by congruence. assert (n = n') by congruence. subst i n. destruct (IH i' n' H2 eq_refl) as (X1 & X2 & X3). cbn [firstn app Nat.add skipn length]. rewrite X1. split; [reflexivity|lia].
Qed.

(** ** The engine *)
Lemma rune_bytes s : s <> [] -> (fst (decode_rune s) < 128 -> exists t, s = fst (decode_rune s) :: t /\ snd (decode_rune s) = 1%nat) /\
  (128 <= fst (decode_rune s) -> Forall (fun c => 128 <= c) (firstn (snd (decode_rune s)) s)).
Proof.
  intros Hs. split.
  - intros L. destruct s as [|b s]; [congruence|]. destruct (Z.ltb_spec b 128) as [LB|GB].
    + rewrite rune1 by lia. cbn [fst snd]. now exists s.
    + exfalso. revert L. cbn [decode_rune]. assert (b <? 128 = false) as -> by lia. unfold rune_error, cont.
      repeat match goal with |- context [if ?x then _ else _] => destruct x eqn:? | |- context [match ?l with [] => _ | _ :: _ => _ end] => destruct l end; cbn [fst]; lia.
  - intros G. destruct s as [|b s]; [congruence|]. destruct (Z.ltb_spec b 128) as [LB|GB]; [rewrite rune1 in G by lia; cbn [fst] in G; lia|].
    clear G. cbn [decode_rune]. assert (b <? 128 = false) as -> by lia. unfold cont.
    repeat match goal with |- context [if ?x then _ else _] => destruct x eqn:? | |- context [match ?l with [] => _ | _ :: _ => _ end] => destruct l end; cbn [fst snd firstn]; repeat constructor; lia.
Qed.
Section U.
Lemma cat_step V a b s k : mtch V (Cat a b) s k = mtch V a s (fun s1 => mtch V b s1 k). Proof. reflexivity. Qed.
Variable U : uni.
Definition ws_cls : re := match rx_ast rxSpaces with Cat (Cat a _) _ => a | r => r end.
Lemma spaces_ast : rx_ast rxSpaces = Cat (Cat ws_cls ws_cls) (Star true ws_cls).
Proof. reflexivity. Qed.
Lemma ws_step c t pr p cs k : mtch U ws_cls {| m_prev := pr; m_rest := c :: t; m_pos := p; m_caps := cs |} k = if wb c then k {| m_prev := c; m_rest := t; m_pos := (p + 1)%nat; m_caps := cs |} else None.
Proof.
  unfold ws_cls. cbn [rx_ast rxSpaces mtch]. unfold step. cbn [m_rest m_pos m_caps]. pose proof (rune_bytes (c :: t) ltac:(discriminate)) as [R1 R2]. destruct (decode_rune (c :: t)) as [r w] eqn:D. cbn [fst snd] in *.
  assert (CH : forall x, cls_has U false {| cl_neg := false; cl_items := [IRange 9 10; IRange 12 13; IRange 32 32] |} x = wb x).
  { intros x. unfold cls_has. cbn [cl_neg cl_items existsb item_has]. rewrite xorb_false_l. unfold wb. lia. }
  rewrite CH. destruct (Z.ltb_spec r 128) as [L|G].
  - destruct (R1 L) as (t' & E1 & ->). assert (r = c) by congruence. subst r. reflexivity.
  - assert (wb r = false) as -> by (unfold wb; lia). assert (128 <= c) as HC by (destruct (decode_rune_width (c :: t) ltac:(discriminate)) as [W _]; rewrite D in W; cbn [snd] in W; specialize (R2 G); destruct w as [|w]; [lia|]; cbn [firstn] in R2; now inversion R2). assert (wb c = false) as -> by (unfold wb; lia). reflexivity.
Qed.
Lemma ws_nil pr p cs k : mtch U ws_cls {| m_prev := pr; m_rest := []; m_pos := p; m_caps := cs |} k = None.
Proof. reflexivity. Qed.
Lemma ws_star : forall t n pr p cs, (length t < n)%nat -> exists q, star_loop U true ws_cls Some n {| m_prev := pr; m_rest := t; m_pos := p; m_caps := cs |} = Some {| m_prev := q; m_rest := skipn (lead t) t; m_pos := p + lead t; m_caps := cs |}.
Proof.
  induction t as [|c t IH]; intros n pr p cs HN; (destruct n as [|n]; [cbn [length] in HN; lia|]); rewrite star_loop_S.
  - rewrite ws_nil. cbn [lead skipn]. rewrite Nat.add_0_r. now exists pr.
  - rewrite ws_step. cbn [lead]. destruct (wb c).
    + cbn [m_pos]. assert (Nat.ltb p (p + 1) = true) as -> by (apply Nat.ltb_lt; lia). destruct (IH n c (p + 1)%nat cs ltac:(cbn [length] in HN; lia)) as (q & ->). exists q. cbn [skipn]. do 2 f_equal. lia.
    + cbn [skipn]. rewrite Nat.add_0_r. now exists pr.
Qed.
Lemma spaces_here pr p t : match_here U (rx_ast rxSpaces) {| m_prev := pr; m_rest := t; m_pos := p; m_caps := [] |} = if Nat.leb 2 (lead t) then Some {| mt_start := p; mt_end := p + lead t; mt_caps := [] |} else None.
Proof.
  unfold match_here. rewrite spaces_ast, !cat_step. destruct t as [|c t]; [rewrite ws_nil; reflexivity|]. rewrite ws_step. cbn [lead]. destruct (wb c); [|reflexivity].
  destruct t as [|d t]; [rewrite ws_nil; reflexivity|]. rewrite ws_step. cbn [lead]. destruct (wb d); [|reflexivity]. rewrite mtch_star. cbn [m_rest]. destruct (ws_star t (S (length t)) d (p + 1 + 1)%nat [] ltac:(lia)) as (q & ->). cbn [Nat.leb m_pos m_caps]. do 2 f_equal. lia.
Qed.
(** positions between characters *)
Inductive bnd : str -> nat -> Prop :=
| bnd0 s : bnd s 0
| bndS s k : s <> [] -> bnd (skipn (snd (decode_rune s)) s) k -> bnd s (snd (decode_rune s) + k).
Lemma bnd_add s j k : bnd s j -> bnd (skipn j s) k -> bnd s (j + k).
Proof.
  intros H. revert k. induction H as [s|s j Hs H IH]; intros k HK; [exact HK|]. rewrite <- Nat.add_assoc. constructor; [exact Hs|]. apply IH. now rewrite skipn_skipn.
Qed.
Lemma bnd_white c s k : wb c = true -> bnd s k -> bnd (c :: s) (S k).
Proof. intros W H. pose proof (bndS (c :: s) k ltac:(discriminate)) as X. rewrite rune1 in X by (unfold wb in W; lia). cbn [snd skipn] in X. now apply X. Qed.
Lemma bnd_lead s : bnd s (lead s).
Proof. induction s as [|c s IH]; cbn [lead]; [constructor|]. destruct (wb c) eqn:W; [now apply bnd_white|constructor]. Qed.
Lemma drop_states s k : bnd s k -> forall prev pos, exists prev', drop_while (fun x => Nat.ltb (m_pos x) (pos + k)) (states_from prev pos (decode s) s) = states_from prev' (pos + k) (decode (skipn k s)) (skipn k s).
Proof.
  induction 1 as [s|s k Hs H IH]; intros prev pos.
  - exists prev. rewrite Nat.add_0_r. cbn [skipn]. destruct (decode s) as [|[r w] l]; cbn [states_from drop_while m_pos]; rewrite Nat.ltb_irrefl; reflexivity.
  - pose proof (decode_rune_width s Hs) as [W _]. rewrite decode_unfold by exact Hs. destruct (decode_rune s) as [r w] eqn:D. cbn [snd] in *. cbn [states_from drop_while m_pos]. assert (Nat.ltb pos (pos + (w + k)) = true) as -> by (apply Nat.ltb_lt; lia).
    destruct (IH r (pos + w)%nat) as (prev' & X). rewrite Nat.add_assoc. rewrite X. exists prev'. now rewrite skipn_skipn.
Qed.
Lemma dw_skip s : s <> [] -> Nat.leb 2 (lead s) = false -> dw s = option_map (fun p => ((snd (decode_rune s) + fst p)%nat, snd p)) (dw (skipn (snd (decode_rune s)) s)).
Proof.
  intros Hs NL. destruct (rune_bytes s Hs) as [R1 R2]. pose proof (decode_rune_width s Hs) as [W _]. destruct (decode_rune s) as [r w]. cbn [fst snd] in *. destruct (Z.ltb_spec r 128) as [L|G].
  - destruct (R1 L) as (t & -> & ->). cbn [skipn dw]. cbn [lead] in NL. destruct (wb r); cbn [andb]; [|destruct (dw t) as [[]|]; reflexivity]. assert (Nat.leb 1 (lead t) = false) as -> by lia. destruct (dw t) as [[]|]; reflexivity.
  - specialize (R2 G). clear R1 NL Hs. revert s W R2. induction w as [|w IH]; intros s W R2; [lia|]. destruct s as [|c s]; [cbn [length] in W; lia|]. cbn [firstn] in R2. inversion_clear R2 as [|? ? C1 C2]. cbn [skipn dw]. assert (wb c = false) as -> by (unfold wb; lia). cbn [andb]. destruct w as [|w]; [cbn [skipn]; destruct (dw s) as [[]|]; reflexivity|].
    rewrite (IH s ltac:(cbn [length] in W; lia) C2). destruct (dw (skipn (S w) s)) as [[]|]; reflexivity.
Qed.
Lemma spaces_first : forall s prev pos, first_match U (rx_ast rxSpaces) (states_from prev pos (decode s) s) = option_map (fun p => {| mt_start := pos + fst p; mt_end := pos + fst p + snd p; mt_caps := [] |}) (dw s).
Proof.
  intros s. pattern s. apply rune_ind; clear s; [reflexivity|]. intros s Hs IH prev pos. rewrite decode_unfold by exact Hs. pose proof (dw_skip s Hs) as DS. destruct (decode_rune s) as [r w]. cbn [snd] in *. cbn [states_from first_match]. rewrite spaces_here. destruct (Nat.leb 2 (lead s)) eqn:L.
  - destruct s as [|c t]; [congruence|]. cbn [lead] in L. cbn [dw lead]. destruct (wb c); [|discriminate L]. cbn [andb]. assert (Nat.leb 1 (lead t) = true) as -> by lia. cbn [option_map fst snd]. rewrite Nat.add_0_r. reflexivity.
  - rewrite IH, (DS eq_refl). destruct (dw (skipn w s)) as [[i n]|]; [|reflexivity]. cbn [option_map fst snd]. do 2 f_equal; lia.
Qed.
Lemma dw_bnd : forall s i n, dw s = Some (i, n) -> bnd s i /\ lead (skipn i s) = n /\ (2 <= n)%nat.
Proof.
  intros s. pattern s. apply rune_ind; clear s; [intros i n H; discriminate H|]. intros s Hs IH i n H. destruct (Nat.leb 2 (lead s)) eqn:L.
  - destruct s as [|c t]; [congruence|]. cbn [lead] in L. cbn [dw] in H. destruct (wb c) eqn:W; [|discriminate L]. cbn [andb] in H. revert H. assert (Nat.leb 1 (lead t) = true) as -> by lia. intros H. assert (i = 0%nat) by congruence. assert (n = S (lead t)) by congruence. subst i n. cbn [skipn lead]. rewrite W. split; [constructor|]. split; [reflexivity|lia].
  - rewrite dw_skip in H by assumption. destruct (dw _) as [[i' n']|] eqn:D; [|discriminate H]. cbn [option_map fst snd] in H. assert (EI : i = (snd (decode_rune s) + i')%nat) by congruence. assert (n = n') by congruence. subst i n. destruct (IH _ _ eq_refl) as (B1 & B2 & B3). split; [now constructor|]. rewrite skipn_skipn in B2. auto.
Qed.
Lemma bnd_width s i : bnd s i -> (0 < i)%nat -> (width_at s 0 <= i)%nat.
Proof. intros H HI. inversion H as [|? k Hs]; subst; [lia|]. unfold width_at. cbn [skipn]. destruct s; [congruence|]. lia. Qed.
Lemma spaces_loop s : Forall (fun c => wb c = true -> c = 32) s -> forall fuel le, bnd s le -> (le <= length s)%nat -> (length s - le < fuel)%nat ->
  replace_loop U fuel (rx_ast rxSpaces) (states s) s le le (fun _ => [32]) = collapse (skipn le s).
Proof.
  intros HF. induction fuel as [|f IH]; intros le HB HL HN; [lia|]. cbn [replace_loop]. assert (Nat.ltb (length s) le = false) as -> by (apply Nat.ltb_ge; exact HL).
  unfold Regex.exec_from. destruct (drop_states s le HB (-1) 0%nat) as (prev & DS). cbn [Nat.add] in DS. unfold states at 1. rewrite DS, spaces_first.
  assert (HF' : Forall (fun c => wb c = true -> c = 32) (skipn le s)) by (rewrite <- (firstn_skipn le s) in HF; now apply Forall_app in HF as [_ HF]).
  destruct (dw (skipn le s)) as [[i n]|] eqn:D; cbn [option_map fst snd]; [|now rewrite collapse_none].
  destruct (collapse_some _ i n HF' D) as (X1 & X2 & X3). destruct (dw_bnd _ _ _ D) as (B1 & B2 & _). cbn [mt_start mt_end]. rewrite skipn_length in X2.
  assert (Nat.ltb le (le + i + n) = true) as -> by (apply Nat.ltb_lt; lia). cbn [orb].
  assert (WD : (width_at s le <= i + n)%nat).
  { destruct i as [|i].
    - unfold width_at. destruct (skipn le s) as [|c t] eqn:ES; [discriminate D|]. cbn [dw] in D. destruct (wb c) eqn:W; cbn [andb] in D; [|destruct (dw t) as [[]|]; discriminate D]. rewrite rune1 by (unfold wb in W; lia). cbn [snd]. lia.
    - pose proof (bnd_width (skipn le s) (S i) B1 ltac:(lia)) as BW. unfold width_at in *. cbn [skipn] in BW. lia. }
  assert (Nat.ltb (le + i + n) (le + width_at s le) = false) as -> by (apply Nat.ltb_ge; lia). assert (Nat.ltb (le + i + n) (le + 1) = false) as -> by (apply Nat.ltb_ge; lia).
  rewrite IH.
  - rewrite X1. unfold slice. replace (le + i - le)%nat with i by lia. rewrite skipn_skipn. now rewrite Nat.add_assoc.
  - rewrite <- Nat.add_assoc. apply bnd_add; [exact HB|]. apply bnd_add; [exact B1|]. rewrite <- B2. apply bnd_lead.
  - lia.
  - lia.
Qed.
Lemma spaces_collapse s : Forall (fun c => wb c = true -> c = 32) s -> replace_all_string U rxSpaces s (lit " ") = collapse s.
Proof. intros HF. unfold replace_all_string, replace_all_fn. apply (spaces_loop s HF _ 0%nat); [constructor|lia|lia]. Qed.
End U.
