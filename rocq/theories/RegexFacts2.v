(** Where matches lie: inside the text, at least as long as the pattern demands *)
From Coq Require Import ZifyBool.
From Verif Require Import GoBase Utf8Facts Regex RegexFacts.

Lemma skipn_skipn {A} (n m : nat) (l : list A) : skipn n (skipn m l) = skipn (m + n) l.
Proof. revert l. induction m as [|m IH]; intros l; cbn [skipn plus]; [reflexivity|]. destruct l; [now rewrite skipn_nil | apply IH]. Qed.

Fixpoint rmin (r : re) : nat :=
  match r with
  | Chr _ _ | Cls _ _ | Dot => 1
  | Cat a b => rmin a + rmin b
  | Alt a b => Nat.min (rmin a) (rmin b)
  | Grp _ a => rmin a
  | _ => 0
  end.

Record moved (s s' : mst) (w : nat) : Prop := {
  mv_pos : m_pos s' = (m_pos s + w)%nat;
  mv_rest : m_rest s' = skipn w (m_rest s);
  mv_len : (w <= length (m_rest s))%nat;
  mv_caps : exists new, m_caps s' = (new ++ m_caps s)%list /\ Forall (fun c => (m_pos s <= fst (snd c) <= snd (snd c) /\ snd (snd c) <= m_pos s')%nat) new }.
Lemma moved_refl s : moved s s 0.
Proof. constructor; cbn; try lia; [reflexivity|]. now exists []. Qed.
Lemma moved_trans a b c v w : moved a b v -> moved b c w -> moved a c (v + w).
Proof.
  intros [A1 A2 A3 (na & A4 & A5)] [B1 B2 B3 (nb & B4 & B5)]. rewrite A2, skipn_length in B3. constructor; [lia| |lia|].
  - rewrite B2, A2, skipn_skipn. first [reflexivity | f_equal; lia].
  - exists (nb ++ na)%list. rewrite B4, A4, app_assoc. split; [reflexivity|]. apply Forall_app. split; eapply Forall_impl; try eassumption; cbn; intros; lia.
Qed.

Section B.
Variable U : uni.
Lemma mtch_moved r : forall s k e, mtch U r s k = Some e -> exists s' w, k s' = Some e /\ moved s s' w /\ (rmin r <= w)%nat.
Proof.
  assert (ST : forall s f k e, step s f k = Some e -> exists s' w, k s' = Some e /\ moved s s' w /\ (1 <= w)%nat).
  { intros s f k e. unfold step. destruct (m_rest s) as [|c l] eqn:Er; [discriminate|]. pose proof (decode_rune_width (c :: l)) as [Hw _]; [discriminate|].
    destruct (decode_rune (c :: l)) as [x w]. cbn [snd] in Hw. destruct (f x); [|discriminate]. intros H. eexists _, w. split; [exact H|]. split; [|lia].
    constructor; cbn [m_pos m_rest m_caps]; rewrite ?Er; try lia; [reflexivity|]. now exists []. }
  induction r as [|ci c|ci c| |a IHa b IHb|a IHa b IHb|g a IHa|n a IHa| | |neg]; intros s k e.
  7: { rewrite mtch_star. generalize (S (length (m_rest s))) as n. intros n. revert s e. cbn [rmin]. induction n as [|n IH]; intros s e.
    { intros H. exists s, 0%nat. split; [exact H|]. split; [apply moved_refl | lia]. }
    rewrite star_loop_S.
    assert (HL : forall e, mtch U a s (fun s1 => if Nat.ltb (m_pos s) (m_pos s1) then star_loop U g a k n s1 else None) = Some e ->
      exists s' w, k s' = Some e /\ moved s s' w /\ (0 <= w)%nat).
    { intros e0 H. apply IHa in H as (s1 & w & H & M & _). destruct (Nat.ltb (m_pos s) (m_pos s1)); [|discriminate].
      apply IH in H as (s2 & v & H & M2 & _). exists s2, (w + v)%nat. split; [exact H|]. split; [now apply (moved_trans s s1 s2) | lia]. }
    assert (HK : forall e, k s = Some e -> exists s' w, k s' = Some e /\ moved s s' w /\ (0 <= w)%nat).
    { intros e0 H. exists s, 0%nat. split; [exact H|]. split; [apply moved_refl | lia]. }
    destruct g.
    - destruct (mtch U a s _) as [x|]; [intros [= <-]; now apply HL | apply HK].
    - destruct (k s) as [x|] eqn:Ek; [intros [= <-]; exists s, 0%nat; split; [exact Ek|]; split; [apply moved_refl | lia] | apply HL]. }
  all: cbn [mtch rmin].
  - intros H. exists s, 0%nat. split; [exact H|]. split; [apply moved_refl | lia].
  - apply ST.
  - apply ST.
  - apply ST.
  - intros H. apply IHa in H as (s1 & w & H & M & L). apply IHb in H as (s2 & v & H & M2 & L2). exists s2, (w + v)%nat. split; [exact H|]. split; [now apply (moved_trans s s1 s2) | lia].
  - destruct (mtch U a s k) as [x|] eqn:Ea.
    + intros [= <-]. apply IHa in Ea as (s1 & w & H & M & L). exists s1, w. split; [exact H|]. split; [exact M | lia].
    + intros H. apply IHb in H as (s1 & w & H & M & L). exists s1, w. split; [exact H|]. split; [exact M | lia].
  - intros H. apply IHa in H as (s1 & w & H & M & L). eexists _, w. split; [exact H|]. split; [|exact L].
    destruct M as [M1 M2 M3 (nw & M4 & M5)]. constructor; cbn [m_pos m_rest m_caps]; auto.
    exists ((n, (m_pos s, m_pos s1)) :: nw). rewrite M4. split; [reflexivity|]. constructor; cbn; [lia | exact M5].
  - destruct (m_pos s); [|discriminate]. intros H. exists s, 0%nat. split; [exact H|]. split; [apply moved_refl | lia].
  - destruct (m_rest s); [|discriminate]. intros H. exists s, 0%nat. split; [exact H|]. split; [apply moved_refl | lia].
  - destruct (xorb neg (at_wordb s)); [|discriminate]. intros H. exists s, 0%nat. split; [exact H|]. split; [apply moved_refl | lia].
Qed.

(** the states of a text *)
Definition in_text (text : str) (s : mst) : Prop := m_rest s = skipn (m_pos s) text /\ (m_pos s <= length text)%nat /\ m_caps s = [].
Lemma states_from_in text : forall ws prev pos s, (pos <= length text)%nat -> s = skipn pos text -> decode s = ws ->
  Forall (in_text text) (states_from prev pos ws s).
Proof.
  induction ws as [|[r w] ws IH]; intros prev pos s Hp Hs Hd; cbn [states_from]; constructor; try (repeat split; cbn; congruence || lia); try constructor.
  destruct s as [|c s']; [discriminate|]. rewrite decode_unfold in Hd by discriminate. remember (decode_rune (c :: s')) as dr eqn:Hr in *. injection Hd as -> Hd. symmetry in Hr.
  pose proof (decode_rune_width (c :: s')) as [Hw _]; [discriminate|]. rewrite Hr in *. cbn [snd] in *.
  pose proof (f_equal (@length Z) Hs) as HL. rewrite skipn_length in HL.
  apply IH; [lia | | exact Hd]. rewrite Hs, skipn_skipn. first [reflexivity | f_equal; lia].
Qed.
Lemma states_in text : Forall (in_text text) (states text).
Proof. apply states_from_in; [lia | reflexivity | reflexivity]. Qed.

Record placed (r : re) (text : str) (m : match_) : Prop := {
  pl_le : (mt_start m + rmin r <= mt_end m)%nat;
  pl_end : (mt_end m <= length text)%nat;
  pl_caps : Forall (fun c => (mt_start m <= fst (snd c) <= snd (snd c) /\ snd (snd c) <= mt_end m)%nat) (mt_caps m) }.
Lemma first_match_placed r text l m : Forall (in_text text) l -> first_match U r l = Some m -> placed r text m.
Proof.
  intros H. induction H as [|s l Hs Hl IH]; cbn [first_match]; [discriminate|]. destruct (match_here U r s) as [m'|] eqn:E; [|exact IH].
  intros [= ->]. unfold match_here in E. destruct (mtch U r s Some) as [e|] eqn:Em; [|discriminate]. injection E as <-.
  apply mtch_moved in Em as (s' & w & [= ->] & [M1 M2 M3 (nw & M4 & M5)] & L). destruct Hs as (H1 & H2 & H3). rewrite H1, skipn_length in M3.
  rewrite H3, app_nil_r in M4. constructor; cbn [mt_start mt_end mt_caps]; [lia|lia|]. now rewrite M4.
Qed.
Lemma find_placed r s m : find U r s = Some m -> placed (rx_ast r) s m.
Proof. apply first_match_placed, states_in. Qed.
End B.
