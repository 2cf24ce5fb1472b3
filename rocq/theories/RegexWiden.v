(** Widening a pattern that names particular digits to one that does not distinguish digits: what the widened pattern cannot match, the pattern cannot match either. *)
From Coq Require Import ZifyBool.
From Verif Require Import GoBase SMap Regex RegexFacts RegexFacts2 RegexFacts3 GoTime Setting Strutil Digit Utf8Facts SpaceFacts Timezone Env Language Parser AbsFacts2 NumericFacts NumTranslate.

Definition any_char : re := Cls false {| cl_neg := true; cl_items := [] |}.
Section N.
(** characters with the same [nrm] are not to be distinguished *)
Variable nrm : Z -> Z.
Fixpoint widen (r : re) : re :=
  match r with
  | Chr ci c => if invb nrm (chr_is uni_min ci c) then r else any_char
  | Cls ci k => if invb nrm (cls_has uni_min ci k) then r else any_char
  | Cat a b => Cat (widen a) (widen b)
  | Alt a b => Alt (widen a) (widen b)
  | Star g a => Star g (widen a)
  | Grp n a => Grp n (widen a)
  | _ => r
  end.
Definition widened (r : regex) : regex := {| rx_ast := widen (rx_ast r); rx_ngroups := rx_ngroups r |}.
Section W.
Variable U : uni.
Definition some {A} (o : option A) : Prop := o <> None.
Lemma step_mono s (f g : Z -> bool) k k' : asc (m_rest s) -> (forall c, 0 <= c < 128 -> f c = true -> g c = true) -> (forall s', asc (m_rest s') -> some (k s') -> some (k' s')) -> some (step s f k) -> some (step s g k').
Proof.
  intros HA HF HK. unfold step. destruct (m_rest s) as [|c l] eqn:Er; [intros X; exact X|]. inversion HA as [|? ? Hc HL]; subst. rewrite rune1 by lia. destruct (f c) eqn:Fc; [|intros X; exfalso; now apply X].
  rewrite (HF c Hc Fc). apply HK. exact HL.
Qed.
Lemma mtch_mono r : forall s k k', asc (m_rest s) -> (forall s', asc (m_rest s') -> some (k s') -> some (k' s')) -> some (mtch U r s k) -> some (mtch U (widen r) s k').
Proof.
  induction r as [|ci c|ci c| |a IHa b IHb|a IHa b IHb|g a IHa|n a IHa| | |neg]; intros s k k' HA HK.
  - apply HK. exact HA.
  - cbn [widen]. destruct (invb nrm _).
    + cbn [mtch]. apply step_mono; auto.
    + unfold any_char. cbn [mtch]. apply step_mono; auto.
  - cbn [widen]. destruct (invb nrm _).
    + cbn [mtch]. apply step_mono; auto.
    + unfold any_char. cbn [mtch]. apply step_mono; auto.
  - cbn [widen mtch]. apply step_mono; auto.
  - cbn [widen mtch]. apply IHa; [exact HA|]. intros s' HS. now apply IHb.
  - cbn [widen mtch]. intros H. destruct (mtch U a s k) eqn:MA.
    + specialize (IHa s k k' HA HK). rewrite MA in IHa. specialize (IHa ltac:(discriminate)). destruct (mtch U (widen a) s k'); [discriminate|exfalso; now apply IHa].
    + specialize (IHb s k k' HA HK H). destruct (mtch U (widen a) s k'); [discriminate|exact IHb].
  - cbn [widen]. rewrite !mtch_star. generalize (S (length (m_rest s))) as n. intros n. revert s HA. induction n as [|n IH]; intros s HA.
    + cbn [star_loop]. now apply HK.
    + rewrite !star_loop_S.
      assert (M : some (mtch U a s (fun s' => if Nat.ltb (m_pos s) (m_pos s') then star_loop U g a k n s' else None)) -> some (mtch U (widen a) s (fun s' => if Nat.ltb (m_pos s) (m_pos s') then star_loop U g (widen a) k' n s' else None))).
      { apply IHa; [exact HA|]. intros s' HS. destruct (Nat.ltb _ _); [now apply IH|intros X; exact X]. }
      destruct g.
      * destruct (mtch U a s _) eqn:MA.
        { intros _. specialize (M ltac:(discriminate)). match goal with |- some (match ?x with _ => _ end) => destruct x; [discriminate|exfalso; now apply M] end. }
        { intros H. match goal with |- some (match ?x with _ => _ end) => destruct x; [discriminate|now apply HK] end. }
      * destruct (k s) eqn:KS.
        { intros _. assert (K2 : some (k' s)) by (apply HK; [exact HA|rewrite KS; discriminate]). destruct (k' s); [discriminate|exfalso; now apply K2]. }
        { intros H. destruct (k' s); [discriminate|now apply M]. }
  - cbn [widen mtch]. apply IHa; [exact HA|]. intros s' HS. now apply HK.
  - cbn [widen mtch]. destruct (m_pos s); [now apply HK|intros X; exact X].
  - cbn [widen mtch]. destruct (m_rest s) eqn:R; [apply HK; now rewrite R|intros X; exact X].
  - cbn [widen mtch]. destruct (xorb neg (at_wordb s)); [now apply HK|intros X; exact X].
Qed.
Lemma asc_skip n s : asc s -> asc (skipn n s).
Proof. intros H. revert s H. induction n as [|n IH]; intros s H; [exact H|]. destruct s as [|c s]; [exact H|]. cbn [skipn]. apply IH. now inversion H. Qed.
Lemma widen_none r s : asc s -> match_string U (widened r) s = false -> match_string U r s = false.
Proof.
  intros HA. unfold match_string, find. pose proof (states_in s) as HS. induction HS as [|st l [Hr _] _ IH]; cbn [first_match]; [reflexivity|]. unfold match_here. cbn [widened rx_ast].
  pose proof (mtch_mono (rx_ast r) st Some Some) as M. rewrite Hr in M. specialize (M (asc_skip _ _ HA) (fun s' _ X => X)).
  destruct (mtch U (rx_ast r) st Some).
  - specialize (M ltac:(discriminate)). destruct (mtch U (widen (rx_ast r)) st Some); [discriminate|exfalso; now apply M].
  - destruct (mtch U (widen (rx_ast r)) st Some); [discriminate|exact IH].
Qed.
End W.
End N.
