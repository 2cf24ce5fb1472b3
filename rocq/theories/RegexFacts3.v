(** Patterns that cannot match a text because of the characters it lacks *)
From Coq Require Import ZifyBool.
From Verif Require Import GoBase Utf8Facts Regex RegexFacts RegexFacts2 Timezone.

Lemma rune1 c s : c < 128 -> decode_rune (c :: s) = (c, 1%nat).
Proof. intros H. cbn [decode_rune]. now replace (c <? 128) with true by lia. Qed.

Section Needs.
Variable f : Z -> bool.          (* the characters the text lacks *)
(** every match of the pattern in an ASCII text contains a character of [f] *)
Definition onlyf (g : Z -> bool) : bool := forallb (fun x => implb (g x) (f x)) ascii_all.
Fixpoint needs (r : re) : bool :=
  match r with
  | Chr ci c => const_ok ci c && onlyf (chr_is uni_min ci c)
  | Cls ci k => forallb (item_ok ci) (cl_items k) && onlyf (cls_has uni_min ci k)
  | Cat a b => needs a || needs b
  | Alt a b => needs a && needs b
  | Grp _ a => needs a
  | _ => false
  end.
Lemma onlyf_spec g x : onlyf g = true -> 0 <= x < 128 -> g x = true -> f x = true.
Proof. unfold onlyf. rewrite forallb_forall. intros H Hx Hg. specialize (H x (ascii_all_in keep x Hx)). now rewrite Hg in H. Qed.

Variable U : uni.
Hypothesis UA : uni_ascii U.
Definition lacks (s : str) : Prop := Forall (fun c => 0 <= c < 128 /\ f c = false) s.
Lemma lacks_skip n s : lacks s -> lacks (skipn n s).
Proof. intros H. revert s H. induction n as [|n IH]; intros s H; [exact H|]. destruct s as [|c s]; [exact H|]. cbn [skipn]. apply IH. now inversion H. Qed.
Lemma step_lacks s g k e : lacks (m_rest s) -> step s g k = Some e -> exists c, 0 <= c < 128 /\ f c = false /\ g c = true.
Proof.
  unfold step. destruct (m_rest s) as [|c l] eqn:Er; [discriminate|]. intros HL. inversion HL as [|? ? [Hc Hf] _]; subst. rewrite rune1 by lia.
  destruct (g c) eqn:G; [|discriminate]. intros _. exists c. auto.
Qed.
Lemma needs_none r : needs r = true -> forall s k, lacks (m_rest s) -> mtch U r s k = None.
Proof.
  induction r as [|ci c|ci c| |a IHa b IHb|a IHa b IHb|g a IHa|n a IHa| | |neg]; cbn [needs]; intros HN s k HL; try discriminate; cbn [mtch].
  - apply andb_true_iff in HN as [H1 H2]. destruct (step s _ k) as [e|] eqn:ES; [|reflexivity]. apply step_lacks in ES as (x & Hx & Hf & Hg); [|exact HL].
    rewrite (chr_min keep U UA) in Hg by assumption. rewrite (onlyf_spec _ x H2 Hx Hg) in Hf. discriminate.
  - apply andb_true_iff in HN as [H1 H2]. destruct (step s _ k) as [e|] eqn:ES; [|reflexivity]. apply step_lacks in ES as (x & Hx & Hf & Hg); [|exact HL].
    rewrite (cls_min keep U UA) in Hg by assumption. rewrite (onlyf_spec _ x H2 Hx Hg) in Hf. discriminate.
  - destruct (mtch U a s _) as [e|] eqn:E; [|reflexivity]. destruct (needs a) eqn:NA; [now rewrite IHa in E|]. cbn [orb] in HN.
    apply mtch_moved in E as (s' & w & E & M & _). rewrite IHb in E; [discriminate | exact HN |]. rewrite (mv_rest _ _ _ M). now apply lacks_skip.
  - apply andb_true_iff in HN as [H1 H2]. now rewrite IHa, IHb.
  - now apply IHa.
Qed.
Lemma lacks_none r s : needs (rx_ast r) = true -> lacks s -> find U r s = None.
Proof.
  intros HN HL. unfold find. pose proof (states_in s) as HS. induction HS as [|st l [Hr _] _ IH]; cbn [first_match]; [reflexivity|].
  unfold match_here. rewrite needs_none; [exact IH | exact HN |]. rewrite Hr. now apply lacks_skip.
Qed.
Lemma lacks_find_string r s : needs (rx_ast r) = true -> lacks s -> find_string U r s = [].
Proof. intros HN HL. unfold find_string. now rewrite lacks_none. Qed.
Lemma lacks_match r s : needs (rx_ast r) = true -> lacks s -> match_string U r s = false.
Proof. intros HN HL. unfold match_string. now rewrite lacks_none. Qed.

(** ** alternatives that need a character of [f], or spell a literal text *)
Definition justc (ci : bool) (c : Z) : bool := const_ok ci c && (0 <=? c) && (c <? 128) && forallb (fun x => implb (chr_is uni_min ci c x) (x =? c)) ascii_all.
Fixpoint litseq (r : re) : option str :=
  match r with
  | Eps => Some []
  | Chr ci c => if justc ci c then Some [c] else None
  | Cat a b => match litseq a, litseq b with Some x, Some y => Some (x ++ y)%list | _, _ => None end
  | Grp _ a => litseq a
  | _ => None
  end.
(** the literal texts of the alternatives that do not need a character of [f]; None = some alternative is of neither kind *)
Fixpoint lits (r : re) : option (list str) :=
  match r with
  | Alt a b => match lits a, lits b with Some x, Some y => Some (x ++ y)%list | _, _ => None end
  | Grp _ a => lits a
  | _ => if needs r then Some [] else option_map (fun l => [l]) (litseq r)
  end.
Lemma litseq_prefix r : forall l s k e, litseq r = Some l -> lacks (m_rest s) -> mtch U r s k = Some e -> exists t, m_rest s = (l ++ t)%list.
Proof.
  cut (forall l s k e, litseq r = Some l -> lacks (m_rest s) -> mtch U r s k = Some e -> exists s' t, m_rest s = (l ++ t)%list /\ k s' = Some e /\ m_rest s' = t).
  { intros H l s k e H1 H2 H3. destruct (H l s k e H1 H2 H3) as (_ & t & H4 & _). now exists t. }
  induction r as [|ci c|ci c| |a IHa b IHb|a IHa b IHb|g a IHa|n a IHa| | |neg]; cbn [litseq]; intros l s k e HL HK HM; try discriminate; cbn [mtch] in HM.
  - apply (f_equal (fun o => match o with Some x => x | None => [] end)) in HL. subst l. exists s, (m_rest s). auto.
  - destruct (justc ci c) eqn:J; [|discriminate]. assert (l = [c]) by congruence. subst l. unfold justc in J. rewrite !andb_true_iff in J. destruct J as [[[J1 J2] J3] J4].
    revert HM. unfold step. destruct (m_rest s) as [|x t] eqn:Er; [discriminate|]. inversion HK as [|? ? [Hx Hf] _]; subst. rewrite rune1 by lia.
    destruct (chr_is U ci c x) eqn:G; [|discriminate]. intros HM. rewrite (chr_min keep U UA) in G by assumption. rewrite forallb_forall in J4. specialize (J4 x (ascii_all_in keep x Hx)). rewrite G in J4. cbn in J4.
    assert (x = c) by lia. subst x. eexists _, t. split; [reflexivity|]. split; [exact HM|]. reflexivity.
  - destruct (litseq a) as [x|] eqn:LA; [|discriminate]. destruct (litseq b) as [y|] eqn:LB; [|discriminate]. assert (l = (x ++ y)%list) by congruence. subst l.
    destruct (IHa x s _ e eq_refl HK HM) as (s1 & t & R1 & K1 & T1). assert (HK1 : lacks (m_rest s1)). { rewrite T1. rewrite R1 in HK. apply Forall_app in HK. apply HK. }
    destruct (IHb y s1 _ e eq_refl HK1 K1) as (s2 & t2 & R2 & K2 & T2). exists s2, t2. split; [rewrite R1, <- app_assoc; now rewrite <- R2, T1|]. auto.
  - destruct (IHa l s _ e HL HK HM) as (s1 & t & R1 & K1 & T1). eexists _, t. split; [exact R1|]. split; [exact K1|]. exact T1.
Qed.
Lemma lits_prefix r : forall ls s k e, lits r = Some ls -> lacks (m_rest s) -> mtch U r s k = Some e -> exists l t, In l ls /\ m_rest s = (l ++ t)%list.
Proof.
  assert (G : forall r ls s k e, (if needs r then Some [] else option_map (fun l => [l]) (litseq r)) = Some ls -> lacks (m_rest s) -> mtch U r s k = Some e -> exists l t, In l ls /\ m_rest s = (l ++ t)%list).
  { intros r0 ls s k e HL HK HM.
    destruct (needs r0) eqn:N; [rewrite needs_none in HM by assumption; discriminate|].
    destruct (litseq r0) as [l|] eqn:LS; [|discriminate]. cbn [option_map] in HL. assert (ls = [l]) by congruence. subst ls. destruct (litseq_prefix r0 l s k e LS HK HM) as [t Ht]. exists l, t. split; [now left | exact Ht]. }
  induction r as [|ci c|ci c| |a IHa b IHb|a IHa b IHb|g a IHa|n a IHa| | |neg]; intros ls s k e HL HK HM; try (match type of HL with lits ?r = _ => exact (G r ls s k e HL HK HM) end); cbn [lits] in HL; cbn [mtch] in HM.
  - destruct (lits a) as [x|] eqn:LA; [|discriminate]. destruct (lits b) as [y|] eqn:LB; [|discriminate]. assert (ls = (x ++ y)%list) by congruence. subst ls.
    destruct (mtch U a s k) as [e1|] eqn:EA.
    + destruct (IHa x s k e1 eq_refl HK EA) as (l & t & Hi & Ht). exists l, t. split; [apply in_or_app; now left | exact Ht].
    + destruct (IHb y s k e eq_refl HK HM) as (l & t & Hi & Ht). exists l, t. split; [apply in_or_app; now right | exact Ht].
  - exact (IHa ls s _ e HL HK HM).
Qed.
(** if the pattern matches, one of the literal texts occurs *)
Lemma lits_occur r ls s m : lits (rx_ast r) = Some ls -> lacks s -> find U r s = Some m -> exists a l b, In l ls /\ s = (a ++ l ++ b)%list.
Proof.
  intros HL HK. unfold find. pose proof (states_in s) as HS. induction HS as [|st l [Hr _] _ IH]; cbn [first_match]; [discriminate|].
  unfold match_here at 1. destruct (mtch U (rx_ast r) st Some) as [e|] eqn:EM; [|exact IH]. intros _.
  apply (lits_prefix _ ls) in EM as (l0 & t & Hi & Ht); [|exact HL | rewrite Hr; now apply lacks_skip].
  exists (firstn (m_pos st) s), l0, t. split; [exact Hi|]. rewrite <- Ht, Hr. symmetry. apply firstn_skipn.
Qed.
End Needs.
