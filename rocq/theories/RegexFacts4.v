(** A text that a pattern accepts is matched *)
From Coq Require Import ZifyBool.
From Verif Require Import GoBase Utf8Facts Regex RegexFacts RegexFacts2 RegexFacts3.

Section A.
Variable U : uni.
(** [acc r s s']: the pattern can go from the state [s] to [s'] (ASCII text, captures ignored) *)
Inductive acc : re -> mst -> mst -> Prop :=
| acc_eps s : acc Eps s s
| acc_chr ci c s x t : m_rest s = x :: t -> x < 128 -> chr_is U ci c x = true -> acc (Chr ci c) s (Build_mst x t (m_pos s + 1) (m_caps s))
| acc_cls ci c s x t : m_rest s = x :: t -> x < 128 -> cls_has U ci c x = true -> acc (Cls ci c) s (Build_mst x t (m_pos s + 1) (m_caps s))
| acc_dot s x t : m_rest s = x :: t -> x < 128 -> x <> 10 -> acc Dot s (Build_mst x t (m_pos s + 1) (m_caps s))
| acc_cat a b s s1 s2 : acc a s s1 -> acc b s1 s2 -> acc (Cat a b) s s2
| acc_left a b s s' : acc a s s' -> acc (Alt a b) s s'
| acc_right a b s s' : acc b s s' -> acc (Alt a b) s s'
| acc_stop g a s : acc (Star g a) s s
| acc_again g a s s1 s2 : acc a s s1 -> (m_pos s < m_pos s1)%nat -> (length (m_rest s1) < length (m_rest s))%nat -> acc (Star g a) s1 s2 -> acc (Star g a) s s2
| acc_grp n a s s' : acc a s s' -> acc (Grp n a) s (Build_mst (m_prev s') (m_rest s') (m_pos s') ((n, (m_pos s, m_pos s')) :: m_caps s'))
| acc_bot s : m_pos s = 0%nat -> acc Bot s s
| acc_eot s : m_rest s = [] -> acc Eot s s
| acc_wordb neg s : xorb neg (at_wordb s) = true -> acc (WordB neg) s s.

Lemma step_acc s g k x t : m_rest s = x :: t -> x < 128 -> g x = true -> step s g k = k (Build_mst x t (m_pos s + 1) (m_caps s)).
Proof. intros H Hx Hg. unfold step. rewrite H, rune1 by exact Hx. now rewrite Hg. Qed.
Lemma star_loop_acc g a k : (forall s s1 k, acc a s s1 -> k s1 <> None -> mtch U a s k <> None) ->
  forall s s', acc (Star g a) s s' -> k s' <> None -> forall n, (length (m_rest s) < n)%nat -> star_loop U g a k n s <> None.
Proof.
  intros IH s s' H. remember (Star g a) as r eqn:Er. induction H; try discriminate Er; injection Er as -> ->; intros HK n Hn; (destruct n as [|n]; [lia|]); rewrite star_loop_S.
  - destruct g; [destruct (mtch U a s _)|destruct (k s)]; congruence.
  - assert (L : mtch U a s (fun s' => if (m_pos s <? m_pos s')%nat then star_loop U g a k n s' else None) <> None).
    { apply (IH s s1); [assumption|]. assert ((m_pos s <? m_pos s1)%nat = true) as -> by (now apply Nat.ltb_lt). apply IHacc2; [reflexivity|exact HK|lia]. }
    destruct g; [destruct (mtch U a s _); congruence|destruct (k s); congruence].
Qed.
Lemma mtch_acc r : forall s s' k, acc r s s' -> k s' <> None -> mtch U r s k <> None.
Proof.
  induction r as [|ci c|ci c| |a IHa b IHb|a IHa b IHb|g a IHa|n a IHa| | |neg]; intros s s' k HA HK.
  7: { rewrite mtch_star. eapply star_loop_acc; [exact IHa|exact HA|exact HK|lia]. }
  all: inversion HA; subst; cbn [mtch].
  - exact HK.
  - erewrite step_acc by eassumption. exact HK.
  - erewrite step_acc by eassumption. exact HK.
  - erewrite step_acc; [exact HK|eassumption|assumption|]. apply negb_true_iff. now apply Z.eqb_neq.
  - eapply IHa; [eassumption|]. eapply IHb; eassumption.
  - pose proof (IHa s s' k H3 HK) as N. destruct (mtch U a s k); congruence.
  - pose proof (IHb s s' k H3 HK) as N. destruct (mtch U a s k); congruence.
  - eapply IHa; [eassumption|]. exact HK.
  - match goal with H : m_pos _ = 0%nat |- _ => rewrite H end. exact HK.
  - match goal with H : m_rest _ = [] |- _ => rewrite H end. exact HK.
  - match goal with H : xorb _ _ = true |- _ => rewrite H end. exact HK.
Qed.
(** the state at the start of a text *)
Definition start (s : str) : mst := Build_mst (-1) s 0 [].
Lemma accepts_start r s s' : acc (rx_ast r) (start s) s' -> match_string U r s = true.
Proof.
  intros HA. unfold match_string, find. assert (ES : exists l, states s = start s :: l).
  { unfold states. destruct (decode s) as [|d l] eqn:ED; cbn [states_from]; eexists; reflexivity. }
  destruct ES as [l ->]. cbn [first_match]. unfold match_here. pose proof (mtch_acc _ _ _ Some HA) as N. destruct (mtch U (rx_ast r) (start s) Some); [reflexivity|]. exfalso. apply N; congruence.
Qed.
(** [.*] takes all of a text without line feeds *)
Lemma dots g : forall t prev pos caps, asc t -> ~ In 10 t -> exists p, acc (Star g Dot) (Build_mst prev t pos caps) (Build_mst p [] (pos + length t) caps).
Proof.
  induction t as [|c t IH]; intros prev pos caps HA HN.
  - exists prev. cbn [length]. rewrite Nat.add_0_r. constructor.
  - inversion HA; subst. destruct (IH c (pos + 1)%nat caps) as [p HP]; [assumption|intros Hi; apply HN; now right|]. exists p.
    eapply acc_again; [eapply (acc_dot _ c t); [reflexivity|lia|]| | |].
    + intros ->. apply HN. now left.
    + cbn [m_pos]. lia.
    + cbn [m_rest length]. lia.
    + cbn [m_pos m_caps length]. replace (pos + S (length t))%nat with (pos + 1 + length t)%nat by lia. exact HP.
Qed.
End A.
