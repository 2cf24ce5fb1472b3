(** Go maps with string keys, as association lists with unique keys (iteration order is never used through this file) *)
From Verif Require Import GoBase.

Definition smap (A : Type) := list (str * A).
Fixpoint mget {A} (m : smap A) (k : str) : option A :=
  match m with
  | [] => None
  | (k', v) :: m' => if eqs k k' then Some v else mget m' k
  end.
Fixpoint mset {A} (m : smap A) (k : str) (v : A) : smap A :=
  match m with
  | [] => [(k, v)]
  | (k', v') :: m' => if eqs k k' then (k, v) :: m' else (k', v') :: mset m' k v
  end.
Definition mdel {A} (m : smap A) (k : str) : smap A := filter (fun p => negb (eqs k (fst p))) m.
Definition mhas {A} (m : smap A) (k : str) : bool := match mget m k with Some _ => true | None => false end.
Definition mget_or {A} (d : A) (m : smap A) (k : str) : A := match mget m k with Some v => v | None => d end.

Lemma eqs_refl s : eqs s s = true.
Proof. induction s; cbn; auto. rewrite Z.eqb_refl; auto. Qed.
Lemma eqs_eq a b : eqs a b = true <-> a = b.
Proof.
  revert b; induction a as [|x a IH]; destruct b as [|y b]; cbn; split; intros H; try congruence; try discriminate.
  - apply andb_true_iff in H as [H1 H2]. apply Z.eqb_eq in H1. apply IH in H2. congruence.
  - injection H as -> ->. rewrite Z.eqb_refl. cbn. apply IH. reflexivity.
Qed.
Lemma eqs_spec a b : reflect (a = b) (eqs a b).
Proof. destruct (eqs a b) eqn:E; constructor. - now apply eqs_eq. - intros H. apply eqs_eq in H. congruence. Qed.
Lemma eqs_neq a b : eqs a b = false <-> a <> b.
Proof. destruct (eqs_spec a b); split; congruence. Qed.
Lemma eqs_sym a b : eqs a b = eqs b a.
Proof. destruct (eqs_spec a b), (eqs_spec b a); congruence. Qed.

Lemma mget_mset_same {A} (m : smap A) k v : mget (mset m k v) k = Some v.
Proof. induction m as [|[k' v'] m IH]; cbn. - now rewrite eqs_refl. - destruct (eqs k k') eqn:E; cbn; [now rewrite eqs_refl | now rewrite E]. Qed.
Lemma mget_mset_other {A} (m : smap A) k k' v : k <> k' -> mget (mset m k v) k' = mget m k'.
Proof.
  intros N. induction m as [|[k2 v2] m IH]; cbn.
  - destruct (eqs_spec k' k); congruence.
  - destruct (eqs_spec k k2) as [->|E]; cbn.
    + destruct (eqs_spec k' k2); congruence.
    + destruct (eqs k' k2); auto.
Qed.
Lemma mget_mdel_same {A} (m : smap A) k : mget (mdel m k) k = None.
Proof. induction m as [|[k' v'] m IH]; cbn; auto. destruct (eqs k k') eqn:E; cbn; auto. now rewrite E. Qed.
Lemma mget_mdel_other {A} (m : smap A) k k' : k <> k' -> mget (mdel m k) k' = mget m k'.
Proof.
  intros N. induction m as [|[k2 v2] m IH]; cbn; auto.
  destruct (eqs_spec k k2) as [->|E]; cbn.
  - destruct (eqs_spec k' k2); [congruence | exact IH].
  - destruct (eqs k' k2); auto.
Qed.
