(** strings.Split and strings.Join; the first best element of a stable sort *)
From Coq Require Import ZifyBool.
From Verif Require Import GoBase Language Search.

Lemma sjoin_cons x l sep : l <> [] -> sjoin (x :: l) sep = x ++ sep ++ sjoin l sep.
Proof. destruct l; [congruence|reflexivity]. Qed.
Lemma split_from_ne : forall s skip acc sep, split_from skip acc s sep <> [].
Proof. induction s as [|c s IH]; intros skip acc sep; cbn [split_from]; [discriminate|]. destruct skip; [destruct (has_prefix sep (c :: s)); [discriminate|apply IH]|apply IH]. Qed.
Lemma has_prefix_app p s : has_prefix p s = true -> exists t, s = p ++ t.
Proof.
  revert s. induction p as [|c p IH]; intros s H; [now exists s|]. destruct s as [|x s]; [discriminate H|]. cbn [has_prefix] in H. apply andb_true_iff in H as [H1 H2]. apply Z.eqb_eq in H1. subst x. destruct (IH s H2) as (t & ->). now exists t.
Qed.
Lemma split_from_skip sep t : forall k acc, split_from k acc t sep = split_from 0 acc (skipn k t) sep.
Proof. induction t as [|c t IH]; intros [|k] acc; cbn [split_from skipn]; auto. Qed.
Lemma split_join sep : sep <> [] -> forall n s acc, (length s <= n)%nat -> sjoin (split_from 0 acc s sep) sep = rev acc ++ s.
Proof.
  intros HS. induction n as [|n IH]; intros s acc HL; (destruct s as [|c s]; [cbn [split_from sjoin]; now rewrite app_nil_r|]); cbn [length] in HL; [lia|]. cbn [split_from]. destruct (has_prefix sep (c :: s)) eqn:HP.
  - rewrite sjoin_cons by apply split_from_ne. rewrite split_from_skip. rewrite IH by (rewrite skipn_length; lia). cbn [rev app]. apply has_prefix_app in HP as (t & HT). destruct sep as [|d sep]; [congruence|]. cbn [app length pred] in *.
    assert (c = d) by congruence. assert (s = sep ++ t) by congruence. subst. rewrite skipn_app, skipn_all, Nat.sub_diag. reflexivity.
  - rewrite IH by lia. cbn [rev]. now rewrite <- app_assoc.
Qed.
Lemma sjoin_split s sep : sep <> [] -> sjoin (split s sep) sep = s.
Proof. intros HS. unfold split. now rewrite (split_join sep HS (length s) s []) by lia. Qed.
Lemma split_length s sep : length (split s sep) = S (count s sep).
Proof. unfold count. pose proof (split_from_ne s 0 [] sep). unfold split in *. destruct (split_from 0 [] s sep); [congruence|reflexivity]. Qed.
Lemma sjoin_app a b sep : a <> [] -> b <> [] -> sjoin (a ++ b) sep = sjoin a sep ++ sep ++ sjoin b sep.
Proof.
  intros Ha Hb. induction a as [|x a IH]; [congruence|]. destruct a as [|y a]; [cbn [app]; rewrite sjoin_cons by exact Hb; reflexivity|].
  cbn [app]. rewrite (sjoin_cons x (y :: a ++ b)), (sjoin_cons x (y :: a)) by discriminate. change (y :: a ++ b) with ((y :: a) ++ b). rewrite IH by discriminate. now rewrite !app_assoc.
Qed.
Lemma group_nil fuel n sep : group_parts fuel n [] sep = []. Proof. destruct fuel; reflexivity. Qed.
Lemma group_ne fuel n parts sep : parts <> [] -> (0 < fuel)%nat -> group_parts fuel n parts sep <> [].
Proof. intros HP HF. destruct fuel; [lia|]. destruct parts; [congruence|]. cbn [group_parts]. discriminate. Qed.
Lemma group_join n sep : (0 < n)%nat -> forall fuel parts, (length parts <= fuel)%nat -> sjoin (group_parts fuel n parts sep) sep = sjoin parts sep.
Proof.
  intros Hn. induction fuel as [|f IH]; intros parts HL; [destruct parts; [reflexivity|cbn [length] in HL; lia]|]. destruct parts as [|x p]; [reflexivity|]. cbn [group_parts].
  assert (SL : (length (skipn n (x :: p)) <= f)%nat) by (rewrite skipn_length; cbn [length] in *; lia).
  destruct (skipn n (x :: p)) as [|y q] eqn:SK.
  - rewrite group_nil. change (sjoin [sjoin (firstn n (x :: p)) sep] sep) with (sjoin (firstn n (x :: p)) sep). f_equal. pose proof (firstn_skipn n (x :: p)) as FS. rewrite SK, app_nil_r in FS. exact FS.
  - rewrite sjoin_cons by (apply group_ne; [discriminate|cbn [length] in SL; lia]). rewrite IH by exact SL. pose proof (firstn_skipn n (x :: p)) as FS. rewrite SK in FS. rewrite <- FS at 2. rewrite sjoin_app; [reflexivity| |discriminate]. destruct n; [lia|discriminate].
Qed.
Lemma group_length n sep sep' : forall fuel a b, length a = length b -> length (group_parts fuel n a sep) = length (group_parts fuel n b sep').
Proof.
  induction fuel as [|f IH]; intros a b HL; [reflexivity|]. destruct a, b; try discriminate HL; [reflexivity|]. cbn [group_parts]. change (S (length (group_parts f n (skipn n (s :: a)) sep)) = S (length (group_parts f n (skipn n (s0 :: b)) sep'))). f_equal. apply IH. rewrite !skipn_length. lia.
Qed.

(** [lt] is the strict part of a total preorder *)
Lemma sort_head {A} (lt : A -> A -> bool) (P : A -> Prop) : (forall a b c, P a -> P b -> P c -> lt a b = true -> lt b c = true -> lt a c = true) ->
  (forall a b c, P a -> P b -> P c -> lt a b = false -> lt b c = false -> lt a c = false) -> (forall a, P a -> lt a a = false) ->
  forall l, l <> [] -> Forall P l -> exists x t l1 l2, sort_by lt l = x :: t /\ l = l1 ++ x :: l2 /\ (forall y, In y l1 -> lt x y = true) /\ (forall y, In y l -> lt y x = false).
Proof.
  intros T1 T2 IRR. induction l as [|a l IH]; [congruence|]. intros _ HP. inversion HP as [|? ? Pa Pl]; subst. destruct l as [|b l].
  - exists a, [], [], []. split; [reflexivity|]. split; [reflexivity|]. split; [intros y []|]. intros y [<-|[]]. now apply IRR.
  - destruct IH as (x & t & l1 & l2 & HS & HL & H1 & H2); [discriminate|exact Pl|]. remember (b :: l) as l0 eqn:E0. clear E0 b l. change (sort_by lt (a :: l0)) with (insert_by lt a (sort_by lt l0)). rewrite HS. cbn [insert_by].
    assert (Px : P x) by (rewrite Forall_forall in Pl; apply Pl; rewrite HL; apply in_elt). destruct (lt x a) eqn:L.
    + exists x, (insert_by lt a t), (a :: l1), l2. split; [reflexivity|]. split; [now rewrite HL|]. split.
      * intros y [<-|Hy]; [exact L|now apply H1].
      * intros y [<-|Hy]; [|now apply H2]. destruct (lt a x) eqn:L2; [|reflexivity]. pose proof (T1 _ _ _ Px Pa Px L L2) as X. rewrite IRR in X by exact Px. discriminate X.
    + exists a, (x :: t), [], l0. split; [reflexivity|]. split; [reflexivity|]. split; [intros y []|]. intros y [<-|Hy]; [now apply IRR|]. assert (Py : P y) by (rewrite Forall_forall in Pl; now apply Pl). apply (T2 _ x); [exact Py|exact Px|exact Pa|now apply H2|exact L].
Qed.
