(** Matching does not depend on more than it tests: if every character test of a pattern gives the same answer on the characters of
    two texts of the same length, the matches are at the same positions.  Used to compute matches on texts whose digits are unknown. *)
From Coq Require Import ZifyBool.
From Verif Require Import GoBase Utf8Facts Regex Timezone.

Definition asc (s : str) : Prop := Forall (fun c => 0 <= c < 128) s.
Lemma asc_ascii s : asc s -> is_ascii s = true.
Proof. unfold asc, is_ascii. rewrite forallb_forall, Forall_forall. intros H x Hx. specialize (H x Hx). lia. Qed.
Definition ascb (s : str) : bool := forallb (fun c => (0 <=? c) && (c <? 128)) s.
Lemma ascb_asc s : ascb s = true <-> asc s.
Proof. unfold ascb, asc. rewrite forallb_forall, Forall_forall. split; intros H x Hx; specialize (H x Hx); lia. Qed.
Lemma asc_app a b : asc (a ++ b) <-> asc a /\ asc b.
Proof. unfold asc. rewrite Forall_app. reflexivity. Qed.

Lemma Forall2_length {A B} {P : A -> B -> Prop} {l l'} : Forall2 P l l' -> length l = length l'.
Proof. induction 1; cbn; congruence. Qed.

(** the loop of a star, named *)
Definition star_loop (U : uni) (g : bool) (a : re) (k : mst -> option mst) : nat -> mst -> option mst :=
  fix loop (n : nat) (s : mst) {struct n} : option mst :=
  match n with
  | O => k s
  | S n' =>
    if g then match mtch U a s (fun s' => if Nat.ltb (m_pos s) (m_pos s') then loop n' s' else None) with Some x => Some x | None => k s end
    else match k s with Some x => Some x | None => mtch U a s (fun s' => if Nat.ltb (m_pos s) (m_pos s') then loop n' s' else None) end
  end.
Lemma star_loop_S U g a k n s : star_loop U g a k (S n) s =
  if g then match mtch U a s (fun s' => if Nat.ltb (m_pos s) (m_pos s') then star_loop U g a k n s' else None) with Some x => Some x | None => k s end
  else match k s with Some x => Some x | None => mtch U a s (fun s' => if Nat.ltb (m_pos s) (m_pos s') then star_loop U g a k n s' else None) end.
Proof. reflexivity. Qed.
Lemma mtch_star U g a s k : mtch U (Star g a) s k = star_loop U g a k (S (length (m_rest s))) s.
Proof. reflexivity. Qed.

Section Sim.
Variables U U' : uni.
Variable R : Z -> Z -> Prop.
Hypothesis R_ascii : forall x x', R x x' -> x < 128 /\ x' < 128.
Hypothesis R_word : forall x x', R x x' -> is_word x = is_word x'.
Hypothesis R_nl : forall x x', R x x' -> (x =? 10) = (x' =? 10).

Fixpoint agree (r : re) : Prop :=
  match r with
  | Chr ci c => forall x x', R x x' -> chr_is U ci c x = chr_is U' ci c x'
  | Cls ci k => forall x x', R x x' -> cls_has U ci k x = cls_has U' ci k x'
  | Cat a b | Alt a b => agree a /\ agree b
  | Star _ a | Grp _ a => agree a
  | _ => True
  end.

Record st_sim (s s' : mst) : Prop := {
  ss_prev : is_word (m_prev s) = is_word (m_prev s');
  ss_rest : Forall2 R (m_rest s) (m_rest s');
  ss_pos : m_pos s = m_pos s';
  ss_caps : m_caps s = m_caps s' }.
Definition o_sim (a b : option mst) : Prop :=
  match a, b with None, None => True | Some s, Some s' => st_sim s s' | _, _ => False end.

Lemma ascii_rune c s : c < 128 -> decode_rune (c :: s) = (c, 1%nat).
Proof. intros H. cbn [decode_rune]. now replace (c <? 128) with true by lia. Qed.

Lemma step_sim f f' s s' k k' : (forall x x', R x x' -> f x = f' x') -> (forall a b, st_sim a b -> o_sim (k a) (k' b)) ->
  st_sim s s' -> o_sim (step s f k) (step s' f' k').
Proof.
  intros Hf Hk [S1 S2 S3 S4]. unfold step. destruct S2 as [|x x' l l' Hx Hl]; [exact I|]. pose proof (R_ascii _ _ Hx) as [A1 A2].
  rewrite !ascii_rune by assumption. rewrite (Hf _ _ Hx). destruct (f' x'); [|exact I]. apply Hk. constructor; cbn [m_prev m_rest m_pos m_caps skipn]; auto.
Qed.

Lemma mtch_sim r : agree r -> forall s s' k k', (forall a b, st_sim a b -> o_sim (k a) (k' b)) -> st_sim s s' -> o_sim (mtch U r s k) (mtch U' r s' k').
Proof.
  induction r as [|ci c|ci c| |a IHa b IHb|a IHa b IHb|g a IHa|n a IHa| | |neg]; cbn [agree]; intros HA s s' k k' Hk HS.
  7: { rewrite !mtch_star.
    pose proof (Forall2_length (ss_rest _ _ HS)) as EL. rewrite <- EL. clear EL.
    generalize (S (length (m_rest s))) as n. intros n. revert s s' HS. induction n as [|n IH]; intros s s' HS; [now apply Hk|].
    assert (HL : o_sim (mtch U a s (fun s1 => if Nat.ltb (m_pos s) (m_pos s1) then star_loop U g a k n s1 else None))
                       (mtch U' a s' (fun s1 => if Nat.ltb (m_pos s') (m_pos s1) then star_loop U' g a k' n s1 else None))).
    { apply IHa; [exact HA| |exact HS]. intros x y Hxy. rewrite <- (ss_pos _ _ HS), <- (ss_pos _ _ Hxy).
      destruct (Nat.ltb (m_pos s) (m_pos x)); [|exact I]. now apply IH. }
    pose proof (Hk _ _ HS) as HK. rewrite !star_loop_S. destruct g.
    + match type of HL with o_sim ?A ?B => destruct A, B end; try contradiction; assumption.
    + destruct (k s), (k' s'); try contradiction; assumption. }
  all: cbn [mtch].
  - now apply Hk.
  - now apply step_sim.
  - now apply step_sim.
  - apply step_sim; auto. intros x x' Hx. now rewrite (R_nl _ _ Hx).
  - destruct HA as [HA HB]. apply IHa; auto.
  - destruct HA as [HA HB]. specialize (IHa HA s s' k k' Hk HS). specialize (IHb HB s s' k k' Hk HS).
    destruct (mtch U a s k), (mtch U' a s' k'); try contradiction; assumption.
  - apply IHa; auto. intros x y [P1 P2 P3 P4]. apply Hk. constructor; cbn [m_prev m_rest m_pos m_caps]; auto. now rewrite (ss_pos _ _ HS), P3, P4.
  - rewrite <- (ss_pos _ _ HS). destruct (m_pos s); [now apply Hk | exact I].
  - pose proof (ss_rest _ _ HS) as H2. destruct H2; [now apply Hk | exact I].
  - replace (at_wordb s') with (at_wordb s); [destruct (xorb neg (at_wordb s)); [now apply Hk | exact I]|].
    unfold at_wordb. rewrite (ss_prev _ _ HS). f_equal. pose proof (ss_rest _ _ HS) as H2. destruct H2 as [|x x' l l' Hx Hl]; [reflexivity|].
    pose proof (R_ascii _ _ Hx) as [A1 A2]. rewrite !ascii_rune by assumption. cbn [fst]. now apply R_word.
Qed.

Lemma match_here_sim r s s' : agree r -> st_sim s s' -> match_here U r s = match_here U' r s'.
Proof.
  intros HA HS. unfold match_here. pose proof (mtch_sim r HA s s' Some Some (fun a b h => h) HS) as H.
  destruct (mtch U r s Some) as [e|], (mtch U' r s' Some) as [e'|]; try contradiction; [|reflexivity].
  cbn [o_sim] in H. now rewrite (ss_pos _ _ HS), (ss_pos _ _ H), (ss_caps _ _ H).
Qed.
Lemma first_match_sim r : agree r -> forall l l', Forall2 st_sim l l' -> first_match U r l = first_match U' r l'.
Proof.
  intros HA l l' H. induction H as [|s s' l l' Hs Hl IH]; cbn [first_match]; [reflexivity|].
  rewrite (match_here_sim r s s' HA Hs), IH. reflexivity.
Qed.
Lemma states_from_sim : forall s s' prev prev' pos, Forall2 R s s' -> is_word prev = is_word prev' ->
  Forall2 st_sim (states_from prev pos (decode s) s) (states_from prev' pos (decode s') s').
Proof.
  intros s s' prev prev' pos H. revert prev prev' pos. induction H as [|x x' l l' Hx Hl IH]; intros prev prev' pos Hp.
  - constructor; constructor; cbn; auto.
  - pose proof (R_ascii _ _ Hx) as [A1 A2]. rewrite (decode_unfold (x :: l)), (decode_unfold (x' :: l')) by discriminate. rewrite !ascii_rune by assumption.
    cbn [snd skipn states_from]. constructor; [constructor; cbn; auto|]. apply IH. now apply R_word.
Qed.
Lemma states_sim s s' : Forall2 R s s' -> Forall2 st_sim (states s) (states s').
Proof. intros H. now apply states_from_sim. Qed.
Lemma exec_from_sim r : agree r -> forall l l' p, Forall2 st_sim l l' -> exec_from U r l p = exec_from U' r l' p.
Proof.
  intros HA l l' p H. unfold exec_from. induction H as [|s s' l l' Hs Hl IH]; cbn [drop_while]; [reflexivity|].
  rewrite <- (ss_pos _ _ Hs). destruct (Nat.ltb (m_pos s) p); [exact IH|]. apply first_match_sim; [exact HA | now constructor].
Qed.
Lemma find_sim r s s' : agree (rx_ast r) -> Forall2 R s s' -> find U r s = find U' r s'.
Proof. intros HA H. unfold find. apply first_match_sim; [exact HA | now apply states_sim]. Qed.
Lemma width_sim s s' p : Forall2 R s s' -> width_at s p = width_at s' p.
Proof.
  intros H. unfold width_at. revert p. induction H as [|x x' l l' Hx Hl IH]; intros p; [now rewrite !skipn_nil|].
  pose proof (R_ascii _ _ Hx) as [A1 A2]. destruct p as [|p]; cbn [skipn]; [now rewrite !ascii_rune by assumption | apply IH].
Qed.
Lemma find_all_sim r s s' : agree (rx_ast r) -> Forall2 R s s' -> find_all U r s = find_all U' r s'.
Proof.
  intros HA H. unfold find_all. rewrite (Forall2_length H). pose proof (states_sim _ _ H) as HS.
  generalize 0%nat as pos. generalize (@None nat) as pe. generalize (S (S (length s'))) as fuel.
  induction fuel as [|f IH]; intros pe pos; cbn [all_matches]; [reflexivity|]. rewrite (Forall2_length H), (exec_from_sim _ HA _ _ _ HS), (width_sim _ _ _ H).
  destruct (Nat.ltb (length s') pos); [reflexivity|]. destruct (exec_from U' (rx_ast r) (states s') pos) as [m|]; [|reflexivity].
  cbv zeta. now rewrite !IH.
Qed.
End Sim.

(** ** The plan of a replacement: the pieces kept and the matches replaced *)
Section Plan.
Variable U : uni.
Fixpoint plan_loop (fuel : nat) (r : re) (l : list mst) (len : nat) (width : nat -> nat) (lastEnd searchPos : nat) : list (nat * nat * option match_) * nat :=
  match fuel with
  | O => ([], lastEnd)
  | S f =>
    if Nat.ltb len searchPos then ([], lastEnd)
    else match exec_from U r l searchPos with
    | None => ([], lastEnd)
    | Some m =>
      let w := width searchPos in
      let pos' := if Nat.ltb (mt_end m) (searchPos + w) then (searchPos + w)%nat
                  else if Nat.ltb (mt_end m) (searchPos + 1) then (searchPos + 1)%nat
                  else mt_end m in
      let '(ps, e) := plan_loop f r l len width (mt_end m) pos' in
      ((lastEnd, mt_start m, if Nat.ltb lastEnd (mt_end m) || Nat.eqb (mt_start m) 0 then Some m else None) :: ps, e)
    end
  end.
Definition plan (r : regex) (s : str) : list (nat * nat * option match_) * nat :=
  plan_loop (S (S (length s))) (rx_ast r) (states s) (length s) (width_at s) 0 0.
Definition render (s : str) (repl : match_ -> str) (p : list (nat * nat * option match_) * nat) : str :=
  (flat_map (fun '(a, b, o) => slice s a b ++ match o with Some m => repl m | None => [] end) (fst p) ++ skipn (snd p) s)%list.
Lemma replace_loop_plan r l s repl : forall fuel lastEnd pos,
  replace_loop U fuel r l s lastEnd pos repl = render s repl (plan_loop fuel r l (length s) (width_at s) lastEnd pos).
Proof.
  induction fuel as [|f IH]; intros lastEnd pos; cbn [replace_loop plan_loop]; [reflexivity|].
  destruct (Nat.ltb (length s) pos); [reflexivity|]. destruct (exec_from U r l pos) as [m|]; [|reflexivity]. cbv zeta.
  set (p' := if Nat.ltb (mt_end m) (pos + width_at s pos) then _ else _). rewrite IH.
  destruct (plan_loop f r l (length s) (width_at s) (mt_end m) p') as [ps e]. unfold render. cbn [fst snd flat_map].
  destruct (Nat.ltb lastEnd (mt_end m) || Nat.eqb (mt_start m) 0); rewrite <- !app_assoc; reflexivity.
Qed.
Lemma replace_all_plan r s repl : replace_all_fn U r s repl = render s repl (plan r s).
Proof. apply replace_loop_plan. Qed.
End Plan.

(** ** Texts with unknown characters: [nrm] maps each ASCII character to a representative *)
Section Norm.
Variable nrm : Z -> Z.
Definition ascii_all : list Z := map Z.of_nat (seq 0 128).
Definition const_ok (ci : bool) (c : Z) : bool := negb ci || ((0 <=? c) && negb (existsb (Z.eqb c) [304; 383; 8490])).
Definition item_ok (ci : bool) (i : citem) : bool := match i with IRange lo hi => negb (lo =? hi) || const_ok ci lo | _ => true end.
Definition invb (f : Z -> bool) : bool := forallb (fun c => Bool.eqb (f c) (f (nrm c))) ascii_all.
Fixpoint respects (r : re) : bool :=
  match r with
  | Chr ci c => const_ok ci c && invb (chr_is uni_min ci c)
  | Cls ci k => forallb (item_ok ci) (cl_items k) && invb (cls_has uni_min ci k)
  | Cat a b | Alt a b => respects a && respects b
  | Star _ a | Grp _ a => respects a
  | _ => true
  end.
Definition nrm_ok : bool := forallb (fun c => (nrm c <? 128) && Bool.eqb (is_word c) (is_word (nrm c)) && Bool.eqb (c =? 10) (nrm c =? 10)) ascii_all.

Lemma ascii_all_in c : 0 <= c < 128 -> In c ascii_all.
Proof. intros H. unfold ascii_all. apply in_map_iff. exists (Z.to_nat c). split; [lia|]. apply in_seq. lia. Qed.
Lemma invb_spec f c : invb f = true -> 0 <= c < 128 -> f c = f (nrm c).
Proof. unfold invb. rewrite forallb_forall. intros H Hc. specialize (H c (ascii_all_in c Hc)). now apply Bool.eqb_prop. Qed.

Variable U : uni.
Hypothesis UA : uni_ascii U.
Lemma fold_min c x : const_ok true c = true -> 0 <= x < 128 -> (u_fold U x =? u_fold U c) = (u_fold uni_min x =? u_fold uni_min c).
Proof.
  unfold const_ok. cbn [negb orb]. rewrite andb_true_iff, negb_true_iff. intros [H1 H2] Hx. rewrite (ua_fold _ UA x Hx). cbn [u_fold uni_min].
  destruct (Z.ltb_spec c 128) as [L|L]; [now rewrite (ua_fold _ UA c) by lia|]. pose proof (ua_fold_hi _ UA c L H2) as F.
  assert (lowerA x < 128) by (unfold lowerA, is_upperA; destruct (_ && _) eqn:B; lia).
  assert (lowerA c = c) as -> by (unfold lowerA, is_upperA; destruct (_ && _) eqn:B; lia).
  transitivity false; [|symmetry]; apply Z.eqb_neq; lia.
Qed.
Lemma chr_min ci c x : const_ok ci c = true -> 0 <= x < 128 -> chr_is U ci c x = chr_is uni_min ci c x.
Proof. unfold chr_is. destruct ci; [|reflexivity]. apply fold_min. Qed.
Lemma item_min ci i x : item_ok ci i = true -> 0 <= x < 128 -> item_has U ci i x = item_has uni_min ci i x.
Proof.
  intros H Hx. destruct i as [lo hi|neg c|l]; cbn [item_has item_ok] in *; [|destruct c; cbn [cat_has]; [rewrite (ua_isL _ UA x Hx)|rewrite (ua_isM _ UA x Hx)|rewrite (ua_isN _ UA x Hx)]; reflexivity|reflexivity].
  destruct ci; [|reflexivity]. destruct (lo =? hi) eqn:Eq.
  - cbn [negb orb] in H. now apply fold_min.
  - now rewrite (ua_fold _ UA x Hx), (ua_lower _ UA x Hx), (ua_upper _ UA x Hx).
Qed.
Lemma cls_min ci k x : forallb (item_ok ci) (cl_items k) = true -> 0 <= x < 128 -> cls_has U ci k x = cls_has uni_min ci k x.
Proof.
  intros H Hx. unfold cls_has. f_equal. destruct k as [ng l]; cbn [cl_items] in *. clear ng. induction l as [|i l IH]; cbn [existsb forallb] in *; [reflexivity|].
  apply andb_true_iff in H as [H1 H2]. now rewrite (item_min ci i x H1 Hx), IH.
Qed.
Definition nrel (x x' : Z) : Prop := 0 <= x < 128 /\ x' = nrm x.
Lemma respects_agree r : respects r = true -> agree U uni_min nrel r.
Proof.
  induction r as [|ci c|ci c| |a IHa b IHb|a IHa b IHb|g a IHa|n a IHa| | |neg]; cbn [respects agree]; rewrite ?andb_true_iff; try tauto.
  - intros [H1 H2] x x' [Hx ->]. rewrite chr_min by assumption. now apply invb_spec.
  - intros [H1 H2] x x' [Hx ->]. rewrite cls_min by assumption. now apply invb_spec.
Qed.
Hypothesis NO : nrm_ok = true.
Lemma nrm_facts c : 0 <= c < 128 -> nrm c < 128 /\ is_word c = is_word (nrm c) /\ (c =? 10) = (nrm c =? 10).
Proof.
  intros Hc. pose proof NO as H. unfold nrm_ok in H. rewrite forallb_forall in H. specialize (H c (ascii_all_in c Hc)).
  rewrite !andb_true_iff in H. destruct H as [[H1 H2] H3]. split; [lia|]. split; now apply Bool.eqb_prop.
Qed.
Lemma nrel_ascii x x' : nrel x x' -> x < 128 /\ x' < 128.
Proof. intros [Hx ->]. pose proof (nrm_facts x Hx). lia. Qed.
Lemma nrel_word x x' : nrel x x' -> is_word x = is_word x'.
Proof. intros [Hx ->]. apply (nrm_facts x Hx). Qed.
Lemma nrel_nl x x' : nrel x x' -> (x =? 10) = (x' =? 10).
Proof. intros [Hx ->]. apply (nrm_facts x Hx). Qed.
Lemma nrel_map s : asc s -> Forall2 nrel s (map nrm s).
Proof. intros H. induction H; cbn [map]; constructor; auto. split; auto. Qed.

Lemma find_norm r s : respects (rx_ast r) = true -> asc s -> find U r s = find uni_min r (map nrm s).
Proof. intros HR HA. apply (find_sim U uni_min nrel nrel_ascii nrel_word nrel_nl); [now apply respects_agree | now apply nrel_map]. Qed.
Lemma match_norm r s : respects (rx_ast r) = true -> asc s -> match_string U r s = match_string uni_min r (map nrm s).
Proof. intros HR HA. unfold match_string. now rewrite (find_norm r s). Qed.
Lemma find_all_norm r s : respects (rx_ast r) = true -> asc s -> find_all U r s = find_all uni_min r (map nrm s).
Proof. intros HR HA. apply (find_all_sim U uni_min nrel nrel_ascii nrel_word nrel_nl); [now apply respects_agree | now apply nrel_map]. Qed.
Lemma find_string_norm r s : respects (rx_ast r) = true -> asc s ->
  find_string U r s = match find uni_min r (map nrm s) with Some m => slice s (mt_start m) (mt_end m) | None => [] end.
Proof. intros HR HA. unfold find_string. now rewrite (find_norm r s). Qed.
Lemma plan_norm r s : respects (rx_ast r) = true -> asc s -> plan U r s = plan uni_min r (map nrm s).
Proof.
  intros HR HA. unfold plan. rewrite map_length. pose proof (nrel_map s HA) as H2.
  pose proof (states_sim nrel nrel_ascii nrel_word nrel_nl s (map nrm s) H2) as HS.
  cut (forall fuel le pos, plan_loop U fuel (rx_ast r) (states s) (length s) (width_at s) le pos =
    plan_loop uni_min fuel (rx_ast r) (states (map nrm s)) (length s) (width_at (map nrm s)) le pos); [intros HH; apply HH|].
  induction fuel as [|f IH]; intros le pos; cbn [plan_loop]; [reflexivity|].
  rewrite (exec_from_sim U uni_min nrel nrel_ascii nrel_word nrel_nl _ (respects_agree _ HR) _ _ _ HS), (width_sim nrel nrel_ascii nrel_word nrel_nl _ _ pos H2).
  destruct (Nat.ltb (length s) pos); [reflexivity|]. destruct (exec_from uni_min (rx_ast r) _ pos) as [m|]; [|reflexivity]. cbv zeta. now rewrite IH.
Qed.
Lemma replace_fn_norm r s repl : respects (rx_ast r) = true -> asc s -> replace_all_fn U r s repl = render s repl (plan uni_min r (map nrm s)).
Proof. intros HR HA. now rewrite replace_all_plan, (plan_norm r s). Qed.
Lemma replace_norm r s t : respects (rx_ast r) = true -> asc s -> replace_all_string U r s t = render s (expand t s) (plan uni_min r (map nrm s)).
Proof. apply replace_fn_norm. Qed.
Lemma rsplit_norm r s : respects (rx_ast r) = true -> asc s ->
  rsplit U r s = match s with [] => [[]] | _ => rsplit_loop (find_all uni_min r (map nrm s)) s 0 0 end.
Proof. intros HR HA. unfold rsplit. destruct s as [|c s]; [reflexivity|]. rewrite <- (find_all_norm r) by assumption. reflexivity. Qed.
End Norm.

(** every character is its own representative: an ASCII text only needs the ASCII tables *)
Definition keep (c : Z) : Z := c.
Lemma keep_ok : nrm_ok keep = true. Proof. vm_compute. reflexivity. Qed.
Lemma map_keep s : map keep s = s. Proof. apply map_id. Qed.
(** all digits alike *)
Definition dig0 (c : Z) : Z := if is_digitA c then 48 else c.
Lemma dig0_ok : nrm_ok dig0 = true. Proof. vm_compute. reflexivity. Qed.
