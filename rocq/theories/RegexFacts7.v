(** All matches, replacing and splitting in an ASCII text, piece by piece *)
From Coq Require Import ZifyBool.
From Verif Require Import GoBase Regex Timezone AbsFacts2 RegexFacts RegexFacts2 RegexFacts3 RegexFacts6.

Lemma last_cons (c : Z) a d : last (c :: a) d = last a c.
Proof. destruct a as [|x a]; [reflexivity|]. cbn [last]. revert x. induction a as [|y a IH]; intros x; [reflexivity|]. cbn [last] in *. apply IH. Qed.
Lemma last_app (a b : str) d : last (a ++ b) d = last b (last a d).
Proof. revert d. induction a as [|c a IH]; intros d; [reflexivity|]. cbn [app]. rewrite !last_cons. apply IH. Qed.

Lemma drop_states b : forall a prev pos, asc a ->
  drop_while (fun s => Nat.ltb (m_pos s) (pos + length a)) (states_from prev pos (decode (a ++ b)) (a ++ b)) = states_from (last a prev) (pos + length a) (decode b) b.
Proof.
  induction a as [|c a IH]; intros prev pos HA.
  - cbn [length app last]. rewrite Nat.add_0_r. destruct (decode b) as [|[r w] ws]; cbn [states_from drop_while m_pos]; rewrite Nat.ltb_irrefl; reflexivity.
  - inversion HA as [|? ? Hc HA']; subst. cbn [app]. rewrite decode_asc by lia. cbn [states_from drop_while m_pos length]. replace (Nat.ltb pos (pos + S (length a))) with true by (symmetry; apply Nat.ltb_lt; lia).
    cbn [skipn]. rewrite last_cons. replace (pos + S (length a))%nat with ((pos + 1) + length a)%nat by lia. now apply IH.
Qed.
Lemma exec_scan U r a b : asc (a ++ b) -> exec_from U r (states (a ++ b)) (length a) = scan U r (last a (-1)) b (length a).
Proof. intros H. apply asc_app in H as [HA HB]. unfold exec_from, states. pose proof (drop_states b a (-1) 0 HA) as D. cbn [plus] in D. rewrite D. now apply states_scan. Qed.

(** stepping over characters at which nothing can match *)
Lemma scan_skip U r : forall p prev q pos, (forall c prev q pos, In c p -> match_here U r (Build_mst prev (c :: q) pos []) = None) ->
  scan U r prev (p ++ q) pos = scan U r (last p prev) q (pos + length p).
Proof.
  induction p as [|c p IH]; intros prev q pos H; [cbn [app last length]; now rewrite Nat.add_0_r|].
  cbn [app scan]. rewrite H by now left. rewrite IH by (intros; apply H; now right). rewrite last_cons. cbn [length]. f_equal. lia.
Qed.
Lemma scan_hit U r prev s pos m : match_here U r (Build_mst prev s pos []) = Some m -> scan U r prev s pos = Some m.
Proof. intros H. destruct s; cbn [scan]; now rewrite H. Qed.
Lemma scan_end U r prev pos : match_here U r (Build_mst prev [] pos []) = None -> scan U r prev [] pos = None.
Proof. intros H. cbn [scan]. now rewrite H. Qed.

(** ** All matches *)
Lemma all_hit U r a c d m f pe : asc (a ++ c ++ d) -> scan U r (last a (-1)) (c ++ d) (length a) = Some m -> mt_end m = length (a ++ c) -> c <> [] ->
  all_matches U (S f) r (states (a ++ c ++ d)) (a ++ c ++ d) (length a) pe = m :: all_matches U f r (states (a ++ c ++ d)) (a ++ c ++ d) (length (a ++ c)) (Some (mt_end m)).
Proof.
  intros HA HS HE NC. cbn [all_matches]. replace (Nat.ltb (length (a ++ c ++ d)) (length a)) with false by (symmetry; apply Nat.ltb_ge; rewrite app_length; lia).
  rewrite exec_scan by exact HA. rewrite HS. assert (L : (length a < mt_end m)%nat) by (rewrite HE, app_length; destruct c; [congruence|cbn [length]; lia]).
  replace (Nat.eqb (mt_end m) (length a)) with false by (symmetry; apply Nat.eqb_neq; lia). cbn [andb negb]. now rewrite <- HE.
Qed.
Lemma all_miss U r a b f pe : asc (a ++ b) -> scan U r (last a (-1)) b (length a) = None -> all_matches U f r (states (a ++ b)) (a ++ b) (length a) pe = [].
Proof.
  intros HA HS. destruct f as [|f]; [reflexivity|]. cbn [all_matches]. destruct (Nat.ltb _ _); [reflexivity|]. rewrite exec_scan by exact HA. now rewrite HS.
Qed.
(** ** Replacing *)
Lemma repl_hit U r a p c d m f repl : asc (a ++ p ++ c ++ d) -> scan U r (last a (-1)) (p ++ c ++ d) (length a) = Some m ->
  mt_start m = length (a ++ p) -> mt_end m = length (a ++ p ++ c) -> c <> [] ->
  replace_loop U (S f) r (states (a ++ p ++ c ++ d)) (a ++ p ++ c ++ d) (length a) (length a) repl =
  p ++ repl m ++ replace_loop U f r (states (a ++ p ++ c ++ d)) (a ++ p ++ c ++ d) (length (a ++ p ++ c)) (length (a ++ p ++ c)) repl.
Proof.
  intros HA HS HB HE NC. cbn [replace_loop]. replace (Nat.ltb (length (a ++ p ++ c ++ d)) (length a)) with false by (symmetry; apply Nat.ltb_ge; rewrite app_length; lia).
  rewrite exec_scan by exact HA. rewrite HS. assert (LC : (0 < length c)%nat) by (destruct c; [congruence|cbn [length]; lia]). rewrite app_length in HB. rewrite !app_length in HE.
  replace (Nat.ltb (length a) (mt_end m)) with true by (symmetry; apply Nat.ltb_lt; lia). cbn [orb].
  assert (WW : width_at (a ++ p ++ c ++ d) (length a) = 1%nat).
  { unfold width_at. rewrite skipn_app, skipn_all, Nat.sub_diag. cbn [app skipn]. apply asc_app in HA as [_ HA]. destruct (p ++ c ++ d) as [|x t] eqn:X; [destruct p, c; cbn in X; try congruence|]. inversion HA; subst. now rewrite rune1 by lia. }
  rewrite WW. replace (Nat.ltb (mt_end m) (length a + 1)) with false by (symmetry; apply Nat.ltb_ge; lia).
  replace (slice (a ++ p ++ c ++ d) (length a) (mt_start m)) with p.
  2:{ unfold slice. rewrite skipn_app, skipn_all, Nat.sub_diag. cbn [app skipn]. rewrite HB. replace (length a + length p - length a)%nat with (length p) by lia. rewrite firstn_app, firstn_all, Nat.sub_diag. cbn [firstn]. now rewrite app_nil_r. }
  rewrite !app_length. now rewrite HE.
Qed.
Lemma repl_miss U r a b f repl : asc (a ++ b) -> scan U r (last a (-1)) b (length a) = None ->
  replace_loop U f r (states (a ++ b)) (a ++ b) (length a) (length a) repl = b.
Proof.
  intros HA HS. assert (S0 : skipn (length a) (a ++ b) = b) by (rewrite skipn_app, skipn_all, Nat.sub_diag; reflexivity).
  destruct f as [|f]; cbn [replace_loop]; [exact S0|]. destruct (Nat.ltb _ _); [exact S0|]. rewrite exec_scan by exact HA. now rewrite HS.
Qed.
(** removing matches adds no characters *)
Lemma in_slice (s : str) i j c : In c (slice s i j) -> In c s.
Proof. unfold slice. intros H. rewrite <- (firstn_skipn i s). apply in_or_app. right. rewrite <- (firstn_skipn (j - i) (skipn i s)). apply in_or_app. now left. Qed.
Lemma remove_chars U r s c : In c (replace_all_string U r s []) -> In c s.
Proof.
  unfold replace_all_string, replace_all_fn. generalize (S (S (length s))) as f. generalize 0%nat at 1 as i. generalize 0%nat as j. intros j i f. revert i j. induction f as [|f IH]; intros i j; cbn [replace_loop].
  - intros H. rewrite <- (firstn_skipn i s). apply in_or_app. now right.
  - destruct (Nat.ltb _ _); [intros H; rewrite <- (firstn_skipn i s); apply in_or_app; now right|]. destruct (exec_from U (rx_ast r) (states s) j) as [m|]; [|intros H; rewrite <- (firstn_skipn i s); apply in_or_app; now right].
    intros H. apply in_app_or in H as [H|H]; [now apply in_slice in H|]. apply in_app_or in H as [H|H]; [destruct (_ || _) in H; cbn in H; tauto|]. now apply IH in H.
Qed.
Lemma replace_min U r s t : uni_ascii U -> respects keep (rx_ast r) = true -> asc s -> replace_all_string U r s t = replace_all_string uni_min r s t.
Proof.
  intros UA RK HA. rewrite (replace_norm keep U UA keep_ok r s t RK HA), map_keep. symmetry. unfold replace_all_string. apply replace_all_plan.
Qed.
Lemma find_all_min U r s : uni_ascii U -> respects keep (rx_ast r) = true -> asc s -> find_all U r s = find_all uni_min r s.
Proof. intros UA RK HA. now rewrite (find_all_norm keep U UA keep_ok r s RK HA), map_keep. Qed.

(** ** Greedy runs *)
Lemma greedy_run U a (f : Z -> bool) k : (forall s kk, mtch U a s kk = step s f kk) ->
  forall ds n prev rest pos caps e, asc (ds ++ rest) -> Forall (fun c => f c = true) ds -> (match rest with [] => True | c :: _ => f c = false end) ->
  (length ds < n)%nat ->
  k (Build_mst (last ds prev) rest (pos + length ds) caps) = Some e -> star_loop U true a k n (Build_mst prev (ds ++ rest) pos caps) = Some e.
Proof.
  intros HS. induction ds as [|c ds IH]; intros n prev rest pos caps e HA HF HR HN HK.
  - destruct n as [|n]; [cbn [length] in HN; lia|]. rewrite star_loop_S. cbn [app last length] in *. rewrite Nat.add_0_r in HK. rewrite HS. unfold step. cbn [m_rest].
    destruct rest as [|c rest]; [exact HK|]. inversion HA; subst. rewrite rune1 by lia. rewrite HR. exact HK.
  - destruct n as [|n]; [lia|]. rewrite star_loop_S. cbn [app] in HA. inversion HA as [|? ? Hc HA']; subst. inversion HF as [|? ? Fc HF']; subst. rewrite HS. unfold step at 1. cbn [m_rest app]. rewrite rune1 by lia. rewrite Fc.
    cbn [m_pos m_caps skipn]. replace (Nat.ltb pos (pos + 1)) with true by (symmetry; apply Nat.ltb_lt; lia).
    assert (E : star_loop U true a k n (Build_mst c (ds ++ rest) (pos + 1) caps) = Some e).
    { apply IH; [exact HA'|exact HF'|exact HR|cbn [length] in HN; lia|]. rewrite last_cons in HK. cbn [length] in HK. now replace (pos + 1 + length ds)%nat with (pos + S (length ds))%nat by lia. }
    fold (star_loop U true a k). now rewrite E.
Qed.
(** no character to take *)
Lemma greedy_none U a (f : Z -> bool) k : (forall s kk, mtch U a s kk = step s f kk) ->
  forall n prev rest pos caps, asc rest -> (match rest with [] => True | c :: _ => f c = false end) -> star_loop U true a k (S n) (Build_mst prev rest pos caps) = k (Build_mst prev rest pos caps).
Proof.
  intros HS n prev rest pos caps HA HR. rewrite star_loop_S. rewrite HS. unfold step. cbn [m_rest]. destruct rest as [|c rest]; [reflexivity|]. inversion HA; subst. rewrite rune1 by lia. now rewrite HR.
Qed.
