(** Groups that every match sets; replacements that end in a space *)
From Coq Require Import ZifyBool.
From Verif Require Import GoBase SMap Regex Utf8Facts RegexFacts RegexFacts2.

(** every match of [r] sets group [g] *)
Fixpoint sets (g : nat) (r : re) : bool :=
  match r with
  | Cat a b => sets g a || sets g b
  | Alt a b => sets g a && sets g b
  | Grp n a => Nat.eqb n g || sets g a
  | _ => false
  end.
Definition has_cap (g : nat) (l : list (nat * (nat * nat))) : Prop := exists x, In (g, x) l.
Section S.
Variable U : uni.
Variable g : nat.
Lemma mtch_sets r : forall s k e, mtch U r s k = Some e -> exists s', k s' = Some e /\ incl (m_caps s) (m_caps s') /\ (sets g r = true -> has_cap g (m_caps s')).
Proof.
  induction r as [|ci c|ci c| |a IHa b IHb|a IHa b IHb|gr a IHa|n a IHa| | |neg]; intros s k e HM.
  5: { cbn [mtch sets] in *. apply IHa in HM as (s1 & HM & I1 & H1). apply IHb in HM as (s2 & HM & I2 & H2). exists s2. split; [exact HM|]. split; [intros x Hx; auto|]. intros HS. apply orb_true_iff in HS as [HS|HS]; [|auto]. destruct (H1 HS) as (x & Hx). exists x. auto. }
  5: { cbn [mtch sets] in *. destruct (mtch U a s k) as [x|] eqn:EA.
       - assert (x = e) as -> by congruence. apply IHa in EA as (s1 & HK & I1 & H1). exists s1. split; [exact HK|]. split; [exact I1|]. intros HS. apply andb_true_iff in HS as [HS _]. auto.
       - apply IHb in HM as (s1 & HK & I1 & H1). exists s1. split; [exact HK|]. split; [exact I1|]. intros HS. apply andb_true_iff in HS as [_ HS]. auto. }
  6: { cbn [mtch sets] in *. apply IHa in HM as (s1 & HK & I1 & H1). eexists. split; [exact HK|]. cbn [m_caps]. split; [intros x Hx; right; auto|]. intros HS. apply orb_true_iff in HS as [HS|HS].
       - apply Nat.eqb_eq in HS. subst n. eexists. left. reflexivity.
       - destruct (H1 HS) as (x & Hx). exists x. now right. }
  5: { destruct (mtch_moved U (Star gr a) s k e HM) as (s1 & w & HK & M & _). exists s1. split; [exact HK|]. split; [|discriminate]. destruct M as [_ _ _ (new & -> & _)]. intros x Hx. apply in_or_app. now right. }
  all: match type of HM with mtch U ?r0 _ _ = _ => destruct (mtch_moved U r0 s k e HM) as (s1 & w & HK & M & _) end; exists s1; split; [exact HK|]; split; [|discriminate]; destruct M as [_ _ _ (new & -> & _)]; intros x Hx; apply in_or_app; now right.
Qed.
Lemma cap_has m : (0 < g)%nat -> has_cap g (mt_caps m) -> cap m g <> None.
Proof.
  intros G0 (x & Hx). unfold cap. destruct g as [|g']; [lia|]. destruct (List.find _ (mt_caps m)) as [p|] eqn:F; [discriminate|]. apply (find_none _ _ F) in Hx. cbn [fst] in Hx. rewrite Nat.eqb_refl in Hx. discriminate Hx.
Qed.
Lemma first_sets r l m : sets g r = true -> (0 < g)%nat -> first_match U r l = Some m -> cap m g <> None.
Proof.
  intros HS G0. induction l as [|s l IH]; cbn [first_match]; [discriminate|]. destruct (match_here U r s) as [m'|] eqn:EM; [|exact IH].
  intros X. assert (m' = m) as -> by congruence. clear X IH. unfold match_here in EM. destruct (mtch U r s Some) as [e|] eqn:MT; [|discriminate EM]. apply mtch_sets in MT as (s' & HK & _ & HC). assert (s' = e) as -> by congruence.
  apply cap_has; [exact G0|]. assert (mt_caps m = m_caps e) as -> by (assert (m = {| mt_start := m_pos s; mt_end := m_pos e; mt_caps := m_caps e |}) as -> by congruence; reflexivity). auto.
Qed.
Lemma find_sets r s m : sets g (rx_ast r) = true -> (0 < g)%nat -> Regex.find U r s = Some m -> cap m g <> None.
Proof. intros HS G0. apply first_sets; assumption. Qed.
Lemma find_all_sets r s m : sets g (rx_ast r) = true -> (0 < g)%nat -> In m (find_all U r s) -> cap m g <> None.
Proof.
  intros HS G0. unfold find_all. generalize (S (S (length s))) as fuel, 0%nat as pos, (@None nat) as pe. induction fuel as [|f IH]; intros pos pe; cbn [all_matches]; [intros []|].
  destruct (Nat.ltb (length s) pos); [intros []|]. destruct (Regex.exec_from U (rx_ast r) (states s) pos) as [m'|] eqn:EX; [|intros []].
  assert (H1 : cap m' g <> None) by (unfold Regex.exec_from in EX; eapply first_sets; eassumption).
  destruct (negb _); [intros [<-|HI]; [exact H1|]|intros HI]; eapply IH; exact HI.
Qed.
End S.

(** a text that ends in a space *)
Definition ends_space (s : str) : Prop := exists s', s = s' ++ [32].
Lemma ends_app a b : ends_space b -> ends_space (a ++ b).
Proof. intros (s' & ->). exists (a ++ s'). now rewrite app_assoc. Qed.
Lemma ends_skip s n : ends_space s -> (n < length s)%nat -> ends_space (skipn n s).
Proof. intros (s' & ->) HN. rewrite app_length in HN. cbn [length] in HN. exists (skipn n s'). rewrite skipn_app. replace (n - length s')%nat with 0%nat by lia. reflexivity. Qed.
Lemma replace_ends U r s repl : ends_space s -> (forall m, ends_space (repl m)) -> ends_space (replace_all_fn U r s repl).
Proof.
  intros HE HR. unfold replace_all_fn.
  assert (G : forall fuel le sp, (le <= length s)%nat -> ((le < length s)%nat -> ends_space (replace_loop U fuel (rx_ast r) (states s) s le sp repl)) /\ ((le = length s)%nat -> let x := replace_loop U fuel (rx_ast r) (states s) s le sp repl in x = [] \/ ends_space x)).
  { induction fuel as [|f IH]; intros le sp HL; cbn [replace_loop].
    - split; [intros; now apply ends_skip|]. intros ->. left. apply skipn_all.
    - destruct (Nat.ltb (length s) sp); [split; [intros; now apply ends_skip|]; intros ->; left; apply skipn_all|].
      destruct (Regex.exec_from U (rx_ast r) (states s) sp) as [m|] eqn:EX; [|split; [intros; now apply ends_skip|]; intros ->; left; apply skipn_all].
      assert (ME : (mt_end m <= length s)%nat).
      { unfold Regex.exec_from in EX. assert (F : Forall (in_text s) (drop_while (fun x => Nat.ltb (m_pos x) sp) (states s))).
        { clear. generalize (states_in s). generalize (states s). intros l F. induction F as [|x l Hx F IHF]; cbn [drop_while]; [constructor|]. destruct (Nat.ltb (m_pos x) sp); [exact IHF|now constructor]. }
        exact (pl_end _ _ _ (first_match_placed U (rx_ast r) s _ m F EX)). }
      set (sp' := if Nat.ltb (mt_end m) (sp + width_at s sp) then _ else _). specialize (IH (mt_end m) sp' ME). cbv zeta in IH |- *. destruct IH as [I1 I2].
      remember (replace_loop U f (rx_ast r) (states s) s (mt_end m) sp' repl) as rest eqn:ER. clear ER.
      destruct (Nat.ltb_spec le (mt_end m)) as [LT|GE]; cbn [orb].
      + assert (X : ends_space (repl m ++ rest)).
        { destruct (Nat.eq_dec (mt_end m) (length s)) as [EQ|NE]; [destruct (I2 EQ) as [->|HX]; [rewrite app_nil_r; apply HR|now apply ends_app]|apply ends_app, I1; lia]. }
        split; [intros; now apply ends_app|]. intros. right. now apply ends_app.
      + split.
        * intros LS. apply ends_app, ends_app. apply I1. lia.
        * intros ->. assert (EQ : mt_end m = length s \/ (mt_end m < length s)%nat) by lia. destruct EQ as [EQ|LS]; [|right; apply ends_app, ends_app, I1, LS].
          destruct (I2 EQ) as [->|HX]; [|right; apply ends_app, ends_app, HX]. rewrite app_nil_r. replace (slice s (length s) (mt_start m)) with (@nil Z) by (unfold slice; rewrite skipn_all; symmetry; apply firstn_nil). cbn [app].
          destruct (Nat.eqb (mt_start m) 0); [right; apply HR|now left]. }
  destruct HE as (s' & HE'). specialize (G (S (S (length s))) 0%nat 0%nat ltac:(lia)) as [G _]. apply G. rewrite HE', app_length. cbn [length]. lia.
Qed.

(** a text whose first byte is not white space *)
Definition starts_word (s : str) : Prop := exists c t, s = c :: t /\ (c < 128 -> is_space c = false).
Lemma chunk_head s : forall r b, In (r, b) (chunks s) -> is_space r = false -> starts_word b.
Proof.
  pattern s. apply rune_ind; clear s; [intros r b []|]. intros s Hs IH r b HI NS. rewrite chunks_unfold in HI by exact Hs. destruct HI as [HI|HI]; [|eapply IH; eassumption].
  assert (r = fst (decode_rune s)) as -> by congruence. assert (b = firstn (snd (decode_rune s)) s) as -> by congruence. clear HI.
  destruct s as [|c s']; [congruence|]. destruct (decode_rune_width (c :: s') Hs) as [W _]. destruct (snd (decode_rune (c :: s'))) as [|w] eqn:EW; [lia|]. exists c, (firstn w s'). split; [reflexivity|]. intros LC. assert (X : decode_rune (c :: s') = (c, 1%nat)) by (cbn [decode_rune]; replace (c <? 128) with true by lia; reflexivity). rewrite X in NS. exact NS.
Qed.
Lemma starts_app a b : starts_word a -> starts_word (a ++ b).
Proof. intros (c & t & -> & H). exists c, (t ++ b). auto. Qed.
Lemma fields_start s w : In w (fields s) -> starts_word w.
Proof.
  unfold fields. assert (G : forall l acc, (forall r b, In (r, b) l -> is_space r = false -> starts_word b) -> (acc = [] \/ starts_word acc) -> forall w, In w (fields_from acc l) -> starts_word w).
  { induction l as [|[r b] l IH]; intros acc HL HA x; cbn [fields_from].
    - destruct HA as [->|HA]; [intros []|]. destruct (empty acc); [intros []|]. intros [<-|[]]. exact HA.
    - assert (HL' : forall r b, In (r, b) l -> is_space r = false -> starts_word b) by (intros; eapply HL; [right; eassumption|assumption]). destruct (is_space r) eqn:SR.
      + destruct (empty acc) eqn:EA; [apply IH; auto|]. destruct HA as [->|HA]; [discriminate EA|]. intros [<-|HI]; [exact HA|]. eapply IH; [exact HL'|now left|exact HI].
      + apply IH; [exact HL'|]. right. assert (SB : starts_word b) by (eapply HL; [now left|exact SR]). destruct HA as [->|HA]; [exact SB|now apply starts_app]. }
  intros HI. eapply G; [apply chunk_head|now left|exact HI].
Qed.
(** a replacement where no match starts at the first byte keeps it *)
Lemma states_from_pos prev pos ws s x : (forall w, In w (map snd ws) -> (0 < w)%nat) -> In x (tl (states_from prev pos ws s)) -> (pos < m_pos x)%nat.
Proof.
  revert prev pos s. induction ws as [|[r w] ws IH]; intros prev pos s HW HX; cbn [states_from tl] in HX; [destruct HX|]. pose proof (HW w (or_introl eq_refl)) as W0.
  assert (HW' : forall w, In w (map snd ws) -> (0 < w)%nat) by (intros; apply HW; now right).
  destruct ws as [|[r' w'] ws']; cbn [states_from] in HX.
  - destruct HX as [<-|[]]. cbn [m_pos]. lia.
  - destruct HX as [<-|HX]; [cbn [m_pos]; lia|]. specialize (IH r (pos + w)%nat (skipn w s) HW' HX). lia.
Qed.
Lemma decode_widths s : forall w, In w (map snd (decode s)) -> (0 < w)%nat.
Proof.
  pattern s. apply rune_ind; clear s; [intros w []|]. intros s Hs IH w HI. rewrite decode_unfold in HI by exact Hs. destruct (decode_rune_width s Hs) as [W _]. destruct (decode_rune s) as [r w']. cbn [map snd] in *. destruct HI as [<-|HI]; [lia|auto].
Qed.
Lemma replace_first U r c t repl : (forall k, mtch U (rx_ast r) (Build_mst (-1) (c :: t) 0 []) k = None) -> exists u, replace_all_fn U r (c :: t) repl = c :: u.
Proof.
  intros HN. unfold replace_all_fn. cbn [replace_loop]. destruct (Nat.ltb (length (c :: t)) 0) eqn:L0; [apply Nat.ltb_lt in L0; lia|]. destruct (Regex.exec_from U (rx_ast r) (states (c :: t)) 0) as [m|] eqn:EX; [|exists t; reflexivity].
  assert (MS : (0 < mt_start m)%nat).
  { unfold Regex.exec_from in EX. assert (DW : forall l : list mst, drop_while (fun x => Nat.ltb (m_pos x) 0) l = l) by (intros []; reflexivity). rewrite DW in EX.
    unfold states in EX. pose proof (states_from_pos (-1) 0 (decode (c :: t)) (c :: t)) as SP. specialize (fun x => SP x (decode_widths (c :: t))). destruct (decode (c :: t)) as [|[r0 w0] ws]; cbn [states_from] in EX, SP; cbn [first_match] in EX; unfold match_here at 1 in EX; rewrite HN in EX; [discriminate EX|].
    cbn [tl] in SP. revert EX SP. generalize (states_from r0 (0 + w0) ws (skipn w0 (c :: t))). induction l as [|x l IH]; cbn [first_match]; intros EX SP; [discriminate EX|]. unfold match_here at 1 in EX. destruct (mtch U (rx_ast r) x Some) as [e|].
    - assert (m = {| mt_start := m_pos x; mt_end := m_pos e; mt_caps := m_caps e |}) as -> by congruence. cbn [mt_start]. apply SP. now left.
    - apply IH; [exact EX|]. intros y HY. apply SP. now right. }
  destruct (mt_start m) as [|ms]; [lia|]. unfold slice at 1. cbn [Nat.sub skipn firstn app]. eexists. reflexivity.
Qed.
