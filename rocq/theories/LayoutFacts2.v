(** What formatting the checker time tells about a layout *)
From Coq Require Import ZifyBool.
From Verif Require Import GoBase Civil GoTime GoTimeFacts GoTimeParse Formatted AbsFacts LayoutFacts.

Lemma index_In c : forall s, contains s [c] = true <-> In c s.
Proof.
  assert (G : forall s, (exists i, index s [c] = Some i) <-> In c s).
  { induction s as [|x s IH]; cbn [index has_prefix].
    - split; [intros [i H]; discriminate | intros []].
    - destruct (c =? x) eqn:E; cbn [andb].
      + split; [intros _; left; lia | intros _; exists O; reflexivity].
      + destruct (index s [c]) as [i|] eqn:EI; cbn [option_map].
        * split; [intros _; right; apply IH; eauto | intros _; eauto].
        * split; [intros [i H]; discriminate|]. intros [H|H]; [lia|]. apply IH in H as [i H]. discriminate. }
  intros s. rewrite <- G. unfold contains. destruct (index s [c]); split; eauto; try discriminate. intros [i H]; discriminate.
Qed.

Definition frac_ok (sd : std) : Prop := match sd with StdFracSecond0 _ sep | StdFracSecond9 _ sep => sep = 46 \/ sep = 44 | _ => True end.
Lemma chunk_here_facts s n sd suf : chunk_here s = Some (n, sd, suf) -> frac_ok sd /\ (length suf < length s)%nat.
Proof.
  assert (SL : forall k x (l : str), (length (skipn (S k) (x :: l)) < length (x :: l))%nat) by (intros; cbn [skipn length]; rewrite skipn_length; lia).
  destruct s as [|x s]; [discriminate|]. unfold chunk_here. cbv zeta.
  repeat match goal with |- (if ?b then _ else _) = _ -> _ => destruct b eqn:? end; try discriminate;
  try (match goal with |- Some (_, ?a, ?b) = _ -> _ => intros XE; assert (suf = b) as -> by congruence; assert (sd = a) as -> by congruence end; split; [exact I | apply SL]).
  destruct (skipn 1 (x :: s)) as [|ch l1] eqn:SK; [discriminate|].
  destruct ((ch =? 48) || (ch =? 57)); [|discriminate]. destruct (is_digit_at _ _); [discriminate|].
  intros XE. apply some_inj in XE. assert (suf = skipn (S (run_len ch (ch :: l1))) (x :: s)) as -> by congruence. assert (sd = if ch =? 48 then StdFracSecond0 (run_len ch (ch :: l1)) x else StdFracSecond9 (run_len ch (ch :: l1)) x) as -> by congruence.
  split; [destruct (ch =? 48); cbn; lia | apply SL].
Qed.

(** every chunk and literal of a layout *)
Lemma next_chunk_facts : forall layout acc p o suf, next_chunk acc layout = (p, o, suf) ->
  match o with Some sd => frac_ok sd /\ (length suf < length layout)%nat | None => True end.
Proof.
  induction layout as [|x layout IH]; intros acc p o suf; cbn [next_chunk].
  - cbn [chunk_here]. intros [= _ <- _]. exact I.
  - destruct (chunk_here (x :: layout)) as [[[n sd] s1]|] eqn:EC.
    + intros XE. assert (o = Some sd /\ suf = s1) as [-> ->] by (split; congruence). apply (chunk_here_facts _ _ _ _ EC).
    + intros H. apply IH in H. destruct o; [|exact I]. destruct H as [H1 H2]. split; [exact H1|]. cbn [length]. lia.
Qed.
Lemma layout_chunks_facts c : (forall l, chunk_here (c :: l) <> None) -> c <> 95 -> forall fuel layout cs e, (length layout < fuel)%nat -> layout_chunks fuel layout = (cs, e) ->
  Forall (fun x => ~ In c (fst x) /\ frac_ok (snd x)) cs /\ ~ In c e.
Proof.
  intros HC H95. induction fuel as [|f IH]; intros layout cs e HL; [lia|]. cbn [layout_chunks].
  destruct (next_chunk [] layout) as [[p [sd|]] suf] eqn:EN.
  - pose proof (next_chunk_facts _ _ _ _ _ EN) as [H1 H2]. pose proof (next_chunk_lit c HC H95 layout [] _ _ _ (fun x => x) EN) as H3.
    destruct (layout_chunks f suf) as [l e'] eqn:EL. intros XE. assert (cs = (p, sd) :: l /\ e = e') as [-> ->] by (split; congruence).
    assert (HS : (length suf < f)%nat) by lia. destruct (IH _ _ _ HS EL) as [I1 I2]. split; [constructor; [split; assumption | exact I1] | exact I2].
  - intros XE. assert (cs = [] /\ e = p) as [-> ->] by (split; congruence). split; [constructor|]. exact (next_chunk_lit c HC H95 layout [] _ _ _ (fun x => x) EN).
Qed.
(** literals consist of characters of the layout *)
Lemma next_chunk_sub c : forall layout acc p o suf, ~ In c layout -> ~ In c acc -> next_chunk acc layout = (p, o, suf) -> ~ In c p /\ ~ In c suf.
Proof.
  induction layout as [|x layout IH]; intros acc p o suf HL HA; cbn [next_chunk].
  - cbn [chunk_here]. intros [= <- _ <-]. split; [now rewrite <- in_rev | intros []].
  - destruct (chunk_here (x :: layout)) as [[[n sd] s1]|] eqn:EC.
    + intros XE. assert (p = (rev acc ++ firstn n (x :: layout))%list /\ suf = s1) as [-> ->] by (split; congruence).
      assert (exists k, s1 = skipn k (x :: layout)) as [k ->].
      { revert EC. unfold chunk_here. cbv zeta. repeat match goal with |- (if ?b then _ else _) = _ -> _ => destruct b eqn:? end; try discriminate;
        try (match goal with |- Some (_, ?a, skipn ?k ?b) = _ -> _ => intros XF; assert (s1 = skipn k b) as -> by congruence; now exists k end).
        destruct (skipn 1 (x :: layout)) as [|ch l1] eqn:SK; [discriminate|].
        destruct ((ch =? 48) || (ch =? 57)); [|discriminate]. destruct (is_digit_at _ _); [discriminate|].
        intros XF. exists (S (run_len ch (ch :: l1))). congruence. }
      split.
      * rewrite in_app_iff, <- in_rev. intros [Hi|Hi]; [now apply HA|]. apply HL. rewrite <- (firstn_skipn n (x :: layout)). apply in_or_app. now left.
      * intros Hi. apply HL. rewrite <- (firstn_skipn k (x :: layout)). apply in_or_app. now right.
    + apply IH; [intros Hi; apply HL; now right|]. intros [<-|Hi]; [apply HL; now left|now apply HA].
Qed.
Lemma layout_chunks_sub c : forall fuel layout cs e, ~ In c layout -> layout_chunks fuel layout = (cs, e) ->
  Forall (fun x => ~ In c (fst x)) cs /\ ~ In c e.
Proof.
  induction fuel as [|f IH]; intros layout cs e HL; cbn [layout_chunks]; [intros [= <- <-]; split; [constructor | exact HL]|].
  destruct (next_chunk [] layout) as [[p [sd|]] suf] eqn:EN; apply (next_chunk_sub c) in EN as [H1 H2]; auto.
  - destruct (layout_chunks f suf) as [l e'] eqn:EL. intros XE. assert (cs = (p, sd) :: l /\ e = e') as [-> ->] by (split; congruence).
    destruct (IH _ _ _ H2 EL). split; [constructor|]; assumption.
  - intros [= <- <-]. split; [constructor | exact H1].
Qed.

Definition plain (sd : std) : bool := match sd with StdFracSecond0 _ _ | StdFracSecond9 _ _ => false | _ => true end.
Lemma strip_sub s : forall c, In c (strip_zeros_rev s) -> In c s.
Proof.
  induction s as [|x s IH]; intros c H; [exact H|]. cbn [strip_zeros_rev] in H.
  destruct x as [|q|q]; try exact H; repeat (destruct q as [q|q|]; try exact H). right. apply IH, H.
Qed.
Lemma frac_chars sd c : plain sd = false -> frac_ok sd -> In c (format_chunk sd checker) -> c = 46 \/ c = 44 \/ c = 48 \/ c = 56.
Proof.
  assert (P : pad 9 (nanosecond checker) = lit "000000008") by (vm_compute; reflexivity).
  assert (Q : forall n, In c (firstn n (lit "000000008")) -> c = 48 \/ c = 56).
  { intros n H. assert (I : In c (lit "000000008")) by (rewrite <- (firstn_skipn n (lit "000000008")); apply in_or_app; now left). revert I. clear. cbn. lia. }
  intros PL F. destruct sd; try discriminate PL; clear PL; cbn in F; unfold format_chunk; rewrite P.
  - intros [H|H]; [subst; lia|]. apply Q in H. lia.
  - destruct (strip_zeros_rev _) as [|y l] eqn:ES; [intros []|]. intros [H|H]; [subst; lia|]. apply in_rev in H. rewrite <- ES in H. apply strip_sub in H. apply in_rev in H. apply Q in H. lia.
Qed.
Lemma day_char sd : frac_ok sd -> (In 52 (format_chunk sd checker) <-> day_field sd = true).
Proof.
  intros F. destruct (plain sd) eqn:P.
  - assert (G : existsb (Z.eqb 52) (format_chunk sd checker) = day_field sd) by (destruct sd; try discriminate P; vm_compute; reflexivity).
    rewrite <- G, existsb_exists. split; [intros H; exists 52; split; [exact H | reflexivity] | intros (x & H & E); assert (x = 52) by lia; congruence].
  - assert (day_field sd = false) as -> by (destruct sd; try discriminate P; reflexivity). split; [|discriminate]. intros H. apply (frac_chars _ _ P F) in H. lia.
Qed.
Lemma month_char sd : frac_ok sd -> (In 51 (format_chunk sd checker) -> month_field sd = true) /\ (In 114 (format_chunk sd checker) -> month_field sd = true) /\
  (month_field sd = true -> In 51 (format_chunk sd checker) \/ contains (format_chunk sd checker) (lit "Mar") = true).
Proof.
  intros F. destruct (plain sd) eqn:P.
  - assert (G : implb (existsb (Z.eqb 51) (format_chunk sd checker)) (month_field sd) && implb (existsb (Z.eqb 114) (format_chunk sd checker)) (month_field sd) &&
      implb (month_field sd) (existsb (Z.eqb 51) (format_chunk sd checker) || contains (format_chunk sd checker) (lit "Mar")) = true) by (destruct sd; try discriminate P; vm_compute; reflexivity).
    apply andb_true_iff in G as [G G3]. apply andb_true_iff in G as [G1 G2].
    assert (EX : forall c, In c (format_chunk sd checker) <-> existsb (Z.eqb c) (format_chunk sd checker) = true).
    { intros c. rewrite existsb_exists. split; [intros H; exists c; split; [exact H | lia] | intros (x & H & E); assert (x = c) by lia; congruence]. }
    rewrite !EX. destruct (existsb (Z.eqb 51) _), (existsb (Z.eqb 114) _), (month_field sd); cbn in *; intuition congruence.
  - assert (month_field sd = false) as -> by (destruct sd; try discriminate P; reflexivity).
    split; [|split; [|discriminate]]; intros H; apply (frac_chars _ _ P F) in H; lia.
Qed.

Lemma In_format c cs e t : In c (flat_map (fun '(p, sd) => p ++ format_chunk sd t)%list cs ++ e)%list <->
  (exists x, In x cs /\ (In c (fst x) \/ In c (format_chunk (snd x) t))) \/ In c e.
Proof.
  rewrite in_app_iff, in_flat_map. split; (intros [(x & Hx & H)|H]; [left|right; exact H]); exists x; (split; [exact Hx|]); destruct x as [p sd]; cbn [fst snd] in *; now rewrite in_app_iff in *.
Qed.
Lemma chunk4 l : chunk_here (52 :: l) <> None. Proof. discriminate. Qed.
Lemma chunk3 l : chunk_here (51 :: l) <> None. Proof. discriminate. Qed.

Theorem has_day_field layout : fmt_has_day layout = has_field day_field layout.
Proof.
  unfold fmt_has_day, format_utc, has_field. unfold chunks_of. destruct (layout_chunks _ layout) as [cs e] eqn:EL. cbn [fst].
  destruct (layout_chunks_facts 52 chunk4 ltac:(lia) _ _ _ _ (Nat.lt_succ_diag_r _) EL) as [H1 H2]. rewrite Forall_forall in H1.
  apply eq_true_iff_eq. change (lit "4") with [52]. rewrite index_In, In_format, existsb_exists. split.
  - intros [(x & Hx & [H|H])|H]; [now apply H1 in H| |now apply H2 in H]. exists x. split; [exact Hx|]. apply day_char; [apply H1, Hx | exact H].
  - intros (x & Hx & H). left. exists x. split; [exact Hx|]. right. apply day_char; [apply H1, Hx | exact H].
Qed.

Lemma contains_app s a b : contains s (lit "Mar") = true -> contains (a ++ s ++ b)%list (lit "Mar") = true.
Proof.
  assert (P : forall p s b, has_prefix p s = true -> has_prefix p (s ++ b)%list = true).
  { induction p as [|x p IH]; intros [|y s'] b' H; try reflexivity; try discriminate. cbn [has_prefix app] in *. apply andb_true_iff in H as [H1 H2]. rewrite H1. now apply IH. }
  intros H. assert (H1 : contains (s ++ b)%list (lit "Mar") = true).
  { revert H. unfold contains. induction s as [|x s IH]; [discriminate|]. change ((x :: s) ++ b)%list with (x :: (s ++ b))%list.
    cbn [index]. destruct (has_prefix (lit "Mar") (x :: s)) eqn:HP.
    - apply (P _ _ b) in HP. change ((x :: s) ++ b)%list with (x :: (s ++ b))%list in HP. now rewrite HP.
    - destruct (index s _); [|discriminate]. intros _. destruct (has_prefix (lit "Mar") (x :: (s ++ b)%list)); [reflexivity|]. destruct (index (s ++ b)%list _) eqn:EI; [reflexivity|]. specialize (IH eq_refl). discriminate. }
  clear H. induction a as [|x a IH]; [exact H1|]. change ((x :: a) ++ s ++ b)%list with (x :: (a ++ s ++ b))%list. revert IH. unfold contains. cbn [index].
  destruct (has_prefix (lit "Mar") (x :: (a ++ s ++ b)%list)); [reflexivity|]. destruct (index _ _); [reflexivity | discriminate].
Qed.
Lemma contains_r s : contains s (lit "Mar") = true -> In 114 s.
Proof.
  unfold contains. induction s as [|x s IH]; [discriminate|]. cbn [index]. destruct (has_prefix (lit "Mar") (x :: s)) eqn:HP.
  - intros _. change (lit "Mar") with [77; 97; 114] in HP. destruct s as [|y [|z s]]; cbn [has_prefix] in HP; try lia. right. right. left. lia.
  - destruct (index s _); [|discriminate]. intros _. right. now apply IH.
Qed.

(** a month field is always noticed; without the letter r in the layout, nothing else is taken for one *)
Theorem has_month_field layout : (has_field month_field layout = true -> fmt_has_month layout = true) /\
  (~ In 114 layout -> fmt_has_month layout = has_field month_field layout).
Proof.
  unfold fmt_has_month, format_utc, has_field. unfold chunks_of. destruct (layout_chunks _ layout) as [cs e] eqn:EL. cbn [fst].
  destruct (layout_chunks_facts 51 chunk3 ltac:(lia) _ _ _ _ (Nat.lt_succ_diag_r _) EL) as [H1 H2]. rewrite Forall_forall in H1. cbv zeta. change (lit "3") with [51].
  assert (A : existsb (fun c => month_field (snd c)) cs = true -> contains (flat_map (fun '(p, sd) => (p ++ format_chunk sd checker)%list) cs ++ e)%list [51] || contains (flat_map (fun '(p, sd) => (p ++ format_chunk sd checker)%list) cs ++ e)%list (lit "Mar") = true).
  { rewrite existsb_exists. intros ([p sd] & Hx & H). cbn [snd] in H. apply orb_true_iff. apply (month_char sd) in H as [H|H]; [| |apply (H1 _ Hx)].
    - left. apply index_In, In_format. left. exists (p, sd). auto.
    - right. apply in_split in Hx as (l1 & l2 & ->). rewrite flat_map_app. cbn [flat_map]. rewrite <- !app_assoc. rewrite (app_assoc (flat_map _ l1) p). apply contains_app, H. }
  split; [exact A|]. intros H3. destruct (layout_chunks_sub 114 _ _ _ _ H3 EL) as [S1 S2]. rewrite Forall_forall in S1.
  apply eq_true_iff_eq. split; [|exact A]. rewrite orb_true_iff, index_In. intros H. apply existsb_exists.
  assert (B : forall c, (c = 51 \/ c = 114) -> In c (flat_map (fun '(p, sd) => (p ++ format_chunk sd checker)%list) cs ++ e)%list -> exists x, In x cs /\ month_field (snd x) = true).
  { intros c Hc Hi. apply In_format in Hi as [(x & Hx & [Hi|Hi])|Hi]; [| |exfalso; destruct Hc as [-> | ->]; auto].
    - exfalso. destruct Hc as [-> | ->]; [apply (H1 _ Hx), Hi | apply (S1 _ Hx), Hi].
    - exists x. split; [exact Hx|]. destruct (month_char (snd x) (proj2 (H1 _ Hx))) as (M1 & M2 & _). destruct Hc as [-> | ->]; auto. }
  destruct H as [H|H]; [apply (B 51); auto | apply (B 114); auto; now apply contains_r].
Qed.
