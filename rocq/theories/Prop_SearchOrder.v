(** C64: the texts reported by Search are in the order of the input and do not overlap. *)
From Coq Require Import ZifyBool.
From Verif Require Import Timezone Absolute Common Concrete LocaleData LocaleAll Shows GoBase SMap Regex Utf8Facts RegexFacts RegexFacts2 RegexFacts3 RegexFacts5 SpaceRuns Civil GoTime Setting Strutil Env Language Parser Search SplitFacts Prop_Search Prop_SearchText.

(** the parts [l] are found in [b] one after the other, each behind the end of the one before *)
Inductive in_order {A} : list A -> list (list A) -> Prop :=
| io_end b : in_order b []
| io_next x p y r : in_order y r -> in_order (x ++ p ++ y) (p :: r).

Section Order.
Context {A : Type}.
Implicit Types (b p x y : list A) (l : list (list A)).
Lemma io_before x b l : in_order b l -> in_order (x ++ b) l.
Proof. intros [b'|x' p y r H]; [constructor|]. rewrite app_assoc. now constructor. Qed.
Lemma io_after y b l : in_order b l -> in_order (b ++ y) l.
Proof. induction 1 as [|x p z r H IH]; [constructor|]. rewrite <- !app_assoc. now constructor. Qed.
Lemma io_app b b' l l' : in_order b l -> in_order b' l' -> in_order (b ++ b') (l ++ l').
Proof. induction 1 as [|x p z r H IH]; intros H'; [now apply io_before|]. rewrite <- !app_assoc. cbn [app]. constructor. now apply IH. Qed.
Lemma io_one p : in_order p [p].
Proof. rewrite <- (app_nil_r p) at 1. exact (io_next [] p [] [] (io_end [])). Qed.
Lemma io_inv b p l : in_order b (p :: l) -> exists x y, b = x ++ p ++ y /\ in_order y l.
Proof. intros H. remember (p :: l) as pl eqn:E. destruct H as [|x q y r H]; [discriminate E|]. assert (q = p) by congruence. assert (r = l) by congruence. subst q r. now exists x, y. Qed.
(** parts of parts *)
Lemma io_within b l ll : in_order b l -> Forall2 in_order l ll -> in_order b (concat ll).
Proof.
  intros H. revert ll. induction H as [|x p y r H IH]; intros ll HF; inversion_clear HF as [|? l' ? ll' H1 H2]; [constructor|]. cbn [concat]. apply io_before, io_app; [exact H1|]. now apply IH.
Qed.
Lemma io_nil l : in_order (@nil A) l -> Forall (eq []) l.
Proof.
  intros H. remember [] as b eqn:E. induction H as [|x p y r H IH]; [constructor|]. apply app_eq_nil in E as [-> E]. apply app_eq_nil in E as [-> ->]. constructor; [reflexivity|auto].
Qed.
Lemma nil_io b l : Forall (eq []) l -> in_order b l.
Proof. induction 1 as [|p l H _ IH]; [constructor|]. subst p. exact (io_next [] [] b l IH). Qed.
End Order.
Inductive sublist {A} : list A -> list A -> Prop :=
| sl_nil : sublist [] []
| sl_skip x l l' : sublist l l' -> sublist l (x :: l')
| sl_take x l l' : sublist l l' -> sublist (x :: l) (x :: l').
Lemma sublist_nil {A} (l : list A) : sublist [] l. Proof. induction l; now constructor. Qed.
Lemma sublist_filter {A} f (l : list A) : sublist (filter f l) l.
Proof. induction l as [|x l IH]; [constructor|]. cbn [filter]. destruct (f x); now constructor. Qed.
Lemma sublist_map {A B} (f : A -> B) l l' : sublist l l' -> sublist (map f l) (map f l').
Proof. induction 1; cbn [map]; now constructor. Qed.
Lemma io_sublist {A} (b : list A) l l' : in_order b l' -> sublist l l' -> in_order b l.
Proof.
  intros H S. revert b H. induction S as [|x l l' S IH|x l l' S IH]; intros b H; [exact H| |]; apply io_inv in H as (u & v & -> & H).
  - apply io_before, io_before. now apply IH.
  - constructor. now apply IH.
Qed.
Lemma io_occurs (b : str) l l' : in_order b l -> Forall2 occurs l' l -> in_order b l'.
Proof.
  intros H. revert l'. induction H as [|x p y r H IH]; intros l' HF; inversion HF as [|p' ? l2 ? H1 H2]; subst; [constructor|]. destruct H1 as (u & v & ->).
  replace (x ++ (u ++ p' ++ v) ++ y) with ((x ++ u) ++ p' ++ (v ++ y)) by now rewrite <- !app_assoc. constructor. apply io_before. now apply IH.
Qed.
Lemma io_whole (b b' : str) l : occurs b b' -> in_order b l -> in_order b' l.
Proof. intros (x & y & ->) H. now apply io_before, io_after. Qed.

(** ** A space at either end *)
Lemma io_lead b l : in_order (32 :: b) l -> Forall tight l -> in_order b l.
Proof.
  revert b. induction l as [|p l IH]; intros b H HT; [constructor|]. inversion_clear HT as [|? ? [T1 _] HT']. apply io_inv in H as (x & y & E & H). destruct x as [|c x].
  - cbn [app] in E. destruct p as [|c p].
    + cbn [app] in E. subst y. apply (io_next [] [] b l). now apply IH.
    + exfalso. cbn [app] in E. apply (T1 p). congruence.
  - cbn [app] in E. assert (b = x ++ p ++ y) as -> by congruence. now constructor.
Qed.
Lemma io_trail b l : in_order (b ++ [32]) l -> Forall tight l -> in_order b l.
Proof.
  revert b. induction l as [|p l IH]; intros b H HT; [constructor|]. inversion_clear HT as [|? ? [_ T2] HT']. apply io_inv in H as (x & y & E & H). destruct y as [|y0 y1] using rev_ind.
  - rewrite app_nil_r in E. destruct p as [|p0 p1] using rev_ind.
    + apply nil_io. constructor; [reflexivity|]. now apply io_nil.
    + exfalso. rewrite app_assoc in E. apply app_inj_tail in E as [_ E]. subst p0. now apply (T2 p1).
  - clear IHy1. rewrite !app_assoc in E. apply app_inj_tail in E as [E E0]. subst y0. rewrite E, <- app_assoc. constructor. now apply IH.
Qed.
Lemma io_inside a b c l : (a = [] \/ a = [32]) -> (c = [] \/ c = [32]) -> in_order (a ++ b ++ c) l -> Forall tight l -> in_order b l.
Proof.
  intros HA HC H HT. assert (H1 : in_order (b ++ c) l) by (destruct HA as [-> | ->]; [exact H|now apply io_lead]). destruct HC as [-> | ->]; [now rewrite app_nil_r in H1|now apply io_trail].
Qed.
(** runs of words *)
Lemma occurs_join (u v : list str) : occurs (sjoin u (lit " ")) (sjoin (u ++ v) (lit " ")).
Proof. destruct u as [|x u]; [apply occurs_nil|]. destruct v as [|y v]; [rewrite app_nil_r; apply occurs_refl|]. rewrite sjoin_app by discriminate. exists [], (lit " " ++ sjoin (y :: v) (lit " ")). reflexivity. Qed.
Lemma join_split (u v : list str) : exists g, sjoin (u ++ v) (lit " ") = sjoin u (lit " ") ++ g ++ sjoin v (lit " ").
Proof.
  destruct u as [|x u]; [exists []; reflexivity|]. destruct v as [|y v]; [exists []; now rewrite !app_nil_r|]. exists (lit " "). now rewrite sjoin_app by discriminate.
Qed.
Lemma io_words (b : list str) l : in_order b l -> in_order (sjoin b (lit " ")) (map (fun p => sjoin p (lit " ")) l).
Proof.
  induction 1 as [|x p y r H IH]; [constructor|]. cbn [map]. destruct (join_split x (p ++ y)) as (g & ->). destruct (join_split p y) as (g2 & ->). rewrite app_assoc. constructor. now apply io_before.
Qed.

(** ** Sentences *)
Fixpoint chain (n : nat) (ms : list match_) : Prop :=
  match ms with
  | [] => True
  | m :: ms => (n <= mt_end m)%nat /\ (forall a b, cap m 1 = Some (a, b) -> (b <= mt_end m)%nat) /\ chain (mt_end m) ms
  end.
Lemma chain_less n n' ms : (n' <= n)%nat -> chain n ms -> chain n' ms.
Proof. destruct ms; cbn [chain]; [auto|]. intros H (H1 & H2 & H3). split; [lia|auto]. Qed.
Lemma states_sorted : forall ws prev pos s, Forall (fun x => (pos <= m_pos x)%nat) (states_from prev pos ws s) /\
  forall p, Forall (fun x => (p <= m_pos x)%nat) (drop_while (fun x => Nat.ltb (m_pos x) p) (states_from prev pos ws s)).
Proof.
  induction ws as [|[r w] ws IH]; intros prev pos s; cbn [states_from].
  - split; [constructor; [cbn; lia|constructor]|]. intros p. cbn [drop_while m_pos]. destruct (Nat.ltb_spec pos p); [constructor|]. constructor; [cbn; lia|constructor].
  - destruct (IH r (pos + w)%nat (skipn w s)) as [H1 H2]. split.
    + constructor; [cbn; lia|]. eapply Forall_impl; [|exact H1]. cbv beta. intros; lia.
    + intros p. cbn [drop_while m_pos]. destruct (Nat.ltb_spec pos p); [apply H2|]. constructor; [cbn; lia|]. eapply Forall_impl; [|exact H1]. cbv beta. intros; lia.
Qed.
Lemma exec_start U r s p m : exec_from U r (states s) p = Some m -> (p <= mt_start m)%nat.
Proof.
  unfold exec_from, states. destruct (states_sorted (decode s) (-1) 0 s) as [_ H]. specialize (H p). revert H. generalize (drop_while (fun x => Nat.ltb (m_pos x) p) (states_from (-1) 0 (decode s) s)). intros l H. induction H as [|st l H HF IH]; cbn [first_match]; [discriminate|].
  unfold match_here. destruct (mtch U r st Some); [|exact IH]. intros X. assert (m_pos st = mt_start m) as <- by (assert (E : forall (a b : match_), Some a = Some b -> a = b) by congruence; apply E in X; now rewrite <- X). exact H.
Qed.
Lemma exec_placed U r s p m : exec_from U r (states s) p = Some m -> placed r s m.
Proof.
  unfold exec_from. apply first_match_placed. pose proof (states_in s) as F. revert F. generalize (states s). intros l F. induction F as [|x l Hx F IHF]; cbn [drop_while]; [constructor|]. destruct (Nat.ltb (m_pos x) p); [exact IHF|now constructor].
Qed.
Lemma cap_end r s m a b : placed r s m -> cap m 1 = Some (a, b) -> (b <= mt_end m)%nat.
Proof.
  intros [_ _ HC] H. cbn [cap] in H. destruct (List.find _ _) as [[i [u v]]|] eqn:F; [|discriminate H]. cbn [option_map snd] in H. assert (v = b) by congruence. subst v. apply find_some in F as [F _]. rewrite Forall_forall in HC. apply HC in F. cbn [fst snd] in F. lia.
Qed.
Lemma all_chain U r s : forall fuel pos pe, chain pos (all_matches U fuel r (states s) s pos pe).
Proof.
  induction fuel as [|f IH]; intros pos pe; cbn [all_matches]; [exact I|]. destruct (Nat.ltb_spec (length s) pos) as [L|L]; [exact I|]. destruct (exec_from U r (states s) pos) as [m|] eqn:EX; [|exact I].
  pose proof (exec_start _ _ _ _ _ EX) as ST. pose proof (exec_placed _ _ _ _ _ EX) as PL. destruct PL as [P1 P2 P3] eqn:EP. clear EP.
  set (pos' := if Nat.eqb (mt_end m) pos then _ else _). assert (LE : (mt_end m <= pos')%nat).
  { unfold pos'. destruct (Nat.eqb_spec (mt_end m) pos) as [X|X]; [|lia]. destruct (width_at s pos); lia. }
  specialize (IH pos' (Some (mt_end m))). destruct (negb _).
  - cbn [chain]. split; [lia|]. split; [intros a b; exact (cap_end r s m a b {| pl_le := P1; pl_end := P2; pl_caps := P3 |})|]. eapply chain_less; [exact LE|exact IH].
  - eapply chain_less; [|exact IH]. lia.
Qed.
Lemma skip_cut (s : str) i j : (i <= j)%nat -> skipn i s = slice s i j ++ skipn j s.
Proof. intros H. unfold slice. rewrite <- (firstn_skipn (j - i) (skipn i s)) at 1. f_equal. rewrite skipn_skipn. f_equal. lia. Qed.
Lemma slice_nil (s : str) i j : (j <= i)%nat -> slice s i j = [].
Proof. intros H. unfold slice. replace (j - i)%nat with 0%nat by lia. reflexivity. Qed.
Lemma sentence_order E ld s : forall ms lst l, chain lst ms -> sentence_loop E ld s ms lst = Ok l -> in_order (skipn lst s) l.
Proof.
  induction ms as [|m ms IH]; intros lst l HC; cbn [sentence_loop].
  - intros H. assert (EL : l = if empty (trim_space (skipn lst s)) then [] else [trim_space (skipn lst s)]) by congruence. subst l. destruct (empty _); [constructor|]. apply (io_occurs _ _ _ (io_one _)). constructor; [apply trim_occurs|constructor].
  - destruct HC as (C1 & C2 & C3). destruct (cap m 1) as [[a b]|] eqn:CP; [|discriminate]. specialize (C2 a b eq_refl). destruct (_ || _); [apply IH; eapply chain_less; eassumption|]. destruct (sentence_loop E ld s ms (mt_end m)) as [r|e|] eqn:SL; cbn [rbind]; [|discriminate|discriminate]. intros H. specialize (IH _ _ C3 SL).
    assert (EL : l = if empty (trim_space (slice s lst b)) then r else trim_space (slice s lst b) :: r) by congruence. subst l. destruct (empty (trim_space (slice s lst b))) eqn:EM.
    + rewrite (skip_cut s lst (mt_end m) C1). now apply io_before.
    + destruct (Nat.leb_spec b lst) as [LE|LT]; [rewrite (slice_nil s lst b LE) in EM; discriminate EM|]. rewrite (skip_cut s lst b) by lia. rewrite (skip_cut s b (mt_end m)) by lia. change (trim_space (slice s lst b) :: r) with ([trim_space (slice s lst b)] ++ r). apply io_app; [|now apply io_before]. apply (io_occurs _ _ _ (io_one _)). constructor; [apply trim_occurs|constructor].
Qed.
Lemma split_order E ld s l : split_sentence E ld s = Ok l -> in_order s l.
Proof. intros H. change s with (skipn 0 s) at 1. apply (sentence_order E ld s) with (2 := H). apply all_chain. Qed.

(** ** The chunks of a sentence *)
(** every dictionary word has one meaning *)
Definition one_meaning (ld : locale) : Prop := Forall (fun e => (length (snd e) <= 1)%nat) (ld_trans ld).
Lemma mget_In {A} (m : smap A) k v : mget m k = Some v -> exists k', In (k', v) m.
Proof. induction m as [|[k' w] m IH]; cbn [mget]; [discriminate|]. destruct (eqs k k'); [intros H; assert (w = v) as -> by congruence; exists k'; now left|]. intros H. destruct (IH H) as (k2 & H2). exists k2. now right. Qed.
Lemma one_word ld w : one_meaning ld -> (length (match translate_word ld w with Some t => t | None => [] end) <= 1)%nat.
Proof.
  intros HO. unfold translate_word. destruct (mget (ld_reltype ld) w); [cbn; lia|]. destruct (mget (ld_trans ld) w) as [ts|] eqn:M; [|cbn; lia]. apply mget_In in M as (k & M). unfold one_meaning in HO. rewrite Forall_forall in HO. exact (HO _ M).
Qed.
Lemma fold_one {A} (l : list (list A)) : existsb (fun e => match e with [] => true | _ => false end) l = false -> Forall (fun e => (length e <= 1)%nat) l -> fold_left (fun a e => (a * length e)%nat) l 1%nat = 1%nat.
Proof. intros HX HF. induction HF as [|e l H _ IH]; [reflexivity|]. cbn [existsb] in HX. cbn [fold_left]. destruct e as [|x e]; [discriminate HX|]. destruct e; [|cbn [length] in H; lia]. cbn [length Nat.mul]. apply IH. exact HX. Qed.
Lemma perm_one {A} (d : A) l ps : Forall (fun e => (length e <= 1)%nat) l -> create_permutation d l = Ok ps -> exists p, ps = [p].
Proof.
  intros HF. unfold create_permutation. destruct (existsb _ l) eqn:X; [discriminate|]. rewrite (fold_one l X HF). cbv zeta. cbn [seq map]. intros H. eexists. symmetry. match type of H with Ok ?a = Ok ?b => assert (a = b) as E by congruence; exact E end.
Qed.

Section Chunks.
Variable E : env.
Variable ld : locale.
Hypothesis NS : ld_nospacing ld = false.
Hypothesis OM : one_meaning ld.
Variable orig : list str.
Hypothesis OW : Forall (fun w => Forall (fun c => wb c = false) w) orig.
Notation ws p := (flat_map wds (snd p)).
Definition ok_tc (tc : list (list str)) : Prop := Forall (fun e => (length e <= 1)%nat) tc.
Definition ordered (k : nat) (oc : list str) (done : list (list str * list str)) : Prop :=
  Forall plain oc /\ Forall (fun p => Forall plain (snd p)) done /\
  exists W gap, flat_map wds (firstn k orig) = W ++ gap ++ flat_map wds (rev oc) /\ in_order W (map (fun p => ws p) (rev done)).
Lemma firstn_more {A} (l : list A) k : exists x, firstn (S k) l = firstn k l ++ x.
Proof. destruct (nth_error l k) as [x|] eqn:N; [exists [x]; now apply firstn_next|]. exists []. rewrite app_nil_r. apply nth_error_None in N. now rewrite !firstn_all2 by lia. Qed.
Lemma ordered_next k o oc done : orig_at orig k = Ok o -> ordered k oc done -> ordered (S k) (o :: oc) done.
Proof.
  intros HO (H1 & H2 & W & g & HW & HI). apply (at_word orig OW) in HO as [HN HP]. split; [now constructor|]. split; [exact H2|]. exists W, g. split; [|exact HI]. rewrite (firstn_next _ _ _ HN), flat_map_app, HW. cbn [rev flat_map]. rewrite flat_map_app. cbn [flat_map]. now rewrite <- !app_assoc.
Qed.
Lemma ordered_two k o o2 oc done : orig_at orig k = Ok o -> orig_at orig (S k) = Ok o2 -> ordered k oc done -> ordered (S (S k)) (join_chunk E ld [o; o2] :: oc) done.
Proof.
  intros HO HO2 (H1 & H2 & W & g & HW & HI). apply (at_word orig OW) in HO as [HN HP]. apply (at_word orig OW) in HO2 as [HN2 HP2]. assert (PP : plain (sjoin [o; o2] (lit " "))) by (apply sjoin_plain; auto).
  rewrite (join_collapse E ld NS) by auto. split; [constructor; [now apply collapse_plain|exact H1]|]. split; [exact H2|]. exists W, g. split; [|exact HI]. rewrite (firstn_next _ _ _ HN2), (firstn_next _ _ _ HN), !flat_map_app, HW. cbn [rev]. rewrite flat_map_app. cbn [flat_map]. rewrite wds_collapse by exact PP. rewrite wds_sjoin. cbn [flat_map]. rewrite !app_nil_r. now rewrite <- !app_assoc.
Qed.
Lemma ordered_skip k done : ordered k [] done -> ordered (S k) [] done.
Proof.
  intros (_ & H2 & W & g & HW & HI). split; [constructor|]. split; [exact H2|]. destruct (firstn_more orig k) as (x & HX). exists W, (g ++ flat_map wds x). split; [|exact HI]. rewrite HX, flat_map_app, HW. cbn [rev flat_map]. now rewrite !app_nil_r, <- app_assoc.
Qed.
Lemma flush_ordered k tc oc done done' : (tc = [] -> oc = []) -> ok_tc tc -> ordered k oc done -> flush tc oc done = Ok done' -> ordered k [] done'.
Proof.
  intros HE HT HO. unfold flush. destruct tc as [|t tc].
  - rewrite (HE eq_refl) in HO. intros H. assert (done' = done) as -> by congruence. exact HO.
  - destruct HO as (H1 & H2 & W & g & HW & HI). destruct (create_permutation [] (rev (t :: tc))) as [ps|e|] eqn:CP; cbn [rbind]; [|discriminate|discriminate]. apply perm_one in CP as (p & ->); [|now apply Forall_rev]. intros H. assert (EH : done' = (p, rev oc) :: done) by (cbn in H; congruence). subst done'.
    split; [constructor|]. split; [constructor; [cbn [snd]; now apply Forall_rev|exact H2]|]. exists (W ++ g ++ flat_map wds (rev oc)), []. split; [rewrite HW; cbn [rev flat_map]; now rewrite !app_nil_r|]. cbn [rev]. rewrite map_app. cbn [map snd]. apply io_app; [exact HI|]. apply io_before, io_one.
Qed.
Lemma ts_ordered : forall words i (skip : bool) tc oc done r, (tc = [] -> oc = []) -> ok_tc tc -> ordered (if skip then S i else i) oc done ->
  ts_loop E ld orig words i skip tc oc done = Ok r -> exists k, ordered k [] r.
Proof.
  induction words as [|word rest IH]; intros i skip tc oc done r HE HT HO; cbn [ts_loop]; [intros HF; eexists; exact (flush_ordered _ _ _ _ _ HE HT HO HF)|]. destruct skip; [apply IH; [exact HE|exact HT|exact HO]|].
  cbv zeta. assert (ONE : forall t, (length t <= 1)%nat -> (do o <- orig_at orig i ; ts_loop E ld orig rest (S i) false (t :: tc) (o :: oc) done) = Ok r -> exists k, ordered k [] r).
  { intros t LT. destruct (orig_at orig i) as [o|e|] eqn:OA; cbn [rbind]; [|discriminate|discriminate]. apply IH; [discriminate|now constructor|exact (ordered_next i o oc _ OA HO)]. }
  destruct (empty word || _); [apply ONE; cbn; lia|]. destruct (in_dictionary ld (join_chunk _ _ _) && _ && _).
  { destruct (orig_at orig i) as [o|e|] eqn:OA; cbn [rbind]; [|discriminate|discriminate]. destruct (orig_at orig (S i)) as [o2|e|] eqn:OA2; cbn [rbind]; [|discriminate|discriminate]. apply IH; [discriminate|constructor; [now apply one_word|exact HT]|exact (ordered_two i o o2 oc _ OA OA2 HO)]. }
  destruct (in_dictionary ld word && _); [apply ONE; now apply one_word|]. destruct (in_dictionary ld (trim_chars word _) && _); [apply ONE; rewrite map_length; now apply one_word|]. destruct (token_digits_ok E ld word); [apply ONE; cbn; lia|].
  destruct tc as [|t tc].
  { pose proof (HE eq_refl) as EO. subst oc. apply IH; [reflexivity|exact HT|]. now apply ordered_skip. }
  destruct (orig_at orig i) as [o|e|] eqn:OA; cbn [rbind]; [|discriminate|discriminate]. destruct (word_is_tz _ o); [apply IH; [discriminate|constructor; [cbn; lia|exact HT]|exact (ordered_next i o oc _ OA HO)]|].
  destruct (flush (t :: tc) oc done) as [done'|e|] eqn:FL; cbn [rbind]; [|discriminate|discriminate]. apply IH; [reflexivity|constructor|]. apply ordered_skip. exact (flush_ordered i _ _ _ _ HE HT HO FL).
Qed.
Lemma chunks_order words r : ts_loop E ld orig words 0 false [] [] [] = Ok r ->
  in_order (filter ne orig) (map (fun p => ws p) (rev r)) /\ Forall (fun p => Forall plain (snd p)) (rev r).
Proof.
  intros H. apply ts_ordered in H as (k & _ & H2 & W & g & HW & HI); [|reflexivity|constructor|].
  - split; [|now apply Forall_rev]. rewrite <- (words_flat orig OW). rewrite <- (firstn_skipn k orig), flat_map_app, HW. now apply io_after, io_after.
  - split; [constructor|]. split; [constructor|]. exists [], []. split; [reflexivity|constructor].
Qed.
(** the text of a chunk *)
Lemma chunk_text l rs : Forall plain l -> Forall tight rs -> in_order (join_chunk E ld (filter_chunk l)) rs -> in_order (sjoin (flat_map wds l) (lit " ")) rs.
Proof.
  intros HP HT HO. assert (HF : Forall plain (filter_chunk l)) by (unfold filter_chunk; rewrite Forall_forall in *; intros x HX; apply filter_In in HX as [HX _]; auto).
  rewrite (join_collapse E ld NS) in HO by exact HF. destruct (collapse_form _ (sjoin_plain _ HF)) as (u & v & HU & HV & EC). rewrite EC, wds_sjoin in HO. apply io_inside in HO; [|assumption|assumption|exact HT].
  assert (FL : flat_map wds (filter_chunk l) = flat_map wds l) by (clear; induction l as [|x l IH]; [reflexivity|]; cbn [filter_chunk filter]; destruct x; cbn [empty negb]; [exact IH|cbn [flat_map]; now rewrite <- IH]).
  now rewrite FL in HO.
Qed.
End Chunks.

(** ** The texts of one translation *)
Lemma cut_pieces sep : forall parts, in_order (sjoin parts sep) parts.
Proof.
  induction parts as [|x parts IH]; [constructor|]. destruct parts as [|y parts]; [apply io_one|]. rewrite sjoin_cons by discriminate. exact (io_next [] x _ _ (io_before sep _ _ IH)).
Qed.
Section Found.
Variable E : env.
Variable D : langdb.
Variable det : option (str -> list str).
Variable need : bool.
Definition trims (x y : str) : Prop := occurs x y /\ tight x.
Lemma trims_any f s : f 32 = true -> trims (trim_func f s) s.
Proof. intros H. split; [apply trim_occurs|now apply trim_tight]. Qed.
Lemma split_texts : forall parts p ic acc p' ic' r, parse_split E D det p ic need parts acc = Ok (p', ic', r) ->
  exists new os, r = acc ++ new /\ sublist os (map snd parts) /\ Forall2 trims (map snd new) os.
Proof.
  induction parts as [|[e o] parts IH]; intros p ic acc p' ic' r HP; cbn [parse_split] in HP.
  - assert (r = acc) as -> by congruence. exists [], []. rewrite app_nil_r. split; [reflexivity|]. split; constructor.
  - destruct (Nat.leb (rune_count e) 2).
    + destruct (IH _ _ _ _ _ _ HP) as (new & os & H1 & H2 & H3). exists new, os. split; [exact H1|]. split; [now constructor|exact H3].
    + destruct (parse_entry E D det p ic e e (map fst acc) need) as [[[p1 ic1] ps]|er|]; cbn [rbind] in HP; try discriminate HP. destruct (IH _ _ _ _ _ _ HP) as (new & os & H1 & H2 & H3).
      exists ((ps, trim_chars o (lit " .,:()[]-")) :: new), (o :: os). split; [rewrite H1, <- app_assoc; reflexivity|]. split; [now constructor|]. constructor; [|exact H3]. apply trims_any. reflexivity.
Qed.
Lemma splits_texts : forall sps p ic p' ic' cs, parse_splits E D det p ic need sps = Ok (p', ic', cs) ->
  Forall2 (fun sp c => exists os, sublist os (map snd (combine (sp_entry sp) (sp_orig sp))) /\ Forall2 trims (map snd c) os) sps cs.
Proof.
  induction sps as [|sp sps IH]; intros p ic p' ic' cs HP; cbn [parse_splits] in HP.
  - assert (cs = []) as -> by congruence. constructor.
  - destruct (parse_split E D det p ic need _ []) as [[[p1 ic1] c]|er|] eqn:PS; cbn [rbind] in HP; try discriminate HP. destruct (parse_splits E D det p1 ic1 need sps) as [[[p2 ic2] cs2]|er|] eqn:PSS; cbn [rbind] in HP; try discriminate HP.
    assert (cs = c :: cs2) as -> by congruence. constructor; [|eapply IH; exact PSS]. destruct (split_texts _ _ _ _ _ _ _ PS) as (new & os & H1 & H2 & H3). cbn [app] in H1. subst new. now exists os.
Qed.
Lemma trims_sublist l l2 os : sublist l l2 -> Forall2 trims l2 os -> exists os', sublist os' os /\ Forall2 trims l os'.
Proof.
  intros S. revert os. induction S as [|x l l' S IH|x l l' S IH]; intros os HF; inversion_clear HF as [|? o ? os2 H1 H2]; [exists []; split; constructor| |]; destruct (IH _ H2) as (os' & S1 & S2); [exists os'; split; [now constructor|exact S2]|exists (o :: os'); split; now constructor].
Qed.
Lemma sublist_trans {A} (a b c : list A) : sublist a b -> sublist b c -> sublist a c.
Proof. intros H1 H2. revert a H1. induction H2 as [|x l l' S IH|x l l' S IH]; intros a H1; [exact H1|constructor; now apply IH|]. inversion_clear H1; constructor; now apply IH. Qed.
Lemma trims_order b l os : in_order b os -> Forall2 trims l os -> in_order b l /\ Forall tight l.
Proof.
  intros HI HF. split.
  - apply (io_occurs b os l HI). clear HI. induction HF as [|x o l os [H _] _ IH]; now constructor.
  - clear HI. induction HF as [|x o l os [_ H] _ IH]; now constructor.
Qed.
Lemma best_one cs : cs <> [] -> exists i, nth_error cs i = Some (choose_best_split E cs).
Proof. intros H. destruct (C42_best_split E cs H) as (i & best & NB & CB & _). exists i. now rewrite CB. Qed.
Lemma combine_snd {A B} (l : list A) (l' : list B) : length l = length l' -> map snd (combine l l') = l'.
Proof. revert l'. induction l as [|x l IH]; intros [|y l'] H; try discriminate H; [reflexivity|]. cbn [combine map snd]. rewrite IH by (cbn in H; congruence). reflexivity. Qed.
Lemma found_texts : forall l p ic acc p' r, parse_found E D det p ic need l acc = Ok (p', r) ->
  exists groups, r = acc ++ concat groups /\ Forall2 (fun it g => in_order (snd it) (map snd g) /\ Forall tight (map snd g)) l groups.
Proof.
  induction l as [|[[entry tr] original] l IH]; intros p ic acc p' r HP; cbn [parse_found] in HP.
  - assert (r = acc) as -> by congruence. exists []. rewrite app_nil_r. split; [reflexivity|constructor].
  - assert (NONE : in_order (snd (entry, tr, original)) (map snd (@nil (parsed_search * str))) /\ Forall tight (map snd (@nil (parsed_search * str)))) by (split; constructor).
    destruct (Nat.leb (rune_count entry) 2).
    { destruct (IH _ _ _ _ _ HP) as (gs & H1 & H2). exists ([] :: gs). split; [exact H1|]. now constructor. }
    destruct (parse_entry E D det p ic entry tr (map fst acc) need) as [[[p1 ic1] ps]|er|]; cbn [rbind] in HP; try discriminate HP.
    destruct (date_is_zero (fst ps)) eqn:Z; cbn [negb] in HP.
    + destruct (split_if_not_parsed entry original) as [|sp0 sps0] eqn:SP.
      { destruct (IH _ _ _ _ _ HP) as (gs & H1 & H2). exists ([] :: gs). split; [exact H1|]. now constructor. }
      rewrite <- SP in HP. destruct (parse_splits E D det p1 ic1 need (split_if_not_parsed entry original)) as [[[p2 ic2] cs]|er|] eqn:PSS; cbn [rbind] in HP; try discriminate HP. pose proof (splits_texts _ _ _ _ _ _ PSS) as FS.
      destruct (IH _ _ _ _ _ HP) as (gs & H1 & H2). exists (filter (fun x => negb (date_is_zero (fst (fst x)))) (choose_best_split E cs) :: gs). split; [rewrite H1, <- app_assoc; reflexivity|]. constructor; [|exact H2]. cbn [snd].
      destruct (best_one cs) as (i & NB); [intros ->; rewrite SP in FS; inversion FS|]. set (best := choose_best_split E cs) in *. clearbody best. destruct (nth_error (split_if_not_parsed entry original) i) as [sp|] eqn:NS.
      * assert (X : exists os, sublist os (map snd (combine (sp_entry sp) (sp_orig sp))) /\ Forall2 trims (map snd best) os).
        { clear - FS NS NB. revert i NS NB. induction FS as [|sp1 c1 sps cs H _ IH]; intros [|i] NS NB; try discriminate NS; cbn [nth_error] in *; [assert (sp1 = sp) by congruence; assert (c1 = best) by congruence; now subst|eauto]. }
        destruct X as (os & S1 & F1). apply nth_error_In in NS. destruct (C42_split_consistent entry original sp NS) as (sep & _ & _ & _ & LE & _ & CO). rewrite (combine_snd _ _ LE) in S1. unfold cut_at in CO.
        destruct (trims_sublist _ _ _ (sublist_map snd _ _ (sublist_filter (fun x => negb (date_is_zero (fst (fst x)))) best)) F1) as (os' & S2 & F2). apply (trims_order original _ os'); [|exact F2]. rewrite <- CO. eapply io_sublist; [apply cut_pieces|]. eapply sublist_trans; eassumption.
      * exfalso. apply nth_error_None in NS. assert (LL : length (split_if_not_parsed entry original) = length cs) by (clear - FS; induction FS; cbn; congruence). assert (i < length cs)%nat by (apply nth_error_Some; congruence). lia.
    + destruct (IH _ _ _ _ _ HP) as (gs & H1 & H2). exists ([(ps, trim_chars original (lit " .,:()[]-'"))] :: gs). split; [rewrite H1, <- app_assoc; reflexivity|]. constructor; [|exact H2].
      cbn [map snd]. apply (trims_order original _ [original] (io_one _)). constructor; [apply trims_any; reflexivity|constructor].
Qed.
End Found.

(** ** All the texts *)
Lemma Forall2_concat {A B} (R : A -> B -> Prop) : forall (ll : list (list A)) l', Forall2 R (concat ll) l' -> exists ll', l' = concat ll' /\ Forall2 (Forall2 R) ll ll'.
Proof.
  induction ll as [|l ll IH]; intros l' H; cbn [concat] in H.
  - inversion H; subst. exists []. split; [reflexivity|constructor].
  - apply Forall2_app_inv_l in H as (a & b & H1 & H2 & ->). destruct (IH _ H2) as (ll' & -> & H3). exists (a :: ll'). split; [reflexivity|now constructor].
Qed.
Lemma Forall2_map_l {A B C} (f : A -> B) (R : B -> C -> Prop) : forall l l', Forall2 R (map f l) l' -> Forall2 (fun x y => R (f x) y) l l'.
Proof. induction l as [|x l IH]; intros l' H; inversion H; subst; constructor; auto. Qed.
Lemma rmap_all {A B} (f : A -> res B) : forall l r, rmap f l = Ok r -> Forall2 (fun x y => f x = Ok y) l r.
Proof.
  induction l as [|x l IH]; intros r HR; cbn [rmap] in HR; [assert (r = []) as -> by congruence; constructor|]. destruct (f x) as [b|e|] eqn:FX; cbn [rbind] in HR; [|discriminate HR|discriminate HR]. destruct (rmap f l) as [bs|e|]; cbn [rbind] in HR; [|discriminate HR|discriminate HR]. assert (r = b :: bs) as -> by congruence. constructor; auto.
Qed.
Lemma piece_order E ld skipped piece c : ld_nospacing ld = false -> one_meaning ld ->
  (do (orig, simp) <- simplify_split_align E ld piece skipped ; do done <- ts_loop E ld orig simp 0 false [] [] [] ; Ok (rev done)) = Ok c ->
  forall gl : list (list str), Forall2 (fun p g => in_order (join_chunk E ld (filter_chunk (snd p))) g /\ Forall tight g) c gl -> in_order (sjoin (fields piece) (lit " ")) (concat gl).
Proof.
  intros NS OM HC gl HF. destruct (simplify_split_align E ld piece skipped) as [[orig simp]|e|] eqn:SA; cbn [rbind] in HC; [|discriminate HC|discriminate HC]. destruct (ts_loop E ld orig simp 0 false [] [] []) as [done|e|] eqn:TL; cbn [rbind] in HC; [|discriminate HC|discriminate HC]. assert (EC : c = rev done) by congruence. subst c.
  pose proof (align_orig E ld piece _ _ _ NS SA) as FO. assert (OW : Forall (fun w => Forall (fun c => wb c = false) w) orig).
  { apply Forall_forall. intros w HW. destruct w as [|x w]; [constructor|]. assert (HF2 : In (x :: w) (filter (fun x : str => negb (empty x)) orig)) by (apply filter_In; auto). rewrite FO in HF2. now apply fields_word in HF2. }
  destruct (chunks_order E ld NS OM orig OW _ _ TL) as [CO CP]. rewrite FO in CO. apply io_words in CO. rewrite map_map in CO. eapply io_within; [exact CO|]. clear CO TL. revert CP HF. generalize (rev done). intros l CP HF. induction HF as [|p g l gl [H1 H2] _ IH]; [constructor|]. inversion_clear CP as [|? ? P1 P2]. cbn [map]. constructor; [|now apply IH].
  exact (chunk_text E ld NS (snd p) g P1 H2 H1).
Qed.
Lemma originals_order E cfg ld s tr og : ld_nospacing ld = false -> one_meaning ld -> translate_search E cfg ld s = Ok (tr, og) ->
  forall (T : Type) (text_of : T -> str) (gs : list (list T)), Forall2 (fun o g => in_order o (map text_of g) /\ Forall tight (map text_of g)) og gs ->
  exists plan : list (str * list T), concat gs = flat_map snd plan /\ in_order s (map fst plan) /\ Forall (fun x => in_order (sjoin (fields (fst x)) (lit " ")) (map text_of (snd x))) plan.
Proof.
  intros NS OM HT T text_of gs HF. unfold translate_search in HT. destruct (split_sentence E ld s) as [ss|e|] eqn:SS; cbn [rbind] in HT; [|discriminate HT|discriminate HT]. destruct (rmap _ ss) as [ch|e|] eqn:RM; cbn [rbind] in HT; [|discriminate HT|discriminate HT].
  assert (EO : og = map (fun p => join_chunk E ld (filter_chunk (snd p))) (concat ch)) by congruence. subst og. clear HT. apply split_order in SS. apply rmap_all in RM. apply Forall2_map_l in HF. apply Forall2_concat in HF as (gss & -> & HF).
  enough (G : exists plan : list (str * list T), concat (concat gss) = flat_map snd plan /\ map fst plan = ss /\ Forall (fun x => in_order (sjoin (fields (fst x)) (lit " ")) (map text_of (snd x))) plan) by (destruct G as (plan & G1 & G2 & G3); exists plan; split; [exact G1|]; split; [now rewrite G2|exact G3]).
  clear SS. revert gss HF. induction RM as [|piece c ss ch HC _ IH]; intros gss HF.
  - inversion HF; subst. exists []. split; [reflexivity|]. split; [reflexivity|constructor].
  - inversion HF as [|? gl ? gss2 H1 H2]; subst. destruct (IH _ H2) as (plan & P1 & P2 & P3). exists ((piece, concat gl) :: plan). cbn [concat flat_map snd map fst]. split; [rewrite concat_app; now rewrite P1|]. split; [now rewrite P2|]. constructor; [|exact P3]. cbn [fst snd]. rewrite concat_map. apply (piece_order E ld _ piece c NS OM HC). clear - H1. induction H1 as [|p g c gl H _ IH]; [constructor|]. cbn [map]. now constructor.
Qed.
Lemma aligned {A B} (R : A -> B -> Prop) (X : Type) : forall (f : list X) (l : list A) (gs : list B), length f = length l -> Forall2 (fun it g => R (snd it) g) (combine f l) gs -> Forall2 R l gs.
Proof. induction f as [|x f IH]; intros [|a l] gs HL HF; try discriminate HL; cbn [combine] in HF; inversion HF; subst; constructor; [assumption|apply IH; [cbn in HL; congruence|assumption]]. Qed.

(** The dates found are reported in the order in which they stand in the input, and no two of them share a character:
    the input has pieces that follow one another, each piece has its own results, and the texts of these results follow one
    another in the piece (when each run of its white space is replaced by one space). For languages whose words are separated
    by spaces and whose dictionary gives one meaning to each word. *)
Theorem C64_order : forall E D det p cfg lang text p' rs ld,
  search_with_language E D det p cfg lang text = Ok (p', (rs, None)) -> db_get D lang = Some ld -> ld_nospacing ld = false -> one_meaning ld ->
  exists plan : list (str * list search_result), rs = flat_map snd plan /\ in_order text (map fst plan) /\
    Forall (fun x => in_order (sjoin (fields (fst x)) (lit " ")) (map sr_text (snd x))) plan.
Proof.
  intros E D det p cfg lang text p' rs ld HP DB NS OM. unfold search_with_language, init_search_config in HP. set (c0 := initiate (e_now E) cfg) in *. destruct (validate (e_uni E) c0) eqn:V; cbn [negb] in HP; [|congruence].
  set (icfg := to_internal (if is_zero (u_now cfg) then with_unow c0 zero_time else c0)) in *. rewrite DB in HP. destruct (translate_search E icfg ld text) as [[tr or]|er|] eqn:ET; cbn [rbind] in HP; try discriminate HP.
  assert (LT : length tr = length or).
  { clear - ET. unfold translate_search in ET. destruct (split_sentence E ld text) as [ss|?|]; cbn [rbind] in ET; try discriminate ET. destruct (rmap _ ss) as [ch|?|]; cbn [rbind] in ET; try discriminate ET.
    assert (H1 : forall A B (f g : A -> B) l x y, Ok (map f l, map g l) = Ok (x, y) -> length x = length y) by (clear; intros A B f g l x y H; assert (map f l = x /\ map g l = y) as [<- <-] by (split; congruence); now rewrite !map_length). exact (H1 _ _ _ _ _ _ _ ET). }
  set (use := (negb (eqs lang (lit "vi")) && negb (eqs lang (lit "hu"))) || eqs (ld_name ld) (lit "en")) in *.
  destruct (parse_found E D det p icfg (is_zero (c_now icfg)) (combine (combine (if use then tr else or) tr) or) []) as [[p1 found]|er|] eqn:PF; cbn [rbind] in HP; try discriminate HP.
  assert (HR : rs = map (fun x => {| sr_date := with_locale (fst (fst x)) lang; sr_text := snd x |}) found) by congruence. clear HP.
  destruct (found_texts _ _ _ _ _ _ _ _ _ _ PF) as (gs & EG & FG). cbn [app] in EG. subst found.
  assert (FG2 : Forall2 (fun o g => in_order o (map snd g) /\ Forall tight (map snd g)) or gs).
  { apply (aligned (fun o (g : list (parsed_search * str)) => in_order o (map snd g) /\ Forall tight (map snd g))) with (2 := FG). rewrite combine_length. destruct use; rewrite ?LT; apply Nat.min_id. }
  destruct (originals_order E icfg ld text tr or NS OM ET _ snd gs FG2) as (plan & P1 & P2 & P3). set (mk := fun x : parsed_search * str => {| sr_date := with_locale (fst (fst x)) lang; sr_text := snd x |}) in *.
  exists (map (fun x => (fst x, map mk (snd x))) plan). split; [|split].
  - assert (HR2 : rs = map mk (concat gs)) by exact HR. rewrite HR2, P1. clear. clearbody mk. induction plan as [|x plan IH]; [reflexivity|]. cbn [flat_map map snd]. rewrite map_app. now rewrite IH.
  - rewrite map_map. exact P2.
  - apply Forall_map. eapply Forall_impl; [|exact P3]. intros x HX. cbn [fst snd]. rewrite map_map. exact HX.
Qed.
Print Assumptions C64_order.
(** the same for [Search] *)
Theorem C64_search_order : forall E D det p cfg text p' lang rs ld,
  search E D det p cfg text = Ok (p', (lang, rs, None)) -> db_get D lang = Some ld -> ld_nospacing ld = false -> one_meaning ld ->
  exists plan : list (str * list search_result), rs = flat_map snd plan /\ in_order text (map fst plan) /\
    Forall (fun x => in_order (sjoin (fields (fst x)) (lit " ")) (map sr_text (snd x))) plan.
Proof.
  intros E D det p cfg text p' lang rs ld HS HD NS OM. unfold search in HS. destruct (init_search_config E cfg) as [c|]; [|congruence]. destruct (get_languages _ _ _ _ _) as [ls|e|]; [|congruence|congruence].
  destruct (detect_language _ _ _ _ _ _) as [lg|e|]; [|congruence|congruence]. destruct (search_with_language E D det (init_charsets D p ls) c lg text) as [[p2 [rs2 err]]|e|] eqn:SL; cbn [rbind] in HS; [|discriminate HS|discriminate HS].
  assert (lg = lang) by congruence. assert (rs2 = rs) by congruence. assert (err = None) by congruence. subst lg rs2 err. exact (C64_order E D det _ _ _ _ _ _ _ SL HD NS OM).
Qed.
Print Assumptions C64_search_order.
(** two dates in one sentence, one in the next: English, where every word has one meaning *)
Example C64_case : found (search_with_language env0 db0 None (new_parser []) search_cfg (lit "en") (lit "From 3 May 2015 until we left 10 June 2016. Nothing since 4 July 2017!"))
  = Some [(lit "3 May 2015", 2015, 5, 3, lit "en"); (lit "10 June 2016", 2016, 6, 10, lit "en"); (lit "4 July 2017", 2017, 7, 4, lit "en")] /\
  (exists ld, db_get db0 (lit "en") = Some ld /\ ld_nospacing ld = false /\ one_meaning ld).
Proof.
  split; [vm_compute; reflexivity|]. exists loc_en. split; [vm_compute; reflexivity|]. split; [reflexivity|]. unfold one_meaning. apply Forall_forall. intros e HE. assert (H : forallb (fun e => Nat.leb (length (snd e)) 1) (ld_trans loc_en) = true) by (vm_compute; reflexivity). rewrite forallb_forall in H. apply H in HE. now apply Nat.leb_le.
Qed.
(** other languages: the Spanish [mar] is March and Tuesday, and the one date is reported once for each meaning *)
Example C64_meaning_needed : found (search_with_language env0 db0 None (new_parser []) search_cfg (lit "es") (lit "Nos vimos el 10 mar 2015."))
  = Some [(lit "10 mar 2015", 2015, 3, 10, lit "es"); (lit "10 mar 2015", 2015, 10, 10, lit "es")].
Proof. vm_compute. reflexivity. Qed.
(** the languages of the theorem: 371 of the 504 locales, English, German and French among them *)
Definition one_meaning_spaced (ld : locale) : bool := negb (ld_nospacing ld) && forallb (fun e => Nat.leb (length (snd e)) 1) (ld_trans ld).
Lemma one_meaning_spaced_iff ld : one_meaning_spaced ld = true <-> ld_nospacing ld = false /\ one_meaning ld.
Proof.
  unfold one_meaning_spaced, one_meaning. rewrite andb_true_iff, negb_true_iff, forallb_forall, Forall_forall. split; intros [H1 H2]; (split; [exact H1|]); intros e HE; specialize (H2 e HE); now apply Nat.leb_le.
Qed.
Lemma the_languages : (fun l => Nat.eqb (length l) 371 && forallb (fun n => mem n l) (map lit ["en"; "de"; "fr"; "ru"; "nl"; "pl"; "tr"; "ar"]%string)) (map fst (filter (fun e => one_meaning_spaced (snd e)) full_table)) = true.
Proof. vm_compute. reflexivity. Qed.
Theorem C64_languages : length (filter (fun e => one_meaning_spaced (snd e)) full_table) = 371%nat /\
  forall n, In n (map lit ["en"; "de"; "fr"; "ru"; "nl"; "pl"; "tr"; "ar"]%string) -> exists ld, In (n, ld) full_table /\ ld_nospacing ld = false /\ one_meaning ld.
Proof.
  pose proof the_languages as H. cbv beta in H. revert H. generalize full_table. intros T H. apply andb_true_iff in H as [H1 H2]. apply Nat.eqb_eq in H1. rewrite map_length in H1. split; [exact H1|]. intros n HN. rewrite forallb_forall in H2. specialize (H2 n HN). unfold mem in H2. apply existsb_exists in H2 as (n' & H2 & H3). apply eqs_eq in H3. subst n'.
  apply in_map_iff in H2 as ([m ld] & H2 & H3). cbn [fst] in H2. subst m. apply filter_In in H3 as [H3 H4]. exists ld. split; [exact H3|]. now apply one_meaning_spaced_iff.
Qed.
Print Assumptions C64_languages.
