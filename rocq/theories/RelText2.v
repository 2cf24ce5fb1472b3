(** Words, direction and time of day of relative texts *)
From Coq Require Import ZifyBool.
From Verif Require Import GoBase SMap Regex Utf8Facts Strutil Timezone Env Common Relative SpaceFacts NumericFacts AbsFacts2 RegexFacts RegexFacts2 RegexFacts3 RegexFacts4 RegexFacts6 RegexFacts7 RelText Prop_Clocktime.

(** ** Splitting at non-word characters *)
Fixpoint wsplit (acc : str) (s : str) : list str :=
  match s with [] => [rev acc] | c :: s' => if is_word c then wsplit (c :: acc) s' else rev acc :: wsplit [] s' end.
Fixpoint seg_text (l : list (str * Z)) (w : str) : str := match l with [] => w | (v, c) :: l' => v ++ c :: seg_text l' w end.
Definition wordy (w : str) : Prop := Forall (fun c => is_word c = true) w.
Definition seg_ok (l : list (str * Z)) (w : str) : Prop := Forall (fun p => wordy (fst p) /\ is_word (snd p) = false) l /\ wordy w.
Lemma nonword_at s k : mtch uni_min (rx_ast rxNonWord) s k = step s (fun c => negb (is_word c)) k.
Proof. unfold rxNonWord. cbn [rx_ast mtch]. unfold step. destruct (m_rest s); [reflexivity|]. destruct (decode_rune _) as [r w]. unfold cls_has. cbn [cl_neg cl_items existsb item_has]. rewrite xorb_false_l, orb_false_r. reflexivity. Qed.
Lemma nonword_scan w : wordy w -> asc w -> forall c rest prev pos, is_word c = false -> 0 <= c < 128 ->
  scan uni_min (rx_ast rxNonWord) prev (w ++ c :: rest) pos = Some {| mt_start := pos + length w; mt_end := pos + length w + 1; mt_caps := [] |}%nat.
Proof.
  intros HW HA c rest prev pos Hc Ac. rewrite scan_skip.
  - apply scan_hit. unfold match_here. rewrite nonword_at. unfold step. cbn [m_rest]. rewrite rune1 by lia. rewrite Hc. reflexivity.
  - intros x prev' q pos' Hx. unfold match_here. rewrite nonword_at. unfold step. cbn [m_rest]. unfold wordy in HW. unfold asc in HA. rewrite Forall_forall in HW, HA. rewrite rune1 by (apply HA; exact Hx). rewrite (HW x Hx). reflexivity.
Qed.
Lemma word_scan w prev pos : wordy w -> asc w -> scan uni_min (rx_ast rxNonWord) prev w pos = None.
Proof.
  intros HW HA. rewrite <- (app_nil_r w). rewrite scan_skip; [apply scan_end; reflexivity|].
  intros x prev' q pos' Hx. unfold match_here. rewrite nonword_at. unfold step. cbn [m_rest]. unfold wordy in HW. unfold asc in HA. rewrite Forall_forall in HW, HA. rewrite rune1 by (apply HA; exact Hx). rewrite (HW x Hx). reflexivity.
Qed.
Lemma split_segs : forall l w a f pe en, seg_ok l w -> asc (a ++ seg_text l w) -> (length l < f)%nat -> (en < length (a ++ seg_text l w))%nat ->
  rsplit_loop (all_matches uni_min f (rx_ast rxNonWord) (states (a ++ seg_text l w)) (a ++ seg_text l w) (length a) pe) (a ++ seg_text l w) (length a) en = map fst l ++ [w].
Proof.
  induction l as [|[v c] l IH]; intros w a f pe en [HO HW] HA HF HE.
  - cbn [seg_text map app] in *. rewrite all_miss; [|exact HA|apply word_scan; [exact HW|now apply asc_app in HA]]. cbn [rsplit_loop]. replace (Nat.eqb en (length (a ++ w))) with false by (symmetry; apply Nat.eqb_neq; lia).
    rewrite skipn_app, skipn_all, Nat.sub_diag. reflexivity.
  - inversion HO as [|? ? [HV HC] HO']; subst. cbn [fst snd seg_text] in *. destruct f as [|f]; [lia|]. pose proof HA as HA0. apply asc_app in HA as [A1 A2]. apply asc_app in A2 as [A2 A3]. inversion A3 as [|? ? Ac A4]; subst.
    replace (v ++ c :: seg_text l w) with ((v ++ [c]) ++ seg_text l w) in * by (rewrite <- app_assoc; reflexivity).
    set (m := {| mt_start := length a + length v; mt_end := length a + length v + 1; mt_caps := [] |}%nat).
    rewrite (all_hit uni_min _ a (v ++ [c]) (seg_text l w) m); [|exact HA0|rewrite <- app_assoc; now apply nonword_scan|unfold m; cbn [mt_end]; rewrite !app_length; cbn [length]; lia|destruct v; discriminate].
    cbn [rsplit_loop]. unfold m at 1 2 3 4. cbn [mt_end mt_start]. replace (Nat.eqb (length a + length v + 1) 0) with false by (symmetry; apply Nat.eqb_neq; lia). cbn [map fst app]. f_equal.
    + unfold slice. rewrite skipn_app, skipn_all, Nat.sub_diag. cbn [app skipn]. replace (length a + length v - length a)%nat with (length v) by lia. rewrite <- app_assoc, firstn_app, firstn_all, Nat.sub_diag. cbn [firstn]. apply app_nil_r.
    + replace (length a + length v + 1)%nat with (length (a ++ v ++ [c])) by (rewrite !app_length; cbn [length]; lia). rewrite app_assoc in *.
      apply IH; [split; assumption|exact HA0|cbn [length] in HF; lia|]. unfold m. cbn [mt_start]. rewrite !app_length. cbn [length]. lia.
Qed.
Lemma segs_of s : forall acc, wordy acc -> exists l w, s = seg_text l w /\ (match l with [] => wsplit acc s = [rev acc ++ w] | (v, c) :: l' => wsplit acc s = (rev acc ++ v) :: map fst l' ++ [w] end) /\ seg_ok l w.
Proof.
  induction s as [|c s IH]; intros acc HA.
  - exists [], []. cbn [seg_text wsplit]. rewrite app_nil_r. repeat split; constructor.
  - cbn [wsplit]. destruct (is_word c) eqn:C.
    + destruct (IH (c :: acc)) as (l & w & E & S & O); [constructor; assumption|]. destruct l as [|[v d] l].
      * exists [], (c :: w). cbn [seg_text] in *. subst s. split; [reflexivity|]. split; [rewrite S; cbn [rev]; rewrite <- app_assoc; reflexivity|]. destruct O as [O1 O2]. split; [constructor|constructor; assumption].
      * exists ((c :: v, d) :: l), w. cbn [seg_text] in *. subst s. split; [reflexivity|]. split; [rewrite S; cbn [rev]; rewrite <- app_assoc; reflexivity|]. destruct O as [O1 O2]. inversion O1 as [|? ? [P1 P2] P3]; subst. split; [|exact O2]. constructor; [|exact P3]. split; [constructor; assumption|exact P2].
    + destruct (IH []) as (l & w & E & S & O); [constructor|]. exists (([], c) :: l), w. cbn [seg_text app]. split; [now rewrite E|]. split.
      * rewrite app_nil_r. f_equal. destruct l as [|[v d] l]; exact S.
      * destruct O as [O1 O2]. split; [|exact O2]. constructor; [|exact O1]. split; [constructor|exact C].
Qed.
Theorem rsplit_words U s : uni_ascii U -> asc s -> rsplit U rxNonWord s = wsplit [] s.
Proof.
  intros UA HA. unfold rsplit. destruct s as [|c s]; [reflexivity|]. rewrite find_all_min by (exact UA || (vm_compute; reflexivity) || exact HA).
  destruct (segs_of (c :: s) [] ltac:(constructor)) as (l & w & E & S & O). assert (SE : wsplit [] (c :: s) = map fst l ++ [w]) by (destruct l as [|[v d] l]; exact S). rewrite SE. rewrite E in *.
  unfold find_all. apply (split_segs l w [] _ None 0 O HA); cbn [app]; [|rewrite <- E; cbn [length]; lia].
  clear. assert (length l <= length (seg_text l w))%nat; [|lia]. induction l as [|[v c] l IH]; cbn [seg_text length]; [lia|]. rewrite app_length. cbn [length]. lia.
Qed.

(** texts all of whose words are good *)
Definition goodw (U : uni) (w : str) : bool := empty w || match_string U rxRelativeSkipWord w.
Definition good (U : uni) (s : str) : Prop := forallb (goodw U) (wsplit [] s) = true.
Lemma wsplit_word w : wordy w -> forall acc s, wsplit acc (w ++ s) = wsplit (rev w ++ acc) s.
Proof. induction 1 as [|c w Hc _ IH]; intros acc s; [reflexivity|]. cbn [app wsplit]. rewrite Hc, IH. cbn [rev]. now rewrite <- app_assoc. Qed.
Lemma good_cons U w c s : wordy w -> is_word c = false -> goodw U w = true -> good U s -> good U (w ++ c :: s).
Proof. intros HW HC HG HS. unfold good. rewrite wsplit_word by exact HW. cbn [wsplit]. rewrite HC, app_nil_r, rev_involutive. cbn [forallb]. now rewrite HG. Qed.
Lemma good_end U w : wordy w -> goodw U w = true -> good U w.
Proof. intros HW HG. unfold good. rewrite <- (app_nil_r w) at 1. rewrite wsplit_word by exact HW. cbn [wsplit]. rewrite app_nil_r, rev_involutive. cbn [forallb]. now rewrite HG. Qed.
Lemma name_wordy u : wordy (name u).
Proof. destruct u; repeat constructor. Qed.
Lemma good_name U u : uni_ascii U -> goodw U (name u) = true.
Proof. intros UA. unfold goodw. rewrite (match_norm keep U UA keep_ok) by ((vm_compute; reflexivity) || apply letters_asc, name_letters). rewrite map_keep. destruct u; vm_compute; reflexivity. Qed.
Lemma good_lit U w : uni_ascii U -> ascb w = true -> match_string uni_min rxRelativeSkipWord w = true -> goodw U w = true.
Proof. intros UA HA H. unfold goodw. rewrite (match_norm keep U UA keep_ok) by ((vm_compute; reflexivity) || now apply ascb_asc). rewrite map_keep, H. apply orb_true_r. Qed.
Lemma good_num U ds : uni_ascii U -> num ds -> goodw U ds = true.
Proof.
  intros UA HD. unfold goodw. rewrite (match_norm keep U UA keep_ok) by ((vm_compute; reflexivity) || now apply num_asc). rewrite map_keep. apply orb_true_iff. right.
  destruct HD as [N F]. destruct ds as [|c ds]; [congruence|]. inversion F as [|? ? Hc _]; subst. unfold is_digitA in Hc.
  eapply accepts_start. unfold rxRelativeSkipWord. cbn [rx_ast]. eapply acc_cat; [apply acc_bot; reflexivity|]. do 10 apply acc_right. apply acc_left. eapply acc_cat; [|apply acc_stop].
  eapply (acc_cls uni_min false _ _ c ds); [reflexivity|lia|]. unfold cls_has. cbn [cl_neg cl_items existsb item_has]. rewrite xorb_false_l, orb_false_r. lia.
Qed.
Lemma num_wordy ds : num ds -> wordy ds.
Proof. intros [_ F]. eapply Forall_impl; [|exact F]. cbn. intros c H. apply is_word_char. unfold is_digitA in H. unfold word_char. lia. Qed.

(** ** No time of day where there is no digit *)
Lemma in_chunks s : forall c p, In p (chunks s) -> In c (snd p) -> In c s.
Proof.
  unfold chunks. generalize (decode s) as ws. intros ws. revert s. induction ws as [|[r w] ws IH]; intros s c p; cbn [chunks_from]; [intros []|]. intros [<- | H] Hc; cbn [snd] in Hc.
  - rewrite <- (firstn_skipn w s). apply in_or_app. now left.
  - rewrite <- (firstn_skipn w s). apply in_or_app. right. eapply IH; eassumption.
Qed.
Lemma in_drop {A} (f : A -> bool) l x : In x (drop_while f l) -> In x l.
Proof. induction l as [|a l IH]; cbn [drop_while]; [auto|]. destruct (f a); [intros H; right; auto|auto]. Qed.
Lemma in_trim s c : In c (trim_space s) -> In c s.
Proof.
  unfold trim_space, trim_func, unchunks. intros H. apply in_flat_map in H as (p & H1 & H2). apply in_rev in H1. apply in_drop in H1. apply in_rev in H1. apply in_drop in H1. eapply in_chunks; eassumption.
Qed.
Lemma no_digit_no_time E s : gap_ok s -> parse_time E s = None.
Proof.
  intros H. destruct (parse_time E s) as [[t per]|] eqn:P; [|reflexivity]. exfalso. apply C38_exact in P as (_ & h & m & sec & ns & C & _).
  assert (HT : gap_ok (trim_space s)). { apply Forall_forall. intros c Hc. apply in_trim in Hc. unfold gap_ok in H. rewrite Forall_forall in H. auto. }
  unfold to_upper in C. rewrite (asc_ascii _ (gap_asc _ HT)) in C. assert (HU : Forall (fun c => is_digitA c = false) (map upperA (trim_space s))).
  { apply Forall_forall. intros c Hc. apply in_map_iff in Hc as (d & <- & Hd). unfold gap_ok in HT. rewrite Forall_forall in HT. destruct (HT d Hd) as [_ D]. unfold upperA, is_lowerA, is_digitA in *. destruct ((97 <=? d) && (d <=? 122)) eqn:B; lia. }
  assert (ND : exists hw hv rest, map upperA (trim_space s) = hw ++ rest /\ numeral hw hv) by (revert C; generalize (map upperA (trim_space s)); clear; intros v C; destruct C; eexists _, _, _; (split; [reflexivity|eassumption])).
  destruct ND as (hw & hv & rest & E1 & ((N1 & N2) & _)). rewrite E1 in HU. apply Forall_app in HU as [HU _]. destruct hw as [|c hw]; [congruence|]. inversion HU; inversion N2; subst. unfold is_digitA in *. lia.
Qed.
Lemma gaps_ok ps post : flat_ok ps post -> gap_ok (gaps ps post).
Proof. induction ps as [|p ps IH]; cbn [flat_ok gaps]; [auto|]. intros (H1 & _ & _ & H4). apply Forall_app. split; [exact H1|now apply IH]. Qed.
Lemma flat_no_time E ps post : uni_ascii (e_uni E) -> flat_ok ps post -> rel_parse_time E (flat ps post) = None.
Proof.
  intros UA H. unfold rel_parse_time. rewrite remove_flat by assumption. apply no_digit_no_time. apply Forall_forall. intros c Hc. apply remove_chars in Hc. pose proof (gaps_ok ps post H) as G. unfold gap_ok in G. rewrite Forall_forall in G. auto.
Qed.

(** ** A word that does not begin anywhere *)
Fixpoint nob (x prev : Z) (s : str) : bool := match s with [] => true | c :: s' => (negb (lowerA c =? x) || is_word prev) && nob x c s' end.
Lemma nob_app x a : forall prev b, nob x prev (a ++ b) = nob x prev a && nob x (last a prev) b.
Proof. induction a as [|c a IH]; intros prev b; [reflexivity|]. cbn [app nob]. rewrite IH, last_cons, andb_assoc. reflexivity. Qed.
Lemma nob_scan x w : 97 <= x <= 122 -> Forall (fun c => 97 <= c <= 122) w -> forall s prev pos, asc s -> nob x prev s = true -> scan uni_min (Cat (WordB false) (word_re (x :: w))) prev s pos = None.
Proof.
  intros Hx HW. induction s as [|c s IH]; intros prev pos HA H; cbn [scan].
  - unfold match_here. cbn [word_re mtch]. unfold step. cbn [m_rest]. destruct (xorb false _); reflexivity.
  - inversion HA as [|? ? Hc HA']; subst. cbn [nob] in H. apply andb_true_iff in H as [H1 H2].
    assert (M : match_here uni_min (Cat (WordB false) (word_re (x :: w))) (Build_mst prev (c :: s) pos []) = None); [|rewrite M; now apply IH].
    unfold match_here. cbn [word_re mtch]. unfold step. cbn [m_rest]. rewrite rune1 by lia. rewrite fold_lower by lia. destruct (lowerA c =? x) eqn:L; [|destruct (xorb false _); reflexivity].
    cbn [negb orb] in H1. assert (AW : at_wordb (Build_mst prev (c :: s) pos []) = false).
    { unfold at_wordb. cbn [m_prev m_rest]. rewrite rune1 by lia. cbn [fst]. rewrite H1. rewrite (lower_word c x Hx) by lia. reflexivity. }
    rewrite AW. reflexivity.
Qed.
Lemma nob_match U r x w s : uni_ascii U -> rx_ast r = Cat (WordB false) (word_re (x :: w)) -> respects keep (rx_ast r) = true -> 97 <= x <= 122 -> Forall (fun c => 97 <= c <= 122) w -> asc s -> nob x (-1) s = true -> match_string U r s = false.
Proof.
  intros UA ER RK Hx HW HA H. rewrite (match_norm keep U UA keep_ok r s RK HA), map_keep. unfold match_string. rewrite find_scan by exact HA. rewrite ER. now rewrite nob_scan.
Qed.
Lemma nob_num x ds prev : 97 <= x <= 122 -> num ds -> nob x prev ds = true.
Proof.
  intros Hx [_ F]. revert prev. induction F as [|c ds Hc _ IH]; intros prev; cbn [nob]; [reflexivity|]. rewrite IH. unfold is_digitA in Hc. assert (lowerA c =? x = false) as ->; [|reflexivity]. unfold lowerA, is_upperA. destruct ((65 <=? c) && (c <=? 90)) eqn:B; lia.
Qed.
Lemma nob_show x p prev : x = 105 \/ x = 97 -> num (p_num p) -> nob x prev (show_num p) = true.
Proof. intros Hx H. unfold show_num. rewrite nob_app, nob_num by (exact H || lia). destruct Hx; subst x; destruct (p_unit p); reflexivity. Qed.
