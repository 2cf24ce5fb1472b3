(** C42, C32: Search *)
From Coq Require Import ZifyBool QArith.
From Verif Require Import GoBase SMap Regex GoTime Setting Strutil Env Language Parser ParserFacts LocaleFacts SelectFacts Spec Prop_Parser Search SplitFacts Concrete LocaleData Shows.
Open Scope Z_scope.

(** ** C42 *)
(** every way a text is split: the translated text and the original are cut at the same character, into as many pieces, that joined again
    are the whole *)
Definition cut_at (sep : str) (parts : list str) (whole : str) : Prop := sjoin parts sep = whole.
Lemma splitters_ne sep : In sep splitters -> sep <> [].
Proof. unfold splitters. intros HI. repeat (destruct HI as [<-|HI]; [discriminate|]). destruct HI. Qed.
Theorem C42_split_consistent : forall entry original sp, In sp (split_if_not_parsed entry original) ->
  exists sep, In sep (map lit [","; "،"; "——"; "—"; "–"; "."; " "]%string) /\ contains entry sep = true /\ count entry sep = count original sep /\
    length (sp_entry sp) = length (sp_orig sp) /\ cut_at sep (sp_entry sp) entry /\ cut_at sep (sp_orig sp) original.
Proof.
  intros entry original sp HI. unfold split_if_not_parsed in HI. apply in_flat_map in HI as (sep & HS & HI). destruct (contains entry sep && _) eqn:C; [|destruct HI]. apply andb_true_iff in C as [C1 C2]. apply Nat.eqb_eq in C2.
  exists sep. split; [exact HS|]. split; [exact C1|]. split; [exact C2|]. pose proof (splitters_ne sep HS) as NE. unfold split_by in HI. unfold cut_at.
  assert (LE : length (split entry sep) = length (split original sep)) by (rewrite !split_length; now f_equal).
  destruct HI as [<-|HI]; [cbn [sp_entry sp_orig]; rewrite !sjoin_split by exact NE; auto|].
  destruct (Nat.leb (count entry sep) 2); [destruct HI|]. apply in_map_iff in HI as (n & <- & HN). assert (Hn : (0 < n)%nat) by (cbn [In] in HN; lia). cbn [sp_entry sp_orig].
  split; [now apply group_length|]. rewrite !group_join by lia. now rewrite !sjoin_split by exact NE.
Qed.
Print Assumptions C42_split_consistent.
Example C42_case : In {| sp_entry := [lit "2 may, 3 may"; lit " 4 may, 5 may"]; sp_orig := [lit "2 mai, 3 mai"; lit " 4 mai, 5 mai"] |}
  (split_if_not_parsed (lit "2 may, 3 may, 4 may, 5 may") (lit "2 mai, 3 mai, 4 mai, 5 mai")).
Proof. vm_compute. tauto. Qed.

(** the share of [k] in [n] *)
Definition share (k n : nat) : Q := match n with O => 0 | S n' => Z.of_nat k # Pos.of_succ_nat n' end.
Section Best.
Variable E : env.
(** a candidate split: its pieces, each with the date found and the text *)
Notation cand := (list (parsed_search * str)).
Definition unparsed (c : cand) : Q := share (length (filter (fun x => date_is_zero (fst (fst x))) c)) (length c).
Definition digitless (c : cand) : Q := share (length (filter (fun x => negb (existsb (u_isNd (e_uni E)) (runes (snd x)))) c)) (length c).
Definition better (a b : cand) : Prop :=
  (unparsed a < unparsed b)%Q \/ ((unparsed a == unparsed b)%Q /\ ((length a < length b)%nat \/ (length a = length b /\ (digitless a < digitless b)%Q))).

Lemma share_lt k n k' n' : (share k n < share k' n')%Q <-> (match n with O => 0 | _ => k end * Nat.max 1 n' < match n' with O => 0 | _ => k' end * Nat.max 1 n)%nat.
Proof. unfold share, Qlt. destruct n as [|n], n' as [|n']; cbn [Qnum Qden]; rewrite ?Zpos_P_of_succ_nat; nia. Qed.
Lemma share_eq k n k' n' : (share k n == share k' n')%Q <-> (match n with O => 0 | _ => k end * Nat.max 1 n' = match n' with O => 0 | _ => k' end * Nat.max 1 n)%nat.
Proof. unfold share, Qeq. destruct n as [|n], n' as [|n']; cbn [Qnum Qden]; rewrite ?Zpos_P_of_succ_nat; nia. Qed.
Lemma filter_zero {A} (f : A -> bool) l : match length l with O => 0 | _ => length (filter f l) end%nat = length (filter f l).
Proof. destruct l; reflexivity. Qed.
Lemma rating_better i j a b : rating_lt (rate E i a) (rate E j b) = true <-> better a b.
Proof.
  unfold rating_lt, better, unparsed, digitless, ratio_eq, ratio_lt, rt_den. cbn [rate rt_notparsed rt_nodigit rt_n]. rewrite !share_lt, !share_eq, !filter_zero. unfold count_if, has_digit, parsed_search in *.
  generalize (length (filter (fun x : date * bool * str => date_is_zero (fst (fst x))) a)), (length (filter (fun x : date * bool * str => date_is_zero (fst (fst x))) b)).
  generalize (length (filter (fun x : date * bool * str => negb (existsb (u_isNd (e_uni E)) (runes (snd x)))) a)), (length (filter (fun x : date * bool * str => negb (existsb (u_isNd (e_uni E)) (runes (snd x)))) b)). intros u v x y.
  generalize (length a), (length b). intros n m.
  destruct (Nat.eqb_spec (x * Nat.max 1 m) (y * Nat.max 1 n)) as [EQ|NE]; cbn [negb].
  - destruct (Nat.eqb_spec n m) as [EN|NN]; cbn [negb].
    + destruct (Nat.eqb_spec (u * Nat.max 1 m) (v * Nat.max 1 n)) as [EU|NU]; cbn [negb].
      * split; [discriminate|]. intros [H|[_ [H|[_ H]]]]; lia.
      * rewrite Nat.ltb_lt. split; [intros H; right; auto|]. intros [H|[_ [H|[_ H]]]]; lia.
    + rewrite Nat.ltb_lt. split; [intros H; right; auto|]. intros [H|[_ [H|[H _]]]]; lia.
  - rewrite Nat.ltb_lt. split; [intros H; now left|]. intros [H|[H _]]; lia.
Qed.
Lemma better_trans a b c : better a b -> better b c -> better a c.
Proof.
  unfold better. intros [H1|[H1 H1']] [H2|[H2 H2']].
  - left. now apply (Qlt_trans _ (unparsed b)).
  - left. now rewrite <- H2.
  - left. now rewrite H1.
  - right. split; [now rewrite H1|]. destruct H1' as [L1|[L1 D1]], H2' as [L2|[L2 D2]]; try (left; lia). right. split; [lia|]. now apply (Qlt_trans _ (digitless b)).
Qed.
Lemma not_better a b : ~ better a b <-> ((unparsed b < unparsed a)%Q \/ ((unparsed a == unparsed b)%Q /\ ((length b < length a)%nat \/ (length a = length b /\ (digitless b <= digitless a)%Q)))).
Proof.
  unfold better. split.
  - intros H. destruct (Q_dec (unparsed a) (unparsed b)) as [[L|L]|L]; [exfalso; auto|auto|]. right. split; [exact L|]. destruct (lt_eq_lt_dec (length a) (length b)) as [[K|K]|K]; [exfalso; auto 6| |auto].
    right. split; [exact K|]. apply Qnot_lt_le. intros D. auto 8.
  - intros H1 H2. destruct H1 as [H1|[H1 H1']], H2 as [H2|[H2 H2']].
    + apply (Qlt_irrefl (unparsed a)). now apply (Qlt_trans _ (unparsed b)).
    + rewrite H2 in H1. now apply (Qlt_irrefl (unparsed b)).
    + rewrite H1 in H2. now apply (Qlt_irrefl (unparsed b)).
    + destruct H1' as [L1|[L1 D1]], H2' as [L2|[L2 D2]]; try lia. now apply (Qlt_not_le _ _ D2).
Qed.
Lemma not_better_trans a b c : ~ better a b -> ~ better b c -> ~ better a c.
Proof.
  rewrite !not_better. intros [H1|[H1 H1']] [H2|[H2 H2']].
  - left. now apply (Qlt_trans _ (unparsed b)).
  - left. now rewrite <- H2.
  - left. now rewrite H1.
  - right. split; [now rewrite H1|]. destruct H1' as [L1|[L1 D1]], H2' as [L2|[L2 D2]]; try (left; lia). right. split; [lia|]. now apply (Qle_trans _ (digitless b)).
Qed.

Theorem C42_best_split : forall cands, cands <> [] -> exists i best, nth_error cands i = Some best /\ choose_best_split E cands = best /\
  forall j c, nth_error cands j = Some c -> ~ better c best /\ ((j < i)%nat -> better best c).
Proof.
  intros cands HN. unfold choose_best_split. set (R := map (fun p => rate E (fst p) (snd p)) (combine (seq 0 (length cands)) cands)).
  (* ratings of the candidates *)
  assert (RT : forall i, nth_error R i = option_map (rate E i) (nth_error cands i)).
  { intros i. unfold R. rewrite nth_error_map. assert (G : forall k (l : list cand) i, nth_error (combine (seq k (length l)) l) i = option_map (pair (k + i)%nat) (nth_error l i)).
    { clear. intros k l. revert k. induction l as [|x l IH]; intros k [|i]; cbn [length seq combine nth_error option_map]; auto; [now rewrite Nat.add_0_r|]. rewrite IH. now rewrite Nat.add_succ_r. }
    rewrite G. destruct (nth_error cands i); reflexivity. }
  assert (RL : length R = length cands) by (unfold R; rewrite map_length, combine_length, seq_length; lia).
  assert (PR : Forall (fun a => exists i c, a = rate E i c) R).
  { apply Forall_forall. intros a Ha. apply In_nth_error in Ha as (i & Hi). rewrite RT in Hi. destruct (nth_error cands i) as [c|]; [|discriminate Hi]. cbn [option_map] in Hi. exists i, c. congruence. }
  destruct (sort_head rating_lt (fun a => exists i c, a = rate E i c)) with (l := R) as (x & t & l1 & l2 & HS & HR & H1 & H2).
  - intros a b c (i & a' & ->) (j & b' & ->) (k & c' & ->). rewrite !rating_better. apply better_trans.
  - intros a b c (i & a' & ->) (j & b' & ->) (k & c' & ->). rewrite <- !not_true_iff_false, !rating_better. apply not_better_trans.
  - intros a (i & a' & ->). apply not_true_iff_false. rewrite rating_better. rewrite not_better. right. split; [apply Qeq_refl|]. right. split; [reflexivity|apply Qle_refl].
  - intros X. rewrite X in RL. destruct cands; [congruence|discriminate RL].
  - exact PR.
  - rewrite HS. assert (NX : nth_error R (length l1) = Some x) by (rewrite HR, nth_error_app2, Nat.sub_diag by lia; reflexivity). pose proof NX as NX'. rewrite RT in NX'. destruct (nth_error cands (length l1)) as [best|] eqn:NB; [|discriminate NX']. cbn [option_map] in NX'.
    assert (x = rate E (length l1) best) as -> by congruence. cbn [rate rt_index]. exists (length l1), best. split; [exact NB|]. split; [now apply nth_error_nth|]. intros j c Hj. split.
    + intros HB. assert (HI : In (rate E j c) R) by (apply (nth_error_In R j); rewrite RT, Hj; reflexivity). apply H2 in HI. apply rating_better with (i := j) (j := length l1) in HB. congruence.
    + intros HL. apply (rating_better (length l1) j). apply H1. apply (nth_error_In l1 j). rewrite <- (nth_error_app1 l1 (rate E (length l1) best :: l2) HL), <- HR, RT, Hj. reflexivity.
Qed.
End Best.
Print Assumptions C42_best_split.
Example C42_best_case : choose_best_split env0
    [[(zero_date, false, lit "2 mai"); (mkd PDay (utc_at 2024 5 3 0 0 0), false, lit "3 mai")];
     [(mkd PDay (utc_at 2024 5 3 0 0 0), false, lit "mai")];
     [(mkd PDay (utc_at 2024 5 3 0 0 0), false, lit "2 mai 3 mai")]]
  = [(mkd PDay (utc_at 2024 5 3 0 0 0), false, lit "2 mai 3 mai")].
Proof. vm_compute. reflexivity. Qed.

(** ** C32 *)
(** the configuration of the calls of Parse: that of the caller, without Locales, Languages, Region, TryPreviousLocales, UseGivenOrder and
    DateOrder; the current time is [t] *)
Definition search_call (cfg : uconfig) (t : time) : uconfig :=
  {| u_locales := []; u_languages := []; u_region := []; u_try_prev := false; u_given_order := false; u_deflang := u_deflang cfg; u_order := None;
     u_now := t; u_tz := u_tz cfg; u_pday := u_pday cfg; u_pmonth := u_pmonth cfg; u_src := u_src cfg; u_strict := u_strict cfg; u_required := u_required cfg;
     u_skip := match u_skip cfg with [] => [lit "t"] | l => l end; u_timeperiod := u_timeperiod cfg; u_preserve := u_preserve cfg |}.
(** the entry as it is given to Parse *)
Definition cleaned (e : str) : str := replace_all (replace_all e (lit "ngày") []) (lit "am") [].
(** [o] without these characters at both ends *)
Definition trimmed (chars o : str) : str := trim_chars o chars.

Section C32.
Variables (E : env) (D : langdb) (det : option (str -> list str)).
(** what Parse returns for the entry in some state of the parser, with the current time given by the caller, or, if there is none, with
    some other base *)
Definition parsed_as (cfg : uconfig) (entry : str) (d : date) : Prop :=
  exists q q' t e, parse E D det q (search_call cfg t) (cleaned entry) [] = (q', Ok (d, e)) /\ (is_zero (u_now cfg) = false -> t = u_now cfg).
(** the result [r] comes from this entry (a translated text, and the original): from the whole, or from a piece *)
Definition comes_from (cfg : uconfig) (lang entry original : str) (r : search_result) : Prop :=
  exists d, usable d /\ sr_date r = with_locale d lang /\
    ((parsed_as cfg entry d /\ sr_text r = trimmed (lit " .,:()[]-'") original) \/
     (exists sp k e o, In sp (split_if_not_parsed entry original) /\ nth_error (sp_entry sp) k = Some e /\ nth_error (sp_orig sp) k = Some o /\
        parsed_as cfg e d /\ sr_text r = trimmed (lit " .,:()[]-") o)).

Section Inv.
Variables (cfg : uconfig) (base : config).
Hypothesis HB : forall t, of_internal (with_now base t) = search_call cfg t.
Definition same (ic : config) : Prop := exists t, ic = with_now base t /\ (is_zero (u_now cfg) = false -> t = u_now cfg).
Variable need : bool.
Hypothesis NEED : is_zero (u_now cfg) = false -> need = false.

Lemma with_now_twice c t u : with_now (with_now c t) u = with_now c u. Proof. reflexivity. Qed.
Lemma with_unow_call t u : with_unow (search_call cfg t) u = search_call cfg u. Proof. reflexivity. Qed.
Lemma entry_ok p ic entry tr parsed p' ic' ps : same ic -> parse_entry E D det p ic entry tr parsed need = Ok (p', ic', ps) ->
  same ic' /\ parsed_as cfg entry (fst ps).
Proof.
  intros (t & -> & HT) HP. unfold parse_entry in HP. rewrite HB in HP. unfold parse_date in HP. destruct (parse E D det p (search_call cfg t) (clean_entry entry) []) as [q1 [[d1 e1]|e1|]] eqn:P1; cbn [rbind] in HP; try discriminate HP.
  destruct (is_zero (if need then relative_base parsed else zero_time)) eqn:Z.
  - assert (p' = q1 /\ ic' = with_now base t /\ ps = (d1, is_relative_text tr)) as (-> & -> & ->) by (repeat split; congruence). split; [exists t; auto|]. exists p, q1, t, e1. auto.
  - destruct need; [|discriminate Z]. set (b := relative_base parsed) in *. rewrite with_unow_call in HP. destruct (parse E D det q1 (search_call cfg b) (clean_entry entry) []) as [q2 [[d2 e2]|e2|]] eqn:P2; cbn [rbind] in HP; try discriminate HP.
    assert (NZ : is_zero (u_now cfg) = false -> b = u_now cfg) by (intros X; apply NEED in X; discriminate X).
    assert (p' = q2 /\ ic' = with_now base b /\ ps = (d2, is_relative_text tr)) as (-> & -> & ->) by (rewrite with_now_twice in HP; repeat split; congruence). split; [exists b; auto|]. exists q1, q2, b, e2. auto.
Qed.
(** the pieces of a split *)
Definition piece (l : list (str * str)) (x : parsed_search * str) : Prop := exists e o, In (e, o) l /\ parsed_as cfg e (fst (fst x)) /\ snd x = trimmed (lit " .,:()[]-") o.
Lemma split_ok : forall parts p ic acc p' ic' r, same ic -> parse_split E D det p ic need parts acc = Ok (p', ic', r) ->
  same ic' /\ exists new, r = acc ++ new /\ Forall (piece parts) new.
Proof.
  induction parts as [|[e o] parts IH]; intros p ic acc p' ic' r HS HP; cbn [parse_split] in HP.
  - assert (ic' = ic /\ r = acc) as [-> ->] by (split; congruence). split; [exact HS|]. exists []. rewrite app_nil_r. auto.
  - assert (WK : forall x, piece parts x -> piece ((e, o) :: parts) x) by (intros x (e' & o' & H1 & H2); exists e', o'; split; [now right|exact H2]).
    destruct (Nat.leb (rune_count e) 2).
    + destruct (IH _ _ _ _ _ _ HS HP) as (H1 & new & H2 & H3). split; [exact H1|]. exists new. split; [exact H2|]. eapply Forall_impl; [exact WK|exact H3].
    + destruct (parse_entry E D det p ic e e (map fst acc) need) as [[[p1 ic1] ps]|er|] eqn:PE; cbn [rbind] in HP; try discriminate HP. destruct (entry_ok _ _ _ _ _ _ _ _ HS PE) as [S1 A1].
      destruct (IH _ _ _ _ _ _ S1 HP) as (H1 & new & H2 & H3). split; [exact H1|]. exists ((ps, trim_chars o (lit " .,:()[]-")) :: new). split; [rewrite H2, <- app_assoc; reflexivity|]. constructor; [|eapply Forall_impl; [exact WK|exact H3]].
      exists e, o. split; [now left|]. auto.
Qed.
Lemma splits_ok : forall sps p ic p' ic' cs, same ic -> parse_splits E D det p ic need sps = Ok (p', ic', cs) ->
  same ic' /\ Forall (fun c => exists sp, In sp sps /\ Forall (piece (combine (sp_entry sp) (sp_orig sp))) c) cs /\ length cs = length sps.
Proof.
  induction sps as [|sp sps IH]; intros p ic p' ic' cs HS HP; cbn [parse_splits] in HP.
  - assert (ic' = ic /\ cs = []) as [-> ->] by (split; congruence). auto.
  - destruct (parse_split E D det p ic need _ []) as [[[p1 ic1] c]|er|] eqn:PS; cbn [rbind] in HP; try discriminate HP. destruct (split_ok _ _ _ _ _ _ _ HS PS) as (S1 & new & EN & FN). cbn [app] in EN. subst new.
    destruct (parse_splits E D det p1 ic1 need sps) as [[[p2 ic2] cs2]|er|] eqn:PSS; cbn [rbind] in HP; try discriminate HP. destruct (IH _ _ _ _ _ S1 PSS) as (S2 & F2 & L2).
    assert (ic' = ic2 /\ cs = c :: cs2) as [-> ->] by (split; congruence). split; [exact S2|]. split; [|cbn [length]; now rewrite L2]. constructor; [exists sp; split; [now left|exact FN]|]. eapply Forall_impl; [|exact F2]. intros c' (sp' & H1 & H2). exists sp'. split; [now right|exact H2].
Qed.
(** the results of one item *)
Definition item_ok (it : str * str * str) (x : parsed_search * str) : Prop :=
  let '(entry, _, original) := it in usable (fst (fst x)) /\
    ((parsed_as cfg entry (fst (fst x)) /\ snd x = trimmed (lit " .,:()[]-'") original) \/
     (exists sp k e o, In sp (split_if_not_parsed entry original) /\ nth_error (sp_entry sp) k = Some e /\ nth_error (sp_orig sp) k = Some o /\
        parsed_as cfg e (fst (fst x)) /\ snd x = trimmed (lit " .,:()[]-") o)).
Lemma in_combine_nth {A B} (l : list A) (l' : list B) a b : In (a, b) (combine l l') -> exists k, nth_error l k = Some a /\ nth_error l' k = Some b.
Proof.
  revert l'. induction l as [|x l IH]; intros l' H; [destruct H|]. destruct l' as [|y l']; [destruct H|]. cbn [combine] in H. destruct H as [H|H]; [exists 0%nat; cbn; split; congruence|]. destruct (IH _ H) as (k & H1 & H2). now exists (S k).
Qed.
Lemma found_ok : forall l p ic acc p' r, same ic -> parse_found E D det p ic need l acc = Ok (p', r) ->
  exists groups, r = acc ++ concat groups /\ Forall2 (fun it g => Forall (item_ok it) g) l groups.
Proof.
  induction l as [|[[entry tr] original] l IH]; intros p ic acc p' r HS HP; cbn [parse_found] in HP.
  - assert (r = acc) as -> by congruence. exists []. rewrite app_nil_r. auto.
  - destruct (Nat.leb (rune_count entry) 2).
    { destruct (IH _ _ _ _ _ HS HP) as (gs & H1 & H2). exists ([] :: gs). split; [exact H1|]. constructor; [constructor|exact H2]. }
    destruct (parse_entry E D det p ic entry tr (map fst acc) need) as [[[p1 ic1] ps]|er|] eqn:PE; cbn [rbind] in HP; try discriminate HP. destruct (entry_ok _ _ _ _ _ _ _ _ HS PE) as [S1 A1].
    destruct (date_is_zero (fst ps)) eqn:Z; cbn [negb] in HP.
    + destruct (split_if_not_parsed entry original) as [|sp0 sps0] eqn:SP.
      { destruct (IH _ _ _ _ _ S1 HP) as (gs & H1 & H2). exists ([] :: gs). split; [exact H1|]. constructor; [constructor|exact H2]. }
      rewrite <- SP in HP. destruct (parse_splits E D det p1 ic1 need (split_if_not_parsed entry original)) as [[[p2 ic2] cs]|er|] eqn:PSS; cbn [rbind] in HP; try discriminate HP. destruct (splits_ok _ _ _ _ _ _ S1 PSS) as (S2 & F2 & L2).
      destruct (IH _ _ _ _ _ S2 HP) as (gs & H1 & H2). exists (filter (fun x => negb (date_is_zero (fst (fst x)))) (choose_best_split E cs) :: gs). split; [rewrite H1, <- app_assoc; reflexivity|]. constructor; [|exact H2].
      apply Forall_forall. intros x Hx. apply filter_In in Hx as [Hx Zx]. apply negb_true_iff in Zx. apply usable_iff in Zx.
      destruct (C42_best_split E cs) as (i & best & NB & CB & _); [intros ->; rewrite SP in L2; discriminate L2|]. rewrite CB in Hx. rewrite Forall_forall in F2. destruct (F2 best (nth_error_In _ _ NB)) as (sp & Hsp & Fsp). rewrite Forall_forall in Fsp.
      destruct (Fsp x Hx) as (e & o & HI & PA & TX). split; [exact Zx|]. right. destruct (in_combine_nth _ _ _ _ HI) as (k & K1 & K2). exists sp, k, e, o. auto.
    + destruct (IH _ _ _ _ _ S1 HP) as (gs & H1 & H2). exists ([(ps, trim_chars original (lit " .,:()[]-'"))] :: gs). split; [rewrite H1, <- app_assoc; reflexivity|]. constructor; [|exact H2].
      constructor; [|constructor]. split; [now apply usable_iff|]. left. auto.
Qed.
End Inv.

Lemma Forall2_len {A B} (R : A -> B -> Prop) l l' : Forall2 R l l' -> length l = length l'.
Proof. induction 1; cbn [length]; congruence. Qed.
(** the results, in the order of the texts: a list of results for each text found by the translation *)
Theorem C32_results : forall p cfg lang text p' rs, search_with_language E D det p cfg lang text = Ok (p', (rs, None)) ->
  exists ld translated originals groups, db_get D lang = Some ld /\
    translate_search E (to_internal (initiate (e_now E) cfg)) ld text = Ok (translated, originals) /\
    rs = concat groups /\ length groups = length originals /\ length translated = length originals /\
    forall i g, nth_error groups i = Some g -> exists entry original,
      nth_error (if mem lang [lit "vi"; lit "hu"] && negb (eqs (ld_name ld) (lit "en")) then originals else translated) i = Some entry /\ nth_error originals i = Some original /\
      Forall (comes_from cfg lang entry original) g.
Proof.
  intros p cfg lang text p' rs HP. unfold search_with_language, init_search_config in HP. set (c0 := initiate (e_now E) cfg) in *. destruct (validate (e_uni E) c0) eqn:V; cbn [negb] in HP; [|congruence].
  set (icfg := to_internal (if is_zero (u_now cfg) then with_unow c0 zero_time else c0)) in *. destruct (db_get D lang) as [ld|] eqn:DB; [|congruence].
  assert (TS : translate_search E icfg ld text = translate_search E (to_internal c0) ld text).
  { unfold icfg. destruct (is_zero (u_now cfg)); reflexivity. }
  rewrite TS in HP. destruct (translate_search E (to_internal c0) ld text) as [[tr or]|er|] eqn:ET; cbn [rbind] in HP; try discriminate HP.
  assert (LT : length tr = length or).
  { unfold translate_search in ET. destruct (split_sentence E ld text) as [ss|?|]; cbn [rbind] in ET; try discriminate ET. destruct (rmap _ ss) as [ch|?|]; cbn [rbind] in ET; try discriminate ET.
    assert (H1 : forall A B (f g : A -> B) l x y, Ok (map f l, map g l) = Ok (x, y) -> length x = length y) by (clear; intros A B f g l x y H; assert (map f l = x /\ map g l = y) as [<- <-] by (split; congruence); now rewrite !map_length). exact (H1 _ _ _ _ _ _ _ ET). }
  set (use := (negb (eqs lang (lit "vi")) && negb (eqs lang (lit "hu"))) || eqs (ld_name ld) (lit "en")) in *.
  destruct (parse_found E D det p icfg (is_zero (c_now icfg)) (combine (combine (if use then tr else or) tr) or) []) as [[p1 found]|er|] eqn:PF; cbn [rbind] in HP; try discriminate HP.
  assert (HR : rs = map (fun x => {| sr_date := with_locale (fst (fst x)) lang; sr_text := snd x |}) found) by congruence. clear HP.
  destruct (found_ok cfg icfg) with (need := is_zero (c_now icfg)) (l := combine (combine (if use then tr else or) tr) or) (p := p) (ic := icfg) (acc := @nil (parsed_search * str)) (p' := p1) (r := found) as (gs & EG & FG); [| | |exact PF|].
  - intros t. unfold icfg. destruct (is_zero (u_now cfg)); reflexivity.
  - intros Z. unfold icfg. rewrite Z. cbn [to_internal c_now]. unfold c0, initiate, uclone. cbn [u_now]. now rewrite Z.
  - exists (c_now icfg). split; [reflexivity|]. intros Z. unfold icfg. rewrite Z. cbn [to_internal c_now]. unfold c0, initiate, uclone. cbn [u_now]. now rewrite Z.
  - cbn [app] in EG. subst found. exists ld, tr, or, (map (map (fun x => {| sr_date := with_locale (fst (fst x)) lang; sr_text := snd x |})) gs).
    split; [reflexivity|]. split; [exact ET|]. split; [rewrite HR; apply concat_map|].
    assert (LU : length (if use then tr else or) = length or) by (destruct use; auto).
    split; [rewrite map_length; pose proof (Forall2_len _ _ _ FG) as LX; rewrite !combine_length in LX; unfold parsed_search in *; lia|]. split; [exact LT|]. intros i g Hg.
    rewrite nth_error_map in Hg. unfold parsed_search in *. destruct (nth_error gs i) as [g0|] eqn:N0; [|discriminate Hg]. cbn [option_map] in Hg. assert (g = map (fun x => {| sr_date := with_locale (fst (fst x)) lang; sr_text := snd x |}) g0) as -> by congruence. clear Hg.
    assert (LI : (i < length or)%nat). { apply (Nat.lt_le_trans _ (length gs)); [apply nth_error_Some; unfold parsed_search in *; congruence|]. pose proof (Forall2_len _ _ _ FG) as LX. rewrite !combine_length in LX. unfold parsed_search in *. lia. }
    destruct (nth_error (if use then tr else or) i) as [entry|] eqn:N1; [|apply nth_error_None in N1; lia]. destruct (nth_error or i) as [o|] eqn:N2; [|apply nth_error_None in N2; lia]. destruct (nth_error tr i) as [tx|] eqn:N3; [|apply nth_error_None in N3; lia].
    assert (NI : nth_error (combine (combine (if use then tr else or) tr) or) i = Some ((entry, tx), o)).
    { assert (G : forall A B (l : list A) (l' : list B) i a b, nth_error l i = Some a -> nth_error l' i = Some b -> nth_error (combine l l') i = Some (a, b)). { clear. induction l as [|x l IH]; intros l' [|i] a b H1 H2; try discriminate H1; destruct l'; try discriminate H2; cbn [combine nth_error] in *; [congruence|auto]. }
      apply G; [apply G|]; assumption. }
    exists entry, o. split.
    { rewrite <- N1. unfold use. cbn [mem existsb]. destruct (eqs lang (lit "vi")), (eqs lang (lit "hu")), (eqs (ld_name ld) (lit "en")); reflexivity. }
    split; [reflexivity|]. assert (FI : Forall (item_ok cfg (entry, tx, o)) g0).
    { clear - FG NI N0. revert i NI N0. induction FG as [|it g1 l gs H _ IH]; intros [|i] NI N0; try discriminate NI; cbn [nth_error] in *; [assert (it = (entry, tx, o)) by congruence; assert (g1 = g0) by congruence; now subst|eauto]. }
    apply Forall_map. eapply Forall_impl; [|exact FI]. intros x [U1 U2]. exists (fst (fst x)). auto.
Qed.
End C32.
Print Assumptions C32_results.
Definition search_cfg : uconfig := mkcfg [] [] (utc_at 2024 5 10 0 0 0) 0 0 0.
Definition found (r : res (pstate * (list search_result * option goerr))) : option (list (str * Z * Z * Z * str)) :=
  match r with
  | Ok (_, (rs, None)) => Some (map (fun x => (sr_text x, year (d_time (sr_date x)), month (d_time (sr_date x)), day (d_time (sr_date x)), d_locale (sr_date x))) rs)
  | _ => None
  end.
(** two whole entries *)
Example C32_case : found (search_with_language env0 db0 None (new_parser []) search_cfg (lit "en") (lit "We met on 10 March 2015, and again on 12 May 2016."))
  = Some [(lit "on 10 March 2015, and", 2015, 3, 10, lit "en"); (lit "on 12 May 2016", 2016, 5, 12, lit "en")].
Proof. vm_compute. reflexivity. Qed.
(** three pieces of one entry *)
Example C32_pieces_case : found (search_with_language env0 db0 None (new_parser []) search_cfg (lit "fr") (lit "10 mars 2015 — 12 mai 2016, 13 mai 2017. Fini!"))
  = Some [(lit "10 mars 2015", 2015, 3, 10, lit "fr"); (lit "12 mai 2016", 2016, 5, 12, lit "fr"); (lit "13 mai 2017", 2017, 5, 13, lit "fr")].
Proof. vm_compute. reflexivity. Qed.

(** ** C33: Search panics *)
(** Spanish: an opening mark that does not follow the end of a sentence *)
Theorem C33_spanish_refuted : search_with_language env0 db0 None (new_parser []) search_cfg (lit "es") (lit "Hola, ¿fue el 10 de marzo?") = Panic /\
  search env0 db0 None (new_parser []) search_cfg (lit "Hola, ¿fue el 10 de marzo?") = Panic.
Proof. split; vm_compute; reflexivity. Qed.
Print Assumptions C33_spanish_refuted.
(** Cantonese: the last word of a sentence is known *)
Theorem C33_cantonese_refuted : search_with_language env0 db0 None (new_parser []) search_cfg (lit "yue") (lit "今日") = Panic.
Proof. vm_compute. reflexivity. Qed.
Print Assumptions C33_cantonese_refuted.
