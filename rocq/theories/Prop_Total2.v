(** C33: where Search always returns *)
From Coq Require Import ZifyBool.
From Verif Require Import GoBase SMap Regex GoTime Setting Strutil Timezone Env Language Parser Search History
  Utf8Facts SpaceFacts ParserFacts LocaleFacts AbsFacts AbsFacts2 RegexFacts2 RegexFacts5 Prop_Total ConcurrencyFacts Concrete LocaleData Shows.

(** What Search assumes of a language: the tables are sound; every match of the regex that ends a sentence sets its first group; words
    are separated by spaces, or the language is Chinese or Japanese; no word but the single space ends in a space. *)
Definition splitter_of (ld : locale) : regex := sentence_splitter (if (ld_splitter ld <? 1) || (6 <? ld_splitter ld) then 1 else ld_splitter ld).
Record word_safe (ld : locale) : Prop := {
  se_sound : sound ld;
  se_name : ld_nospacing ld = true -> ld_name ld = lit "zh" \/ ld_name ld = lit "ja";
  se_words : ld_nospacing ld = false -> forall w ts, translate_word ld w = Some ts -> ends_space w -> w = lit " " }.
Definition group_set (U : uni) (ld : locale) (s : str) : Prop := forall m, In m (find_all U (splitter_of ld) s) -> cap m 1 <> None.
Record searchable (ld : locale) : Prop := {
  se_safe : word_safe ld;
  se_group : forall U s, group_set U ld s }.
Definition last_ok (w : str) : bool := eqs w (lit " ") || match rev w with 32 :: _ => false | _ => true end.
Definition word_safeb (ld : locale) : bool :=
  soundb ld &&
  (if ld_nospacing ld then eqs (ld_name ld) (lit "zh") || eqs (ld_name ld) (lit "ja")
   else forallb (fun p => last_ok (fst p)) (ld_trans ld) && forallb (fun p => last_ok (fst p)) (ld_reltype ld)).
Definition searchableb (ld : locale) : bool := word_safeb ld && sets 1 (rx_ast (splitter_of ld)).
Lemma last_ok_ends w : last_ok w = true -> ends_space w -> w = lit " ".
Proof. intros HL (w' & EW). unfold last_ok in HL. apply orb_true_iff in HL as [HL|HL]; [now apply eqs_eq|]. rewrite EW, rev_app_distr in HL. discriminate HL. Qed.
Lemma word_safeb_ok ld : word_safeb ld = true -> word_safe ld.
Proof.
  unfold word_safeb. intros HB. apply andb_true_iff in HB as [H1 H3]. constructor.
  - now apply soundb_ok.
  - intros HN. rewrite HN in H3. apply orb_true_iff in H3 as [H3|H3]; apply eqs_eq in H3; auto.
  - intros HN w ts HT. rewrite HN in H3. apply andb_true_iff in H3 as [H3 H4]. rewrite forallb_forall in H3, H4. apply last_ok_ends. unfold translate_word in HT. destruct (mget (ld_reltype ld) w) as [t|] eqn:M; [apply (H4 (w, t)), mget_In, M|apply (H3 (w, ts)), mget_In, HT].
Qed.
Lemma searchableb_ok ld : searchableb ld = true -> searchable ld.
Proof.
  unfold searchableb. intros HB. apply andb_true_iff in HB as [H1 H2]. constructor; [now apply word_safeb_ok|].
  intros U s m HI. eapply find_all_sets; [exact H2|lia|exact HI].
Qed.

Section E.
Variable E : env.
Section L.
Variable ld : locale.
Hypothesis SE : word_safe ld.
Lemma sentence_returns s ms : (forall m, In m ms -> cap m 1 <> None) -> forall last, returns (sentence_loop E ld s ms last).
Proof.
  induction ms as [|m ms IH]; intros HM last; cbn [sentence_loop]; [discriminate|]. assert (HM' : forall m, In m ms -> cap m 1 <> None) by (intros; apply HM; now right). pose proof (HM m (or_introl eq_refl)) as HC. destruct (cap m 1) as [[a b]|]; [|congruence].
  cbv zeta. destruct (mem _ _ || _); [now apply IH|]. apply bind_returns; [now apply IH|discriminate].
Qed.
Lemma split_sentence_returns s : group_set (e_uni E) ld s -> returns (split_sentence E ld s).
Proof. intros HG. unfold split_sentence. apply sentence_returns. exact HG. Qed.
Lemma simple_split_returns s keep skipped : returns (simple_split E ld s keep skipped).
Proof. unfold simple_split. apply bind_returns; [|discriminate]. apply rmap_returns. intros x _. apply lsplit_returns, SE. Qed.
Lemma word_split_returns s skipped : returns (word_split E ld s skipped).
Proof. unfold word_split. destruct (ld_nospacing ld); [apply simple_split_returns|discriminate]. Qed.
Lemma count_returns cfg s strip : (forall s, group_set (e_uni E) ld s) -> returns (count_applicability E cfg ld s strip).
Proof. intros HG. unfold count_applicability. apply bind_returns; [apply split_sentence_returns, HG|]. intros ss _. apply bind_returns; [|discriminate]. apply rmap_returns. intros x _. apply simple_split_returns. Qed.

(** both lists have the same length after the alignment *)
Definition blanks (l : list str) : nat := length (filter empty l).
Lemma blanks_app a b : blanks (a ++ b) = (blanks a + blanks b)%nat.
Proof. unfold blanks. now rewrite filter_app, app_length. Qed.
Lemma align_spec eq : forall long i add short, (i <= length short)%nat ->
  let r := align_loop eq long i add short in
  (length r = length short + (blanks r - blanks short))%nat /\ (blanks short <= blanks r)%nat /\ (i + length long <= length r)%nat.
Proof.
  induction long as [|t long IH]; intros i add short HI; cbn [align_loop length]; cbv zeta; [lia|].
  destruct (nth_error short i) as [st|] eqn:NE.
  - assert (IL : (i < length short)%nat) by (apply nth_error_Some; congruence).
    destruct (eq t st); [specialize (IH (S i) false short ltac:(lia)); cbv zeta in IH; lia|]. destruct add; [|specialize (IH (S i) true short ltac:(lia)); cbv zeta in IH; lia].
    assert (X : blanks (insert_slice short i []) = S (blanks short) /\ length (insert_slice short i []) = S (length short)).
    { unfold insert_slice. rewrite Nat.min_l by lia. rewrite blanks_app, app_length. cbn [length]. rewrite firstn_length, skipn_length. split; [|lia]. replace (blanks short) with (blanks (firstn i short) + blanks (skipn i short))%nat by (rewrite <- blanks_app, firstn_skipn; reflexivity). unfold blanks at 2. cbn [filter empty length]. unfold blanks. lia. }
    destruct X as [X1 X2]. specialize (IH (S i) true (insert_slice short i []) ltac:(lia)). cbv zeta in IH. lia.
  - apply nth_error_None in NE. assert (X : blanks (short ++ [[]]) = S (blanks short) /\ length (short ++ [[]] : list str) = S (length short)) by (rewrite blanks_app, app_length; unfold blanks at 2; cbn; lia).
    destruct X as [X1 X2]. specialize (IH (S i) add (short ++ [[]]) ltac:(lia)). cbv zeta in IH. lia.
Qed.
Lemma remove_spec l : (0 < blanks l)%nat -> exists l', remove_empty l = Some l' /\ length l = S (length l') /\ blanks l = S (blanks l').
Proof.
  induction l as [|x l IH]; intros HB; [cbn in HB; lia|]. cbn [remove_empty]. destruct (empty x) eqn:EX; [exists l; unfold blanks; cbn [filter length]; rewrite EX; cbn [length]; auto|].
  unfold blanks in *. cbn [filter] in *. rewrite EX in *. destruct (IH HB) as (l' & -> & H1 & H2). exists (x :: l'). cbn [option_map filter length]. rewrite EX. auto.
Qed.
Lemma balance_left : forall fuel a b, (length b <= length a)%nat -> (length a - length b <= blanks a)%nat -> (length a - length b <= fuel)%nat ->
  length (fst (balance fuel a b)) = length (snd (balance fuel a b)).
Proof.
  induction fuel as [|f IH]; intros a b H1 H2 H3; cbn [balance]; [cbn [fst snd]; lia|]. destruct (Nat.eqb_spec (length a) (length b)) as [EQ|NE]; [exact EQ|].
  destruct (Nat.ltb_spec (length b) (length a)) as [LT|GE]; [|lia]. destruct (remove_spec a) as (a' & -> & L1 & L2); [lia|]. apply IH; lia.
Qed.
Lemma balance_right : forall fuel a b, (length a <= length b)%nat -> (length b - length a <= blanks b)%nat -> (length b - length a <= fuel)%nat ->
  length (fst (balance fuel a b)) = length (snd (balance fuel a b)).
Proof.
  induction fuel as [|f IH]; intros a b H1 H2 H3; cbn [balance]; [cbn [fst snd]; lia|]. destruct (Nat.eqb_spec (length a) (length b)) as [EQ|NE]; [exact EQ|].
  destruct (Nat.ltb_spec (length b) (length a)) as [LT|GE]; [lia|]. destruct (remove_spec b) as (b' & -> & L1 & L2); [lia|]. apply IH; lia.
Qed.
Lemma align_length s skipped o si : simplify_split_align E ld s skipped = Ok (o, si) -> length o = length si.
Proof.
  unfold simplify_split_align. destruct (word_split E ld (simplify E ld (normalize_token E s)) skipped) as [simp|e|]; cbn [rbind]; try discriminate. destruct (word_split E ld s skipped) as [orig|e|]; cbn [rbind]; try discriminate.
  destruct (Nat.eqb_spec (length orig) (length simp)) as [EQ|NE]; [intros X; assert (o = orig /\ si = simp) as [-> ->] by (split; congruence); exact EQ|].
  destruct (Nat.ltb_spec (length orig) (length simp)) as [LT|GE].
  - pose proof (align_spec (fun t x => eqs t (normalize_token E x)) simp 0 false orig ltac:(lia)) as A. cbv zeta in A |- *. set (r := align_loop _ _ _ _ orig) in *. intros X. pose proof (balance_left (length r + length simp) r simp ltac:(lia) ltac:(lia) ltac:(lia)) as B. destruct (balance (length r + length simp) r simp) as [x y]. cbn [fst snd] in B. assert (o = x /\ si = y) as [-> ->] by (split; congruence). exact B.
  - pose proof (align_spec (fun t x => eqs (normalize_token E t) x) orig 0 false simp ltac:(lia)) as A. cbv zeta in A |- *. set (r := align_loop _ _ _ _ simp) in *. intros X. pose proof (balance_right (length orig + length r) orig r ltac:(lia) ltac:(lia) ltac:(lia)) as B. destruct (balance (length orig + length r) orig r) as [x y]. cbn [fst snd] in B. assert (o = x /\ si = y) as [-> ->] by (split; congruence). exact B.
Qed.
Lemma align_returns s skipped : returns (simplify_split_align E ld s skipped).
Proof.
  unfold simplify_split_align. apply bind_returns; [apply word_split_returns|]. intros simp _. apply bind_returns; [apply word_split_returns|]. intros orig _. cbv zeta. destruct (Nat.eqb _ _); [discriminate|]. destruct (Nat.ltb _ _); discriminate.
Qed.

Lemma align_In eq : forall long i add short w, In w (align_loop eq long i add short) -> w = [] \/ In w short.
Proof.
  induction long as [|t long IH]; intros i add short w HI; cbn [align_loop] in HI; [auto|]. destruct (nth_error short i) as [st|].
  - destruct (eq t st); [eauto|]. destruct add; [|eauto]. apply IH in HI as [HI|HI]; [auto|]. unfold insert_slice in HI. apply in_app_iff in HI as [HI|[HI|HI]]; [|auto|]; right; rewrite <- (firstn_skipn (Nat.min i (length short)) short); apply in_or_app; auto.
  - apply IH in HI as [HI|HI]; [auto|]. apply in_app_iff in HI as [HI|[HI|[]]]; auto.
Qed.
Lemma remove_In : forall l l' w, remove_empty l = Some l' -> In w l' -> In w l.
Proof.
  induction l as [|x l IH]; intros l' w HR HI; cbn [remove_empty] in HR; [discriminate HR|]. destruct (empty x); [assert (l' = l) as -> by congruence; now right|]. destruct (remove_empty l) as [l2|]; [|discriminate HR]. cbn [option_map] in HR. assert (l' = x :: l2) as -> by congruence. destruct HI as [<-|HI]; [now left|]. right. eauto.
Qed.
Lemma balance_In : forall fuel a b w, In w (snd (balance fuel a b)) -> In w b.
Proof.
  induction fuel as [|f IH]; intros a b w; cbn [balance]; [auto|]. destruct (Nat.eqb _ _); [auto|]. destruct (Nat.ltb _ _).
  - destruct (remove_empty a); [apply IH|auto].
  - destruct (remove_empty b) as [b'|] eqn:RB; [|auto]. intros HI. apply IH in HI. eapply remove_In; eassumption.
Qed.
Lemma align_words s skipped o si : simplify_split_align E ld s skipped = Ok (o, si) -> ld_nospacing ld = false -> forall w, In w si -> w = [] \/ starts_word w.
Proof.
  unfold simplify_split_align, word_split. intros HA NS w HI. rewrite NS in HA. cbn [rbind] in HA. set (simp := fields (simplify E ld (normalize_token E s))) in *. set (orig := fields s) in *.
  assert (FS : In w simp -> starts_word w) by (apply fields_start). cbv zeta in HA.
  destruct (Nat.eqb _ _); [assert (si = simp) as -> by congruence; auto|]. destruct (Nat.ltb _ _).
  - match type of HA with Ok (balance ?f ?a ?b) = _ => assert (HB : snd (balance f a b) = si) by (assert (balance f a b = (o, si)) as -> by congruence; reflexivity) end. rewrite <- HB in HI. apply balance_In in HI. auto.
  - match type of HA with Ok (balance ?f ?a ?b) = _ => assert (HB : snd (balance f a b) = si) by (assert (balance f a b = (o, si)) as -> by congruence; reflexivity) end. rewrite <- HB in HI. apply balance_In in HI. apply align_In in HI as [HI|HI]; auto.
Qed.

(** the words of a sentence *)
Lemma flush_returns tc oc done : (forall x, In x tc -> x <> []) -> returns (flush tc oc done).
Proof. intros HT. unfold flush. destruct tc as [|x tc]; [discriminate|]. apply bind_returns; [|discriminate]. apply perm_returns. intros e He. apply HT. now apply in_rev in He. Qed.
Lemma last_word_joined w : ld_nospacing ld = false -> starts_word w -> in_dictionary ld (join_chunk E ld [w; []]) = false.
Proof.
  intros NS (c & t & EW & HC). unfold in_dictionary. destruct (translate_word ld _) as [ts|] eqn:T; [exfalso|reflexivity]. revert T. unfold join_chunk. rewrite NS. unfold replace_all_string. cbn [sjoin]. rewrite app_nil_r. intros T.
  assert (ES : ends_space (replace_all_fn (e_uni E) rxSpaces (w ++ lit " ") (expand (lit " ") (w ++ lit " ")))) by (apply replace_ends; [now exists w|intros m; now exists []]).
  pose proof (se_words ld SE NS _ _ T ES) as X. destruct (replace_first (e_uni E) rxSpaces c (t ++ lit " ") (expand (lit " ") (w ++ lit " "))) as (u & HU).
  - intros k. unfold rxSpaces. cbn [rx_ast mtch]. unfold step. cbn [m_rest]. destruct (decode_rune (c :: t ++ lit " ")) as [r w1] eqn:DR. match goal with |- (if ?b then _ else _) = None => destruct b eqn:CH end; [exfalso|reflexivity].
    assert (RR : 9 <= r <= 10 \/ 12 <= r <= 13 \/ r = 32). { unfold cls_has in CH. cbn [cl_neg cl_items existsb item_has xorb] in CH. revert CH. match goal with |- (if ?b then _ else _) = _ -> _ => destruct b eqn:CB; [intros _; lia|intros Y; discriminate Y] end. }
    destruct (decode_rune_ascii (c :: t ++ lit " ")) as (s' & HS & _); [discriminate|rewrite DR; cbn [fst]; lia|]. rewrite DR in HS. cbn [fst] in HS. assert (c = r) as -> by congruence. specialize (HC ltac:(lia)). unfold is_space in HC. lia.
  - subst w. cbn [app] in HU, X. rewrite HU in X. change (lit " ") with [32] in X. assert (c = 32) as -> by congruence. specialize (HC ltac:(lia)). discriminate HC.
Qed.
Lemma ts_returns orig : forall words i skip tc oc done, (i + length words = length orig)%nat -> (forall x, In x tc -> x <> []) -> (ld_nospacing ld = false -> forall w, In w words -> w = [] \/ starts_word w) -> returns (ts_loop E ld orig words i skip tc oc done).
Proof.
  induction words as [|word rest IH]; intros i skip tc oc done HL HT HW; cbn [ts_loop]; [now apply flush_returns|]. cbn [length] in HL.
  assert (HR : ld_nospacing ld = false -> forall w, In w rest -> w = [] \/ starts_word w) by (intros NS w HI; apply HW; [exact NS|now right]). destruct skip; [apply IH; [lia|exact HT|exact HR]|].
  assert (OA : forall k, (k < length orig)%nat -> returns (orig_at orig k)) by (intros k Hk; unfold orig_at; apply nth_error_Some in Hk; destruct (nth_error orig k); [discriminate|congruence]).
  assert (HT1 : forall y, y <> [] -> forall x, In x (y :: tc) -> x <> []) by (intros y Hy x [<-|Hx]; auto).
  assert (TW : forall w, in_dictionary ld w = true -> match translate_word ld w with Some t => t | None => [] end <> []).
  { intros w HD. unfold in_dictionary in HD. destruct (translate_word ld w) as [ts|] eqn:T; [|discriminate HD]. exact (translate_word_ne ld (se_sound ld SE) w ts T). }
  cbv zeta. destruct (empty word || _) eqn:EM. { apply bind_returns; [apply OA; lia|]. intros o _. apply IH; [lia| |exact HR]. apply HT1. discriminate. }
  match goal with |- returns (if in_dictionary ld ?j && ?a && ?b then _ else _) => destruct (in_dictionary ld j && a && b) eqn:CJ end.
  { apply andb_true_iff in CJ as [CJ CU]. apply andb_true_iff in CJ as [CJ _].
    assert (SP : ld_nospacing ld = false). { destruct (ld_nospacing ld) eqn:NS; [|reflexivity]. exfalso. destruct (se_name ld SE NS) as [X|X]; rewrite X in CU; discriminate CU. }
    destruct rest as [|nx rest']; [exfalso; destruct (HW SP word (or_introl eq_refl)) as [EW|SW]; [subst word; discriminate EM|]; pose proof (eq_trans (eq_sym CJ) (last_word_joined word SP SW)) as X; discriminate X|]. cbn [length] in HL.
    apply bind_returns; [apply OA; lia|]. intros o _. apply bind_returns; [apply OA; lia|]. intros o2 _. apply IH; [cbn [length]; lia| |exact HR]. apply HT1, TW, CJ. }
  destruct (in_dictionary ld word && _) eqn:CW.
  { apply andb_true_iff in CW as [CW _]. apply bind_returns; [apply OA; lia|]. intros o _. apply IH; [lia| |exact HR]. apply HT1, TW, CW. }
  destruct (in_dictionary ld (trim_chars word _) && _) eqn:CC.
  { apply andb_true_iff in CC as [CC _]. apply bind_returns; [apply OA; lia|]. intros o _. apply IH; [lia| |exact HR]. apply HT1. apply TW in CC. intros X. apply map_eq_nil in X. exact (CC X). }
  destruct (token_digits_ok E ld word). { apply bind_returns; [apply OA; lia|]. intros o _. apply IH; [lia| |exact HR]. apply HT1. discriminate. }
  destruct tc as [|t0 tc0]; [apply IH; [lia|exact HT|exact HR]|]. apply bind_returns; [apply OA; lia|]. intros o _. destruct (word_is_tz (e_uni E) o); [apply IH; [lia| |exact HR]; apply HT1; discriminate|].
  apply bind_returns; [now apply flush_returns|]. intros done' _. apply IH; [lia| |exact HR]. intros x [].
Qed.
Lemma translate_search_returns cfg s : group_set (e_uni E) ld s -> returns (translate_search E cfg ld s).
Proof.
  intros HG. unfold translate_search. apply bind_returns; [apply split_sentence_returns, HG|]. intros ss _. apply bind_returns; [|discriminate]. apply rmap_returns. intros sent _. apply bind_returns; [apply align_returns|]. intros [o si] HA. apply bind_returns; [|discriminate].
  apply ts_returns; [rewrite (align_length _ _ _ _ HA); reflexivity|intros x []|exact (align_words _ _ _ _ HA)].
Qed.
End L.

Variable D : langdb.
Variable det : option (str -> list str).
Hypothesis TS : tables_sound D.
Definition state_ok (p : pstate) : Prop := forall ld, In ld (p_used p) -> sound ld.
Lemma parse_date_returns p cfg e : state_ok p -> returns (parse_date E D det p cfg e) /\ forall p' d, parse_date E D det p cfg e = Ok (p', d) -> state_ok p'.
Proof.
  intros SP. unfold parse_date. pose proof (parse_returns E D TS det p cfg e [] SP) as R. pose proof (used_parse_sound E D TS det p cfg e [] SP) as SU. destruct (parse E D det p cfg e []) as [q [[d x]|er|]]; cbn [fst snd] in *; [|split; discriminate|congruence].
  split; [discriminate|]. intros p' d' X. assert (p' = q) as -> by congruence. exact SU.
Qed.
Definition good {A} (r : res A) (st : A -> pstate) : Prop := returns r /\ forall x, r = Ok x -> state_ok (st x).
Lemma good_bind {A B} (r : res A) (f : A -> res B) st st' : good r st -> (forall x, state_ok (st x) -> good (f x) st') -> good (rbind r f) st'.
Proof. intros [H1 H2] HF. unfold good, returns in *. destruct r as [x|e|]; cbn [rbind]; [apply HF; auto|split; discriminate|congruence]. Qed.
Lemma good_ok {A} (x : A) st : state_ok (st x) -> good (Ok x) st.
Proof. intros HS. split; [discriminate|]. intros y HY. assert (y = x) as -> by congruence. exact HS. Qed.
Lemma parse_date_good p cfg e : state_ok p -> good (parse_date E D det p cfg e) fst.
Proof. intros SP. destruct (parse_date_returns p cfg e SP) as [H1 H2]. split; [exact H1|]. intros [q d] HX. exact (H2 _ _ HX). Qed.
Lemma entry_good p ic entry tr parsed need : state_ok p -> good (parse_entry E D det p ic entry tr parsed need) (fun x => fst (fst x)).
Proof.
  intros SP. unfold parse_entry. eapply good_bind; [now apply parse_date_good|]. intros [q d] SQ. cbn [fst] in SQ. destruct (is_zero _); [now apply good_ok|]. eapply good_bind; [now apply parse_date_good|]. intros [q2 d2] SQ2. now apply good_ok.
Qed.
Lemma split_good : forall parts p ic need acc, state_ok p -> good (parse_split E D det p ic need parts acc) (fun x => fst (fst x)).
Proof.
  induction parts as [|[e o] parts IH]; intros p ic need acc SP; cbn [parse_split]; [now apply good_ok|]. destruct (Nat.leb _ _); [now apply IH|]. eapply good_bind; [now apply entry_good|]. intros [[q ic'] ps] SQ. now apply IH.
Qed.
Lemma splits_good : forall sps p ic need, state_ok p -> good (parse_splits E D det p ic need sps) (fun x => fst (fst x)).
Proof.
  induction sps as [|sp sps IH]; intros p ic need SP; cbn [parse_splits]; [now apply good_ok|]. eapply good_bind; [now apply split_good|]. intros [[q ic'] c] SQ. eapply good_bind; [now apply IH|]. intros [[q2 ic2] cs] SQ2. now apply good_ok.
Qed.
Lemma found_good : forall l p ic need acc, state_ok p -> good (parse_found E D det p ic need l acc) fst.
Proof.
  induction l as [|[[entry tr] o] l IH]; intros p ic need acc SP; cbn [parse_found]; [now apply good_ok|]. destruct (Nat.leb _ _); [now apply IH|]. eapply good_bind; [now apply entry_good|]. intros [[q ic'] ps] SQ. cbn [fst] in SQ. destruct (negb _); [now apply IH|].
  destruct (split_if_not_parsed entry o) as [|sp sps]; [now apply IH|]. eapply good_bind; [now apply splits_good|]. intros [[q2 ic2] cs] SQ2. now apply IH.
Qed.
Lemma swl_good p cfg lang text : state_ok p -> (forall ld, db_get D lang = Some ld -> word_safe ld /\ group_set (e_uni E) ld text) -> good (search_with_language E D det p cfg lang text) fst.
Proof.
  intros SP SL. unfold search_with_language. destruct (init_search_config E cfg) as [c|]; [|now apply good_ok]. destruct (db_get D lang) as [ld|] eqn:DB; [|now apply good_ok].
  destruct (SL ld eq_refl) as [SW SG]. pose proof (translate_search_returns ld SW (to_internal c) text SG) as R. destruct (translate_search E (to_internal c) ld text) as [[tr or]|e|]; cbn [rbind]; [|split; discriminate|congruence].
  eapply good_bind; [now apply found_good|]. intros [q fd] SQ. now apply good_ok.
Qed.

Lemma candidates_returns s languages uc : languages <> [] -> returns (language_candidates E D s languages uc) /\ forall c, language_candidates E D s languages uc = Ok c -> incl c languages.
Proof.
  intros HN. unfold language_candidates. destruct languages as [|l0 ls]; [congruence|]. destruct (forallb _ _). { split; [discriminate|]. intros c X. assert (c = [l0]) as -> by congruence. intros x [<-|[]]. now left. }
  destruct (List.find _ _) as [l|] eqn:F. { split; [discriminate|]. intros c X. assert (c = [l]) as -> by congruence. intros x [<-|[]]. now apply find_some in F. }
  split; [discriminate|]. intros c X x HX. assert (c = filter (fun l => match db_get D l with Some ld => existsb (fun c => existsb (Z.eqb c) (runes (normalize_charset (e_uni E) s))) (ld_charset ld) | None => false end) (l0 :: ls)) as -> by congruence. now apply filter_In in HX.
Qed.
Lemma score_returns cfg s cands : (forall l ld, In l cands -> db_get D l = Some ld -> searchable ld) -> returns (score_candidates E D cfg s cands).
Proof.
  induction cands as [|c cands IH]; intros HS; cbn [score_candidates]; [discriminate|]. assert (HS' : forall l ld, In l cands -> db_get D l = Some ld -> searchable ld) by (intros l ld HI; apply HS; now right).
  destruct (db_get D c) as [ld|] eqn:DB; [|now apply IH]. destruct (HS c ld (or_introl eq_refl) DB) as [SW SG]. apply bind_returns; [apply count_returns; [exact SW|apply SG]|]. intros sc _. destruct (positive sc); [apply bind_returns; [now apply IH|discriminate]|]. apply bind_returns; [apply count_returns; [exact SW|apply SG]|]. intros sc2 _. apply bind_returns; [now apply IH|discriminate].
Qed.
Lemma detect_returns cfg s languages uc : languages <> [] -> (forall l ld, In l languages -> db_get D l = Some ld -> searchable ld) -> returns (detect_language E D cfg s languages uc).
Proof.
  intros HN HS. unfold detect_language. destruct (candidates_returns s languages uc HN) as [H1 H2]. apply bind_returns; [exact H1|]. intros c HC. specialize (H2 c HC). assert (X : returns (do scored <- score_candidates E D cfg (normalize_string (e_uni E) s) c; match sort_by score_lt scored with [] => match c_deflang cfg with d :: _ => Ok d | [] => Err EDetect end | (c, _) :: _ => Ok c end)).
  { apply bind_returns; [apply score_returns; intros l ld HI; apply HS; auto|]. intros sc _. destruct (sort_by _ sc) as [|[x y] t]; [destruct (c_deflang cfg); discriminate|discriminate]. }
  destruct c as [|x [|y c]]; [exact X|discriminate|exact X].
Qed.
End E.

Lemma insert_in {A} (lt : A -> A -> bool) x l y : In y (insert_by lt x l) -> y = x \/ In y l.
Proof. induction l as [|z l IH]; cbn [insert_by]; [intros [H|[]]; auto|]. destruct (lt z x); intros [H|H]; cbn [In] in *; [auto| |auto|auto]. destruct (IH H); auto. Qed.
Lemma sort_by_in {A} (lt : A -> A -> bool) l y : In y (sort_by lt l) -> In y l.
Proof. induction l as [|x l IH]; [auto|]. cbn [sort_by fold_right]. fold (sort_by lt l). intros H. apply insert_in in H as [->|H]; [now left|right; auto]. Qed.
Lemma score_in E D cfg s : forall c sc, score_candidates E D cfg s c = Ok sc -> forall l y, In (l, y) sc -> In l c.
Proof.
  induction c as [|x c IH]; intros sc HS l y HI; cbn [score_candidates] in HS; [assert (sc = []) as -> by congruence; destruct HI|].
  destruct (db_get D x) as [ld|]; [|right; eapply IH; eassumption]. destruct (count_applicability E cfg ld s false) as [s1|e|]; cbn [rbind] in HS; try discriminate HS. destruct (positive s1).
  - destruct (score_candidates E D cfg s c) as [r|e|]; cbn [rbind] in HS; try discriminate HS. assert (XS : sc = (x, s1) :: r) by congruence. subst sc. destruct HI as [HI|HI]; [left; congruence|right; eapply IH; [reflexivity|exact HI]].
  - destruct (count_applicability E cfg ld s true) as [s2|e|]; cbn [rbind] in HS; try discriminate HS. destruct (score_candidates E D cfg s c) as [r|e|]; cbn [rbind] in HS; try discriminate HS.
    destruct (positive s2); [assert (XS : sc = (x, s2) :: r) by congruence; subst sc; destruct HI as [HI|HI]; [left; congruence|]|assert (XS : sc = r) by congruence; subst sc]; right; (eapply IH; [reflexivity|exact HI]).
Qed.

(** SearchWithLanguage does not panic for such a language; what is missing: the languages that are not [searchable] (Spanish, and the
    languages without spaces other than Chinese and Japanese), where C33_spanish_refuted and C33_cantonese_refuted apply *)
Theorem C33_search_with_language_partial : forall E D det p cfg lang text, tables_sound D -> reachable D det p ->
  (forall ld, db_get D lang = Some ld -> searchable ld) -> search_with_language E D det p cfg lang text <> Panic.
Proof. intros E D det p cfg lang text TS RE SL. refine (proj1 (swl_good E D det TS p cfg lang text (reachable_sound D det p TS RE) _)). intros ld HG. destruct (SL ld HG) as [SW SG]. split; [exact SW|apply SG]. Qed.
Print Assumptions C33_search_with_language_partial.

(** Search does not panic if all languages it may choose are such: those that the configuration and the detection function select (all if
    they select none), and the first default language *)
Lemma detect_among E D cfg s ls uc lang : ls <> [] -> detect_language E D cfg s ls uc = Ok lang -> In lang ls \/ hd_error (c_deflang cfg) = Some lang.
Proof.
  intros HN HD. unfold detect_language in HD. destruct (candidates_returns E D s ls uc HN) as [_ H2]. destruct (language_candidates E D s ls uc) as [c|e|]; cbn [rbind] in HD; try discriminate HD. specialize (H2 c eq_refl).
  assert (X : (do scored <- score_candidates E D cfg (normalize_string (e_uni E) s) c; match sort_by score_lt scored with [] => match c_deflang cfg with d :: _ => Ok d | [] => Err EDetect end | (c, _) :: _ => Ok c end) = Ok lang -> In lang ls \/ hd_error (c_deflang cfg) = Some lang).
  { destruct (score_candidates _ _ _ _ _) as [sc|e|] eqn:SC; cbn [rbind]; try discriminate. destruct (sort_by score_lt sc) as [|[x y] t] eqn:SB; [destruct (c_deflang cfg); [discriminate|intros Y; right; cbn [hd_error]; congruence]|].
    intros Y. assert (x = lang) as -> by congruence. left. apply H2. apply (score_in E D cfg (normalize_string (e_uni E) s) c sc SC lang y). apply (sort_by_in score_lt). rewrite SB. now left. }
  destruct c as [|x [|y c]]; [now apply X|left; apply H2; left; congruence|now apply X].
Qed.
Theorem C33_search_partial : forall E D det p cfg text, tables_sound D -> reachable D det p -> db_langs D <> [] ->
  (forall ls lang ld, search_languages E D det cfg text = Ok ls -> In lang ls \/ hd_error (u_deflang cfg) = Some lang -> db_get D lang = Some ld -> searchable ld) ->
  search E D det p cfg text <> Panic.
Proof.
  intros E D det p cfg text TS RE DL SL. pose proof (reachable_sound D det p TS RE) as SP. unfold search, search_languages in *. destruct (init_search_config E cfg) as [c|] eqn:IC; [|discriminate].
  assert (DF : u_deflang c = u_deflang cfg). { unfold init_search_config in IC. destruct (negb _); [discriminate IC|]. destruct (is_zero (u_now cfg)); (assert (u_deflang c = u_deflang (initiate (e_now E) cfg)) as -> by (apply some_inj in IC; subst c; reflexivity)); reflexivity. }
  set (cl := match u_languages c, det with [], Some f => f text | l, _ => l end) in *. destruct (get_languages E D (u_locales c) cl (u_given_order c)) as [ls|e|] eqn:GL; [|discriminate|].
  - specialize (SL ls).
    assert (NL : ls <> []). { unfold get_languages in GL. destruct (match u_locales c with [] => _ | _ => _ end) as [r|?|]; cbn [rbind] in GL; try discriminate GL. destruct (if u_given_order c then r else _) as [|x l]; assert (X : Ok ls = Ok (db_langs D) \/ exists y t, ls = y :: t) by (first [left; congruence | right; exists x, l; congruence]); destruct X as [X|(y & t & ->)]; congruence. }
    pose proof (detect_returns E D (to_internal c) text ls (charsets_of (init_charsets D p ls)) NL (fun l ld HI => SL l ld eq_refl (or_introl HI))) as R. destruct (detect_language E D _ text ls _) as [lang|e|] eqn:DE; [|discriminate|congruence].
    assert (S2 : state_ok (init_charsets D p ls)) by (unfold init_charsets; destruct (_ || _); exact SP).
    apply (detect_among E D (to_internal c) text ls _ lang NL) in DE. cbn [to_internal c_deflang] in DE. rewrite DF in DE.
    destruct (swl_good E D det TS (init_charsets D p ls) c lang text S2) as [R2 _]; [intros ld HG; destruct (SL lang ld eq_refl DE HG) as [SW SG]; split; [exact SW|apply SG]|]. destruct (search_with_language E D det _ c lang text) as [[q [rs er]]|e|]; cbn [rbind]; [discriminate..|congruence].
  - exfalso. unfold get_languages in GL. assert (X : returns (match u_locales c with _ :: _ => pick_locale_languages E D (u_locales c) [] false | [] => if forallb (fun l => mem l (db_langs D)) cl then Ok cl else Err EUnknownLanguages end)).
    { destruct (u_locales c) as [|l0 ll]; [destruct (forallb _ _); discriminate|]. generalize (l0 :: ll) as l, (@nil str) as acc, false as iv. induction l as [|x l IH]; intros acc iv; cbn [pick_locale_languages]; [destruct iv; discriminate|]. destruct (negb _); [apply IH|]. cbv zeta. apply IH. }
    destruct (match u_locales c with [] => _ | _ => _ end); cbn [rbind] in GL; try discriminate GL. now apply X.
Qed.
Print Assumptions C33_search_partial.
(** the tables without Spanish and Cantonese *)
Definition db1 : langdb := {| db_get := fun c => if mem c [lit "es"; lit "yue"] then None else db_get db0 c; db_langs := filter (fun c => negb (mem c [lit "es"; lit "yue"])) (db_langs db0); db_order := db_order db0 |}.
Example C33_case : tables_sound db1 /\ db_langs db1 <> [] /\ (forall lang ld, db_get db1 lang = Some ld -> searchable ld).
Proof.
  assert (SE : forall lang ld, db_get db1 lang = Some ld -> searchable ld).
  { assert (B : forallb (fun p => mem (fst p) [lit "es"; lit "yue"] || searchableb (snd p)) loc_table = true) by (vm_compute; reflexivity).
    intros lang ld HG. cbn [db_get db1] in HG. destruct (mem lang _) eqn:M; [discriminate HG|]. cbn [db_get db0] in HG. apply mget_In in HG. rewrite forallb_forall in B. apply B in HG. cbn [fst snd] in HG. rewrite M in HG. now apply searchableb_ok. }
  split; [intros c ld HG; exact (se_sound ld (se_safe ld (SE c ld HG)))|]. split; [vm_compute; discriminate|exact SE].
Qed.
