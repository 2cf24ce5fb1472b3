(** C31: combinations of translations *)
From Verif Require Import GoBase SMap Regex GoTime Setting Strutil Digit Env Language Parser ParserFacts LocaleFacts Concrete LocaleData.

(** the cartesian product in lexicographic order *)
Fixpoint product {A} (l : list (list A)) : list (list A) :=
  match l with
  | [] => [[]]
  | e :: r => flat_map (fun x => map (cons x) (product r)) e
  end.

(** the product, characterised: membership, number, order *)
Lemma product_In {A} (l : list (list A)) : forall c, In c (product l) <-> Forall2 (fun x e => In x e) c l.
Proof.
  induction l as [|e r IH]; intros c; cbn [product].
  - split; [intros [<-|[]]; constructor | intros H; inversion H; now left].
  - rewrite in_flat_map. split.
    + intros (x & Hx & Hc). apply in_map_iff in Hc as (c' & <- & Hc). constructor; [exact Hx | now apply IH].
    + intros H. inversion H as [|x e' c' r' Hx Hc]; subst. exists x. split; [exact Hx|]. apply in_map. now apply IH.
Qed.
Lemma product_length {A} (l : list (list A)) : length (product l) = fold_right (fun e n => (length e * n)%nat) 1%nat l.
Proof.
  induction l as [|e r IH]; [reflexivity|]. cbn [product fold_right]. rewrite <- IH. generalize (product r). intros p. clear.
  induction e as [|x e IH]; [reflexivity|]. cbn [flat_map length]. rewrite app_length, map_length, IH. lia.
Qed.
Lemma product_NoDup {A} (l : list (list A)) : Forall (@NoDup A) l -> NoDup (product l).
Proof.
  induction 1 as [|e r He Hr IH]; cbn [product]; [repeat constructor; intros []|].
  induction He as [|x e Hx He IHe]; cbn [flat_map]; [constructor|].
  assert (NA : forall (a b : list (list A)), NoDup a -> NoDup b -> (forall y, In y a -> ~ In y b) -> NoDup (a ++ b)).
  { induction a as [|y a IHa]; intros b Ha Hb Hd; [exact Hb|]. inversion Ha; subst. cbn [app]. constructor.
    - rewrite in_app_iff. intros [Hy|Hy]; [auto | apply (Hd y); [now left | exact Hy]].
    - apply IHa; auto. intros z Hz. apply Hd. now right. }
  apply NA; [apply FinFun.Injective_map_NoDup; [intros ? ? [= ->]; reflexivity | exact IH] | exact IHe|].
  intros y H1 H2. apply in_map_iff in H1 as (c & <- & _). apply in_flat_map in H2 as (x' & Hx' & H2). apply in_map_iff in H2 as (c' & [= -> _] & _). contradiction.
Qed.

(** one column of createPermutation: row p holds entry (p / m) mod len *)
Lemma perm_column_nth {A} (e : list A) d m : (0 < length e)%nat -> (0 < m)%nat -> forall n idx cnt p, (idx < length e)%nat -> (cnt <= m)%nat -> (p < n)%nat ->
  nth p (perm_column e d m idx cnt n) d = nth ((idx + (cnt + p) / m) mod length e) e d.
Proof.
  intros He Hm. induction n as [|n IH]; intros idx cnt p Hi Hc Hp; [lia|]. cbn [perm_column].
  destruct (Nat.leb_spec m cnt) as [L|L].
  - assert (cnt = m) by lia. subst cnt.
    set (idx' := if Nat.leb (length e) (S idx) then 0%nat else S idx).
    assert (Hi' : (idx' < length e)%nat) by (unfold idx'; destruct (Nat.leb_spec (length e) (S idx)); lia).
    assert (Em : (idx' = (idx + 1) mod length e)%nat).
    { unfold idx'. destruct (Nat.leb_spec (length e) (S idx)) as [L2|L2]; [replace (idx + 1)%nat with (length e) by lia; now rewrite Nat.mod_same by lia | rewrite Nat.mod_small; lia]. }
    assert (G : forall k, nth (((idx' + k) mod length e)) e d = nth ((idx + (1 + k)) mod length e)%nat e d).
    { intros k. rewrite Em. rewrite Nat.add_mod_idemp_l by lia. f_equal. f_equal. lia. }
    destruct p as [|p].
    + cbn [nth]. rewrite Nat.add_0_r, Nat.div_same by lia. rewrite <- (Nat.mod_small idx' (length e)) by exact Hi'. rewrite <- (Nat.add_0_r idx'). rewrite G. now rewrite Nat.add_0_r.
    + cbn [nth]. rewrite IH by (assumption || lia). rewrite G. replace (m + S p)%nat with (1 * m + (1 + p))%nat by lia. rewrite Nat.div_add_l by lia. reflexivity.
  - destruct (Nat.leb_spec (length e) idx) as [L2|L2]; [lia|]. destruct p as [|p].
    + cbn [nth]. rewrite Nat.add_0_r, (Nat.div_small cnt m) by lia. now rewrite Nat.add_0_r, Nat.mod_small.
    + cbn [nth]. rewrite IH by lia. now replace (S cnt + p)%nat with (cnt + S p)%nat by lia.
Qed.

Lemma flat_map_cons_nth {A} (p : list (list A)) (e : list A) d i : p <> [] -> (i < length e * length p)%nat ->
  nth i (flat_map (fun x => map (cons x) p) e) [] = nth (i / length p) e d :: nth (i mod length p) p [].
Proof.
  intros Hp. revert i. induction e as [|x e IH]; intros i Hi; [cbn in Hi; lia|]. cbn [flat_map].
  assert (Lp : (0 < length p)%nat) by (destruct p; [congruence|cbn; lia]).
  destruct (Nat.lt_ge_cases i (length p)) as [L|L].
  - rewrite app_nth1 by (rewrite map_length; lia). rewrite Nat.div_small, Nat.mod_small by lia. cbn [nth].
    rewrite (nth_indep (map (cons x) p) [] (x :: [])) by (rewrite map_length; lia). apply (map_nth (cons x)).
  - rewrite app_nth2 by (rewrite map_length; lia). rewrite map_length. rewrite IH by (cbn [length] in Hi; lia).
    assert (Ei : i = (i - length p + 1 * length p)%nat) by lia. set (k := (i - length p)%nat) in *. clearbody k. subst i.
    rewrite Nat.div_add, Nat.mod_add by lia. replace (k / length p + 1)%nat with (S (k / length p)) by lia. reflexivity.
Qed.
Definition total {A} (l : list (list A)) : nat := fold_right (fun e n => (length e * n)%nat) 1%nat l.
Lemma total_pos {A} (l : list (list A)) : Forall (fun e => e <> []) l -> (0 < total l)%nat.
Proof. induction 1 as [|e l He _ IH]; [cbn; lia|]. cbn [total fold_right]. fold (total l). destruct e; [congruence|]. cbn [length]. lia. Qed.
Lemma perm_columns_row {A} (d : A) n : forall input p, Forall (fun e => e <> []) input -> (p < n)%nat ->
  map (fun c => nth p c d) (perm_columns d n (total input) input) = nth (p mod total input) (product input) [].
Proof.
  induction input as [|e r IH]; intros p HF Hp.
  - cbn [perm_columns map total fold_right product]. rewrite Nat.mod_1_r. reflexivity.
  - inversion HF as [|? ? He Hr]; subst. pose proof (total_pos r Hr) as TP.
    assert (Le : (0 < length e)%nat) by (destruct e; [congruence|cbn; lia]).
    cbn [perm_columns total fold_right]. fold (total r). rewrite (Nat.mul_comm (length e) (total r)), Nat.div_mul by lia. cbn [map].
    rewrite perm_column_nth by lia. rewrite IH by assumption. cbn [product].
    assert (PL : length (product r) = total r) by apply product_length.
    assert (PN : product r <> []) by (intros X; rewrite X in PL; cbn in PL; lia).
    rewrite (flat_map_cons_nth _ _ d) by (first [exact PN | rewrite PL; pose proof (Nat.mod_upper_bound p (total r * length e) ltac:(lia)); lia]).
    rewrite PL. cbn [Nat.add]. f_equal.
    + f_equal. rewrite Nat.mod_mul_r by lia. rewrite (Nat.mul_comm (total r) ((p / total r) mod length e)), Nat.div_add by lia.
      rewrite (Nat.div_small (p mod total r)) by (apply Nat.mod_upper_bound; lia). reflexivity.
    + f_equal. rewrite Nat.mod_mul_r by lia. rewrite (Nat.mul_comm (total r)). rewrite Nat.mod_add by lia. symmetry. apply Nat.mod_mod. lia.
Qed.
Lemma fold_total {A} (l : list (list A)) : forall k, fold_left (fun a e => (a * length e)%nat) l k = (k * total l)%nat.
Proof. induction l as [|e l IH]; intros k; cbn [fold_left total fold_right]; [lia|]. rewrite IH. fold (total l). lia. Qed.

Lemma create_permutation_product {A} (d : A) input : Forall (fun e => e <> []) input -> create_permutation d input = Ok (product input).
Proof.
  intros HF. unfold create_permutation.
  assert (existsb (fun e : list A => match e with [] => true | _ => false end) input = false) as ->.
  { clear -HF. induction HF as [|e l He _ IH]; [reflexivity|]. cbn [existsb]. rewrite IH. destruct e; [congruence|reflexivity]. }
  rewrite fold_total, Nat.mul_1_l. f_equal.
  apply (nth_ext _ _ [] []).
  - rewrite map_length, seq_length. symmetry. apply product_length.
  - intros i Hi. rewrite map_length, seq_length in Hi.
    rewrite (nth_indep _ [] (map (fun c => nth 0 c d) (perm_columns d (total input) (total input) input))) by (rewrite map_length, seq_length; exact Hi).
    rewrite (map_nth (fun p => map (fun c => nth p c d) (perm_columns d (total input) (total input) input)) (seq 0 (total input)) 0%nat i).
    rewrite seq_nth by exact Hi. cbn [Nat.add]. rewrite perm_columns_row by assumption. rewrite Nat.mod_small by exact Hi. reflexivity.
Qed.

(** A locale all of whose words have at least one translation. *)
Definition words_translated (ld : locale) : Prop := forall w ts, mget (ld_trans ld) w = Some ts -> ts <> [].

(** the alternatives of one token (translate.go:29-66), as a relation: a skipped token has the empty translation only; else the
    first matching relative-type expression gives one translation; else a relative type; else the listed translations (an empty one
    keeps the token when formatting is to be kept); else the token itself *)
Inductive alternative (E : env) (ld : locale) (skipped : list str) (keep : bool) (token : str) : str -> Prop :=
| alt_skipped : In token skipped -> alternative E ld skipped keep token []
| alt_pattern l1 rx repl l2 : ~ In token skipped -> ld_relrx ld = l1 ++ (rx, repl) :: l2 ->
    match_string (e_uni E) rx token = true -> (forall p, In p l1 -> match_string (e_uni E) (fst p) token = false) ->
    alternative E ld skipped keep token (replace_all_string (e_uni E) rx token repl)
| alt_relative t : ~ In token skipped -> (forall p, In p (ld_relrx ld) -> match_string (e_uni E) (fst p) token = false) ->
    mget (ld_reltype ld) token = Some t -> alternative E ld skipped keep token (if empty t && keep then token else t)
| alt_word ts t : ~ In token skipped -> (forall p, In p (ld_relrx ld) -> match_string (e_uni E) (fst p) token = false) ->
    mget (ld_reltype ld) token = None -> mget (ld_trans ld) token = Some ts -> In t ts ->
    alternative E ld skipped keep token (if empty t && keep then token else t)
| alt_self : ~ In token skipped -> (forall p, In p (ld_relrx ld) -> match_string (e_uni E) (fst p) token = false) ->
    mget (ld_reltype ld) token = None -> mget (ld_trans ld) token = None -> alternative E ld skipped keep token token.

Lemma find_split {A} (f : A -> bool) l x : List.find f l = Some x -> exists l1 l2, l = l1 ++ x :: l2 /\ f x = true /\ forall y, In y l1 -> f y = false.
Proof.
  induction l as [|a l IH]; cbn [List.find]; [discriminate|]. destruct (f a) eqn:Fa.
  - intros [= <-]. exists [], l. repeat split; auto. intros y [].
  - intros H. destruct (IH H) as (l1 & l2 & -> & Hx & Hy). exists (a :: l1), l2. repeat split; auto. intros y [<-|Hi]; auto.
Qed.
Lemma find_none' {A} (f : A -> bool) l : List.find f l = None -> forall y, In y l -> f y = false.
Proof. intros H y Hy. destruct (f y) eqn:F; [|reflexivity]. pose proof (find_none f l H y Hy). congruence. Qed.
Lemma split_first_unique {A} (f : A -> bool) l x l1 l2 : l = l1 ++ x :: l2 -> f x = true -> (forall y, In y l1 -> f y = false) -> List.find f l = Some x.
Proof.
  intros -> Hx Hy. induction l1 as [|a l1 IH]; cbn [app List.find]; [now rewrite Hx|]. rewrite (Hy a (or_introl eq_refl)). apply IH. intros y Hi. apply Hy. now right.
Qed.
Lemma translate_token_In E ld skipped keep token t : In t (translate_token E ld skipped keep token) <-> alternative E ld skipped keep token t.
Proof.
  unfold translate_token. destruct (mem token skipped) eqn:M.
  - apply mem_In in M. split; [intros [<-|[]]; now constructor|]. intros H. inversion H; subst; try contradiction. now left.
  - assert (N : ~ In token skipped) by (intros X; apply mem_In in X; congruence).
    destruct (List.find (fun p => match_string (e_uni E) (fst p) token) (ld_relrx ld)) as [[rx repl]|] eqn:F.
    + destruct (find_split _ _ _ F) as (l1 & l2 & E1 & Hm & Hl). cbn [fst] in Hm. split.
      * intros [<-|[]]. eapply alt_pattern; eauto.
      * assert (NN : forall p, In p (ld_relrx ld) -> match_string (e_uni E) (fst p) token = false -> p = (rx, repl) -> False) by (intros p _ Hp ->; cbn [fst] in Hp; congruence).
        intros H. inversion H as [|k1 rx' repl' k2 _ E2 Hm' Hk|t' _ Hn|ts t' _ Hn|_ Hn]; subst; try contradiction;
        try (exfalso; assert (Hi : In (rx, repl) (ld_relrx ld)) by (rewrite E1; apply in_or_app; right; now left); specialize (Hn _ Hi); cbn [fst] in Hn; congruence).
        left. pose proof (split_first_unique (fun p => match_string (e_uni E) (fst p) token) _ _ _ _ E2 Hm' Hk) as X. rewrite F in X. injection X as -> ->. reflexivity.
    + pose proof (find_none' _ _ F) as FN. cbv beta in FN. unfold translate_word.
      assert (NP : forall k1 rx repl k2, ld_relrx ld = k1 ++ (rx, repl) :: k2 -> match_string (e_uni E) rx token = true -> False).
      { intros k1 rx repl k2 E2 Hm. assert (Hi : In (rx, repl) (ld_relrx ld)) by (rewrite E2; apply in_or_app; right; now left). specialize (FN _ Hi). cbn [fst] in FN. congruence. }
      destruct (mget (ld_reltype ld) token) as [rt|] eqn:R; [|destruct (mget (ld_trans ld) token) as [ts|] eqn:T].
      * cbn [map]. split; [intros [<-|[]]; now constructor|]. intros H. inversion H; subst; try contradiction; try congruence; [exfalso; eauto|]. left.
        match goal with X : mget _ _ = Some ?x |- context [empty ?y] => replace x with y in * by congruence end. reflexivity.
      * rewrite in_map_iff. split; [intros (t' & <- & Ht); eapply alt_word; eauto|]. intros H. inversion H; subst; try contradiction; try congruence; [exfalso; eauto|].
        replace ts0 with ts in * by congruence. eauto.
      * split; [intros [<-|[]]; now apply alt_self|]. intros H. inversion H; subst; try contradiction; try congruence; [exfalso; eauto|]. now left.
Qed.

(** The sentence of a combination of words: the word "in" is left out unless there is a unit of time to go with it, words without a
    translation are left out, and the rest is written one after the other, with a space between two words unless one of them is
    itself a space or a sign (nothing is put between them when the formatting is kept); spaces at both ends are cut off. *)
Definition unit_words : list str := map lit ["day"; "week"; "month"; "year"; "hour"; "minute"; "second"]%string.
Definition sign_words : list str := map lit ["+"; ":"; "."; " "; "-"; "/"]%string.
Definition present (w : str) : bool := negb (empty w).
Definition remaining (ws : list str) : list str :=
  filter present (if existsb (fun w => mem w unit_words) ws then ws else filter (fun w => negb (eqs w (lit "in"))) ws).
Fixpoint spaced (keep : bool) (ws : list str) : str :=
  match ws with
  | a :: ((b :: _) as r) => a ++ (if keep || mem a sign_words || mem b sign_words then [] else [32]) ++ spaced keep r
  | [a] => a
  | [] => []
  end.
Definition sentence (keep : bool) (ws : list str) : str := trim_space (spaced keep (remaining ws)).
Lemma no_in ws : mem (lit "in") ws = false -> filter (fun w => negb (eqs w (lit "in"))) ws = ws.
Proof.
  induction ws as [|w ws IH]; [reflexivity|]. change (mem (lit "in") (w :: ws)) with (eqs (lit "in") w || mem (lit "in") ws). intros H. apply orb_false_iff in H as [H1 H2]. cbn [filter].
  destruct (eqs_spec (lit "in") w) as [X|X]; [discriminate H1|]. destruct (eqs_spec w (lit "in")) as [Y|Y]; [congruence|]. cbn [negb]. now rewrite IH.
Qed.
Lemma spaced_from keep : forall r a, spaced keep (a :: r) = a ++ join_from a r (if keep then [] else lit " ").
Proof.
  induction r as [|b r IH]; intros a; [cbn; now rewrite app_nil_r|]. change (spaced keep (a :: b :: r)) with (a ++ (if keep || mem a sign_words || mem b sign_words then [] else [32]) ++ spaced keep (b :: r)).
  rewrite IH. change (join_from a (b :: r) (if keep then [] else lit " ")) with ((if negb (mem a always_kept) && negb (mem b always_kept) then (if keep then [] else lit " ") else []) ++ b ++ join_from b r (if keep then [] else lit " ")).
  change sign_words with always_kept. destruct keep, (mem a always_kept), (mem b always_kept); reflexivity.
Qed.
Lemma finish_sentence keep ws : finish_translation keep ws = sentence keep ws.
Proof.
  unfold finish_translation, sentence, remaining. change unit_words with freshness_words. cbv zeta.
  assert (R : (if mem (lit "in") ws then clear_future_words ws else ws) = (if existsb (fun w => mem w freshness_words) ws then ws else filter (fun w => negb (eqs w (lit "in"))) ws)).
  { unfold clear_future_words. destruct (mem (lit "in") ws) eqn:M; [reflexivity|]. rewrite no_in by exact M. destruct (existsb _ ws); reflexivity. }
  rewrite R. unfold present. set (l := filter _ _). clearbody l. destruct l as [|a r]; [reflexivity|]. unfold join. now rewrite spaced_from.
Qed.
(** Translating gives exactly the combinations of the alternatives of the tokens, each once (as a combination), in lexicographic order. *)
Theorem C31_all_combinations : forall E cfg ld s keep tokens,
  words_translated ld ->
  lsplit E ld (simplify E ld (normalize_token E s)) keep (skipped_tokens cfg ld) = Ok tokens ->
  exists alts,
    Forall2 (fun token a => a <> [] /\ forall t, In t a <-> alternative E ld (skipped_tokens cfg ld) keep token t) tokens alts /\
    translate E cfg ld s keep = Ok (map (sentence keep) (product alts)) /\
    (forall c, In c (product alts) <-> Forall2 (fun t a => In t a) c alts) /\
    length (product alts) = fold_right (fun e n => (length e * n)%nat) 1%nat alts /\
    (Forall (@NoDup str) alts -> NoDup (product alts)).
Proof.
  intros E cfg ld s keep tokens HW HS. exists (map (translate_token E ld (skipped_tokens cfg ld) keep) tokens).
  assert (NE : forall token, translate_token E ld (skipped_tokens cfg ld) keep token <> []).
  { intros token. unfold translate_token. destruct (mem _ _); [discriminate|]. destruct (List.find _ _) as [[rx repl]|]; [discriminate|].
    destruct (translate_word ld token) as [ts|] eqn:T; [|discriminate]. unfold translate_word in T. destruct (mget (ld_reltype ld) token); [injection T as <-; discriminate|].
    apply HW in T. destruct ts; [congruence|discriminate]. }
  split; [|split; [|split; [|split]]].
  - clear HS. induction tokens as [|tok tokens IH]; cbn [map]; constructor; [|exact IH]. split; [apply NE | apply translate_token_In].
  - unfold translate. rewrite HS. cbn [rbind]. rewrite create_permutation_product; [cbn [rbind]; f_equal; apply map_ext; apply finish_sentence|]. apply Forall_map. apply Forall_forall. intros token _. apply NE.
  - intros c. apply product_In.
  - apply product_length.
  - apply product_NoDup.
Qed.
Print Assumptions C31_all_combinations.

Lemma mget_In' {A} (m : smap A) w v : mget m w = Some v -> exists k, In (k, v) m.
Proof.
  induction m as [|[k x] m IH]; cbn [mget]; [discriminate|]. destruct (eqs w k); [intros [= ->]; exists k; now left|]. intros H. destruct (IH H) as (k' & Hk). exists k'. now right.
Qed.
Definition has_words (ld : locale) : bool := forallb (fun p : str * list str => match snd p with [] => false | _ => true end) (ld_trans ld).
Lemma has_words_translated ld : has_words ld = true -> words_translated ld.
Proof. intros H w ts Hw. apply mget_In' in Hw as (k & Hk). unfold has_words in H. rewrite forallb_forall in H. specialize (H _ Hk). cbn in H. destruct ts; [discriminate|discriminate]. Qed.
(** the hypothesis holds of the transcribed locales *)
Example C31_transcribed_locales : forall name ld, db_get db0 name = Some ld -> words_translated ld.
Proof.
  intros name ld H. apply has_words_translated. cbn [db_get db0] in H. apply mget_In' in H as (k & Hk).
  assert (A : forallb (fun p => has_words (snd p)) loc_table = true) by (vm_compute; reflexivity).
  rewrite forallb_forall in A. exact (A _ Hk).
Qed.
(** "mar" is ambiguous in Spanish *)
Definition cfg31 : config := to_internal (initiate (e_now env0) uconfig0).
Example C31_case :
  lsplit env0 loc_es (simplify env0 loc_es (normalize_token env0 (lit "mar 5 mar"))) false (skipped_tokens cfg31 loc_es) = Ok (map lit ["mar"; " "; "5"; " "; "mar"]%string) /\
  translate env0 cfg31 loc_es (lit "mar 5 mar") false = Ok (map lit ["march 5 march"; "march 5 tuesday"; "tuesday 5 march"; "tuesday 5 tuesday"]%string).
Proof. vm_compute. split; reflexivity. Qed.
