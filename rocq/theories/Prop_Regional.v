(** C41: what a regional locale keeps of its language *)
From Coq Require Import ZifyBool Permutation.
From Verif Require Import GoBase SMap Regex GoTime Setting Strutil Env Language Parser History ParserFacts LocaleFacts Prop_Total Prop_Order Concrete LocaleData Shows.

(** [t] is a translation of the word [w] *)
Definition means (ld : locale) (w t : str) : Prop := exists ts, translate_word ld w = Some ts /\ In t ts.
(** [w] stands for a relative phrase ("next week"), which has one translation *)
Definition phrase (ld : locale) (w : str) : option str := mget (ld_reltype ld) w.

Lemma compact_In : forall l x, In x (compact_sorted l) <-> In x l.
Proof.
  induction l as [|a l IH]; intros x; [reflexivity|]. unfold compact_sorted in *. cbv zeta in *. specialize (IH x). cbn [In]. rewrite <- IH. clear IH.
  match goal with |- context [match ?g with [] => _ | _ :: _ => _ end] => destruct g as [|y l2] end; [reflexivity|]. destruct (eqs_spec a y) as [->|NE]; cbn [In]; tauto.
Qed.
Lemma sorted_In l x : In x (compact_sorted (sort_by lts l)) <-> In x l.
Proof. rewrite compact_In. split; intros HI; (eapply Permutation_in; [|exact HI]); [|apply Permutation_sym]; apply sort_by_perm. Qed.

(** the rest of what a locale has: the region keeps its name, its date order and its use of spaces; its letters, abbreviations,
    simplifications and patterns are its own and those of the language, its own first; the rules for cutting a text are its own, or those of
    the language if it has none *)
Theorem C41_rest_partial : forall parent child, let region := merge parent child in
  ld_name region = ld_name child /\ ld_order region = ld_order child /\ ld_nospacing region = ld_nospacing child /\
  (forall c, In c (ld_charset region) <-> In c (ld_charset child) \/ In c (ld_charset parent)) /\
  ld_abbr region = ld_abbr child ++ ld_abbr parent /\ ld_simpl region = ld_simpl child ++ ld_simpl parent /\ ld_relrx region = ld_relrx child ++ ld_relrx parent /\
  (ld_splitter child <> 0 -> ld_splitter region = ld_splitter child) /\ (ld_splitter child = 0 -> ld_splitter region = ld_splitter parent) /\
  (forall r, ld_rx child = Some r -> ld_rx region = Some r) /\ (ld_rx child = None -> ld_rx region = ld_rx parent) /\
  (forall r, ld_rx_exact child = Some r -> ld_rx_exact region = Some r) /\ (ld_rx_exact child = None -> ld_rx_exact region = ld_rx_exact parent).
Proof.
  intros parent child region. unfold region, merge. cbn [ld_name ld_order ld_nospacing ld_charset ld_abbr ld_simpl ld_relrx ld_splitter ld_rx ld_rx_exact].
  do 3 (split; [reflexivity|]). split; [intros c; apply in_app_iff|]. do 3 (split; [reflexivity|]). split; [intros H; destruct (Z.eqb_spec (ld_splitter child) 0); [contradiction|reflexivity]|]. split; [intros ->; reflexivity|].
  split; [intros r ->; reflexivity|]. split; [intros ->; reflexivity|]. split; [intros r ->; reflexivity|intros ->; reflexivity].
Qed.
Print Assumptions C41_rest_partial.

(** The dictionary of a regional locale: the phrases of the language, then those of the region; and for any other word the
    translations of both. What is missing: Parse also needs the list of known words to split a text, and that list is not merged (see
    C41_refuted). *)
Theorem C41_dictionary_partial : forall parent child, NoDup (map fst (ld_trans parent)) -> NoDup (map fst (ld_reltype parent)) ->
  let region := merge parent child in
  (forall w t, phrase parent w = Some t -> forall t', means region w t' <-> t' = t) /\
  (forall w t, phrase parent w = None -> phrase child w = Some t -> forall t', means region w t' <-> t' = t) /\
  (forall w, phrase parent w = None -> phrase child w = None -> forall t, means region w t <-> means parent w t \/ means child w t) /\
  (forall w, in_dictionary parent w = true \/ in_dictionary child w = true <-> in_dictionary region w = true).
Proof.
  intros parent child N1 N2 region. unfold means, phrase, in_dictionary, translate_word. unfold region at 1 2 3 4 5 6 7 8, merge. cbn [ld_reltype ld_trans].
  assert (RG : forall w, mget (ld_reltype region) w = match mget (ld_reltype parent) w with Some t => Some t | None => mget (ld_reltype child) w end) by (intros w; now apply merge_rel_get).
  assert (TG : forall w, mget (ld_trans region) w = match mget (ld_trans parent) w with Some ts => Some (compact_sorted (sort_by lts (mget_or [] (ld_trans child) w ++ ts))) | None => mget (ld_trans child) w end) by (intros w; now apply merge_trans_get).
  change (fold_left (fun m p => mset m (fst p) (snd p)) (ld_reltype parent) (ld_reltype child)) with (ld_reltype region).
  change (fold_left (fun m p => mset m (fst p) (compact_sorted (sort_by lts (mget_or [] m (fst p) ++ snd p)))) (ld_trans parent) (ld_trans child)) with (ld_trans region).
  split; [|split; [|split]].
  - intros w t HP t'. rewrite RG, HP. split; [intros (ts & X & HI); assert (ts = [t]) as -> by congruence; now destruct HI as [->|[]]|intros ->; exists [t]; split; [reflexivity|now left]].
  - intros w t HN HP t'. rewrite RG, HN, HP. split; [intros (ts & X & HI); assert (ts = [t]) as -> by congruence; now destruct HI as [->|[]]|intros ->; exists [t]; split; [reflexivity|now left]].
  - intros w HN HP t. rewrite RG, HN, HP, TG. unfold mget_or. destruct (mget (ld_trans parent) w) as [ps|].
    + split.
      * intros (ts & X & HI). assert (ts = compact_sorted (sort_by lts (match mget (ld_trans child) w with Some v => v | None => [] end ++ ps))) as -> by congruence. apply sorted_In, in_app_iff in HI as [HI|HI]; [right|left; now exists ps]. destruct (mget (ld_trans child) w) as [cs|]; [now exists cs|destruct HI].
      * intros HM. eexists. split; [reflexivity|]. apply sorted_In, in_app_iff. destruct HM as [(ts & X & HI)|(ts & X & HI)]; [right; now assert (ps = ts) as -> by congruence|left; now rewrite X].
    + split; [intros HM; now right|]. intros [(ts & X & _)|HM]; [discriminate X|exact HM].
  - intros w. rewrite RG, TG. destruct (mget (ld_reltype parent) w), (mget (ld_reltype child) w), (mget (ld_trans parent) w), (mget (ld_trans child) w); cbn; intuition congruence.
Qed.
Print Assumptions C41_dictionary_partial.
Example C41_dictionary_case : NoDup (map fst (ld_trans loc_en)) /\ NoDup (map fst (ld_reltype loc_en)) /\ means loc_en_GB (lit "march") (lit "march").
Proof.
  split; [apply nodupb_ok; vm_compute; reflexivity|]. split; [apply nodupb_ok; vm_compute; reflexivity|]. exists [lit "march"]. split; [vm_compute; reflexivity|now left].
Qed.

(** Yet a date that English understands is not understood in British English: its texts are not split into words *)
Definition cfg_c41 (loc : string) : uconfig := mkcfg [lit loc] [] (utc_at 2020 6 1 0 0 0) 0 0 0.
Theorem C41_refuted : exists text,
  shows (snd (parse env0 db0 None (new_parser []) (cfg_c41 "en") text [])) 2015 3 10 0 0 0 0 PDay (lit "en") /\
  snd (parse env0 db0 None (new_parser []) (cfg_c41 "en-GB") text []) = Ok (zero_date, Some ENoParse).
Proof.
  exists (lit "10 March 2015"). split; [apply shows_by; vm_compute; reflexivity|]. vm_compute. reflexivity.
Qed.
Print Assumptions C41_refuted.
(** the word alone is understood *)
Example C41_word_alone : shows (snd (parse env0 db0 None (new_parser []) (cfg_c41 "en-GB") (lit "March") [])) 2020 3 1 0 0 0 0 PMonth (lit "en-GB").
Proof. apply shows_by. vm_compute. reflexivity. Qed.
