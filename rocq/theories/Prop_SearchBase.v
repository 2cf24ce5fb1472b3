(** C51: the time that dates found by Search are relative to *)
From Coq Require Import ZifyBool.
From Verif Require Import GoBase SMap Strutil GoTime Civil Setting Env Common Language Parser Search Spec ParserFacts Prop_Parser Prop_Search Concrete LocaleData Shows.

(** ** Specification *)
Definition relative_phrases : list str := map lit ["ago"; "in"; "from now"; "tomorrow"; "today"; "yesterday"]%string.
(** the text contains one of these *)
Definition mentions (t : str) : bool := existsb (contains t) relative_phrases.
(** a result: the date, whether the text mentions a relative phrase, the text *)
Definition hit := (date * bool * str)%type.
(** the time of the last of these results that is a date and does not mention one *)
Fixpoint reference (l : list hit) : option time :=
  match l with [] => None | (d, rel, _) :: l' => match reference l' with Some t => Some t | None => if rel || is_zero (d_time d) then None else Some (d_time d) end end.
(** the current time for a text that follows these results; [t] is the one used before, the zero time stands for the clock *)
Definition current (before : list hit) (t : time) : time := match reference before with Some u => u | None => t end.

Section B.
Variables (E : env) (D : langdb) (det : option (str -> list str)).
(** what Parse returns for the text when the current time is [t] (the zero time: that of the clock) *)
Definition parsed_at (cfg : uconfig) (entry : str) (t : time) (d : date) : Prop :=
  exists q q' e, parse E D det q (search_call cfg t) (cleaned entry) [] = (q', Ok (d, e)).
(** the pieces of one way of cutting a text: the result of each that is longer than two characters, and the current time at the end *)
Inductive pieces (cfg : uconfig) : time -> list hit -> list (str * str) -> list hit -> time -> Prop :=
| pieces_end t before : pieces cfg t before [] before t
| pieces_short t before entry original l r t' :
    (length (runes entry) <= 2)%nat -> pieces cfg t before l r t' -> pieces cfg t before ((entry, original) :: l) r t'
| pieces_next t before entry original l r t' d :
    (length (runes entry) > 2)%nat -> parsed_at cfg entry (current before t) d ->
    pieces cfg (current before t) (before ++ [(d, mentions entry, trimmed (lit " .,:()[]-") original)]) l r t' ->
    pieces cfg t before ((entry, original) :: l) r t'.
(** all the ways, one after the other *)
Inductive ways (cfg : uconfig) : time -> list split_result -> list (list hit) -> time -> Prop :=
| ways_end t : ways cfg t [] [] t
| ways_next t sp l c cs t' t'' : pieces cfg t [] (combine (sp_entry sp) (sp_orig sp)) c t' -> ways cfg t' l cs t'' -> ways cfg t (sp :: l) (c :: cs) t''.
(** the first of the best ways *)
Definition first_best (cs : list (list hit)) (best : list hit) : Prop :=
  exists i, nth_error cs i = Some best /\ forall j c, nth_error cs j = Some c -> ~ better E c best /\ ((j < i)%nat -> better E best c).
(** the results of the texts (text to parse, translation, original), given the results before them *)
Inductive reading (cfg : uconfig) : time -> list hit -> list (str * str * str) -> list (list hit) -> Prop :=
| read_end t before : reading cfg t before [] []
| read_short t before entry tr original l gs :
    (length (runes entry) <= 2)%nat -> reading cfg t before l gs -> reading cfg t before ((entry, tr, original) :: l) ([] :: gs)
| read_whole t before entry tr original l gs d :
    (length (runes entry) > 2)%nat -> parsed_at cfg entry (current before t) d -> usable d ->
    let g := [(d, mentions tr, trimmed (lit " .,:()[]-'") original)] in
    reading cfg (current before t) (before ++ g) l gs -> reading cfg t before ((entry, tr, original) :: l) (g :: gs)
| read_nothing t before entry tr original l gs d :
    (length (runes entry) > 2)%nat -> parsed_at cfg entry (current before t) d -> ~ usable d -> split_if_not_parsed entry original = [] ->
    reading cfg (current before t) before l gs -> reading cfg t before ((entry, tr, original) :: l) ([] :: gs)
| read_pieces t before entry tr original l gs d cs t' best :
    (length (runes entry) > 2)%nat -> parsed_at cfg entry (current before t) d -> ~ usable d -> split_if_not_parsed entry original <> [] ->
    ways cfg (current before t) (split_if_not_parsed entry original) cs t' -> first_best cs best ->
    let g := filter (fun x => negb (date_is_zero (fst (fst x)))) best in
    reading cfg t' (before ++ g) l gs -> reading cfg t before ((entry, tr, original) :: l) (g :: gs).

(** ** The model follows it *)
Lemma reference_app l m : reference (l ++ m) = match reference m with Some t => Some t | None => reference l end.
Proof. induction l as [|[[d r] x] l IH]; cbn [app reference]; [now destruct (reference m)|]. rewrite IH. destruct (reference m); reflexivity. Qed.
(** the last result that does not mention one, date or not *)
Definition base_of (l : list hit) : time := relative_base (map fst l).
Lemma base_app l (x : hit) : base_of (l ++ [x]) = if snd (fst x) then base_of l else d_time (fst (fst x)).
Proof. unfold base_of, relative_base. rewrite map_app, rev_app_distr. cbn [map rev app List.find]. destruct x as [[d r] o]. cbn [fst snd]. destruct r; reflexivity. Qed.
Lemma base_reference l : is_zero (base_of l) = false -> reference l = Some (base_of l).
Proof.
  induction l as [|x l IH] using rev_ind; [discriminate|]. rewrite base_app, reference_app. destruct x as [[d r] o]. cbn [fst snd reference]. destruct r; cbn [orb]; [exact IH|]. intros ->. reflexivity.
Qed.
Definition settled (before : list hit) (t : time) : Prop := is_zero (base_of before) = true -> forall u, reference before = Some u -> t = u.
Lemma settled_current before t : settled before t -> (if is_zero (base_of before) then t else base_of before) = current before t.
Proof.
  intros HS. unfold current. destruct (is_zero (base_of before)) eqn:Z; [|now rewrite (base_reference _ Z)]. destruct (reference before) as [u|] eqn:R; [exact (HS Z u R)|reflexivity].
Qed.
Lemma settled_next before t x : settled (before ++ [x]) (current before t).
Proof.
  intros HZ u. rewrite reference_app. rewrite base_app in HZ. destruct x as [[d r] o]. cbn [fst snd reference] in *. unfold current. destruct r; cbn [orb]; [intros ->; reflexivity|]. rewrite HZ. intros ->. reflexivity.
Qed.
Lemma settled_usable l t : Forall (fun x : hit => usable (fst (fst x))) l -> settled l t.
Proof.
  intros HU HZ u. revert HZ. induction l as [|x l IH] using rev_ind; [intros _ X; discriminate X|]. apply Forall_app in HU as [HU HX]. inversion_clear HX as [|? ? UX _]. rewrite base_app, reference_app. destruct x as [[d r] o]. cbn [fst snd reference] in *. destruct r; cbn [orb]; [exact (IH HU)|].
  intros Z. apply usable_iff in UX. unfold date_is_zero in UX. apply orb_false_iff in UX as [_ X]. congruence.
Qed.

Section Inv.
Variables (cfg : uconfig) (base : config).
Hypothesis HB : forall t, of_internal (with_now base t) = search_call cfg t.
Lemma entry_at p t entry tr (acc : list (parsed_search * str)) p' ic' ps : settled acc t ->
  parse_entry E D det p (with_now base t) entry tr (map fst acc) true = Ok (p', ic', ps) ->
  snd ps = mentions tr /\ ic' = with_now base (current acc t) /\ parsed_at cfg entry (current acc t) (fst ps).
Proof.
  intros HS HP. rewrite <- (settled_current _ _ HS). unfold parse_entry in HP. rewrite HB in HP. unfold parse_date in HP. change (relative_base (map fst acc)) with (base_of acc) in HP.
  destruct (parse E D det p (search_call cfg t) (clean_entry entry) []) as [q1 [[d1 e1]|e1|]] eqn:P1; cbn [rbind] in HP; try discriminate HP.
  destruct (is_zero (base_of acc)) eqn:Z.
  - assert (ic' = with_now base t /\ ps = (d1, is_relative_text tr)) as (-> & ->) by (split; congruence). split; [reflexivity|]. split; [reflexivity|]. exists p, q1, e1; exact P1.
  - rewrite with_unow_call in HP.
    destruct (parse E D det q1 (search_call cfg (base_of acc)) (clean_entry entry) []) as [q2 [[d2 e2]|e2|]] eqn:P2; cbn [rbind] in HP; try discriminate HP. rewrite with_now_twice in HP.
    assert (ic' = with_now base (base_of acc) /\ ps = (d2, is_relative_text tr)) as (-> & ->) by (split; congruence). split; [reflexivity|]. split; [reflexivity|]. exists q1, q2, e2; exact P2.
Qed.
Lemma split_at : forall parts p t (acc : list (parsed_search * str)) p' ic' r, settled acc t -> parse_split E D det p (with_now base t) true parts acc = Ok (p', ic', r) ->
  exists t', ic' = with_now base t' /\ pieces cfg t acc parts r t'.
Proof.
  induction parts as [|[e o] parts IH]; intros p t acc p' ic' r HS HP; cbn [parse_split] in HP.
  - assert (ic' = with_now base t /\ r = acc) as [-> ->] by (split; congruence). exists t. split; [reflexivity|constructor].
  - destruct (Nat.leb (rune_count e) 2) eqn:RC.
    + destruct (IH _ _ _ _ _ _ HS HP) as (t' & H1 & H2). exists t'. split; [exact H1|]. apply Nat.leb_le in RC. now apply pieces_short.
    + apply Nat.leb_gt in RC. destruct (parse_entry E D det p (with_now base t) e e (map fst acc) true) as [[[p1 ic1] ps]|er|] eqn:PE; cbn [rbind] in HP; try discriminate HP. destruct (entry_at _ _ _ _ _ _ _ _ HS PE) as (M & -> & PA).
      destruct (IH _ _ _ _ _ _ (settled_next _ _ _) HP) as (t' & H1 & H2). exists t'. split; [exact H1|]. apply (pieces_next cfg t acc e o parts r t' (fst ps)); [exact RC|exact PA|]. rewrite <- M. destruct ps as [d b]. exact H2.
Qed.
Lemma splits_at : forall sps p t p' ic' cs, parse_splits E D det p (with_now base t) true sps = Ok (p', ic', cs) ->
  exists t', ic' = with_now base t' /\ ways cfg t sps cs t' /\ length cs = length sps.
Proof.
  induction sps as [|sp sps IH]; intros p t p' ic' cs HP; cbn [parse_splits] in HP.
  - assert (ic' = with_now base t /\ cs = []) as [-> ->] by (split; congruence). exists t. split; [reflexivity|]. split; [constructor|reflexivity].
  - destruct (parse_split E D det p (with_now base t) true _ []) as [[[p1 ic1] c]|er|] eqn:PS; cbn [rbind] in HP; try discriminate HP. destruct (split_at _ _ _ _ _ _ _ (settled_usable [] t (Forall_nil _)) PS) as (t1 & -> & P1).
    destruct (parse_splits E D det p1 (with_now base t1) true sps) as [[[p2 ic2] cs2]|er|] eqn:PSS; cbn [rbind] in HP; try discriminate HP. destruct (IH _ _ _ _ _ PSS) as (t2 & -> & W2 & L2).
    assert (ic' = with_now base t2 /\ cs = c :: cs2) as [-> ->] by (split; congruence). exists t2. split; [reflexivity|]. split; [|cbn [length]; now rewrite L2]. now apply (ways_next cfg t sp sps c cs2 t1 t2).
Qed.
Lemma found_at : forall l p t (acc : list (parsed_search * str)) p' r, Forall (fun x => usable (fst (fst x))) acc ->
  parse_found E D det p (with_now base t) true l acc = Ok (p', r) ->
  exists groups : list (list (parsed_search * str)), r = acc ++ concat groups /\ reading cfg t acc l groups.
Proof.
  induction l as [|[[entry tr] original] l IH]; intros p t acc p' r HU HP; cbn [parse_found] in HP.
  - assert (r = acc) as -> by congruence. exists []. rewrite app_nil_r. split; [reflexivity|constructor].
  - destruct (Nat.leb (rune_count entry) 2) eqn:RC.
    { destruct (IH _ _ _ _ _ HU HP) as (gs & H1 & H2). exists ([] :: gs). split; [exact H1|]. apply read_short; [apply Nat.leb_le in RC; exact RC|exact H2]. }
    apply Nat.leb_gt in RC.
    destruct (parse_entry E D det p (with_now base t) entry tr (map fst acc) true) as [[[p1 ic1] ps]|er|] eqn:PE; cbn [rbind] in HP; try discriminate HP. destruct (entry_at _ _ _ _ _ _ _ _ (settled_usable acc t HU) PE) as (M & -> & PA).
    destruct (date_is_zero (fst ps)) eqn:Z; cbn [negb] in HP.
    + assert (NU : ~ usable (fst ps)) by (intros X; apply usable_iff in X; congruence).
      destruct (split_if_not_parsed entry original) as [|sp0 sps0] eqn:SP.
      { destruct (IH _ _ _ _ _ HU HP) as (gs & H1 & H2). exists ([] :: gs). split; [exact H1|]. exact (read_nothing cfg t acc entry tr original l _ (fst ps) RC PA NU SP H2). }
      rewrite <- SP in HP. destruct (parse_splits E D det p1 (with_now base (current acc t)) true (split_if_not_parsed entry original)) as [[[p2 ic2] cs]|er|] eqn:PSS; cbn [rbind] in HP; try discriminate HP. destruct (splits_at _ _ _ _ _ _ PSS) as (v & -> & W2 & L2).
      destruct (C42_best_split E cs) as (i & bst & NB & CB & HBST); [intros ->; rewrite SP in L2; discriminate L2|]. rewrite CB in HP.
      set (best := filter (fun x => negb (date_is_zero (fst (fst x)))) bst) in *.
      assert (UB : Forall (fun x => usable (fst (fst x))) (acc ++ best)).
      { apply Forall_app. split; [exact HU|]. apply Forall_forall. intros x Hx. apply filter_In in Hx as [_ Zx]. apply negb_true_iff in Zx. now apply usable_iff in Zx. }
      destruct (IH _ _ _ _ _ UB HP) as (gs & H1 & H2). exists (best :: gs). split; [rewrite H1, <- app_assoc; reflexivity|].
      apply (read_pieces cfg t acc entry tr original l gs (fst ps) cs v bst RC PA NU); [rewrite SP; discriminate|exact W2|exists i; split; [exact NB|exact HBST]|exact H2].
    + assert (UZ : usable (fst ps)) by now apply usable_iff. assert (UB : Forall (fun x => usable (fst (fst x))) (acc ++ [(ps, trim_chars original (lit " .,:()[]-'"))])) by (apply Forall_app; split; [exact HU|constructor; [exact UZ|constructor]]).
      destruct (IH _ _ _ _ _ UB HP) as (gs & H1 & H2). exists ([(ps, trim_chars original (lit " .,:()[]-'"))] :: gs). split; [rewrite H1, <- app_assoc; reflexivity|].
      destruct ps as [d b]. cbn [fst snd] in *. rewrite M in H2 |- *. exact (read_whole cfg t acc entry tr original l gs d RC PA UZ H2).
Qed.
End Inv.

(** SearchWithLanguage without a current time *)
Theorem C51_reference : forall p cfg lang text p' rs, is_zero (u_now cfg) = true -> search_with_language E D det p cfg lang text = Ok (p', (rs, None)) ->
  exists ld translated originals groups, db_get D lang = Some ld /\
    translate_search E (to_internal (initiate (e_now E) cfg)) ld text = Ok (translated, originals) /\
    rs = map (fun x : hit => {| sr_date := with_locale (fst (fst x)) lang; sr_text := snd x |}) (concat groups) /\
    reading cfg zero_time [] (combine (combine (if mem lang [lit "vi"; lit "hu"] && negb (eqs (ld_name ld) (lit "en")) then originals else translated) translated) originals) groups.
Proof.
  intros p cfg lang text p' rs HZ HP. unfold search_with_language, init_search_config in HP. set (c0 := initiate (e_now E) cfg) in *. destruct (validate (e_uni E) c0) eqn:V; cbn [negb] in HP; [|congruence]. rewrite HZ in HP.
  set (icfg := to_internal (with_unow c0 zero_time)) in *. destruct (db_get D lang) as [ld|] eqn:DB; [|congruence].
  change (translate_search E icfg ld text) with (translate_search E (to_internal c0) ld text) in HP.
  destruct (translate_search E (to_internal c0) ld text) as [[tr or]|er|] eqn:ET; cbn [rbind] in HP; try discriminate HP. change (is_zero (c_now icfg)) with true in HP.
  set (use := (negb (eqs lang (lit "vi")) && negb (eqs lang (lit "hu"))) || eqs (ld_name ld) (lit "en")) in *.
  assert (EU : (if mem lang [lit "vi"; lit "hu"] && negb (eqs (ld_name ld) (lit "en")) then or else tr) = (if use then tr else or)).
  { unfold use. cbn [mem existsb]. destruct (eqs lang (lit "vi")), (eqs lang (lit "hu")), (eqs (ld_name ld) (lit "en")); reflexivity. }
  destruct (parse_found E D det p icfg true (combine (combine (if use then tr else or) tr) or) []) as [[p1 found]|er|] eqn:PF; cbn [rbind] in HP; try discriminate HP.
  assert (HR : rs = map (fun x => {| sr_date := with_locale (fst (fst x)) lang; sr_text := snd x |}) found) by congruence. clear HP.
  change icfg with (with_now icfg zero_time) in PF.
  destruct (found_at cfg icfg (fun t => eq_refl) _ _ _ _ _ _ (Forall_nil _) PF) as (gs & EG & RD).
  cbn [app] in EG. subst found. exists ld, tr, or, gs. split; [reflexivity|]. split; [exact ET|]. rewrite EU. split; [exact HR|exact RD].
Qed.
End B.
Print Assumptions C51_reference.

(** the clock of [env0] is at another date *)
Definition clock_cfg : uconfig := mkcfg [] [] zero_time 0 0 0.
Example C51_case : is_zero (u_now clock_cfg) = true /\
  found (search_with_language env0 db0 None (new_parser []) clock_cfg (lit "en") (lit "Yesterday I saw it; we met on 10 March 2015, then again 2 days ago. On 12 May 2016 he left, tomorrow."))
  = Some [(lit "Yesterday", 2026, 11, 16, lit "en"); (lit "on 10 March 2015", 2015, 3, 10, lit "en"); (lit "2 days ago", 2015, 3, 8, lit "en"); (lit "On 12 May 2016", 2016, 5, 12, lit "en"); (lit "tomorrow", 2016, 5, 13, lit "en")].
Proof. split; [reflexivity|]. vm_compute. reflexivity. Qed.
