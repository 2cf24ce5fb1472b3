(** C33, C43, C52: the library's own locale tables *)
From Coq Require Import ZifyBool.
From Verif Require Import GoBase SMap Regex GoTime Setting Strutil Timezone Env Language Parser Search History
  Utf8Facts ParserFacts LocaleFacts SelectFacts RegexFacts2 RegexFacts5 ConcurrencyFacts Prop_Total Prop_Total2 Prop_Search Concrete LocaleData LocaleAll Shows.

(** ** The tables of all locales ([full_db], generated from internal/data) are sound, and each is registered under its own name *)
Lemma full_sound : tables_sound full_db.
Proof.
  assert (B : forallb (fun p => soundb (snd p)) full_table = true) by (vm_compute; reflexivity).
  intros code ld HG. cbn [db_get full_db] in HG. apply mget_In in HG. rewrite forallb_forall in B. apply B in HG. now apply soundb_ok.
Qed.
Lemma full_named : db_named full_db.
Proof.
  assert (B : forallb (fun p => eqs (ld_name (snd p)) (fst p) && negb (empty (fst p))) full_table = true) by (vm_compute; reflexivity).
  intros code ld HG. cbn [db_get full_db] in HG. apply mget_In in HG. rewrite forallb_forall in B. apply B in HG. cbn [fst snd] in HG. apply andb_true_iff in HG as [H1 H2]. apply eqs_eq in H1. split; [exact H1|]. intros ->. discriminate H2.
Qed.

(** ** C43: Parse with the library's tables never panics *)
Theorem C43_library : forall E det p cfg s formats, reachable full_db det p ->
  exists d e, snd (parse E full_db det p cfg s formats) = Ok (d, e).
Proof. intros E det p cfg s formats RE. exact (C43_parse_returns E full_db det p cfg s formats full_sound RE). Qed.
Print Assumptions C43_library.

(** ** C33 with the library's tables *)
(** Spanish and its regions *)
Definition spanish : list str := map lit ["es"; "es-419"; "es-AR"; "es-BO"; "es-BR"; "es-BZ"; "es-CL"; "es-CO"; "es-CR"; "es-CU"; "es-DO"; "es-EA"; "es-EC"; "es-GQ"; "es-GT"; "es-HN"; "es-IC"; "es-MX"; "es-NI"; "es-PA"; "es-PE"; "es-PH"; "es-PR"; "es-PY"; "es-SV"; "es-US"; "es-UY"; "es-VE"]%string.
(** languages without spaces between words that are neither Chinese (zh) nor Japanese *)
Definition spaceless : list str := map lit ["yue"; "zh-Hans"; "zh-Hans-HK"; "zh-Hans-MO"; "zh-Hans-SG"; "zh-Hant"; "zh-Hant-HK"; "zh-Hant-MO"]%string.
Lemma table_searchable : forallb (fun p => mem (fst p) (spanish ++ spaceless) || searchableb (snd p)) full_table = true.
Proof. vm_compute. reflexivity. Qed.
Lemma library_searchable lang ld : ~ In lang (spanish ++ spaceless) -> db_get full_db lang = Some ld -> searchable ld.
Proof.
  intros HN HG. cbn [db_get full_db] in HG. apply mget_In in HG. pose proof table_searchable as B. rewrite forallb_forall in B. apply B in HG. cbn [fst snd] in HG.
  apply orb_true_iff in HG as [HG|HG]; [apply mem_In in HG; contradiction|now apply searchableb_ok].
Qed.
(** SearchWithLanguage never panics for any of the other languages, whatever the text, the options, the clock and the history of the Parser *)
Theorem C33_library_language_partial : forall E det p cfg lang text, reachable full_db det p -> ~ In lang (spanish ++ spaceless) ->
  search_with_language E full_db det p cfg lang text <> Panic.
Proof. intros E det p cfg lang text RE HN. apply C33_search_with_language_partial; [exact full_sound|exact RE|]. intros ld. now apply library_searchable. Qed.
Print Assumptions C33_library_language_partial.
(** nor does Search, if the languages it considers and the first default language are such *)
Theorem C33_library_search_partial : forall E det p cfg text, reachable full_db det p ->
  (forall ls lang, search_languages E full_db det cfg text = Ok ls -> In lang ls \/ hd_error (u_deflang cfg) = Some lang -> ~ In lang (spanish ++ spaceless)) ->
  search E full_db det p cfg text <> Panic.
Proof.
  intros E det p cfg text RE HL. apply C33_search_partial; [exact full_sound|exact RE|vm_compute; discriminate|].
  intros ls lang ld HS HI. apply library_searchable. now apply (HL ls).
Qed.
Print Assumptions C33_library_search_partial.

(** Spanish is safe on texts without the opening marks *)
Lemma states_from_runes : forall ws prev pos s, decode s = ws -> forall st, In st (states_from prev pos ws s) -> incl (runes (m_rest st)) (runes s).
Proof.
  induction ws as [|[r w] ws IH]; intros prev pos s HD st; cbn [states_from]; [intros [<-|[]]; apply incl_refl|]. intros [<-|HI]; [apply incl_refl|].
  destruct s as [|c s]; [discriminate HD|]. rewrite decode_unfold in HD by discriminate. assert (DR : decode_rune (c :: s) = (r, w)) by congruence. rewrite DR in HD. cbn [snd] in HD. assert (HD' : decode (skipn w (c :: s)) = ws) by congruence.
  rewrite (runes_unfold (c :: s)) by discriminate. rewrite DR. cbn [fst snd]. apply incl_tl. exact (IH _ _ _ HD' st HI).
Qed.
Lemma mtch_lacks U ci k b s kont : (forall r, In r (runes (m_rest s)) -> cls_has U ci k r = false) -> mtch U (Cat (Cls ci k) b) s kont = None.
Proof.
  intros HL. cbn [mtch]. unfold step. destruct (m_rest s) as [|c t]; [reflexivity|]. rewrite runes_unfold in HL by discriminate. destruct (decode_rune (c :: t)) as [r w]. cbn [fst] in HL. now rewrite (HL r (or_introl eq_refl)).
Qed.
Lemma first_alt U a ci k b : forall l, (forall st, In st l -> forall r, In r (runes (m_rest st)) -> cls_has U ci k r = false) -> first_match U (Alt a (Cat (Cls ci k) b)) l = first_match U a l.
Proof.
  induction l as [|s l IH]; intros HL; [reflexivity|]. change (first_match U ?r (s :: l)) with (match match_here U r s with Some m => Some m | None => first_match U r l end). rewrite IH by (intros st HI; apply HL; now right).
  assert (X : match_here U (Alt a (Cat (Cls ci k) b)) s = match_here U a s); [|now rewrite X]. unfold match_here.
  change (mtch U (Alt a (Cat (Cls ci k) b)) s Some) with (match mtch U a s Some with Some e => Some e | None => mtch U (Cat (Cls ci k) b) s Some end). rewrite mtch_lacks by (apply HL; now left). now destruct (mtch U a s Some).
Qed.
Lemma drop_in {A} (f : A -> bool) l x : In x (drop_while f l) -> In x l.
Proof. induction l as [|y l IH]; [auto|]. cbn [drop_while]. destruct (f y); [right; auto|auto]. Qed.
Lemma all_alt U a ci k b : forall fuel l s pos pe, (forall st, In st l -> forall r, In r (runes (m_rest st)) -> cls_has U ci k r = false) ->
  all_matches U fuel (Alt a (Cat (Cls ci k) b)) l s pos pe = all_matches U fuel a l s pos pe.
Proof.
  induction fuel as [|f IH]; intros l s pos pe HL; [reflexivity|]. cbn [all_matches]. destruct (Nat.ltb _ _); [reflexivity|]. unfold exec_from.
  rewrite first_alt by (intros st HI; apply HL; now apply drop_in in HI). destruct (first_match U a _) as [m|]; [|reflexivity]. cbv zeta. rewrite IH by exact HL. reflexivity.
Qed.
(** no ¡ (161) and no ¿ (191) *)
Definition no_opening_mark (text : str) : Prop := forall r, In r (runes text) -> r <> 161 /\ r <> 191.
Lemma spanish_group U ld text : In (ld_splitter ld) [2] -> no_opening_mark text -> group_set U ld text.
Proof.
  intros [HS|[]] HN m. unfold splitter_of. rewrite <- HS. change (sentence_splitter _) with rxSplit2. unfold find_all.
  assert (X : exists a ci k b, rx_ast rxSplit2 = Alt a (Cat (Cls ci k) b) /\ sets 1 a = true /\ forall r, r <> 161 /\ r <> 191 -> cls_has U ci k r = false).
  { unfold rxSplit2. cbn [rx_ast]. do 4 eexists. split; [reflexivity|]. split; [reflexivity|]. intros r HR. unfold cls_has. cbn [cl_neg cl_items existsb item_has]. lia. }
  destruct X as (a & ci & k & b & -> & SA & HK). rewrite all_alt.
  - change (all_matches U (S (S (length text))) a (states text) text 0 None) with (find_all U {| rx_ast := a; rx_ngroups := 0 |} text). apply find_all_sets; [exact SA|lia].
  - intros st HI r HR. apply HK, HN. unfold states in HI. exact (states_from_runes _ _ _ _ eq_refl st HI r HR).
Qed.
Lemma table_spanish : forallb (fun p => negb (mem (fst p) spanish) || word_safeb (snd p) && (ld_splitter (snd p) =? 2)) full_table = true.
Proof. vm_compute. reflexivity. Qed.
Theorem C33_library_spanish_partial : forall E det p cfg lang text, reachable full_db det p -> In lang spanish -> no_opening_mark text ->
  search_with_language E full_db det p cfg lang text <> Panic.
Proof.
  intros E det p cfg lang text RE HI HN. refine (proj1 (swl_good E full_db det full_sound p cfg lang text (reachable_sound full_db det p full_sound RE) _)).
  intros ld HG. cbn [db_get full_db] in HG. apply mget_In in HG. pose proof table_spanish as B. rewrite forallb_forall in B. apply B in HG. cbn [fst snd] in HG. apply mem_In in HI. rewrite HI in HG. cbn [negb orb] in HG. apply andb_true_iff in HG as [H1 H2].
  split; [now apply word_safeb_ok|]. apply spanish_group; [left; lia|exact HN].
Qed.
Print Assumptions C33_library_spanish_partial.

(** every language that is left out does panic on some text *)
Definition trouble (lang : str) : str := if mem lang spanish then lit "Hola, ¿fue el 10 de marzo?" else if eqs lang (lit "yue") then lit "今日" else lit "今天".
Theorem C33_library_refuted : forall lang, In lang (spanish ++ spaceless) -> exists text, search_with_language env0 full_db None (new_parser []) search_cfg lang text = Panic.
Proof.
  assert (B : forallb (fun lang => match search_with_language env0 full_db None (new_parser []) search_cfg lang (trouble lang) with Panic => true | _ => false end) (spanish ++ spaceless) = true) by (vm_compute; reflexivity).
  intros lang HI. exists (trouble lang). rewrite forallb_forall in B. specialize (B lang HI). destruct (search_with_language env0 full_db None (new_parser []) search_cfg lang (trouble lang)); [discriminate B|discriminate B|reflexivity].
Qed.
Print Assumptions C33_library_refuted.
(** and the others are most: 468 of the 504 locales *)
Example C33_library_case : length (filter (fun p => negb (mem (fst p) (spanish ++ spaceless))) full_table) = 468%nat /\ length full_table = 504%nat.
Proof. split; vm_compute; reflexivity. Qed.
Example C33_library_case_reachable : reachable full_db None (new_parser []). Proof. now exists [], []. Qed.
Example C33_library_case_spanish : In (lit "es-MX") spanish /\ no_opening_mark (lit "El 10 de marzo fue un día de sol.").
Proof.
  split; [apply mem_In; vm_compute; reflexivity|]. assert (B : forallb (fun r => negb (r =? 161) && negb (r =? 191)) (runes (lit "El 10 de marzo fue un día de sol.")) = true) by (vm_compute; reflexivity).
  rewrite forallb_forall in B. intros r HR. apply B in HR. lia.
Qed.
