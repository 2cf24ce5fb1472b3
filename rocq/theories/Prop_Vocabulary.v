(** C53: what the words of the locales mean. C54: every locale can be asked for *)
From Coq Require Import ZifyBool Permutation.
From Verif Require Import GoBase SMap Regex Setting Timezone Env Language ParserFacts LocaleFacts SelectFacts Prop_Locale Prop_Total Prop_Data Prop_RelWhole RelText Concrete LocaleData LocaleAll.

(** ** Specification: the English words that the date parsers know *)
Definition month_words : list str := map lit ["january"; "february"; "march"; "april"; "may"; "june"; "july"; "august"; "september"; "october"; "november"; "december"]%string.
Definition weekday_words : list str := map lit ["monday"; "tuesday"; "wednesday"; "thursday"; "friday"; "saturday"; "sunday"]%string.
Definition unit_words : list str := map lit ["decade"; "year"; "month"; "week"; "day"; "hour"; "minute"; "second"]%string.
Definition half_words : list str := map lit ["am"; "pm"]%string.
Definition other_words : list str := map lit ["ago"; "in"; "utc"; "gmt"; "z"; ""; " "; "+"; "-"; "."; "/"; ":"]%string.
Definition vocabulary : list str := month_words ++ weekday_words ++ unit_words ++ half_words ++ other_words.
(** the words that every locale must be able to express: all but the decade *)
Definition required : list str := month_words ++ weekday_words ++ filter (fun u => negb (eqs u (lit "decade"))) unit_words ++ half_words.

(** ** C53 *)
Lemma table_vocabulary : forallb (fun p => forallb (fun q => forallb (fun t => mem t vocabulary) (snd q)) (ld_trans (snd p))) full_table = true.
Proof. vm_compute. reflexivity. Qed.
(** Whatever word a locale of the library translates, it is turned into words of the vocabulary, or into the phrase of a relative date *)
Theorem C53_words_partial : forall code ld w ts t, db_get full_db code = Some ld -> translate_word ld w = Some ts -> In t ts -> ~ In (code, w) odd_words ->
  In t vocabulary \/ exists n u d, 0 <= n <= 10 /\ t = phrase n u d.
Proof.
  intros code ld w ts t HG HT HI HN. unfold translate_word in HT. destruct (mget (ld_reltype ld) w) as [r|] eqn:HR.
  - right. destruct (C52_words_partial code ld w r HG HR HN) as (n & u & d & Hn & HW & _). exists n, u, d. split; [exact Hn|]. unfold translate_word in HW. rewrite HR in HW. assert (r = phrase n u d) by congruence. assert (ts = [r]) by congruence. subst ts. destruct HI as [<-|[]]. assumption.
  - left. cbn [db_get full_db] in HG. apply mget_In in HG. pose proof table_vocabulary as B. rewrite forallb_forall in B. apply B in HG. cbn [snd] in HG. rewrite forallb_forall in HG. apply mget_In in HT. apply HG in HT. cbn [snd] in HT. rewrite forallb_forall in HT. now apply mem_In, HT.
Qed.
Print Assumptions C53_words_partial.
(** Every locale has a word for every month, weekday, unit of time and half of the day *)
Definition expressed (ld : locale) (t : str) : bool := existsb (fun p => if mem t (snd p) then match translate_word ld (fst p) with Some ts => mem t ts | None => false end else false) (ld_trans ld).
Lemma table_expressed : forallb (fun p => forallb (expressed (snd p)) required) full_table = true.
Proof. vm_compute. reflexivity. Qed.
Theorem C53_complete : forall code ld t, db_get full_db code = Some ld -> In t required -> exists w ts, translate_word ld w = Some ts /\ In t ts.
Proof.
  intros code ld t HG HI. cbn [db_get full_db] in HG. apply mget_In in HG. pose proof table_expressed as B. rewrite forallb_forall in B. apply B in HG. cbn [snd] in HG. rewrite forallb_forall in HG. apply HG in HI. unfold expressed in HI. apply existsb_exists in HI as ([w x] & _ & HX). cbn [fst snd] in HX. destruct (mem t x); [|discriminate HX].
  destruct (translate_word ld w) as [ts|] eqn:T; [|discriminate HX]. exists w, ts. split; [exact T|now apply mem_In].
Qed.
Print Assumptions C53_complete.
(** In every language the words that texts are split by are exactly the words it can translate *)
Lemma table_known : forallb (fun p => negb (mem (fst p) language_order) ||
  (forallb (fun w => mem w (ld_known (snd p))) (map fst (ld_trans (snd p)) ++ map fst (ld_reltype (snd p))) && forallb (fun w => in_dictionary (snd p) w) (ld_known (snd p)))) full_table = true.
Proof. vm_compute. reflexivity. Qed.
Lemma mget_fst {A} (m : smap A) k v : mget m k = Some v -> In k (map fst m).
Proof. intros H. apply mget_In in H. apply in_map_iff. now exists (k, v). Qed.
Theorem C53_known : forall code ld w, db_get full_db code = Some ld -> In code (db_langs full_db) -> (In w (ld_known ld) <-> exists ts, translate_word ld w = Some ts).
Proof.
  intros code ld w HG HL. cbn [db_get db_langs full_db] in HG, HL. apply mget_In in HG. pose proof table_known as B. rewrite forallb_forall in B. apply B in HG. cbn [fst snd] in HG. apply mem_In in HL. rewrite HL in HG. cbn [negb orb] in HG. apply andb_true_iff in HG as [B1 B2]. rewrite forallb_forall in B1, B2. split.
  - intros HI. apply B2 in HI. unfold in_dictionary in HI. destruct (translate_word ld w) as [ts|]; [eauto|discriminate HI].
  - intros (ts & HT). apply mem_In, B1. unfold translate_word in HT. apply in_or_app. destruct (mget (ld_reltype ld) w) as [r|] eqn:HR; [right; eapply mget_fst; exact HR|left; eapply mget_fst; exact HT].
Qed.
Print Assumptions C53_known.
(** In a region this fails: the words of the language are there, but texts are not split by them (C41) *)
Theorem C53_known_refuted : exists code ld w ts, db_get full_db code = Some ld /\ translate_word ld w = Some ts /\ ~ In w (ld_known ld).
Proof.
  exists (lit "en-GB"), loc_en_GB, (lit "march"), [lit "march"]. split; [vm_compute; reflexivity|]. split; [vm_compute; reflexivity|]. intros H. apply mem_In in H. vm_compute in H. discriminate H.
Qed.
Print Assumptions C53_known_refuted.
Example C53_case : exists ld, db_get full_db (lit "en") = Some ld /\ In (lit "en") (db_langs full_db) /\ In (lit "august") required /\ translate_word ld (lit "aug") = Some [lit "august"].
Proof. exists loc_en. split; [vm_compute; reflexivity|]. split; [apply mem_In; vm_compute; reflexivity|]. split; [apply mem_In; vm_compute; reflexivity|]. vm_compute. reflexivity. Qed.

(** ** C54: selection *)
Lemma keys_known code : In code (map fst full_table) -> exists ld, db_get full_db code = Some ld /\ ld_name ld = code /\ code <> [].
Proof.
  intros HI. cbn [db_get full_db]. destruct (mget full_table code) as [ld|] eqn:G; [exists ld; split; [reflexivity|]; exact (full_named code ld G)|exfalso].
  revert HI G. generalize full_table. induction s as [|[k v] m IH]; intros HI G; [destruct HI|]. cbn [mget] in G. destruct (eqs_spec code k) as [EQ|NE]; [discriminate G|]. destruct HI as [HI|HI]; [cbn [fst] in HI; congruence|]. now apply IH.
Qed.
(** every locale of the library, asked for by its name, is the one that is used *)
Theorem C54_by_name : forall E given allow region code, In code (map fst full_table) ->
  exists ld, ld_name ld = code /\ get_locales E full_db [code] [] region given allow = Ok [ld].
Proof.
  intros E given allow region code HI. destruct (keys_known code HI) as (ld & G & HN & _). exists ld. split; [exact HN|].
  unfold get_locales. replace (pick_locales E full_db allow [code] [] [] []) with (Ok [code]).
  - cbn [rbind]. replace (if given then [code] else sort_by (locale_lt full_db) [code]) with [code] by (destruct given; reflexivity).
    cbn [fetch]. rewrite G. reflexivity.
  - cbn [pick_locales mem existsb]. unfold known. rewrite G. cbn [negb]. destruct allow; reflexivity.
Qed.
Print Assumptions C54_by_name.

(** what a language and a region select, when there is such a locale *)
Lemma one_language E given allow region l ld : In l language_order -> mget full_table (localize (trim_space (to_upper (e_uni E) region)) l) = Some ld ->
  get_locales E full_db [] [l] region given allow = Ok [ld].
Proof.
  intros HL G. unfold get_locales. rewrite pick_langs by (intros ? []). cbn [orb firsts mem existsb forallb map filter rev app].
  unfold known. change (db_get full_db) with (mget full_table). rewrite G. change (db_langs full_db) with language_order. apply mem_In in HL. rewrite HL. cbn [andb negb rbind].
  set (n := localize _ l) in *. replace (if given then [n] else sort_by (locale_lt full_db) [n]) with [n] by (destruct given; reflexivity).
  cbn [fetch]. change (db_get full_db) with (mget full_table). rewrite G. reflexivity.
Qed.
(** every language, asked for without a region, gives the locale of that name *)
Lemma table_languages : forallb (fun l => mem l (map fst full_table)) language_order = true.
Proof. vm_compute. reflexivity. Qed.
Theorem C54_by_language : forall E given allow l, In l (db_langs full_db) ->
  exists ld, ld_name ld = l /\ get_locales E full_db [] [l] [] given allow = Ok [ld].
Proof.
  intros E given allow l HL. change (db_langs full_db) with language_order in HL. pose proof table_languages as T. rewrite forallb_forall in T. pose proof (T l HL) as HK. apply mem_In in HK. destruct (keys_known l HK) as (ld & G & HN & _). exists ld. split; [exact HN|].
  apply one_language; [exact HL|]. change (trim_space (to_upper (e_uni E) [])) with (@nil Z). exact G.
Qed.
Print Assumptions C54_by_language.

(** letters in either case *)
Definition same_letters (a b : str) : Prop := map upperA a = map upperA b.
(** every locale that is not a language is a language with a region, and is what that pair selects, whatever the case of the region *)
Definition region_of (code l : str) : str := skipn (length l + 1) code.
Definition splits (code l : str) : bool :=
  if has_prefix (l ++ lit "-") code then
    if eqs (map upperA (region_of code l)) (region_of code l) then if is_ascii (region_of code l) then if eqs (trim_space (region_of code l)) (region_of code l) then negb (empty (region_of code l)) else false else false else false
  else false.
Lemma table_regions : forallb (fun p => if mem (fst p) language_order then true else existsb (splits (fst p)) language_order) full_table = true.
Proof. vm_compute. reflexivity. Qed.
Lemma has_prefix_app a s : has_prefix a s = true -> s = a ++ skipn (length a) s.
Proof. revert s; induction a as [|x a IH]; intros [|y s]; cbn [has_prefix]; intros H; try reflexivity; try discriminate H. apply andb_true_iff in H as [H1 H2]. apply Z.eqb_eq in H1 as ->. cbn [app length skipn]. f_equal. now apply IH. Qed.
Theorem C54_by_region : forall E given allow code, In code (map fst full_table) -> ~ In code (db_langs full_db) ->
  exists l r, code = l ++ lit "-" ++ r /\ In l (db_langs full_db) /\ r <> [] /\
   forall r', is_ascii r' = true -> same_letters r' r ->
   exists ld, ld_name ld = code /\ get_locales E full_db [] [l] r' given allow = Ok [ld].
Proof.
  intros E given allow code HI HN. destruct (keys_known code HI) as (ld & G & HNM & _).
  pose proof table_regions as T. rewrite forallb_forall in T. apply in_map_iff in HI as ([c x] & EQ & HP). cbn [fst] in EQ. subst c. apply T in HP. cbn [fst] in HP.
  change (db_langs full_db) with language_order in *. destruct (mem code language_order) eqn:M; [apply mem_In in M; contradiction|].
  apply existsb_exists in HP as (l & HL & HS). unfold splits in HS. destruct (has_prefix (l ++ lit "-") code) eqn:P; [|discriminate HS].
  destruct (eqs_spec (map upperA (region_of code l)) (region_of code l)) as [U1|]; [|discriminate HS].
  destruct (is_ascii (region_of code l)) eqn:AS; [|discriminate HS].
  destruct (eqs_spec (trim_space (region_of code l)) (region_of code l)) as [U2|]; [|discriminate HS].
  apply has_prefix_app in P. rewrite app_length in P. change (length (lit "-")) with 1%nat in P. change (skipn (length l + 1) code) with (region_of code l) in P. rewrite <- app_assoc in P.
  exists l, (region_of code l). split; [exact P|]. split; [exact HL|]. split; [intros Z0; rewrite Z0 in HS; discriminate HS|].
  intros r' A' SL. exists ld. split; [exact HNM|]. apply one_language; [exact HL|].
  unfold to_upper. rewrite A'. unfold same_letters in SL. rewrite SL, U1, U2. cbn [db_get full_db] in G. rewrite <- G. f_equal. rewrite P at 2. unfold localize.
  destruct (region_of code l) as [|c0 rr] eqn:RG; [discriminate HS|]. reflexivity.
Qed.
Print Assumptions C54_by_region.

(** when nothing is asked for, every language is used, once, and no region *)
Lemma language_order_once : NoDup language_order.
Proof. assert (H : forall l, (fix nd l := match l with [] => true | x :: r => if mem x r then false else nd r end) l = true -> NoDup l).
  { induction l as [|x r IH]; intros H; constructor. - intros HI. apply mem_In in HI. rewrite HI in H. discriminate H. - apply IH. destruct (mem x r); [discriminate H|exact H]. }
  apply H. vm_compute. reflexivity. Qed.
Lemma all_asked : filter (known full_db) (map (localize []) (firsts [] language_order)) = language_order.
Proof. vm_compute. reflexivity. Qed.
Lemma all_languages : forallb (fun l => mem l language_order) (firsts [] language_order) = true.
Proof. vm_compute. reflexivity. Qed.
Theorem C54_default : forall E given allow, exists lds, get_locales E full_db [] [] [] given allow = Ok lds /\
  length lds = 205%nat /\ NoDup (map ld_name lds) /\ forall code, In code (map ld_name lds) <-> In code (db_langs full_db).
Proof.
  intros E given allow. unfold get_locales. change (trim_space (to_upper (e_uni E) [])) with (@nil Z). change (db_langs full_db) with language_order. cbv zeta. rewrite pick_langs by (intros ? []).
  change (db_langs full_db) with language_order. change (match language_order with [] => language_order | l :: l0 => l :: l0 end) with language_order.
  rewrite all_languages, all_asked. cbn [orb negb rev app rbind].
  set (names := if given then language_order else sort_by (locale_lt full_db) language_order).
  assert (P : Permutation names language_order) by (unfold names; destruct given; [reflexivity|apply sort_by_perm]).
  assert (HK : forall n, In n names -> known full_db n = true).
  { intros n Hn. apply (Permutation_in n P) in Hn. pose proof table_languages as T. rewrite forallb_forall in T. apply T, mem_In, keys_known in Hn as (ld & G & _). unfold known. now rewrite G. }
  pose proof (fetch_map full_db names HK) as F. pose proof (map_names full_db _ _ full_named F) as FN.
  assert (HL : length (fetch full_db names) = 205%nat) by (rewrite <- (map_length ld_name), FN, (Permutation_length P); reflexivity).
  destruct (fetch full_db names) as [|ld0 lds]; [discriminate HL|]. exists (ld0 :: lds). split; [reflexivity|]. split; [exact HL|]. rewrite FN. split.
  - apply Permutation_NoDup with language_order; [symmetry; exact P|exact language_order_once].
  - intros c. split; intros Hc; [exact (Permutation_in c P Hc)|apply Permutation_in with language_order; [symmetry; exact P|exact Hc]].
Qed.
Print Assumptions C54_default.
Example C54_case : In (lit "en-GB") (map fst full_table) /\ ~ In (lit "en-GB") (db_langs full_db) /\ In (lit "en") (db_langs full_db) /\ same_letters (lit "gB") (lit "GB").
Proof. split; [apply mem_In; vm_compute; reflexivity|]. split; [intros H; apply mem_In in H; vm_compute in H; discriminate H|]. split; [apply mem_In; vm_compute; reflexivity|reflexivity]. Qed.
