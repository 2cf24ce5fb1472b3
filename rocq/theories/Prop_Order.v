(** C39: results do not depend on the iteration order of maps *)
From Verif Require Import GoBase SMap Regex GoTime GoTimeFacts GoTimeParse GoFloat Civil DateutilFacts Setting Strutil Dateutil Timezone Env Common Timestamp Formatted Relative Absolute NoSpace
  Calendars JalaliData Language Parser Search Tokenizer Spec Shows ParserFacts AbsFacts AbsFacts2 LocaleFacts Prop_Total Concrete LocaleData.
From Coq Require Import ZifyBool Permutation.

(** the same environment when the map of the alphabetic directives (weekday names, month names) is iterated in the order given by [b] *)
Definition at_order (E : env) (b : bool) : env :=
  {| e_now := e_now E; e_local := e_local E; e_uni := e_uni E; e_tz := e_tz E; e_wd_first := b |}.

(** no word is both a weekday and a month *)
Definition lower_names (tab : list string) : list str := map (fun n => map lowerA (lit n)) tab.
Lemma days_not_months : forallb (fun d => negb (mem d (lower_names short_months ++ lower_names long_months))) (lower_names short_days ++ lower_names long_days) = true.
Proof. vm_compute. reflexivity. Qed.
Lemma lookup_lower tab : forall i v j, lookup_name tab i v = Some (j, []) -> In (map lowerA v) (lower_names tab).
Proof.
  intros i v j L. apply lookup_spells in L as (n & HN & _ & HV). rewrite HV. apply in_map_iff. exists n. split; [reflexivity|]. eapply nth_error_In, HN.
Qed.
Lemma greg_disjoint E text d1 d2 v1 v2 : In d1 ["Monday"; "Mon"]%string -> In d2 ["January"; "Jan"]%string ->
  greg_value E CWeekday text d1 = Some v1 -> greg_value E CMonth text d2 = Some v2 -> False.
Proof.
  intros I1 I2. unfold greg_value. destruct (time_parse _ (lit d1) _) as [t1|] eqn:T1; [|discriminate]. destruct (time_parse _ (lit d2) _) as [t2|] eqn:T2; [|discriminate]. intros _ _.
  apply tparse_weekday in T1 as (n1 & G1 & _); [|cbn [In] in I1; intuition congruence]. apply tparse_month_name in T2 as (n2 & G2 & _); [|cbn [In] in I2; intuition congruence].
  apply lookup_lower in G1, G2. pose proof days_not_months as DM. rewrite forallb_forall in DM.
  assert (X : In (map lowerA (to_lower (e_uni E) text)) (lower_names short_days ++ lower_names long_days)) by (apply in_or_app; destruct I1 as [<-|[<-|[]]]; auto).
  apply DM in X. assert (Y : mem (map lowerA (to_lower (e_uni E) text)) (lower_names short_months ++ lower_names long_months) = true) by (apply mem_In, in_or_app; destruct I2 as [<-|[<-|[]]]; auto).
  rewrite Y in X. discriminate X.
Qed.
Definition disjoint (H : hooks) : Prop := forall text d1 d2 v1 v2, In d1 ["Monday"; "Mon"]%string -> In d2 ["January"; "Jan"]%string ->
  h_value H CWeekday text d1 = Some v1 -> h_value H CMonth text d2 = Some v2 -> False.
Lemma letter_none H a c text ds : (forall d, In d ds -> h_value H c text d = None) -> letter_directives H a c text ds = None.
Proof. induction ds as [|d ds IH]; intros HN; cbn [letter_directives]; [reflexivity|]. rewrite (HN d (or_introl eq_refl)). apply IH. intros; apply HN; now right. Qed.
Lemma letter_some H a c text ds r : letter_directives H a c text ds = Some r -> exists d v, In d ds /\ h_value H c text d = Some v.
Proof.
  induction ds as [|d ds IH]; cbn [letter_directives]; [discriminate|]. destruct (h_value H c text d) as [v|] eqn:V; [intros _; exists d, v; split; [now left|exact V]|]. intros L. destruct (IH L) as (d' & v' & I' & V'). exists d', v'. split; [now right|exact V'].
Qed.
Lemma letter_order H a text : disjoint H ->
  letter_token H a text [(CWeekday, ["Monday"; "Mon"]%string); (CMonth, ["January"; "Jan"]%string)] =
  letter_token H a text [(CMonth, ["January"; "Jan"]%string); (CWeekday, ["Monday"; "Mon"]%string)].
Proof.
  intros DJ. cbn [letter_token]. destruct (letter_directives H a CWeekday text _) as [r|] eqn:L1; [|destruct (letter_directives H a CMonth text _); reflexivity].
  apply letter_some in L1 as (d1 & v1 & I1 & V1) . rewrite letter_none; [reflexivity|]. intros d2 I2. destruct (h_value H CMonth text d2) as [v2|] eqn:V2; [exfalso; eauto|reflexivity].
Qed.

Local Opaque time_parse time_parse_in match_string find find_string find_all replace_all_string rsplit pop_tz parse_float tokenize sanitize_spaces.
Section C.
Variable E : env.
Variable b : bool.
Notation E' := (at_order E b).
Lemma init_step_order H ord toks fts i ft a : disjoint H -> init_step E' H ord toks fts i ft a = init_step E H ord toks fts i ft a.
Proof.
  intros DJ. unfold init_step. destruct (existsb _ _); [reflexivity|]. destruct (skipped_token _); [reflexivity|]. change (try_time E' toks fts i ft) with (try_time E toks fts i ft). cbv zeta.
  destruct (tt_text _); [reflexivity|]. assert (L : forall a text, letter_token H a text (alpha_directives E') = letter_token H a text (alpha_directives E)).
  { intros a0 text. unfold alpha_directives. cbn [at_order e_wd_first]. destruct b, (e_wd_first E); try reflexivity; [|symmetry]; now apply letter_order. }
  destruct (tk_type (fst ft)); try reflexivity. now rewrite L.
Qed.
Lemma init_loop_order H ord toks fts rest : disjoint H -> forall i a, init_loop E' H ord toks fts i rest a = init_loop E H ord toks fts i rest a.
Proof.
  intros DJ. induction rest as [|ft rest IH]; intros i a; cbn [init_loop]; [reflexivity|]. rewrite init_step_order by exact DJ. destruct (init_step E H ord toks fts i ft a); [apply IH|reflexivity].
Qed.
Lemma abs_init_order H cfg s : disjoint H -> abs_init E' H cfg s = abs_init E H cfg s.
Proof. intros DJ. unfold abs_init. destruct (sanitize_spaces s); [reflexivity|]. rewrite init_loop_order by exact DJ. reflexivity. Qed.
Lemma parse_time_order s : parse_time E' s = parse_time E s.
Proof.
  unfold parse_time. change (e_uni E') with (e_uni E). generalize (to_upper (e_uni E) (trim_space s)). intros x.
  generalize time_formats. intros fs. induction fs as [|[pat per] fs IH]; cbn [parse_time_loop]; [reflexivity|].
  change (e_local E') with (e_local E). now rewrite IH.
Qed.
Lemma abs_order H cfg s tz : disjoint H -> abs_run E' H cfg s tz = abs_run E H cfg s tz.
Proof.
  intros DJ. unfold abs_run. rewrite abs_init_order by exact DJ. destruct (abs_init E H cfg s) as [a|]; [|reflexivity].
  unfold abs_finish. change (abs_now E' cfg) with (abs_now E cfg). destruct (check_strict _ _); cbn [negb]; [|reflexivity].
  destruct (a_time a) as [tk|]; [rewrite parse_time_order|]; cbn [rbind].
  - destruct (parse_time E (tk_text tk)) as [[tm per]|]; reflexivity.
  - reflexivity.
Qed.
Lemma absolute_order cfg s tz : absolute_parse E' cfg s tz = absolute_parse E cfg s tz.
Proof. unfold absolute_parse. change (greg_hooks E') with (greg_hooks E). apply abs_order. intros text d1 d2 v1 v2. apply (greg_disjoint E). Qed.
Lemma fmt_order cfg s formats : formatted_parse E' cfg s formats = formatted_parse E cfg s formats.
Proof.
  unfold formatted_parse. change (fmt_loc E' cfg s) with (fmt_loc E cfg s). induction formats as [|f fs IH]; cbn [fmt_loop]; [reflexivity|].
  destruct (time_parse_in f s (fmt_loc E cfg s)) as [t|]; [reflexivity|exact IH].
Qed.
Lemma rel_order cfg s : relative_parse E' cfg s = relative_parse E cfg s.
Proof.
  unfold relative_parse. change (etz_pop E' (strip_braces s)) with (etz_pop E (strip_braces s)).
  destruct (etz_pop E (strip_braces s)) as [s' tz]. unfold rel_parse_time. rewrite parse_time_order.
  change (e_uni E') with (e_uni E). unfold rel_parse_date, get_durations. change (raw_durations E' s') with (raw_durations E s').
  change (all_words_units E' s') with (all_words_units E s'). change (rel_now E' cfg) with (rel_now E cfg). reflexivity.
Qed.
Lemma ns_cands_order cfg f lay cs : forall amb, ns_cands E' cfg f lay cs amb = ns_cands E cfg f lay cs amb.
Proof.
  induction cs as [|c cs IH]; intros amb; cbn [ns_cands]; [reflexivity|]. change (e_local E') with (e_local E).
  destruct (time_parse (e_local E) lay (candidate_text c)) as [t|]; [|apply IH].
  destruct (is_zero t); [apply IH|]. destruct (year t <? 1000); [apply IH|]. destruct (check_strict _ _); cbn [negb]; [reflexivity|apply IH].
Qed.
Lemma ns_formats_order cfg x fs : forall amb, ns_formats E' cfg x fs amb = ns_formats E cfg x fs amb.
Proof.
  induction fs as [|f fs IH]; intros amb; cbn [ns_formats]; [reflexivity|]. change (candidates E' x (format_parts f)) with (candidates E x (format_parts f)).
  rewrite ns_cands_order. destruct (ns_cands E cfg f _ _ amb); [reflexivity|apply IH].
Qed.
Lemma ns_tokens_order cfg fs toks : forall amb, ns_tokens E' cfg fs toks amb = ns_tokens E cfg fs toks amb.
Proof.
  induction toks as [|t toks IH]; intros amb; cbn [ns_tokens]; [reflexivity|].
  destruct (ttype_eqb (tk_type t) TDigit); [|apply IH]. rewrite ns_formats_order. destruct (ns_formats E cfg (tk_text t) fs amb); [reflexivity|apply IH].
Qed.
Lemma find_best_order fs s : find_best E' fs s = find_best E fs s.
Proof. induction fs as [|f fs IH]; cbn [find_best]; [reflexivity|]. change (e_local E') with (e_local E). rewrite IH. reflexivity. Qed.
Lemma nospace_order cfg s : nospace_parse E' cfg s = nospace_parse E cfg s.
Proof.
  unfold nospace_parse. change (is_eligible E' s) with (is_eligible E s). destruct (is_eligible E s); cbn [negb]; [|reflexivity].
  destruct (empty (replace_all _ _ _)); [reflexivity|]. change (e_uni E') with (e_uni E). rewrite find_best_order.
  destruct (if _ && _ then _ else _) as [d|]; [reflexivity|]. destruct (datetime_formats _) as [fs|]; [|reflexivity].
  rewrite ns_tokens_order. reflexivity.
Qed.
End C.

Section D.
Variable E : env.
Variable D : langdb.
Variable det : option (str -> list str).
Variable b : bool.
Notation E' := (at_order E b).
Lemma first_date_same {A} (f g : A -> res date) l : (forall x, f x = g x) -> first_date f l = first_date g l.
Proof. intros H. induction l as [|x l IH]; cbn [first_date]; [reflexivity|]. rewrite H, IH. reflexivity. Qed.
Lemma try_type_order cfg s trs trsf formats ty : try_type E' cfg s trs trsf formats ty = try_type E cfg s trs trsf formats ty.
Proof.
  unfold try_type. change (timestamp_parse E' cfg s) with (timestamp_parse E cfg s).
  destruct (ty =? TTimestamp); [reflexivity|]. destruct (ty =? TNegTimestamp); [reflexivity|].
  destruct (ty =? TRelative). { unfold try_relative. apply first_date_same. intros x. now rewrite rel_order. }
  destruct (ty =? TCustom). { unfold try_custom. apply first_date_same. intros x. now rewrite fmt_order. }
  destruct (ty =? TAbsolute).
  { unfold try_absolute. apply first_date_same. intros x. unfold abs_one. change (strip_tz E' x) with (strip_tz E x).
    destruct (strip_tz E x) as [[|c t] tz]; [reflexivity|]. now rewrite absolute_order. }
  destruct (ty =? TNoSpaces); [|reflexivity].
  unfold try_nospace. apply first_date_same. intros x. unfold nospace_one. change (strip_tz E' x) with (strip_tz E x).
  destruct (strip_tz E x) as [[|c t] tz]; [reflexivity|]. now rewrite nospace_order.
Qed.
Lemma try_locales_order cfg icfg types s formats lds : try_locales E' cfg icfg types s formats lds = try_locales E cfg icfg types s formats lds.
Proof.
  induction lds as [|ld lds IH]; cbn [try_locales]; [reflexivity|]. rewrite IH.
  assert (T : try_locale E' cfg icfg types s formats ld = try_locale E cfg icfg types s formats ld); [|now rewrite T].
  unfold try_locale. change (translate E' ?c ld s ?k) with (translate E c ld s k). change (order_for E' cfg ld) with (order_for E cfg ld).
  destruct (translate E _ ld s false) as [trs| |]; cbn [rbind]; [|reflexivity|reflexivity].
  destruct (translate E _ ld s true) as [trsf| |]; cbn [rbind]; [|reflexivity|reflexivity].
  apply first_date_same. intros ty. apply try_type_order.
Qed.
Lemma parse_order p cfg s formats : parse E' D det p cfg s formats = parse E D det p cfg s formats.
Proof.
  unfold parse. destruct (existsb _ (p_types p)); [reflexivity|]. change (e_uni E') with (e_uni E). change (e_now E') with (e_now E).
  set (c := initiate (e_now E) cfg). destruct (validate (e_uni E) c); cbn [negb]; [|reflexivity].
  rewrite fmt_order. destruct (date_is_zero (formatted_parse E (to_internal c) s formats)); cbn [negb]; [|reflexivity].
  change (get_applicable E' D det) with (get_applicable E D det).
  destruct (get_applicable E D det _ c (to_internal c) _) as [lds| |]; [|reflexivity|reflexivity].
  rewrite try_locales_order. reflexivity.
Qed.
Lemma parse_date_order p cfg x : parse_date E' D det p cfg x = parse_date E D det p cfg x.
Proof. unfold parse_date. now rewrite parse_order. Qed.
Lemma parse_entry_order p icfg e t acc nb : parse_entry E' D det p icfg e t acc nb = parse_entry E D det p icfg e t acc nb.
Proof.
  unfold parse_entry. rewrite parse_date_order. destruct (parse_date E D det p _ _) as [[q d]| |]; cbn [rbind]; [|reflexivity|reflexivity]. cbv zeta. destruct (is_zero _); [reflexivity|]. now rewrite parse_date_order.
Qed.
Lemma parse_split_order nb parts : forall p icfg acc, parse_split E' D det p icfg nb parts acc = parse_split E D det p icfg nb parts acc.
Proof.
  induction parts as [|[e o] r IH]; intros p icfg acc; cbn [parse_split]; [reflexivity|]. destruct (Nat.leb (rune_count e) 2); [apply IH|]. rewrite parse_entry_order.
  destruct (parse_entry E D det p icfg e e (map fst acc) nb) as [[[q i] ps]| |]; cbn [rbind]; [apply IH|reflexivity|reflexivity].
Qed.
Lemma parse_splits_order nb sps : forall p icfg, parse_splits E' D det p icfg nb sps = parse_splits E D det p icfg nb sps.
Proof.
  induction sps as [|sp r IH]; intros p icfg; cbn [parse_splits]; [reflexivity|]. rewrite parse_split_order.
  destruct (parse_split E D det p icfg nb _ []) as [[[q i] c]| |]; cbn [rbind]; [|reflexivity|reflexivity]. now rewrite IH.
Qed.
Lemma parse_found_order nb l : forall p icfg acc, parse_found E' D det p icfg nb l acc = parse_found E D det p icfg nb l acc.
Proof.
  induction l as [|[[e t] o] r IH]; intros p icfg acc; cbn [parse_found]; [reflexivity|]. destruct (Nat.leb (rune_count e) 2); [apply IH|]. rewrite parse_entry_order.
  destruct (parse_entry E D det p icfg e t (map fst acc) nb) as [[[q i] ps]| |]; cbn [rbind]; [|reflexivity|reflexivity]. destruct (date_is_zero (fst ps)); cbn [negb]; [|apply IH].
  destruct (split_if_not_parsed e o) as [|sp sps]; [apply IH|]. rewrite parse_splits_order.
  destruct (parse_splits E D det q i nb (sp :: sps)) as [[[q2 i2] cs]| |]; cbn [rbind]; [|reflexivity|reflexivity]. now rewrite IH.
Qed.
Lemma swl_order p cfg lang text : search_with_language E' D det p cfg lang text = search_with_language E D det p cfg lang text.
Proof.
  unfold search_with_language. change (init_search_config E' cfg) with (init_search_config E cfg). destruct (init_search_config E cfg) as [c|]; [|reflexivity]. destruct (db_get D lang) as [ld|]; [|reflexivity].
  change (translate_search E') with (translate_search E). destruct (translate_search E _ ld text) as [[tr orig]| |]; cbn [rbind]; [|reflexivity|reflexivity]. now rewrite parse_found_order.
Qed.
Lemma search_order p cfg text : search E' D det p cfg text = search E D det p cfg text.
Proof.
  unfold search. change (init_search_config E' cfg) with (init_search_config E cfg). destruct (init_search_config E cfg) as [c|]; [|reflexivity].
  change (get_languages E' D) with (get_languages E D). destruct (get_languages E D _ _ _) as [langs| |]; [|reflexivity|reflexivity].
  change (detect_language E' D) with (detect_language E D). destruct (detect_language E D _ _ _ _) as [lang| |]; [|reflexivity|reflexivity]. now rewrite swl_order.
Qed.
Lemma repl_days_order s : replace_days E' s = replace_days E s.
Proof. unfold replace_days. generalize (flat_map (fun '(n, ps) => map (fun p => (lit p, itoa n)) ps) day_numbers). intros l. reflexivity. Qed.
Lemma repl_match_order r s : repl_match E' r s = repl_match E r s.
Proof. reflexivity. Qed.
Lemma repl_time_order s : replace_time E' s = replace_time E s.
Proof. unfold replace_time. rewrite !repl_match_order. change (e_uni E') with (e_uni E). reflexivity. Qed.
Lemma jl_prepare_order s : jl_prepare E' s = jl_prepare E s.
Proof. unfold jl_prepare. rewrite repl_days_order, repl_time_order. change (e_uni E') with (e_uni E). reflexivity. Qed.
Lemma hijri_order K cfg s : parse_hijri E' K cfg s = parse_hijri E K cfg s.
Proof.
  unfold parse_hijri, parse_calendar. change (e_uni E') with (e_uni E). change (e_now E') with (e_now E). change (calendar_order E' cfg) with (calendar_order E cfg). destruct (validate (e_uni E) _); cbn [negb]; [|reflexivity].
  unfold hijri_parse. change (hj_prepare E' s) with (hj_prepare E s). destruct (hj_prepare E s) as [s' tz]. change (hj_hooks E' K) with (hj_hooks E K). rewrite abs_order; [reflexivity|]. intros text d1 d2 v1 v2 _ _ X. discriminate X.
Qed.
Lemma jalali_order K cfg s : parse_jalali E' K cfg s = parse_jalali E K cfg s.
Proof.
  unfold parse_jalali, parse_calendar. change (e_uni E') with (e_uni E). change (e_now E') with (e_now E). change (calendar_order E' cfg) with (calendar_order E cfg). destruct (validate (e_uni E) _); cbn [negb]; [|reflexivity].
  unfold jalali_parse. rewrite jl_prepare_order. destruct (jl_prepare E s) as [s' tz]. change (jl_hooks E' K) with (jl_hooks E K). rewrite abs_order; [reflexivity|]. intros text d1 d2 v1 v2 _ _ X. discriminate X.
Qed.
End D.

(** Every entry point returns the same, and leaves the Parser in the same state, in whichever order the map of weekday and month names is
    iterated *)
Theorem C39_directives : forall E D det p cfg s formats lang K b,
  parse (at_order E b) D det p cfg s formats = parse E D det p cfg s formats /\
  search (at_order E b) D det p cfg s = search E D det p cfg s /\
  search_with_language (at_order E b) D det p cfg lang s = search_with_language E D det p cfg lang s /\
  parse_hijri (at_order E b) K cfg s = parse_hijri E K cfg s /\
  parse_jalali (at_order E b) K cfg s = parse_jalali E K cfg s.
Proof.
  intros E D det p cfg s formats lang K b. split; [apply parse_order|]. split; [apply search_order|]. split; [apply swl_order|]. split; [apply hijri_order|apply jalali_order].
Qed.
Print Assumptions C39_directives.

(** ** ParseHijri translates the words for "am" and "pm" in the order of a map *)
Lemma split_acc sep : forall s acc, exists x l, split_from 0 [] s sep = x :: l /\ split_from 0 acc s sep = (rev acc ++ x) :: l.
Proof.
  induction s as [|c s IH]; intros acc; cbn [split_from].
  - exists [], []. rewrite app_nil_r. auto.
  - destruct (has_prefix sep (c :: s)). { exists [], (split_from (Nat.pred (length sep)) [] s sep). rewrite app_nil_r. auto. }
    destruct (IH [c]) as (x & l & H1 & H2). destruct (IH (c :: acc)) as (x' & l' & H1' & H2'). rewrite H1 in H1'. assert (x' = x /\ l' = l) as [-> ->] by (split; congruence). exists ([c] ++ x), l. split; [exact H2|]. rewrite H2'. cbn [rev]. now rewrite <- app_assoc.
Qed.
Lemma split_skip sep : forall k s acc, split_from k acc s sep = split_from 0 acc (skipn k s) sep.
Proof. induction k as [|k IH]; intros s acc; [reflexivity|]. destruct s as [|c s]; [reflexivity|]. cbn [split_from skipn]. apply IH. Qed.
Lemma sjoin_head a x l sep : sjoin ((a ++ x) :: l) sep = a ++ sjoin (x :: l) sep.
Proof. destruct l as [|y l]; cbn [sjoin]; [reflexivity|]. now rewrite <- app_assoc. Qed.
Lemma has_prefix_app p : forall s, has_prefix p s = true <-> exists r, s = p ++ r.
Proof.
  induction p as [|x p IH]; intros s; cbn [has_prefix app]; [split; eauto|]. destruct s as [|y s]; [split; [discriminate|intros (r & X); discriminate X]|]. rewrite andb_true_iff, Z.eqb_eq, IH. split; [intros [-> (r & ->)]; eauto|intros (r & X); split; [congruence|exists r; congruence]].
Qed.
Lemma replace_hit old new r : old <> [] -> replace_all (old ++ r) old new = new ++ replace_all r old new.
Proof.
  intros HO. unfold replace_all, split. destruct old as [|c o]; [congruence|]. cbn [app split_from]. assert (has_prefix (c :: o) (c :: o ++ r) = true) as -> by (apply has_prefix_app; now exists r). cbn [length Nat.pred]. rewrite split_skip.
  replace (skipn (length o) (o ++ r)) with r by (now rewrite skipn_app, skipn_all2, Nat.sub_diag by lia). destruct (split_acc (c :: o) r []) as (x & l & H1 & _). rewrite H1. reflexivity.
Qed.
Lemma replace_miss old new c s : has_prefix old (c :: s) = false -> replace_all (c :: s) old new = c :: replace_all s old new.
Proof.
  intros HP. unfold replace_all, split. cbn [split_from]. rewrite HP. destruct (split_acc old s [c]) as (x & l & H1 & H2). rewrite H1, H2. cbn [rev app]. exact (sjoin_head [c] x l new).
Qed.
(** a pattern without the first character of the replacement is found after a replacement only where it was before *)
Lemma prefix_stable A n0 new : A <> [] -> forall B r, ~ In n0 B -> has_prefix B (replace_all r A (n0 :: new)) = true -> has_prefix B r = true.
Proof.
  intros HA. induction B as [|x B IH]; intros r HN HP; [reflexivity|]. destruct r as [|c r]; [exact HP|]. destruct (has_prefix A (c :: r)) eqn:PA.
  - apply has_prefix_app in PA as (r' & E). rewrite E in HP. rewrite replace_hit in HP by exact HA. cbn [app has_prefix] in HP. apply andb_true_iff in HP as [HP _]. apply Z.eqb_eq in HP. exfalso. apply HN. now left.
  - rewrite replace_miss in HP by exact PA. cbn [has_prefix] in HP |- *. apply andb_true_iff in HP as [-> HP]. apply IH; [|exact HP]. intros HI. apply HN. now right.
Qed.
Lemma prefix_keep A new : A <> [] -> forall B r, (forall B1 B2, B = B1 ++ B2 -> B2 <> [] -> forall r, has_prefix A (B2 ++ r) = false) -> replace_all (B ++ r) A new = B ++ replace_all r A new.
Proof.
  intros HA. induction B as [|x B IH]; intros r HN; [reflexivity|]. cbn [app]. rewrite replace_miss by (apply (HN [] (x :: B) eq_refl); discriminate). f_equal. apply IH. intros B1 B2 -> . apply (HN (x :: B1)). reflexivity.
Qed.
Lemma replace_commute A a1 a2 B b1 b2 : A <> [] -> B <> [] ->
  (forall A1 A2, A = A1 ++ A2 -> A2 <> [] -> forall r, has_prefix B (A2 ++ r) = false) ->
  (forall B1 B2, B = B1 ++ B2 -> B2 <> [] -> forall r, has_prefix A (B2 ++ r) = false) ->
  ~ In a1 B -> ~ In a2 B -> ~ In b1 A -> ~ In b2 A ->
  forall s, replace_all (replace_all s A [a1; a2]) B [b1; b2] = replace_all (replace_all s B [b1; b2]) A [a1; a2].
Proof.
  intros HA HB NA NB N1 N2 N3 N4. assert (FM : forall P x r, P <> [] -> ~ In x P -> has_prefix P (x :: r) = false).
  { intros P x r HP HX. destruct P as [|y P]; [congruence|]. cbn [has_prefix]. destruct (Z.eqb_spec y x) as [->|]; [exfalso; apply HX; now left|reflexivity]. }
  intros s. remember (length s) as n eqn:Hn. revert s Hn. induction n as [n IH] using lt_wf_ind. intros s ->. destruct s as [|c s]; [reflexivity|].
  destruct (has_prefix A (c :: s)) eqn:PA; [|destruct (has_prefix B (c :: s)) eqn:PB].
  - apply has_prefix_app in PA as (r & EQ). rewrite EQ. rewrite replace_hit by exact HA. cbn [app]. rewrite !replace_miss by (now apply FM). rewrite prefix_keep by assumption. rewrite replace_hit by exact HA. cbn [app]. do 2 f_equal. apply (IH (length r)); [|reflexivity]. rewrite EQ. destruct A; [congruence|]. rewrite app_length. cbn [length]. lia.
  - apply has_prefix_app in PB as (r & EQ). rewrite EQ. rewrite (replace_hit B) by exact HB. cbn [app]. rewrite !(replace_miss A) by (now apply FM). rewrite prefix_keep by assumption. rewrite replace_hit by exact HB. cbn [app]. do 2 f_equal. apply (IH (length r)); [|reflexivity]. rewrite EQ. destruct B; [congruence|]. rewrite app_length. cbn [length]. lia.
  - rewrite !replace_miss by assumption.
    assert (PB' : has_prefix B (c :: replace_all s A [a1; a2]) = false).
    { destruct (has_prefix B (c :: replace_all s A [a1; a2])) eqn:X; [|reflexivity]. rewrite <- replace_miss in X by exact PA. apply prefix_stable in X; [congruence|assumption..]. }
    assert (PA' : has_prefix A (c :: replace_all s B [b1; b2]) = false).
    { destruct (has_prefix A (c :: replace_all s B [b1; b2])) eqn:X; [|reflexivity]. rewrite <- replace_miss in X by exact PB. apply prefix_stable in X; [congruence|assumption..]. }
    rewrite !replace_miss by assumption. f_equal. apply (IH (length s)); [cbn [length]; lia|reflexivity].
Qed.
Definition no_overlap (A B : str) : bool :=
  forallb (fun k => let t := skipn k A in negb (has_prefix (firstn (length t) B) (firstn (length B) t))) (seq 0 (length A)).
Lemma no_overlap_ok A B : no_overlap A B = true -> forall A1 A2, A = A1 ++ A2 -> A2 <> [] -> forall r, has_prefix B (A2 ++ r) = false.
Proof.
  intros NO A1 A2 EQ HN r. unfold no_overlap in NO. rewrite forallb_forall in NO. destruct (has_prefix B (A2 ++ r)) eqn:HP; [exfalso|reflexivity].
  assert (HI : In (length A1) (seq 0 (length A))). { apply in_seq. rewrite EQ, app_length. destruct A2; [congruence|cbn [length]; lia]. }
  apply NO in HI. cbv zeta in HI. replace (skipn (length A1) A) with A2 in HI by (rewrite EQ, skipn_app, skipn_all2, Nat.sub_diag by lia; reflexivity).
  apply has_prefix_app in HP as (r' & HP). assert (X : has_prefix (firstn (length A2) B) (firstn (length B) A2) = true); [|rewrite X in HI; discriminate HI].
  apply has_prefix_app. exists []. rewrite app_nil_r. pose proof (f_equal (firstn (Nat.min (length A2) (length B))) HP) as HF. rewrite !firstn_app in HF.
  replace (Nat.min (length A2) (length B) - length A2)%nat with 0%nat in HF by lia. replace (Nat.min (length A2) (length B) - length B)%nat with 0%nat in HF by lia. cbn [firstn] in HF. rewrite !app_nil_r in HF.
  destruct (Nat.le_ge_cases (length A2) (length B)) as [L|L].
  - rewrite Nat.min_l in HF by exact L. rewrite firstn_all in HF. rewrite <- HF. now rewrite firstn_all2 by exact L.
  - rewrite Nat.min_r in HF by exact L. rewrite firstn_all in HF. rewrite HF. now rewrite firstn_all2 by exact L.
Qed.
(** the order in which the words are replaced does not matter *)
Theorem C39_conventions : forall order, Permutation order time_conventions -> forall s,
  fold_left (fun s '(latin, arabic) => replace_all s (lit arabic) (lit latin)) order s =
  fold_left (fun s '(latin, arabic) => replace_all s (lit arabic) (lit latin)) time_conventions s.
Proof.
  intros order HP s. unfold time_conventions in *. apply Permutation_sym, Permutation_length_2_inv in HP as [-> | ->]; [reflexivity|]. cbn [fold_left].
  change (lit "am") with [97; 109]. change (lit "pm") with [112; 109]. symmetry. apply replace_commute.
  - vm_compute; discriminate.
  - vm_compute; discriminate.
  - apply no_overlap_ok. vm_compute. reflexivity.
  - apply no_overlap_ok. vm_compute. reflexivity.
  - vm_compute; intuition discriminate.
  - vm_compute; intuition discriminate.
  - vm_compute; intuition discriminate.
  - vm_compute; intuition discriminate.
Qed.
Print Assumptions C39_conventions.
Example C39_conventions_case : fold_left (fun s '(latin, arabic) => replace_all s (lit arabic) (lit latin)) [("pm", "مساء"); ("am", "صباحا")]%string (lit "1440-05-05 10:00 صباحا") = lit "1440-05-05 10:00 am".
Proof. vm_compute. reflexivity. Qed.

(** ** The no-space parser collects the missing parts in the order of a map: only the set matters *)
Theorem C39_format_mapping : forall order, Permutation order format_mapping -> forall cfg f,
  check_strict cfg (flat_map (fun '(k, p) => if contains (lit f) (lit k) then [] else [lit p]) order) = check_strict cfg (ns_missing f).
Proof.
  intros order HP cfg f. unfold check_strict, ns_missing. set (g := fun '(k, p) => if contains (lit f) (lit k) then [] else [lit p]).
  assert (PG : Permutation (flat_map g order) (flat_map g format_mapping)) by (now apply Permutation_flat_map).
  assert (HN : match flat_map g order with [] => true | _ => false end = match flat_map g format_mapping with [] => true | _ => false end).
  { apply Permutation_length in PG. destruct (flat_map g order), (flat_map g format_mapping); try reflexivity; discriminate PG. }
  rewrite HN. destruct (c_strict cfg && _); [reflexivity|]. f_equal. apply eq_true_iff_eq. rewrite !existsb_exists. split; intros (x & HI & HM); exists x; (split; [exact HI|]); apply mem_In; apply mem_In in HM; (eapply Permutation_in; [|exact HM]); [exact PG|now apply Permutation_sym].
Qed.
Print Assumptions C39_format_mapping.

(** ** The languages by frequency: [languages[order] = lang] for the entries of a map in any order (loader.go:66-70, languages.go:74-79) *)
Fixpoint set_nth (l : list str) (i : nat) (x : str) : list str :=
  match l, i with
  | [], _ => []
  | _ :: l', O => x :: l'
  | y :: l', S i' => y :: set_nth l' i' x
  end.
Definition fill (n : nat) (entries : list (str * nat)) : list str := fold_left (fun l e => set_nth l (snd e) (fst e)) entries (repeat [] n).
Lemma set_nth_length l : forall i x, length (set_nth l i x) = length l.
Proof. induction l as [|y l IH]; intros [|i] x; cbn [set_nth length]; auto. Qed.
Lemma set_nth_get l : forall i j x, nth_error (set_nth l i x) j = if (Nat.eqb i j && Nat.ltb j (length l))%bool then Some x else nth_error l j.
Proof.
  induction l as [|y l IH]; intros i j x; cbn [set_nth].
  - cbn [length]. rewrite andb_false_r. now destruct j.
  - destruct i as [|i], j as [|j]; cbn [nth_error Nat.eqb length andb]; try reflexivity. rewrite IH. reflexivity.
Qed.
Lemma fill_get entries : forall l j x, NoDup (map snd entries) -> In (x, j) entries -> (j < length l)%nat ->
  nth_error (fold_left (fun l e => set_nth l (snd e) (fst e)) entries l) j = Some x.
Proof.
  assert (KEEP : forall entries l j, ~ In j (map snd entries) -> nth_error (fold_left (fun l e => set_nth l (snd e) (fst e)) entries l) j = nth_error l j).
  { induction entries0 as [|[y k] r IH]; intros l j HN; [reflexivity|]. cbn [map snd In] in HN. cbn [fold_left fst snd]. rewrite IH by tauto. rewrite set_nth_get. destruct (Nat.eqb_spec k j); [exfalso; tauto|reflexivity]. }
  induction entries as [|[y k] r IH]; intros l j x ND HI HL; [destruct HI|]. cbn [map snd] in ND. inversion ND as [|? ? HK ND']; subst. cbn [fold_left fst snd]. destruct HI as [EQ|HI].
  - assert (y = x /\ k = j) as [-> ->] by (split; congruence). rewrite KEEP by exact HK. rewrite set_nth_get, Nat.eqb_refl. now rewrite (proj2 (Nat.ltb_lt j (length l)) HL).
  - apply IH; [exact ND'|exact HI|now rewrite set_nth_length].
Qed.
Theorem C39_language_order : forall langs entries, Permutation entries (combine langs (seq 0 (length langs))) -> fill (length langs) entries = langs.
Proof.
  intros langs entries HP. assert (ND : NoDup (map snd entries)).
  { apply (Permutation_NoDup (l := map snd (combine langs (seq 0 (length langs))))); [apply Permutation_map, Permutation_sym, HP|].
    assert (X : forall (l : list str) (k : list nat), length l = length k -> map snd (combine l k) = k) by (induction l as [|a l IHl]; intros [|c k] HL; try discriminate HL; [reflexivity|]; cbn [combine map snd]; rewrite IHl; [reflexivity|now injection HL]).
    rewrite X by (now rewrite seq_length). apply seq_NoDup. }
  assert (LF : forall es l, length (fold_left (fun l e => set_nth l (snd e) (fst e)) es l) = length l) by (induction es as [|e es IHe]; intros l; cbn [fold_left]; [reflexivity|]; rewrite IHe; apply set_nth_length).
  assert (EX : forall (a b : list str), (forall j, nth_error a j = nth_error b j) -> a = b).
  { induction a as [|x a IHa]; intros [|y b] HJ; [reflexivity|specialize (HJ 0%nat); discriminate HJ|specialize (HJ 0%nat); discriminate HJ|]. pose proof (HJ 0%nat) as H0. cbn [nth_error] in H0. assert (x = y) as -> by congruence. f_equal. apply IHa. intros j. exact (HJ (S j)). }
  apply EX. intros j. destruct (nth_error langs j) as [x|] eqn:NE.
  - unfold fill. apply fill_get; [exact ND| |].
    + eapply Permutation_in; [apply Permutation_sym, HP|]. assert (HJ : (j < length langs)%nat) by (apply nth_error_Some; congruence). apply (nth_error_In _ j).
      assert (Y : forall (l : list str) (k j : nat) x, nth_error l j = Some x -> nth_error (combine l (seq k (length l))) j = Some (x, (k + j)%nat)).
      { induction l as [|a l IHl]; intros k i z HZ; [destruct i; discriminate HZ|]. destruct i as [|i]; cbn [nth_error length seq combine] in *; [assert (a = z) as -> by congruence; now rewrite Nat.add_0_r|]. rewrite (IHl (S k) i z HZ). do 2 f_equal. lia. }
      exact (Y langs 0%nat j x NE).
    + rewrite repeat_length. apply nth_error_Some. congruence.
  - apply nth_error_None in NE. apply nth_error_None. unfold fill. rewrite LF, repeat_length. exact NE.
Qed.
Print Assumptions C39_language_order.
Example C39_language_order_case : fill 3 [(lit "fr", 2%nat); (lit "en", 0%nat); (lit "es", 1%nat)] = [lit "en"; lit "es"; lit "fr"].
Proof. vm_compute. reflexivity. Qed.

(** ** The unique characters of a language are listed in the order of a map *)
Theorem C39_charsets : forall E D cfg s languages uc uc', (forall l, Permutation (mget_or [] uc l) (mget_or [] uc' l)) ->
  detect_language E D cfg s languages uc = detect_language E D cfg s languages uc'.
Proof.
  intros E D cfg s languages uc uc' HP. unfold detect_language. assert (X : language_candidates E D s languages uc = language_candidates E D s languages uc'); [|now rewrite X].
  unfold language_candidates. cbv zeta. destruct (forallb _ _); [reflexivity|]. assert (HE : forall (A : Type) (f g : A -> bool) l, (forall x, f x = g x) -> List.find f l = List.find g l) by (intros A f g l HFG; induction l as [|x l IH]; cbn [List.find]; [reflexivity|]; rewrite HFG, IH; reflexivity).
  rewrite (HE _ _ (fun l => existsb (fun c => existsb (Z.eqb c) (runes (normalize_charset (e_uni E) s))) (mget_or [] uc' l))); [reflexivity|].
  intros l. apply eq_true_iff_eq. rewrite !existsb_exists. split; intros (x & HI & HX); exists x; (split; [|exact HX]); (eapply Permutation_in; [|exact HI]); [|apply Permutation_sym]; apply HP.
Qed.
Print Assumptions C39_charsets.

(** ** Merging the tables of a regional locale visits the words of the language in the order of a map *)
Lemma merge_trans_get words : NoDup (map fst words) -> forall m w,
  mget (fold_left (fun m p => mset m (fst p) (compact_sorted (sort_by lts (mget_or [] m (fst p) ++ snd p)))) words m) w =
  match mget words w with Some ts => Some (compact_sorted (sort_by lts (mget_or [] m w ++ ts))) | None => mget m w end.
Proof.
  induction words as [|[k ts] r IH]; intros ND m w; [reflexivity|]. cbn [map fst] in ND. inversion ND as [|? ? HK ND']; subst. cbn [fold_left fst snd mget]. rewrite (IH ND'). destruct (eqs_spec w k) as [->|NE].
  - destruct (mget r k) as [x|] eqn:MR; [exfalso; apply HK, in_map_iff; exists (k, x); split; [reflexivity|now apply mget_In]|]. now rewrite mget_mset_same.
  - unfold mget_or. rewrite mget_mset_other by congruence. reflexivity.
Qed.
Lemma merge_rel_get words : NoDup (map fst words) -> forall (m : smap str) w,
  mget (fold_left (fun m p => mset m (fst p) (snd p)) words m) w = match mget words w with Some t => Some t | None => mget m w end.
Proof.
  induction words as [|[k t] r IH]; intros ND m w; [reflexivity|]. cbn [map fst] in ND. inversion ND as [|? ? HK ND']; subst. cbn [fold_left fst snd mget]. rewrite (IH ND'). destruct (eqs_spec w k) as [->|NE].
  - destruct (mget r k) as [x|] eqn:MR; [exfalso; apply HK, in_map_iff; exists (k, x); split; [reflexivity|now apply mget_In]|]. now rewrite mget_mset_same.
  - rewrite mget_mset_other by congruence. reflexivity.
Qed.
Lemma mget_perm {A} (m m' : smap A) : NoDup (map fst m) -> Permutation m m' -> forall w, mget m w = mget m' w.
Proof.
  intros ND HP w. assert (ND' : NoDup (map fst m')) by (eapply Permutation_NoDup; [apply Permutation_map, HP|exact ND]).
  assert (GI : forall (l : smap A), NoDup (map fst l) -> forall v, In (w, v) l -> mget l w = Some v).
  { induction l as [|[k x] l IH]; intros NL v HI; [destruct HI|]. cbn [map fst] in NL. inversion NL as [|? ? HK NL']; subst. cbn [mget]. destruct HI as [EQ|HI]; [assert (k = w /\ x = v) as [-> ->] by (split; congruence); now rewrite eqs_refl|]. destruct (eqs_spec w k) as [->|]; [exfalso; apply HK, in_map_iff; exists (k, v); auto|auto]. }
  destruct (mget m w) as [v|] eqn:M; [symmetry; apply GI; [exact ND'|]; eapply Permutation_in; [exact HP|]; now apply mget_In|]. destruct (mget m' w) as [v|] eqn:M'; [|reflexivity]. rewrite <- M. apply GI; [exact ND|]. eapply Permutation_in; [apply Permutation_sym, HP|]. now apply mget_In.
Qed.
Definition with_maps (ld : locale) (tr : smap (list str)) (rt : smap str) : locale :=
  {| ld_name := ld_name ld; ld_order := ld_order ld; ld_nospacing := ld_nospacing ld; ld_splitter := ld_splitter ld; ld_charset := ld_charset ld; ld_abbr := ld_abbr ld; ld_simpl := ld_simpl ld;
     ld_trans := tr; ld_reltype := rt; ld_relrx := ld_relrx ld; ld_rx := ld_rx ld; ld_rx_exact := ld_rx_exact ld; ld_known := ld_known ld |}.
Theorem C39_merge : forall parent child tr rt, NoDup (map fst (ld_trans parent)) -> NoDup (map fst (ld_reltype parent)) ->
  Permutation (ld_trans parent) tr -> Permutation (ld_reltype parent) rt ->
  forall w, translate_word (merge (with_maps parent tr rt) child) w = translate_word (merge parent child) w.
Proof.
  intros parent child tr rt N1 N2 P1 P2 w. unfold translate_word, merge. cbn [with_maps ld_reltype ld_trans].
  rewrite !merge_rel_get, !merge_trans_get; [|assumption|eapply Permutation_NoDup; [apply Permutation_map; eassumption|assumption]|assumption|eapply Permutation_NoDup; [apply Permutation_map; eassumption|assumption]].
  rewrite <- (mget_perm _ _ N1 P1), <- (mget_perm _ _ N2 P2). reflexivity.
Qed.
Print Assumptions C39_merge.
Definition nodupb (l : list str) : bool := (fix go l := match l with [] => true | x :: r => negb (mem x r) && go r end) l.
Lemma nodupb_ok l : nodupb l = true -> NoDup l.
Proof. induction l as [|x l IH]; cbn [nodupb]; [constructor|]. intros HB. apply andb_true_iff in HB as [H1 H2]. constructor; [|now apply IH]. intros HI. apply mem_In in HI. rewrite HI in H1. discriminate H1. Qed.
Example C39_merge_case : NoDup (map fst (ld_trans loc_en)) /\ NoDup (map fst (ld_reltype loc_en)) /\
  translate_word (merge (with_maps loc_en (rev (ld_trans loc_en)) (rev (ld_reltype loc_en))) loc_en_GB) (lit "march") = Some [lit "march"].
Proof. split; [apply nodupb_ok; vm_compute; reflexivity|]. split; [apply nodupb_ok; vm_compute; reflexivity|]. vm_compute. reflexivity. Qed.
