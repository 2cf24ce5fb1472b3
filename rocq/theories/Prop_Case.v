(** C56: upper and lower case make no difference. *)
From Coq Require Import ZifyBool.
From Verif Require Import GoBase SMap Regex RegexFacts SpaceFacts Utf8Facts Spec Formatted Civil GoTime Setting Strutil Digit Tokenizer Timezone Env Common Timestamp Language Parser NumericFacts TextRename TextFront Shows Prop_Absolute3 Concrete LocaleData.

(** ** Lower case *)
Lemma low_eqb c k : is_alphaA k = false -> (lowerA c =? k) = (c =? k).
Proof. unfold lowerA, is_upperA, is_alphaA, is_lowerA, is_upperA. intros H. destruct ((65 <=? c) && (c <=? 90)) eqn:B; lia. Qed.
Lemma low_space c : is_space (lowerA c) = is_space c.
Proof. unfold lowerA, is_upperA. destruct ((65 <=? c) && (c <=? 90)) eqn:B; [|reflexivity]. unfold is_space. lia. Qed.
Lemma low_digit c : is_digitA (lowerA c) = is_digitA c.
Proof. unfold lowerA, is_upperA. destruct ((65 <=? c) && (c <=? 90)) eqn:B; [|reflexivity]. unfold is_digitA. lia. Qed.
Lemma low_low c : lowerA (lowerA c) = lowerA c.
Proof. unfold lowerA, is_upperA. destruct ((65 <=? c) && (c <=? 90)) eqn:B; [|now rewrite B]. assert ((65 <=? c + 32) && (c + 32 <=? 90) = false) as -> by lia. reflexivity. Qed.
Lemma lows s : map lowerA (map lowerA s) = map lowerA s.
Proof. rewrite map_map. apply map_ext. exact low_low. Qed.
Lemma low_same c : is_digitA c = true -> lowerA c = c.
Proof. unfold is_digitA, lowerA, is_upperA. intros H. assert ((65 <=? c) && (c <=? 90) = false) as -> by lia. reflexivity. Qed.
Lemma low_ok : nrm_ok lowerA = true. Proof. vm_compute. reflexivity. Qed.
Lemma low_slice s a b : slice (map lowerA s) a b = map lowerA (slice s a b).
Proof. unfold slice. now rewrite skipn_map, firstn_map. Qed.
Lemma low_cap s m i : cap_str (map lowerA s) m i = map lowerA (cap_str s m i).
Proof. unfold cap_str. destruct (cap m i) as [[a b]|]; [apply low_slice|reflexivity]. Qed.
Lemma low_expand s m : forall t k, map lowerA t = t -> expand_aux k t (map lowerA s) m = map lowerA (expand_aux k t s m).
Proof.
  induction t as [|c t IH]; intros k HT; [reflexivity|]. cbn [map] in HT. assert (HC : lowerA c = c) by congruence. assert (HT' : map lowerA t = t) by congruence. cbn [expand_aux]. destruct k as [|k]; [|now apply IH].
  destruct (c =? 36); [|cbn [map]; now rewrite IH, HC]. cbv zeta. set (br := match t with b :: _ => b =? 123 | [] => false end). destruct (take_while is_word _) as [|n ns] eqn:TW; [cbn [map]; now rewrite IH, HC|].
  destruct (br && _); [cbn [map]; now rewrite IH, HC|]. rewrite map_app, IH by exact HT'. f_equal. destruct (dec_val 0 _); [apply low_cap|reflexivity].
Qed.
Lemma low_render s repl repl' p : (forall m, repl' m = map lowerA (repl m)) -> render (map lowerA s) repl' p = map lowerA (render s repl p).
Proof.
  intros HR. unfold render. rewrite map_app, skipn_map. f_equal. induction (fst p) as [|[[a b] o] l IH]; [reflexivity|]. cbn [flat_map]. rewrite map_app, IH. f_equal. rewrite map_app, low_slice. f_equal. destruct o; [apply HR|reflexivity].
Qed.
Section C.
Variable E : env.
Notation U := (e_uni E).
Hypothesis UA : uni_ascii U.
Lemma low_replace r s t : respects lowerA (rx_ast r) = true -> map lowerA t = t -> asc s -> replace_all_string U r (map lowerA s) t = map lowerA (replace_all_string U r s t).
Proof.
  intros HR HT HA. rewrite (replace_norm lowerA U UA low_ok r s t HR HA), (replace_norm lowerA U UA low_ok r (map lowerA s) t HR (lower_asc s HA)), lows. apply low_render. intros m. now apply low_expand.
Qed.
Lemma cap_asc s m i : asc s -> asc (cap_str s m i).
Proof. intros HA. unfold cap_str. destruct (cap m i) as [[a b]|]; [now apply asc_slice|constructor]. Qed.
Lemma expand_asc s m : asc s -> forall t k, asc t -> asc (expand_aux k t s m).
Proof.
  intros HA. induction t as [|c t IH]; intros k HT; [constructor|]. inversion_clear HT as [|? ? HC HT']. cbn [expand_aux]. destruct k as [|k]; [|now apply IH].
  destruct (c =? 36); [|constructor; [exact HC|now apply IH]]. cbv zeta. set (br := match t with b :: _ => b =? 123 | [] => false end). destruct (take_while is_word _) as [|n ns] eqn:TW; [constructor; [exact HC|now apply IH]|].
  destruct (br && _); [constructor; [exact HC|now apply IH]|]. apply Forall_app. split; [|now apply IH]. destruct (dec_val 0 _); [now apply cap_asc|constructor].
Qed.
Lemma replace_asc r s t : asc s -> asc t -> asc (replace_all_string U r s t).
Proof.
  intros HA HT. unfold replace_all_string. rewrite replace_all_plan. unfold render. apply Forall_app. split; [|now apply asc_skipn]. induction (fst _) as [|[[a b] o] l IH]; [constructor|]. cbn [flat_map]. apply Forall_app. split; [|exact IH]. apply Forall_app. split; [now apply asc_slice|]. destruct o; [unfold expand; now apply expand_asc|constructor].
Qed.
Lemma low_fields_from : forall s acc, fields_from (map lowerA acc) (map (fun c => (c, [c])) (map lowerA s)) = map (map lowerA) (fields_from acc (map (fun c => (c, [c])) s)).
Proof.
  induction s as [|c s IH]; intros acc; cbn [map fields_from].
  - destruct acc; reflexivity.
  - rewrite low_space. destruct (is_space c).
    + destruct acc as [|a acc]; cbn [map empty]; [apply (IH [])|]. f_equal. apply (IH []).
    + rewrite <- (IH (acc ++ [c])), map_app. reflexivity.
Qed.
Lemma low_fields s : asc s -> fields (map lowerA s) = map (map lowerA) (fields s).
Proof. intros HA. unfold fields. rewrite !chunks_asc by (try apply lower_asc; exact HA). apply (low_fields_from s []). Qed.
Lemma fields_from_asc : forall s acc, asc s -> asc acc -> Forall asc (fields_from acc (map (fun c => (c, [c])) s)).
Proof.
  induction s as [|c s IH]; intros acc HA HC; cbn [map fields_from].
  - destruct acc; constructor; [exact HC|constructor].
  - inversion_clear HA. destruct (is_space c); [destruct acc; cbn [empty]; [apply IH; [assumption|constructor]|constructor; [exact HC|apply IH; [assumption|constructor]]]|]. apply IH; [assumption|]. apply Forall_app. split; [exact HC|now constructor].
Qed.
Lemma fields_asc s : asc s -> Forall asc (fields s).
Proof. intros HA. unfold fields. rewrite chunks_asc by exact HA. apply fields_from_asc; [exact HA|constructor]. Qed.
Lemma low_sjoin l : sjoin (map (map lowerA) l) (lit " ") = map lowerA (sjoin l (lit " ")).
Proof. induction l as [|a l IH]; [reflexivity|]. destruct l as [|b l]; [reflexivity|]. cbn [map sjoin] in *. rewrite !map_app, <- IH. reflexivity. Qed.
Lemma sjoin_asc l : Forall asc l -> asc (sjoin l (lit " ")).
Proof.
  induction 1 as [|a l HA HL IH]; [constructor|]. destruct l as [|b l]; [exact HA|]. cbn [sjoin] in *. apply Forall_app. split; [exact HA|]. apply Forall_app. split; [apply ascb_asc; reflexivity|exact IH].
Qed.
Lemma no_nbsp s : asc s -> replace_all s nbsp [] = s.
Proof.
  intros HA. rewrite <- (encode_asc s HA) at 1. rewrite remove_nbsp by (eapply Forall_impl; [|exact HA]; intros c Hc; cbv beta in Hc; unfold scalar; lia).
  replace (filter not_nbsp s) with s; [now apply encode_asc|]. symmetry. apply filter_all. intros c Hc. unfold asc in HA. rewrite Forall_forall in HA. apply HA in Hc. unfold not_nbsp. assert (c =? 160 = false) as -> by lia. reflexivity.
Qed.
Lemma low_spaces s : asc s -> sanitize_spaces (map lowerA s) = map lowerA (sanitize_spaces s).
Proof. intros HA. unfold sanitize_spaces. rewrite !no_nbsp by (try apply lower_asc; exact HA). rewrite low_fields by exact HA. apply low_sjoin. Qed.
Lemma spaces_asc s : asc s -> asc (sanitize_spaces s).
Proof. intros HA. unfold sanitize_spaces. rewrite no_nbsp by exact HA. now apply sjoin_asc, fields_asc. Qed.
Lemma low_suffix s : trim_suffix (map lowerA s) (lit ":") = map lowerA (trim_suffix s (lit ":")).
Proof.
  unfold trim_suffix, has_suffix. rewrite <- map_rev, map_length. change (rev (lit ":")) with [58]. destruct (rev s) as [|c l]; [reflexivity|]. cbn [map has_prefix]. rewrite (Z.eqb_sym 58 (lowerA c)), low_eqb, (Z.eqb_sym c 58) by reflexivity. destruct ((58 =? c) && true); [apply firstn_map|reflexivity].
Qed.
Lemma suffix_asc s : asc s -> asc (trim_suffix s (lit ":")).
Proof. intros HA. unfold trim_suffix. destruct (has_suffix _ _); [now apply asc_firstn|exact HA]. Qed.
Lemma apos_asc s : asc s -> normalize_apos s = s.
Proof.
  intros HA. unfold normalize_apos. rewrite runes_asc by exact HA. rewrite (map_ext_in _ (fun c => c)); [rewrite map_id; now apply encode_asc|]. intros c Hc. unfold asc in HA. rewrite Forall_forall in HA. apply HA in Hc. unfold apos_map. cbn [existsb]. destruct (_ || _) eqn:O; [lia|reflexivity].
Qed.
Lemma low_drop s : drop_while is_space (map lowerA s) = map lowerA (drop_while is_space s).
Proof. induction s as [|c s IH]; [reflexivity|]. cbn [map drop_while]. rewrite low_space. destruct (is_space c); [exact IH|reflexivity]. Qed.
Lemma low_trim s : asc s -> trim_space (map lowerA s) = map lowerA (trim_space s).
Proof. intros HA. rewrite !trim_asc by (try apply lower_asc; exact HA). now rewrite low_drop, <- map_rev, low_drop, map_rev. Qed.
Definition letterless : list regex := [rxSanitizeSkip; rxSanitizeRussian; rxSanitizeCroatian; rxSanitizePeriod; rxSanitizeOn; rxTimestamp; rxNegativeTimestamp].
Lemma patterns_low : forallb (fun r => respects lowerA (rx_ast r)) letterless = true. Proof. vm_compute. reflexivity. Qed.
Lemma pattern_low r : In r letterless -> respects lowerA (rx_ast r) = true.
Proof. pose proof patterns_low as H. rewrite forallb_forall in H. exact (H r). Qed.
Lemma low_sanitize s : asc s -> sanitize_date U (map lowerA s) = map lowerA (sanitize_date U s) /\ asc (sanitize_date U s).
Proof.
  intros HA. unfold sanitize_date.
  rewrite (low_replace rxSanitizeSkip) by (first [exact HA | reflexivity | apply pattern_low; unfold letterless; cbn [In]; tauto]). set (s1 := replace_all_string U rxSanitizeSkip s (lit " ")). assert (A1 : asc s1) by (apply replace_asc; [exact HA|apply ascb_asc; reflexivity]). clearbody s1. clear HA s.
  rewrite (low_replace rxSanitizeRussian) by (first [exact A1 | reflexivity | apply pattern_low; unfold letterless; cbn [In]; tauto]). set (s2 := replace_all_string U rxSanitizeRussian s1 (lit "$1 ")). assert (A2 : asc s2) by (apply replace_asc; [exact A1|apply ascb_asc; reflexivity]). clearbody s2. clear A1 s1.
  rewrite (low_replace rxSanitizeCroatian) by (first [exact A2 | reflexivity | apply pattern_low; unfold letterless; cbn [In]; tauto]). set (s3 := replace_all_string U rxSanitizeCroatian s2 (lit "$1.$2.$3 ")). assert (A3 : asc s3) by (apply replace_asc; [exact A2|apply ascb_asc; reflexivity]). clearbody s3. clear A2 s2.
  rewrite low_spaces by exact A3. set (s4 := sanitize_spaces s3). assert (A4 : asc s4) by (now apply spaces_asc). clearbody s4. clear A3 s3.
  rewrite (low_replace rxSanitizePeriod) by (first [exact A4 | reflexivity | apply pattern_low; unfold letterless; cbn [In]; tauto]). set (s5 := replace_all_string U rxSanitizePeriod s4 (lit "$1")). assert (A5 : asc s5) by (apply replace_asc; [exact A4|apply ascb_asc; reflexivity]). clearbody s5. clear A4 s4.
  rewrite (low_replace rxSanitizeOn) by (first [exact A5 | reflexivity | apply pattern_low; unfold letterless; cbn [In]; tauto]). set (s6 := replace_all_string U rxSanitizeOn s5 (lit "$1")). assert (A6 : asc s6) by (apply replace_asc; [exact A5|apply ascb_asc; reflexivity]). clearbody s6. clear A5 s5.
  rewrite low_suffix. pose proof (suffix_asc s6 A6) as A7. rewrite !apos_asc by (try apply lower_asc; exact A7). rewrite low_trim by exact A7. split; [reflexivity|now apply trim_is_asc].
Qed.
Lemma low_normalize s : asc s -> normalize_string U (map lowerA s) = normalize_string U s.
Proof.
  intros HA. pose proof (lower_asc s HA) as HL. unfold normalize_string, normalize_unicode. rewrite !(ua_nfkd _ UA) by (now apply asc_ascii). rewrite !(to_lower_asc E) by assumption. now rewrite lows.
Qed.
Lemma low_dec : forall s a, dec_val a (map lowerA s) = dec_val a s.
Proof. induction s as [|c s IH]; intros a; [reflexivity|]. cbn [map dec_val]. rewrite low_digit. destruct (is_digitA c) eqn:D; [|reflexivity]. rewrite (low_same c D). apply IH. Qed.
Lemma low_atoi0 s : atoi0 (map lowerA s) = atoi0 s.
Proof.
  unfold atoi0, atoi. destruct s as [|c s]; [reflexivity|]. cbn [map]. rewrite !low_eqb by reflexivity. assert (empty (map lowerA s) = empty s) as -> by (destruct s; reflexivity). change (lowerA c :: map lowerA s) with (map lowerA (c :: s)). now rewrite !low_dec.
Qed.
Lemma low_timestamp cfg s neg : asc s -> timestamp_parse E cfg (map lowerA s) neg = timestamp_parse E cfg s neg.
Proof.
  intros HA. unfold timestamp_parse. assert (HR : respects lowerA (rx_ast (if neg then rxNegativeTimestamp else rxTimestamp)) = true) by (destruct neg; apply pattern_low; unfold letterless; cbn [In]; tauto).
  cbv zeta. rewrite (find_norm lowerA U UA low_ok _ s HR HA), (find_norm lowerA U UA low_ok _ (map lowerA s) HR (lower_asc s HA)), lows. destruct (Regex.find uni_min _ _) as [m|]; [|reflexivity]. now rewrite !low_cap, !low_atoi0.
Qed.
Variable D : langdb.
Lemma low_translate cfg ld s k : asc s -> translate E cfg ld (map lowerA s) k = translate E cfg ld s k.
Proof. intros HA. unfold translate, normalize_token. now rewrite low_normalize. Qed.
Lemma low_try_type cfg s trs trsf ty : asc s -> try_type E cfg (map lowerA s) trs trsf [] ty = try_type E cfg s trs trsf [] ty.
Proof. intros HA. unfold try_type. now rewrite !low_timestamp. Qed.
Lemma low_first f g (l : list Z) : (forall x, f x = g x) -> first_date f l = first_date g l.
Proof. intros H. induction l as [|x l IH]; [reflexivity|]. cbn [first_date]. rewrite H. destruct (g x) as [d| |]; cbn [rbind]; [|reflexivity..]. now rewrite IH. Qed.
Lemma low_locales cfg icfg types s lds : asc s -> try_locales E cfg icfg types (map lowerA s) [] lds = try_locales E cfg icfg types s [] lds.
Proof.
  intros HA. induction lds as [|ld lds IH]; [reflexivity|]. cbn [try_locales]. assert (try_locale E cfg icfg types (map lowerA s) [] ld = try_locale E cfg icfg types s [] ld) as ->; [|now rewrite IH].
  unfold try_locale. rewrite !low_translate by exact HA. destruct (translate E _ ld s false) as [trs| |]; cbn [rbind]; [|reflexivity..]. destruct (translate E _ ld s true) as [trsf| |]; cbn [rbind]; [|reflexivity..]. apply low_first. intros ty. now apply low_try_type.
Qed.
Lemma low_applicable det used cfg icfg s : asc s -> get_applicable E D det used cfg icfg (map lowerA s) = get_applicable E D det used cfg icfg s.
Proof. intros HA. unfold get_applicable. now rewrite low_normalize. Qed.
Lemma low_parse det p cfg s : asc s -> parse E D det p cfg (map lowerA s) [] = parse E D det p cfg s [].
Proof.
  intros HA. unfold parse. destruct (existsb _ _); [reflexivity|]. cbv zeta. destruct (negb (validate _ _)); [reflexivity|]. change (formatted_parse E ?c ?x []) with zero_date.
  destruct (low_sanitize s HA) as [ES AS]. rewrite ES. rewrite low_applicable by exact AS. destruct (get_applicable _ _ _ _ _ _ _) as [lds| |]; [|reflexivity..]. now rewrite low_locales.
Qed.
End C.

(** ** C56 *)
(** two texts that differ at most in the case of their letters A-Z, a-z *)
Definition same_letter (c c' : Z) : Prop := c = c' \/ (65 <= c <= 90 /\ c' = c + 32) \/ (97 <= c <= 122 /\ c' = c - 32).
Definition same_but_case (s s' : str) : Prop := Forall2 same_letter s s'.
Lemma same_low s s' : same_but_case s s' -> map lowerA s = map lowerA s'.
Proof.
  induction 1 as [|c c' s s' HC _ IH]; [reflexivity|]. cbn [map]. rewrite IH. f_equal. unfold lowerA, is_upperA.
  destruct HC as [-> | [[H ->] | [H ->]]]; [reflexivity| |].
  - assert ((65 <=? c) && (c <=? 90) = true) as -> by lia. assert ((65 <=? c + 32) && (c + 32 <=? 90) = false) as -> by lia. reflexivity.
  - assert ((65 <=? c) && (c <=? 90) = false) as -> by lia. assert ((65 <=? c - 32) && (c - 32 <=? 90) = true) as -> by lia. lia.
Qed.
Lemma same_asc s s' : same_but_case s s' -> asc s -> asc s'.
Proof.
  induction 1 as [|c c' s s' HC _ IH]; intros HA; [constructor|]. inversion_clear HA as [|? ? H1 H2]. constructor; [|now apply IH]. unfold same_letter in HC. lia.
Qed.
(** Parse without formats returns the same (date, period, locale, error) and
    remembers the same for the next call: every table of locales, every
    configuration, every history, every language detector *)
Theorem C56_case : forall E D det p cfg s s', uni_ascii (e_uni E) -> Forall (fun c => 0 <= c < 128) s -> same_but_case s s' ->
  parse E D det p cfg s [] = parse E D det p cfg s' [].
Proof.
  intros E D det p cfg s s' UA HA HS. pose proof (same_asc _ _ HS HA) as HA'.
  rewrite <- (low_parse E UA D det p cfg s HA), <- (low_parse E UA D det p cfg s' HA'). now rewrite (same_low _ _ HS).
Qed.
(** the hypotheses hold for an ordinary text, and the common answer is a date *)
Example C56_example : Forall (fun c => 0 <= c < 128) (lit "12 MARCH 2015 7:08 Pm") /\ same_but_case (lit "12 MARCH 2015 7:08 Pm") (lit "12 mArch 2015 7:08 pM") /\
  shows (go "" (utc_at 2016 2 28 10 0 0) CurrentPeriod 0 0 "12 MARCH 2015 7:08 Pm") 2015 3 12 19 8 0 0 PDay (lit "en").
Proof.
  split; [apply (ascb_asc (lit "12 MARCH 2015 7:08 Pm")); reflexivity|]. split; [|apply shows_by; vm_compute; reflexivity].
  assert (SL : forall s s', map lowerA s = map lowerA s' -> length s = length s' -> forallb (fun p => (fst p =? snd p) || ((65 <=? fst p) && (fst p <=? 90) && (snd p =? fst p + 32)) || ((97 <=? fst p) && (fst p <=? 122) && (snd p =? fst p - 32))) (combine s s') = true -> same_but_case s s').
  { induction s as [|c s IH]; intros [|c' s'] M L H; try discriminate; [constructor|]. cbn [map combine forallb fst snd length] in *. apply andb_true_iff in H as [H1 H2]. constructor; [unfold same_letter; lia|]. apply IH; [congruence|lia|exact H2]. }
  apply SL; vm_compute; reflexivity.
Qed.
Print Assumptions C56_case.
