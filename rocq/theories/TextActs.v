(** The absolute parser seen as a list of actions: which parts of a text it takes as a time, a number or a name. The actions of a text without
    periods depend on its digits only by copying them. *)
From Coq Require Import ZifyBool.
From Verif Require Import GoBase SMap Regex RegexFacts RegexFacts2 RegexFacts3 GoTime Setting Strutil Digit Utf8Facts SpaceFacts Tokenizer Timezone Env Common Absolute AbsFacts2 NumericFacts NumTranslate NumParse RegexWiden TextRename TextFront.

Inductive action := ATime (t : str) | ADigit (t : str) | ALetter (t : str).
Section A.
Variable E : env.
Fixpoint acts (toks : list token) (fts : list ftoken) (index : nat) (rest : list ftoken) (skip : list nat) : list action :=
  match rest with
  | [] => []
  | ft :: rest' =>
    if existsb (Nat.eqb index) skip then acts toks fts (S index) rest' skip
    else if skipped_token (tk_text (fst ft)) then acts toks fts (S index) rest' skip
    else
      let tr := try_time E toks fts index ft in
      let more := acts toks fts (S index) rest' (tt_skip tr ++ skip) in
      match tt_text tr with
      | Some t => ATime t :: more
      | None => match tk_type (fst ft) with TDigit => ADigit (tt_ftext tr) :: more | TLetter => ALetter (tt_ftext tr) :: more | _ => more end
      end
  end.
Definition actions (s : str) : list action := let toks := trimmed_tokens s in acts toks (filtered toks) 0 (filtered toks) [].

Variable H : hooks.
Definition act (order : list (comp * list string)) (x : action) (a : ast) : option ast :=
  match x with
  | ATime t => Some (set_time a t)
  | ADigit t => match digit_token H a t order with None => None | Some (a, rs) => Some (fold_left (save_result t) rs a) end
  | ALetter t => match letter_token H a t (alpha_directives E) with None => None | Some (a, rs) => Some (fold_left (save_result t) rs a) end
  end.
Fixpoint run_acts (order : list (comp * list string)) (l : list action) (a : ast) : option ast :=
  match l with [] => Some a | x :: l' => match act order x a with None => None | Some a' => run_acts order l' a' end end.

(** the skipped indexes play no other part *)
Definition skips (k : list nat) (a : ast) : ast :=
  {| a_vals := a_vals a; a_toks := a_toks a; a_time := a_time a; a_order := a_order a; a_unset := a_unset a; a_skipyear := a_skipyear a; a_skipidx := k |}.
Definition skips2 (k : list nat) (p : ast * results) : ast * results := (skips k (fst p), snd p).
Lemma digit_directives_skips k c text : forall ds a, digit_directives H (skips k a) c text ds = option_map (skips2 k) (digit_directives H a c text ds).
Proof.
  induction ds as [|d ds IH]; intros a; [reflexivity|]. cbn [digit_directives skips a_vals a_toks]. destruct (h_value H c text d); [|apply IH]. destruct (_ =? 0); [reflexivity|]. destruct (ttype_eqb _ _); [|apply IH]. destruct (h_value H c _ d); [apply IH|reflexivity].
Qed.
Lemma digit_token_skips k text : forall dirs a, digit_token H (skips k a) text dirs = option_map (skips2 k) (digit_token H a text dirs).
Proof.
  induction dirs as [|[c ds] dirs IH]; intros a; [reflexivity|]. cbn [digit_token skips a_skipyear]. destruct (_ && _); [apply IH|]. rewrite digit_directives_skips. destruct (digit_directives H a c text ds); [reflexivity|apply IH].
Qed.
Lemma letter_directives_skips k c text : forall ds a, letter_directives H (skips k a) c text ds = option_map (skips2 k) (letter_directives H a c text ds).
Proof.
  induction ds as [|d ds IH]; intros a; [reflexivity|]. cbn [letter_directives skips a_vals a_toks a_order]. destruct (h_value H c text d); [|apply IH]. destruct (_ =? 0); [reflexivity|]. destruct (comp_eqb c CMonth); [|apply IH]. destruct (replace_first_month _); [reflexivity|apply IH].
Qed.
Lemma letter_token_skips k text : forall dirs a, letter_token H (skips k a) text dirs = option_map (skips2 k) (letter_token H a text dirs).
Proof.
  induction dirs as [|[c ds] dirs IH]; intros a; [reflexivity|]. cbn [letter_token]. rewrite letter_directives_skips. destruct (letter_directives H a c text ds); [reflexivity|apply IH].
Qed.
Lemma save_skips k text rs : forall a, fold_left (save_result text) rs (skips k a) = skips k (fold_left (save_result text) rs a).
Proof. induction rs as [|r rs IH]; intros a; [reflexivity|]. cbn [fold_left]. rewrite <- IH. reflexivity. Qed.
Lemma act_skips order x k a : act order x (skips k a) = option_map (skips k) (act order x a).
Proof.
  destruct x as [t|t|t]; cbn [act].
  - reflexivity.
  - rewrite digit_token_skips. destruct (digit_token H a t order) as [[a' rs]|]; [|reflexivity]. cbn [option_map skips2 fst snd]. now rewrite save_skips.
  - rewrite letter_token_skips. destruct (letter_token H a t _) as [[a' rs]|]; [|reflexivity]. cbn [option_map skips2 fst snd]. now rewrite save_skips.
Qed.
Lemma skips_self a : skips (a_skipidx a) a = a. Proof. now destruct a. Qed.
Lemma skips_skips j k a : skips j (skips k a) = skips j a. Proof. reflexivity. Qed.
Lemma act_keeps order x a a' : act order x a = Some a' -> a_skipidx a' = a_skipidx a.
Proof.
  intros HA. pose proof (act_skips order x (a_skipidx a) a) as S. rewrite skips_self, HA in S. cbn [option_map] in S. assert (a' = skips (a_skipidx a) a') by congruence. rewrite H0. reflexivity.
Qed.
Lemma loop_acts order toks fts : forall rest index a, Forall (fun ft => tk_type (fst ft) = TDigit \/ tk_type (fst ft) = TLetter) rest ->
  match run_acts order (acts toks fts index rest (a_skipidx a)) a with
  | None => init_loop E H order toks fts index rest a = None
  | Some a' => exists k, init_loop E H order toks fts index rest a = Some (skips k a')
  end.
Proof.
  induction rest as [|ft rest IH]; intros index a HT; cbn [acts init_loop run_acts].
  - exists (a_skipidx a). now rewrite skips_self.
  - inversion HT as [|? ? T1 T2]; subst. unfold init_step. destruct (existsb (Nat.eqb index) (a_skipidx a)); [now apply IH|]. destruct (skipped_token (tk_text (fst ft))); [now apply IH|]. cbv zeta.
    set (tr := try_time E toks fts index ft). set (k := tt_skip tr ++ a_skipidx a). change (add_skip a (tt_skip tr)) with (skips k a).
    assert (G : forall x o, o = act order x (skips k a) -> match run_acts order (x :: acts toks fts (S index) rest k) a with
      | None => match o with None => None | Some a' => init_loop E H order toks fts (S index) rest a' end = None
      | Some a'0 => exists j, match o with None => None | Some a' => init_loop E H order toks fts (S index) rest a' end = Some (skips j a'0) end).
    { intros x o ->. cbn [run_acts]. rewrite act_skips. destruct (act order x a) as [a1|] eqn:A1; cbn [option_map]; [|reflexivity]. specialize (IH (S index) (skips k a1) T2). cbn [a_skipidx skips] in IH.
      assert (R : forall l b j, run_acts order l (skips j b) = option_map (skips j) (run_acts order l b)).
      { clear. induction l as [|y l IHl]; intros b j; [reflexivity|]. cbn [run_acts]. rewrite act_skips. destruct (act order y b) as [c|]; cbn [option_map]; [apply IHl|reflexivity]. }
      rewrite R in IH. destruct (run_acts order (acts toks fts (S index) rest k) a1) as [a2|]; cbn [option_map] in IH; [|exact IH]. destruct IH as (j & ->). exists j. reflexivity. }
    destruct (tt_text tr) as [t|].
    + exact (G (ATime t) _ eq_refl).
    + destruct T1 as [T1|T1]; rewrite T1.
      * exact (G (ADigit (tt_ftext tr)) _ eq_refl).
      * exact (G (ALetter (tt_ftext tr)) _ eq_refl).
Qed.
Lemma tok_types : forall cs prev text, (forall t, In t (tok_loop prev text cs) -> tk_type t <> TNull).
Proof.
  assert (C : forall x y, fst (compare_chars x y) <> TNull) by (intros x y; unfold compare_chars; destruct (is_tdigit x); [discriminate|]; destruct (is_tletter x); discriminate).
  induction cs as [|c cs IH]; intros prev text t; cbn [tok_loop].
  - intros [<-|[]]. apply C.
  - pose proof (C prev c) as CC. destruct (compare_chars prev c) as [ty b]. cbn [fst] in CC. destruct b; [intros [<-|HI]; [exact CC|]|intros HI]; eapply IH; exact HI.
Qed.
Lemma filtered_types s : Forall (fun ft => tk_type (fst ft) = TDigit \/ tk_type (fst ft) = TLetter) (filtered (trimmed_tokens s)).
Proof.
  apply Forall_forall. intros [t i] HI. unfold filtered in HI. apply filter_In in HI as [HI HT]. apply in_combine_l in HI. unfold trimmed_tokens in HI. apply in_map_iff in HI as (u & <- & HU). cbn [fst tk_type] in *.
  assert (tk_type u <> TNull).
  { unfold tokenize in HU. destruct (runes s) as [|c [|c2 cs]]; [destruct HU| |eapply tok_types; exact HU]. destruct HU as [<-|[]]. cbn [tk_type]. unfold compare_chars. destruct (is_tdigit c); [discriminate|]. destruct (is_tletter c); discriminate. }
  destruct (tk_type u); congruence || auto.
Qed.
Lemma fallback_skips k a : fallback (skips k a) = skips k (fallback a).
Proof.
  assert (F1 : forall c a, fallback1 (skips k a) c = skips k (fallback1 a c)).
  { clear. intros c a. unfold fallback1. change (a_vals (skips k a)) with (a_vals a). destruct (chas (a_vals a) c); [reflexivity|]. change (a_unset (skips k a)) with (a_unset a). generalize (a_unset a) as l. intros l. revert a. induction l as [|u l IH]; intros a; [reflexivity|]. cbn [fold_left]. rewrite <- IH. destruct (ttype_eqb (tk_type u) TDigit); reflexivity. }
  unfold fallback. cbn [fold_left]. now rewrite !F1.
Qed.
(** what the absolute parser makes of a tidy text *)
Theorem init_acts cfg s a : asc s -> spaced s = true -> run_acts (number_directives E (c_order cfg)) (actions s) ast0 = Some a -> exists k, abs_init E H cfg s = Some (skips k (fallback a)).
Proof.
  intros HA HS HR. unfold abs_init. rewrite spaced_sanitize by assumption. destruct s as [|c s]; [discriminate HS|]. set (t := c :: s) in *. pose proof (loop_acts (number_directives E (c_order cfg)) (trimmed_tokens t) (filtered (trimmed_tokens t)) (filtered (trimmed_tokens t)) 0 ast0 (filtered_types t)) as L.
  cbn [a_skipidx ast0] in L. unfold actions in HR. cbv zeta in HR. change ([] : list nat) with (a_skipidx ast0) in HR. cbn [a_skipidx ast0] in HR. rewrite HR in L. destruct L as (k & ->). exists k. cbn [option_map]. now rewrite fallback_skips.
Qed.
End A.

(** ** Renaming digits *)
Section R.
Variable f : Z -> Z.
Hypothesis RF : renames f.
Variable E : env.
Hypothesis UA : uni_ascii (e_uni E).
Notation U := (e_uni E).
Definition rtok (t : token) : token := {| tk_text := map f (tk_text t); tk_type := tk_type t |}.
Definition ract (x : action) : action := match x with ATime t => ATime (map f t) | ADigit t => ADigit (map f t) | ALetter t => ALetter (map f t) end.
Lemma ren_alpha c : 0 <= c < 128 -> is_alphaA (f c) = is_alphaA c.
Proof.
  intros Hc. specialize (RF c Hc). destruct (is_digitA c) eqn:D; [|now rewrite RF]. unfold is_digitA in *. unfold is_alphaA, is_upperA, is_lowerA. lia.
Qed.
Lemma ren_tdigit c : 0 <= c < 128 -> is_tdigit (f c) = is_tdigit c.
Proof. intros Hc. unfold is_tdigit. rewrite (ren_digit f RF c Hc). now rewrite (ren_eqb f RF c 58 Hc eq_refl). Qed.
Lemma ren_compare a b : 0 <= a < 128 -> 0 <= b < 128 -> compare_chars (f a) (f b) = compare_chars a b.
Proof. intros Ha Hb. unfold compare_chars, is_tletter. now rewrite !ren_tdigit, !ren_alpha. Qed.
Lemma ren_compare0 a : 0 <= a < 128 -> fst (compare_chars (f a) 0) = fst (compare_chars a 0).
Proof. intros Ha. unfold compare_chars, is_tletter. rewrite ren_tdigit, ren_alpha by exact Ha. now destruct (is_tdigit a), (is_alphaA a). Qed.
Lemma ren_tok_loop : forall cs prev text, asc cs -> 0 <= prev < 128 -> asc text -> text <> [] -> tok_loop (f prev) (map f text) (map f cs) = map rtok (tok_loop prev text cs).
Proof.
  induction cs as [|c cs IH]; intros prev text HC HP HT NT; cbn [map tok_loop].
  - unfold rtok. cbn [tk_text tk_type]. rewrite <- map_rev, !encode_asc by (try apply ren_asc; try apply asc_rev; assumption). f_equal. f_equal. rewrite last_map by exact NT. apply ren_compare0. unfold asc in HT. rewrite Forall_forall in HT. apply HT. now apply last_in.
  - inversion HC; subst. rewrite ren_compare by assumption. destruct (compare_chars prev c) as [ty b]. destruct b.
    + cbn [map]. f_equal.
      * unfold rtok. cbn [tk_text tk_type]. rewrite <- map_rev, !encode_asc by (try apply ren_asc; try apply asc_rev; assumption). reflexivity.
      * apply (IH c [c]); auto; [constructor; auto|discriminate].
    + apply (IH c (c :: text)); auto; [constructor; auto|discriminate].
Qed.
Lemma tok_loop_asc : forall cs prev text, asc cs -> asc text -> forall t, In t (tok_loop prev text cs) -> asc (tk_text t).
Proof.
  induction cs as [|c cs IH]; intros prev text HC HT t; cbn [tok_loop].
  - intros [<-|[]]. cbn [tk_text]. rewrite encode_asc; now apply asc_rev.
  - inversion HC; subst. destruct (compare_chars prev c) as [ty b]. destruct b; [intros [<-|HI]|intros HI].
    + cbn [tk_text]. rewrite encode_asc; now apply asc_rev.
    + apply (IH c [c]); auto. constructor; auto.
    + apply (IH c (c :: text)); auto. constructor; auto.
Qed.
Lemma ren_tokenize s : asc s -> tokenize (map f s) = map rtok (tokenize s).
Proof.
  intros HS. unfold tokenize. rewrite !runes_asc by (try apply ren_asc; assumption). destruct HS as [|c s Hc HS]; [reflexivity|]. destruct s as [|d s]; cbn [map].
  - f_equal. unfold rtok. cbn [tk_text tk_type map]. f_equal. now apply ren_compare0.
  - apply (ren_tok_loop (d :: s) c [c]); auto; [constructor; [exact Hc|constructor]|discriminate].
Qed.
Lemma tokenize_asc s : asc s -> forall t, In t (tokenize s) -> asc (tk_text t).
Proof.
  intros HS t HI. unfold tokenize in HI. rewrite runes_asc in HI by exact HS. destruct HS as [|c s Hc HS]; [destruct HI|]. destruct s as [|d s].
  - destruct HI as [<-|[]]. constructor; [exact Hc|constructor].
  - eapply (tok_loop_asc (d :: s) c [c]); eauto. constructor; [exact Hc|constructor].
Qed.
Lemma ren_trimmed s : asc s -> trimmed_tokens (map f s) = map rtok (trimmed_tokens s).
Proof.
  intros HS. unfold trimmed_tokens. rewrite ren_tokenize by exact HS. rewrite !map_map. apply map_ext_in. intros t HI. unfold rtok. cbn [tk_text tk_type]. f_equal. apply ren_trim; [exact RF|]. now apply (tokenize_asc s).
Qed.
Lemma trimmed_asc s : asc s -> forall t, In t (trimmed_tokens s) -> asc (tk_text t).
Proof. intros HS t HI. unfold trimmed_tokens in HI. apply in_map_iff in HI as (u & <- & HU). cbn [tk_text]. apply trim_is_asc. now apply (tokenize_asc s). Qed.
Definition rft (p : ftoken) : ftoken := (rtok (fst p), snd p).
Lemma combine_map {A B C} (g : A -> B) (l : list A) (m : list C) : combine (map g l) m = map (fun p => (g (fst p), snd p)) (combine l m).
Proof. revert m. induction l as [|x l IH]; intros [|y m]; cbn [map combine]; [reflexivity..|]. now rewrite IH. Qed.
Lemma ren_filtered l : filtered (map rtok l) = map rft (filtered l).
Proof. unfold filtered. rewrite map_length, combine_map. apply filter_map_in. intros [t i] _. reflexivity. Qed.

(** without periods *)
Definition no_dots (toks : list token) : Prop := forall t, In t toks -> asc (tk_text t) /\ ~ In 46 (tk_text t).
Lemma no_dot_contains s : asc s -> ~ In 46 s -> contains s (lit ".") = false.
Proof.
  intros HS HN. unfold contains. destruct (index s (lit ".")) as [n|] eqn:X; [|reflexivity]. exfalso. apply HN. revert n X. clear HS HN. induction s as [|c s IH]; intros n; cbn [index]; change (lit ".") with [46].
  - discriminate.
  - cbn [has_prefix]. rewrite andb_true_r. destruct (46 =? c) eqn:C; [apply Z.eqb_eq in C; subst; now left|]. change [46] with (lit "."). destruct (index s (lit ".")) as [k|]; [|discriminate]. intros _. right. now apply (IH k).
Qed.
Lemma nth_text_in toks i : nth_text toks i = [] \/ exists t, In t toks /\ tk_text t = nth_text toks i.
Proof. unfold nth_text. destruct (nth_error toks i) as [t|] eqn:N; [right; exists t; split; [now apply nth_error_In in N|reflexivity]|now left]. Qed.
Lemma no_dot_micro toks fts i text : no_dots toks -> micro_part E toks fts i text = [].
Proof.
  intros HN. unfold micro_part. destruct (nth_error fts (S i)) as [[nt j]|]; [|reflexivity]. cbv zeta. set (x := match first_digit_index toks text with Some k => nth_text toks (S k) | None => [] end).
  assert (contains x (lit ".") = false) as ->; [|now rewrite andb_false_r]. unfold x. destruct (first_digit_index toks text) as [k|]; [|reflexivity]. destruct (nth_text_in toks (S k)) as [-> | (t & HI & <-)]; [reflexivity|]. destruct (HN t HI). now apply no_dot_contains.
Qed.
Lemma no_dot_dotted toks fts i ft : no_dots toks -> dotted_time E toks fts i ft = None.
Proof.
  intros HN. unfold dotted_time. destruct (nth_error fts (S i)) as [[nt j]|]; [|reflexivity]. unfold is_before_period. destruct (eqs (nth_text toks (S (snd ft))) period_txt) eqn:EQ; [|reflexivity]. exfalso. apply eqs_eq in EQ.
  destruct (nth_text_in toks (S (snd ft))) as [X | (t & HI & X)]; rewrite EQ in X; [discriminate X|]. destruct (HN t HI) as [_ N]. apply N. rewrite X. now left.
Qed.
Lemma try_no_dot toks fts i ft : no_dots toks -> try_time E toks fts i ft =
  let text := tk_text (fst ft) in
  let meridian := match nth_error fts (S i) with Some (mt, _) => find_string U rxMeridian (tk_text mt) | None => [] end in
  {| tt_text := if empty meridian then if contains text (lit ":") then Some text else None else Some (text ++ lit " " ++ meridian);
     tt_ftext := text; tt_skip := if empty meridian then [] else [S i] |}.
Proof.
  intros HN. unfold try_time. rewrite no_dot_dotted by exact HN. cbv iota beta zeta. rewrite no_dot_micro by exact HN. cbn [empty negb]. set (m := match nth_error fts (S i) with Some (mt, _) => _ | None => _ end). destruct (empty m) eqn:EM; cbn [negb andb]; rewrite ?orb_false_r, ?orb_true_r; cbn [orb].
  - destruct (contains _ _); reflexivity.
  - reflexivity.
Qed.
Lemma ren_contains s w : no_digit w = true -> asc s -> contains (map f s) w = contains s w.
Proof. intros HW HS. unfold contains. now rewrite (ren_index f RF). Qed.
Lemma meridian_ok : respects dig0 (rx_ast rxMeridian) = true. Proof. vm_compute. reflexivity. Qed.
Lemma ren_find_string r s : respects dig0 (rx_ast r) = true -> asc s -> find_string U r (map f s) = map f (find_string uni_min r s).
Proof. intros HR HS. unfold find_string. rewrite (ren_find f RF E UA r s HR HS). destruct (Regex.find uni_min r s); [apply ren_slice|reflexivity]. Qed.
End R.

Section R2.
Variable f : Z -> Z.
Hypothesis RF : renames f.
Variable E : env.
Hypothesis UA : uni_ascii (e_uni E).
Variable toks : list token.
Hypothesis ND : no_dots toks.
Notation rtk := (map (rtok f)). Notation rfs := (map (rft f)).
Lemma ren_no_dots : no_dots (rtk toks).
Proof.
  intros t HI. apply in_map_iff in HI as (u & <- & HU). destruct (ND u HU) as [A N]. cbn [rtok tk_text]. split; [now apply ren_asc|]. intros X. apply in_map_iff in X as (c & HC & HI2). apply N.
  assert (c = 46); [|now subst]. unfold asc in A. rewrite Forall_forall in A. specialize (A c HI2). assert (X : f c =? 46 = true) by lia. rewrite (ren_eqb f RF c 46 A eq_refl) in X. lia.
Qed.
Lemma ren_skipped t : asc t -> skipped_token (map f t) = skipped_token t.
Proof. intros HT. unfold skipped_token. now rewrite (ren_mem f RF). Qed.
Variable fts : list ftoken.
Hypothesis FT : forall p, In p fts -> asc (tk_text (fst p)).
Lemma ren_try i ft : In ft fts -> try_time E (rtk toks) (rfs fts) i (rft f ft) =
  let tr := try_time emin toks fts i ft in {| tt_text := option_map (map f) (tt_text tr); tt_ftext := map f (tt_ftext tr); tt_skip := tt_skip tr |}.
Proof.
  intros HI. rewrite (try_no_dot E (rtk toks)) by apply ren_no_dots. rewrite (try_no_dot emin toks) by exact ND. cbv zeta. cbn [tt_text tt_ftext tt_skip rft fst rtok tk_text].
  assert (M : match nth_error (rfs fts) (S i) with Some (mt, _) => find_string (e_uni E) rxMeridian (tk_text mt) | None => [] end = map f (match nth_error fts (S i) with Some (mt, _) => find_string (e_uni emin) rxMeridian (tk_text mt) | None => [] end)).
  { destruct (nth_error fts (S i)) as [[mt j]|] eqn:N.
    - rewrite (map_nth_error (rft f) (S i) fts N). cbn [rft fst rtok tk_text]. apply nth_error_In in N. apply (ren_find_string f RF E UA rxMeridian (tk_text mt) meridian_ok). exact (FT _ N).
    - apply nth_error_None in N. rewrite (proj2 (nth_error_None (rfs fts) (S i))) by (rewrite map_length; exact N). reflexivity. }
  rewrite M. set (me := match nth_error fts (S i) with Some (mt, _) => _ | None => _ end). rewrite ren_empty. f_equal.
  destruct (empty me).
  - rewrite (ren_contains f RF) by (reflexivity || exact (FT _ HI)). now destruct (contains _ _).
  - cbn [option_map]. rewrite !map_app. f_equal. f_equal. f_equal. symmetry. apply (ren_none f RF); [apply ascb_asc; reflexivity|reflexivity].
Qed.
Lemma ren_acts : forall rest i skip, incl rest fts -> acts E (rtk toks) (rfs fts) i (rfs rest) skip = map (ract f) (acts emin toks fts i rest skip).
Proof.
  induction rest as [|ft rest IH]; intros i skip HI; [reflexivity|]. cbn [map acts]. assert (H1 : In ft fts) by (apply HI; now left). assert (H2 : incl rest fts) by (intros x Hx; apply HI; now right).
  destruct (existsb (Nat.eqb i) skip); [now apply IH|]. cbn [rft fst rtok tk_text]. rewrite ren_skipped by (now apply FT). destruct (skipped_token (tk_text (fst ft))); [now apply IH|].
  change (rtok f (fst ft), snd ft) with (rft f ft). rewrite ren_try by exact H1. cbv zeta. cbn [tt_text tt_ftext tt_skip tk_type]. set (tr := try_time emin toks fts i ft). rewrite IH by exact H2.
  destruct (tt_text tr) as [t|]; cbn [option_map map ract]; [reflexivity|]. change (tk_type (rtok f (fst ft))) with (tk_type (fst ft)). destruct (tk_type (fst ft)); reflexivity.
Qed.
End R2.
Definition dotless (s : str) : bool := forallb (fun c => negb (c =? 46)) s.
Lemma in_sub_trim s c : asc s -> In c (trim_space s) -> In c s.
Proof.
  intros HS. rewrite trim_asc by exact HS. assert (D : forall l, In c (drop_while is_space l) -> In c l) by (induction l as [|x l IH]; cbn [drop_while]; [auto|]; destruct (is_space x); [right; auto|auto]).
  intros H. apply in_rev in H. apply D in H. apply in_rev in H. now apply D in H.
Qed.
Lemma tok_loop_chars : forall cs prev text, asc cs -> asc text -> forall t, In t (tok_loop prev text cs) -> forall c, In c (tk_text t) -> In c text \/ In c cs.
Proof.
  induction cs as [|d cs IH]; intros prev text HC HT t; cbn [tok_loop].
  - intros [<-|[]] c. cbn [tk_text]. rewrite encode_asc by (now apply asc_rev). intros H. apply in_rev in H. now left.
  - inversion HC; subst. destruct (compare_chars prev d) as [ty b]. destruct b; [intros [<-|HI]|intros HI]; intros c Hc.
    + cbn [tk_text] in Hc. rewrite encode_asc in Hc by (now apply asc_rev). apply in_rev in Hc. now left.
    + destruct (IH d [d] H2 ltac:(constructor; auto) t HI c Hc) as [[<-|[]]|X]; right; [now left|now right].
    + destruct (IH d (d :: text) H2 ltac:(constructor; auto) t HI c Hc) as [[<-|X]|X]; [right; now left|now left|right; now right].
Qed.
Lemma dotless_tokens s : asc s -> dotless s = true -> no_dots (trimmed_tokens s).
Proof.
  intros HS HD t HI. split; [now apply (trimmed_asc s)|]. intros X. unfold trimmed_tokens in HI. apply in_map_iff in HI as (u & <- & HU). cbn [tk_text] in X. pose proof (tokenize_asc s HS u HU) as AU. apply in_sub_trim in X; [|exact AU].
  assert (I46 : In 46 s).
  { unfold tokenize in HU. rewrite runes_asc in HU by exact HS. destruct HS as [|c s Hc HS]; [destruct HU|]. destruct s as [|d s].
    - destruct HU as [<-|[]]. exact X.
    - destruct (tok_loop_chars (d :: s) c [c] HS ltac:(constructor; [exact Hc|constructor]) u HU 46 X) as [[<-|[]]|Y]; [now left|now right]. }
  unfold dotless in HD. rewrite forallb_forall in HD. apply HD in I46. discriminate I46.
Qed.
Theorem ren_actions f (RF : renames f) E (UA : uni_ascii (e_uni E)) s : asc s -> dotless s = true -> actions E (map f s) = map (ract f) (actions emin s).
Proof.
  intros HS HD. unfold actions. cbv zeta. rewrite (ren_trimmed f RF s HS), ren_filtered. apply (ren_acts f RF E UA).
  - now apply dotless_tokens.
  - intros [t i] HI. unfold filtered in HI. apply filter_In in HI as [HI _]. apply in_combine_l in HI. now apply (trimmed_asc s).
  - intros x Hx. exact Hx.
Qed.
