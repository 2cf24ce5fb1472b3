(** Texts made of a day, the name of a month, a year, the name of a weekday and a time of day: from the text to the reading of the absolute parser *)
From Coq Require Import ZifyBool.
From Verif Require Import GoBase SMap Regex RegexFacts RegexFacts2 RegexFacts3 Civil GoTime GoTimeFacts GoTimeParse Setting Strutil Digit Utf8Facts SpaceFacts Tokenizer Timezone Env Common Absolute Language Parser ParserFacts LocaleFacts SelectFacts
  History AbsSpec AbsFacts AbsFacts2 AbsFacts3 AbsFacts4 NumericFacts NumTranslate NumParse NumLift Prop_Parser Prop_Absolute Prop_Numeric Prop_Clocktime RegexWiden TextRename TextFront TextActs TextParse TextRead.

(** ** Forms *)
Inductive piece := TheDay | TheMonth | TheYear | TheWeekday | TheClock | Text (x : string).
(** the text of a form with these parts: day, month, year, weekday, time of day *)
Definition put (td w ty wd ck : str) (p : piece) : str :=
  match p with TheDay => td | TheMonth => w | TheYear => ty | TheWeekday => wd | TheClock => ck | Text x => lit x end.
Definition fill (ps : list piece) (td w ty wd ck : str) : str := flat_map (put td w ty wd ck) ps.
(** the parts that the absolute parser should take from it *)
Definition takes (td w ty wd ck : str) (p : piece) : list action :=
  match p with TheDay => [ADigit td] | TheMonth => [ALetter w] | TheYear => [ADigit ty] | TheWeekday => [ALetter wd] | TheClock => [ATime ck] | Text _ => [] end.
Definition taken (ps : list piece) (td w ty wd ck : str) : list action := flat_map (takes td w ty wd ck) ps.
(** texts that differ in digits and case only *)
Definition like (a b : str) : Prop := map dig0 (map lowerA a) = map dig0 b.

(** ** The shape of many texts in one locale *)
Definition widened_simpl (ld : locale) : list regex := map (fun p => widened dig0 (fst p)) (ld_simpl ld).
Definition analysis_with (ws : list regex) (ld : locale) (s : str) (k : bool) : option (list str * list str) :=
  if forallb (fun r => negb (match_string uni_min r s)) ws then
    match lsplit emin ld s k [] with
    | Ok toks => if forallb (plain_token ld []) toks then
        match create_permutation [] (map (translate_token emin ld [] k) toks) with Ok ps => Some (toks, map (finish_translation k) ps) | _ => None end
      else None
    | _ => None
    end
  else None.
Definition shape_with (ws : list regex) (ld : locale) (s : str) : option (list str * str * list action) :=
  if tidy s then
    match analysis_with ws ld s false with
    | Some (toks, [t]) => match analysis_with ws ld s true with
      | Some (toks2, _) => if quiet t then if forallb (fun t => mem t always_kept) toks then None else if forallb (known_min ld) toks then Some (toks ++ toks2, t, actions emin t) else None else None
      | None => None end
    | _ => None
    end
  else None.
Lemma forallb_map_ {A B} (g : B -> bool) (h : A -> B) l : forallb g (map h l) = forallb (fun x => g (h x)) l.
Proof. induction l as [|x l IH]; [reflexivity|]. cbn [map forallb]. now rewrite IH. Qed.
Lemma shape_with_ok ld s r : shape_with (widened_simpl ld) ld s = Some r -> shape ld s = Some r.
Proof.
  unfold shape_with, shape. destruct (tidy s) eqn:T; [|discriminate]. assert (AS : ascb s = true) by (unfold tidy in T; rewrite !andb_true_iff in T; tauto).
  assert (E1 : forall k, analysis_with (widened_simpl ld) ld s k = analysis ld s k).
  { intros k. unfold analysis_with, analysis, untouched, widened_simpl. rewrite AS. rewrite forallb_map_. reflexivity. }
  rewrite !E1. destruct (analysis ld s false) as [[toks [|t [|]]]|]; try discriminate. destruct (analysis ld s true) as [[toks2 trs]|]; [|discriminate]. exact (fun x => x).
Qed.
(** words that should not be among the words to skip *)
Definition kept_words (names : list str) : list str := [] :: lit " " :: lit "," :: lit ":" :: lit "/" :: lit "'" :: lit "th" :: lit "st" :: lit "nd" :: lit "rd" :: lit "on" :: lit "am" :: lit "pm" :: names.
Definition token_ok (names : list str) (t : str) : bool := if no_digit t then if mem t (kept_words names) then mem (trim_space t) (kept_words names) else false else negb (no_digit (trim_space t)).
Definition action_eqb (a b : action) : bool := match a, b with ATime x, ATime y | ADigit x, ADigit y | ALetter x, ALetter y => eqs x y | _, _ => false end.
Fixpoint actions_eqb (a b : list action) : bool := match a, b with [], [] => true | x :: a', y :: b' => action_eqb x y && actions_eqb a' b' | _, _ => false end.
Lemma actions_eqb_eq a : forall b, actions_eqb a b = true -> a = b.
Proof.
  induction a as [|x a IH]; intros [|y b]; cbn [actions_eqb]; try discriminate; [reflexivity|]. rewrite andb_true_iff. intros [H1 H2]. apply IH in H2. subst. f_equal. destruct x, y; cbn [action_eqb] in H1; try discriminate H1; apply eqs_eq in H1; now subst.
Qed.
Definition ok_text (ws : list regex) (ld : locale) (names : list str) (s : str) (l : list action) : bool :=
  match shape_with ws ld s with Some (toks, t, acts) => if forallb (token_ok names) toks then actions_eqb acts l else false | None => false end.
Lemma ok_text_spec ld names s l : ok_text (widened_simpl ld) ld names s l = true -> exists toks t, shape ld s = Some (toks, t, l) /\ forallb (token_ok names) toks = true.
Proof.
  unfold ok_text. destruct (shape_with _ _ _) as [[[toks t] acts]|] eqn:S; [|discriminate]. destruct (forallb _ _) eqn:F; [|discriminate]. intros H. apply actions_eqb_eq in H. subst. apply shape_with_ok in S. eauto.
Qed.
Lemma tokens_spared names skip toks : forallb (token_ok names) toks = true -> (forall w, In w skip -> no_digit w = true /\ ~ In w (kept_words names)) -> spares skip toks.
Proof.
  intros HT HS. split; [apply forallb_forall; intros w Hw; now apply HS|]. intros t Ht. rewrite forallb_forall in HT. specialize (HT t Ht). unfold token_ok in HT. split; intros HI; destruct (HS _ HI) as [N K]; destruct (no_digit t) eqn:D.
  - destruct (mem t _) eqn:M; [|discriminate HT]. apply mem_In in M. contradiction.
  - congruence.
  - destruct (mem t _); [|discriminate HT]. apply mem_In in HT. contradiction.
  - rewrite N in HT. discriminate HT.
Qed.

(** ** The renaming between two texts that are alike *)
Fixpoint look (c : Z) (l : list (Z * Z)) : Z := match l with [] => c | (a, b) :: l' => if c =? a then b else look c l' end.
Definition renaming (from to : str) (c : Z) : Z := if is_digitA c then look c (combine from to) else c.
Lemma like_cons a x b y : like (a :: x) (b :: y) -> dig0 (lowerA a) = dig0 b /\ like x y.
Proof. unfold like. cbn [map]. intros H. split; congruence. Qed.
Lemma like_length a b : like a b -> length a = length b.
Proof. intros H. apply (f_equal (@length Z)) in H. now rewrite !map_length in H. Qed.
Lemma dig0_digit a b : dig0 a = dig0 b -> is_digitA b = true -> is_digitA a = true.
Proof. unfold dig0. intros H B. rewrite B in H. destruct (is_digitA a) eqn:A; [reflexivity|]. subst. discriminate A. Qed.
Lemma dig0_other a b : dig0 a = dig0 b -> is_digitA b = false -> a = b.
Proof. unfold dig0. intros H B. rewrite B in H. destruct (is_digitA a) eqn:A; [|exact H]. exfalso. subst. discriminate B. Qed.
Definition same_digits (to from : str) : Prop := map dig0 to = map dig0 from.
Lemma look_digit from : forall to c, same_digits to from -> is_digitA c = true -> is_digitA (look c (combine from to)) = true.
Proof.
  induction from as [|a from IH]; intros [|b to] c H Hc; cbn [combine look]; try exact Hc. unfold same_digits in H. cbn [map] in H. assert (H1 : dig0 b = dig0 a) by congruence. assert (H2 : same_digits to from) by (unfold same_digits; congruence).
  destruct (Z.eqb_spec c a) as [->|]; [|now apply IH]. exact (dig0_digit _ _ H1 Hc).
Qed.
Lemma renaming_renames from to : same_digits to from -> renames (renaming from to).
Proof. intros H c Hc. unfold renaming. destruct (is_digitA c) eqn:D; [now apply look_digit|reflexivity]. Qed.
Lemma renaming_map from : forall to, same_digits to from -> NoDup (filter is_digitA from) -> map (renaming from to) from = to.
Proof.
  assert (G : forall from to, same_digits to from -> NoDup (filter is_digitA from) -> forall pre, (forall c, In c (map fst pre) -> is_digitA c = true -> ~ In c from) ->
    map (fun c => if is_digitA c then look c (pre ++ combine from to) else c) from = to).
  { clear from. induction from as [|a from IH]; intros [|b to] H ND pre HP; unfold same_digits in H; cbn [map] in H; try discriminate H; [reflexivity|]. assert (H1 : dig0 b = dig0 a) by congruence. assert (H2 : same_digits to from) by (unfold same_digits; congruence). clear H. cbn [map]. f_equal.
    - destruct (is_digitA a) eqn:A; [|symmetry; now apply dig0_other]. clear - HP A. induction pre as [|[x y] pre IH]; cbn [app combine look].
      + now rewrite Z.eqb_refl.
      + destruct (Z.eqb_spec a x) as [->|]; [exfalso; apply (HP x); [now left|exact A|now left]|]. apply IH. intros c Hc. apply HP. now right.
    - assert (ND' : NoDup (filter is_digitA from)) by (cbn [filter] in ND; destruct (is_digitA a); [now inversion ND|exact ND]).
      etransitivity; [|apply (IH to H2 ND' (pre ++ [(a, b)]))].
      + apply map_ext. intros c. cbn [combine]. now rewrite <- app_assoc.
      + intros c Hc D HI. rewrite map_app in Hc. apply in_app_or in Hc as [Hc|[<-|[]]]; [apply (HP c Hc D); now right|]. cbn [fst] in D. cbn [filter] in ND. rewrite D in ND. inversion ND as [|? ? NI _]; subst. apply NI, filter_In. auto. }
  intros to H ND. exact (G from to H ND [] (fun c x _ _ => x)).
Qed.
Lemma app_split (a b c d : str) : length a = length c -> a ++ b = c ++ d -> a = c /\ b = d.
Proof. revert c; induction a as [|x a IH]; intros [|y c] L H; cbn in L; try discriminate L; [auto|]. cbn [app] in H. assert (x = y) by congruence. destruct (IH c) as [-> ->]; [lia|congruence|]. subst. auto. Qed.

Lemma map_fill g ps td w ty wd ck : (forall x, In (Text x) ps -> map g (lit x) = lit x) -> map g (fill ps td w ty wd ck) = fill ps (map g td) (map g w) (map g ty) (map g wd) (map g ck).
Proof.
  unfold fill. induction ps as [|p ps IH]; intros H; [reflexivity|]. cbn [flat_map]. rewrite map_app, IH by (intros x Hx; apply H; now right). f_equal. destruct p; cbn [put]; try reflexivity. apply H. now left.
Qed.
Lemma ract_taken f ps td w ty wd ck : map (ract f) (taken ps td w ty wd ck) = taken ps (map f td) (map f w) (map f ty) (map f wd) (map f ck).
Proof. unfold taken. induction ps as [|p ps IH]; [reflexivity|]. cbn [flat_map]. rewrite map_app, IH. f_equal. destruct p; reflexivity. Qed.
Definition lower_word (s : str) : bool := forallb (fun c => (0 <=? c) && (c <? 128) && negb (is_digitA c) && negb (is_upperA c)) s.
Definition good_form (ps : list piece) : bool := forallb (fun p => match p with Text x => lower_word (lit x) | _ => true end) ps.
Lemma lower_word_lower s : lower_word s = true -> map lowerA s = s.
Proof. induction s as [|c s IH]; [reflexivity|]. cbn [lower_word forallb]. rewrite andb_true_iff. intros [H1 H2]. cbn [map]. rewrite IH by exact H2. f_equal. unfold lowerA. destruct (is_upperA c); [lia|reflexivity]. Qed.
Lemma lower_word_fix f s : renames f -> lower_word s = true -> map f s = s.
Proof. intros RF. induction s as [|c s IH]; [reflexivity|]. cbn [lower_word forallb]. rewrite andb_true_iff. intros [H1 H2]. cbn [map]. rewrite IH by exact H2. f_equal. assert (0 <= c < 128) as Hc by lia. specialize (RF c Hc). destruct (is_digitA c); [lia|exact RF]. Qed.
Lemma asc_fill ps td w ty wd ck : asc td -> asc w -> asc ty -> asc wd -> asc ck -> good_form ps = true -> asc (fill ps td w ty wd ck).
Proof.
  intros A1 A2 A3 A4 A5. unfold fill. induction ps as [|p ps IH]; intros G; [constructor|]. cbn [good_form forallb] in G. apply andb_true_iff in G as [G1 G2]. cbn [flat_map]. apply Forall_app. split; [|now apply IH]. destruct p; cbn [put]; try assumption.
  unfold lower_word in G1. rewrite forallb_forall in G1. apply Forall_forall. intros c Hc. apply G1 in Hc. lia.
Qed.
Lemma like_asc a b : like a b -> asc b -> asc a.
Proof.
  revert b; induction a as [|x a IH]; intros [|y b] H HB; try (apply like_length in H; discriminate H); [constructor|]. apply like_cons in H as [H1 H2]. inversion HB; subst. constructor; [|now apply (IH b)].
  unfold dig0, lowerA, is_upperA, is_digitA in H1. destruct ((65 <=? x) && (x <=? 90)) eqn:U; [lia|]. destruct ((48 <=? x) && (x <=? 57)) eqn:D; [lia|]. destruct ((48 <=? y) && (y <=? 57)); lia.
Qed.

(** ** From the text to the reading *)
Definition inner_order (cfg : uconfig) (ld : locale) : str := match order_choice (u_order cfg) (ld_name ld) with Some o => o | None => ld_order ld end.
(** words to skip that are not among the words of these texts *)
Definition skips_other (cfg : uconfig) (names : list str) : Prop := forall w, In w (skipping cfg) -> no_digit w = true /\ ~ In w (kept_words names).

Section L.
Variables (E : env) (D : langdb) (det : option (str -> list str)) (p : pstate) (cfg : uconfig) (ld : locale) (names : list str).
Variables (ps : list piece) (td w ty wd ck td0 w0 ty0 wd0 ck0 W WD : str).
Notation s := (fill ps td w ty wd ck).
Notation s0 := (fill ps td0 w0 ty0 wd0 ck0).
Notation lcfg := (inner E cfg ld).
Hypothesis PC : plain_call E D det p cfg s ld.
Hypothesis BL : blind ld = true.
Hypothesis SK : skips_other cfg names.
Hypothesis OK : ok_text (widened_simpl ld) ld names s0 (taken ps td0 W ty0 WD ck0) = true.
Hypothesis GF : good_form ps = true.
Hypothesis N1 : lower_word w0 = true. Hypothesis N2 : lower_word wd0 = true. Hypothesis N3 : lower_word W = true. Hypothesis N4 : lower_word WD = true.
Hypothesis L1 : like td td0. Hypothesis L2 : map lowerA w = w0. Hypothesis L3 : like ty ty0. Hypothesis L4 : map lowerA wd = wd0. Hypothesis L5 : like ck ck0.
Hypothesis A0 : ascb (td0 ++ ty0 ++ ck0) = true.
Hypothesis ND : NoDup (filter is_digitA (td0 ++ ty0 ++ ck0)).
Lemma lowered_asc x y : map lowerA x = y -> lower_word y = true -> asc x.
Proof.
  intros <- HL. unfold lower_word in HL. rewrite forallb_forall in HL. apply Forall_forall. intros c Hc. specialize (HL (lowerA c) (in_map lowerA x c Hc)). unfold lowerA, is_upperA in HL. destruct ((65 <=? c) && (c <=? 90)) eqn:U; lia.
Qed.
Theorem text_reading_dirs order R : number_directives E (inner_order cfg ld) = dirs_of order ->
  (exists tm, ends E (greg_hooks E) (taken ps (map lowerA td) W (map lowerA ty) WD (map lowerA ck)) order (r_day R) (r_month R) (r_year R) (r_weekday R) tm /\
     match tm with None => r_clock R = None | Some t => exists t' p', parse_time E t = Some (t', p') /\ r_clock R = Some (hour t', minute t', second t', nanosecond t', p') end) ->
  exists x, reads E lcfg x R /\ forall d0, absolute_parse E lcfg x od_zero = Ok d0 -> date_is_zero (apply_timezone lcfg d0 od_zero) = false ->
    snd (parse E D det p cfg s []) = Ok (with_locale (apply_timezone lcfg d0 od_zero) (ld_name ld), None).
Proof.
  intros HOr (tm & (a & HRun & K1 & K2 & K3 & K4 & K5 & K6) & HTM).
  pose proof (pc_ascii _ _ _ _ _ _ _ PC) as UA. destruct (ok_text_spec _ _ _ _ OK) as (toks & t0 & SH & TK).
  set (from := td0 ++ ty0 ++ ck0) in *. set (to := map lowerA td ++ map lowerA ty ++ map lowerA ck).
  assert (SD : same_digits to from) by (unfold same_digits, to, from, like in *; rewrite !map_app, L1, L3, L5; reflexivity).
  pose proof (renaming_renames from to SD) as RF. pose proof (renaming_map from to SD ND) as RM. set (f := renaming from to) in *.
  assert (M3 : map f td0 = map lowerA td /\ map f ty0 = map lowerA ty /\ map f ck0 = map lowerA ck).
  { unfold from, to in RM. rewrite !map_app in RM. apply app_split in RM as [M1 RM]; [|rewrite !map_length; symmetry; now apply like_length]. apply app_split in RM as [M2 M4]; [auto|]. rewrite !map_length. symmetry. now apply like_length. }
  destruct M3 as (M1 & M2 & M4). unfold good_form in GF. rewrite forallb_forall in GF.
  assert (EM : map lowerA s = map f s0).
  { rewrite !map_fill.
    - rewrite M1, M2, M4, L2, L4, (lower_word_fix f w0 RF N1), (lower_word_fix f wd0 RF N2). reflexivity.
    - intros x Hx. apply lower_word_fix; [exact RF|]. exact (GF _ Hx).
    - intros x Hx. apply lower_word_lower. exact (GF _ Hx). }
  apply ascb_asc in A0. unfold from in A0. apply Forall_app in A0 as [A1 A2]. apply Forall_app in A2 as [A2 A3].
  assert (AS : asc s).
  { apply asc_fill; [now apply (like_asc td td0)|now apply (lowered_asc w w0)|now apply (like_asc ty ty0)|now apply (lowered_asc wd wd0)|now apply (like_asc ck ck0)|]. unfold good_form. now rewrite forallb_forall. }
  exists (map f t0). destruct (shape_facts cfg ld s0 t0 toks _ SH (tokens_spared names (skipping cfg) toks TK SK)) as (_ & QT & EL & _). split.
  - assert (HR : run_acts E (greg_hooks E) (number_directives E (c_order lcfg)) (map (ract f) (actions emin t0)) ast0 = Some a).
    { rewrite <- EL, ract_taken, M1, M2, M4, (lower_word_fix f W RF N3), (lower_word_fix f WD RF N4).
      assert (c_order lcfg = inner_order cfg ld) as ->; [|now rewrite HOr]. unfold inner. cbn [with_order c_order]. rewrite (C10_date_order_validated E _ _ UA). reflexivity. }
    destruct (ren_init f RF E UA t0 QT (greg_hooks E) lcfg a HR) as (k & HI). exists (skips k (fallback a)). split; [exact HI|]. cbn [skips a_vals a_toks a_time]. rewrite K1, K2, K3, K4, K5.
    split; [reflexivity|]. split; [reflexivity|]. split; [reflexivity|]. split; [reflexivity|]. split; [reflexivity|]. destruct (a_time (fallback a)) as [tk|]; cbn [option_map] in K6; subst tm; exact HTM.
  - intros d0 HP HZ. exact (text_parse E D det p cfg ld f RF s0 s t0 toks _ PC BL SH AS EM (tokens_spared names (skipping cfg) toks TK SK) d0 HP HZ).
Qed.
Theorem text_reading order R : inner_order cfg ld = lit order -> In order orders ->
  (exists tm, ends E (greg_hooks E) (taken ps (map lowerA td) W (map lowerA ty) WD (map lowerA ck)) order (r_day R) (r_month R) (r_year R) (r_weekday R) tm /\
     match tm with None => r_clock R = None | Some t => exists t' p', parse_time E t = Some (t', p') /\ r_clock R = Some (hour t', minute t', second t', nanosecond t', p') end) ->
  exists x, reads E lcfg x R /\ forall d0, absolute_parse E lcfg x od_zero = Ok d0 -> date_is_zero (apply_timezone lcfg d0 od_zero) = false ->
    snd (parse E D det p cfg s []) = Ok (with_locale (apply_timezone lcfg d0 od_zero) (ld_name ld), None).
Proof. intros HOr HIn. apply text_reading_dirs. rewrite HOr. now apply number_directives_lit. Qed.
End L.
