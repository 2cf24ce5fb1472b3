(** Jalali dates with a month in Persian words: what is known of the text before the absolute parser sees it, and what that makes of it *)
From Coq Require Import ZifyBool.
From Verif Require Import GoBase SMap Regex RegexFacts RegexFacts2 RegexFacts3 Civil GoTime GoTimeFacts Setting Strutil Digit Utf8Facts SpaceFacts Tokenizer Timezone Env Common Absolute JalaliData Calendars Language Parser
  AbsFacts AbsFacts2 NumericFacts NumTranslate NumParse RegexWiden TextRename TextFront TextActs TextParse TextForms Prop_Text ScriptDigits Prop_Calendar.

(** ** Specification *)
(** the months of the Jalali calendar and how they are written in Persian *)
Definition jalali_months : list (Z * list string) :=
  [(1, ["فروردین"]); (2, ["اردیبهشت"]); (3, ["خرداد"]); (4, ["تیر"]); (5, ["مرداد"; "امرداد"]); (6, ["شهریور"; "شهريور"]);
   (7, ["مهر"]); (8, ["آبان"; "ابان"]); (9, ["آذر"; "اذر"]); (10, ["دی"]); (11, ["بهمن"; "بهن"]); (12, ["اسفند"])]%string.
(** the days of the week in Persian *)
Definition persian_weekdays : list string :=
  ["شنبه"; "روز شنبه"; "یکشنبه"; "دوشنبه"; "سه شنبه"; "سهشنبه"; "چهارشنبه"; "چهار شنبه"; "پنجشنبه"; "پنج شنبه"; "جمعه"]%string.
(** "شنبه 15 فروردین 1400", the day of the week may be left out; or with day and year exchanged *)
Definition jalali_text (wd : option string) (day_first : bool) (td name ty : str) : str :=
  match wd with Some w => lit w ++ [32] | None => [] end ++ (if day_first then td ++ 32 :: name ++ 32 :: ty else ty ++ 32 :: name ++ 32 :: td).
(** the Persian letters of these words, and what is left of them without their marks *)
Definition persian_letters : list Z := [1570; 1575; 1576; 1578; 1582; 1583; 1584; 1585; 1586; 1587; 1588; 1593; 1601; 1605; 1606; 1607; 1608; 1610; 1662; 1670; 1705; 1740; 1580].
Definition bare (r : Z) : Z := if r =? 1570 then 1575 else r.
(** what has to be known of the Unicode tables *)
Record persian_tables (U : uni) : Prop := {
  pt_lower : forall r, In r persian_letters -> u_lower U r = r;
  pt_digit : forall r, In r persian_letters -> u_isNd U r = false;
  pt_form : forall l, Forall (fun r => 0 <= r < 128 \/ In r persian_letters) l -> u_nfkd_noMn_nfkc U (encode l) = encode (map bare l) }.

(** ** Renaming digits in a text that is not ASCII *)
Definition trenames (f : Z -> Z) : Prop := forall c, if is_digitA c then is_digitA (f c) = true else f c = c.
Lemma tren_ren f : trenames f -> renames f. Proof. intros H c _. apply H. Qed.
Lemma renaming_tren from to : same_digits to from -> trenames (renaming from to).
Proof. intros H c. unfold renaming. destruct (is_digitA c) eqn:D; [now apply look_digit|reflexivity]. Qed.
Section R.
Variable f : Z -> Z.
Hypothesis RF : trenames f.
Lemma tren_eqb c k : is_digitA k = false -> (f c =? k) = (c =? k).
Proof. intros D. pose proof (RF c) as H. destruct (is_digitA c) eqn:DC; [|now rewrite H]. transitivity false; [|symmetry]; apply Z.eqb_neq; intros EQ; subst; congruence. Qed.
Lemma tren_space c : is_space (f c) = is_space c.
Proof. pose proof (RF c) as H. destruct (is_digitA c) eqn:D; [|now rewrite H]. unfold is_digitA in *. unfold is_space. transitivity false; [|symmetry]; lia. Qed.
Lemma tren_none w : no_digit w = true -> map f w = w.
Proof. intros D. rewrite <- (map_id w) at 2. apply map_ext_in. intros c Hc. unfold no_digit in D. rewrite forallb_forall in D. apply D in Hc. pose proof (RF c) as H. destruct (is_digitA c); [discriminate Hc|exact H]. Qed.
Lemma tren_prefix w : no_digit w = true -> forall s, has_prefix w (map f s) = has_prefix w s.
Proof.
  unfold no_digit. induction w as [|x w IH]; intros HW s; [reflexivity|]. cbn [forallb] in HW. apply andb_true_iff in HW as [HX HW]. destruct s as [|c s]; [reflexivity|]. cbn [map has_prefix].
  rewrite IH by assumption. rewrite (Z.eqb_sym x (f c)), (Z.eqb_sym x c), tren_eqb; [reflexivity|]. now destruct (is_digitA x).
Qed.
Lemma tren_split sep : no_digit sep = true -> forall s n acc, split_from n (map f acc) (map f s) sep = map (map f) (split_from n acc s sep).
Proof.
  intros HS. induction s as [|c s IH]; intros n acc; cbn [split_from map]; [now rewrite <- map_rev|]. destruct n as [|n]; [|now rewrite IH]. change (f c :: map f s) with (map f (c :: s)). rewrite tren_prefix by exact HS.
  destruct (has_prefix sep (c :: s)); [cbn [map]; rewrite <- map_rev; f_equal; exact (IH _ [])|exact (IH _ (c :: acc))].
Qed.
Lemma tren_join sep l : no_digit sep = true -> sjoin (map (map f) l) sep = map f (sjoin l sep).
Proof. intros HS. induction l as [|a [|b l] IH]; [reflexivity|reflexivity|]. change (sjoin (map (map f) (a :: b :: l)) sep) with (map f a ++ sep ++ sjoin (map (map f) (b :: l)) sep). change (sjoin (a :: b :: l) sep) with (a ++ sep ++ sjoin (b :: l) sep). rewrite IH, !map_app. now rewrite (tren_none sep HS). Qed.
Lemma tren_replace old new s : no_digit old = true -> no_digit new = true -> replace_all (map f s) old new = map f (replace_all s old new).
Proof. intros HO HN. unfold replace_all, split. rewrite <- tren_join by exact HN. f_equal. exact (tren_split old HO s 0%nat []). Qed.
Lemma tren_many l : forallb (fun p => no_digit (fst p) && no_digit (snd p)) l = true -> forall s, repl_many l (map f s) = map f (repl_many l s).
Proof.
  unfold repl_many. induction l as [|[o n] l IH]; intros H s; [reflexivity|]. cbn [forallb fold_left fst snd] in *. apply andb_true_iff in H as [H H2]. apply andb_true_iff in H as [HO HN]. rewrite tren_replace by assumption. now apply IH.
Qed.
Lemma tren_fields s : asc s -> forall acc, fields_from (map f acc) (map (fun c => (c, [c])) (map f s)) = map (map f) (fields_from acc (map (fun c => (c, [c])) s)).
Proof.
  induction 1 as [|c s Hc _ IH]; intros acc; cbn [map fields_from].
  - destruct acc; reflexivity.
  - rewrite tren_space. assert (empty (map f acc) = empty acc) as -> by now destruct acc. destruct (is_space c).
    + destruct (empty acc); [exact (IH [])|]. cbn [map]. f_equal. exact (IH []).
    + rewrite <- (IH (acc ++ [c])). rewrite map_app. reflexivity.
Qed.
Lemma tren_sanitize s : asc s -> sanitize_spaces (map f s) = map f (sanitize_spaces s).
Proof.
  intros HA. pose proof (ren_asc f (tren_ren f RF) s HA) as HA'. unfold sanitize_spaces. assert (N : forall t, asc t -> replace_all t nbsp [] = t) by (intros t HT; apply (replace_absent t nbsp [] 194); [now left|]; intros HI; unfold asc in HT; rewrite Forall_forall in HT; apply HT in HI; lia).
  rewrite !N by assumption. unfold fields. rewrite !chunks_asc by assumption. rewrite <- tren_join by reflexivity. f_equal. exact (tren_fields s HA []).
Qed.
Lemma tren_spaced l : forall b, spaced_from b (map f l) = spaced_from b l.
Proof. induction l as [|c l IH]; intros b; [reflexivity|]. cbn [map spaced_from]. rewrite tren_eqb, tren_space, !IH by reflexivity. reflexivity. Qed.
End R.

(** ** Normalising the text *)
Definition pchar (r : Z) : Prop := r = 32 \/ 48 <= r <= 57 \/ In r persian_letters.
Definition pcharb (r : Z) : bool := (r =? 32) || ((48 <=? r) && (r <=? 57)) || existsb (Z.eqb r) persian_letters.
Lemma pcharb_ok l : forallb pcharb l = true -> Forall pchar l.
Proof.
  intros H. rewrite forallb_forall in H. apply Forall_forall. intros r Hr. apply H in Hr. unfold pcharb in Hr. unfold pchar. apply orb_true_iff in Hr as [Hr|Hr]; [lia|]. right. right. apply existsb_exists in Hr as (x & HI & EQ). apply Z.eqb_eq in EQ. now subst.
Qed.
Definition letter_facts (r : Z) : bool := (128 <=? r) && (r <? 55296) && negb (is_space r) && no_digit (encode_rune r) && existsb (Z.eqb (bare r)) persian_letters.
Lemma letters_ok r : In r persian_letters -> 128 <= r < 55296 /\ is_space r = false /\ no_digit (encode_rune r) = true /\ In (bare r) persian_letters.
Proof.
  intros HI. assert (F : forallb letter_facts persian_letters = true) by (vm_compute; reflexivity). rewrite forallb_forall in F. specialize (F r HI). unfold letter_facts in F. rewrite !andb_true_iff in F. destruct F as ((((F1 & F2) & F3) & F4) & F5).
  split; [lia|]. split; [now apply negb_true_iff|]. split; [exact F4|]. apply existsb_exists in F5 as (x & HX & EQ). apply Z.eqb_eq in EQ. now rewrite EQ.
Qed.
Lemma pchar_scalar r : pchar r -> scalar r.
Proof. intros [->|[H|H]]; unfold scalar; [lia|lia|]. apply letters_ok in H. lia. Qed.
Lemma pchar_bare r : pchar r -> pchar (bare r).
Proof. intros [->|[H|H]]; unfold pchar; [now left|right; left; unfold bare; destruct (r =? 1570) eqn:Q; lia|right; right; now apply letters_ok]. Qed.
Section N.
Variable E : env.
Notation U := (e_uni E).
Hypotheses (UA : uni_ascii U) (PT : persian_tables U).
Lemma pchar_lower r : pchar r -> u_lower U r = r.
Proof.
  intros [->|[H|H]]; [apply (ua_lower _ UA 32); lia| |now apply (pt_lower _ PT)]. rewrite (ua_lower _ UA r) by lia. unfold lowerA, is_upperA. destruct ((65 <=? r) && (r <=? 90)) eqn:Q; lia.
Qed.
Lemma map_fix {A} (g : A -> A) l : (forall x, In x l -> g x = x) -> map g l = l.
Proof. intros H. rewrite <- (map_id l) at 2. now apply map_ext_in. Qed.
Theorem persian_normal l : Forall pchar l -> spaced l = true -> digit_normalize U (normalize_string U (encode l)) = encode (map bare l).
Proof.
  intros HP HS. assert (HB : Forall pchar (map bare l)) by (apply Forall_map; eapply Forall_impl; [|exact HP]; exact pchar_bare).
  assert (SC : Forall scalar (map bare l)) by (eapply Forall_impl; [|exact HB]; exact pchar_scalar).
  assert (NS : normalize_string U (encode l) = encode (map bare l)).
  { unfold normalize_string, normalize_unicode. rewrite (pt_form _ PT) by (eapply Forall_impl; [|exact HP]; intros r [->|[H|H]]; [left; lia|left; lia|now right]).
    rewrite (lower_encode E UA) by exact SC. rewrite (map_fix (u_lower U)) by (intros x Hx; rewrite Forall_forall in HB; now apply pchar_lower, HB).
    assert (SB : spaced (map bare l) = true).
    { unfold spaced in *. enough (G : forall b, spaced_from b (map bare l) = spaced_from b l) by now rewrite G. clear HS HB SC. induction HP as [|r l Hr _ IH]; intros b; [reflexivity|]. cbn [map spaced_from]. rewrite !IH.
      assert ((bare r =? 32) = (r =? 32)) as -> by (unfold bare; destruct (Z.eqb_spec r 1570); lia). assert (is_space (bare r) = is_space r) as ->; [|reflexivity]. unfold bare. destruct (Z.eqb_spec r 1570) as [->|]; reflexivity. }
    destruct (spaced_is _ SB) as (ws & HW & _ & EQ). rewrite EQ in SC |- *. apply sanitize_clean; [exact HW|]. clear - SC. induction ws as [|w [|v ws] IH]; [constructor|constructor; [exact SC|constructor]|].
    change (join_words (w :: v :: ws)) with (w ++ 32 :: join_words (v :: ws)) in SC. apply Forall_app in SC as [S1 S2]. constructor; [exact S1|]. apply IH. now inversion S2. }
  rewrite NS. unfold digit_normalize. rewrite runes_encode by exact SC. rewrite norm_runes_map by discriminate. f_equal. apply map_fix. intros x Hx. rewrite Forall_forall in HB. apply HB in Hx.
  destruct Hx as [->|[H|H]].
  - rewrite (ua_isNd _ UA) by lia. reflexivity.
  - rewrite (ua_isNd _ UA) by lia. assert (is_digitA x = true) as -> by (unfold is_digitA; lia). now rewrite dr_of_ascii.
  - now rewrite (pt_digit _ PT).
Qed.
End N.
Lemma encode_ren f : trenames f -> forall l, Forall pchar l -> encode (map f l) = map f (encode l).
Proof.
  intros RF. induction 1 as [|r l Hr _ IH]; [reflexivity|]. cbn [map]. rewrite !encode_cons, map_app, IH. f_equal. pose proof (RF r) as FR. destruct (is_digitA r) eqn:D.
  - assert (R : forall x, is_digitA x = true -> encode_rune x = [x]) by (intros x Hx; unfold is_digitA in Hx; unfold encode_rune; assert ((0 <=? x) && (x <? 128) = true) as E1 by lia; assert (x <? 128 = true) as E2 by lia; assert (x <=? 127 = true) as E3 by lia; rewrite ?E1, ?E2, ?E3; reflexivity). rewrite (R r D), (R (f r) FR). reflexivity.
  - rewrite FR. symmetry. apply (tren_none f RF). destruct Hr as [->|[H|H]]; [reflexivity|unfold is_digitA in D; lia|]. now apply letters_ok.
Qed.
Lemma pchar_ren f : trenames f -> forall l, Forall pchar l -> Forall pchar (map f l).
Proof.
  intros RF l H. apply Forall_map. eapply Forall_impl; [|exact H]. intros r Hr. cbv beta. pose proof (RF r) as FR. destruct (is_digitA r) eqn:D; [|now rewrite FR]. right. left. unfold is_digitA in FR. lia.
Qed.
Lemma bare_ren f : trenames f -> forall l, Forall pchar l -> map bare (map f l) = map f (map bare l).
Proof.
  intros RF l H. rewrite !map_map. apply map_ext_in. intros r Hr. rewrite Forall_forall in H. specialize (H r Hr). pose proof (RF r) as FR. destruct (is_digitA r) eqn:D.
  - assert (Q : bare r = r) by (unfold bare, is_digitA in *; destruct (r =? 1570) eqn:Q; lia). rewrite Q. unfold bare, is_digitA in *. destruct (f r =? 1570) eqn:P; lia.
  - rewrite FR. symmetry. assert (DB : is_digitA (bare r) = false) by (unfold bare; destruct (r =? 1570); [reflexivity|exact D]). pose proof (RF (bare r)) as FB. now rewrite DB in FB.
Qed.

(** ** The translation of the words *)
Definition latin_month (m : Z) : str := match List.find (fun p => snd p =? m) month_name_values with Some p => lit (fst p) | None => [] end.
Definition wd_options : list (option string) := None :: map Some persian_weekdays.
Definition month_choices : list (Z * string) := flat_map (fun '(m, ns) => map (fun n => (m, n)) ns) jalali_months.
(** the text before normalising, as characters, and what it becomes *)
Definition text0 (wd : option string) (first : bool) (td name ty : str) : list Z := runes (jalali_text wd first td name ty).
Definition words_done (s : str) : str := repl_many (flat_map (fun '(latin, ps) => map (fun p => (lit p, lit " " ++ lit latin ++ lit " ")) ps) weekday_tr) (repl_many (flat_map (fun '(latin, ps) => map (fun p => (lit p, lit " " ++ lit latin ++ lit " ")) ps) month_names) s).
Definition weekdays_gone (s : str) : str := repl_many (map (fun '(latin, _) => (lit latin, lit " ")) weekday_tr) s.
(** no letter, digit or blank *)
Definition odd_char (c : Z) : bool := if is_alphaA c then false else if is_digitA c then false else negb (c =? 32).
Definition checked_text (td0 ty0 : str) (first : bool) (wd : option string) (c : Z * string) : bool :=
  let s := jalali_text wd first td0 (lit (snd c)) ty0 in let l := runes s in
  if eqs (encode l) s then if forallb pcharb l then if spaced l then
    let y := words_done (encode (map bare l)) in let y2 := weekdays_gone y in
    if ascb y then if ascb y2 then if eqs (sanitize_spaces y2) (jalali_text None first td0 (latin_month (fst c)) ty0) then
      forallb (fun c => negb (odd_char c)) y2 else false else false else false
  else false else false else false.
Definition checked_result (td0 ty0 : str) (first : bool) (m : Z) : bool :=
  let t := jalali_text None first td0 (latin_month m) ty0 in
  if tidy t then if quiet t then actions_eqb (actions emin t) (if first then [ADigit td0; ALetter (latin_month m); ADigit ty0] else [ADigit ty0; ALetter (latin_month m); ADigit td0]) else false else false.
Definition actions_of (td n ty : str) (first : bool) : list action := if first then [ADigit td; ALetter n; ADigit ty] else [ADigit ty; ALetter n; ADigit td].
Definition day0 (k : nat) : str := if Nat.eqb k 1 then [49] else [49; 50].
Definition year0 : str := [51; 52; 53; 54].
Lemma texts_checked : forallb (fun k => forallb (fun first => forallb (fun wd => forallb (checked_text (day0 k) year0 first wd) month_choices) wd_options) [true; false]) [1%nat; 2%nat] = true.
Proof. vm_compute. reflexivity. Qed.
Lemma results_checked : forallb (fun k => forallb (fun first => forallb (checked_result (day0 k) year0 first) [1; 2; 3; 4; 5; 6; 7; 8; 9; 10; 11; 12]) [true; false]) [1%nat; 2%nat] = true.
Proof. vm_compute. reflexivity. Qed.
Definition nothing (c : Z) : bool := false.
Lemma odd_needs : forallb (fun r => needs odd_char (rx_ast r)) [rxSanitizeSkip; rxSanitizeRussian; rxSanitizeCroatian] = true.
Proof. vm_compute. reflexivity. Qed.
Lemma nothing_needs : forallb (fun r => needs nothing (rx_ast r)) [rxHourPattern; rxMinutePattern; rxSecondPattern; rxColonPattern; rxOrdinalPattern] = true.
Proof. vm_compute. reflexivity. Qed.
Lemma word_tables : forallb (fun p => no_digit (fst p) && no_digit (snd p)) (flat_map (fun '(latin, ps) => map (fun p => (lit p, lit " " ++ lit latin ++ lit " ")) ps) weekday_tr) = true /\
  forallb (fun p => no_digit (fst p) && no_digit (snd p)) (flat_map (fun '(latin, ps) => map (fun p => (lit p, lit " " ++ lit latin ++ lit " ")) ps) month_names) = true /\
  forallb (fun p => no_digit (fst p) && no_digit (snd p)) (map (fun '(latin, _) => (lit latin, lit " ")) weekday_tr) = true /\
  forallb (fun x => existsb (fun c => 128 <=? c) (fst x)) (flat_map (fun '(n, ps) => map (fun p => (lit p, itoa n)) ps) day_numbers) = true /\
  existsb (fun c => 128 <=? c) (lit hour_word) = true.
Proof. vm_compute. auto 10. Qed.

Section P.
Variable E : env.
Notation U := (e_uni E).
Hypotheses (UA : uni_ascii U) (PT : persian_tables U) (TZ : tz_order (e_tz E)).
Variable f : Z -> Z.
Hypothesis RF : trenames f.
Lemma replace_asc s old new : asc s -> existsb (fun c => 128 <=? c) old = true -> replace_all s old new = s.
Proof. intros HA HO. apply existsb_exists in HO as (c & HI & HC). apply (replace_absent s old new c HI). intros X. unfold asc in HA. rewrite Forall_forall in HA. apply HA in X. lia. Qed.
Lemma repl_many_asc l s : asc s -> forallb (fun x => existsb (fun c => 128 <=? c) (fst x)) l = true -> repl_many l s = s.
Proof. intros HA. unfold repl_many. induction l as [|x l IH]; [reflexivity|]. cbn [forallb fold_left]. intros H. apply andb_true_iff in H as [H1 H2]. now rewrite (replace_asc s _ _ HA H1), IH. Qed.
Lemma asc_lacks s : asc s -> lacks nothing s.
Proof. unfold asc, lacks. apply Forall_impl. intros c Hc. now split. Qed.
Lemma asc_match_none r s : needs nothing (rx_ast r) = true -> asc s -> Regex.find U r s = None.
Proof. intros HN HA. apply (lacks_none nothing); [exact UA|exact HN|now apply asc_lacks]. Qed.
Lemma asc_repl_match r s : needs nothing (rx_ast r) = true -> asc s -> repl_match E r s = s.
Proof.
  intros HN HA. unfold repl_match, replace_all_fn. pose proof (asc_match_none r s HN HA) as F. cbn [replace_loop]. change (Nat.ltb (length s) 0) with false. cbv iota. unfold Regex.exec_from. unfold find in F. rewrite first_match_drop by exact F. reflexivity.
Qed.
Lemma days_times s : asc s -> replace_time E (replace_days E s) = s.
Proof.
  intros HA. pose proof nothing_needs as NN. cbn [forallb] in NN. rewrite !andb_true_iff in NN. destruct NN as (N1 & N2 & N3 & N4 & N5 & _). destruct word_tables as (_ & _ & _ & W4 & W5). unfold replace_time, replace_days.
  rewrite (replace_none U rxOrdinalPattern s) by (now apply asc_match_none). rewrite (repl_many_asc _ s HA W4). rewrite (asc_repl_match rxHourPattern s N1 HA), (asc_repl_match rxMinutePattern s N2 HA), (asc_repl_match rxSecondPattern s N3 HA). rewrite (replace_none U rxColonPattern s) by (now apply asc_match_none). now apply replace_asc.
Qed.
(** sanitising the renamed text, whose words may be far apart *)
Definition sanitize_rest (s : str) : str :=
  let s := replace_all_string U rxSanitizePeriod s (lit "$1") in
  let s := replace_all_string U rxSanitizeOn s (lit "$1") in
  let s := trim_suffix s (lit ":") in
  let s := normalize_apos s in
  trim_space s.
Lemma sanitize_split s : Regex.find U rxSanitizeSkip s = None -> Regex.find U rxSanitizeRussian s = None -> Regex.find U rxSanitizeCroatian s = None -> sanitize_date U s = sanitize_rest (sanitize_spaces s).
Proof.
  intros N1 N2 N3. unfold sanitize_date. rewrite (replace_none U rxSanitizeSkip s) by exact N1. rewrite (replace_none U rxSanitizeRussian s) by exact N2. rewrite (replace_none U rxSanitizeCroatian s) by exact N3. exact eq_refl.
Qed.
Lemma far_none y r : asc y -> forallb (fun c => negb (odd_char c)) y = true -> In r [rxSanitizeSkip; rxSanitizeRussian; rxSanitizeCroatian] -> Regex.find U r (map f y) = None.
Proof.
  intros HA HS HI. pose proof odd_needs as ON. rewrite forallb_forall in ON. apply (lacks_none odd_char); [exact UA|now apply ON|]. unfold lacks. apply Forall_map. apply Forall_forall. intros c Hc. rewrite forallb_forall in HS. specialize (HS c Hc). apply negb_true_iff in HS.
  unfold asc in HA. rewrite Forall_forall in HA. specialize (HA c Hc). split; [now apply (ren_ascii f (tren_ren f RF))|]. pose proof (RF c) as FC. destruct (is_digitA c) eqn:D; [unfold odd_char; rewrite FC; now destruct (is_alphaA (f c))|now rewrite FC].
Qed.
Lemma sanitize_join s t : sanitize_spaces s = t -> sanitize_spaces t = t -> sanitize_date U s = sanitize_rest (sanitize_spaces s) -> sanitize_date U t = sanitize_rest (sanitize_spaces t) -> sanitize_date U t = t -> sanitize_date U s = t.
Proof. generalize (sanitize_date U s) as A. generalize (sanitize_date U t) as B. generalize sanitize_rest as g. intros g B A H1 H2 -> -> H3. rewrite H1. rewrite H2 in H3. exact H3. Qed.
Lemma sanitize_far y z : asc y -> forallb (fun c => negb (odd_char c)) y = true -> sanitize_spaces y = z -> tidy z = true -> sanitize_date U (map f y) = map f z.
Proof.
  intros HA HS EZ HT. pose proof (tren_ren f RF) as RR. pose proof (tidy_asc0 z HT) as AZ. pose proof (ren_asc f RR z AZ) as AF. pose proof (ren_shs f RR z AZ) as MF. apply (sanitize_join (map f y) (map f z)).
  - rewrite (tren_sanitize f RF y HA). now rewrite EZ.
  - apply spaced_sanitize; [exact AF|]. exact (tidy_spaced z (map f z) HT AF MF).
  - apply sanitize_split; apply far_none; try assumption; cbn [In]; tauto.
  - apply sanitize_split; apply (tidy_none E UA z (map f z) HT AF MF); unfold front_patterns; cbn [In]; tauto.
  - exact (tidy_sanitize E UA z (map f z) HT AF MF).
Qed.
Lemma prepared l y y2 z : Forall pchar l -> spaced l = true -> words_done (encode (map bare l)) = y -> asc y -> weekdays_gone y = y2 -> asc y2 -> forallb (fun c => negb (odd_char c)) y2 = true -> sanitize_spaces y2 = z -> tidy z = true -> quiet z = true ->
  jl_prepare E (map f (encode l)) = (map f z, od_zero).
Proof.
  intros C2 C3 EY C4 EY2 C5 CT C6 C7 C8. pose proof (tren_ren f RF) as RR. destruct word_tables as (W1 & W2 & W3 & _).
  unfold jl_prepare. rewrite <- (encode_ren f RF l C2). rewrite (persian_normal E UA PT) by (try (now apply pchar_ren); unfold spaced; rewrite (tren_spaced f RF); exact C3). rewrite (bare_ren f RF l C2), (encode_ren f RF). 2: { apply Forall_map. eapply Forall_impl; [|exact C2]. exact pchar_bare. }
  revert EY. generalize (encode (map bare l)). intros b EY. assert (WD : replace_weekdays (replace_months (map f b)) = map f y). { rewrite <- EY. unfold replace_weekdays, replace_months, words_done. rewrite (tren_many f RF _ W2), (tren_many f RF _ W1). exact eq_refl. }
  rewrite WD. clear WD. rewrite days_times by (now apply ren_asc). assert (WG : remove_weekday_tr (map f y) = map f y2). { rewrite <- EY2. unfold remove_weekday_tr, weekdays_gone. exact (tren_many f RF _ W3 y). }
  rewrite WG. clear WG. rewrite (sanitize_far y2 z C5 CT C6 C7). exact (ren_strip_tz f RR E UA TZ z C8).
Qed.
Variables (td0 ty0 : str) (first : bool) (wd : option string) (c : Z * string).
Notation t := (jalali_text None first td0 (latin_month (fst c)) ty0).
Hypothesis CT : checked_text td0 ty0 first wd c = true.
Hypothesis CR : checked_result td0 ty0 first (fst c) = true.
Theorem words_prepared : jl_prepare E (map f (jalali_text wd first td0 (lit (snd c)) ty0)) = (map f t, od_zero).
Proof.
  pose proof CT as CT'. pose proof CR as CR'. unfold checked_text in CT'. unfold checked_result in CR'. cbv zeta in CT', CR'. revert CT' CR'. generalize t as z. generalize (jalali_text wd first td0 (lit (snd c)) ty0) as s. clear CT CR. intros s z. generalize (runes s) as l. intros l CT CR.
  destruct (eqs (encode l) s) eqn:C1; [|discriminate CT]. destruct (forallb pcharb l) eqn:C2; [|discriminate CT]. destruct (spaced l) eqn:C3; [|discriminate CT].
  destruct (ascb (words_done (encode (map bare l)))) eqn:C4; [|discriminate CT]. destruct (ascb (weekdays_gone (words_done (encode (map bare l))))) eqn:C5; [|discriminate CT]. destruct (eqs (sanitize_spaces _) z) eqn:C6; [|discriminate CT].
  destruct (tidy z) eqn:C7; [|discriminate CR]. destruct (quiet z) eqn:C8; [|discriminate CR]. clear CR.
  apply eqs_eq in C1, C6. apply pcharb_ok in C2. apply ascb_asc in C4, C5. rewrite <- C1. exact (prepared l _ _ z C2 C3 eq_refl C4 eq_refl C5 CT C6 C7 C8).
Qed.
Theorem words_acts cfg H a : run_acts E H (number_directives E (c_order cfg)) (map (ract f) (actions_of td0 (latin_month (fst c)) ty0 first)) ast0 = Some a -> exists k, abs_init E H cfg (map f t) = Some (skips k (fallback a)).
Proof.
  unfold checked_result in CR. cbv zeta in CR. destruct (tidy t) eqn:C7; [|discriminate CR]. destruct (quiet t) eqn:C8; [|discriminate CR]. apply actions_eqb_eq in CR. intros HR.
  apply (ren_init f (tren_ren f RF) E UA t C8 H cfg a). rewrite CR. exact HR.
Qed.
End P.
