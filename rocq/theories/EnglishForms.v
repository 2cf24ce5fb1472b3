(** The English texts that the theorems about dates in words speak of. Specification only: names, forms and clocks. *)
From Verif Require Import GoBase SMap Regex RegexFacts GoTime Setting Timezone Tokenizer Strutil Env Common Absolute Language LocaleData RegexWiden TextRename TextFront TextActs TextParse TextForms TextValues TextFast TextQuick.

(** ** Names, in lower case *)
Definition short_months : list (Z * string) := [(1, "jan"); (2, "feb"); (3, "mar"); (4, "apr"); (5, "may"); (6, "jun"); (7, "jul"); (8, "aug"); (9, "sep"); (9, "sept"); (10, "oct"); (11, "nov"); (12, "dec")]%string.
Definition month_names : list (Z * string) := english_months ++ short_months.
(** weekdays are counted from Sunday *)
Definition short_weekdays : list (Z * string) := [(0, "sun"); (1, "mon"); (2, "tue"); (3, "wed"); (4, "thu"); (5, "fri"); (6, "sat")]%string.
Definition weekday_names : list (Z * string) := english_weekdays ++ short_weekdays.
Definition kept_names : list str := map (fun x => lit (snd x)) (month_names ++ weekday_names).
(** [w], in any case, is the name of [m] in a list *)
Definition name_in (names : list (Z * string)) (w : str) (m : Z) : Prop := exists x, In (m, x) names /\ map lowerA w = lit x.
(** [w] is a name of month [m], of weekday [j] *)
Definition month_name : str -> Z -> Prop := name_in month_names.
Definition weekday_name : str -> Z -> Prop := name_in weekday_names.
(** in full *)
Definition month_in_full : str -> Z -> Prop := name_in english_months.
Definition weekday_in_full : str -> Z -> Prop := name_in english_weekdays.
(** in short *)
Definition month_in_short : str -> Z -> Prop := name_in short_months.
Definition weekday_in_short : str -> Z -> Prop := name_in short_weekdays.

(** ** Times of day, with or without am or pm: hour and minute *)
Definition plain_clock_forms : list str := map lit ["7:89"; "78:90"]%string.
Definition clock_forms : list str := plain_clock_forms ++ map lit ["7:89 am"; "78:90 am"; "7:89 pm"; "78:90 pm"]%string.
(** hour, minute and second *)
Definition second_forms : list str := map lit ["3:45:67"; "34:56:78"; "3:45:67 am"; "34:56:78 am"; "3:45:67 pm"; "34:56:78 pm"]%string.
(** the hour *)
Definition hour_forms : list str := map lit ["7 am"; "78 am"; "7 pm"; "78 pm"]%string.

(** ** Forms *)
(** a day, the name of a month and a year *)
Definition date_forms : list (list piece) :=
  [ [TheDay; Text " "; TheMonth; Text " "; TheYear]; [TheDay; Text " "; TheMonth; Text ", "; TheYear];
    [TheMonth; Text " "; TheDay; Text ", "; TheYear]; [TheMonth; Text " "; TheDay; Text " "; TheYear];
    [TheYear; Text " "; TheMonth; Text " "; TheDay]; [TheDay; Text "/"; TheMonth; Text "/"; TheYear];
    [Text "on "; TheDay; Text " "; TheMonth; Text " "; TheYear]; [Text "on "; TheMonth; Text " "; TheDay; Text ", "; TheYear] ]%string.
(** the same with an ordinal number *)
Definition ordinal_date_forms : list (list piece) :=
  [ [TheDay; Text "st "; TheMonth; Text " "; TheYear]; [TheDay; Text "nd "; TheMonth; Text " "; TheYear]; [TheDay; Text "rd "; TheMonth; Text " "; TheYear]; [TheDay; Text "th "; TheMonth; Text " "; TheYear];
    [TheMonth; Text " "; TheDay; Text "st, "; TheYear]; [TheMonth; Text " "; TheDay; Text "nd, "; TheYear]; [TheMonth; Text " "; TheDay; Text "rd, "; TheYear]; [TheMonth; Text " "; TheDay; Text "th, "; TheYear] ]%string.
(** the same with a time of day *)
Definition date_time_forms : list (list piece) :=
  [ [TheDay; Text " "; TheMonth; Text " "; TheYear; Text " "; TheClock]; [TheMonth; Text " "; TheDay; Text ", "; TheYear; Text " "; TheClock] ]%string.
Definition short_date_time_forms : list (list piece) := [ [TheDay; Text " "; TheMonth; Text " "; TheYear; Text " "; TheClock] ]%string.
(** the same after a weekday *)
Definition weekday_date_forms : list (list piece) := [ [TheWeekday; Text ", "; TheMonth; Text " "; TheDay; Text ", "; TheYear] ]%string.
Definition short_weekday_date_forms : list (list piece) := [ [TheWeekday; Text ", "; TheDay; Text " "; TheMonth; Text " "; TheYear] ]%string.
(** a day and the name of a month *)
Definition day_month_forms : list (list piece) := [ [TheDay; Text " "; TheMonth]; [TheMonth; Text " "; TheDay] ]%string.
Definition ordinal_day_month_forms : list (list piece) :=
  [ [TheDay; Text "st "; TheMonth]; [TheDay; Text "nd "; TheMonth]; [TheDay; Text "rd "; TheMonth]; [TheDay; Text "th "; TheMonth];
    [TheMonth; Text " "; TheDay; Text "st"]; [TheMonth; Text " "; TheDay; Text "nd"]; [TheMonth; Text " "; TheDay; Text "rd"]; [TheMonth; Text " "; TheDay; Text "th"] ]%string.
Definition day_month_time_forms : list (list piece) :=
  [ [TheDay; Text " "; TheMonth; Text " "; TheClock]; [TheMonth; Text " "; TheDay; Text ", "; TheClock] ]%string.
(** the name of a month and a year *)
Definition month_year_forms : list (list piece) := [ [TheMonth; Text " "; TheYear]; [TheMonth; Text ", "; TheYear] ]%string.
Definition year_forms : list (list piece) := [ [TheYear] ].
Definition weekday_forms : list (list piece) := [ [TheWeekday]; [Text "on "; TheWeekday] ]%string.
Definition weekday_time_forms : list (list piece) := [ [TheWeekday; Text " "; TheClock] ]%string.
Definition time_forms : list (list piece) := [ [TheClock] ].
(** a day, the name of a month and a year of two digits *)
Definition short_year_forms : list (list piece) :=
  [ [TheDay; Text " "; TheMonth; Text " "; TheYear]; [TheMonth; Text " "; TheDay; Text ", "; TheYear] ]%string.

(** ** Checking that English reads these texts as they should be read *)
Definition day_forms : list str := map lit ["1"; "12"]%string.
Definition full_month (m : Z) : str := match List.find (fun x => fst x =? m) english_months with Some x => lit (snd x) | None => [] end.
Definition full_weekday (j : Z) : str := match List.find (fun x => fst x =? j) english_weekdays with Some x => lit (snd x) | None => [] end.
Definition ok_forms (ld : locale) (forms : list (list piece)) (tds : list str) (ms : list (Z * string)) (tys : list str) (js : list (Z * string)) (cks : list str) : bool :=
  let ws := widened_simpl ld in
  forallb (fun ps => if good_form ps then forallb (fun m => forallb (fun j => forallb (fun td => forallb (fun ty => forallb (fun ck =>
    ok_text ws ld kept_names (fill ps td (lit (snd m)) ty (lit (snd j)) ck) (taken ps td (full_month (fst m)) ty (full_weekday (fst j)) ck)) cks) tys) tds) js) ms else false) forms.
Definition any_month : list (Z * string) := [(1, "january"%string)].
Definition any_weekday : list (Z * string) := [(0, "sunday"%string)].
Definition none : list str := [ [] ].
Definition year4 : list str := [lit "3456"].

(** the same, faster *)
Definition fast_forms (ld : locale) (forms : list (list piece)) (tds : list str) (ms : list (Z * string)) (tys : list str) (js : list (Z * string)) (cks : list str) : bool :=
  (fun fw ws =>
  forallb (fun ps => if good_form ps then forallb (fun m => forallb (fun j => forallb (fun td => forallb (fun ty => forallb (fun ck =>
    fast_text fw ws ld kept_names (fill ps td (lit (snd m)) ty (lit (snd j)) ck) (taken ps td (full_month (fst m)) ty (full_weekday (fst j)) ck)) cks) tys) tds) js) ms else false) forms)
  (map (widened sh) front_patterns) (widened_simpl ld).
Lemma forallb_imp {A} (f g : A -> bool) l : (forall x, f x = true -> g x = true) -> forallb f l = true -> forallb g l = true.
Proof. intros H. rewrite !forallb_forall. auto. Qed.
Lemma fast_forms_ok ld forms tds ms tys js cks : rel_patterns_mixed ld = true -> fast_forms ld forms tds ms tys js cks = true -> ok_forms ld forms tds ms tys js cks = true.
Proof.
  intros HM. unfold fast_forms, ok_forms. cbv beta zeta. apply forallb_imp. intros ps. destruct (good_form ps); [|exact (fun x => x)].
  apply forallb_imp. intros m. apply forallb_imp. intros j. apply forallb_imp. intros td. apply forallb_imp. intros ty. apply forallb_imp. intros ck. now apply fast_text_ok.
Qed.

(** and faster still: the patterns that cannot match the text are not run *)
Definition quick_reading (fw ws : list regex) (ld : locale) (names : list str) (s : str) (l : list action) : bool :=
  if forallb (fun r => negb (match_string uni_min r (map sh s))) fw then
    match create_permutation [] (map (quick_translate ld false) (quick_split ld (thin ld s) s false)) with
    | Ok [p] => (fun t => if quick_text ws ld names s t then if quiet t then actions_eqb (actions emin t) l else false else false) (finish_translation false p)
    | _ => false
    end
  else false.
Lemma quick_reading_ok ld names s l : quick_mixed ld = true -> quick_reading (map (widened sh) front_patterns) (widened_simpl ld) ld names s l = true -> ok_text (widened_simpl ld) ld names s l = true.
Proof.
  intros HM. unfold quick_reading. destruct (forallb _ _) eqn:F; [|discriminate]. destruct (create_permutation _ _) as [[|p [|]]| |]; try discriminate. cbv beta. generalize (finish_translation false p). intros t.
  destruct (quick_text _ ld names s t) eqn:Q; [|discriminate]. destruct (quiet t) eqn:QT; [|discriminate]. intros A. apply actions_eqb_eq in A. apply (quick_text_ok ld names s t l HM Q); [|exact QT|exact A].
  rewrite forallb_map_ in F. exact F.
Qed.
Definition quick_forms (ld : locale) (forms : list (list piece)) (tds : list str) (ms : list (Z * string)) (tys : list str) (js : list (Z * string)) (cks : list str) : bool :=
  if quick_mixed ld then
  (fun fw ws =>
  forallb (fun ps => if good_form ps then forallb (fun m => forallb (fun j => forallb (fun td => forallb (fun ty => forallb (fun ck =>
    quick_reading fw ws ld kept_names (fill ps td (lit (snd m)) ty (lit (snd j)) ck) (taken ps td (full_month (fst m)) ty (full_weekday (fst j)) ck)) cks) tys) tds) js) ms else false) forms)
  (map (widened sh) front_patterns) (qwidened_simpl ld)
  else false.
Lemma quick_forms_ok ld forms tds ms tys js cks : quick_forms ld forms tds ms tys js cks = true -> ok_forms ld forms tds ms tys js cks = true.
Proof.
  unfold quick_forms, ok_forms. destruct (quick_mixed ld) eqn:HM; [|discriminate]. rewrite qwidened_simpl_eq. cbv beta zeta. apply forallb_imp. intros ps. destruct (good_form ps); [|exact (fun x => x)].
  apply forallb_imp. intros m. apply forallb_imp. intros j. apply forallb_imp. intros td. apply forallb_imp. intros ty. apply forallb_imp. intros ck. now apply quick_reading_ok.
Qed.
