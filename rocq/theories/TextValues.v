(** The values of days, years and names for the absolute parser *)
From Coq Require Import ZifyBool.
From Verif Require Import GoBase SMap Regex RegexFacts Civil GoTime GoTimeFacts GoTimeParse Setting Strutil Dateutil Tokenizer Timezone Env Common Absolute AbsSpec AbsFacts AbsFacts2 AbsFacts3 AbsFacts4 NumericFacts Prop_Timestamp Prop_Numeric TextActs TextRead.

Section V.
Variable E : env.
Notation H := (greg_hooks E).
Lemma short_year4 v : digits v -> (length v <= 3)%nat -> h_value H CYear v "2006" = None.
Proof.
  intros Hd Hl. cbn [greg_hooks h_value]. destruct (greg_value E CYear v "2006") eqn:V; [|reflexivity]. exfalso. revert V. unfold greg_value. rewrite (to_lower_kind _ TDigit) by (now apply digits_tdigit). rewrite lower_digits by (now apply digits_tdigit).
  destruct (time_parse _ _ v) as [t|] eqn:T; [|discriminate]. intros _. apply tparse_year4 in T as (y & L & _). lia.
Qed.
Lemma digits_atoi0 v : digits v -> atoi0 v = number 0 v.
Proof. intros Hd. unfold atoi0. now rewrite digits_atoi. Qed.
Lemma greg_day_text td d : digits td -> (length td <= 2)%nat -> number 0 td = d -> 1 <= d <= 31 -> day_text H td d.
Proof.
  intros Hd Hl <- Hr. constructor.
  - now apply greg_day.
  - lia.
  - cbn [greg_hooks h_value]. destruct (greg_value E CMonth td "1") eqn:V; [left|now right]. apply V_month in V as (_ & -> & _); [reflexivity|now apply digits_tdigit].
  - apply short_year4; [exact Hd|lia].
  - cbn [greg_hooks h_value]. destruct (greg_value E CYear td "06") eqn:V; [right|now left]. eexists. split; [reflexivity|]. apply V_year in V as (_ & [[L _]|[_ ->]]); [lia| |now apply digits_tdigit|cbn [In]; auto]. destruct (69 <=? number 0 td); lia.
  - unfold slen. lia.
  - now apply digits_atoi0.
Qed.
Lemma greg_year_text ty y : digits ty -> length ty = 4%nat -> number 0 ty = y -> 2 <= y -> year_text H ty y.
Proof.
  intros Hd Hl <- Hy. destruct (greg_long E ty Hd Hl) as [G1 G2]. constructor; auto; [apply greg_year; auto; lia|lia|unfold slen; lia].
Qed.
(** the year of two digits, between 1969 and 2068 *)
Definition year_of2 (n : Z) : Z := if 69 <=? n then n + 1900 else n + 2000.
Lemma tparse_year2_fwd L v y : length v = 2%nat -> atoi v = Some y -> time_parse L (lit "06") v = Some (mk_date (year_of2 y) 1 1 0 0 0 0 utc).
Proof.
  intros Ln G. tp_start [(@nil Z, StdYear)]. assert (Nat.ltb (length v) 2 = false) as -> by (apply Nat.ltb_ge; lia). cbn [orb obind].
  rewrite firstn_all2 by lia. rewrite G. cbn [obind]. unfold skip. cbn [skip_aux obind]. rewrite skipn_all2 by lia. cbn [obind].
  unfold year_of2. destruct (69 <=? y); tp_fields; change (1 <? 1) with false; rewrite days_in_1; reflexivity.
Qed.
Lemma greg_year2_text ty : digits ty -> length ty = 2%nat -> year2_text H ty (year_of2 (number 0 ty)).
Proof.
  intros Hd Hl. assert (NB : 0 <= number 0 ty) by (now apply Prop_Timestamp.number_bound). assert (Y2 : 1969 <= year_of2 (number 0 ty)) by (unfold year_of2; destruct (69 <=? number 0 ty) eqn:B; lia).
  constructor; [apply short_year4; [exact Hd|lia]| |lia|unfold slen; lia].
  cbn [greg_hooks h_value]. unfold greg_value. rewrite (to_lower_kind _ TDigit) by (now apply digits_tdigit). rewrite lower_digits by (now apply digits_tdigit).
  rewrite (tparse_year2_fwd _ _ (number 0 ty)) by (auto using digits_atoi). rewrite not_zero by (lia || apply valid_01; lia). f_equal. apply mk_date_year; [apply fixed_utc|apply valid_01; lia|unfold valid_clock; lia].
Qed.
(** the names that the translation uses *)
Definition english_months : list (Z * string) := [(1, "january"); (2, "february"); (3, "march"); (4, "april"); (5, "may"); (6, "june"); (7, "july"); (8, "august"); (9, "september"); (10, "october"); (11, "november"); (12, "december")]%string.
(** weekdays counted from Sunday *)
Definition english_weekdays : list (Z * string) := [(0, "sunday"); (1, "monday"); (2, "tuesday"); (3, "wednesday"); (4, "thursday"); (5, "friday"); (6, "saturday")]%string.
Lemma greg_month_text m w : In (m, w) english_months -> month_text H (lit w) m.
Proof.
  intros HI. unfold english_months in HI. cbn [In] in HI. repeat match type of HI with _ \/ _ => destruct HI as [HI|HI] end; try (destruct HI; fail);
  (injection HI as <- <-; constructor; [left; vm_compute; reflexivity|lia|vm_compute; reflexivity|vm_compute; reflexivity]).
Qed.
Lemma greg_weekday_text j w : In (j, w) english_weekdays -> weekday_text H (lit w) 6.
Proof.
  intros HI. unfold english_weekdays in HI. cbn [In] in HI. repeat match type of HI with _ \/ _ => destruct HI as [HI|HI] end; try (destruct HI; fail);
  (injection HI as <- <-; constructor; [vm_compute; reflexivity|vm_compute; reflexivity|left; vm_compute; reflexivity]).
Qed.
End V.
