(** C55 and C11-C18 for whole texts: English dates in words, through Parse *)
From Coq Require Import ZifyBool.
From Verif Require Import GoBase SMap Regex RegexFacts RegexFacts2 Civil GoTime GoTimeFacts GoTimeParse Setting Strutil Digit Dateutil DateutilFacts Tokenizer Timezone Env Common Absolute Language LocaleData Parser ParserFacts
  Shows Spec AbsSpec AbsFacts AbsFacts2 AbsFacts3 AbsFacts4 NumericFacts NumTranslate Prop_Parser Prop_Absolute Prop_Absolute2 Prop_Numeric Prop_Clocktime RegexWiden TextRename TextFront TextActs TextParse TextRead TextForms TextValues
  EnglishForms EnglishCheck EnglishCheck1 EnglishCheck2 EnglishCheck3 EnglishCheck4 TextResult.
From Verif Require RelFacts.
Ltac Zify.zify_post_hook ::= Z.div_mod_to_equations.

(** ** The parts of the texts *)
(** one or two digits with the value [d] of a day *)
Definition day_part (td : str) (d : Z) : Prop := digits td /\ (length td <= 2)%nat /\ number 0 td = d /\ 1 <= d <= 31.
(** four digits with the value [y] *)
Definition year_part (ty : str) (y : Z) : Prop := digits ty /\ length ty = 4%nat /\ number 0 ty = y.
(** a time of day of one of these forms, in any case; what it denotes is said by [clock] (see C38) *)
Definition clock_part (forms : list str) (ck : str) (h mi sc ns : Z) (per : period) : Prop := clock (map upperA ck) h mi sc ns per /\ exists x, In x forms /\ like ck x.

(** the months after which a form's parts come do not matter if it does not mention them *)
Lemma digit_dig0 c : 48 <= c <= 57 -> dig0 (lowerA c) = 48.
Proof. intros H. unfold dig0, lowerA, is_upperA, is_digitA. assert ((65 <=? c) && (c <=? 90) = false) as -> by lia. assert ((48 <=? c) && (c <=? 57) = true) as -> by lia. reflexivity. Qed.
Lemma digits_lower s : digits s -> map lowerA s = s.
Proof. intros [_ H]. induction H as [|c s Hc _ IH]; [reflexivity|]. cbn [map]. rewrite IH. f_equal. unfold lowerA, is_upperA. assert ((65 <=? c) && (c <=? 90) = false) as -> by lia. reflexivity. Qed.
Lemma digits_like s x : digits s -> map dig0 x = repeat 48 (length s) -> like s x.
Proof. intros [_ H] E. unfold like. rewrite E. clear E. induction H as [|c s Hc _ IH]; [reflexivity|]. cbn [map length repeat]. now rewrite (digit_dig0 c Hc), IH. Qed.
Lemma day_like td d : day_part td d -> exists td0, In td0 day_forms /\ like td td0.
Proof.
  intros (HD & HL & _). pose proof HD as [NE _]. destruct td as [|a [|b [|]]]; [congruence| | |cbn in HL; lia].
  - exists (lit "1"). split; [vm_compute; auto|]. now apply digits_like.
  - exists (lit "12"). split; [vm_compute; auto|]. now apply digits_like.
Qed.
Lemma year_like ty y : year_part ty y -> exists ty0, In ty0 year4 /\ like ty ty0.
Proof. intros (HD & HL & _). exists (lit "3456"). split; [now left|]. apply digits_like; [exact HD|]. rewrite HL. vm_compute. reflexivity. Qed.
Lemma like_nil : like [] [].
Proof. reflexivity. Qed.
Lemma upper_lower c : upperA (lowerA c) = upperA c.
Proof. unfold upperA, lowerA, is_upperA, is_lowerA. destruct ((65 <=? c) && (c <=? 90)) eqn:U; [|reflexivity]. assert ((97 <=? c + 32) && (c + 32 <=? 122) = true) as -> by lia. assert ((97 <=? c) && (c <=? 122) = false) as -> by lia. lia. Qed.
(** times of day *)
Lemma clock_time E forms ck h mi sc ns per : clock_part forms ck h mi sc ns per ->
  exists t, parse_time E (map lowerA ck) = Some (t, per) /\ hour t = h /\ minute t = mi /\ second t = sc /\ nanosecond t = ns.
Proof.
  intros [C _]. assert (EU : map upperA (map lowerA ck) = map upperA ck) by (rewrite map_map; apply map_ext; exact upper_lower). rewrite <- EU in C.
  destruct (C38_any_case E _ _ _ _ _ _ C) as (t & HP & T). exists t. split; [exact HP|]. unfold tod_is in T. tauto.
Qed.

(** full names *)
Lemma full_month_in w m : month_name w m -> exists x, In (m, x) month_names /\ map lowerA w = lit x /\ exists y, In (m, y) english_months /\ full_month m = lit y.
Proof.
  intros (x & HI & HL). exists x. split; [exact HI|]. split; [exact HL|]. clear HL w.
  assert (F : forallb (fun p => match List.find (fun z => fst z =? fst p) english_months with Some z => fst z =? fst p | None => false end) month_names = true) by (vm_compute; reflexivity).
  rewrite forallb_forall in F. specialize (F _ HI). cbn [fst] in F. unfold full_month. destruct (List.find _ _) as [[k y]|] eqn:FD; [|discriminate F]. apply find_some in FD as [FI _]. cbn [fst snd] in *. apply Z.eqb_eq in F. subst k. now exists y.
Qed.
Lemma full_weekday_in w j : weekday_name w j -> exists x, In (j, x) weekday_names /\ map lowerA w = lit x /\ exists y, In (j, y) english_weekdays /\ full_weekday j = lit y.
Proof.
  intros (x & HI & HL). exists x. split; [exact HI|]. split; [exact HL|]. clear HL w.
  assert (F : forallb (fun p => match List.find (fun z => fst z =? fst p) english_weekdays with Some z => fst z =? fst p | None => false end) weekday_names = true) by (vm_compute; reflexivity).
  rewrite forallb_forall in F. specialize (F _ HI). cbn [fst] in F. unfold full_weekday. destruct (List.find _ _) as [[k y]|] eqn:FD; [|discriminate F]. apply find_some in FD as [FI _]. cbn [fst snd] in *. apply Z.eqb_eq in F. subst k. now exists y.
Qed.
Lemma month_range w m : month_name w m -> 1 <= m <= 12.
Proof.
  intros (x & HI & _). assert (F : forallb (fun p => (1 <=? fst p) && (fst p <=? 12)) month_names = true) by (vm_compute; reflexivity). rewrite forallb_forall in F. specialize (F _ HI). cbn [fst] in F. lia.
Qed.
Lemma weekday_range w j : weekday_name w j -> 0 <= j < 7.
Proof.
  intros (x & HI & _). assert (F : forallb (fun p => (0 <=? fst p) && (fst p <? 7)) weekday_names = true) by (vm_compute; reflexivity). rewrite forallb_forall in F. specialize (F _ HI). cbn [fst] in F. lia.
Qed.

(** ** What the absolute parser takes from the texts *)
Ltac each_form H := cbn [In date_forms ordinal_date_forms date_time_forms short_date_time_forms weekday_date_forms short_weekday_date_forms day_month_forms ordinal_day_month_forms day_month_time_forms month_year_forms year_forms weekday_forms weekday_time_forms time_forms short_year_forms] in H;
  repeat match type of H with _ \/ _ => destruct H as [H|H] end; try (destruct H; fail); subst.
Section T.
Variable E : env.
Notation H := (greg_hooks E).
Variables (order : string) (td W ty WD ck : str) (d m y v : Z).
Hypothesis HO : In order orders.
Hypothesis HM : month_text H W m.
Hypothesis HW : weekday_text H WD v.
Lemma ends_date ps : In ps date_forms \/ In ps ordinal_date_forms -> day_text H td d -> year_text H ty y -> ends E H (taken ps td W ty WD ck) order (Some d) (Some m) (Some (ty, y)) None None.
Proof. intros HI HD HY. each_form HI; cbn [taken flat_map takes app]; first [now apply ends_dmy | now apply ends_mdy | now apply ends_ymd]. Qed.
Lemma ends_date_time ps : In ps date_time_forms \/ In ps short_date_time_forms -> day_text H td d -> year_text H ty y -> ends E H (taken ps td W ty WD ck) order (Some d) (Some m) (Some (ty, y)) None (Some ck).
Proof.
  intros HI HD HY. each_form HI; cbn [taken flat_map takes app].
  - apply (ends_time E H [ADigit td; ALetter W; ADigit ty] order _ _ _ _ None ck). now apply ends_dmy.
  - apply (ends_time E H [ALetter W; ADigit td; ADigit ty] order _ _ _ _ None ck). now apply ends_mdy.
  - apply (ends_time E H [ADigit td; ALetter W; ADigit ty] order _ _ _ _ None ck). now apply ends_dmy.
Qed.
Lemma ends_weekday_date ps : In ps weekday_date_forms \/ In ps short_weekday_date_forms -> day_text H td d -> year_text H ty y -> ends E H (taken ps td W ty WD ck) order (Some d) (Some m) (Some (ty, y)) (Some WD) None.
Proof. intros HI HD HY. each_form HI; cbn [taken flat_map takes app]; first [now apply (ends_wdmy E H order WD v) | now apply (ends_wmdy E H order WD v)]. Qed.
Lemma ends_day_month ps : In ps day_month_forms \/ In ps ordinal_day_month_forms -> In order ["DMY"; "DYM"; "MDY"]%string -> day_text H td d -> ends E H (taken ps td W ty WD ck) order (Some d) (Some m) None None None.
Proof. intros HI HO3 HD. each_form HI; cbn [taken flat_map takes app]; first [now apply ends_dm | now apply ends_md]. Qed.
Lemma ends_day_month_time ps : In ps day_month_time_forms -> In order ["DMY"; "DYM"; "MDY"]%string -> day_text H td d -> ends E H (taken ps td W ty WD ck) order (Some d) (Some m) None None (Some ck).
Proof.
  intros HI HO3 HD. each_form HI; cbn [taken flat_map takes app].
  - apply (ends_time E H [ADigit td; ALetter W] order _ _ _ _ None ck). now apply ends_dm.
  - apply (ends_time E H [ALetter W; ADigit td] order _ _ _ _ None ck). now apply ends_md.
Qed.
Lemma ends_month_year ps : In ps month_year_forms -> year_text H ty y -> ends E H (taken ps td W ty WD ck) order None (Some m) (Some (ty, y)) None None.
Proof. intros HI HY. each_form HI; cbn [taken flat_map takes app]; now apply ends_my. Qed.
Lemma ends_year ps : In ps year_forms -> year_text H ty y -> ends E H (taken ps td W ty WD ck) order None None (Some (ty, y)) None None.
Proof. intros HI HY. each_form HI; cbn [taken flat_map takes app]; now apply ends_y. Qed.
Lemma ends_weekday ps : In ps weekday_forms -> ends E H (taken ps td W ty WD ck) order None None None (Some WD) None.
Proof. intros HI. each_form HI; cbn [taken flat_map takes app]; now apply (ends_w E H order WD v). Qed.
Lemma ends_weekday_time ps : In ps weekday_time_forms -> ends E H (taken ps td W ty WD ck) order None None None (Some WD) (Some ck).
Proof. intros HI. each_form HI; cbn [taken flat_map takes app]; (apply (ends_time E H [ALetter WD] order _ _ _ _ None ck); now apply (ends_w E H order WD v)). Qed.
Lemma ends_clock ps : In ps time_forms -> ends E H (taken ps td W ty WD ck) order None None None None (Some ck).
Proof. intros HI. each_form HI; cbn [taken flat_map takes app]. apply (ends_time E H [] order _ _ _ _ None ck). apply ends_none. Qed.
Lemma ends_short_year ps : In ps short_year_forms -> In order ["DMY"; "DYM"; "MDY"]%string -> day_text H td d -> year2_text H ty y -> ends E H (taken ps td W ty WD ck) order (Some d) (Some m) (Some (ty, y)) None None.
Proof. intros HI HO3 HD HY. each_form HI; cbn [taken flat_map takes app]; first [now apply ends_dmyy | now apply ends_mdyy]. Qed.
End T.

(** ** Years near a year *)
Lemma leap_before y : exists x, y - 8 <= x < y /\ leap x = true.
Proof.
  destruct (leap (y - 1 - (y - 1) mod 4)) eqn:L; [exists (y - 1 - (y - 1) mod 4); split; [lia|exact L]|]. exists (y - 5 - (y - 1) mod 4). split; [lia|]. unfold leap in *. lia.
Qed.
Lemma leap_after y : exists x, y < x <= y + 8 /\ leap x = true.
Proof.
  destruct (leap (y + 4 - y mod 4)) eqn:L; [exists (y + 4 - y mod 4); split; [lia|exact L]|]. exists (y + 8 - y mod 4). split; [lia|]. unfold leap in *. lia.
Qed.
Lemma adjusted_near src y z : adjusted src y z -> y - 8 <= z <= y + 8.
Proof.
  intros (A1 & A2 & A3). assert (C : next_leap y z \/ prev_leap y z).
  { destruct (Z.eq_dec src Future) as [e|n]; [left; auto|]. destruct (Z.eq_dec src Past) as [e|n']; [right; auto|]. destruct (A3 n n') as [[H _]|[H _]]; auto. }
  destruct C as [(_ & H1 & H2)|(_ & H1 & H2)].
  - destruct (leap_after y) as (x & Hx & Lx). destruct (Z_le_gt_dec z x); [lia|]. specialize (H2 x ltac:(lia)). congruence.
  - destruct (leap_before y) as (x & Hx & Lx). destruct (Z_le_gt_dec x z); [lia|]. specialize (H2 x ltac:(lia)). congruence.
Qed.

(** ** The parts as the absolute parser takes them *)
Lemma day_taken E td d : day_part td d -> day_text (greg_hooks E) (map lowerA td) d.
Proof. intros (HD & HL & HV & HR). rewrite (digits_lower td HD). now apply greg_day_text. Qed.
Lemma year_taken E ty y : year_part ty y -> 2 <= y -> year_text (greg_hooks E) (map lowerA ty) y.
Proof. intros (HD & HL & HV) HR. rewrite (digits_lower ty HD). now apply greg_year_text. Qed.
Lemma month_taken E w m : month_name w m -> month_text (greg_hooks E) (full_month m) m.
Proof. intros HM. destruct (full_month_in w m HM) as (_ & _ & _ & y & HI & ->). now apply greg_month_text. Qed.
Lemma weekday_taken E w j : weekday_name w j -> weekday_text (greg_hooks E) (full_weekday j) 6.
Proof. intros HM. destruct (full_weekday_in w j HM) as (_ & _ & _ & y & HI & ->). now apply (greg_weekday_text E j). Qed.
Lemma some_month : month_name (lit "january") 1. Proof. exists "january"%string. split; [now left|vm_compute; reflexivity]. Qed.
Lemma some_weekday : weekday_name (lit "sunday") 0. Proof. exists "sunday"%string. split; [now left|vm_compute; reflexivity]. Qed.
Lemma year_digits ty y : year_part ty y -> slen (map lowerA ty) = 4.
Proof. intros (HD & HL & _). unfold slen. rewrite map_length. lia. Qed.

(** forms do not depend on the parts they do not mention *)
Definition mentions (f : piece -> bool) (ps : list piece) : bool := existsb f ps.
Definition p_day p := match p with TheDay => true | _ => false end.
Definition p_month p := match p with TheMonth => true | _ => false end.
Definition p_year p := match p with TheYear => true | _ => false end.
Definition p_weekday p := match p with TheWeekday => true | _ => false end.
Definition p_clock p := match p with TheClock => true | _ => false end.
Lemma fill_other ps td w ty wd ck td' w' ty' wd' ck' :
  (mentions p_day ps = true -> td = td') -> (mentions p_month ps = true -> w = w') -> (mentions p_year ps = true -> ty = ty') -> (mentions p_weekday ps = true -> wd = wd') -> (mentions p_clock ps = true -> ck = ck') ->
  fill ps td w ty wd ck = fill ps td' w' ty' wd' ck'.
Proof.
  unfold fill, mentions. induction ps as [|x ps IH]; intros H1 H2 H3 H4 H5; [reflexivity|]. cbn [flat_map]. cbn [existsb] in *. f_equal.
  - destruct x; cbn [put p_day p_month p_year p_weekday p_clock] in *; auto.
  - apply IH; intros HX; [apply H1|apply H2|apply H3|apply H4|apply H5]; rewrite HX; apply orb_true_r.
Qed.
Lemma no_mention f (F : list (list piece)) ps : forallb (fun ps => negb (mentions f ps)) F = true -> In ps F -> mentions f ps = false.
Proof. rewrite forallb_forall. intros H HI. specialize (H ps HI). now apply negb_true_iff. Qed.

Lemma same_on t t' y m d : same_wall t t' -> on t y m d -> on t' y m d.
Proof. unfold same_wall, on. intros (-> & -> & -> & _). auto. Qed.
Lemma same_at t t' c : same_wall t t' -> at_ t c -> at_ t' c.
Proof. unfold same_wall, at_. intros (_ & _ & _ & -> & -> & -> & ->). auto. Qed.

(** * Dates with day, month and year *)
(** [t] is on this date, or on the date that stands for it if the month has no such day (see C16) *)
Definition names_date (src y m d : Z) (t : time) : Prop :=
  (d <= days_in y m -> on t y m d) /\
  (days_in y m < d -> ~ (m = 2 /\ d = 29) -> on t y m (days_in y m)) /\
  (days_in y m < d -> m = 2 -> d = 29 -> exists z, adjusted src y z /\ on t z 2 29).
Lemma names_wall src y m d t t' : same_wall t t' -> names_date src y m d t -> names_date src y m d t'.
Proof.
  intros S (H1 & H2 & H3). split; [intros; now apply (same_on t), H1|]. split; [intros; now apply (same_on t), H2|]. intros A B C. destruct (H3 A B C) as (z & Z1 & Z2). exists z. split; [exact Z1|now apply (same_on t)].
Qed.
Lemma names_year src y m d t : names_date src y m d t -> (10 <= y \/ 2 <= y /\ d <= days_in y m) -> 2 <= year t.
Proof.
  intros (H1 & H2 & H3) HY. destruct (Z_le_gt_dec d (days_in y m)) as [L|G]; [destruct (H1 L) as (-> & _); lia|]. destruct HY as [HY|[_ HY]]; [|lia].
  destruct (Z.eq_dec m 2) as [e|n]; [destruct (Z.eq_dec d 29) as [e'|n']|].
  - destruct (H3 ltac:(lia) e e') as (z & HA & -> & _). apply adjusted_near in HA. lia.
  - destruct (H2 ltac:(lia) ltac:(lia)) as (-> & _). lia.
  - destruct (H2 ltac:(lia) ltac:(lia)) as (-> & _). lia.
Qed.
Section F.
Variables (E : env) (D : langdb) (det : option (str -> list str)) (p : pstate) (cfg : uconfig).
Notation icfg := (inner E cfg loc_en).
Lemma full_date F ms js cks ps td w ty wd ck d m y j ck0 rw rc :
  english_call E D det p cfg (fill ps td w ty wd ck) ->
  ok_forms loc_en F day_forms ms year4 js cks = true -> distinct day_forms year4 cks = true -> names_ok ms js = true ->
  In ps F -> day_part td d -> name_in ms w m -> month_name w m -> year_part ty y -> (10 <= y \/ 2 <= y /\ d <= days_in y m) ->
  (exists x, In (j, x) js /\ map lowerA wd = lit x) -> In ck0 cks -> like ck ck0 ->
  (forall order, In order orders -> exists tm, ends E (greg_hooks E) (taken ps (map lowerA td) (full_month m) (map lowerA ty) (full_weekday j) (map lowerA ck)) order (Some d) (Some m) (Some (map lowerA ty, y)) rw tm /\
       match tm with None => rc = None | Some t => exists t' p', parse_time E t = Some (t', p') /\ rc = Some (hour t', minute t', second t', nanosecond t', p') end) ->
  answers (snd (parse E D det p cfg (fill ps td w ty wd ck) [])) (fun q t =>
    q = match rc with Some (_, q) => if u_timeperiod cfg then period_min PDay q else PDay | None => PDay end /\
    at_ t match rc with Some (h, mi, sc, ns, _) => (h, mi, sc, ns) | None => (0, 0, 0, 0) end /\ names_date (u_src cfg) y m d t).
Proof.
  intros HC HF HD HN IP PD (x & IM & LM) PM PY HY (xw & IJ & LJ) IC LC HE. destruct (day_like td d PD) as (td0 & ID & LD). destruct (year_like ty y PY) as (ty0 & IY & LY).
  set (R := {| r_day := Some d; r_month := Some m; r_year := Some (map lowerA ty, y); r_weekday := rw; r_clock := rc |}).
  destruct (english_text E D det p cfg F day_forms ms year4 js cks ps td w ty wd ck td0 m x ty0 j xw ck0 R (fun q t => at_ t (clock_of R) /\ names_date (u_src cfg) y m d t) HC HF HD HN IP ID LD IM LM IY LY IJ LJ IC LC) as (q & t & t' & HP & [HA HND] & HQ & _ & SW & _).
  - intros order _ IO. exact (HE order IO).
  - intros s HR. destruct (call_current E D det p cfg _ HC) as [CU _]. destruct PD as (_ & _ & _ & DR). pose proof (month_range w m PM) as MR. pose proof (year_digits ty y PY) as YD.
    destruct (C16_impossible_days_are_clamped E icfg s R _ od_zero d m (map lowerA ty) y HR CU eq_refl eq_refl eq_refl) as (q & t & EQ & HA & H1 & H2 & H3); [lia..|].
    exists q, t. split; [exact EQ|]. assert (ND : names_date (u_src cfg) y m d t) by (split; [exact H1|split; [exact H2|exact H3]]). split; [|auto]. left. exact (names_year _ _ _ _ _ ND HY).
  - exists q, t'. split; [exact HP|]. split; [subst q; unfold f_period; cbn [R r_day r_month r_year r_clock is_some]; destruct rc as [[c q]|]; reflexivity|].
    split; [apply (same_at t); [exact SW|]; unfold clock_of in HA; cbn [R r_clock] in HA; destruct rc as [[[[[h mi] sc] ns] q']|]; exact HA|]. now apply (names_wall _ _ _ _ t).
Qed.
End F.

Lemma dist_none : distinct day_forms year4 none = true. Proof. vm_compute. reflexivity. Qed.
Lemma dist_clock : distinct day_forms year4 clock_forms = true. Proof. vm_compute. reflexivity. Qed.
Lemma dist_plain : distinct day_forms year4 plain_clock_forms = true. Proof. vm_compute. reflexivity. Qed.
Lemma names_any : names_ok month_names any_weekday = true. Proof. vm_compute. reflexivity. Qed.
Lemma names_any_full : names_ok english_months any_weekday = true. Proof. vm_compute. reflexivity. Qed.
Lemma names_any_short : names_ok short_months any_weekday = true. Proof. vm_compute. reflexivity. Qed.
Lemma names_full : names_ok english_months english_weekdays = true. Proof. vm_compute. reflexivity. Qed.
Lemma names_short : names_ok short_months short_weekdays = true. Proof. vm_compute. reflexivity. Qed.
Lemma sunday_in : exists x, In (0, x) any_weekday /\ map lowerA (lit "sunday") = lit x. Proof. exists "sunday"%string. split; [now left|vm_compute; reflexivity]. Qed.
Lemma none_in : In [] none. Proof. now left. Qed.
Lemma name_left a b w m : name_in a w m -> name_in (a ++ b) w m.
Proof. intros (x & HI & HL). exists x. split; [apply in_or_app; now left|exact HL]. Qed.
Lemma name_right a b w m : name_in b w m -> name_in (a ++ b) w m.
Proof. intros (x & HI & HL). exists x. split; [apply in_or_app; now right|exact HL]. Qed.
Lemma no_weekday F ps td w ty ck : forallb (fun ps => negb (mentions p_weekday ps)) F = true -> In ps F -> fill ps td w ty [] ck = fill ps td w ty (lit "sunday") ck.
Proof. intros HF IP. apply fill_other; intros HX; try reflexivity. rewrite (no_mention p_weekday F ps HF IP) in HX. discriminate HX. Qed.

(** ** C16 for texts: the date, or the one that stands for it if the month has no such day *)
(** the texts: a day, a month and a year *)
Definition date_text (ps : list piece) (w : str) (m : Z) : Prop := (In ps date_forms /\ month_name w m) \/ (In ps ordinal_date_forms /\ month_in_full w m).
(** and a time of day *)
Definition date_time_text (ps : list piece) (w : str) (m : Z) (ck : str) (h mi sc ns : Z) (per : period) : Prop :=
  (In ps date_time_forms /\ month_in_full w m /\ clock_part clock_forms ck h mi sc ns per) \/ (In ps short_date_time_forms /\ month_in_short w m /\ clock_part plain_clock_forms ck h mi sc ns per).
(** and a weekday *)
Definition weekday_date_text (ps : list piece) (w : str) (m : Z) (wd : str) (j : Z) : Prop :=
  (In ps weekday_date_forms /\ month_in_full w m /\ weekday_in_full wd j) \/ (In ps short_weekday_date_forms /\ month_in_short w m /\ weekday_in_short wd j).

Theorem C16_text_date : forall E D det p cfg ps td w ty d m y,
  date_text ps w m -> day_part td d -> year_part ty y -> 10 <= y \/ 2 <= y /\ d <= days_in y m ->
  english_call E D det p cfg (fill ps td w ty [] []) ->
  answers (snd (parse E D det p cfg (fill ps td w ty [] []) [])) (fun q t => q = PDay /\ at_ t (0, 0, 0, 0) /\ names_date (u_src cfg) y m d t).
Proof.
  intros E D det p cfg ps td w ty d m y [[IP PM]|[IP PM]] PD PY HY HC.
  - rewrite (no_weekday date_forms ps td w ty [] eq_refl IP) in *.
    apply (full_date E D det p cfg date_forms month_names any_weekday none ps td w ty (lit "sunday") [] d m y 0 [] None None HC check_date dist_none names_any IP PD PM PM PY HY sunday_in none_in like_nil).
    intros order IO. exists None. split; [|reflexivity]. apply ends_date; [exact IO|now apply (month_taken E w)|now left|now apply day_taken|apply year_taken; [exact PY|lia]].
  - rewrite (no_weekday ordinal_date_forms ps td w ty [] eq_refl IP) in *. assert (PM' : month_name w m) by (now apply name_left).
    apply (full_date E D det p cfg ordinal_date_forms english_months any_weekday none ps td w ty (lit "sunday") [] d m y 0 [] None None HC check_ordinal_date dist_none names_any_full IP PD PM PM' PY HY sunday_in none_in like_nil).
    intros order IO. exists None. split; [|reflexivity]. apply ends_date; [exact IO|now apply (month_taken E w)|now right|now apply day_taken|apply year_taken; [exact PY|lia]].
Qed.
Theorem C16_text_date_time : forall E D det p cfg ps td w ty ck d m y h mi sc ns per,
  date_time_text ps w m ck h mi sc ns per -> day_part td d -> year_part ty y -> 10 <= y \/ 2 <= y /\ d <= days_in y m ->
  english_call E D det p cfg (fill ps td w ty [] ck) ->
  answers (snd (parse E D det p cfg (fill ps td w ty [] ck) [])) (fun q t => q = (if u_timeperiod cfg then per else PDay) /\ at_ t (h, mi, sc, ns) /\ names_date (u_src cfg) y m d t).
Proof.
  intros E D det p cfg ps td w ty ck d m y h mi sc ns per HT PD PY HY HC.
  assert (HX : answers (snd (parse E D det p cfg (fill ps td w ty [] ck) [])) (fun q t => q = (if u_timeperiod cfg then period_min PDay per else PDay) /\ at_ t (h, mi, sc, ns) /\ names_date (u_src cfg) y m d t) /\ clock (map upperA ck) h mi sc ns per).
  { destruct HT as [(IP & PM & PC)|(IP & PM & PC)]; (split; [|exact (proj1 PC)]); destruct (clock_time E _ _ _ _ _ _ _ PC) as (tm & HT & T1 & T2 & T3 & T4); pose proof PC as (CK & ck0 & IC & LC).
    - rewrite (no_weekday date_time_forms ps td w ty ck eq_refl IP) in *. assert (PM' : month_name w m) by (now apply name_left).
      apply (full_date E D det p cfg date_time_forms english_months any_weekday clock_forms ps td w ty (lit "sunday") ck d m y 0 ck0 None (Some (h, mi, sc, ns, per)) HC check_date_time dist_clock names_any_full IP PD PM PM' PY HY sunday_in IC LC).
      intros order IO. exists (Some (map lowerA ck)). split; [|exists tm, per; split; [exact HT|now rewrite T1, T2, T3, T4]]. apply ends_date_time; [exact IO|now apply (month_taken E w)|now left|now apply day_taken|apply year_taken; [exact PY|lia]].
    - rewrite (no_weekday short_date_time_forms ps td w ty ck eq_refl IP) in *. assert (PM' : month_name w m) by (now apply name_right).
      apply (full_date E D det p cfg short_date_time_forms short_months any_weekday plain_clock_forms ps td w ty (lit "sunday") ck d m y 0 ck0 None (Some (h, mi, sc, ns, per)) HC check_short_date_time dist_plain names_any_short IP PD PM PM' PY HY sunday_in IC LC).
      intros order IO. exists (Some (map lowerA ck)). split; [|exists tm, per; split; [exact HT|now rewrite T1, T2, T3, T4]]. apply ends_date_time; [exact IO|now apply (month_taken E w)|now right|now apply day_taken|apply year_taken; [exact PY|lia]]. }
  destruct HX as [(q & t & HP & HQ & HA & HND) CK]. exists q, t. split; [exact HP|]. split; [|auto]. rewrite HQ. destruct (u_timeperiod cfg); [|reflexivity]. clear - CK. inversion CK; reflexivity.
Qed.
(** the weekday does not matter *)
Theorem C16_text_weekday_date : forall E D det p cfg ps td w ty wd d m y j,
  weekday_date_text ps w m wd j -> day_part td d -> year_part ty y -> 10 <= y \/ 2 <= y /\ d <= days_in y m ->
  english_call E D det p cfg (fill ps td w ty wd []) ->
  answers (snd (parse E D det p cfg (fill ps td w ty wd []) [])) (fun q t => q = PDay /\ at_ t (0, 0, 0, 0) /\ names_date (u_src cfg) y m d t).
Proof.
  intros E D det p cfg ps td w ty wd d m y j [(IP & PM & PW)|(IP & PM & PW)] PD PY HY HC.
  - assert (PM' : month_name w m) by (now apply name_left). assert (PW' : weekday_name wd j) by (now apply name_left).
    apply (full_date E D det p cfg weekday_date_forms english_months english_weekdays none ps td w ty wd [] d m y j [] (Some (full_weekday j)) None HC check_weekday_date dist_none names_full IP PD PM PM' PY HY PW none_in like_nil).
    intros order IO. exists None. split; [|reflexivity]. apply (ends_weekday_date E order _ _ _ _ _ d m y 6); [exact IO|now apply (month_taken E w)|now apply (weekday_taken E wd)|now left|now apply day_taken|apply year_taken; [exact PY|lia]].
  - assert (PM' : month_name w m) by (now apply name_right). assert (PW' : weekday_name wd j) by (now apply name_right).
    apply (full_date E D det p cfg short_weekday_date_forms short_months short_weekdays none ps td w ty wd [] d m y j [] (Some (full_weekday j)) None HC check_short_weekday_date dist_none names_short IP PD PM PM' PY HY PW none_in like_nil).
    intros order IO. exists None. split; [|reflexivity]. apply (ends_weekday_date E order _ _ _ _ _ d m y 6); [exact IO|now apply (month_taken E w)|now apply (weekday_taken E wd)|now right|now apply day_taken|apply year_taken; [exact PY|lia]].
Qed.
Print Assumptions C16_text_date.
Print Assumptions C16_text_date_time.
Print Assumptions C16_text_weekday_date.

(** * C55: a date in words is read as that date *)
Lemma names_shows r (q : period) c src y m d : d <= days_in y m -> answers r (fun q' t => q' = q /\ at_ t c /\ names_date src y m d t) ->
  shows r y m d (fst (fst (fst c))) (snd (fst (fst c))) (snd (fst c)) (snd c) q (lit "en").
Proof.
  intros HV (q' & t & -> & -> & HA & HN & _). destruct (HN HV) as (H1 & H2 & H3). unfold at_ in HA. subst c. exists (with_locale (mkd q t) (lit "en")). cbn [fst snd d_time d_period d_locale with_locale mkd]. auto 12.
Qed.
Theorem C55_date : forall E D det p cfg ps td w ty d m y,
  date_text ps w m -> day_part td d -> year_part ty y -> valid_date y m d -> 2 <= y ->
  english_call E D det p cfg (fill ps td w ty [] []) ->
  shows (snd (parse E D det p cfg (fill ps td w ty [] []) [])) y m d 0 0 0 0 PDay (lit "en").
Proof.
  intros E D det p cfg ps td w ty d m y IP PD PY [_ HV] HY HC. apply (names_shows _ PDay (0, 0, 0, 0) (u_src cfg) y m d); [apply HV|]. apply C16_text_date; try assumption. right. split; [exact HY|apply HV].
Qed.
Theorem C55_date_time : forall E D det p cfg ps td w ty ck d m y h mi sc ns per,
  date_time_text ps w m ck h mi sc ns per -> day_part td d -> year_part ty y -> valid_date y m d -> 2 <= y ->
  english_call E D det p cfg (fill ps td w ty [] ck) ->
  shows (snd (parse E D det p cfg (fill ps td w ty [] ck) [])) y m d h mi sc ns (if u_timeperiod cfg then per else PDay) (lit "en").
Proof.
  intros E D det p cfg ps td w ty ck d m y h mi sc ns per IP PD PY [_ HV] HY HC. apply (names_shows _ (if u_timeperiod cfg then per else PDay) (h, mi, sc, ns) (u_src cfg) y m d); [apply HV|]. apply C16_text_date_time; try assumption. right. split; [exact HY|apply HV].
Qed.
Theorem C55_weekday_date : forall E D det p cfg ps td w ty wd d m y j,
  weekday_date_text ps w m wd j -> day_part td d -> year_part ty y -> valid_date y m d -> 2 <= y ->
  english_call E D det p cfg (fill ps td w ty wd []) ->
  shows (snd (parse E D det p cfg (fill ps td w ty wd []) [])) y m d 0 0 0 0 PDay (lit "en").
Proof.
  intros E D det p cfg ps td w ty wd d m y j IP PD PY [_ HV] HY HC. apply (names_shows _ PDay (0, 0, 0, 0) (u_src cfg) y m d); [apply HV|]. apply (C16_text_weekday_date E D det p cfg ps td w ty wd d m y j); try assumption. right. split; [exact HY|apply HV].
Qed.
Print Assumptions C55_date.
Print Assumptions C55_date_time.
Print Assumptions C55_weekday_date.

(** * C14, C15: dates without a day, without a month *)
Lemma call_lenient E cfg : u_strict cfg = false -> u_required cfg = [] -> lenient (inner E cfg loc_en).
Proof. intros H1 H2. split; [exact H1|exact H2]. Qed.
Lemma now_month E cfg : 1 <= month (now_of E cfg) <= 12. Proof. destruct (civil_valid (now_of E cfg)) as [[? _] _]. lia. Qed.
(** the day of the month [m] of year [y] that the configuration prefers *)
Definition preferred_day (cfg : uconfig) (today y m d : Z) : Prop :=
  (u_pday cfg = First -> d = 1) /\ (u_pday cfg = Last -> d = days_in y m) /\ (u_pday cfg = Current -> d = Z.min today (days_in y m)).
Lemma pref_day_spec cfg E today y m : 1 <= today -> preferred_day cfg today y m (pref_day_of (inner E cfg loc_en) today (days_in y m)).
Proof. intros _. unfold preferred_day, pref_day_of, First, Last, Current. change (c_pday (inner E cfg loc_en)) with (u_pday cfg). split; [intros ->; reflexivity|]. split; intros ->; reflexivity. Qed.
Theorem C14_text_partial : forall E D det p cfg ps w ty m y,
  In ps month_year_forms -> month_name w m -> year_part ty y -> 10 <= y -> u_strict cfg = false -> u_required cfg = [] ->
  english_call E D det p cfg (fill ps [] w ty [] []) ->
  answers (snd (parse E D det p cfg (fill ps [] w ty [] []) [])) (fun q t =>
    q = PMonth /\ at_ t (0, 0, 0, 0) /\ month t = m /\ preferred_day cfg (day (now_of E cfg)) (year t) m (day t) /\
    (~ needs_leap y m (day (now_of E cfg)) -> year t = y) /\ (needs_leap y m (day (now_of E cfg)) -> adjusted (u_src cfg) y (year t))).
Proof.
  intros E D det p cfg ps w ty m y IP PM PY HY HS HQ HC. pose proof (now_month E cfg) as NM. set (now := now_of E cfg) in *.
  assert (EF : fill ps [] w ty [] [] = fill ps [] w ty (lit "sunday") []) by (apply fill_other; intros HX; try reflexivity; rewrite (no_mention p_weekday month_year_forms ps eq_refl IP) in HX; discriminate HX).
  rewrite EF in *. destruct (full_month_in w m PM) as (x & IM & LM & _). destruct (year_like ty y PY) as (ty0 & IY & LY). destruct sunday_in as (xw & IJ & LJ).
  set (R := {| r_day := None; r_month := Some m; r_year := Some (map lowerA ty, y); r_weekday := None; r_clock := None |}).
  destruct (english_text E D det p cfg month_year_forms none month_names year4 any_weekday none ps [] w ty (lit "sunday") [] [] m x ty0 0 xw [] R
    (fun q t => at_ t (0, 0, 0, 0) /\ month t = m /\ preferred_day cfg (day now) (year t) m (day t) /\ (~ needs_leap y m (day now) -> year t = y) /\ (needs_leap y m (day now) -> adjusted (u_src cfg) y (year t)))
    HC check_month_year eq_refl names_any IP none_in like_nil IM LM IY LY IJ LJ none_in like_nil) as (q & t & t' & HP & (HA & HM & HD & HY1 & HY2) & EQ & _ & SW & _).
  - intros order _ IO. exists None. split; [|reflexivity]. apply ends_month_year; [exact IO|now apply (month_taken E w)|exact IP|apply year_taken; [exact PY|lia]].
  - intros s HR. destruct (call_current E D det p cfg _ HC) as [CU _]. pose proof (month_range w m PM) as MR. pose proof (year_digits ty y PY) as YD.
    pose proof (year_given E _ s R now od_zero (map lowerA ty) y HR CU (or_introl (call_lenient E cfg HS HQ)) eq_refl ltac:(lia) ltac:(lia)) as G. cbv zeta in G. cbn [R r_day r_month r_weekday r_clock or_default is_some orb] in G.
    unfold or_default in G. assert (m =? 0 = false) as E0 by lia. rewrite E0 in G. destruct (G MR) as (q & t & ER & -> & HA & _ & HO1 & HO2 & HO3). clear G. eexists _, t. split; [exact ER|].
    assert (FY : (~ needs_leap y m (day now) -> year t = y) /\ (needs_leap y m (day now) -> adjusted (u_src cfg) y (year t))).
    { rewrite HO1. destruct (fix_year_spec (inner E cfg loc_en) y m (day now)) as [[F1 F2]|[F1 F2]]; (split; [intros; try contradiction|intros; try contradiction]); [exact F2|exact F2]. }
    split.
    + left. destruct FY as [FY1 FY2]. destruct (fix_year_spec (inner E cfg loc_en) y m (day now)) as [[F1 F2]|[F1 F2]]; [apply FY2, adjusted_near in F1; lia|rewrite FY1 by exact F1; lia].
    + split; [exact HA|]. split; [exact HO2|]. split; [|exact FY]. rewrite HO3. rewrite <- HO1. apply pref_day_spec. destruct (civil_valid now) as [[_ ?] _]. lia.
  - exists q, t'. split; [exact HP|]. destruct SW as (W1 & W2 & W3 & W4 & W5 & W6 & W7). split; [exact EQ|]. unfold at_ in *. rewrite W1, W2, W3, W4, W5, W6, W7. auto 10.
Qed.
Print Assumptions C14_text_partial.
Theorem C15_text_partial : forall E D det p cfg ps ty y,
  In ps year_forms -> year_part ty y -> 10 <= y -> u_strict cfg = false -> u_required cfg = [] ->
  english_call E D det p cfg (fill ps [] [] ty [] []) ->
  let now := now_of E cfg in
  answers (snd (parse E D det p cfg (fill ps [] [] ty [] []) [])) (fun q t =>
    q = PYear /\ at_ t (0, 0, 0, 0) /\
    (u_pmonth cfg = FirstMonth -> month t = 1) /\ (u_pmonth cfg = LastMonth -> month t = 12) /\ (u_pmonth cfg = CurrentMonth -> month t = month now) /\
    preferred_day cfg (day now) (year t) (month t) (day t) /\
    (~ needs_leap y (month now) (day now) -> year t = y) /\ (needs_leap y (month now) (day now) -> adjusted (u_src cfg) y (year t))).
Proof.
  intros E D det p cfg ps ty y IP PY HY HS HQ HC now. pose proof (now_month E cfg) as NM. fold now in NM.
  assert (EF : fill ps [] [] ty [] [] = fill ps [] (lit "january") ty (lit "sunday") []) by (apply fill_other; intros HX; try reflexivity; [rewrite (no_mention p_month year_forms ps eq_refl IP) in HX; discriminate HX|rewrite (no_mention p_weekday year_forms ps eq_refl IP) in HX; discriminate HX]).
  rewrite EF in *. destruct (year_like ty y PY) as (ty0 & IY & LY). destruct sunday_in as (xw & IJ & LJ).
  assert (IM : In (1, "january"%string) any_month) by (now left). assert (LM : map lowerA (lit "january") = lit "january") by (vm_compute; reflexivity).
  set (R := {| r_day := None; r_month := None; r_year := Some (map lowerA ty, y); r_weekday := None; r_clock := None |}).
  destruct (english_text E D det p cfg year_forms none any_month year4 any_weekday none ps [] (lit "january") ty (lit "sunday") [] [] 1 _ ty0 0 xw [] R
    (fun q t => at_ t (0, 0, 0, 0) /\ ((u_pmonth cfg = FirstMonth -> month t = 1) /\ (u_pmonth cfg = LastMonth -> month t = 12) /\ (u_pmonth cfg = CurrentMonth -> month t = month now)) /\
       preferred_day cfg (day now) (year t) (month t) (day t) /\ (~ needs_leap y (month now) (day now) -> year t = y) /\ (needs_leap y (month now) (day now) -> adjusted (u_src cfg) y (year t)))
    HC check_year eq_refl eq_refl IP none_in like_nil IM LM IY LY IJ LJ none_in like_nil) as (q & t & t' & HP & (HA & (HM1 & HM2 & HM3) & HD & HY1 & HY2) & EQ & _ & SW & _).
  - intros order _ IO. exists None. split; [|reflexivity]. apply ends_year; [exact IO|exact IP|apply year_taken; [exact PY|lia]].
  - intros s HR. destruct (call_current E D det p cfg _ HC) as [CU _]. pose proof (year_digits ty y PY) as YD.
    pose proof (year_given E _ s R now od_zero (map lowerA ty) y HR CU (or_introl (call_lenient E cfg HS HQ)) eq_refl ltac:(lia) ltac:(lia)) as G. cbv zeta in G. cbn [R r_day r_month r_weekday r_clock or_default is_some orb] in G.
    destruct (G NM) as (q & t & ER & -> & HA & _ & HO1 & HO2 & HO3). clear G. eexists _, t. split; [exact ER|].
    assert (FY : (~ needs_leap y (month now) (day now) -> year t = y) /\ (needs_leap y (month now) (day now) -> adjusted (u_src cfg) y (year t))).
    { rewrite HO1. destruct (fix_year_spec (inner E cfg loc_en) y (month now) (day now)) as [[F1 F2]|[F1 F2]]; (split; [intros; try contradiction|intros; try contradiction]); [exact F2|exact F2]. }
    split.
    + left. destruct FY as [FY1 FY2]. destruct (fix_year_spec (inner E cfg loc_en) y (month now) (day now)) as [[F1 F2]|[F1 F2]]; [apply FY2, adjusted_near in F1; lia|rewrite FY1 by exact F1; lia].
    + split; [exact HA|]. split; [rewrite HO2; unfold pref_month_of, FirstMonth, LastMonth, CurrentMonth; change (c_pmonth (inner E cfg loc_en)) with (u_pmonth cfg); split; [intros ->; reflexivity|split; intros ->; reflexivity]|].
      split; [|exact FY]. rewrite HO3. rewrite <- HO1, <- HO2. apply pref_day_spec. destruct (civil_valid now) as [[_ ?] _]. lia.
  - exists q, t'. split; [exact HP|]. destruct SW as (W1 & W2 & W3 & W4 & W5 & W6 & W7). split; [exact EQ|]. unfold at_ in *. rewrite W1, W2, W3, W4, W5, W6, W7. auto 12.
Qed.
Print Assumptions C15_text_partial.

(** * C11: a weekday, alone or with a time of day *)
Lemma wall_days t t' : same_wall t t' -> local_days t' = local_days t /\ weekday t' = weekday t.
Proof.
  intros (W1 & W2 & W3 & _). destruct (civil_valid t) as [_ H1]. destruct (civil_valid t') as [_ H2]. rewrite W1, W2, W3 in H2. assert (L : local_days t' = local_days t) by congruence. split; [exact L|]. unfold weekday. now rewrite L.
Qed.
Lemma year_from_days t k : days_of_civil k 1 1 <= local_days t -> k <= year t.
Proof.
  intros H. destruct (civil_valid t) as [HV HD]. destruct (Z_lt_le_dec (year t) k) as [L|L]; [|exact L]. exfalso. assert (days_of_civil (year t) (month t) (day t) < days_of_civil k 1 1).
  { apply days_of_civil_lt; [exact HV|split; [lia|pose proof (days_in_bounds k 1); lia]|now left]. }
  lia.
Qed.
Lemma days_of_year t k : k <= year t -> days_of_civil k 1 1 <= local_days t.
Proof.
  intros H. destruct (civil_valid t) as [HV HD]. rewrite <- HD. destruct (Z.eq_dec (year t) k) as [E|N].
  - destruct (Z.eq_dec (month t) 1) as [E1|N1]; [destruct (Z.eq_dec (day t) 1) as [E2|N2]; [rewrite E, E1, E2; lia|]|].
    + assert (days_of_civil k 1 1 < days_of_civil (year t) (month t) (day t)); [|lia]. apply days_of_civil_lt; [split; [lia|pose proof (days_in_bounds k 1); lia]|exact HV|]. right. destruct HV. lia.
    + assert (days_of_civil k 1 1 < days_of_civil (year t) (month t) (day t)); [|lia]. apply days_of_civil_lt; [split; [lia|pose proof (days_in_bounds k 1); lia]|exact HV|]. right. destruct HV. lia.
  - assert (days_of_civil k 1 1 < days_of_civil (year t) (month t) (day t)); [|lia]. apply days_of_civil_lt; [split; [lia|pose proof (days_in_bounds k 1); lia]|exact HV|left; lia].
Qed.
(** the day of the answer: the next, the previous or the current week's *)
Definition weekday_near (src : Z) (now t : time) (j : Z) : Prop :=
  weekday t = j /\ (src = Future -> 1 <= local_days t - local_days now <= 7) /\ (src = Past -> -7 <= local_days t - local_days now <= -1) /\ (src = CurrentPeriod -> -6 <= local_days t - local_days now <= 0).
(** a weekday alone *)
Definition weekday_text_of (ps : list piece) (wd : str) (j : Z) (ck : str) (c : Z * Z * Z * Z) : Prop :=
  (In ps weekday_forms /\ weekday_name wd j /\ ck = [] /\ c = (0, 0, 0, 0)) \/
  (In ps weekday_time_forms /\ weekday_in_full wd j /\ exists h mi sc ns per, clock_part (clock_forms ++ hour_forms ++ second_forms) ck h mi sc ns per /\ c = (h, mi, sc, ns)).
Lemma full_spells j y : In (j, y) english_weekdays -> forall j', 0 <= j' < 7 -> (spells short_days j' (lit y) \/ spells long_days j' (lit y)) -> j' = j.
Proof.
  intros HI j' Hj HS. destruct (spells_first3 j' _ Hj HS) as [F3 _]. revert HI F3. clear HS. assert (C : j' = 0 \/ j' = 1 \/ j' = 2 \/ j' = 3 \/ j' = 4 \/ j' = 5 \/ j' = 6) by lia. clear Hj.
  unfold english_weekdays. cbn [In]. intros HI. repeat match type of HI with _ \/ _ => destruct HI as [HI|HI] end; try (destruct HI; fail); injection HI as <- <-;
  (destruct C as [->|[->|[->|[->|[->|[->| ->]]]]]]; vm_compute; intros F3; first [reflexivity | discriminate F3]).
Qed.
Theorem C11_text : forall E D det p cfg ps wd j ck c,
  weekday_text_of ps wd j ck c -> 3 <= year (now_of E cfg) -> u_strict cfg = false -> u_required cfg = [] ->
  (u_src cfg = CurrentPeriod \/ u_src cfg = Past \/ u_src cfg = Future) ->
  english_call E D det p cfg (fill ps [] [] [] wd ck) ->
  answers (snd (parse E D det p cfg (fill ps [] [] [] wd ck) [])) (fun q t => at_ t c /\ weekday_near (u_src cfg) (now_of E cfg) t j).
Proof.
  intros E D det p cfg ps wd j ck c HT HNY HS HQ HSRC HC. set (now := now_of E cfg) in *.
  assert (IM : In (1, "january"%string) any_month) by (now left). assert (LM : map lowerA (lit "january") = lit "january") by (vm_compute; reflexivity).
  assert (PW : weekday_name wd j) by (destruct HT as [(_ & PW & _)|(_ & PW & _)]; [exact PW|now apply name_left]). destruct (full_weekday_in wd j PW) as (xw & _ & _ & y & IY & EY).
  assert (G : forall R, r_day R = None -> r_month R = None -> r_year R = None -> r_weekday R = Some (full_weekday j) -> forall s, reads E (inner E cfg loc_en) s R ->
    result (absolute_parse E (inner E cfg loc_en) s od_zero) (fun q t => (2 <= year t \/ u_tz cfg = None /\ is_zero t = false) /\ at_ t (clock_of R) /\ weekday_near (u_src cfg) now t j)).
  { intros R R1 R2 R3 R4 s HR. destruct (call_current E D det p cfg _ HC) as [CU _].
    destruct (C11_weekday_alone E _ s R now od_zero (full_weekday j) HR CU (call_lenient E cfg HS HQ) R4 R1 R2 R3 HSRC) as (j' & Hj & HSp & q & t & EQ & HA & HW & _ & HB). cbv zeta in HB. rewrite EY in HSp. pose proof (full_spells j y IY j' Hj HSp) as EJ.
    exists q, t. split; [exact EQ|]. split; [|split; [exact HA|split; [now rewrite HW|exact HB]]]. left. apply year_from_days. pose proof (days_of_year now 3 HNY) as DN.
    change (days_of_civil 3 1 1) with (-718432) in DN. change (days_of_civil 2 1 1) with (-718797). change (c_src (inner E cfg loc_en)) with (u_src cfg) in HB. destruct HB as (B1 & B2 & B3). destruct HSRC as [X|[X|X]]; [specialize (B3 X)|specialize (B2 X)|specialize (B1 X)]; lia. }
  assert (X : exists q t t', snd (parse E D det p cfg (fill ps [] [] [] wd ck) []) = Ok (with_locale (mkd q t') (lit "en"), None) /\ (at_ t c /\ weekday_near (u_src cfg) now t j) /\ same_wall t t').
  { destruct HT as [(IP & PWn & -> & ->)|(IP & PWf & h & mi & sc & ns & per & PC & ->)].
    - assert (EF : fill ps [] [] [] wd [] = fill ps [] (lit "january") [] wd []) by (apply fill_other; intros HX; try reflexivity; rewrite (no_mention p_month weekday_forms ps eq_refl IP) in HX; discriminate HX).
      rewrite EF in *. destruct PWn as (x0 & IJ & LJ). set (R := {| r_day := None; r_month := None; r_year := None; r_weekday := Some (full_weekday j); r_clock := None |}).
      destruct (english_text E D det p cfg weekday_forms none any_month none weekday_names none ps [] (lit "january") [] wd [] [] 1 _ [] j x0 [] R
        (fun q t => at_ t (0, 0, 0, 0) /\ weekday_near (u_src cfg) now t j) HC check_weekday eq_refl eq_refl IP none_in like_nil IM LM none_in like_nil IJ LJ none_in like_nil) as (q & t & t' & HP & HA & _ & _ & SW & _).
      + intros order _ IO. exists None. split; [|reflexivity]. apply (ends_weekday E order _ _ _ _ _ 6); [exact IO|now apply (weekday_taken E wd)|exact IP].
      + exact (G R eq_refl eq_refl eq_refl eq_refl).
      + exists q, t, t'. auto.
    - assert (EF : fill ps [] [] [] wd ck = fill ps [] (lit "january") [] wd ck) by (apply fill_other; intros HX; try reflexivity; rewrite (no_mention p_month weekday_time_forms ps eq_refl IP) in HX; discriminate HX).
      rewrite EF in *. destruct PWf as (x0 & IJ & LJ). destruct (clock_time E _ _ _ _ _ _ _ PC) as (tm & HT & T1 & T2 & T3 & T4). pose proof PC as (_ & ck0 & IC & LC).
      set (R := {| r_day := None; r_month := None; r_year := None; r_weekday := Some (full_weekday j); r_clock := Some (h, mi, sc, ns, per) |}).
      destruct (english_text E D det p cfg weekday_time_forms none any_month none english_weekdays _ ps [] (lit "january") [] wd ck [] 1 _ [] j x0 ck0 R
        (fun q t => at_ t (h, mi, sc, ns) /\ weekday_near (u_src cfg) now t j) HC check_weekday_time eq_refl eq_refl IP none_in like_nil IM LM none_in like_nil IJ LJ IC LC) as (q & t & t' & HP & HA & _ & _ & SW & _).
      + intros order _ IO. exists (Some (map lowerA ck)). split; [|exists tm, per; split; [exact HT|now rewrite T1, T2, T3, T4]]. apply (ends_weekday_time E order _ _ _ _ _ 6); [exact IO|now apply (weekday_taken E wd)|exact IP].
      + exact (G R eq_refl eq_refl eq_refl eq_refl).
      + exists q, t, t'. auto. }
  destruct X as (q & t & t' & HP & (HA & HW & HB) & SW). exists q, t'. split; [exact HP|]. split; [now apply (same_at t)|]. destruct (wall_days t t' SW) as [L1 L2]. unfold weekday_near. rewrite L1, L2. split; [exact HW|exact HB].
Qed.
Print Assumptions C11_text.

(** * C12: a day and a month *)
(** an instant after year 1 is not that of the zero time *)
Definition late (l : location) : Z := instant (mk_date 2 1 1 0 0 0 0 l).
Lemma late_later l t : fixed l -> -86400 <= z_off (l_base l) <= 86400 -> late l <= instant t -> is_zero t = false.
Proof.
  intros HL HO HI. destruct (is_zero t) eqn:Z; [|reflexivity]. exfalso. unfold is_zero in Z. apply andb_true_iff in Z as [Z1 Z2]. apply Z.eqb_eq in Z1, Z2. unfold late in HI. rewrite instant_mk_date in HI by (assumption || lia). change (days_of_civil 2 1 1) with (-718797) in HI.
  unfold instant in HI. rewrite Z1, Z2 in HI. unfold zero_sec in HI. lia.
Qed.
Definition day_month_text (ps : list piece) (w : str) (m : Z) (ck : str) (c : Z * Z * Z * Z) : Prop :=
  (In ps day_month_forms /\ month_name w m /\ ck = [] /\ c = (0, 0, 0, 0)) \/ (In ps ordinal_day_month_forms /\ month_in_full w m /\ ck = [] /\ c = (0, 0, 0, 0)) \/
  (In ps day_month_time_forms /\ month_in_full w m /\ exists h mi sc ns per, clock_part clock_forms ck h mi sc ns per /\ c = (h, mi, sc, ns)).
(** the date order puts the day before the year *)
Definition day_first (cfg : uconfig) : Prop := exists order, inner_order cfg loc_en = lit order /\ In order ["DMY"; "DYM"; "MDY"]%string.
Definition dist3 : distinct day_forms none none = true := eq_refl.
Lemma dist3c : distinct day_forms none clock_forms = true. Proof. vm_compute. reflexivity. Qed.
Theorem C12_text : forall E D det p cfg ps td w d m ck c,
  day_month_text ps w m ck c -> day_part td d -> d <= days_in 2000 m -> day_first cfg -> 1000 <= year (now_of E cfg) -> u_strict cfg = false -> u_required cfg = [] -> u_tz cfg = None ->
  english_call E D det p cfg (fill ps td w [] [] ck) ->
  let now := now_of E cfg in
  answers (snd (parse E D det p cfg (fill ps td w [] [] ck) [])) (fun q t =>
    on t (year t) m d /\ at_ t c /\ t_loc t = t_loc now /\
    let T y := let '(h, mi, sc, ns) := c in instant (mk_date y m d h mi sc ns (t_loc now)) in
    (u_src cfg = Past -> instant t <= instant now /\ forall y, valid_date y m d -> instant t < T y -> instant now < T y) /\
    (u_src cfg = Future -> instant now < instant t /\ forall y, valid_date y m d -> T y < instant t -> T y <= instant now) /\
    (u_src cfg <> Past -> u_src cfg <> Future ->
       (valid_date (year now) m d /\ year t = year now) \/ (~ valid_date (year now) m d /\ adjusted (u_src cfg) (year now) (year t)))).
Proof.
  intros E D det p cfg ps td w d m ck c HT PD DL (order0 & EO0 & IO0) HNY HS HQ HTZ HC now. fold now in HNY.
  assert (PM : month_name w m) by (destruct HT as [(_ & PM & _)|[(_ & PM & _)|(_ & PM & _)]]; [exact PM|now apply name_left..]). pose proof (month_range w m PM) as MR. pose proof PD as (_ & _ & _ & DR).
  destruct (call_current E D det p cfg _ HC) as [CU OFF]. fold now in CU, OFF. pose proof (cur_wf _ _ CU) as NW. pose proof (cur_fixed _ _ CU) as NF.
  set (Q := fun t => on t (year t) m d /\ at_ t c /\ t_loc t = t_loc now /\
    let T y := let '(h, mi, sc, ns) := c in instant (mk_date y m d h mi sc ns (t_loc now)) in
    (u_src cfg = Past -> instant t <= instant now /\ forall y, valid_date y m d -> instant t < T y -> instant now < T y) /\
    (u_src cfg = Future -> instant now < instant t /\ forall y, valid_date y m d -> T y < instant t -> T y <= instant now) /\
    (u_src cfg <> Past -> u_src cfg <> Future -> (valid_date (year now) m d /\ year t = year now) \/ (~ valid_date (year now) m d /\ adjusted (u_src cfg) (year now) (year t)))).
  assert (LN : late (t_loc now) < instant now).
  { unfold late. apply (wall_order now 2 1 1 0 0 0 0 NW NF); [split; [lia|vm_compute; split; discriminate]|unfold valid_clock; lia|lia]. }
  assert (G : forall R, r_day R = Some d -> r_month R = Some m -> r_year R = None -> clock_of R = c -> forall s, reads E (inner E cfg loc_en) s R ->
    result (absolute_parse E (inner E cfg loc_en) s od_zero) (fun q t => (2 <= year t \/ u_tz cfg = None /\ is_zero t = false) /\ Q t)).
  { intros R R1 R2 R3 R4 s HR. destruct (C12_day_and_month E _ s R now od_zero d m HR CU (call_lenient E cfg HS HQ) R1 R2 R3 MR ltac:(lia)) as (q & t & EQ & HH). rewrite R4 in HH. exists q, t. split; [exact EQ|]. split; [|exact HH].
    destruct HH as (_ & _ & _ & HP & HF & HN). change (c_src (inner E cfg loc_en)) with (u_src cfg) in *. destruct (Z.eq_dec (u_src cfg) Past) as [EP|NP]; [|destruct (Z.eq_dec (u_src cfg) Future) as [EF|NFu]].
    - right. split; [exact HTZ|]. apply (late_later (t_loc now)); [exact NF|exact OFF|]. destruct (HP EP) as [_ HMX]. destruct c as [[[h mi] sc] ns]. pose proof (reads_clock E _ s R HR _ _ _ _ R4) as VC.
      assert (V4 : valid_date 400 m d) by (split; [exact MR|]; split; [lia|]; change (days_in 400 m) with (days_in 2000 m); exact DL).
      destruct (wall_order now 400 m d h mi sc ns NW NF V4 VC) as [WO _]. specialize (WO ltac:(lia)). specialize (HMX 400 V4).
      destruct (Z_lt_le_dec (instant t) (instant (mk_date 400 m d h mi sc ns (t_loc now)))) as [L|L]; [specialize (HMX L); lia|]. refine (Z.le_trans _ _ _ _ L). unfold late. rewrite !instant_mk_date by (assumption || lia).
      assert (days_of_civil 2 1 1 < days_of_civil 400 m d) by (apply days_of_civil_lt; [split; [lia|vm_compute; split; discriminate]|exact V4|lia]). unfold valid_clock in VC. lia.
    - right. split; [exact HTZ|]. apply (late_later (t_loc now)); [exact NF|exact OFF|]. destruct (HF EF) as [HL _]. lia.
    - left. destruct (HN NP NFu) as [[_ ->]|[_ HA]]; [lia|apply adjusted_near in HA; lia]. }
  assert (X : exists q t t', snd (parse E D det p cfg (fill ps td w [] [] ck) []) = Ok (with_locale (mkd q t') (lit "en"), None) /\ Q t /\ (u_tz cfg = None -> t' = t)).
  { destruct (day_like td d PD) as (td0 & ID & LD). destruct sunday_in as (xw & IJ & LJ). clear PM. destruct HT as [(IP & PM & -> & EC)|[(IP & PM & -> & EC)|(IP & PM & h & mi & sc & ns & per & PC & EC)]].
    - rewrite (no_weekday day_month_forms ps td w [] [] eq_refl IP) in *. pose proof PM as (x & IM & LM). set (R := {| r_day := Some d; r_month := Some m; r_year := None; r_weekday := None; r_clock := None |}).
      destruct (english_text E D det p cfg day_month_forms day_forms month_names none any_weekday none ps td w [] (lit "sunday") [] td0 m x [] 0 xw [] R (fun _ => Q) HC check_day_month dist3 names_any IP ID LD IM LM none_in like_nil IJ LJ none_in like_nil) as (q & t & t' & HP & HA & _ & _ & _ & SW).
      + intros order EO IO. assert (order = order0) by (apply RelFacts.lit_inj; congruence). subst order. exists None. split; [|reflexivity]. apply ends_day_month; [now apply (month_taken E w)|now left|exact IO0|now apply day_taken].
      + apply G; try reflexivity. now rewrite EC.
      + exists q, t, t'. auto.
    - rewrite (no_weekday ordinal_day_month_forms ps td w [] [] eq_refl IP) in *. pose proof PM as (x & IM & LM). set (R := {| r_day := Some d; r_month := Some m; r_year := None; r_weekday := None; r_clock := None |}).
      destruct (english_text E D det p cfg ordinal_day_month_forms day_forms english_months none any_weekday none ps td w [] (lit "sunday") [] td0 m x [] 0 xw [] R (fun _ => Q) HC check_ordinal_day_month dist3 names_any_full IP ID LD IM LM none_in like_nil IJ LJ none_in like_nil) as (q & t & t' & HP & HA & _ & _ & _ & SW).
      + intros order EO IO. assert (order = order0) by (apply RelFacts.lit_inj; congruence). subst order. exists None. split; [|reflexivity]. apply ends_day_month; [apply (month_taken E w), name_left, PM|now right|exact IO0|now apply day_taken].
      + apply G; try reflexivity. now rewrite EC.
      + exists q, t, t'. auto.
    - rewrite (no_weekday day_month_time_forms ps td w [] ck eq_refl IP) in *. pose proof PM as (x & IM & LM). destruct (clock_time E _ _ _ _ _ _ _ PC) as (tm & HT & T1 & T2 & T3 & T4). pose proof PC as (_ & ck0 & IC & LC).
      set (R := {| r_day := Some d; r_month := Some m; r_year := None; r_weekday := None; r_clock := Some (h, mi, sc, ns, per) |}).
      destruct (english_text E D det p cfg day_month_time_forms day_forms english_months none any_weekday clock_forms ps td w [] (lit "sunday") ck td0 m x [] 0 xw ck0 R (fun _ => Q) HC check_day_month_time dist3c names_any_full IP ID LD IM LM none_in like_nil IJ LJ IC LC) as (q & t & t' & HP & HA & _ & _ & _ & SW).
      + intros order EO IO. assert (order = order0) by (apply RelFacts.lit_inj; congruence). subst order. exists (Some (map lowerA ck)). split; [|exists tm, per; split; [exact HT|now rewrite T1, T2, T3, T4]]. apply ends_day_month_time; [apply (month_taken E w), name_left, PM|exact IP|exact IO0|now apply day_taken].
      + apply G; try reflexivity. now rewrite EC.
      + exists q, t, t'. auto. }
  destruct X as (q & t & t' & HP & HH & SW). rewrite (SW HTZ) in HP. exists q, t. split; [exact HP|exact HH].
Qed.
Print Assumptions C12_text.
