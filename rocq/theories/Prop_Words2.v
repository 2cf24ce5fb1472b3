(** C13 and C18 for whole texts, and English calls *)
From Coq Require Import ZifyBool.
From Verif Require Import GoBase SMap Regex RegexFacts RegexFacts2 Civil GoTime GoTimeFacts GoTimeParse Setting Strutil Digit Dateutil DateutilFacts Tokenizer Timezone Env Common Absolute Language LocaleData Parser ParserFacts
  Shows Spec AbsSpec AbsFacts AbsFacts2 AbsFacts3 AbsFacts4 NumericFacts NumTranslate Prop_Parser Prop_Absolute Prop_Absolute2 Prop_Numeric Prop_Clocktime RegexWiden TextRename TextFront TextActs TextParse TextRead TextForms TextValues
  EnglishForms EnglishCheck EnglishCheck1 EnglishCheck2 EnglishCheck3 EnglishCheck4 TextResult Prop_Words.
From Verif Require RelFacts.
Ltac Zify.zify_post_hook ::= Z.div_mod_to_equations.

(** * C13: only a time of day *)
(** Missing: the first day of the month for Past and the last one for Future, other preferences for the month, a default zone (refuted in Prop_Absolute3) *)
Theorem C13_text_partial : forall E D det p cfg ck h mi sc ns per,
  clock_part (clock_forms ++ hour_forms ++ second_forms) ck h mi sc ns per -> 3 <= year (now_of E cfg) -> u_strict cfg = false -> u_required cfg = [] -> u_tz cfg = None -> u_pmonth cfg = CurrentMonth ->
  (u_src cfg = Past -> 1 < day (now_of E cfg)) -> (u_src cfg = Future -> day (now_of E cfg) < days_in (year (now_of E cfg)) (month (now_of E cfg))) ->
  english_call E D det p cfg ck ->
  let now := now_of E cfg in
  answers (snd (parse E D det p cfg ck [])) (fun q t =>
    q = (if u_timeperiod cfg then per else PDay) /\ at_ t (h, mi, sc, ns) /\ t_loc t = t_loc now /\
    (u_src cfg = Past -> instant now - day_ns < instant t <= instant now) /\
    (u_src cfg = Future -> instant now <= instant t < instant now + day_ns) /\
    (u_src cfg <> Past -> u_src cfg <> Future -> on t (year now) (month now) (day now))).
Proof.
  intros E D det p cfg ck h mi sc ns per PC HNY HS HQ HTZ HPM HPD HFD HC now. fold now in HNY, HPD, HFD.
  set (ps := [TheClock]). assert (EF : ck = fill ps [] (lit "january") [] (lit "sunday") ck) by (cbn [fill flat_map put ps]; now rewrite app_nil_r). rewrite EF in HC.
  destruct (call_current E D det p cfg _ HC) as [CU OFF]. fold now in CU, OFF. pose proof (cur_wf _ _ CU) as NW. pose proof (cur_fixed _ _ CU) as NF.
  assert (LN : late (t_loc now) + day_ns < instant now).
  { assert (instant (mk_date 2 1 2 0 0 0 0 (t_loc now)) < instant now) as L1.
    { apply (wall_order now 2 1 2 0 0 0 0 NW NF); [split; [lia|vm_compute; split; discriminate]|unfold valid_clock; lia|lia]. }
    unfold late. rewrite instant_mk_date in * by (assumption || lia). unfold day_ns. change (days_of_civil 2 1 1) with (-718797). change (days_of_civil 2 1 2) with (-718796) in L1. lia. }
  assert (IM : In (1, "january"%string) any_month) by (now left). assert (LM : map lowerA (lit "january") = lit "january") by (vm_compute; reflexivity). destruct sunday_in as (xw & IJ & LJ).
  destruct (clock_time E _ _ _ _ _ _ _ PC) as (tm & HT & T1 & T2 & T3 & T4). pose proof PC as (CK & ck0 & IC & LC).
  set (R := {| r_day := None; r_month := None; r_year := None; r_weekday := None; r_clock := Some (h, mi, sc, ns, per) |}).
  destruct (english_text E D det p cfg time_forms none any_month none any_weekday _ ps [] (lit "january") [] (lit "sunday") ck [] 1 _ [] 0 xw ck0 R
    (fun q t => at_ t (h, mi, sc, ns) /\ (u_src cfg = Past -> instant now - day_ns < instant t <= instant now) /\ (u_src cfg = Future -> instant now <= instant t < instant now + day_ns) /\
      (u_src cfg <> Past -> u_src cfg <> Future -> on t (year now) (month now) (day now)))
    HC check_time eq_refl eq_refl (or_introl eq_refl) none_in like_nil IM LM none_in like_nil IJ LJ IC LC) as (q & t & t' & HP & (HA & B1 & B2 & B3) & EQ & EL & _ & SW).
  - intros order _ IO. exists (Some (map lowerA ck)). split; [|exists tm, per; split; [exact HT|now rewrite T1, T2, T3, T4]]. apply ends_clock. now left.
  - intros s HR. destruct (C13_time_only_partial E _ s R now (h, mi, sc, ns, per) HR CU (call_lenient E cfg HS HQ) eq_refl eq_refl eq_refl eq_refl eq_refl HTZ HPM HPD HFD) as (q & t & ER & HA & B1 & B2 & B3).
    exists q, t. split; [exact ER|]. split; [|auto]. change (c_src (inner E cfg loc_en)) with (u_src cfg) in *.
    destruct (Z.eq_dec (u_src cfg) Past) as [EP|NP]; [|destruct (Z.eq_dec (u_src cfg) Future) as [EFu|NFu]].
    + right. split; [exact HTZ|]. apply (late_later (t_loc now)); [exact NF|exact OFF|]. specialize (B1 EP). lia.
    + right. split; [exact HTZ|]. apply (late_later (t_loc now)); [exact NF|exact OFF|]. specialize (B2 EFu). unfold day_ns in LN. lia.
    + left. destruct (B3 NP NFu) as (-> & _). lia.
  - rewrite (SW HTZ) in HP. rewrite <- EF in HP. exists q, t. split; [exact HP|]. split; [|auto].
    rewrite EQ. unfold f_period. cbn [R r_day r_month r_year r_clock is_some]. change (c_timeperiod (inner E cfg loc_en)) with (u_timeperiod cfg). destruct (u_timeperiod cfg); [|reflexivity]. clear - CK. inversion CK; reflexivity.
Qed.
Print Assumptions C13_text_partial.

(** * C18: years of two digits *)
(** two digits *)
Definition year2_part (ty : str) : Prop := digits ty /\ length ty = 2%nat.
Lemma year2_like ty : year2_part ty -> like ty (lit "34").
Proof. intros (HD & HL). apply digits_like; [exact HD|]. rewrite HL. vm_compute. reflexivity. Qed.
(** Missing: 29 February and clocks outside 1969 to 2068 (refuted in Prop_Absolute3), other date orders *)
Theorem C18_text_partial : forall E D det p cfg ps td w ty d m,
  In ps short_year_forms -> day_part td d -> month_name w m -> year2_part ty -> d <= days_in 1999 m -> day_first cfg -> 1969 <= year (now_of E cfg) <= 2068 ->
  english_call E D det p cfg (fill ps td w ty [] []) ->
  let now := now_of E cfg in
  answers (snd (parse E D det p cfg (fill ps td w ty [] []) [])) (fun q t =>
    q = PDay /\ on t (year t) m d /\ at_ t (0, 0, 0, 0) /\ year t mod 100 = number 0 ty /\
    let T z := instant (mk_date z m d 0 0 0 0 (t_loc now)) in
    (u_src cfg = Past -> T (year t) <= instant now /\ forall z, z mod 100 = number 0 ty -> year t < z -> instant now < T z) /\
    (u_src cfg = Future -> instant now < T (year t) /\ forall z, z mod 100 = number 0 ty -> z < year t -> T z <= instant now) /\
    (u_src cfg <> Past -> u_src cfg <> Future -> 1969 <= year t <= 2068)).
Proof.
  intros E D det p cfg ps td w ty d m IP PD PM PY DL (order0 & EO0 & IO0) HNY HC now. fold now in HNY. pose proof (month_range w m PM) as MR. pose proof PD as (_ & _ & _ & DR).
  rewrite (no_weekday short_year_forms ps td w ty [] eq_refl IP) in *. destruct (call_current E D det p cfg _ HC) as [CU OFF]. fold now in CU, OFF. pose proof (cur_wf _ _ CU) as NW. pose proof (cur_fixed _ _ CU) as NF.
  destruct (day_like td d PD) as (td0 & ID & LD). destruct sunday_in as (xw & IJ & LJ). pose proof PM as (x & IM & LM). pose proof PY as (HD & HL).
  assert (HV : forall z, valid_date z m d) by (intros z; pose proof (days_in_nonleap z m MR); split; lia).
  assert (TT : forall z z', z < z' -> instant (mk_date z m d 0 0 0 0 (t_loc now)) < instant (mk_date z' m d 0 0 0 0 (t_loc now))).
  { intros z z' L. rewrite !instant_mk_date by (assumption || lia). pose proof (proj2 (days_of_civil_lt z m d z' m d (HV _) (HV _)) (or_introl L)). lia. }
  set (R := {| r_day := Some d; r_month := Some m; r_year := Some (ty, year_of2 (number 0 ty)); r_weekday := None; r_clock := None |}).
  destruct (english_text E D det p cfg short_year_forms day_forms month_names [lit "34"] any_weekday none ps td w ty (lit "sunday") [] td0 m x _ 0 xw [] R
    (fun q t => on t (year t) m d /\ at_ t (0, 0, 0, 0) /\ year t mod 100 = number 0 ty /\
      (u_src cfg = Past -> instant (mk_date (year t) m d 0 0 0 0 (t_loc now)) <= instant now /\ forall z, z mod 100 = number 0 ty -> year t < z -> instant now < instant (mk_date z m d 0 0 0 0 (t_loc now))) /\
      (u_src cfg = Future -> instant now < instant (mk_date (year t) m d 0 0 0 0 (t_loc now)) /\ forall z, z mod 100 = number 0 ty -> z < year t -> instant (mk_date z m d 0 0 0 0 (t_loc now)) <= instant now) /\
      (u_src cfg <> Past -> u_src cfg <> Future -> 1969 <= year t <= 2068))
    HC check_short_year eq_refl names_any IP ID LD IM LM (or_introl eq_refl) (year2_like ty PY) IJ LJ none_in like_nil) as (q & t & t' & HP & (HO & HA & HB) & EQ & _ & SW & _).
  - intros order EO IO. assert (order = order0) by (apply RelFacts.lit_inj; congruence). subst order. exists None. split; [|reflexivity].
    rewrite (digits_lower ty HD). apply ends_short_year; [now apply (month_taken E w)|exact IP|exact IO0|now apply day_taken|now apply greg_year2_text].
  - intros s HR. destruct (C18_two_digit_years_partial E _ s R now od_zero d m ty _ HR CU eq_refl eq_refl eq_refl) as (q & t & ER & HO & HA & HMod & HLoc & HPa & HFu & HCu); [unfold slen; lia|lia..|].
    exists q, t. split; [exact ER|]. cbv zeta in *. change (clock_of R) with (0, 0, 0, 0) in *. cbv iota in *. change (c_src (inner E cfg loc_en)) with (u_src cfg) in *.
    pose proof ER as ER'. rewrite (reads_run E _ s R od_zero now HR (cur_now _ _ CU) (cur_set _ _ CU)) in ER'. destruct (run_tame E _ R od_zero now _ ER') as (t1 & ET & WT & _). assert (t1 = t) by (apply (f_equal d_time) in ET; cbn [d_time mkd] in ET; symmetry; exact ET). subst t1.
    assert (ETT : instant t = instant (mk_date (year t) m d 0 0 0 0 (t_loc now))).
    { rewrite <- (time_of_fields t WT) at 1 by (rewrite HLoc; exact NF). destruct HO as (_ & -> & ->). unfold at_ in HA. assert (hour t = 0) as -> by congruence. assert (minute t = 0) as -> by congruence. assert (second t = 0) as -> by congruence. assert (nanosecond t = 0) as -> by congruence. now rewrite HLoc. }
    split.
    + left. destruct (Z.eq_dec (u_src cfg) Past) as [EP|NP]; [|destruct (Z.eq_dec (u_src cfg) Future) as [EFu|NFu]].
      * destruct (HPa EP) as [_ X]. assert (Y : 1800 <= year t); [|lia]. destruct (Z_lt_le_dec (year t) 1800) as [L|L]; [|exact L]. exfalso. specialize (X (year t + 100)). rewrite ETT in X. pose proof (TT (year t) (year t + 100)). pose proof (proj1 (wall_order now (year t + 100) m d 0 0 0 0 NW NF (HV _) ltac:(unfold valid_clock; lia))). pose proof (Z.div_mod (year t) 100). pose proof (Z.div_mod (year t + 100) 100). lia.
      * destruct (HFu EFu) as [X _]. rewrite ETT in X. pose proof (proj1 (wall_order now (year t) m d 0 0 0 0 NW NF (HV _) ltac:(unfold valid_clock; lia))). lia.
      * specialize (HCu NP NFu). lia.
    + split; [exact HO|]. split; [exact HA|]. split; [exact HMod|]. rewrite <- ETT. split; [|split; [|exact HCu]].
      * intros EP. destruct (HPa EP) as [X1 X2]. split; [exact X1|]. intros z HZ HLt. apply X2; [exact HZ|]. rewrite ETT. now apply TT.
      * intros EP. destruct (HFu EP) as [X1 X2]. split; [exact X1|]. intros z HZ HLt. apply X2; [exact HZ|]. rewrite ETT. now apply TT.
  - exists q, t'. split; [exact HP|]. cbv zeta. pose proof SW as (W1 & _). rewrite W1. split; [exact EQ|]. split; [now apply (same_on t)|]. split; [now apply (same_at t)|]. exact HB.
Qed.
Print Assumptions C18_text_partial.

(** * The library's own tables: English is the first locale tried unless another one is asked for *)
From Verif Require Import LocaleAll Prop_Total Prop_Data LocaleFacts Prop_Timezone Prop_Vocabulary.
Definition english_first (cfg : uconfig) : Prop :=
  (u_locales cfg = [] /\ u_languages cfg = [] /\ u_region cfg = []) \/ (u_locales cfg = [] /\ u_languages cfg = [lit "en"] /\ u_region cfg = []) \/ u_locales cfg = [lit "en"].
Lemma full_en : db_get full_db (lit "en") = Some loc_en.
Proof. vm_compute. reflexivity. Qed.
Lemma en_first : hd [] language_order = lit "en" /\ hd [] (sort_by (locale_lt full_db) language_order) = lit "en".
Proof. split; vm_compute; reflexivity. Qed.
Lemma first_fetched names : hd [] names = lit "en" -> exists rest, fetch full_db names = loc_en :: rest.
Proof. destruct names as [|n names]; [intros H; vm_compute in H; discriminate H|]. cbn [hd]. intros ->. cbn [fetch]. rewrite full_en. eexists. reflexivity. Qed.
Lemma english_tried E cfg s : english_first cfg -> exists rest, get_locales E full_db (u_locales cfg) (detected_languages None cfg s) (u_region cfg) (u_given_order cfg) false = Ok (loc_en :: rest).
Proof.
  unfold detected_languages. intros [(-> & -> & ->)|[(-> & -> & ->)|EL]].
  - unfold get_locales. change (trim_space (to_upper (e_uni E) [])) with (@nil Z). change (db_langs full_db) with language_order. cbv zeta. rewrite pick_langs by (intros ? []).
    change (db_langs full_db) with language_order. change (match language_order with [] => language_order | l :: l0 => l :: l0 end) with language_order.
    rewrite all_languages, all_asked. cbn [orb negb rev app rbind].
    destruct (first_fetched (if u_given_order cfg then language_order else sort_by (locale_lt full_db) language_order)) as (rest & FR); [destruct (u_given_order cfg); apply en_first|]. exists rest.
    match goal with |- match ?x with _ => _ end = _ => replace x with (loc_en :: rest) by (symmetry; exact FR) end. reflexivity.
  - exists []. apply one_language; [apply mem_In; vm_compute; reflexivity|exact full_en].
  - exists []. rewrite EL.
    unfold get_locales in *. replace (pick_locales E full_db false [lit "en"] [] [] []) with (Ok [lit "en"]) in * by (cbn [pick_locales mem existsb]; unfold known; rewrite full_en; reflexivity). cbn [rbind] in *.
    replace (if u_given_order cfg then [lit "en"] else sort_by (locale_lt full_db) [lit "en"]) with [lit "en"] in * by (destruct (u_given_order cfg); reflexivity). cbn [fetch]. rewrite full_en. reflexivity.
Qed.
(** a call of the library: any reading of the Unicode tables that is right for ASCII, any iteration order of the map of zones, a new Parser or one that does not remember locales *)
Record library_call (E : env) (p : pstate) (cfg : uconfig) : Prop := {
  lc_ascii : uni_ascii (e_uni E);
  lc_zones : tz_order (e_tz E);
  lc_types : p_types p = [];
  lc_fresh : u_try_prev cfg = false \/ p_used p = [];
  lc_valid : validate (e_uni E) cfg = true;
  lc_english : english_first cfg;
  lc_skip : u_skip cfg = [];
  lc_now : is_zero (e_now E) = false /\ wf_time (e_now E) /\ wf_time (u_now cfg) /\ fixed (t_loc (u_now cfg)) /\ Z.abs (z_off (l_base (t_loc (u_now cfg)))) <= 86400;
  lc_zone : forall l sec, u_tz cfg = Some l -> Z.abs (z_off (zone_at l sec)) <= 86400 }.
Lemma library_english E p cfg s : library_call E p cfg -> english_call E full_db None p cfg s.
Proof.
  intros [H1 H2 H3 H4 H5 H6 H7 H8 H9]. constructor; try assumption.
  - constructor; try assumption; [exact full_sound| |].
    + unfold eff_types. rewrite H3. exists [0; 1; 2; 3], [5]. split; [vm_compute; reflexivity|]. split; repeat constructor; lia.
    + now apply english_tried.
  - intros w. unfold skipping. rewrite H7. intros [<-|[]]. split; [vm_compute; reflexivity|]. intros HI. apply mem_In in HI. vm_compute in HI. discriminate HI.
Qed.
(** ** C55 for the library *)
Theorem C55_library : forall E p cfg ps td w ty d m y,
  library_call E p cfg -> date_text ps w m -> day_part td d -> year_part ty y -> valid_date y m d -> 2 <= y ->
  shows (snd (parse E full_db None p cfg (fill ps td w ty [] []) [])) y m d 0 0 0 0 PDay (lit "en").
Proof. intros E p cfg ps td w ty d m y HC. intros. apply C55_date; try assumption. now apply library_english. Qed.
Theorem C55_library_time : forall E p cfg ps td w ty ck d m y h mi sc ns per,
  library_call E p cfg -> date_time_text ps w m ck h mi sc ns per -> day_part td d -> year_part ty y -> valid_date y m d -> 2 <= y ->
  shows (snd (parse E full_db None p cfg (fill ps td w ty [] ck) [])) y m d h mi sc ns (if u_timeperiod cfg then per else PDay) (lit "en").
Proof. intros E p cfg ps td w ty ck d m y h mi sc ns per HC. intros. apply C55_date_time; try assumption. now apply library_english. Qed.
Print Assumptions C55_library.
Print Assumptions C55_library_time.

(** ** Cases that meet the hypotheses *)
From Verif Require Import Concrete.
Example library_case : library_call env0 (new_parser []) (mkcfg [] [] (utc_at 2016 2 28 10 0 0) Past 0 0).
Proof.
  constructor; [exact uni0_ascii|exact tz_source_is_order|reflexivity|now left|vm_compute; reflexivity|left; repeat split; reflexivity|reflexivity| |].
  - split; [vm_compute; reflexivity|]. split; [unfold wf_time; vm_compute; split; [discriminate|reflexivity]|]. split; [unfold wf_time; vm_compute; split; [discriminate|reflexivity]|]. split; [apply fixed_utc|vm_compute; discriminate].
  - intros l sec X. discriminate X.
Qed.
Example C55_case : exists ps, In ps date_forms /\ fill ps (lit "9") (lit "OctOBER") (lit "1999") [] [] = lit "OctOBER 9, 1999" /\ date_text ps (lit "OctOBER") 10 /\ day_part (lit "9") 9 /\ year_part (lit "1999") 1999 /\ valid_date 1999 10 9.
Proof.
  exists [TheMonth; Text " "; TheDay; Text ", "; TheYear]%string. assert (IN : forall a b c (l : list (list piece)), In c (a :: b :: c :: l)) by (intros; right; right; now left).
  split; [apply IN|]. split; [vm_compute; reflexivity|]. split; [left; split; [apply IN|]|].
  - exists "october"%string. split; [|vm_compute; reflexivity]. do 9 right. now left.
  - split; [split; [split; [discriminate|repeat constructor; vm_compute; discriminate]|]|].
    + split; [vm_compute; lia|]. split; [vm_compute; reflexivity|lia].
    + split; [split; [split; [discriminate|repeat constructor; vm_compute; discriminate]|]|].
      * split; vm_compute; reflexivity.
      * split; [lia|vm_compute; split; discriminate].
Qed.
Example C55_time_case : clock_part clock_forms (lit "7:08 pM") 19 8 0 0 PMinute.
Proof.
  split.
  - change (map upperA (lit "7:08 pM")) with (lit "7" ++ colon ++ lit "08" ++ lit " PM"). apply (hm_half (lit "7") 7 (lit "08") 8 (lit " PM") Prop_Clocktime.PM).
    + apply numeral_cases. left. exists 55. repeat split; reflexivity.
    + lia.
    + apply numeral_cases. right. exists 48, 56. repeat split; reflexivity.
    + lia.
    + exists 0%nat. reflexivity.
  - exists (lit "7:89 pm"). split; [vm_compute; auto 10|vm_compute; reflexivity].
Qed.
(** * The date order decides about texts without a year: a day above 12 is then a year *)
From Verif Require Import Prop_Absolute3.
Theorem C12_order_refuted : shows (go "YMD" (utc_at 2016 2 28 10 0 0) CurrentPeriod 0 0 "13 march") 2013 3 28 0 0 0 0 PMonth (lit "en").
Proof. apply shows_by. vm_compute. reflexivity. Qed.
Print Assumptions C12_order_refuted.
