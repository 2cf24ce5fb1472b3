(** C59: dates with the name of the month in 119 languages, through Parse *)
From Coq Require Import ZifyBool.
From Verif Require Import GoBase SMap Regex RegexFacts RegexFacts2 Civil GoTime GoTimeFacts GoTimeParse Setting Strutil Digit Dateutil DateutilFacts Tokenizer Timezone Env Common Absolute Language LocaleData LocaleFacts SelectFacts Parser ParserFacts Prop_Total Prop_Timezone Prop_Data Prop_Vocabulary
  Shows Spec AbsSpec AbsFacts AbsFacts2 AbsFacts3 AbsFacts4 NumericFacts NumTranslate Prop_Parser Prop_Absolute Prop_Absolute2 Prop_Numeric Prop_Clocktime RegexWiden TextRename TextFront TextActs TextParse TextRead TextForms TextValues
  EnglishForms TextResult Prop_Words LocaleAll LocaleAll01 LocaleAll02 LocaleAll03 LocaleAll04 LocaleAll05 LocaleAll06 LocaleAll07 LocaleAll08 LocaleAll09 LocaleAll10 LocaleAll11 LocaleAll12 LocaleAll13
  LanguageWords LanguageCheck1 LanguageCheck2 LanguageCheck3 LanguageCheck4.

(** ** An ordinary call of Parse whose first locale is the given one *)
Record ordinary_call (E : env) (D : langdb) (det : option (str -> list str)) (p : pstate) (cfg : uconfig) (s : str) (ld : locale) (words : list str) : Prop := {
  oc_plain : plain_call E D det p cfg s ld;
  (* the words to skip are not among those of the text *)
  oc_skip : skips_other cfg words;
  (* the current time is set and is in a zone with a fixed offset; no zone is more than a day from UTC *)
  oc_now : is_zero (e_now E) = false /\ wf_time (e_now E) /\ wf_time (u_now cfg) /\ fixed (t_loc (u_now cfg)) /\ Z.abs (z_off (l_base (t_loc (u_now cfg)))) <= 86400;
  oc_zone : forall l sec, u_tz cfg = Some l -> Z.abs (z_off (zone_at l sec)) <= 86400 }.
(** the call returns this period and time and this locale *)
Definition answers_in (ld : locale) (r : res ret) (P : period -> time -> Prop) : Prop := exists p t, r = Ok (with_locale (mkd p t) (ld_name ld), None) /\ P p t.

Section C.
Variables (E : env) (D : langdb) (det : option (str -> list str)) (p : pstate) (cfg : uconfig) (ld : locale) (words : list str).
Notation icfg := (inner E cfg ld).
Notation now := (now_of E cfg).
Lemma any_current s : ordinary_call E D det p cfg s ld words -> current icfg now /\ -86400 <= z_off (l_base (t_loc now)) <= 86400.
Proof.
  intros [_ _ (N1 & N2 & N3 & N4 & N5) _]. unfold now_of. split.
  - constructor; [reflexivity|..]; destruct (is_zero (u_now cfg)) eqn:Z; try assumption; apply fixed_utc.
  - destruct (is_zero (u_now cfg)); [cbn; lia|lia].
Qed.
(** the result of the absolute parser is the result of Parse *)
Lemma any_answer s x R (P : period -> time -> Prop) : ordinary_call E D det p cfg s ld words -> reads E icfg x R ->
  (forall d0, absolute_parse E icfg x od_zero = Ok d0 -> date_is_zero (apply_timezone icfg d0 od_zero) = false -> snd (parse E D det p cfg s []) = Ok (with_locale (apply_timezone icfg d0 od_zero) (ld_name ld), None)) ->
  result (absolute_parse E icfg x od_zero) (fun q t => (2 <= year t \/ u_tz cfg = None /\ is_zero t = false) /\ P q t) ->
  exists q t t', snd (parse E D det p cfg s []) = Ok (with_locale (mkd q t') (ld_name ld), None) /\ P q t /\ q = f_period icfg R /\ t_loc t = t_loc now /\ same_wall t t' /\ (u_tz cfg = None -> t' = t).
Proof.
  intros HC HR HP (q & t & EQ & HY & HQ). destruct (any_current s HC) as [CU OFF].
  pose proof EQ as EQ'. rewrite (reads_run E icfg x R od_zero now HR (cur_now _ _ CU) (cur_set _ _ CU)) in EQ'.
  destruct (run_tame E icfg R od_zero now _ EQ') as (t1 & ET & WT & LT). assert (q = f_period icfg R) by (apply (f_equal d_period) in ET; exact ET). assert (t1 = t) by (apply (f_equal d_time) in ET; cbn [d_time mkd] in ET; symmetry; exact ET). subst t1.
  assert (FT : fixed (t_loc t)) by (rewrite LT; exact (cur_fixed _ _ CU)). rewrite <- LT in OFF.
  destruct (zoned icfg q t WT FT OFF) as (t' & Z1 & Z2 & Z3 & Z4).
  - destruct HY as [HY|[_ HY]]; [now apply year_not_zero|exact HY].
  - exact (oc_zone _ _ _ _ _ _ _ _ HC).
  - destruct HY as [HY|[HY _]]; [now left|right; exact HY].
  - subst q. exact (period_some E icfg x R HR).
  - exists q, t, t'. rewrite (HP (mkd q t) EQ) by (rewrite Z1; exact Z2). rewrite Z1. repeat split; try assumption; apply Z3.
Qed.
(** the order of the numbers *)
Lemma any_order : In (ld_order ld) (map lit usual_orders) -> exists order, number_directives E (inner_order cfg ld) = dirs_of order /\ In order orders.
Proof.
  intros HL. unfold inner_order, order_choice.
  assert (G : forall o, In o usual_orders -> exists order, number_directives E (lit o) = dirs_of order /\ In order orders).
  { intros o HO. unfold usual_orders in HO. apply in_app_or in HO as [HO|[<-|[<-|[]]]].
    - exists o. split; [now apply number_directives_lit|exact HO].
    - exists "DMY"%string. split; [vm_compute; reflexivity|cbn [In orders]; tauto].
    - exists "YMD"%string. split; [vm_compute; reflexivity|cbn [In orders]; tauto]. }
  assert (L : exists order, number_directives E (ld_order ld) = dirs_of order /\ In order orders) by (apply in_map_iff in HL as (o & <- & HO); now apply G).
  destruct (u_order cfg) as [f|]; [|exact L]. destruct (mem _ _) eqn:M; [|exact L]. apply mem_In in M. set (x := map upperA _) in *. clearbody x. unfold six_orders in M. apply in_map_iff in M as (o & <- & HO). apply G. unfold usual_orders. apply in_or_app. now left.
Qed.
End C.

(** ** Each language reads its month names *)
Lemma entry_of code ld : In code word_languages -> mget full_table (lit code) = Some ld -> words_ok ld (odd_of (lit code)) = true.
Proof.
  intros HC HG. apply mget_In in HG. assert (F : entry_ok (lit code, ld) = true).
  { unfold full_table in HG. repeat (apply in_app_or in HG as [HG|HG]).
    all: match type of HG with In _ ?t => idtac end.
    - exact (proj1 (forallb_forall _ _) words_01 _ HG).
    - exact (proj1 (forallb_forall _ _) words_02 _ HG).
    - exact (proj1 (forallb_forall _ _) words_03 _ HG).
    - exact (proj1 (forallb_forall _ _) words_04 _ HG).
    - exact (proj1 (forallb_forall _ _) words_05 _ HG).
    - exact (proj1 (forallb_forall _ _) words_06 _ HG).
    - exact (proj1 (forallb_forall _ _) words_07 _ HG).
    - exact (proj1 (forallb_forall _ _) words_08 _ HG).
    - exact (proj1 (forallb_forall _ _) words_09 _ HG).
    - exact (proj1 (forallb_forall _ _) words_10 _ HG).
    - exact (proj1 (forallb_forall _ _) words_11 _ HG).
    - exact (proj1 (forallb_forall _ _) words_12 _ HG).
    - exact (proj1 (forallb_forall _ _) words_13 _ HG). }
  unfold entry_ok in F. cbn [fst snd] in F. assert (existsb (fun c => eqs (lit code) (lit c)) word_languages = true) as EX; [|rewrite EX in F; exact F]. apply existsb_exists. exists code. split; [exact HC|]. apply eqs_eq. reflexivity.
Qed.
Lemma odd_of_in code w : In w (odd_of (lit code)) -> exists x, In (code, x) odd_words /\ w = lit x.
Proof.
  unfold odd_of. rewrite in_flat_map. intros ([c x] & HI & HW). cbn [fst snd] in HW. destruct (eqs (lit code) (lit c)) eqn:E; [|destruct HW]. apply eqs_eq in E. apply RelFacts.lit_inj in E. subst c. destruct HW as [<-|[]]. exists x. auto.
Qed.

(** "D Month YYYY" in each of these languages is that date *)
Theorem C59_month_names : forall E D det p cfg code ld w m td d ty y,
  In code word_languages -> mget full_table (lit code) = Some ld ->
  month_word ld w m -> (forall x, In (code, x) odd_words -> map lowerA w <> lit x) ->
  day_part td d -> year_part ty y -> 10 <= y \/ 2 <= y /\ d <= days_in y m ->
  let text := td ++ lit " " ++ w ++ lit " " ++ ty in
  ordinary_call E D det p cfg text ld [map lowerA w] ->
  answers_in ld (snd (parse E D det p cfg text [])) (fun q t => q = PDay /\ at_ t (0, 0, 0, 0) /\ names_date (u_src cfg) y m d t).
Proof.
  intros E D det p cfg code ld w m td d ty y HL HG HM HO PD PY HY text HC.
  destruct (day_like td d PD) as (td0 & ID & LD). destruct (year_like ty y PY) as (ty0 & IY & LY). destruct IY as [<-|[]].
  assert (NO : ~ In (map lowerA w) (odd_of (lit code))) by (intros X; apply odd_of_in in X as (x & HX & EX); exact (HO x HX EX)).
  destruct (words_ok_spec ld _ w m td0 (entry_of code ld HL HG) HM NO ID) as (BL & OR & _ & OK).
  destruct (any_order E cfg ld OR) as (order & ND & IO). destruct HM as (LW & x & IM & GM).
  assert (ET : text = fill dmy_form td w ty (lit "sunday") []) by (unfold text, fill, dmy_form; cbn [flat_map put]; rewrite !app_nil_r; reflexivity). rewrite ET in *. clear ET text.
  assert (MN : month_name (lit x) m). { exists x. split; [unfold month_names; apply in_or_app; now left|]. apply lower_word_lower. exact (pm_cases _ IM). }
  set (R := {| r_day := Some d; r_month := Some m; r_year := Some (map lowerA ty, y); r_weekday := None; r_clock := None |}).
  assert (LWF : lower_word (full_month m) = true).
  { destruct (full_month_in _ m MN) as (_ & _ & _ & z & IZ & ->). exact (pm_cases _ IZ). }
  destruct (text_reading_dirs E D det p cfg ld [map lowerA w] dmy_form td w ty (lit "sunday") [] td0 (map lowerA w) (lit "3456") (lit "sunday") [] (full_month m) (full_weekday 0) (oc_plain _ _ _ _ _ _ _ _ HC) BL (oc_skip _ _ _ _ _ _ _ _ HC) OK eq_refl LW eq_refl LWF eq_refl LD eq_refl LY eq_refl like_nil) with (order := order) (R := R) as (s & RS & PS).
  - destruct ID as [<-|[<-|[]]]; vm_compute; reflexivity.
  - destruct ID as [<-|[<-|[]]]; apply distinctb_ok; vm_compute; reflexivity.
  - exact ND.
  - exists None. split; [|reflexivity]. apply ends_date; [exact IO|now apply (month_taken E (lit x))|left; now left|now apply day_taken|apply year_taken; [exact PY|lia]].
  - assert (HP : result (absolute_parse E (inner E cfg ld) s od_zero) (fun q t => (2 <= year t \/ u_tz cfg = None /\ is_zero t = false) /\ at_ t (0, 0, 0, 0) /\ names_date (u_src cfg) y m d t)).
    { destruct (any_current E D det p cfg ld _ _ HC) as [CU _]. destruct PD as (_ & _ & _ & DR). pose proof (month_range _ m MN) as MR. pose proof (year_digits ty y PY) as YD.
      destruct (C16_impossible_days_are_clamped E _ s R _ od_zero d m (map lowerA ty) y RS CU eq_refl eq_refl eq_refl) as (q & t & EQ & HA & H1 & H2 & H3); [lia..|].
      exists q, t. split; [exact EQ|]. assert (NDT : names_date (u_src cfg) y m d t) by (split; [exact H1|split; [exact H2|exact H3]]). split; [|auto]. left. exact (names_year _ _ _ _ _ NDT HY). }
    destruct (any_answer E D det p cfg ld _ _ s R _ HC RS PS HP) as (q & t & t' & HPA & [HA HND] & HQ & _ & SW & _).
    exists q, t'. split; [exact HPA|]. split; [subst q; reflexivity|]. split; [now apply (same_at t)|now apply (names_wall _ _ _ _ t)].
Qed.
Print Assumptions C59_month_names.

(** ** C59 for the library: the language is chosen by its code *)
Definition chosen (cfg : uconfig) (code : str) : Prop := (u_locales cfg = [] /\ u_languages cfg = [code] /\ u_region cfg = []) \/ u_locales cfg = [code].
Record library_call_in (E : env) (p : pstate) (cfg : uconfig) (code : str) : Prop := {
  li_ascii : uni_ascii (e_uni E);
  li_zones : tz_order (e_tz E);
  li_types : p_types p = [];
  li_fresh : u_try_prev cfg = false \/ p_used p = [];
  li_valid : validate (e_uni E) cfg = true;
  li_chosen : chosen cfg code;
  li_skip : u_skip cfg = [];
  li_now : is_zero (e_now E) = false /\ wf_time (e_now E) /\ wf_time (u_now cfg) /\ fixed (t_loc (u_now cfg)) /\ Z.abs (z_off (l_base (t_loc (u_now cfg)))) <= 86400;
  li_zone : forall l sec, u_tz cfg = Some l -> Z.abs (z_off (zone_at l sec)) <= 86400 }.
Lemma word_language_known code : In code word_languages -> In (lit code) language_order.
Proof.
  intros H. assert (F : forallb (fun c => mem (lit c) language_order) word_languages = true) by (vm_compute; reflexivity). rewrite forallb_forall in F. apply F in H. now apply mem_In in H.
Qed.
Lemma chosen_tried E cfg s code ld : In code word_languages -> mget full_table (lit code) = Some ld -> chosen cfg (lit code) -> get_locales E full_db (u_locales cfg) (detected_languages None cfg s) (u_region cfg) (u_given_order cfg) false = Ok [ld].
Proof.
  intros HL HG. assert (HD : db_get full_db (lit code) = Some ld) by exact HG. unfold detected_languages. intros [(-> & -> & ->)|EL].
  - apply one_language; [now apply word_language_known|exact HD].
  - rewrite EL. unfold get_locales in *. replace (pick_locales E full_db false [lit code] [] [] []) with (Ok [lit code]) in * by (cbn [pick_locales mem existsb]; unfold known; rewrite HD; reflexivity). cbn [rbind] in *.
    replace (if u_given_order cfg then [lit code] else sort_by (locale_lt full_db) [lit code]) with [lit code] in * by (destruct (u_given_order cfg); reflexivity). cbn [fetch]. rewrite HD. reflexivity.
Qed.
Theorem C59_library : forall E p cfg code ld w m td d ty y,
  In code word_languages -> mget full_table (lit code) = Some ld -> library_call_in E p cfg (lit code) ->
  month_word ld w m -> (forall x, In (code, x) odd_words -> map lowerA w <> lit x) ->
  day_part td d -> year_part ty y -> valid_date y m d -> 2 <= y ->
  shows (snd (parse E full_db None p cfg (td ++ lit " " ++ w ++ lit " " ++ ty) [])) y m d 0 0 0 0 PDay (lit code).
Proof.
  intros E p cfg code ld w m td d ty y HL HG [H1 H2 H3 H4 H5 H6 H7 H8 H9] HM HO PD PY HV HY.
  assert (NO : ~ In (map lowerA w) (odd_of (lit code))) by (intros X; apply odd_of_in in X as (x & HX & EX); exact (HO x HX EX)).
  destruct (words_ok_spec ld _ w m (lit "1") (entry_of code ld HL HG) HM NO (or_introl eq_refl)) as (_ & _ & NT & _).
  assert (NW : map lowerA w <> lit "t") by exact NT.
  destruct (C59_month_names E full_db None p cfg code ld w m td d ty y HL HG HM HO PD PY) as (q & t & HP & -> & HA & HN).
  - right. split; [exact HY|]. apply HV.
  - constructor; try assumption.
    + constructor; try assumption; [exact full_sound| |].
      * unfold eff_types. rewrite H3. exists [0; 1; 2; 3], [5]. split; [vm_compute; reflexivity|]. split; repeat constructor; lia.
      * exists []. now apply (chosen_tried E cfg _ code ld).
    + intros v. unfold skipping. rewrite H7. intros [<-|[]]. split; [vm_compute; reflexivity|]. unfold kept_words. cbn [In]. intros HI.
      repeat (destruct HI as [HI|HI]; [first [exact (NW HI) | vm_compute in HI; discriminate HI]|]). destruct HI.
  - rewrite HP. assert (NM : ld_name ld = lit code) by (exact (proj1 (full_named _ _ HG))). rewrite NM. destruct HN as (HN & _). specialize (HN (proj2 (proj2 HV))). unfold shows. eexists. split; [reflexivity|].
    destruct HN as (N1 & N2 & N3). unfold at_ in HA. assert (A1 : hour t = 0) by congruence. assert (A2 : minute t = 0) by congruence. assert (A3 : second t = 0) by congruence. assert (A4 : nanosecond t = 0) by congruence. repeat split; assumption.
Qed.
Print Assumptions C59_library.

(** ** Cases *)
From Verif Require Import Concrete Prop_Absolute3.
Definition cfg_in (code : string) : uconfig := mkcfg [lit code] [] (utc_at 2016 2 28 10 0 0) Past 0 0.
Example C59_call : forall code, In code word_languages -> validate (e_uni env0) (cfg_in code) = true -> library_call_in env0 (new_parser []) (cfg_in code) (lit code).
Proof.
  intros code HC HV. constructor; [exact uni0_ascii|exact tz_source_is_order|reflexivity|now left|exact HV|right; reflexivity|reflexivity| |].
  - split; [vm_compute; reflexivity|]. split; [unfold wf_time; vm_compute; split; [discriminate|reflexivity]|]. split; [unfold wf_time; vm_compute; split; [discriminate|reflexivity]|]. split; [apply fixed_utc|vm_compute; discriminate].
  - intros l sec X. discriminate X.
Qed.
(** Croatian "lipnja" is June; "listopada" is October in Croatian and November in Polish *)
Definition dictionary (code w : string) : option (list str) := match mget full_table (lit code) with Some ld => mget (ld_trans ld) (lit w) | None => None end.
Example C59_words : dictionary "hr" "lipnja" = Some [lit "june"] /\ dictionary "pl" "listopada" = Some [lit "november"] /\ dictionary "hr" "listopada" = Some [lit "october"].
Proof. split; [|split]; vm_compute; reflexivity. Qed.
Example C59_instance : exists ld, mget full_table (lit "hr") = Some ld /\ month_word ld (lit "LipnJA") 6.
Proof.
  destruct (mget full_table (lit "hr")) as [ld|] eqn:G; [|vm_compute in G; discriminate G]. exists ld. split; [reflexivity|]. split; [vm_compute; reflexivity|]. exists "june"%string. split; [do 5 right; now left|].
  pose proof C59_words as (H & _). unfold dictionary in H. rewrite G in H. exact H.
Qed.
(** The odd words are needed: French "sept" is a short name of September and is read as the number 7 *)
Theorem C59_odd_words_needed : exists ld, mget full_table (lit "fr") = Some ld /\ month_word ld (lit "sept") 9 /\
  ~ shows (snd (parse env0 full_db None (new_parser []) (cfg_in "fr") (lit "12 sept 2020") [])) 2020 9 12 0 0 0 0 PDay (lit "fr").
Proof.
  destruct (mget full_table (lit "fr")) as [ld|] eqn:G; [|vm_compute in G; discriminate G]. exists ld. split; [reflexivity|]. split.
  - split; [vm_compute; reflexivity|]. exists "september"%string. split; [do 8 right; now left|]. assert (H : dictionary "fr" "sept" = Some [lit "september"]) by (vm_compute; reflexivity). unfold dictionary in H. rewrite G in H. exact H.
  - clear ld G. intros (dt & HP & H). revert HP. assert (X : match snd (parse env0 full_db None (new_parser []) (cfg_in "fr") (lit "12 sept 2020") []) with Ok (d, None) => negb (month (d_time d) =? 9) | _ => true end = true) by (vm_compute; reflexivity).
    intros HP. rewrite HP in X. destruct H as (_ & H & _). rewrite H in X. discriminate X.
Qed.
(** Tagalog has the words but no date order, so it reads no such date: the library does not support every language it lists *)
Theorem C59_tagalog_left_out : In (lit "tl") language_order /\ dictionary "tl" "enero" = Some [lit "january"] /\
  ~ exists y m d q, shows (snd (parse env0 full_db None (new_parser []) (cfg_in "tl") (lit "12 enero 2020") [])) y m d 0 0 0 0 q (lit "tl").
Proof.
  split; [apply mem_In; vm_compute; reflexivity|]. split; [vm_compute; reflexivity|]. intros (y & m & d & q & dt & HP & _). revert HP.
  assert (X : match snd (parse env0 full_db None (new_parser []) (cfg_in "tl") (lit "12 enero 2020") []) with Ok (d, None) => false | _ => true end = true) by (vm_compute; reflexivity). intros HP. rewrite HP in X. discriminate X.
Qed.
Print Assumptions C59_odd_words_needed.
Print Assumptions C59_tagalog_left_out.
