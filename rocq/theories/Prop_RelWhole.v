(** C20 for whole texts; C52: the relative phrases of every locale *)
From Coq Require Import ZifyBool.
From Verif Require Import GoBase SMap Regex Civil GoTime GoTimeFacts Strutil Setting Timezone Env Common Relative RelSpec Language ParserFacts Prop_Total AbsFacts2 AbsSpec RegexFacts RegexFacts6 SpaceFacts
  Prop_Relative RelFacts RelText RelText2 Prop_RelExact ZoneWords Utf8Facts Parser Shows Prop_Absolute3 Concrete LocaleData LocaleAll.

Ltac Zify.zify_post_hook ::= Z.div_mod_to_equations.
(** ** The texts of amounts name no zone *)
Lemma free_nil : zone_free []. Proof. split; [constructor|]. split; [intros c []|intros x []]. Qed.
Lemma free_app s t : zone_free s -> zone_free t -> (forall c t', t = c :: t' -> is_alphaA c = false) -> zone_free (s ++ t).
Proof.
  intros (A1 & S1 & R1) (A2 & S2 & R2) HT. split; [apply Forall_app; split; assumption|]. split.
  - intros c HI. apply in_app_iff in HI as [HI|HI]; auto.
  - intros x HI. unfold runs in HI. rewrite runs_from_app in HI by exact HT. apply in_app_iff in HI as [HI|HI]; auto.
Qed.
Lemma free_space s : zone_free s -> zone_free (32 :: s).
Proof.
  intros (A & S & R). split; [constructor; [lia|exact A]|]. split; [intros c [<-|HI]; [reflexivity|auto]|]. intros x. rewrite runs_break by reflexivity. apply R.
Qed.
Lemma free_digits d : Forall (fun c => 48 <= c <= 57) d -> zone_free d.
Proof.
  intros H. split; [eapply Forall_impl; [|exact H]; cbv beta; lia|]. split; [intros c HI; rewrite Forall_forall in H; apply H in HI; unfold sign; lia|].
  assert (X : runs d = []); [|rewrite X; intros x []]. unfold runs. induction H as [|c d HC _ IH]; [reflexivity|]. cbn [runs_from]. replace (is_alphaA c) with false by (unfold is_alphaA, is_upperA, is_lowerA; lia). exact IH.
Qed.
Definition freeb (s : str) : bool := forallb (fun c => (0 <=? c) && (c <? 128) && negb (sign c)) s && forallb (fun x => negb (mem (map lowerA x) zone_names)) (runs s).
Lemma freeb_ok s : freeb s = true -> zone_free s.
Proof.
  intros H. apply andb_true_iff in H as [H1 H2]. rewrite forallb_forall in H1, H2. split; [unfold asc; apply Forall_forall; intros c HI; apply H1 in HI; lia|]. split; [intros c HI; apply H1 in HI; destruct (sign c); [lia|reflexivity]|].
  intros x HI HN. apply H2 in HI. apply mem_In in HN. rewrite HN in HI. discriminate HI.
Qed.
Lemma free_unit u b : zone_free (name u ++ comma b).
Proof. apply freeb_ok. destruct u, b; vm_compute; reflexivity. Qed.
Lemma free_join ws : Forall zone_free ws -> zone_free (join_words ws).
Proof.
  induction 1 as [|w ws HW HF IH]; [apply free_nil|]. destruct ws as [|w2 ws]; [exact HW|]. change (join_words (w :: w2 :: ws)) with (w ++ 32 :: join_words (w2 :: ws)).
  apply free_app; [exact HW|now apply free_space|]. intros c t' [= <- _]. reflexivity.
Qed.
Lemma free_text i l a : Forall item_ok l -> zone_free (rel_string i l a).
Proof.
  intros HL. apply free_join. unfold rel_words. apply Forall_app. split; [destruct i; [constructor; [apply freeb_ok; vm_compute; reflexivity|constructor]|constructor]|]. apply Forall_app. split; [|destruct a; [constructor; [apply freeb_ok; vm_compute; reflexivity|constructor]|constructor]].
  induction HL as [|x l [[_ HX] _] _ IH]; [constructor|]. cbn [flat_map app]. constructor; [now apply free_digits|]. constructor; [apply free_unit|exact IH].
Qed.
(** no braces in them *)
Lemma strip_asc s : asc s -> (forall c, In c s -> is_brace c = false) -> strip_braces s = s.
Proof.
  intros HA HB. unfold strip_braces. rewrite runes_ascii by (unfold is_ascii; apply forallb_forall; intros c HC; unfold asc in HA; rewrite Forall_forall in HA; apply HA in HC; lia).
  assert (X : filter (fun r => negb (is_brace r)) s = s) by (clear HA; induction s as [|c s IH]; [reflexivity|]; cbn [filter]; rewrite (HB c) by (now left); cbn [negb]; rewrite IH; [reflexivity|]; intros d HD; apply HB; now right).
  rewrite X. apply encode_ascii. apply forallb_forall. intros c HC. unfold asc in HA. rewrite Forall_forall in HA. apply HA in HC. lia.
Qed.
Lemma brace_join ws : Forall (fun w => forallb (fun c => negb (is_brace c)) w = true) ws -> forallb (fun c => negb (is_brace c)) (join_words ws) = true.
Proof. induction 1 as [|w ws HW HF IH]; [reflexivity|]. destruct ws as [|w2 ws]; [exact HW|]. change (join_words (w :: w2 :: ws)) with (w ++ 32 :: join_words (w2 :: ws)). rewrite forallb_app. cbn [forallb]. now rewrite HW, IH. Qed.
Lemma strip_rel i l a : Forall item_ok l -> strip_braces (rel_string i l a) = rel_string i l a.
Proof.
  intros HL. apply strip_asc; [apply (free_text i l a HL)|]. assert (X : forallb (fun c => negb (is_brace c)) (rel_string i l a) = true).
  { apply brace_join. unfold rel_words. apply Forall_app. split; [destruct i; repeat constructor|]. apply Forall_app. split; [|destruct a; repeat constructor].
    induction HL as [|x l [[_ HX] _] _ IH]; [constructor|]. cbn [flat_map app]. constructor; [|constructor; [destruct (i_unit x), (i_comma x); reflexivity|exact IH]]. apply forallb_forall. intros c HC. rewrite Forall_forall in HX. apply HX in HC. unfold is_brace. cbn [existsb]. lia. }
  rewrite forallb_forall in X. intros c HC. apply X in HC. now apply negb_true_iff.
Qed.
Lemma rel_no_zone E i l a : uni_ascii (e_uni E) -> tz_order (e_tz E) -> Forall item_ok l -> etz_pop E (strip_braces (rel_string i l a)) = (rel_string i l a, od_zero).
Proof. intros UA TZ HL. rewrite strip_rel by exact HL. unfold etz_pop. apply no_zone; [exact UA|exact TZ|now apply free_text]. Qed.

(** ** C20: the text alone decides; the current time is the one of the configuration, in its zone *)
Theorem C20_text : forall E cfg i l a, uni_ascii (e_uni E) -> tz_order (e_tz E) -> l <> [] -> Forall item_ok l -> NoDup (map i_unit l) ->
  let now := here E cfg od_zero in
  fixed (t_loc now) -> wf_time now ->
  let g := direction cfg i a in
  let r := relative_parse E cfg (rel_string i l a) in
  let days := moved_day (c_preserve cfg) now (g * (10 * count_of l Decade + count_of l Year)) (g * count_of l Month) (g * (7 * count_of l Week + count_of l Day)) - local_days now in
  let seconds := g * (3600 * count_of l Hour + 60 * count_of l Minute + count_of l Second) in
  instant (d_time r) = instant now + (86400 * days + seconds) * 1000000000 /\ t_loc (d_time r) = t_loc now /\
  d_period r = (if negb (c_timeperiod cfg) && is_time (smallest l) then PDay else smallest l).
Proof. intros E cfg i l a UA TZ NE HL HN now HF HW. exact (C20_exact E cfg (rel_string i l a) i l a od_zero UA NE HL HN (rel_no_zone E i l a UA TZ HL) HF HW). Qed.
Print Assumptions C20_text.

(** ** C52: every relative word of every locale *)
(** the phrase that a word stands for: an amount of one unit, forwards, backwards, or as the preference for dates says *)
Inductive sense := Forwards | Backwards | Either.
Definition digit_text (n : Z) : str := if n =? 10 then lit "10" else [48 + n].
Definition phrase (n : Z) (u : tunit) (d : sense) : str :=
  (match d with Forwards => lit "in " | _ => [] end) ++ digit_text n ++ lit " " ++ name u ++ (match d with Backwards => lit " ago" | _ => [] end).
Definition step_of (cfg : config) (d : sense) : Z := match d with Forwards => 1 | Backwards => -1 | Either => if c_src cfg =? Future then 1 else -1 end.
(** [n] units later ([n] negative: earlier): the day (as AddDate, or with the end of the month preserved) and the seconds to add *)
Definition later (preserve : bool) (now : time) (n : Z) (u : tunit) : Z :=
  match u with
  | Decade => 86400 * (moved_day preserve now (10 * n) 0 0 - local_days now) | Year => 86400 * (moved_day preserve now n 0 0 - local_days now) | Month => 86400 * (moved_day preserve now 0 n 0 - local_days now)
  | Week => 604800 * n | Day => 86400 * n | Hour => 3600 * n | Minute => 60 * n | Second => n
  end.
Lemma moved_days p t d : moved_day p t 0 0 d = local_days t + d.
Proof.
  destruct (civil_valid t) as [HV HD]. unfold moved_day. cbv zeta. rewrite Z.mul_0_r, Z.add_0_l, Z.add_0_r. destruct HV as [HM HDD]. unfold month_index.
  replace ((12 * year t + (month t - 1)) / 12) with (year t) by lia. replace ((12 * year t + (month t - 1)) mod 12 + 1) with (month t) by lia. rewrite Z.min_l by lia.
  assert (month_start (12 * year t + (month t - 1)) + (day t - 1) = local_days t); [|destruct p; lia]. rewrite <- HD. unfold month_start.
  replace ((12 * year t + (month t - 1)) / 12) with (year t) by lia. replace ((12 * year t + (month t - 1)) mod 12 + 1) with (month t) by lia. unfold days_of_civil. lia.
Qed.
Definition unit_period (cfg : config) (u : tunit) : period :=
  match u with Decade | Year => PYear | Month => PMonth | Week | Day => PDay | Hour => if c_timeperiod cfg then PHour else PDay | Minute => if c_timeperiod cfg then PMinute else PDay | Second => if c_timeperiod cfg then PSecond else PDay end.
Theorem C52_phrase : forall E cfg n u d, uni_ascii (e_uni E) -> tz_order (e_tz E) -> 0 <= n <= 10 ->
  let now := here E cfg od_zero in
  fixed (t_loc now) -> wf_time now ->
  let r := relative_parse E cfg (phrase n u d) in
  instant (d_time r) = instant now + later (c_preserve cfg) now (step_of cfg d * n) u * 1000000000 /\ t_loc (d_time r) = t_loc now /\ d_period r = unit_period cfg u.
Proof.
  intros E cfg n u d UA TZ HN now HF HW. set (it := {| i_num := digit_text n; i_unit := u; i_comma := false |}). set (i := match d with Forwards => true | _ => false end). set (a := match d with Backwards => true | _ => false end).
  assert (NN : n = 0 \/ n = 1 \/ n = 2 \/ n = 3 \/ n = 4 \/ n = 5 \/ n = 6 \/ n = 7 \/ n = 8 \/ n = 9 \/ n = 10) by lia.
  assert (IO : item_ok it).
  { split; [|destruct u; cbn [largest i_unit it]; repeat destruct NN as [->|NN]; subst; vm_compute; congruence]. split; [unfold it, digit_text; cbn [i_num]; destruct (n =? 10); discriminate|]. unfold it, digit_text. cbn [i_num]. destruct (Z.eqb_spec n 10); [change (lit "10") with [49; 48]; repeat (apply Forall_cons; [lia|]); apply Forall_nil|apply Forall_cons; [lia|apply Forall_nil]]. }
  assert (NU : number 0 (digit_text n) = n) by (repeat destruct NN as [->|NN]; subst; reflexivity).
  assert (EP : phrase n u d = rel_string i [it] a). { unfold phrase, rel_string, rel_words, i, a, it. cbn [flat_map i_num i_unit i_comma comma]. rewrite app_nil_r. destruct d; cbn [app join_words]; rewrite <- ?app_assoc; reflexivity. }
  intros r. subst r. rewrite EP. pose proof (C20_text E cfg i [it] a UA TZ ltac:(discriminate) (Forall_cons _ IO (Forall_nil _)) ltac:(cbn; constructor; [intros []|constructor]) HF HW) as (T1 & T2 & T3). fold now in T1, T2.
  set (r := relative_parse E cfg (rel_string i [it] a)) in *. clearbody r. rewrite T1. split; [|split; [exact T2|]].
  - clear T1 T2 T3. assert (G : direction cfg i a = step_of cfg d) by (unfold direction, step_of, i, a; destruct d; cbn [orb negb andb]; rewrite ?andb_true_r, ?andb_false_r; reflexivity). rewrite G. set (g := step_of cfg d).
    f_equal. f_equal. unfold count_of. cbn [amount_of it i_unit i_num]. rewrite NU. unfold later. destruct u; cbn [tunit_eq_dec]; repeat match goal with |- context [tunit_eq_dec ?x ?y] => destruct (tunit_eq_dec x y); [|congruence] || (destruct (tunit_eq_dec x y); [congruence|]) end.
    all: rewrite ?Z.mul_0_r, ?Z.add_0_l, ?Z.add_0_r, ?Z.mul_0_r; try reflexivity.
    all: try (replace (g * (10 * n)) with (10 * (g * n)) by lia); try (replace (g * (7 * n)) with (7 * (g * n)) by lia); rewrite ?moved_days; try reflexivity; lia.
  - rewrite T3. unfold unit_period. destruct u, (c_timeperiod cfg); reflexivity.
Qed.
Print Assumptions C52_phrase.

(** ** The tables of all locales *)
Definition amounts : list Z := [0; 1; 2; 3; 4; 5; 6; 7; 8; 9; 10].
Definition all_units : list tunit := [Decade; Year; Month; Week; Day; Hour; Minute; Second].
Definition all_phrases : list str := Eval vm_compute in flat_map (fun n => flat_map (fun u => map (phrase n u) [Forwards; Backwards; Either]) all_units) amounts.
(** the words whose phrase is not of that form *)
Definition odd_words : list (str * str) := map (fun p => (lit (fst p), lit (snd p))) [("zh", "后天"); ("zh-Hans", "后天"); ("zh-Hans-HK", "后天"); ("zh-Hans-MO", "后天"); ("zh-Hans-SG", "后天"); ("sk", "pozajtra"); ("id", "minggu")]%string.
Lemma table_phrases : forallb (fun p => forallb (fun q => mem (snd q) all_phrases || existsb (fun o => eqs (fst o) (fst p) && eqs (snd o) (fst q)) odd_words) (ld_reltype (snd p))) full_table = true.
Proof. vm_compute. reflexivity. Qed.
Lemma all_phrases_ok t : In t all_phrases -> exists n u d, 0 <= n <= 10 /\ t = phrase n u d.
Proof.
  intros H. assert (X : In t (flat_map (fun n => flat_map (fun u => map (phrase n u) [Forwards; Backwards; Either]) all_units) amounts)) by exact H. apply in_flat_map in X as (n & HN & X). apply in_flat_map in X as (u & _ & X). apply in_map_iff in X as (d & <- & _).
  exists n, u, d. split; [|reflexivity]. unfold amounts in HN. cbn [In] in HN. lia.
Qed.
(** Every word that any locale of the library lists as a relative date stands for an amount 0, 1, ..., 10 of one unit, and the relative parser
    turns what it stands for into exactly the current time moved by that amount. Missing: the words of [odd_words], see C52_refuted. *)
Theorem C52_words_partial : forall code ld w t, db_get full_db code = Some ld -> mget (ld_reltype ld) w = Some t -> ~ In (code, w) odd_words ->
  exists n u d, 0 <= n <= 10 /\ translate_word ld w = Some [phrase n u d] /\
  forall E cfg, uni_ascii (e_uni E) -> tz_order (e_tz E) ->
    let now := here E cfg od_zero in
    fixed (t_loc now) -> wf_time now ->
    let r := relative_parse E cfg (phrase n u d) in
    instant (d_time r) = instant now + later (c_preserve cfg) now (step_of cfg d * n) u * 1000000000 /\ t_loc (d_time r) = t_loc now /\ d_period r = unit_period cfg u.
Proof.
  intros code ld w t HG HM HN. cbn [db_get full_db] in HG. apply mget_In in HG. pose proof (mget_In _ _ _ HM) as HI. pose proof table_phrases as B. rewrite forallb_forall in B. apply B in HG. cbn [fst snd] in HG. rewrite forallb_forall in HG. apply HG in HI. cbn [fst snd] in HI.
  apply orb_true_iff in HI as [HI|HI].
  - apply mem_In, all_phrases_ok in HI as (n & u & d & Hn & ->). exists n, u, d. split; [exact Hn|]. split; [unfold translate_word; now rewrite HM|]. intros E cfg UA TZ. now apply C52_phrase.
  - exfalso. apply HN. apply existsb_exists in HI as ([c' w'] & HO & HE). apply andb_true_iff in HE as [E1 E2]. apply eqs_eq in E1, E2. cbn [fst snd] in E1, E2. now subst.
Qed.
Print Assumptions C52_words_partial.
(** English "the day before yesterday", German "morgen", Chinese "去年" are such words *)
Example C52_case : translate_word loc_en (lit "tomorrow") = Some [phrase 1 Day Forwards] /\ mget (ld_reltype loc_de) (lit "vorgestern") = Some (phrase 2 Day Backwards) /\
  mget (ld_reltype loc_zh) (lit "去年") = Some (phrase 1 Year Backwards) /\ ~ In (lit "de", lit "vorgestern") odd_words.
Proof.
  do 3 (split; [vm_compute; reflexivity|]). intros H. assert (X : existsb (fun o => eqs (fst o) (lit "de") && eqs (snd o) (lit "vorgestern")) odd_words = true) by (apply existsb_exists; eexists; split; [exact H|cbn [fst snd]; now rewrite !eqs_refl]). vm_compute in X. discriminate X.
Qed.
(** The words for the day after tomorrow of Chinese and Slovak stand for "in 2 days", with an s that the relative parser does not know:
    Parse finds no date in them *)
Definition locale_cfg (code : str) : uconfig := mkcfg [code] [] (utc_at 2020 6 15 10 0 0) 0 0 0.
Theorem C52_refuted : forall code w, In (code, w) odd_words -> code <> lit "id" ->
  exists ld, db_get full_db code = Some ld /\ mget (ld_reltype ld) w = Some (lit "in 2 days") /\
  snd (parse env0 full_db None (new_parser []) (locale_cfg code) w []) = Ok (zero_date, Some ENoParse).
Proof.
  assert (B : forallb (fun o => eqs (fst o) (lit "id") || match db_get full_db (fst o) with Some ld => match mget (ld_reltype ld) (snd o) with Some t => eqs t (lit "in 2 days") | None => false end | None => false end) odd_words = true) by (vm_compute; reflexivity).
  intros code w HI HN. rewrite forallb_forall in B. specialize (B _ HI). cbn [fst snd] in B. apply orb_true_iff in B as [B|B]; [apply eqs_eq in B; contradiction|].
  destruct (db_get full_db code) as [ld|]; [|discriminate B]. exists ld. split; [reflexivity|]. destruct (mget (ld_reltype ld) w) as [t|]; [|discriminate B]. apply eqs_eq in B. split; [now f_equal|].
  clear B ld t. unfold odd_words in HI. cbn [map In fst snd] in HI. destruct HI as [HI|[HI|[HI|[HI|[HI|[HI|[HI|[]]]]]]]]; (assert (XC : code = fst (code, w)) by reflexivity; assert (XW : w = snd (code, w)) by reflexivity; rewrite <- HI in XC, XW; cbn [fst snd] in XC, XW; subst code w; clear HI).
  all: try (exfalso; now apply HN). all: clear HN; vm_compute; reflexivity.
Qed.
Print Assumptions C52_refuted.
