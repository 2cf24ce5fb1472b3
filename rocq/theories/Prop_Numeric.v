(** C09: dates written as three numbers *)
From Coq Require Import ZifyBool.
From Verif Require Import GoBase SMap Regex Civil GoTime GoTimeFacts GoTimeParse Setting Strutil Dateutil DateutilFacts Tokenizer Timezone Env Common Timestamp Formatted Relative Absolute
  Language Parser ParserFacts History Shows Concrete LocaleData AbsSpec AbsFacts AbsFacts2 AbsFacts3 AbsFacts4 NumericFacts NumTranslate NumParse NumLift Prop_Parser Prop_Absolute.

Lemma abs_full E cfg s R now tz d m yt y : reads E cfg s R -> current cfg now ->
  R = {| r_day := Some d; r_month := Some m; r_year := Some (yt, y); r_weekday := None; r_clock := None |} ->
  valid_date y m d -> y <> 0 -> slen yt = 4 ->
  absolute_parse E cfg s tz = Ok (mkd PDay (mk_date y m d 0 0 0 0 (t_loc now))).
Proof.
  intros Hr Hn -> Hv Hy H4. rewrite (reads_run _ _ _ _ tz _ Hr (cur_now _ _ Hn) (cur_set _ _ Hn)). pose proof Hv as [Hm Hd].
  unfold run, missing_of. cbn [r_day r_month r_year is_some app clock_of r_clock]. rewrite check_none. cbn [negb r_day r_month r_year option_map snd]. unfold or_default.
  assert (y =? 0 = false) as -> by lia. assert (m =? 0 = false) as -> by lia. assert (d =? 0 = false) as -> by lia.
  rewrite create_spec by lia. cbn [rbind]. unfold f_weekday. cbn [r_weekday rbind].
  assert (fix_year cfg y m d = y) as ->. { apply fix_year_same. destruct (leap y) eqn:L; [auto|]. unfold days_in in Hd. rewrite L in Hd. destruct (m =? 2) eqn:?; lia. }
  replace (Z.min d (days_in y m)) with d by lia. unfold f_period, f_setday, f_setmonth, f_time, f_year2, f_month. cbn [r_weekday r_day r_month r_year r_clock is_some negb andb orb].
  assert (slen yt =? 2 = false) as -> by lia. reflexivity.
Qed.
Lemma getnum_fwd v : digits v -> (length v <= 2)%nat -> getnum v false = Some (number 0 v, []).
Proof.
  intros [Hn Hd] Hl. destruct v as [|a [|b [|c v]]]; cbn [length] in Hl; try lia; try congruence; inversion Hd as [|? ? Ha Hd2]; subst; cbn [getnum]; unfold is_digitA.
  - assert ((48 <=? a) && (a <=? 57) = true) as -> by lia. cbn [number]. reflexivity.
  - inversion Hd2 as [|? ? Hb _]; subst. assert ((48 <=? a) && (a <=? 57) = true) as -> by lia. assert ((48 <=? b) && (b <=? 57) = true) as -> by lia. cbn [number]. reflexivity.
Qed.
Section V.
Local Opaque time_parse mk_date.
Lemma greg_day E v : digits v -> (length v <= 2)%nat -> 1 <= number 0 v <= 31 -> h_value (greg_hooks E) CDay v "2" = Some (number 0 v).
Proof.
  intros Hd Hl Hr. cbn [greg_hooks h_value]. unfold greg_value. rewrite (to_lower_kind _ TDigit) by (now apply digits_tdigit). rewrite lower_digits by (now apply digits_tdigit).
  rewrite (tparse_day_fwd _ _ (number 0 v)) by (auto using getnum_fwd). rewrite not_zero by (lia || apply valid_0; lia). now rewrite utc_day0.
Qed.
Lemma greg_month E v : digits v -> (length v <= 2)%nat -> 1 <= number 0 v <= 12 -> h_value (greg_hooks E) CMonth v "1" = Some (number 0 v).
Proof.
  intros Hd Hl Hr. cbn [greg_hooks h_value]. unfold greg_value. rewrite (to_lower_kind _ TDigit) by (now apply digits_tdigit). rewrite lower_digits by (now apply digits_tdigit).
  rewrite (tparse_month_fwd _ _ (number 0 v)) by (auto using getnum_fwd). rewrite not_zero by (lia || apply valid_01; lia). now rewrite utc_month.
Qed.
Lemma greg_year E v : digits v -> length v = 4%nat -> number 0 v <> 1 -> h_value (greg_hooks E) CYear v "2006" = Some (number 0 v).
Proof.
  intros Hd Hl Hr. cbn [greg_hooks h_value]. unfold greg_value. rewrite (to_lower_kind _ TDigit) by (now apply digits_tdigit). rewrite lower_digits by (now apply digits_tdigit).
  rewrite (tparse_year4_fwd _ _ (number 0 v)).
  - rewrite not_zero by (lia || apply valid_01; lia). f_equal. apply mk_date_year; [apply fixed_utc|apply valid_01; lia|unfold valid_clock; lia].
  - exact Hl.
  - destruct v as [|c v]; [discriminate|]. destruct Hd as [_ Hd]. inversion Hd; subst. unfold is_digit_at, is_digitA. cbn [nth_error]. lia.
  - now apply digits_atoi.
Qed.
Lemma greg_long E v : digits v -> length v = 4%nat -> h_value (greg_hooks E) CDay v "2" = None /\ h_value (greg_hooks E) CMonth v "1" = None.
Proof.
  intros Hd Hl. cbn [greg_hooks h_value]. split; [destruct (greg_value E CDay v "2") eqn:V|destruct (greg_value E CMonth v "1") eqn:V]; try reflexivity; exfalso.
  - apply V_day in V as (_ & _ & _ & V); [lia|now apply digits_tdigit].
  - apply V_month in V as (_ & _ & _ & V); [lia|now apply digits_tdigit].
Qed.
End V.
Lemma greg_parts E td tm ty d m y : digits td -> digits tm -> digits ty -> (length td <= 2)%nat -> (length tm <= 2)%nat -> length ty = 4%nat ->
  number 0 td = d -> number 0 tm = m -> number 0 ty = y -> valid_date y m d -> y <> 0 -> y <> 1 -> parts (greg_hooks E) td tm ty d m y.
Proof.
  intros Hd Hm Hy Ld Lm Ly <- <- <- [V1 V2] N0 N1. assert (D31 : days_in (number 0 ty) (number 0 tm) <= 31) by (pose proof (days_in_bounds (number 0 ty) (number 0 tm)); lia).
  destruct (greg_long E ty Hy Ly) as [G1 G2]. constructor; auto using greg_year; try lia; [apply greg_day; auto; lia|apply greg_month; auto|unfold slen; lia].
Qed.

(** a time of an ordinary zone (its offset is at most a day) in year 2 or later is not the zero time *)
Lemma late_not_zero y m d l : valid_date y m d -> 2 <= y -> fixed l -> -86400 <= z_off (l_base l) <= 86400 -> is_zero (mk_date y m d 0 0 0 0 l) = false.
Proof.
  intros Hv Hy Hl Ho. destruct (is_zero _) eqn:Z; [|reflexivity]. exfalso. unfold is_zero in Z. apply andb_true_iff in Z as [Z1 Z2]. apply Z.eqb_eq in Z1, Z2.
  pose proof (instant_mk_date y m d 0 0 0 0 l Hl (proj1 Hv)) as HI. unfold instant in HI. rewrite Z1, Z2 in HI. unfold zero_sec in HI.
  assert (days_of_civil 1 12 31 < days_of_civil y m d) by (apply days_of_civil_lt; [split; [lia|vm_compute; split; discriminate]|exact Hv|lia]). change (days_of_civil 1 12 31) with (-718798) in *. lia.
Qed.
Lemma in_zone_shows y m d l name : valid_date y m d -> fixed l ->
  shows (Ok (with_locale (mkd PDay (mk_date y m d 0 0 0 0 l)) name, None)) y m d 0 0 0 0 PDay name.
Proof.
  intros Hv Hl. eexists. split; [reflexivity|]. cbn [d_time d_period d_locale with_locale mkd].
  assert (VC : valid_clock 0 0 0 0) by (unfold valid_clock; lia). pose proof (mk_date_clock y m d 0 0 0 0 l Hl (proj1 Hv) VC) as (? & ? & ? & ?).
  rewrite mk_date_year, mk_date_month, mk_date_day by assumption. auto 10.
Qed.

(** An ordinary call of Parse with this text: a parser some program can hold, a valid configuration that asks for known locales, whose
    tables are like the real ones (see C09_tables), skip tokens that are not numbers or separators, no formats; the current time is set
    and is in a zone with a fixed offset; no zone is more than a day from UTC. *)
Record ordinary (E : env) (D : langdb) (det : option (str -> list str)) (p : pstate) (cfg : uconfig) (s : str) : Prop := {
  o_ascii : uni_ascii (e_uni E);
  o_tables : forall n ld, db_get D n = Some ld -> numeric_locale ld = true;
  o_parser : reachable D det p;
  o_types : Forall (fun t => t <= 5) (eff_types p);
  o_valid : validate (e_uni E) cfg = true;
  o_known : exists lds, get_locales E D (u_locales cfg) (detected_languages det cfg s) (u_region cfg) (u_given_order cfg) false = Ok lds;
  o_skip : no_skip (u_skip cfg) /\ ~ In [] (u_skip cfg);
  o_now : is_zero (e_now E) = false /\ wf_time (e_now E) /\ wf_time (u_now cfg) /\ fixed (t_loc (u_now cfg)) /\ Z.abs (z_off (l_base (t_loc (u_now cfg)))) <= 86400;
  o_zone : forall l sec, u_tz cfg = Some l -> Z.abs (z_off (zone_at l sec)) <= 86400 }.

Section L.
Variables (E : env) (D : langdb) (det : option (str -> list str)) (p : pstate) (cfg : uconfig).
Notation U := (e_uni E).
Notation cfg1 := (initiate (e_now E) cfg).
Variables (A : str) (l : list (Z * str)).
Notation s := (numtext A l).
Hypothesis HN : numbers A l.
Hypothesis HO : ordinary E D det p cfg s.
Let UA := o_ascii _ _ _ _ _ _ HO.
Lemma ord_skip : no_skip (u_skip cfg1) /\ ~ In [] (u_skip cfg1).
Proof.
  destruct (o_skip _ _ _ _ _ _ HO) as [H1 H2]. unfold initiate, uclone. cbn [u_skip]. destruct (u_skip cfg) as [|w ws]; [|auto]. split.
  - constructor; [|constructor]. exists 116. unfold separator. cbn. lia.
  - intros [X|[]]. discriminate X.
Qed.
Lemma ord_first (P : locale -> date -> Prop) fs : (forall ld, numeric_locale ld = true -> exists d, try_locale E cfg1 (to_internal cfg1) (eff_types p) s fs ld = Ok d /\ date_is_zero d = false /\ P ld d) ->
  sanitize_date U s = s -> date_is_zero (formatted_parse E (to_internal cfg1) s fs) = true ->
  exists ld d, snd (parse E D det p cfg s fs) = Ok (with_locale d (ld_name ld), None) /\ P ld d.
Proof.
  intros HL HS HF. destruct (o_known _ _ _ _ _ _ HO) as (lds0 & HG). pose proof (o_tables _ _ _ _ _ _ HO) as HD.
  destruct (get_applicable_num E D UA HD A l det (p_used p) cfg1 (to_internal cfg1) lds0 HN) as (ld & r & HA & NL); try apply ord_skip.
  - apply (reachable_from D det); [exact HD|apply HO].
  - exact HG.
  - destruct (HL ld NL) as (d & HT & HZ & HP). exists ld, d. split; [|exact HP]. eapply parse_first with (ld := ld) (lds := r) (d := d).
    + apply not_true_iff_false. rewrite existsb_exists. intros (t & Ht & Hgt). pose proof (o_types _ _ _ _ _ _ HO) as HT2. rewrite Forall_forall in HT2. apply HT2 in Ht. unfold TNoSpaces in Hgt. lia.
    + exact (o_valid _ _ _ _ _ _ HO).
    + exact HF.
    + rewrite HS. exact HA.
    + rewrite HS. exact HT.
    + exact HZ.
Qed.
Lemma ord_current : exists now, u_now cfg1 = now /\ is_zero now = false /\ wf_time now /\ fixed (t_loc now) /\ -86400 <= z_off (l_base (t_loc now)) <= 86400.
Proof.
  destruct (o_now _ _ _ _ _ _ HO) as (N1 & N2 & N3 & N4 & N5). eexists. split; [reflexivity|]. unfold initiate, uclone. cbn [u_now]. destruct (is_zero (u_now cfg)) eqn:Z.
  - split; [exact N1|]. split; [exact N2|]. split; [apply fixed_utc|]. cbn. lia.
  - split; [exact Z|]. split; [exact N3|]. split; [exact N4|]. lia.
Qed.
End L.

(** a numeric date: three groups of digits and the separators *)
Lemma tz_years : forallb (fun w => match w with _ :: Y => (number 0 Y <? 1000) || existsb (Z.eqb (number 0 Y)) [1000; 1100; 1200] | [] => true end) tz_texts = true.
Proof. vm_compute. reflexivity. Qed.

Theorem C09_numeric_dates_partial : forall E D det p cfg order td tm ty d m y a b c sp sq before after,
  (* the day and month in one or two digits, the year in four *)
  digits td -> digits tm -> digits ty -> (length td <= 2)%nat -> (length tm <= 2)%nat -> length ty = 4%nat ->
  number 0 td = d -> number 0 tm = m -> number 0 ty = y -> valid_date y m d -> 1000 <= y <= 9999 ->
  (* written in the order the configuration gives for every locale, joined by '-', '/', '.' or ' ' *)
  In order ["DMY"; "DYM"; "MDY"; "MYD"; "YDM"; "YMD"]%string -> (forall name, order_choice (u_order cfg) name = Some (lit order)) ->
  map (fun c => if c =? 68 then td else if c =? 77 then tm else ty) (lit order) = [a; b; c] ->
  In sp (lit "-/. ") -> In sq (lit "-/. ") -> (sp = 46 <-> sq = 46) ->
  (* "-1000", "-1100" and "-1200" look like time zones *)
  (In y [1000; 1100; 1200] -> a = ty \/ (sp <> 45 /\ sq <> 45)) ->
  let s := a ++ sp :: b ++ sq :: c in
  ordinary E D det p cfg s ->
  (* absolute dates are tried, and no-space dates not before them *)
  eff_types p = before ++ 4 :: after -> Forall (fun t => 0 <= t <= 3) before ->
  exists name, shows (snd (parse E D det p cfg s [])) y m d 0 0 0 0 PDay name.
Proof.
  intros E D det p cfg order td tm ty d m y a b c sp sq before after Dd Dm Dy Ld Lm Ly Nd Nm Ny Hv Hy HOr HC HA Hsp Hsq PQ HTZ s HO HT HB.
  assert (Sp : separator sp) by (unfold separator; cbn [lit In] in Hsp; cbn in Hsp; lia). assert (Sq : separator sq) by (unfold separator; cbn in Hsq; lia).
  assert (INA : forall x, In x [a; b; c] -> x = td \/ x = tm \/ x = ty).
  { rewrite <- HA. intros x Hx. apply in_map_iff in Hx as (k & <- & _). destruct (k =? 68); [auto|]. destruct (k =? 77); auto. }
  assert (DX : forall x, x = td \/ x = tm \/ x = ty -> digits x /\ short x) by (unfold short; intros x [-> | [-> | ->]]; (split; [assumption|lia])).
  destruct (DX a) as [Da Sa]; [apply INA; cbn; auto|]. destruct (DX b) as [Db Sb]; [apply INA; cbn; auto|]. destruct (DX c) as [Dc Sc]; [apply INA; cbn; auto|]. clear DX.
  pose proof (three_numbers a b c sp sq Da Db Dc Sp Sq) as TN. pose proof (three_numtext a sp b sq c) as ES. unfold three in ES. change (s = numtext a [(sp, b); (sq, c)]) in ES.
  pose proof (o_ascii _ _ _ _ _ _ HO) as UA.
  assert (TZ : etz_pop E s = (s, od_zero)).
  { apply (no_tz E UA a b c sp sq Da Db Dc Sp Sq Sa Sb Sc). intros Y HY HI. destruct (tz_form _ HI) as (x & EX & Dx & Lx). assert (x = Y) as -> by congruence. clear EX.
    pose proof tz_years as TY. rewrite forallb_forall in TY. specialize (TY _ HI). cbv beta iota in TY.
    assert (Y = ty) as ->. { destruct (INA Y) as [-> | [-> | ->]]; [destruct HY as [[-> _]|[-> _]]; cbn; auto|lia|lia|reflexivity]. }
    rewrite Ny in TY. assert (IY : In y [1000; 1100; 1200]) by (cbn [existsb] in TY; cbn [In]; lia). specialize (HTZ IY). destruct HTZ as [-> | [N1 N2]]; [|destruct HY as [[_ ?]|[_ ?]]; congruence].
    clear - HA HY HOr Ld Lm Ly. cbn [In] in HOr. assert (NE : td <> ty /\ tm <> ty) by (split; intros ->; lia). destruct NE as [NE1 NE2].
    destruct HOr as [<-|[<-|[<-|[<-|[<-|[<-|[]]]]]]]; cbn in HA; (assert (Q : forall x y z u v w : str, [x; y; z] = [u; v; w] -> x = u /\ y = v /\ z = w) by (intros; repeat split; congruence)); apply Q in HA as (? & ? & ?); destruct HY as [[? _]|[? _]]; congruence. }
  rewrite ES in HO |- *. destruct (ord_current E D det p cfg a [(sp, b); (sq, c)] HO) as (now & N0 & N1 & N2 & N3 & N4). destruct (ord_skip E D det p cfg a [(sp, b); (sq, c)] HO) as [K1 K2].
  set (T := mk_date y m d 0 0 0 0 (t_loc now)).
  destruct (ord_first E D det p cfg a [(sp, b); (sq, c)] TN HO (fun ld d0 => exists l, fixed l /\ d0 = mkd PDay (mk_date y m d 0 0 0 0 l)) []) as (ld & d0 & HP & l & FL & ->).
  - intros ld NL. set (lcfg := with_order (clone (to_internal (initiate (e_now E) cfg))) (order_for E (initiate (e_now E) cfg) ld)).
    assert (AT : exists l, fixed l /\ apply_timezone lcfg (mkd PDay T) od_zero = mkd PDay (mk_date y m d 0 0 0 0 l) /\ -86400 <= z_off (l_base l) <= 86400).
    { unfold apply_timezone. destruct (date_is_zero (mkd PDay T) || _) eqn:C; [exists (t_loc now); auto|]. apply orb_false_iff in C as [_ C]. cbn [od_is_zero andb] in C. change (od_is_zero od_zero) with true in *. cbn [andb negb] in *.
      change (c_tz lcfg) with (u_tz cfg) in *. destruct (u_tz cfg) as [l|] eqn:TZ2; [|discriminate C]. pose proof (o_zone _ _ _ _ _ _ HO l (t_sec T) TZ2) as OZ. cbn [d_time mkd with_time d_locale d_period].
      exists (fixed_zone (z_name (zone_at l (t_sec T))) (z_off (zone_at l (t_sec T)))). split; [apply fixed_fixed_zone|]. split; [|cbn [l_base fixed_zone z_off]; lia].
      assert (VC : valid_clock 0 0 0 0) by (unfold valid_clock; lia). destruct (mk_date_clock y m d 0 0 0 0 (t_loc now) N3 (proj1 Hv) VC) as (E1 & E2 & E3 & E4). fold T in E1, E2, E3, E4. rewrite E1, E2, E3, E4.
      pose proof (mk_date_year y m d 0 0 0 0 (t_loc now) N3 Hv VC) as Y1. pose proof (mk_date_month y m d 0 0 0 0 (t_loc now) N3 Hv VC) as Y2. pose proof (mk_date_day y m d 0 0 0 0 (t_loc now) N3 Hv VC) as Y3. fold T in Y1, Y2, Y3. rewrite Y1, Y2, Y3. reflexivity. }
    destruct AT as (l & FL & EA & OL). assert (ZA : date_is_zero (mkd PDay (mk_date y m d 0 0 0 0 l)) = false) by (unfold date_is_zero; cbn [d_period d_time mkd period_eqb orb]; apply late_not_zero; (assumption || lia)).
    assert (RA : try_absolute E lcfg [s] = Ok (mkd PDay (mk_date y m d 0 0 0 0 l))).
    { assert (SB : strip_braces s = s) by exact (strip_three a b c sp sq Da Db Dc Sp Sq). unfold try_absolute. cbn [first_date]. unfold abs_one, strip_tz. rewrite SB, TZ.
      assert (CU : current lcfg now) by (constructor; assumption).
      assert (AP : absolute_parse E lcfg s od_zero = Ok (mkd PDay T)).
      { destruct (init_three E UA (greg_hooks E) lcfg order td tm ty d m y a sp b sq c) as (st & HI & F1 & F2 & F3 & F4); try assumption.
        - cbn [lcfg with_order c_order]. rewrite C10_date_order_validated by exact UA. change (u_order (initiate (e_now E) cfg)) with (u_order cfg). now rewrite HC.
        - apply greg_parts; (assumption || lia).
        - eapply (abs_full E lcfg s _ now od_zero d m ty y); [|exact CU|reflexivity|exact Hv|lia|unfold slen; lia]. exists st. split; [exact HI|]. rewrite F1, F2, F3. cbn [r_day r_month r_year r_weekday r_clock cm_day cm_month cm_year cm_wd option_map fst snd dig tk_text]. auto 10. }
      rewrite AP. cbn [drop_err rbind]. rewrite EA. assert (NS : s <> []) by (unfold s; destruct a; discriminate). clear - NS ZA. clearbody s. destruct s as [|c0 s0]; [congruence|]. cbn [rbind]. rewrite ZA. reflexivity. }
    exists (mkd PDay (mk_date y m d 0 0 0 0 l)). split; [|split; [exact ZA|eauto]].
    unfold try_locale. fold lcfg. rewrite !(translate_num E UA ld NL lcfg a [(sp, b); (sq, c)] _ TN K1 K2). cbn [rbind]. rewrite <- ES, HT. apply first_date_zeros; [|exact RA|exact ZA].
    intros t Ht. rewrite Forall_forall in HB. apply HB in Ht. unfold try_type, TTimestamp, TNegTimestamp, TRelative, TCustom.
    pose proof (no_timestamp E UA a b c sp sq Da Db Dc Sp Sq Sa Sb Sc lcfg) as NT. fold s in NT.
    destruct (t =? 0) eqn:T0; [eexists; split; [reflexivity|]; change (three a sp b sq c) with s in NT; rewrite NT; reflexivity|].
    destruct (t =? 1) eqn:T1; [eexists; split; [reflexivity|]; change (three a sp b sq c) with s in NT; rewrite NT; reflexivity|].
    destruct (t =? 2) eqn:T2.
    { pose proof (no_relative E UA a b c sp sq Da Db Dc Sp Sq) as NR. change (three a sp b sq c) with s in NR. specialize (NR TZ lcfg). unfold try_relative. cbn [first_date rbind]. rewrite NR. eexists. split; [reflexivity|]. reflexivity. }
    destruct (t =? 3) eqn:T3; [|lia]. unfold try_custom. cbn [first_date rbind]. eexists. split; reflexivity.
  - rewrite <- ES. apply (sanitize_date_three E UA a b c sp sq); assumption.
  - reflexivity.
  - exists (ld_name ld). rewrite HP. now apply in_zone_shows.
Qed.
Print Assumptions C09_numeric_dates_partial.

(** the restriction on the years is needed *)
Definition order_cfg (order : string) : uconfig := mkcfg [lit "en"] (lit order) (utc_at 2016 2 28 10 0 0) CurrentPeriod Current CurrentMonth.
Definition go_num (order s : string) : res ret := snd (parse env0 db0 None (new_parser []) (order_cfg order) (lit s) []).
Theorem C09_dash_year_refuted : valid_date 1100 6 5 /\ shows (go_num "DMY" "05-06-1100") 2016 6 5 0 0 0 0 PDay (lit "en").
Proof. split; [unfold valid_date; vm_compute; repeat split; discriminate|]. apply shows_by. vm_compute. reflexivity. Qed.
Print Assumptions C09_dash_year_refuted.
(** and so is that on mixed separators: a '.' can separate hours from minutes *)
Theorem C09_mixed_separators_refuted : valid_date 2015 11 10 /\ shows (go_num "DMY" "10.11/2015") 2015 2 28 10 11 0 0 PYear (lit "en").
Proof. split; [unfold valid_date; vm_compute; repeat split; discriminate|]. apply shows_by. vm_compute. reflexivity. Qed.
Print Assumptions C09_mixed_separators_refuted.

(** the tables are as required *)
Lemma db0_all (P : locale -> Prop) : Forall (fun x => P (snd x)) loc_table -> forall n ld, db_get db0 n = Some ld -> P ld.
Proof.
  intros H n ld. cbn [db_get db0]. induction H as [|[k v] l Hx _ IH]; cbn [mget]; [discriminate|]. destruct (eqs n k); [|exact IH]. intros X. apply some_inj in X. now subst.
Qed.
Lemma db0_numeric : forall n ld, db_get db0 n = Some ld -> numeric_locale ld = true.
Proof. apply db0_all. repeat (apply Forall_cons; [vm_compute; reflexivity|]). constructor. Qed.
(** every ordinary call of the examples *)
Lemma ordinary_case order s : In order orders -> ordinary env0 db0 None (new_parser []) (order_cfg order) (lit s).
Proof.
  intros HO. constructor.
  - exact uni0_ascii.
  - exact db0_numeric.
  - exists [], []. reflexivity.
  - repeat (apply Forall_cons; [vm_compute; discriminate|]). constructor.
  - reflexivity.
  - eexists. vm_compute. reflexivity.
  - split; [constructor|intros []].
  - vm_compute. repeat split; discriminate.
  - discriminate.
Qed.
Lemma digits_by s : (match s with [] => false | _ => forallb is_digitA s end) = true -> digits s.
Proof.
  destruct s as [|c s]; [discriminate|]. intros H. split; [discriminate|]. apply Forall_forall. intros x Hx. rewrite forallb_forall in H. apply H in Hx. unfold is_digitA in Hx. lia.
Qed.
Example C09_case : exists name, shows (snd (parse env0 db0 None (new_parser []) (order_cfg "MYD") (lit "2" ++ 47 :: lit "2016" ++ 32 :: lit "29") [])) 2016 2 29 0 0 0 0 PDay name.
Proof.
  pose proof (C09_numeric_dates_partial env0 db0 None (new_parser []) (order_cfg "MYD") "MYD" (lit "29") (lit "2") (lit "2016") 29 2 2016 (lit "2") (lit "2016") (lit "29") 47 32 [0; 1; 2; 3] [5]) as T.
  cbv zeta in T. apply T; clear T.
  1-3: apply digits_by; reflexivity.
  1-3: cbn; lia.
  1-3: reflexivity.
  - unfold valid_date; vm_compute; repeat split; discriminate.
  - lia.
  - vm_compute; tauto.
  - intros name. reflexivity.
  - reflexivity.
  - vm_compute; tauto.
  - vm_compute; tauto.
  - lia.
  - vm_compute. intuition discriminate.
  - apply (ordinary_case "MYD" "2/2016 29"). vm_compute; tauto.
  - reflexivity.
  - repeat (apply Forall_cons; [lia|]). apply Forall_nil.
Qed.
