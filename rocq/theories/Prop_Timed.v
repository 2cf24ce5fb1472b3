(** C62: a date written as three numbers and a time of day *)
From Coq Require Import ZifyBool.
From Verif Require Import GoBase SMap Regex Civil GoTime GoTimeFacts GoTimeParse Setting Strutil Dateutil DateutilFacts Tokenizer Timezone Env Common Timestamp Formatted Relative Absolute
  Language Parser ParserFacts History Shows Concrete LocaleData Spec AbsSpec AbsFacts AbsFacts2 AbsFacts3 AbsFacts4 RegexFacts NumericFacts NumTranslate NumParse NumLift Prop_Parser Prop_Absolute Prop_Numeric
  Prop_Clocktime TextFront TextActs TextRead ClockTranslate ClockLift NumClock.

Lemma abs_timed E cfg s R now tz d m yt y h mi sc ns per : reads E cfg s R -> current cfg now ->
  R = {| r_day := Some d; r_month := Some m; r_year := Some (yt, y); r_weekday := None; r_clock := Some (h, mi, sc, ns, per) |} ->
  valid_date y m d -> y <> 0 -> slen yt = 4 ->
  absolute_parse E cfg s tz = Ok (mkd (if c_timeperiod cfg then period_min PDay per else PDay) (mk_date y m d h mi sc ns (t_loc now))).
Proof.
  intros Hr Hn -> Hv Hy H4. rewrite (reads_run _ _ _ _ tz _ Hr (cur_now _ _ Hn) (cur_set _ _ Hn)). pose proof Hv as [Hm Hd].
  unfold run, missing_of. cbn [r_day r_month r_year is_some app clock_of r_clock]. rewrite check_none. cbn [negb r_day r_month r_year option_map snd]. unfold or_default.
  assert (y =? 0 = false) as -> by lia. assert (m =? 0 = false) as -> by lia. assert (d =? 0 = false) as -> by lia.
  rewrite create_spec by lia. cbn [rbind]. unfold f_weekday. cbn [r_weekday rbind].
  assert (fix_year cfg y m d = y) as ->. { apply fix_year_same. destruct (leap y) eqn:L; [auto|]. unfold days_in in Hd. rewrite L in Hd. destruct (m =? 2) eqn:?; lia. }
  replace (Z.min d (days_in y m)) with d by lia. unfold f_period, f_setday, f_setmonth, f_time, f_year2, f_month. cbn [r_weekday r_day r_month r_year r_clock is_some negb andb orb].
  assert (slen yt =? 2 = false) as -> by lia. reflexivity.
Qed.
Lemma timed_not_zero y m d h mi sc ns l : valid_date y m d -> valid_clock h mi sc ns -> 2 <= y -> fixed l -> -86400 <= z_off (l_base l) <= 86400 -> is_zero (mk_date y m d h mi sc ns l) = false.
Proof.
  intros Hv Hc Hy Hl Ho. destruct (is_zero _) eqn:Z; [|reflexivity]. exfalso. unfold is_zero in Z. apply andb_true_iff in Z as [Z1 Z2]. apply Z.eqb_eq in Z1, Z2.
  pose proof (instant_mk_date y m d h mi sc ns l Hl (proj1 Hv)) as HI. unfold instant in HI. rewrite Z1, Z2 in HI. unfold zero_sec in HI. unfold valid_clock in Hc.
  assert (days_of_civil 1 12 31 < days_of_civil y m d) by (apply days_of_civil_lt; [split; [lia|vm_compute; split; discriminate]|exact Hv|lia]). change (days_of_civil 1 12 31) with (-718798) in *. lia.
Qed.
Lemma timed_shows y m d h mi sc ns l per name : valid_date y m d -> valid_clock h mi sc ns -> fixed l ->
  shows (Ok (with_locale (mkd per (mk_date y m d h mi sc ns l)) name, None)) y m d h mi sc ns per name.
Proof.
  intros Hv VC Hl. eexists. split; [reflexivity|]. cbn [d_time d_period d_locale with_locale mkd].
  pose proof (mk_date_clock y m d h mi sc ns l Hl (proj1 Hv) VC) as (? & ? & ? & ?). rewrite mk_date_year, mk_date_month, mk_date_day by assumption. auto 10.
Qed.
(** a time of day of digits and colons *)
Lemma clock_groups k h mi sc ns per : clock k h mi sc ns per -> Forall (fun c => 48 <= c <= 58) k ->
  exists hw ms, k = clock_text hw ms /\ digits hw /\ Forall digits ms /\ ms <> [] /\ In (length hw, map (@length Z) ms) clock_lengths /\ ns = 0.
Proof.
  assert (FR : forall fw n, fraction fw n -> Forall (fun c => 48 <= c <= 58) fw -> fw = [] /\ n = 0).
  { intros fw n [[-> ->]|(c & ds & -> & HC & _)] HF; [auto|]. inversion HF; subst. cbn [In] in HC. lia. }
  assert (HW : forall aw x, half_word aw x -> ~ Forall (fun c => 48 <= c <= 58) aw) by (intros aw x (n & ->) HF; inversion HF; lia).
  assert (LN : forall w v, numeral w v -> digits w /\ In (length w) [1; 2]%nat).
  { intros w v (HD & HL & _). split; [exact HD|]. destruct HD as [N _]. destruct w as [|? [|? [|? ?]]]; cbn [length In] in *; try lia; congruence. }
  intros HC HF. destruct HC as [hw h mw m sw s fw ns H1 _ H2 _ H3 _ H4|hw h mw m sw s fw ns aw x _ _ _ _ _ _ _ H4|hw h mw m H1 _ H2 _|hw h mw m aw x _ _ _ _ H4|hw h aw x _ _ H4].
  - rewrite !app_assoc in HF. apply Forall_app in HF as [_ HF]. destruct (FR _ _ H4 HF) as [-> ->]. exists hw, [mw; sw]. apply LN in H1 as [D1 L1], H2 as [D2 L2], H3 as [D3 L3].
    split; [unfold clock_text, colon; cbn [map numtext app]; now rewrite app_nil_r|]. split; [exact D1|]. split; [auto|]. split; [discriminate|]. split; [|reflexivity]. cbn [map].
    cbn [In] in L1, L2, L3. destruct L1 as [<-|[<-|[]]], L2 as [<-|[<-|[]]], L3 as [<-|[<-|[]]]; vm_compute; tauto.
  - exfalso. rewrite !app_assoc in HF. apply Forall_app in HF as [_ HF]. exact (HW _ _ H4 HF).
  - exists hw, [mw]. apply LN in H1 as [D1 L1], H2 as [D2 L2]. split; [reflexivity|]. split; [exact D1|]. split; [auto|]. split; [discriminate|]. split; [|reflexivity]. cbn [map].
    cbn [In] in L1, L2. destruct L1 as [<-|[<-|[]]], L2 as [<-|[<-|[]]]; vm_compute; tauto.
  - exfalso. rewrite !app_assoc in HF. apply Forall_app in HF as [_ HF]. exact (HW _ _ H4 HF).
  - exfalso. apply Forall_app in HF as [_ HF]. exact (HW _ _ H4 HF).
Qed.

(** an ordinary call (see C09) of Parse with a text that may have colons: the tables of the locales are like the real ones for these
    texts too, and no skip token consists of digits, separators and colons only *)
Record ordinary_timed (E : env) (D : langdb) (det : option (str -> list str)) (p : pstate) (cfg : uconfig) (s : str) : Prop := {
  ot_ordinary : ordinary E D det p cfg s;
  ot_tables : forall n ld, db_get D n = Some ld -> clock_locale ld = true;
  ot_skip : clock_skip (u_skip cfg) }.

Section L.
Variables (E : env) (D : langdb) (det : option (str -> list str)) (p : pstate) (cfg : uconfig).
Notation U := (e_uni E).
Notation cfg1 := (initiate (e_now E) cfg).
Variables (A : str) (l : list (Z * str)).
Notation s := (numtext A l).
Hypothesis HN : groups A l.
Hypothesis HO : ordinary_timed E D det p cfg s.
Let HO1 := ot_ordinary _ _ _ _ _ _ HO.
Let UA := o_ascii _ _ _ _ _ _ HO1.
Lemma timed_skip : clock_skip (u_skip cfg1) /\ ~ In [] (u_skip cfg1).
Proof.
  destruct (o_skip _ _ _ _ _ _ HO1) as [_ H2]. pose proof (ot_skip _ _ _ _ _ _ HO) as H1. unfold initiate, uclone. cbn [u_skip]. destruct (u_skip cfg) as [|w ws]; [|auto]. split.
  - constructor; [|constructor]. exists 116. unfold csep. cbn. lia.
  - intros [X|[]]. discriminate X.
Qed.
Lemma timed_first (P : locale -> date -> Prop) fs : (forall ld, clock_locale ld = true -> exists d, try_locale E cfg1 (to_internal cfg1) (eff_types p) s fs ld = Ok d /\ date_is_zero d = false /\ P ld d) ->
  sanitize_date U s = s -> date_is_zero (formatted_parse E (to_internal cfg1) s fs) = true ->
  exists ld d, snd (parse E D det p cfg s fs) = Ok (with_locale d (ld_name ld), None) /\ P ld d.
Proof.
  intros HL HS HF. destruct (o_known _ _ _ _ _ _ HO1) as (lds0 & HG). pose proof (ot_tables _ _ _ _ _ _ HO) as HD.
  destruct (get_applicable_clock E D UA HD A l det (p_used p) cfg1 (to_internal cfg1) lds0 HN) as (ld & r & HA & NL); try apply timed_skip.
  - apply (reachable_from D det); [exact HD|apply HO1].
  - exact HG.
  - destruct (HL ld NL) as (d & HT & HZ & HP). exists ld, d. split; [|exact HP]. eapply parse_first with (ld := ld) (lds := r) (d := d).
    + apply not_true_iff_false. rewrite existsb_exists. intros (t & Ht & Hgt). pose proof (o_types _ _ _ _ _ _ HO1) as HT2. rewrite Forall_forall in HT2. apply HT2 in Ht. unfold TNoSpaces in Hgt. lia.
    + exact (o_valid _ _ _ _ _ _ HO1).
    + exact HF.
    + rewrite HS. exact HA.
    + rewrite HS. exact HT.
    + exact HZ.
Qed.
Lemma timed_current : exists now, u_now cfg1 = now /\ is_zero now = false /\ wf_time now /\ fixed (t_loc now) /\ -86400 <= z_off (l_base (t_loc now)) <= 86400.
Proof.
  destruct (o_now _ _ _ _ _ _ HO1) as (N1 & N2 & N3 & N4 & N5). eexists. split; [reflexivity|]. unfold initiate, uclone. cbn [u_now]. destruct (is_zero (u_now cfg)) eqn:Z.
  - split; [exact N1|]. split; [exact N2|]. split; [apply fixed_utc|]. cbn. lia.
  - split; [exact Z|]. split; [exact N3|]. split; [exact N4|]. lia.
Qed.
End L.

(** the three numbers as actions of the absolute parser *)
Lemma ends_three E H order td tm ty d m y A B C : In order orders -> parts H td tm ty d m y -> arranged order td tm ty = [A; B; C] ->
  ends E H [ADigit A; ADigit B; ADigit C] order (Some d) (Some m) (Some (ty, y)) None None.
Proof.
  intros HO HP HA. destruct (dsteps E H order td tm ty d m y HO HP) as (A' & B' & C' & a1 & a2 & a3 & HA' & S1 & K1 & S2 & K2 & S3 & HF).
  rewrite HA in HA'. assert (Q : forall x y z u v w : str, [x; y; z] = [u; v; w] -> x = u /\ y = v /\ z = w) by (intros; repeat split; congruence). apply Q in HA' as (<- & <- & <-).
  rewrite (number_directives_lit E order HO) in S1, S2, S3. exists a3. split.
  - cbn [run_acts act]. unfold dstep in S1, S2, S3. destruct (digit_token H ast0 A (dirs_of order)) as [[b1 r1]|]; [|discriminate S1]. apply some_inj in S1. rewrite S1.
    destruct (digit_token H a1 B (dirs_of order)) as [[b2 r2]|]; [|discriminate S2]. apply some_inj in S2. rewrite S2. destruct (digit_token H a2 C (dirs_of order)) as [[b3 r3]|]; [|discriminate S3]. apply some_inj in S3. now rewrite S3.
  - rewrite (fallback_final _ _ _ _ _ _ _ HF). destruct HF as (F1 & F2 & F3 & F4). rewrite F1, F2, F3. repeat split.
Qed.
Lemma timed_spaced A p B q C h ms : timed_ok A p B q C h ms -> spaced (timed A p B q C h ms) = true.
Proof. intros HT. rewrite timed_numtext. apply groups_spaced. now apply timed_groups. Qed.
Lemma reads_timed E cfg order td tm ty d m y A p B q C h ms t per : uni_ascii (e_uni E) -> c_order cfg = lit order -> In order orders -> parts (greg_hooks E) td tm ty d m y -> arranged order td tm ty = [A; B; C] ->
  timed_ok A p B q C h ms -> ms <> [] -> parse_time E (clock_text h ms) = Some (t, per) ->
  reads E cfg (timed A p B q C h ms) {| r_day := Some d; r_month := Some m; r_year := Some (ty, y); r_weekday := None; r_clock := Some (hour t, minute t, second t, nanosecond t, per) |}.
Proof.
  intros UA HC HO HP HA HT NM PT. pose proof (ends_time E (greg_hooks E) _ order _ _ _ _ _ (clock_text h ms) (ends_three E (greg_hooks E) order td tm ty d m y A B C HO HP HA)) as (a & R & K1 & K2 & K3 & K4 & K5 & K6).
  destruct (init_acts E (greg_hooks E) cfg (timed A p B q C h ms) a) as (k & HI).
  - now apply timed_asc.
  - now apply timed_spaced.
  - rewrite HC, (number_directives_lit E order HO), (actions_timed E UA A B C h p q ms HT NM). exact R.
  - exists (skips k (fallback a)). split; [exact HI|]. cbn [skips a_vals a_toks a_time r_day r_month r_year r_weekday r_clock]. rewrite K1, K2, K3, K4, K5. repeat (split; [reflexivity|]).
    destruct (a_time (fallback a)) as [tk|]; [|discriminate K6]. cbn [option_map] in K6. apply some_inj in K6. rewrite K6. eauto.
Qed.

(** A date of three numbers in the order the configuration gives for every locale (as in C09), a blank, and a time of day [k] in digits and colons
    ("10:04", "9:04:05"; see C38 for [clock]): the result is that date at that time, with period day, or with the resolution of the time of day
    if ReturnTimeAsPeriod is set. *)
Theorem C62_numeric_date_times : forall E D det p cfg order td tm ty d m y a b c sp sq k h mi sec per before after,
  digits td -> digits tm -> digits ty -> (length td <= 2)%nat -> (length tm <= 2)%nat -> length ty = 4%nat ->
  number 0 td = d -> number 0 tm = m -> number 0 ty = y -> valid_date y m d -> 1000 <= y <= 9999 ->
  In order ["DMY"; "DYM"; "MDY"; "MYD"; "YDM"; "YMD"]%string -> (forall name, order_choice (u_order cfg) name = Some (lit order)) ->
  map (fun c => if c =? 68 then td else if c =? 77 then tm else ty) (lit order) = [a; b; c] ->
  In sp (lit "-/. ") -> In sq (lit "-/. ") -> (sp = 46 <-> sq = 46) ->
  (In y [1000; 1100; 1200] -> a = ty \/ (sp <> 45 /\ sq <> 45)) ->
  clock k h mi sec 0 per -> Forall (fun c => 48 <= c <= 58) k ->
  let s := a ++ sp :: b ++ sq :: c ++ 32 :: k in
  ordinary_timed E D det p cfg s ->
  eff_types p = before ++ 4 :: after -> Forall (fun t => 0 <= t <= 3) before ->
  exists name, shows (snd (parse E D det p cfg s [])) y m d h mi sec 0 (if u_timeperiod cfg then per else PDay) name.
Proof.
  intros E D det p cfg order td tm ty d m y a b c sp sq k h mi sec per before after Dd Dm Dy Ld Lm Ly Nd Nm Ny Hv Hy HOr HC HA Hsp Hsq PQ HTZ CK KF s HO HT HB.
  destruct (clock_groups k h mi sec 0 per CK KF) as (hw & ms & -> & Dh & Dms & NM & CL & _).
  assert (Sp : separator sp) by (unfold separator; cbn in Hsp; lia). assert (Sq : separator sq) by (unfold separator; cbn in Hsq; lia).
  pose proof (o_ascii _ _ _ _ _ _ (ot_ordinary _ _ _ _ _ _ HO)) as UA.
  assert (ES : s = timed a sp b sq c hw ms) by (unfold s, timed, three; rewrite <- app_assoc; cbn [app]; now rewrite <- app_assoc).
  assert (Q : forall x y z u v w : str, [x; y; z] = [u; v; w] -> x = u /\ y = v /\ z = w) by (intros; repeat split; congruence).
  assert (L12 : forall x, digits x -> (length x <= 2)%nat -> length x = 1%nat \/ length x = 2%nat) by (intros x [N _] L; destruct x as [|? [|? [|? ?]]]; cbn [length] in *; auto; try lia; congruence).
  assert (OK : timed_ok a sp b sq c hw ms).
  { assert (DL : In (length a, length b, length c) date_lengths /\ digits a /\ digits b /\ digits c).
    { apply L12 in Ld; [|exact Dd]. apply L12 in Lm; [|exact Dm]. cbn [In] in HOr. destruct HOr as [<-|[<-|[<-|[<-|[<-|[<-|[]]]]]]]; cbn in HA; apply Q in HA as (<- & <- & <-); (split; [|auto]); rewrite Ly; destruct Ld as [-> | ->], Lm as [-> | ->]; vm_compute; tauto. }
    destruct DL as (DL & D1 & D2 & D3). constructor; assumption. }
  assert (INA : forall x, In x [a; b; c] -> x = td \/ x = tm \/ x = ty).
  { rewrite <- HA. intros x Hx. apply in_map_iff in Hx as (z & <- & _). destruct (z =? 68); [auto|]. destruct (z =? 77); auto. }
  assert (TZ : etz_pop E s = (s, od_zero)).
  { rewrite ES. apply (timed_no_tz E UA a b c hw sp sq ms OK). intros Y HY HI. destruct (tz_form _ HI) as (x & EX & Dx & Lx). assert (x = Y) as -> by congruence. clear EX.
    pose proof tz_years as TY. rewrite forallb_forall in TY. specialize (TY _ HI). cbv beta iota in TY.
    assert (Y = ty) as ->. { destruct (INA Y) as [-> | [-> | ->]]; [destruct HY as [[-> _]|[-> _]]; cbn; auto|lia|lia|reflexivity]. }
    rewrite Ny in TY. assert (IY : In y [1000; 1100; 1200]) by (cbn [existsb] in TY; cbn [In]; lia). specialize (HTZ IY). destruct HTZ as [-> | [N1 N2]]; [|destruct HY as [[_ ?]|[_ ?]]; congruence].
    clear - HA HY HOr Ld Lm Ly Q. cbn [In] in HOr. assert (NE : td <> ty /\ tm <> ty) by (split; intros ->; lia). destruct NE as [NE1 NE2].
    destruct HOr as [<-|[<-|[<-|[<-|[<-|[<-|[]]]]]]]; cbn in HA; apply Q in HA as (? & ? & ?); destruct HY as [[? _]|[? _]]; congruence. }
  pose proof (timed_groups a b c hw sp sq ms OK) as TN. pose proof (timed_numtext a sp b sq c hw ms) as EN. set (prs := pairs a sp b sq c hw ms) in *.
  assert (EQ2 : s = numtext a prs) by congruence.
  assert (VC : valid_clock h mi sec 0) by (eapply clock_range; exact CK).
  assert (PT : parse_time E (clock_text hw ms) = Some (mk_date 0 1 1 h mi sec 0 utc, per)).
  { apply (proj2 (C38_exact E (clock_text hw ms) (mk_date 0 1 1 h mi sec 0 utc) per)). split; [apply mk_date_wf|]. exists h, mi, sec, 0. assert (AK : asc (clock_text hw ms)) by (eapply clock_asc; exact OK). split; [|exact (tod_mk _ _ _ _ _ _ CK)].
    assert (trim_space (clock_text hw ms) = clock_text hw ms) as ->. { apply (trim_kind TDigit). apply forallb_forall. destruct (clock_tdigits a b c hw sp sq ms OK) as [_ F]. rewrite Forall_forall in F. exact F. }
    assert (to_upper (e_uni E) (clock_text hw ms) = clock_text hw ms) as ->; [|exact CK].
    unfold to_upper. rewrite asc_ascii by exact AK. rewrite <- (map_id (clock_text hw ms)) at 2. apply map_ext_in. intros z HZ. rewrite Forall_forall in KF. apply KF in HZ. unfold upperA, is_lowerA. destruct (_ && _) eqn:B; [lia|reflexivity]. }
  rewrite EQ2 in HO |- *. destruct (timed_current E D det p cfg a prs HO) as (now & N0 & N1 & N2 & N3 & N4). destruct (timed_skip E D det p cfg a prs HO) as [K1 K2].
  set (P := if u_timeperiod cfg then per else PDay). set (T := mk_date y m d h mi sec 0 (t_loc now)).
  destruct (timed_first E D det p cfg a prs TN HO (fun ld d0 => exists l, fixed l /\ d0 = mkd P (mk_date y m d h mi sec 0 l)) []) as (ld & d0 & HP & l & FL & ->).
  - intros ld NL. set (lcfg := with_order (clone (to_internal (initiate (e_now E) cfg))) (order_for E (initiate (e_now E) cfg) ld)).
    assert (AT : exists l, fixed l /\ apply_timezone lcfg (mkd P T) od_zero = mkd P (mk_date y m d h mi sec 0 l) /\ -86400 <= z_off (l_base l) <= 86400).
    { unfold apply_timezone. destruct (date_is_zero (mkd P T) || _) eqn:C; [exists (t_loc now); auto|]. apply orb_false_iff in C as [_ C]. cbn [od_is_zero andb] in C. change (od_is_zero od_zero) with true in *. cbn [andb negb] in *.
      change (c_tz lcfg) with (u_tz cfg) in *. destruct (u_tz cfg) as [l|] eqn:TZ2; [|discriminate C]. pose proof (o_zone _ _ _ _ _ _ (ot_ordinary _ _ _ _ _ _ HO) l (t_sec T) TZ2) as OZ. cbn [d_time mkd with_time d_locale d_period].
      exists (fixed_zone (z_name (zone_at l (t_sec T))) (z_off (zone_at l (t_sec T)))). split; [apply fixed_fixed_zone|]. split; [|cbn [l_base fixed_zone z_off]; lia].
      destruct (mk_date_clock y m d h mi sec 0 (t_loc now) N3 (proj1 Hv) VC) as (E1 & E2 & E3 & E4). fold T in E1, E2, E3, E4. rewrite E1, E2, E3, E4.
      pose proof (mk_date_year y m d h mi sec 0 (t_loc now) N3 Hv VC) as Y1. pose proof (mk_date_month y m d h mi sec 0 (t_loc now) N3 Hv VC) as Y2. pose proof (mk_date_day y m d h mi sec 0 (t_loc now) N3 Hv VC) as Y3. fold T in Y1, Y2, Y3. rewrite Y1, Y2, Y3. reflexivity. }
    destruct AT as (l & FL & EA & OL).
    assert (PP : P = PSecond \/ P = PMinute \/ P = PHour \/ P = PDay) by (unfold P; destruct (u_timeperiod cfg); [|auto]; destruct (parse_time_per _ _ _ _ PT) as [-> | [-> | ->]]; auto).
    assert (ZA : date_is_zero (mkd P (mk_date y m d h mi sec 0 l)) = false).
    { unfold date_is_zero. cbn [d_period d_time mkd]. rewrite timed_not_zero by (assumption || lia). destruct PP as [-> | [-> | [-> | ->]]]; reflexivity. }
    assert (RA : try_absolute E lcfg [s] = Ok (mkd P (mk_date y m d h mi sec 0 l))).
    { assert (SB : strip_braces s = s) by (rewrite ES; exact (strip_timed a b c hw sp sq ms OK)). unfold try_absolute. cbn [first_date]. unfold abs_one, strip_tz. rewrite SB, TZ.
      assert (CU : current lcfg now) by (constructor; assumption).
      assert (AP : absolute_parse E lcfg s od_zero = Ok (mkd P T)).
      { assert (RD := reads_timed E lcfg order td tm ty d m y a sp b sq c hw ms (mk_date 0 1 1 h mi sec 0 utc) per UA).
        assert (OC : c_order lcfg = lit order). { cbn [lcfg with_order c_order]. rewrite C10_date_order_validated by exact UA. change (u_order (initiate (e_now E) cfg)) with (u_order cfg). now rewrite HC. }
        specialize (RD OC HOr). specialize (RD (greg_parts E td tm ty d m y Dd Dm Dy Ld Lm Ly Nd Nm Ny Hv ltac:(lia) ltac:(lia)) HA OK NM PT). rewrite <- ES in RD.
        destruct (mk_date_clock 0 1 1 h mi sec 0 utc fixed_utc ltac:(lia) VC) as (E1 & E2 & E3 & E4). rewrite E1, E2, E3, E4 in RD.
        rewrite (abs_timed E lcfg s _ now od_zero d m ty y h mi sec 0 per RD CU eq_refl Hv ltac:(lia) ltac:(unfold slen; lia)). change (c_timeperiod lcfg) with (u_timeperiod cfg). unfold P, T.
        destruct (u_timeperiod cfg); [|reflexivity]. destruct (parse_time_per _ _ _ _ PT) as [-> | [-> | ->]]; reflexivity. }
      rewrite AP. cbn [drop_err rbind]. rewrite EA. assert (NS : s <> []) by (unfold s; destruct a; discriminate). clear - NS ZA. clearbody s. destruct s as [|c0 s0]; [congruence|]. cbn [rbind]. rewrite ZA. reflexivity. }
    exists (mkd P (mk_date y m d h mi sec 0 l)). split; [|split; [exact ZA|eauto]].
    unfold try_locale. fold lcfg. rewrite !(ClockTranslate.translate_num E UA ld NL lcfg a prs _ TN K1 K2). cbn [rbind]. rewrite <- EQ2, HT. apply first_date_zeros; [|exact RA|exact ZA].
    intros t Ht. rewrite Forall_forall in HB. apply HB in Ht. unfold try_type, TTimestamp, TNegTimestamp, TRelative, TCustom.
    pose proof (timed_no_timestamp E UA a b c hw sp sq ms OK lcfg) as NT. rewrite <- ES in NT.
    destruct (t =? 0) eqn:T0; [eexists; split; [reflexivity|]; rewrite NT; reflexivity|].
    destruct (t =? 1) eqn:T1; [eexists; split; [reflexivity|]; rewrite NT; reflexivity|].
    destruct (t =? 2) eqn:T2.
    { pose proof (timed_no_relative E UA a b c hw sp sq ms OK lcfg) as NR. rewrite <- ES in NR. specialize (NR TZ). unfold try_relative. cbn [first_date rbind]. rewrite NR. eexists. split; [reflexivity|]. reflexivity. }
    destruct (t =? 3) eqn:T3; [|lia]. unfold try_custom. cbn [first_date rbind]. eexists. split; reflexivity.
  - rewrite <- EQ2, ES. apply (sanitize_timed E UA a b c hw sp sq ms OK).
  - reflexivity.
  - exists (ld_name ld). rewrite HP. now apply timed_shows.
Qed.
Print Assumptions C62_numeric_date_times.

Lemma db0_clock : forall n ld, db_get db0 n = Some ld -> clock_locale ld = true.
Proof. apply db0_all. repeat (apply Forall_cons; [vm_compute; reflexivity|]). constructor. Qed.
Example C62_case : exists name, shows (snd (parse env0 db0 None (new_parser []) (order_cfg "YMD") (lit "2015" ++ 45 :: lit "03" ++ 45 :: lit "12" ++ 32 :: lit "9:04:05") [])) 2015 3 12 9 4 5 0 PDay name.
Proof.
  pose proof (C62_numeric_date_times env0 db0 None (new_parser []) (order_cfg "YMD") "YMD" (lit "12") (lit "03") (lit "2015") 12 3 2015 (lit "2015") (lit "03") (lit "12") 45 45 (lit "9:04:05") 9 4 5 PSecond [0; 1; 2; 3] [5]) as T.
  cbv zeta in T. apply T; clear T.
  1-3: apply digits_by; reflexivity.
  1-3: cbn; lia.
  1-3: reflexivity.
  - unfold valid_date; vm_compute; repeat split; discriminate.
  - lia.
  - vm_compute; tauto.
  - intros name. reflexivity.
  - reflexivity.
  - vm_compute; tauto.
  - vm_compute; tauto.
  - lia.
  - vm_compute. intuition discriminate.
  - apply (hms (lit "9") 9 (lit "04") 4 (lit "05") 5 [] 0).
    all: try (split; [apply digits_by; reflexivity|split; [cbn; lia|reflexivity]]). all: try lia. left; auto.
  - apply Forall_forall. intros x HX. cbn in HX. lia.
  - constructor; [apply (ordinary_case "YMD" "2015-03-12 9:04:05"); vm_compute; tauto|exact db0_clock|constructor].
  - reflexivity.
  - repeat (apply Forall_cons; [lia|]). apply Forall_nil.
Qed.
