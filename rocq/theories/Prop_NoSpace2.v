(** C28 through Parse: texts of digits *)
From Coq Require Import ZifyBool.
From Verif Require Import GoBase SMap Regex RegexFacts RegexFacts3 Civil GoTime GoTimeFacts GoTimeParse Setting Strutil SpaceFacts Tokenizer Timezone Env Common Timestamp Formatted Relative Absolute
  AbsFacts AbsFacts Language Parser ParserFacts LocaleFacts SelectFacts Spec History Shows Concrete LocaleData AbsFacts2 NumericFacts NumTranslate NumParse NumLift Prop_Parser Prop_Numeric NoSpace NsSpec NsFacts2 NsFacts3 NsFacts4 Prop_NoSpace.

Section D.
Variables (E : env) (ds : str).
Notation U := (e_uni E).
Hypothesis UA : uni_ascii U.
Hypothesis HD : digits ds.
Definition dot (c : Z) : bool := c =? 46.
Lemma needs_dot : needs dot (rx_ast rxSanitizeCroatian) = true /\ needs dot (rx_ast rxSanitizePeriod) = true.
Proof. split; vm_compute; reflexivity. Qed.
Lemma no_dot : lacks dot ds.
Proof. destruct HD as [_ H]. eapply Forall_impl; [|exact H]. cbn beta. unfold dot. intros. lia. Qed.
Lemma sanitize_date_digits : sanitize_date U ds = ds.
Proof.
  pose proof needs_some as NS. inversion NS as [|? ? N1 NS1]; inversion NS1 as [|? ? N2 NS2]; inversion NS2 as [|? ? N3 _]; subst. clear NS NS1 NS2.
  destruct needs_dot as [V1 V2]. pose proof (digits_plain ds HD) as DP. pose proof no_dot as ND.
  unfold sanitize_date. rewrite (replace_none _ rxSanitizeSkip) by (apply (lacks_none other); auto). rewrite (replace_none _ rxSanitizeRussian) by (apply (lacks_none other); auto).
  rewrite (replace_none _ rxSanitizeCroatian) by (now apply (lacks_none dot)).
  assert (SN : numbers ds []) by (split; [exact HD|constructor]).
  rewrite (sanitize_num ds [] SN : sanitize_spaces ds = ds). rewrite (replace_none _ rxSanitizePeriod) by (now apply (lacks_none dot)).
  rewrite (replace_none _ rxSanitizeOn) by (apply (lacks_none other); auto).
  assert (trim_suffix ds (lit ":") = ds) as ->.
  { unfold trim_suffix, has_suffix. change (rev (lit ":")) with [58]. destruct (rev ds) as [|c l] eqn:ER; [reflexivity|]. cbn [has_prefix]. assert (IC : In c ds) by (apply in_rev; rewrite ER; now left).
    unfold lacks in DP. rewrite Forall_forall in DP. apply DP in IC as [_ IC]. destruct (58 =? c) eqn:E5; [|reflexivity]. apply Z.eqb_eq in E5. subst c. discriminate IC. }
  unfold normalize_apos. rewrite runes_asc by (now apply digits_asc).
  assert (map apos_map ds = ds) as ->.
  { rewrite <- (map_id ds) at 2. apply map_ext_in. intros c Hc. pose proof (digits_asc ds HD) as TA. unfold asc in TA. rewrite Forall_forall in TA. apply TA in Hc. unfold apos_map. cbn [existsb].
    destruct (_ || _) eqn:O; [lia|reflexivity]. }
  rewrite encode_asc by (now apply digits_asc). exact (trim_num ds [] SN).
Qed.
Lemma strip_digits : strip_braces ds = ds.
Proof.
  unfold strip_braces. rewrite runes_asc by (now apply digits_asc). rewrite filter_id; [apply encode_asc; now apply digits_asc|]. apply forallb_forall. intros c Hc.
  destruct HD as [_ H]. rewrite Forall_forall in H. apply H in Hc. unfold is_brace. cbn [existsb]. lia.
Qed.
Lemma no_tz_digits : etz_pop E ds = (ds, od_zero).
Proof.
  unfold etz_pop, pop_tz. assert (match_string U rxSearchIgnoreCase ds = false) as ->; [|reflexivity].
  unfold match_string. destruct (find U rxSearchIgnoreCase ds) as [m|] eqn:F; [|reflexivity]. exfalso.
  destruct tz_lits as (ls & HL & HI). destruct (lits_occur other U UA rxSearchIgnoreCase ls ds m HL (digits_plain ds HD) F) as (a & l & b & Hl & Hs). apply HI in Hl.
  destruct (tz_form l Hl) as (x & -> & _). destruct HD as [_ H]. rewrite Forall_forall in H. specialize (H 45). rewrite Hs in H. rewrite in_app_iff in H. cbn [app In] in H. lia.
Qed.
Lemma eligible_digits : eligible ds = true.
Proof. destruct HD as [_ H]. clear HD. induction H as [|c s Hc _ IH]; [reflexivity|]. cbn [eligible]. unfold is_num. assert ((48 <=? c) && (c <=? 57) = true) as -> by lia. exact IH. Qed.
Lemma text_digits : filter (fun c => negb (c =? 58)) (sanitize_spaces ds) = ds.
Proof.
  assert (SN : numbers ds []) by (split; [exact HD|constructor]). rewrite (sanitize_num ds [] SN : sanitize_spaces ds = ds). apply filter_id. apply forallb_forall. intros c Hc. destruct HD as [_ H]. rewrite Forall_forall in H. apply H in Hc. lia.
Qed.
Lemma nospace_digits cfg o t : 2001 <= clock_year E <= 2999 -> asks cfg o -> no_space (accepts cfg) o ds = Some t -> nospace_parse E cfg ds = Ok (mkd PDay t).
Proof.
  intros HC HA HN. pose proof (C28_exact E cfg ds o UA HC HA) as X. rewrite eligible_digits, text_digits, HN in X. cbn [option_map] in X. destruct (nospace_parse E cfg ds) as [d|e|]; cbn [as_option] in X; [congruence|discriminate X|discriminate X].
Qed.
End D.
Lemma no_space_time b o s t : no_space b o s = Some t -> exists y m d h mi se, 1000 <= y <= 9999 /\ valid_date y m d /\ valid_clock h mi se 0 /\ t = mk_date y m d h mi se 0 utc.
Proof.
  assert (R : forall ls r, reads ls r = Some t -> exists y m d h mi se, 1000 <= y <= 9999 /\ valid_date y m d /\ valid_clock h mi se 0 /\ t = mk_date y m d h mi se 0 utc).
  { intros ls r H. unfold reads in H. apply first_sound in H as (ps & _ & H). apply first_sound in H as (ts & _ & H). apply read_fields in H as (y & m & d & _ & _ & _ & H1 & H2 & H3 & H4). eauto 10. }
  unfold no_space. destruct (match o with Some _ => None | None => _ end) as [x|] eqn:X.
  - intros H. apply some_inj in H. subst x. destruct o; [discriminate X|]. destruct (_ && _); [|discriminate X]. eapply R, X.
  - destruct b; [|discriminate]. intros H. apply first_sound in H as (r & _ & H). eapply R, H.
Qed.
Lemma late_clock y m d h mi s l : valid_date y m d -> valid_clock h mi s 0 -> 2 <= y -> fixed l -> -86400 <= z_off (l_base l) <= 86400 -> is_zero (mk_date y m d h mi s 0 l) = false.
Proof.
  intros Hv Hc Hy Hl Ho. destruct (is_zero _) eqn:Z; [|reflexivity]. exfalso. unfold is_zero in Z. apply andb_true_iff in Z as [Z1 Z2]. apply Z.eqb_eq in Z1, Z2.
  pose proof (instant_mk_date y m d h mi s 0 l Hl (proj1 Hv)) as HI. unfold instant in HI. rewrite Z1, Z2 in HI. unfold zero_sec in HI. unfold valid_clock in Hc.
  assert (days_of_civil 1 12 31 < days_of_civil y m d) by (apply days_of_civil_lt; [split; [lia|vm_compute; split; discriminate]|exact Hv|lia]). change (days_of_civil 1 12 31) with (-718798) in *. lia.
Qed.

(** Parse on digits, when no-space dates are tried first: the reading of the digits in the order the configuration gives, as a local time of the default time zone *)
Theorem C28_parse : forall E D det p cfg o ds t types,
  digits ds -> ordinary E D det p cfg ds -> 2001 <= clock_year E <= 2999 -> eff_types p = 5 :: types ->
  (forall name, order_choice (u_order cfg) name = Some (lit (order_name o))) ->
  u_strict cfg = false -> ~ In (lit "year") (u_required cfg) ->
  no_space true (Some o) ds = Some t ->
  exists name, shows (snd (parse E D det p cfg ds [])) (year t) (month t) (day t) (hour t) (minute t) (second t) 0 PDay name.
Proof.
  intros E D det p cfg o ds t types HD HO HC HT HR HS HQ HN. pose proof (o_ascii _ _ _ _ _ _ HO) as UA. assert (SN : numbers ds []) by (split; [exact HD|constructor]).
  destruct (no_space_time _ _ _ _ HN) as (y & m & d & h & mi & se & HY & VD & VC & ET). 
  assert (SAME : forall l, fixed l -> let T := mk_date y m d h mi se 0 l in year T = y /\ month T = m /\ day T = d /\ hour T = h /\ minute T = mi /\ second T = se /\ nanosecond T = 0).
  { intros l FL T. unfold T. destruct (mk_date_clock y m d h mi se 0 l FL (proj1 VD) VC) as (E1 & E2 & E3 & E4). rewrite mk_date_year, mk_date_month, mk_date_day by assumption. auto 10. }
  pose proof HO as HO'. change ds with (numtext ds []) in HO'. destruct (ord_skip E D det p cfg ds [] HO') as [K1 K2].
  destruct (ord_first E D det p cfg ds [] SN HO' (fun ld d0 => exists l, fixed l /\ d0 = mkd PDay (mk_date y m d h mi se 0 l)) []) as (ld & d0 & HP & l & FL & ->).
  - intros ld NL. set (lcfg := with_order (clone (to_internal (initiate (e_now E) cfg))) (order_for E (initiate (e_now E) cfg) ld)).
    assert (AT : exists l, fixed l /\ apply_timezone lcfg (mkd PDay t) od_zero = mkd PDay (mk_date y m d h mi se 0 l) /\ -86400 <= z_off (l_base l) <= 86400).
    { unfold apply_timezone. destruct (date_is_zero (mkd PDay t) || _) eqn:C; [exists utc; split; [apply fixed_utc|]; split; [now rewrite ET|cbn; lia]|]. apply orb_false_iff in C as [_ C]. change (od_is_zero od_zero) with true in *. cbn [andb negb] in *.
      change (c_tz lcfg) with (u_tz cfg) in *. destruct (u_tz cfg) as [l|] eqn:TZ2; [|discriminate C]. pose proof (o_zone _ _ _ _ _ _ HO l (t_sec t) TZ2) as OZ. cbn [d_time mkd with_time d_locale d_period].
      exists (fixed_zone (z_name (zone_at l (t_sec t))) (z_off (zone_at l (t_sec t)))). split; [apply fixed_fixed_zone|]. split; [|cbn [l_base fixed_zone z_off]; lia].
      destruct (SAME utc fixed_utc) as (Y1 & Y2 & Y3 & Y4 & Y5 & Y6 & Y7). rewrite <- ET in Y1, Y2, Y3, Y4, Y5, Y6, Y7. rewrite Y1, Y2, Y3, Y4, Y5, Y6, Y7. reflexivity. }
    destruct AT as (l & FL & EA & OL). assert (ZA : date_is_zero (mkd PDay (mk_date y m d h mi se 0 l)) = false) by (unfold date_is_zero; cbn [d_period d_time mkd period_eqb orb]; apply late_clock; (assumption || lia)).
    assert (RA : try_nospace E lcfg [ds] = Ok (mkd PDay (mk_date y m d h mi se 0 l))).
    { unfold try_nospace. cbn [first_date]. unfold nospace_one, strip_tz. rewrite (strip_digits ds HD), (no_tz_digits E ds UA HD).
      rewrite (nospace_digits E ds UA HD lcfg (Some o) t HC).
      - cbn [drop_err rbind]. rewrite EA. assert (NS : ds <> []) by apply HD. clear - NS ZA. destruct ds as [|c0 s0]; [congruence|]. cbn [rbind]. rewrite ZA. reflexivity.
      - unfold asks. cbn [lcfg with_order c_order]. rewrite C10_date_order_validated by exact UA. change (u_order (initiate (e_now E) cfg)) with (u_order cfg). now rewrite HR.
      - assert (accepts lcfg = true) as ->; [|exact HN]. unfold accepts. change (c_strict lcfg) with (u_strict cfg). change (c_required lcfg) with (u_required cfg). rewrite HS. cbn [negb andb].
        apply negb_true_iff, not_true_iff_false. rewrite existsb_exists. intros (x & Hx & Ex). apply eqs_eq in Ex. subst x. exact (HQ Hx). }
    exists (mkd PDay (mk_date y m d h mi se 0 l)). split; [|split; [exact ZA|eauto]].
    unfold try_locale. fold lcfg. rewrite !(translate_num E UA ld NL lcfg ds [] _ SN K1 K2). cbn [rbind]. rewrite HT. cbn [first_date]. change (try_type E lcfg (numtext ds []) [numtext ds []] [numtext ds []] [] 5) with (try_nospace E lcfg [ds]). rewrite RA. cbn [rbind]. now rewrite ZA.
  - exact (sanitize_date_digits E ds UA HD).
  - reflexivity.
  - exists (ld_name ld). change (numtext ds []) with ds in HP. rewrite HP. destruct (SAME l FL) as (Y1 & Y2 & Y3 & Y4 & Y5 & Y6 & Y7). destruct (SAME utc fixed_utc) as (Z1 & Z2 & Z3 & Z4 & Z5 & Z6 & Z7). rewrite <- ET in Z1, Z2, Z3, Z4, Z5, Z6, Z7.
    eexists. split; [reflexivity|]. cbn [d_time d_period d_locale with_locale mkd]. rewrite Z1, Z2, Z3, Z4, Z5, Z6. auto 10.
Qed.
Print Assumptions C28_parse.

(** Eight digits that write a date in the asked order denote it (for month-day-year unless month and century make the digits readable as a year with a time of day) *)
Theorem C48_eight_digits_partial : forall E D det p cfg o td tm ty types,
  digits td -> digits tm -> digits ty -> length td = 2%nat -> length tm = 2%nat -> length ty = 4%nat ->
  1000 <= number 0 ty <= 9999 -> valid_date (number 0 ty) (number 0 tm) (number 0 td) -> clear_order o tm ty ->
  ordinary E D det p cfg (written o td tm ty) -> 2001 <= clock_year E <= 2999 -> eff_types p = 5 :: types ->
  (forall name, order_choice (u_order cfg) name = Some (lit (order_name o))) ->
  u_strict cfg = false -> ~ In (lit "year") (u_required cfg) ->
  exists name, shows (snd (parse E D det p cfg (written o td tm ty) [])) (number 0 ty) (number 0 tm) (number 0 td) 0 0 0 0 PDay name.
Proof.
  intros E D det p cfg o td tm ty types D1 D2 D3 L1 L2 L3 HY HV HK HO HC HT HR HS HQ.
  assert (AN : all_num (tm ++ td ++ ty)).
  { assert (A : forall s, digits s -> all_num s) by (intros s [_ H]; eapply Forall_impl; [|exact H]; cbn beta; unfold is_num; intros; lia). unfold all_num in *. rewrite !Forall_app. auto. }
  pose proof (eight_spec o td tm ty L1 L2 L3 AN HY HV HK) as SP. destruct (C28_parse E D det p cfg o (written o td tm ty) (mk_date (number 0 ty) (number 0 tm) (number 0 td) 0 0 0 0 utc) types) as (name & SH); auto.
  { destruct D1 as [N1 F1], D2 as [N2 F2], D3 as [N3 F3]. split; [|destruct o; cbn [written]; rewrite !Forall_app; auto]. intros X. apply (f_equal (@length Z)) in X. destruct o; cbn [written] in X; rewrite !app_length in X; cbn [length] in X; lia. }
  exists name. assert (VC : valid_clock 0 0 0 0) by (unfold valid_clock; lia). destruct (mk_date_clock (number 0 ty) (number 0 tm) (number 0 td) 0 0 0 0 utc fixed_utc (proj1 HV) VC) as (E1 & E2 & E3 & E4).
  rewrite mk_date_year, mk_date_month, mk_date_day, E1, E2, E3 in SH by (assumption || apply fixed_utc). exact SH.
Qed.
Print Assumptions C48_eight_digits_partial.

(** examples and the limits of these theorems *)
Definition only_nospace : pstate := new_parser [5].
Definition go_ns (order s : string) : res ret := snd (parse env0 db0 None only_nospace (order_cfg order) (lit s) []).
Lemma ordinary_ns order s : In order orders -> ordinary env0 db0 None only_nospace (order_cfg order) (lit s).
Proof.
  intros HO. destruct (ordinary_case order s HO) as [H1 H2 H3 H4 H5 H6 H7 H8 H9]. constructor; auto.
  - exists [5], []. reflexivity.
  - apply Forall_cons; [vm_compute; discriminate|constructor].
Qed.
Example C28_case_parse : exists name, shows (go_ns "YMD" "201506121330") 2015 6 12 13 3 0 0 PDay name.
Proof.
  destruct (C28_parse env0 db0 None only_nospace (order_cfg "YMD") YMD (lit "201506121330") (mk_date 2015 6 12 13 3 0 0 utc) []) as (name & H).
  - apply digits_by. reflexivity.
  - apply ordinary_ns. vm_compute. tauto.
  - vm_compute. split; discriminate.
  - reflexivity.
  - reflexivity.
  - reflexivity.
  - intros [].
  - vm_compute. reflexivity.
  - exists name. exact H.
Qed.
(** year, month, day, hour and minute in two digits each: the digits are taken for hour, minute and second when an order other than month-day-year is asked for *)
Theorem C48_hour_minute_refuted : shows (go_ns "YMD" "201506121330") 2015 6 12 13 3 0 0 PDay (lit "en") /\ shows (go_ns "MDY" "201506121330") 2015 6 12 13 30 0 0 PDay (lit "en").
Proof. split; apply shows_by; vm_compute; reflexivity. Qed.
Print Assumptions C48_hour_minute_refuted.
Example C48_case_eight : exists name, shows (go_ns "DMY" "29022016") 2016 2 29 0 0 0 0 PDay name.
Proof.
  apply (C48_eight_digits_partial env0 db0 None only_nospace (order_cfg "DMY") DMY (lit "29") (lit "02") (lit "2016") []).
  1-3: apply digits_by; reflexivity.
  1-3: reflexivity.
  - cbn; lia.
  - unfold valid_date; vm_compute; repeat split; discriminate.
  - intros X. discriminate X.
  - apply (ordinary_ns "DMY" "29022016"). vm_compute; tauto.
  - vm_compute. split; discriminate.
  - reflexivity.
  - reflexivity.
  - reflexivity.
  - intros [].
Qed.
(** in the order month-day-year, 25 December 1987 is read as 9 January 1225, 08:07 *)
Theorem C48_month_day_year_refuted : valid_date 1987 12 25 /\ written MDY (lit "25") (lit "12") (lit "1987") = lit "12251987" /\ shows (go_ns "MDY" "12251987") 1225 1 9 8 7 0 0 PDay (lit "en").
Proof. split; [unfold valid_date; vm_compute; repeat split; discriminate|]. split; [reflexivity|]. apply shows_by. vm_compute. reflexivity. Qed.
Print Assumptions C48_month_day_year_refuted.
(** with strict parsing a complete date without separators is rejected, although nothing is missing *)
Definition strict_cfg (order : string) : uconfig := let c := order_cfg order in
  {| u_locales := u_locales c; u_languages := u_languages c; u_region := u_region c; u_try_prev := u_try_prev c; u_given_order := u_given_order c; u_deflang := u_deflang c; u_order := u_order c; u_now := u_now c;
     u_tz := u_tz c; u_pday := u_pday c; u_pmonth := u_pmonth c; u_src := u_src c; u_strict := true; u_required := u_required c; u_skip := u_skip c; u_timeperiod := u_timeperiod c; u_preserve := u_preserve c |}.
Theorem C48_strict_refuted : shows (go_ns "YMD" "20150612") 2015 6 12 0 0 0 0 PDay (lit "en") /\
  exists d e, snd (parse env0 db0 None only_nospace (strict_cfg "YMD") (lit "20150612") []) = Ok (d, Some e).
Proof. split; [apply shows_by; vm_compute; reflexivity|]. vm_compute. eexists. eexists. reflexivity. Qed.
Print Assumptions C48_strict_refuted.
