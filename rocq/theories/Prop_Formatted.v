(** C35: custom formats *)
From Coq Require Import ZifyBool.
From Verif Require Import GoBase SMap Regex Civil GoTime GoTimeFacts GoTimeParse Setting Strutil Dateutil DateutilFacts Timezone Env Common Formatted
  Parser Shows Concrete LocaleData AbsSpec AbsFacts AbsFacts2 AbsFacts3 AbsFacts4 Prop_Absolute2 Prop_Absolute3 LayoutFacts LayoutFacts2.

(** ** Vocabulary *)
(** the format that decides: the first one that matches the whole string *)
Definition first_match (s : str) (loc : location) (formats : list str) (f : str) (t : time) : Prop :=
  exists before after, formats = before ++ f :: after /\ Forall (fun g => time_parse_in g s loc = None) before /\ time_parse_in f s loc = Some t.
(** a missing month: January, December or the current month *)
Definition preferred_month (cfg : config) (now : time) : Z :=
  if c_pmonth cfg =? FirstMonth then 1 else if c_pmonth cfg =? LastMonth then 12 else month now.
(** a missing day in a month of [last] days: the first, the last or the current day (at most the last) *)
Definition preferred_day (cfg : config) (now : time) (last : Z) : Z :=
  if c_pday cfg =? First then 1 else if c_pday cfg =? Last then last else Z.min (day now) last.
Definition coarsest_missing (has_m has_d : bool) : period := if negb has_m then PYear else if negb has_d then PMonth else PDay.

Lemma fmt_loop_spec E cfg s loc : forall formats,
  (exists f t, first_match s loc formats f t /\ fmt_loop E cfg s loc formats = fmt_fill E cfg f t) \/
  (Forall (fun g => time_parse_in g s loc = None) formats /\ fmt_loop E cfg s loc formats = zero_date).
Proof.
  induction formats as [|g gs IH]; cbn [fmt_loop]; [right; split; [constructor | reflexivity]|].
  destruct (time_parse_in g s loc) as [t|] eqn:EG.
  - left. exists g, t. split; [|reflexivity]. exists [], gs. split; [reflexivity|]. split; [constructor | exact EG].
  - destruct IH as [(f & t & (b & a & -> & HB & HT) & R)|[HF R]].
    + left. exists f, t. split; [|exact R]. exists (g :: b), a. split; [reflexivity|]. split; [now constructor | exact HT].
    + right. split; [now constructor | exact R].
Qed.
Lemma first_match_unique s loc formats f t f' t' : first_match s loc formats f t -> first_match s loc formats f' t' -> f = f' /\ t = t'.
Proof.
  intros (b & a & -> & HB & HT) (b' & a' & EQ & HB' & HT'). revert b' EQ HB'. induction b as [|x b IH]; intros [|x' b'] EQ HB'; cbn [app] in EQ.
  - assert (f = f') by congruence. subst. split; [reflexivity|congruence].
  - assert (f = x') by congruence. subst. inversion HB'; subst. congruence.
  - assert (x = f') by congruence. subst. inversion HB; subst. congruence.
  - inversion HB; inversion HB'; subst. eapply IH; eauto. congruence.
Qed.
Lemma fmt_loc_fixed E cfg s : match c_tz cfg with Some l => fixed l | None => True end -> fixed (fmt_loc E cfg s).
Proof. intros H. unfold fmt_loc. destruct (etz_pop E s) as [? tz]. destruct (od_is_zero tz); [|apply fixed_fixed_zone]. destruct (c_tz cfg); [exact H | apply fixed_utc]. Qed.

Lemma days_in_zero y m : days_in y m <= days_in 0 m.
Proof. unfold days_in. destruct (m =? 2); [change (leap 0) with true; destruct (leap y); lia | lia]. Qed.
Lemma days_in_zero_other y m : m <> 2 \/ leap y = true -> days_in 0 m = days_in y m.
Proof. unfold days_in. change (leap 0) with true. destruct (m =? 2) eqn:E; [|reflexivity]. intros [H|H]; [lia | now rewrite H]. Qed.

Lemma preferred_month_range cfg now : 1 <= preferred_month cfg now <= 12.
Proof. destruct (civil_valid now) as [[H _] _]. unfold preferred_month. destruct (c_pmonth cfg =? FirstMonth); [lia|]. destruct (c_pmonth cfg =? LastMonth); lia. Qed.
(** C35, first half. No format matches the whole string: nothing is returned. *)
Theorem C35_no_match E cfg s formats : Forall (fun f => time_parse_in f s (fmt_loc E cfg s) = None) formats -> formatted_parse E cfg s formats = zero_date.
Proof.
  intros H. unfold formatted_parse. destruct (fmt_loop_spec E cfg s (fmt_loc E cfg s) formats) as [(f & t & (b & a & -> & HB & HT) & R)|[_ R]]; [|exact R].
  rewrite Forall_forall in H. rewrite (H f) in HT; [discriminate|]. apply in_or_app. right. now left.
Qed.

(** C35. [t] is what Go's layout parser reads with the first format that matches. The parts written in the format are kept, the others are the current year and the
    preferred month and day; the time of day and the zone are kept; the period is that of the coarsest missing part.
    Missing (see the refutations): day-of-year layouts, layouts with a time zone abbreviation, the literal text "Mar", and days that do not exist in the month filled in. *)
Theorem C35_missing_parts_partial E cfg now s formats f t :
  current cfg now -> match c_tz cfg with Some l => fixed l | None => True end ->
  first_match s (fmt_loc E cfg s) formats f t ->
  has_field zone_name_field f = false -> has_field yday_field f = false -> ~ In 114 (* r *) f ->
  let has_m := has_field month_field f in let has_d := has_field day_field f in let has_y := has_field year_field f in
  let Y := if has_y && negb (year t =? 0) then year t else year now in
  let M := if has_m then month t else preferred_month cfg now in
  let D := if has_d then day t else preferred_day cfg now (days_in Y M) in
  valid_date Y M D -> (has_d = true \/ year t <> 0 \/ M <> 2 \/ leap Y = true) ->
  exists dt, formatted_parse E cfg s formats = mkd (coarsest_missing has_m has_d) dt /\
    on dt Y M D /\ at_ dt (hour t, minute t, second t, nanosecond t) /\ t_loc dt = t_loc t.
Proof.
  intros [HN HZ HW HFx] HTZ FM NZ NYD NR has_m has_d has_y Y M D VD HX. subst has_m has_d has_y.
  assert (HE : formatted_parse E cfg s formats = fmt_fill E cfg f t).
  { unfold formatted_parse. destruct (fmt_loop_spec E cfg s (fmt_loc E cfg s) formats) as [(f' & t' & FM' & R)|[HF R]].
    - destruct (first_match_unique _ _ _ _ _ _ _ FM FM') as [-> ->]. exact R.
    - destruct FM as (b & a & -> & _ & HT). rewrite Forall_forall in HF. rewrite HF in HT; [discriminate|]. apply in_or_app. right. now left. }
  rewrite HE. clear HE. destruct FM as (_ & _ & _ & _ & HT).
  pose proof (fmt_loc_fixed E cfg s HTZ) as HL. set (loc := fmt_loc E cfg s) in *. clearbody loc.
  destruct (tparse_fields _ _ _ _ _ HT HL HL NZ) as (p & m & d & EP & PV & EF & VP & (OY & OM & OD) & OC & FT & WT).
  destruct (parse_chunks_facts _ _ _ _ _ EP) as (KD & KYD & KM & KY & _ & _).
  specialize (KYD NYD). change (p_yday pst0) with (-1) in KYD. unfold finish_md in EF. rewrite KYD in EF. change (0 <=? -1) with false in EF. cbv iota in EF.
  assert (EM : m = if p_month p <? 0 then 1 else p_month p) by congruence. assert (ED : d = if p_day p <? 0 then 1 else p_day p) by congruence. clear EF.
  assert (DM : has_field month_field f = false -> month t = 1). { intros H. rewrite (KM H) in EM. change (p_month pst0) with (-1) in EM. cbn in EM. congruence. }
  assert (DD : has_field day_field f = false -> day t = 1). { intros H. rewrite (KD H) in ED. change (p_day pst0) with (-1) in ED. cbn in ED. congruence. }
  assert (DY : has_field year_field f = false -> year t = 0). { intros H. specialize (KY H). change (p_year pst0) with 0 in KY. congruence. }
  assert (EY : Y = if year t =? 0 then year now else year t).
  { subst Y. destruct (has_field year_field f); [destruct (year t =? 0); reflexivity | rewrite DY by reflexivity; reflexivity]. }
  clear EM ED EP KD KYD KM KY DY VP OY OM OD OC p PV m d.
  destruct (civil_valid t) as [VT _]. destruct (civil_valid now) as [VNow _]. pose proof (clock_valid t WT) as CT.
  unfold fmt_fill. rewrite HN, HZ. rewrite has_day_field, (proj2 (has_month_field f) NR).
  assert (AM : forall x, apply_month E cfg x None = apply_month E cfg x (Some (month now))) by (intros x; unfold apply_month, pref_month; now rewrite HN, HZ).
  assert (AD : forall x, apply_day E cfg x None = apply_day E cfg x (Some (day now))) by (intros x; unfold apply_day, pref_day; now rewrite HN, HZ).
  rewrite !AM, !AD. clear AM AD.
  set (y0 := year t) in *. set (m0 := month t) in *. set (d0 := day t) in *. set (h := hour t) in *. set (mi := minute t) in *. set (sc := second t) in *. set (ns := nanosecond t) in *. set (l := t_loc t) in *.
  assert (ET : t = mk_date y0 m0 d0 h mi sc ns l) by (symmetry; apply time_of_fields; assumption).
  pose proof (preferred_month_range cfg now) as PM.
  (* the time before the year is filled in *)
  set (t1 := mk_date y0 M D h mi sc ns l).
  assert (V1 : valid_date y0 M D).
  { destruct VD as [VM VDD]. split; [exact VM|]. split; [lia|]. rewrite EY in VDD. destruct (y0 =? 0) eqn:Z0; [|lia]. pose proof (days_in_zero (year now) M). assert (y0 = 0) by lia. rewrite H0. clearbody D. lia. }
  assert (DQ : has_field day_field f = false -> D = pref_day_of cfg (day now) (days_in y0 M)).
  { intros HD. subst D. rewrite HD. assert (days_in Y M = days_in y0 M) as ->; [|reflexivity]. rewrite EY. destruct (y0 =? 0) eqn:Z0; [|reflexivity]. assert (y0 = 0) by lia. rewrite H.
    symmetry. apply days_in_zero_other. rewrite EY in HX. destruct HX as [X|[X|[X|X]]]; [congruence | lia | now left | now right]. }
  assert (S1 : (if negb (has_field month_field f) && negb (has_field day_field f) then (PYear, apply_day E cfg (apply_month E cfg t (Some (month now))) (Some (day now)))
                else if negb (has_field month_field f) then (PYear, apply_month E cfg t (Some (month now)))
                else if negb (has_field day_field f) then (PMonth, apply_day E cfg t (Some (day now))) else (PDay, t))
              = (coarsest_missing (has_field month_field f) (has_field day_field f), t1)).
  { unfold coarsest_missing, t1. rewrite ET. subst M. cbv beta zeta.
    assert (B1 : valid_date y0 (preferred_month cfg now) 1) by (split; [exact PM | pose proof (days_in_bounds y0 (preferred_month cfg now)); lia]).
    destruct (has_field month_field f) eqn:Hm, (has_field day_field f) eqn:Hd; cbn [negb andb].
    - reflexivity.
    - rewrite DQ by reflexivity. rewrite apply_day_mk by (assumption || (destruct VNow; lia)). reflexivity.
    - rewrite apply_month_mk by assumption. reflexivity.
    - rewrite DD in * by reflexivity. rewrite apply_month_mk by assumption. fold (preferred_month cfg now) in *. rewrite DQ by reflexivity. rewrite apply_day_mk by (assumption || (destruct VNow; lia)). reflexivity. }
  match goal with |- context [let '(_, _) := ?x in _] => replace x with (coarsest_missing (has_field month_field f) (has_field day_field f), t1) by (symmetry; exact S1) end. cbv iota beta zeta.
  assert (Y1 : year t1 = y0) by (apply mk_date_year; assumption). rewrite Y1.
  exists (mk_date Y M D h mi sc ns l).
  assert (R : (if y0 =? 0 then mk_date (year now) (month t1) (day t1) (hour t1) (minute t1) (second t1) (nanosecond t1) (t_loc t1) else t1) = mk_date Y M D h mi sc ns l).
  { rewrite EY. destruct (y0 =? 0); [|reflexivity]. unfold t1. rewrite (mk_date_month y0 M D h mi sc ns l), (mk_date_day y0 M D h mi sc ns l), (hour_mk y0 M D h mi sc ns l), (minute_mk y0 M D h mi sc ns l), (second_mk y0 M D h mi sc ns l), (nanosecond_mk y0 M D h mi sc ns l) by assumption. reflexivity. }
  rewrite R. split; [reflexivity|]. split; [now apply on_mk|]. split; [now apply at_mk | reflexivity].
Qed.

(** ** The theorem applies *)
Definition now15 : time := utc_at 2015 11 30 10 0 0.
Example C35_hyp : first_match (lit "feb 10:30") (fmt_loc env0 (acfg "MDY" now15 CurrentPeriod Last 0) (lit "feb 10:30")) [lit "2006-01-02"; lit "Jan 15:04"; lit "Jan"] (lit "Jan 15:04")
    (mk_date 0 2 1 10 30 0 0 utc) /\ has_field zone_name_field (lit "Jan 15:04") = false /\ has_field yday_field (lit "Jan 15:04") = false /\ has_field month_field (lit "Jan 15:04") = true.
Proof.
  split; [|repeat split; vm_compute; reflexivity]. exists [lit "2006-01-02"], [lit "Jan"]. split; [reflexivity|]. split; [repeat constructor; vm_compute; reflexivity | vm_compute; reflexivity].
Qed.
(** with the day missing and PreferredDayOfMonth = Last; the clock shows a leap year *)
Example C35_ex : exists dt, formatted_parse env0 (acfg "MDY" (utc_at 2016 11 30 10 0 0) CurrentPeriod Last 0) (lit "feb 10:30") [lit "2006-01-02"; lit "Jan 15:04"; lit "Jan"] = mkd PMonth dt /\
  on dt 2016 2 29 /\ at_ dt (10, 30, 0, 0).
Proof.
  set (cfg := acfg "MDY" (utc_at 2016 11 30 10 0 0) CurrentPeriod Last 0).
  assert (CU : current cfg (utc_at 2016 11 30 10 0 0)) by (apply acfg_current; vm_compute; repeat split; discriminate || reflexivity).
  destruct (C35_missing_parts_partial env0 cfg (utc_at 2016 11 30 10 0 0) (lit "feb 10:30") [lit "2006-01-02"; lit "Jan 15:04"; lit "Jan"] (lit "Jan 15:04") (mk_date 0 2 1 10 30 0 0 utc) CU I) as (dt & H1 & H2 & H3 & _).
  - exists [lit "2006-01-02"], [lit "Jan"]. split; [reflexivity|]. split; [repeat constructor; vm_compute; reflexivity | vm_compute; reflexivity].
  - vm_compute; reflexivity. - vm_compute; reflexivity. - vm_compute. intuition discriminate. - vm_compute. repeat split; discriminate. - right. right. right. vm_compute. reflexivity.
  - exists dt. split; [exact H1|]. split; [exact H2 | exact H3].
Qed.

(** ** Where the full claim fails *)
(** a boolean reading of a result *)
Definition date_is (r : date) (p : period) (y m d : Z) : Prop := d_period r = p /\ on (d_time r) y m d.
(** A day that was parsed is changed: day 31 is read with the format "2", but in November the result is 1 December. *)
Theorem C35_day_rolls_over_refuted : exists cfg, current cfg now15 /\
  (exists t, first_match (lit "31") (fmt_loc env0 cfg (lit "31")) [lit "2"] (lit "2") t /\ day t = 31) /\
  date_is (formatted_parse env0 cfg (lit "31") [lit "2"]) PYear 2015 12 1.
Proof.
  exists (acfg "MDY" now15 CurrentPeriod 0 0). split; [apply acfg_current; vm_compute; repeat split; discriminate || reflexivity|]. split; [|vm_compute; repeat split].
  exists (mk_date 0 1 31 0 0 0 0 utc). split; [|vm_compute; reflexivity]. exists [], []. split; [reflexivity|]. split; [constructor | vm_compute; reflexivity].
Qed.
(** 29 February is read with the format "Jan 2", but in a year that is not a leap year the result is 1 March. *)
Theorem C35_february_refuted : exists cfg, current cfg now15 /\
  (exists t, first_match (lit "feb 29") (fmt_loc env0 cfg (lit "feb 29")) [lit "Jan 2"] (lit "Jan 2") t /\ month t = 2 /\ day t = 29) /\
  date_is (formatted_parse env0 cfg (lit "feb 29") [lit "Jan 2"]) PDay 2015 3 1.
Proof.
  exists (acfg "MDY" now15 CurrentPeriod 0 0). split; [apply acfg_current; vm_compute; repeat split; discriminate || reflexivity|]. split; [|vm_compute; repeat split].
  exists (mk_date 0 2 29 0 0 0 0 utc). split; [|vm_compute; split; reflexivity]. exists [], []. split; [reflexivity|]. split; [constructor | vm_compute; reflexivity].
Qed.
(** The day of the year says that the month is February; the month of the result is the current one. *)
Theorem C35_day_of_year_refuted : exists cfg, current cfg now15 /\
  (exists t, first_match (lit "2014 045") (fmt_loc env0 cfg (lit "2014 045")) [lit "2006 002"] (lit "2006 002") t /\ month t = 2 /\ day t = 14) /\
  date_is (formatted_parse env0 cfg (lit "2014 045") [lit "2006 002"]) PYear 2014 11 14.
Proof.
  exists (acfg "MDY" now15 CurrentPeriod 0 0). split; [apply acfg_current; vm_compute; repeat split; discriminate || reflexivity|]. split; [|vm_compute; repeat split].
  exists (mk_date 2014 2 14 0 0 0 0 utc). split; [|vm_compute; split; reflexivity]. exists [], []. split; [reflexivity|]. split; [constructor | vm_compute; reflexivity].
Qed.
(** The format has no month, only the word "Mark": it is taken for a month, so a missing month is January instead of the current month, and the period is Day. *)
Theorem C35_literal_mar_refuted : exists cfg, current cfg now15 /\ has_field month_field (lit "Mark 2") = false /\
  date_is (formatted_parse env0 cfg (lit "Mark 12") [lit "Mark 2"]) PDay 2015 1 12 /\
  date_is (formatted_parse env0 cfg (lit "Page 12") [lit "Page 2"]) PYear 2015 11 12.
Proof.
  exists (acfg "MDY" now15 CurrentPeriod 0 0). split; [apply acfg_current; vm_compute; repeat split; discriminate || reflexivity|]. split; [vm_compute; reflexivity|]. split; vm_compute; repeat split.
Qed.

Print Assumptions C35_no_match.
Print Assumptions C35_missing_parts_partial.
Print Assumptions C35_day_rolls_over_refuted.
Print Assumptions C35_february_refuted.
Print Assumptions C35_day_of_year_refuted.
Print Assumptions C35_literal_mar_refuted.
