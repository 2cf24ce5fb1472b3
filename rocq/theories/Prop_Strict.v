(** C07, C08, C19: completeness checks and the reported period *)
From Coq Require Import ZifyBool.
From Verif Require Import GoBase SMap Regex Civil GoTime GoTimeFacts GoTimeParse Setting Strutil Dateutil DateutilFacts Tokenizer Timezone Env Common Timestamp Formatted Relative Absolute NoSpace
  Language Parser ParserFacts Spec Shows Concrete LocaleData AbsSpec AbsFacts AbsFacts2 AbsFacts3 Prop_Parser.

(** * Every result of the absolute parser is the result of a reading *)
Lemma abs_reads E cfg s tz d : absolute_parse E cfg s tz = Ok d -> exists R, reads E cfg s R.
Proof.
  unfold absolute_parse, abs_run. destruct (abs_init E (greg_hooks E) cfg s) as [a|] eqn:I; [|discriminate].
  unfold abs_finish. destruct (negb (check_strict _ _)); [discriminate|]. intros H.
  assert (DOM : forall c, chas (a_toks a) c = chas (a_vals a) c) by (apply greg_init_inv in I; apply (bi_dom _ _ _ I)).
  destruct (a_time a) as [tk|] eqn:T.
  - destruct (parse_time E (tk_text tk)) as [[t p]|] eqn:P; cbn [rbind] in H; [|discriminate].
    exists {| r_day := cm_day (a_vals a); r_month := cm_month (a_vals a);
         r_year := match cm_year (a_toks a), cm_year (a_vals a) with Some k, Some v => Some (tk_text k, v) | _, _ => None end;
         r_weekday := option_map tk_text (cm_wd (a_toks a)); r_clock := Some (hour t, minute t, second t, nanosecond t, p) |}.
    exists a. split; [exact I|]. cbn [r_day r_month r_year r_weekday r_clock]. split; [reflexivity|]. split; [reflexivity|].
    pose proof (DOM CYear) as DY. unfold chas in DY. cbn [cget] in DY.
    destruct (cm_year (a_toks a)), (cm_year (a_vals a)); try discriminate; (split; [reflexivity|]; split; [reflexivity|]; split; [reflexivity|]); rewrite T; exists t, p; auto.
  - exists {| r_day := cm_day (a_vals a); r_month := cm_month (a_vals a);
         r_year := match cm_year (a_toks a), cm_year (a_vals a) with Some k, Some v => Some (tk_text k, v) | _, _ => None end;
         r_weekday := option_map tk_text (cm_wd (a_toks a)); r_clock := None |}.
    exists a. split; [exact I|]. cbn [r_day r_month r_year r_weekday r_clock]. split; [reflexivity|]. split; [reflexivity|].
    pose proof (DOM CYear) as DY. unfold chas in DY. cbn [cget] in DY.
    destruct (cm_year (a_toks a)), (cm_year (a_vals a)); try discriminate; (split; [reflexivity|]; split; [reflexivity|]; split; [reflexivity|]); rewrite T; reflexivity.
Qed.

(** * C19 *)
(** the finest part that was written, not counting the time of day *)
Definition finest (R : reading) (p : period) : Prop :=
  (r_day R <> None -> p = PDay) /\ (r_day R = None -> r_month R <> None -> p = PMonth) /\
  (r_day R = None -> r_month R = None -> r_year R <> None -> p = PYear) /\
  (r_day R = None -> r_month R = None -> r_year R = None -> p = PDay).
Theorem C19_period_of_absolute_dates : forall E cfg s tz d,
  absolute_parse E cfg s tz = Ok d -> is_zero (c_now cfg) = false ->
  exists R, reads E cfg s R /\
    (c_timeperiod cfg = false \/ r_clock R = None -> finest R (d_period d)) /\
    (forall h mi sc ns q, c_timeperiod cfg = true -> r_clock R = Some (h, mi, sc, ns, q) -> d_period d = q /\ (q = PSecond \/ q = PMinute \/ q = PHour)).
Proof.
  intros E cfg s tz d H Hz. destruct (abs_reads _ _ _ _ _ H) as [R Hr]. exists R. split; [exact Hr|].
  rewrite (reads_run E cfg s R tz _ Hr eq_refl Hz) in H. unfold run in H. destruct (negb _); [discriminate|].
  destruct (clock_of R) as [[[h0 mi0] s0] n0]. destruct (greg_create _ _ _ _ _ _ _ _ _) as [t| |]; cbn [rbind] in H; try discriminate.
  destruct (f_weekday E cfg R t) as [t'| |]; cbn [rbind] in H; try discriminate.
  assert (d_period d = f_period cfg R) as -> by (assert (d = mkd (f_period cfg R) (f_setday E cfg R (c_now cfg) (f_setmonth E cfg R (c_now cfg) (f_time cfg R tz (c_now cfg) (f_year2 cfg R (c_now cfg) (f_month cfg R (c_now cfg) t')))))) as -> by congruence; reflexivity).
  clear H. unfold f_period, finest. split.
  - intros Hc. assert (E0 : match r_clock R with Some (_, q) => if c_timeperiod cfg then period_min (if is_some (r_day R) then PDay else if is_some (r_month R) then PMonth else if is_some (r_year R) then PYear else PDay) q
        else (if is_some (r_day R) then PDay else if is_some (r_month R) then PMonth else if is_some (r_year R) then PYear else PDay) | None => (if is_some (r_day R) then PDay else if is_some (r_month R) then PMonth else if is_some (r_year R) then PYear else PDay) end
        = (if is_some (r_day R) then PDay else if is_some (r_month R) then PMonth else if is_some (r_year R) then PYear else PDay)).
    { destruct Hc as [-> | ->]; [destruct (r_clock R) as [[? ?]|]; reflexivity|reflexivity]. }
    rewrite E0. clear E0. destruct (r_day R), (r_month R), (r_year R); cbn [is_some]; repeat split; intros; congruence.
  - intros h mi sc ns q HT HC. rewrite HC, HT. pose proof (reads_period _ _ _ _ _ _ _ _ _ Hr HC) as HQ. split; [|exact HQ].
    destruct (is_some (r_day R)), (is_some (r_month R)), (is_some (r_year R)); destruct HQ as [-> |[-> | ->]]; reflexivity.
Qed.
Print Assumptions C19_period_of_absolute_dates.

Definition date_period (p : period) : Prop := p = PDay \/ p = PMonth \/ p = PYear.
Lemma fmt_period E cfg s fs : usable (formatted_parse E cfg s fs) -> date_period (d_period (formatted_parse E cfg s fs)).
Proof.
  unfold formatted_parse. generalize (fmt_loc E cfg s). intros l. induction fs as [|f fs IH]; cbn [fmt_loop]; [intros [H _]; now contradiction H|].
  destruct (time_parse_in f s l) as [t|]; [|exact IH]. intros _. unfold fmt_fill, date_period.
  destruct (negb (fmt_has_month f) && negb (fmt_has_day f)); [cbn; auto|]. destruct (negb (fmt_has_month f)); [cbn; auto|]. destruct (negb (fmt_has_day f)); cbn; auto.
Qed.
Lemma apply_timezone_period cfg d tz : d_period (apply_timezone cfg d tz) = d_period d.
Proof. unfold apply_timezone. destruct (_ || _); [reflexivity|]. destruct (if negb _ then _ else _). reflexivity. Qed.
Lemma abs_period E cfg s tz d : c_timeperiod cfg = false -> absolute_parse E cfg s tz = Ok d -> date_period (d_period d).
Proof.
  intros HT. unfold absolute_parse, abs_run. destruct (abs_init E (greg_hooks E) cfg s) as [a|]; [|discriminate]. unfold abs_finish.
  destruct (negb _); [discriminate|]. destruct (match a_time a with Some _ => _ | None => _ end) as [tp| |]; cbn [rbind]; try discriminate.
  destruct (h_params _ _ _) as [[Y M] D]. destruct (match tp with Some _ => _ | None => _ end) as [[[h mi] sc] ns].
  destruct (h_create _ _ _ _ _ _ _ _ _ _) as [t| |]; cbn [rbind]; try discriminate. destruct (correct_time_frame _ _ _ _ _ _) as [t'| |]; cbn [rbind]; try discriminate.
  intros XE. assert (exists x, d = mkd (match tp with Some (_, tper) => if c_timeperiod cfg then period_min (get_period (a_vals a)) tper else get_period (a_vals a) | None => get_period (a_vals a) end) x) as [x ->] by (eexists; symmetry; apply (f_equal (fun r => match r with Ok v => v | _ => d end)) in XE; exact XE).
  clear XE. cbn [mkd d_period]. rewrite HT. unfold get_period, date_period. destruct tp as [[? ?]|]; destruct (chas (a_vals a) CDay), (chas (a_vals a) CMonth), (chas (a_vals a) CYear); auto.
Qed.
Lemma period_of_format_date f : date_period (period_of_format f).
Proof. unfold period_of_format, date_period. destruct (existsb _ _); [auto|]. destruct (existsb _ _); auto. Qed.
Lemma ns_cands_period E cfg f layout cs : forall amb, (date_is_zero amb = false -> date_period (d_period amb)) ->
  match ns_cands E cfg f layout cs amb with inl d => date_period (d_period d) | inr a => date_is_zero a = false -> date_period (d_period a) end.
Proof.
  induction cs as [|c cs IH]; intros amb HA; cbn [ns_cands]; [exact HA|]. destruct (time_parse _ _ _) as [t|]; [|now apply IH]. destruct (is_zero t); [now apply IH|].
  destruct (year t <? 1000); [apply IH; intros _; apply period_of_format_date|]. destruct (negb _); [now apply IH|]. apply period_of_format_date.
Qed.
Lemma ns_formats_period E cfg text fs : forall amb, (date_is_zero amb = false -> date_period (d_period amb)) ->
  match ns_formats E cfg text fs amb with inl d => date_period (d_period d) | inr a => date_is_zero a = false -> date_period (d_period a) end.
Proof.
  induction fs as [|f fs IH]; intros amb HA; cbn [ns_formats]; [exact HA|]. pose proof (ns_cands_period E cfg f (go_format (format_parts f)) (candidates E text (format_parts f)) amb HA) as C.
  destruct (ns_cands _ _ _ _ _ _); [exact C|]. now apply IH.
Qed.
Lemma ns_tokens_period E cfg fs toks : forall amb, (date_is_zero amb = false -> date_period (d_period amb)) ->
  match ns_tokens E cfg fs toks amb with inl d => date_period (d_period d) | inr a => date_is_zero a = false -> date_period (d_period a) end.
Proof.
  induction toks as [|t toks IH]; intros amb HA; cbn [ns_tokens]; [exact HA|]. destruct (ttype_eqb _ _); [|now apply IH].
  pose proof (ns_formats_period E cfg (tk_text t) fs amb HA) as C. destruct (ns_formats _ _ _ _ _); [exact C|]. now apply IH.
Qed.
Lemma find_best_period E fs s d : find_best E fs s = Some d -> date_period (d_period d).
Proof.
  induction fs as [|f fs IH]; cbn [find_best]; [discriminate|]. destruct (time_parse _ _ _) as [t|]; [|exact IH]. destruct (_ && _); [|exact IH].
  intros H. assert (d = mkd (period_of_format f) t) as -> by congruence. apply period_of_format_date.
Qed.
Lemma ns_period E cfg s d : nospace_parse E cfg s = Ok d -> date_period (d_period d).
Proof.
  unfold nospace_parse. destruct (negb _); [discriminate|]. cbv zeta. destruct (empty _); [discriminate|].
  destruct (if _ && _ then find_best E preferred8 _ else None) as [b|] eqn:B.
  - intros H. assert (d = b) as -> by congruence. destruct (_ && _); [|discriminate]. eapply find_best_period; exact B.
  - destruct (datetime_formats _) as [fs|]; [|discriminate]. 
    match goal with |- context [ns_tokens E cfg fs ?tk zero_date] => pose proof (ns_tokens_period E cfg fs tk zero_date) as C; destruct (ns_tokens E cfg fs tk zero_date) as [x|x] end.
    + intros H. assert (d = x) as -> by congruence. apply C. discriminate.
    + destruct (date_is_zero x) eqn:Z; [discriminate|]. intros H. assert (d = x) as -> by congruence. apply C; [discriminate|reflexivity].
Qed.
Lemma rel_period_date E cfg s : c_timeperiod cfg = false -> usable (relative_parse E cfg s) -> date_period (d_period (relative_parse E cfg s)).
Proof.
  intros HT [HU _]. revert HU. unfold relative_parse. destruct (etz_pop _ _) as [s' tz]. destruct (match rel_parse_time E s' with Some p => p | None => _ end) as [t tp].
  destruct (rel_parse_date _ _ _ _) as [dt per]. destruct (if _ && _ then _ else _) as [dt' per']. cbn [mkd d_period]. rewrite HT. cbn [negb andb].
  unfold date_period. destruct per'; cbn [is_time]; intros HU; auto. now contradiction HU.
Qed.
(** without ReturnTimeAsPeriod the period of a date is Day, Month or Year *)
Theorem C19_no_time_period_unless_asked : forall E D det p cfg s formats p' d,
  parse E D det p cfg s formats = (p', Ok (d, None)) -> u_timeperiod cfg = false -> date_period (d_period d).
Proof.
  intros E D det p cfg s fs p' d H HT.
  pose proof (parse_outcome E D det p cfg s fs) as O. rewrite H in O. cbn [fst snd] in O.
  inversion O as [| |d0 ? ? Hd Hz| | |lds l1 l2 ld d0 Hty ? ? Hg Hl Ht Hz Hn]; subst; try congruence.
  - apply fmt_period. now apply usable_iff.
  - cbn [with_locale d_period]. unfold try_locale in Ht. cbv zeta in Ht. set (lcfg := with_order _ _) in Ht.
    assert (HT' : c_timeperiod lcfg = false) by exact HT.
    destruct (translate E lcfg ld _ false) as [trs| |]; cbn [rbind] in Ht; try discriminate.
    destruct (translate E lcfg ld _ true) as [trsf| |]; cbn [rbind] in Ht; try discriminate.
    apply first_date_spec in Ht as [[Hz' _]|[_ (bef & ty & aft & Hty' & Hx & Hb)]]; [congruence|].
    apply try_type_sub in Hx; [|now apply usable_iff]. destruct Hx as [HU [[_ ->]|[[_ ->]|[[_ S]|[[_ S]|[[_ S]|[_ S]]]]]]].
    1,2: (revert HU; unfold timestamp_parse; rewrite HT'; destruct (find _ _ _); [intros _; left; reflexivity|intros [HU _]; now contradiction HU]).
    + destruct S as (? & t & ? & _ & -> & _). now apply rel_period_date.
    + destruct S as (? & t & ? & _ & -> & _). now apply fmt_period.
    + destruct S as (? & t & ? & _ & (r & tz & d1 & _ & _ & HP & ->) & _). rewrite apply_timezone_period. now apply (abs_period E lcfg r tz).
    + destruct S as (? & t & ? & _ & (r & tz & d1 & _ & _ & HP & ->) & _). rewrite apply_timezone_period. now apply (ns_period E lcfg r).
Qed.
Print Assumptions C19_no_time_period_unless_asked.

(** * C07 *)
Definition complete (R : reading) : Prop := r_day R <> None /\ r_month R <> None /\ r_year R <> None.
Theorem C07_absolute_dates_are_complete_partial : forall E cfg s tz d,
  absolute_parse E cfg s tz = Ok d -> c_strict cfg = true -> is_zero (c_now cfg) = false -> exists R, reads E cfg s R /\ complete R.
Proof.
  intros E cfg s tz d H HS Hz. destruct (abs_reads _ _ _ _ _ H) as [R Hr]. exists R. split; [exact Hr|].
  rewrite (reads_run E cfg s R tz _ Hr eq_refl Hz) in H. unfold run in H. unfold check_strict in H. rewrite HS in H. unfold missing_of in H. unfold complete.
  destruct (r_day R), (r_month R), (r_year R); cbn [is_some app andb negb] in H; try discriminate. repeat split; discriminate.
Qed.
Print Assumptions C07_absolute_dates_are_complete_partial.

Lemma strict_none cfg : c_strict cfg = true -> forall f, In f (preferred_formats ++ all_formats)%list -> check_strict cfg (ns_missing f) = false.
Proof.
  intros HS f Hf. unfold check_strict. rewrite HS. cbn [andb].
  assert (A : forallb (fun f => negb (match ns_missing f with [] => true | _ => false end)) (preferred_formats ++ all_formats)%list = true) by (vm_compute; reflexivity).
  rewrite forallb_forall in A. now rewrite (A f Hf).
Qed.
Lemma datetime_formats_in o fs f : datetime_formats o = Some fs -> In f fs -> In f (preferred_formats ++ all_formats)%list.
Proof.
  assert (S : forall p, incl (sorted_formats p) (preferred_formats ++ all_formats)%list).
  { intros p x Hx. unfold sorted_formats in Hx. apply in_app_iff. right. apply in_app_iff in Hx as [Hx|Hx]; now apply filter_In in Hx as [Hx _]. }
  unfold datetime_formats. destruct (eqs o (lit "mdy")).
  { intros XE Hf. apply some_inj in XE. rewrite <- XE in Hf. apply in_app_iff in Hf as [Hf|Hf]; [apply in_app_iff; now left|now apply S in Hf]. }
  repeat (match goal with |- (if ?c then _ else _) = _ -> _ => destruct c end; [intros XE Hf; apply some_inj in XE; rewrite <- XE in Hf; now apply S in Hf|]). discriminate.
Qed.

(** the full claim is false: a relative date, or a format without a day, is accepted although no day, month or year is written *)
Definition strict_cfg : uconfig :=
  {| u_locales := [lit "en"]; u_languages := []; u_region := []; u_try_prev := false; u_given_order := false;
     u_deflang := []; u_order := None; u_now := utc_at 2016 2 28 10 0 0; u_tz := None;
     u_pday := 0; u_pmonth := 0; u_src := 0;
     u_strict := true; u_required := []; u_skip := []; u_timeperiod := false; u_preserve := false |}.
Theorem C07_strict_refuted :
  shows (snd (parse env0 db0 None (new_parser []) strict_cfg (lit "in 2 days") [])) 2016 3 1 10 0 0 0 PDay (lit "en") /\
  shows (snd (parse env0 db0 None (new_parser []) strict_cfg (lit "March") [lit "January"])) 2016 3 28 0 0 0 0 PMonth [].
Proof. split; apply shows_by; vm_compute; reflexivity. Qed.
Print Assumptions C07_strict_refuted.
Example C07_case : shows (snd (parse env0 db0 None (new_parser []) strict_cfg (lit "10 March 2015") [])) 2015 3 10 0 0 0 0 PDay (lit "en").
Proof. apply shows_by; vm_compute; reflexivity. Qed.
Example C07_incomplete : snd (parse env0 db0 None (new_parser []) strict_cfg (lit "March 2015") []) = Ok (zero_date, Some ENoParse).
Proof. vm_compute; reflexivity. Qed.

(** * C08 *)
(** a configuration that requires a documented part is always rejected *)
Theorem C08_documented_parts_refuted : forall E D det p cfg s formats part,
  In part (u_required cfg) -> In (to_lower (e_uni E) part) [lit "day"; lit "month"; lit "year"] ->
  exists p' e, parse E D det p cfg s formats = (p', Ok (zero_date, Some e)).
Proof.
  intros E D det p cfg s fs part Hin Hp. unfold parse. destruct (existsb _ _); [eauto|].
  assert (validate (e_uni E) (initiate (e_now E) cfg) = false) as ->; [|cbn [negb]; eauto].
  unfold validate. cbn [initiate uclone u_pday u_pmonth u_src u_required]. destruct (_ <? _); [reflexivity|]. destruct (_ <? _); [reflexivity|]. destruct (_ <? _); [reflexivity|].
  apply negb_false_iff. apply existsb_exists. exists part. split; [exact Hin|]. unfold part_rejected. destruct Hp as [<-|[<-|[<-|[]]]]; reflexivity.
Qed.
Print Assumptions C08_documented_parts_refuted.
(** an unknown part is accepted *)
Definition foo_cfg : uconfig :=
  {| u_locales := [lit "en"]; u_languages := []; u_region := []; u_try_prev := false; u_given_order := false;
     u_deflang := []; u_order := None; u_now := utc_at 2016 2 28 10 0 0; u_tz := None;
     u_pday := 0; u_pmonth := 0; u_src := 0;
     u_strict := false; u_required := [lit "foo"]; u_skip := []; u_timeperiod := false; u_preserve := false |}.
Theorem C08_unknown_parts_refuted :
  shows (snd (parse env0 db0 None (new_parser []) foo_cfg (lit "March 2015") [])) 2015 3 28 0 0 0 0 PMonth (lit "en").
Proof. apply shows_by; vm_compute; reflexivity. Qed.
Print Assumptions C08_unknown_parts_refuted.
(** the sub-parsers themselves do enforce the required parts *)
Definition required (cfg : config) (part : string) : Prop := In (lit part) (c_required cfg).
Theorem C08_absolute_enforces_partial : forall E cfg s tz d,
  absolute_parse E cfg s tz = Ok d -> is_zero (c_now cfg) = false ->
  exists R, reads E cfg s R /\ (required cfg "day" -> r_day R <> None) /\ (required cfg "month" -> r_month R <> None) /\ (required cfg "year" -> r_year R <> None).
Proof.
  intros E cfg s tz d H Hz. destruct (abs_reads _ _ _ _ _ H) as [R Hr]. exists R. split; [exact Hr|].
  rewrite (reads_run E cfg s R tz _ Hr eq_refl Hz) in H. unfold run in H. destruct (negb (check_strict cfg (missing_of R))) eqn:C; [discriminate|]. clear H.
  apply negb_false_iff in C. unfold check_strict in C. destruct (c_strict cfg && _); [discriminate|]. apply negb_true_iff in C.
  assert (G : forall x, In x (c_required cfg) -> mem x (missing_of R) = false).
  { intros x Hx. destruct (mem x (missing_of R)) eqn:M; [|reflexivity]. assert (existsb (fun r => mem r (missing_of R)) (c_required cfg) = true) by (apply existsb_exists; now exists x). congruence. }
  unfold required. repeat split; intros Hq HN; apply G in Hq; unfold missing_of in Hq; rewrite HN in Hq; cbn [is_some] in Hq.
  - discriminate Hq.
  - destruct (r_day R); discriminate Hq.
  - destruct (r_day R), (r_month R); discriminate Hq.
Qed.
Print Assumptions C08_absolute_enforces_partial.
