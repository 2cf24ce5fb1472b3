(** From the reading of an English text to the result of Parse *)
From Coq Require Import ZifyBool.
From Verif Require Import GoBase SMap Regex RegexFacts RegexFacts2 RegexFacts3 Civil GoTime GoTimeFacts GoTimeParse Setting Strutil Digit Dateutil DateutilFacts Tokenizer Timezone Env Common Absolute Language LocaleData Parser ParserFacts
  Shows Spec AbsSpec AbsFacts AbsFacts2 AbsFacts3 AbsFacts4 NumericFacts NumTranslate Prop_Parser Prop_Absolute Prop_Absolute2 Prop_Numeric Prop_Clocktime RegexWiden TextRename TextFront TextActs TextParse TextRead TextForms TextValues EnglishForms EnglishCheck.
Ltac Zify.zify_post_hook ::= Z.div_mod_to_equations.

(** ** Times *)
(** a time of an ordinary zone in year 2 or later is not the zero time *)
Lemma year_not_zero t : fixed (t_loc t) -> -86400 <= z_off (l_base (t_loc t)) <= 86400 -> 2 <= year t -> is_zero t = false.
Proof.
  intros HL HO HY. destruct (is_zero t) eqn:Z; [|reflexivity]. exfalso. unfold is_zero in Z. apply andb_true_iff in Z as [Z1 _]. apply Z.eqb_eq in Z1.
  unfold year, civil, local_days in HY. rewrite (local_sec_fixed _ HL), Z1 in HY. unfold zero_sec in HY. set (o := z_off (l_base (t_loc t))) in *.
  assert (C : (-62135596800 + o) / 86400 = -719163 \/ (-62135596800 + o) / 86400 = -719162 \/ (-62135596800 + o) / 86400 = -719161) by lia.
  destruct C as [C|[C|C]]; rewrite C in HY; vm_compute in HY; apply HY; reflexivity.
Qed.
(** the same wall clock *)
Definition same_wall (t t' : time) : Prop :=
  year t' = year t /\ month t' = month t /\ day t' = day t /\ hour t' = hour t /\ minute t' = minute t /\ second t' = second t /\ nanosecond t' = nanosecond t.
Lemma zoned cfg p t : wf_time t -> fixed (t_loc t) -> -86400 <= z_off (l_base (t_loc t)) <= 86400 -> is_zero t = false ->
  (forall l sec, c_tz cfg = Some l -> Z.abs (z_off (zone_at l sec)) <= 86400) -> (2 <= year t \/ c_tz cfg = None) -> p <> PNone ->
  exists t', apply_timezone cfg (mkd p t) od_zero = mkd p t' /\ date_is_zero (mkd p t') = false /\ same_wall t t' /\ (c_tz cfg = None -> t' = t).
Proof.
  intros HW HL HO HZ HT HY HPN. unfold apply_timezone. assert (DZ : forall u, date_is_zero (mkd p u) = is_zero u) by (intros u; unfold date_is_zero, mkd; cbn [d_time d_period]; destruct p; try reflexivity; congruence).
  rewrite DZ, HZ. cbn [orb]. change (od_is_zero od_zero) with true. cbn [andb negb]. destruct (c_tz cfg) as [l|] eqn:TZ.
  - unfold mkd; cbn [d_time with_time]. specialize (HT l (t_sec t) eq_refl). destruct HY as [HY|HY]; [|discriminate HY].
    destruct (civil_valid t) as [HV _]. pose proof (clock_valid t HW) as HC. set (l' := fixed_zone _ _). assert (FL : fixed l') by apply fixed_fixed_zone.
    exists (mk_date (year t) (month t) (day t) (hour t) (minute t) (second t) (nanosecond t) l'). split; [reflexivity|].
    pose proof (mk_date_year _ _ _ _ _ _ _ l' FL HV HC) as Y1. pose proof (mk_date_month _ _ _ _ _ _ _ l' FL HV HC) as Y2. pose proof (mk_date_day _ _ _ _ _ _ _ l' FL HV HC) as Y3.
    destruct (mk_date_clock (year t) (month t) (day t) (hour t) (minute t) (second t) (nanosecond t) l' FL (proj1 HV) HC) as (Y4 & Y5 & Y6 & Y7).
    split; [|split; [unfold same_wall; auto 10|discriminate]]. set (t' := mk_date _ _ _ _ _ _ _ l') in *.
    assert (is_zero t' = false). { apply year_not_zero; [exact FL| |lia]. change (t_loc t') with l'. cbn [l_base fixed_zone z_off l']. lia. }
    rewrite DZ. exact H.
  - exists t. split; [reflexivity|]. rewrite DZ. split; [exact HZ|]. split; [unfold same_wall; auto 10|auto].
Qed.

(** ** What every result of the absolute parser has *)
Lemma pm_cases m : In m english_months -> lower_word (lit (snd m)) = true.
Proof. intros HI. assert (F : forallb (fun m => lower_word (lit (snd m))) english_months = true) by (vm_compute; reflexivity). rewrite forallb_forall in F. exact (F m HI). Qed.
Section R.
Variable E : env.
Notation tame l t := (wf_time t /\ t_loc t = l).
Lemma run_tame cfg R tz now d : run E cfg R tz now = Ok d -> exists t, d = mkd (f_period cfg R) t /\ wf_time t /\ t_loc t = t_loc now.
Proof.
  unfold run. destruct (negb _); [discriminate|]. destruct (clock_of R) as [[[h mi] sc] ns].
  set (y := or_default _ (year now)). set (m := or_default _ (month now)). set (dd := or_default _ (day now)).
  assert (C : exists t, greg_create cfg y m dd h mi sc ns (t_loc now) = Ok t /\ tame (t_loc now) t) by (unfold greg_create; cbv zeta; eexists; split; [reflexivity|]; split; [apply mk_date_wf|reflexivity]).
  destruct C as (t & -> & T). cbn [rbind]. clear y m dd.
  assert (W : forall t', f_weekday E cfg R t = Ok t' -> tame (t_loc now) t').
  { intros t'. unfold f_weekday. destruct (r_weekday R) as [w|]; [|intros X; assert (t = t') by congruence; now subst]. destruct (_ && _); [|intros X; assert (t = t') by congruence; now subst].
    destruct (slen w <? 3); [discriminate|]. destruct (wd_steps _ _ _) as [n|]; [|discriminate]. intros X. assert (add_date t 0 0 n = t') by congruence. subst t'. split; [apply mk_date_wf|]. exact (proj2 T). }
  destruct (f_weekday E cfg R t) as [t1| |]; [|discriminate..]. specialize (W t1 eq_refl). cbn [rbind]. clear T t. intros X.
  assert (M : tame (t_loc now) (f_month cfg R now t1)). { unfold f_month. destruct (_ && _); [|exact W]. cbv zeta. split; [apply mk_date_wf|exact (proj2 W)]. }
  set (t2 := f_month cfg R now t1) in *. clearbody t2. clear W t1.
  assert (Y : tame (t_loc now) (f_year2 cfg R now t2)).
  { unfold f_year2. destruct (r_year R) as [[yt v]|]; [|exact M]. destruct (slen yt =? 2); [|exact M]. destruct (before now t2).
    - destruct (c_src cfg =? Past); [|exact M]. split; [apply mk_date_wf|exact (proj2 M)].
    - destruct (c_src cfg =? Future); [|exact M]. split; [apply mk_date_wf|exact (proj2 M)]. }
  set (t3 := f_year2 cfg R now t2) in *. clearbody t3. clear M t2.
  assert (T : tame (t_loc now) (f_time cfg R tz now t3)).
  { unfold f_time. match goal with |- context [if ?c then _ else _] => destruct c end; [|exact Y]. cbv zeta. match goal with |- context [before now ?x] => set (tmp := x) end. clearbody tmp.
    assert (Y' : tame (t_loc now) (if (c_src cfg =? Past) && before now tmp then add_date t3 0 0 (-1) else t3)). { destruct (_ && _); [|exact Y]. split; [apply mk_date_wf|exact (proj2 Y)]. }
    destruct ((c_src cfg =? Future) && _); [|exact Y']. split; [apply mk_date_wf|exact (proj2 Y')]. }
  set (t4 := f_time cfg R tz now t3) in *. clearbody t4. clear Y t3.
  assert (S : tame (t_loc now) (f_setmonth E cfg R now t4)).
  { unfold f_setmonth. destruct (is_some _); [exact T|]. destruct (_ && _); [exact T|]. unfold apply_month. split; [apply mk_date_wf|exact (proj2 T)]. }
  set (t5 := f_setmonth E cfg R now t4) in *. clearbody t5. clear T t4.
  assert (F : tame (t_loc now) (f_setday E cfg R now t5)).
  { unfold f_setday. match goal with |- context [if ?c then _ else _] => destruct c end; [exact S|]. unfold apply_day. cbv zeta. split; [apply mk_date_wf|exact (proj2 S)]. }
  exists (f_setday E cfg R now t5). split; [congruence|exact F].
Qed.
Lemma period_some cfg s R : reads E cfg s R -> f_period cfg R <> PNone.
Proof.
  intros HR. unfold f_period. destruct (r_clock R) as [[[[[h mi] sc] ns] q]|] eqn:C.
  - destruct (reads_period E cfg s R _ _ _ _ _ HR C) as [->|[->| ->]]; destruct (c_timeperiod cfg), (is_some (r_day R)), (is_some (r_month R)), (is_some (r_year R)); vm_compute; discriminate.
  - destruct (is_some (r_day R)), (is_some (r_month R)), (is_some (r_year R)); discriminate.
Qed.
End R.

(** ** An ordinary call of Parse whose first locale is English *)
Record english_call (E : env) (D : langdb) (det : option (str -> list str)) (p : pstate) (cfg : uconfig) (s : str) : Prop := {
  ec_plain : plain_call E D det p cfg s loc_en;
  (* the words to skip are not among those of these texts *)
  ec_skip : skips_other cfg kept_names;
  (* the current time is set and is in a zone with a fixed offset; no zone is more than a day from UTC *)
  ec_now : is_zero (e_now E) = false /\ wf_time (e_now E) /\ wf_time (u_now cfg) /\ fixed (t_loc (u_now cfg)) /\ Z.abs (z_off (l_base (t_loc (u_now cfg)))) <= 86400;
  ec_zone : forall l sec, u_tz cfg = Some l -> Z.abs (z_off (zone_at l sec)) <= 86400 }.
(** the current time of a call: the given one, or the clock's in UTC *)
Definition now_of (E : env) (cfg : uconfig) : time := if is_zero (u_now cfg) then in_loc (e_now E) utc else u_now cfg.
(** the call returns this period and time and English as the locale *)
Definition answers (r : res ret) (P : period -> time -> Prop) : Prop := exists p t, r = Ok (with_locale (mkd p t) (lit "en"), None) /\ P p t.

Section C.
Variables (E : env) (D : langdb) (det : option (str -> list str)) (p : pstate) (cfg : uconfig).
Notation icfg := (inner E cfg loc_en).
Notation now := (now_of E cfg).
Lemma call_current s : english_call E D det p cfg s -> current icfg now /\ -86400 <= z_off (l_base (t_loc now)) <= 86400.
Proof.
  intros [_ _ (N1 & N2 & N3 & N4 & N5) _]. unfold now_of. split.
  - constructor; [reflexivity|..]; destruct (is_zero (u_now cfg)) eqn:Z; try assumption; apply fixed_utc.
  - destruct (is_zero (u_now cfg)); [cbn; lia|lia].
Qed.
Lemma inner_one_of : exists order, inner_order cfg loc_en = lit order /\ In order orders.
Proof.
  unfold inner_order, order_choice. destruct (u_order cfg) as [f|]; [|exists "MDY"%string; split; [vm_compute; reflexivity|cbn [In orders]; tauto]]. destruct (mem _ _) eqn:M; [|exists "MDY"%string; split; [vm_compute; reflexivity|cbn [In orders]; tauto]].
  apply mem_In in M. set (x := map upperA _) in *. clearbody x. unfold six_orders, orders in *. cbn [In] in M. destruct M as [<-|[<-|[<-|[<-|[<-|[<-|[]]]]]]]; eexists; (split; [reflexivity|cbn [In]; tauto]).
Qed.

(** the result of the absolute parser is the result of Parse *)
Lemma answer s x R (P : period -> time -> Prop) : english_call E D det p cfg s -> reads E icfg x R ->
  (forall d0, absolute_parse E icfg x od_zero = Ok d0 -> date_is_zero (apply_timezone icfg d0 od_zero) = false -> snd (parse E D det p cfg s []) = Ok (with_locale (apply_timezone icfg d0 od_zero) (ld_name loc_en), None)) ->
  result (absolute_parse E icfg x od_zero) (fun q t => (2 <= year t \/ u_tz cfg = None /\ is_zero t = false) /\ P q t) ->
  exists q t t', snd (parse E D det p cfg s []) = Ok (with_locale (mkd q t') (lit "en"), None) /\ P q t /\ q = f_period icfg R /\ t_loc t = t_loc now /\ same_wall t t' /\ (u_tz cfg = None -> t' = t).
Proof.
  intros HC HR HP (q & t & EQ & HY & HQ). destruct (call_current s HC) as [CU OFF].
  pose proof EQ as EQ'. rewrite (reads_run E icfg x R od_zero now HR (cur_now _ _ CU) (cur_set _ _ CU)) in EQ'.
  destruct (run_tame E icfg R od_zero now _ EQ') as (t1 & ET & WT & LT). assert (q = f_period icfg R) by (apply (f_equal d_period) in ET; exact ET). assert (t1 = t) by (apply (f_equal d_time) in ET; cbn [d_time mkd] in ET; symmetry; exact ET). subst t1.
  assert (FT : fixed (t_loc t)) by (rewrite LT; exact (cur_fixed _ _ CU)). rewrite <- LT in OFF.
  destruct (zoned icfg q t WT FT OFF) as (t' & Z1 & Z2 & Z3 & Z4).
  - destruct HY as [HY|[_ HY]]; [now apply year_not_zero|exact HY].
  - exact (ec_zone _ _ _ _ _ _ HC).
  - destruct HY as [HY|[HY _]]; [now left|right; exact HY].
  - subst q. exact (period_some E icfg x R HR).
  - exists q, t, t'. rewrite (HP (mkd q t) EQ) by (rewrite Z1; exact Z2). rewrite Z1. repeat split; try assumption; apply Z3.
Qed.

End C.

(** ** The reading of a text of a form *)
Fixpoint distinctb (l : str) : bool := match l with [] => true | c :: l' => negb (existsb (Z.eqb c) l') && distinctb l' end.
Lemma distinctb_ok l : distinctb l = true -> NoDup l.
Proof.
  induction l as [|c l IH]; cbn [distinctb]; [constructor|]. rewrite andb_true_iff. intros [H1 H2]. constructor; [|now apply IH]. intros HI. apply negb_true_iff in H1. assert (existsb (Z.eqb c) l = true) by (apply existsb_exists; exists c; split; [exact HI|apply Z.eqb_refl]). congruence.
Qed.
Definition distinct (tds tys cks : list str) : bool :=
  forallb (fun td => forallb (fun ty => forallb (fun ck => ascb (td ++ ty ++ ck) && distinctb (filter is_digitA (td ++ ty ++ ck))) cks) tys) tds.
Definition names_ok (ms js : list (Z * string)) : bool :=
  forallb (fun m => lower_word (lit (snd m)) && lower_word (full_month (fst m))) ms && forallb (fun m => lower_word (lit (snd m)) && lower_word (full_weekday (fst m))) js.

Lemma english_text E D det p cfg F tds ms tys js cks ps td w ty wd ck td0 m x ty0 j xw ck0 R (P : period -> time -> Prop) :
  english_call E D det p cfg (fill ps td w ty wd ck) ->
  ok_forms loc_en F tds ms tys js cks = true -> distinct tds tys cks = true -> names_ok ms js = true ->
  In ps F -> In td0 tds -> like td td0 -> In (m, x) ms -> map lowerA w = lit x -> In ty0 tys -> like ty ty0 -> In (j, xw) js -> map lowerA wd = lit xw -> In ck0 cks -> like ck ck0 ->
  (forall order, inner_order cfg loc_en = lit order -> In order orders ->
     exists tm, ends E (greg_hooks E) (taken ps (map lowerA td) (full_month m) (map lowerA ty) (full_weekday j) (map lowerA ck)) order (r_day R) (r_month R) (r_year R) (r_weekday R) tm /\
       match tm with None => r_clock R = None | Some t => exists t' p', parse_time E t = Some (t', p') /\ r_clock R = Some (hour t', minute t', second t', nanosecond t', p') end) ->
  (forall s, reads E (inner E cfg loc_en) s R -> result (absolute_parse E (inner E cfg loc_en) s od_zero) (fun q t => (2 <= year t \/ u_tz cfg = None /\ is_zero t = false) /\ P q t)) ->
  exists q t t', snd (parse E D det p cfg (fill ps td w ty wd ck) []) = Ok (with_locale (mkd q t') (lit "en"), None) /\ P q t /\ q = f_period (inner E cfg loc_en) R /\ t_loc t = t_loc (now_of E cfg) /\ same_wall t t' /\ (u_tz cfg = None -> t' = t).
Proof.
  intros HC HF HD HN IP ID LD IM LM IY LY IJ LJ IC LC HR HP.
  unfold ok_forms in HF. rewrite forallb_forall in HF. specialize (HF ps IP). destruct (good_form ps) eqn:GF; [|discriminate HF].
  rewrite forallb_forall in HF. specialize (HF _ IM). rewrite forallb_forall in HF. specialize (HF _ IJ). rewrite forallb_forall in HF. specialize (HF _ ID). rewrite forallb_forall in HF. specialize (HF _ IY). rewrite forallb_forall in HF. specialize (HF _ IC). cbn [fst snd] in HF.
  unfold distinct in HD. rewrite forallb_forall in HD. specialize (HD _ ID). rewrite forallb_forall in HD. specialize (HD _ IY). rewrite forallb_forall in HD. specialize (HD _ IC). apply andb_true_iff in HD as [AS ND]. apply distinctb_ok in ND.
  unfold names_ok in HN. apply andb_true_iff in HN as [HN1 HN2]. rewrite forallb_forall in HN1, HN2. specialize (HN1 _ IM). specialize (HN2 _ IJ). apply andb_true_iff in HN1 as [N1 N2]. apply andb_true_iff in HN2 as [N3 N4]. cbn [fst snd] in *.
  destruct (inner_one_of cfg) as (order & EO & IO).
  destruct (text_reading E D det p cfg loc_en kept_names ps td w ty wd ck td0 (lit x) ty0 (lit xw) ck0 (full_month m) (full_weekday j) (ec_plain _ _ _ _ _ _ HC) check_blind (ec_skip _ _ _ _ _ _ HC) HF GF N1 N3 N2 N4 LD LM LY LJ LC AS ND order R EO IO (HR order EO IO)) as (s & RS & PS).
  exact (answer E D det p cfg _ s R P HC RS PS (HP s RS)).
Qed.
