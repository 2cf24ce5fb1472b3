(** The result of the absolute parser as a function of what was read *)
From Coq Require Import ZifyBool.
From Verif Require Import GoBase SMap Regex Civil GoTime GoTimeFacts GoTimeParse Setting Strutil Dateutil DateutilFacts Tokenizer Timezone Env Common Absolute
  Utf8Facts SpaceFacts Prop_Text AbsFacts AbsFacts2 AbsSpec.

Section E.
Variable E : env.
Definition missing_of (R : reading) : list str :=
  (if is_some (r_day R) then [] else [lit "day"]) ++ (if is_some (r_month R) then [] else [lit "month"])
  ++ (if is_some (r_year R) then [] else [lit "year"]).
Definition f_weekday (cfg : config) (R : reading) (t : time) : res time :=
  match r_weekday R with
  | Some w => if negb (is_some (r_year R)) && negb (is_some (r_month R)) && negb (is_some (r_day R)) then
      if slen w <? 3 then Panic
      else match wd_steps (c_src cfg) (weekday t) (to_lower (e_uni E) (firstn 3 w)) with
           | Some n => Ok (add_date t 0 0 n)
           | None => Panic
           end
    else Ok t
  | None => Ok t
  end.
Definition f_month (cfg : config) (R : reading) (now t : time) : time :=
  if is_some (r_month R) && negb (is_some (r_year R)) then
    let y := year t in
    let y := if before now t then (if c_src cfg =? Past then y - 1 else y)
             else (if c_src cfg =? Future then y + 1 else y) in
    let y := if (day t =? 29) && (month t =? 2) && negb (is_leap_year y) then correct_leap_year cfg y else y in
    mk_date y (month t) (day t) (hour t) (minute t) (second t) (nanosecond t) (t_loc t)
  else t.
Definition f_year2 (cfg : config) (R : reading) (now t : time) : time :=
  match r_year R with
  | Some (yt, _) =>
    if slen yt =? 2 then
      if before now t then (if c_src cfg =? Past then add_date t (-100) 0 0 else t)
      else (if c_src cfg =? Future then add_date t 100 0 0 else t)
    else t
  | None => t
  end.
Definition f_time (cfg : config) (R : reading) (tz : offset_data) (now t : time) : time :=
  if is_some (r_clock R) && negb (is_some (r_year R)) && negb (is_some (r_month R)) && negb (is_some (r_day R)) && negb (is_some (r_weekday R))
  then
    let off := match od_is_zero tz, c_tz cfg with
               | true, Some l => off_at l (t_sec t)
               | _, _ => od_off tz
               end in
    let tmp := add t (- off * 1000000000) in
    let t := if (c_src cfg =? Past) && before now tmp then add_date t 0 0 (-1) else t in
    if (c_src cfg =? Future) && after now tmp then add_date t 0 0 1 else t
  else t.
Definition f_setmonth (cfg : config) (R : reading) (now t : time) : time :=
  if is_some (r_month R) then t
  else if is_some (r_weekday R) && negb (is_some (r_year R)) && negb (is_some (r_day R)) then t
  else apply_month E cfg t (Some (month now)).
Definition f_setday (cfg : config) (R : reading) (now t : time) : time :=
  if is_some (r_day R) || is_some (r_clock R) || is_some (r_weekday R) then t else apply_day E cfg t (Some (day now)).
Definition f_period (cfg : config) (R : reading) : period :=
  let p := if is_some (r_day R) then PDay else if is_some (r_month R) then PMonth else if is_some (r_year R) then PYear else PDay in
  match r_clock R with
  | Some (_, q) => if c_timeperiod cfg then period_min p q else p
  | None => p
  end.
Definition run (cfg : config) (R : reading) (tz : offset_data) (now : time) : res date :=
  if negb (check_strict cfg (missing_of R)) then Err EStrict
  else
    let '(h, mi, s, ns) := clock_of R in
    do t <- greg_create cfg (or_default (option_map snd (r_year R)) (year now)) (or_default (r_month R) (month now)) (or_default (r_day R) (day now))
              h mi s ns (t_loc now) ;
    do t <- f_weekday cfg R t ;
    Ok (mkd (f_period cfg R) (f_setday cfg R now (f_setmonth cfg R now (f_time cfg R tz now (f_year2 cfg R now (f_month cfg R now t)))))).

Lemma is_some_map {A B} (f : A -> B) o : is_some (option_map f o) = is_some o. Proof. now destruct o. Qed.
Lemma reads_run cfg s R tz now : reads E cfg s R -> c_now cfg = now -> is_zero now = false -> absolute_parse E cfg s tz = run cfg R tz now.
Proof.
  intros (a & HI & Rd & Rm & Ry & Ryt & Rw & Rc) Hn Hz.
  pose proof (greg_init_inv _ _ _ _ HI) as INV. pose proof (bi_dom _ _ _ INV) as DOM. clear INV.
  unfold absolute_parse, abs_run. rewrite HI. clear HI. unfold abs_finish, run, abs_now. rewrite Hn, Hz.
  assert (Hd : chas (a_vals a) CDay = is_some (r_day R)) by (unfold chas; cbn [cget]; now rewrite Rd).
  assert (Hm : chas (a_vals a) CMonth = is_some (r_month R)) by (unfold chas; cbn [cget]; now rewrite Rm).
  assert (Hy : chas (a_vals a) CYear = is_some (r_year R)) by (rewrite <- (is_some_map snd), Ry; reflexivity).
  assert (Hw : chas (a_vals a) CWeekday = is_some (r_weekday R)).
  { rewrite <- DOM. unfold chas. cbn [cget]. rewrite Rw, is_some_map. reflexivity. }
  assert (Ht : is_some (a_time a) = is_some (r_clock R)).
  { destruct (a_time a) as [tk|]; [destruct Rc as (t & p & _ & ->); reflexivity | now rewrite Rc]. }
  assert (EM : missing_parts (a_vals a) = missing_of R) by (unfold missing_parts, missing_of; now rewrite Hd, Hm, Hy).
  assert (EW : forall t, ctf_weekday E cfg a t = f_weekday cfg R t).
  { intros t. unfold ctf_weekday, f_weekday. rewrite !DOM, Hd, Hm, Hy, Rw. destruct (cm_wd (a_toks a)); reflexivity. }
  assert (EMo : forall n t, ctf_month cfg a n t = f_month cfg R n t) by (intros; unfold ctf_month, f_month; now rewrite Hm, Hy).
  assert (EY : forall n t, ctf_year2 cfg a n t = f_year2 cfg R n t).
  { intros n t. unfold ctf_year2, f_year2. destruct (r_year R) as [[yt v]|], (cm_year (a_toks a)) as [tk|]; cbn [option_map fst] in Ryt; try discriminate; [|reflexivity].
    assert (yt = tk_text tk) as -> by congruence. reflexivity. }
  assert (ET : forall n t, ctf_time cfg a tz n t = f_time cfg R tz n t) by (intros; unfold ctf_time, f_time; now rewrite !DOM, Hd, Hm, Hy, Hw, Ht).
  assert (EF : forall n t, correct_time_frame E cfg a tz n t = rbind (f_weekday cfg R t) (fun t => Ok (f_time cfg R tz n (f_year2 cfg R n (f_month cfg R n t))))).
  { intros n t. unfold correct_time_frame. rewrite EW. destruct (f_weekday cfg R t); cbn [rbind]; [|reflexivity..]. now rewrite EMo, EY, ET. }
  assert (ESM : forall n t, correct_month E cfg a n t = f_setmonth cfg R n t) by (intros; unfold correct_month, f_setmonth; now rewrite !DOM, Hd, Hm, Hy, Hw).
  assert (ESD : forall n t, correct_day E cfg a n t = f_setday cfg R n t) by (intros; unfold correct_day, f_setday; now rewrite !DOM, Hd, Hw, Ht).
  assert (EP : get_period (a_vals a) = (if is_some (r_day R) then PDay else if is_some (r_month R) then PMonth else if is_some (r_year R) then PYear else PDay)) by (unfold get_period; now rewrite Hd, Hm, Hy).
  rewrite EM. destruct (negb (check_strict cfg (missing_of R))); [reflexivity|].
  unfold greg_hooks; cbn [h_params h_create]. unfold greg_params. rewrite <- Ry, <- Rm, <- Rd.
  unfold clock_of, f_period. rewrite EP.
  destruct (a_time a) as [tk|].
  - destruct Rc as (t & p & HP & ->). rewrite HP. cbn [rbind]. destruct (greg_create _ _ _ _ _ _ _ _ _); cbn [rbind]; [|reflexivity..]. rewrite EF.
    destruct (f_weekday cfg R _); cbn [rbind]; [|reflexivity..]. now rewrite ESM, ESD.
  - rewrite Rc. cbn [rbind]. destruct (greg_create _ _ _ _ _ _ _ _ _); cbn [rbind]; [|reflexivity..]. rewrite EF.
    destruct (f_weekday cfg R _); cbn [rbind]; [|reflexivity..]. now rewrite ESM, ESD.
Qed.
Lemma reads_clock cfg s R : reads E cfg s R -> forall h mi sc ns, clock_of R = (h, mi, sc, ns) -> valid_clock h mi sc ns.
Proof.
  intros (a & _ & _ & _ & _ & _ & _ & Rc) h mi sc ns. unfold clock_of. destruct (a_time a) as [tk|].
  - destruct Rc as (t & p & HP & ->). intros [= <- <- <- <-]. apply clock_valid. eapply parse_time_wf; eauto.
  - rewrite Rc. intros [= <- <- <- <-]. unfold valid_clock. lia.
Qed.
Lemma reads_period cfg s R h mi sc ns p : reads E cfg s R -> r_clock R = Some (h, mi, sc, ns, p) -> p = PSecond \/ p = PMinute \/ p = PHour.
Proof.
  intros (a & _ & _ & _ & _ & _ & _ & Rc). destruct (a_time a) as [tk|]; [|congruence]. destruct Rc as (t & q & HP & ->). intros [= <- <- <- <- <-].
  eapply parse_time_per; eauto.
Qed.
End E.
