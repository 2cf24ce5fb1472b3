(** C36: Hijri and Jalali dates *)
From Coq Require Import ZifyBool.
From Verif Require Import GoBase SMap Regex RegexFacts RegexFacts3 Civil GoTime GoTimeFacts GoTimeParse Setting Strutil Digit Tokenizer Timezone Env Common Timestamp Formatted Relative Absolute
  JalaliData Calendars Language Parser ParserFacts History Shows Concrete LocaleData AbsSpec AbsFacts AbsFacts2 AbsFacts3 AbsFacts4 NumericFacts NumericFacts2 NumTranslate NumParse NumLift
  Prop_Parser Prop_Absolute Prop_Numeric Prop_Timestamp Spec.

(** ** Specification *)
(** the year that is written: four digits, or two digits and the century of the calendar *)
Definition written_year (two : Z -> Z) (ty : str) (y : Z) : Prop :=
  (length ty = 4%nat /\ y = number 0 ty /\ 1000 <= y) \/ (length ty = 2%nat /\ y = two (number 0 ty)).
Definition hijri_century (yy : Z) : Z := if yy <? 90 then 1400 + yy else 1300 + yy.
Definition jalali_century (yy : Z) : Z := if yy <=? 60 then 1400 + yy else 1300 + yy.

(** a date of three numbers: which it is, and how it is written *)
Record numeric_date (two : Z -> Z) (order : string) (td tm ty : str) (d m y : Z) (s : str) : Prop := {
  nd_digits : digits td /\ digits tm /\ digits ty;
  nd_len : (length td <= 2)%nat /\ (length tm <= 2)%nat;
  nd_d : number 0 td = d; nd_m : number 0 tm = m; nd_y : written_year two ty y;
  nd_order : In order ["DMY"; "DYM"; "MDY"; "MYD"; "YDM"; "YMD"]%string;
  nd_text : exists a b c sp sq, map (fun c => if c =? 68 then td else if c =? 77 then tm else ty) (lit order) = [a; b; c] /\
    In sp (lit "-/. ") /\ In sq (lit "-/. ") /\ (sp = 46 <-> sq = 46) /\ s = a ++ sp :: b ++ sq :: c /\
    (* "-1000", "-1100" and "-1200" look like time zones *)
    (In y [1000; 1100; 1200] -> a = ty \/ (sp <> 45 /\ sq <> 45)) }.
(** a call of ParseHijri or ParseJalali: a valid configuration with this order, the current time is known and in a fixed zone *)
Record calendar_call (E : env) (cfg : uconfig) (order : string) (loc : location) : Prop := {
  cc_ascii : uni_ascii (e_uni E);
  cc_valid : validate (e_uni E) (initiate (e_now E) cfg) = true;
  (* DateOrder, or DMY when there is none or it is none of the six *)
  cc_order : match u_order cfg with None => order = "DMY"%string | Some f => map upperA (f []) = lit order \/ (order = "DMY"%string /\ ~ In (map upperA (f [])) six_orders) end;
  cc_now : is_zero (e_now E) = false /\ wf_time (e_now E) /\ wf_time (u_now cfg) /\ fixed (t_loc (u_now cfg));
  cc_loc : loc = if is_zero (u_now cfg) then utc else t_loc (u_now cfg) }.

(** ** The two value functions *)
Lemma atoi0_number t : digits t -> atoi0 t = number 0 t. Proof. apply atoi0_digits. Qed.
Lemma is_digits_ok U t : uni_ascii U -> digits t -> is_digits U t = true.
Proof.
  intros UA HD. unfold is_digits. rewrite runes_asc by (now apply digits_asc). apply forallb_forall. intros c Hc. destruct HD as [_ HD]. rewrite Forall_forall in HD. apply HD in Hc. rewrite (ua_isNd _ UA) by lia. unfold is_digitA. lia.
Qed.
Section V.
Variable E : env.
Variable K : calendars.
Hypothesis UA : uni_ascii (e_uni E).
Lemma hj_day t dir : digits t -> (length t <= 2)%nat -> hj_value E CDay t dir = if (1 <=? number 0 t) && (number 0 t <=? 30) then Some (number 0 t) else None.
Proof. intros HD HL. unfold hj_value. rewrite is_digits_ok, atoi0_number by assumption. assert (slen t <=? 2 = true) as -> by (unfold slen; lia). reflexivity. Qed.
Lemma hj_month t dir : digits t -> (length t <= 2)%nat -> hj_value E CMonth t dir = if (1 <=? number 0 t) && (number 0 t <=? 12) then Some (number 0 t) else None.
Proof. intros HD HL. unfold hj_value. rewrite is_digits_ok, atoi0_number by assumption. assert (slen t <=? 2 = true) as -> by (unfold slen; lia). reflexivity. Qed.
Lemma number_nonneg t : digits t -> 0 <= number 0 t. Proof. intros HD. pose proof (number_bound t HD). lia. Qed.
Lemma hj_year t dir y : digits t -> written_year hijri_century t y -> hj_value E CYear t dir = Some y.
Proof.
  intros HD HY. unfold hj_value. rewrite is_digits_ok, atoi0_number by assumption. pose proof (number_nonneg t HD). unfold slen. destruct HY as [(L & -> & _)|(L & ->)]; rewrite L.
  - assert (0 <=? number 0 t = true) as -> by lia. reflexivity.
  - unfold hj_two_digit, hijri_century. cbn [Z.of_nat Pos.of_succ_nat Pos.succ Z.eqb Pos.eqb andb]. destruct (90 <=? number 0 t) eqn:C; [assert (number 0 t <? 90 = false) as -> by lia|assert (number 0 t <? 90 = true) as -> by lia].
    + assert (0 <=? number 0 t + 1300 = true) as -> by lia. f_equal. lia.
    + assert (0 <=? number 0 t + 1400 = true) as -> by lia. f_equal. lia.
Qed.
Lemma jl_day t dir : digits t -> (length t <= 2)%nat -> jl_value E CDay t dir = if (1 <=? number 0 t) && (number 0 t <=? 30) then Some (number 0 t) else None.
Proof. intros HD HL. unfold jl_value. rewrite is_digits_ok, atoi0_number by assumption. assert (slen t <=? 2 = true) as -> by (unfold slen; lia). reflexivity. Qed.
Lemma jl_month t : digits t -> (length t <= 2)%nat -> jl_value E CMonth t "1" = if (1 <=? number 0 t) && (number 0 t <=? 12) then Some (number 0 t) else None.
Proof. intros HD HL. unfold jl_value. rewrite is_digits_ok, atoi0_number by assumption. assert (slen t <=? 2 = true) as -> by (unfold slen; lia). reflexivity. Qed.
Lemma jl_year t dir y : digits t -> written_year jalali_century t y -> jl_value E CYear t dir = Some y.
Proof.
  intros HD HY. unfold jl_value. rewrite is_digits_ok, atoi0_number by assumption. pose proof (number_nonneg t HD). unfold slen. destruct HY as [(L & -> & _)|(L & ->)]; rewrite L.
  - assert (0 <=? number 0 t = true) as -> by lia. reflexivity.
  - unfold jl_two_digit, jalali_century. cbn [Z.of_nat Pos.of_succ_nat Pos.succ Z.eqb Pos.eqb andb]. destruct (60 <? number 0 t) eqn:C; [assert (number 0 t <=? 60 = false) as -> by lia|assert (number 0 t <=? 60 = true) as -> by lia].
    + assert (0 <=? number 0 t + 1300 = true) as -> by lia. f_equal. lia.
    + assert (0 <=? number 0 t + 1400 = true) as -> by lia. f_equal. lia.
Qed.
Lemma year_positive two t y : (forall n, 0 <= n -> 0 < two n) -> digits t -> written_year two t y -> y <> 0.
Proof. intros HT HD [(_ & _ & H)|(_ & ->)]; [lia|]. specialize (HT _ (number_nonneg t HD)). lia. Qed.
Lemma hj_parts td tm ty d m y order s : numeric_date hijri_century order td tm ty d m y s -> 1 <= d <= 30 -> 1 <= m <= 12 -> parts2 (hj_hooks E K) td tm ty d m y.
Proof.
  intros [(D1 & D2 & D3) [L1 L2] <- <- HY _ _] Hd Hm. constructor; cbn [h_value hj_hooks firstv].
  - rewrite hj_day by assumption. assert (1 <=? number 0 td = true) as -> by lia. assert (number 0 td <=? 30 = true) as -> by lia. reflexivity.
  - rewrite hj_month by assumption. assert (1 <=? number 0 tm = true) as -> by lia. assert (number 0 tm <=? 12 = true) as -> by lia. reflexivity.
  - now rewrite (hj_year ty _ y).
  - lia.
  - lia.
  - apply (year_positive hijri_century ty); [|assumption|assumption]. intros n Hn. unfold hijri_century. destruct (n <? 90); lia.
  - right. split; repeat (apply Forall_cons; [right; cbn [h_value hj_hooks]; rewrite (hj_year ty _ y) by assumption; discriminate|]); constructor.
Qed.
Lemma jl_parts td tm ty d m y order s : numeric_date jalali_century order td tm ty d m y s -> 1 <= d <= 30 -> 1 <= m <= 12 -> parts2 (jl_hooks E K) td tm ty d m y.
Proof.
  intros [(D1 & D2 & D3) [L1 L2] <- <- HY _ _] Hd Hm. constructor; cbn [h_value jl_hooks firstv].
  - rewrite jl_day by assumption. assert (1 <=? number 0 td = true) as -> by lia. assert (number 0 td <=? 30 = true) as -> by lia. reflexivity.
  - rewrite jl_month by assumption. assert (1 <=? number 0 tm = true) as -> by lia. assert (number 0 tm <=? 12 = true) as -> by lia. reflexivity.
  - now rewrite (jl_year ty _ y).
  - lia.
  - lia.
  - apply (year_positive jalali_century ty); [|assumption|assumption]. intros n Hn. unfold jalali_century. destruct (n <=? 60); lia.
  - right. split; repeat (apply Forall_cons; [right; cbn [h_value jl_hooks]; rewrite (jl_year ty _ y) by assumption; discriminate|]); constructor.
Qed.

(** ** The text is not changed by the preparation *)
Lemma replace_absent s old new c : In c old -> ~ In c s -> replace_all s old new = s.
Proof.
  intros Hc Hs. unfold replace_all, split. assert (G : forall acc, split_from 0 acc s old = [rev acc ++ s]).
  { induction s as [|x s IH]; intros acc; cbn [split_from]; [now rewrite app_nil_r|]. assert (has_prefix old (x :: s) = false) as ->.
    { destruct (has_prefix old (x :: s)) eqn:HP; [|reflexivity]. exfalso. apply Hs. clear IH Hs. revert HP Hc. generalize (x :: s). induction old as [|o old IH]; intros l HP Hc; [destruct Hc|]. destruct l as [|y l]; [discriminate HP|]. cbn [has_prefix] in HP.
      apply andb_true_iff in HP as [H1 H2]. apply Z.eqb_eq in H1. subst y. destruct Hc as [<-|Hc]; [now left|right; eapply IH; eauto]. }
    rewrite IH by (intros X; apply Hs; now right). cbn [rev]. now rewrite <- app_assoc. }
  rewrite G. reflexivity.
Qed.
Definition foreign (w : str) : bool := existsb (fun c => (128 <=? c) || other c) w.
Lemma replace_foreign s old new : lacks other s -> foreign old = true -> replace_all s old new = s.
Proof.
  intros HL HF. unfold foreign in HF. apply existsb_exists in HF as (c & H1 & H2). apply (replace_absent s old new c H1). intros H3. unfold lacks in HL. rewrite Forall_forall in HL. apply HL in H3 as [H3 H4]. rewrite H4 in H2. lia.
Qed.
Lemma repl_many_foreign l s : lacks other s -> forallb (fun x => foreign (fst x)) l = true -> repl_many l s = s.
Proof.
  intros HL. unfold repl_many. induction l as [|x l IH]; [reflexivity|]. cbn [forallb fold_left]. intros H. apply andb_true_iff in H as [H1 H2]. now rewrite (replace_foreign s _ _ HL H1), IH.
Qed.
Lemma calendar_words : forallb (fun x => foreign (fst x)) (flat_map (fun '(latin, ps) => map (fun p => (lit p, lit " " ++ lit latin ++ lit " ")) ps) month_names) = true /\
  forallb (fun x => foreign (fst x)) (flat_map (fun '(latin, ps) => map (fun p => (lit p, lit " " ++ lit latin ++ lit " ")) ps) weekday_tr) = true /\
  forallb (fun x => foreign (fst x)) (flat_map (fun '(n, ps) => map (fun p => (lit p, itoa n)) ps) day_numbers) = true /\
  forallb (fun x => foreign (fst x)) (map (fun '(latin, _) => (lit latin, lit " ")) weekday_tr) = true /\
  foreign (lit hour_word) = true /\ forallb (fun x => foreign (lit (snd x))) time_conventions = true.
Proof. vm_compute. auto 10. Qed.
Lemma calendar_needs : needs other (rx_ast rxHourPattern) = true /\ needs other (rx_ast rxMinutePattern) = true /\ needs other (rx_ast rxSecondPattern) = true /\
  needs other (rx_ast rxColonPattern) = true /\ needs other (rx_ast rxOrdinalPattern) = true.
Proof. vm_compute. auto 10. Qed.
Lemma repl_match_none r s : needs other (rx_ast r) = true -> lacks other s -> repl_match E r s = s.
Proof.
  intros HN HL. unfold repl_match, replace_all_fn. pose proof (lacks_none other _ UA r s HN HL) as F. cbn [replace_loop]. change (Nat.ltb (length s) 0) with false. cbv iota. unfold Regex.exec_from. unfold find in F. rewrite first_match_drop by exact F. reflexivity.
Qed.
Lemma normalize_numtext A l : numbers A l -> digit_normalize (e_uni E) (normalize_string (e_uni E) (numtext A l)) = numtext A l.
Proof.
  intros HN. assert (normalize_string (e_uni E) (numtext A l) = numtext A l) as ->.
  { unfold normalize_string, normalize_unicode. rewrite (ua_nfkd _ UA) by (apply asc_ascii, num_asc, HN). rewrite (lower_plain E loc_en) by (now apply num_plain). now apply sanitize_num. }
  apply (digit_normalize_ascii E UA loc_en). now apply num_asc.
Qed.
End V.

Section T.
Variable E : env.
Hypothesis UA : uni_ascii (e_uni E).
(** the time zone is not touched *)
Lemma no_tz_date two order td tm ty d m y s : numeric_date two order td tm ty d m y s -> etz_pop E s = (s, od_zero) /\ exists a b c sp sq, arranged order td tm ty = [a; b; c] /\ s = three a sp b sq c /\ digits a /\ digits b /\ digits c /\ separator sp /\ separator sq /\ (sp = 46 <-> sq = 46) /\ short a /\ short b /\ short c.
Proof.
  intros [(Dd & Dm & Dy) [Ld Lm] Nd Nm HY HOr (a & b & c & sp & sq & HA & Hsp & Hsq & PQ & -> & HTZ)].
  assert (Sp : separator sp) by (unfold separator; cbn in Hsp; lia). assert (Sq : separator sq) by (unfold separator; cbn in Hsq; lia).
  assert (INA : forall x, In x [a; b; c] -> x = td \/ x = tm \/ x = ty).
  { rewrite <- HA. intros x Hx. apply in_map_iff in Hx as (k & <- & _). destruct (k =? 68); [auto|]. destruct (k =? 77); auto. }
  assert (Ly : (length ty <= 4)%nat) by (destruct HY as [(? & _)|(? & _)]; lia).
  assert (DX : forall x, x = td \/ x = tm \/ x = ty -> digits x /\ short x) by (unfold short; intros x [-> | [-> | ->]]; (split; [assumption|lia])).
  destruct (DX a) as [Da Sa]; [apply INA; cbn; auto|]. destruct (DX b) as [Db Sb]; [apply INA; cbn; auto|]. destruct (DX c) as [Dc Sc]; [apply INA; cbn; auto|]. clear DX.
  split; [|exists a, b, c, sp, sq; auto 20].
  apply (no_tz E UA a b c sp sq Da Db Dc Sp Sq Sa Sb Sc). intros Y HYc HI. destruct (tz_form _ HI) as (x & EX & Dx & Lx). assert (x = Y) as -> by congruence. clear EX.
  pose proof tz_years as TY. rewrite forallb_forall in TY. specialize (TY _ HI). cbv beta iota in TY.
  assert (Y = ty) as ->. { destruct (INA Y) as [-> | [-> | ->]]; [destruct HYc as [[-> _]|[-> _]]; cbn; auto|lia|lia|reflexivity]. }
  destruct HY as [(L4 & Ny & Hy)|(L2 & _)]; [|lia]. rewrite <- Ny in TY. assert (IY : In y [1000; 1100; 1200]) by (cbn [existsb] in TY; cbn [In]; lia). specialize (HTZ IY). destruct HTZ as [-> | [N1 N2]]; [|destruct HYc as [[_ ?]|[_ ?]]; congruence].
  clear - HA HYc HOr Ld Lm L4. cbn [In] in HOr. assert (NE : td <> ty /\ tm <> ty) by (split; intros ->; lia). destruct NE as [NE1 NE2].
  destruct HOr as [<-|[<-|[<-|[<-|[<-|[<-|[]]]]]]]; cbn in HA; (assert (Q : forall x y z u v w : str, [x; y; z] = [u; v; w] -> x = u /\ y = v /\ z = w) by (intros; repeat split; congruence)); apply Q in HA as (? & ? & ?); destruct HYc as [[? _]|[? _]]; congruence.
Qed.
Lemma time_conventions_absent s : lacks other s -> fold_left (fun s '(latin, arabic) => replace_all s (lit arabic) (lit latin)) time_conventions s = s.
Proof.
  intros HL. destruct calendar_words as (_ & _ & _ & _ & _ & W). revert W. generalize time_conventions. induction l as [|[a b] l IH]; [reflexivity|]. cbn [forallb fold_left snd]. intros W. apply andb_true_iff in W as [W1 W2]. rewrite (replace_foreign s _ _ HL W1). auto.
Qed.
Lemma hj_prepare_same two order td tm ty d m y s : numeric_date two order td tm ty d m y s -> hj_prepare E s = (s, od_zero).
Proof.
  intros ND. destruct (no_tz_date _ _ _ _ _ _ _ _ _ ND) as (TZ & a & b & c & sp & sq & _ & ES & Da & Db & Dc & Sp & Sq & PQ & Sa & Sb & Sc). unfold hj_prepare.
  pose proof (three_numbers a b c sp sq Da Db Dc Sp Sq) as TN. pose proof (three_numtext a sp b sq c) as EN. rewrite <- ES in EN. rewrite EN at 1. rewrite normalize_numtext by assumption. rewrite <- EN.
  assert (LS : lacks other s) by (rewrite EN; now apply num_plain). rewrite time_conventions_absent by exact LS.
  rewrite ES at 1. rewrite (sanitize_date_three E UA) by assumption. rewrite (strip_three a b c sp sq) by assumption. rewrite <- ES. exact TZ.
Qed.
Lemma jl_prepare_same two order td tm ty d m y s : numeric_date two order td tm ty d m y s -> jl_prepare E s = (s, od_zero).
Proof.
  intros ND. destruct (no_tz_date _ _ _ _ _ _ _ _ _ ND) as (TZ & a & b & c & sp & sq & _ & ES & Da & Db & Dc & Sp & Sq & PQ & Sa & Sb & Sc). unfold jl_prepare.
  pose proof (three_numbers a b c sp sq Da Db Dc Sp Sq) as TN. pose proof (three_numtext a sp b sq c) as EN. rewrite <- ES in EN. rewrite EN at 1. rewrite normalize_numtext by assumption. rewrite <- EN.
  assert (LS : lacks other s) by (rewrite EN; now apply num_plain). destruct calendar_words as (W1 & W2 & W3 & W4 & W5 & _). destruct calendar_needs as (N1 & N2 & N3 & N4 & N5).
  unfold replace_months, replace_weekdays, replace_days, replace_time, remove_weekday_tr. rewrite (repl_many_foreign _ s LS W1), (repl_many_foreign _ s LS W2).
  rewrite (replace_none _ rxOrdinalPattern) by (apply (lacks_none other); auto). rewrite (repl_many_foreign _ s LS W3). rewrite (repl_match_none E UA rxHourPattern s N1 LS), (repl_match_none E UA rxMinutePattern s N2 LS), (repl_match_none E UA rxSecondPattern s N3 LS). rewrite (replace_none _ rxColonPattern) by (apply (lacks_none other); auto).
  rewrite (replace_foreign s _ _ LS W5). rewrite (repl_many_foreign _ s LS W4).
  rewrite ES at 1. rewrite (sanitize_date_three E UA) by assumption. rewrite (strip_three a b c sp sq) by assumption. rewrite <- ES. exact TZ.
Qed.

(** the correction of two-digit years *)
Definition century_kept (cfg : config) (ty : str) : Prop := length ty = 4%nat \/ (c_src cfg <> Past /\ c_src cfg <> Future).
Lemma run_three H cfg order td tm ty d m y s now t :
  c_order cfg = lit order -> In order orders -> parts2 H td tm ty d m y ->
  (exists a b c sp sq, arranged order td tm ty = [a; b; c] /\ s = three a sp b sq c /\ digits a /\ digits b /\ digits c /\ separator sp /\ separator sq /\ (sp = 46 <-> sq = 46) /\ short a /\ short b /\ short c) ->
  digits td -> digits tm -> digits ty -> c_now cfg = now -> is_zero now = false ->
  h_params H {| cm_day := Some d; cm_month := Some m; cm_year := Some y; cm_wd := None |} now = (y, m, d) ->
  h_create H cfg y m d 0 0 0 0 (t_loc now) = Ok t ->
  abs_run E H cfg s od_zero = Ok (mkd PDay (if slen ty =? 2 then (if before now t then (if c_src cfg =? Past then add_date t (-100) 0 0 else t) else (if c_src cfg =? Future then add_date t 100 0 0 else t)) else t)).
Proof.
  intros HC HO HP (a & b & c & sp & sq & HA & -> & Da & Db & Dc & Sp & Sq & PQ & _) Dd Dm Dy HN NZ HPar HCr.
  destruct (init_three2 E UA H cfg order td tm ty d m y a sp b sq c HC HO HP HA Dd Dm Dy Sp Sq PQ) as (st & HI & F1 & F2 & F3 & F4).
  unfold abs_run. rewrite HI. unfold abs_finish. rewrite F1, F3. cbn [missing_parts chas cget cm_day cm_month cm_year app]. change (missing_parts _) with (@nil str). rewrite check_none. cbn [negb rbind].
  unfold abs_now. rewrite HN, NZ, HPar, HCr. cbn [rbind]. unfold correct_time_frame, ctf_weekday, ctf_month, ctf_year2, ctf_time, correct_month, correct_day. rewrite F1, F2, F3. cbn [chas cget cm_day cm_month cm_year cm_wd negb andb orb is_some rbind tk_text dig].
  reflexivity.
Qed.
End T.

(** ** The calls *)
Section Call.
Variables (E : env) (cfg : uconfig) (order : string) (loc : location).
Hypothesis HC : calendar_call E cfg order loc.
Hypothesis HO : In order orders.
Let UA := cc_ascii _ _ _ _ HC.
Notation icfg := (with_order (to_internal (initiate (e_now E) cfg)) (lit order)).
Lemma call_order : calendar_order E cfg = lit order.
Proof.
  unfold calendar_order. pose proof (cc_order _ _ _ _ HC) as CO. destruct (u_order cfg) as [f|]; [|now rewrite CO]. rewrite validate_order_spec by exact UA.
  destruct CO as [CO|[CO NI]]; [|rewrite CO; destruct (mem (map upperA (f [])) six_orders) eqn:M; [apply mem_In in M; contradiction|reflexivity]]. rewrite CO.
  repeat (destruct HO as [<-|HO']; [reflexivity|rename HO' into HO0; clear HO; rename HO0 into HO]). destruct HO.
Qed.
Lemma call_parse inner s : parse_calendar E inner cfg s = match inner icfg s with Ok d => Ok (d, None) | Err e => Ok (zero_date, Some e) | Panic => Panic end.
Proof. unfold parse_calendar. rewrite call_order, (cc_valid _ _ _ _ HC). reflexivity. Qed.
Lemma call_now : exists now, c_now icfg = now /\ is_zero now = false /\ t_loc now = loc /\ fixed loc /\ now = u_now (initiate (e_now E) cfg).
Proof.
  destruct (cc_now _ _ _ _ HC) as (N1 & N2 & N3 & N4). eexists. split; [reflexivity|]. rewrite (cc_loc _ _ _ _ HC). cbn [with_order to_internal c_now]. unfold initiate, uclone. cbn [u_now]. destruct (is_zero (u_now cfg)) eqn:Z.
  - split; [exact N1|]. split; [reflexivity|]. split; [apply fixed_utc|reflexivity].
  - split; [exact Z|]. split; [reflexivity|]. split; [exact N4|reflexivity].
Qed.
End Call.
Lemma attach_zero d : attach_tz d od_zero = d.
Proof. unfold attach_tz. change (od_is_zero od_zero) with true. now rewrite andb_false_r. Qed.
(** the day a two-digit year stands for can be moved by a century, when dates in the past or in the future are preferred *)
Definition moved (src : Z) (now t : time) : time :=
  if before now t then (if src =? Past then add_date t (-100) 0 0 else t) else (if src =? Future then add_date t 100 0 0 else t).
Lemma hijri_run E K cfg order loc td tm ty d m y s t : calendar_call E cfg order loc -> numeric_date hijri_century order td tm ty d m y s -> 1 <= d <= 30 -> 1 <= m <= 12 ->
  hj_create K (with_order (to_internal (initiate (e_now E) cfg)) (lit order)) y m d 0 0 0 0 loc = Ok t ->
  parse_hijri E K cfg s = Ok (mkd PDay (if slen ty =? 2 then moved (u_src cfg) (u_now (initiate (e_now E) cfg)) t else t), None).
Proof.
  intros HC ND Hd Hm HCr. pose proof (cc_ascii _ _ _ _ HC) as UA. pose proof ND as [(Dd & Dm & Dy) _ _ _ HY HO _]. unfold parse_hijri. rewrite (call_parse E cfg order loc HC HO). unfold hijri_parse.
  rewrite (hj_prepare_same E UA _ _ _ _ _ _ _ _ _ ND). destruct (call_now E cfg order loc HC) as (now & N1 & N2 & N3 & N4 & N5). destruct (no_tz_date E UA _ _ _ _ _ _ _ _ _ ND) as (_ & HT).
  rewrite (run_three E UA (hj_hooks E K) _ order td tm ty d m y s now t) ; try assumption.
  - cbn [rbind]. rewrite attach_zero. unfold moved. rewrite <- N5. reflexivity.
  - reflexivity.
  - now apply (hj_parts E K UA td tm ty d m y order s).
  - cbn [h_params hj_hooks]. unfold hj_params. destruct (hj_of K now) as [[? ?] ?]. cbn [cm_day cm_month cm_year or_default]. assert (y <> 0) by (apply (year_positive hijri_century ty); [|assumption|assumption]; intros n Hn; unfold hijri_century; destruct (n <? 90); lia).
    unfold or_default. assert (y =? 0 = false) as -> by lia. assert (m =? 0 = false) as -> by lia. assert (d =? 0 = false) as -> by lia. reflexivity.
  - cbn [h_create hj_hooks]. rewrite N3. exact HCr.
Qed.
Lemma jalali_run E K cfg order loc td tm ty d m y s t : calendar_call E cfg order loc -> numeric_date jalali_century order td tm ty d m y s -> 1 <= d <= 30 -> 1 <= m <= 12 ->
  jl_create K (with_order (to_internal (initiate (e_now E) cfg)) (lit order)) y m d 0 0 0 0 loc = Ok t ->
  parse_jalali E K cfg s = Ok (mkd PDay (if slen ty =? 2 then moved (u_src cfg) (u_now (initiate (e_now E) cfg)) t else t), None).
Proof.
  intros HC ND Hd Hm HCr. pose proof (cc_ascii _ _ _ _ HC) as UA. pose proof ND as [(Dd & Dm & Dy) _ _ _ HY HO _]. unfold parse_jalali. rewrite (call_parse E cfg order loc HC HO). unfold jalali_parse.
  rewrite (jl_prepare_same E UA _ _ _ _ _ _ _ _ _ ND). destruct (call_now E cfg order loc HC) as (now & N1 & N2 & N3 & N4 & N5). destruct (no_tz_date E UA _ _ _ _ _ _ _ _ _ ND) as (_ & HT).
  rewrite (run_three E UA (jl_hooks E K) _ order td tm ty d m y s now t) ; try assumption.
  - cbn [rbind]. rewrite attach_zero. unfold moved. rewrite <- N5. reflexivity.
  - reflexivity.
  - now apply (jl_parts E K UA td tm ty d m y order s).
  - cbn [h_params jl_hooks]. unfold jl_params. destruct (jl_of K now) as [[? ?] ?]. cbn [cm_day cm_month cm_year or_default]. assert (y <> 0) by (apply (year_positive jalali_century ty); [|assumption|assumption]; intros n Hn; unfold jalali_century; destruct (n <=? 60); lia).
    unfold or_default. assert (y =? 0 = false) as -> by lia. assert (m =? 0 = false) as -> by lia. assert (d =? 0 = false) as -> by lia. reflexivity.
  - cbn [h_create jl_hooks]. rewrite N3. exact HCr.
Qed.
Lemma kept_century src ty now t : length ty = 4%nat \/ ~ In src [Past; Future] -> (if slen ty =? 2 then moved src now t else t) = t.
Proof.
  intros [L|N]; [assert (slen ty =? 2 = false) as -> by (unfold slen; lia); reflexivity|]. destruct (slen ty =? 2); [|reflexivity]. unfold moved. cbn [In] in N. assert (src =? Past = false) as -> by lia. assert (src =? Future = false) as -> by lia. now destruct (before now t).
Qed.

(** ** The theorems *)
(** does the calendar know a 30th day of the 12th month? *)
Definition hijri_long_year (K : calendars) (y : Z) : Prop := let '(gy, gm, gd) := hj_to K y 12 30 in snd (hj_of K (mk_date gy gm gd 0 0 0 0 utc)) = 30.
Lemma long_iff K y : hijri_long_year K y <-> hj_leap K y = true.
Proof. unfold hijri_long_year, hj_leap, hj_greg_time. destruct (hj_to K y 12 30) as [[gy gm] gd]. lia. Qed.

Theorem C36_hijri_dates_partial : forall E K cfg order loc td tm ty d m y s gy gm gd,
  calendar_call E cfg order loc -> numeric_date hijri_century order td tm ty d m y s ->
  1 <= m <= 12 -> 1 <= d <= 30 ->
  (* missing: the 30th day of the even months, see C36_hijri_30th_refuted *)
  (d <= 29 \/ Z.odd m = true \/ (m = 12 /\ hijri_long_year K y)) ->
  (* missing: years of two digits when past or future dates are preferred, see C36_two_digit_year_past_refuted *)
  length ty = 4%nat \/ ~ In (u_src cfg) [Past; Future] ->
  hj_to K y m d = (gy, gm, gd) -> valid_date gy gm gd ->
  shows (parse_hijri E K cfg s) gy gm gd 0 0 0 0 PDay [].
Proof.
  intros E K cfg order loc td tm ty d m y s gy gm gd HC ND Hm Hd HL HS HT HV.
  rewrite (hijri_run E K cfg order loc td tm ty d m y s (mk_date gy gm gd 0 0 0 0 loc) HC ND Hd Hm).
  - rewrite kept_century by exact HS. destruct (call_now E cfg order loc HC) as (now & _ & _ & _ & FL & _). exact (in_zone_shows gy gm gd loc [] HV FL).
  - unfold hj_create. assert ((d =? 30) && (m =? 12) && negb (hj_leap K y) = false) as ->.
    { destruct HL as [H|[H|[_ H]]]; [lia| |apply long_iff in H; rewrite H; now rewrite andb_false_r]. destruct (m =? 12) eqn:M; [|now rewrite andb_false_r]. apply Z.eqb_eq in M. subst m. discriminate H. }
    assert (hj_last_day K y m <? d = false) as ->.
    { unfold hj_last_day. destruct ((m =? 12) && hj_leap K y) eqn:ML; [lia|]. destruct (Z.rem m 2 =? 0) eqn:R; [|lia]. destruct HL as [H|[H|[-> H]]]; [lia| |apply long_iff in H; rewrite H in ML; discriminate ML].
      exfalso. apply Z.eqb_eq in R. apply Z.odd_spec in H as (k & H). rewrite Z.rem_mod_nonneg in R by lia. subst m. replace (2 * k + 1) with (1 + k * 2) in R by lia. rewrite Z.mod_add in R by lia. discriminate R. }
    rewrite HT. reflexivity.
Qed.
Print Assumptions C36_hijri_dates_partial.

(** whatever the calendar says, the 30th of an even month is read as the 29th *)
Theorem C36_hijri_30th_refuted : forall E K cfg order loc td tm ty m y s gy gm gd,
  calendar_call E cfg order loc -> numeric_date hijri_century order td tm ty 30 m y s -> In m [2; 4; 6; 8; 10] ->
  length ty = 4%nat \/ ~ In (u_src cfg) [Past; Future] ->
  hj_to K y m 29 = (gy, gm, gd) -> valid_date gy gm gd ->
  shows (parse_hijri E K cfg s) gy gm gd 0 0 0 0 PDay [].
Proof.
  intros E K cfg order loc td tm ty m y s gy gm gd HC ND Hm HS HT HV.
  assert (Hm' : 1 <= m <= 12) by (cbn [In] in Hm; lia).
  rewrite (hijri_run E K cfg order loc td tm ty 30 m y s (mk_date gy gm gd 0 0 0 0 loc) HC ND ltac:(lia) Hm').
  - rewrite kept_century by exact HS. destruct (call_now E cfg order loc HC) as (now & _ & _ & _ & FL & _). exact (in_zone_shows gy gm gd loc [] HV FL).
  - unfold hj_create. assert (m =? 12 = false) as M by (cbn [In] in Hm; lia). rewrite M. cbn [andb Z.eqb Pos.eqb]. unfold hj_last_day. rewrite M. cbn [andb]. 
    assert (Z.rem m 2 =? 0 = true) as -> by (cbn [In] in Hm; repeat (destruct Hm as [<-|Hm]; [reflexivity|]); destruct Hm). cbn [Z.ltb Z.compare Pos.compare Pos.compare_cont]. rewrite HT. reflexivity.
Qed.
Print Assumptions C36_hijri_30th_refuted.

(** with past dates preferred, a two-digit year whose date is still to come is taken a hundred Gregorian years earlier, which is no Hijri century *)
Theorem C36_two_digit_year_past_refuted : forall E K cfg order loc td tm ty d m y s gy gm gd,
  calendar_call E cfg order loc -> numeric_date hijri_century order td tm ty d m y s ->
  1 <= m <= 12 -> 1 <= d <= 29 -> length ty = 2%nat -> u_src cfg = Past ->
  hj_to K y m d = (gy, gm, gd) -> valid_date gy gm gd -> valid_date (gy - 100) gm gd ->
  before (u_now (initiate (e_now E) cfg)) (mk_date gy gm gd 0 0 0 0 loc) = true ->
  shows (parse_hijri E K cfg s) (gy - 100) gm gd 0 0 0 0 PDay [].
Proof.
  intros E K cfg order loc td tm ty d m y s gy gm gd HC ND Hm Hd L2 HS HT HV HV' HB. destruct (call_now E cfg order loc HC) as (now & _ & _ & _ & FL & _).
  rewrite (hijri_run E K cfg order loc td tm ty d m y s (mk_date gy gm gd 0 0 0 0 loc) HC ND ltac:(lia) Hm).
  - assert (slen ty =? 2 = true) as -> by (unfold slen; lia). unfold moved. rewrite HB, HS. cbn [Z.eqb Past Pos.eqb]. change (Past =? Past) with true. cbv iota. rewrite add_date_mk by (assumption || (unfold valid_clock; lia)).
    rewrite !Z.add_0_r. replace (gy + -100) with (gy - 100) by lia. exact (in_zone_shows (gy - 100) gm gd loc [] HV' FL).
  - unfold hj_create. assert (d =? 30 = false) as -> by lia. cbn [andb]. assert (hj_last_day K y m <? d = false) as -> by (unfold hj_last_day; destruct (_ && _); [lia|]; destruct (Z.rem m 2 =? 0); lia). rewrite HT. reflexivity.
Qed.
Print Assumptions C36_two_digit_year_past_refuted.

Theorem C36_jalali_dates_partial : forall E K cfg order loc td tm ty d m y long n s gy gm gd,
  calendar_call E cfg order loc -> numeric_date jalali_century order td tm ty d m y s ->
  (* missing: day 31, see C36_jalali_31st_refuted *)
  1 <= m <= 12 -> 1 <= d <= 30 ->
  jl_leap K y = Some long -> jl_mlen K y m = Some n -> d <= n -> (d <= 29 \/ m <> 12 \/ long = true) ->
  length ty = 4%nat \/ ~ In (u_src cfg) [Past; Future] ->
  jl_to K y m d = Some (gy, gm, gd) -> valid_date gy gm gd ->
  shows (parse_jalali E K cfg s) gy gm gd 0 0 0 0 PDay [].
Proof.
  intros E K cfg order loc td tm ty d m y lp n s gy gm gd HC ND Hm Hd HL HN Hn HL2 HS HT HV.
  rewrite (jalali_run E K cfg order loc td tm ty d m y s (mk_date gy gm gd 0 0 0 0 loc) HC ND Hd Hm).
  - rewrite kept_century by exact HS. destruct (call_now E cfg order loc HC) as (now & _ & _ & _ & FL & _). exact (in_zone_shows gy gm gd loc [] HV FL).
  - unfold jl_create. rewrite HL. assert ((d =? 30) && (m =? 12) && negb lp = false) as -> by (destruct HL2 as [H|[H| ->]]; [lia|lia|now rewrite andb_false_r]).
    rewrite HN. assert (n <? d = false) as -> by lia. rewrite HT. reflexivity.
Qed.
Print Assumptions C36_jalali_dates_partial.

(** the 31st, a day of the first six months, is never accepted *)
Theorem C36_jalali_31st_refuted : forall E K cfg loc tm ty m y s,
  calendar_call E cfg "DMY" loc -> numeric_date jalali_century "DMY" (lit "31") tm ty 31 m y s -> 1 <= m <= 6 -> length ty = 4%nat ->
  exists e, parse_jalali E K cfg s = Ok (zero_date, Some e).
Proof.
  intros E K cfg loc tm ty m y s HC ND Hm L4. pose proof (cc_ascii _ _ _ _ HC) as UA. pose proof ND as [(Dd & Dm & Dy) [_ Lm] _ Nm HY HO _]. unfold parse_jalali. rewrite (call_parse E cfg _ loc HC HO). unfold jalali_parse.
  rewrite (jl_prepare_same E UA _ _ _ _ _ _ _ _ _ ND). destruct (no_tz_date E UA _ _ _ _ _ _ _ _ _ ND) as (_ & a & b & c & sp & sq & HA & -> & Da & Db & Dc & Sp & Sq & PQ & _).
  assert (a = lit "31" /\ b = tm /\ c = ty) as (-> & -> & ->) by (change ([lit "31"; tm; ty] = [a; b; c]) in HA; repeat split; congruence). clear HA. exists ENoParse.
  assert (V1 : jl_value E CDay (lit "31") "2" = None) by (rewrite jl_day by (assumption || (cbn; lia)); reflexivity).
  assert (V2 : jl_value E CMonth (lit "31") "1" = None) by (rewrite jl_month by (assumption || (cbn; lia)); reflexivity).
  assert (V3 : forall dir, jl_value E CYear (lit "31") dir = Some 1431) by (intros dir; apply jl_year; [assumption|assumption|right; split; reflexivity]).
  assert (V4 : jl_value E CDay tm "2" = Some m). { rewrite jl_day by assumption. rewrite Nm. assert (1 <=? m = true) as -> by lia. assert (m <=? 30 = true) as -> by lia. reflexivity. }
  assert (V5 : jl_value E CDay ty "2" = None /\ jl_value E CMonth ty "1" = None). { unfold jl_value. assert (slen ty <=? 2 = false) as -> by (unfold slen; lia). split; reflexivity. } destruct V5 as [V5 V6].
  assert (V7 : forall dir, jl_value E CYear ty dir = Some y) by (intros dir; now apply jl_year).
  assert (L31 : slen (lit "31") =? 4 = false) by reflexivity. assert (M0 : m =? 0 = false) by lia.
  change (jl_value E) with (h_value (jl_hooks E K)) in *. clear ND. revert L31 V1 V2 V3 V4 V5 V6 V7 Da Dd. generalize (lit "31"). generalize (jl_hooks E K). intros H x31 L31 V1 V2 V3 V4 V5 V6 V7 Da Dd.
  unfold abs_run, abs_init. rewrite three_sanitize by assumption. destruct (three x31 sp tm sq ty) as [|x l] eqn:ET; [unfold three in ET; destruct x31; discriminate ET|]. rewrite <- ET. clear ET x l. rewrite trimmed_three by assumption. rewrite filtered_three. cbn [init_loop].
  cbn [with_order to_internal c_order].
  rewrite (step_three E UA H _ x31 sp tm sq ty 0 (dig x31, 0%nat)) by (assumption || reflexivity). rewrite number_directives_lit by (now left). change (dirs_of "DMY") with [(CDay, ["2"%string]); (CMonth, ["1"%string]); (CYear, ["2006"%string; "06"%string])]. change (tk_text (fst (dig x31, 0%nat))) with x31.
  unfold dstep at 1. cbn [digit_token a_skipyear ast0 andb digit_directives]. rewrite V1, V2, V3. cbn [a_vals ast0 cget cm0 cm_year Z.eqb a_toks set_tok fold_left].
  rewrite (step_three E UA H _ x31 sp tm sq ty 1 (dig tm, 2%nat)) by (assumption || reflexivity). change (tk_text (fst (dig tm, 2%nat))) with tm. unfold dstep at 1.
  rewrite (take1 H _ CDay tm ["2"%string] m) by first [cbn [firstv]; rewrite V4; reflexivity | reflexivity | apply andb_false_r]. cbn [fold_left].
  rewrite (step_three E UA H _ x31 sp tm sq ty 2 (dig ty, 4%nat)) by (assumption || reflexivity). change (tk_text (fst (dig ty, 4%nat))) with ty. unfold dstep at 1.
  assert (NM : forall st rest, digit_token H st ty ((CMonth, ["1"%string]) :: rest) = digit_token H st ty rest) by (intros st rest; cbn [digit_token digit_directives]; rewrite V6; destruct (_ && _); reflexivity).
  rewrite (pass1 H _ CDay tm ty ["2"%string] m) by first [right; constructor; [left; exact V5|constructor] | lia | reflexivity]. rewrite NM.
  rewrite (pass1 H _ CYear x31 ty _ 1431) by first [right; repeat (apply Forall_cons; [right; rewrite V3; discriminate|]); constructor | lia | reflexivity].
  reflexivity.
Qed.
Print Assumptions C36_jalali_31st_refuted.

(** ** Cases: the tabular Islamic calendar and the 33-year Jalali calendar *)
Definition cal0 : calendars :=
  let dh y m d := 354 * y + (11 * y + 3) / 30 + 30 * m - (m - 1) / 2 + d - 492533 in
  let dj y m d := 365 * y + (8 * y + 29) / 33 + (if m <=? 7 then 31 * (m - 1) else 30 * (m - 1) + 6) + d - 492634 in
  let civ n := let '(y, m, d) := civil_of_days n in (y, m, d) in
  {| hj_to := fun y m d => civ (dh y m d);
     hj_of := fun t => (1445, 8, 20);
     jl_to := fun y m d => Some (civ (dj y m d));
     jl_of := fun t => (1402, 12, 10);
     jl_leap := fun y => Some ((8 * y + 29) mod 33 <? 8);
     jl_mlen := fun y m => Some (if m <=? 6 then 31 else if m <=? 11 then 30 else 29) |}.
Definition cal_cfg (src : Z) : uconfig := mkcfg [] [] (utc_at 2024 2 28 10 0 0) src Current CurrentMonth.
Lemma cal_call src : In src [CurrentPeriod; Past; Future] -> calendar_call env0 (cal_cfg src) "DMY" utc.
Proof.
  intros HS. constructor.
  - exact uni0_ascii.
  - repeat (destruct HS as [<-|HS]; [reflexivity|]). destruct HS.
  - reflexivity.
  - vm_compute. repeat split; discriminate.
  - reflexivity.
Qed.
Lemma cal_date two td tm ty y : forall sp sq, digits td -> digits tm -> digits ty -> (length td <= 2)%nat -> (length tm <= 2)%nat -> written_year two ty y -> In sp (lit "-/. ") -> In sq (lit "-/. ") -> (sp = 46 <-> sq = 46) -> ~ In y [1000; 1100; 1200] ->
  numeric_date two "DMY" td tm ty (number 0 td) (number 0 tm) y (td ++ sp :: tm ++ sq :: ty).
Proof. intros. constructor; auto; [now left|]. exists td, tm, ty, sp, sq. tauto. Qed.
Example C36_hijri_case : shows (parse_hijri env0 cal0 (cal_cfg CurrentPeriod) (lit "1/09-45")) 2024 3 11 0 0 0 0 PDay [].
Proof.
  apply (C36_hijri_dates_partial env0 cal0 (cal_cfg CurrentPeriod) "DMY" utc (lit "1") (lit "09") (lit "45") 1 9 1445 (lit "1/09-45") 2024 3 11).
  - apply cal_call. now left.
  - apply (cal_date hijri_century (lit "1") (lit "09") (lit "45") 1445 47 45); try (apply digits_by; reflexivity); try (cbn; lia). right. split; reflexivity.
  - lia.
  - lia.
  - left. lia.
  - right. cbn. intuition discriminate.
  - reflexivity.
  - unfold valid_date. vm_compute. repeat split; discriminate.
Qed.
Example C36_hijri_30th_case : shows (parse_hijri env0 cal0 (cal_cfg Past) (lit "30.10.1444")) 2023 5 20 0 0 0 0 PDay [].
Proof.
  apply (C36_hijri_30th_refuted env0 cal0 (cal_cfg Past) "DMY" utc (lit "30") (lit "10") (lit "1444") 10 1444 (lit "30.10.1444") 2023 5 20).
  - apply cal_call. cbn. auto.
  - apply (cal_date hijri_century (lit "30") (lit "10") (lit "1444") 1444 46 46); try (apply digits_by; reflexivity); try (cbn; lia). left. cbn. repeat split; lia.
  - cbn. auto 10.
  - now left.
  - reflexivity.
  - unfold valid_date. vm_compute. repeat split; discriminate.
Qed.
Example C36_two_digit_case : shows (parse_hijri env0 cal0 (cal_cfg Past) (lit "01/09/45")) 1924 3 11 0 0 0 0 PDay [].
Proof.
  apply (C36_two_digit_year_past_refuted env0 cal0 (cal_cfg Past) "DMY" utc (lit "01") (lit "09") (lit "45") 1 9 1445 (lit "01/09/45") 2024 3 11).
  - apply cal_call. cbn. auto.
  - apply (cal_date hijri_century (lit "01") (lit "09") (lit "45") 1445 47 47); try (apply digits_by; reflexivity); try (cbn; lia). right. split; reflexivity.
  - lia.
  - lia.
  - reflexivity.
  - reflexivity.
  - reflexivity.
  - unfold valid_date. vm_compute. repeat split; discriminate.
  - unfold valid_date. vm_compute. repeat split; discriminate.
  - vm_compute. reflexivity.
Qed.
Example C36_jalali_case : shows (parse_jalali env0 cal0 (cal_cfg Future) (lit "30 1 1400")) 2021 4 19 0 0 0 0 PDay [].
Proof.
  apply (C36_jalali_dates_partial env0 cal0 (cal_cfg Future) "DMY" utc (lit "30") (lit "1") (lit "1400") 30 1 1400 false 31 (lit "30 1 1400") 2021 4 19).
  - apply cal_call. cbn. auto.
  - apply (cal_date jalali_century (lit "30") (lit "1") (lit "1400") 1400 32 32); try (apply digits_by; reflexivity); try (cbn; lia). left. cbn. repeat split; lia.
  - lia.
  - lia.
  - reflexivity.
  - reflexivity.
  - lia.
  - right. left. lia.
  - now left.
  - reflexivity.
  - unfold valid_date. vm_compute. repeat split; discriminate.
Qed.
Example C36_jalali_31st_case : exists e, parse_jalali env0 cal0 (cal_cfg Future) (lit "31/1/1400") = Ok (zero_date, Some e).
Proof.
  apply (C36_jalali_31st_refuted env0 cal0 (cal_cfg Future) utc (lit "1") (lit "1400") 1 1400 (lit "31/1/1400")).
  - apply cal_call. cbn. auto.
  - apply (cal_date jalali_century (lit "31") (lit "1") (lit "1400") 1400 47 47); try (apply digits_by; reflexivity); try (cbn; lia). left. cbn. repeat split; lia.
  - lia.
  - reflexivity.
Qed.
