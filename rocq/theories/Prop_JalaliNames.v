(** C71: Jalali dates with the month, and perhaps the day of the week, in Persian words *)
From Coq Require Import ZifyBool.
From Verif Require Import GoBase SMap Regex RegexFacts RegexFacts2 RegexFacts3 Civil GoTime GoTimeFacts Setting Strutil Digit Utf8Facts SpaceFacts Tokenizer Timezone Env Common Absolute JalaliData Calendars Language Parser
  AbsFacts AbsFacts2 NumericFacts NumTranslate NumParse Shows Concrete RegexWiden TextRename TextFront TextActs TextParse TextForms Spec Prop_Absolute Prop_Numeric Prop_Timezone Prop_Text ScriptDigits Prop_Calendar Prop_Script JalaliNames.

(** ** The absolute parser on a number, a name and a number *)
Record named_parts (H : hooks) (td nm ty : str) (d m y : Z) : Prop := {
  np_wd : forall dir, h_value H CWeekday nm dir = None;
  np_name : h_value H CMonth nm "January" = Some m;
  np_day : forall dir, h_value H CDay td dir = Some d;
  np_day_month : h_value H CMonth td "1" = None \/ h_value H CMonth td "1" = Some d;
  np_day_year : slen td = 1 -> forall dir, h_value H CYear td dir = None;
  np_year : forall dir, h_value H CYear ty dir = Some y;
  np_year_day : forall dir, h_value H CDay ty dir = None;
  np_year_month : h_value H CMonth ty "1" = None;
  np_len : slen ty = 4 /\ slen td <= 2;
  np_nz : d <> 0 /\ m <> 0 /\ y <> 0 }.
Definition acts_done (td ty : str) (d m y : Z) (a : ast) : Prop :=
  a_vals a = {| cm_day := Some d; cm_month := Some m; cm_year := Some y; cm_wd := None |} /\ (exists t1 t2, a_toks a = {| cm_day := Some t1; cm_month := Some t2; cm_year := Some {| tk_text := ty; tk_type := TDigit |}; cm_wd := None |}) /\ a_time a = None.
(** when the day comes first, an order that starts with the year needs a day of one digit *)
Definition order_fits (first : bool) (td : str) (order : string) : Prop := first = false \/ slen td = 1 \/ In order ["DMY"; "DYM"; "MDY"]%string.
Ltac crush := cbv beta iota zeta delta [act digit_token digit_directives letter_directives fold_left save_result set_tok set_time add_unset comp_eqb andb orb cget cset chas is_some cm_day cm_month cm_year cm_wd a_vals a_toks a_time a_order a_unset a_skipyear a_skipidx fst snd tk_text tk_type ttype_eqb app replace_first_month option_map ast0 cm0 tk_null].
Lemma if_ff (b : bool) : (if b then false else false) = false. Proof. now destruct b. Qed.
Lemma run_cons E H order x l a a' r : act E H order x a = Some a' -> run_acts E H order l a' = r -> run_acts E H order (x :: l) a = r.
Proof. intros HA <-. cbn [run_acts]. now rewrite HA. Qed.
Section N.
Variables (E : env) (H : hooks) (td nm ty : str) (d m y : Z).
Hypothesis NP : named_parts H td nm ty d m y.
Lemma letters_only a : letter_token H a nm (alpha_directives E) = letter_directives H a CMonth nm ["January"; "Jan"]%string.
Proof.
  pose proof (np_wd _ _ _ _ _ _ _ NP) as P1. assert (W : forall a, letter_directives H a CWeekday nm ["Monday"; "Mon"]%string = None) by (intros; cbn [letter_directives]; now rewrite !P1).
  unfold alpha_directives. destruct (e_wd_first E); cbn [letter_token]; rewrite W; destruct (letter_directives H a CMonth nm _); reflexivity.
Qed.
Ltac step := crush; repeat (first [rewrite Z.eqb_refl|rewrite letters_only|rewrite if_ff|match goal with A : _ |- _ => rewrite A end]; crush); reflexivity.
Lemma named_run first order : In order orders -> order_fits first td order ->
  exists a, run_acts E H (number_directives E (lit order)) (actions_of td nm ty first) ast0 = Some a /\ acts_done td ty d m y (fallback a).
Proof.
  destruct NP as [P1 P2 P3 P4 P5 P6 P7 P8 [P9 P10] (N1 & N2 & N3)]. intros HO HF. apply Z.eqb_neq in N1, N2, N3.
  assert (L2 : slen td =? 4 = false) by lia. assert (L4 : slen ty =? 4 = true) by lia. unfold actions_of, order_fits in *. rewrite (number_directives_lit E order HO). clear P9 P10.
  clear P1.
  destruct P4 as [P4|P4];
  repeat (destruct HO as [<-|HO]; [match goal with |- context [dirs_of ?o] => let x := eval vm_compute in (dirs_of o) in change (dirs_of o) with x end;
    destruct first;
    [ destruct HF as [HF|[HF|HF]]; [discriminate HF|specialize (P5 HF); clear HF|clear P5; try (exfalso; cbn [In] in HF; repeat (destruct HF as [HF|HF]; [discriminate HF|]); exact HF); clear HF]
    | clear HF P5 ];
    (eexists; split;
     [ eapply run_cons; [step|]; eapply run_cons; [step|]; eapply run_cons; [step|]; reflexivity
     | split; [reflexivity|split; [eexists; eexists; reflexivity|reflexivity]] ]) |]); destruct HO.
Qed.
End N.

(** ** The value functions of the Jalali calendar *)
Section V.
Variables (E : env) (K : calendars).
Hypothesis UA : uni_ascii (e_uni E).
Lemma latin_months : forallb (fun m => match jl_month_name (latin_month m) with Some v => v =? m | None => false end && no_digit (latin_month m)) [1; 2; 3; 4; 5; 6; 7; 8; 9; 10; 11; 12] = true.
Proof. vm_compute. reflexivity. Qed.
Lemma jalali_parts td ty d m y : digits td -> (length td <= 2)%nat -> number 0 td = d -> digits ty -> length ty = 4%nat -> number 0 ty = y -> 0 < y -> 1 <= d <= 30 -> 1 <= m <= 12 ->
  named_parts (jl_hooks E K) td (latin_month m) ty d m y.
Proof.
  intros Dd Ld Nd Dy Ly Ny Hy Hd Hm. pose proof latin_months as LM. rewrite forallb_forall in LM. specialize (LM m ltac:(cbn [In]; lia)). apply andb_true_iff in LM as [LM _].
  constructor; cbn [h_value jl_hooks].
  - reflexivity.
  - unfold jl_value. cbv zeta. change (String.eqb "January" "January") with true. cbv iota. destruct (jl_month_name (latin_month m)) as [v|]; [|discriminate LM]. apply Z.eqb_eq in LM. now subst.
  - intros dir. rewrite jl_day by assumption. rewrite Nd. assert (1 <=? d = true) as -> by lia. assert (d <=? 30 = true) as -> by lia. reflexivity.
  - rewrite jl_month by assumption. rewrite Nd. destruct (_ && _); auto.
  - intros L1 dir. unfold jl_value. rewrite L1. reflexivity.
  - intros dir. unfold jl_value. rewrite is_digits_ok, atoi0_number, Ny by assumption. unfold slen. rewrite Ly. assert (0 <=? y = true) as -> by lia. reflexivity.
  - intros dir. unfold jl_value. assert (slen ty <=? 2 = false) as -> by (unfold slen; lia). reflexivity.
  - unfold jl_value. assert (slen ty <=? 2 = false) as -> by (unfold slen; lia). reflexivity.
  - unfold slen. rewrite Ly. lia.
  - lia.
Qed.
End V.
Lemma checked_word c : In c month_choices -> In (fst c) [1; 2; 3; 4; 5; 6; 7; 8; 9; 10; 11; 12].
Proof.
  intros H. assert (F : forallb (fun c => existsb (Z.eqb (fst c)) [1; 2; 3; 4; 5; 6; 7; 8; 9; 10; 11; 12]) month_choices = true) by (vm_compute; reflexivity). rewrite forallb_forall in F. apply F in H. apply existsb_exists in H as (x & HI & EQ). apply Z.eqb_eq in EQ. now rewrite EQ.
Qed.
Lemma pick2 {A B} (f : A -> B -> bool) la lb a b : forallb (fun a => forallb (f a) lb) la = true -> In a la -> In b lb -> f a b = true.
Proof. intros H HA HB. rewrite forallb_forall in H. specialize (H a HA). cbv beta in H. rewrite forallb_forall in H. exact (H b HB). Qed.
Lemma pick3 {A B C} (f : A -> B -> C -> bool) la lb lc a b c : forallb (fun a => forallb (fun b => forallb (f a b) lc) lb) la = true -> In a la -> In b lb -> In c lc -> f a b c = true.
Proof. intros H HA HB HC. rewrite forallb_forall in H. specialize (H a HA). cbv beta in H. exact (pick2 (f a) lb lc b c H HB HC). Qed.
Lemma pick4 {A B C D} (f : A -> B -> C -> D -> bool) la lb lc ld a b c d : forallb (fun a => forallb (fun b => forallb (fun c => forallb (f a b c) ld) lc) lb) la = true -> In a la -> In b lb -> In c lc -> In d ld -> f a b c d = true.
Proof. intros H HA HB HC HD. rewrite forallb_forall in H. specialize (H a HA). cbv beta in H. exact (pick3 (f a) lb lc ld b c d H HB HC HD). Qed.
Lemma all_checked k first wd c : In k [1%nat; 2%nat] -> In wd wd_options -> In c month_choices -> checked_text (day0 k) year0 first wd c = true /\ checked_result (day0 k) year0 first (fst c) = true.
Proof.
  intros Hk Hw Hc. assert (HF : In first [true; false]) by (destruct first; cbn; auto). split.
  - exact (pick4 (fun k first wd c => checked_text (day0 k) year0 first wd c) _ _ _ _ k first wd c texts_checked Hk HF Hw Hc).
  - exact (pick3 (fun k first m => checked_result (day0 k) year0 first m) _ _ _ k first (fst c) results_checked Hk HF (checked_word c Hc)).
Qed.
Lemma jalali_text_map f wd first td name ty : trenames f -> no_digit (match wd with Some w => lit w | None => [] end) = true -> no_digit name = true ->
  map f (jalali_text wd first td name ty) = jalali_text wd first (map f td) name (map f ty).
Proof.
  intros RF HW HN. pose proof (tren_none f RF [32] eq_refl) as SP. cbn [map] in SP. assert (F32 : f 32 = 32) by congruence. unfold jalali_text. rewrite map_app. f_equal.
  - destruct wd; [|reflexivity]. rewrite map_app, (tren_none f RF _ HW). cbn [map]. now rewrite F32.
  - destruct first; rewrite !map_app; cbn [map]; rewrite !map_app; cbn [map]; rewrite F32, (tren_none f RF _ HN); reflexivity.
Qed.
Lemma words_bare : forallb (fun wd => no_digit (match wd with Some w => lit w | None => [] end)) wd_options = true /\ forallb (fun c => no_digit (lit (snd c))) month_choices = true.
Proof. split; vm_compute; reflexivity. Qed.
Lemma app_same_length {A} (u u' v v' : list A) : length u = length u' -> u ++ v = u' ++ v' -> u = u' /\ v = v'.
Proof. revert u'. induction u as [|x u IH]; intros [|x' u'] L H; try discriminate L; [auto|]. cbn [app] in H. injection H as -> H. cbn [length] in L. destruct (IH u' ltac:(lia) H). subst. auto. Qed.
Section T.
Variable E : env.
Hypotheses (UA : uni_ascii (e_uni E)) (PT : persian_tables (e_uni E)) (TZ : tz_order (e_tz E)).
Variables (K : calendars) (cfg : config) (order : string) (wd : option string) (first : bool) (td name ty : str) (c : Z * string) (d y : Z) (now t : time).
Hypotheses (HC : c_order cfg = lit order) (HO : In order orders) (HF : order_fits first td order) (HW : In wd wd_options) (HN : In c month_choices) (EN : name = lit (snd c)).
Hypotheses (Dd : digits td) (Ld : (length td <= 2)%nat) (Nd : number 0 td = d) (Dy : digits ty) (Ly : length ty = 4%nat) (Ny : number 0 ty = y) (Hy : 0 < y) (Hd : 1 <= d <= 30).
Hypotheses (EW : c_now cfg = now) (NZ : is_zero now = false) (HCr : jl_create K cfg y (fst c) d 0 0 0 0 (t_loc now) = Ok t).
Lemma words_run : jalali_parse E K cfg (jalali_text wd first td name ty) = Ok (mkd PDay t).
Proof.
  pose proof (checked_word c HN) as H12. assert (Hm : 1 <= fst c <= 12) by (cbn [In] in H12; lia).
  assert (HK : exists k, In k [1%nat; 2%nat] /\ length td = k /\ length (day0 k) = k) by (exists (length td); destruct Dd as [NE _]; destruct td as [|x [|x' [|x'' u]]]; [contradiction| | |cbn [length] in Ld; lia]; cbn; auto).
  destruct HK as (k & HK & LK & LK0). destruct (all_checked k first wd c HK HW HN) as [CT CR].
  assert (SD : same_digits (td ++ ty) (day0 k ++ year0)).
  { unfold same_digits. rewrite !map_app. assert (DM : forall u v, digits u -> Forall (fun x => 48 <= x <= 57) v -> length u = length v -> map dig0 u = map dig0 v).
    { intros u v [_ HU] HV. revert v HV. induction HU as [|x u Hx _ IH]; intros [|z v] HV L; try discriminate L; [reflexivity|]. inversion HV; subst. cbn [map]. f_equal; [|apply IH; [assumption|now inversion L]]. unfold dig0, is_digitA. assert ((48 <=? x) && (x <=? 57) = true) as -> by lia. assert ((48 <=? z) && (z <=? 57) = true) as -> by lia. reflexivity. }
    f_equal; apply DM; try assumption; try congruence; try (rewrite Ly; reflexivity); destruct HK as [<-|[<-|[]]]; repeat constructor; lia. }
  pose proof (renaming_tren _ _ SD) as RF. assert (RM : map (renaming (day0 k ++ year0) (td ++ ty)) (day0 k ++ year0) = td ++ ty).
  { apply renaming_map; [exact SD|]. destruct HK as [<-|[<-|[]]]; vm_compute; repeat (constructor; [cbn [In]; lia|]); constructor. }
  revert RF RM. generalize (renaming (day0 k ++ year0) (td ++ ty)). intros f RF RM. rewrite map_app in RM. apply app_same_length in RM as [R1 R2]; [|now rewrite map_length, LK0].
  destruct words_bare as [B1 B2]. rewrite forallb_forall in B1, B2. specialize (B1 wd HW). specialize (B2 c HN). cbv beta in B1, B2. pose proof latin_months as LM. rewrite forallb_forall in LM. specialize (LM _ H12). apply andb_true_iff in LM as [_ LM].
  pose proof (words_prepared E UA PT TZ f RF (day0 k) year0 first wd c CT CR) as WP. rewrite (jalali_text_map f wd first _ _ _ RF B1 B2), (jalali_text_map f None first _ _ _ RF eq_refl LM), R1, R2 in WP.
  pose proof (jalali_parts E K UA td ty d (fst c) y Dd Ld Nd Dy Ly Ny Hy Hd Hm) as NP.
  destruct (named_run E (jl_hooks E K) td (latin_month (fst c)) ty d (fst c) y NP first order HO HF) as (a & HA & AD1 & (t1 & t2 & AD2) & AD3).
  destruct (words_acts E UA f RF (day0 k) year0 first c CR cfg (jl_hooks E K) a) as (n & HI).
  { rewrite HC. rewrite <- HA. f_equal. unfold actions_of. destruct first; cbn [map ract]; rewrite R1, R2, ?(tren_none f RF _ LM); reflexivity. }
  rewrite (jalali_text_map f None first _ _ _ RF eq_refl LM), R1, R2 in HI.
  unfold jalali_parse. rewrite EN, WP. unfold abs_run. rewrite HI. unfold abs_finish, skips. cbn [a_vals a_toks a_time a_order a_unset a_skipyear a_skipidx]. rewrite AD1, AD3. cbn [missing_parts chas cget cm_day cm_month cm_year app]. change (missing_parts _) with (@nil str). rewrite check_none. cbn [negb rbind].
  unfold abs_now. rewrite EW, NZ. change (h_params (jl_hooks E K)) with (jl_params K). change (h_create (jl_hooks E K)) with (jl_create K).
  assert (HP : jl_params K {| cm_day := Some d; cm_month := Some (fst c); cm_year := Some y; cm_wd := None |} now = (y, fst c, d)).
  { unfold jl_params. destruct (jl_of K now) as [[? ?] ?]. cbn [cm_day cm_month cm_year or_default]. unfold or_default. assert (y =? 0 = false) as -> by lia. assert (fst c =? 0 = false) as -> by lia. assert (d =? 0 = false) as -> by lia. reflexivity. }
  rewrite HP, HCr. cbn [rbind]. unfold correct_time_frame, ctf_weekday, ctf_month, ctf_year2, ctf_time, correct_month, correct_day. cbn [a_vals a_toks a_time a_order a_unset a_skipyear a_skipidx]. rewrite ?AD1, ?AD2, ?AD3. cbn [chas cget cm_day cm_month cm_year cm_wd negb andb orb is_some rbind tk_text].
  assert (slen ty =? 2 = false) as -> by (unfold slen; rewrite Ly; reflexivity). cbn [andb rbind]. rewrite attach_zero. reflexivity.
Qed.
End T.

(** ** The theorem *)
(** an optional day of the week, a day of one or two digits, the month in words, a year of four digits *)
Theorem C71_jalali_names : forall E K cfg order loc wd first names name td ty d m y long n gy gm gd,
  calendar_call E cfg order loc -> In order orders -> persian_tables (e_uni E) -> tz_order (e_tz E) ->
  In (m, names) jalali_months -> In name names -> (forall w, wd = Some w -> In w persian_weekdays) ->
  digits td -> (length td <= 2)%nat -> number 0 td = d -> digits ty -> length ty = 4%nat -> number 0 ty = y ->
  0 < y -> 1 <= d <= 30 -> order_fits first td order ->
  jl_leap K y = Some long -> jl_mlen K y m = Some n -> d <= n -> (d <= 29 \/ m <> 12 \/ long = true) ->
  jl_to K y m d = Some (gy, gm, gd) -> valid_date gy gm gd ->
  shows (parse_jalali E K cfg (jalali_text wd first td (lit name) ty)) gy gm gd 0 0 0 0 PDay [].
Proof.
  intros E K cfg order loc wd first names name td ty d m y lp n gy gm gd HC HO PT TZ HM HN HW Dd Ld Nd Dy Ly Ny Hy Hd HF HL HMl Hn HL2 HT HV. pose proof (cc_ascii _ _ _ _ HC) as UA.
  assert (IC : In (m, name) month_choices) by (unfold month_choices; apply in_flat_map; exists (m, names); split; [exact HM|]; cbv beta iota; apply in_map_iff; eauto).
  assert (IW : In wd wd_options) by (unfold wd_options; destruct wd as [w|]; [right; apply in_map; now apply HW|now left]).
  unfold parse_jalali. rewrite (call_parse E cfg order loc HC HO). destruct (call_now E cfg order loc HC) as (now & N1 & N2 & N3 & N4 & N5).
  rewrite (words_run E UA PT TZ K (with_order (to_internal (initiate (e_now E) cfg)) (lit order)) order wd first td (lit name) ty (m, name) d y now (mk_date gy gm gd 0 0 0 0 loc)); try assumption; try reflexivity.
  - exact (in_zone_shows gy gm gd loc [] HV N4).
  - cbn [fst]. unfold jl_create. rewrite HL. assert ((d =? 30) && (m =? 12) && negb lp = false) as -> by (destruct HL2 as [H|[H| ->]]; [lia|lia|now rewrite andb_false_r]).
    rewrite HMl. assert (n <? d = false) as -> by lia. rewrite HT, N3. reflexivity.
Qed.
Print Assumptions C71_jalali_names.

(** the numbers may be in any script *)
Theorem C71_any_script : forall E K cfg order loc wd first names name td ty d m y long n l gy gm gd,
  script_tables (e_uni E) -> Forall scalar l -> encode (latin_digits l) = jalali_text wd first td (lit name) ty ->
  calendar_call E cfg order loc -> In order orders -> persian_tables (e_uni E) -> tz_order (e_tz E) ->
  In (m, names) jalali_months -> In name names -> (forall w, wd = Some w -> In w persian_weekdays) ->
  digits td -> (length td <= 2)%nat -> number 0 td = d -> digits ty -> length ty = 4%nat -> number 0 ty = y ->
  0 < y -> 1 <= d <= 30 -> order_fits first td order ->
  jl_leap K y = Some long -> jl_mlen K y m = Some n -> d <= n -> (d <= 29 \/ m <> 12 \/ long = true) ->
  jl_to K y m d = Some (gy, gm, gd) -> valid_date gy gm gd ->
  shows (parse_jalali E K cfg (encode l)) gy gm gd 0 0 0 0 PDay [].
Proof.
  intros E K cfg order loc wd first names name td ty d m y lp n l gy gm gd ST HS EQ HC. rewrite (proj1 (C67_calendar_dates E K cfg l (cc_ascii _ _ _ _ HC) ST HS)), EQ.
  intros. eapply C71_jalali_names; eassumption.
Qed.
Print Assumptions C71_any_script.

(** ** Cases *)
(** the tables of [uni1], with alef and its madda taken apart *)
Definition form2 (c : Z) : list Z := if c =? 1570 then [1575] else form1 c.
Definition uni2 : uni :=
  {| u_lower := u_lower uni1; u_upper := u_upper uni1; u_fold := u_fold uni1; u_isL := u_isL uni1; u_isM := u_isM uni1; u_isN := u_isN uni1;
     u_isNd := u_isNd uni1; u_nfkc := u_nfkc uni1; u_nfkd_noMn_nfkc := map_runes form2 |}.
Definition env2 : env := {| e_now := e_now env0; e_local := utc; e_uni := uni2; e_tz := tz_source_order; e_wd_first := true |}.
Lemma form2_ascii c : 0 <= c < 128 -> form2 c = [c].
Proof. intros H. unfold form2. destruct (c =? 1570) eqn:Q; [lia|now apply form1_ascii]. Qed.
Lemma form2_scalar c : scalar c -> Forall scalar (form2 c).
Proof. intros H. unfold form2. destruct (c =? 1570); [repeat constructor; unfold scalar; lia|now apply form1_scalar]. Qed.
Lemma form2_lat c : form2 (lat c) = map lat (form2 c).
Proof.
  unfold form2. destruct (Z.eqb_spec c 1570) as [->|N]; [vm_compute; reflexivity|]. destruct (lat c =? 1570) eqn:Q; [|apply form1_lat]. exfalso. destruct (script_digit c) eqn:S; [|rewrite (lat_keeps c S) in Q; lia].
  destruct (script_value c S) as (v & _ & B & _ & EQ). lia.
Qed.
Lemma form2_encode l : Forall scalar l -> u_nfkd_noMn_nfkc uni2 (encode l) = encode (flat_map form2 l).
Proof.
  intros HS. cbn [u_nfkd_noMn_nfkc uni2]. unfold map_runes. destruct (is_ascii (encode l)) eqn:A; [|now rewrite runes_encode].
  pose proof (encode_bytes l) as EB. unfold bytes in EB. unfold is_ascii in A. rewrite forallb_forall in A. assert (B : Forall (fun c => 0 <= c < 128) (encode l)) by (rewrite Forall_forall in *; intros c Hc; pose proof (A c Hc); pose proof (EB c Hc); cbv beta in *; lia).
  assert (EL : encode l = l). { rewrite <- (runes_encode l HS) at 2. rewrite runes_ascii; [reflexivity|]. apply forallb_forall. rewrite Forall_forall in B. intros c Hc. apply B in Hc. lia. }
  rewrite EL in B. assert (flat_map form2 l = l) as ->; [|reflexivity]. clear -B. induction B as [|c l Hc _ IH]; [reflexivity|]. cbn [flat_map]. rewrite form2_ascii by exact Hc. cbn [app]. now rewrite IH.
Qed.
Lemma uni2_ascii : uni_ascii uni2.
Proof.
  pose proof uni1_ascii as A. destruct A. constructor; cbn [u_lower u_upper u_fold u_isL u_isM u_isN u_isNd u_nfkc u_nfkd_noMn_nfkc uni2]; auto.
  intros s Hs. unfold map_runes. now rewrite Hs.
Qed.
Lemma uni2_tables : script_tables uni2.
Proof.
  destruct uni1_tables as [S1 S2 S3 S4 _]. constructor; cbn [u_lower u_isNd uni2]; [exact S1|exact S2|exact S3|exact S4|].
  intros l HS. exists (flat_map form2 l). assert (HS' : Forall scalar (latin_digits l)) by (apply Forall_map; eapply Forall_impl; [|exact HS]; intros r Hr; now apply lat_scalar). split; [|split].
  - induction HS as [|c l Hc _ IH]; [constructor|]. cbn [flat_map]. apply Forall_app. split; [now apply form2_scalar|]. apply IH. now inversion HS'.
  - now apply form2_encode.
  - rewrite form2_encode by exact HS'. rewrite !latin_map. f_equal. clear. induction l as [|c l IH]; [reflexivity|]. cbn [map flat_map]. change latin_digits with (map lat) in *. rewrite map_app, IH. f_equal. apply form2_lat.
Qed.
Lemma cal_call2 src : In src [CurrentPeriod; Past; Future] -> calendar_call env2 (cal_cfg src) "DMY" utc.
Proof.
  intros HS. constructor.
  - exact uni2_ascii.
  - repeat (destruct HS as [<-|HS]; [reflexivity|]). destruct HS.
  - reflexivity.
  - vm_compute. repeat split; discriminate.
  - reflexivity.
Qed.
Lemma uni2_persian : persian_tables uni2.
Proof.
  assert (D : forallb (fun r => negb (u_isNd uni2 r) && (u_lower uni2 r =? r) && match form2 r with [x] => x =? bare r | _ => false end && (0 <=? r) && (r <? 55296)) persian_letters = true) by (vm_compute; reflexivity).
  rewrite forallb_forall in D. assert (D' : forall r, In r persian_letters -> u_isNd uni2 r = false /\ u_lower uni2 r = r /\ form2 r = [bare r] /\ scalar r).
  { intros r Hr. specialize (D r Hr). rewrite !andb_true_iff in D. destruct D as ((((D1 & D2) & D3) & D4) & D5). split; [now apply negb_true_iff|]. split; [lia|]. split; [|unfold scalar; lia]. destruct (form2 r) as [|x [|? ?]]; try discriminate D3. apply Z.eqb_eq in D3. now subst. }
  clear D. constructor.
  - intros r Hr. now apply D'.
  - intros r Hr. now apply D'.
  - intros l HL. rewrite form2_encode by (eapply Forall_impl; [|exact HL]; intros r [H|H]; [unfold scalar; lia|now apply D']). f_equal. induction HL as [|r l Hr _ IH]; [reflexivity|]. cbn [flat_map map]. rewrite IH. destruct Hr as [H|H].
    + rewrite form2_ascii by exact H. assert (Q : bare r = r) by (unfold bare; destruct (r =? 1570) eqn:Q; lia). now rewrite Q.
    + destruct (D' r H) as (_ & _ & F & _). now rewrite F.
Qed.
Example C71_case : shows (parse_jalali env2 cal0 (cal_cfg CurrentPeriod) (jalali_text (Some "شنبه"%string) true (lit "2") (lit "فروردین") (lit "1400"))) 2021 3 22 0 0 0 0 PDay [].
Proof.
  apply (C71_jalali_names env2 cal0 (cal_cfg CurrentPeriod) "DMY" utc (Some "شنبه"%string) true ["فروردین"%string] "فروردین" (lit "2") (lit "1400") 2 1 1400 false 31); try reflexivity; try (apply digits_by; reflexivity); try lia.
  - apply cal_call2. cbn. auto.
  - unfold orders. cbn. auto.
  - exact uni2_persian.
  - exact tz_source_is_order.
  - now left.
  - now left.
  - intros w HW. assert (w = "شنبه"%string) as -> by congruence. now left.
  - cbn. lia.
  - right. now left.
  - unfold valid_date. vm_compute. repeat split; discriminate.
Qed.
(** the year first: 1400 Farvardin 2, in Persian digits *)
Example C71_script_case : shows (parse_jalali env2 cal0 (cal_cfg Past) (encode [1777; 1780; 1776; 1776; 32; 1601; 1585; 1608; 1585; 1583; 1740; 1606; 32; 1778])) 2021 3 22 0 0 0 0 PDay [].
Proof.
  apply (C71_any_script env2 cal0 (cal_cfg Past) "DMY" utc None false ["فروردین"%string] "فروردین" (lit "2") (lit "1400") 2 1 1400 false 31); try reflexivity; try (apply digits_by; reflexivity); try lia.
  - exact uni2_tables.
  - now apply small_scalar.
  - apply cal_call2. cbn. auto.
  - unfold orders. cbn. auto.
  - exact uni2_persian.
  - exact tz_source_is_order.
  - now left.
  - now left.
  - intros w HW. discriminate HW.
  - cbn. lia.
  - now left.
  - unfold valid_date. vm_compute. repeat split; discriminate.
Qed.
