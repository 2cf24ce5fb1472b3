(** C68: numeric dates may be written in the digits of any script *)
From Coq Require Import ZifyBool.
From Verif Require Import GoBase SMap Regex RegexFacts RegexFacts3 Civil GoTime GoTimeFacts GoTimeParse Setting Strutil Utf8Facts SpaceFacts Digit Timezone Env Common Timestamp Formatted Relative Absolute NoSpace Language Parser Tokenizer
  AbsFacts2 NumericFacts NumericFacts2 NumTranslate NumParse ClockTranslate NumClock TextFront ParserFacts Shows Spec Concrete LocaleData Prop_Parser Prop_Numeric Prop_Clocktime Prop_Timed Prop_Text ScriptDigits Prop_Script ScriptParse.

(** a detection function, if there is one, does not tell the scripts of digits apart *)
Definition same_languages (det : option (str -> list str)) : Prop := forall f l, det = Some f -> Forall foreign_char l -> f (encode l) = f (latin_digits l).

Section S.
Variable E : env.
Notation U := (e_uni E).
Hypotheses (UA : uni_ascii U) (ST : script_tables U) (SP : script_plain U).
Lemma lat_back r c : foreign_char r -> lat r = c -> ~ (48 <= c <= 57) -> r = c.
Proof. intros H <- N. destruct (script_digit r) eqn:S; [destruct (script_value r S) as (v & _ & B & _ & EQ); rewrite EQ in N; lia|now rewrite lat_keeps]. Qed.
Lemma spaced_lat l : Forall foreign_char l -> forall b, spaced_from b (latin_digits l) = spaced_from b l.
Proof.
  rewrite latin_map. induction 1 as [|r l Hr _ IH]; intros b; [reflexivity|]. cbn [map spaced_from]. rewrite lat_space, !IH.
  assert (lat r =? 32 = (r =? 32)) as ->; [|reflexivity]. destruct (Z.eqb_spec (lat r) 32) as [Q|Q]; [rewrite (lat_back r 32 Hr Q) by lia; reflexivity|]. destruct (Z.eqb_spec r 32) as [->|]; [exfalso; apply Q; reflexivity|reflexivity].
Qed.
Lemma spaced_join l : spaced l = true -> exists ws, Forall word ws /\ l = join_words ws.
Proof.
  intros H. destruct (spaced_words l true H) as (w & ws & HW & HF & HN & ->). exists (w :: ws). split; [constructor; [split; auto|exact HW]|]. destruct ws; [now rewrite app_nil_r|reflexivity].
Qed.
(** a text in foreign digits is read as the same text in ASCII digits, if that is clean, single-spaced, and neither a timestamp nor with a time zone *)
Lemma foreign_parse D det p cfg l t : same_languages det -> Forall foreign_char l -> latin_digits l = t -> spaced t = true -> 48 <= last t 0 <= 57 ->
  sanitize_date U t = t -> normalize_string U t = t -> etz_pop E t = (t, od_zero) -> (forall c neg, timestamp_parse E c t neg = zero_date) -> ~ In 84 t ->
  parse E D det p cfg (encode l) [] = parse E D det p cfg t [].
Proof.
  intros SL HF EL HS HL SA NS TZ TS NT. subst t. assert (HS2 : spaced l = true) by (unfold spaced in *; now rewrite <- (spaced_lat l HF true)). destruct (spaced_join l HS2) as (ws & HW & HJ).
  assert (NL : normalize_string U (encode l) = encode l).
  { rewrite (normal_text E UA ST SP l ws); [|eapply Forall_impl; [|exact HF]; intros r [[S _]|I]; [now left|right; cbn in I; lia]|eapply Forall_impl; [|exact HF]; apply foreign_scalar|exact HW|exact HJ]. f_equal.
    rewrite <- (map_id l) at 2. apply map_ext_in. intros r Hr. rewrite Forall_forall in HF. specialize (HF r Hr). destruct HF as [[S _]|I]; [now apply (st_lower _ ST)|]. rewrite (ua_lower _ UA) by (cbn in I; lia). unfold lowerA, is_upperA.
    destruct ((65 <=? r) && (r <=? 90)) eqn:Q; [|reflexivity]. exfalso. apply NT. rewrite latin_map. apply in_map_iff. exists r. split; [|exact Hr]. assert (r = 84) as -> by (cbn in I; lia). reflexivity. }
  apply (script_parse E UA ST SP D det p cfg l ws HF HW HJ); [|exact SA|now rewrite NS|exact TS|].
  - intros Q. assert (QL : last (latin_digits l) 0 = 58); [|lia]. revert Q. clear. rewrite latin_map. destruct l as [|x m] using rev_ind; [discriminate|]. rewrite last_last, map_app. cbn [map]. rewrite last_last. intros ->. reflexivity.
  - rewrite NL, NS. unfold detected_languages. destruct det as [f|] eqn:ED; [|reflexivity]. destruct (u_locales _); [|reflexivity]. destruct (u_languages _); [|reflexivity]. now apply (SL f l).
Qed.
(** the years that look like time zones after a dash *)
Lemma no_zone_year order td tm ty y a b c sp sq : In order ["DMY"; "DYM"; "MDY"; "MYD"; "YDM"; "YMD"]%string -> (length td <= 2)%nat -> (length tm <= 2)%nat -> length ty = 4%nat -> number 0 ty = y -> 1000 <= y ->
  map (fun c => if c =? 68 then td else if c =? 77 then tm else ty) (lit order) = [a; b; c] -> (In y [1000; 1100; 1200] -> a = ty \/ (sp <> 45 /\ sq <> 45)) ->
  forall Y, (Y = b /\ sp = 45 \/ Y = c /\ sq = 45) -> ~ In (45 :: Y) tz_texts.
Proof.
  intros HOr Ld Lm Ly Ny Y1 HA HTZ Y HY HI. destruct (tz_form _ HI) as (x & EX & Dx & Lx). assert (x = Y) as -> by congruence. clear EX.
  assert (INA : forall x, In x [a; b; c] -> x = td \/ x = tm \/ x = ty).
  { rewrite <- HA. intros x Hx. apply in_map_iff in Hx as (z & <- & _). destruct (z =? 68); [auto|]. destruct (z =? 77); auto. }
  pose proof tz_years as TY. rewrite forallb_forall in TY. specialize (TY _ HI). cbv beta iota in TY.
  assert (Y = ty) as ->. { destruct (INA Y) as [-> | [-> | ->]]; [destruct HY as [[-> _]|[-> _]]; cbn; auto|lia|lia|reflexivity]. }
  rewrite Ny in TY. assert (IY : In y [1000; 1100; 1200]) by (cbn [existsb] in TY; cbn [In]; lia). specialize (HTZ IY). destruct HTZ as [-> | [N1 N2]]; [|destruct HY as [[_ ?]|[_ ?]]; congruence].
  assert (Q : forall x y z u v w : str, [x; y; z] = [u; v; w] -> x = u /\ y = v /\ z = w) by (intros; repeat split; congruence).
  clear - HA HY HOr Ld Lm Ly Q. cbn [In] in HOr. assert (NE : td <> ty /\ tm <> ty) by (split; intros ->; lia). destruct NE as [NE1 NE2].
  destruct HOr as [<-|[<-|[<-|[<-|[<-|[<-|[]]]]]]]; cbn in HA; apply Q in HA as (? & ? & ?); destruct HY as [[? _]|[? _]]; congruence.
Qed.
End S.

(** The dates of C09, written in digits of any script but the Latin one (Persian, Arabic, Devanagari, ... also mixed), joined by '-', '/' or ' ',
    are read as these dates. *)
Theorem C68_numeric_dates : forall E D det p cfg order td tm ty d m y a b c sp sq before after l,
  script_tables (e_uni E) -> script_plain (e_uni E) -> same_languages det ->
  digits td -> digits tm -> digits ty -> (length td <= 2)%nat -> (length tm <= 2)%nat -> length ty = 4%nat ->
  number 0 td = d -> number 0 tm = m -> number 0 ty = y -> valid_date y m d -> 1000 <= y <= 9999 ->
  In order ["DMY"; "DYM"; "MDY"; "MYD"; "YDM"; "YMD"]%string -> (forall name, order_choice (u_order cfg) name = Some (lit order)) ->
  map (fun c => if c =? 68 then td else if c =? 77 then tm else ty) (lit order) = [a; b; c] ->
  In sp (lit "-/ ") -> In sq (lit "-/ ") ->
  (In y [1000; 1100; 1200] -> a = ty \/ (sp <> 45 /\ sq <> 45)) ->
  (* the text, and what it is in ASCII digits *)
  Forall foreign_char l -> latin_digits l = a ++ sp :: b ++ sq :: c ->
  ordinary E D det p cfg (a ++ sp :: b ++ sq :: c) ->
  eff_types p = before ++ 4 :: after -> Forall (fun t => 0 <= t <= 3) before ->
  exists name, shows (snd (parse E D det p cfg (encode l) [])) y m d 0 0 0 0 PDay name.
Proof.
  intros E D det p cfg order td tm ty d m y a b c sp sq before after l ST SP SL Dd Dm Dy Ld Lm Ly Nd Nm Ny Hv Hy HOr HC HA Hsp Hsq HTZ HF EL HO HT HB.
  assert (Sp : separator sp) by (unfold separator; cbn in Hsp; lia). assert (Sq : separator sq) by (unfold separator; cbn in Hsq; lia).
  assert (INA : forall x, In x [a; b; c] -> x = td \/ x = tm \/ x = ty).
  { rewrite <- HA. intros x Hx. apply in_map_iff in Hx as (k & <- & _). destruct (k =? 68); [auto|]. destruct (k =? 77); auto. }
  assert (DX : forall x, x = td \/ x = tm \/ x = ty -> digits x /\ short x) by (unfold short; intros x [-> | [-> | ->]]; (split; [assumption|lia])).
  destruct (DX a) as [Da Sa]; [apply INA; cbn; auto|]. destruct (DX b) as [Db Sb]; [apply INA; cbn; auto|]. destruct (DX c) as [Dc Sc]; [apply INA; cbn; auto|]. clear DX.
  pose proof (o_ascii _ _ _ _ _ _ HO) as UA. pose proof (three_numbers a b c sp sq Da Db Dc Sp Sq) as TN. pose proof (three_numtext a sp b sq c) as EN.
  assert (GN : groups a [(sp, b); (sq, c)]). { unfold separator in *. split; [exact Da|]. repeat (apply Forall_cons; [cbn [fst snd]; split; [unfold csep; lia|assumption]|]). constructor. }
  assert (NS : normalize_string (e_uni E) (three a sp b sq c) = three a sp b sq c) by (rewrite EN; exact (ClockTranslate.normalize_num E UA loc_en a _ GN)).
  pose proof (no_tz E UA a b c sp sq Da Db Dc Sp Sq Sa Sb Sc (no_zone_year order td tm ty y a b c sp sq HOr Ld Lm Ly Ny (proj1 Hy) HA HTZ)) as TZ.
  rewrite (foreign_parse E UA ST SP D det p cfg l (three a sp b sq c)); auto.
  - apply (C09_numeric_dates_partial E D det p cfg order td tm ty d m y a b c sp sq before after); auto; unfold separator in *; cbn in Hsp, Hsq |- *; try tauto. lia.
  - rewrite EN. now apply groups_spaced.
  - rewrite EN. now apply groups_last.
  - apply (sanitize_date_three E UA a b c sp sq); assumption.
  - intros cf neg. apply (no_timestamp E UA a b c sp sq); assumption.
  - intros I. rewrite EN in I. pose proof (groups_plain _ _ GN) as GP. unfold lacks in GP. rewrite Forall_forall in GP. apply GP in I as [_ I]. vm_compute in I. discriminate I.
Qed.
Print Assumptions C68_numeric_dates.
(** And so are the dates with a time of day of C62 ("12/3/2014 10:04:05" in Persian digits). *)
Theorem C68_numeric_date_times : forall E D det p cfg order td tm ty d m y a b c sp sq k h mi sec per before after l,
  script_tables (e_uni E) -> script_plain (e_uni E) -> same_languages det ->
  digits td -> digits tm -> digits ty -> (length td <= 2)%nat -> (length tm <= 2)%nat -> length ty = 4%nat ->
  number 0 td = d -> number 0 tm = m -> number 0 ty = y -> valid_date y m d -> 1000 <= y <= 9999 ->
  In order ["DMY"; "DYM"; "MDY"; "MYD"; "YDM"; "YMD"]%string -> (forall name, order_choice (u_order cfg) name = Some (lit order)) ->
  map (fun c => if c =? 68 then td else if c =? 77 then tm else ty) (lit order) = [a; b; c] ->
  In sp (lit "-/ ") -> In sq (lit "-/ ") ->
  (In y [1000; 1100; 1200] -> a = ty \/ (sp <> 45 /\ sq <> 45)) ->
  clock k h mi sec 0 per -> Forall (fun c => 48 <= c <= 58) k ->
  Forall foreign_char l -> latin_digits l = a ++ sp :: b ++ sq :: c ++ 32 :: k ->
  ordinary_timed E D det p cfg (a ++ sp :: b ++ sq :: c ++ 32 :: k) ->
  eff_types p = before ++ 4 :: after -> Forall (fun t => 0 <= t <= 3) before ->
  exists name, shows (snd (parse E D det p cfg (encode l) [])) y m d h mi sec 0 (if u_timeperiod cfg then per else PDay) name.
Proof.
  intros E D det p cfg order td tm ty d m y a b c sp sq k h mi sec per before after l ST SP SL Dd Dm Dy Ld Lm Ly Nd Nm Ny Hv Hy HOr HC HA Hsp Hsq HTZ CK KF HF EL HO HT HB.
  destruct (clock_groups k h mi sec 0 per CK KF) as (hw & ms & EK & Dh & Dms & NM & CL & _).
  assert (Sp : separator sp) by (unfold separator; cbn in Hsp; lia). assert (Sq : separator sq) by (unfold separator; cbn in Hsq; lia). assert (PQ : sp = 46 <-> sq = 46) by (cbn in Hsp, Hsq; lia).
  pose proof (o_ascii _ _ _ _ _ _ (ot_ordinary _ _ _ _ _ _ HO)) as UA.
  assert (ES : a ++ sp :: b ++ sq :: c ++ 32 :: k = timed a sp b sq c hw ms) by (rewrite EK; unfold timed, three; rewrite <- app_assoc; cbn [app]; now rewrite <- app_assoc).
  assert (Q : forall x y z u v w : str, [x; y; z] = [u; v; w] -> x = u /\ y = v /\ z = w) by (intros; repeat split; congruence).
  assert (L12 : forall x, digits x -> (length x <= 2)%nat -> length x = 1%nat \/ length x = 2%nat) by (intros x [N _] L; destruct x as [|? [|? [|? ?]]]; cbn [length] in *; auto; try lia; congruence).
  assert (OK : timed_ok a sp b sq c hw ms).
  { assert (DL : In (length a, length b, length c) date_lengths /\ digits a /\ digits b /\ digits c).
    { clear -HOr HA Q L12 Ld Lm Ly Dd Dm Dy. apply L12 in Ld; [|exact Dd]. apply L12 in Lm; [|exact Dm]. cbn [In] in HOr. destruct HOr as [<-|[<-|[<-|[<-|[<-|[<-|[]]]]]]]; cbn in HA; apply Q in HA as (<- & <- & <-); (split; [|auto]); rewrite Ly; destruct Ld as [-> | ->], Lm as [-> | ->]; vm_compute; tauto. }
    destruct DL as (DL & D1 & D2 & D3). constructor; assumption. }
  pose proof (timed_groups a b c hw sp sq ms OK) as GN. pose proof (timed_numtext a sp b sq c hw ms) as EN.
  assert (NS : normalize_string (e_uni E) (timed a sp b sq c hw ms) = timed a sp b sq c hw ms) by (rewrite EN; exact (ClockTranslate.normalize_num E UA loc_en a _ GN)).
  pose proof (timed_no_tz E UA a b c hw sp sq ms OK (no_zone_year order td tm ty y a b c sp sq HOr Ld Lm Ly Ny (proj1 Hy) HA HTZ)) as TZ.
  pose proof (sanitize_timed E UA a b c hw sp sq ms OK) as SA. pose proof (fun cf neg => timed_no_timestamp E UA a b c hw sp sq ms OK cf neg) as TS.
  assert (S3 : forall x, In x (lit "-/ ") -> In x (lit "-/. ")) by (intros x; cbn; tauto).
  pose proof (C62_numeric_date_times E D det p cfg order td tm ty d m y a b c sp sq k h mi sec per before after Dd Dm Dy Ld Lm Ly Nd Nm Ny Hv Hy HOr HC HA (S3 sp Hsp) (S3 sq Hsq) PQ HTZ CK KF HO HT HB) as C62.
  rewrite ES in C62, EL. clear HO HT HB HTZ HA HC HOr.
  rewrite (foreign_parse E UA ST SP D det p cfg l (timed a sp b sq c hw ms)); [exact C62|exact SL|exact HF|exact EL| | |exact SA|exact NS|exact TZ|exact TS|].
  - rewrite EN. now apply groups_spaced.
  - rewrite EN. now apply groups_last.
  - intros I. rewrite EN in I. pose proof (groups_plain _ _ GN) as GP. unfold lacks in GP. rewrite Forall_forall in GP. apply GP in I as [_ I]. vm_compute in I. discriminate I.
Qed.
Print Assumptions C68_numeric_date_times.

(** ** Cases *)
Lemma uni1_plain : script_plain uni1.
Proof.
  constructor; cbn [u_fold u_nfkd_noMn_nfkc uni1 uni0].
  - exact (st_lower _ uni1_tables).
  - vm_compute. reflexivity.
  - intros l HL. assert (HS : Forall scalar l).
    { eapply Forall_impl; [|exact HL]. intros r [S|A]; [|unfold scalar; lia]. destruct (Z_lt_le_dec r 128) as [L|L]; [destruct (script_value r S) as (v & V & B & _); destruct (digit_at r v V) as [_ HI]; assert (M : forallb (fun z => 0 <=? z) digit_zeros = true) by (vm_compute; reflexivity); rewrite forallb_forall in M; specialize (M _ HI); cbv beta in M; unfold scalar; lia|].
      apply foreign_scalar. left. auto. }
    change (u_nfkd_noMn_nfkc uni1 (encode l) = encode l). rewrite form1_encode by exact HS. f_equal. clear HS. induction HL as [|r l Hr _ IH]; [reflexivity|]. cbn [flat_map]. rewrite IH. replace (form1 r) with [r]; [reflexivity|]. symmetry.
    destruct Hr as [S|A]; [|now apply form1_ascii]. unfold form1. assert (R : (768 <=? r) && (r <=? 879) = false).
    { destruct ((768 <=? r) && (r <=? 879)) eqn:R; [|reflexivity]. exfalso. destruct (script_value r S) as (v & V & B & _). destruct (digit_at r v V) as [_ HI]. assert (M : forallb (fun z => (z + 9 <? 768) || (879 <? z)) digit_zeros = true) by (vm_compute; reflexivity).
      rewrite forallb_forall in M. specialize (M _ HI). cbv beta in M. lia. }
    rewrite R. destruct (assoc_cases [r] nomn_tab r) as [E|E]; [exact E|]. exfalso. assert (M : forallb (fun p => negb (script_digit (fst p))) nomn_tab = true) by (vm_compute; reflexivity). rewrite forallb_forall in M. specialize (M _ E). cbn [fst] in M. rewrite S in M. discriminate M.
Qed.
Definition foreign_charb (r : Z) : bool := (script_digit r && (128 <=? r)) || existsb (Z.eqb r) (lit "-/: tT").
Lemma foreign_by l : forallb foreign_charb l = true -> Forall foreign_char l.
Proof.
  intros H. rewrite forallb_forall in H. apply Forall_forall. intros r Hr. apply H in Hr. unfold foreign_charb in Hr. apply orb_true_iff in Hr as [Hr|Hr]; [left; apply andb_true_iff in Hr as [A B]; split; [exact A|lia]|].
  right. apply existsb_exists in Hr as (x & Hx & Q). apply Z.eqb_eq in Q. now subst.
Qed.
Lemma ordinary_case1 order s : In order orders -> ordinary env1 db0 None (new_parser []) (order_cfg order) (lit s).
Proof. intros HO. destruct (ordinary_case order s HO) as [A1 A2 A3 A4 A5 A6 A7 A8 A9]. constructor; try assumption. exact uni1_ascii. Qed.
(** 12/3/2014 in Persian digits, 2015-03-12 9:04:05 in Devanagari digits *)
Example C68_persian_case : exists name, shows (snd (parse env1 db0 None (new_parser []) (order_cfg "DMY") (encode [1777; 1778; 47; 1779; 47; 1778; 1776; 1777; 1780]) [])) 2014 3 12 0 0 0 0 PDay name.
Proof.
  apply (C68_numeric_dates env1 db0 None (new_parser []) (order_cfg "DMY") "DMY" (lit "12") (lit "3") (lit "2014") 12 3 2014 (lit "12") (lit "3") (lit "2014") 47 47 [0; 1; 2; 3] [5] _ uni1_tables uni1_plain).
  - intros f l H. discriminate H.
  - apply digits_by; reflexivity.
  - apply digits_by; reflexivity.
  - apply digits_by; reflexivity.
  - cbn; lia.
  - cbn; lia.
  - reflexivity.
  - reflexivity.
  - reflexivity.
  - reflexivity.
  - unfold valid_date. vm_compute. repeat split; discriminate.
  - lia.
  - vm_compute; tauto.
  - intros name. reflexivity.
  - reflexivity.
  - vm_compute; tauto.
  - vm_compute; tauto.
  - vm_compute. intuition discriminate.
  - apply foreign_by. vm_compute. reflexivity.
  - vm_compute. reflexivity.
  - apply (ordinary_case1 "DMY" "12/3/2014"). vm_compute; tauto.
  - reflexivity.
  - repeat (apply Forall_cons; [lia|]). apply Forall_nil.
Qed.
Example C68_devanagari_case : exists name, shows (snd (parse env1 db0 None (new_parser []) (order_cfg "YMD") (encode [2408; 2406; 2407; 2411; 45; 2406; 2409; 45; 2407; 2408; 32; 2415; 58; 2406; 2410; 58; 2406; 2411]) [])) 2015 3 12 9 4 5 0 PDay name.
Proof.
  apply (C68_numeric_date_times env1 db0 None (new_parser []) (order_cfg "YMD") "YMD" (lit "12") (lit "03") (lit "2015") 12 3 2015 (lit "2015") (lit "03") (lit "12") 45 45 (lit "9:04:05") 9 4 5 PSecond [0; 1; 2; 3] [5] _ uni1_tables uni1_plain).
  - intros f l H. discriminate H.
  - apply digits_by; reflexivity.
  - apply digits_by; reflexivity.
  - apply digits_by; reflexivity.
  - cbn; lia.
  - cbn; lia.
  - reflexivity.
  - reflexivity.
  - reflexivity.
  - reflexivity.
  - unfold valid_date. vm_compute. repeat split; discriminate.
  - lia.
  - vm_compute; tauto.
  - intros name. reflexivity.
  - reflexivity.
  - vm_compute; tauto.
  - vm_compute; tauto.
  - vm_compute. intuition discriminate.
  - apply (hms (lit "9") 9 (lit "04") 4 (lit "05") 5 [] 0).
    all: try (split; [apply digits_by; reflexivity|split; [cbn; lia|reflexivity]]). all: try lia. left; auto.
  - apply Forall_forall. intros x HX. cbn in HX. lia.
  - apply foreign_by. vm_compute. reflexivity.
  - vm_compute. reflexivity.
  - constructor; [apply (ordinary_case1 "YMD" "2015-03-12 9:04:05"); vm_compute; tauto|exact db0_clock|constructor].
  - reflexivity.
  - repeat (apply Forall_cons; [lia|]). apply Forall_nil.
Qed.
