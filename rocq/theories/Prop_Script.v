(** C67: dates of the Jalali and Hijri calendars may be written in the digits of any script *)
From Coq Require Import ZifyBool.
From Verif Require Import GoBase SMap Civil GoTime Setting Regex Strutil Digit Utf8Facts Tokenizer Timezone Env Common Absolute Language Calendars Parser AbsFacts2 Shows Concrete Prop_Numeric Spec Prop_Text ScriptDigits Prop_Calendar.

(** the answer (date, period, error or panic) is that of the text in which every digit of a script is replaced by the ASCII digit
    of the same value, whatever else the text holds *)
Theorem C67_calendar_dates : forall E K cfg l, uni_ascii (e_uni E) -> script_tables (e_uni E) -> Forall scalar l ->
  parse_jalali E K cfg (encode l) = parse_jalali E K cfg (encode (latin_digits l)) /\
  parse_hijri E K cfg (encode l) = parse_hijri E K cfg (encode (latin_digits l)).
Proof.
  intros E K cfg l UA ST HS. pose proof (latin_token E UA ST l HS) as LT. unfold normalize_token in LT.
  unfold parse_jalali, parse_hijri, parse_calendar, jalali_parse, hijri_parse, jl_prepare, hj_prepare. rewrite LT. split; reflexivity.
Qed.
Print Assumptions C67_calendar_dates.

(** so the dates that C36 speaks of are read in any script *)
Lemma numeric_asc two order td tm ty d m y s : numeric_date two order td tm ty d m y s -> encode s = s.
Proof.
  intros [(Dd & Dm & Dy) _ _ _ _ _ (a & b & c & sp & sq & HA & Hsp & Hsq & _ & -> & _)]. apply encode_ascii. apply forallb_forall. intros x Hx.
  assert (DX : forall t, In t [a; b; c] -> forall x, In x t -> 48 <= x <= 57).
  { rewrite <- HA. intros t Ht. apply in_map_iff in Ht as (k & <- & _). intros z Hz.
    assert (D : forall u : str, digits u -> In z u -> 48 <= z <= 57) by (intros u [_ HU] HI; rewrite Forall_forall in HU; exact (HU z HI)).
    destruct (k =? 68); [now apply (D td)|]. destruct (k =? 77); [now apply (D tm)|now apply (D ty)]. }
  assert (SE : forall q, In q (lit "-/. ") -> 0 <= q < 128) by (intros q Hq; cbn in Hq; lia).
  apply in_app_or in Hx as [Hx|[<-|Hx]]; [|specialize (SE _ Hsp); lia|].
  - specialize (DX a (or_introl eq_refl) x Hx). lia.
  - apply in_app_or in Hx as [Hx|[<-|Hx]]; [|specialize (SE _ Hsq); lia|].
    + specialize (DX b (or_intror (or_introl eq_refl)) x Hx). lia.
    + specialize (DX c (or_intror (or_intror (or_introl eq_refl))) x Hx). lia.
Qed.
Theorem C67_jalali_in_any_script : forall E K cfg order loc td tm ty d m y long n l gy gm gd,
  script_tables (e_uni E) -> Forall scalar l ->
  calendar_call E cfg order loc -> numeric_date jalali_century order td tm ty d m y (latin_digits l) ->
  1 <= m <= 12 -> 1 <= d <= 30 ->
  jl_leap K y = Some long -> jl_mlen K y m = Some n -> d <= n -> (d <= 29 \/ m <> 12 \/ long = true) ->
  length ty = 4%nat \/ ~ In (u_src cfg) [Past; Future] ->
  jl_to K y m d = Some (gy, gm, gd) -> valid_date gy gm gd ->
  shows (parse_jalali E K cfg (encode l)) gy gm gd 0 0 0 0 PDay [].
Proof.
  intros E K cfg order loc td tm ty d m y lp n l gy gm gd ST HS HC ND Hm Hd HL HN Hn HL2 HT HJ HV. rewrite (proj1 (C67_calendar_dates E K cfg l (cc_ascii _ _ _ _ HC) ST HS)).
  rewrite (numeric_asc _ _ _ _ _ _ _ _ _ ND). exact (C36_jalali_dates_partial E K cfg order loc td tm ty d m y lp n _ gy gm gd HC ND Hm Hd HL HN Hn HL2 HT HJ HV).
Qed.
Print Assumptions C67_jalali_in_any_script.
Theorem C67_hijri_in_any_script : forall E K cfg order loc td tm ty d m y l gy gm gd,
  script_tables (e_uni E) -> Forall scalar l ->
  calendar_call E cfg order loc -> numeric_date hijri_century order td tm ty d m y (latin_digits l) ->
  1 <= m <= 12 -> 1 <= d <= 30 -> (d <= 29 \/ Z.odd m = true \/ (m = 12 /\ hijri_long_year K y)) ->
  length ty = 4%nat \/ ~ In (u_src cfg) [Past; Future] ->
  hj_to K y m d = (gy, gm, gd) -> valid_date gy gm gd ->
  shows (parse_hijri E K cfg (encode l)) gy gm gd 0 0 0 0 PDay [].
Proof.
  intros E K cfg order loc td tm ty d m y l gy gm gd ST HS HC ND Hm Hd HL HT HJ HV. rewrite (proj2 (C67_calendar_dates E K cfg l (cc_ascii _ _ _ _ HC) ST HS)).
  rewrite (numeric_asc _ _ _ _ _ _ _ _ _ ND). exact (C36_hijri_dates_partial E K cfg order loc td tm ty d m y _ gy gm gd HC ND Hm Hd HL HT HJ HV).
Qed.
Print Assumptions C67_hijri_in_any_script.

(** ** Cases *)
(** the tables of [uni0], with the decimal digits of Unicode *)
Definition uni1 : uni :=
  {| u_lower := u_lower uni0; u_upper := u_upper uni0; u_fold := u_fold uni0; u_isL := u_isL uni0; u_isM := u_isM uni0; u_isN := u_isN uni0;
     u_isNd := fun r => match digit_value r with Some _ => true | None => false end; u_nfkc := u_nfkc uni0; u_nfkd_noMn_nfkc := u_nfkd_noMn_nfkc uni0 |}.
Definition env1 : env := {| e_now := e_now env0; e_local := utc; e_uni := uni1; e_tz := tz_source_order; e_wd_first := true |}.
Lemma uni1_ascii : uni_ascii uni1.
Proof.
  pose proof uni0_ascii as A. destruct A. constructor; cbn [u_lower u_upper u_fold u_isL u_isM u_isN u_isNd u_nfkc u_nfkd_noMn_nfkc uni1]; auto.
  intros c Hc. unfold digit_value, is_digitA. change digit_zeros with (48 :: tl digit_zeros). cbn [List.find].
  destruct ((48 <=? c) && (c <=? 48 + 9)) eqn:D; cbn [option_map]; [lia|].
  destruct (List.find _ (tl digit_zeros)) as [z|] eqn:F; [|cbn [option_map]; lia]. exfalso.
  apply find_some in F as [Hi Hz]. assert (M : forallb (fun z => 128 <=? z) (tl digit_zeros) = true) by (vm_compute; reflexivity).
  rewrite forallb_forall in M. specialize (M _ Hi). lia.
Qed.
Definition form1 (c : Z) : list Z := if (768 <=? c) && (c <=? 879) then [] else assoc_z [c] nomn_tab c.
Lemma assoc_cases {A} (d : A) l c : assoc_z d l c = d \/ In (c, assoc_z d l c) l.
Proof.
  unfold assoc_z. destruct (List.find _ l) as [p|] eqn:F; [|now left]. right. apply find_some in F as [HI F]. apply Z.eqb_eq in F. destruct p as [a b]. cbn [fst snd] in *. subst a. exact HI.
Qed.
Lemma form1_ascii c : 0 <= c < 128 -> form1 c = [c].
Proof.
  intros H. unfold form1. assert ((768 <=? c) && (c <=? 879) = false) as -> by lia. destruct (assoc_cases [c] nomn_tab c) as [E|E]; [exact E|]. exfalso.
  assert (M : forallb (fun p => 128 <=? fst p) nomn_tab = true) by (vm_compute; reflexivity). rewrite forallb_forall in M. specialize (M _ E). cbn [fst] in M. lia.
Qed.
Lemma form1_scalar c : scalar c -> Forall scalar (form1 c).
Proof.
  intros H. unfold form1. destruct (_ && _); [constructor|]. destruct (assoc_cases [c] nomn_tab c) as [E|E]; [rewrite E; auto|].
  assert (M : forallb (fun p => forallb (fun r => (0 <=? r) && (r <? 55296)) (snd p)) nomn_tab = true) by (vm_compute; reflexivity). rewrite forallb_forall in M. specialize (M _ E). cbn [snd] in M. rewrite forallb_forall in M.
  apply Forall_forall. intros r Hr. apply M in Hr. unfold scalar. lia.
Qed.
Lemma form1_lat c : form1 (lat c) = map lat (form1 c).
Proof.
  destruct (script_digit c) eqn:S.
  - assert (form1 c = [c]) as ->.
    { unfold form1. destruct ((768 <=? c) && (c <=? 879)) eqn:R.
      - exfalso. unfold script_digit in S. destruct (digit_value c) as [v|] eqn:V; [|discriminate S]. destruct (digit_at c v V) as [B HI]. assert (M : forallb (fun z => (z + 9 <? 768) || (879 <? z)) digit_zeros = true) by (vm_compute; reflexivity).
        rewrite forallb_forall in M. specialize (M _ HI). cbv beta in M. lia.
      - destruct (assoc_cases [c] nomn_tab c) as [E|E]; [exact E|]. exfalso. assert (M : forallb (fun p => negb (script_digit (fst p))) nomn_tab = true) by (vm_compute; reflexivity). rewrite forallb_forall in M. specialize (M _ E). cbn [fst] in M. rewrite S in M. discriminate M. }
    destruct (script_value c S) as (v & _ & B & _ & EQ). cbn [map]. rewrite EQ. apply form1_ascii. lia.
  - rewrite (lat_keeps c S). unfold form1. destruct (_ && _); [reflexivity|]. destruct (assoc_cases [c] nomn_tab c) as [E|E]; [rewrite E; cbn [map]; now rewrite lat_keeps|].
    assert (M : forallb (fun p => forallb (fun r => lat r =? r) (snd p)) nomn_tab = true) by (vm_compute; reflexivity). rewrite forallb_forall in M. specialize (M _ E). cbn [snd] in M. rewrite forallb_forall in M.
    rewrite <- (map_id (assoc_z [c] nomn_tab c)) at 1. apply map_ext_in. intros r Hr. apply M in Hr. lia.
Qed.
Lemma form1_encode l : Forall scalar l -> u_nfkd_noMn_nfkc uni1 (encode l) = encode (flat_map form1 l).
Proof.
  intros HS. cbn [u_nfkd_noMn_nfkc uni1 uni0]. unfold map_runes. fold form1. destruct (is_ascii (encode l)) eqn:A; [|now rewrite runes_encode].
  pose proof (encode_bytes l) as EB. unfold bytes in EB. unfold is_ascii in A. rewrite forallb_forall in A. assert (B : Forall (fun c => 0 <= c < 128) (encode l)) by (rewrite Forall_forall in *; intros c Hc; pose proof (A c Hc); pose proof (EB c Hc); cbv beta in *; lia).
  assert (EL : encode l = l). { rewrite <- (runes_encode l HS) at 2. rewrite runes_ascii; [reflexivity|]. apply forallb_forall. rewrite Forall_forall in B. intros c Hc. apply B in Hc. lia. }
  rewrite EL in B. assert (flat_map form1 l = l) as ->; [|reflexivity]. clear -B. induction B as [|c l Hc _ IH]; [reflexivity|]. cbn [flat_map]. rewrite form1_ascii by exact Hc. cbn [app]. now rewrite IH.
Qed.
Lemma lower0_cases c : 128 <= c -> lower0 c = c \/ In (c, lower0 c) low_tab.
Proof. intros H. unfold lower0. assert (c <? 128 = false) as -> by lia. apply assoc_cases. Qed.
Lemma lower0_ascii c : c < 128 -> lower0 c = lowerA c.
Proof. intros H. unfold lower0. assert (c <? 128 = true) as -> by lia. reflexivity. Qed.
Lemma uni1_tables : script_tables uni1.
Proof.
  assert (T : forallb (fun p => negb (script_digit (fst p)) && negb (script_digit (snd p)) && (0 <=? snd p) && (snd p <? 55296)) low_tab = true) by (vm_compute; reflexivity). rewrite forallb_forall in T.
  constructor; cbn [u_lower u_isNd uni1 uni0].
  - intros r. cbn [u_isNd uni1]. destruct (digit_value r); split; congruence.
  - intros r S. destruct (Z_lt_le_dec r 128) as [L|L].
    + rewrite lower0_ascii by exact L. unfold lowerA. destruct (is_upperA r) eqn:U; [|reflexivity]. exfalso. unfold is_upperA in U. destruct (script_value r S) as (v & V & B & _). destruct (digit_at r v V) as [_ HI].
      assert (M : forallb (fun z => (z + 9 <? 65) || (90 <? z)) digit_zeros = true) by (vm_compute; reflexivity). rewrite forallb_forall in M. specialize (M _ HI). cbv beta in M. lia.
    + destruct (lower0_cases r L) as [E|E]; [exact E|]. specialize (T _ E). cbn [fst] in T. rewrite S in T. discriminate T.
  - intros r S. destruct (Z_lt_le_dec r 128) as [L|L].
    + rewrite lower0_ascii by exact L. unfold lowerA. destruct (is_upperA r) eqn:U; [|exact S]. destruct (script_digit (r + 32)) eqn:S2; [|reflexivity]. exfalso. unfold is_upperA in U. destruct (script_value _ S2) as (v & V & B & _). destruct (digit_at _ v V) as [_ HI].
      assert (M : forallb (fun z => (z + 9 <? 97) || (122 <? z)) digit_zeros = true) by (vm_compute; reflexivity). rewrite forallb_forall in M. specialize (M _ HI). cbv beta in M. lia.
    + destruct (lower0_cases r L) as [E|E]; [now rewrite E|]. specialize (T _ E). cbn [snd] in T. destruct (script_digit (lower0 r)); [|reflexivity]. rewrite andb_false_r in T. discriminate T.
  - intros r S. destruct (Z_lt_le_dec r 128) as [L|L].
    + rewrite lower0_ascii by exact L. unfold lowerA, is_upperA, scalar in *. destruct ((65 <=? r) && (r <=? 90)) eqn:U; lia.
    + destruct (lower0_cases r L) as [E|E]; [now rewrite E|]. specialize (T _ E). cbn [snd] in T. unfold scalar. lia.
  - intros l HS. exists (flat_map form1 l). assert (HS' : Forall scalar (latin_digits l)) by (apply Forall_map; eapply Forall_impl; [|exact HS]; intros r Hr; now apply lat_scalar). split; [|split].
    + induction HS as [|c l Hc _ IH]; [constructor|]. cbn [flat_map]. apply Forall_app. split; [now apply form1_scalar|]. apply IH. now inversion HS'.
    + now apply form1_encode.
    + rewrite form1_encode by exact HS'. rewrite !latin_map. f_equal. clear. induction l as [|c l IH]; [reflexivity|]. cbn [map flat_map]. change latin_digits with (map lat) in *. rewrite map_app, IH. f_equal. apply form1_lat.
Qed.
(** 30/1/1400 in Persian digits, and 1/09-45 in Arabic ones *)
Definition persian : list Z := [1779; 1776; 47; 1777; 47; 1777; 1780; 1776; 1776].
Definition arabic : list Z := [1633; 47; 1632; 1641; 45; 1636; 1637].
Lemma small_scalar l : forallb (fun r => (0 <=? r) && (r <? 55296)) l = true -> Forall scalar l.
Proof. intros H. rewrite forallb_forall in H. apply Forall_forall. intros r Hr. apply H in Hr. unfold scalar. lia. Qed.
Lemma cal_call1 src : In src [CurrentPeriod; Past; Future] -> calendar_call env1 (cal_cfg src) "DMY" utc.
Proof.
  intros HS. constructor.
  - exact uni1_ascii.
  - repeat (destruct HS as [<-|HS]; [reflexivity|]). destruct HS.
  - reflexivity.
  - vm_compute. repeat split; discriminate.
  - reflexivity.
Qed.
Example C67_persian_case : shows (parse_jalali env1 cal0 (cal_cfg Future) (encode persian)) 2021 4 19 0 0 0 0 PDay [].
Proof.
  apply (C67_jalali_in_any_script env1 cal0 (cal_cfg Future) "DMY" utc (lit "30") (lit "1") (lit "1400") 30 1 1400 false 31 persian 2021 4 19 uni1_tables).
  - now apply small_scalar.
  - apply cal_call1. cbn. auto.
  - change (latin_digits persian) with (lit "30" ++ 47 :: lit "1" ++ 47 :: lit "1400"). apply (cal_date jalali_century (lit "30") (lit "1") (lit "1400") 1400 47 47); try (apply digits_by; reflexivity); try (cbn; lia). left. cbn. repeat split; lia.
  - lia.
  - lia.
  - reflexivity.
  - reflexivity.
  - lia.
  - right. left. lia.
  - now left.
  - reflexivity.
  - unfold valid_date. vm_compute. repeat split; discriminate.
Qed.
Example C67_arabic_case : shows (parse_hijri env1 cal0 (cal_cfg CurrentPeriod) (encode arabic)) 2024 3 11 0 0 0 0 PDay [].
Proof.
  apply (C67_hijri_in_any_script env1 cal0 (cal_cfg CurrentPeriod) "DMY" utc (lit "1") (lit "09") (lit "45") 1 9 1445 arabic 2024 3 11 uni1_tables).
  - now apply small_scalar.
  - apply cal_call1. cbn. auto.
  - change (latin_digits arabic) with (lit "1" ++ 47 :: lit "09" ++ 45 :: lit "45"). apply (cal_date hijri_century (lit "1") (lit "09") (lit "45") 1445 47 45); try (apply digits_by; reflexivity); try (cbn; lia). right. split; reflexivity.
  - lia.
  - lia.
  - left. lia.
  - right. cbn. intuition discriminate.
  - reflexivity.
  - unfold valid_date. vm_compute. repeat split; discriminate.
Qed.
(** a month in words: 2 Farvardin 1400, in Persian letters and digits *)
Definition farvardin : list Z := [1778; 32; 1601; 1585; 1608; 1585; 1583; 1740; 1606; 32; 1777; 1780; 1776; 1776].
Example C67_words_case : parse_jalali env1 cal0 (cal_cfg CurrentPeriod) (encode farvardin) = parse_jalali env1 cal0 (cal_cfg CurrentPeriod) (encode (latin_digits farvardin)) /\
  shows (parse_jalali env1 cal0 (cal_cfg CurrentPeriod) (encode farvardin)) 2021 3 22 0 0 0 0 PDay [].
Proof.
  split; [exact (proj1 (C67_calendar_dates env1 cal0 (cal_cfg CurrentPeriod) farvardin uni1_ascii uni1_tables (small_scalar farvardin eq_refl)))|]. apply shows_by. vm_compute. reflexivity.
Qed.
