(** C23: Unix timestamps *)
From Coq Require Import ZifyBool.
From Verif Require Import GoBase SMap Regex RegexFacts RegexFacts3 Civil GoTime GoTimeFacts GoTimeParse Setting Strutil SpaceFacts Tokenizer Timezone Env Common Timestamp Formatted Relative Absolute
  Language Parser ParserFacts LocaleFacts SelectFacts Spec History Shows Concrete LocaleData AbsFacts2 NumericFacts NumTranslate NumParse NumLift StampFacts Prop_Parser Prop_Numeric.
Ltac Zify.zify_post_hook ::= Z.div_mod_to_equations.

(** what may follow the number: nothing, a '.', or white space (tab, newline, form feed, carriage return, space) *)
Definition follows (rest : str) : Prop := rest = [] \/ exists c t, rest = c :: t /\ In c [46; 9; 10; 12; 13; 32].
(** a number of seconds, milliseconds or microseconds in 10, 13 or 16 digits *)
Definition stamp (ds : str) : Prop := digits ds /\ In (length ds) [10; 13; 16]%nat.
(** the instant, in nanoseconds since the epoch *)
Definition stamp_ns (ds : str) : Z := number 0 ds * 10 ^ (19 - Z.of_nat (length ds)).

Lemma follows_iff rest : follows rest <-> ends rest = true.
Proof.
  unfold follows, ends, space_byte. destruct rest as [|c t]; [split; auto|]. split.
  - intros [X|(c' & t' & X & HI)]; [discriminate X|]. assert (c = c') as -> by congruence. cbn [In] in HI. lia.
  - intros H. right. exists c, t. split; [reflexivity|]. cbn [In]. lia.
Qed.
Lemma lead_app ds rest : digits ds -> lead (length ds) (ds ++ rest) = true.
Proof.
  intros [_ H]. unfold lead. rewrite app_length, firstn_app, Nat.sub_diag, firstn_all, firstn_O, app_nil_r. apply andb_true_iff. split; [apply Nat.leb_le; lia|]. apply forallb_forall. rewrite Forall_forall in H. intros x Hx. apply H in Hx. unfold is_digitA. lia.
Qed.
Lemma lead_digits n s : (0 < n)%nat -> lead n s = true -> digits (firstn n s) /\ length (firstn n s) = n.
Proof.
  intros Hn H. unfold lead in H. apply andb_true_iff in H as [H1 H2]. apply Nat.leb_le in H1. assert (L : length (firstn n s) = n) by (rewrite firstn_length; lia). split; [|exact L]. split.
  - intros E. rewrite E in L. cbn [length] in L. lia.
  - apply Forall_forall. rewrite forallb_forall in H2. intros x Hx. apply H2 in Hx. unfold is_digitA in Hx. lia.
Qed.
Lemma number_app a b : forall acc, number acc (a ++ b) = number (number acc a) b.
Proof. induction a as [|c a IH]; intros acc; cbn [app number]; auto. Qed.
Lemma number_lin b : forall acc, number acc b = acc * 10 ^ Z.of_nat (length b) + number 0 b.
Proof.
  induction b as [|c b IH]; intros acc; cbn [number length]; [cbn; lia|]. rewrite IH, (IH (0 * 10 + (c - 48))). rewrite Nat2Z.inj_succ, Z.pow_succ_r by lia. lia.
Qed.
Lemma number_bound b : digits b -> 0 <= number 0 b < 10 ^ Z.of_nat (length b).
Proof.
  intros [_ H]. induction H as [|c b Hc _ IH]; cbn [number length]; [cbn; lia|]. rewrite number_lin. rewrite Nat2Z.inj_succ, Z.pow_succ_r by lia. pose proof (Z.pow_nonneg 10 (Z.of_nat (length b))). nia.
Qed.
Lemma atoi0_digits a : digits a -> atoi0 a = number 0 a.
Proof. intros H. unfold atoi0. now rewrite digits_atoi. Qed.
Lemma atoi0_neg a : digits a -> atoi0 (45 :: a) = - number 0 a.
Proof.
  intros [H1 H2]. unfold atoi0, atoi. destruct a as [|c a]; [congruence|]. rewrite (digits_dec_val (c :: a) H2 0). reflexivity.
Qed.

(** ** The captures *)
Lemma skip_app (a b : str) n : n = length a -> skipn n (a ++ b) = b.
Proof. intros ->. now rewrite skipn_app, skipn_all, Nat.sub_diag. Qed.
Lemma first_app (a b : str) n : n = length a -> firstn n (a ++ b) = a.
Proof. intros ->. now rewrite firstn_app, firstn_all, Nat.sub_diag, firstn_O, app_nil_r. Qed.
Lemma lead_ends n a rest : digits a -> length a = S n -> lead (S n) (a ++ rest) = true /\ ends (a ++ rest) = false.
Proof. intros Ha L. pose proof (lead_app a rest Ha) as H. rewrite L in H. split; [exact H|]. eapply lead_not_ends, H. Qed.
Lemma ends_lead n rest : ends rest = true -> lead (S n) rest = false.
Proof. intros H. destruct (lead (S n) rest) eqn:L; [|reflexivity]. apply lead_not_ends in L. congruence. Qed.
Lemma caps_0 p rest caps : ends rest = true -> tail_caps p rest caps = Some caps.
Proof. intros H. unfold tail_caps. now rewrite H. Qed.
Lemma caps_3 p m rest caps : digits m -> length m = 3%nat -> ends rest = true -> tail_caps p (m ++ rest) caps = Some ((2%nat, (p, p + 3)%nat) :: caps).
Proof.
  intros Hm Lm H. unfold tail_caps. destruct (lead_ends 2 m rest Hm Lm) as [-> ->]. rewrite (skip_app m rest 3) by lia. now rewrite H.
Qed.
Lemma caps_6 p m u rest caps : digits m -> length m = 3%nat -> digits u -> length u = 3%nat -> ends rest = true ->
  tail_caps p (m ++ u ++ rest) caps = Some ((3%nat, (p + 3, p + 6)%nat) :: (2%nat, (p, p + 3)%nat) :: caps).
Proof.
  intros Hm Lm Hu Lu H. unfold tail_caps. destruct (lead_ends 2 m (u ++ rest) Hm Lm) as [-> ->]. rewrite (skip_app m _ 3) by lia. destruct (lead_ends 2 u rest Hu Lu) as [-> ->].
  rewrite app_assoc, (skip_app (m ++ u) rest 6) by (rewrite app_length; lia). now rewrite H.
Qed.
(** the reverse: the digits are there *)
Lemma caps_inv p r caps caps' : tail_caps p r caps = Some caps' ->
  exists more rest, r = more ++ rest /\ ends rest = true /\ (more = [] \/ digits more /\ (length more = 3 \/ length more = 6)%nat).
Proof.
  unfold tail_caps. destruct (ends r) eqn:E0; [intros _; exists [], r; auto|]. destruct (lead 3 r) eqn:L3; [|discriminate]. destruct (lead_digits 3 r ltac:(lia) L3) as [D3 N3].
  destruct (ends (skipn 3 r)) eqn:E3; [intros HX; clear HX; exists (firstn 3 r), (skipn 3 r); rewrite firstn_skipn; auto 8|]. destruct (lead 3 (skipn 3 r) && ends (skipn 6 r)) eqn:E6; [intros HX; clear HX|intros HX; discriminate HX].
  apply andb_true_iff in E6 as [L6 E6]. destruct (lead_digits 3 (skipn 3 r) ltac:(lia) L6) as [D6 N6]. exists (firstn 3 r ++ firstn 3 (skipn 3 r)), (skipn 6 r). split; [|split; [exact E6|right; split; [|right; rewrite app_length; lia]]].
  - rewrite <- app_assoc. assert (S6 : skipn 6 r = skipn 3 (skipn 3 r)) by (clear; do 3 (destruct r as [|? r]; [reflexivity|]); reflexivity). rewrite S6. now rewrite !firstn_skipn.
  - destruct D3 as [Q1 Q2], D6 as [Q3 Q4]. split; [intros X; apply app_eq_nil in X; destruct X as [X _]; now apply Q1|apply Forall_app; split; assumption].
Qed.

Section T.
Variables (E : env) (cfg : config).
Notation U := (e_uni E).
Definition stamp_period : period := if c_timeperiod cfg then PSecond else PDay.
Lemma with_caps neg s caps : option_map mt_caps (find U (if neg : bool then rxNegativeTimestamp else rxTimestamp) s) = Some caps ->
  let g i := match option_map snd (List.find (fun q : nat * (nat * nat) => Nat.eqb (fst q) i) caps) with Some (a, b) => slice s a b | None => [] end in
  timestamp_parse E cfg s neg = mkd stamp_period (unix (e_local E) (atoi0 (g 1%nat)) (atoi0 (g 3%nat) * 1000 + atoi0 (g 2%nat) * 1000000)).
Proof.
  intros HC g. unfold timestamp_parse. destruct (find U _ s) as [m|]; [|discriminate]. cbn [option_map] in HC. assert (mt_caps m = caps) as EC by congruence. unfold cap_str, cap. rewrite EC. reflexivity.
Qed.
Lemma unix_instant l s n : instant (unix l s n) = s * 1000000000 + n.
Proof. unfold instant, unix. cbn [t_sec t_nsec]. lia. Qed.
Lemma slice_first (a r : str) n : n = length a -> slice (a ++ r) 0 n = a.
Proof. intros H. unfold slice. rewrite Nat.sub_0_r. cbn [skipn]. now apply first_app. Qed.
Lemma slice_mid (a b r : str) i j : i = length a -> j = (length a + length b)%nat -> slice (a ++ b ++ r) i j = b.
Proof. intros -> ->. unfold slice. rewrite skip_app by reflexivity. apply first_app. lia. Qed.

(** a 10, 13 or 16 digit number at the start of the text is that instant *)
Lemma stamp_split ds : stamp ds -> exists a more, ds = a ++ more /\ digits a /\ length a = 10%nat /\
  (more = [] \/ (digits more /\ length more = 3%nat) \/ exists m u, more = m ++ u /\ digits m /\ length m = 3%nat /\ digits u /\ length u = 3%nat).
Proof.
  intros [[_ HD] HL]. assert (SUB : forall n k (x : str), Forall (fun c => 48 <= c <= 57) x -> length x = (n + k)%nat -> (0 < n)%nat -> digits (firstn n x) /\ length (firstn n x) = n /\ Forall (fun c => 48 <= c <= 57) (skipn n x) /\ length (skipn n x) = k /\ x = firstn n x ++ skipn n x).
  { intros n k x Hx Lx Hn. rewrite <- (firstn_skipn n x) in Hx at 1. apply Forall_app in Hx as [H1 H2]. assert (length (firstn n x) = n) by (rewrite firstn_length; lia). repeat split; auto; [intros X; rewrite X in *; cbn [length] in *; lia|rewrite skipn_length; lia|now rewrite firstn_skipn]. }
  assert (DG : forall x : str, Forall (fun c => 48 <= c <= 57) x -> (0 < length x)%nat -> digits x) by (intros x H1 H2; split; [intros ->; cbn [length] in H2; lia|exact H1]).
  assert (exists k, length ds = (10 + k)%nat /\ In k [0; 3; 6]%nat) as (k & Lk & Hk) by (cbn [In] in HL; exists (length ds - 10)%nat; cbn [In]; lia).
  destruct (SUB 10%nat k ds HD Lk ltac:(lia)) as (A1 & A2 & A3 & A4 & A5). exists (firstn 10 ds), (skipn 10 ds). split; [exact A5|]. split; [exact A1|]. split; [exact A2|].
  destruct Hk as [<-|[<-|[<-|[]]]]; [left; now apply length_zero_iff_nil|right; left; split; [apply DG; [exact A3|lia]|exact A4]|right; right].
  destruct (SUB 3%nat 3%nat (skipn 10 ds) A3 A4 ltac:(lia)) as (B1 & B2 & B3 & B4 & B5). exists (firstn 3 (skipn 10 ds)), (skipn 3 (skipn 10 ds)). split; [exact B5|]. split; [exact B1|]. split; [exact B2|]. split; [apply DG; [exact B3|lia]|exact B4].
Qed.
End T.

Ltac fields := cbv beta zeta; cbn [List.find Nat.eqb fst snd option_map].
Theorem C23_timestamp_is_that_instant : forall E cfg ds rest, stamp ds -> follows rest ->
  let d := timestamp_parse E cfg (ds ++ rest) false in
  instant (d_time d) = stamp_ns ds /\ t_loc (d_time d) = e_local E /\ d_period d = (if c_timeperiod cfg then PSecond else PDay).
Proof.
  intros E cfg ds rest HS HF d. subst d. apply follows_iff in HF. destruct (stamp_split ds HS) as (a & more & -> & Da & La & HM). unfold stamp_ns. rewrite app_length, La.
  pose proof (find_pos (e_uni E) ((a ++ more) ++ rest)) as FP. rewrite <- app_assoc in *. unfold stamp_caps in FP.
  destruct (lead_ends 9 a (more ++ rest) Da La) as [LA _]. rewrite LA, (skip_app a (more ++ rest) 10) in FP by lia.
  destruct HM as [-> | [[Dm Lm]|(m & u & -> & Dm & Lm & Du & Lu)]].
  - cbn [app] in *. rewrite caps_0 in FP by exact HF. rewrite (with_caps E cfg false _ _ FP). fields. rewrite (slice_first a rest 10) by lia. rewrite app_nil_r. rewrite atoi0_digits by exact Da. change (atoi0 []) with 0.
    cbn [d_time d_period mkd]. rewrite unix_instant. split; [|auto]. cbn [length Nat.add]. change (19 - Z.of_nat 10) with 9. lia.
  - rewrite caps_3 in FP by assumption. rewrite (with_caps E cfg false _ _ FP). fields. rewrite (slice_first a (more ++ rest) 10) by lia. rewrite (slice_mid a more rest 10 (10 + 3)) by lia.
    rewrite (atoi0_digits a Da), (atoi0_digits more Dm). change (atoi0 []) with 0. cbn [d_time d_period mkd]. rewrite unix_instant. split; [|auto]. rewrite number_app, (number_lin more (number 0 a)), Lm. change (19 - Z.of_nat (10 + 3)) with 6. change (10 ^ Z.of_nat 3) with 1000. change (10 ^ 6) with 1000000. lia.
  - rewrite <- app_assoc in *. rewrite caps_6 in FP by assumption. rewrite (with_caps E cfg false _ _ FP). fields. rewrite (slice_first a _ 10) by lia. rewrite (slice_mid a m (u ++ rest) 10 (10 + 3)) by lia.
    assert (slice (a ++ m ++ u ++ rest) (10 + 3) (10 + 6) = u) as -> by (rewrite app_assoc; apply slice_mid; rewrite app_length; lia).
    rewrite (atoi0_digits a Da), (atoi0_digits m Dm), (atoi0_digits u Du). cbn [d_time d_period mkd]. rewrite unix_instant. split; [|auto]. rewrite !number_app, (number_lin u (number (number 0 a) m)), (number_lin m (number 0 a)), app_length, Lm, Lu. change (19 - Z.of_nat (10 + (3 + 3))) with 3. change (10 ^ Z.of_nat 3) with 1000. change (10 ^ 3) with 1000. lia.
Qed.
Print Assumptions C23_timestamp_is_that_instant.

(** nothing else is a timestamp *)
Theorem C23_only_timestamps : forall E cfg s, timestamp_parse E cfg s false <> zero_date ->
  exists ds rest, s = ds ++ rest /\ stamp ds /\ follows rest.
Proof.
  intros E cfg s HZ. pose proof (find_pos (e_uni E) s) as FP. unfold timestamp_parse in HZ. destruct (find _ _ s) as [m|]; [|congruence]. cbn [option_map] in FP. unfold stamp_caps in FP.
  destruct (lead 10 s) eqn:L; [|discriminate FP]. destruct (lead_digits 10 s ltac:(lia) L) as [D10 L10]. symmetry in FP. destruct (caps_inv _ _ _ _ FP) as (more & rest & ER & HE & HM).
  exists (firstn 10 s ++ more), rest. rewrite <- app_assoc, <- ER, firstn_skipn. split; [reflexivity|]. split; [|now apply follows_iff]. unfold stamp. rewrite app_length, L10. destruct D10 as [N1 F1]. split.
  - split; [intros X; apply app_eq_nil in X as [X _]; auto|]. apply Forall_app. split; [exact F1|]. destruct HM as [-> | [[_ H] _]]; [constructor|exact H].
  - destruct HM as [-> | [_ [-> | ->]]]; cbn; auto.
Qed.
Print Assumptions C23_only_timestamps.

(** with a leading '-': the same for whole seconds *)
Theorem C23_negative_timestamp_partial : forall E cfg ds rest, digits ds -> length ds = 10%nat -> follows rest ->
  let d := timestamp_parse E cfg (45 :: ds ++ rest) true in
  instant (d_time d) = - stamp_ns ds /\ t_loc (d_time d) = e_local E /\ d_period d = (if c_timeperiod cfg then PSecond else PDay).
Proof.
  intros E cfg ds rest Dd Ld HF d. subst d. apply follows_iff in HF. unfold stamp_ns. rewrite Ld. pose proof (find_neg (e_uni E) (45 :: ds ++ rest)) as FP.
  destruct (lead_ends 9 ds rest Dd Ld) as [LA _]. cbv beta iota in FP. change (45 =? 45) with true in FP. cbn [andb] in FP. rewrite LA, (skip_app ds rest 10) in FP by lia. rewrite caps_0 in FP by exact HF.
  rewrite (with_caps E cfg true _ _ FP). fields. change (45 :: ds ++ rest) with ((45 :: ds) ++ rest). rewrite (slice_first (45 :: ds) rest 11) by (cbn [length]; lia). rewrite atoi0_neg by exact Dd. change (atoi0 []) with 0.
  cbn [d_time d_period mkd]. rewrite unix_instant. split; [|auto]. change (19 - Z.of_nat 10) with 9. lia.
Qed.
Print Assumptions C23_negative_timestamp_partial.
Theorem C23_only_negative_timestamps : forall E cfg s, timestamp_parse E cfg s true <> zero_date ->
  exists ds rest, s = 45 :: ds ++ rest /\ stamp ds /\ follows rest.
Proof.
  intros E cfg s HZ. pose proof (find_neg (e_uni E) s) as FP. unfold timestamp_parse in HZ. destruct (find _ _ s) as [m|]; [|congruence]. cbn [option_map] in FP. destruct s as [|c t]; [discriminate FP|].
  destruct ((c =? 45) && lead 10 t) eqn:L; [|discriminate FP]. apply andb_true_iff in L as [C L]. apply Z.eqb_eq in C. subst c. destruct (lead_digits 10 t ltac:(lia) L) as [D10 L10]. symmetry in FP. destruct (caps_inv _ _ _ _ FP) as (more & rest & ER & HE & HM).
  exists (firstn 10 t ++ more), rest. rewrite <- app_assoc, <- ER, firstn_skipn. split; [reflexivity|]. split; [|now apply follows_iff]. unfold stamp. rewrite app_length, L10. destruct D10 as [N1 F1]. split.
  - split; [intros X; apply app_eq_nil in X as [X _]; auto|]. apply Forall_app. split; [exact F1|]. destruct HM as [-> | [[_ H] _]]; [constructor|exact H].
  - destruct HM as [-> | [_ [-> | ->]]]; cbn; auto.
Qed.
Print Assumptions C23_only_negative_timestamps.
(** but the fraction of a negative number of milliseconds or microseconds is added, not subtracted *)
Theorem C23_negative_fraction_refuted :
  stamp (lit "1570308760263") /\
  forall E cfg, let d := timestamp_parse E cfg (lit "-1570308760263") true in
  instant (d_time d) = - stamp_ns (lit "1570308760") + 263000000 /\ instant (d_time d) <> - stamp_ns (lit "1570308760263").
Proof.
  split; [split; [apply digits_by; reflexivity|cbn; auto]|]. intros E cfg d. subst d. pose proof (find_neg (e_uni E) (lit "-1570308760263")) as FP.
  rewrite (with_caps E cfg true _ _ FP). cbn [d_time mkd]. rewrite unix_instant. split; [vm_compute; reflexivity|vm_compute; discriminate].
Qed.
Print Assumptions C23_negative_fraction_refuted.

(** ** Through Parse *)
(** whenever Parse finds a date in a text that starts with a timestamp (after its clean-up), and timestamps are tried first, the date is that instant *)
Theorem C23_parse_starts_with_timestamp : forall E D det p cfg s formats p' d ds rest types,
  sanitize_date (e_uni E) s = ds ++ rest -> stamp ds -> follows rest -> eff_types p = 0 :: types ->
  parse E D det p cfg s formats = (p', Ok (d, None)) -> d_locale d <> [] ->
  instant (d_time d) = stamp_ns ds /\ d_period d = (if u_timeperiod cfg then PSecond else PDay).
Proof.
  intros E D det p cfg s fs p' d ds rest types HS Hst Hf HT HP HL.
  destruct (C06_first_sub_parser_wins E D det p cfg s fs p' d HP HL) as (ld & lcfg & before & ty & after & trs & trsf & d0 & -> & HTy & _ & _ & _ & HC & HSub & HBef).
  assert (CT : c_timeperiod lcfg = u_timeperiod cfg) by (rewrite HC; reflexivity). pose proof (C23_timestamp_is_that_instant E lcfg ds rest Hst Hf) as TI. cbv zeta in TI. rewrite CT in TI.
  rewrite HS in *. set (d1 := timestamp_parse E lcfg (ds ++ rest) false) in *. destruct TI as (T1 & T2 & T3).
  assert (NB : 0 <= stamp_ns ds). { unfold stamp_ns. destruct Hst as [HD _]. pose proof (number_bound ds HD). apply Z.mul_nonneg_nonneg; [lia|apply Z.pow_nonneg; lia]. }
  assert (U1 : usable d1).
  { apply usable_iff. unfold date_is_zero. rewrite T3. apply orb_false_iff. split; [now destruct (u_timeperiod cfg)|]. destruct (is_zero (d_time d1)) eqn:Z; [|reflexivity]. exfalso. unfold is_zero in Z. unfold instant in T1. unfold zero_sec in Z. lia. }
  change (eff_types p = before ++ ty :: after) in HTy. rewrite HT in HTy. destruct before as [|b before].
  - assert (ty = 0) as -> by (cbn [app] in HTy; congruence). destruct HSub as [_ HSub].
    destruct HSub as [[_ ->]|[[X _]|[[X _]|[[X _]|[[X _]|[X _]]]]]]; try discriminate X. auto.
  - exfalso. assert (b = 0) as -> by (cbn [app] in HTy; congruence). apply (HBef 0 d1); [now left|]. split; [exact U1|]. left. auto.
Qed.
Print Assumptions C23_parse_starts_with_timestamp.

(** a text that is a timestamp and nothing else is understood in every ordinary call *)
Definition stamp_shapes : list str := map (repeat 48) [10; 13; 16]%nat.
Definition stamp_never (r : regex) : bool := respects dig0 (rx_ast r) && forallb (fun s => negb (match_string uni_min r s)) stamp_shapes.
Lemma stamp_nevers : stamp_never rxSanitizeCroatian = true /\ stamp_never rxSanitizePeriod = true.
Proof. split; vm_compute; reflexivity. Qed.
Lemma stamp_none U r ds : uni_ascii U -> stamp_never r = true -> stamp ds -> find U r ds = None.
Proof.
  intros UA HN [HD HL]. unfold stamp_never in HN. apply andb_true_iff in HN as [HR HF]. rewrite forallb_forall in HF. specialize (HF (repeat 48 (length ds)) (in_map (repeat 48) _ _ HL)).
  rewrite (find_norm dig0 U UA dig0_ok) by (assumption || now apply digits_asc). rewrite dig0_digits by exact HD. unfold match_string in HF. destruct (find uni_min r _); [discriminate|reflexivity].
Qed.
Lemma sanitize_date_stamp U ds : uni_ascii U -> stamp ds -> sanitize_date U ds = ds.
Proof.
  intros UA HS. pose proof HS as [HD _]. pose proof needs_some as NS. inversion NS as [|? ? N1 NS1]; inversion NS1 as [|? ? N2 NS2]; inversion NS2 as [|? ? N3 _]; subst. clear NS NS1 NS2.
  destruct stamp_nevers as [V1 V2]. pose proof (digits_plain ds HD) as DP.
  unfold sanitize_date. rewrite (replace_none _ rxSanitizeSkip) by (apply (lacks_none other); auto). rewrite (replace_none _ rxSanitizeRussian) by (apply (lacks_none other); auto).
  rewrite (replace_none _ rxSanitizeCroatian) by (now apply stamp_none).
  assert (SN : numbers ds []) by (split; [exact HD|constructor]).
  rewrite (sanitize_num ds [] SN : sanitize_spaces ds = ds). rewrite (replace_none _ rxSanitizePeriod) by (now apply stamp_none).
  rewrite (replace_none _ rxSanitizeOn) by (apply (lacks_none other); auto).
  assert (trim_suffix ds (lit ":") = ds) as ->.
  { unfold trim_suffix, has_suffix. change (rev (lit ":")) with [58]. destruct (rev ds) as [|c l] eqn:ER; [reflexivity|]. cbn [has_prefix]. assert (IC : In c ds) by (apply in_rev; rewrite ER; now left).
    unfold lacks in DP. rewrite Forall_forall in DP. apply DP in IC as [_ IC]. destruct (58 =? c) eqn:E5; [|reflexivity]. apply Z.eqb_eq in E5. subst c. discriminate IC. }
  unfold normalize_apos. rewrite runes_asc by (now apply digits_asc).
  assert (map apos_map ds = ds) as ->.
  { rewrite <- (map_id ds) at 2. apply map_ext_in. intros c Hc. pose proof (digits_asc ds HD) as TA. unfold asc in TA. rewrite Forall_forall in TA. apply TA in Hc. unfold apos_map. cbn [existsb].
    destruct (_ || _) eqn:O; [lia|reflexivity]. }
  rewrite encode_asc by (now apply digits_asc). exact (trim_num ds [] SN).
Qed.
Theorem C23_parse_timestamp : forall E D det p cfg ds types,
  stamp ds -> ordinary E D det p cfg ds -> eff_types p = 0 :: types ->
  exists d, snd (parse E D det p cfg ds []) = Ok (d, None) /\
    instant (d_time d) = stamp_ns ds /\ t_loc (d_time d) = e_local E /\ d_period d = (if u_timeperiod cfg then PSecond else PDay).
Proof.
  intros E D det p cfg ds types HS HO HT. pose proof HS as [HD _]. pose proof (o_ascii _ _ _ _ _ _ HO) as UA. assert (SN : numbers ds []) by (split; [exact HD|constructor]). change ds with (numtext ds []) in HO.
  destruct (ord_skip E D det p cfg ds [] HO) as [K1 K2]. assert (HF : follows []) by now left.
  destruct (ord_first E D det p cfg ds [] SN HO (fun ld d0 => instant (d_time d0) = stamp_ns ds /\ t_loc (d_time d0) = e_local E /\ d_period d0 = (if u_timeperiod cfg then PSecond else PDay)) []) as (ld & d0 & HP & H0).
  - intros ld NL. set (lcfg := with_order (clone (to_internal (initiate (e_now E) cfg))) (order_for E (initiate (e_now E) cfg) ld)).
    pose proof (C23_timestamp_is_that_instant E lcfg ds [] HS HF) as TI. cbv zeta in TI. rewrite app_nil_r in TI. change (c_timeperiod lcfg) with (u_timeperiod cfg) in TI.
    exists (timestamp_parse E lcfg ds false). set (d1 := timestamp_parse E lcfg ds false) in *. destruct TI as (T1 & T2 & T3).
    assert (NB : 0 <= stamp_ns ds). { unfold stamp_ns. pose proof (number_bound ds HD). apply Z.mul_nonneg_nonneg; [lia|apply Z.pow_nonneg; lia]. }
    assert (Z1 : date_is_zero d1 = false).
    { unfold date_is_zero. rewrite T3. apply orb_false_iff. split; [now destruct (u_timeperiod cfg)|]. destruct (is_zero (d_time d1)) eqn:Z; [|reflexivity]. exfalso. unfold is_zero in Z. unfold instant in T1. unfold zero_sec in Z. lia. }
    split; [|auto]. unfold try_locale. fold lcfg. rewrite !(translate_num E UA ld NL lcfg ds [] _ SN K1 K2). cbn [rbind]. rewrite HT. cbn [first_date]. change (try_type E lcfg (numtext ds []) [numtext ds []] [numtext ds []] [] 0) with (Ok d1). cbn [rbind]. now rewrite Z1.
  - now apply sanitize_date_stamp.
  - reflexivity.
  - exists (with_locale d0 (ld_name ld)). split; [exact HP|]. exact H0.
Qed.
Print Assumptions C23_parse_timestamp.
Example C23_case : exists d, snd (parse env0 db0 None (new_parser []) (order_cfg "DMY") (lit "1570308760263111") []) = Ok (d, None) /\ instant (d_time d) = 1570308760263111000.
Proof.
  destruct (C23_parse_timestamp env0 db0 None (new_parser []) (order_cfg "DMY") (lit "1570308760263111") [1; 2; 3; 4; 5]) as (d & H1 & H2 & _).
  - split; [apply digits_by; reflexivity|cbn; auto].
  - apply ordinary_case. vm_compute. auto.
  - reflexivity.
  - exists d. split; [exact H1|]. rewrite H2. vm_compute. reflexivity.
Qed.
Example C23_case_rest : forall E cfg, instant (d_time (timestamp_parse E cfg (lit "1570308760.5 and more") false)) = 1570308760000000000.
Proof.
  intros E cfg. change (lit "1570308760.5 and more") with (lit "1570308760" ++ lit ".5 and more").
  refine (eq_trans (proj1 (C23_timestamp_is_that_instant E cfg (lit "1570308760") (lit ".5 and more") _ _)) _); [split; [apply digits_by; reflexivity|cbn; auto]|right; exists 46, (lit "5 and more"); split; [reflexivity|cbn; auto]|vm_compute; reflexivity].
Qed.
