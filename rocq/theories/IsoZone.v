(** A date of three numbers, a time of day and an offset from UTC ("2014-10-09T08:07:06+02:00"): from the text to the absolute parser *)
From Coq Require Import ZifyBool.
From Verif Require Import GoBase SMap Regex RegexFacts RegexFacts2 RegexFacts3 RegexFacts4 GoTime GoTimeFacts Setting Strutil Utf8Facts SpaceFacts Digit Timezone Env Common Timestamp Formatted Relative
  Absolute Language LocaleFacts SelectFacts Parser ParserFacts Prop_Total Tokenizer AbsFacts2 NumericFacts NumTranslate NumParse RegexWiden TextRename TextFront TextActs TextParse NumClock NumLift Prop_Parser Prop_Numeric Prop_RelWhole.
From Verif Require IsoTranslate.
From Verif Require Import ZoneWords.
From Verif Require Import ClockTranslate IsoClock ZoneOffset.

(** digits, separators, colons, t, T and + *)
Definition zother (c : Z) : bool := negb (cplain c || (c =? 116) || (c =? 84) || (c =? 43)).
Definition zero_zones : list str := map lit ["+00:00"; "-00:00"]%string.
Definition zshapes : list str :=
  flat_map (fun x => let '(a, b, c) := x in flat_map (fun y => let '(h, ms) := y in flat_map (fun pq => flat_map (fun tc => map (fun z => isotext (zeros a) (fst pq) (zeros b) (snd pq) (zeros c) tc (zeros h) (map zeros ms) ++ z) zero_zones) [84; 116; 32]) sep_pairs) clock_lengths) date_lengths.
(** fewer texts to look at: punctuation that a pattern does not tell apart is merged into the colon *)
Definition merge1 (c : Z) : Z := if c =? 84 then 116 else if (c =? 43) || (c =? 45) || (c =? 47) then 58 else c.
Definition merge2 (c : Z) : Z := if c =? 84 then 116 else if (c =? 43) || (c =? 47) then 58 else c.
Definition pair_dec : forall x y : Z * Z, {x = y} + {x <> y}. Proof. intros [a b] [c d]. destruct (Z.eq_dec a c); [|right; congruence]. destruct (Z.eq_dec b d); [left|right]; congruence. Defined.
Definition gshapes (g : Z -> Z) : list str :=
  let seps := nodup pair_dec (map (fun pq => (g (fst pq), g (snd pq))) sep_pairs) in let zones := nodup (list_eq_dec Z.eq_dec) (map (map g) zero_zones) in let tcs := nodup Z.eq_dec (map g [84; 116; 32]) in
  flat_map (fun x => let '(a, b, c) := x in flat_map (fun y => let '(h, ms) := y in flat_map (fun pq => flat_map (fun tc => map (fun z => isotext (zeros a) (fst pq) (zeros b) (snd pq) (zeros c) tc (zeros h) (map zeros ms) ++ z) zones) tcs) seps) clock_lengths) date_lengths.
Lemma map_numtext g : forall l X, map g (numtext X l) = numtext (map g X) (map (fun x => (g (fst x), map g (snd x))) l).
Proof. induction l as [|[c Y] l IH]; intros X; [reflexivity|]. cbn [numtext map fst snd]. rewrite map_app. cbn [map]. now rewrite IH. Qed.
Lemma gshapes_in g x : g 48 = 48 -> g 58 = 58 -> In x zshapes -> In (map g x) (gshapes g).
Proof.
  intros G48 G58. assert (GZ : forall n, map g (zeros n) = zeros n) by (intros n; unfold zeros; induction n as [|n IH]; [reflexivity|]; cbn [repeat map]; now rewrite G48, IH).
  unfold zshapes, gshapes. cbv zeta. rewrite !in_flat_map. intros ([[a b] c] & I1 & HX). exists (a, b, c). split; [exact I1|]. rewrite in_flat_map in HX |- *. destruct HX as ((h & ms) & I2 & HX). exists (h, ms). split; [exact I2|].
  rewrite in_flat_map in HX |- *. destruct HX as ((p & q) & I3 & HX). exists (g p, g q). split; [apply nodup_In, in_map_iff; now exists (p, q)|]. cbn [fst snd] in *. rewrite in_flat_map in HX |- *. destruct HX as (tc & I4 & HX). exists (g tc). split; [now apply nodup_In, in_map|].
  rewrite in_map_iff in HX |- *. destruct HX as (z & <- & I5). exists (map g z). split; [|now apply nodup_In, in_map].
  rewrite map_app. f_equal. rewrite !iso_numtext, map_numtext. unfold ipairs. cbn [map fst snd]. rewrite !GZ. do 4 f_equal. rewrite !map_map. apply map_ext. intros n. cbn [fst snd]. now rewrite G58, GZ.
Qed.
Definition merging (r : regex) : Z -> Z := if respects merge1 (rx_ast r) then merge1 else merge2.
Definition znever (r : regex) : bool := respects dig0 (rx_ast r) && respects (merging r) (rx_ast r) && forallb (fun s => negb (match_string uni_min r s)) (gshapes (merging r)).
Lemma znever_all : Forall (fun r => znever r = true) [rxSanitizeCroatian; rxSanitizePeriod; rxTimestamp; rxNegativeTimestamp].
Proof. repeat (apply Forall_cons; [vm_compute; reflexivity|]). constructor. Qed.
Lemma merging_facts r : nrm_ok (merging r) = true /\ merging r 48 = 48 /\ merging r 58 = 58.
Proof. unfold merging. destruct (respects merge1 _); split; [vm_compute; reflexivity|split; reflexivity|vm_compute; reflexivity|split; reflexivity]. Qed.
Lemma zneeds_all : Forall (fun r => needs zother (rx_ast r) = true) [rxSanitizeSkip; rxSanitizeRussian; rxSanitizeOn; rxRelativePattern].
Proof. repeat (apply Forall_cons; [vm_compute; reflexivity|]). constructor. Qed.

Lemma numtext_snoc : forall l A p B r, numtext A (l ++ (p, B) :: r) = numtext A l ++ p :: numtext B r.
Proof. induction l as [|[q C] l IH]; intros A p B r; [reflexivity|]. cbn [app numtext]. rewrite IH, <- app_assoc. reflexivity. Qed.
Lemma zone_parts z : offset_shape z = true -> exists sg hh mm, z = numtext (sg :: hh) [(58, mm)] /\ (sg = 43 \/ sg = 45) /\ digits hh /\ digits mm /\ map dig0 z = numtext (sg :: zeros 2) [(58, zeros 2)].
Proof.
  destruct z as [|sg [|h1 [|h2 [|c [|m1 [|m2 [|? ?]]]]]]]; cbn [offset_shape]; try discriminate. rewrite !andb_true_iff. intros (((((H1 & H2) & H3) & H4) & H5) & H6). exists sg, [h1; h2], [m1; m2]. apply Z.eqb_eq in H4. subst c.
  assert (S : sg = 43 \/ sg = 45) by (unfold sign in H1; lia). split; [reflexivity|]. split; [exact S|].
  assert (D : forall x y, is_digitA x = true -> is_digitA y = true -> digits [x; y]) by (intros x y X Y; split; [discriminate|]; unfold is_digitA in *; repeat constructor; lia). split; [auto|]. split; [auto|].
  cbn [map]. unfold dig0. rewrite H2, H3, H5, H6. destruct S as [-> | ->]; reflexivity.
Qed.

Section T.
Variable E : env.
Notation U := (e_uni E).
Hypothesis UA : uni_ascii U.
Variables (A B C h : str) (p q tc : Z) (ms : list str).
Hypothesis HT : timed_ok A p B q C h ms.
Hypothesis HL : tc = 84 \/ tc = 116 \/ tc = 32.
Variable zt : str.
Hypothesis HZ : offset_shape zt = true.
Let HA := to_A _ _ _ _ _ _ _ HT. Let HB := to_B _ _ _ _ _ _ _ HT. Let HC := to_C _ _ _ _ _ _ _ HT. Let Hh := to_h _ _ _ _ _ _ _ HT. Let Hms := to_ms _ _ _ _ _ _ _ HT.
Let Hp := to_p _ _ _ _ _ _ _ HT. Let Hq := to_q _ _ _ _ _ _ _ HT. Let PQ := to_pq _ _ _ _ _ _ _ HT.
Definition lc : Z := if tc =? 32 then 32 else 116.
Lemma lc_cases : lc = 116 \/ lc = 32. Proof. unfold lc. destruct (tc =? 32); auto. Qed.
Notation s := (isotext A p B q C tc h ms ++ zt).
Notation low0 := (isotext A p B q C lc h ms).
Notation low := (low0 ++ zt).
Lemma zgroups0 : IsoTranslate.igroups A (ipairs p B q C lc h ms) /\ Forall (fun x => fst x <> 43) (ipairs p B q C lc h ms).
Proof.
  assert (SC : forall c, separator c -> IsoTranslate.isep c /\ c <> 43) by (unfold separator, IsoTranslate.isep; intros; lia). assert (LC : IsoTranslate.isep lc /\ lc <> 43) by (unfold IsoTranslate.isep; destruct lc_cases as [-> | ->]; lia).
  split; [split; [exact HA|]|]; unfold ipairs.
  - apply Forall_cons; [split; [now apply SC|exact HB]|]. apply Forall_cons; [split; [now apply SC|exact HC]|]. apply Forall_cons; [split; [apply LC|exact Hh]|].
    apply Forall_forall. intros x HX. apply in_map_iff in HX as (m & <- & HI). cbn [fst snd]. split; [unfold IsoTranslate.isep; lia|]. rewrite Forall_forall in Hms. now apply Hms.
  - repeat (apply Forall_cons; [cbn [fst]; first [now apply SC|apply LC]|]). apply Forall_forall. intros x HX. apply in_map_iff in HX as (m & <- & HI). cbn [fst]. lia.
Qed.
(** the pairs of the whole text *)
Lemma zwhole : exists l, low = numtext A (ipairs p B q C lc h ms ++ l) /\ IsoTranslate.igroups A (ipairs p B q C lc h ms ++ l) /\ numtext A (IsoTranslate.blanked (ipairs p B q C lc h ms ++ l)) = timed A p B q C h ms ++ zt.
Proof.
  destruct (zone_parts zt HZ) as (sg & hh & mm & EZ & Hsg & Dh & Dm & _). exists [(sg, hh); (58, mm)]. cbn [numtext] in EZ.
  assert (TX : forall l, numtext A (l ++ [(sg, hh); (58, mm)]) = numtext A l ++ zt) by (intros l; rewrite numtext_snoc, EZ; reflexivity).
  split; [rewrite TX; f_equal; apply iso_numtext|]. destruct zgroups0 as [[G1 G2] _]. split.
  - split; [exact G1|]. apply Forall_app. split; [exact G2|]. apply Forall_cons; [split; [unfold IsoTranslate.isep; cbn [fst]; lia|exact Dh]|]. apply Forall_cons; [split; [unfold IsoTranslate.isep; cbn [fst]; lia|exact Dm]|constructor].
  - unfold IsoTranslate.blanked. rewrite map_app. cbn [map fst snd]. assert (sg =? 116 = false) as -> by lia. change (58 =? 116) with false. cbv iota. rewrite TX. f_equal.
    rewrite timed_numtext. f_equal. unfold ipairs, pairs. cbn [map fst snd]. assert (N : forall c, separator c -> c =? 116 = false) by (unfold separator; intros; lia). rewrite (N p Hp), (N q Hq).
    assert ((if lc =? 116 then 32 else lc) = 32) as -> by (destruct lc_cases as [-> | ->]; reflexivity). do 3 f_equal. rewrite map_map. apply map_ext. intros x. reflexivity.
Qed.
Lemma zt_plain : lacks zother zt.
Proof.
  clear - HZ. apply Forall_forall. intros c HC. destruct zt as [|sg [|h1 [|h2 [|c0 [|m1 [|m2 [|? ?]]]]]]]; cbn [offset_shape] in HZ; try discriminate HZ. rewrite !andb_true_iff in HZ. destruct HZ as (((((H1 & H2) & H3) & H4) & H5) & H6).
  assert (X : is_digitA c = true \/ c = 43 \/ c = 45 \/ c = 58) by (unfold sign in H1; cbn [In] in HC; assert (c0 = 58) by lia; assert (sg = 43 \/ sg = 45) by lia; intuition congruence).
  unfold zother, cplain. destruct X as [X|[->|[->| ->]]]; [|split; [lia|reflexivity]..]. unfold is_digitA in X |- *. split; [lia|]. apply negb_false_iff. lia.
Qed.
Lemma z_plain c : c = 84 \/ c = 116 \/ c = 32 -> lacks zother (isotext A p B q C c h ms ++ zt).
Proof.
  intros Hc. apply Forall_app. split; [|exact zt_plain]. rewrite (around A B C h p q ms c). assert (W : forall x, lacks cother x -> lacks zother x).
  { intros x H. eapply Forall_impl; [|exact H]. cbv beta. intros z [H1 H2]. split; [exact H1|]. unfold cother in H2. unfold zother. apply negb_false_iff in H2. now rewrite H2. }
  apply Forall_app. split; [apply W, groups_plain; eapply date_groups_ok; exact HT|]. constructor; [split; [lia|destruct Hc as [-> | [-> | ->]]; reflexivity]|apply W, groups_plain; eapply clock_groups_ok; exact HT].
Qed.
Lemma z_asc : asc s. Proof. eapply Forall_impl; [|exact (z_plain tc HL)]. cbv beta. tauto. Qed.
Lemma z_low_asc : asc low. Proof. eapply Forall_impl; [|apply (z_plain lc); destruct lc_cases; auto]. cbv beta. tauto. Qed.
Lemma words_spaced ws : Forall word ws -> ws <> [] -> spaced (join_words ws) = true.
Proof.
  intros W1 NW. unfold spaced.
  assert (WB : forall w b r, word w -> spaced_from b (w ++ r) = spaced_from false r).
  { intros w b r [NE F]. destruct w as [|c w]; [congruence|]. clear NE. revert c b F. induction w as [|d w IH]; intros c b F; inversion F as [|? ? H1 H2]; subst; cbn [app spaced_from].
    - assert (c =? 32 = false) as -> by (destruct (Z.eqb_spec c 32); [subst; discriminate H1|reflexivity]). rewrite H1. reflexivity.
    - assert (c =? 32 = false) as -> by (destruct (Z.eqb_spec c 32); [subst; discriminate H1|reflexivity]). rewrite H1. cbn [negb andb]. exact (IH d false H2). }
  destruct W1 as [|w ws Hw W1]; [congruence|]. clear NW. cut (forall b, spaced_from b (join_words (w :: ws)) = true); [auto|]. revert w Hw. induction W1 as [|v ws Hv W1 IH]; intros w Hw b; cbn [join_words].
  - rewrite <- (app_nil_r w). rewrite WB by exact Hw. reflexivity.
  - rewrite WB by exact Hw. cbn [spaced_from Z.eqb Pos.eqb negb andb]. now apply IH.
Qed.
Lemma z_low_spaced : spaced low = true.
Proof. destruct zwhole as (l & -> & G & _). destruct (IsoTranslate.num_words _ _ G) as (ws & -> & W1 & _ & NW). now apply words_spaced. Qed.
Lemma z_spaced : spaced s = true.
Proof.
  pose proof z_low_spaced as SL. unfold spaced in *. rewrite (around A B C h p q ms), <- app_assoc in SL |- *. cbn [app] in *. unfold lc in SL. destruct HL as [-> | [-> | ->]]; [|exact SL..]. now apply spaced_app.
Qed.
Lemma low_lower x : lacks zother x -> ~ In 84 x -> map lowerA x = x.
Proof.
  intros H N. rewrite <- (map_id x) at 2. apply map_ext_in. intros c Hc. unfold lacks in H. rewrite Forall_forall in H. destruct (H c Hc) as [_ HO]. assert (c <> 84) by congruence. unfold zother, cplain, csepb, is_digitA in HO. cbn [existsb cseps] in HO.
  unfold lowerA, is_upperA. destruct ((65 <=? c) && (c <=? 90)) eqn:BB; [lia|reflexivity].
Qed.
Lemma low_no84 c : c <> 84 -> ~ In 84 (isotext A p B q C c h ms ++ zt).
Proof.
  intros NC HI. assert (CP : forall x, lacks cother x -> ~ In 84 x) by (intros x H HX; unfold lacks in H; rewrite Forall_forall in H; apply H in HX as [_ HX]; discriminate HX).
  apply in_app_or in HI as [HI|HI].
  - rewrite (around A B C h p q ms c) in HI. apply in_app_or in HI as [HI|[HI|HI]]; [|congruence|].
    + revert HI. apply CP, groups_plain. eapply date_groups_ok; exact HT.
    + revert HI. apply CP, groups_plain. eapply clock_groups_ok; exact HT.
  - clear - HZ HI. destruct zt as [|sg [|h1 [|h2 [|c0 [|m1 [|m2 [|? ?]]]]]]]; cbn [offset_shape] in HZ; try discriminate HZ. unfold sign, is_digitA in HZ. cbn [In] in HI. lia.
Qed.
Lemma z_low_lower : map lowerA low = low.
Proof. apply low_lower; [apply z_plain; destruct lc_cases; auto|]. apply low_no84. destruct lc_cases as [-> | ->]; discriminate. Qed.
Lemma z_lower : map lowerA s = low.
Proof.
  destruct HL as [HL1 | HL2].
  - rewrite <- z_low_lower. assert (lc = 116) as -> by (unfold lc; now rewrite HL1). rewrite HL1 at 1. rewrite !(around A B C h p q ms), !map_app. cbn [map]. reflexivity.
  - assert (tc = lc) as EL by (unfold lc; destruct HL2 as [-> | ->]; reflexivity). rewrite EL at 1. exact z_low_lower.
Qed.
Lemma z_normal : normalize_string U s = low.
Proof.
  unfold normalize_string, normalize_unicode. rewrite (ua_nfkd _ UA) by (apply asc_ascii, z_asc). rewrite (to_lower_asc E s z_asc). rewrite <- z_lower.
  apply spaced_sanitize; [apply lower_asc, z_asc|]. unfold spaced. rewrite lower_spaced. exact z_spaced.
Qed.
Lemma z_normal_low : normalize_string U low = low.
Proof.
  unfold normalize_string, normalize_unicode. rewrite (ua_nfkd _ UA) by (apply asc_ascii, z_low_asc). rewrite (to_lower_asc E low z_low_asc), z_low_lower. apply spaced_sanitize; [exact z_low_asc|exact z_low_spaced].
Qed.
Lemma z_token : normalize_token E s = normalize_token E low.
Proof. unfold normalize_token. now rewrite z_normal, z_normal_low. Qed.
Lemma z_shape : In (map dig0 s) zshapes.
Proof.
  destruct (zone_parts zt HZ) as (sg & hh & mm & _ & Hsg & _ & _ & DZ). rewrite map_app, DZ, iso_numtext, map_dig0_numtext. unfold ipairs. cbn [map fst snd]. rewrite !dig0_digits by assumption. rewrite map_map. cbn [fst snd].
  assert (DS : forall c, separator c -> dig0 c = c) by (intros c [-> | [-> | [-> | ->]]]; reflexivity). rewrite (DS p Hp), (DS q Hq).
  assert (EM : map (fun x : str => (dig0 58, map dig0 x)) ms = map (pair 58) (map zeros (map (@length Z) ms))).
  { rewrite !map_map. apply map_ext_in. intros x HX. change (dig0 58) with 58. f_equal. apply dig0_digits. pose proof Hms as F. rewrite Forall_forall in F. now apply F. }
  rewrite EM. assert (dig0 tc = tc) as -> by (destruct HL as [-> | [-> | ->]]; reflexivity). unfold zshapes. apply in_flat_map. exists (length A, length B, length C). split; [apply HT|]. apply in_flat_map. exists (length h, map (@length Z) ms). split; [apply HT|].
  apply in_flat_map. exists (p, q). split; [now apply in_map_pairs|]. cbn [fst snd]. apply in_flat_map. exists tc. split; [cbn [In]; intuition congruence|]. apply in_map_iff. exists (numtext (sg :: zeros 2) [(58, zeros 2)]).
  split; [|destruct Hsg as [-> | ->]; [left|right; left]; reflexivity]. f_equal. rewrite iso_numtext. reflexivity.
Qed.
Lemma z_never r : znever r = true -> find U r s = None.
Proof.
  intros HN. unfold znever in HN. rewrite !andb_true_iff in HN. destruct HN as [[HR HG] HF]. destruct (merging_facts r) as (NO & G1 & G2). rewrite forallb_forall in HF. specialize (HF _ (gshapes_in _ _ G1 G2 z_shape)).
  rewrite (find_norm dig0 U UA dig0_ok) by (assumption || exact z_asc). assert (AD : asc (map dig0 s)).
  { pose proof z_asc as A0. unfold asc in A0 |- *. rewrite Forall_forall in *. intros x HX. apply in_map_iff in HX as (d & <- & HD). apply A0 in HD. unfold dig0. destruct (is_digitA d); lia. }
  rewrite (find_norm (merging r) uni_min min_ascii NO) by assumption. unfold match_string in HF. destruct (find uni_min r _); [discriminate|reflexivity].
Qed.
Lemma z_last : 48 <= last s 0 <= 57.
Proof. destruct (zone_parts zt HZ) as (sg & hh & mm & -> & _ & _ & Dm & _). cbn [numtext app]. rewrite app_comm_cons, app_assoc, last_after by apply Dm. apply (groups_last [] mm). split; [exact Dm|constructor]. Qed.
Lemma z_sanitize : sanitize_date U s = s.
Proof.
  pose proof zneeds_all as NS. inversion NS as [|? ? N1 NS1]; inversion NS1 as [|? ? N2 NS2]; inversion NS2 as [|? ? N3 _]; subst.
  pose proof znever_all as VS. inversion VS as [|? ? V1 VS1]; inversion VS1 as [|? ? V2 _]; subst. clear NS NS1 NS2 VS VS1. pose proof (z_plain tc HL) as TP.
  assert (SS : sanitize_spaces s = s) by (apply spaced_sanitize; [exact z_asc|exact z_spaced]).
  unfold sanitize_date. rewrite (replace_none _ rxSanitizeSkip) by (apply (lacks_none zother); auto). rewrite (replace_none _ rxSanitizeRussian) by (apply (lacks_none zother); auto).
  rewrite (replace_none _ rxSanitizeCroatian) by (now apply z_never). rewrite SS. rewrite (replace_none _ rxSanitizePeriod) by (now apply z_never).
  rewrite (replace_none _ rxSanitizeOn) by (apply (lacks_none zother); auto). pose proof z_last as TL. pose proof z_asc as TA. pose proof z_spaced as TS. clear - TL TA TS. revert TL TA TS. generalize s. intros x TL TA TS.
  assert (trim_suffix x (lit ":") = x) as ->.
  { unfold trim_suffix, has_suffix. change (rev (lit ":")) with [58]. destruct (rev x) as [|c l] eqn:ER; [reflexivity|]. cbn [has_prefix].
    assert (ES : x = rev l ++ [c]) by (rewrite <- (rev_involutive x), ER; reflexivity). rewrite ES, last_app_ne in TL. assert (58 =? c = false) as -> by lia. reflexivity. }
  unfold normalize_apos. rewrite runes_asc by exact TA.
  assert (map apos_map x = x) as ->.
  { rewrite <- (map_id x) at 2. apply map_ext_in. intros c Hc. unfold asc in TA. rewrite Forall_forall in TA. apply TA in Hc. unfold apos_map. cbn [existsb]. destruct (_ || _) eqn:O; [lia|reflexivity]. }
  rewrite encode_asc by exact TA. now apply spaced_trim.
Qed.
Lemma z_no_timestamp cfg neg : timestamp_parse E cfg s neg = zero_date.
Proof.
  pose proof znever_all as VS. inversion VS as [|? ? _ VS1]; inversion VS1 as [|? ? _ VS2]; inversion VS2 as [|? ? V3 VS3]; inversion VS3 as [|? ? V4 _]; subst.
  unfold timestamp_parse. destruct neg; now rewrite z_never.
Qed.
(** the translation without its offset *)
Lemma letter_free_timed c : c = 116 \/ c = 32 -> letter_free (isotext A p B q C c h ms) /\ isotext A p B q C c h ms <> [].
Proof.
  intros Hc. assert (CP : forall x, lacks cother x -> asc x /\ Forall (fun c => letter c = false /\ c <> 10) x).
  { intros x H. split; [eapply Forall_impl; [|exact H]; cbv beta; tauto|]. eapply Forall_impl; [|exact H]. cbv beta. intros a [H1 H2]. unfold cother, cplain, csepb, is_digitA in H2. cbn [existsb cseps] in H2. unfold letter, is_alphaA, is_upperA, is_lowerA. lia. }
  rewrite (around A B C h p q ms c). destruct (CP (numtext A [(p, B); (q, C)])) as [C1 C2]; [apply groups_plain; eapply date_groups_ok; exact HT|]. destruct (CP (clock_text h ms)) as [C3 C4]; [apply groups_plain; eapply clock_groups_ok; exact HT|].
  split; [|now destruct (numtext A _)]. split; apply Forall_app; split; try assumption; constructor; try assumption; [lia|]. destruct Hc as [-> | ->]; split; try reflexivity; discriminate.
Qed.
Lemma timed_is : timed A p B q C h ms = isotext A p B q C 32 h ms. Proof. reflexivity. Qed.
Lemma z_strip : strip_braces (timed A p B q C h ms ++ zt) = timed A p B q C h ms ++ zt.
Proof.
  rewrite timed_is. assert (LP : lacks zother (isotext A p B q C 32 h ms ++ zt)) by (apply z_plain; auto). apply strip_asc; [eapply Forall_impl; [|exact LP]; cbv beta; tauto|].
  intros c HI. unfold lacks in LP. rewrite Forall_forall in LP. apply LP in HI as [_ HI]. unfold zother, cplain, csepb, is_digitA in HI. cbn [existsb cseps] in HI. unfold is_brace. cbn [existsb]. lia.
Qed.
Lemma z_no_relative cfg od : etz_pop E (timed A p B q C h ms ++ zt) = (timed A p B q C h ms, od) -> date_is_zero (relative_parse E cfg (timed A p B q C h ms ++ zt)) = true.
Proof.
  intros TZ. unfold relative_parse. rewrite z_strip, TZ. set (w := timed A p B q C h ms). destruct (match rel_parse_time E w with Some p => p | None => _ end) as [t tper].
  assert (RP : rel_parse_date E cfg w (rel_now E cfg od) = (zero_time, PNone)).
  { unfold rel_parse_date. destruct (negb _); [reflexivity|]. assert (RD : raw_durations E w = []).
    { unfold raw_durations. rewrite find_all_none; [reflexivity|]. pose proof tneeds_all as NS. inversion NS as [|? ? N1 NS1]; inversion NS1 as [|? ? N2 NS2]; inversion NS2 as [|? ? N3 NS3]; inversion NS3; subst. apply (lacks_none cother); auto. eapply timed_plain; exact HT. }
    unfold get_durations. rewrite RD. reflexivity. }
  rewrite RP. change (is_zero zero_time) with true. cbn [negb andb]. unfold date_is_zero. cbn [d_time d_period]. change (is_zero zero_time) with true. apply orb_true_r.
Qed.

(** ** One locale *)
Section P.
Variables (D : langdb) (det : option (str -> list str)) (ps : pstate) (cfg : uconfig) (ld : locale).
Hypothesis PC : plain_call E D det ps cfg s ld.
Hypothesis IL : IsoTranslate.iso_locale ld = true.
Hypothesis SK : IsoTranslate.iso_skip (skipping cfg).
Hypothesis SE : ~ In [] (skipping cfg).
Hypothesis ZK : exists z, In z known_offsets /\ zt = lit z.
Notation cfg1 := (initiate (e_now E) cfg).
Notation lcfg := (inner E cfg ld).
Lemma z_popped c : c = 116 \/ c = 32 -> exists od, etz_pop E (isotext A p B q C c h ms ++ zt) = (isotext A p B q C c h ms, od) /\ od_off od = seconds_east zt /\ od_is_zero od = false.
Proof.
  intros Hc. destruct ZK as (z & HI & EZ). destruct (letter_free_timed c Hc) as [L1 L2]. unfold etz_pop. rewrite EZ. exact (offset_popped U (e_tz E) _ z UA (pc_zones _ _ _ _ _ _ _ PC) HI L1 L2).
Qed.
Lemma z_translate k : exists r, translate E lcfg ld s k = Ok r /\ (k = false -> r = [timed A p B q C h ms ++ zt]).
Proof.
  destruct zwhole as (l & EL & G & EB). destruct (IsoTranslate.translate_num E UA ld IL lcfg A _ k G SK SE) as (r & TR & RK). exists r. rewrite EB in RK. split; [|exact RK].
  rewrite <- EL in TR. rewrite <- TR. unfold translate. now rewrite z_token.
Qed.
Lemma z_applicable : is_applicable E (to_internal cfg1) ld low0 false = Ok true.
Proof. rewrite iso_numtext. destruct zgroups0 as [G1 G2]. exact (IsoTranslate.applicable_num E UA ld IL (to_internal cfg1) A _ G1 G2 SK SE). Qed.
Lemma z_locales : exists rest, get_applicable E D det (p_used ps) cfg1 (to_internal cfg1) s = Ok (ld :: rest).
Proof.
  destruct (pc_first _ _ _ _ _ _ _ PC) as (rest & HG). unfold get_applicable. rewrite z_normal. rewrite z_normal in HG. destruct (z_popped lc lc_cases) as (od & -> & _). cbn [fst].
  assert (EN : eqs low0 low = false).
  { destruct (eqs_spec low0 low) as [e|]; [|reflexivity]. exfalso. apply (f_equal (@length Z)) in e. rewrite app_length in e. assert (length zt = 6%nat) by (clear - HZ; destruct zt as [|? [|? [|? [|? [|? [|? [|? ?]]]]]]]; try discriminate HZ; reflexivity). lia. }
  cbv zeta. rewrite EN. cbv iota.
  match goal with |- context [check_previous E (to_internal cfg1) (p_used ps) ?d] => assert (CP : (if u_try_prev cfg1 then check_previous E (to_internal cfg1) (p_used ps) d else Ok None) = Ok None) end.
  { change (u_try_prev cfg1) with (u_try_prev cfg). destruct (pc_fresh _ _ _ _ _ _ _ PC) as [-> | ->]; [reflexivity|]. destruct (u_try_prev cfg); reflexivity. }
  rewrite CP. clear CP.
  cbn [rbind]. change (detected_languages det cfg1 low) with (detected_languages det cfg low). change (u_locales cfg1) with (u_locales cfg). change (u_region cfg1) with (u_region cfg). change (u_given_order cfg1) with (u_given_order cfg). rewrite HG. cbn [rbind filter_applicable map mem existsb].
  assert (SO : sound ld) by (apply (get_locales_sound E D (pc_tables _ _ _ _ _ _ _ PC) _ _ _ _ _ _ _ HG); now left).
  match goal with |- context [any_applicable E (to_internal cfg1) ld ?d] => assert (AA : any_applicable E (to_internal cfg1) ld d = Ok true) end.
  { cbn [any_applicable]. pose proof (is_applicable_returns E ld SO (to_internal cfg1) low false) as R. pose proof (applicable_no_err E cfg ld low false) as N. unfold returns in R.
    destruct (is_applicable E (to_internal cfg1) ld low false) as [b|e|]; [|now specialize (N e)|congruence]. cbn [rbind]. destruct b; [reflexivity|]. rewrite z_applicable. reflexivity. }
  rewrite AA. cbn [rbind app]. match goal with |- context [filter_applicable E (to_internal cfg1) ?d [ld] rest] => destruct (filter_app_ok E cfg d rest [ld]) as (r & ->) end.
  { intros l HLL. apply (get_locales_sound E D (pc_tables _ _ _ _ _ _ _ PC) _ _ _ _ _ _ _ HG). now right. }
  cbn [rbind app]. destruct (c_deflang (to_internal cfg1)); [eauto|]. match goal with |- context [rbind ?r] => assert (X : exists y, r = Ok y) end.
  { destruct (locales_no_panic E D (u_deflang cfg1) (u_region cfg) (u_given_order cfg) false 1%nat) as [N|N]; [|discriminate N]. change (u_region cfg1) with (u_region cfg). change (u_given_order cfg1) with (u_given_order cfg). destruct (get_locales E D [] (u_deflang cfg1) (u_region cfg) (u_given_order cfg) false); [eauto|eauto|congruence]. }
  destruct X as (y & ->). cbn [rbind app]. eauto.
Qed.
(** the date of the absolute parser, with the offset, is the result *)
Theorem z_parse : exists od, od_off od = seconds_east zt /\ od_is_zero od = false /\
  forall d0, absolute_parse E lcfg (timed A p B q C h ms) od = Ok d0 -> date_is_zero (apply_timezone lcfg d0 od) = false ->
  snd (parse E D det ps cfg s []) = Ok (with_locale (apply_timezone lcfg d0 od) (ld_name ld), None).
Proof.
  destruct (z_popped 32 (or_intror eq_refl)) as (od & TZ & OO & ON). rewrite <- timed_is in TZ. exists od. split; [exact OO|]. split; [exact ON|]. intros d0 HP HD.
  destruct z_locales as (rest & HG). pose proof z_sanitize as SD. destruct (pc_types _ _ _ _ _ _ _ PC) as (before & after & HTy & HBf & HF).
  eapply parse_first with (ld := ld) (lds := rest).
  - apply not_true_iff_false. rewrite existsb_exists. intros (x & Hx & Hgt). unfold TNoSpaces in Hgt. rewrite HTy in Hx. apply in_app_iff in Hx as [Hx|[<-|Hx]]; [|lia|]; rewrite Forall_forall in *; [apply HBf in Hx|apply HF in Hx]; lia.
  - exact (pc_valid _ _ _ _ _ _ _ PC).
  - reflexivity.
  - rewrite SD. exact HG.
  - rewrite SD. unfold try_locale. fold lcfg. destruct (z_translate false) as (trs & -> & K). destruct (z_translate true) as (trs2 & -> & _). rewrite (K eq_refl). cbn [rbind]. rewrite HTy.
    assert (RA : try_absolute E lcfg [timed A p B q C h ms ++ zt] = Ok (apply_timezone lcfg d0 od)).
    { unfold try_absolute. cbn [first_date]. unfold abs_one, strip_tz. rewrite z_strip, TZ. rewrite HP. cbn [drop_err rbind].
      assert (NE : timed A p B q C h ms <> []) by (rewrite timed_numtext; apply groups_ne; eapply timed_groups; exact HT). destruct (timed A p B q C h ms) as [|c r]; [congruence|]. cbn [rbind]. rewrite HD. reflexivity. }
    apply first_date_zeros; [|exact RA|exact HD]. intros x Hx. rewrite Forall_forall in HBf. apply HBf in Hx. unfold try_type, TTimestamp, TNegTimestamp, TRelative, TCustom.
    destruct (x =? 0) eqn:T0; [eexists; split; [reflexivity|]; rewrite z_no_timestamp; reflexivity|].
    destruct (x =? 1) eqn:T1; [eexists; split; [reflexivity|]; rewrite z_no_timestamp; reflexivity|].
    destruct (x =? 2) eqn:T2.
    { unfold try_relative. cbn [first_date rbind]. rewrite (z_no_relative lcfg od TZ). eexists. split; reflexivity. }
    destruct (x =? 3) eqn:T3; [|lia]. unfold try_custom. assert (FD : forall l, first_date (fun t => Ok (formatted_parse E lcfg t [])) l = Ok zero_date) by (induction l as [|y l IH]; [reflexivity|]; cbn [first_date rbind]; exact IH). rewrite FD. eexists. split; reflexivity.
  - exact HD.
Qed.
End P.
End T.
