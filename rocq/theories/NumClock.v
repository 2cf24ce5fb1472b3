(** A date of three numbers and a time of day, through the sub-parsers *)
From Coq Require Import ZifyBool.
From Verif Require Import GoBase SMap Regex RegexFacts RegexFacts2 RegexFacts3 RegexFacts4 GoTime GoTimeFacts Setting Strutil Utf8Facts SpaceFacts Digit Timezone Env Common Timestamp Formatted Relative
  Absolute Language Parser ParserFacts Tokenizer AbsFacts2 NumericFacts NumTranslate NumParse RegexWiden TextRename TextFront TextActs ClockTranslate.

(** ** The text *)
Definition clock_text (h : str) (ms : list str) : str := numtext h (map (pair 58) ms).
Definition timed (A : str) (p : Z) (B : str) (q : Z) (C h : str) (ms : list str) : str := three A p B q C ++ 32 :: clock_text h ms.
Definition pairs (A : str) (p : Z) (B : str) (q : Z) (C h : str) (ms : list str) : list (Z * str) := (p, B) :: (q, C) :: (32, h) :: map (pair 58) ms.
Lemma timed_numtext A p B q C h ms : timed A p B q C h ms = numtext A (pairs A p B q C h ms).
Proof. unfold timed, three, pairs, clock_text. cbn [numtext]. rewrite <- !app_assoc. cbn [app]. now rewrite <- app_assoc. Qed.

(** ** Shapes *)
Definition date_lengths : list (nat * nat * nat) := flat_map (fun a => flat_map (fun b => [(a, b, 4); (a, 4, b); (4, a, b)]) [1; 2])%nat [1; 2]%nat.
Definition clock_lengths : list (nat * list nat) := flat_map (fun a => flat_map (fun b => [(a, [b]); (a, [b; 1]); (a, [b; 2])]) [1; 2])%nat [1; 2]%nat.
Definition sep_pairs : list (Z * Z) := flat_map (fun p => map (pair p) [45; 47; 32]) [45; 47; 32] ++ [(46, 46)].
Definition zeros (n : nat) : str := repeat 48 n.
Definition tshapes : list str :=
  flat_map (fun x => let '(a, b, c) := x in flat_map (fun y => let '(h, ms) := y in map (fun pq => timed (zeros a) (fst pq) (zeros b) (snd pq) (zeros c) (zeros h) (map zeros ms)) sep_pairs) clock_lengths) date_lengths.
Definition tnever (r : regex) : bool := respects dig0 (rx_ast r) && forallb (fun s => negb (match_string uni_min r s)) tshapes.
Lemma tnever_all : Forall (fun r => tnever r = true) [rxSanitizeCroatian; rxSanitizePeriod; rxTimestamp; rxNegativeTimestamp].
Proof. repeat (apply Forall_cons; [vm_compute; reflexivity|]). constructor. Qed.
Lemma tneeds_all : Forall (fun r => needs cother (rx_ast r) = true) [rxSanitizeSkip; rxSanitizeRussian; rxSanitizeOn; rxRelativePattern].
Proof. repeat (apply Forall_cons; [vm_compute; reflexivity|]). constructor. Qed.
(** the zone offsets that consist of digits, dashes and colons *)
Definition offset_text (w : str) : bool := match w with c :: x => (c =? 45) && (if existsb (Z.eqb 58) x then (nth 2 x 48 =? 58) && (forallb is_digitA (firstn 2 x) && Nat.eqb (length x) 5) else mem w tz_texts) | [] => false end.
Lemma tz_clits : exists ls, lits cother (rx_ast rxSearchIgnoreCase) = Some ls /\ Forall (fun w => offset_text w = true) ls.
Proof.
  assert (H : match lits cother (rx_ast rxSearchIgnoreCase) with Some ls => forallb offset_text ls | None => false end = true) by (vm_compute; reflexivity).
  destruct (lits cother (rx_ast rxSearchIgnoreCase)) as [ls|]; [|discriminate]. exists ls. split; [reflexivity|]. apply Forall_forall. now apply forallb_forall.
Qed.

(** a text of day, month and year, and hours, minutes and perhaps seconds *)
Record timed_ok (A : str) (p : Z) (B : str) (q : Z) (C h : str) (ms : list str) : Prop := {
  to_A : digits A; to_B : digits B; to_C : digits C; to_h : digits h; to_ms : Forall digits ms;
  to_p : separator p; to_q : separator q; to_pq : p = 46 <-> q = 46;
  to_date : In (length A, length B, length C) date_lengths; to_clock : In (length h, map (@length Z) ms) clock_lengths }.
Lemma in_map_pairs p q : separator p -> separator q -> (p = 46 <-> q = 46) -> In (p, q) sep_pairs.
Proof. intros [-> | [-> | [-> | ->]]] [-> | [-> | [-> | ->]]] PQ; try (exfalso; lia); vm_compute; tauto. Qed.

Lemma groups_spaced : forall l A b, groups A l -> spaced_from b (numtext A l) = true.
Proof.
  assert (RUN : forall A b r, digits A -> spaced_from b (A ++ r) = spaced_from false r).
  { intros A b r [NA DA]. destruct DA as [|c A Hc DA]; [congruence|]. clear NA. revert c b Hc. induction DA as [|d A Hd DA IH]; intros c b Hc; cbn [app spaced_from].
    - assert (c =? 32 = false) as -> by lia. assert (is_space c = false) as -> by (unfold is_space; lia). reflexivity.
    - assert (c =? 32 = false) as -> by lia. assert (is_space c = false) as -> by (unfold is_space; lia). cbn [negb andb]. apply (IH d false Hd). }
  induction l as [|[c B] l IH]; intros A b HN.
  - cbn [numtext]. rewrite <- (app_nil_r A). rewrite RUN by apply HN. reflexivity.
  - apply groups_cons in HN as (HA & Hc & HB). cbn [numtext]. rewrite RUN by exact HA. cbn [spaced_from]. destruct (c =? 32) eqn:C; [now apply IH|]. assert (is_space c = false) as -> by (unfold csep in Hc; unfold is_space; lia). now apply IH.
Qed.

Section T.
Variable E : env.
Notation U := (e_uni E).
Hypothesis UA : uni_ascii U.
Variables (A B C h : str) (p q : Z) (ms : list str).
Hypothesis HT : timed_ok A p B q C h ms.
Let HA := to_A _ _ _ _ _ _ _ HT. Let HB := to_B _ _ _ _ _ _ _ HT. Let HC := to_C _ _ _ _ _ _ _ HT. Let Hh := to_h _ _ _ _ _ _ _ HT. Let Hms := to_ms _ _ _ _ _ _ _ HT.
Let Hp := to_p _ _ _ _ _ _ _ HT. Let Hq := to_q _ _ _ _ _ _ _ HT. Let PQ := to_pq _ _ _ _ _ _ _ HT.
Notation s := (timed A p B q C h ms).
Notation prs := (pairs A p B q C h ms).
Lemma sep_csep c : separator c -> csep c. Proof. unfold separator, csep. lia. Qed.
Lemma timed_groups : groups A prs.
Proof.
  split; [exact HA|]. unfold pairs. apply Forall_cons; [split; [now apply sep_csep|exact HB]|]. apply Forall_cons; [split; [now apply sep_csep|exact HC]|]. apply Forall_cons; [split; [unfold csep; cbn; lia|exact Hh]|].
  apply Forall_forall. intros x HX. apply in_map_iff in HX as (m & <- & HI). cbn [fst snd]. split; [unfold csep; lia|]. rewrite Forall_forall in Hms. now apply Hms.
Qed.
Lemma timed_plain : lacks cother s. Proof. rewrite timed_numtext. apply groups_plain, timed_groups. Qed.
Lemma timed_asc : asc s. Proof. rewrite timed_numtext. apply groups_asc, timed_groups. Qed.
Lemma map_dig0_numtext : forall l X, map dig0 (numtext X l) = numtext (map dig0 X) (map (fun x => (dig0 (fst x), map dig0 (snd x))) l).
Proof. induction l as [|[c Y] l IH]; intros X; [reflexivity|]. cbn [numtext map fst snd]. rewrite map_app. cbn [map]. now rewrite IH. Qed.
Lemma timed_shape : In (map dig0 s) tshapes.
Proof.
  rewrite timed_numtext, map_dig0_numtext. unfold pairs. cbn [map fst snd]. rewrite !dig0_digits by assumption. rewrite map_map. cbn [fst snd].
  assert (DS : forall c, separator c -> dig0 c = c) by (intros c [-> | [-> | [-> | ->]]]; reflexivity). rewrite (DS p Hp), (DS q Hq). change (dig0 32) with 32.
  assert (EM : map (fun x : str => (dig0 58, map dig0 x)) ms = map (pair 58) (map zeros (map (@length Z) ms))).
  { rewrite !map_map. apply map_ext_in. intros x HX. change (dig0 58) with 58. f_equal. apply dig0_digits. pose proof Hms as F. rewrite Forall_forall in F. now apply F. }
  rewrite EM. unfold tshapes. apply in_flat_map. exists (length A, length B, length C). split; [apply HT|]. apply in_flat_map. exists (length h, map (@length Z) ms). split; [apply HT|].
  apply in_map_iff. exists (p, q). split; [|now apply in_map_pairs]. rewrite timed_numtext. reflexivity.
Qed.
Lemma timed_never r : tnever r = true -> find U r s = None.
Proof.
  intros HN. unfold tnever in HN. apply andb_true_iff in HN as [HR HF]. rewrite forallb_forall in HF. specialize (HF _ timed_shape).
  rewrite (find_norm dig0 U UA dig0_ok) by (assumption || exact timed_asc). unfold match_string in HF. destruct (find uni_min r _); [discriminate|reflexivity].
Qed.
Lemma timed_last : 48 <= last s 0 <= 57. Proof. rewrite timed_numtext. apply groups_last, timed_groups. Qed.
Lemma sanitize_timed : sanitize_date U s = s.
Proof.
  pose proof tneeds_all as NS. inversion NS as [|? ? N1 NS1]; inversion NS1 as [|? ? N2 NS2]; inversion NS2 as [|? ? N3 _]; subst.
  pose proof tnever_all as VS. inversion VS as [|? ? V1 VS1]; inversion VS1 as [|? ? V2 _]; subst. clear NS NS1 NS2 VS VS1. pose proof timed_plain as TP.
  assert (SS : sanitize_spaces s = s) by (rewrite timed_numtext; exact (sanitize_num A prs timed_groups)).
  unfold sanitize_date. rewrite (replace_none _ rxSanitizeSkip) by (apply (lacks_none cother); auto). rewrite (replace_none _ rxSanitizeRussian) by (apply (lacks_none cother); auto).
  rewrite (replace_none _ rxSanitizeCroatian) by (now apply timed_never). rewrite SS. rewrite (replace_none _ rxSanitizePeriod) by (now apply timed_never).
  rewrite (replace_none _ rxSanitizeOn) by (apply (lacks_none cother); auto).
  assert (trim_suffix s (lit ":") = s) as ->.
  { unfold trim_suffix, has_suffix. change (rev (lit ":")) with [58]. pose proof timed_last as TL. destruct (rev s) as [|c l] eqn:ER; [reflexivity|]. cbn [has_prefix].
    assert (ES : s = rev l ++ [c]) by (rewrite <- (rev_involutive s), ER; reflexivity). rewrite ES, last_app_ne in TL. assert (58 =? c = false) as -> by lia. reflexivity. }
  unfold normalize_apos. rewrite runes_asc by exact timed_asc.
  assert (map apos_map s = s) as ->.
  { rewrite <- (map_id s) at 2. apply map_ext_in. intros c Hc. pose proof timed_asc as TA. unfold asc in TA. rewrite Forall_forall in TA. apply TA in Hc. unfold apos_map. cbn [existsb]. destruct (_ || _) eqn:O; [lia|reflexivity]. }
  rewrite encode_asc by exact timed_asc. rewrite timed_numtext. exact (trim_num A prs timed_groups).
Qed.
Lemma timed_no_timestamp cfg neg : timestamp_parse E cfg s neg = zero_date.
Proof.
  pose proof tnever_all as VS. inversion VS as [|? ? _ VS1]; inversion VS1 as [|? ? _ VS2]; inversion VS2 as [|? ? V3 VS3]; inversion VS3 as [|? ? V4 _]; subst.
  unfold timestamp_parse. destruct neg; now rewrite timed_never.
Qed.
Lemma strip_timed : strip_braces s = s.
Proof.
  unfold strip_braces. rewrite runes_asc by exact timed_asc. rewrite filter_id; [apply encode_asc, timed_asc|]. apply forallb_forall. intros c Hc.
  pose proof timed_plain as TP. unfold lacks in TP. rewrite Forall_forall in TP. apply TP in Hc as [_ Hc]. unfold cother, cplain, csepb, is_digitA in Hc. cbn [existsb cseps] in Hc. unfold is_brace. cbn [existsb]. lia.
Qed.
(** digits at the start of a text are at the start of its first group *)
Lemma cdigit_prefix x X l t : groups X l -> Forall (fun c => 48 <= c <= 57) x -> numtext X l = x ++ t -> exists y, X = x ++ y.
Proof.
  intros [[_ HBd] HL] Hx HE. revert X HBd HE. induction Hx as [|c x Hc Hx IH]; intros X HBd HE; [now exists X|]. destruct X as [|b X].
  - exfalso. destruct l as [|[c2 B2] l]; [discriminate HE|]. cbn [numtext app] in HE. inversion HL as [|? ? [Hs _] _]; subst. cbn [fst] in Hs. unfold csep in Hs. assert (c2 = c) by congruence. lia.
  - inversion HBd; subst. assert (b = c /\ numtext X l = x ++ t) as [-> HE2]; [destruct l as [|[c2 B2] l]; cbn [numtext app] in HE |- *; split; congruence|].
    destruct (IH X) as [y ->]; [assumption|exact HE2|]. now exists y.
Qed.
(** no text of an offset occurs in it *)
Lemma timed_no_offset : (forall Y, (Y = B /\ p = 45 \/ Y = C /\ q = 45) -> ~ In (45 :: Y) tz_texts) -> forall a l b, offset_text l = true -> s <> a ++ l ++ b.
Proof.
  intros HY a l b Hl Hs.
  destruct l as [|c0 x]; [discriminate Hl|]. cbn [offset_text] in Hl. apply andb_true_iff in Hl as [E0 Hl]. apply Z.eqb_eq in E0. subst c0. pose proof timed_groups as TN.
  destruct (groups_split prs A (length a) 45 (x ++ b) TN) as (l1 & X & l2 & EL & _ & EB & _); [now left|rewrite <- timed_numtext, Hs, skipn_app, skipn_all, Nat.sub_diag; reflexivity|].
  rewrite EL in TN. apply groups_app in TN as (_ & _ & NB). symmetry in EB.
  assert (CS : (X = B /\ p = 45 /\ l2 = (q, C) :: (32, h) :: map (pair 58) ms) \/ (X = C /\ q = 45 /\ l2 = (32, h) :: map (pair 58) ms)).
  { unfold pairs in EL. destruct l1 as [|u [|v [|w l1]]]; cbn [app] in EL.
    - left. split; [congruence|]. split; congruence.
    - right. split; [congruence|]. split; congruence.
    - exfalso. assert (32 = 45) by congruence. discriminate.
    - exfalso. assert (EM : map (pair 58) ms = l1 ++ (45, X) :: l2) by congruence. assert (IN : In (45, X) (map (pair 58) ms)) by (rewrite EM; apply in_or_app; right; now left). apply in_map_iff in IN as (z & EZ & _). congruence. }
  assert (L4 : forall Y, Y = B \/ Y = C -> (length Y <= 4)%nat).
  { pose proof (to_date _ _ _ _ _ _ _ HT) as DL. let x := eval vm_compute in date_lengths in change date_lengths with x in DL. cbn [In] in DL. intros Y HYY. repeat (destruct DL as [DL|DL]; [injection DL as D1 D2 D3; destruct HYY as [-> | ->]; lia|]). destruct DL. }
  destruct (existsb (Z.eqb 58) x) eqn:EX.
  - (* with a colon: two digits, then something else; but the group is followed by a separator *)
    apply andb_true_iff in Hl as [H2 Hl]. apply andb_true_iff in Hl as [H3 H4]. apply Nat.eqb_eq in H4. destruct x as [|x0 [|x1 [|x2 x']]]; try discriminate H4. cbn [firstn nth forallb] in H2, H3.
    apply Z.eqb_eq in H2. subst x2. rewrite andb_true_r in H3. apply andb_true_iff in H3 as [D0 D1]. unfold is_digitA in D0, D1.
    assert (FD : Forall (fun c => 48 <= c <= 57) [x0; x1]) by (apply Forall_cons; [lia|]; apply Forall_cons; [lia|constructor]).
    destruct (cdigit_prefix [x0; x1] X l2 (58 :: x' ++ b) NB FD) as (y & EX2); [exact EB|]. rewrite EX2 in EB, NB.
    destruct y as [|c y].
    + assert (HS : exists c r, l2 = (c, r) :: tl l2 /\ c <> 58) by (destruct CS as [(_ & _ & ->)|(_ & _ & ->)]; cbn [tl]; eexists _, _; (split; [reflexivity|]); [unfold separator in Hq; lia|lia]).
      destruct HS as (c & r & EL2 & NC). rewrite EL2 in EB. cbn [numtext app] in EB. congruence.
    + destruct NB as [[_ NB] _]. inversion NB as [|? ? _ NB1]; subst. inversion NB1 as [|? ? _ NB2]; subst. inversion NB2 as [|? ? NC _]; subst.
      assert (c = 58); [|lia]. destruct l2 as [|[c2 B2] l2]; cbn [numtext app] in EB; congruence.
  - apply mem_In in Hl. destruct (tz_form _ Hl) as (x' & EX' & Hx & Lx). assert (x' = x) by congruence. subst x'. clear EX'.
    destruct (cdigit_prefix x X l2 b NB) as (y & EX2); [apply Hx|exact EB|].
    assert (LX : (length X <= 4)%nat) by (apply L4; tauto). assert (y = []) by (destruct y; [reflexivity|]; exfalso; rewrite EX2, app_length in LX; cbn [length] in LX; lia). subst y. rewrite app_nil_r in EX2. subst X.
    apply (HY x); [tauto|exact Hl].
Qed.
Lemma timed_no_tz : (forall Y, (Y = B /\ p = 45 \/ Y = C /\ q = 45) -> ~ In (45 :: Y) tz_texts) -> etz_pop E s = (s, od_zero).
Proof.
  intros HY. unfold etz_pop, pop_tz. assert (match_string U rxSearchIgnoreCase s = false) as ->; [|reflexivity].
  unfold match_string. destruct (find U rxSearchIgnoreCase s) as [m|] eqn:F; [|reflexivity]. exfalso.
  destruct tz_clits as (ls & HL & HI). destruct (lits_occur cother U UA rxSearchIgnoreCase ls s m HL timed_plain F) as (a & l & b & Hl & Hs). rewrite Forall_forall in HI. apply HI in Hl.
  exact (timed_no_offset HY a l b Hl Hs).
Qed.
Lemma timed_no_relative cfg : etz_pop E s = (s, od_zero) -> date_is_zero (relative_parse E cfg s) = true.
Proof.
  intros TZ. unfold relative_parse. rewrite strip_timed, TZ. destruct (match rel_parse_time E s with Some p => p | None => _ end) as [t tper].
  assert (RP : rel_parse_date E cfg s (rel_now E cfg od_zero) = (zero_time, PNone)).
  { unfold rel_parse_date. destruct (negb _); [reflexivity|]. assert (RD : raw_durations E s = []).
    { unfold raw_durations. rewrite find_all_none; [reflexivity|]. pose proof tneeds_all as NS. inversion NS as [|? ? N1 NS1]; inversion NS1 as [|? ? N2 NS2]; inversion NS2 as [|? ? N3 NS3]; inversion NS3; subst. apply (lacks_none cother); auto using timed_plain. }
    unfold get_durations. rewrite RD. reflexivity. }
  rewrite RP. change (is_zero zero_time) with true. cbn [negb andb]. unfold date_is_zero. cbn [d_time d_period]. change (is_zero zero_time) with true. apply orb_true_r.
Qed.

(** ** What the absolute parser takes *)
Notation K := (clock_text h ms).
Definition tdigits (x : str) : Prop := x <> [] /\ Forall (fun c => is_tdigit c = true) x.
Lemma clock_tdigits : tdigits K.
Proof.
  assert (G : forall l X, digits X -> Forall digits l -> tdigits (clock_text X l)).
  { induction l as [|Y l IH]; intros X HX HL; unfold clock_text; cbn [map numtext].
    - split; [apply HX|]. destruct HX as [_ HX]. eapply Forall_impl; [|exact HX]. cbv beta. intros c Hc. unfold is_tdigit, is_digitA. lia.
    - inversion HL; subst. destruct (IH Y) as [N F]; [assumption..|]. split; [destruct X; discriminate|]. apply Forall_app. split; [|apply Forall_cons; [reflexivity|exact F]].
      destruct HX as [_ HX]. eapply Forall_impl; [|exact HX]. cbv beta. intros c Hc. unfold is_tdigit, is_digitA. lia. }
  now apply G.
Qed.
Lemma clock_asc : asc K.
Proof. destruct clock_tdigits as [_ F]. eapply Forall_impl; [|exact F]. cbv beta. intros c Hc. unfold is_tdigit, is_digitA in Hc. lia. Qed.
Lemma tok_tdigits : forall ds prev acc, is_tdigit prev = true -> Forall (fun c => is_tdigit c = true) ds -> asc ds -> asc acc -> acc <> [] -> is_tdigit (last acc 0) = true -> tok_loop prev acc ds = [dig (rev acc ++ ds)].
Proof.
  induction ds as [|c ds IH]; intros prev acc Hpr Hd Ha Hacc NE HL; cbn [tok_loop].
  - rewrite app_nil_r. unfold compare_chars. rewrite HL. cbn [fst]. unfold dig. do 2 f_equal. apply encode_asc. now apply asc_rev.
  - inversion Hd as [|? ? Hc Hd']; inversion Ha as [|? ? Hc2 Ha']; subst. unfold compare_chars. rewrite Hpr, Hc. cbn [negb].
    rewrite IH; [|exact Hc|exact Hd'|exact Ha'|now constructor|discriminate|destruct acc; [congruence|exact HL]]. cbn [rev]. now rewrite <- app_assoc.
Qed.
Lemma tokenize_gen X x Y y Z0 k : digits X -> digits Y -> digits Z0 -> separator x -> separator y -> tdigits k -> asc k -> tokenize (three X x Y y Z0 ++ 32 :: k) = [dig X; oth [x]; dig Y; oth [y]; dig Z0; oth [32]; dig k].
Proof.
  intros HX HY HZ Hx Hy [NK FK] AK. unfold tokenize. assert (AS : asc (three X x Y y Z0 ++ 32 :: k)) by (apply Forall_app; split; [now apply three_asc|constructor; [lia|exact AK]]). rewrite runes_asc by exact AS. clear AS.
  unfold three. destruct HX as [NA DA], HY as [NB DB], HZ as [NC DC].
  destruct X as [|a A']; [congruence|]. destruct Y as [|b B']; [congruence|]. destruct Z0 as [|c C']; [congruence|]. destruct k as [|k0 k]; [congruence|].
  inversion DA; inversion DB; inversion DC; inversion FK as [|? ? TK FK']; inversion AK; subst. rewrite <- !app_assoc. cbn [app]. rewrite <- !app_assoc. cbn [app].
  destruct (A' ++ x :: b :: B' ++ y :: c :: C' ++ 32 :: k0 :: k) as [|u l] eqn:EA; [now destruct A'|]. rewrite <- EA.
  rewrite tok_number_sep by assumption. rewrite tok_sep by assumption. rewrite tok_number_sep by assumption. rewrite tok_sep by assumption. rewrite tok_number_sep by (assumption || (unfold separator; lia)).
  do 5 f_equal. cbn [tok_loop]. assert (CC : compare_chars 32 k0 = (TOther, true)). { unfold compare_chars. change (is_tdigit 32) with false. change (is_tletter 32) with false. cbv iota. rewrite TK. reflexivity. }
  rewrite CC. f_equal. apply (tok_tdigits k k0 [k0]); auto; [repeat constructor; lia|discriminate].
Qed.
Lemma tokenize_timed : tokenize s = [dig A; oth [p]; dig B; oth [q]; dig C; oth [32]; dig K].
Proof. apply tokenize_gen; auto using clock_tdigits, clock_asc. Qed.
Lemma trimmed_timed : trimmed_tokens s = [dig A; oth (sep_text p); dig B; oth (sep_text q); dig C; oth []; dig K].
Proof.
  unfold trimmed_tokens. rewrite tokenize_timed by assumption. cbn [map dig oth tk_text tk_type].
  assert (trim_space K = K) as -> by (apply (trim_kind TDigit); apply forallb_forall; destruct clock_tdigits as [_ F]; rewrite Forall_forall in F; exact F).
  rewrite (trim_digits A HA), (trim_digits B HB), (trim_digits C HC).
  assert (SP : forall c, separator c -> trim_space [c] = sep_text c) by (intros c [-> | [-> | [-> | ->]]]; reflexivity).
  rewrite !SP by assumption. reflexivity.
Qed.
Notation toks := [dig A; oth (sep_text p); dig B; oth (sep_text q); dig C; oth []; dig K].
Notation fts := [(dig A, 0%nat); (dig B, 2%nat); (dig C, 4%nat); (dig K, 6%nat)].
Lemma no_merid x : Forall (fun c => is_tdigit c = true) x -> find_string U rxMeridian x = [].
Proof.
  intros F. apply (lacks_find_string is_alphaA); [exact UA|vm_compute; reflexivity|]. eapply Forall_impl; [|exact F]. cbv beta. intros c Hc. unfold is_tdigit, is_digitA in Hc. unfold is_alphaA, is_upperA, is_lowerA. lia.
Qed.
Lemma digits_td x : digits x -> Forall (fun c => is_tdigit c = true) x.
Proof. intros [_ H]. eapply Forall_impl; [|exact H]. cbv beta. intros c Hc. unfold is_tdigit, is_digitA. lia. Qed.
Lemma no_dotted i ft : nth_error fts i = Some ft -> dotted_time E toks fts i ft = None.
Proof.
  intros HN. unfold dotted_time. destruct i as [|[|[|[|i]]]]; cbn [nth_error] in *; try discriminate.
  - assert (ft = (dig A, 0%nat)) by congruence. subst ft. unfold is_before_period, is_after_period, nth_text. cbn [snd nth_error oth tk_text negb andb]. rewrite andb_true_r.
    destruct (eqs (sep_text p) period_txt) eqn:EP; [|reflexivity]. cbn [length Nat.eqb pred orb].
    assert (p = 46) by (destruct Hp as [e | [e | [e | e]]]; rewrite e in EP; try discriminate EP; exact e). assert (q = 46) as -> by (now apply PQ). reflexivity.
  - assert (ft = (dig B, 2%nat)) by congruence. subst ft. unfold is_before_period, is_after_period, nth_text. cbn [snd nth_error oth tk_text].
    destruct (eqs (sep_text q) period_txt) eqn:EQ; [|reflexivity]. assert (q = 46) by (destruct Hq as [e | [e | [e | e]]]; rewrite e in EQ; try discriminate EQ; exact e). assert (p = 46) as -> by (now apply PQ). reflexivity.
  - assert (ft = (dig C, 4%nat)) by congruence. subst ft. reflexivity.
  - reflexivity.
  - destruct i; discriminate HN.
Qed.
Lemma no_clock i ft : (i < 3)%nat -> nth_error fts i = Some ft -> try_time E toks fts i ft = {| tt_text := None; tt_ftext := tk_text (fst ft); tt_skip := [] |}.
Proof.
  intros LI HN. assert (TD : digits (tk_text (fst ft))).
  { destruct i as [|[|[|i]]]; cbn [nth_error] in HN; [assert (ft = (dig A, 0%nat)) by congruence|assert (ft = (dig B, 2%nat)) by congruence|assert (ft = (dig C, 4%nat)) by congruence|lia]; subst ft; assumption. }
  assert (MP : micro_part E toks fts i (tk_text (fst ft)) = []).
  { unfold micro_part. rewrite (no_colon (tk_text (fst ft)) TD). cbn [andb]. match goal with |- match ?x with _ => _ end = _ => destruct x as [[nt k]|]; reflexivity end. }
  assert (MD : match @nth_error ftoken fts (S i) with Some (mt, _) => find_string U rxMeridian (tk_text mt) | None => [] end = []).
  { destruct i as [|[|[|i]]]; cbn [nth_error dig tk_text]; try lia; apply no_merid; [now apply digits_td..|apply clock_tdigits]. }
  unfold try_time. rewrite (no_dotted i ft HN). cbv iota beta zeta. rewrite MP. cbn [empty]. rewrite MD. rewrite (no_colon (tk_text (fst ft)) TD). reflexivity.
Qed.
Lemma a_clock : ms <> [] -> try_time E toks fts 3 (dig K, 6%nat) = {| tt_text := Some K; tt_ftext := K; tt_skip := [] |}.
Proof.
  intros NM. assert (CK : contains K (lit ":") = true).
  { destruct ms as [|m ms']; [congruence|]. unfold clock_text. cbn [map numtext]. unfold contains. change (lit ":") with [58]. assert (IX : forall x r, index (x ++ 58 :: r) [58] <> None).
    { clear. induction x as [|c x IH]; intros r; cbn [app index has_prefix]; [discriminate|]. destruct (_ && _); [discriminate|]. specialize (IH r). destruct (index (x ++ 58 :: r) [58]); [discriminate|congruence]. }
    specialize (IX h (numtext m (map (pair 58) ms'))). destruct (index _ _); [reflexivity|congruence]. }
  unfold try_time. rewrite (no_dotted 3 (dig K, 6%nat) eq_refl). cbv iota beta zeta. unfold micro_part. cbn [nth_error empty fst dig tk_text]. rewrite CK. reflexivity.
Qed.
Lemma not_skipped_td x c r : x = c :: r -> is_tdigit c = true -> skipped_token x = false.
Proof.
  intros -> HC0. unfold skipped_token. destruct (mem (c :: r) _) eqn:M; [|reflexivity]. exfalso. apply mem_In in M. cbn [In lit] in M. destruct M as [M|[M|[M|[M|[]]]]]; injection M as <- _; discriminate HC0.
Qed.
Lemma actions_timed : ms <> [] -> actions E s = [ADigit A; ADigit B; ADigit C; ATime K].
Proof.
  intros NM. unfold actions. cbv zeta. rewrite trimmed_timed. change (filtered toks) with fts. cbn [acts existsb].
  rewrite (no_clock 0 (dig A, 0%nat)), (no_clock 1 (dig B, 2%nat)), (no_clock 2 (dig C, 4%nat)) by (lia || reflexivity). rewrite (a_clock NM). cbn [fst dig tk_text tk_type tt_text tt_ftext tt_skip app existsb].
  rewrite (digits_not_skipped A HA), (digits_not_skipped B HB), (digits_not_skipped C HC).
  assert (skipped_token K = false) as ->; [|reflexivity]. destruct clock_tdigits as [N F]. destruct K as [|k r] eqn:EK; [congruence|]. inversion F; subst. now apply (not_skipped_td (k :: r) k r).
Qed.
End T.
