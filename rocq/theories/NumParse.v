(** Three numbers joined by separators, through the whole of Parse *)
From Coq Require Import ZifyBool.
From Verif Require Import GoBase SMap Regex RegexFacts RegexFacts2 RegexFacts3 RegexFacts4 GoTime GoTimeFacts Setting Strutil Utf8Facts SpaceFacts Digit Timezone Env Common Timestamp Formatted Relative
  Absolute Language Parser ParserFacts Tokenizer AbsFacts2 NumericFacts NumTranslate.

(** ** Patterns that do not match *)
Lemma first_match_drop U r p l : first_match U r l = None -> first_match U r (drop_while p l) = None.
Proof.
  induction l as [|s l IH]; [auto|]. cbn [drop_while]. destruct (p s); [|auto]. intros H. apply IH. cbn [first_match] in H. destruct (match_here U r s); [discriminate|exact H].
Qed.
Lemma replace_none U r s t : find U r s = None -> replace_all_string U r s t = s.
Proof.
  intros H. unfold replace_all_string, replace_all_fn. cbn [replace_loop]. change (Nat.ltb (length s) 0) with false. cbv iota. unfold exec_from. unfold find in H. rewrite first_match_drop by exact H. reflexivity.
Qed.
Lemma find_all_none U r s : find U r s = None -> find_all U r s = [].
Proof.
  intros H. unfold find_all. cbn [all_matches]. change (Nat.ltb (length s) 0) with false. cbv iota. unfold exec_from. unfold find in H. rewrite first_match_drop by exact H. reflexivity.
Qed.

(** ** The shapes of three numbers of at most four digits *)
Definition shapes : list str :=
  flat_map (fun a => flat_map (fun b => flat_map (fun c => flat_map (fun p => map (fun q => three (repeat 48 a) p (repeat 48 b) q (repeat 48 c)) seps) seps) (seq 1 4)) (seq 1 4)) (seq 1 4).
Definition short (A : str) : Prop := (length A <= 4)%nat.
Lemma dig0_digits A : digits A -> map dig0 A = repeat 48 (length A).
Proof.
  intros [_ HA]. induction HA as [|c A Hc _ IH]; [reflexivity|]. cbn [map length repeat]. rewrite IH. f_equal. unfold dig0, is_digitA. assert ((48 <=? c) && (c <=? 57) = true) as -> by lia. reflexivity.
Qed.
Lemma three_shape A p B q C : digits A -> digits B -> digits C -> separator p -> separator q -> short A -> short B -> short C -> In (map dig0 (three A p B q C)) shapes.
Proof.
  intros HA HB HC Hp Hq SA SB SC. unfold three. rewrite map_app. cbn [map]. rewrite map_app. cbn [map]. rewrite !dig0_digits by assumption.
  assert (DS : forall c, separator c -> dig0 c = c /\ In c seps) by (intros c [-> | [-> | [-> | ->]]]; vm_compute; intuition). rewrite (proj1 (DS p Hp)), (proj1 (DS q Hq)).
  assert (LS : forall A, digits A -> short A -> In (length A) (seq 1 4)) by (intros X [H _] S; apply in_seq; destruct X; [congruence|unfold short in S; cbn [length] in *; lia]).
  unfold shapes. apply in_flat_map. exists (length A). split; [auto|]. apply in_flat_map. exists (length B). split; [auto|]. apply in_flat_map. exists (length C). split; [auto|].
  apply in_flat_map. exists p. split; [apply DS, Hp|]. apply in_map_iff. exists q. split; [reflexivity|apply DS, Hq].
Qed.
Definition never (r : regex) : bool := respects dig0 (rx_ast r) && forallb (fun s => negb (match_string uni_min r s)) shapes.
Lemma never_none U r A p B q C : uni_ascii U -> never r = true -> digits A -> digits B -> digits C -> separator p -> separator q -> short A -> short B -> short C ->
  find U r (three A p B q C) = None.
Proof.
  intros UA HN HA HB HC Hp Hq SA SB SC. unfold never in HN. apply andb_true_iff in HN as [HR HF]. rewrite forallb_forall in HF. specialize (HF _ (three_shape A p B q C HA HB HC Hp Hq SA SB SC)).
  rewrite (find_norm dig0 U UA dig0_ok) by (assumption || now apply three_asc). unfold match_string in HF. destruct (find uni_min r _); [discriminate|reflexivity].
Qed.
Lemma never_some : Forall (fun r => never r = true) [rxSanitizeCroatian; rxSanitizePeriod; rxTimestamp; rxNegativeTimestamp].
Proof. repeat (apply Forall_cons; [vm_compute; reflexivity|]). constructor. Qed.
Lemma needs_some : Forall (fun r => needs other (rx_ast r) = true) [rxSanitizeSkip; rxSanitizeRussian; rxSanitizeOn; rxRelativePattern].
Proof. repeat (apply Forall_cons; [vm_compute; reflexivity|]). constructor. Qed.

Lemma digit_prefix x B l t : numbers B l -> digits x -> numtext B l = x ++ t -> exists y, B = x ++ y.
Proof.
  intros [[_ HBd] HL] [_ Hx] HE. revert B HBd HE. induction Hx as [|c x Hc Hx IH]; intros B HBd HE; [now exists B|]. destruct B as [|b B].
  - exfalso. destruct l as [|[c2 B2] l]; [discriminate HE|]. cbn [numtext app] in HE. inversion HL as [|? ? [Hs _] _]; subst. cbn [fst] in Hs. unfold separator in Hs. assert (c2 = c) by congruence. lia.
  - inversion HBd; subst. assert (b = c /\ numtext B l = x ++ t) as [-> HE2]; [destruct l as [|[c2 B2] l]; cbn [numtext app] in HE |- *; split; congruence|].
    destruct (IH B) as [y ->]; [assumption|exact HE2|]. now exists y.
Qed.

(** a dash followed by four digits can look like a timezone *)
Definition tz_texts : list str := map lit ["-0000"; "-0100"; "-0200"; "-0230"; "-0300"; "-0330"; "-0400"; "-0430"; "-0500"; "-0600"; "-0700"; "-0800"; "-0900"; "-0930"; "-1000"; "-1100"; "-1200"]%string.
Definition tz_formb (w : str) : bool := match w with c :: x => (c =? 45) && (forallb is_digitA x && Nat.eqb (length x) 4) | [] => false end.
Lemma tz_formb_ok w : tz_formb w = true -> exists x, w = 45 :: x /\ digits x /\ length x = 4%nat.
Proof.
  destruct w as [|c x]; [intros T; discriminate T|]. cbn [tz_formb]. intros T. apply andb_true_iff in T as [T1 T]. apply andb_true_iff in T as [T2 T3]. apply Z.eqb_eq in T1. apply Nat.eqb_eq in T3. exists x.
  split; [now rewrite T1|]. split; [|exact T3]. split; [destruct x; [discriminate T3|congruence]|]. apply Forall_forall. intros d Hd. rewrite forallb_forall in T2. apply T2 in Hd. unfold is_digitA in Hd. lia.
Qed.
Lemma tz_form w : In w tz_texts -> exists x, w = 45 :: x /\ digits x /\ length x = 4%nat.
Proof.
  intros H. apply tz_formb_ok. revert w H. apply forallb_forall. vm_compute. reflexivity.
Qed.

Section E.
Variable E : env.
Notation U := (e_uni E).
Hypothesis UA : uni_ascii U.

Section Text.
Variables (A B C : str) (p q : Z).
Hypotheses (HA : digits A) (HB : digits B) (HC : digits C) (Hp : separator p) (Hq : separator q) (SA : short A) (SB : short B) (SC : short C).
Notation s := (three A p B q C).
Lemma three_numbers : numbers A [(p, B); (q, C)].
Proof. split; [exact HA|]. repeat (apply Forall_cons; [cbn [fst snd]; auto|]). constructor. Qed.
Lemma three_plain : lacks other s. Proof. rewrite three_numtext. apply num_plain, three_numbers. Qed.
Lemma three_never r : never r = true -> find U r s = None. Proof. intros H. now apply never_none. Qed.
Lemma sanitize_date_three : sanitize_date U s = s.
Proof.
  pose proof needs_some as NS. inversion NS as [|? ? N1 NS1]; inversion NS1 as [|? ? N2 NS2]; inversion NS2 as [|? ? N3 _]; subst.
  pose proof never_some as VS. inversion VS as [|? ? V1 VS1]; inversion VS1 as [|? ? V2 _]; subst. clear NS NS1 NS2 VS VS1.
  unfold sanitize_date. rewrite (replace_none _ rxSanitizeSkip) by (apply (lacks_none other); auto using three_plain). rewrite (replace_none _ rxSanitizeRussian) by (apply (lacks_none other); auto using three_plain).
  rewrite (replace_none _ rxSanitizeCroatian) by (now apply three_never). rewrite three_sanitize by assumption. rewrite (replace_none _ rxSanitizePeriod) by (now apply three_never).
  rewrite (replace_none _ rxSanitizeOn) by (apply (lacks_none other); auto using three_plain).
  assert (trim_suffix s (lit ":") = s) as ->.
  { unfold trim_suffix, has_suffix. change (rev (lit ":")) with [58]. destruct (rev s) as [|c l] eqn:ER; [reflexivity|]. cbn [has_prefix]. assert (IC : In c s) by (apply in_rev; rewrite ER; now left).
    pose proof three_plain as TP. unfold lacks in TP. rewrite Forall_forall in TP. apply TP in IC as [_ IC]. destruct (58 =? c) eqn:E5; [|reflexivity]. apply Z.eqb_eq in E5. subst c. discriminate IC. }
  unfold normalize_apos. rewrite runes_asc by (now apply three_asc).
  assert (map apos_map s = s) as ->.
  { rewrite <- (map_id s) at 2. apply map_ext_in. intros c Hc. pose proof (three_asc A p B q C HA HB HC Hp Hq) as TA. unfold asc in TA. rewrite Forall_forall in TA. apply TA in Hc. unfold apos_map. cbn [existsb].
    destruct (_ || _) eqn:O; [lia|reflexivity]. }
  rewrite encode_asc by (now apply three_asc). rewrite three_numtext. apply trim_num, three_numbers.
Qed.
Lemma no_timestamp cfg neg : timestamp_parse E cfg s neg = zero_date.
Proof.
  pose proof never_some as VS. inversion VS as [|? ? _ VS1]; inversion VS1 as [|? ? _ VS2]; inversion VS2 as [|? ? V3 VS3]; inversion VS3 as [|? ? V4 _]; subst.
  unfold timestamp_parse. destruct neg; now rewrite three_never.
Qed.
Lemma strip_three : strip_braces s = s.
Proof.
  unfold strip_braces. rewrite runes_asc by (now apply three_asc). rewrite filter_id; [apply encode_asc; now apply three_asc|]. apply forallb_forall. intros c Hc.
  pose proof three_plain as TP. unfold lacks in TP. rewrite Forall_forall in TP. apply TP in Hc as [_ Hc]. unfold other, plain, sepb, is_digitA in Hc. cbn [existsb seps] in Hc. unfold is_brace. cbn [existsb]. lia.
Qed.
Lemma tz_lits : exists ls, lits other (rx_ast rxSearchIgnoreCase) = Some ls /\ incl ls tz_texts.
Proof.
  assert (H : match lits other (rx_ast rxSearchIgnoreCase) with Some ls => forallb (fun l => mem l tz_texts) ls | None => false end = true) by (vm_compute; reflexivity).
  destruct (lits other (rx_ast rxSearchIgnoreCase)) as [ls|]; [|discriminate]. exists ls. split; [reflexivity|]. intros x Hx. rewrite forallb_forall in H. now apply mem_In, H.
Qed.
Lemma no_tz : (forall Y, (Y = B /\ p = 45 \/ Y = C /\ q = 45) -> ~ In (45 :: Y) tz_texts) -> etz_pop E s = (s, od_zero).
Proof.
  intros HY. unfold etz_pop, pop_tz. assert (match_string U rxSearchIgnoreCase s = false) as ->; [|reflexivity].
  unfold match_string. destruct (find U rxSearchIgnoreCase s) as [m|] eqn:F; [|reflexivity]. exfalso.
  destruct tz_lits as (ls & HL & HI). destruct (lits_occur other U UA rxSearchIgnoreCase ls s m HL three_plain F) as (a & l & b & Hl & Hs). apply HI in Hl.
  destruct (tz_form l Hl) as (x & -> & Hx & Lx). pose proof three_numbers as TN.
  destruct (num_split [(p, B); (q, C)] A (length a) 45 (x ++ b) TN) as (l1 & B' & l2 & EL & _ & EB & _); [now left|rewrite <- three_numtext, Hs, skipn_app, skipn_all, Nat.sub_diag; reflexivity|].
  rewrite EL in TN. apply numbers_app in TN as (_ & _ & NB). symmetry in EB. destruct (digit_prefix x B' l2 b NB Hx EB) as (y & ->).
  assert (CS : (x ++ y = B /\ p = 45) \/ (x ++ y = C /\ q = 45)).
  { destruct l1 as [|u [|v l1]]; cbn [app] in EL; [left|right|]; try (split; congruence). destruct l1; discriminate EL. }
  assert (y = []). { destruct y; [reflexivity|]. exfalso. destruct CS as [[<- _]|[<- _]]; unfold short in *; rewrite app_length in *; cbn [length] in *; lia. }
  subst y. rewrite app_nil_r in CS. exact (HY x CS Hl).
Qed.
Hypothesis TZ : etz_pop E s = (s, od_zero).
Lemma no_relative cfg : date_is_zero (relative_parse E cfg s) = true.
Proof.
  unfold relative_parse. rewrite strip_three, TZ. destruct (match rel_parse_time E s with Some p => p | None => _ end) as [t tper].
  assert (RP : rel_parse_date E cfg s (rel_now E cfg od_zero) = (zero_time, PNone)).
  { unfold rel_parse_date. destruct (negb _); [reflexivity|]. assert (RD : raw_durations E s = []).
    { unfold raw_durations. rewrite find_all_none; [reflexivity|]. pose proof needs_some as NS. inversion NS as [|? ? N1 NS1]; inversion NS1 as [|? ? N2 NS2]; inversion NS2 as [|? ? N3 NS3]; inversion NS3; subst. apply (lacks_none other); auto using three_plain. }
    unfold get_durations. rewrite RD. reflexivity. }
  rewrite RP. change (is_zero zero_time) with true. cbn [negb andb]. unfold date_is_zero. cbn [d_time d_period]. change (is_zero zero_time) with true. apply orb_true_r.
Qed.
End Text.
End E.
