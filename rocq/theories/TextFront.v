(** What happens to a tidy ASCII text before it is translated. What matters is its shape: the places of the letters and the digits. *)
From Coq Require Import ZifyBool.
From Verif Require Import GoBase SMap Regex RegexFacts RegexFacts2 RegexFacts3 GoTime Setting Strutil Digit Utf8Facts SpaceFacts Timezone Env Common Timestamp Relative Language Parser AbsFacts2 NumericFacts NumTranslate NumParse RegexWiden TextRename LocaleData.

(** letters look alike, digits look alike *)
Definition sh (c : Z) : Z := if is_digitA c then 48 else if is_alphaA c then 97 else c.
Lemma sh_ok : nrm_ok sh = true. Proof. vm_compute. reflexivity. Qed.
Lemma sh_eqb c k : is_digitA k = false -> is_alphaA k = false -> (sh c =? k) = (c =? k).
Proof. unfold sh, is_digitA, is_alphaA, is_upperA, is_lowerA. intros. destruct ((48 <=? c) && (c <=? 57)) eqn:A; [lia|]. destruct ((65 <=? c) && (c <=? 90) || (97 <=? c) && (c <=? 122)) eqn:B; lia. Qed.
Lemma sh_space c : 0 <= c < 128 -> is_space (sh c) = is_space c.
Proof.
  intros Hc. unfold sh, is_digitA, is_alphaA, is_upperA, is_lowerA. destruct ((48 <=? c) && (c <=? 57)) eqn:A; [unfold is_space; lia|]. destruct ((65 <=? c) && (c <=? 90) || (97 <=? c) && (c <=? 122)) eqn:B; [unfold is_space; lia|reflexivity].
Qed.

(** words joined by single spaces *)
Fixpoint spaced_from (b : bool) (s : str) : bool :=
  match s with [] => negb b | c :: t => if c =? 32 then negb b && spaced_from true t else negb (is_space c) && spaced_from false t end.
Definition spaced (s : str) : bool := spaced_from true s.
Lemma spaced_sh s : asc s -> forall b, spaced_from b (map sh s) = spaced_from b s.
Proof. induction 1 as [|c s Hc _ IH]; intros b; [reflexivity|]. cbn [map spaced_from]. rewrite sh_eqb, sh_space by (reflexivity || exact Hc). destruct (c =? 32); now rewrite IH. Qed.
Lemma spaced_words : forall s b, spaced_from b s = true -> exists w ws, Forall word ws /\ Forall (fun r => is_space r = false) w /\ (b = true -> w <> []) /\ s = w ++ match ws with [] => [] | _ => 32 :: join_words ws end.
Proof.
  induction s as [|c s IH]; intros b H; cbn [spaced_from] in H.
  - exists [], []. split; [constructor|]. split; [constructor|]. split; [intros ->; discriminate H|reflexivity].
  - destruct (c =? 32) eqn:C.
    + apply andb_true_iff in H as [H1 H2]. apply Z.eqb_eq in C. subst c. destruct (IH true H2) as (w & ws & W1 & W2 & W3 & ->). exists [], (w :: ws). split; [constructor; [split; auto|exact W1]|]. split; [constructor|]. split; [destruct b; discriminate|].
      cbn [app]. f_equal. destruct ws; [now rewrite app_nil_r|reflexivity].
    + apply andb_true_iff in H as [H1 H2]. destruct (IH false H2) as (w & ws & W1 & W2 & W3 & ->). exists (c :: w), ws. split; [exact W1|]. split; [constructor; [now apply negb_true_iff|exact W2]|]. split; [discriminate|reflexivity].
Qed.
Lemma spaced_is s : spaced s = true -> exists ws, Forall word ws /\ ws <> [] /\ s = join_words ws.
Proof.
  intros H. destruct (spaced_words s true H) as (w & ws & W1 & W2 & W3 & ->). exists (w :: ws). split; [constructor; [split; auto|exact W1]|]. split; [discriminate|]. destruct ws; [now rewrite app_nil_r|reflexivity].
Qed.
Lemma asc_words ws : asc (join_words ws) -> Forall asc ws.
Proof.
  induction ws as [|w [|w2 ws] IH]; intros H; [constructor|constructor; [exact H|constructor]|]. change (join_words (w :: w2 :: ws)) with (w ++ 32 :: join_words (w2 :: ws)) in H. apply Forall_app in H as [H1 H2]. constructor; [exact H1|]. apply IH. now inversion H2.
Qed.
Lemma spaced_sanitize s : asc s -> spaced s = true -> sanitize_spaces s = s.
Proof. intros HA HS. destruct (spaced_is s HS) as (ws & W1 & _ & ->). apply sanitize_asc; [exact W1|now apply asc_words]. Qed.
Lemma spaced_trim s : asc s -> spaced s = true -> trim_space s = s.
Proof.
  intros HA HS. rewrite trim_asc by exact HA. destruct s as [|c s]; [reflexivity|]. unfold spaced in HS. cbn [spaced_from] in HS. destruct (c =? 32); [discriminate HS|]. apply andb_true_iff in HS as [H1 H2].
  cbn [drop_while]. apply negb_true_iff in H1. rewrite H1.
  assert (L : is_space (last (c :: s) 0) = false).
  { clear HA. revert c H1 H2. induction s as [|d s IH]; intros c H1 H2; [exact H1|]. change (last (c :: d :: s) 0) with (last (d :: s) 0). cbn [spaced_from] in H2. destruct (d =? 32) eqn:D.
    - cbn [negb andb] in H2. destruct s as [|e s]; [discriminate H2|]. change (last (d :: e :: s) 0) with (last (e :: s) 0). cbn [spaced_from] in H2. destruct (e =? 32); [discriminate H2|]. apply andb_true_iff in H2 as [H2 H3]. apply negb_true_iff in H2.
      specialize (IH e H2). change (last (e :: e :: s) 0) with (last (e :: s) 0) in IH. apply IH. cbn [spaced_from]. destruct (e =? 32) eqn:E; [apply Z.eqb_eq in E; subst e; discriminate H2|]. rewrite H2. exact H3.
    - apply andb_true_iff in H2 as [H2 H3]. apply negb_true_iff in H2. now apply IH. }
  destruct (@exists_last _ (c :: s)) as (l & x & EL); [discriminate|]. rewrite EL in L |- *. rewrite last_app_ne in L. rewrite rev_app_distr. cbn [rev app drop_while]. rewrite L. cbn [rev]. now rewrite rev_involutive.
Qed.

(** a pattern that no text of this shape matches *)
Definition shapeless (r : regex) (s : str) : bool := negb (match_string uni_min (widened sh r) (map sh s)).
Lemma shapeless_none U r s0 s : uni_ascii U -> respects sh (rx_ast (widened sh r)) = true -> asc s -> map sh s = map sh s0 -> shapeless r s0 = true -> Regex.find U r s = None.
Proof.
  intros UA HR HA HM HN. apply negb_true_iff in HN. rewrite <- HM in HN. rewrite <- (match_norm sh U UA sh_ok (widened sh r) s HR HA) in HN. apply (widen_none sh U r s HA) in HN.
  unfold match_string in HN. destruct (Regex.find U r s); [discriminate HN|reflexivity].
Qed.
Definition front_patterns : list regex := [rxSanitizeSkip; rxSanitizeRussian; rxSanitizeCroatian; rxSanitizePeriod; rxSanitizeOn; rxTimestamp; rxNegativeTimestamp].
Lemma front_ok : forallb (fun r => respects sh (rx_ast (widened sh r))) front_patterns = true. Proof. vm_compute. reflexivity. Qed.
Definition tidy (s : str) : bool := ascb s && spaced s && negb (last s 0 =? 58) && forallb (fun r => shapeless r s) front_patterns.

Lemma lower_asc t : asc t -> asc (map lowerA t).
Proof. induction 1 as [|c t Hc _ IH]; [constructor|]. constructor; [|exact IH]. unfold lowerA, is_upperA. destruct ((65 <=? c) && (c <=? 90)) eqn:B; lia. Qed.
Lemma lower_spaced t : forall b, spaced_from b (map lowerA t) = spaced_from b t.
Proof.
  induction t as [|c t IH]; intros b; [reflexivity|]. cbn [map spaced_from]. rewrite !IH. assert (lowerA c =? 32 = (c =? 32)) as -> by (unfold lowerA, is_upperA; destruct ((65 <=? c) && (c <=? 90)) eqn:B; lia).
  assert (is_space (lowerA c) = is_space c) as ->; [|reflexivity]. unfold lowerA, is_upperA. destruct ((65 <=? c) && (c <=? 90)) eqn:B; [|reflexivity]. unfold is_space. lia.
Qed.
Section T.
Variable E : env.
Notation U := (e_uni E).
Hypothesis UA : uni_ascii U.
Variables s0 s : str.
Hypothesis TD : tidy s0 = true.
Hypothesis HA : asc s.
Hypothesis HM : map sh s = map sh s0.
Lemma tidy_asc0 : asc s0. Proof. unfold tidy in TD. rewrite !andb_true_iff in TD. now apply ascb_asc. Qed.
Lemma tidy_none r : In r front_patterns -> Regex.find U r s = None.
Proof.
  intros HI. pose proof front_ok as FO. rewrite forallb_forall in FO. unfold tidy in TD. rewrite !andb_true_iff in TD. destruct TD as [_ HF]. rewrite forallb_forall in HF. apply (shapeless_none U r s0 s UA); auto.
Qed.
Lemma tidy_spaced : spaced s = true.
Proof.
  pose proof tidy_asc0 as A0. unfold tidy in TD. rewrite !andb_true_iff in TD. destruct TD as [[[_ HS] _] _]. unfold spaced in *. rewrite <- (spaced_sh s HA), HM, (spaced_sh s0 A0). exact HS.
Qed.
Lemma last_map (g : Z -> Z) l d : l <> [] -> last (map g l) d = g (last l d).
Proof. induction l as [|a l IH]; [congruence|]. intros _. destruct l as [|b l]; [reflexivity|]. change (last (map g (a :: b :: l)) d) with (last (map g (b :: l)) d). rewrite IH by discriminate. reflexivity. Qed.
Theorem tidy_sanitize : sanitize_date U s = s.
Proof.
  unfold sanitize_date. rewrite !(replace_none U _ s) by (apply tidy_none; unfold front_patterns; cbn [In]; tauto). rewrite (spaced_sanitize s HA tidy_spaced). rewrite !(replace_none U _ s) by (apply tidy_none; unfold front_patterns; cbn [In]; tauto).
  assert (trim_suffix s (lit ":") = s) as ->.
  { unfold trim_suffix, has_suffix. change (rev (lit ":")) with [58]. destruct (rev s) as [|c l] eqn:ER; [reflexivity|]. cbn [has_prefix]. rewrite andb_true_r. destruct (58 =? c) eqn:E5; [|reflexivity]. exfalso. apply Z.eqb_eq in E5. subst c.
    assert (ES : s = rev l ++ [58]) by (rewrite <- (rev_involutive s), ER; reflexivity). pose proof TD as TD2. unfold tidy in TD2. rewrite !andb_true_iff in TD2. destruct TD2 as [[[A0 _] HL] _].
    assert (NE : s0 <> []) by (intros ->; rewrite ES, map_app in HM; destruct (map sh (rev l)); discriminate HM).
    assert (X : sh (last s0 0) = 58). { rewrite <- last_map by exact NE. rewrite <- HM, ES, map_app. change (map sh [58]) with [58]. apply last_app_ne. }
    rewrite <- (sh_eqb (last s0 0) 58 eq_refl eq_refl) in HL. rewrite X in HL. discriminate HL. }
  unfold normalize_apos. rewrite runes_asc by exact HA.
  assert (map apos_map s = s) as ->.
  { rewrite <- (map_id s) at 2. apply map_ext_in. intros c Hc. unfold asc in HA. rewrite Forall_forall in HA. apply HA in Hc. unfold apos_map. cbn [existsb]. destruct (_ || _) eqn:O; [lia|reflexivity]. }
  rewrite encode_asc by exact HA. now apply spaced_trim, tidy_spaced.
Qed.
Lemma tidy_timestamp cfg neg : timestamp_parse E cfg s neg = zero_date.
Proof. unfold timestamp_parse. destruct neg; rewrite tidy_none by (unfold front_patterns; cbn [In]; tauto); reflexivity. Qed.
Lemma to_lower_asc t : asc t -> to_lower U t = map lowerA t.
Proof.
  intros HT. unfold to_lower. now rewrite asc_ascii.
Qed.
Theorem tidy_normalize : normalize_token E s = map lowerA s.
Proof.
  unfold normalize_token, normalize_string, normalize_unicode. rewrite (ua_nfkd _ UA) by (now apply asc_ascii). rewrite to_lower_asc by exact HA.
  rewrite spaced_sanitize by (try (now apply lower_asc); unfold spaced; rewrite lower_spaced; apply tidy_spaced). apply (digit_normalize_ascii E UA loc_en); now apply lower_asc.
Qed.
End T.
