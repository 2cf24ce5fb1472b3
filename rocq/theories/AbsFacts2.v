(** Tokens and component values of the absolute parser *)
From Coq Require Import ZifyBool.
From Verif Require Import GoBase SMap Regex Civil GoTime GoTimeFacts GoTimeParse Setting Strutil Dateutil DateutilFacts Tokenizer Timezone Env Common Absolute
  Utf8Facts SpaceFacts Prop_Text AbsFacts.

Lemma decode_rune_ascii s : s <> [] -> fst (decode_rune s) < 128 -> exists s', s = fst (decode_rune s) :: s' /\ snd (decode_rune s) = 1%nat.
Proof.
  intros Hn H. destruct s as [|b0 s]; [congruence|]. cbn [decode_rune] in *.
  destruct (b0 <? 128) eqn:E1; [exists s; split; reflexivity|]. exfalso. destruct (b0 <? 194) eqn:E2; [cbn [fst] in H; unfold rune_error in H; lia|].
  destruct s as [|b1 s]; [cbn [fst] in H; unfold rune_error in H; lia|].
  destruct (b0 <? 224) eqn:E3.
  { unfold cont in H. destruct ((128 <=? b1) && (b1 <=? 191)) eqn:E4; cbn [fst] in H; unfold rune_error in H; lia. }
  destruct s as [|b2 s]; [cbn [fst] in H; unfold rune_error in H; lia|].
  destruct (b0 <? 240) eqn:E4.
  { unfold cont in H. cbv zeta in H. destruct (_ && _) eqn:E5 in H; cbn [fst] in H; unfold rune_error in H; [|lia].
    destruct (Z.eqb_spec b0 224), (Z.eqb_spec b0 237); lia. }
  destruct s as [|b3 s]; [cbn [fst] in H; unfold rune_error in H; lia|].
  destruct (b0 <? 245) eqn:E5; [|cbn [fst] in H; unfold rune_error in H; lia]. unfold cont in H. cbv zeta in H.
  destruct (_ && _) eqn:E6 in H; cbn [fst] in H; unfold rune_error in H; [|lia].
  destruct (Z.eqb_spec b0 240), (Z.eqb_spec b0 244); lia.
Qed.

Definition is_kind (ty : ttype) (c : Z) : bool := match ty with TDigit => is_tdigit c | TLetter => is_alphaA c | _ => false end.
Lemma kind_is r ty : kind r = ty -> ty <> TOther -> ty <> TNull -> is_kind ty r = true.
Proof.
  intros <-. unfold kind, is_kind, is_tdigit, is_digitA, is_alphaA, is_upperA, is_lowerA.
  destruct ((48 <=? r) && (r <=? 57) || (r =? 58)) eqn:A; [intros; reflexivity|].
  destruct ((65 <=? r) && (r <=? 90) || (97 <=? r) && (r <=? 122)) eqn:B; [intros; reflexivity|]. congruence.
Qed.
Lemma kind_not_null r : kind r <> TNull.
Proof. unfold kind. destruct ((48 <=? r) && (r <=? 57) || (r =? 58)); [discriminate|]. destruct ((65 <=? r) && (r <=? 90) || (97 <=? r) && (r <=? 122)); discriminate. Qed.
Lemma is_kind_ascii ty r : is_kind ty r = true -> 0 <= r < 128 /\ is_space r = false.
Proof. unfold is_kind, is_tdigit, is_digitA, is_alphaA, is_upperA, is_lowerA, is_space. destruct ty; intros H; try discriminate; lia. Qed.
Lemma kinds_ascii ty s : forallb (is_kind ty) s = true -> forallb (fun c => (0 <=? c) && (c <? 128)) s = true.
Proof. rewrite !forallb_forall. intros H x Hx. apply H in Hx. apply is_kind_ascii in Hx. lia. Qed.
Lemma ascii_is s : forallb (fun c => (0 <=? c) && (c <? 128)) s = true -> is_ascii s = true.
Proof. unfold is_ascii. rewrite !forallb_forall. intros H x Hx. apply H in Hx. lia. Qed.

(** trimming white space from a string without any *)
Lemma trim_none s : forallb (fun c => (0 <=? c) && (c <? 128)) s = true -> forallb (fun c => negb (is_space c)) s = true -> trim_space s = s.
Proof.
  intros HA HS. unfold trim_space, trim_func.
  assert (D : forall l : list (Z * str), forallb (fun p => negb (is_space (fst p))) l = true -> drop_while (fun p => is_space (fst p)) l = l).
  { intros [|p l] H; [reflexivity|]. cbn [forallb drop_while] in *. apply andb_true_iff in H as [H _]. now destruct (is_space (fst p)). }
  assert (C : forallb (fun p => negb (is_space (fst p))) (chunks s) = true).
  { assert (M : forallb (fun r => negb (is_space r)) (map fst (chunks s)) = true) by (rewrite chunks_runes, runes_ascii by (now apply ascii_is); exact HS).
    clear -M. induction (chunks s) as [|p l IH]; [reflexivity|]. cbn [map forallb] in *. apply andb_true_iff in M as [H1 H2]. now rewrite H1, IH. }
  rewrite (D _ C). rewrite D by (rewrite forallb_forall in *; intros x Hx; apply C; now apply in_rev).
  rewrite rev_involutive. apply unchunks_chunks.
Qed.
Lemma trim_kind ty s : forallb (is_kind ty) s = true -> trim_space s = s.
Proof. intros H. apply trim_none; [now apply (kinds_ascii ty)|]. rewrite forallb_forall in *. intros x Hx. apply H, is_kind_ascii in Hx. now rewrite (proj2 Hx). Qed.

(** a digit token consists of ASCII digits and colons, a letter token of ASCII letters *)
Lemma token_kind s t : In t (trimmed_tokens s) -> tk_type t <> TOther -> tk_text t <> [] /\ forallb (is_kind (tk_type t)) (tk_text t) = true.
Proof.
  unfold trimmed_tokens. rewrite in_map_iff. intros (t0 & <- & Hi) Hty. cbn [tk_type tk_text] in *.
  assert (G : tk_type t0 <> TNull /\ tk_text t0 <> [] /\ forallb (is_kind (tk_type t0)) (tk_text t0) = true);
    [|destruct G as (G0 & G1 & G2); rewrite (trim_kind _ _ G2); auto].
  unfold tokenize in Hi. destruct (runes s) as [|c [|c2 cs]] eqn:R; [destruct Hi| |].
  - destruct Hi as [<-|[]]. cbn [tk_type tk_text] in *. rewrite compare_kind in *. cbn [fst] in *.
    assert (NN : kind c <> TNull) by (apply kind_not_null).
    pose proof (kind_is c _ eq_refl Hty NN) as K. pose proof (is_kind_ascii _ _ K) as [Hc _].
    assert (Hs : s <> []) by (intros ->; discriminate). rewrite (runes_unfold s Hs) in R. assert (Hf : fst (decode_rune s) = c) by congruence.
    destruct (decode_rune_ascii s Hs) as (s' & E1 & E2); [lia|]. rewrite E2, Hf in *. rewrite E1 in R. cbn [skipn] in R.
    assert (s' = []). { destruct s'; [reflexivity|]. exfalso. assert (N : runes (z :: s') = []) by congruence. rewrite runes_unfold in N by discriminate. discriminate. }
    subst s'. rewrite E1. split; [exact NN|]. split; [discriminate|]. cbn [forallb]. now rewrite K.
  - destruct (tok_loop_spec (c2 :: cs) c [c]) as (toks & E & _ & _ & Hf & _); [eexists; reflexivity | repeat constructor|].
    rewrite E in Hi. apply in_map_iff in Hi as (p & <- & Hp). cbn [tk_type tk_text] in *. rewrite Forall_forall in Hf. destruct (Hf _ Hp) as [Hn Hk].
    destruct p as [rs ty]. cbn [fst snd] in *. destruct rs as [|r rs]; [congruence|].
    assert (NN : ty <> TNull). { inversion Hk as [|? ? Hr _]; subst. apply kind_not_null. }
    assert (K : forallb (is_kind ty) (r :: rs) = true).
    { rewrite forallb_forall. rewrite Forall_forall in Hk. intros x Hx. apply kind_is; auto. }
    rewrite encode_ascii by now apply (kinds_ascii ty). split; [exact NN|]. split; [discriminate|exact K].
Qed.
Lemma to_lower_kind U ty s : forallb (is_kind ty) s = true -> to_lower U s = map lowerA s.
Proof. intros H. unfold to_lower. now rewrite (ascii_is s (kinds_ascii _ _ H)). Qed.
Lemma lower_digits s : forallb is_tdigit s = true -> map lowerA s = s.
Proof.
  intros H. rewrite <- (map_id s) at 2. apply map_ext_in. intros c Hc. rewrite forallb_forall in H. apply H in Hc.
  unfold is_tdigit, is_digitA in Hc. unfold lowerA, is_upperA. assert ((65 <=? c) && (c <=? 90) = false) as -> by lia. reflexivity.
Qed.

(** * Values *)
(** the number written by a string of decimal digits *)
Fixpoint number (acc : Z) (s : str) : Z := match s with [] => acc | c :: s' => number (acc * 10 + (c - 48)) s' end.
Definition digits (s : str) : Prop := s <> [] /\ Forall (fun c => 48 <= c <= 57) s.
Lemma dec_val_number s : forall acc v, dec_val acc s = Some v -> v = number acc s /\ Forall (fun c => 48 <= c <= 57) s.
Proof.
  induction s as [|c s IH]; intros acc v; cbn [dec_val number]; [intros [= <-]; auto|]. unfold is_digitA. destruct (_ && _) eqn:D; [|discriminate].
  intros H. apply IH in H as [-> H]. split; [reflexivity|]. constructor; [lia|exact H].
Qed.
Lemma digits_dec_val s : Forall (fun c => 48 <= c <= 57) s -> forall acc, dec_val acc s = Some (number acc s).
Proof.
  induction 1 as [|c s Hc _ IH]; intros acc; cbn [dec_val number]; [reflexivity|]. unfold is_digitA.
  assert ((48 <=? c) && (c <=? 57) = true) as -> by lia. apply IH.
Qed.
Lemma digits_atoi s : digits s -> atoi s = Some (number 0 s).
Proof.
  intros [Hn Hd]. destruct s as [|c s]; [congruence|]. unfold atoi. inversion Hd as [|? ? Hc _]; subst.
  assert (c =? 45 = false) as -> by lia. assert (c =? 43 = false) as -> by lia. now apply digits_dec_val.
Qed.
Lemma getnum_digits v n : getnum v false = Some (n, []) -> digits v /\ n = number 0 v /\ (length v = 1 \/ length v = 2)%nat.
Proof.
  unfold getnum, digits. destruct v as [|a s1]; [discriminate|]. unfold is_digitA. destruct ((48 <=? a) && (a <=? 57)) eqn:A; [|discriminate].
  destruct s1 as [|b s2]; [|destruct ((48 <=? b) && (b <=? 57)) eqn:B].
  - intros H. assert (n = a - 48) as -> by congruence. cbn [number length]. split; [split; [discriminate|repeat (constructor; try lia)]|split; lia].
  - intros H. assert (n = (a - 48) * 10 + (b - 48)) as -> by congruence. assert (s2 = []) as -> by congruence. clear H. cbn [number length]. split; [split; [discriminate|repeat (constructor; try lia)]|split; lia].
  - intros H. exfalso. congruence.
Qed.
Lemma atoi_digits v n : forallb is_tdigit v = true -> atoi v = Some n -> digits v /\ n = number 0 v.
Proof.
  destruct v as [|c v]; [discriminate|]. intros H. unfold atoi. cbn [forallb] in H. unfold is_tdigit, is_digitA in H.
  assert (c =? 45 = false) as -> by lia. assert (c =? 43 = false) as -> by lia. intros D. apply dec_val_number in D as [-> D]. split; [split; [discriminate|exact D]|reflexivity].
Qed.
Lemma utc_year y : year (mk_date y 1 1 0 0 0 0 utc) = y.
Proof. apply mk_date_year; [apply fixed_utc| |unfold valid_clock; lia]. pose proof (days_in_bounds y 1). unfold valid_date. lia. Qed.
Lemma utc_month y m : 1 <= m <= 12 -> month (mk_date y m 1 0 0 0 0 utc) = m.
Proof. intros. apply mk_date_month; [apply fixed_utc| |unfold valid_clock; lia]. pose proof (days_in_bounds y m). unfold valid_date. lia. Qed.
Lemma utc_day0 d : 1 <= d <= 31 -> day (mk_date 0 1 d 0 0 0 0 utc) = d.
Proof. intros. apply mk_date_day; [apply fixed_utc| |unfold valid_clock; lia]. unfold valid_date. change (days_in 0 1) with 31. lia. Qed.

Section E.
Variable E : env.
Local Opaque time_parse mk_date.
Notation V := (greg_value E).
Lemma V_day text v : forallb is_tdigit text = true -> V CDay text "2" = Some v -> digits text /\ v = number 0 text /\ 1 <= v <= 31 /\ (length text <= 2)%nat.
Proof.
  intros Hd. unfold greg_value. rewrite (to_lower_kind _ TDigit) by exact Hd. rewrite lower_digits by exact Hd.
  destruct (time_parse _ _ text) as [t|] eqn:T; [|discriminate]. destruct (is_zero t); [discriminate|]. intros [= <-].
  apply tparse_day in T as (n & G & Hn & ->). rewrite utc_day0 by lia. apply getnum_digits in G as (G1 & G2 & G3). repeat split; auto; try lia; apply G1.
Qed.
Lemma V_month text v : forallb is_tdigit text = true -> V CMonth text "1" = Some v -> digits text /\ v = number 0 text /\ 1 <= v <= 12 /\ (length text <= 2)%nat.
Proof.
  intros Hd. unfold greg_value. rewrite (to_lower_kind _ TDigit) by exact Hd. rewrite lower_digits by exact Hd.
  destruct (time_parse _ _ text) as [t|] eqn:T; [|discriminate]. destruct (is_zero t); [discriminate|]. intros [= <-].
  apply tparse_month in T as (n & G & Hn & ->). rewrite utc_month by lia. apply getnum_digits in G as (G1 & G2 & G3). repeat split; auto; try lia; apply G1.
Qed.
Lemma V_year text d v : forallb is_tdigit text = true -> In d ["2006"; "06"]%string -> V CYear text d = Some v ->
  digits text /\ ((length text = 4%nat /\ v = number 0 text) \/
                  (length text = 2%nat /\ v = if 69 <=? number 0 text then number 0 text + 1900 else number 0 text + 2000)).
Proof.
  intros Hd Hi. unfold greg_value. rewrite (to_lower_kind _ TDigit) by exact Hd. rewrite lower_digits by exact Hd.
  destruct (time_parse _ _ text) as [t|] eqn:T; [|discriminate]. destruct (is_zero t); [discriminate|]. intros [= <-].
  destruct Hi as [<-|[<-|[]]].
  - apply tparse_year4 in T as (y & Ln & _ & G & ->). rewrite utc_year. apply atoi_digits in G as [G ->]; [|exact Hd]. split; [exact G|]. left. auto.
  - apply tparse_year2 in T as (y & Ln & G & ->). rewrite utc_year. apply atoi_digits in G as [G ->]; [|exact Hd]. split; [exact G|]. right. auto.
Qed.

(** names: the text, in lower case, is the [i]-th name of the table *)
Definition spells (tab : list string) (i : Z) (text : str) : Prop :=
  exists n, nth_error tab (Z.to_nat i) = Some n /\ 0 <= i /\ map lowerA text = map lowerA (lit n).
Lemma lookup_spells tab : forall i v j, lookup_name tab i v = Some (j, []) -> exists n, nth_error tab (Z.to_nat (j - i)) = Some n /\ i <= j /\ map lowerA v = map lowerA (lit n).
Proof.
  induction tab as [|n tab IH]; intros i v j; cbn [lookup_name]; [discriminate|]. destruct (_ && _) eqn:C.
  - intros H. assert (j = i) as -> by congruence. assert (K : skipn (length (lit n)) v = []) by congruence. clear H.
    apply andb_true_iff in C as [C1 C2]. apply Nat.leb_le in C1. exists n. rewrite Z.sub_diag. split; [reflexivity|]. split; [lia|].
    unfold match_ci in C2. apply eqs_eq in C2. rewrite firstn_all2 in C2; [exact C2|]. pose proof (skipn_length (length (lit n)) v) as SL. rewrite K in SL. cbn [length] in SL. lia.
  - intros H. apply IH in H as (m & Hm & Hi & Hv). exists m. replace (j - i) with (Z.succ (j - (i + 1))) by lia. rewrite Z2Nat.inj_succ by lia. split; [exact Hm|]. split; [lia|exact Hv].
Qed.
Lemma lower_idem s : map lowerA (map lowerA s) = map lowerA s.
Proof. rewrite map_map. apply map_ext. intros c. unfold lowerA. destruct (is_upperA c) eqn:A; [|now rewrite A]. unfold is_upperA in *. assert ((65 <=? c + 32) && (c + 32 <=? 90) = false) as -> by lia. reflexivity. Qed.
Lemma V_month_name text d v : forallb is_alphaA text = true -> In d ["January"; "Jan"]%string -> V CMonth text d = Some v ->
  1 <= v <= 12 /\ (spells short_months (v - 1) text \/ spells long_months (v - 1) text).
Proof.
  intros Hd Hi. unfold greg_value. rewrite (to_lower_kind _ TLetter) by exact Hd.
  destruct (time_parse _ _ _) as [t|] eqn:T; [|discriminate]. destruct (is_zero t); [discriminate|]. intros [= <-].
  apply tparse_month_name in T as (n & G & Hn & ->); [|cbn [In] in Hi; intuition congruence]. rewrite utc_month by lia. split; [lia|].
  apply lookup_spells in G as (m & Hm & _ & Hv). rewrite lower_idem in Hv. replace (n - 0) with n in Hm by lia.
  destruct Hi as [<-|[<-|[]]]; [right|left]; exists m; replace (n + 1 - 1) with n by lia; repeat split; auto; lia.
Qed.
Lemma V_weekday text d v : forallb is_alphaA text = true -> In d ["Monday"; "Mon"]%string -> V CWeekday text d = Some v ->
  exists i, 0 <= i < 7 /\ (spells short_days i text \/ spells long_days i text).
Proof.
  intros Hd Hi. unfold greg_value. rewrite (to_lower_kind _ TLetter) by exact Hd.
  destruct (time_parse _ _ _) as [t|] eqn:T; [|discriminate]. destruct (is_zero t); [discriminate|]. intros _.
  apply tparse_weekday in T as (n & G & Hn); [|cbn [In] in Hi; intuition congruence]. exists n. split; [lia|].
  apply lookup_spells in G as (m & Hm & _ & Hv). rewrite lower_idem in Hv. replace (n - 0) with n in Hm by lia.
  destruct Hi as [<-|[<-|[]]]; [right|left]; exists m; repeat split; auto; lia.
Qed.
End E.

(** the other direction: numbers are read *)
Lemma tparse_day_fwd L v n : getnum v false = Some (n, []) -> 1 <= n <= 31 -> time_parse L (lit "2") v = Some (mk_date 0 1 n 0 0 0 0 utc).
Proof.
  intros G Hn. tp_start [(@nil Z, StdDay)]. rewrite G. cbn [obind]. unfold skip. cbn [skip_aux obind]. 
  tp_fields. change (days_in 0 1) with 31. assert (n <? 0 = false) as -> by lia. assert (n <? 1 = false) as -> by lia. assert (31 <? n = false) as -> by lia. reflexivity.
Qed.
Lemma tparse_month_fwd L v n : getnum v false = Some (n, []) -> 1 <= n <= 12 -> time_parse L (lit "1") v = Some (mk_date 0 n 1 0 0 0 0 utc).
Proof.
  intros G Hn. tp_start [(@nil Z, StdNumMonth)]. rewrite G. cbn [obind]. assert ((n <=? 0) || (12 <? n) = false) as -> by lia. cbn [obind]. unfold skip. cbn [skip_aux obind]. 
  tp_fields. assert (n <? 0 = false) as -> by lia. change (1 <? 1) with false. rewrite days_in_0. reflexivity.
Qed.
Lemma tparse_year4_fwd L v y : length v = 4%nat -> is_digit_at v 0 = true -> atoi v = Some y -> time_parse L (lit "2006") v = Some (mk_date y 1 1 0 0 0 0 utc).
Proof.
  intros Ln D G. tp_start [(@nil Z, StdLongYear)]. assert (Nat.ltb (length v) 4 = false) as -> by (apply Nat.ltb_ge; lia). rewrite D. cbn [negb orb obind].
  rewrite firstn_all2 by lia. rewrite G. cbn [obind]. unfold skip. cbn [skip_aux obind]. rewrite skipn_all2 by lia. cbn [obind].
  tp_fields. change (1 <? 1) with false. rewrite days_in_1. reflexivity.
Qed.
Lemma zero_year t : t_loc t = utc -> is_zero t = true -> year t = 1.
Proof.
  destruct t as [s n l]. cbn [t_loc]. intros -> Z. unfold is_zero in Z. cbn [t_sec t_nsec] in Z. apply andb_true_iff in Z as [Z _]. apply Z.eqb_eq in Z. subst s. vm_compute. reflexivity.
Qed.
Lemma not_zero y m d : y <> 1 -> valid_date y m d -> is_zero (mk_date y m d 0 0 0 0 utc) = false.
Proof.
  intros Hy Hv. destruct (is_zero _) eqn:Z; [|reflexivity]. exfalso. apply Hy.
  rewrite <- (mk_date_year y m d 0 0 0 0 utc); [|apply fixed_utc|exact Hv|unfold valid_clock; lia]. apply zero_year; [unfold mk_date; reflexivity|exact Z].
Qed.
Lemma valid_01 y m : 1 <= m <= 12 -> valid_date y m 1.
Proof. intros. pose proof (days_in_bounds y m). unfold valid_date. lia. Qed.
Lemma valid_0 d : 1 <= d <= 31 -> valid_date 0 1 d.
Proof. intros. unfold valid_date. change (days_in 0 1) with 31. lia. Qed.
Lemma greg_HH E text v : h_value (greg_hooks E) CMonth text "1" = Some v -> h_value (greg_hooks E) CDay text "2" <> None.
Proof.
  unfold greg_hooks; cbn [h_value]. unfold greg_value. destruct (time_parse _ (lit "1") _) as [t|] eqn:T; [|discriminate]. intros _.
  apply tparse_month in T as (n & G & Hn & ->). rewrite (tparse_day_fwd _ _ n) by (auto; lia). rewrite not_zero by (try lia; apply valid_0; lia). discriminate.
Qed.
Lemma greg_init_inv E cfg s a : abs_init E (greg_hooks E) cfg s = Some a -> ainv1 (greg_hooks E) (trimmed_tokens (sanitize_spaces s)) a.
Proof. apply abs_init_inv. apply greg_HH. Qed.
