(** What a successful parse with a Go layout yields: fields that do not occur in the layout keep their defaults, all fields are in range *)
From Coq Require Import ZifyBool.
From Verif Require Import GoBase Civil GoTime GoTimeFacts GoTimeParse AbsFacts AbsFacts2 AbsSpec Prop_Absolute2.
Ltac Zify.zify_post_hook ::= Z.div_mod_to_equations.

Definition day_field (sd : std) : bool := match sd with StdDay | StdUnderDay | StdZeroDay | StdUnderYearDay | StdZeroYearDay => true | _ => false end.
Definition month_field (sd : std) : bool := match sd with StdLongMonth | StdMonth | StdNumMonth | StdZeroMonth => true | _ => false end.
Definition yday_field (sd : std) : bool := match sd with StdUnderYearDay | StdZeroYearDay => true | _ => false end.
Definition year_field (sd : std) : bool := match sd with StdLongYear | StdYear => true | _ => false end.
Definition zone_name_field (sd : std) : bool := match sd with StdTZ => true | _ => false end.
Definition has_field (f : std -> bool) (layout : str) : bool := existsb (fun c => f (snd c)) (fst (chunks_of layout)).

Record pkeep (sd : std) (p q : pst) : Prop := {
  pk_day : day_field sd = false -> p_day q = p_day p;
  pk_yday : yday_field sd = false -> p_yday q = p_yday p;
  pk_month : month_field sd = false -> p_month q = p_month p;
  pk_year : year_field sd = false -> p_year q = p_year p;
  pk_zname : zone_name_field sd = false -> p_zname q = p_zname p }.
Record pvalid (p : pst) : Prop := {
  pv_month : p_month p = -1 \/ 1 <= p_month p <= 12;
  pv_day : p_day p = -1 \/ 0 <= p_day p;
  pv_hour : 0 <= p_hour p < 24; pv_min : 0 <= p_min p < 60; pv_sec : 0 <= p_sec p < 60; pv_nsec : 0 <= p_nsec p < 1000000000 }.

Lemma getnum_nonneg v f n r : getnum v f = Some (n, r) -> 0 <= n <= 99.
Proof.
  unfold getnum, is_digitA. destruct v as [|a v]; [discriminate|]. destruct (_ && _) eqn:A; [|discriminate].
  destruct v as [|b v]; [destruct f; [discriminate|]; intros [= <- _]; lia|]. destruct ((48 <=? b) && (b <=? 57)) eqn:B; [intros [= <- _]; lia|]. destruct f; [discriminate|]. intros [= <- _]; lia.
Qed.
Lemma lookup_range tab : forall i v n r, lookup_name tab i v = Some (n, r) -> i <= n < i + Z.of_nat (length tab).
Proof.
  induction tab as [|x tab IH]; intros i v n r; cbn [lookup_name length]; [discriminate|]. destruct (_ && _); [intros [= <- _]; lia|]. intros H. apply IH in H. lia.
Qed.
Lemma dec_val_bound s : forall acc v, 0 <= acc -> dec_val acc s = Some v -> 0 <= v < (acc + 1) * 10 ^ Z.of_nat (length s).
Proof.
  induction s as [|c s IH]; intros acc v Ha; cbn [dec_val length]; [intros [= <-]; lia|]. unfold is_digitA. destruct (_ && _) eqn:D; [|discriminate].
  intros H. apply IH in H; [|lia]. rewrite Nat2Z.inj_succ, Z.pow_succ_r by lia. set (p := 10 ^ Z.of_nat (length s)) in *. assert (0 < p) by (subst p; apply Z.pow_pos_nonneg; lia). nia.
Qed.
Lemma atoi_bound s v : atoi s = Some v -> v < 10 ^ Z.of_nat (length s).
Proof.
  unfold atoi. destruct s as [|c s]; [discriminate|]. cbn [length]. rewrite Nat2Z.inj_succ, Z.pow_succ_r by lia. set (p := 10 ^ Z.of_nat (length s)).
  assert (0 < p) by (subst p; apply Z.pow_pos_nonneg; lia). destruct (c =? 45).
  - destruct (empty s); [discriminate|]. destruct (dec_val 0 s) as [w|] eqn:D; [|discriminate]. apply dec_val_bound in D; [|lia]. intros [= <-]. lia.
  - destruct (c =? 43).
    + destruct (empty s); [discriminate|]. intros D. apply dec_val_bound in D; [|lia]. fold p in D. lia.
    + intros D. apply dec_val_bound in D; [|lia]. cbn [length] in D. rewrite Nat2Z.inj_succ, Z.pow_succ_r in D by lia. fold p in D. lia.
Qed.
Lemma parse_nanos_range v n ns : parse_nanos v n = Some ns -> 0 <= ns < 1000000000.
Proof.
  unfold parse_nanos. destruct v as [|c v]; [discriminate|]. destruct (comma_or_period c); [|discriminate].
  destruct (atoi _) as [x|] eqn:A; [|discriminate]. destruct (x <? 0) eqn:N; [discriminate|]. intros XE.
  assert (XN : ns = x * 10 ^ Z.of_nat (10 - Nat.min n 10)) by congruence. clear XE.
  pose proof (atoi_bound _ _ A) as B. rewrite firstn_length in B.
  assert (B2 : x < 10 ^ Z.of_nat (Nat.min n 10 - 1)) by (eapply Z.lt_le_trans; [exact B|]; apply Z.pow_le_mono_r; lia).
  assert (exists k, (k <= 10)%nat /\ Nat.min n 10 = k) as (k & Hk & E) by (exists (Nat.min n 10); lia). rewrite E in *. clear E B A.
  do 11 (destruct k as [|k]; [cbn in XN, B2; lia|]). lia.
Qed.

Lemma parse_chunk_facts sd nx p v q r : parse_chunk sd nx p v = Some (q, r) -> pkeep sd p q /\ (pvalid p -> pvalid q).
Proof.
  destruct sd; cbn [parse_chunk]; intros H;
  repeat match type of H with
  | (if ?c then _ else _) = _ => destruct c eqn:?; try discriminate
  | obind ?o _ = _ => destruct o as [?|] eqn:?; cbn [obind] in H; try discriminate
  | (let '(_, _) := ?x in _) = _ => destruct x
  | match ?x with _ => _ end = _ => destruct x eqn:?; try discriminate
  end;
  repeat match goal with
  | G : getnum _ _ = Some (_, _) |- _ => apply getnum_nonneg in G
  | G : lookup_name _ _ _ = Some (_, _) |- _ => apply lookup_range in G; cbn [length short_months long_months] in G
  | G : parse_nanos _ _ = Some _ |- _ => apply parse_nanos_range in G
  end;
  inversion H; subst; (split; [constructor; cbn; congruence || reflexivity | intros [V1 V2 V3 V4 V5 V6]; constructor; cbn [with_year with_month with_day with_yday with_hour with_min with_sec with_nsec with_ampm with_zone p_month p_day p_hour p_min p_sec p_nsec]; lia]).
Qed.

Lemma parse_chunks_facts l e : forall p v q, parse_chunks l e p v = Some q ->
  (existsb (fun c => day_field (snd c)) l = false -> p_day q = p_day p) /\
  (existsb (fun c => yday_field (snd c)) l = false -> p_yday q = p_yday p) /\
  (existsb (fun c => month_field (snd c)) l = false -> p_month q = p_month p) /\
  (existsb (fun c => year_field (snd c)) l = false -> p_year q = p_year p) /\
  (existsb (fun c => zone_name_field (snd c)) l = false -> p_zname q = p_zname p) /\
  (pvalid p -> pvalid q).
Proof.
  induction l as [|[pr sd] l IH]; intros p v q; cbn [parse_chunks].
  - destruct (skip v e) as [[|]|]; cbn [obind]; try discriminate. intros [= <-]. cbn. tauto.
  - destruct (skip v pr) as [v1|]; cbn [obind]; [|discriminate].
    destruct (parse_chunk sd _ p v1) as [[p1 v2]|] eqn:E1; cbn [obind]; [|discriminate]. apply parse_chunk_facts in E1 as [[K1 K2 K3 K4 K5] KV].
    intros H. destruct (IH _ _ _ H) as (H1 & H2 & H3 & H4 & H5 & H6). cbn [existsb snd].
    rewrite !orb_false_iff.
    split; [intros [X Y]; now rewrite H1, K1|]. split; [intros [X Y]; now rewrite H2, K2|]. split; [intros [X Y]; now rewrite H3, K3|].
    split; [intros [X Y]; now rewrite H4, K4|]. split; [intros [X Y]; now rewrite H5, K5|]. auto.
Qed.
Lemma pvalid0 : pvalid pst0. Proof. constructor; cbn; lia. Qed.

(** the hour with AM/PM taken into account *)
Definition hour24 (p : pst) : Z := if p_pm p && (p_hour p <? 12) then p_hour p + 12 else if p_am p && (p_hour p =? 12) then 0 else p_hour p.
Lemma finish_month p m d : pvalid p -> finish_md p = Some (m, d) -> 1 <= m <= 12.
Proof.
  intros [V1 V2 _ _ _ _]. unfold finish_md. destruct (0 <=? p_yday p).
  - cbv zeta. set (lp := leap (p_year p)). set (yd := if lp && (60 <? p_yday p) then p_yday p - 1 else p_yday p). destruct (_ || _) eqn:R; [discriminate|].
    destruct (lp && (p_yday p =? 60)); cbv beta iota.
    + destruct ((0 <=? p_month p) && _); [discriminate|]. destruct ((0 <=? p_day p) && _); [discriminate|]. intros XE. assert (m = 2) by congruence. lia.
    + destruct ((0 <=? p_month p) && _); [discriminate|]. destruct ((0 <=? p_day p) && _); [discriminate|]. intros XE. assert (XM : m = if (if (yd - 1) / 31 + 1 =? 12 then 365 else days_before ((yd - 1) / 31 + 1)) <? yd then (yd - 1) / 31 + 1 + 1 else (yd - 1) / 31 + 1) by congruence.
      clear XE. clearbody yd. revert XM. assert (D : 0 <= (yd - 1) / 31 <= 11) by lia. destruct ((yd - 1) / 31 + 1 =? 12) eqn:T; [assert (365 <? yd = false) as -> by lia; lia|].
      generalize (days_before ((yd - 1) / 31 + 1)) as b. intros b. generalize dependent ((yd - 1) / 31). intros q D T. destruct (b <? yd); lia.
  - intros XE. assert (XM : m = if p_month p <? 0 then 1 else p_month p) by congruence. revert XM. destruct (p_month p <? 0) eqn:Q; lia.
Qed.

(** the fields of a parsed time; the zones of the call are UTC or fixed offsets, and the layout has no zone abbreviation (MST) *)
Lemma tparse_fields layout v dflt local t : tparse layout v dflt local = Some t -> fixed dflt -> fixed local -> has_field zone_name_field layout = false ->
  exists p m d, parse_chunks (fst (chunks_of layout)) (snd (chunks_of layout)) pst0 v = Some p /\ pvalid p /\ finish_md p = Some (m, d) /\
    valid_date (p_year p) m d /\ on t (p_year p) m d /\ at_ t (hour24 p, p_min p, p_sec p, p_nsec p) /\ fixed (t_loc t) /\ wf_time t.
Proof.
  intros H Fd Fl HZ. assert (W : wf_time t) by (eapply tparse_wf, H). revert H. unfold tparse, has_field in *. destruct (chunks_of layout) as [cs e]. cbn [fst snd] in *.
  destruct (parse_chunks cs e pst0 v) as [p|] eqn:EP; cbn [obind]; [|discriminate]. destruct (parse_chunks_facts _ _ _ _ _ EP) as (_ & _ & _ & _ & ZN & PV).
  specialize (ZN HZ). specialize (PV pvalid0). change (p_zname pst0) with (@nil Z) in ZN. fold (hour24 p).
  destruct (finish_md p) as [[m d]|] eqn:EF; cbn [obind]; [|discriminate]. destruct (_ || _) eqn:ED; [discriminate|]. cbv zeta.
  pose proof (finish_month _ _ _ PV EF) as Hm. assert (VD : valid_date (p_year p) m d) by (split; lia).
  assert (VC : valid_clock (hour24 p) (p_min p) (p_sec p) (p_nsec p)).
  { destruct PV as [V1 V2 V3 V4 V5 V6]. unfold valid_clock, hour24. repeat split; try lia; destruct (p_pm p && (p_hour p <? 12)) eqn:A; try lia; destruct (p_am p && (p_hour p =? 12)); lia. }
  assert (G : forall l, fixed l -> let t := mk_date (p_year p) m d (hour24 p) (p_min p) (p_sec p) (p_nsec p) l in
    on t (p_year p) m d /\ at_ t (hour24 p, p_min p, p_sec p, p_nsec p)).
  { intros l Hl t0. unfold on, at_, t0. rewrite mk_date_year, mk_date_month, mk_date_day by assumption.
    pose proof (mk_date_clock (p_year p) m d (hour24 p) (p_min p) (p_sec p) (p_nsec p) l Hl Hm VC) as (-> & -> & -> & ->). auto. }
  intros XE. exists p, m, d. split; [reflexivity|]. split; [exact PV|]. split; [exact EF|]. split; [exact VD|]. rewrite ZN in XE. cbn [empty negb] in XE.
  cut (on t (p_year p) m d /\ at_ t (hour24 p, p_min p, p_sec p, p_nsec p) /\ fixed (t_loc t)); [tauto|].
  destruct (p_z p); [apply some_inj in XE; subst t; destruct (G utc fixed_utc) as [G1 G2]; split; [exact G1 | split; [exact G2 | exact fixed_utc]]|].
  destruct (negb (p_zoff p =? -1)); [|apply some_inj in XE; subst t; destruct (G dflt Fd) as [G1 G2]; split; [exact G1 | split; [exact G2 | exact Fd]]].
  destruct (G utc fixed_utc) as [G1 G2]. set (t0 := mk_date _ _ _ _ _ _ _ utc) in *. apply some_inj in XE.
  set (u := t_sec t0 - p_zoff p) in *. set (l := if _ && _ then local else _) in *.
  assert (Hl : fixed l /\ z_off (l_base l) = p_zoff p).
  { unfold l. destruct (_ && _) eqn:C; [|split; reflexivity]. split; [exact Fl|]. apply andb_true_iff in C as [C _]. change (off_at local u =? p_zoff p = true) in C. rewrite off_at_fixed in C by exact Fl. lia. }
  destruct Hl as [L1 L2]. clearbody l.
  assert (LS : local_sec t = local_sec t0).
  { subst t. rewrite !local_sec_fixed by (assumption || apply fixed_utc). cbn [t_sec t_loc]. rewrite L2. change (z_off (l_base (t_loc t0))) with 0. unfold u. lia. }
  assert (NS : t_nsec t = t_nsec t0) by (subst t; reflexivity).
  split; [|split; [|subst t; exact L1]].
  - revert G1. unfold on, year, month, day, civil, local_days. now rewrite LS.
  - revert G2. unfold at_, hour, minute, second, sod, nanosecond. now rewrite LS, NS.
Qed.

(** ** Literals of a layout *)
Lemma next_chunk_lit c : (forall l, chunk_here (c :: l) <> None) -> c <> 95 -> forall layout acc p o s, ~ In c acc -> next_chunk acc layout = (p, o, s) -> ~ In c p.
Proof.
  intros HC H95. induction layout as [|x layout IH]; intros acc p o s HA; cbn [next_chunk].
  - cbn [chunk_here]. intros [= <- _ _]. now rewrite <- in_rev.
  - destruct (chunk_here (x :: layout)) as [[[n sd] suf]|] eqn:EC.
    + intros XE. assert (XP : p = (rev acc ++ firstn n (x :: layout))%list) by congruence. subst p. rewrite in_app_iff, <- in_rev. intros [Hi|Hi]; [now apply HA|].
      assert (n = O \/ (n = 1%nat /\ x = 95)) as [->|[-> ->]].
      { revert EC. unfold chunk_here. clear. repeat match goal with |- context [if ?b then _ else _] => destruct b eqn:? end; try discriminate; intros [= <- _ _] || (destruct (skipn 1 (x :: layout)); try discriminate;
          repeat match goal with |- context [if ?b then _ else _] => destruct b eqn:? end; try discriminate; intros [= <- _ _]); (now left) || (right; split; [reflexivity | lia]). }
      * exact Hi. * destruct Hi as [Hi|[]]. congruence.
    + intros H. eapply IH; [|exact H]. intros [<-|Hi]; [now apply (HC layout)|now apply HA].
Qed.
