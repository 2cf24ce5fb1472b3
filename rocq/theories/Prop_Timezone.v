(** C24, C25: timezones in the string, and DefaultTimezone *)
From Coq Require Import ZifyBool Permutation.
From Verif Require Import GoBase SMap Civil GoTime GoTimeFacts GoTimeParse Regex RegexFacts RegexFacts2 TimezoneData Setting Tokenizer Strutil Timezone Env Common Absolute NoSpace
  AbsFacts AbsFacts3 AbsSpec Language Parser Spec Prop_Parser Shows Concrete LocaleData.
Ltac Zify.zify_post_hook ::= Z.div_mod_to_equations.

(** ** C24 *)
(** [t] shows the same calendar date and time of day as [t0] *)
Definition same_wall_clock (t t0 : time) : Prop :=
  year t = year t0 /\ month t = month t0 /\ day t = day t0 /\ hour t = hour t0 /\ minute t = minute t0 /\ second t = second t0 /\ nanosecond t = nanosecond t0.
(** the UTC offset a time is shown with *)
Definition utc_offset (t : time) : Z := z_off (zone_of t).

Lemma rezone t l : wf_time t -> fixed l ->
  let t' := mk_date (year t) (month t) (day t) (hour t) (minute t) (second t) (nanosecond t) l in
  same_wall_clock t' t /\ utc_offset t' = z_off (l_base l) /\ instant t' = (local_sec t - z_off (l_base l)) * 1000000000 + t_nsec t.
Proof.
  intros HW HF. pose proof (civil_valid t) as [HV HD]. pose proof (clock_valid t HW) as HC. cbv zeta. unfold same_wall_clock.
  rewrite mk_date_year, mk_date_month, mk_date_day by assumption.
  pose proof (mk_date_clock (year t) (month t) (day t) (hour t) (minute t) (second t) (nanosecond t) l HF ltac:(destruct HV; assumption) HC) as (-> & -> & -> & ->).
  repeat split; auto.
  - unfold utc_offset. apply (off_at_fixed l _ HF).
  - rewrite instant_mk_date by (assumption || (destruct HV; assumption)). rewrite HD, local_sec_split. reflexivity.
Qed.

Lemma wf_zero : wf_time zero_time. Proof. unfold wf_time, zero_time. cbn. lia. Qed.
Lemma add_wf t d : wf_time (add t d).
Proof. unfold wf_time, add. cbn [t_nsec]. apply Z.mod_pos_bound. lia. Qed.

(** the times the parsers produce are well formed *)
Lemma absolute_wf E cfg s tz d : absolute_parse E cfg s tz = Ok d -> wf_time (d_time d).
Proof.
  unfold absolute_parse, abs_run. destruct (abs_init E (greg_hooks E) cfg s) as [a|]; [|discriminate]. unfold abs_finish.
  destruct (negb _); [discriminate|]. destruct (match a_time a with None => _ | Some _ => _ end) as [tp| |]; try discriminate. cbn [rbind].
  destruct (h_params _ _ _) as [[Y M] D]. destruct (match tp with Some _ => _ | None => _ end) as [[[h mi] sc] ns].
  cbn [h_create greg_hooks]. unfold greg_create. cbv zeta. cbn [rbind].
  match goal with |- context [mk_date ?y ?m ?dd ?h0 ?mi0 ?s0 ?n0 ?l] => set (t0 := mk_date y m dd h0 mi0 s0 n0 l); assert (W0 : wf_time t0) by apply mk_date_wf; clearbody t0 end.
  unfold correct_time_frame. destruct (ctf_weekday E cfg a t0) as [t1| |] eqn:E1; try discriminate. cbn [rbind].
  assert (W1 : wf_time t1).
  { unfold ctf_weekday in E1. repeat match type of E1 with (match ?x with _ => _ end) = _ => destruct x; try discriminate end;
    injection E1 as <-; assumption || apply add_date_wf. }
  set (now := abs_now E cfg).
  assert (W2 : wf_time (ctf_month cfg a now t1)) by (unfold ctf_month; destruct (_ && _); [apply mk_date_wf | exact W1]).
  assert (W3 : wf_time (ctf_year2 cfg a now (ctf_month cfg a now t1))).
  { set (x := ctf_month cfg a now t1) in *. clearbody x. unfold ctf_year2. destruct (cm_year (a_toks a)); [|exact W2]. destruct (_ =? 2); [|exact W2].
    destruct (before now x); [destruct (c_src cfg =? Past) | destruct (c_src cfg =? Future)]; apply add_date_wf || exact W2. }
  set (t2 := ctf_year2 cfg a now (ctf_month cfg a now t1)) in *. clearbody t2.
  assert (W4 : wf_time (ctf_time cfg a tz now t2)).
  { unfold ctf_time. destruct (_ && _ && _ && _ && _); [|exact W3]. cbv zeta. destruct ((c_src cfg =? Future) && _); [apply add_date_wf|].
    destruct ((c_src cfg =? Past) && _); [apply add_date_wf | exact W3]. }
  set (t3 := ctf_time cfg a tz now t2) in *. clearbody t3.
  intros XE. assert (XD : d_time d = correct_day E cfg a now (correct_month E cfg a now t3)) by (now inversion XE). rewrite XD. clear XE XD.
  unfold correct_day. destruct (_ || _ || _); [|apply mk_date_wf]. unfold correct_month. destruct (chas _ _); [exact W4|]. destruct (_ && _ && _); [exact W4 | apply mk_date_wf].
Qed.

Lemma nospace_wf E cfg s d : nospace_parse E cfg s = Ok d -> wf_time (d_time d).
Proof.
  unfold nospace_parse. destruct (negb _); [discriminate|]. cbv zeta. destruct (empty _); [discriminate|].
  assert (B : forall fs v d, find_best E fs v = Some d -> wf_time (d_time d)).
  { induction fs as [|f fs IH]; intros v d0; cbn [find_best]; [discriminate|]. destruct (time_parse _ _ _) as [t|] eqn:Et; [|apply IH].
    destruct (_ && _); [|apply IH]. intros XE. apply some_inj in XE. subst d0. eapply tparse_wf, Et. }
  set (v := replace_all _ _ _). set (best := if _ && _ then _ else _). destruct best as [d0|] eqn:Eb.
  - intros XE. assert (d0 = d) by congruence. subst d0. unfold best in Eb. destruct (_ && _); [|discriminate]. now apply B in Eb.
  - clear Eb best. destruct (datetime_formats _) as [fs|]; [|discriminate].
    assert (C : forall f layout cs amb, wf_time (d_time amb) -> match ns_cands E cfg f layout cs amb with inl d => wf_time (d_time d) | inr d => wf_time (d_time d) end).
    { induction cs as [|c cs IH]; intros amb Ha; cbn [ns_cands]; [exact Ha|]. destruct (time_parse _ _ _) as [t|] eqn:Et; [|now apply IH].
      destruct (is_zero t); [now apply IH|]. assert (Wt : wf_time t) by (eapply tparse_wf, Et). destruct (year t <? 1000); [now apply IH|]. destruct (negb _); [now apply IH | exact Wt]. }
    assert (F : forall fs text amb, wf_time (d_time amb) -> match ns_formats E cfg text fs amb with inl d => wf_time (d_time d) | inr d => wf_time (d_time d) end).
    { induction fs0 as [|f fs0 IH]; intros text amb Ha; cbn [ns_formats]; [exact Ha|]. cbv zeta. specialize (C f (go_format (format_parts f)) (candidates E text (format_parts f)) amb Ha).
      destruct (ns_cands _ _ _ _ _ _); [exact C | now apply IH]. }
    assert (T : forall toks amb, wf_time (d_time amb) -> match ns_tokens E cfg fs toks amb with inl d => wf_time (d_time d) | inr d => wf_time (d_time d) end).
    { induction toks as [|t toks IH]; intros amb Ha; cbn [ns_tokens]; [exact Ha|]. destruct (ttype_eqb _ _); [|now apply IH]. specialize (F fs (tk_text t) amb Ha).
      destruct (ns_formats _ _ _ _ _); [exact F | now apply IH]. }
    specialize (T (tokenize v) zero_date wf_zero). destruct (ns_tokens _ _ _ _ _); [|destruct (date_is_zero _); [discriminate|]]; intros XE;
    match type of XE with Ok ?x = Ok d => assert (x = d) by congruence; subst x end; exact T.
Qed.

(** When the string carries a timezone, the date found in the rest of the string keeps its wall clock and its period, and is shown with the offset of
    that timezone; the instant is the wall clock minus the offset. *)
Theorem C24_timezone_in_the_string : forall E cfg parser t d,
  (parser = absolute_parse E cfg \/ parser = fun rest (_ : offset_data) => nospace_parse E cfg rest) ->
  zoned E cfg parser t d -> usable d -> od_is_zero (snd (etz_pop E (strip_braces t))) = false ->
  let '(rest, tz) := etz_pop E (strip_braces t) in
  exists d0, parser rest tz = Ok d0 /\ d_period d = d_period d0 /\ same_wall_clock (d_time d) (d_time d0) /\ utc_offset (d_time d) = od_off tz.
Proof.
  intros E cfg parser t d HP (rest & tz & d0 & HE & Hne & HO & Hd) HU. rewrite HE. cbn [snd]. intros Hz. exists d0.
  assert (W : wf_time (d_time d0)) by (destruct HP as [-> | ->]; [eapply absolute_wf, HO | eapply nospace_wf, HO]).
  split; [exact HO|]. unfold apply_timezone in Hd. rewrite Hz in Hd. cbn [andb negb] in Hd.
  destruct (date_is_zero d0) eqn:Ez.
  - exfalso. cbn [orb] in Hd. subst d. destruct HU as [HU1 HU2]. unfold date_is_zero, is_zero in Ez.
    apply orb_true_iff in Ez as [Ez|Ez]; [destruct (d_period d0); try discriminate; congruence|].
    apply HU2. apply andb_true_iff in Ez as [A B]. unfold zero_sec in A. lia.
  - cbn [orb] in Hd. subst d. cbn [with_time d_period d_time]. split; [reflexivity|].
    destruct (rezone (d_time d0) (fixed_zone (od_name tz) (od_off tz)) W eq_refl) as (A & B & _). split; [exact A | exact B].
Qed.

(** A timezone has no influence on which date is found unless the string is only a time of day *)
Theorem C24_timezone_does_not_change_the_date : forall E cfg s R tz tz' now, reads E cfg s R -> current cfg now ->
  (r_day R <> None \/ r_month R <> None \/ r_year R <> None \/ r_weekday R <> None) ->
  absolute_parse E cfg s tz = absolute_parse E cfg s tz'.
Proof.
  intros E cfg s R tz tz' now HR [C1 C2 C3 C4] HD. rewrite (reads_run E cfg s R tz now HR C1 C2), (reads_run E cfg s R tz' now HR C1 C2). unfold run.
  assert (F : forall t, f_time cfg R tz now t = f_time cfg R tz' now t).
  { intros t. unfold f_time. destruct (is_some (r_clock R)); [|reflexivity]. destruct (r_year R), (r_month R), (r_day R), (r_weekday R); try reflexivity.
    destruct HD as [H|[H|[H|H]]]; congruence. }
  destruct (negb _); [reflexivity|]. destruct (clock_of R) as [[[h mi] sc] ns]. destruct (greg_create _ _ _ _ _ _ _ _ _) as [t| |]; try reflexivity. cbn [rbind].
  destruct (f_weekday E cfg R t) as [t1| |]; try reflexivity. cbn [rbind]. now rewrite F.
Qed.

(** With DefaultTimezone only: the wall clock is kept, and the offset is the one the zone has at that wall clock, provided the zone does not change
    its offset between the instant used for the lookup and the true one *)
Theorem C24_default_timezone_partial : forall E cfg parser t d l,
  (parser = absolute_parse E cfg \/ parser = fun rest (_ : offset_data) => nospace_parse E cfg rest) ->
  zoned E cfg parser t d -> usable d -> od_is_zero (snd (etz_pop E (strip_braces t))) = true -> c_tz cfg = Some l ->
  let '(rest, tz) := etz_pop E (strip_braces t) in
  exists d0, parser rest tz = Ok d0 /\ d_period d = d_period d0 /\ same_wall_clock (d_time d) (d_time d0) /\
    forall o, off_at l (t_sec (d_time d0)) = o -> off_at l (local_sec (d_time d0) - o) = o ->
      utc_offset (d_time d) = o /\ same_wall_clock (in_loc (d_time d) l) (d_time d0).
Proof.
  intros E cfg parser t d l HP (rest & tz & d0 & HE & Hne & HO & Hd) HU. rewrite HE. cbn [snd]. intros Hz Hl. exists d0.
  assert (W : wf_time (d_time d0)) by (destruct HP as [-> | ->]; [eapply absolute_wf, HO | eapply nospace_wf, HO]).
  split; [exact HO|]. unfold apply_timezone in Hd. rewrite Hz, Hl in Hd. cbn [andb negb] in Hd.
  destruct (date_is_zero d0) eqn:Ez.
  - exfalso. cbn [orb] in Hd. subst d. destruct HU as [HU1 HU2]. unfold date_is_zero, is_zero in Ez.
    apply orb_true_iff in Ez as [Ez|Ez]; [destruct (d_period d0); try discriminate; congruence|].
    apply HU2. apply andb_true_iff in Ez as [A B]. unfold zero_sec in A. lia.
  - cbn [orb] in Hd. subst d. cbn [with_time d_period d_time]. split; [reflexivity|].
    set (z := zone_at l (t_sec (d_time d0))). destruct (rezone (d_time d0) (fixed_zone (z_name z) (z_off z)) W eq_refl) as (A & B & C).
    split; [exact A|]. intros o Ho Ho'. change (z_off z = o) in Ho.
    set (x := mk_date _ _ _ _ _ _ _ _) in *. change (z_off (l_base (fixed_zone (z_name z) (z_off z)))) with (z_off z) in *. rewrite Ho in *.
    split; [exact B|]. assert (Wx : wf_time x) by apply mk_date_wf.
    assert (Sx : t_sec x = local_sec (d_time d0) - o /\ t_nsec x = t_nsec (d_time d0)).
    { unfold instant in C. unfold wf_time in W, Wx. lia. } destruct Sx as [S1 S2].
    assert (LS : local_sec (in_loc x l) = local_sec (d_time d0)).
    { unfold local_sec at 1, zone_of, in_loc. cbn [t_sec t_loc]. change (z_off (zone_at l (t_sec x))) with (off_at l (t_sec x)). rewrite S1, Ho'. lia. }
    unfold same_wall_clock, year, month, day, hour, minute, second, civil, sod, local_days. rewrite LS. unfold nanosecond. cbn [in_loc t_nsec].
    rewrite S2. repeat split; reflexivity.
Qed.

(** ** C25 *)
(** the rows of the table of timezones: name and offset in seconds *)
Definition tz_rows : list (string * Z) := (tz_group1 ++ tz_group2)%list.

Definition entry_ok (o : offset_data) : bool :=
  match od_rx o with Some r => Nat.ltb 0 (rmin (rx_ast r)) | None => false end && existsb (fun '(n, z) => eqs (lit n) (od_name o) && (z =? od_off o)) tz_rows.
Lemma entries_ok : forallb entry_ok tz_source_order = true.
Proof. vm_compute. reflexivity. Qed.

Lemma tz_order_perm l : tz_order l -> forall o, In o l <-> In o tz_source_order.
Proof.
  intros (m & bs & bs' & s & P1 & P2 & P3 & P4 & ->) o. unfold tz_source_order. rewrite !in_app_iff, !in_concat.
  assert (X : (exists x, In x bs' /\ In o x) <-> (exists x, In x tz_altblocks /\ In o x)).
  { transitivity (exists x, In x bs /\ In o x).
    - clear P2. induction P3 as [|b b' l l' Hb Hl IH]; [tauto|]. split.
      + intros (x & [<-|Hx] & Ho); [exists b'; split; [now left | now apply (Permutation_in _ Hb)]|]. destruct IH as [IH _]. destruct IH as (y & Hy & Ho'); [eauto|]. exists y. split; [now right | exact Ho'].
      + intros (x & [<-|Hx] & Ho); [exists b; split; [now left | now apply (Permutation_in _ (Permutation_sym Hb))]|]. destruct IH as [_ IH]. destruct IH as (y & Hy & Ho'); [eauto|]. exists y. split; [now right | exact Ho'].
    - split; intros (x & Hx & Ho); exists x; split; auto; [now apply (Permutation_in _ P2) | now apply (Permutation_in _ (Permutation_sym P2))]. }
  rewrite X. split; intros [H|[H|H]]; auto; [left; now apply (Permutation_in _ P1) | right; right; now apply (Permutation_in _ P4) |
    left; now apply (Permutation_in _ (Permutation_sym P1)) | right; right; now apply (Permutation_in _ (Permutation_sym P4))].
Qed.
Lemma entry_facts l o : tz_order l -> In o l -> exists r n, od_rx o = Some r /\ (0 < rmin (rx_ast r))%nat /\ In (n, od_off o) tz_rows /\ od_name o = lit n.
Proof.
  intros HL Ho. apply (tz_order_perm l HL) in Ho. pose proof entries_ok as H. rewrite forallb_forall in H. specialize (H o Ho). unfold entry_ok in H.
  destruct (od_rx o) as [r|]; [|discriminate]. apply andb_true_iff in H as [H1 H2]. apply existsb_exists in H2 as ([n z] & Hin & H2).
  apply andb_true_iff in H2 as [H2 H3]. apply eqs_eq in H2. exists r, n. repeat split; auto; [now apply Nat.ltb_lt in H1|]. replace (od_off o) with z by lia. exact Hin.
Qed.

Lemma pop_loop_cases U l s : forall s' od, pop_loop U l s = (s', od) ->
  (s' = s /\ od = od_zero) \/ (exists r m, In od l /\ od_rx od = Some r /\ find U r s = Some m /\ s' = (firstn (S (mt_start m)) s ++ skipn (mt_end m) s)%list).
Proof.
  induction l as [|o l IH]; intros s' od; cbn [pop_loop].
  - intros XE. left. split; congruence.
  - destruct (od_rx o) as [r|] eqn:Er.
    + destruct (find U r s) as [m|] eqn:Ef.
      * intros XE. right. assert (o = od) by congruence. subst o. exists r, m. repeat split; auto; [now left | congruence].
      * intros H. destruct (IH s' od H) as [?|(r' & m & H1 & H2 & H3 & H4)]; [now left|]. right. exists r', m. repeat split; auto. now right.
    + intros H. destruct (IH s' od H) as [?|(r' & m & H1 & H2 & H3 & H4)]; [now left|]. right. exists r', m. repeat split; auto. now right.
Qed.

(** Whatever order Go's maps are iterated in: either nothing is found and the string is unchanged, or one contiguous piece is cut out and the
    result is a row of the timezone table *)
Theorem C25_one_piece_and_a_known_timezone : forall E s s' tz, tz_order (e_tz E) -> etz_pop E s = (s', tz) ->
  (od_is_zero tz = true /\ s' = s) \/
  (od_is_zero tz = false /\ exists before piece after name, s = (before ++ piece ++ after)%list /\ s' = (before ++ after)%list /\ before <> [] /\
     In (name, od_off tz) tz_rows /\ od_name tz = lit name).
Proof.
  intros E s s' tz HT. unfold etz_pop, pop_tz. destruct (match_string _ _ _); [|intros XE; left; split; [assert (od_zero = tz) by congruence; now subst tz | congruence]].
  intros H. apply pop_loop_cases in H as [[-> ->]|(r & m & Hin & Hr & Hf & ->)]; [left; split; reflexivity|]. right.
  destruct (entry_facts _ _ HT Hin) as (r' & n & Hr' & Hm & Hrow & Hn). rewrite Hr in Hr'. injection Hr' as <-.
  split; [unfold od_is_zero; rewrite Hr; destruct (empty _); reflexivity|].
  pose proof (find_placed _ _ _ _ Hf) as [P1 P2 _].
  exists (firstn (S (mt_start m)) s), (skipn (S (mt_start m)) (firstn (mt_end m) s)), (skipn (mt_end m) s), n.
  split; [|split; [reflexivity|split; [|split; [exact Hrow | exact Hn]]]].
  - rewrite app_assoc. rewrite <- (firstn_skipn (mt_end m) s) at 1. f_equal. rewrite <- (firstn_skipn (S (mt_start m)) (firstn (mt_end m) s)) at 1. f_equal.
    rewrite firstn_firstn. f_equal. lia.
  - destruct s; [cbn [length] in P2; lia | discriminate].
Qed.

(** The result of a call depends on the order in which Go iterated over a map when the process started *)
Definition tz_other_order : list offset_data := (tz_main ++ concat tz_altblocks ++ rev tz_second)%list.
Lemma tz_source_is_order : tz_order tz_source_order.
Proof. exists tz_main, tz_altblocks, tz_altblocks, tz_second. repeat split; auto. clear. induction tz_altblocks; constructor; auto. Qed.
Lemma tz_other_is_order : tz_order tz_other_order.
Proof. exists tz_main, tz_altblocks, tz_altblocks, (rev tz_second). repeat split; auto; [|symmetry; apply Permutation_rev]. clear. induction tz_altblocks; constructor; auto. Qed.
Theorem C25_deterministic_refuted : exists U l1 l2 s, uni_ascii U /\ tz_order l1 /\ tz_order l2 /\ snd (pop_tz U l1 s) <> snd (pop_tz U l2 s) /\
  od_off (snd (pop_tz U l1 s)) <> od_off (snd (pop_tz U l2 s)).
Proof.
  exists uni0, tz_source_order, tz_other_order, (lit "10:00 EST PST"). split; [exact uni0_ascii|]. split; [exact tz_source_is_order|]. split; [exact tz_other_is_order|].
  split; [intros H; apply (f_equal od_off) in H; revert H|]; vm_compute; discriminate.
Qed.

(** If only one pattern of the table occurs in the string, the map order does not matter *)
Lemma pop_first U s l : pop_loop U l s =
  match List.find (fun o => match od_rx o with Some r => match find U r s with Some _ => true | None => false end | None => false end) l with
  | Some o => match od_rx o with Some r => match find U r s with Some m => ((firstn (S (mt_start m)) s ++ skipn (mt_end m) s)%list, o) | None => (s, o) end | None => (s, o) end
  | None => (s, od_zero)
  end.
Proof.
  induction l as [|o l IH]; cbn [pop_loop List.find]; [reflexivity|]. destruct (od_rx o) as [r|] eqn:Er; [|exact IH].
  destruct (find U r s) as [m|] eqn:Ef; [|exact IH]. now rewrite Er, Ef.
Qed.
Definition occurs (U : uni) (s : str) (o : offset_data) : Prop := exists r m, od_rx o = Some r /\ find U r s = Some m.
Theorem C25_deterministic_partial : forall U l1 l2 s, tz_order l1 -> tz_order l2 ->
  (forall o1 o2, In o1 tz_source_order -> In o2 tz_source_order -> occurs U s o1 -> occurs U s o2 -> o1 = o2) ->
  pop_tz U l1 s = pop_tz U l2 s.
Proof.
  intros U l1 l2 s H1 H2 Hu. unfold pop_tz. destruct (match_string _ _ _); [|reflexivity]. rewrite !pop_first.
  set (f := fun o => match od_rx o with Some r => match find U r s with Some _ => true | None => false end | None => false end).
  assert (O : forall o, f o = true -> occurs U s o).
  { intros o. unfold f, occurs. destruct (od_rx o) as [r|]; [|discriminate]. destruct (find U r s) as [m|] eqn:Ef; [|discriminate]. eauto. }
  assert (Q : List.find f l1 = List.find f l2).
  { destruct (List.find f l1) as [o1|] eqn:F1.
    - apply find_some in F1 as [I1 F1]. apply (tz_order_perm l1 H1) in I1. destruct (List.find f l2) as [o2|] eqn:F2.
      + apply find_some in F2 as [I2 F2]. apply (tz_order_perm l2 H2) in I2. f_equal. apply Hu; auto.
      + exfalso. pose proof (find_none _ _ F2 o1) as F. apply (tz_order_perm l2 H2) in I1. rewrite F1 in F. discriminate F. exact I1.
    - destruct (List.find f l2) as [o2|] eqn:F2; [|reflexivity]. exfalso. apply find_some in F2 as [I2 F2]. apply (tz_order_perm l2 H2), (tz_order_perm l1 H1) in I2.
      pose proof (find_none _ _ F1 o2 I2). congruence. }
  rewrite Q. reflexivity.
Qed.
(** "10:00 EST": exactly one entry occurs *)
Example C25_one_entry : forall o1 o2, In o1 tz_source_order -> In o2 tz_source_order -> occurs uni0 (lit "10:00 EST") o1 -> occurs uni0 (lit "10:00 EST") o2 -> o1 = o2.
Proof.
  assert (H : exists o, filter (fun o => match od_rx o with Some r => match find uni0 r (lit "10:00 EST") with Some _ => true | None => false end | None => false end) tz_source_order = [o])
    by (eexists; vm_compute; reflexivity).
  destruct H as [o Ho]. assert (A : forall o', In o' tz_source_order -> occurs uni0 (lit "10:00 EST") o' -> o' = o).
  { intros o' Hin (r & m & Hr & Hm). assert (In o' [o]) as [->|[]]; [|reflexivity]. rewrite <- Ho. apply filter_In. split; [exact Hin|]. now rewrite Hr, Hm. }
  intros o1 o2 I1 I2 O1 O2. rewrite (A o1 I1 O1), (A o2 I2 O2). reflexivity.
Qed.
Example C25_env0_order : tz_order (e_tz env0). Proof. exact tz_source_is_order. Qed.
Example C25_case : fst (etz_pop env0 (lit "10:00 (EST) 2015")) = lit "10:00 ( 2015" /\ od_off (snd (etz_pop env0 (lit "10:00 (EST) 2015"))) = -18000.
Proof. vm_compute. auto. Qed.
(** the cut may fall inside a character: the byte after the first byte of the character before the offset is lost *)
Theorem C25_valid_text_refuted : exists s r, runes s = [r] /\ encode [r] = s /\
  fst (etz_pop env0 (s ++ lit "+05:30")%list) = firstn 1 s /\ length s = 2%nat /\ od_off (snd (etz_pop env0 (s ++ lit "+05:30")%list)) = 19800.
Proof. exists [195; 169], 233. vm_compute. repeat split. Qed.

(** C24 end to end *)
Definition with_tz (c : uconfig) (l : location) : uconfig :=
  {| u_locales := u_locales c; u_languages := u_languages c; u_region := u_region c; u_try_prev := u_try_prev c; u_given_order := u_given_order c;
     u_deflang := u_deflang c; u_order := u_order c; u_now := u_now c; u_tz := Some l; u_pday := u_pday c; u_pmonth := u_pmonth c; u_src := u_src c;
     u_strict := u_strict c; u_required := u_required c; u_skip := u_skip c; u_timeperiod := u_timeperiod c; u_preserve := u_preserve c |}.
(** Central European Time with the change to summer time of 2021-03-28T01:00:00Z *)
Definition cet : location :=
  {| l_name := lit "Europe/Berlin"; l_base := {| z_name := lit "CET"; z_off := 3600 |}; l_trans := [(1616893200, {| z_name := lit "CEST"; z_off := 7200 |})] |}.
Definition go_tz (l : location) (s : string) : res ret :=
  snd (parse env0 db0 None (new_parser []) (with_tz (mkcfg [lit "en"] (lit "YMD") (utc_at 2021 6 1 0 0 0) 0 0 0) l) (lit s) []).
Definition offset_of (r : res ret) : option Z := match r with Ok (d, None) => Some (utc_offset (d_time d)) | _ => None end.
Example C24_default_case : shows (go_tz cet "2021-03-27 12:30") 2021 3 27 12 30 0 0 PDay (lit "en") /\ offset_of (go_tz cet "2021-03-27 12:30") = Some 3600.
Proof. split; [apply shows_by|]; vm_compute; reflexivity. Qed.
Example C24_string_case : shows (go_tz cet "2021-03-27 12:30 EST") 2021 3 27 12 30 0 0 PDay (lit "en") /\ offset_of (go_tz cet "2021-03-27 12:30 EST") = Some (-18000).
Proof. split; [apply shows_by|]; vm_compute; reflexivity. Qed.
(** at 01:30 on that day the offset is still one hour, at every instant that has this wall clock; the library returns two hours *)
Theorem C24_default_timezone_refuted :
  shows (go_tz cet "2021-03-28 01:30") 2021 3 28 1 30 0 0 PDay (lit "en") /\ offset_of (go_tz cet "2021-03-28 01:30") = Some 7200 /\
  forall u, same_wall_clock {| t_sec := u; t_nsec := 0; t_loc := cet |} (utc_at 2021 3 28 1 30 0) -> off_at cet u = 3600.
Proof.
  split; [apply shows_by; vm_compute; reflexivity|]. split; [vm_compute; reflexivity|].
  intros u H. set (t := {| t_sec := u; t_nsec := 0; t_loc := cet |}) in *.
  assert (L : local_sec t = 1616895000).
  { destruct H as (H1 & H2 & H3 & H4 & H5 & H6 & _). change (year (utc_at 2021 3 28 1 30 0)) with 2021 in H1. change (month (utc_at 2021 3 28 1 30 0)) with 3 in H2.
    change (day (utc_at 2021 3 28 1 30 0)) with 28 in H3. change (hour (utc_at 2021 3 28 1 30 0)) with 1 in H4. change (minute (utc_at 2021 3 28 1 30 0)) with 30 in H5.
    change (second (utc_at 2021 3 28 1 30 0)) with 0 in H6.
    pose proof (civil_valid t) as [_ HD]. rewrite H1, H2, H3 in HD. rewrite local_sec_split, H4, H5, H6, <- HD. reflexivity. }
  unfold local_sec, zone_of in L. subst t. cbn [t_sec t_loc] in L. unfold off_at, zone_at, lookup in *. cbn [cet l_base l_trans lookup_from] in *.
  destruct (u <? 1616893200) eqn:C; cbn [fst z_off] in *; lia.
Qed.

Print Assumptions C24_timezone_in_the_string.
Print Assumptions C24_timezone_does_not_change_the_date.
Print Assumptions C24_default_timezone_partial.
Print Assumptions C25_one_piece_and_a_known_timezone.
Print Assumptions C25_deterministic_refuted.
Print Assumptions C25_deterministic_partial.
Print Assumptions C25_valid_text_refuted.
Print Assumptions C24_default_timezone_refuted.
