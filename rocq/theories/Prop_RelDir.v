(** C21: the direction of relative dates *)
From Coq Require Import ZifyBool.
From Verif Require Import GoBase SMap Regex Civil GoTime GoTimeFacts GoFloat Strutil Setting Timezone Env Common Relative RelSpec AbsFacts2 AbsSpec RegexFacts RegexFacts6 Prop_Timestamp Prop_Relative Prop_Clocktime RelFacts Parser Shows Prop_Absolute3 Concrete LocaleData.
Ltac Zify.zify_post_hook ::= Z.div_mod_to_equations.

Lemma days_mono t t' : t_loc t = t_loc t' -> fixed (t_loc t) -> wf_time t -> wf_time t' -> instant t <= instant t' -> local_days t <= local_days t'.
Proof.
  intros L F W W' I. unfold local_days. rewrite !local_sec_fixed by congruence. rewrite L. unfold instant, wf_time in *. apply Z.div_le_mono; [lia|]. lia.
Qed.
Lemma same_day t h m s ns : fixed (t_loc t) -> valid_clock h m s ns -> local_days (mk_date (year t) (month t) (day t) h m s ns (t_loc t)) = local_days t.
Proof. intros F V. destruct (civil_valid t) as [[V1 V2] D]. rewrite mk_date_days by assumption. exact D. Qed.

(** [s] is the text without the braces and the zone abbreviation, [tz] the zone it named. If the relative parser returns a date:
    forwards ([in], or the source of dates set to the future) and not [ago], the date is not before the current time, otherwise not after it.
    If the text also gives a time of day, this holds for the day. *)
Theorem C21_direction : forall E cfg s0 s tz,
  etz_pop E (strip_braces s0) = (s, tz) -> amounts_ok (e_uni E) s ->
  let now := here E cfg tz in
  fixed (t_loc now) -> wf_time now ->
  let r := d_time (relative_parse E cfg s0) in
  is_zero r = false ->
  let forwards := (match_string (e_uni E) rxIn s || (c_src cfg =? Future)) && negb (match_string (e_uni E) rxAgo s) in
  t_loc r = t_loc now /\
  (if forwards then local_days now <= local_days r else local_days r <= local_days now) /\
  (rel_parse_time E s = None -> if forwards then instant now <= instant r else instant r <= instant now).
Proof.
  intros E cfg s0 s tz HP HA now HF HW r HZ fw. unfold r, relative_parse in *. rewrite HP, rel_now_here in *. fold now in HZ |- *. clear r. unfold rel_parse_date in *.
  destruct (negb (all_words_units E s)).
  { exfalso. revert HZ. destruct (match rel_parse_time E s with Some p => p | None => _ end) as [t tp]. cbn [is_zero zero_time negb andb]. cbn. discriminate. }
  destruct (get_durations E s) as [|p m] eqn:GD.
  { exfalso. revert HZ. destruct (match rel_parse_time E s with Some p => p | None => _ end) as [t tp]. cbn. discriminate. }
  rewrite <- GD in *. pose proof (rel_apply_dir E s cfg (rel_forward E cfg s) now HA HF HW) as (D1 & D2 & D3). fold fw in D1. change (rel_forward E cfg s) with fw in *.
  set (dt := rel_apply cfg (get_durations E s) fw now) in *. clearbody dt.
  assert (DD : if fw then local_days now <= local_days dt else local_days dt <= local_days now) by (destruct fw; apply days_mono; try assumption; try congruence).
  destruct (rel_parse_time E s) as [[t tp]|] eqn:RT.
  - destruct (negb (is_zero dt) && negb (is_zero t)) eqn:NZ; unfold mkd; cbn [d_time].
    + split; [exact D2|]. split; [|discriminate]. unfold rel_parse_time in RT. apply C38_exact in RT as (WT & _). rewrite same_day by (try exact (clock_valid t WT); congruence). exact DD.
    + split; [exact D2|]. split; [exact DD|]. discriminate.
  - cbn [d_time]. replace (is_zero zero_time) with true by reflexivity. rewrite andb_false_r. unfold mkd. cbn [d_time]. split; [exact D2|]. split; [exact DD|]. intros _. exact D1.
Qed.

(** what the two words are: the whole word, in any case *)
Theorem C21_words : forall U s, uni_ascii U -> asc s ->
  (match_string U rxAgo s = true <-> says (lit "ago") s) /\ (match_string U rxIn s = true <-> says (lit "in") s).
Proof.
  intros U s UA HA. split; (apply word_search; [exact UA|discriminate| |reflexivity|vm_compute; reflexivity|exact HA]); cbn; repeat (apply Forall_cons; [lia|]); apply Forall_nil.
Qed.

(** the three cases of the property, for ASCII texts without a time of day *)
Theorem C21_ago_in_neither : forall E cfg s0 s tz, uni_ascii (e_uni E) ->
  etz_pop E (strip_braces s0) = (s, tz) -> asc s -> amounts_ok (e_uni E) s -> rel_parse_time E s = None ->
  let now := here E cfg tz in
  fixed (t_loc now) -> wf_time now ->
  let r := d_time (relative_parse E cfg s0) in
  is_zero r = false ->
  (says (lit "ago") s -> instant r <= instant now) /\
  (says (lit "in") s -> ~ says (lit "ago") s -> instant now <= instant r) /\
  (~ says (lit "in") s -> ~ says (lit "ago") s -> if c_src cfg =? Future then instant now <= instant r else instant r <= instant now).
Proof.
  intros E cfg s0 s tz UA HP HS HA HT now HF HW r HZ. destruct (C21_words (e_uni E) s UA HS) as [WA WI].
  pose proof (C21_direction E cfg s0 s tz HP HA HF HW HZ) as (_ & _ & D). specialize (D HT). fold now in D. fold r in D. clearbody r now.
  rewrite <- WA, <- WI. destruct (match_string (e_uni E) rxAgo s), (match_string (e_uni E) rxIn s); cbn [negb andb orb] in D; rewrite ?andb_false_r, ?andb_true_r in D.
  - split; [intros _; exact D|]. split; [intros _ N; exfalso; now apply N|intros N; exfalso; now apply N].
  - split; [intros _; exact D|]. split; [intros N; discriminate N|intros _ N; exfalso; now apply N].
  - split; [intros N; discriminate N|]. split; [intros _ _; exact D|intros N; exfalso; now apply N].
  - split; [intros N; discriminate N|]. split; [intros N; discriminate N|]. intros _ _. exact D.
Qed.
(** the hypotheses are met: "2 years, 1.5 months and 30 minutes ago" with fractions and several units *)
Definition rel_text : str := lit "2 year 1.5 month 30 minute ago".
Definition rel_cfg : config := acfg "" (utc_at 2016 3 31 10 0 0) 0 0 0.
Example C21_hyp : exists tz, etz_pop env0 (strip_braces rel_text) = (rel_text, tz) /\ rel_parse_time env0 rel_text = None /\
  fixed (t_loc (here env0 rel_cfg tz)) /\ wf_time (here env0 rel_cfg tz) /\ is_zero (d_time (relative_parse env0 rel_cfg rel_text)) = false.
Proof. exists (snd (etz_pop env0 (strip_braces rel_text))). split; [vm_compute; reflexivity|]. split; [vm_compute; reflexivity|]. split; [vm_compute; reflexivity|]. split; [vm_compute; split; [discriminate|reflexivity]|vm_compute; reflexivity]. Qed.
Definition amountb (w : str) (lim : Z) : bool :=
  let ip := take_while is_digitA w in let r := skipn (length ip) w in
  match r with [] => number 0 ip <? lim | c :: fp => ((c =? 46) || (c =? 44)) && forallb is_digitA fp && (number 0 ip <? lim) end.
Lemma take_digits w : Forall decimal (take_while is_digitA w) /\ w = take_while is_digitA w ++ skipn (length (take_while is_digitA w)) w.
Proof. induction w as [|c w [IH1 IH2]]; cbn [take_while]; [split; [constructor|reflexivity]|]. destruct (is_digitA c) eqn:D; [|split; [constructor|reflexivity]]. split; [constructor; [unfold is_digitA in D; unfold decimal; lia|exact IH1]|]. cbn [length skipn app]. now rewrite <- IH2. Qed.
Lemma amountb_ok w lim : amountb w lim = true -> exists ip fp, amount w ip fp /\ number 0 ip < lim.
Proof.
  unfold amountb. destruct (take_digits w) as [D1 D2]. set (ip := take_while is_digitA w) in *. destruct (skipn (length ip) w) as [|c fp] eqn:R.
  - intros H. exists ip, []. rewrite app_nil_r in D2. split; [|lia]. split; [exact D1|]. split; [constructor|]. left. auto.
  - intros H. apply andb_true_iff in H as [H H3]. apply andb_true_iff in H as [H1 H2]. exists ip, fp. split; [|lia]. split; [exact D1|]. split.
    + apply Forall_forall. intros x Hx. rewrite forallb_forall in H2. specialize (H2 x Hx). unfold is_digitA in H2. unfold decimal. lia.
    + right. exists c. split; [lia|exact D2].
Qed.
Example C21_amounts : amounts_ok uni0 rel_text /\ asc rel_text /\ says (lit "ago") rel_text.
Proof.
  split; [|split].
  - intros mt H. apply amountb_ok. revert mt H. apply Forall_forall. vm_compute. repeat constructor.
  - apply ascb_asc. vm_compute. reflexivity.
  - exists (lit "2 year 1.5 month 30 minute "), (lit "ago"), []. split; [reflexivity|]. split; [reflexivity|]. split.
    + intros (a' & c & E & W). change (lit "2 year 1.5 month 30 minute ") with (lit "2 year 1.5 month 30 minute" ++ [32]) in E. apply app_inj_tail in E as [_ <-]. unfold word_char in W. lia.
    + intros (c & b' & E & _). discriminate E.
Qed.
(** the bound on the amounts is needed: an amount of hours that overflows the 64-bit duration goes the wrong way, through the public API *)
Theorem C21_limit_needed : exists r, instant_of (go "" (utc_at 2016 3 31 10 0 0) 0 0 0 "in 2562048 hours") = Some r /\ r < instant (utc_at 2016 3 31 10 0 0).
Proof. eexists. split; [vm_compute; reflexivity|vm_compute; reflexivity]. Qed.
Print Assumptions C21_limit_needed.
Print Assumptions C21_direction.
Print Assumptions C21_words.
Print Assumptions C21_ago_in_neither.
