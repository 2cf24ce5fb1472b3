(** Invariants of the absolute parser: where the components come from *)
From Coq Require Import ZifyBool.
From Verif Require Import GoBase SMap Regex Civil GoTime GoTimeFacts GoTimeParse Setting Strutil Dateutil DateutilFacts Tokenizer Timezone Env Common Absolute.

(** the layouts tried on a digit token and on a letter token *)
Definition layouts (ty : ttype) (c : comp) : list string :=
  match ty, c with
  | TDigit, CDay => ["2"] | TDigit, CMonth => ["1"] | TDigit, CYear => ["2006"; "06"]
  | TLetter, CMonth => ["January"; "Jan"] | TLetter, CWeekday => ["Monday"; "Mon"] | _, _ => []
  end%string.

Lemma cget_cset {A} (m : cmap A) c v c' : cget (cset m c v) c' = if comp_eqb c c' then Some v else cget m c'.
Proof. destruct c, c'; reflexivity. Qed.
Lemma comp_eqb_eq a b : comp_eqb a b = true <-> a = b.
Proof. destruct a, b; cbn; split; congruence. Qed.
Lemma chas_cset {A} (m : cmap A) c v c' : chas (cset m c v) c' = comp_eqb c c' || chas m c'.
Proof. unfold chas. rewrite cget_cset. destruct (comp_eqb c c'); reflexivity. Qed.

Section E.
Variable E : env.
Variable H : hooks.
Variable toks : list token.

(** token [t] reads as component [c] with value [v] *)
(** what can be read as a month can be read as a day *)
Hypothesis HH : forall text v, h_value H CMonth text "1" = Some v -> h_value H CDay text "2" <> None.
Definition src0 (c : comp) (t : token) (v : Z) : Prop :=
  (exists d, In d (layouts (tk_type t) c) /\ h_value H c (tk_text t) d = Some v) \/
  (c = CDay /\ exists d, In d (layouts (tk_type t) CMonth) /\ h_value H CMonth (tk_text t) d = Some v).
Definition src (c : comp) (t : token) (v : Z) : Prop :=
  src0 c t v \/ ((c = CDay \/ c = CMonth) /\ tk_type t = TDigit /\ v = atoi0 (tk_text t) /\ exists w, src0 CYear t w).

Record ainv (a : ast) : Prop := {
  ai_dom : forall c, chas (a_toks a) c = chas (a_vals a) c;
  ai_src : forall c t v, cget (a_toks a) c = Some t -> cget (a_vals a) c = Some v -> src0 c t v /\ In t toks;
  ai_unset : forall t, In t (a_unset a) -> In t toks /\ chas (a_vals a) CYear = true /\ tk_type t = TDigit /\ exists w, src0 CYear t w }.
Lemma ainv0 : ainv ast0.
Proof. constructor; [intros []; reflexivity | intros [] t v; discriminate | intros t []]. Qed.

Definition one_result (a a1 : ast) (tok : token) (rs : results) : Prop :=
  a_vals a1 = a_vals a /\ a_time a1 = a_time a /\ (forall t, In t (a_unset a1) -> In t (a_unset a) \/ (In t toks /\ chas (a_vals a) CYear = true /\ tk_type t = TDigit /\ exists w, src0 CYear t w)) /\
  exists c v, a_toks a1 = cset (a_toks a) c tok /\ rs = [(c, v)] /\ src0 c tok v.

Notation dig text := {| tk_text := text; tk_type := TDigit |}.
Notation alp text := {| tk_text := text; tk_type := TLetter |}.
Lemma digit_directives_spec a c text ds : ainv a -> incl ds (layouts TDigit c) -> forall a1 rs, digit_directives H a c text ds = Some (a1, rs) -> one_result a a1 (dig text) rs.
Proof.
  intros HA. induction ds as [|d ds IH]; intros HI a1 rs; cbn [digit_directives]; [discriminate|].
  assert (Hd : In d (layouts TDigit c)) by (apply HI; now left). assert (HI' : incl ds (layouts TDigit c)) by (intros x Hx; apply HI; now right).
  destruct (h_value H c text d) as [v|] eqn:V; [|now apply IH].
  assert (S0 : src0 c (dig text) v) by (left; now exists d).
  destruct (_ =? 0) eqn:Ez.
  - intros [= <- <-]. unfold set_tok, one_result; cbn [a_vals a_time a_unset a_toks]. repeat split; auto.
    exists c, v. repeat split; auto.
  - destruct (ttype_eqb _ TDigit) eqn:Et; [|now apply IH]. destruct (h_value H c (tk_text _) d) eqn:PV; [now apply IH|].
    intros [= <- <-]. unfold set_tok, add_unset, one_result; cbn [a_vals a_time a_unset a_toks]. split; [reflexivity|]. split; [reflexivity|]. split.
    + intros t Ht. apply in_app_or in Ht as [Ht|[<-|[]]]; [now left|]. right.
      destruct (cget (a_toks a) c) as [pt|] eqn:P; [|exfalso; cbn in Et; discriminate Et].
      destruct (cget (a_vals a) c) as [w|] eqn:W; [|discriminate Ez].
      destruct (ai_src _ HA c pt w P W) as [SP Hin]. assert (TY : tk_type pt = TDigit) by (destruct (tk_type pt); (reflexivity || discriminate)).
      assert (c = CYear) as ->.
      { unfold src0 in SP. rewrite TY in SP. destruct c; [exfalso..|reflexivity|exfalso]; cbn [layouts In] in *.
        - destruct Hd as [<-|[]]. destruct SP as [(d' & [<-|[]] & HV)|(_ & d' & [<-|[]] & HV)]; [congruence|]. now apply HH in HV.
        - destruct Hd as [<-|[]]. destruct SP as [(d' & [<-|[]] & HV)|(HX & _)]; congruence.
        - exact Hd. }
      split; [exact Hin|]. split; [unfold chas; now rewrite W|]. split; [exact TY|]. now exists w.
    + exists c, v. repeat split; auto.
Qed.

Lemma number_directives_layouts order c ds : In (c, ds) (number_directives E order) -> incl ds (layouts TDigit c).
Proof.
  unfold number_directives. rewrite in_flat_map. intros (r & _ & Hr).
  destruct (r =? 100); [destruct Hr as [[= <- <-]|[]]; intros x Hx; exact Hx|].
  destruct (r =? 109); [destruct Hr as [[= <- <-]|[]]; intros x Hx; exact Hx|].
  destruct (r =? 121); [destruct Hr as [[= <- <-]|[]]; intros x Hx; exact Hx|]. destruct Hr.
Qed.
Lemma digit_token_spec a text dirs : ainv a -> (forall c ds, In (c, ds) dirs -> incl ds (layouts TDigit c)) -> forall a1 rs, digit_token H a text dirs = Some (a1, rs) -> one_result a a1 (dig text) rs.
Proof.
  intros HA. induction dirs as [|[c ds] dirs IH]; intros HL a1 rs; cbn [digit_token]; [discriminate|].
  assert (HL' : forall c ds, In (c, ds) dirs -> incl ds (layouts TDigit c)) by (intros c' ds' Hi; apply HL; now right).
  destruct (a_skipyear a && comp_eqb c CYear); [now apply IH|].
  destruct (digit_directives H a c text ds) as [[a2 rs2]|] eqn:D; [|now apply IH].
  intros [= <- <-]. eapply digit_directives_spec; [exact HA| |exact D]. apply HL. now left.
Qed.

Definition two_results (a a1 : ast) (tok : token) (rs : results) : Prop :=
  a_vals a1 = a_vals a /\ a_time a1 = a_time a /\ a_unset a1 = a_unset a /\
  exists v w mt, cm_month (a_toks a) = Some mt /\ cm_month (a_vals a) = Some w /\
    a_toks a1 = cset (cset (a_toks a) CDay mt) CMonth tok /\ rs = [(CMonth, v); (CDay, w)] /\ src0 CMonth tok v.
Lemma letter_directives_spec a c text ds : ainv a -> incl ds (layouts TLetter c) -> forall a1 rs, letter_directives H a c text ds = Some (a1, rs) ->
  one_result a a1 (alp text) rs \/ two_results a a1 (alp text) rs.
Proof.
  intros HA. induction ds as [|d ds IH]; intros HI a1 rs; cbn [letter_directives]; [discriminate|].
  assert (Hd : In d (layouts TLetter c)) by (apply HI; now left). assert (HI' : incl ds (layouts TLetter c)) by (intros x Hx; apply HI; now right).
  destruct (h_value H c text d) as [v|] eqn:V; [|now apply IH].
  assert (S0 : src0 c (alp text) v) by (left; now exists d).
  destruct (_ =? 0) eqn:Ez.
  - intros [= <- <-]. left. unfold set_tok, one_result; cbn [a_vals a_time a_unset a_toks]. repeat split; auto.
    exists c, v. repeat split; auto.
  - destruct (comp_eqb c CMonth) eqn:Ec; [|now apply IH]. apply comp_eqb_eq in Ec. subst c.
    destruct (replace_first_month (a_order a)) as [o|]; [|now apply IH]. intros [= <- <-]. right. unfold two_results; cbn [a_vals a_time a_unset a_toks].
    cbn [cget] in *. destruct (cm_month (a_vals a)) as [w|] eqn:W; [|discriminate Ez].
    pose proof (ai_dom _ HA CMonth) as D. unfold chas in D. cbn [cget] in D. rewrite W in D.
    destruct (cm_month (a_toks a)) as [mt|] eqn:M; [|discriminate].
    repeat split; auto. exists v, w, mt. repeat split; auto.
Qed.
Lemma letter_token_spec a text dirs : ainv a -> (forall c ds, In (c, ds) dirs -> incl ds (layouts TLetter c)) -> forall a1 rs, letter_token H a text dirs = Some (a1, rs) ->
  one_result a a1 (alp text) rs \/ two_results a a1 (alp text) rs.
Proof.
  intros HA. induction dirs as [|[c ds] dirs IH]; intros HL a1 rs; cbn [letter_token]; [discriminate|].
  assert (HL' : forall c ds, In (c, ds) dirs -> incl ds (layouts TLetter c)) by (intros c' ds' Hi; apply HL; now right).
  destruct (letter_directives H a c text ds) as [[a2 rs2]|] eqn:D; [|now apply IH].
  intros [= <- <-]. eapply letter_directives_spec; [exact HA| |exact D]. apply HL. now left.
Qed.
Lemma alpha_layouts c ds : In (c, ds) (alpha_directives E) -> incl ds (layouts TLetter c).
Proof. unfold alpha_directives. destruct (e_wd_first E); intros [[= <- <-]|[[= <- <-]|[]]] x Hx; cbn in *; tauto. Qed.

Lemma one_result_inv a a1 text tok rs : ainv a -> In tok toks -> one_result a a1 tok rs -> ainv (fold_left (save_result text) rs a1).
Proof.
  intros HA Ht (Hv & Htm & Hu & c & v & Hk & -> & Hs). cbn [fold_left]. constructor.
  - intros c'. unfold save_result; cbn [a_toks a_vals fst snd]. rewrite Hk, Hv, !chas_cset. f_equal. apply (ai_dom _ HA).
  - intros c' t v'. unfold save_result; cbn [a_toks a_vals fst snd]. rewrite Hk, Hv, !cget_cset. destruct (comp_eqb c c') eqn:Ec.
    + apply comp_eqb_eq in Ec. subst c'. intros [= <-] [= <-]. split; [exact Hs | exact Ht].
    + apply (ai_src _ HA).
  - intros t. unfold save_result; cbn [a_unset a_vals]. intros Hi. rewrite Hv, chas_cset.
    destruct (Hu t Hi) as [Hi'|(H1 & H2 & H3)]; [destruct (ai_unset _ HA _ Hi') as (H1 & H2 & H3)|]; rewrite H2, orb_true_r; auto.
Qed.
Lemma two_results_inv a a1 text tok rs : ainv a -> In tok toks -> two_results a a1 tok rs -> ainv (fold_left (save_result text) rs a1).
Proof.
  intros HA Ht (Hv & Htm & Hu & v & w & mt & Hm & Hw & Hk & -> & Hs). cbn [fold_left]. constructor.
  - intros c'. unfold save_result; cbn [a_toks a_vals fst snd]. rewrite Hk, Hv, !chas_cset. rewrite (ai_dom _ HA c').
    destruct (comp_eqb CMonth c'), (comp_eqb CDay c'); reflexivity.
  - intros c' t v'. unfold save_result; cbn [a_toks a_vals fst snd]. rewrite Hk, Hv, !cget_cset.
    destruct c'; cbn [comp_eqb].
    + intros [= <-] [= <-]. destruct (ai_src _ HA CMonth mt w Hm Hw) as [[(d & Hd & Hx)|[? _]] Hi]; [|discriminate]. split; [|exact Hi]. right. split; [reflexivity|]. now exists d.
    + intros [= <-] [= <-]. split; [exact Hs | exact Ht].
    + apply (ai_src _ HA CYear).
    + apply (ai_src _ HA CWeekday).
  - intros t. unfold save_result; cbn [a_unset a_vals]. rewrite Hu, Hv, !chas_cset. intros Hi. destruct (ai_unset _ HA _ Hi) as (H1 & H2 & H3). rewrite H2, !orb_true_r. auto.
Qed.

Lemma ainv_ext a b : a_vals b = a_vals a -> a_toks b = a_toks a -> a_unset b = a_unset a -> ainv a -> ainv b.
Proof. intros E1 E2 E3 [H1 H2 H3]. constructor; rewrite ?E1, ?E2, ?E3; assumption. Qed.

(** a token that is not part of a time is used with its own text *)
Lemma try_time_text fts index ft : tt_text (try_time E toks fts index ft) = None -> tt_ftext (try_time E toks fts index ft) = tk_text (fst ft).
Proof.
  unfold try_time. destruct (dotted_time E toks fts index ft) as [t|] eqn:D; [|destruct (_ || _ || _); [destruct (_ && _); [discriminate|]; destruct (_ && _); [discriminate|]; destruct (_ && _); discriminate | reflexivity]].
  assert (C : contains t (lit ":") = true).
  { unfold dotted_time in D. destruct (nth_error fts (S index)) as [[nt noi]|]; [|discriminate]. destruct (_ && _); [|discriminate]. destruct (_ || _); [|discriminate].
    destruct (match_string _ _ _); [|discriminate]. assert (t = tk_text (fst ft) ++ lit ":" ++ tk_text nt) as -> by congruence. clear D.
    assert (G : forall x y, exists i, GoBase.index (y ++ lit ":" ++ x) (lit ":") = Some i).
    { intros x y. induction y as [|c y [i IH]]; [exists 0%nat; reflexivity|]. cbn [app GoBase.index]. destruct (has_prefix (lit ":") (c :: y ++ lit ":" ++ x)); [now exists 0%nat|]. rewrite IH. now exists (S i). }
    unfold contains. destruct (G (tk_text nt) (tk_text (fst ft))) as [i Hi]. rewrite Hi. reflexivity. }
  rewrite C. cbn [orb]. destruct (_ && _); [discriminate|]. destruct (_ && _); [discriminate|]. destruct (_ && _); discriminate.
Qed.

Lemma init_step_inv order fts index ft a a' : ainv a -> In (fst ft) toks -> init_step E H (number_directives E order) toks fts index ft a = Some a' -> ainv a'.
Proof.
  intros HA Hf. unfold init_step. destruct (existsb _ _); [now intros [= <-]|]. destruct (skipped_token _); [now intros [= <-]|].
  cbv zeta. assert (HA' : ainv (add_skip a (tt_skip (try_time E toks fts index ft)))) by (eapply ainv_ext; [..|exact HA]; reflexivity).
  destruct (tt_text (try_time E toks fts index ft)) as [t|] eqn:T.
  - intros [= <-]. eapply ainv_ext; [..|exact HA]; reflexivity.
  - rewrite (try_time_text _ _ _ T). set (a0 := add_skip a _) in *. clearbody a0.
    destruct ft as [[text ty] oi]. cbn [fst snd tk_text tk_type] in *.
    destruct ty.
    all: try (intros [= <-]; cbn [fold_left]; exact HA').
    + destruct (digit_token H a0 text (number_directives E order)) as [[a1 rs]|] eqn:D; [|discriminate]. intros [= <-].
      eapply one_result_inv; [exact HA'|exact Hf|]. eapply digit_token_spec; [exact HA'|apply number_directives_layouts|exact D].
    + destruct (letter_token H a0 text (alpha_directives E)) as [[a1 rs]|] eqn:D; [|discriminate]. intros [= <-].
      eapply letter_token_spec in D; [|exact HA'|apply alpha_layouts]. destruct D as [D|D]; [eapply one_result_inv | eapply two_results_inv]; eauto.
Qed.
Lemma init_loop_inv order fts : forall rest index a a', ainv a -> (forall ft, In ft rest -> In (fst ft) toks) ->
  init_loop E H (number_directives E order) toks fts index rest a = Some a' -> ainv a'.
Proof.
  induction rest as [|ft rest IH]; intros index a a' HA Hr; cbn [init_loop]; [now intros [= <-]|].
  destruct (init_step E H _ toks fts index ft a) as [a1|] eqn:S1; [|discriminate]. apply IH.
  - eapply init_step_inv; eauto. apply Hr. now left.
  - intros x Hx. apply Hr. now right.
Qed.

Record ainv1 (a : ast) : Prop := {
  bi_dom : forall c, chas (a_toks a) c = chas (a_vals a) c;
  bi_src : forall c t v, cget (a_toks a) c = Some t -> cget (a_vals a) c = Some v -> src c t v /\ In t toks;
  bi_unset : forall t, In t (a_unset a) -> In t toks /\ chas (a_vals a) CYear = true /\ tk_type t = TDigit /\ exists w, src0 CYear t w }.
Lemma ainv_1 a : ainv a -> ainv1 a.
Proof. intros [H1 H2 H3]. constructor; auto. intros c t v Ht Hv. destruct (H2 c t v Ht Hv). split; auto. now left. Qed.
Lemma fallback1_inv a c : c <> CWeekday -> ainv1 a -> ainv1 (fallback1 a c).
Proof.
  intros Hc HA. unfold fallback1. destruct (chas (a_vals a) c) eqn:Ch; [exact HA|].
  assert (G : forall l b, (forall t, In t l -> In t toks /\ (c = CDay \/ c = CMonth) /\ exists w, src0 CYear t w) -> ainv1 b ->
     ainv1 (fold_left (fun a ut => if ttype_eqb (tk_type ut) TDigit
                              then {| a_vals := cset (a_vals a) c (atoi0 (tk_text ut)); a_toks := cset (a_toks a) c ut;
                                      a_time := a_time a; a_order := a_order a; a_unset := a_unset a;
                                      a_skipyear := a_skipyear a; a_skipidx := a_skipidx a |}
                              else a) l b)).
  { induction l as [|ut l IH]; intros b Hl HB; [exact HB|]. cbn [fold_left]. apply IH; [intros t Ht; apply Hl; now right|].
    destruct (ttype_eqb (tk_type ut) TDigit) eqn:Ty; [|exact HB]. destruct HB as [H1 H2 H3]. constructor; cbn [a_vals a_toks a_unset].
    - intros c'. rewrite !chas_cset. f_equal. apply H1.
    - intros c' t v. rewrite !cget_cset. destruct (comp_eqb c c') eqn:Ec; [|apply H2]. apply comp_eqb_eq in Ec. subst c'. intros [= <-] [= <-].
      destruct (Hl ut (or_introl eq_refl)) as (L1 & L2 & L3). split; [|exact L1]. right. split; [exact L2|]. split; [|split; [reflexivity|exact L3]]. destruct (tk_type ut); (reflexivity || discriminate).
    - intros t Ht. destruct (H3 _ Ht) as (L1 & L2 & L3). rewrite chas_cset, L2, orb_true_r. auto. }
  apply G; [|exact HA]. intros t Ht. destruct (bi_unset _ HA _ Ht) as (L1 & L2 & L3 & L4). split; [exact L1|]. split; [|exact L4].
  destruct c; auto; congruence.
Qed.
Lemma fallback_inv a : ainv1 a -> ainv1 (fallback a).
Proof. intros HA. unfold fallback. cbn [fold_left]. repeat (apply fallback1_inv; [discriminate|]). exact HA. Qed.
End E.

Lemma filtered_In toks ft : In ft (filtered toks) -> In (fst ft) toks.
Proof. unfold filtered. intros Hi. apply filter_In in Hi as [Hi _]. destruct ft as [t i]. now apply in_combine_l in Hi. Qed.

Lemma abs_init_inv E H cfg s a : (forall text v, h_value H CMonth text "1" = Some v -> h_value H CDay text "2" <> None) -> abs_init E H cfg s = Some a -> ainv1 H (trimmed_tokens (sanitize_spaces s)) a.
Proof.
  intros HH. unfold abs_init. destruct (sanitize_spaces s) as [|c s'] eqn:S; [discriminate|]. rewrite <- S. set (toks := trimmed_tokens _).
  destruct (init_loop E H _ toks (filtered toks) 0 (filtered toks) ast0) as [a0|] eqn:L; [|discriminate]. intros [= <-].
  apply fallback_inv, ainv_1. eapply init_loop_inv; [exact HH|apply ainv0|intros ft; apply filtered_In|exact L].
Qed.

Lemma some_inj {A} (x y : A) : Some x = Some y -> x = y. Proof. congruence. Qed.
(** * What package time's layouts accept *)
Lemma tparse_wf layout v dflt local t : tparse layout v dflt local = Some t -> wf_time t.
Proof.
  unfold tparse. destruct (chunks_of layout) as [cs e]. destruct (parse_chunks cs e pst0 v) as [p|]; cbn [obind]; [|discriminate].
  destruct (finish_md p) as [[m d]|]; cbn [obind]; [|discriminate]. destruct (_ || _); [discriminate|]. cbv zeta.
  destruct (p_z p); [(intros XE; apply some_inj in XE; subst); apply mk_date_wf|]. destruct (negb (p_zoff p =? -1)).
  - (intros XE; apply some_inj in XE; subst). unfold wf_time. cbn [t_nsec]. apply (mk_date_wf (p_year p) m d).
  - destruct (negb (empty _)); [|(intros XE; apply some_inj in XE; subst); apply mk_date_wf]. destruct (lookup_zone_name _ _ _); (intros XE; apply some_inj in XE; subst); unfold wf_time, in_loc; cbn [t_nsec]; apply (mk_date_wf (p_year p) m d).
Qed.
Lemma parse_time_wf E s t p : parse_time E s = Some (t, p) -> wf_time t.
Proof.
  unfold parse_time. generalize (to_upper (e_uni E) (trim_space s)). intros v. induction time_formats as [|[f q] l IH]; cbn [parse_time_loop]; [discriminate|].
  destruct (time_parse (e_local E) (lit f) v) as [t'|] eqn:T; [intros [= <- <-]; eapply tparse_wf; exact T | exact IH].
Qed.
Lemma parse_time_per E s t p : parse_time E s = Some (t, p) -> p = PSecond \/ p = PMinute \/ p = PHour.
Proof.
  unfold parse_time. generalize (to_upper (e_uni E) (trim_space s)). intros v. unfold time_formats.
  cbn [parse_time_loop]. repeat (destruct (time_parse _ _ v); [intros [= <- <-]; tauto|]). discriminate.
Qed.

Lemma getnum_range v fx n r : getnum v fx = Some (n, r) -> 0 <= n <= 99.
Proof.
  unfold getnum. destruct v as [|a s1]; [discriminate|]. destruct (is_digitA a) eqn:A; [|discriminate]. unfold is_digitA in *.
  destruct s1 as [|b s2]; [|destruct ((48 <=? b) && (b <=? 57)) eqn:B].
  - destruct fx; [discriminate|]. intros H. assert (n = a - 48) by congruence. clear H. lia.
  - intros H. assert (n = (a - 48) * 10 + (b - 48)) by congruence. clear H. lia.
  - destruct fx; [discriminate|]. intros H. assert (n = a - 48) by congruence. clear H. lia.
Qed.
(** the single-field layouts *)
Ltac tp_start cs :=
  unfold time_parse, tparse; 
  match goal with |- context [chunks_of ?l] => change (chunks_of l) with (cs, @nil Z) end; cbv iota beta; cbn [parse_chunks];
  unfold skip at 1; cbn [skip_aux obind]; unfold parse_chunk; cbv zeta.
Ltac tp_fields :=
  unfold finish_md; cbn [p_yday with_day with_month with_year pst0 p_month p_day p_year p_pm p_am p_z p_zoff p_zname p_hour p_min p_sec p_nsec andb negb];
  change (0 <=? -1) with false; change (-1 <? 0) with true; cbv iota; cbn [obind]; change (negb (-1 =? -1)) with false; cbn [empty negb].
Lemma tparse_day L v t : time_parse L (lit "2") v = Some t ->
  exists n, getnum v false = Some (n, []) /\ 1 <= n <= 31 /\ t = mk_date 0 1 n 0 0 0 0 utc.
Proof.
  tp_start [(@nil Z, StdDay)].
  destruct (getnum v false) as [[n r]|] eqn:G; cbn [obind]; [|discriminate]. apply getnum_range in G. unfold skip. cbn [skip_aux obind]. destruct r; cbn [obind]; [|discriminate].
  tp_fields. change (days_in 0 1) with 31. assert (n <? 0 = false) as -> by lia.
  destruct (n <? 1) eqn:A; cbn [orb]; [discriminate|]. destruct (31 <? n) eqn:B; [discriminate|].
  intros XE; apply some_inj in XE; subst t. exists n. split; [reflexivity|]. split; [lia|reflexivity].
Qed.
Lemma days_in_0 m : (days_in 0 m <? 1) = false.
Proof. unfold days_in, leap. destruct (m =? 2), ((m =? 4) || (m =? 6) || (m =? 9) || (m =? 11)); reflexivity. Qed.
Lemma days_in_1 y m : (days_in y m <? 1) = false.
Proof. unfold days_in. destruct (m =? 2), (leap y), ((m =? 4) || (m =? 6) || (m =? 9) || (m =? 11)); reflexivity. Qed.
Lemma tparse_month L v t : time_parse L (lit "1") v = Some t ->
  exists n, getnum v false = Some (n, []) /\ 1 <= n <= 12 /\ t = mk_date 0 n 1 0 0 0 0 utc.
Proof.
  tp_start [(@nil Z, StdNumMonth)].
  destruct (getnum v false) as [[n r]|] eqn:G; cbn [obind]; [|discriminate]. apply getnum_range in G.
  destruct ((n <=? 0) || (12 <? n)) eqn:A; cbn [obind]; [discriminate|]. unfold skip. cbn [skip_aux obind]. destruct r; cbn [obind]; [|discriminate].
  tp_fields. assert (n <? 0 = false) as -> by lia. change (1 <? 1) with false. rewrite days_in_0. cbn [orb].
  intros XE; apply some_inj in XE; subst t. exists n. split; [reflexivity|]. split; [lia|reflexivity].
Qed.
Lemma lookup_name_range tab : forall i v j r, lookup_name tab i v = Some (j, r) -> i <= j < i + Z.of_nat (length tab).
Proof.
  induction tab as [|n tab IH]; intros i v j r; cbn [lookup_name]; [discriminate|]. destruct (_ && _).
  - intros H. assert (j = i) by congruence. cbn [length]. lia.
  - intros H. apply IH in H. cbn [length]. lia.
Qed.
Definition month_tab (d : string) : list string := if String.eqb d "Jan" then short_months else long_months.
Lemma tparse_month_name L d v t : d = "January"%string \/ d = "Jan"%string -> time_parse L (lit d) v = Some t ->
  exists i, lookup_name (month_tab d) 0 v = Some (i, []) /\ 0 <= i < 12 /\ t = mk_date 0 (i + 1) 1 0 0 0 0 utc.
Proof.
  intros [-> | ->].
  all: [> tp_start [(@nil Z, StdLongMonth)] | tp_start [(@nil Z, StdMonth)]].
  all: match goal with |- context [obind (lookup_name ?tab 0 ?w)] => change (month_tab _) with tab; destruct (lookup_name tab 0 w) as [[n r]|] eqn:G end; cbn [obind]; [|discriminate]; apply lookup_name_range in G; cbn [length long_months short_months] in G;
    unfold skip; cbn [skip_aux obind]; destruct r; cbn [obind]; [|discriminate]; tp_fields;
    assert (n + 1 <? 0 = false) as -> by lia; change (1 <? 1) with false; rewrite days_in_0; cbn [orb];
    intros XE; apply some_inj in XE; subst t; exists n; (split; [reflexivity|]); (split; [lia|reflexivity]).
Qed.
Definition day_tab (d : string) : list string := if String.eqb d "Mon" then short_days else long_days.
Lemma tparse_weekday L d v t : d = "Monday"%string \/ d = "Mon"%string -> time_parse L (lit d) v = Some t ->
  exists i, lookup_name (day_tab d) 0 v = Some (i, []) /\ 0 <= i < 7.
Proof.
  intros [-> | ->].
  all: [> tp_start [(@nil Z, StdLongWeekDay)] | tp_start [(@nil Z, StdWeekDay)]].
  all: match goal with |- context [obind (lookup_name ?tab 0 ?w)] => change (day_tab _) with tab; destruct (lookup_name tab 0 w) as [[n r]|] eqn:G end; cbn [obind]; [|discriminate]; apply lookup_name_range in G; cbn [length long_days short_days] in G;
    unfold skip; cbn [skip_aux obind]; destruct r; cbn [obind]; [|discriminate]; intros _; exists n; split; [reflexivity|lia].
Qed.
Lemma tparse_year4 L v t : time_parse L (lit "2006") v = Some t ->
  exists y, length v = 4%nat /\ is_digit_at v 0 = true /\ atoi v = Some y /\ t = mk_date y 1 1 0 0 0 0 utc.
Proof.
  tp_start [(@nil Z, StdLongYear)].
  destruct (Nat.ltb (length v) 4) eqn:Ln; cbn [orb obind]; [discriminate|]. apply Nat.ltb_ge in Ln. destruct (is_digit_at v 0) eqn:D; cbn [negb obind]; [|discriminate].
  destruct (atoi (firstn 4 v)) as [y|] eqn:G; cbn [obind]; [|discriminate]. unfold skip. cbn [skip_aux obind]. 
  destruct (skipn 4 v) as [|? ?] eqn:K; cbn [obind]; [|discriminate].
  assert (L4 : length v = 4%nat). { pose proof (skipn_length 4 v) as SL. rewrite K in SL. cbn [length] in SL. lia. }
  rewrite firstn_all2 in G by lia.
  tp_fields. change (1 <? 1) with false. rewrite days_in_1. cbn [orb].
  intros XE; apply some_inj in XE; subst t. exists y. repeat split; auto.
Qed.
Lemma tparse_year2 L v t : time_parse L (lit "06") v = Some t ->
  exists y, length v = 2%nat /\ atoi v = Some y /\ t = mk_date (if 69 <=? y then y + 1900 else y + 2000) 1 1 0 0 0 0 utc.
Proof.
  tp_start [(@nil Z, StdYear)].
  destruct (Nat.ltb (length v) 2) eqn:Ln; cbn [orb obind]; [discriminate|]. apply Nat.ltb_ge in Ln. 
  destruct (atoi (firstn 2 v)) as [y|] eqn:G; cbn [obind]; [|discriminate]. unfold skip. cbn [skip_aux obind]. 
  destruct (skipn 2 v) as [|? ?] eqn:K; cbn [obind]; [|discriminate].
  assert (L4 : length v = 2%nat). { pose proof (skipn_length 2 v) as SL. rewrite K in SL. cbn [length] in SL. lia. }
  rewrite firstn_all2 in G by lia.
  tp_fields. change (1 <? 1) with false. rewrite days_in_1. cbn [orb].
  intros XE; apply some_inj in XE; subst t. exists y. repeat split; auto.
Qed.
