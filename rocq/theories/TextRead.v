(** What the absolute parser reads from a day, the name of a month and a year, in the usual arrangements, whatever the date order *)
From Coq Require Import ZifyBool.
From Verif Require Import GoBase SMap Regex Civil GoTime GoTimeFacts GoTimeParse Setting Strutil Dateutil Tokenizer Timezone Env Common Absolute AbsSpec AbsFacts AbsFacts2 AbsFacts3 AbsFacts4 NumericFacts Prop_Numeric TextActs.

Section H.
Variable E : env.
Variable H : hooks.
(** the text of a day *)
Record day_text (td : str) (d : Z) : Prop := {
  dt_day : h_value H CDay td "2" = Some d; dt_0 : d <> 0; dt_month : h_value H CMonth td "1" = Some d \/ h_value H CMonth td "1" = None;
  dt_year : h_value H CYear td "2006" = None; dt_year2 : h_value H CYear td "06" = None \/ exists v, h_value H CYear td "06" = Some v /\ v <> 0;
  dt_len : slen td <> 4; dt_int : atoi0 td = d }.
(** the text of a year *)
Record year_text (ty : str) (y : Z) : Prop := {
  yt_year : h_value H CYear ty "2006" = Some y; yt_0 : y <> 0; yt_day : h_value H CDay ty "2" = None; yt_month : h_value H CMonth ty "1" = None; yt_len : slen ty = 4 }.
Record year2_text (ty : str) (y : Z) : Prop := {
  y2_year : h_value H CYear ty "2006" = None; y2_year2 : h_value H CYear ty "06" = Some y; y2_0 : y <> 0; y2_len : slen ty = 2 }.
(** a name of a month, of a weekday *)
Record month_text (w : str) (m : Z) : Prop := {
  mt_month : h_value H CMonth w "January" = Some m \/ (h_value H CMonth w "January" = None /\ h_value H CMonth w "Jan" = Some m);
  mt_0 : m <> 0; mt_wd : h_value H CWeekday w "Monday" = None; mt_wd2 : h_value H CWeekday w "Mon" = None }.
Record weekday_text (w : str) (v : Z) : Prop := {
  wt_month : h_value H CMonth w "January" = None; wt_month2 : h_value H CMonth w "Jan" = None;
  wt_wd : h_value H CWeekday w "Monday" = Some v \/ (h_value H CWeekday w "Monday" = None /\ h_value H CWeekday w "Mon" = Some v) }.

(** the parts that the parser ends with *)
Definition ends (l : list action) (order : string) (d m : option Z) (y : option (str * Z)) (wd tm : option str) : Prop :=
  exists a, run_acts E H (dirs_of order) l ast0 = Some a /\
    cm_day (a_vals (fallback a)) = d /\ cm_month (a_vals (fallback a)) = m /\ cm_year (a_vals (fallback a)) = option_map snd y /\
    option_map tk_text (cm_year (a_toks (fallback a))) = option_map fst y /\ option_map tk_text (cm_wd (a_toks (fallback a))) = wd /\ option_map tk_text (a_time (fallback a)) = tm.


Definition ltok (w : str) : token := {| tk_text := w; tk_type := TLetter |}.
Definition dtok (w : str) : token := {| tk_text := w; tk_type := TDigit |}.
Definition st v t tm o u sk ix : ast := {| a_vals := v; a_toks := t; a_time := tm; a_order := o; a_unset := u; a_skipyear := sk; a_skipidx := ix |}.
Definition cm A (d m y w : option A) : cmap A := {| cm_day := d; cm_month := m; cm_year := y; cm_wd := w |}.
Local Opaque slen.
Ltac month_dirs K W1 W2 :=
  unfold act, alpha_directives; destruct (e_wd_first E); cbn [letter_token letter_directives]; rewrite ?W1, ?W2; destruct K as [K|[K1 K2]]; rewrite ?K, ?K1, ?K2.
Lemma month_step order w m d y wd T tm o u sk ix : month_text w m ->
  act E H order (ALetter w) (st (cm Z d None y wd) T tm o u sk ix) = Some (st (cm Z d (Some m) y wd) (cset T CMonth (ltok w)) tm o u sk ix).
Proof. intros [K NZ W1 W2]. month_dirs K W1 W2; cbn; unfold save_result, set_tok, st; cbn; now rewrite andb_false_r, orb_false_r. Qed.
Lemma month_step2 order w m d v y wd T tm o o' u sk ix : month_text w m -> v <> 0 -> replace_first_month o = Some o' ->
  act E H order (ALetter w) (st (cm Z d (Some v) y wd) T tm o u sk ix) =
  Some (st (cm Z (Some v) (Some m) y wd) (cset (cset T CDay (match cm_month T with Some t => t | None => tk_null end)) CMonth (ltok w)) tm o' u sk ix).
Proof.
  intros [K NZ W1 W2] HV HR. apply Z.eqb_neq in HV. month_dirs K W1 W2; unfold st, cm; cbn [a_vals cget cm_month]; rewrite HV; cbn [comp_eqb a_order]; rewrite HR; cbn; unfold save_result; cbn; now rewrite !andb_false_r, !orb_false_r.
Qed.
Lemma weekday_step order w v d m y T tm o u sk ix : weekday_text w v ->
  act E H order (ALetter w) (st (cm Z d m y None) T tm o u sk ix) = Some (st (cm Z d m y (Some v)) (cset T CWeekday (ltok w)) tm o u sk ix).
Proof.
  intros [W1 W2 K]. unfold act, alpha_directives; destruct (e_wd_first E); cbn [letter_token letter_directives]; rewrite ?W1, ?W2; destruct K as [K|[K1 K2]]; rewrite ?K, ?K1, ?K2; cbn; unfold save_result, set_tok, st; cbn; now rewrite andb_false_r, orb_false_r.
Qed.
Ltac prep :=
  repeat match goal with
  | K : day_text _ _ |- _ => destruct K
  | K : year_text _ _ |- _ => destruct K
  | K : year2_text ?ty _ |- _ => destruct K; destruct (h_value H CDay ty "2") eqn:?; destruct (h_value H CMonth ty "1") eqn:?
  | K : _ /\ _ |- _ => destruct K
  | K : exists _, _ |- _ => destruct K
  | K : _ \/ _ |- _ => destruct K
  end;
  try match goal with K : month_text _ _ |- _ => pose proof (mt_0 _ _ K) end;
  repeat match goal with
  | K : _ <> _ |- _ => apply Z.eqb_neq in K
  | K : slen _ = _ |- _ => apply Z.eqb_eq in K
  end.
Ltac orders_in HO := unfold orders in HO; cbn [In] in HO; repeat match type of HO with _ \/ _ => destruct HO as [<-|HO] | False => destruct HO end.
Ltac is_st a := lazymatch a with st _ _ _ _ _ _ _ => idtac end.
Lemma run_step order x l a a' b : act E H order x a = Some a' -> run_acts E H order l a' = Some b -> run_acts E H order (x :: l) a = Some b.
Proof. intros HA HR. cbn [run_acts]. now rewrite HA. Qed.
Ltac digit_steps :=
  repeat (cbn [digit_token digit_directives a_skipyear a_vals a_toks a_time a_order a_unset a_skipidx cget cm_day cm_month cm_year cm_wd comp_eqb andb orb fold_left fst snd cset tk_type tk_text ttype_eqb app];
    repeat match goal with K : h_value H _ _ _ = _ |- _ => rewrite K | K : (_ =? _) = _ |- _ => rewrite K end; rewrite ?Z.eqb_refl, ?andb_false_r, ?orb_false_r);
  unfold set_tok, add_unset, save_result; 
  repeat (cbn [a_skipyear a_vals a_toks a_time a_order a_unset a_skipidx cget cm_day cm_month cm_year cm_wd comp_eqb andb orb fold_left fst snd cset tk_type tk_text ttype_eqb app]; 
    repeat match goal with K : (_ =? _) = _ |- _ => rewrite K end; rewrite ?Z.eqb_refl, ?andb_false_r, ?orb_false_r); reflexivity.
Ltac letter_steps := match goal with
  | K : month_text ?w _ |- act _ _ _ (ALetter ?w) _ = _ => first [apply (month_step _ _ _ _ _ _ _ _ _ _ _ _ K) | eapply (month_step2 _ _ _ _ _ _ _ _ _ _ _ _ _ _ K); [apply Z.eqb_neq; eassumption | reflexivity]]
  | K : weekday_text ?w _ |- act _ _ _ (ALetter ?w) _ = _ => apply (weekday_step _ _ _ _ _ _ _ _ _ _ _ _ K)
  end.
Ltac one := eapply run_step; [match goal with |- act _ _ _ (ADigit _) _ = _ => unfold act, ast0, cm0, st, cm, ltok; digit_steps | _ => letter_steps end|].
Ltac finish := 
  match goal with |- context [dirs_of ?o] => let x := eval vm_compute in (dirs_of o) in change (dirs_of o) with x end;
  eexists; split; [repeat one; reflexivity|]; unfold st, cm, ltok, ast0, cm0, fallback, fallback1; cbn [fold_left chas cget cset a_vals a_toks a_unset cm_day cm_month cm_year cm_wd ttype_eqb tk_type tk_text option_map a_time fst snd]; repeat split; try assumption; try (f_equal; assumption).


Ltac brute := intros HO; intros; unfold ends; prep; orders_in HO; solve [finish].
Lemma ends_dmy order td w ty d m y : In order orders -> day_text td d -> month_text w m -> year_text ty y -> ends [ADigit td; ALetter w; ADigit ty] order (Some d) (Some m) (Some (ty, y)) None None.
Proof. brute. Qed.
Lemma ends_mdy order td w ty d m y : In order orders -> day_text td d -> month_text w m -> year_text ty y -> ends [ALetter w; ADigit td; ADigit ty] order (Some d) (Some m) (Some (ty, y)) None None.
Proof. brute. Qed.
Lemma ends_ymd order td w ty d m y : In order orders -> day_text td d -> month_text w m -> year_text ty y -> ends [ADigit ty; ALetter w; ADigit td] order (Some d) (Some m) (Some (ty, y)) None None.
Proof. brute. Qed.
Lemma ends_my order w ty m y : In order orders -> month_text w m -> year_text ty y -> ends [ALetter w; ADigit ty] order None (Some m) (Some (ty, y)) None None.
Proof. brute. Qed.
Lemma ends_y order ty y : In order orders -> year_text ty y -> ends [ADigit ty] order None None (Some (ty, y)) None None.
Proof. brute. Qed.
Lemma ends_m order w m : In order orders -> month_text w m -> ends [ALetter w] order None (Some m) None None None.
Proof. brute. Qed.
Lemma ends_dm order td w d m : In order ["DMY"; "DYM"; "MDY"]%string -> day_text td d -> month_text w m -> ends [ADigit td; ALetter w] order (Some d) (Some m) None None None.
Proof. brute. Qed.
Lemma ends_md order td w d m : In order ["DMY"; "DYM"; "MDY"]%string -> day_text td d -> month_text w m -> ends [ALetter w; ADigit td] order (Some d) (Some m) None None None.
Proof. brute. Qed.
Lemma ends_w order w v : In order orders -> weekday_text w v -> ends [ALetter w] order None None None (Some w) None.
Proof. brute. Qed.
Lemma ends_wdmy order wd v td w ty d m y : In order orders -> weekday_text wd v -> day_text td d -> month_text w m -> year_text ty y -> ends [ALetter wd; ADigit td; ALetter w; ADigit ty] order (Some d) (Some m) (Some (ty, y)) (Some wd) None.
Proof. brute. Qed.
Lemma ends_wmdy order wd v td w ty d m y : In order orders -> weekday_text wd v -> day_text td d -> month_text w m -> year_text ty y -> ends [ALetter wd; ALetter w; ADigit td; ADigit ty] order (Some d) (Some m) (Some (ty, y)) (Some wd) None.
Proof. brute. Qed.
Lemma ends_dmyy order td w ty d m y : In order ["DMY"; "DYM"; "MDY"]%string -> day_text td d -> month_text w m -> year2_text ty y -> ends [ADigit td; ALetter w; ADigit ty] order (Some d) (Some m) (Some (ty, y)) None None.
Proof. brute. Qed.
Lemma ends_mdyy order td w ty d m y : In order ["DMY"; "DYM"; "MDY"]%string -> day_text td d -> month_text w m -> year2_text ty y -> ends [ALetter w; ADigit td; ADigit ty] order (Some d) (Some m) (Some (ty, y)) None None.
Proof. brute. Qed.
(** a time at the end *)
Lemma fallback_time a t : fallback (set_time a t) = set_time (fallback a) t.
Proof.
  assert (F : forall u b c, fold_left (fun a ut => if ttype_eqb (tk_type ut) TDigit then {| a_vals := cset (a_vals a) c (atoi0 (tk_text ut)); a_toks := cset (a_toks a) c ut; a_time := a_time a; a_order := a_order a; a_unset := a_unset a; a_skipyear := a_skipyear a; a_skipidx := a_skipidx a |} else a) u (set_time b t)
    = set_time (fold_left (fun a ut => if ttype_eqb (tk_type ut) TDigit then {| a_vals := cset (a_vals a) c (atoi0 (tk_text ut)); a_toks := cset (a_toks a) c ut; a_time := a_time a; a_order := a_order a; a_unset := a_unset a; a_skipyear := a_skipyear a; a_skipidx := a_skipidx a |} else a) u b) t).
  { induction u as [|x u IH]; intros b c; [reflexivity|]. cbn [fold_left]. rewrite <- IH. destruct (ttype_eqb _ _); reflexivity. }
  assert (F1 : forall b c, fallback1 (set_time b t) c = set_time (fallback1 b c) t).
  { intros b c. unfold fallback1. change (a_vals (set_time b t)) with (a_vals b). destruct (chas (a_vals b) c); [reflexivity|]. change (a_unset (set_time b t)) with (a_unset b). apply F. }
  unfold fallback. cbn [fold_left]. now rewrite !F1.
Qed.
Lemma run_app order l1 l2 : forall a, run_acts E H order (l1 ++ l2) a = match run_acts E H order l1 a with Some b => run_acts E H order l2 b | None => None end.
Proof. induction l1 as [|x l1 IH]; intros a; [reflexivity|]. cbn [app run_acts]. destruct (act E H order x a); [apply IH|reflexivity]. Qed.
Lemma ends_time l order d m y wd tm t : ends l order d m y wd tm -> ends (l ++ [ATime t]) order d m y wd (Some t).
Proof.
  intros (a & R & K1 & K2 & K3 & K4 & K5 & _). exists (set_time a t). split; [rewrite run_app, R; reflexivity|]. rewrite fallback_time. cbn [set_time a_vals a_toks a_time option_map tk_text]. auto 10.
Qed.
Lemma ends_none order : ends [] order None None None None None.
Proof. exists ast0. split; [reflexivity|]. repeat split. Qed.
End H.
