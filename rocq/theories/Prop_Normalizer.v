(** C34 and C60: goroutines and the text normaliser that the whole program shares. Normalizer.v models golang.org/x/text's transform.Chain, of which the
    library keeps one global object, and every use of it by Parse, ParseHijri, ParseJalali and SearchWithLanguage.
    [nstart ps ch T]: Parser number q has the state [ps q], the normaliser any state [ch], and goroutine j starts to run [T j];
    [nsched links w l] is what the schedule [l] leads to. [links] are the transformations that the normaliser does one after the other. *)
From Verif Require Import GoBase SMap Regex GoTime Setting Strutil Digit Env Formatted Language Absolute Calendars Parser Search History ParserFacts
  Concurrency ConcurrencyFacts Normalizer NormalizerFacts Prop_Concurrency Prop_Calendar Concrete LocaleData Shows.

(** the links do together what NormalizeUnicode is documented to do *)
Definition chain_of (links : list (str -> str)) (E : env) : Prop :=
  links <> [] /\ forall s, u_nfkd_noMn_nfkc (e_uni E) s = fold_left (fun x f => f x) links s.
(** every call of Parse of the client happens in such an environment *)
Fixpoint in_chain {R} (links : list (str -> str)) (t : client R) : Prop :=
  match t with
  | CRet _ => True
  | CParse E _ _ _ k => chain_of links E /\ forall r, in_chain links (k r)
  | CInit _ k => in_chain links k
  | CCharsets k => forall c, in_chain links (k c)
  end.
Lemma in_chain_normed {R} links (t : client R) : in_chain links t -> normed (through links) t.
Proof. induction t as [r|E cfg s fs k IH|ls k IH|k IH]; cbn [in_chain normed]; auto. intros [[_ H] HK]. split; auto. Qed.
(** goroutine [j] has ended with the result [r] *)
Definition ended {R} (w : world R) (j : nat) (r : R) : Prop := w_thr w j = Run (NRet r).
(** goroutine [j] is inside the normaliser *)
Definition inside {R} (w : world R) (j : nat) : Prop := exists ph k, w_thr w j = Inside ph k.

(** ** Goroutines that call Parse on one Parser: the uses of the normaliser change nothing, every execution is a sequence of whole calls
    (as in C34_serialised), and no two goroutines are ever inside the normaliser *)
Theorem C34_normalizer : forall links D det (R : Type) (ps : nat -> pstate) ch q (T : nat -> client R) l,
  links <> [] -> (forall j, locked (T j) /\ in_chain links (T j)) ->
  let start := nstart ps ch (fun j => n_client D det q (T j)) in (* all goroutines use Parser q *)
  let w := nsched links start l in
  (forall i j, inside w i -> inside w j -> i = j) /\
  exists m, let '(p, V) := atomics D det R (ps q) T m in
    (forall j r, ended w j r -> V j = CRet r) /\ (w_lock w q = None -> w_st w q = p) /\
    forall l2, let w2 := nsched links start (l ++ l2) in
      exists m2, let '(p2, V2) := atomics D det R (ps q) T (m ++ m2) in
        (forall j r, ended w2 j r -> V2 j = CRet r) /\ (w_lock w2 q = None -> w_st w2 q = p2).
Proof.
  intros links D det R ps ch q T l HN HT st w.
  assert (TD : tidy q st).
  { intros j. unfold st, nstart, mine. cbn [w_thr w_lock]. apply held_client, HT. }
  assert (TL : forall l, tidy q (nsched links st l)) by (intros l0; now apply tidy_sched).
  assert (BU : forall w' : world R, tidy q w' -> forall i j, inside w' i -> inside w' j -> i = j).
  { intros w' H i j (p1 & k1 & H1) (p2 & k2 & H2). apply (tidy_exclusive q w' H); [rewrite H1 | rewrite H2]; reflexivity. }
  assert (V0 : refines links st {| i_lock := fun _ => None; i_st := ps; i_thr := fun j => n_client D det q (T j) |}).
  { split; [reflexivity|split; [reflexivity|]]. intros j. reflexivity. }
  set (v0 := {| i_lock := _; i_st := ps; i_thr := _ |}) in V0.
  assert (S0 : same_one (through links) q v0 (start D det (ps q) T)).
  { split; [reflexivity|split; [reflexivity|]]. intros j. apply sim_client, in_chain_normed, HT. }
  assert (SIM : forall l0 (w' : world R) v' c', refines links w' v' -> same_one (through links) q v' c' -> (forall l1, tidy q (nsched links w' l1)) ->
    exists v2 l2, refines links (nsched links w' l0) v2 /\ same_one (through links) q v2 (sched c' l2)).
  { intros l0 w' v' c' HR HS HX. destruct (refine_sched links HN l0 w' v' HR) as [l1 Hl1].
    { intros a b _. apply (tidy_exclusive q), HX. }
    destruct (one_sched (through links) q l1 v' c' HS) as [l2 Hl2]. eauto. }
  assert (FIN : forall (w' : world R) v' c' (p : pstate) V, refines links w' v' -> same_one (through links) q v' c' -> inv D det c' p V ->
    (forall j r, ended w' j r -> V j = CRet r) /\ (w_lock w' q = None -> w_st w' q = p)).
  { intros w' v' c' p V (RL & RS & RT) (OL & OS & OT) HI. split.
    - intros j r He. specialize (RT j). rewrite He in RT. cbn [thr_is] in RT. specialize (OT j). rewrite RT in OT.
      apply (inv_ret D det c' p V j r HI). inversion OT. reflexivity.
    - rewrite RL, RS, OL, OS. intros Hk. unfold inv in HI. rewrite Hk in HI. apply HI. }
  split; [apply BU, TL|].
  destruct (SIM l st v0 (start D det (ps q) T) V0 S0 TL) as (v1 & l1 & HR1 & HS1). fold w in HR1.
  destruct (inv_sched D det l1 _ (ps q) T (inv_start D det (ps q) T)) as [m Hm]. exists m.
  destruct (atomics D det R (ps q) T m) as [p V] eqn:Ea. cbn [fst snd] in Hm.
  destruct (FIN w v1 _ p V HR1 HS1 Hm) as [F1 F2]. split; [exact F1|]. split; [exact F2|].
  intros l2 w2. destruct (SIM l2 w v1 _ HR1 HS1) as (v2 & l3 & HR2 & HS2).
  { intros l4. unfold w. rewrite <- nsched_app. apply TL. }
  destruct (inv_sched D det l3 _ p V Hm) as [m2 Hm2]. exists m2. rewrite atomics_app, Ea. cbn [fst snd].
  destruct (atomics D det R p V m2) as [p2 V2]. cbn [fst snd] in Hm2.
  unfold w2. rewrite nsched_app. fold w. exact (FIN _ v2 _ p2 V2 HR2 HS2 Hm2).
Qed.
Print Assumptions C34_normalizer.

(** ** C60: calls that share no Parser *)
Inductive call :=
| Parse (cfg : uconfig) (s : str) (formats : list str)
| ParseHijri (cfg : uconfig) (s : str)
| ParseJalali (cfg : uconfig) (s : str)
| SearchWithLanguage (cfg : uconfig) (lang text : str).
Inductive answer := ADate (r : ret) | ATexts (l : list search_result) (e : option goerr).
Definition adate (r : res ret) : res answer := match r with Ok x => Ok (ADate x) | Err e => Err e | Panic => Panic end.

Section Calls.
Variable E : env.
Variable D : langdb.
Variable det : option (str -> list str).
Variable C : calendars.
(** what the call returns if nothing else happens in the program (the models of C01 to C59) *)
Definition alone_answer (p : pstate) (c : call) : res answer :=
  match c with
  | Parse cfg s fs => adate (snd (parse E D det p cfg s fs))
  | ParseHijri cfg s => adate (parse_hijri E C cfg s)
  | ParseJalali cfg s => adate (parse_jalali E C cfg s)
  | SearchWithLanguage cfg lang text =>
      match outcome_of (search_with_language E D det p cfg lang text) with
      | Ok (l, e) => Ok (ATexts l e) | Err e => Err e | Panic => Panic end
  end.
(** what it does, step by step, on Parser [q] (ParseHijri and ParseJalali have none) *)
Definition prog_of (q : nat) (c : call) : nact (res answer) :=
  match c with
  | Parse cfg s fs => n_parse E D det q cfg s fs (fun r => NRet (adate r))
  | ParseHijri cfg s => n_hijri E C cfg s (fun r => NRet (adate r))
  | ParseJalali cfg s => n_jalali E C cfg s (fun r => NRet (adate r))
  | SearchWithLanguage cfg lang text => n_swl E D det q cfg lang text (fun x => CRet (Ok (ATexts (fst x) (snd x))))
  end.

Lemma eval_parse norm q p cfg s fs : (forall s, u_nfkd_noMn_nfkc (e_uni E) s = norm s) ->
  uses norm q (prog_of q (Parse cfg s fs)) /\ snd (peval norm (prog_of q (Parse cfg s fs)) p) = alone_answer p (Parse cfg s fs).
Proof.
  intros HE. cbn [prog_of alone_answer].
  assert (SM : sim norm q (n_parse E D det q cfg s fs (fun r => NRet (adate r))) (impl D det (res answer) (CParse E cfg s fs (fun r => CRet (adate r))))).
  { apply (sim_client norm q D det (CParse E cfg s fs (fun r => CRet (adate r)))). split; [exact HE | intros r; exact I]. }
  split; [exact (sim_uses norm q _ _ SM)|]. rewrite (sim_eval norm q _ _ SM), impl_eval. reflexivity.
Qed.
Lemma token_peval norm s (K : str -> nact (res answer)) p : (forall s, u_nfkd_noMn_nfkc (e_uni E) s = norm s) ->
  peval norm (n_token E s K) p = peval norm (K (digit_normalize (e_uni E) (normalize_string (e_uni E) s))) p.
Proof. intros HE. unfold n_token, n_string. cbn [peval]. rewrite <- HE. reflexivity. Qed.
Lemma token_uses norm q s (K : str -> nact (res answer)) : (forall n, uses norm q (K n)) -> uses norm q (n_token E s K).
Proof. intros H. apply H. Qed.
Lemma eval_hijri norm q p cfg s : (forall s, u_nfkd_noMn_nfkc (e_uni E) s = norm s) ->
  uses norm q (prog_of q (ParseHijri cfg s)) /\ snd (peval norm (prog_of q (ParseHijri cfg s)) p) = alone_answer p (ParseHijri cfg s).
Proof.
  intros HE. cbn [prog_of alone_answer]. unfold n_hijri, parse_hijri, parse_calendar. cbv zeta.
  destruct (negb (validate _ _)); [split; [exact I | reflexivity]|]. split.
  - apply token_uses. intros n. destruct (etz_pop _ _) as [t tz]. exact I.
  - rewrite token_peval by exact HE. unfold hijri_parse, hj_prepare. cbv zeta.
    destruct (etz_pop _ _) as [t tz]. cbn [peval snd]. destruct (abs_run _ _ _ _ _) as [d|e|]; reflexivity.
Qed.
Lemma eval_jalali norm q p cfg s : (forall s, u_nfkd_noMn_nfkc (e_uni E) s = norm s) ->
  uses norm q (prog_of q (ParseJalali cfg s)) /\ snd (peval norm (prog_of q (ParseJalali cfg s)) p) = alone_answer p (ParseJalali cfg s).
Proof.
  intros HE. cbn [prog_of alone_answer]. unfold n_jalali, parse_jalali, parse_calendar. cbv zeta.
  destruct (negb (validate _ _)); [split; [exact I | reflexivity]|]. split.
  - apply token_uses. intros n. destruct (etz_pop _ _) as [t tz]. exact I.
  - rewrite token_peval by exact HE. unfold jalali_parse, jl_prepare. cbv zeta.
    destruct (etz_pop _ _) as [t tz]. cbn [peval snd]. destruct (abs_run _ _ _ _ _) as [d|e|]; reflexivity.
Qed.
Lemma eval_search norm q p cfg lang text : (forall s, u_nfkd_noMn_nfkc (e_uni E) s = norm s) ->
  uses norm q (prog_of q (SearchWithLanguage cfg lang text)) /\ snd (peval norm (prog_of q (SearchWithLanguage cfg lang text)) p) = alone_answer p (SearchWithLanguage cfg lang text).
Proof.
  intros HE. cbn [prog_of alone_answer].
  pose (K := fun x : list search_result * option goerr => CRet (Ok (ATexts (fst x) (snd x))) : client (res answer)). fold K.
  assert (SM : sim norm q (n_swl E D det q cfg lang text K) (impl D det (res answer) (c_swl E D cfg lang text K))).
  { apply sim_swl; [exact HE | intros r; exact I]. }
  split; [exact (sim_uses norm q _ _ SM)|]. rewrite (sim_eval norm q _ _ SM), impl_eval.
  rewrite (v_swl E D det cfg lang text K p).
  destruct (search_with_language E D det p cfg lang text) as [[q' [l e]]|e|]; reflexivity.
Qed.
Lemma prog_eval norm q p c : (forall s, u_nfkd_noMn_nfkc (e_uni E) s = norm s) ->
  uses norm q (prog_of q c) /\ snd (peval norm (prog_of q c) p) = alone_answer p c.
Proof. intros HE. destruct c; [apply eval_parse | apply eval_hijri | apply eval_jalali | apply eval_search]; exact HE. Qed.
End Calls.

(** A goroutine gets what it gets alone if no two goroutines are ever inside the normaliser at the same time. Missing for the full claim: this condition, which
    the library does not ensure. *)
Theorem C60_alone_partial : forall links E D det C (ps : nat -> pstate) ch (calls : nat -> call) l,
  chain_of links E ->
  let run l := nsched links (nstart ps ch (fun j => prog_of E D det C j (calls j))) l in
  (forall l1 l2 i j, l = l1 ++ l2 -> inside (run l1) i -> inside (run l1) j -> i = j) ->
  forall j r, ended (run l) j r -> r = alone_answer E D det C (ps j) (calls j).
Proof.
  intros links E D det C ps ch calls l [HN HE] run HX j r Hr.
  set (w0 := nstart ps ch (fun j => prog_of E D det C j (calls j))) in *.
  set (v0 := {| i_lock := fun _ => None; i_st := ps; i_thr := fun j => prog_of E D det C j (calls j) |}).
  assert (R0 : refines links w0 v0) by (split; [reflexivity|split; [reflexivity|]]; intros x; reflexivity).
  destruct (refine_sched links HN l w0 v0 R0) as [l' (RL & RS & RT)].
  { intros l1 l2 HL a b Ha Hb. unfold run in HX. destruct (w_thr (nsched links w0 l1) a) as [|ph k] eqn:EA; [discriminate Ha|].
    destruct (w_thr (nsched links w0 l1) b) as [|ph2 k2] eqn:EB; [discriminate Hb|].
    apply (HX l1 l2 a b HL); [exists ph, k | exists ph2, k2]; assumption. }
  specialize (RT j). unfold ended, run in Hr. rewrite Hr in RT. cbn [thr_is] in RT.
  assert (UV : forall x, uses (through links) x (i_thr v0 x)).
  { intros x. apply (prog_eval E D det C (through links) x (ps x) (calls x)). exact HE. }
  pose proof (own_sched (through links) l' v0 UV j) as OW. rewrite RT in OW. cbn [peval] in OW.
  pose proof (f_equal snd OW) as O2. cbn [snd] in O2. rewrite O2. apply (prog_eval E D det C (through links) j (ps j) (calls j)). exact HE.
Qed.
Print Assumptions C60_alone_partial.

(** ** The condition is needed: wrong dates *)
Definition links0 : list (str -> str) := [u_nfkd_noMn_nfkc (e_uni env0); fun s => s; fun s => s].
Lemma links0_ok : chain_of links0 env0.
Proof. split; [discriminate | intros s; reflexivity]. Qed.
(** English alone *)
Definition db_en : langdb := {| db_get := mget [(lit "en", loc_en)]; db_langs := [lit "en"]; db_order := fun _ => 0 |}.
Definition fresh : chain := {| ch_wait := [[]; []; []]; ch_owner := 0; ch_written := 0; ch_dst := fun _ => [] |}.
Definition idle : call := ParseHijri {| u_locales := []; u_languages := []; u_region := []; u_try_prev := false; u_given_order := false;
     u_deflang := []; u_order := None; u_now := zero_time; u_tz := None; u_pday := 0; u_pmonth := 0; u_src := 0;
     u_strict := false; u_required := []; u_skip := []; u_timeperiod := false; u_preserve := false |} [].
Definition two_calls (a b : call) (j : nat) : call := match j with 0%nat => a | 1%nat => b | _ => idle end.
Definition races (a b : call) (l : list nat) : world (res answer) :=
  nsched links0 (nstart (fun _ => new_parser []) fresh (fun j => prog_of env0 db_en None cal0 j (two_calls a b j))) l.
Definition en_cfg : uconfig := mkcfg [lit "en"] [] (utc_at 2024 5 10 0 0 0) 0 0 0.
Definition date_of (r : res answer) : option (Z * Z * Z) :=
  match r with
  | Ok (ADate (d, None)) => Some (year (d_time d), month (d_time d), day (d_time d))
  | Ok (ATexts [x] None) => Some (year (d_time (sr_date x)), month (d_time (sr_date x)), day (d_time (sr_date x)))
  | _ => None
  end.
Definition date_at (w : world (res answer)) (j : nat) : option (Z * Z * Z) := match w_thr w j with Run (NRet r) => date_of r | _ => None end.
Definition alone0 (c : call) : option (Z * Z * Z) := date_of (alone_answer env0 db_en None cal0 (new_parser []) c).

(** Two goroutines, each with a Parser of its own: one parses "2 March 2015" and the other "1". The first gets the 12th of March: the "1" of the other goroutine
    is still in the normaliser when "2 March 2015" comes behind it. *)
Theorem C60_parse_refuted :
  let a := Parse en_cfg (lit "2 March 2015") [] in
  let b := Parse en_cfg (lit "1") [] in
  alone0 a = Some (2015, 3, 2) /\ date_at (races a b (repeat 0 18 ++ repeat 1 7 ++ repeat 0 12)%nat) 0 = Some (2015, 3, 12).
Proof. split; vm_compute; reflexivity. Qed.
Print Assumptions C60_parse_refuted.
(** ParseHijri: the first of Ramadan becomes the eleventh *)
Theorem C60_hijri_refuted :
  let a := ParseHijri (cal_cfg CurrentPeriod) (lit "1/09/1445") in
  let b := ParseHijri (cal_cfg CurrentPeriod) (lit "1") in
  alone0 a = Some (2024, 3, 11) /\ date_at (races a b (repeat 0 1 ++ repeat 1 3 ++ repeat 0 5)%nat) 0 = Some (2024, 3, 21).
Proof. split; vm_compute; reflexivity. Qed.
Print Assumptions C60_hijri_refuted.
(** SearchWithLanguage, even on one Parser: its mutex is not held *)
Definition swl_cfg : uconfig := mkcfg [] [] (utc_at 2024 5 10 0 0 0) 0 0 0.
Definition shared (a b : call) (l : list nat) : world (res answer) :=
  nsched links0 (nstart (fun _ => new_parser []) fresh (fun j => prog_of env0 db_en None cal0 0 (two_calls a b j))) l.
Theorem C46_normalizer_refuted :
  let a := SearchWithLanguage swl_cfg (lit "en") (lit "2 March 2015") in
  let b := SearchWithLanguage swl_cfg (lit "en") (lit "1") in
  alone0 a = Some (2015, 3, 2) /\ date_at (shared a b (repeat 0 1 ++ repeat 1 3 ++ repeat 0 60)%nat) 0 = Some (2015, 3, 12).
Proof. split; vm_compute; reflexivity. Qed.
Print Assumptions C46_normalizer_refuted.

(** The theorems are not empty. Three goroutines on one Parser, one after the other in small pieces: each returns its date. And three goroutines without a
    common Parser that take turns outside the normaliser. *)
Example C34_normalizer_case :
  let T j := match j with
             | 0%nat => CParse env0 en_cfg (lit "2 March 2015") [] (fun r => CRet (adate r))
             | 1%nat => CParse env0 en_cfg (lit "5 June 2016") [] (fun r => CRet (adate r))
             | _ => CRet (Ok (ADate (zero_date, None))) end in
  (forall j, locked (T j) /\ in_chain links0 (T j)) /\
  let w := nsched links0 (nstart (fun _ => new_parser []) fresh (fun j => n_client db_en None 0 (T j))) (concat (repeat [0; 1; 1] 60)%nat) in
  (date_at w 0, date_at w 1) = (Some (2015, 3, 2), Some (2016, 6, 5)).
Proof.
  split.
  - intros [|[|j]]; cbn [locked in_chain]; repeat split; try exact I; try discriminate.
  - vm_compute. reflexivity.
Qed.
(** decides, for two goroutines, that they are never inside together *)
Fixpoint apart (w : world (res answer)) (l : list nat) : bool :=
  negb (busy (w_thr w 0%nat) && busy (w_thr w 1%nat)) &&
  match l with [] => true | i :: r => Nat.ltb i 2 && apart (match nstep links0 w i with Some w' => w' | None => w end) r end.
Lemma step_others w i w' j : nstep links0 (R := res answer) w i = Some w' -> i <> j -> w_thr w' j = w_thr w j.
Proof.
  intros H Hij. unfold nstep in H. destruct (w_thr w i) as [[]|[] k]; try discriminate H;
    try (match type of H with (match ?x with Some _ => _ | None => _ end) = _ => destruct x; [discriminate H|] end);
    match type of H with Some ?x = Some _ => assert (w' = x) as -> by congruence end; cbn [w_thr]; now rewrite upd_other.
Qed.
Lemma apart_spec l : forall w, apart w l = true -> (forall j, (2 <= j)%nat -> busy (w_thr w j) = false) ->
  forall l1 l2 i j, l = l1 ++ l2 -> inside (nsched links0 w l1) i -> inside (nsched links0 w l1) j -> i = j.
Proof.
  induction l as [|x r IH]; intros w HA HB l1 l2 i j HL Hi Hj; cbn [apart] in HA; apply andb_prop in HA; destruct HA as [H0 HA].
  - destruct l1; [|discriminate HL]. destruct Hi as (p1 & k1 & Hi). destruct Hj as (p2 & k2 & Hj). cbn [nsched fold_left] in Hi, Hj.
    assert (i < 2)%nat by (destruct (le_lt_dec 2 i) as [L|L]; [pose proof (HB i L) as X; rewrite Hi in X; discriminate X | exact L]).
    assert (j < 2)%nat by (destruct (le_lt_dec 2 j) as [L|L]; [pose proof (HB j L) as X; rewrite Hj in X; discriminate X | exact L]).
    destruct i as [|[|i]], j as [|[|j]]; try lia; rewrite Hi, Hj in H0; discriminate H0.
  - destruct l1 as [|y l1].
    + destruct Hi as (p1 & k1 & Hi). destruct Hj as (p2 & k2 & Hj). cbn [nsched fold_left] in Hi, Hj.
      assert (i < 2)%nat by (destruct (le_lt_dec 2 i) as [L|L]; [pose proof (HB i L) as X; rewrite Hi in X; discriminate X | exact L]).
      assert (j < 2)%nat by (destruct (le_lt_dec 2 j) as [L|L]; [pose proof (HB j L) as X; rewrite Hj in X; discriminate X | exact L]).
      destruct i as [|[|i]], j as [|[|j]]; try lia; rewrite Hi, Hj in H0; discriminate H0.
    + cbn [app] in HL. assert (x = y /\ r = l1 ++ l2) as [-> Hr] by (split; congruence). apply andb_prop in HA. destruct HA as [H2 HA].
      apply Nat.ltb_lt in H2. cbn [nsched fold_left] in Hi, Hj.
      apply (IH _ HA) with (l1 := l1) (l2 := l2); [|exact Hr|exact Hi|exact Hj].
      intros z Hz. destruct (nstep links0 w y) as [w'|] eqn:ES; [|now apply HB]. rewrite (step_others w y w' z ES) by lia. now apply HB.
Qed.
Example C60_case :
  let a := ParseJalali (cal_cfg CurrentPeriod) (lit "30 1 1400") in
  let b := ParseHijri (cal_cfg CurrentPeriod) (lit "1/09/1445") in
  let l := (repeat 0 6 ++ repeat 1 4 ++ repeat 0 1 ++ repeat 1 2)%nat in
  (forall l1 l2 i j, l = l1 ++ l2 -> inside (races a b l1) i -> inside (races a b l1) j -> i = j) /\
  date_at (races a b l) 0 = Some (2021, 4, 19) /\ date_at (races a b l) 1 = Some (2024, 3, 11).
Proof.
  intros a b l. split; [|split]; [|vm_compute; reflexivity|vm_compute; reflexivity].
  assert (A : apart (nstart (fun _ => new_parser []) fresh (fun j => prog_of env0 db_en None cal0 j (two_calls a b j))) l = true) by (vm_compute; reflexivity).
  intros l1 l2 i j. apply (apart_spec l _ A). intros z Hz. reflexivity.
Qed.
