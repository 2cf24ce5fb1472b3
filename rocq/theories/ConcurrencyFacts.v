(** Lemmas about Concurrency.v *)
From Verif Require Import GoBase SMap Regex GoTime Setting Strutil Env Formatted Language Parser Search History ParserFacts Concurrency.

Lemma upd_same {A} (f : nat -> A) i x : upd f i x i = x.
Proof. unfold upd. now rewrite Nat.eqb_refl. Qed.
Lemma upd_other {A} (f : nat -> A) i j x : i <> j -> upd f i x j = f j.
Proof. unfold upd. intros H. destruct (Nat.eqb_spec i j); [contradiction | reflexivity]. Qed.

Section F.
Variable D : langdb.
Variable det : option (str -> list str).
Context {R : Type}.
Notation act := (act R).
Notation conf := (conf R).
Notation client := (client R).
Notation parse_body := (parse_body D det R).
Notation init_body := (init_body D R).
Notation impl := (impl D det R).
Notation atomic := (atomic D det R).
Notation atomics := (atomics D det R).
Notation alone := (alone D det R).

(** run to the release of the mutex *)
Fixpoint rtr (a : act) (p : pstate) : option (pstate * act) :=
  match a with
  | Ret _ | Acquire _ => None
  | Release k => Some (p, k)
  | LoadTypes k => rtr (k (p_types p)) p
  | LoadUsed k => rtr (k (p_used p)) p
  | LoadCharsets k => rtr (k (p_charsets p)) p
  | StoreTypes t k => rtr k (with_types p t)
  | StoreUsed u k => rtr k (with_used p u)
  | StoreCharsets c k => rtr k (with_charsets p c)
  end.
(** before the release, the unique charsets are stored at most once, right before it *)
Fixpoint late (a : act) : Prop :=
  match a with
  | Ret _ | Acquire _ => False
  | Release _ => True
  | LoadTypes k => forall x, late (k x)
  | LoadUsed k => forall x, late (k x)
  | LoadCharsets k => forall x, late (k x)
  | StoreTypes _ k => late k
  | StoreUsed _ k => late k
  | StoreCharsets _ k => exists k', k = Release k'
  end.

Lemma applicable_used E cfg icfg s used : u_try_prev cfg = false -> get_applicable E D det used cfg icfg s = get_applicable E D det [] cfg icfg s.
Proof. intros H. unfold get_applicable. rewrite H. reflexivity. Qed.

Lemma rtr_parse E cfg s fs K p : rtr (parse_body E cfg s fs K) p = Some (fst (parse E D det p cfg s fs), K (snd (parse E D det p cfg s fs))).
Proof.
  unfold Concurrency.parse_body, parse. cbn [rtr].
  destruct (existsb _ (p_types p)); [reflexivity|]. cbn [rtr].
  set (q := match p_types p with [] => with_types p default_types | _ => p end).
  match goal with |- rtr (match _ with [] => StoreTypes _ ?r | _ => _ end) p = _ => set (rest := r) end.
  assert (H : rtr (match p_types p with [] => StoreTypes default_types rest | _ => rest end) p = rtr rest q).
  { unfold q. destruct (p_types p); reflexivity. }
  rewrite H. clear H. clearbody q. subst rest.
  destruct (validate _ _); cbn [negb]; [|reflexivity].
  destruct (date_is_zero _); cbn [negb]; [|reflexivity].
  match goal with |- rtr (if ?b then LoadUsed ?f else _) q = _ =>
    assert (H : rtr (if b then LoadUsed f else f []) q = rtr (f (if b then p_used q else [])) q) by (destruct b; reflexivity) end.
  rewrite H. clear H. cbv beta.
  set (cfg1 := initiate (e_now E) cfg).
  assert (G : get_applicable E D det (if u_try_prev cfg1 then p_used q else []) cfg1 (to_internal cfg1) (sanitize_date (e_uni E) s)
            = get_applicable E D det (p_used q) cfg1 (to_internal cfg1) (sanitize_date (e_uni E) s)).
  { destruct (u_try_prev cfg1) eqn:Et; [reflexivity|]. symmetry. now apply applicable_used. }
  rewrite G. clear G.
  destruct (get_applicable _ _ _ _ _ _ _); try reflexivity. cbn [rtr].
  destruct (try_locales _ _ _ _ _ _ _) as [[[ld d]|]| |]; try reflexivity.
  destruct (u_try_prev cfg1); reflexivity.
Qed.
Lemma late_parse E cfg s fs K : late (parse_body E cfg s fs K).
Proof.
  unfold Concurrency.parse_body. cbn [late]. intros types0.
  destruct (existsb _ _); [exact I|]. cbn [late]. intros types1.
  match goal with |- late (match _ with [] => StoreTypes _ ?r | _ => _ end) => set (rest := r) end.
  enough (H : late rest) by (destruct types1; exact H). subst rest.
  destruct (validate _ _); cbn [negb]; [|exact I].
  destruct (date_is_zero _); cbn [negb]; [|exact I].
  match goal with |- late (if ?b then LoadUsed ?f else _) => assert (H : forall x, late (f x)) end.
  2:{ destruct (u_try_prev _); [exact H | apply (H [])]. }
  intros used. destruct (get_applicable _ _ _ _ _ _ _); try exact I. cbn [late]. intros types.
  destruct (try_locales _ _ _ _ _ _ _) as [[[ld d]|]| |]; try exact I.
  destruct (u_try_prev _); cbn [late]; [intros ?|]; exact I.
Qed.
Lemma rtr_init ls K p : rtr (init_body ls K) p = Some (init_charsets D p ls, K).
Proof.
  unfold Concurrency.init_body, init_charsets. cbn [rtr]. destruct p as [ty us cs]. cbn [p_charsets].
  destruct (negb _ || _); [reflexivity|]. destruct cs; reflexivity.
Qed.
Lemma late_init ls K : late (init_body ls K).
Proof.
  unfold Concurrency.init_body. cbn [late]. intros cs.
  destruct (negb _ || _); [now exists K|]. destruct cs; cbn [late]; [exact I | now exists K].
Qed.

(** ** The invariant. [p], [T]: the Parser and the clients after some whole calls *)
Definition call_of (t : client) : Prop := match t with CParse _ _ _ _ _ | CInit _ _ => True | _ => False end.
Definition inv (c : conf) (p : pstate) (T : nat -> client) : Prop :=
  match cf_lock c with
  | None => cf_st c = p /\ forall j, cf_thr c j = impl (T j)
  | Some i =>
    (forall j, i <> j -> cf_thr c j = impl (T j)) /\ p_charsets (cf_st c) = p_charsets p /\ late (cf_thr c i) /\
    ( (* the call of [i] takes effect at the release *)
      (call_of (T i) /\ let q := atomic p T i in rtr (cf_thr c i) (cf_st c) = Some (fst q, impl (snd q i)))
    \/ (* the call has taken effect *)
      (cf_thr c i = Release (impl (T i)) /\ cf_st c = p) )
  end.

Lemma atomic_other p T i j : i <> j -> snd (atomic p T i) j = T j.
Proof. intros H. unfold Concurrency.atomic. destruct (T i); cbn [snd]; try reflexivity; now apply upd_other. Qed.
Lemma rtr_charsets a p q k : late a -> rtr a p = Some (q, k) -> (forall m b, a <> StoreCharsets m b) ->
  match a with Release _ => p_charsets q = p_charsets p | _ => True end.
Proof. intros _ H _. destruct a; try exact I. cbn [rtr] in H. congruence. Qed.

Lemma inv_step c p T i c' : inv c p T -> step_of c i = Some c' ->
  inv c' p T \/ inv c' (fst (atomic p T i)) (snd (atomic p T i)).
Proof.
  intros I S. unfold inv in I. destruct (cf_lock c) as [h|] eqn:El.
  - destruct I as (Ho & Hc & Hl & Hh). destruct (Nat.eq_dec h i) as [<-|Hn].
    + (* the holder moves *)
      unfold step_of in S. cbv zeta in S. destruct Hh as [[Hcall Hr] | [Hr Hs]].
      * cbv zeta in Hr. destruct (cf_thr c h) as [r|k|k|k|k|k|t k|u k|m k] eqn:Et; cbn [rtr late] in *; try contradiction.
        -- right. assert (c' = {| cf_lock := None; cf_st := cf_st c; cf_thr := upd (cf_thr c) h k |}) as -> by congruence.
           unfold inv. cbn [cf_lock cf_st cf_thr]. split; [congruence|]. intros j. destruct (Nat.eq_dec h j) as [<-|Hj].
           ++ rewrite upd_same. congruence.
           ++ rewrite upd_other, atomic_other by exact Hj. now apply Ho.
        -- left. rewrite El in S. assert (c' = {| cf_lock := Some h; cf_st := cf_st c; cf_thr := upd (cf_thr c) h (k (p_types (cf_st c))) |}) as -> by congruence.
           unfold inv. cbn [cf_lock cf_st cf_thr]. rewrite upd_same. split; [|split; [exact Hc|split; [apply Hl | left; split; [exact Hcall | exact Hr]]]].
           intros j Hj. rewrite upd_other by exact Hj. now apply Ho.
        -- left. rewrite El in S. assert (c' = {| cf_lock := Some h; cf_st := cf_st c; cf_thr := upd (cf_thr c) h (k (p_used (cf_st c))) |}) as -> by congruence.
           unfold inv. cbn [cf_lock cf_st cf_thr]. rewrite upd_same. split; [|split; [exact Hc|split; [apply Hl | left; split; [exact Hcall | exact Hr]]]].
           intros j Hj. rewrite upd_other by exact Hj. now apply Ho.
        -- left. rewrite El in S. assert (c' = {| cf_lock := Some h; cf_st := cf_st c; cf_thr := upd (cf_thr c) h (k (p_charsets (cf_st c))) |}) as -> by congruence.
           unfold inv. cbn [cf_lock cf_st cf_thr]. rewrite upd_same. split; [|split; [exact Hc|split; [apply Hl | left; split; [exact Hcall | exact Hr]]]].
           intros j Hj. rewrite upd_other by exact Hj. now apply Ho.
        -- left. rewrite El in S. assert (c' = {| cf_lock := Some h; cf_st := with_types (cf_st c) t; cf_thr := upd (cf_thr c) h k |}) as -> by congruence.
           unfold inv. cbn [cf_lock cf_st cf_thr]. rewrite upd_same. split; [|split; [exact Hc|split; [apply Hl | left; split; [exact Hcall | exact Hr]]]].
           intros j Hj. rewrite upd_other by exact Hj. now apply Ho.
        -- left. rewrite El in S. assert (c' = {| cf_lock := Some h; cf_st := with_used (cf_st c) u; cf_thr := upd (cf_thr c) h k |}) as -> by congruence.
           unfold inv. cbn [cf_lock cf_st cf_thr]. rewrite upd_same. split; [|split; [exact Hc|split; [apply Hl | left; split; [exact Hcall | exact Hr]]]].
           intros j Hj. rewrite upd_other by exact Hj. now apply Ho.
        -- right. destruct Hl as [k' ->]. cbn [rtr] in Hr. rewrite El in S.
           assert (c' = {| cf_lock := Some h; cf_st := with_charsets (cf_st c) m; cf_thr := upd (cf_thr c) h (Release k') |}) as -> by congruence.
           assert (Hq : with_charsets (cf_st c) m = fst (atomic p T h)) by congruence.
           assert (Hk : k' = impl (snd (atomic p T h) h)) by congruence.
           unfold inv. cbn [cf_lock cf_st cf_thr]. rewrite upd_same. split; [|split; [now rewrite Hq | split; [exact I | right; split; [now rewrite Hk | exact Hq]]]].
           intros j Hj. rewrite upd_other, atomic_other by exact Hj. now apply Ho.
      * rewrite Hr in S. left. assert (c' = {| cf_lock := None; cf_st := cf_st c; cf_thr := upd (cf_thr c) h (impl (T h)) |}) as -> by congruence.
        unfold inv. cbn [cf_lock cf_st cf_thr]. split; [exact Hs|]. intros j. destruct (Nat.eq_dec h j) as [<-|Hj].
        -- now rewrite upd_same.
        -- rewrite upd_other by exact Hj. now apply Ho.
    + (* another goroutine: it can only read the charsets *)
      unfold step_of in S. cbv zeta in S. rewrite (Ho i Hn), El in S. destruct (T i) as [r|E cfg s fs k|ls k|k] eqn:Ei; cbn [Concurrency.impl] in S; try discriminate S.
      right. assert (c' = {| cf_lock := Some h; cf_st := cf_st c; cf_thr := upd (cf_thr c) i (impl (k (p_charsets (cf_st c)))) |}) as -> by congruence.
      unfold inv. cbn [cf_lock cf_st cf_thr]. rewrite upd_other by congruence.
      assert (A : atomic p T i = (p, upd T i (k (p_charsets p)))) by (unfold Concurrency.atomic; now rewrite Ei).
      rewrite A. cbn [fst snd]. split.
      { intros j Hj. destruct (Nat.eq_dec i j) as [<-|Hij]; [now rewrite !upd_same, Hc|]. rewrite !upd_other by exact Hij. now apply Ho. }
      split; [exact Hc|]. split; [exact Hl|].
      assert (Th : upd T i (k (p_charsets p)) h = T h) by (apply upd_other; congruence).
      destruct Hh as [[Hcall Hr] | [Hr Hs]]; [left | right]; rewrite ?Th; [split; [exact Hcall|] | split; assumption].
      cbv zeta in Hr |- *. rewrite Hr. unfold Concurrency.atomic. rewrite Th.
      destruct (T h); cbn [fst snd]; rewrite ?upd_same; try contradiction; reflexivity.
  - destruct I as (Hs & Ho). unfold step_of in S. cbv zeta in S. rewrite (Ho i) in S.
    destruct (T i) as [r|E cfg s fs k|ls k|k] eqn:Ei; cbn [Concurrency.impl] in S; try discriminate S; rewrite El in S.
    + left. assert (c' = {| cf_lock := Some i; cf_st := cf_st c; cf_thr := upd (cf_thr c) i (parse_body E cfg s fs (fun r => impl (k r))) |}) as -> by congruence.
      unfold inv. cbn [cf_lock cf_st cf_thr]. rewrite upd_same. split; [|split; [now rewrite Hs|split; [apply late_parse|left]]].
      { intros j Hj. rewrite upd_other by exact Hj. apply Ho. }
      rewrite Ei. split; [exact I|]. unfold Concurrency.atomic. rewrite Ei. cbn [fst snd]. rewrite upd_same, rtr_parse, Hs. reflexivity.
    + left. assert (c' = {| cf_lock := Some i; cf_st := cf_st c; cf_thr := upd (cf_thr c) i (init_body ls (impl k)) |}) as -> by congruence.
      unfold inv. cbn [cf_lock cf_st cf_thr]. rewrite upd_same. split; [|split; [now rewrite Hs|split; [apply late_init|left]]].
      { intros j Hj. rewrite upd_other by exact Hj. apply Ho. }
      rewrite Ei. split; [exact I|]. unfold Concurrency.atomic. rewrite Ei. cbn [fst snd]. rewrite upd_same, rtr_init, Hs. reflexivity.
    + right. assert (c' = {| cf_lock := None; cf_st := cf_st c; cf_thr := upd (cf_thr c) i (impl (k (p_charsets (cf_st c)))) |}) as -> by congruence.
      unfold inv. cbn [cf_lock cf_st cf_thr]. unfold Concurrency.atomic. rewrite Ei. cbn [fst snd]. split; [exact Hs|].
      intros j. destruct (Nat.eq_dec i j) as [<-|Hij]; [now rewrite !upd_same, Hs|]. rewrite !upd_other by exact Hij. apply Ho.
Qed.

Lemma atomics_app p T l1 l2 : atomics p T (l1 ++ l2) = atomics (fst (atomics p T l1)) (snd (atomics p T l1)) l2.
Proof. unfold Concurrency.atomics. rewrite fold_left_app. now destruct (fold_left _ l1 _). Qed.
Lemma atomics_cons p T i l : atomics p T (i :: l) = atomics (fst (atomic p T i)) (snd (atomic p T i)) l.
Proof. unfold Concurrency.atomics. cbn [fold_left]. cbn [fst snd]. now rewrite <- surjective_pairing. Qed.
Lemma sched_app c l1 l2 : sched (R := R) c (l1 ++ l2) = sched (sched c l1) l2.
Proof. unfold sched. now rewrite fold_left_app. Qed.

Lemma inv_sched l : forall c p T, inv c p T -> exists m, inv (sched c l) (fst (atomics p T m)) (snd (atomics p T m)).
Proof.
  induction l as [|i l IH]; intros c p T I; [now exists []|].
  cbn [sched fold_left]. change (fold_left _ l ?x) with (sched x l).
  destruct (step_of c i) as [c'|] eqn:S; [|exact (IH c p T I)].
  destruct (inv_step c p T i c' I S) as [I'|I'].
  - exact (IH c' p T I').
  - destruct (IH c' _ _ I') as [m Hm]. exists (i :: m). rewrite atomics_cons. exact Hm.
Qed.

Definition start (p : pstate) (T : nat -> client) : conf := {| cf_lock := None; cf_st := p; cf_thr := fun j => impl (T j) |}.
Lemma inv_start p T : inv (start p T) p T.
Proof. split; reflexivity. Qed.

Lemma impl_ret t r : impl t = Ret r -> t = CRet r.
Proof. destruct t; cbn [Concurrency.impl]; congruence. Qed.
Lemma inv_ret c p T j r : inv c p T -> cf_thr c j = Ret r -> T j = CRet r.
Proof.
  unfold inv. intros I Hj. destruct (cf_lock c) as [h|].
  - destruct I as (Ho & _ & Hl & _). destruct (Nat.eq_dec h j) as [<-|Hn].
    + rewrite Hj in Hl. contradiction.
    + apply impl_ret. rewrite <- Hj. symmetry. now apply Ho.
  - apply impl_ret. rewrite <- Hj. symmetry. apply I.
Qed.
(** somebody can always move *)
Lemma inv_moves c p T j : inv c p T -> (forall r, cf_thr c j <> Ret r) -> exists i c', step_of c i = Some c'.
Proof.
  unfold inv. intros I Hj. destruct (cf_lock c) as [h|] eqn:El.
  - destruct I as (_ & _ & Hl & _). exists h. unfold step_of. destruct (cf_thr c h); try contradiction; eexists; reflexivity.
  - destruct I as (_ & Ho). exists j. unfold step_of. rewrite (Ho j), El. destruct (T j) as [r|E cfg s fs k|ls k|k] eqn:Ej; cbn [Concurrency.impl];
      try (eexists; reflexivity). exfalso. apply (Hj r). rewrite Ho, Ej. reflexivity.
Qed.
(** the holder of the mutex reaches the release by itself *)
Lemma release a : late a -> forall c h, cf_thr c h = a -> cf_lock c = Some h -> exists l, cf_lock (sched c l) = None.
Proof.
  induction a as [r|k IH|k IH|k IH|k IH|k IH|t k IH|u k IH|m k IH]; intros Hl c h Ht Hk; cbn [late] in Hl; try contradiction.
  - exists [h]. cbn [sched fold_left]. unfold step_of. now rewrite Ht.
  - destruct (IH (p_types (cf_st c)) (Hl _) {| cf_lock := cf_lock c; cf_st := cf_st c; cf_thr := upd (cf_thr c) h (k (p_types (cf_st c))) |} h) as [l L];
      [apply upd_same | exact Hk |]. exists (h :: l). cbn [sched fold_left]. unfold step_of at 2. rewrite Ht. exact L.
  - destruct (IH (p_used (cf_st c)) (Hl _) {| cf_lock := cf_lock c; cf_st := cf_st c; cf_thr := upd (cf_thr c) h (k (p_used (cf_st c))) |} h) as [l L];
      [apply upd_same | exact Hk |]. exists (h :: l). cbn [sched fold_left]. unfold step_of at 2. rewrite Ht. exact L.
  - destruct (IH (p_charsets (cf_st c)) (Hl _) {| cf_lock := cf_lock c; cf_st := cf_st c; cf_thr := upd (cf_thr c) h (k (p_charsets (cf_st c))) |} h) as [l L];
      [apply upd_same | exact Hk |]. exists (h :: l). cbn [sched fold_left]. unfold step_of at 2. rewrite Ht. exact L.
  - destruct (IH Hl {| cf_lock := cf_lock c; cf_st := with_types (cf_st c) t; cf_thr := upd (cf_thr c) h k |} h) as [l L];
      [apply upd_same | exact Hk |]. exists (h :: l). cbn [sched fold_left]. unfold step_of at 2. rewrite Ht. exact L.
  - destruct (IH Hl {| cf_lock := cf_lock c; cf_st := with_used (cf_st c) u; cf_thr := upd (cf_thr c) h k |} h) as [l L];
      [apply upd_same | exact Hk |]. exists (h :: l). cbn [sched fold_left]. unfold step_of at 2. rewrite Ht. exact L.
  - destruct Hl as [k' ->]. destruct (IH I {| cf_lock := cf_lock c; cf_st := with_charsets (cf_st c) m; cf_thr := upd (cf_thr c) h (Release k') |} h) as [l L];
      [apply upd_same | exact Hk |]. exists (h :: l). cbn [sched fold_left]. unfold step_of at 2. rewrite Ht. exact L.
Qed.

(** ** clients that do not read the charsets outside the mutex *)
Fixpoint locked (t : client) : Prop :=
  match t with
  | CRet _ => True
  | CParse _ _ _ _ k => forall r, locked (k r)
  | CInit _ k => locked k
  | CCharsets _ => False
  end.
Lemma locked_atomic p T i : (forall j, locked (T j)) -> forall j, locked (snd (atomic p T i) j).
Proof.
  intros H j. pose proof (H i) as Hi. unfold Concurrency.atomic. destruct (T i) eqn:Ei; cbn [snd locked] in *; try apply H;
    try contradiction; destruct (Nat.eq_dec i j) as [<-|Hj]; rewrite ?upd_same, ?(upd_other _ _ _ _ Hj); auto.
Qed.
Lemma locked_atomics m : forall p T, (forall j, locked (T j)) -> forall j, locked (snd (atomics p T m) j).
Proof.
  induction m as [|i m IH]; intros p T H; [exact H|]. rewrite atomics_cons. apply IH. now apply locked_atomic.
Qed.

(** ** what a client returns depends on the Parser only through its types *)
Fixpoint steady (t : client) : Prop :=
  match t with
  | CRet _ => True
  | CParse _ cfg _ _ k => u_try_prev cfg = false /\ forall r, steady (k r)
  | CInit _ k => steady k
  | CCharsets _ => False
  end.
Lemma parse_eff E p cfg s fs : eff_types (fst (parse E D det p cfg s fs)) = eff_types p.
Proof. exact (exec_eff D det p (OpParse E cfg s fs)). Qed.
Lemma init_eff p ls : eff_types (init_charsets D p ls) = eff_types p.
Proof. exact (exec_eff D det p (OpCharsets ls)). Qed.
Lemma steady_alone t : steady t -> forall p q, eff_types p = eff_types q -> snd (alone t p) = snd (alone t q).
Proof.
  induction t as [r|E cfg s fs k IH|ls k IH|k IH]; intros Hs p q Hq; cbn [steady Concurrency.alone] in *; [reflexivity| |apply IH; [exact Hs | now rewrite !init_eff] | contradiction].
  destruct Hs as [Hp Hs]. rewrite (parse_result_dep E D det p q cfg s fs Hq) by congruence.
  apply IH; [apply Hs | now rewrite !parse_eff].
Qed.
Lemma atomic_eff p T i : eff_types (fst (atomic p T i)) = eff_types p.
Proof. unfold Concurrency.atomic. destruct (T i); cbn [fst]; auto using parse_eff, init_eff. Qed.
Lemma steady_atomic p T i j : steady (T j) -> steady (snd (atomic p T i) j) /\
  snd (alone (snd (atomic p T i) j) (fst (atomic p T i))) = snd (alone (T j) p).
Proof.
  intros Hs. destruct (Nat.eq_dec i j) as [<-|Hn].
  - unfold Concurrency.atomic. destruct (T i) as [r|E cfg s fs k|ls k|k] eqn:Ei; cbn [fst snd steady Concurrency.alone] in *; rewrite ?upd_same, ?Ei; auto.
    + split; [apply Hs | reflexivity].
    + contradiction.
  - rewrite atomic_other by exact Hn. split; [exact Hs|]. apply steady_alone; [exact Hs | apply atomic_eff].
Qed.
Lemma steady_atomics m : forall p T j, steady (T j) -> steady (snd (atomics p T m) j) /\
  snd (alone (snd (atomics p T m) j) (fst (atomics p T m))) = snd (alone (T j) p).
Proof.
  induction m as [|i m IH]; intros p T j Hs; [split; [exact Hs | reflexivity]|].
  rewrite atomics_cons. destruct (steady_atomic p T i j Hs) as [H1 H2]. rewrite <- H2. now apply IH.
Qed.

(** ** Searches for the same languages *)
Fixpoint inits (ls : list str) (t : client) : Prop :=
  match t with
  | CRet _ => True
  | CParse _ _ _ _ k => forall r, inits ls (k r)
  | CInit l k => l = ls /\ inits ls k
  | CCharsets k => forall c, inits ls (k c)
  end.
(** [steady], and the charsets are read only after the initialisation *)
Fixpoint steady_with (ls : list str) (b : bool) (t : client) : Prop :=
  match t with
  | CRet _ => True
  | CParse _ cfg _ _ k => u_try_prev cfg = false /\ forall r, steady_with ls b (k r)
  | CInit l k => l = ls /\ steady_with ls true k
  | CCharsets k => b = true /\ forall c, steady_with ls b (k c)
  end.
Definition after (p : pstate) (ls : list str) : option (smap (list Z)) := p_charsets (init_charsets D p ls).
Lemma after_dep p q ls : p_charsets p = p_charsets q -> after p ls = after q ls.
Proof. unfold after, init_charsets. intros ->. destruct (negb _ || _); reflexivity. Qed.
Lemma after_twice p q ls : p_charsets q = after p ls -> after q ls = after p ls.
Proof.
  intros H. unfold after at 1, init_charsets. rewrite H. unfold after, init_charsets.
  match goal with |- context[if ?b then with_charsets p _ else _] => destruct b eqn:B1 end; cbn [p_charsets with_charsets].
  - clear. match goal with |- context[if ?b then _ else _] => destruct b end; reflexivity.
  - rewrite B1. reflexivity.
Qed.
Lemma parse_charsets E p cfg s fs : p_charsets (fst (parse E D det p cfg s fs)) = p_charsets p.
Proof.
  assert (Ty : p_charsets (typed p) = p_charsets p) by (unfold typed; destruct (p_types p); reflexivity).
  destruct (parse_outcome E D det p cfg s fs); auto. destruct (u_try_prev cfg); auto.
Qed.
(** [ok0 p0 ls p b]: the charsets are those of [p0], or those after the initialisation; the latter with [b] *)
Definition ok0 (p0 : pstate) (ls : list str) (b : bool) (p : pstate) : Prop :=
  eff_types p = eff_types p0 /\ (p_charsets p = after p0 ls \/ b = false /\ p_charsets p = p_charsets p0).
Lemma ok0_after p0 ls b p : ok0 p0 ls b p -> after p ls = after p0 ls.
Proof. intros [_ [H|[_ H]]]; [apply after_twice; exact H | apply after_dep; exact H]. Qed.
Lemma ok0_init p0 ls b p b' : ok0 p0 ls b p -> ok0 p0 ls b' (init_charsets D p ls).
Proof. intros H. split; [rewrite init_eff; apply H|]. left. exact (ok0_after p0 ls b p H). Qed.
Lemma ok0_parse p0 ls b p E cfg s fs : ok0 p0 ls b p -> ok0 p0 ls b (fst (parse E D det p cfg s fs)).
Proof. intros [H1 H2]. split; [now rewrite parse_eff | now rewrite parse_charsets]. Qed.
Lemma with_alone ls t : forall b, steady_with ls b t -> forall p0 p q, ok0 p0 ls b p -> ok0 p0 ls b q -> snd (alone t p) = snd (alone t q).
Proof.
  induction t as [r|E cfg s fs k IH|l k IH|k IH]; intros b Hs p0 p q Hp Hq; cbn [steady_with Concurrency.alone] in *; [reflexivity| | |].
  - destruct Hs as [Ht Hs]. rewrite (parse_result_dep E D det p q cfg s fs) by (destruct Hp, Hq; congruence).
    apply (IH _ b (Hs _) p0); apply ok0_parse; assumption.
  - destruct Hs as [-> Hs]. eapply IH; [exact Hs | eapply ok0_init; exact Hp | eapply ok0_init; exact Hq].
  - destruct Hs as [-> Hs]. destruct Hp as [Ep [Cp|[Cp _]]]; [|discriminate Cp]. destruct Hq as [Eq [Cq|[Cq _]]]; [|discriminate Cq].
    rewrite Cp, Cq. apply (IH _ true (Hs _) p0); split; auto.
Qed.
(** the bit tells whether the goroutine under consideration has initialised *)
Lemma with_atomic ls p0 p T i j b : (forall x, inits ls (T x)) -> steady_with ls b (T j) -> ok0 p0 ls b p ->
  (forall x, inits ls (snd (atomic p T i) x)) /\
  exists b', steady_with ls b' (snd (atomic p T i) j) /\ ok0 p0 ls b' (fst (atomic p T i)) /\
    snd (alone (snd (atomic p T i) j) (fst (atomic p T i))) = snd (alone (T j) p).
Proof.
  intros Hi Hs Hp. split.
  { intros x. pose proof (Hi i) as Hx. unfold Concurrency.atomic. destruct (T i) eqn:Ei; cbn [snd inits] in *; try apply Hi;
      destruct (Nat.eq_dec i x) as [<-|Hj]; rewrite ?upd_same, ?(upd_other _ _ _ _ Hj); try apply Hi; apply Hx. }
  pose proof (Hi i) as Hx. destruct (Nat.eq_dec i j) as [<-|Hn].
  - unfold Concurrency.atomic. destruct (T i) as [r|E cfg s fs k|l k|k] eqn:Ei; cbn [fst snd inits steady_with Concurrency.alone] in *; rewrite ?upd_same.
    + exists b. rewrite Ei. repeat split; auto; apply Hp.
    + exists b. split; [apply Hs|]. split; [now apply ok0_parse | reflexivity].
    + destruct Hs as [-> Hs]. exists true. split; [exact Hs|]. split; [eapply ok0_init; exact Hp | reflexivity].
    + exists b. split; [apply Hs|]. split; [exact Hp | reflexivity].
  - rewrite atomic_other by exact Hn. exists b. split; [exact Hs|].
    assert (O : ok0 p0 ls b (fst (atomic p T i))).
    { unfold Concurrency.atomic. destruct (T i) eqn:Ei; cbn [fst snd inits] in *; auto using ok0_parse.
      destruct Hx as [-> _]. eapply ok0_init; exact Hp. }
    split; [exact O|]. eapply with_alone; eassumption.
Qed.
Lemma with_atomics ls p0 m : forall p T j b, (forall x, inits ls (T x)) -> steady_with ls b (T j) -> ok0 p0 ls b p ->
  exists b', steady_with ls b' (snd (atomics p T m) j) /\ ok0 p0 ls b' (fst (atomics p T m)) /\
    snd (alone (snd (atomics p T m) j) (fst (atomics p T m))) = snd (alone (T j) p).
Proof.
  induction m as [|i m IH]; intros p T j b Hi Hs Hp; [now exists b|].
  destruct (with_atomic ls p0 p T i j b Hi Hs Hp) as (Hi' & b' & Hs' & Hp' & Ha).
  rewrite atomics_cons, <- Ha. exact (IH _ _ j b' Hi' Hs' Hp').
Qed.
End F.

(** ** The searches as clients do what they do alone *)
Section S.
Variable E : env.
Variable D : langdb.
Variable det : option (str -> list str).
Context {A : Type}.
Notation prog := (client (res A)).
Notation val t p := (snd (alone D det (res A) t p)).

Lemma v_date cfg entry K p : val (c_parse_date E cfg entry K : prog) p =
  match parse_date E D det p cfg entry with Ok (p', d) => val (K d) p' | Err e => Err e | Panic => Panic end.
Proof.
  unfold c_parse_date, parse_date. cbn [alone]. destruct (parse E D det p cfg entry []) as [p' [[d e]|e|]]; reflexivity.
Qed.
Lemma v_entry icfg entry translation parsed nb K p : val (c_entry E icfg entry translation parsed nb K : prog) p =
  match parse_entry E D det p icfg entry translation parsed nb with Ok (p', icfg', ps) => val (K icfg' ps) p' | Err e => Err e | Panic => Panic end.
Proof.
  unfold c_entry, parse_entry. rewrite v_date.
  destruct (parse_date E D det p (of_internal icfg) (clean_entry entry)) as [[p1 d]|e|]; cbn [rbind]; [|reflexivity|reflexivity].
  destruct (is_zero _); [reflexivity|]. rewrite v_date.
  destruct (parse_date E D det p1 _ _) as [[p2 d2]|e|]; reflexivity.
Qed.
Lemma v_split nb parts : forall icfg acc K p, val (c_split E nb parts icfg acc K : prog) p =
  match parse_split E D det p icfg nb parts acc with Ok (p', icfg', c) => val (K icfg' c) p' | Err e => Err e | Panic => Panic end.
Proof.
  induction parts as [|[e o] r IH]; intros icfg acc K p; cbn [c_split parse_split]; [reflexivity|].
  destruct (Nat.leb _ 2); [apply IH|]. rewrite v_entry.
  destruct (parse_entry _ _ _ _ _ _ _ _ _) as [[[p1 icfg1] ps]|e1|]; cbn [rbind]; [apply IH | reflexivity | reflexivity].
Qed.
Lemma v_splits nb sps : forall icfg K p, val (c_splits E nb sps icfg K : prog) p =
  match parse_splits E D det p icfg nb sps with Ok (p', icfg', cs) => val (K icfg' cs) p' | Err e => Err e | Panic => Panic end.
Proof.
  induction sps as [|sp r IH]; intros icfg K p; cbn [c_splits parse_splits]; [reflexivity|].
  rewrite v_split. destruct (parse_split _ _ _ _ _ _ _ _) as [[[p1 icfg1] c]|e1|]; cbn [rbind]; [|reflexivity|reflexivity].
  rewrite IH. destruct (parse_splits _ _ _ _ _ _ _) as [[[p2 icfg2] cs]|e1|]; reflexivity.
Qed.
Lemma v_found nb l : forall icfg acc K p, val (c_found E nb l icfg acc K : prog) p =
  match parse_found E D det p icfg nb l acc with Ok (p', fs) => val (K fs) p' | Err e => Err e | Panic => Panic end.
Proof.
  induction l as [|[[entry translation] original] r IH]; intros icfg acc K p; cbn [c_found parse_found]; [reflexivity|].
  destruct (Nat.leb _ 2); [apply IH|]. rewrite v_entry.
  destruct (parse_entry _ _ _ _ _ _ _ _ _) as [[[p1 icfg1] ps]|e1|]; cbn [rbind]; [|reflexivity|reflexivity].
  destruct (negb _); [apply IH|]. destruct (split_if_not_parsed entry original) as [|sp sps]; [apply IH|].
  rewrite v_splits. destruct (parse_splits _ _ _ _ _ _ _) as [[[p2 icfg2] cs]|e1|]; cbn [rbind]; [apply IH | reflexivity | reflexivity].
Qed.
Lemma v_swl cfg lang text K p : val (c_swl E D cfg lang text K : prog) p =
  match search_with_language E D det p cfg lang text with Ok (p', r) => val (K r) p' | Err e => Err e | Panic => Panic end.
Proof.
  unfold c_swl, search_with_language. destruct (init_search_config E cfg) as [cfg1|]; [|reflexivity].
  destruct (db_get D lang); [|reflexivity].
  destruct (translate_search _ _ _ _) as [[translation original]|e|]; cbn [rbind]; [|reflexivity|reflexivity].
  rewrite v_found. destruct (parse_found _ _ _ _ _ _ _ _) as [[p' fs]|e|]; reflexivity.
Qed.
Lemma v_search cfg text K p : val (c_search E D det cfg text K : prog) p =
  match search E D det p cfg text with Ok (p', r) => val (K r) p' | Err e => Err e | Panic => Panic end.
Proof.
  unfold c_search, search. destruct (init_search_config E cfg) as [cfg1|]; [|reflexivity].
  destruct (get_languages _ _ _ _ _) as [ls|e|]; [|reflexivity|reflexivity].
  cbn [alone]. change (match p_charsets (init_charsets D p ls) with Some m => m | None => [] end) with (charsets_of (init_charsets D p ls)).
  destruct (detect_language _ _ _ _ _ _) as [lang|e|]; [|reflexivity|reflexivity].
  rewrite v_swl. destruct (search_with_language _ _ _ _ _ _ _) as [[p' [rs err]]|e|]; reflexivity.
Qed.

(** none of their Parse calls uses the previous locales *)
Section P.
Variable P : prog -> Prop.
Hypothesis P_ret : forall r, P (CRet r).
Hypothesis P_parse : forall E cfg s fs k, u_try_prev cfg = false -> (forall r, P (k r)) -> P (CParse E cfg s fs k).
Lemma st_date cfg entry K : u_try_prev cfg = false -> (forall d, P (K d)) -> P (c_parse_date E cfg entry K).
Proof. intros H HK. apply P_parse; [exact H|]. intros [[d e]|e|]; [apply HK | apply P_ret | apply P_ret]. Qed.
Lemma st_entry icfg entry translation parsed nb K : (forall c d, P (K c d)) -> P (c_entry E icfg entry translation parsed nb K).
Proof.
  intros HK. unfold c_entry. apply st_date; [reflexivity|]. intros d. destruct (is_zero _); [apply HK|].
  apply st_date; [reflexivity|]. intros d2. apply HK.
Qed.
Lemma st_split nb parts : forall icfg acc K, (forall c d, P (K c d)) -> P (c_split E nb parts icfg acc K).
Proof.
  induction parts as [|[e o] r IH]; intros icfg acc K HK; cbn [c_split]; [apply HK|].
  destruct (Nat.leb _ 2); [now apply IH|]. apply st_entry. intros c d. now apply IH.
Qed.
Lemma st_splits nb sps : forall icfg K, (forall c d, P (K c d)) -> P (c_splits E nb sps icfg K).
Proof.
  induction sps as [|sp r IH]; intros icfg K HK; cbn [c_splits]; [apply HK|]. apply st_split. intros c d. apply IH. intros. apply HK.
Qed.
Lemma st_found nb l : forall icfg acc K, (forall d, P (K d)) -> P (c_found E nb l icfg acc K).
Proof.
  induction l as [|[[entry translation] original] r IH]; intros icfg acc K HK; cbn [c_found]; [apply HK|].
  destruct (Nat.leb _ 2); [now apply IH|]. apply st_entry. intros c d.
  destruct (negb _); [now apply IH|]. destruct (split_if_not_parsed entry original); [now apply IH|].
  apply st_splits. intros c2 d2. now apply IH.
Qed.
Lemma st_swl cfg lang text K : (forall r, P (K r)) -> P (c_swl E D cfg lang text K).
Proof.
  intros HK. unfold c_swl. destruct (init_search_config E cfg); [|apply HK]. destruct (db_get D lang); [|apply HK].
  destruct (translate_search _ _ _ _) as [[tr og]|e|]; [|apply P_ret|apply P_ret]. apply st_found. intros d. apply HK.
Qed.
End P.
Lemma swl_steady cfg lang text K : (forall r, steady (K r)) -> steady (c_swl E D cfg lang text K : prog).
Proof. apply st_swl; [exact (fun _ => I) | intros; split; assumption]. Qed.
Lemma swl_locked cfg lang text K : (forall r, locked (K r)) -> locked (c_swl E D cfg lang text K : prog).
Proof. apply st_swl; [exact (fun _ => I) | intros; cbn [locked]; assumption]. Qed.
Lemma swl_inits ls cfg lang text K : (forall r, inits ls (K r)) -> inits ls (c_swl E D cfg lang text K : prog).
Proof. apply st_swl; [exact (fun _ => I) | intros; cbn [inits]; assumption]. Qed.
Lemma swl_with ls b cfg lang text K : (forall r, steady_with ls b (K r)) -> steady_with ls b (c_swl E D cfg lang text K : prog).
Proof. apply st_swl; [exact (fun _ => I) | intros; split; assumption]. Qed.

(** the languages a Search considers *)
Definition search_languages (cfg0 : uconfig) (text : str) : res (list str) :=
  match init_search_config E cfg0 with
  | None => Err EConfig
  | Some cfg => get_languages E D (u_locales cfg) (match u_languages cfg, det with [], Some f => f text | l, _ => l end) (u_given_order cfg)
  end.
Lemma search_inits ls cfg text K : (forall r, inits ls (K r)) -> (forall l, search_languages cfg text = Ok l -> l = ls) ->
  inits ls (c_search E D det cfg text K : prog).
Proof.
  intros HK HL. unfold c_search, search_languages in *. destruct (init_search_config E cfg) as [cfg1|]; [|apply HK].
  destruct (get_languages _ _ _ _ _) as [l|e|]; [|apply HK|exact I]. cbn [inits]. split; [now apply HL|]. intros uc.
  destruct (detect_language _ _ _ _ _ _); [|apply HK|exact I]. apply swl_inits. intros. apply HK.
Qed.
Lemma search_with ls b cfg text K : (forall r, steady_with ls b (K r)) -> (forall b r, steady_with ls b (K r)) -> (forall l, search_languages cfg text = Ok l -> l = ls) ->
  steady_with ls b (c_search E D det cfg text K : prog).
Proof.
  intros HK HKt HL. unfold c_search, search_languages in *. destruct (init_search_config E cfg) as [cfg1|]; [|apply HK].
  destruct (get_languages _ _ _ _ _) as [l|e|]; [|apply HK|exact I]. cbn [steady_with]. split; [now apply HL|]. split; [reflexivity|]. intros uc.
  destruct (detect_language _ _ _ _ _ _); [|apply HKt|exact I]. apply swl_with. intros. apply HKt.
Qed.
End S.
