(** C34, C46: goroutines that share one Parser. Concurrency.v models the mutex and every access to the shared fields; NormalizeUnicode is a function here, and
    Prop_Normalizer.v adds the global normaliser behind it. A [client] is what a
    goroutine does: calls of Parse (CParse), of the locked part of Search (CInit) and the unlocked read of Search (CCharsets), each
    depending in any way on the results so far; [start p T] is the moment when goroutine number j starts to run client [T j] on
    the Parser [p], and [sched c l] is what the schedule [l] (the numbers of the goroutines that move next) leads to. *)
From Verif Require Import GoBase SMap Regex GoTime Setting Strutil Env Formatted Language Parser Search History ParserFacts Concurrency ConcurrencyFacts Concrete LocaleData Shows.

(** ** Every execution is a sequence of whole calls. [m] lists the goroutines in the order in which their calls take effect; when the
    execution goes on, so does [m] (a call that has returned is never moved behind a later one). *)
Theorem C34_serialised : forall D det (R : Type) (p : pstate) (T : nat -> client R) l,
  let c := sched (start D det p T) l in
  exists m, let '(q, U) := atomics D det R p T m in
    (forall j r, cf_thr c j = Ret r -> U j = CRet r) /\ (cf_lock c = None -> cf_st c = q) /\
    forall l2, let c2 := sched (start D det p T) (l ++ l2) in
      exists m2, let '(q2, U2) := atomics D det R p T (m ++ m2) in
        (forall j r, cf_thr c2 j = Ret r -> U2 j = CRet r) /\ (cf_lock c2 = None -> cf_st c2 = q2).
Proof.
  intros D det R p T l c. destruct (inv_sched D det l _ p T (inv_start D det p T)) as [m Hm]. exists m.
  destruct (atomics D det R p T m) as [q U] eqn:Ea. cbn [fst snd] in Hm. split; [|split].
  - intros j r. now apply (inv_ret D det _ q U).
  - intros Hk. unfold inv in Hm. subst c. rewrite Hk in Hm. apply Hm.
  - intros l2 c2. destruct (inv_sched D det l2 _ q U Hm) as [m2 Hm2]. exists m2.
    rewrite atomics_app, Ea. cbn [fst snd]. destruct (atomics D det R q U m2) as [q2 U2]. cbn [fst snd] in Hm2.
    subst c2. rewrite sched_app. split.
    + intros j r. now apply (inv_ret D det _ q2 U2).
    + intros Hk. unfold inv in Hm2. rewrite Hk in Hm2. apply Hm2.
Qed.
Print Assumptions C34_serialised.

(** ** Nobody is blocked for ever: while a goroutine has not ended some goroutine can move, and the others can be scheduled so that the
    mutex becomes free. *)
Theorem C34_no_deadlock : forall D det (R : Type) (p : pstate) (T : nat -> client R) l,
  let c := sched (start D det p T) l in
  (forall j, (forall r, cf_thr c j <> Ret r) -> exists i c', step_of c i = Some c') /\ exists l2, cf_lock (sched c l2) = None.
Proof.
  intros D det R p T l c. destruct (inv_sched D det l _ p T (inv_start D det p T)) as [m Hm]. fold c in Hm. split.
  - intros j. eapply inv_moves. exact Hm.
  - destruct (cf_lock c) as [h|] eqn:El; [|exists []; exact El].
    unfold inv in Hm. rewrite El in Hm. destruct Hm as (_ & _ & Hl & _). exact (release _ Hl c h eq_refl El).
Qed.
Print Assumptions C34_no_deadlock.

(** ** Data races: two goroutines that are about to access the same field, one of them writing *)
Inductive field := FTypes | FUsed | FCharsets.
Definition next_access {R} (a : act R) : option (field * bool) :=
  match a with
  | LoadTypes _ => Some (FTypes, false) | LoadUsed _ => Some (FUsed, false) | LoadCharsets _ => Some (FCharsets, false)
  | StoreTypes _ _ => Some (FTypes, true) | StoreUsed _ _ => Some (FUsed, true) | StoreCharsets _ _ => Some (FCharsets, true)
  | _ => None
  end.
Definition race {R} (c : conf R) : Prop :=
  exists i j f w, i <> j /\ next_access (cf_thr c i) = Some (f, true) /\ next_access (cf_thr c j) = Some (f, w).

Theorem C34_race_free : forall D det (R : Type) (p : pstate) (T : nat -> client R) l, (forall j, locked (T j)) ->
  ~ race (sched (start D det p T) l).
Proof.
  intros D det R p T l HT (i & j & f & w & Hij & Hi & Hj).
  destruct (inv_sched D det l _ p T (inv_start D det p T)) as [m Hm].
  pose proof (locked_atomics D det m p T HT) as HL.
  set (c := sched _ _) in *. set (q := fst (atomics D det R p T m)) in *. set (U := snd (atomics D det R p T m)) in *.
  assert (N : forall x, cf_thr c x = impl D det R (U x) -> next_access (cf_thr c x) = None).
  { intros x ->. specialize (HL x). destruct (U x); cbn [impl locked next_access] in *; try reflexivity; contradiction. }
  unfold inv in Hm. destruct (cf_lock c) as [h|].
  - destruct Hm as (Ho & _). destruct (Nat.eq_dec h i) as [<-|Hn].
    + rewrite (N j) in Hj; [discriminate Hj | now apply Ho].
    + rewrite (N i) in Hi; [discriminate Hi | now apply Ho].
  - destruct Hm as (_ & Ho). rewrite (N i) in Hi; [discriminate Hi | apply Ho].
Qed.
Print Assumptions C34_race_free.

(** ** A goroutine that calls Parse without TryPreviousLocales gets what it gets alone, whatever the others do *)
Theorem C34_parse_alone : forall E D det (p : pstate) (T : nat -> client (res ret)) l i cfg s fs r,
  T i = CParse E cfg s fs CRet -> u_try_prev cfg = false ->
  cf_thr (sched (start D det p T) l) i = Ret r -> r = snd (parse E D det p cfg s fs).
Proof.
  intros E D det p T l i cfg s fs r HT Hu Hr.
  destruct (inv_sched D det l _ p T (inv_start D det p T)) as [m Hm].
  pose proof (inv_ret D det _ _ _ i r Hm Hr) as HR.
  destruct (steady_atomics D det m p T i) as [_ HS]; [rewrite HT; split; [exact Hu | intros; exact I]|].
  rewrite HR, HT in HS. exact HS.
Qed.
Print Assumptions C34_parse_alone.

(** the result of a search, without the state of the Parser *)
Definition outcome_of {A} (r : res (pstate * A)) : res A := match r with Ok (_, a) => Ok a | Err e => Err e | Panic => Panic end.

(** ** So does a goroutine that calls SearchWithLanguage, even with TryPreviousLocales (the internal configuration drops it). Partial: as far as the fields of the
    Parser are concerned; the normaliser is another matter (C46_normalizer_refuted). *)
Theorem C46_search_with_language_partial : forall E D det (p : pstate) T l i cfg lang text r,
  T i = c_swl E D cfg lang text (fun x => CRet (Ok x)) ->
  cf_thr (sched (start D det p T) l) i = Ret r -> r = outcome_of (search_with_language E D det p cfg lang text).
Proof.
  intros E D det p T l i cfg lang text r HT Hr.
  destruct (inv_sched D det l _ p T (inv_start D det p T)) as [m Hm].
  pose proof (inv_ret D det _ _ _ i r Hm Hr) as HR.
  destruct (steady_atomics D det m p T i) as [_ HS]; [rewrite HT; apply swl_steady; intros; exact I|].
  rewrite HR, HT, v_swl in HS. cbn [alone snd] in HS. rewrite HS. unfold outcome_of.
  destruct (search_with_language _ _ _ _ _ _ _) as [[q x]|e|]; reflexivity.
Qed.
Print Assumptions C46_search_with_language_partial.

(** ** So does a goroutine that calls Search, if all concurrent Searches consider the same languages (partial also as before). [inits ls t]: client [t] searches
    among the languages [ls] only (it may call Parse and SearchWithLanguage as it likes). *)
Theorem C46_search_partial : forall E D det (p : pstate) T l i cfg text r ls,
  T i = c_search E D det cfg text (fun x => CRet (Ok x)) ->
  (forall j, inits ls (T j)) ->
  cf_thr (sched (start D det p T) l) i = Ret r -> r = outcome_of (search E D det p cfg text).
Proof.
  intros E D det p T l i cfg text r ls HT HI Hr.
  destruct (inv_sched D det l _ p T (inv_start D det p T)) as [m Hm].
  pose proof (inv_ret D det _ _ _ i r Hm Hr) as HR.
  assert (HL : forall x, search_languages E D det cfg text = Ok x -> x = ls).
  { intros x Hx. specialize (HI i). rewrite HT in HI. unfold c_search, search_languages in *.
    destruct (init_search_config E cfg) as [cfg1|]; [|discriminate Hx]. rewrite Hx in HI. apply HI. }
  destruct (with_atomics D det ls p m p T i false HI) as (b & _ & _ & HS).
  { rewrite HT. apply search_with; [intros; exact I | intros; exact I | exact HL]. }
  { split; [reflexivity | right; split; reflexivity]. }
  rewrite HR, HT, v_search in HS. cbn [alone snd] in HS. rewrite HS. unfold outcome_of.
  destruct (search _ _ _ _ _ _) as [[q x]|e|]; reflexivity.
Qed.
Print Assumptions C46_search_partial.

(** the searches meet the conditions on the other goroutines *)
Theorem C46_clients : forall E D det A cfg text lang (K : _ -> client (res A)) (K' : _ -> client (res A)) ls,
  ((forall r, locked (K r)) -> locked (c_swl E D cfg lang text K)) /\
  ((forall r, inits ls (K r)) -> inits ls (c_swl E D cfg lang text K)) /\
  ((forall r, inits ls (K' r)) -> (forall l, search_languages E D det cfg text = Ok l -> l = ls) -> inits ls (c_search E D det cfg text K')).
Proof.
  intros. split; [apply swl_locked | split; [apply swl_inits | apply search_inits]].
Qed.
Print Assumptions C46_clients.

(** ** Without the condition on the languages a Search can return something else than alone: it reads the unique character sets after
    unlocking, when another Search may have replaced them (search.go:66-69). Here "12. März 2015" is searched among Spanish and German,
    while another goroutine searches among Spanish only: the German text is taken for Spanish, and only the year is found. *)
Definition lcfg (ls : list str) : uconfig :=
  {| u_locales := []; u_languages := ls; u_region := []; u_try_prev := false; u_given_order := false;
     u_deflang := []; u_order := None; u_now := utc_at 2024 5 10 0 0 0; u_tz := None; u_pday := 0; u_pmonth := 0; u_src := 0;
     u_strict := false; u_required := []; u_skip := []; u_timeperiod := false; u_preserve := false |}.
Definition two_langs := lcfg [lit "es"; lit "de"].
Definition one_lang := lcfg [lit "es"].
Definition german := lit "12. März 2015".
Definition found := (str * list search_result * option goerr)%type.
Definition two (j : nat) : client (res found) :=
  match j with
  | 0%nat => c_search env0 db0 None two_langs german (fun r => CRet (Ok r))
  | 1%nat => c_search env0 db0 None one_lang german (fun r => CRet (Ok r))
  | _ => CRet Panic
  end.
Definition short (r : res found) : option (str * list str) := match r with Ok (l, rs, None) => Some (l, map sr_text rs) | _ => None end.
Definition returned (c : conf (res found)) (j : nat) : option (str * list str) := match cf_thr c j with Ret r => short r | _ => None end.
Theorem C46_refuted :
  short (outcome_of (search env0 db0 None (new_parser []) two_langs german)) = Some (lit "de", [lit "12. März 2015"]) /\
  returned (sched (start db0 None (new_parser []) two) ([0;0;0;0; 1;1;1;1] ++ repeat 0 100)%nat) 0 = Some (lit "es", [lit "2015"]).
Proof. split; vm_compute; reflexivity. Qed.
Print Assumptions C46_refuted.

(** ... and the read is a data race *)
Definition is_store {R} (a : act R) : bool := match a with StoreCharsets _ _ => true | _ => false end.
Definition is_load {R} (a : act R) : bool := match a with LoadCharsets _ => true | _ => false end.
Theorem C46_race_refuted : race (sched (start db0 None (new_parser []) two) [0;0;0;0; 1;1]%nat).
Proof.
  assert (H : is_store (cf_thr (sched (start db0 None (new_parser []) two) [0;0;0;0; 1;1]%nat) 1%nat) = true
           /\ is_load (cf_thr (sched (start db0 None (new_parser []) two) [0;0;0;0; 1;1]%nat) 0%nat) = true).
  { split; vm_compute; reflexivity. }
  revert H. generalize (sched (start db0 None (new_parser []) two) [0;0;0;0; 1;1]%nat). intros c [H1 H2].
  exists 1%nat, 0%nat, FCharsets, false. split; [discriminate|].
  destruct (cf_thr c 1%nat); try discriminate H1. destruct (cf_thr c 0%nat); try discriminate H2. split; reflexivity.
Qed.
Print Assumptions C46_race_refuted.

(** the theorems are not empty: two goroutines that parse and search the same text finish under this schedule *)
Definition pair (j : nat) : client (res found) :=
  match j with
  | 0%nat => c_search env0 db0 None two_langs german (fun r => CRet (Ok r))
  | 1%nat => CParse env0 one_lang german [] (fun _ => c_search env0 db0 None two_langs german (fun r => CRet (Ok r)))
  | _ => CRet Panic
  end.
Example C34_case : (forall j, inits [lit "es"; lit "de"] (pair j)) /\
  let c := sched (start db0 None (new_parser []) pair) (concat (repeat [0;1;1] 40)%nat) in
  returned c 0 = Some (lit "de", [lit "12. März 2015"]) /\ returned c 1 = Some (lit "de", [lit "12. März 2015"]).
Proof.
  assert (L : search_languages env0 db0 None two_langs german = Ok [lit "es"; lit "de"]) by (vm_compute; reflexivity).
  split.
  - intros j. destruct j as [|[|j]]; [| |exact I].
    + apply C46_clients; [exact (lit "es") | exact (fun _ => CRet Panic) | intros; exact I |].
      intros l Hl. rewrite L in Hl. congruence.
    + intros r. apply C46_clients; [exact (lit "es") | exact (fun _ => CRet Panic) | intros; exact I |].
      intros l Hl. rewrite L in Hl. congruence.
  - split; vm_compute; reflexivity.
Qed.
