(** Lemmas about Normalizer.v *)
From Verif Require Import GoBase SMap Regex GoTime Setting Strutil Digit Env Formatted Language Absolute Calendars Parser Search History ParserFacts
  Concurrency ConcurrencyFacts Normalizer.

(** ** The programs of Normalizer.v, if the normaliser is a function, are those of Concurrency.v *)
Section Sim.
Variable norm : str -> str.
Variable q : nat.
Context {R : Type}.
Inductive sim : nact R -> act R -> Prop :=
| sim_ret r : sim (NRet r) (Ret r)
| sim_acquire n a : sim n a -> sim (NAcquire q n) (Acquire a)
| sim_release n a : sim n a -> sim (NRelease q n) (Release a)
| sim_ltypes n a : (forall v, sim (n v) (a v)) -> sim (NLoadTypes q n) (LoadTypes a)
| sim_lused n a : (forall v, sim (n v) (a v)) -> sim (NLoadUsed q n) (LoadUsed a)
| sim_lcharsets n a : (forall v, sim (n v) (a v)) -> sim (NLoadCharsets q n) (LoadCharsets a)
| sim_stypes v n a : sim n a -> sim (NStoreTypes q v n) (StoreTypes v a)
| sim_sused v n a : sim n a -> sim (NStoreUsed q v n) (StoreUsed v a)
| sim_scharsets v n a : sim n a -> sim (NStoreCharsets q v n) (StoreCharsets v a)
| sim_chain s n a : sim (n (norm s)) a -> sim (NChain s n) a.

Section P.
Variable E : env.
Variable D : langdb.
Variable det : option (str -> list str).
Hypothesis HE : forall s, u_nfkd_noMn_nfkc (e_uni E) s = norm s.
Notation U := (e_uni E).

Lemma sim_string s K a : sim (K (normalize_string U s)) a -> sim (n_string E s K) a.
Proof. intros H. apply sim_chain. rewrite <- HE. exact H. Qed.
Lemma sim_token s K a : sim (K (normalize_token E s)) a -> sim (n_token E s K) a.
Proof. intros H. apply sim_string. exact H. Qed.
Lemma sim_translate cfg ld s keep K a : sim (K (translate E cfg ld s keep)) a -> sim (n_translate E cfg ld s keep K) a.
Proof. intros H. apply sim_token. exact H. Qed.
Lemma sim_applicable cfg ld s K a : sim (K (is_applicable E cfg ld s false)) a -> sim (n_applicable E cfg ld s K) a.
Proof. intros H. apply sim_token. exact H. Qed.
Lemma sim_any cfg ld dss : forall K a, sim (K (any_applicable E cfg ld dss)) a -> sim (n_any_applicable E cfg ld dss K) a.
Proof.
  induction dss as [|ds r IH]; intros K a H; [exact H|]. cbn [n_any_applicable]. apply sim_applicable. cbn [any_applicable] in H.
  destruct (is_applicable E cfg ld ds false) as [[]|e|]; cbn [rbind] in H; [exact H | apply IH, H | exact H | exact H].
Qed.
Lemma sim_previous cfg dss used : forall K a, sim (K (check_previous E cfg used dss)) a -> sim (n_check_previous E cfg used dss K) a.
Proof.
  induction used as [|ld r IH]; intros K a H; [exact H|]. cbn [n_check_previous]. apply sim_any. cbn [check_previous] in H.
  destruct (any_applicable E cfg ld dss) as [[]|e|]; cbn [rbind] in H; [exact H | apply IH, H | exact H | exact H].
Qed.
Lemma sim_filter cfg dss lds : forall acc K a, sim (K (filter_applicable E cfg dss acc lds)) a -> sim (n_filter_applicable E cfg dss acc lds K) a.
Proof.
  induction lds as [|ld r IH]; intros acc K a H; [exact H|]. cbn [n_filter_applicable filter_applicable] in *.
  destruct (mem (ld_name ld) (map ld_name acc)); [apply IH, H|]. apply sim_any.
  destruct (any_applicable E cfg ld dss) as [b|e|]; cbn [rbind] in H; [apply IH, H | exact H | exact H].
Qed.
Lemma sim_get used cfg icfg s K a : sim (K (get_applicable E D det used cfg icfg s)) a -> sim (n_get_applicable E D det used cfg icfg s K) a.
Proof.
  intros H. unfold n_get_applicable. apply sim_string. unfold get_applicable in H. cbv zeta in *.
  set (t := normalize_string U s) in *.
  set (dss := if eqs (fst (etz_pop E t)) t then [t] else [t; fst (etz_pop E t)]) in *.
  destruct (u_try_prev cfg).
  - apply sim_previous. destruct (check_previous E icfg used dss) as [prev|e|]; cbn [rbind] in H; [|exact H|exact H].
    destruct (get_locales E D (u_locales cfg) (detected_languages det cfg t) (u_region cfg) (u_given_order cfg) false) as [lds|e|].
    + cbn [rbind] in H. apply sim_filter. exact H.
    + destruct e; cbn [rbind] in H; exact H.
    + exact H.
  - cbn [rbind] in H.
    destruct (get_locales E D (u_locales cfg) (detected_languages det cfg t) (u_region cfg) (u_given_order cfg) false) as [lds|e|].
    + cbn [rbind] in H. apply sim_filter. exact H.
    + destruct e; cbn [rbind] in H; exact H.
    + exact H.
Qed.
Lemma sim_locale cfg icfg types s fs ld K a : sim (K (try_locale E cfg icfg types s fs ld)) a -> sim (n_try_locale E cfg icfg types s fs ld K) a.
Proof.
  intros H. unfold n_try_locale. apply sim_translate. unfold try_locale in H.
  destruct (translate E _ ld s false) as [trs|e|]; cbn [rbind] in H; [|exact H|exact H]. apply sim_translate. exact H.
Qed.
Lemma sim_locales cfg icfg types s fs lds : forall K a, sim (K (try_locales E cfg icfg types s fs lds)) a -> sim (n_try_locales E cfg icfg types s fs lds K) a.
Proof.
  induction lds as [|ld r IH]; intros K a H; [exact H|]. cbn [n_try_locales try_locales] in *. apply sim_locale.
  destruct (try_locale E cfg icfg types s fs ld) as [dt|e|]; cbn [rbind] in H; [|exact H|exact H].
  destruct (date_is_zero dt); [apply IH, H | exact H].
Qed.
Lemma sim_body cfg s fs K K' : (forall r, sim (K r) (K' r)) -> sim (n_parse_body E D det q cfg s fs K) (parse_body D det R E cfg s fs K').
Proof.
  intros HK. unfold n_parse_body, parse_body. apply sim_ltypes. intros t0.
  destruct (existsb _ t0); [apply sim_release, HK|]. apply sim_ltypes. intros t1.
  match goal with |- sim (match _ with [] => NStoreTypes _ _ ?n | _ => _ end) (match _ with [] => StoreTypes _ ?a | _ => _ end) =>
    assert (X : sim n a) end.
  { destruct (negb (validate U (initiate (e_now E) cfg))); [apply sim_release, HK|].
    destruct (negb (date_is_zero (formatted_parse E (to_internal (initiate (e_now E) cfg)) s fs))); [apply sim_release, HK|].
    set (cfg1 := initiate (e_now E) cfg). set (s1 := sanitize_date U s).
    assert (Y : forall used, sim
      (n_get_applicable E D det used cfg1 (to_internal cfg1) s1 (fun x => match x with
            | Panic => NRelease q (K Panic)
            | Err e => NRelease q (K (Ok (zero_date, Some e)))
            | Ok lds =>
              NLoadTypes q (fun types =>
              n_try_locales E cfg1 (to_internal cfg1) types s1 fs lds (fun y => match y with
              | Panic => NRelease q (K Panic)
              | Err e => NRelease q (K (Ok (zero_date, Some e)))
              | Ok None => NRelease q (K (Ok (zero_date, Some ENoParse)))
              | Ok (Some (ld, dt)) =>
                let final := NRelease q (K (Ok (with_locale dt (ld_name ld), None))) in
                if u_try_prev cfg1 then NLoadUsed q (fun used => NStoreUsed q (save_used used ld) final) else final
              end))
            end))
      (match get_applicable E D det used cfg1 (to_internal cfg1) s1 with
            | Panic => Release (K' Panic)
            | Err e => Release (K' (Ok (zero_date, Some e)))
            | Ok lds =>
              LoadTypes (fun types =>
              match try_locales E cfg1 (to_internal cfg1) types s1 fs lds with
              | Panic => Release (K' Panic)
              | Err e => Release (K' (Ok (zero_date, Some e)))
              | Ok None => Release (K' (Ok (zero_date, Some ENoParse)))
              | Ok (Some (ld, dt)) =>
                let final := Release (K' (Ok (with_locale dt (ld_name ld), None))) in
                if u_try_prev cfg1 then LoadUsed (fun used => StoreUsed (save_used used ld) final) else final
              end)
            end)).
    { intros used. apply sim_get. destruct (get_applicable E D det used cfg1 (to_internal cfg1) s1) as [lds|e|]; [|apply sim_release, HK..].
      apply sim_ltypes. intros types. apply sim_locales.
      destruct (try_locales E cfg1 (to_internal cfg1) types s1 fs lds) as [[[ld dt]|]|e|]; [|apply sim_release, HK..].
      cbv zeta. destruct (u_try_prev cfg1); [|apply sim_release, HK]. apply sim_lused. intros v. apply sim_sused, sim_release, HK. }
    cbv zeta. destruct (u_try_prev cfg1); [apply sim_lused; exact Y | apply Y]. }
  destruct t1; [apply sim_stypes|]; exact X.
Qed.

Lemma sim_align pick same eq (Heq : forall t x, same t (normalize_token E (pick t x)) x = eq t x) long : forall i b short K a,
  sim (K (align_loop eq long i b short)) a -> sim (n_align E pick same long i b short K) a.
Proof.
  induction long as [|t r IH]; intros i b short K a H; [exact H|]. cbn [n_align align_loop] in *.
  destruct (nth_error short i) as [x|]; [|apply IH, H]. apply sim_token. rewrite Heq.
  destruct (eq t x); [apply IH, H|]. destruct b; apply IH, H.
Qed.
Lemma sim_split_align ld s skipped K a : sim (K (simplify_split_align E ld s skipped)) a -> sim (n_split_align E ld s skipped K) a.
Proof.
  intros H. unfold n_split_align. apply sim_token. unfold simplify_split_align in H.
  destruct (word_split E ld (simplify E ld (normalize_token E s)) skipped) as [simp|e|]; cbn [rbind] in H; [|exact H|exact H].
  destruct (word_split E ld s skipped) as [orig|e|]; cbn [rbind] in H; [|exact H|exact H]. cbv zeta in H.
  destruct (Nat.eqb (length orig) (length simp)); [exact H|].
  destruct (Nat.ltb (length orig) (length simp));
    [apply (sim_align _ _ (fun t o => eqs t (normalize_token E o)))|apply (sim_align _ _ (fun t x => eqs (normalize_token E t) x))]; try exact H; reflexivity.
Qed.
Lemma sim_sentences ld skipped l : forall K a,
  sim (K (rmap (fun sentence =>
     do (orig, simp) <- simplify_split_align E ld sentence skipped ;
     do done <- ts_loop E ld orig simp 0 false [] [] [] ;
     Ok (rev done)) l)) a -> sim (n_sentences E ld skipped l K) a.
Proof.
  induction l as [|x r IH]; intros K a H; [exact H|]. cbn [n_sentences rmap] in *. apply sim_split_align.
  destruct (simplify_split_align E ld x skipped) as [[orig simp]|e|]; cbn [rbind] in *; [|exact H|exact H].
  destruct (ts_loop E ld orig simp 0 false [] [] []) as [d|e|]; cbn [rbind] in *; [|exact H|exact H]. apply IH, H.
Qed.
Lemma sim_translate_search cfg ld s K a : sim (K (translate_search E cfg ld s)) a -> sim (n_translate_search E cfg ld s K) a.
Proof.
  intros H. unfold n_translate_search. unfold translate_search in H.
  destruct (split_sentence E ld s) as [l|e|]; cbn [rbind] in H; [|exact H|exact H]. apply sim_sentences. exact H.
Qed.
End P.

(** all environments of a client have this normaliser *)
Fixpoint normed (t : client R) : Prop :=
  match t with
  | CRet _ => True
  | CParse E _ _ _ k => (forall s, u_nfkd_noMn_nfkc (e_uni E) s = norm s) /\ forall r, normed (k r)
  | CInit _ k => normed k
  | CCharsets k => forall c, normed (k c)
  end.
Lemma sim_client D det t : normed t -> sim (n_client D det q t) (impl D det R t).
Proof.
  induction t as [r|E cfg s fs k IH|ls k IH|k IH]; cbn [normed n_client impl]; intros H.
  - apply sim_ret.
  - apply sim_acquire, sim_body; [apply H|]. intros r. apply IH, H.
  - apply sim_acquire. apply sim_lcharsets. intros c0. cbv zeta.
    destruct (negb _ || _); [apply sim_scharsets, sim_release, IH, H|].
    destruct c0; [apply sim_release, IH, H | apply sim_scharsets, sim_release, IH, H].
  - apply sim_lcharsets. intros c. apply IH, H.
Qed.
End Sim.

Section SimSearch.
Variable norm : str -> str.
Variable q : nat.
Context {A : Type}.
Lemma normed_date E cfg entry K : (forall s, u_nfkd_noMn_nfkc (e_uni E) s = norm s) -> (forall d, normed norm (K d)) -> normed norm (c_parse_date E cfg entry K : client (res A)).
Proof. intros HE H. split; [exact HE|]. intros [[d e]|e|]; [apply H | exact I | exact I]. Qed.
Lemma normed_entry E icfg entry tr parsed nb K : (forall s, u_nfkd_noMn_nfkc (e_uni E) s = norm s) -> (forall c d, normed norm (K c d)) ->
  normed norm (c_entry E icfg entry tr parsed nb K : client (res A)).
Proof.
  intros HE H. unfold c_entry. apply normed_date; [exact HE|]. intros d.
  match goal with |- context [if is_zero ?b then _ else _] => destruct (is_zero b) end; [apply H|]. apply normed_date; [exact HE|]. intros d2. apply H.
Qed.
Lemma normed_split E nb (HE : forall s, u_nfkd_noMn_nfkc (e_uni E) s = norm s) parts : forall icfg acc K, (forall c d, normed norm (K c d)) ->
  normed norm (c_split E nb parts icfg acc K : client (res A)).
Proof.
  induction parts as [|[e o] r IH]; intros icfg acc K H; [apply H|]. cbn [c_split]. destruct (Nat.leb _ _); [now apply IH|].
  apply normed_entry; [exact HE|]. intros c d. now apply IH.
Qed.
Lemma normed_splits E nb (HE : forall s, u_nfkd_noMn_nfkc (e_uni E) s = norm s) sps : forall icfg K, (forall c d, normed norm (K c d)) ->
  normed norm (c_splits E nb sps icfg K : client (res A)).
Proof.
  induction sps as [|sp r IH]; intros icfg K H; [apply H|]. cbn [c_splits]. apply normed_split; [exact HE|]. intros c d. apply IH. intros c2 d2. apply H.
Qed.
Lemma normed_found E nb (HE : forall s, u_nfkd_noMn_nfkc (e_uni E) s = norm s) l : forall icfg acc K, (forall d, normed norm (K d)) ->
  normed norm (c_found E nb l icfg acc K : client (res A)).
Proof.
  induction l as [|[[e t] o] r IH]; intros icfg acc K H; [apply H|]. cbn [c_found]. destruct (Nat.leb _ _); [now apply IH|].
  apply normed_entry; [exact HE|]. intros c d. destruct (negb _); [now apply IH|].
  destruct (split_if_not_parsed e o) eqn:ES; [now apply IH|]. apply normed_splits; [exact HE|]. intros c2 d2. now apply IH.
Qed.
Lemma sim_swl E D det cfg lang text (K : _ -> client (res A)) : (forall s, u_nfkd_noMn_nfkc (e_uni E) s = norm s) -> (forall r, normed norm (K r)) ->
  sim norm q (n_swl E D det q cfg lang text K) (impl D det (res A) (c_swl E D cfg lang text K)).
Proof.
  intros HE H. unfold n_swl, c_swl. destruct (init_search_config E cfg) as [cfg1|]; [|apply sim_client, H].
  destruct (db_get D lang) as [ld|]; [|apply sim_client, H]. apply sim_translate_search; [exact HE|].
  destruct (translate_search E (to_internal cfg1) ld text) as [[tr orig]|e|]; [|apply sim_ret..].
  apply sim_client, normed_found; [exact HE|]. intros d. apply H.
Qed.
End SimSearch.

(** ** The ideal machine: the normaliser is a function *)
Section Ideal.
Variable norm : str -> str.
Context {R : Type}.
Record ideal := { i_lock : nat -> option nat; i_st : nat -> pstate; i_thr : nat -> nact R }.
Definition istep (w : ideal) (i : nat) : option ideal :=
  let put lk st a := Some {| i_lock := lk; i_st := st; i_thr := upd (i_thr w) i a |} in
  match i_thr w i with
  | NRet _ => None
  | NAcquire q k => match i_lock w q with None => put (upd (i_lock w) q (Some i)) (i_st w) k | Some _ => None end
  | NRelease q k => put (upd (i_lock w) q None) (i_st w) k
  | NLoadTypes q k => put (i_lock w) (i_st w) (k (p_types (i_st w q)))
  | NLoadUsed q k => put (i_lock w) (i_st w) (k (p_used (i_st w q)))
  | NLoadCharsets q k => put (i_lock w) (i_st w) (k (p_charsets (i_st w q)))
  | NStoreTypes q t k => put (i_lock w) (upd (i_st w) q (with_types (i_st w q) t)) k
  | NStoreUsed q u k => put (i_lock w) (upd (i_st w) q (with_used (i_st w q) u)) k
  | NStoreCharsets q c k => put (i_lock w) (upd (i_st w) q (with_charsets (i_st w q) c)) k
  | NChain s k => put (i_lock w) (i_st w) (k (norm s))
  end.
Definition isched (w : ideal) (l : list nat) : ideal :=
  fold_left (fun w i => match istep w i with Some w' => w' | None => w end) l w.
Lemma isched_app w l1 l2 : isched w (l1 ++ l2) = isched (isched w l1) l2.
Proof. apply fold_left_app. Qed.
End Ideal.
Arguments ideal : clear implicits.

Definition busy {R} (t : thread R) : bool := match t with Inside _ _ => true | Run _ => false end.
(** no two goroutines are inside the normaliser *)
Definition exclusive {R} (w : world R) : Prop := forall i j, busy (w_thr w i) = true -> busy (w_thr w j) = true -> i = j.

Section Refine.
Variable links : list (str -> str).
Hypothesis Hlinks : links <> [].
Definition through (l : list (str -> str)) (s : str) : str := fold_left (fun x f => f x) l s.
Notation norm := (through links).
Context {R : Type}.

Lemma set_nth_length l : forall j x, length (set_nth l j x) = length l.
Proof. induction l as [|y r IH]; intros [|j] x; cbn [set_nth length]; auto. Qed.
Lemma set_nth_same l : forall j x d, (j < length l)%nat -> nth j (set_nth l j x) d = x.
Proof. induction l as [|y r IH]; intros [|j] x d H; cbn [set_nth nth length] in *; try lia; [reflexivity | apply IH; lia]. Qed.
Lemma set_nth_other l : forall j i x d, i <> j -> nth i (set_nth l j x) d = nth i l d.
Proof. induction l as [|y r IH]; intros [|j] [|i] x d H; cbn [set_nth nth]; try reflexivity; try lia. apply IH. lia. Qed.
Lemma prefix0_0 b : prefix0 0 b = [].
Proof. reflexivity. Qed.
Lemma prefix0_all b : prefix0 (length b) b = b.
Proof. unfold prefix0. rewrite firstn_all, Nat.sub_diag. apply app_nil_r. Qed.

(** the state of the chain while goroutine [i] is alone inside with the text [s] *)
Definition at_phase (c : chain) (i : nat) (ph : phase) (s : str) : Prop :=
  match ph with
  | Setup s' => s' = s /\ length (ch_wait c) = length links /\ forall x, nth x (ch_wait c) [] = []
  | Link j => (j < length links)%nat /\ length (ch_wait c) = length links /\ ch_owner c = i /\ ch_written c = 0%nat /\
              nth j (ch_wait c) [] = through (firstn j links) s /\ forall x, x <> j -> nth x (ch_wait c) [] = []
  | Return => ch_written c = length (norm s) /\ ch_dst c i = norm s
  end.
Lemma through_snoc j f s : nth_error links j = Some f -> through (firstn (S j) links) s = f (through (firstn j links) s).
Proof.
  intros H. assert (firstn (S j) links = firstn j links ++ [f]) as ->.
  { clear Hlinks. revert j H. induction links as [|g r IH]; intros [|j] H; cbn [nth_error] in H; try discriminate H.
    - assert (g = f) by congruence. subst g. reflexivity.
    - cbn [firstn app]. f_equal. now apply IH. }
  unfold through. now rewrite fold_left_app.
Qed.
Lemma phase_setup c i s : at_phase c i (Setup s) s -> at_phase (ch_setup c i s) i (Link 0) s.
Proof.
  intros (_ & HL & H). assert (0 < length links)%nat by (destruct links; [contradiction | cbn; lia]).
  unfold at_phase, ch_setup. cbn [ch_wait ch_owner ch_written ch_dst]. rewrite set_nth_length.
  repeat split; try assumption.
  - rewrite set_nth_same by lia. reflexivity.
  - intros x Hx. rewrite set_nth_other by assumption. apply H.
Qed.
Lemma phase_link c i j s : at_phase c i (Link j) s ->
  at_phase (ch_link links c j) i (if Nat.eqb (S j) (length links) then Return else Link (S j)) s.
Proof.
  intros (Hj & HL & Ho & Hw & Hn & H). unfold ch_link.
  destruct (nth_error links j) as [f|] eqn:EN; [|apply nth_error_None in EN; lia].
  pose proof (through_snoc j f s EN) as T. rewrite Hn, <- T. destruct (Nat.eqb_spec (S j) (length links)) as [EQ|NE].
  - rewrite EQ, firstn_all, Ho, Hw, prefix0_0. unfold at_phase. cbn [ch_written ch_dst]. rewrite upd_same. split; reflexivity.
  - unfold at_phase. cbn [ch_wait ch_owner ch_written ch_dst]. rewrite !set_nth_length.
    repeat split; try assumption; try lia.
    + rewrite set_nth_same by (rewrite set_nth_length; lia). rewrite set_nth_other by lia. rewrite H by lia. reflexivity.
    + intros x Hx. rewrite set_nth_other by lia. destruct (Nat.eq_dec x j) as [->|Hxj]; [apply set_nth_same; lia|].
      rewrite set_nth_other by lia. now apply H.
Qed.

(** what remains to be done by a goroutine, seen from outside: a normalisation under way counts as done *)
Definition thr_is (c : chain) (i : nat) (t : thread R) (n : nact R) : Prop :=
  match t with
  | Run a => n = a
  | Inside ph k => exists s, n = k (norm s) /\ at_phase c i ph s
  end.
Definition refines (w : world R) (v : ideal R) : Prop :=
  w_lock w = i_lock v /\ w_st w = i_st v /\ forall j, thr_is (w_chain w) j (w_thr w j) (i_thr v j).

Lemma refine_step w v i w' : refines w v -> exclusive w -> exclusive w' -> nstep links w i = Some w' ->
  exists v', (istep norm v i = Some v' \/ v' = v) /\ refines w' v'.
Proof.
  intros (HL & HS & HT) X X' H. pose proof (HT i) as Hi. unfold nstep in H. unfold istep.
  destruct (w_thr w i) as [a|ph k] eqn:EI.
  - cbn [thr_is] in Hi. rewrite Hi. destruct a as [r|q k|q k|q k|q k|q k|q t k|q u k|q cs k|s k];
      [discriminate H| | | | | | | | |].
    all: rewrite <- ?HL, <- ?HS.
    1: destruct (w_lock w q) eqn:EL; [discriminate H|].
    all: match type of H with Some ?x = Some _ => assert (w' = x) as -> by congruence end; clear H.
    all: try (eexists; split; [left; reflexivity|]; unfold refines; cbn [w_lock w_st w_chain w_thr i_lock i_st i_thr];
      split; [reflexivity|split; [reflexivity|]]; intros j; destruct (Nat.eq_dec i j) as [<-|Hj];
      [rewrite !upd_same; reflexivity | rewrite !upd_other by assumption; apply HT]).
    (* entering the normaliser *)
    eexists; split; [left; reflexivity|]. unfold refines; cbn [w_lock w_st w_chain w_thr i_lock i_st i_thr].
    split; [reflexivity|split; [reflexivity|]]. intros j. destruct (Nat.eq_dec i j) as [<-|Hj].
    + rewrite !upd_same. exists s. split; [reflexivity|]. unfold at_phase, ch_reset. cbn [ch_wait]. rewrite map_length.
      repeat split. intros x. clear. revert x. induction links as [|f r IH]; intros [|x]; cbn [map nth]; auto.
    + rewrite !upd_other by assumption. specialize (HT j). destruct (w_thr w j) as [a|ph k'] eqn:EJ; [exact HT|].
      exfalso. apply Hj. apply X'; cbn [w_thr].
      * rewrite upd_same. reflexivity.
      * rewrite upd_other by assumption. rewrite EJ. reflexivity.
  - assert (B : busy (w_thr w i) = true) by (rewrite EI; reflexivity). cbn [thr_is] in Hi. destruct Hi as (s & Hn & Hp). exists v. split; [right; reflexivity|].
    assert (O : forall c' t, (exists n, n = i_thr v i /\ thr_is c' i t n) ->
      refines {| w_lock := w_lock w; w_st := w_st w; w_chain := c'; w_thr := upd (w_thr w) i t |} v).
    { intros c' t (n & -> & Ht). unfold refines; cbn [w_lock w_st w_chain w_thr]. split; [exact HL|split; [exact HS|]].
      intros j. destruct (Nat.eq_dec i j) as [<-|Hj]; [rewrite upd_same; exact Ht|]. rewrite upd_other by assumption.
      specialize (HT j). destruct (w_thr w j) as [a|ph' k'] eqn:EJ; [exact HT|]. exfalso. apply Hj, X; [exact B | rewrite EJ; reflexivity]. }
    destruct ph as [s'|j|]; match type of H with Some ?x = Some _ => assert (w' = x) as -> by congruence end; clear H; apply O; eexists; (split; [reflexivity|]).
    + exists s. split; [exact Hn|]. assert (s' = s) by apply Hp. subst s'. now apply phase_setup.
    + exists s. split; [exact Hn|]. now apply phase_link.
    + cbn [thr_is]. rewrite Hn. f_equal. destruct Hp as [Hw Hd]. unfold ch_result. rewrite Hw, Hd. symmetry. apply prefix0_all.
Qed.

Lemma nsched_app w l1 l2 : nsched links (R := R) w (l1 ++ l2) = nsched links (nsched links w l1) l2.
Proof. apply fold_left_app. Qed.
Lemma refine_sched l : forall w v, refines w v -> (forall l1 l2, l = l1 ++ l2 -> exclusive (nsched links w l1)) ->
  exists l', refines (nsched links w l) (isched norm v l').
Proof.
  induction l as [|i r IH]; intros w v HR HX; [exists []; exact HR|]. cbn [nsched fold_left].
  destruct (nstep links w i) as [w'|] eqn:ES.
  - assert (X0 : exclusive w) by (apply (HX [] (i :: r)); reflexivity).
    assert (N : forall l1, nsched links w (i :: l1) = nsched links w' l1) by (intros l1; cbn [nsched fold_left]; now rewrite ES).
    assert (X1 : exclusive w') by (specialize (HX [i] r eq_refl); rewrite N in HX; exact HX).
    destruct (refine_step w v i w' HR X0 X1 ES) as (v' & Hv & HR').
    destruct (IH w' v' HR') as [l' Hl'].
    { intros l1 l2 ->. rewrite <- N. apply (HX (i :: l1) l2). reflexivity. }
    destruct Hv as [Hv|Hv]; [exists (i :: l') | exists l'].
    + cbn [isched fold_left]. rewrite Hv. exact Hl'.
    + subst v'. exact Hl'.
  - apply IH; [exact HR|]. intros l1 l2 ->.
    assert (N : nsched links w (i :: l1) = nsched links w l1) by (cbn [nsched fold_left]; now rewrite ES).
    rewrite <- N. apply (HX (i :: l1) l2). reflexivity.
Qed.
End Refine.

(** ** One Parser: the ideal machine is that of Concurrency.v *)
Section One.
Variable norm : str -> str.
Variable q : nat.
Context {R : Type}.
Definition same_one (v : ideal R) (c : conf R) : Prop :=
  i_lock v q = cf_lock c /\ i_st v q = cf_st c /\ forall j, sim norm q (i_thr v j) (cf_thr c j).
Lemma one_step v c i v' : same_one v c -> istep norm v i = Some v' -> (exists c', step_of c i = Some c' /\ same_one v' c') \/ same_one v' c.
Proof.
  intros (HL & HS & HT) H. pose proof (HT i) as Hi. unfold istep in H. unfold step_of.
  inversion Hi as [r E1 E2|n a Hs E1 E2|n a Hs E1 E2|n a Hs E1 E2|n a Hs E1 E2|n a Hs E1 E2|x n a Hs E1 E2|x n a Hs E1 E2|x n a Hs E1 E2|s n a Hs E1 E2];
    rewrite <- E1 in H; [discriminate H| | | | | | | | |].
  1: rewrite HL in H; destruct (cf_lock c) eqn:EL; [discriminate H|].
  all: match type of H with Some ?x = Some _ => assert (v' = x) as -> by congruence end; clear H.
  all: try (left; eexists; split; [reflexivity|]; unfold same_one; cbn [i_lock i_st i_thr cf_lock cf_st cf_thr];
    rewrite ?upd_same, <- ?HS; split; [try exact HL; try reflexivity|split; [try exact HS; try reflexivity|]];
    intros j; destruct (Nat.eq_dec i j) as [<-|Hj]; [rewrite !upd_same; auto | rewrite !upd_other by assumption; apply HT]).
  - right. unfold same_one; cbn [i_lock i_st i_thr]. split; [exact HL|split; [exact HS|]].
    intros j. destruct (Nat.eq_dec i j) as [<-|Hj]; [rewrite upd_same; exact Hs | rewrite upd_other by assumption; apply HT].
Qed.
Lemma one_sched l : forall v c, same_one v c -> exists l', same_one (isched norm v l) (sched c l').
Proof.
  induction l as [|i r IH]; intros v c H; [exists []; exact H|]. cbn [isched fold_left].
  destruct (istep norm v i) as [v'|] eqn:ES; [|apply IH, H].
  destruct (one_step v c i v' H ES) as [(c' & Hc & H')|H'].
  - destruct (IH v' c' H') as [l' Hl']. exists (i :: l'). cbn [sched fold_left]. rewrite Hc. exact Hl'.
  - apply IH, H'.
Qed.
End One.

(** ** Everybody uses the normaliser with the mutex of Parser [q] *)
Section Held.
Variable q : nat.
Context {R : Type}.
Fixpoint held (b : bool) (n : nact R) : Prop :=
  match n with
  | NRet _ => b = false
  | NAcquire x k => b = false /\ x = q /\ held true k
  | NRelease x k => b = true /\ x = q /\ held false k
  | NLoadTypes x k => b = true /\ x = q /\ forall v, held true (k v)
  | NLoadUsed x k => b = true /\ x = q /\ forall v, held true (k v)
  | NLoadCharsets x k => b = true /\ x = q /\ forall v, held true (k v)
  | NStoreTypes x _ k => b = true /\ x = q /\ held true k
  | NStoreUsed x _ k => b = true /\ x = q /\ held true k
  | NStoreCharsets x _ k => b = true /\ x = q /\ held true k
  | NChain s k => b = true /\ forall v, held true (k v)
  end.
Section P.
Variable E : env.
Variable D : langdb.
Variable det : option (str -> list str).
Lemma held_any cfg ld dss : forall K, (forall r, held true (K r)) -> held true (n_any_applicable E cfg ld dss K).
Proof. induction dss as [|ds r IH]; intros K H; [apply H|]. cbn [n_any_applicable]. split; [reflexivity|]. intros v. destruct (rbind _ _) as [[]|e|]; auto. Qed.
Lemma held_previous cfg dss used : forall K, (forall r, held true (K r)) -> held true (n_check_previous E cfg used dss K).
Proof. induction used as [|ld r IH]; intros K H; [apply H|]. cbn [n_check_previous]. apply held_any. intros [[]|e|]; auto. Qed.
Lemma held_filter cfg dss lds : forall acc K, (forall r, held true (K r)) -> held true (n_filter_applicable E cfg dss acc lds K).
Proof.
  induction lds as [|ld r IH]; intros acc K H; [apply H|]. cbn [n_filter_applicable]. destruct (mem _ _); [now apply IH|].
  apply held_any. intros [b|e|]; auto.
Qed.
Lemma held_get used cfg icfg s K : (forall r, held true (K r)) -> held true (n_get_applicable E D det used cfg icfg s K).
Proof.
  intros H. unfold n_get_applicable, n_string. split; [reflexivity|]. intros v. cbv zeta.
  set (t := sanitize_spaces _). set (dss := if eqs _ _ then _ else _).
  match goal with |- held true (if _ then n_check_previous E icfg used dss ?g else _) => assert (G : forall x, held true (g x)) end.
  { intros [prev|e|]; [|apply H..].
    match goal with |- held true (match ?x with Ok _ => _ | Err _ => _ | Panic => _ end) => destruct x as [lds|e|] end; [|apply H..].
    apply held_filter. intros r. apply H. }
  destruct (u_try_prev cfg); [apply held_previous; exact G | apply (G (Ok None))].
Qed.
Lemma held_locale cfg icfg types s fs ld K : (forall r, held true (K r)) -> held true (n_try_locale E cfg icfg types s fs ld K).
Proof.
  intros H. unfold n_try_locale, n_translate, n_token, n_string. split; [reflexivity|]. intros v.
  match goal with |- held true (match ?x with Ok _ => _ | Err _ => _ | Panic => _ end) => destruct x as [trs|e|] end; [|apply H..].
  split; [reflexivity|]. intros v2. apply H.
Qed.
Lemma held_locales cfg icfg types s fs lds : forall K, (forall r, held true (K r)) -> held true (n_try_locales E cfg icfg types s fs lds K).
Proof.
  induction lds as [|ld r IH]; intros K H; [apply H|]. cbn [n_try_locales]. apply held_locale.
  intros [dt|e|]; auto. destruct (date_is_zero dt); auto.
Qed.
Lemma held_body cfg s fs K : (forall r, held false (K r)) -> held true (n_parse_body E D det q cfg s fs K).
Proof.
  intros H. assert (HR : forall r, held true (NRelease q (K r))) by (intros r; repeat split; apply H).
  unfold n_parse_body. split; [reflexivity|split; [reflexivity|]]. intros t0. destruct (existsb _ t0); [apply HR|].
  split; [reflexivity|split; [reflexivity|]]. intros t1.
  match goal with |- held true (match _ with [] => NStoreTypes _ _ ?n | _ => _ end) => assert (X : held true n) end.
  { destruct (negb (validate _ _)); [apply HR|]. destruct (negb (date_is_zero _)); [apply HR|].
    set (cfg1 := initiate (e_now E) cfg). set (s1 := sanitize_date _ s). cbv zeta.
    match goal with |- held true (if _ then NLoadUsed q ?f else _) => assert (Y : forall used, held true (f used)) end.
    { intros used. apply held_get. intros [lds|e|]; [|apply HR..].
      split; [reflexivity|split; [reflexivity|]]. intros types. apply held_locales. intros [[[ld dt]|]|e|]; [|apply HR..].
      destruct (u_try_prev cfg1); [|apply HR]. split; [reflexivity|split; [reflexivity|]]. intros v. split; [reflexivity|split; [reflexivity|apply HR]]. }
    destruct (u_try_prev cfg1); [split; [reflexivity|split; [reflexivity|exact Y]] | apply (Y [])]. }
  destruct t1; [split; [reflexivity|split; [reflexivity|exact X]] | exact X].
Qed.
End P.
Lemma held_client D det t : locked t -> held false (n_client D det q t).
Proof.
  induction t as [r|E cfg s fs k IH|ls k IH|k IH]; cbn [locked n_client]; intros H; [reflexivity| | |contradiction].
  - split; [reflexivity|split; [reflexivity|]]. apply held_body. intros r. apply IH, H.
  - repeat split. intros c0. cbv zeta. assert (X : held false (n_client D det q k)) by (apply IH, H).
    destruct (negb _ || _); [repeat split; exact X|]. destruct c0; repeat split; exact X.
Qed.

(** the invariant *)
Definition mine (w : world R) (j : nat) : bool := match w_lock w q with Some h => Nat.eqb h j | None => false end.
Definition tidy (w : world R) : Prop :=
  forall j, match w_thr w j with Run a => held (mine w j) a | Inside _ k => mine w j = true /\ forall v, held true (k v) end.
Lemma tidy_exclusive w : tidy w -> exclusive w.
Proof.
  intros H i j Hi Hj. pose proof (H i) as Ti. pose proof (H j) as Tj. destruct (w_thr w i); [discriminate Hi|]. destruct (w_thr w j); [discriminate Hj|].
  destruct Ti as [Ti _], Tj as [Tj _]. unfold mine in *. destruct (w_lock w q) as [h|]; [|discriminate Ti].
  apply Nat.eqb_eq in Ti. apply Nat.eqb_eq in Tj. congruence.
Qed.
Lemma tidy_step links w i w' : tidy w -> nstep links w i = Some w' -> tidy w'.
Proof.
  intros T H. pose proof (T i) as Ti. unfold nstep in H.
  assert (KEEP : forall st ch t, match t with Run a => held (mine w i) a | Inside _ k => mine w i = true /\ forall v, held true (k v) end ->
    tidy {| w_lock := w_lock w; w_st := st; w_chain := ch; w_thr := upd (w_thr w) i t |}).
  { intros st ch t Ht j. unfold mine. cbn [w_thr w_lock]. destruct (Nat.eq_dec i j) as [<-|Hj]; [rewrite upd_same; exact Ht|].
    rewrite upd_other by assumption. apply T. }
  destruct (w_thr w i) as [a|ph k] eqn:EI.
  - destruct a as [r|x k|x k|x k|x k|x k|x y k|x y k|x y k|s k]; [discriminate H| | | | | | | | |].
    1: { cbn [held] in Ti. destruct Ti as (Hm & -> & Hk). destruct (w_lock w q) eqn:EL; [discriminate H|].
         match type of H with Some ?x = Some _ => assert (w' = x) as -> by congruence end. intros j. unfold mine. cbn [w_thr w_lock]. rewrite upd_same.
         destruct (Nat.eq_dec i j) as [<-|Hj]; [rewrite upd_same, Nat.eqb_refl; exact Hk|]. rewrite upd_other by assumption.
         destruct (Nat.eqb_spec i j); [contradiction|]. specialize (T j). unfold mine in T. rewrite EL in T. exact T. }
    1: { cbn [held] in Ti. destruct Ti as (Hm & -> & Hk).
         match type of H with Some ?x = Some _ => assert (w' = x) as -> by congruence end. intros j. unfold mine. cbn [w_thr w_lock]. rewrite upd_same.
         destruct (Nat.eq_dec i j) as [<-|Hj]; [rewrite upd_same; exact Hk|]. rewrite upd_other by assumption.
         specialize (T j). assert (M : mine w j = false).
         { unfold mine in *. destruct (w_lock w q) as [h|]; [|reflexivity]. apply Nat.eqb_eq in Hm. subst h. now apply Nat.eqb_neq. }
         rewrite M in T. exact T. }
    all: match type of H with Some ?x = Some _ => assert (w' = x) as -> by congruence end; clear H; apply KEEP; cbn [held] in Ti.
    all: try (destruct Ti as (Hm & _ & Hk); rewrite Hm; first [exact Hk | apply Hk]).
    destruct Ti as (Hm & Hk). split; [exact Hm | exact Hk].
  - destruct Ti as [Hm Hk]. destruct ph as [s'|j|]; match type of H with Some ?x = Some _ => assert (w' = x) as -> by congruence end; clear H; apply KEEP.
    + now split.
    + now split.
    + rewrite Hm. apply Hk.
Qed.
Lemma tidy_sched links l : forall w, tidy w -> tidy (nsched links w l).
Proof.
  induction l as [|i r IH]; intros w H; [exact H|]. cbn [nsched fold_left]. destruct (nstep links w i) eqn:ES; [|now apply IH].
  apply IH. now apply (tidy_step links w i).
Qed.
End Held.

(** ** A goroutine alone with its Parser *)
Section Eval.
Variable norm : str -> str.
Context {R : Type}.
Fixpoint peval (n : nact R) (p : pstate) : pstate * R :=
  match n with
  | NRet r => (p, r)
  | NAcquire _ k | NRelease _ k => peval k p
  | NLoadTypes _ k => peval (k (p_types p)) p
  | NLoadUsed _ k => peval (k (p_used p)) p
  | NLoadCharsets _ k => peval (k (p_charsets p)) p
  | NStoreTypes _ t k => peval k (with_types p t)
  | NStoreUsed _ u k => peval k (with_used p u)
  | NStoreCharsets _ c k => peval k (with_charsets p c)
  | NChain s k => peval (k (norm s)) p
  end.
Fixpoint aeval (a : act R) (p : pstate) : pstate * R :=
  match a with
  | Ret r => (p, r)
  | Acquire k | Release k => aeval k p
  | LoadTypes k => aeval (k (p_types p)) p
  | LoadUsed k => aeval (k (p_used p)) p
  | LoadCharsets k => aeval (k (p_charsets p)) p
  | StoreTypes t k => aeval k (with_types p t)
  | StoreUsed u k => aeval k (with_used p u)
  | StoreCharsets c k => aeval k (with_charsets p c)
  end.
Lemma sim_eval q n a : sim norm q n a -> forall p, peval n p = aeval a p.
Proof. induction 1; intros p; cbn [peval aeval]; auto. Qed.
Lemma rtr_eval a : forall p p' k, rtr a p = Some (p', k) -> aeval a p = aeval k p'.
Proof.
  induction a as [r|k IH|k IH|k IH|k IH|k IH|t k IH|u k IH|c k IH]; intros p p' k' H; cbn [rtr aeval] in *; try discriminate H; eauto.
  assert (p = p' /\ k = k') as [-> ->] by (split; congruence). reflexivity.
Qed.
Lemma impl_eval D det t : forall p, aeval (impl D det R t) p = alone D det R t p.
Proof.
  induction t as [r|E cfg s fs k IH|ls k IH|k IH]; intros p; cbn [impl aeval alone]; auto.
  - rewrite (rtr_eval _ _ _ _ (rtr_parse D det E cfg s fs _ p)). apply IH.
  - rewrite (rtr_eval _ _ _ _ (rtr_init D ls _ p)). apply IH.
Qed.
(** the program uses Parser [q] only *)
Fixpoint uses (q : nat) (n : nact R) : Prop :=
  match n with
  | NRet _ => True
  | NAcquire x k | NRelease x k => x = q /\ uses q k
  | NLoadTypes x k => x = q /\ forall v, uses q (k v)
  | NLoadUsed x k => x = q /\ forall v, uses q (k v)
  | NLoadCharsets x k => x = q /\ forall v, uses q (k v)
  | NStoreTypes x _ k => x = q /\ uses q k
  | NStoreUsed x _ k => x = q /\ uses q k
  | NStoreCharsets x _ k => x = q /\ uses q k
  | NChain s k => uses q (k (norm s))
  end.
Lemma sim_uses q n a : sim norm q n a -> uses q n.
Proof. induction 1; cbn [uses]; auto. Qed.
Lemma own_step v i v' : (forall j, uses j (i_thr v j)) -> istep norm v i = Some v' ->
  (forall j, uses j (i_thr v' j)) /\ forall j, peval (i_thr v' j) (i_st v' j) = peval (i_thr v j) (i_st v j).
Proof.
  intros HU H. pose proof (HU i) as Ui. unfold istep in H.
  destruct (i_thr v i) as [r|x k|x k|x k|x k|x k|x y k|x y k|x y k|s k] eqn:EI; [discriminate H| | | | | | | | |]; cbn [uses] in Ui.
  1: destruct (i_lock v x); [discriminate H|].
  all: match type of H with Some ?x = Some _ => assert (v' = x) as -> by congruence end; clear H; cbn [i_lock i_st i_thr].
  all: try (destruct Ui as [-> Ui]).
  all: split; intros j; (destruct (Nat.eq_dec i j) as [<-|Hj]; [rewrite ?upd_same; try rewrite EI; cbn [peval]; auto | rewrite ?upd_other by assumption; auto]).
Qed.
Lemma own_sched l : forall v, (forall j, uses j (i_thr v j)) -> forall j, peval (i_thr (isched norm v l) j) (i_st (isched norm v l) j) = peval (i_thr v j) (i_st v j).
Proof.
  induction l as [|i r IH]; intros v HU j; [reflexivity|]. cbn [isched fold_left]. destruct (istep norm v i) as [v'|] eqn:ES; [|now apply IH].
  destruct (own_step v i v' HU ES) as [HU' HE]. fold (isched norm v' r). rewrite IH by exact HU'. apply HE.
Qed.
End Eval.
