(** C44: Search has no memory. C45: the language that Search reports *)
From Verif Require Import GoBase SMap Regex GoTime Setting Strutil Env Formatted Language Parser Search History ParserFacts SplitFacts Concurrency ConcurrencyFacts Prop_Total Prop_Concurrency Concrete LocaleData Shows.
From Coq Require Import Permutation.

(** ** The cached character sets *)
Section C.
Variable D : langdb.
Definition langs_map (ls : list str) (f : str -> list Z) (m : smap (list Z)) : smap (list Z) :=
  fold_left (fun m l => if known D l then mset m l (f l) else m) ls m.
Lemma langs_map_get f : forall ls m l, mget (langs_map ls f m) l = if existsb (eqs l) ls && known D l then Some (f l) else mget m l.
Proof.
  induction ls as [|x ls IH]; intros m l; [reflexivity|]. cbn [langs_map fold_left existsb]. fold (langs_map ls f (if known D x then mset m x (f x) else m)).
  rewrite IH. destruct (eqs_spec l x) as [->|N]; cbn [orb].
  - destruct (known D x); [|now rewrite !andb_false_r]. rewrite !andb_true_r. destruct (existsb _ _); [reflexivity | now rewrite mget_mset_same].
  - destruct (_ && _); [reflexivity|]. destruct (known D x); [|reflexivity]. now rewrite mget_mset_other by congruence.
Qed.
Lemma mset_keys {A} (m : smap A) k v : NoDup (map fst m) -> NoDup (map fst (mset m k v)) /\ (forall x, In x (map fst (mset m k v)) <-> x = k \/ In x (map fst m)).
Proof.
  induction m as [|[k' v'] m IH]; intros ND; cbn [mset map fst].
  - split; [repeat constructor; auto|]. intros x; cbn [In]; intuition congruence.
  - cbn [map fst] in ND. inversion ND as [|? ? Hn ND']; subst. destruct (eqs_spec k k') as [->|N]; cbn [map fst].
    + split; [constructor; assumption|]. intros x; cbn [In]; intuition congruence.
    + destruct (IH ND') as [H1 H2]. split.
      * constructor; [|exact H1]. rewrite H2. intros [X|X]; [congruence | contradiction].
      * intros x. cbn [In]. rewrite H2. intuition congruence.
Qed.
Lemma langs_map_keys f : forall ls m, NoDup (map fst m) -> NoDup (map fst (langs_map ls f m)) /\
  (forall x, In x (map fst (langs_map ls f m)) -> In x ls \/ In x (map fst m)).
Proof.
  induction ls as [|l ls IH]; intros m ND; [split; auto|]. cbn [langs_map fold_left]. fold (langs_map ls f (if known D l then mset m l (f l) else m)).
  assert (X : NoDup (map fst (if known D l then mset m l (f l) else m))) by (destruct (known D l); [now apply mset_keys | exact ND]).
  destruct (IH _ X) as [H1 H2]. split; [exact H1|]. intros x Hx. destruct (H2 x Hx) as [Hi|Hi]; [left; now right|].
  destruct (known D l); [|now right]. apply mset_keys in Hi; [|exact ND]. destruct Hi as [->|Hi]; [left; now left | now right].
Qed.

(** what a Parser can have cached *)
Definition cached (c : option (smap (list Z))) : Prop := c = None \/ c = Some [] \/ exists ls, c = Some (unique_charsets D ls).
Lemma init_cached p ls : cached (p_charsets p) -> cached (p_charsets (init_charsets D p ls)).
Proof.
  intros H. unfold init_charsets. destruct (negb _ || _); cbn [p_charsets with_charsets]; [right; right; now exists ls|].
  destruct H as [-> | [-> | [l ->]]]; [right; left; reflexivity | right; left; reflexivity | right; right; now exists l].
Qed.
Lemma reachable_cached det p : reachable D det p -> cached (p_charsets p).
Proof.
  intros (types & ops & ->). assert (C0 : cached (p_charsets (new_parser types))) by (left; reflexivity).
  revert C0. generalize (new_parser types). induction ops as [|o ops IH]; intros p C0; [exact C0|].
  cbn [run fold_left]. apply IH. destruct o as [E cfg s fs|l]; cbn [exec]; [now rewrite parse_charsets | now apply init_cached].
Qed.

Lemma unique_ext ls ls' l : (forall x, known D x = true -> (In x ls <-> In x ls')) -> unique_charset D ls l = unique_charset D ls' l.
Proof.
  intros H. unfold unique_charset. apply filter_ext. intros c. f_equal. apply eq_true_iff_eq. rewrite !existsb_exists.
  split; intros (o & Ho & Hc); exists o; (split; [|exact Hc]); apply andb_true_iff in Hc as [_ Hc];
    (assert (K : known D o = true) by (unfold charset_of in Hc; unfold known; destruct (db_get D o); [reflexivity | discriminate Hc])); now apply (H o K).
Qed.
Lemma unique_get ls l : In l ls -> mget_or [] (unique_charsets D ls) l = unique_charset D ls l.
Proof.
  intros Hl. change (unique_charsets D ls) with (langs_map ls (unique_charset D ls) []). unfold mget_or. rewrite langs_map_get.
  assert (existsb (eqs l) ls = true) as -> by (apply existsb_exists; exists l; split; [exact Hl | apply eqs_refl]).
  destruct (known D l) eqn:K; cbn [andb mget]; [reflexivity|]. unfold unique_charset, charset_of. unfold known in K. destruct (db_get D l); [discriminate K | reflexivity].
Qed.
(** with languages that are all different, the cache holds what would be computed *)
Lemma fresh_get p ls l : cached (p_charsets p) -> NoDup ls -> In l ls ->
  mget_or [] (charsets_of (init_charsets D p ls)) l = unique_charset D ls l.
Proof.
  intros C ND Hl. unfold init_charsets. set (cur := match p_charsets p with Some m => m | None => [] end).
  destruct (negb _ || _) eqn:B; cbn [charsets_of p_charsets with_charsets]; [now apply unique_get|].
  apply orb_false_iff in B as [B1 B2]. apply negb_false_iff, Nat.eqb_eq in B1.
  assert (HK : forall x, In x ls -> In x (map fst cur)).
  { intros x Hx. destruct (mhas cur x) eqn:Hh.
    - unfold mhas in Hh. destruct (mget cur x) as [v|] eqn:G; [|discriminate Hh]. apply mget_In in G. apply in_map_iff. now exists (x, v).
    - exfalso. assert (X : existsb (fun l => negb (mhas cur l)) ls = true) by (apply existsb_exists; exists x; split; [exact Hx | now rewrite Hh]). congruence. }
  destruct C as [C|[C|[ls' C]]]; unfold cur in *; rewrite C in *; [destruct (HK l Hl) | destruct (HK l Hl) |].
  cbn [charsets_of p_charsets with_charsets].
  change (unique_charsets D ls') with (langs_map ls' (unique_charset D ls') []) in *.
  destruct (langs_map_keys (unique_charset D ls') ls' [] (NoDup_nil _)) as [N1 N2].
  assert (Inc : incl (map fst (langs_map ls' (unique_charset D ls') [])) ls).
  { apply NoDup_length_incl; [exact ND | rewrite map_length; rewrite B1; apply Nat.le_refl | exact HK]. }
  assert (Hl' : In l ls') by (destruct (N2 l (HK l Hl)) as [X|[]]; exact X).
  change (langs_map ls' (unique_charset D ls') []) with (unique_charsets D ls'). rewrite unique_get by exact Hl'.
  apply unique_ext. intros x Kx. split; intros Hx.
  - apply Inc. assert (G : mget (langs_map ls' (unique_charset D ls') []) x = Some (unique_charset D ls' x)).
    { rewrite langs_map_get, Kx. assert (existsb (eqs x) ls' = true) as -> by (apply existsb_exists; exists x; split; [exact Hx | apply eqs_refl]). reflexivity. }
    apply mget_In in G. apply in_map_iff. now exists (x, unique_charset D ls' x).
  - destruct (N2 x (HK x Hx)) as [X|[]]; exact X.
Qed.
End C.

Lemma find_ext_in {A} (f g : A -> bool) l : (forall x, In x l -> f x = g x) -> List.find f l = List.find g l.
Proof. induction l as [|x l IH]; intros H; [reflexivity|]. cbn [List.find]. rewrite (H x) by now left. destruct (g x); [reflexivity|]. apply IH. intros y Hy. apply H. now right. Qed.
Lemma find_split {A} (f : A -> bool) l x : List.find f l = Some x -> exists r1 r2, l = r1 ++ x :: r2 /\ f x = true /\ forall y, In y r1 -> f y = false.
Proof.
  induction l as [|y r IH]; [discriminate|]. cbn [List.find]. destruct (f y) eqn:Fy.
  - intros X. assert (y = x) as -> by congruence. exists [], r. split; [reflexivity|]. split; [exact Fy|]. intros ? [].
  - intros X. destruct (IH X) as (r1 & r2 & -> & X1 & X2). exists (y :: r1), r2. split; [reflexivity|]. split; [exact X1|]. intros z [<-|Hz]; [exact Fy | now apply X2].
Qed.
Lemma detect_ext E D cfg s ls uc uc' : (forall l, In l ls -> mget_or [] uc l = mget_or [] uc' l) -> detect_language E D cfg s ls uc = detect_language E D cfg s ls uc'.
Proof.
  intros H. unfold detect_language. assert (X : language_candidates E D s ls uc = language_candidates E D s ls uc'); [|now rewrite X].
  unfold language_candidates. cbv zeta. destruct (forallb _ _); [reflexivity|].
  erewrite find_ext_in; [reflexivity|]. intros l Hl. cbv beta. now rewrite H.
Qed.

Lemma swl_forgets E D det p q cfg lang text : eff_types p = eff_types q ->
  outcome_of (search_with_language E D det p cfg lang text) = outcome_of (search_with_language E D det q cfg lang text).
Proof.
  intros H. assert (S : steady (c_swl E D cfg lang text (fun x => CRet (Ok x)))) by (apply swl_steady; intros; exact I).
  pose proof (steady_alone D det _ S p q H) as X. clear S.
  rewrite !v_swl in X. unfold outcome_of. cbn [alone snd] in X.
  destruct (search_with_language E D det p cfg lang text) as [[p' r]|e|], (search_with_language E D det q cfg lang text) as [[q' r']|e'|]; congruence.
Qed.

(** ** C44: what a Search returns does not depend on what the Parser did before, provided the languages it considers are all different
    ([search_languages] are the languages that the configuration and the detection function select) *)
Theorem C44_search : forall E D det types ops cfg text, (forall ls, search_languages E D det cfg text = Ok ls -> NoDup ls) ->
  outcome_of (search E D det (run D det (new_parser types) ops) cfg text) = outcome_of (search E D det (new_parser types) cfg text).
Proof.
  intros E D det types ops cfg text ND. unfold search, search_languages in *.
  destruct (init_search_config E cfg) as [c|]; [|reflexivity].
  destruct (get_languages E D _ _ _) as [ls|e|]; [|reflexivity|reflexivity]. specialize (ND ls eq_refl). cbv zeta.
  set (p := run D det (new_parser types) ops).
  assert (Cp : cached D (p_charsets p)) by (apply (reachable_cached D det); now exists types, ops).
  assert (Cq : cached D (p_charsets (new_parser types))) by (left; reflexivity).
  rewrite (detect_ext E D (to_internal c) text ls (charsets_of (init_charsets D p ls)) (charsets_of (init_charsets D (new_parser types) ls))).
  2:{ intros l Hl. now rewrite !fresh_get. }
  destruct (detect_language _ _ _ _ _ _) as [lang|e|]; [|reflexivity|reflexivity].
  pose proof (swl_forgets E D det (init_charsets D p ls) (init_charsets D (new_parser types) ls) c lang text) as X.
  assert (T : eff_types (init_charsets D p ls) = eff_types (init_charsets D (new_parser types) ls)).
  { rewrite !(init_eff D det). unfold p. apply run_eff. }
  specialize (X T). unfold outcome_of in X.
  destruct (search_with_language E D det (init_charsets D p ls) c lang text) as [[p' [r e]]|e|],
           (search_with_language E D det (init_charsets D (new_parser types) ls) c lang text) as [[q' [r' e']]|e'|]; cbn [rbind outcome_of]; congruence.
Qed.
Print Assumptions C44_search.

(** the languages are all different if those of the configuration (or of the detection function) are *)
Lemma pick_nodup E D ls : forall acc iv r, NoDup acc -> pick_locale_languages E D ls acc iv = Ok r -> NoDup r.
Proof.
  induction ls as [|l ls IH]; intros acc iv r ND H; cbn [pick_locale_languages] in H.
  - destruct iv; [discriminate H|]. assert (r = rev acc) as -> by congruence. now apply NoDup_rev.
  - destruct (negb _); [now apply IH in H|]. cbv zeta in H. apply IH in H; [exact H|]. destruct (mem _ acc) eqn:Em; [exact ND|].
    constructor; [|exact ND]. intros Hi. apply mem_In in Hi. congruence.
Qed.
Lemma insert_perm {A} (lt : A -> A -> bool) x l : Permutation (insert_by lt x l) (x :: l).
Proof.
  induction l as [|y l IH]; cbn [insert_by]; [reflexivity|]. destruct (lt y x); [|reflexivity].
  transitivity (y :: x :: l); [now constructor | constructor].
Qed.
Lemma sort_perm {A} (lt : A -> A -> bool) l : Permutation (sort_by lt l) l.
Proof. induction l as [|x l IH]; [constructor|]. cbn [sort_by fold_right]. fold (sort_by lt l). rewrite insert_perm. now constructor. Qed.
Theorem C44_different_languages : forall E D det cfg text ls,
  NoDup (db_langs D) -> NoDup (u_languages cfg) -> (forall f, det = Some f -> NoDup (f text)) ->
  search_languages E D det cfg text = Ok ls -> NoDup ls.
Proof.
  intros E D det cfg text ls N1 N2 N3 H. unfold search_languages, init_search_config in H. destruct (negb _); [discriminate H|].
  set (c := if is_zero (u_now cfg) then _ else _) in H.
  assert (Hc : u_languages c = u_languages cfg) by (unfold c; destruct (is_zero _); reflexivity).
  unfold get_languages in H. rewrite Hc in H.
  set (cl := match u_languages cfg, det with [], Some f => f text | l, _ => l end) in H.
  assert (NC : NoDup cl).
  { unfold cl. destruct (u_languages cfg); [|exact N2]. destruct det as [f|]; [now apply N3 | constructor]. }
  match type of H with rbind ?x _ = _ => destruct x as [r|e|] eqn:R; cbn [rbind] in H; try discriminate H end.
  assert (NR : NoDup r).
  { destruct (u_locales c) as [|l0 ll]; [destruct (forallb _ _); [|discriminate R]; now assert (r = cl) as -> by congruence|].
    eapply pick_nodup; [|exact R]. constructor. }
  assert (NS : NoDup (if u_given_order c then r else sort_by (lang_lt D) r)).
  { destruct (u_given_order c); [exact NR|]. eapply Permutation_NoDup; [apply Permutation_sym, sort_perm | exact NR]. }
  destruct (if u_given_order c then r else sort_by (lang_lt D) r) as [|x l].
  - assert (ls = db_langs D) as -> by congruence. exact N1.
  - assert (ls = x :: l) as -> by congruence. exact NS.
Qed.
Print Assumptions C44_different_languages.

(** Without that proviso the cached character sets may be those of other languages (only the number of languages and their presence in
    the cache are compared, search.go:142-151): among ["es"; "es"] the text "wird" is Spanish for a new Parser, but cannot be attributed
    to a language after a Search among ["es"; "de"]. *)
Theorem C47_refuted :
  short (outcome_of (search env0 db0 None (new_parser []) (lcfg [lit "es"; lit "es"]) (lit "wird"))) = Some (lit "es", []) /\
  outcome_of (search env0 db0 None (run db0 None (new_parser []) [OpCharsets [lit "es"; lit "de"]]) (lcfg [lit "es"; lit "es"]) (lit "wird"))
    = Ok ([], [], Some EDetect) /\
  match search env0 db0 None (new_parser []) (lcfg [lit "es"; lit "de"]) (lit "x") with
  | Ok (p, _) => p_charsets p = p_charsets (run db0 None (new_parser []) [OpCharsets [lit "es"; lit "de"]])
  | _ => False end.
Proof. split; [|split]; vm_compute; reflexivity. Qed.
Print Assumptions C47_refuted.

(** C44 is not empty: a Parser that has searched among other languages *)
Example C44_case : search_languages env0 db0 None two_langs german = Ok [lit "es"; lit "de"] /\
  short (outcome_of (search env0 db0 None (run db0 None (new_parser []) [OpCharsets [lit "es"; lit "fr"]; OpParse env0 one_lang german []]) two_langs german))
    = Some (lit "de", [lit "12. März 2015"]).
Proof. split; vm_compute; reflexivity. Qed.

(** ** C45: which language Search reports. The specification: [chars text] are the characters of the text (normalised), [alphabet] those
    that the tables give for a language, [points] how well a text fits a language: first the number of known words, then of numbers. *)
Section L.
Variable E : env.
Variable D : langdb.
Definition chars (text : str) (c : Z) : Prop := In c (runes (normalize_charset (e_uni E) text)).
Definition alphabet (l : str) (c : Z) : Prop := exists ld, db_get D l = Some ld /\ In c (ld_charset ld).
(** a character of the text that belongs to [l] and to no other of the languages *)
Definition tell_tale (ls : list str) (text l : str) : Prop :=
  exists c, chars text c /\ alphabet l c /\ forall o, In o ls -> o <> l -> ~ alphabet o c.
Definition may_be (text l : str) : Prop := exists c, chars text c /\ alphabet l c.
(** the points of a language: those of the text as it is, or without its time zone if there are none *)
Definition points (cfg : config) (text l : str) (sc : Z * Z) : Prop :=
  exists ld, db_get D l = Some ld /\
    let s := normalize_string (e_uni E) text in
    (count_applicability E cfg ld s false = Ok sc /\ (0 < fst sc \/ 0 < snd sc)) \/
    (exists sc0, count_applicability E cfg ld s false = Ok sc0 /\ ~ (0 < fst sc0 \/ 0 < snd sc0) /\
       count_applicability E cfg ld s true = Ok sc /\ (0 < fst sc \/ 0 < snd sc)).
Definition more (a b : Z * Z) : Prop := fst b < fst a \/ (fst a = fst b /\ snd b < snd a).

Inductive reported (cfg : config) (text : str) (ls : list str) : str -> Prop :=
(** only characters common to all languages: the first language *)
| by_default l r : ls = l :: r -> (forall c, chars text c -> In c common_charset) -> reported cfg text ls l
(** the first language with a tell-tale character *)
| by_character l r1 r2 : (exists c, chars text c /\ ~ In c common_charset) ->
    ls = r1 ++ l :: r2 -> tell_tale ls text l -> (forall x, In x r1 -> ~ tell_tale ls text x) -> reported cfg text ls l
(** the only language that shares a character with the text *)
| by_alphabet l r1 r2 : (exists c, chars text c /\ ~ In c common_charset) -> (forall x, In x ls -> ~ tell_tale ls text x) ->
    ls = r1 ++ l :: r2 -> may_be text l -> (forall x, In x r1 \/ In x r2 -> ~ may_be text x) -> reported cfg text ls l
(** among several, one with the most points, the first one if there is a draw *)
| by_words l r1 r2 sc : (exists c, chars text c /\ ~ In c common_charset) -> (forall x, In x ls -> ~ tell_tale ls text x) ->
    ls = r1 ++ l :: r2 -> may_be text l -> points cfg text l sc ->
    (forall x sc', In x ls -> may_be text x -> points cfg text x sc' -> ~ more sc' sc) ->
    (forall x sc', In x r1 -> may_be text x -> points cfg text x sc' -> more sc sc') -> reported cfg text ls l
(** nobody has points: the first default language *)
| by_configuration l r : (exists c, chars text c /\ ~ In c common_charset) -> (forall x, In x ls -> ~ tell_tale ls text x) ->
    (forall x sc, In x ls -> may_be text x -> ~ points cfg text x sc) -> c_deflang cfg = l :: r -> reported cfg text ls l.

Lemma alphabet_charset l c : alphabet l c <-> In c (charset_of D l).
Proof.
  unfold alphabet, charset_of. destruct (db_get D l) as [ld|]; split.
  - intros (ld' & Hd & H). congruence.
  - intros H. now exists ld.
  - intros (ld' & Hd & _). discriminate Hd.
  - intros [].
Qed.
Definition usedb (text : str) (l : list Z) : bool := existsb (fun c => existsb (Z.eqb c) (runes (normalize_charset (e_uni E) text))) l.
Lemma usedb_ok text l : usedb text l = true <-> exists c, In c l /\ chars text c.
Proof.
  unfold usedb, chars. rewrite existsb_exists. split; intros (c & H1 & H2); exists c; (split; [exact H1|]).
  - apply existsb_exists in H2 as (x & Hx & Hc). apply Z.eqb_eq in Hc. now subst.
  - apply existsb_exists. exists c. split; [exact H2 | apply Z.eqb_refl].
Qed.
Lemma tell_ok ls text l : usedb text (unique_charset D ls l) = true <-> tell_tale ls text l.
Proof.
  rewrite usedb_ok. unfold tell_tale, unique_charset. split; intros (c & H); exists c.
  - destruct H as [H Hc]. apply filter_In in H as [H1 H2]. split; [exact Hc|]. split; [now apply alphabet_charset|].
    intros o Ho Hn Ha. apply negb_true_iff in H2. assert (X : existsb (fun o => negb (eqs o l) && existsb (Z.eqb c) (charset_of D o)) ls = true); [|congruence].
    apply existsb_exists. exists o. split; [exact Ho|]. apply andb_true_iff. split; [apply negb_true_iff; now apply eqs_neq|].
    apply existsb_exists. exists c. split; [now apply alphabet_charset | apply Z.eqb_refl].
  - destruct H as (Hc & Ha & Ho). split; [|exact Hc]. apply filter_In. split; [now apply alphabet_charset|]. apply negb_true_iff.
    apply not_true_iff_false. intros X. apply existsb_exists in X as (o & Hi & X). apply andb_true_iff in X as [X1 X2].
    apply negb_true_iff, eqs_neq in X1. apply existsb_exists in X2 as (x & Hx & X2). apply Z.eqb_eq in X2. subst x.
    apply (Ho o Hi X1). now apply alphabet_charset.
Qed.
Lemma may_ok text l : match db_get D l with Some ld => usedb text (ld_charset ld) | None => false end = true <-> may_be text l.
Proof.
  unfold may_be. destruct (db_get D l) as [ld|] eqn:G.
  - rewrite usedb_ok. split; intros (c & H1 & H2); exists c.
    + split; [exact H2|]. now exists ld.
    + destruct H2 as (ld' & Hd & Hi). split; [congruence | exact H1].
  - split; [discriminate|]. intros (c & _ & ld & Hd & _). congruence.
Qed.
Lemma positive_ok p : positive p = true <-> 0 < fst p \/ 0 < snd p.
Proof. unfold positive. rewrite orb_true_iff, !Z.ltb_lt. reflexivity. Qed.
Lemma points_dec cfg text l sc sc' : points cfg text l sc -> points cfg text l sc' -> sc = sc'.
Proof.
  unfold points. cbv zeta. intros (ld & G & H) (ld' & G' & H'). assert (ld' = ld) as -> by congruence.
  destruct H as [[H1 H2]|(a & H1 & H2 & H3 & H4)], H' as [[H1' H2']|(a' & H1' & H2' & H3' & H4')].
  - congruence.
  - assert (a' = sc) as -> by congruence. contradiction.
  - assert (a = sc') as -> by congruence. contradiction.
  - congruence.
Qed.
Lemma scores_ok cfg text : forall cands sd, score_candidates E D cfg (normalize_string (e_uni E) text) cands = Ok sd ->
  (forall l sc, In (l, sc) sd -> In l cands /\ points cfg text l sc) /\
  (forall l sc, In l cands -> points cfg text l sc -> In (l, sc) sd) /\
  (forall s1 l sc s2, sd = s1 ++ (l, sc) :: s2 -> NoDup cands -> exists r1 r2, cands = r1 ++ l :: r2 /\ forall x sc', In x r1 -> points cfg text x sc' -> In (x, sc') s1).
Proof.
  induction cands as [|c r IH]; intros sd H; cbn [score_candidates] in H.
  - assert (sd = []) as -> by congruence. split; [intros ? ? []|]. split; [intros ? ? []|]. intros s1 l sc s2 X. destruct s1; discriminate X.
  - destruct (db_get D c) as [ld|] eqn:G.
    2:{ destruct (IH sd H) as (H1 & H2 & H3). split; [intros l sc Hi; destruct (H1 l sc Hi); split; [now right | assumption]|]. split.
        - intros l sc [<-|Hi] Hp; [|now apply H2]. destruct Hp as (ld & Hd & _). congruence.
        - intros s1 l sc s2 X ND. inversion ND; subst. destruct (H3 s1 l sc s2 eq_refl) as (r1 & r2 & -> & HR); [assumption|]. exists (c :: r1), r2. split; [reflexivity|].
          intros x sc' [<-|Hi] Hp; [|now apply HR]. destruct Hp as (ld & Hd & _). congruence. }
    destruct (count_applicability E cfg ld (normalize_string (e_uni E) text) false) as [sc0|e|] eqn:C0; cbn [rbind] in H; try discriminate H.
    assert (CASE : (exists sc rest, points cfg text c sc /\ score_candidates E D cfg (normalize_string (e_uni E) text) r = Ok rest /\ sd = (c, sc) :: rest)
                \/ ((forall sc, ~ points cfg text c sc) /\ score_candidates E D cfg (normalize_string (e_uni E) text) r = Ok sd)).
    { destruct (positive sc0) eqn:P0.
      - destruct (score_candidates E D cfg _ r) as [rest|e|]; cbn [rbind] in H; try discriminate H. left. exists sc0, rest. split; [|split; [reflexivity | congruence]].
        exists ld. split; [exact G|]. left. split; [exact C0 | now apply positive_ok].
      - assert (P0' : ~ (0 < fst sc0 \/ 0 < snd sc0)) by (rewrite <- positive_ok; congruence).
        destruct (count_applicability E cfg ld (normalize_string (e_uni E) text) true) as [sc2|e|] eqn:C2; cbn [rbind] in H; try discriminate H.
        destruct (score_candidates E D cfg _ r) as [rest|e|]; cbn [rbind] in H; try discriminate H. destruct (positive sc2) eqn:P2.
        + left. exists sc2, rest. split; [|split; [reflexivity | congruence]]. exists ld. split; [exact G|]. right. exists sc0. repeat split; auto. now apply positive_ok.
        + right. split; [|congruence]. intros sc (ld' & G' & X). assert (ld' = ld) as -> by congruence. cbv zeta in X.
          destruct X as [[X1 X2]|(a & X1 & X2 & X3 & X4)]; [assert (sc = sc0) as -> by congruence; contradiction|].
          assert (sc = sc2) as -> by congruence. apply positive_ok in X4. congruence. }
    clear H. destruct CASE as [(sc & rest & Hp & HR & ->)|[Hp HR]].
    + destruct (IH rest HR) as (H1 & H2 & H3). split; [|split].
      * intros l sc' [X|Hi]; [assert (l = c) as -> by congruence; assert (sc' = sc) as -> by congruence; split; [now left | exact Hp]|]. destruct (H1 l sc' Hi). split; [now right | assumption].
      * intros l sc' [<-|Hi] Hp'; [left; f_equal; now apply (points_dec cfg text c) | right; now apply H2].
      * intros s1 l sc' s2 X ND. inversion ND; subst. destruct s1 as [|y s1].
        -- cbn [app] in X. assert (l = c) as -> by congruence. exists [], r. split; [reflexivity|]. intros x ? [].
        -- cbn [app] in X. assert (y = (c, sc)) as -> by congruence. destruct (H3 s1 l sc' s2) as (r1 & r2 & -> & HR'); [congruence | assumption|].
           exists (c :: r1), r2. split; [reflexivity|]. intros x sc2 [<-|Hi] Hp'; [left; f_equal; now apply (points_dec cfg text c) | right; now apply HR'].
    + destruct (IH sd HR) as (H1 & H2 & H3). split; [intros l sc Hi; destruct (H1 l sc Hi); split; [now right | assumption]|]. split.
      * intros l sc [<-|Hi] Hp'; [now apply Hp in Hp' | now apply H2].
      * intros s1 l sc s2 X ND. inversion ND; subst. destruct (H3 s1 l sc s2 eq_refl) as (r1 & r2 & -> & HR'); [assumption|]. exists (c :: r1), r2. split; [reflexivity|].
        intros x sc' [<-|Hi] Hp'; [now apply Hp in Hp' | now apply HR'].
Qed.
Lemma score_lt_more a b : score_lt a b = true <-> more (snd a) (snd b).
Proof. unfold score_lt, more. destruct (Z.eqb_spec (fst (snd a)) (fst (snd b))); rewrite Z.ltb_lt; lia. Qed.

Lemma filter_split {A} (f : A -> bool) : forall l r1 x r2, filter f l = r1 ++ x :: r2 -> NoDup l -> exists l1 l2, l = l1 ++ x :: l2 /\ (forall y, In y l1 -> f y = true -> In y r1) /\ (forall y, In y l2 -> f y = true -> In y r2).
Proof.
  induction l as [|y l IH]; intros r1 x r2 H ND; cbn [filter] in H; [destruct r1; discriminate H|]. inversion ND; subst.
  destruct (f y) eqn:Fy.
  - destruct r1 as [|z r1]; cbn [app] in H.
    + assert (y = x) as -> by congruence. exists [], l. split; [reflexivity|]. split; [intros ? []|]. intros z Hz Fz. assert (X : filter f l = r2) by congruence. rewrite <- X. now apply filter_In.
    + assert (z = y) as -> by congruence. destruct (IH r1 x r2) as (l1 & l2 & -> & HA & HB); [congruence | assumption|]. exists (y :: l1), l2. split; [reflexivity|]. split; [|exact HB]. intros z [<-|Hz] Fz; [now left | right; now apply HA].
  - destruct (IH r1 x r2 H) as (l1 & l2 & -> & HA & HB); [assumption|]. exists (y :: l1), l2. split; [reflexivity|]. split; [|exact HB]. intros z [<-|Hz] Fz; [congruence | now apply HA].
Qed.

Lemma detect_reported cfg text ls uc lang : NoDup ls -> (forall l, In l ls -> mget_or [] uc l = unique_charset D ls l) ->
  detect_language E D cfg text ls uc = Ok lang -> reported cfg text ls lang.
Proof.
  intros ND HU H. unfold detect_language, language_candidates in H. cbv zeta in H.
  destruct (forallb _ _) eqn:FB.
  { destruct ls as [|l r]; [discriminate H|]. cbn [rbind] in H. assert (lang = l) as -> by congruence.
    apply (by_default _ _ _ l r eq_refl). intros c Hc. rewrite forallb_forall in FB. specialize (FB c Hc). apply existsb_exists in FB as (x & Hx & X). apply Z.eqb_eq in X. now subst. }
  assert (NC : exists c, chars text c /\ ~ In c common_charset).
  { clear -FB. unfold chars. induction (runes (normalize_charset (e_uni E) text)) as [|c l IH]; [discriminate FB|]. cbn [forallb] in FB. apply andb_false_iff in FB as [FB|FB].
    - exists c. split; [now left|]. intros Hi. assert (X : existsb (Z.eqb c) common_charset = true); [|congruence]. apply existsb_exists. exists c. split; [exact Hi | apply Z.eqb_refl].
    - destruct (IH FB) as (x & Hx & X). exists x. split; [now right | exact X]. }
  rewrite (find_ext_in _ (fun l => usedb text (unique_charset D ls l))) in H.
  2:{ intros l Hl. cbv beta. rewrite HU by exact Hl. reflexivity. }
  destruct (List.find (fun l => usedb text (unique_charset D ls l)) ls) as [l|] eqn:FD.
  { cbn [rbind] in H. assert (lang = l) as -> by congruence.
    assert (X : exists r1 r2, ls = r1 ++ l :: r2 /\ usedb text (unique_charset D ls l) = true /\ forall x, In x r1 -> usedb text (unique_charset D ls x) = false).
    { exact (find_split _ _ _ FD). }
    destruct X as (r1 & r2 & X0 & X1 & X2). apply (by_character _ _ _ l r1 r2 NC X0); [now apply tell_ok|]. intros x Hx T. apply tell_ok in T. rewrite X2 in T by exact Hx. discriminate T. }
  assert (NT : forall x, In x ls -> ~ tell_tale ls text x).
  { intros x Hx T. apply tell_ok in T. pose proof (List.find_none _ _ FD x Hx) as X. cbv beta in X. congruence. }
  cbn [rbind] in H.
  set (may := fun l => match db_get D l with Some ld => existsb _ (ld_charset ld) | None => false end) in H.
  assert (MO : forall l, may l = true <-> may_be text l) by (intros l; apply may_ok).
  set (cands := filter may ls) in H.
  assert (NDc : NoDup cands) by now apply NoDup_filter.
  assert (CI : forall x, In x cands <-> In x ls /\ may_be text x) by (intros x; unfold cands; rewrite filter_In, MO; reflexivity).
  assert (SC : forall sd, score_candidates E D cfg (normalize_string (e_uni E) text) cands = Ok sd ->
            match sort_by score_lt sd with [] => match c_deflang cfg with d :: _ => Ok d | [] => Err EDetect end | (c, _) :: _ => Ok c end = Ok lang -> reported cfg text ls lang).
  { intros sd S HL. destruct (scores_ok cfg text cands sd S) as (H1 & H2 & H3). destruct sd as [|s0 sd0].
    - cbn [sort_by fold_right] in HL. destruct (c_deflang cfg) as [|d dl] eqn:DL; [discriminate HL|]. assert (lang = d) as -> by congruence.
      apply (by_configuration _ _ _ d dl NC NT); [|exact DL]. intros x sc Hx Hm Hp. apply (H2 x sc); [now apply CI | exact Hp].
    - destruct (sort_head score_lt (fun _ => True)) with (l := s0 :: sd0) as ([l sc] & t & s1 & s2 & HS & HE & HA & HB).
      + intros a b c _ _ _. rewrite !score_lt_more. unfold more. lia.
      + intros a b c _ _ _. rewrite <- !not_true_iff_false, !score_lt_more. unfold more. lia.
      + intros a _. rewrite <- not_true_iff_false, score_lt_more. unfold more. lia.
      + discriminate.
      + apply Forall_forall. intros; exact I.
      + rewrite HS in HL. assert (lang = l) as -> by congruence.
        destruct (H1 l sc) as [Hi Hp]; [rewrite HE; apply in_elt|]. apply CI in Hi as [Hl Hm].
        destruct (H3 s1 l sc s2 HE NDc) as (r1 & r2 & HC & HR). unfold cands in HC.
        destruct (filter_split may ls r1 l r2 HC ND) as (l1 & l2 & HL' & F1 & F2).
        apply (by_words _ _ _ l l1 l2 sc NC NT HL' Hm Hp).
        * intros x sc' Hx Hmx Hpx. assert (Y : score_lt (x, sc') (l, sc) = false) by (apply HB, H2; [now apply CI | exact Hpx]).
          intros M. apply (score_lt_more (x, sc') (l, sc)) in M. congruence.
        * intros x sc' Hx Hmx Hpx. apply (score_lt_more (l, sc) (x, sc')). apply HA. apply HR; [|exact Hpx]. apply F1; [exact Hx | now apply MO]. }
  destruct cands as [|c1 [|c2 cr]] eqn:EC.
  - apply (SC []); [reflexivity | exact H].
  - assert (lang = c1) as -> by congruence. unfold cands in EC. destruct (filter_split may ls [] c1 [] EC ND) as (l1 & l2 & HL' & F1 & F2).
    apply (by_alphabet _ _ _ c1 l1 l2 NC NT HL'); [apply MO; apply (filter_In may c1 ls); rewrite EC; now left|].
    intros x Hx Hm. apply MO in Hm. destruct Hx as [Hx|Hx]; [apply (F1 x Hx Hm) | apply (F2 x Hx Hm)].
  - clear EC. match type of H with rbind ?x _ = _ => destruct x as [sd|e|] eqn:S end; cbn [rbind] in H; [|discriminate H|discriminate H].
    exact (SC sd eq_refl H).
Qed.
End L.

Lemma reported_in E D cfg text ls lang : reported E D cfg text ls lang -> In lang ls \/ exists r, c_deflang cfg = lang :: r.
Proof.
  intros [l r -> _|l r1 r2 _ -> _ _|l r1 r2 _ _ -> _ _|l r1 r2 sc _ _ -> _ _ _ _|l r _ _ _ ->]; [left; now left | left; apply in_elt | left; apply in_elt | left; apply in_elt | right; now exists r].
Qed.
(** [c] is the configuration with its defaults filled in *)
Theorem C45_language : forall E D det p cfg0 text q lang rs, reachable D det p -> search E D det p cfg0 text = Ok (q, (lang, rs, None)) ->
  exists c ls, init_search_config E cfg0 = Some c /\ search_languages E D det cfg0 text = Ok ls /\
    (NoDup ls -> reported E D (to_internal c) text ls lang /\ (In lang ls \/ exists r, u_deflang cfg0 = lang :: r)).
Proof.
  intros E D det p cfg0 text q lang rs RE H. unfold search, search_languages in *. destruct (init_search_config E cfg0) as [c|] eqn:IC; [|discriminate H].
  exists c. destruct (get_languages E D _ _ _) as [ls|e|] eqn:GL; [|discriminate H|discriminate H]. exists ls. split; [reflexivity|]. split; [reflexivity|]. intros ND.
  cbv zeta in H. destruct (detect_language _ _ _ _ _ _) as [l|e|] eqn:DL; [|discriminate H|discriminate H].
  destruct (search_with_language _ _ _ _ _ _ _) as [[q' [rs' er]]|e|]; cbn [rbind] in H; [|discriminate H|discriminate H]. assert (l = lang) as -> by congruence.
  assert (RP : reported E D (to_internal c) text ls lang).
  { eapply detect_reported; [exact ND | | exact DL]. intros x Hx. apply fresh_get; [|exact ND|exact Hx]. now apply (reachable_cached D det). }
  split; [exact RP|]. apply reported_in in RP. unfold init_search_config in IC. destruct (negb _); [discriminate IC|].
  assert (X : u_deflang c = u_deflang cfg0). { assert (XC : c = (if is_zero (u_now cfg0) then with_unow (initiate (e_now E) cfg0) zero_time else initiate (e_now E) cfg0)) by congruence. rewrite XC. destruct (is_zero _); reflexivity. }
  change (c_deflang (to_internal c)) with (u_deflang c) in RP. rewrite X in RP. exact RP.
Qed.
Print Assumptions C45_language.

(** Searching in one language that shares a character with the text reports this language *)
Theorem C45_single : forall E D det p cfg0 text q lang rs l, reachable D det p -> search_languages E D det cfg0 text = Ok [l] ->
  may_be E D text l -> search E D det p cfg0 text = Ok (q, (lang, rs, None)) -> lang = l.
Proof.
  intros E D det p cfg0 text q lang rs l RE SL (ch & C1 & C2) H. destruct (C45_language _ _ _ _ _ _ _ _ _ RE H) as (c & ls & _ & SL' & R).
  assert (ls = [l]) as -> by congruence. destruct (R ltac:(repeat constructor; auto)) as [RP _].
  assert (TT : tell_tale E D [l] text l) by (exists ch; split; [exact C1 | split; [exact C2 | intros o [<-|[]] Hn; congruence]]).
  assert (ONE : forall r1 r2 x, [l] = r1 ++ x :: r2 -> x = l) by (intros [|y r1] r2 x X; cbn [app] in X; [congruence | destruct r1; discriminate X]).
  destruct RP as [l' r X _|l' r1 r2 _ X _ _|l' r1 r2 _ NT _ _ _|l' r1 r2 sc _ NT _ _ _ _ _|l' r _ NT _ _].
  - congruence.
  - now apply ONE in X.
  - destruct (NT l (or_introl eq_refl) TT).
  - destruct (NT l (or_introl eq_refl) TT).
  - destruct (NT l (or_introl eq_refl) TT).
Qed.
Print Assumptions C45_single.

Example C45_case : reachable db0 None (new_parser []) /\ NoDup [lit "es"; lit "de"] /\ search_languages env0 db0 None two_langs german = Ok [lit "es"; lit "de"] /\
  exists q rs, search env0 db0 None (new_parser []) two_langs german = Ok (q, (lit "de", rs, None)).
Proof.
  split; [exists [], []; reflexivity|]. split; [repeat constructor; cbn; intuition discriminate|]. split; [vm_compute; reflexivity|].
  destruct (search env0 db0 None (new_parser []) two_langs german) as [[q [[l rs] [e|]]]|e|] eqn:S.
  - exfalso. assert (X : match search env0 db0 None (new_parser []) two_langs german with Ok (_, (_, _, None)) => true | _ => false end = true) by (vm_compute; reflexivity). rewrite S in X. discriminate X.
  - exists q, rs. assert (X : match search env0 db0 None (new_parser []) two_langs german with Ok (_, (l, _, None)) => l = lit "de" | _ => False end) by (vm_compute; reflexivity). rewrite S in X. now subst.
  - exfalso. assert (X : match search env0 db0 None (new_parser []) two_langs german with Ok (_, (_, _, None)) => true | _ => false end = true) by (vm_compute; reflexivity). rewrite S in X. discriminate X.
  - exfalso. assert (X : match search env0 db0 None (new_parser []) two_langs german with Ok (_, (_, _, None)) => true | _ => false end = true) by (vm_compute; reflexivity). rewrite S in X. discriminate X.
Qed.

(** ** C32: Search returns the results of SearchWithLanguage in the language it reports, with the defaults of the configuration filled in;
    so C32_results says where they come from. *)
Theorem C32_search : forall E D det p cfg0 text q lang rs, search E D det p cfg0 text = Ok (q, (lang, rs, None)) ->
  exists p1 c, init_search_config E cfg0 = Some c /\ p_types p1 = p_types p /\ p_used p1 = p_used p /\
    search_with_language E D det p1 c lang text = Ok (q, (rs, None)).
Proof.
  intros E D det p cfg0 text q lang rs H. unfold search in H. destruct (init_search_config E cfg0) as [c|] eqn:IC; [|discriminate H].
  destruct (get_languages E D _ _ _) as [ls|e|] eqn:GL; [|discriminate H|discriminate H]. cbv zeta in H.
  destruct (detect_language _ _ _ _ _ _) as [l|e|] eqn:DL; [|discriminate H|discriminate H].
  exists (init_charsets D p ls), c. split; [reflexivity|]. split; [unfold init_charsets; destruct (_ || _); reflexivity|]. split; [unfold init_charsets; destruct (_ || _); reflexivity|].
  destruct (search_with_language _ _ _ _ _ _ _) as [[q' [rs' er]]|e|] eqn:SW; cbn [rbind] in H; [|discriminate H|discriminate H]. congruence.
Qed.
Print Assumptions C32_search.
