(** C30: selecting locales *)
From Coq Require Import Permutation Sorted.
From Verif Require Import GoBase SMap GoTime Setting Env Strutil Language Parser Spec ParserFacts LocaleFacts SelectFacts Prop_Parser Concrete LocaleData.

(** every element once, where it first occurs *)
Fixpoint keep_first (l : list str) : list str :=
  match l with [] => [] | x :: r => x :: filter (fun y => negb (eqs x y)) (keep_first r) end.

Lemma filter_filter {A} (f g : A -> bool) l : filter f (filter g l) = filter (fun x => g x && f x) l.
Proof. induction l as [|x l IH]; cbn [filter]; [reflexivity|]. destruct (g x); cbn [filter andb]; rewrite IH; reflexivity. Qed.
Lemma mem_cons y x l : mem y (x :: l) = eqs y x || mem y l.
Proof. reflexivity. Qed.
Lemma firsts_filter seen l : firsts seen l = filter (fun y => negb (mem y seen)) (firsts [] l).
Proof.
  revert seen. induction l as [|x l IH]; intros seen; cbn [firsts]; [reflexivity|].
  change (mem x []) with false. cbv iota. cbn [filter]. rewrite (IH [x]), filter_filter.
  destruct (mem x seen) eqn:Ex; cbn [negb].
  - rewrite (IH seen). apply filter_ext. intros y. rewrite mem_cons. change (mem y []) with false. rewrite orb_false_r.
    destruct (eqs_spec y x); [subst; now rewrite Ex | reflexivity].
  - f_equal. rewrite (IH (x :: seen)). apply filter_ext. intros y. rewrite !mem_cons. change (mem y []) with false. rewrite orb_false_r.
    now rewrite negb_orb.
Qed.
Lemma firsts_keep l : firsts [] l = keep_first l.
Proof.
  induction l as [|x l IH]; cbn [firsts keep_first]; [reflexivity|]. change (mem x []) with false. cbv iota. f_equal.
  rewrite firsts_filter, IH. apply filter_ext. intros y. unfold mem. cbn [existsb]. now rewrite orb_false_r, eqs_sym.
Qed.

Lemma requested_asks E D locales languages region code :
  known D code = true ->
  In code (requested E D locales languages region) <-> asks (e_uni E) D locales languages region code.
Proof.
  intros Hk. unfold requested. split.
  - destruct locales as [|l0 locales]; intros Hr.
    + apply filter_In in Hr as [Hr _]. apply in_map_iff in Hr as (lang & <- & Hl). apply firsts_In in Hl as [Hl _]. unfold localize.
      destruct (empty (trim_space (to_upper (e_uni E) region))) eqn:Er.
      * assert (trim_space (to_upper (e_uni E) region) = []) by (destruct (trim_space _); [reflexivity|discriminate]).
        destruct languages; [apply asks_any | apply asks_language]; auto.
      * assert (trim_space (to_upper (e_uni E) region) <> []) by (destruct (trim_space _); discriminate).
        destruct languages; [apply asks_any_region | apply asks_region]; auto.
    + apply asks_locale. now apply firsts_In in Hr as [Hr _].
  - intros Ha. inversion Ha as [c Hi|lang Hl Hi Hr|lang Hl Hi Hr|lang Hl Hg Hi Hr|lang Hl Hg Hi Hr]; subst; clear Ha.
    + destruct locales as [|l0 locales]; [destruct Hi|]. apply firsts_In. split; [exact Hi | intros []].
    + apply filter_In. split; [|exact Hk]. apply in_map_iff. exists code. unfold localize. rewrite Hr. split; [reflexivity|].
      apply firsts_In. split; [|intros []]. destruct languages; [destruct Hi | exact Hi].
    + apply filter_In. split; [|exact Hk]. apply in_map_iff. exists lang. unfold localize.
      destruct (trim_space (to_upper (e_uni E) region)) as [|c r]; [congruence|]. split; [reflexivity|].
      apply firsts_In. split; [|intros []]. destruct languages; [destruct Hi | exact Hi].
    + apply filter_In. split; [|exact Hk]. apply in_map_iff. exists code. unfold localize. rewrite Hr. split; [reflexivity|].
      apply firsts_In. split; [exact Hi | intros []].
    + apply filter_In. split; [|exact Hk]. apply in_map_iff. exists lang. unfold localize.
      destruct (trim_space (to_upper (e_uni E) region)) as [|c r]; [congruence|]. split; [reflexivity|].
      apply firsts_In. split; [exact Hi | intros []].
Qed.
Lemma map_names D lds names : db_named D -> map Some lds = map (db_get D) names -> map ld_name lds = names.
Proof.
  intros HD. revert names. induction lds as [|ld lds IH]; intros [|n names]; cbn [map]; intros H; try discriminate; [reflexivity|].
  injection H as H1 H2. symmetry in H1. apply HD in H1 as [<- _]. f_equal. now apply IH.
Qed.

(** the published order: LocaleOrder, ties by name *)
Definition more_common (D : langdb) (a b : str) : Prop :=
  db_order D a < db_order D b \/ (db_order D a = db_order D b /\ lts a b = true).
Lemma more_common_iff D a b : locale_lt D a b = true <-> more_common D a b.
Proof.
  unfold locale_lt, more_common. destruct (Z.eqb_spec (db_order D a) (db_order D b)); [intuition lia|].
  rewrite Z.ltb_lt. intuition lia.
Qed.

(** exactly the locales asked for that exist, each once, each under its own name; ordered *)
Theorem C30_selected_locales : forall E D locales languages region given allow lds,
  db_named D ->
  get_locales E D locales languages region given allow = Ok lds ->
  lds <> [] /\
  NoDup (map ld_name lds) /\
  (forall ld, In ld lds <-> db_get D (ld_name ld) = Some ld /\ asks (e_uni E) D locales languages region (ld_name ld)) /\
  (given = false -> StronglySorted (more_common D) (map ld_name lds)).
Proof.
  intros E D locales languages region given allow lds HD Hg.
  destruct (get_locales_ok _ _ _ _ _ _ _ _ Hg) as (names & Hn & Hk & Hm & Hne & HN).
  pose proof (map_names _ _ _ HD Hm) as Hnames.
  assert (P : Permutation names (requested E D locales languages region)).
  { subst names. destruct given; [reflexivity | apply sort_by_perm]. }
  split; [exact Hne|]. split.
  { rewrite Hnames. eapply Permutation_NoDup; [symmetry; exact P | exact HN]. }
  split.
  - intros ld. split.
    + intros Hi. split.
      * assert (Hs : In (Some ld) (map Some lds)) by now apply in_map. rewrite Hm in Hs. apply in_map_iff in Hs as (c & Hc & _).
        destruct (HD _ _ Hc) as [<- _]. exact Hc.
      * assert (Hin : In (ld_name ld) names) by (rewrite <- Hnames; now apply in_map).
        apply requested_asks; [now apply Hk|]. eapply Permutation_in; eauto.
    + intros [Hd Ha].
      assert (Hin : In (ld_name ld) names).
      { eapply Permutation_in; [symmetry; exact P|]. apply requested_asks; [|exact Ha]. unfold known. now rewrite Hd. }
      apply (in_map (db_get D)) in Hin. rewrite <- Hm, Hd in Hin. apply in_map_iff in Hin as (x & Hx & Hi). congruence.
  - intros ->. rewrite Hnames. subst names.
    pose proof (sort_by_sorted (locale_lt D) (locale_lt_trans D) (locale_lt_total D) _ HN) as S. cbv beta in S. clear -S.
    induction S as [|x l S IH F]; constructor; auto. eapply Forall_impl; [|exact F]. intros y. apply more_common_iff.
Qed.
Print Assumptions C30_selected_locales.

(** with UseGivenOrder: the order of the first mention *)
Theorem C30_given_order : forall E D locales languages region allow lds,
  db_named D ->
  get_locales E D locales languages region true allow = Ok lds ->
  map ld_name lds =
    match locales with
    | _ :: _ => keep_first locales
    | [] => filter (fun c => match db_get D c with Some _ => true | None => false end)
              (map (fun l => match trim_space (to_upper (e_uni E) region) with [] => l | r => l ++ lit "-" ++ r end)
                 (keep_first (match languages with [] => db_langs D | l => l end)))
    end.
Proof.
  intros E D locales languages region allow lds HD Hg.
  destruct (get_locales_ok _ _ _ _ _ _ _ _ Hg) as (names & Hn & Hk & Hm & Hne & HN).
  rewrite (map_names _ _ _ HD Hm), Hn. unfold requested. destruct locales; rewrite <- firsts_keep; [|reflexivity].
  f_equal. apply map_ext. intros l. unfold localize. now destruct (trim_space _).
Qed.
Print Assumptions C30_given_order.

Theorem C30_unknown_locale_is_an_error : forall E D locales languages region given allow code,
  In code locales -> db_get D code = None ->
  get_locales E D locales languages region given allow = Err EUnknownLocales \/
  get_locales E D locales languages region given allow = Err EConflictingLocales.
Proof.
  intros E D locales languages region given allow code Hi Hd.
  assert (Hf : all_known D (firsts [] locales) = false).
  { destruct (all_known D (firsts [] locales)) eqn:Ea; [|reflexivity]. unfold all_known in Ea. rewrite forallb_forall in Ea.
    specialize (Ea code). unfold known in Ea. rewrite Hd in Ea. rewrite Ea; [reflexivity|]. apply firsts_In. split; [exact Hi | intros []]. }
  unfold get_locales. destruct locales as [|l0 locales]; [destruct Hi|]. set (L := l0 :: locales) in *.
  destruct allow.
  - rewrite pick_allow, Hf. now left.
  - assert (H0 : forall x : str, In x [] -> known D x = true) by (intros ? []).
    destruct (pick_noallow E D L [] [] [] eq_refl (NoDup_nil _) H0) as [[_ ->]|[_ ->]]; [now right|]. rewrite Hf. now left.
Qed.
Print Assumptions C30_unknown_locale_is_an_error.

Theorem C30_unknown_language_is_an_error : forall E D languages region given allow lang,
  In lang languages -> ~ In lang (db_langs D) ->
  get_locales E D [] languages region given allow = Err EUnknownLanguages.
Proof.
  intros E D languages region given allow lang Hi Hd. unfold get_locales.
  rewrite pick_langs by (intros ? []).
  replace (forallb _ _) with false; [reflexivity|]. symmetry. apply not_true_iff_false. intros Hf. rewrite forallb_forall in Hf.
  apply Hd. apply mem_In. apply Hf. apply firsts_In. split; [|intros []]. destruct languages; [destruct Hi | exact Hi].
Qed.
Print Assumptions C30_unknown_language_is_an_error.

(** two known locales of one language conflict unless that is allowed *)
Theorem C30_two_regions_conflict : forall E D locales languages region given a b,
  In a locales -> In b locales -> a <> b -> db_get D a <> None -> db_get D b <> None ->
  remove_region (e_uni E) a = remove_region (e_uni E) b ->
  get_locales E D locales languages region given false = Err EConflictingLocales.
Proof.
  intros E D locales languages region given a b Ha Hb Hab Ka Kb Er.
  unfold get_locales. destruct locales as [|l0 locales]; [destruct Ha|]. set (L := l0 :: locales) in *.
  assert (H0 : forall x : str, In x [] -> known D x = true) by (intros ? []).
  destruct (pick_noallow E D L [] [] [] eq_refl (NoDup_nil _) H0) as [[_ ->]|[Hc _]]; [reflexivity|].
  exfalso. apply Hc. exists a, b. unfold known. cbn [app]. repeat split; auto; [destruct (db_get D a)|destruct (db_get D b)]; congruence.
Qed.
Print Assumptions C30_two_regions_conflict.

Lemma last_index1_app a b c : last_index1 b c = None -> last_index1 (a ++ c :: b) c = Some (length a).
Proof.
  intros Hb. induction a as [|x a IH]; cbn [app last_index1 length].
  - now rewrite Hb, Z.eqb_refl.
  - now rewrite IH.
Qed.
(** a language and a region (upper-case letters or digits), joined by a hyphen, have that language *)
Theorem C30_language_of_a_locale : forall E lang region,
  region <> [] -> to_upper (e_uni E) region = region -> ~ In 45 region ->
  remove_region (e_uni E) (lang ++ lit "-" ++ region) = lang.
Proof.
  intros E lang region Hne Hu Hd. unfold remove_region. change (lit "-" ++ region) with (45 :: region).
  assert (HL : last_index1 region 45 = None).
  { clear -Hd. induction region as [|c r IH]; [reflexivity|]. cbn [last_index1]. rewrite IH by (intros H; apply Hd; now right).
    destruct (Z.eqb_spec c 45); [|reflexivity]. exfalso. apply Hd. left. auto. }
  rewrite last_index1_app by exact HL.
  replace (skipn (S (length lang)) (lang ++ 45 :: region)) with region.
  2: { clear. induction lang as [|c l IH]; [reflexivity|]. exact IH. }
  rewrite Hu, eqs_refl. destruct region; [congruence|]. cbn [empty negb andb].
  rewrite firstn_app, Nat.sub_diag, firstn_all. apply app_nil_r.
Qed.
Print Assumptions C30_language_of_a_locale.

(** without UseGivenOrder only the set of requested locales (languages) matters: not their order, not repetitions *)
Theorem C30_order_of_mention_is_irrelevant : forall E D locales locales' languages languages' region allow,
  (forall x, In x locales <-> In x locales') -> (forall x, In x languages <-> In x languages') ->
  get_locales E D locales languages region false allow = get_locales E D locales' languages' region false allow.
Proof.
  intros E D locales locales' languages languages' region allow HL HG.
  assert (SortEq : forall n n', NoDup n -> NoDup n' -> (forall x, In x n <-> In x n') -> sort_by (locale_lt D) n = sort_by (locale_lt D) n').
  { intros n n' H1 H2 Hx. apply (sorted_unique (locale_lt D) (locale_lt_trans D) (locale_lt_irrefl D)).
    - apply sort_by_sorted; auto using locale_lt_total. apply locale_lt_trans.
    - apply sort_by_sorted; auto using locale_lt_total. apply locale_lt_trans.
    - intros x. split; intros Hi.
      + eapply Permutation_in; [symmetry; apply sort_by_perm|]. apply Hx. eapply Permutation_in; [apply sort_by_perm|exact Hi].
      + eapply Permutation_in; [symmetry; apply sort_by_perm|]. apply Hx. eapply Permutation_in; [apply sort_by_perm|exact Hi]. }
  assert (FirstsIn : forall a b, (forall x, In x a <-> In x b) -> forall x, In x (firsts [] a) <-> In x (firsts [] b)).
  { intros a b Hab x. rewrite !firsts_In. now rewrite Hab. }
  assert (Forallb : forall (f : str -> bool) a b, (forall x, In x a <-> In x b) -> forallb f a = forallb f b).
  { intros f a b Hab. apply eq_true_iff_eq. rewrite !forallb_forall. split; intros H x Hx; apply H; now apply Hab. }
  unfold get_locales.
  destruct locales as [|l0 l], locales' as [|l0' l'].
  - set (G := match languages with [] => _ | _ => _ end). set (G' := match languages' with [] => _ | _ => _ end).
    assert (HGG : forall x, In x G <-> In x G').
    { subst G G'. destruct languages as [|g gs], languages' as [|g' gs']; auto.
      - intros x. reflexivity.
      - exfalso. apply (HG g'). now left.
      - exfalso. apply (HG g). now left. }
    rewrite !pick_langs by (intros ? []).
    rewrite (Forallb _ _ _ (FirstsIn _ _ HGG)). destruct (_ || _); cbn [rbind]; [reflexivity|]. cbn [rev app].
    rewrite (SortEq (filter (known D) (map (localize (trim_space (to_upper (e_uni E) region))) (firsts [] G)))
                    (filter (known D) (map (localize (trim_space (to_upper (e_uni E) region))) (firsts [] G')))); [reflexivity| | |].
    + apply NoDup_filter. apply FinFun.Injective_map_NoDup; [intros a b; apply localize_inj | apply firsts_NoDup].
    + apply NoDup_filter. apply FinFun.Injective_map_NoDup; [intros a b; apply localize_inj | apply firsts_NoDup].
    + intros x. rewrite !filter_In, !in_map_iff. split; intros [(y & Hy & Hi) Hk]; (split; [exists y; split; [exact Hy|]; now apply (FirstsIn _ _ HGG) | exact Hk]).
  - exfalso. apply (HL l0'). now left.
  - exfalso. apply (HL l0). now left.
  - set (L := l0 :: l) in *. set (L' := l0' :: l') in *.
    assert (H0 : forall x : str, In x [] -> known D x = true) by (intros ? []).
    assert (S : sort_by (locale_lt D) (firsts [] L) = sort_by (locale_lt D) (firsts [] L')).
    { apply SortEq; auto using firsts_NoDup. }
    assert (K : all_known D (firsts [] L) = all_known D (firsts [] L')) by (apply Forallb; auto).
    destruct allow.
    + rewrite !pick_allow, K. destruct (all_known D (firsts [] L')); cbn [rbind rev app]; [|reflexivity]. now rewrite S.
    + assert (C : conflict E D L <-> conflict E D L').
      { unfold conflict. split; intros (a & b & Ha & Hb & Hr); exists a, b; repeat split; try tauto; now apply HL. }
      destruct (pick_noallow E D L [] [] [] eq_refl (NoDup_nil _) H0) as [[Hc ->]|[Hc ->]],
               (pick_noallow E D L' [] [] [] eq_refl (NoDup_nil _) H0) as [[Hc' ->]|[Hc' ->]]; cbn [app] in *; try tauto; try reflexivity.
      rewrite K. destruct (all_known D (firsts [] L')); cbn [rbind rev app]; [|reflexivity]. now rewrite S.
Qed.
Print Assumptions C30_order_of_mention_is_irrelevant.

Definition names_of (r : res (list locale)) : list str := match r with Ok l => map ld_name l | _ => [] end.
Example C30_sorted_by_frequency :
  names_of (get_locales env0 db0 (map lit ["fi"; "en"; "zh"; "fi"]%string) [] [] false false) = map lit ["en"; "zh"; "fi"]%string.
Proof. vm_compute. reflexivity. Qed.
Example C30_region : names_of (get_locales env0 db0 [] (map lit ["fi"; "en"]%string) (lit " gb") true false) = map lit ["en-GB"]%string.
Proof. vm_compute. reflexivity. Qed.
Example C30_conflict : get_locales env0 db0 (map lit ["en"; "en-GB"]%string) [] [] false false = Err EConflictingLocales.
Proof. vm_compute. reflexivity. Qed.
