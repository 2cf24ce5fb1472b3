(** Lemmas about the locale loader (Language.v) *)
From Coq Require Import Permutation Sorted.
From Verif Require Import GoBase SMap GoTime Setting Env Strutil Language ParserFacts.

(** ** lts is a strict total order *)
Lemma lts_irrefl a : lts a a = false.
Proof. induction a as [|x a IH]; cbn [lts]; [reflexivity|]. now rewrite Z.ltb_irrefl. Qed.
Lemma lts_trans a b c : lts a b = true -> lts b c = true -> lts a c = true.
Proof.
  revert b c. induction a as [|x a IH]; intros [|y b] [|z c]; cbn [lts]; try discriminate; auto.
  destruct (Z.ltb_spec x y), (Z.ltb_spec y x), (Z.ltb_spec y z), (Z.ltb_spec z y), (Z.ltb_spec x z), (Z.ltb_spec z x);
    intros H5 H6; try lia; try discriminate; auto. eauto.
Qed.
Lemma lts_total a b : a <> b -> lts a b = true \/ lts b a = true.
Proof.
  revert b. induction a as [|x a IH]; intros [|y b] Hn; cbn [lts]; auto; try congruence.
  destruct (Z.ltb_spec x y), (Z.ltb_spec y x); auto.
  apply IH. assert (x = y) by lia. congruence.
Qed.

(** ** sort_by *)
Section Sort.
Context {A : Type} (lt : A -> A -> bool).
Lemma insert_by_perm x l : Permutation (insert_by lt x l) (x :: l).
Proof.
  induction l as [|y l IH]; cbn [insert_by]; [reflexivity|].
  destruct (lt y x); [|reflexivity]. rewrite IH. apply perm_swap.
Qed.
Lemma sort_by_perm l : Permutation (sort_by lt l) l.
Proof.
  induction l as [|x l IH]; cbn [sort_by fold_right]; [reflexivity|].
  rewrite insert_by_perm. now apply perm_skip.
Qed.
Hypothesis lt_trans : forall a b c, lt a b = true -> lt b c = true -> lt a c = true.
Hypothesis lt_irrefl : forall a, lt a a = false.
Hypothesis lt_total : forall a b, a <> b -> lt a b = true \/ lt b a = true.
Definition ltP (a b : A) : Prop := lt a b = true.
Lemma insert_by_sorted x l : StronglySorted ltP l -> ~ In x l -> StronglySorted ltP (insert_by lt x l).
Proof.
  induction l as [|y l IH]; cbn [insert_by]; intros Hs Hn; [repeat constructor|].
  inversion Hs as [|? ? Hs' Hf]; subst.
  destruct (lt y x) eqn:Eyx.
  - constructor; [apply IH; auto; intros Hi; apply Hn; now right|].
    apply Forall_forall. intros z Hz.
    apply (Permutation_in _ (insert_by_perm x l)) in Hz. destruct Hz as [<-|Hz]; [exact Eyx|].
    rewrite Forall_forall in Hf. now apply Hf.
  - assert (Hxy : ltP x y).
    { destruct (lt_total x y) as [Hl|Hl]; [|exact Hl|unfold ltP in *; congruence].
      intros ->. apply Hn. now left. }
    constructor; [exact Hs|]. constructor; [exact Hxy|].
    rewrite Forall_forall in Hf |- *. intros z Hz. eapply lt_trans; [exact Hxy|]. now apply Hf.
Qed.
Lemma sort_by_sorted l : NoDup l -> StronglySorted ltP (sort_by lt l).
Proof.
  induction l as [|x l IH]; cbn [sort_by fold_right]; intros Hn; [constructor|].
  inversion Hn; subst. apply insert_by_sorted; auto.
  intros Hi. apply (Permutation_in _ (sort_by_perm l)) in Hi. auto.
Qed.
Lemma sorted_unique l l' : StronglySorted ltP l -> StronglySorted ltP l' -> (forall x, In x l <-> In x l') -> l = l'.
Proof.
  revert l'. induction l as [|x l IH]; intros [|y l'] Hs Hs' Hi.
  - reflexivity.
  - exfalso. apply (proj2 (Hi y)). now left.
  - exfalso. apply (proj1 (Hi x)). now left.
  - inversion Hs as [|? ? H1 H2]; inversion Hs' as [|? ? H3 H4]; subst. rewrite Forall_forall in H2, H4.
    assert (x = y).
    { destruct (proj1 (Hi x)) as [|Hx]; [now left| congruence|].
      destruct (proj2 (Hi y)) as [|Hy]; [now left| congruence|].
      exfalso. pose proof (lt_trans _ _ _ (H2 _ Hy) (H4 _ Hx)) as C. now rewrite lt_irrefl in C. }
    subst y. f_equal. apply IH; auto. intros z. split; intros Hz.
    + destruct (proj1 (Hi z)) as [<-|]; [now right| |assumption]. exfalso. pose proof (H2 _ Hz) as C. unfold ltP in C. now rewrite lt_irrefl in C.
    + destruct (proj2 (Hi z)) as [<-|]; [now right| |assumption]. exfalso. pose proof (H4 _ Hz) as C. unfold ltP in C. now rewrite lt_irrefl in C.
Qed.
End Sort.

Section L.
Variable E : env.
Variable D : langdb.
Notation U := (e_uni E).

Lemma locale_lt_irrefl a : locale_lt D a a = false.
Proof. unfold locale_lt. now rewrite Z.eqb_refl, lts_irrefl. Qed.
Lemma locale_lt_trans a b c : locale_lt D a b = true -> locale_lt D b c = true -> locale_lt D a c = true.
Proof.
  unfold locale_lt.
  destruct (Z.eqb_spec (db_order D a) (db_order D b)), (Z.eqb_spec (db_order D b) (db_order D c)), (Z.eqb_spec (db_order D a) (db_order D c));
    rewrite ?Z.ltb_lt; try lia; eauto using lts_trans.
Qed.
Lemma locale_lt_total a b : a <> b -> locale_lt D a b = true \/ locale_lt D b a = true.
Proof.
  intros Hn. unfold locale_lt.
  destruct (Z.eqb_spec (db_order D a) (db_order D b)), (Z.eqb_spec (db_order D b) (db_order D a));
    rewrite ?Z.ltb_lt; try lia; auto using lts_total.
Qed.

(** ** pick_locales: keep the first occurrences *)
Fixpoint firsts (seen ls : list str) : list str :=
  match ls with
  | [] => []
  | l :: r => if mem l seen then firsts seen r else l :: firsts (l :: seen) r
  end.
Lemma firsts_In seen ls x : In x (firsts seen ls) <-> In x ls /\ ~ In x seen.
Proof.
  revert seen. induction ls as [|l ls IH]; intros seen; cbn [firsts]; [cbn; tauto|].
  destruct (mem l seen) eqn:Em.
  - apply mem_In in Em. rewrite IH. split; [intros [? ?]; split; auto; now right|].
    intros [[<-|?] ?]; tauto.
  - assert (~ In l seen) by (intros Hi; apply mem_In in Hi; congruence).
    cbn [In]. rewrite IH. cbn [In].
    destruct (eqs l x) eqn:Ex.
    + apply eqs_eq in Ex. subst. tauto.
    + assert (l <> x) by (intros ->; rewrite eqs_refl in Ex; discriminate). tauto.
Qed.
Lemma firsts_NoDup seen ls : NoDup (firsts seen ls).
Proof.
  revert seen. induction ls as [|l ls IH]; intros seen; cbn [firsts]; [constructor|].
  destruct (mem l seen); auto. constructor; auto. rewrite firsts_In. cbn [In]. tauto.
Qed.

Definition all_known (ls : list str) : bool := forallb (known D) ls.

Lemma pick_allow ls : forall tracker langs invalid,
  pick_locales E D true ls tracker langs invalid =
  match invalid with [] => if all_known (firsts tracker ls) then Ok (rev tracker ++ firsts tracker ls) else Err EUnknownLocales
                   | _ => Err EUnknownLocales end.
Proof.
  induction ls as [|l ls IH]; intros tracker langs invalid; cbn [pick_locales firsts].
  - cbn. rewrite app_nil_r. now destruct invalid.
  - destruct (mem l tracker) eqn:Em; [apply IH|].
    destruct (known D l) eqn:Ek; cbn [negb].
    + rewrite IH. destruct invalid; [|reflexivity]. unfold all_known. cbn [forallb rev]. rewrite Ek. cbn [andb].
      destruct (forallb _ _); [|reflexivity]. now rewrite <- app_assoc.
    + rewrite IH. unfold all_known. cbn [forallb]. rewrite Ek. now destruct invalid.
Qed.

(** two different requested, known locales of one language *)
Definition conflict (ls : list str) : Prop :=
  exists a b, In a ls /\ In b ls /\ a <> b /\ known D a = true /\ known D b = true /\ remove_region U a = remove_region U b.

Lemma pick_noallow ls : forall tracker langs invalid,
  langs = map (remove_region U) tracker -> NoDup langs ->
  (forall l, In l tracker -> known D l = true) ->
  (conflict (tracker ++ ls) /\ pick_locales E D false ls tracker langs invalid = Err EConflictingLocales) \/
  (~ conflict (tracker ++ ls) /\
   pick_locales E D false ls tracker langs invalid =
   match invalid with [] => if all_known (firsts tracker ls) then Ok (rev tracker ++ firsts tracker ls) else Err EUnknownLocales
                    | _ => Err EUnknownLocales end).
Proof.
  induction ls as [|l ls IH]; intros tracker langs invalid HL HN HK; cbn [pick_locales firsts].
  - right. split.
    + intros (a & b & Ha & Hb & Hab & _ & _ & Er). rewrite app_nil_r in *. subst langs.
      apply in_split in Ha as (l1 & l2 & ->). apply in_app_iff in Hb.
      rewrite map_app in HN. cbn [map] in HN. apply NoDup_remove_2 in HN. apply HN. rewrite Er, <- map_app.
      apply in_map. apply in_app_iff. destruct Hb as [|[|]]; auto. congruence.
    + cbn. rewrite app_nil_r. now destruct invalid.
  - assert (Cong : forall ls', (forall x, In x ls' <-> In x (tracker ++ l :: ls)) -> (conflict ls' <-> conflict (tracker ++ l :: ls))).
    { intros ls' Hp. unfold conflict. split; intros (a & b & Ha & Hb & Hr); exists a, b; repeat split; try tauto; apply Hp; tauto. }
    destruct (mem l tracker) eqn:Em.
    + apply mem_In in Em. destruct (IH tracker langs invalid HL HN HK) as [[Hc ->]|[Hc ->]]; [left | right]; (split; [|reflexivity]);
        rewrite <- (Cong (tracker ++ ls)); auto; intros x; rewrite !in_app_iff; cbn [In]; split; intuition; subst; auto.
    + destruct (known D l) eqn:Ek; cbn [negb].
      * destruct (mem (remove_region U l) langs) eqn:El.
        -- left. split; [|reflexivity]. apply mem_In in El. subst langs. apply in_map_iff in El as (b & Er & Hb).
           exists b, l. rewrite !in_app_iff. cbn [In]. repeat split; auto.
           intros ->. apply mem_In in Hb. congruence.
        -- destruct (IH (l :: tracker) (remove_region U l :: langs) invalid) as [[Hc ->]|[Hc ->]].
           ++ now rewrite HL.
           ++ constructor; auto. intros Hi. apply mem_In in Hi. congruence.
           ++ intros x [<-|Hx]; auto.
           ++ left. split; [|reflexivity]. rewrite <- (Cong ((l :: tracker) ++ ls)); auto.
              intros x. cbn [app In]. rewrite !in_app_iff. cbn [In]. tauto.
           ++ right. split; [rewrite <- (Cong ((l :: tracker) ++ ls)); auto; intros x; cbn [app In]; rewrite !in_app_iff; cbn [In]; tauto|].
              destruct invalid; [|reflexivity]. unfold all_known. cbn [forallb rev]. rewrite Ek. cbn [andb].
              destruct (forallb _ _); [|reflexivity]. now rewrite <- app_assoc.
      * destruct (IH tracker langs (l :: invalid) HL HN HK) as [[Hc ->]|[Hc ->]]; [left | right].
        -- split; [|reflexivity]. destruct Hc as (a & b & Ha & Hb & Hr). exists a, b.
           rewrite !in_app_iff in *. cbn [In]. tauto.
        -- split.
           ++ intros (a & b & Ha & Hb & Hab & Ka & Kb & Er). apply Hc. exists a, b. rewrite !in_app_iff in *. cbn [In] in *.
              repeat split; auto; intuition; subst; congruence.
           ++ unfold all_known. cbn [forallb]. rewrite Ek. now destruct invalid.
Qed.

(** ** pick_languages *)
Definition localize (region l : str) : str := if empty region then l else l ++ lit "-" ++ region.
Lemma localize_inj region a b : localize region a = localize region b -> a = b.
Proof. unfold localize. destruct (empty region); auto. intros Ee. now apply app_inv_tail in Ee. Qed.

Lemma pick_langs region ls : forall tracker langs unknown,
  (forall l, In (localize region l) tracker -> In l langs) ->
  pick_languages D region ls tracker langs unknown =
  if unknown || negb (forallb (fun l => mem l (db_langs D)) (firsts langs ls)) then Err EUnknownLanguages
  else Ok (rev tracker ++ filter (known D) (map (localize region) (firsts langs ls))).
Proof.
  induction ls as [|l ls IH]; intros tracker langs unknown Ht; cbn [pick_languages firsts].
  - cbn. rewrite app_nil_r. now destruct unknown.
  - destruct (mem l langs) eqn:Em; [now apply IH|].
    assert (Ht' : forall x, In (localize region x) tracker -> In x (l :: langs)) by (intros x Hx; right; auto).
    cbn [forallb map].
    destruct (mem l (db_langs D)) eqn:El; cbn [negb andb].
    + fold (localize region l).
      assert (Hnt : mem (localize region l) tracker = false).
      { destruct (mem (localize region l) tracker) eqn:Ex; [|reflexivity].
        apply mem_In, Ht, mem_In in Ex. congruence. }
      rewrite Hnt. cbn [filter].
      destruct (known D (localize region l)) eqn:Ek; cbn [negb].
      * rewrite IH.
        -- destruct (_ || _); [reflexivity|]. cbn [rev]. now rewrite <- app_assoc.
        -- intros x [Hx|Hx]; [apply localize_inj in Hx; left; auto | right; auto].
      * now rewrite IH.
    + rewrite IH; auto. cbn [orb]. now rewrite !orb_true_r.
Qed.

Lemma fetch_map names : (forall n, In n names -> known D n = true) -> map Some (fetch D names) = map (db_get D) names.
Proof.
  induction names as [|n names IH]; cbn [fetch map]; intros Hk; [reflexivity|].
  assert (K := Hk n (or_introl eq_refl)). unfold known in K.
  destruct (db_get D n) as [ld|]; [|discriminate]. cbn [map]. f_equal. apply IH. intros m Hm. apply Hk. now right.
Qed.

(** the requested locale codes, in the order given *)
Definition requested (locales languages : list str) (region : str) : list str :=
  match locales with
  | _ :: _ => firsts [] locales
  | [] => filter (known D) (map (localize (trim_space (to_upper U region)))
                    (firsts [] (match languages with [] => db_langs D | l => l end)))
  end.

Lemma get_locales_ok locales languages region g allow lds :
  get_locales E D locales languages region g allow = Ok lds ->
  exists names, names = (if g then requested locales languages region else sort_by (locale_lt D) (requested locales languages region))
   /\ (forall n, In n names -> known D n = true) /\ map Some lds = map (db_get D) names /\ lds <> []
   /\ NoDup (requested locales languages region).
Proof.
  unfold get_locales. intros Hg.
  assert (HN : NoDup (requested locales languages region)).
  { unfold requested. destruct locales; [|apply firsts_NoDup].
    apply NoDup_filter. apply FinFun.Injective_map_NoDup; [intros a b; apply localize_inj | apply firsts_NoDup]. }
  destruct (match locales with [] => _ | _ => _ end) as [names| |] eqn:Hp; cbn [rbind] in Hg; try discriminate.
  assert (names = requested locales languages region /\ forall n, In n names -> known D n = true) as [-> Hk].
  { unfold requested. destruct locales as [|l locales].
    - rewrite pick_langs in Hp; [|intros ? []].
      destruct (_ || _); [discriminate|]. injection Hp as <-. cbn [rev app]. split; [reflexivity|].
      intros n Hn. now apply filter_In in Hn.
    - set (L := l :: locales) in *.
      assert (Hp' : all_known (firsts [] L) = true /\ names = firsts [] L).
      { destruct allow.
        - rewrite pick_allow in Hp. destruct (all_known _); [|discriminate]. now injection Hp as <-.
        - assert (H0 : forall x : str, In x [] -> known D x = true) by (intros ? []).
          destruct (pick_noallow L [] [] [] eq_refl (NoDup_nil _) H0) as [[_ Hq]|[_ Hq]]; rewrite Hq in Hp; [discriminate|].
          destruct (all_known _); [|discriminate]. now injection Hp as <-. }
      destruct Hp' as [Ha ->]. split; [reflexivity|]. unfold all_known in Ha. rewrite forallb_forall in Ha. exact Ha. }
  set (N := if g then _ else _) in *.
  assert (Hk' : forall n, In n N -> known D n = true).
  { intros n Hn. apply Hk. unfold N in Hn. destruct g; auto. eapply Permutation_in; [apply sort_by_perm|exact Hn]. }
  exists N. split; [reflexivity|]. split; [exact Hk'|]. pose proof (fetch_map N Hk') as Hf.
  destruct (fetch D N); [discriminate|]. injection Hg as <-. repeat split; auto. discriminate.
Qed.
End L.
