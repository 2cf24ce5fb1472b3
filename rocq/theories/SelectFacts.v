(** Which locales Parse tries *)
From Coq Require Import Permutation Sorted.
From Verif Require Import GoBase SMap GoTime Setting Env Strutil Timezone Language Parser History ParserFacts LocaleFacts Concrete LocaleData.

Lemma check_previous_In E icfg dss : forall used ld, check_previous E icfg used dss = Ok (Some ld) -> In ld used.
Proof.
  induction used as [|x used IH]; cbn [check_previous]; intros ld H; [discriminate|].
  destruct (any_applicable E icfg x dss) as [b| |]; cbn [rbind] in H; try discriminate.
  destruct b; [injection H as <-; now left | right; auto].
Qed.
Lemma filter_applicable_In E icfg dss : forall lds acc l, filter_applicable E icfg dss acc lds = Ok l ->
  forall ld, In ld l -> In ld acc \/ In ld lds.
Proof.
  induction lds as [|x lds IH]; cbn [filter_applicable]; intros acc l H ld Hl; [injection H as <-; auto|].
  destruct (mem _ _).
  - destruct (IH _ _ H _ Hl); auto. right. now right.
  - destruct (any_applicable E icfg x dss) as [b| |]; cbn [rbind] in H; try discriminate.
    destruct (IH _ _ H _ Hl) as [Ha|Ha]; [|right; now right].
    destruct b; auto. apply in_app_iff in Ha as [|[<-|[]]]; auto. right. now left.
Qed.

Section S.
Variable E : env.
Variable D : langdb.
Variable det : option (str -> list str).

(** the language list given to the loader: cfg.Languages, or what the detector returns when neither Locales nor
    Languages are given (parser.go:236-240) *)
Definition effective_languages (cfg : uconfig) (text : str) : list str :=
  match det, u_locales cfg, u_languages cfg with
  | Some f, [], [] => f text
  | _, _, _ => u_languages cfg
  end.

Lemma get_applicable_In used cfg icfg s lds : get_applicable E D det used cfg icfg s = Ok lds ->
  forall ld, In ld lds ->
   (u_try_prev cfg = true /\ In ld used) \/
   (exists l, get_locales E D (u_locales cfg) (effective_languages cfg (normalize_string (e_uni E) s)) (u_region cfg) (u_given_order cfg) false = Ok l /\ In ld l) \/
   (c_deflang icfg <> [] /\ exists l, get_locales E D [] (u_deflang cfg) (u_region cfg) (u_given_order cfg) false = Ok l /\ In ld l).
Proof.
  unfold get_applicable. intros H ld Hld.
  set (dss := if eqs _ _ then _ else _) in H. clearbody dss.
  destruct (if u_try_prev cfg then check_previous E icfg used dss else Ok None) as [prev| |] eqn:Hprev; cbn [rbind] in H; try discriminate.
  fold (effective_languages cfg (normalize_string (e_uni E) s)) in H.
  change (detected_languages det cfg (normalize_string (e_uni E) s)) with (effective_languages cfg (normalize_string (e_uni E) s)) in H.
  destruct (match get_locales E D (u_locales cfg) _ _ _ false with Err ENotFound => Ok [] | r => r end) as [l| |] eqn:Hl;
    cbn [rbind] in H; try discriminate.
  destruct (filter_applicable _ _ _ _ _) as [rs| |] eqn:Hrs; cbn [rbind] in H; try discriminate.
  assert (Hr : In ld rs ->
   (u_try_prev cfg = true /\ In ld used) \/
   (exists l, get_locales E D (u_locales cfg) (effective_languages cfg (normalize_string (e_uni E) s)) (u_region cfg) (u_given_order cfg) false = Ok l /\ In ld l)).
  { intros Hi. destruct (filter_applicable_In _ _ _ _ _ _ Hrs _ Hi) as [Ha|Ha].
    - destruct prev as [x|]; [|destruct Ha]. destruct Ha as [<-|[]].
      destruct (u_try_prev cfg); [|discriminate]. left. split; [reflexivity|]. now apply check_previous_In in Hprev.
    - right. destruct (get_locales _ _ _ _ _ _ _) as [l'|e|]; [|destruct e|]; try discriminate;
        injection Hl as <-; [eauto | destruct Ha]. }
  destruct (c_deflang icfg) as [|d0 dl0].
  - injection H as <-. destruct (Hr Hld); auto.
  - destruct (match get_locales E D [] _ _ _ false with Err _ => Ok [] | r => r end) as [l2| |] eqn:Hl2; cbn [rbind] in H; try discriminate.
    injection H as <-. apply in_app_iff in Hld as [Hi|Hi]; [destruct (Hr Hi); auto|].
    right. right. split; [discriminate|]. apply filter_In in Hi as [Hi _].
    destruct (get_locales E D [] (u_deflang cfg) (u_region cfg) (u_given_order cfg) false) as [l3|e|]; try discriminate;
      inversion Hl2; subst l2; [eauto | destruct Hi].
Qed.
End S.

(** The generated tables name every locale by its own non-empty code (checked over all 504 by tools/gen_locales.py and proved
    below for those in LocaleData.v). *)
Definition db_named (D : langdb) : Prop := forall code ld, db_get D code = Some ld -> ld_name ld = code /\ code <> [].

Lemma db0_named : db_named db0.
Proof.
  intros code ld. cbn [db_get db0]. unfold loc_table. cbn [mget].
  repeat match goal with
  | |- context [eqs ?a ?b] => destruct (eqs a b) eqn:?
  end; intros H; try discriminate; injection H as <-;
  match goal with H : eqs _ _ = true |- _ => apply eqs_eq in H; subst code end; split; (reflexivity || discriminate).
Qed.
