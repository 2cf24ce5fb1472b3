(** C61: Parse with several locales is the first success of its single-locale calls *)
From Verif Require Import GoBase SMap Regex GoTime Setting Strutil Timezone Env Formatted Language Parser History Spec Shows
  ParserFacts LocaleFacts SelectFacts Prop_Parser Prop_Locale Prop_Total NumLift ComposeFacts Concrete LocaleData LocaleAll Prop_Data Prop_Vocabulary.

(** ** Specification *)
(** the configuration with other Locales, DefaultLanguages, TryPreviousLocales *)
Definition set_locales (c : uconfig) (l : list str) : uconfig :=
  {| u_locales := l; u_languages := u_languages c; u_region := u_region c; u_try_prev := u_try_prev c;
     u_given_order := u_given_order c; u_deflang := u_deflang c; u_order := u_order c; u_now := u_now c; u_tz := u_tz c;
     u_pday := u_pday c; u_pmonth := u_pmonth c; u_src := u_src c; u_strict := u_strict c; u_required := u_required c;
     u_skip := u_skip c; u_timeperiod := u_timeperiod c; u_preserve := u_preserve c |}.
Definition set_defaults (c : uconfig) (l : list str) : uconfig :=
  {| u_locales := u_locales c; u_languages := u_languages c; u_region := u_region c; u_try_prev := u_try_prev c;
     u_given_order := u_given_order c; u_deflang := l; u_order := u_order c; u_now := u_now c; u_tz := u_tz c;
     u_pday := u_pday c; u_pmonth := u_pmonth c; u_src := u_src c; u_strict := u_strict c; u_required := u_required c;
     u_skip := u_skip c; u_timeperiod := u_timeperiod c; u_preserve := u_preserve c |}.
Definition set_previous (c : uconfig) (b : bool) : uconfig :=
  {| u_locales := u_locales c; u_languages := u_languages c; u_region := u_region c; u_try_prev := b;
     u_given_order := u_given_order c; u_deflang := u_deflang c; u_order := u_order c; u_now := u_now c; u_tz := u_tz c;
     u_pday := u_pday c; u_pmonth := u_pmonth c; u_src := u_src c; u_strict := u_strict c; u_required := u_required c;
     u_skip := u_skip c; u_timeperiod := u_timeperiod c; u_preserve := u_preserve c |}.
(** the same call for one locale only: no memory, no default languages *)
Definition only (c : uconfig) (code : str) : uconfig := set_locales (set_defaults (set_previous c false) []) [code].
(** the same call for one locale only, which is used whether or not its words occur in the text *)
Definition forced (c : uconfig) (code lang : str) : uconfig := set_locales (set_defaults (set_previous c false) [lang]) [code].
(** what the call returns *)
Definition answer E D det p cfg s formats : res ret := snd (parse E D det p cfg s formats).
(** the first that is not an error; if all are, the last *)
Fixpoint first_answer (l : list (res ret)) : res ret :=
  match l with
  | [] => Ok (zero_date, Some ENoParse)
  | [x] => x
  | x :: r => match x with Ok (_, Some _) => first_answer r | _ => x end
  end.

(** ** Lemmas *)
Section L.
Variables (E : env) (D : langdb) (det : option (str -> list str)).
Hypothesis (TS : tables_sound D) (NM : db_named D).
Notation U := (e_uni E).

Lemma app_prev cfg b s ld : app_ E (set_previous cfg b) s ld = app_ E cfg s ld. Proof. reflexivity. Qed.
Lemma app_loc cfg l s ld : app_ E (set_locales cfg l) s ld = app_ E cfg s ld. Proof. reflexivity. Qed.
Lemma wd_any c d ld dss : any_applicable E (wd c d) ld dss = any_applicable E c ld dss.
Proof. induction dss as [|x r IH]; cbn [any_applicable]; [reflexivity|]. rewrite wd_applicable, IH. reflexivity. Qed.
Lemma internal_def cfg d : to_internal (c1 E (set_defaults cfg d)) = wd (to_internal (c1 E cfg)) d. Proof. reflexivity. Qed.
Lemma app_def cfg d s ld : app_ E (set_defaults cfg d) s ld = app_ E cfg s ld.
Proof. unfold app_. now rewrite internal_def, wd_any. Qed.
Lemma date_loc p cfg l s fs ld : date_of E p (set_locales cfg l) s fs ld = date_of E p cfg s fs ld. Proof. reflexivity. Qed.
Lemma date_prev p cfg l s fs ld : date_of E p (set_previous cfg l) s fs ld = date_of E p cfg s fs ld. Proof. reflexivity. Qed.
Lemma date_def p cfg d s fs ld : date_of E p (set_defaults cfg d) s fs ld = date_of E p cfg s fs ld.
Proof.
  unfold date_of. rewrite internal_def. unfold try_locale.
  change (order_for E (c1 E (set_defaults cfg d)) ld) with (order_for E (c1 E cfg) ld).
  change (with_order (clone (wd (to_internal (c1 E cfg)) d)) (order_for E (c1 E cfg) ld)) with (wd (with_order (clone (to_internal (c1 E cfg))) (order_for E (c1 E cfg) ld)) d).
  rewrite !wd_translate. destruct (translate _ _ _ _ false) as [a|e|]; cbn [rbind]; [|reflexivity|reflexivity]. destruct (translate _ _ _ _ true) as [b|e|]; cbn [rbind]; [|reflexivity|reflexivity].
  rewrite (first_date_ext _ (try_type E (with_order (clone (to_internal (c1 E cfg))) (order_for E (c1 E cfg) ld)) (text_of E s) a b fs)); [reflexivity|]. intros ty. apply wd_type.
Qed.
Lemma one_selected cfg code s ld : db_get D code = Some ld -> u_locales cfg = [code] -> selection E D det cfg s = Ok [ld].
Proof.
  intros G EL. unfold selection. rewrite EL. unfold get_locales. cbn [pick_locales mem existsb]. unfold known. rewrite G. cbn [negb existsb rbind rev app].
  destruct (u_given_order cfg); cbn [sort_by fold_right insert_by fetch]; rewrite G; reflexivity.
Qed.

(** the shared beginning of the calls *)
Definition early (p : pstate) (cfg : uconfig) (s : str) (fs : list str) : option (res ret) :=
  if existsb (fun t => TNoSpaces <? t) (p_types p) then Some (Ok (zero_date, Some EParserType))
  else if negb (validate U (c1 E cfg)) then Some (Ok (zero_date, Some EConfig))
  else if negb (date_is_zero (formatted_parse E (to_internal (c1 E cfg)) s fs)) then Some (Ok (formatted_parse E (to_internal (c1 E cfg)) s fs, None))
  else None.
Lemma early_loc p cfg l s fs : early p (set_locales cfg l) s fs = early p cfg s fs. Proof. reflexivity. Qed.
Lemma early_prev p cfg l s fs : early p (set_previous cfg l) s fs = early p cfg s fs. Proof. reflexivity. Qed.
Lemma early_def p cfg l s fs : early p (set_defaults cfg l) s fs = early p cfg s fs.
Proof. unfold early. rewrite internal_def, wd_formatted. reflexivity. Qed.
Lemma answer_closed p cfg s fs : (forall l, In l (p_used p) -> sound l) ->
  answer E D det p cfg s fs =
  match early p cfg s fs with
  | Some a => a
  | None => match not_found_empty (selection E D det cfg s) with
            | Ok lds => ans E p cfg s fs (List.find (good E p cfg s fs) (chosen_locales E D p cfg s lds))
            | Err e => Ok (zero_date, Some e)
            | Panic => Panic
            end
  end.
Proof.
  intros SU. unfold answer. rewrite (parse_closed E D det TS NM) by exact SU. unfold early. destruct (existsb _ _); [reflexivity|]. destruct (negb _); [reflexivity|]. destruct (negb _); reflexivity.
Qed.
Lemma same_good p cfg cfg' s fs : (forall ld, date_of E p cfg' s fs ld = date_of E p cfg s fs ld) -> forall ld, good E p cfg' s fs ld = good E p cfg s fs ld.
Proof. intros H ld. unfold good. now rewrite H. Qed.
Lemma same_ans p cfg cfg' s fs o : (forall ld, date_of E p cfg' s fs ld = date_of E p cfg s fs ld) -> ans E p cfg' s fs o = ans E p cfg s fs o.
Proof. intros H. destruct o as [ld|]; cbn [ans]; [now rewrite H|reflexivity]. Qed.
Lemma find_ext_in {A} (f g : A -> bool) l : (forall x, In x l -> f x = g x) -> List.find f l = List.find g l.
Proof. induction l as [|x l IH]; cbn [List.find]; intros H; [reflexivity|]. rewrite H by (now left). destruct (g x); [reflexivity|]. apply IH. intros; apply H; now right. Qed.
Lemma date_only p cfg code s fs ld : date_of E p (only cfg code) s fs ld = date_of E p cfg s fs ld.
Proof. unfold only. now rewrite date_loc, date_def, date_prev. Qed.
Lemma date_forced p cfg code l s fs ld : date_of E p (forced cfg code l) s fs ld = date_of E p cfg s fs ld.
Proof. unfold forced. now rewrite date_loc, date_def, date_prev. Qed.
Lemma app_only cfg code s ld : app_ E (only cfg code) s ld = app_ E cfg s ld.
Proof. unfold only. now rewrite app_loc, app_def, app_prev. Qed.
(** one locale *)
Lemma answer_only p cfg code s fs ld : (forall l, In l (p_used p) -> sound l) -> db_get D code = Some ld ->
  answer E D det p (only cfg code) s fs =
  match early p cfg s fs with
  | Some a => a
  | None => ans E p cfg s fs (if app_ E cfg s ld && good E p cfg s fs ld then Some ld else None)
  end.
Proof.
  intros SU G. rewrite answer_closed by exact SU. rewrite (one_selected (only cfg code) code s ld G eq_refl). cbn [not_found_empty].
  unfold only at 1. rewrite early_loc, early_def, early_prev. destruct (early p cfg s fs); [reflexivity|].
  rewrite (same_ans p cfg) by (intros; apply date_only). f_equal.
  rewrite (find_ext_in _ (good E p cfg s fs)) by (intros; apply same_good; intros; apply date_only).
  unfold chosen_locales, remembered, defaults. cbn [only set_locales set_defaults set_previous u_try_prev u_deflang filter app named_in map mem existsb negb]. rewrite app_only. cbn [app filter]. rewrite !app_nil_r, andb_true_r.
  destruct (app_ E cfg s ld); cbn [List.find andb]; [|reflexivity]. destruct (good E p cfg s fs ld); reflexivity.
Qed.
Lemma answer_forced p cfg code lang s fs ld : (forall l, In l (p_used p) -> sound l) -> db_get D code = Some ld ->
  get_locales E D [] [lang] (u_region cfg) (u_given_order cfg) false = Ok [ld] ->
  answer E D det p (forced cfg code lang) s fs =
  match early p cfg s fs with
  | Some a => a
  | None => ans E p cfg s fs (if good E p cfg s fs ld then Some ld else None)
  end.
Proof.
  intros SU G GL. rewrite answer_closed by exact SU. rewrite (one_selected (forced cfg code lang) code s ld G eq_refl). cbn [not_found_empty].
  unfold forced at 1. rewrite early_loc, early_def, early_prev. destruct (early p cfg s fs); [reflexivity|].
  rewrite (same_ans p cfg) by (intros; apply date_forced). f_equal.
  rewrite (find_ext_in _ (good E p cfg s fs)) by (intros; apply same_good; intros; apply date_forced).
  unfold chosen_locales, remembered, defaults. cbn [forced set_locales set_defaults set_previous u_try_prev u_deflang u_region u_given_order filter app named_in map mem existsb negb]. rewrite GL. cbn [app filter]. rewrite andb_true_r.
  destruct (app_ E _ s ld); cbn [app filter named_in map mem existsb]; rewrite ?eqs_refl; cbn [orb negb List.find andb app filter]; destruct (good E p cfg s fs ld); reflexivity.
Qed.
End L.
Lemma first_const a l : l <> [] -> (forall x, In x l -> x = a) -> first_answer l = a.
Proof.
  induction l as [|x [|y r] IH]; intros HN H; [congruence|apply H; now left|]. rewrite (H x) by (now left). cbn [first_answer]. destruct a as [[d [e|]]|e|]; try reflexivity. apply IH; [discriminate|]. intros z Hz. apply H. now right.
Qed.
Lemma first_ans E p cfg s fs (h : locale -> bool) lds : lds <> [] ->
  first_answer (map (fun ld => ans E p cfg s fs (if h ld then Some ld else None)) lds) = ans E p cfg s fs (List.find h lds).
Proof.
  induction lds as [|x [|y r] IH]; intros HN; [congruence|reflexivity|]. specialize (IH ltac:(discriminate)). cbn [map] in IH |- *. cbn [List.find] in IH |- *. destruct (h x); [reflexivity|]. exact IH.
Qed.
Lemma reach_named D det p ld : db_named D -> reachable D det p -> In ld (p_used p) -> db_get D (ld_name ld) = Some ld.
Proof.
  intros NM RE HI. pose proof (reachable_from D det (fun ld => db_get D (ld_name ld) = Some ld) p) as R. rewrite Forall_forall in R. apply R; [|exact RE|exact HI].
  intros n l G. destruct (NM _ _ G) as [-> _]. exact G.
Qed.

(** ** Theorems *)
(** The locales that the configuration selects (by Locales, Languages, Region or the detection function) are tried one after the other:
    the call returns what the first call for one of them alone returns. *)
Theorem C61_each_locale : forall E D det p cfg s formats lds, tables_sound D -> db_named D -> reachable D det p ->
  u_try_prev cfg = false -> u_deflang cfg = [] ->
  get_locales E D (u_locales cfg) (detected_languages det cfg (normalize_string (e_uni E) (sanitize_date (e_uni E) s))) (u_region cfg) (u_given_order cfg) false = Ok lds ->
  answer E D det p cfg s formats = first_answer (map (fun ld => answer E D det p (only cfg (ld_name ld)) s formats) lds).
Proof.
  intros E D det p cfg s fs lds TS NM RE HP HD HS. pose proof (reachable_sound D det p TS RE) as SU. assert (HS' : selection E D det cfg s = Ok lds) by (unfold selection, text_of; exact HS). clear HS. rename HS' into HS.
  assert (NE : lds <> []) by (exact (proj1 (C30_selected_locales E D _ _ _ _ _ _ NM HS))).
  assert (EQ : map (fun ld => answer E D det p (only cfg (ld_name ld)) s fs) lds = map (fun ld => match early E p cfg s fs with Some a => a | None => ans E p cfg s fs (if app_ E cfg s ld && good E p cfg s fs ld then Some ld else None) end) lds).
  { apply map_ext_in. intros ld HI. apply (answer_only E D det TS NM); [exact SU|]. eapply (selected_named E D det NM); eassumption. }
  rewrite EQ. clear EQ. rewrite (answer_closed E D det TS NM) by exact SU. rewrite HS. cbn [not_found_empty]. destruct (early E p cfg s fs) as [a|].
  - symmetry. apply first_const; [destruct lds; [congruence|discriminate]|]. intros x HX. apply in_map_iff in HX as (? & <- & _). reflexivity.
  - rewrite first_ans by exact NE. f_equal. unfold chosen_locales, remembered, defaults. rewrite HP, HD. cbn [app filter]. rewrite app_nil_r, find_filter. apply find_ext_in. intros x _. unfold named_in. cbn [map mem existsb negb]. now rewrite andb_true_r.
Qed.
Print Assumptions C61_each_locale.

(** DefaultLanguages matter only if the call without them finds nothing; then their locales are tried one after the other, even if
    their words do not occur in the text. [langs] are the default languages in the order in which they are tried, [dl] their locales. *)
Theorem C61_default_languages : forall E D det p cfg s formats langs dl, tables_sound D -> db_named D -> reachable D det p ->
  u_try_prev cfg = false -> langs <> [] ->
  get_locales E D [] (u_deflang cfg) (u_region cfg) (u_given_order cfg) false = Ok dl ->
  Forall2 (fun l ld => get_locales E D [] [l] (u_region cfg) (u_given_order cfg) false = Ok [ld]) langs dl ->
  u_deflang cfg <> [] ->
  answer E D det p cfg s formats =
  match answer E D det p (set_defaults cfg []) s formats with
  | Ok (_, Some ENoParse) => first_answer (map (fun '(l, ld) => answer E D det p (forced cfg (ld_name ld) l) s formats) (combine langs dl))
  | a => a
  end.
Proof.
  intros E D det p cfg s fs langs dl TS NM RE HP HL HG F HD. pose proof (reachable_sound D det p TS RE) as SU.
  assert (EQ : map (fun '(l, ld) => answer E D det p (forced cfg (ld_name ld) l) s fs) (combine langs dl) = map (fun ld => match early E p cfg s fs with Some a => a | None => ans E p cfg s fs (if good E p cfg s fs ld then Some ld else None) end) dl).
  { assert (ND : forall ld, In ld dl -> db_get D (ld_name ld) = Some ld) by (intros ld HI; apply (proj1 (proj1 (proj2 (proj2 (C30_selected_locales E D _ _ _ _ _ _ NM HG))) ld) HI)).
    clear HG HL. induction F as [|l ld langs dl GL F IH]; [reflexivity|]. cbn [combine map]. rewrite IH by (intros; apply ND; now right). f_equal. apply (answer_forced E D det TS NM); [exact SU|apply ND; now left|exact GL]. }
  rewrite EQ. clear EQ. assert (NE : dl <> []) by (destruct F; congruence).
  rewrite !(answer_closed E D det TS NM) by exact SU. rewrite early_def. change (selection E D det (set_defaults cfg []) s) with (selection E D det cfg s).
  assert (EE : forall a, early E p cfg s fs = Some a -> match a with Ok (_, Some ENoParse) => False | _ => True end).
  { intros a. unfold early. destruct (existsb _ _); [intros X; assert (a = Ok (zero_date, Some EParserType)) as -> by congruence; exact I|]. destruct (negb _); [intros X; assert (a = Ok (zero_date, Some EConfig)) as -> by congruence; exact I|].
    destruct (negb _); [|discriminate]. intros X. assert (a = Ok (formatted_parse E (to_internal (c1 E cfg)) s fs, None)) as -> by congruence. exact I. }
  destruct (early E p cfg s fs) as [a|]; [specialize (EE a eq_refl); destruct a as [[d [[]|]]|e|]; try reflexivity; destruct EE|]. clear EE.
  assert (DF : defaults E D cfg = dl). { unfold defaults. destruct (u_deflang cfg); [congruence|]. now rewrite HG. }
  assert (SE : forall e, selection E D det cfg s = Err e -> e <> ENoParse).
  { intros e. unfold selection, get_locales. destruct (match u_locales cfg with [] => _ | _ => _ end) as [nm|e'|] eqn:PK; cbn [rbind]; [destruct (fetch D _); [intros X; assert (e = ENotFound) as -> by congruence; discriminate|discriminate]| |discriminate].
    intros X. assert (e' = e) as -> by congruence. clear X. intros ->. destruct (u_locales cfg) as [|l0 ls].
    - assert (X : forall r ls a b u, pick_languages D r ls a b u <> Err ENoParse); [|now apply X in PK]. intros r. induction ls as [|l ls IH]; intros a b u; cbn [pick_languages]; [destruct u; discriminate|]. destruct (mem l b); [apply IH|]. cbv zeta. destruct (negb (mem l (db_langs D))); [apply IH|]. destruct (mem _ a); [apply IH|]. destruct (negb _); apply IH.
    - assert (X : forall al ls a b u, pick_locales E D al ls a b u <> Err ENoParse); [|now apply X in PK]. intros al. clear. induction ls as [|l ls IH]; intros a b u; cbn [pick_locales]; [destruct u; discriminate|]. destruct (mem l a); [apply IH|]. destruct (negb _); [apply IH|]. destruct al; [apply IH|]. cbv zeta. destruct (mem _ b); [discriminate|apply IH]. }
  assert (NS : forall lds ld, not_found_empty (selection E D det cfg s) = Ok lds -> In ld lds -> db_get D (ld_name ld) = Some ld).
  { intros lds ld HS HI. destruct (selection E D det cfg s) as [l|e|] eqn:G; [|assert (lds = []) as -> by (destruct e; cbn in HS; congruence); destruct HI|discriminate HS].
    cbn [not_found_empty] in HS. assert (l = lds) by congruence. subst l. eapply (selected_named E D det NM); eassumption. }
  destruct (not_found_empty (selection E D det cfg s)) as [lds|e|] eqn:NF.
  2: { destruct (selection E D det cfg s) as [l|e'|] eqn:G; [discriminate NF| |discriminate NF]. specialize (SE e' eq_refl). assert (e = e') as -> by (destruct e'; cbn in NF; congruence). destruct e'; (reflexivity || congruence). }
  2: reflexivity.
  specialize (NS lds). rewrite first_ans by exact NE. rewrite (same_ans E p cfg (set_defaults cfg []) s fs) by (intros; apply date_def).
  assert (FE : forall l, List.find (good E p (set_defaults cfg []) s fs) l = List.find (good E p cfg s fs) l) by (intros l; apply find_ext_in; intros x _; apply same_good; intros; apply date_def). with_strategy opaque [good] (rewrite FE). clear FE.
  assert (C1 : chosen_locales E D p (set_defaults cfg []) s lds = filter (app_ E cfg s) lds).
  { unfold chosen_locales, remembered, defaults. change (u_try_prev (set_defaults cfg [])) with (u_try_prev cfg). rewrite HP. cbn [set_defaults u_deflang app filter]. rewrite app_nil_r. apply filter_ext. intros x. rewrite app_def. unfold named_in. cbn [map mem existsb negb]. now rewrite andb_true_r. }
  assert (C2 : chosen_locales E D p cfg s lds = filter (app_ E cfg s) lds ++ filter (fun ld => negb (named_in ld (filter (app_ E cfg s) lds))) dl).
  { unfold chosen_locales, remembered. rewrite HP, DF. cbv zeta. cbn [app]. rewrite (filter_ext (fun ld => app_ E cfg s ld && negb (named_in ld [])) (app_ E cfg s)); [reflexivity|]. intros x. unfold named_in. cbn [map mem existsb negb]. now rewrite andb_true_r. }
  rewrite C1, C2. clear C1 C2.
  assert (FA : forall (f : locale -> bool) a b, List.find f (a ++ b) = match List.find f a with Some x => Some x | None => List.find f b end) by (intros f a b; induction a as [|x a IH]; cbn [app List.find]; [reflexivity|]; destruct (f x); [reflexivity|exact IH]).
  rewrite FA. destruct (List.find (good E p cfg s fs) (filter (app_ E cfg s) lds)) as [x|] eqn:FF; [reflexivity|]. cbn [ans]. f_equal. rewrite find_filter. apply find_ext_in. intros x HX.
  destruct (named_in x (filter (app_ E cfg s) lds)) eqn:NI; [|reflexivity]. cbn [negb andb]. unfold named_in in NI. apply mem_In, in_map_iff in NI as (y & EY & HY).
  assert (y = x) as ->. { assert (X : Some y = Some x); [|now injection X]. apply filter_In in HY as [HY _]. rewrite <- (NS y eq_refl HY), EY. apply (proj1 (proj1 (proj2 (proj2 (C30_selected_locales E D _ _ _ _ _ _ NM HG))) x) HX). }
  symmetry. exact (find_none _ _ FF x HY).
Qed.
Print Assumptions C61_default_languages.

(** TryPreviousLocales adds at most one locale, which the parser remembers, in front of the others: the answer is that of the call without
    memory, or that of a remembered locale alone, which then is a success *)
Theorem C61_previous_locales : forall E D det p cfg s formats, tables_sound D -> db_named D -> reachable D det p ->
  answer E D det p cfg s formats = answer E D det p (set_previous cfg false) s formats \/
  (u_try_prev cfg = true /\ exists ld d, In ld (p_used p) /\ d_locale d = ld_name ld /\
   answer E D det p cfg s formats = Ok (d, None) /\ answer E D det p (only cfg (ld_name ld)) s formats = Ok (d, None)).
Proof.
  intros E D det p cfg s fs TS NM RE. pose proof (reachable_sound D det p TS RE) as SU. destruct (u_try_prev cfg) eqn:TP.
  2: { left. f_equal. destruct cfg; cbn [Setting.u_try_prev] in TP; rewrite TP; reflexivity. }
  rewrite !(answer_closed E D det TS NM) by exact SU. rewrite early_prev. change (selection E D det (set_previous cfg false) s) with (selection E D det cfg s).
  destruct (early E p cfg s fs) as [a|] eqn:EA; [now left|]. 
  destruct (not_found_empty (selection E D det cfg s)) as [lds|e|] eqn:NF; [|now left|now left].
  assert (NS : forall ld, In ld lds -> db_get D (ld_name ld) = Some ld).
  { intros ld HI. destruct (selection E D det cfg s) as [l|e|] eqn:G; [|assert (lds = []) as -> by (destruct e; cbn in NF; congruence); destruct HI|discriminate NF].
    cbn [not_found_empty] in NF. assert (l = lds) by congruence. subst l. eapply (selected_named E D det NM); eassumption. }
  change (ans E p (set_previous cfg false) s fs) with (ans E p cfg s fs). change (good E p (set_previous cfg false) s fs) with (good E p cfg s fs).
  unfold chosen_locales. cbv zeta. unfold remembered. change (u_try_prev (set_previous cfg false)) with false. rewrite TP. change (defaults E D (set_previous cfg false)) with (defaults E D cfg).
  cbn [app]. destruct (List.find (app_ E cfg s) (p_used p)) as [ld|] eqn:FP; [|left; reflexivity].
  apply find_some in FP as [HI HA]. destruct (good E p cfg s fs ld) eqn:GD.
  - right. split; [reflexivity|]. exists ld, (with_locale (date_of E p cfg s fs ld) (ld_name ld)). split; [exact HI|]. split; [reflexivity|]. cbn [app List.find]. rewrite GD. split; [reflexivity|].
    rewrite (answer_only E D det TS NM p cfg (ld_name ld) s fs ld SU) by (eapply reach_named; eassumption). rewrite EA, HA, GD. reflexivity.
  - left. f_equal. cbn [app List.find]. rewrite GD.
    assert (SAME : forall l, (forall x, In x l -> db_get D (ld_name x) = Some x) -> forall x, In x l -> ld_name x = ld_name ld -> x = ld).
    { intros l HL x HX EQ. assert (X : Some x = Some ld); [|now injection X]. rewrite <- (HL x HX), EQ. eapply reach_named; eassumption. }
    assert (FA : forall (f : locale -> bool) a b, List.find f (a ++ b) = match List.find f a with Some x => Some x | None => List.find f b end) by (intros f a b; induction a as [|x a IH]; cbn [app List.find]; [reflexivity|]; destruct (f x); [reflexivity|exact IH]).
    rewrite !FA, !find_filter.
    assert (F1 : List.find (fun x => app_ E cfg s x && negb (named_in x [ld]) && good E p cfg s fs x) lds = List.find (fun x => app_ E (set_previous cfg false) s x && negb (named_in x []) && good E p cfg s fs x) lds).
    { apply find_ext_in. intros x HX. change (app_ E (set_previous cfg false) s x) with (app_ E cfg s x). unfold named_in. cbn [map mem existsb]. rewrite orb_false_r. destruct (eqs_spec (ld_name x) (ld_name ld)) as [EQ|]; [|reflexivity]. apply (SAME lds NS x HX) in EQ as ->. rewrite GD. now rewrite !andb_false_r. }
    rewrite F1. clear F1. destruct (List.find _ lds); [reflexivity|].
    apply find_ext_in. intros x HX. destruct (eqs_spec (ld_name x) (ld_name ld)) as [EQ|NEQ].
    { apply (SAME (defaults E D cfg)) in EQ as ->; [|intros y; apply (defaults_named E D NM)|exact HX]. rewrite GD. now rewrite !andb_false_r. }
    f_equal. f_equal. unfold named_in at 1 3. cbn [map]. unfold mem at 1. cbn [existsb]. fold (mem (ld_name x)). destruct (eqs_spec (ld_name x) (ld_name ld)) as [EQ|]; [contradiction|]. cbn [orb].
    match goal with |- existsb (eqs ?a) ?l = _ => change (existsb (eqs a) l) with (mem a l) end. apply eq_true_iff_eq. rewrite !mem_In, !in_map_iff. split; intros (y & EY & HY); exists y; (split; [exact EY|]); apply filter_In in HY as [H1 H2]; apply filter_In; (split; [exact H1|]); apply andb_true_iff in H2 as [H2 H3]; change (app_ E (set_previous cfg false) s y) with (app_ E cfg s y) in *; rewrite H2; cbn [andb]; unfold named_in; cbn [map mem existsb]; [reflexivity|]. rewrite orb_false_r. destruct (eqs_spec (ld_name y) (ld_name ld)); [congruence|reflexivity].
Qed.
Print Assumptions C61_previous_locales.

(** in particular, with any memory: a call that finds something without the default languages finds the same with them *)
Theorem C61_default_no_effect : forall E D det p cfg s formats d, tables_sound D -> db_named D -> reachable D det p ->
  answer E D det p (set_defaults cfg []) s formats = Ok (d, None) -> answer E D det p cfg s formats = Ok (d, None).
Proof.
  intros E D det p cfg s fs d TS NM RE. pose proof (reachable_sound D det p TS RE) as SU. rewrite !(answer_closed E D det TS NM) by exact SU. rewrite early_def. change (selection E D det (set_defaults cfg []) s) with (selection E D det cfg s).
  destruct (early E p cfg s fs); [auto|]. destruct (not_found_empty (selection E D det cfg s)) as [lds|e|]; [|discriminate|discriminate]. rewrite (same_ans E p cfg (set_defaults cfg []) s fs) by (intros; apply date_def).
  assert (FE : forall l, List.find (good E p (set_defaults cfg []) s fs) l = List.find (good E p cfg s fs) l) by (intros l; apply find_ext_in; intros x _; apply same_good; intros; apply date_def). rewrite FE. clear FE.
  assert (RM : remembered E p (set_defaults cfg []) s = remembered E p cfg s).
  { unfold remembered. change (u_try_prev (set_defaults cfg [])) with (u_try_prev cfg). destruct (u_try_prev cfg); [|reflexivity]. rewrite (find_ext_in (app_ E (set_defaults cfg []) s) (app_ E cfg s)) by (intros; apply app_def). reflexivity. }
  unfold chosen_locales. cbv zeta. rewrite RM. rewrite (filter_ext (fun ld => app_ E (set_defaults cfg []) s ld && negb (named_in ld (remembered E p cfg s))) (fun ld => app_ E cfg s ld && negb (named_in ld (remembered E p cfg s)))) by (intros x; now rewrite app_def).
  set (r := remembered E p cfg s ++ _). change (defaults E D (set_defaults cfg [])) with (@nil locale). cbn [filter]. rewrite app_nil_r.
  assert (FA : forall (f : locale -> bool) a b, List.find f (a ++ b) = match List.find f a with Some x => Some x | None => List.find f b end) by (intros f a b; induction a as [|x a IH]; cbn [app List.find]; [reflexivity|]; destruct (f x); [reflexivity|exact IH]).
  rewrite FA. destruct (List.find (good E p cfg s fs) r); [auto|discriminate].
Qed.
Print Assumptions C61_default_no_effect.

(** Locales with UseGivenOrder: known, each once, no two of one language; then they are tried as listed *)
Lemma fetch_named D l : db_named D -> (forall c, In c l -> known D c = true) -> map ld_name (fetch D l) = l.
Proof.
  intros NM. induction l as [|c l IH]; intros HK; [reflexivity|]. cbn [fetch]. pose proof (HK c (or_introl eq_refl)) as K. unfold known in K. destruct (db_get D c) as [ld|] eqn:G; [|discriminate K].
  cbn [map]. rewrite IH by (intros; apply HK; now right). f_equal. now destruct (NM _ _ G).
Qed.
Lemma firsts_nodup l : NoDup l -> firsts [] l = l.
Proof.
  intros ND. rewrite firsts_keep. induction ND as [|x l HN ND IH]; [reflexivity|]. cbn [keep_first]. rewrite IH. f_equal. assert (FI : forall k, incl k l -> filter (fun y => negb (eqs x y)) k = k); [|apply FI, incl_refl]. induction k as [|y k IK]; intros HI; [reflexivity|]. cbn [filter]. destruct (eqs_spec x y) as [EQ|]; [elim HN; rewrite EQ; apply HI; now left|]. cbn [negb]. f_equal. apply IK. intros z HZ. apply HI. now right.
Qed.
Theorem C61_given_locales : forall E D det p cfg s formats, tables_sound D -> db_named D -> reachable D det p ->
  u_try_prev cfg = false -> u_deflang cfg = [] -> u_given_order cfg = true -> u_locales cfg <> [] -> NoDup (u_locales cfg) ->
  (forall code, In code (u_locales cfg) -> exists ld, db_get D code = Some ld) ->
  (forall a b, In a (u_locales cfg) -> In b (u_locales cfg) -> remove_region (e_uni E) a = remove_region (e_uni E) b -> a = b) ->
  answer E D det p cfg s formats = first_answer (map (fun code => answer E D det p (only cfg code) s formats) (u_locales cfg)).
Proof.
  intros E D det p cfg s fs TS NM RE HP HD HO HN ND HK HC.
  assert (KN : forall c, In c (u_locales cfg) -> known D c = true) by (intros c HI; destruct (HK c HI) as (ld & G); unfold known; now rewrite G).
  assert (PL : pick_locales E D false (u_locales cfg) [] [] [] = Ok (u_locales cfg)).
  { assert (H0 : forall x : str, In x [] -> known D x = true) by (intros ? []). destruct (pick_noallow E D (u_locales cfg) [] [] [] eq_refl (NoDup_nil _) H0) as [[(a & b & Ha & Hb & NE & _ & _ & RR) _]|[_ ->]].
    - cbn [app] in Ha, Hb. elim NE. now apply HC.
    - rewrite firsts_nodup by exact ND. unfold all_known. replace (forallb (known D) (u_locales cfg)) with true by (symmetry; apply forallb_forall; exact KN). reflexivity. }
  set (lds := fetch D (u_locales cfg)).
  assert (NL : map ld_name lds = u_locales cfg) by (apply fetch_named; assumption).
  rewrite (C61_each_locale E D det p cfg s fs lds TS NM RE HP HD).
  - rewrite <- (map_map ld_name (fun code => answer E D det p (only cfg code) s fs)), NL. reflexivity.
  - unfold get_locales. rewrite HO. destruct (u_locales cfg) as [|c0 r0] eqn:UL; [congruence|]. rewrite PL. cbn [rbind]. unfold lds in *. destruct (fetch D (c0 :: r0)); [discriminate NL|reflexivity].
Qed.
Print Assumptions C61_given_locales.

(** the conditions hold of the library's tables *)
Theorem C61_library : forall E det p cfg s formats, reachable full_db det p ->
  u_try_prev cfg = false -> u_deflang cfg = [] -> u_given_order cfg = true -> u_locales cfg <> [] -> NoDup (u_locales cfg) ->
  (forall code, In code (u_locales cfg) -> In code (map fst full_table)) ->
  (forall a b, In a (u_locales cfg) -> In b (u_locales cfg) -> remove_region (e_uni E) a = remove_region (e_uni E) b -> a = b) ->
  answer E full_db det p cfg s formats = first_answer (map (fun code => answer E full_db det p (only cfg code) s formats) (u_locales cfg)).
Proof.
  intros E det p cfg s fs RE HP HD HO HN ND HK HC. apply C61_given_locales; try assumption; [exact full_sound|exact full_named|]. intros code HI. destruct (keys_known code (HK code HI)) as (ld & G & _). now exists ld.
Qed.
Print Assumptions C61_library.

(** ** Cases *)
Definition cfg61 : uconfig := {| u_locales := map lit ["de"; "en"; "es"]%string; u_languages := []; u_region := []; u_try_prev := false; u_given_order := true; u_deflang := []; u_order := None;
   u_now := utc_at 2016 2 28 10 0 0; u_tz := None; u_pday := 0; u_pmonth := 0; u_src := 0; u_strict := false; u_required := []; u_skip := []; u_timeperiod := false; u_preserve := false |}.
(** "10 marzo 2015" is not German, not English, but Spanish; "12. März 2015" is German *)
Example C61_case : 
  shows (answer env0 db0 None (new_parser []) cfg61 (lit "10 marzo 2015") []) 2015 3 10 0 0 0 0 PDay (lit "es") /\
  answer env0 db0 None (new_parser []) (only cfg61 (lit "de")) (lit "10 marzo 2015") [] = Ok (zero_date, Some ENoParse).
Proof. split; [apply shows_by|]; vm_compute; reflexivity. Qed.
Example C61_case_conditions : u_locales cfg61 <> [] /\ NoDup (u_locales cfg61) /\
  (forall code, In code (u_locales cfg61) -> In code (map fst full_table)) /\
  (forall a b, In a (u_locales cfg61) -> In b (u_locales cfg61) -> remove_region (e_uni env0) a = remove_region (e_uni env0) b -> a = b).
Proof.
  split; [discriminate|]. split; [|split].
  - cbn. repeat constructor; cbn; intros H; repeat (destruct H as [H|H]; [discriminate H|]); exact H.
  - intros code HI. apply (proj1 (mem_In code (map fst full_table))). destruct HI as [<-|[<-|[<-|[]]]]; vm_compute; reflexivity.
  - intros a b [<-|[<-|[<-|[]]]] [<-|[<-|[<-|[]]]]; try reflexivity; vm_compute; discriminate.
Qed.
(** the order counts: 3/10/2015 is 3 October in German, 10 March in English *)
Example C61_case_order :
  shows (answer env0 db0 None (new_parser []) cfg61 (lit "3/10/2015") []) 2015 10 3 0 0 0 0 PDay (lit "de") /\
  shows (answer env0 db0 None (new_parser []) (set_locales cfg61 (map lit ["en"; "de"]%string)) (lit "3/10/2015") []) 2015 3 10 0 0 0 0 PDay (lit "en").
Proof. split; apply shows_by; vm_compute; reflexivity. Qed.
(** default languages: German fails, Spanish is tried *)
Example C61_case_default : let cfg := set_defaults (set_locales cfg61 [lit "de"]) [lit "fi"; lit "es"] in
  shows (answer env0 db0 None (new_parser []) cfg (lit "10 marzo 2015") []) 2015 3 10 0 0 0 0 PDay (lit "es") /\
  answer env0 db0 None (new_parser []) (set_defaults cfg []) (lit "10 marzo 2015") [] = Ok (zero_date, Some ENoParse) /\
  exists dl, get_locales env0 db0 [] (u_deflang cfg) (u_region cfg) (u_given_order cfg) false = Ok dl /\
    Forall2 (fun l ld => get_locales env0 db0 [] [l] (u_region cfg) (u_given_order cfg) false = Ok [ld]) (u_deflang cfg) dl.
Proof.
  split; [apply shows_by; vm_compute; reflexivity|]. split; [vm_compute; reflexivity|]. eexists. split; [reflexivity|]. constructor; [reflexivity|]. constructor; [reflexivity|]. constructor.
Qed.
