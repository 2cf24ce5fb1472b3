(** C63: the formats given to Parse are alternatives; C06: so are the ParserTypes *)
From Verif Require Import GoBase SMap Regex GoTime Setting Strutil Timezone Env Formatted GoTimeParse Language Parser History Spec Shows
  ParserFacts LocaleFacts SelectFacts Prop_Parser Prop_Locale Prop_Total NumLift ComposeFacts Concrete LocaleData LocaleAll Prop_Data Prop_Vocabulary Prop_Compose Prop_Formatted Prop_Numeric.

(** ** Specification *)
(** the call returns a date *)
Definition succeeds (r : res ret) : Prop := exists d, r = Ok (d, None).
(** [f] reads [t] (with Go's time.ParseInLocation) and the result is the zero time: 1 January of the year 1, 00:00:00 UTC. Parse takes
    that for a failure, but does not go on with the next format *)
Definition reads_as_zero (E : env) (cfg : uconfig) (f t : str) : Prop :=
  let icfg := to_internal (initiate (e_now E) cfg) in
  time_parse_in f t (fmt_loc E icfg t) <> None /\ date_is_zero (formatted_parse E icfg t [f]) = true.
(** the texts that are compared with the formats: the text itself and its translations by the locales *)
Definition compared (E : env) (D : langdb) (cfg : uconfig) (s t : str) : Prop :=
  t = s \/ exists n ld trs, db_get D n = Some ld /\ translate E (to_internal (initiate (e_now E) cfg)) ld (sanitize_date (e_uni E) s) true = Ok trs /\ In t trs.
Definition never_zero (E : env) (D : langdb) (cfg : uconfig) (s : str) (formats : list str) : Prop :=
  forall f t, In f formats -> compared E D cfg s t -> ~ reads_as_zero E cfg f t.

(** ** Alternatives *)
(** [X None] is a first success among alternatives [X g]: it is that of one of them, and fails only if all fail *)
Section A.
Variables (I : Type) (G : list I).
(** one date *)
Definition amal (x0 : date) (x : I -> date) : Prop :=
  (date_is_zero x0 = true /\ forall g, In g G -> date_is_zero (x g) = true) \/ (date_is_zero x0 = false /\ exists g, In g G /\ x g = x0).
Definition answer_in (x : locale -> date) (lds : list locale) : res ret :=
  match List.find (fun ld => negb (date_is_zero (x ld))) lds with
  | Some ld => Ok (with_locale (x ld) (ld_name ld), None)
  | None => Ok (zero_date, Some ENoParse)
  end.
Lemma amal_locales (x0 : locale -> date) (x : I -> locale -> date) : G <> [] -> forall lds, (forall ld, In ld lds -> amal (x0 ld) (fun g => x g ld)) ->
  (exists g, In g G /\ answer_in x0 lds = answer_in (x g) lds) /\
  (answer_in x0 lds = Ok (zero_date, Some ENoParse) -> forall g, In g G -> answer_in (x g) lds = Ok (zero_date, Some ENoParse)).
Proof.
  intros NG. induction lds as [|ld lds IH]; intros HA.
  - split; [|reflexivity]. destruct G as [|g G']; [congruence|]. exists g. split; [now left|reflexivity].
  - assert (HA' : forall l, In l lds -> amal (x0 l) (fun g => x g l)) by (intros; apply HA; now right). specialize (IH HA'). specialize (HA ld (or_introl eq_refl)).
    unfold answer_in in *. cbn [List.find]. destruct HA as [[Z ZG]|[Z (g & HG & EQ)]].
    + rewrite Z. cbn [negb]. destruct IH as [(g & HG & EQ) IH2]. split.
      * exists g. split; [exact HG|]. rewrite (ZG g HG). cbn [negb]. exact EQ.
      * intros H g' HG'. rewrite (ZG g' HG'). cbn [negb]. now apply IH2.
    + rewrite Z. cbn [negb]. split; [|discriminate]. exists g. split; [exact HG|]. rewrite EQ, Z. cbn [negb]. now rewrite EQ.
Qed.
(** a loop over candidates [l] *)
Definition amal_res (x0 : res date) (x : I -> res date) : Prop :=
  (forall g, In g G -> x g = x0) \/ (exists d0, x0 = Ok d0 /\ date_is_zero d0 = true /\ forall g, In g G -> exists d, x g = Ok d /\ date_is_zero d = true) \/
  (exists d0, x0 = Ok d0 /\ date_is_zero d0 = false /\ exists g, In g G /\ x g = x0).
Lemma amal_first {A} (f0 : A -> res date) (f : I -> A -> res date) l : (forall a, In a l -> amal_res (f0 a) (fun g => f g a)) -> amal_res (first_date f0 l) (fun g => first_date (f g) l).
Proof.
  induction l as [|a l IH]; intros H; [left; reflexivity|]. assert (IH' := IH (fun b Hb => H b (or_intror Hb))). specialize (H a (or_introl eq_refl)). cbn [first_date].
  destruct H as [H|[(d0 & E0 & Z0 & H)|(d0 & E0 & Z0 & g & HG & EG)]].
  - destruct (f0 a) as [d|e|]; cbn [rbind].
    + destruct (date_is_zero d) eqn:Z.
      * destruct IH' as [K|[(d1 & E1 & Z1 & K)|(d1 & E1 & Z1 & g & HG & K)]].
        -- left. intros g HG. rewrite (H g HG). cbn [rbind]. rewrite Z. now apply K.
        -- right. left. exists d1. split; [exact E1|]. split; [exact Z1|]. intros g HG. rewrite (H g HG). cbn [rbind]. rewrite Z. now apply K.
        -- right. right. exists d1. split; [exact E1|]. split; [exact Z1|]. exists g. split; [exact HG|]. rewrite (H g HG). cbn [rbind]. rewrite Z. exact K.
      * left. intros g HG. rewrite (H g HG). cbn [rbind]. now rewrite Z.
    + left. intros g HG. now rewrite (H g HG).
    + left. intros g HG. now rewrite (H g HG).
  - rewrite E0. cbn [rbind]. rewrite Z0. destruct IH' as [K|[(d1 & E1 & Z1 & K)|(d1 & E1 & Z1 & g & HG & K)]].
    + left. intros g HG. destruct (H g HG) as (d & -> & Z). cbn [rbind]. rewrite Z. now apply K.
    + right. left. exists d1. split; [exact E1|]. split; [exact Z1|]. intros g HG. destruct (H g HG) as (d & -> & Z). cbn [rbind]. rewrite Z. now apply K.
    + right. right. exists d1. split; [exact E1|]. split; [exact Z1|]. exists g. split; [exact HG|]. destruct (H g HG) as (d & -> & Z). cbn [rbind]. rewrite Z. exact K.
  - right. right. rewrite E0. cbn [rbind]. rewrite Z0. exists d0. split; [reflexivity|]. split; [exact Z0|]. exists g. split; [exact HG|]. rewrite EG, E0. cbn [rbind]. now rewrite Z0.
Qed.
End A.

(** ** Formats *)
Section F.
Variables (E : env) (D : langdb) (det : option (str -> list str)).
Hypothesis (TS : tables_sound D) (NM : db_named D).
Variables (cfg : uconfig) (s : str) (fs : list str).
Notation icfg := (to_internal (c1 E cfg)).
Notation G := ([] :: map (fun f => [f]) fs).
Lemma order_formatted o t gs : formatted_parse E (with_order (clone icfg) o) t gs = formatted_parse E icfg t gs.
Proof. unfold formatted_parse. change (fmt_loc E (with_order (clone icfg) o) t) with (fmt_loc E icfg t). generalize (fmt_loc E icfg t). intros loc. induction gs as [|g gs IH]; cbn [fmt_loop]; [reflexivity|]. rewrite IH. reflexivity. Qed.
Lemma fmt_one c t f : formatted_parse E c t [f] = match time_parse_in f t (fmt_loc E c t) with Some x => fmt_fill E c f x | None => zero_date end.
Proof. reflexivity. Qed.
Lemma fmt_app c t a b : formatted_parse E c t (a ++ b) = if existsb (fun f => match time_parse_in f t (fmt_loc E c t) with Some _ => true | None => false end) a then formatted_parse E c t a else formatted_parse E c t b.
Proof.
  unfold formatted_parse. generalize (fmt_loc E c t). intros loc. induction a as [|f a IH]; cbn [app fmt_loop existsb]; [reflexivity|]. destruct (time_parse_in f t loc); cbn [orb]; [reflexivity|exact IH].
Qed.
(** one text: the formats are alternatives *)
Lemma amal_text t : compared E D cfg s t -> never_zero E D cfg s fs -> amal (list str) G (formatted_parse E icfg t fs) (formatted_parse E icfg t).
Proof.
  intros HC NZ. destruct (fmt_loop_spec E icfg t (fmt_loc E icfg t) fs) as [(f & x & (b & a & EQ & HB & HT) & R)|[HF R]]; fold (formatted_parse E icfg t fs) in R.
  - right. assert (HI : In f fs) by (rewrite EQ; apply in_or_app; right; now left). assert (E1 : formatted_parse E icfg t [f] = fmt_fill E icfg f x) by (rewrite fmt_one, HT; reflexivity).
    specialize (NZ f t HI HC). unfold reads_as_zero in NZ. cbv zeta in NZ. change (to_internal (initiate (e_now E) cfg)) with icfg in NZ. split.
    + destruct (date_is_zero (formatted_parse E icfg t fs)) eqn:Z; [|reflexivity]. elim NZ. rewrite HT. split; [discriminate|]. rewrite E1, <- R. exact Z.
    + exists [f]. split; [right; apply in_map_iff; now exists f|]. now rewrite E1, R.
  - left. split; [rewrite R; reflexivity|]. intros g [<-|HG]; [reflexivity|]. apply in_map_iff in HG as (f & <- & HI). rewrite Forall_forall in HF. rewrite fmt_one, (HF f HI). reflexivity.
Qed.
Lemma amal_type st o trs trsf ty : (forall t, In t trsf -> compared E D cfg s t) -> never_zero E D cfg s fs ->
  amal_res (list str) G (try_type E (with_order (clone icfg) o) st trs trsf fs ty) (fun g => try_type E (with_order (clone icfg) o) st trs trsf g ty).
Proof.
  intros HC NZ. unfold try_type. destruct (ty =? TTimestamp); [left; reflexivity|]. destruct (ty =? TNegTimestamp); [left; reflexivity|]. destruct (ty =? TRelative); [left; reflexivity|].
  destruct (ty =? TCustom); [|destruct (ty =? TAbsolute); [left; reflexivity|]; destruct (ty =? TNoSpaces); left; reflexivity].
  unfold try_custom. apply amal_first. intros t Ht. rewrite order_formatted. destruct (amal_text t (HC t Ht) NZ) as [[Z H]|[Z (g & HG & EQ)]].
  - right. left. exists (formatted_parse E icfg t fs). split; [reflexivity|]. split; [exact Z|]. intros g HG. rewrite order_formatted. exists (formatted_parse E icfg t g). auto.
  - right. right. exists (formatted_parse E icfg t fs). split; [reflexivity|]. split; [exact Z|]. exists g. split; [exact HG|]. rewrite order_formatted. now rewrite EQ.
Qed.
Lemma order_translate o ld t b : translate E (with_order (clone icfg) o) ld t b = translate E icfg ld t b.
Proof. reflexivity. Qed.
Lemma amal_try st types ld : sanitize_date (e_uni E) s = st -> db_get D (ld_name ld) = Some ld -> never_zero E D cfg s fs ->
  amal_res (list str) G (try_locale E (c1 E cfg) icfg types st fs ld) (fun g => try_locale E (c1 E cfg) icfg types st g ld).
Proof.
  intros ES HD NZ. unfold try_locale. generalize (order_for E (c1 E cfg) ld). intros o. change (translate E (with_order (clone icfg) o)) with (translate E icfg).
  destruct (translate E icfg ld st false) as [trs|e|]; cbn [rbind]; [|left; reflexivity|left; reflexivity].
  destruct (translate E icfg ld st true) as [trsf|e|] eqn:HT; cbn [rbind]; [|left; reflexivity|left; reflexivity].
  apply amal_first. intros ty _. apply amal_type; [|exact NZ]. intros t Ht. right. exists (ld_name ld), ld, trsf. split; [exact HD|]. split; [|exact Ht]. rewrite ES. exact HT.
Qed.
Lemma text_is : sanitize_date (e_uni E) s = text_of E s. Proof. unfold text_of. reflexivity. Qed.
Lemma amal_locale p ld : db_get D (ld_name ld) = Some ld -> never_zero E D cfg s fs -> amal (list str) G (date_of E p cfg s fs ld) (fun g => date_of E p cfg s g ld).
Proof.
  intros HD NZ. assert (SO : sound ld) by exact (TS _ _ HD). pose proof (amal_try (text_of E s) (eff_types p) ld text_is HD NZ) as H.
  unfold amal_res in H. rewrite (date_ok E p cfg s fs ld SO) in H. destruct H as [H|[(d0 & E0 & Z0 & H)|(d0 & E0 & Z0 & g & HG & H)]].
  - destruct (date_is_zero (date_of E p cfg s fs ld)) eqn:Z; [left|right]; (split; [exact Z|]).
    + intros g HG. specialize (H g HG). rewrite (date_ok E p cfg s g ld SO) in H. assert (X : date_of E p cfg s g ld = date_of E p cfg s fs ld) by congruence. now rewrite X.
    + exists []. split; [now left|]. specialize (H [] (or_introl eq_refl)). rewrite (date_ok E p cfg s [] ld SO) in H. congruence.
  - left. assert (X : date_of E p cfg s fs ld = d0) by congruence. rewrite X. split; [exact Z0|]. intros g HG. destruct (H g HG) as (d & ED & ZD). rewrite (date_ok E p cfg s g ld SO) in ED. assert (Y : date_of E p cfg s g ld = d) by congruence. now rewrite Y.
  - right. assert (X : date_of E p cfg s fs ld = d0) by congruence. rewrite X. split; [exact Z0|]. exists g. split; [exact HG|]. rewrite (date_ok E p cfg s g ld SO) in H. congruence.
Qed.
End F.
(** the locales tried are among those of the database *)
Lemma chosen_named E D det p cfg s lds ld : db_named D -> reachable D det p -> not_found_empty (selection E D det cfg s) = Ok lds -> In ld (chosen_locales E D p cfg s lds) -> db_get D (ld_name ld) = Some ld.
Proof.
  intros NM RE HS. unfold chosen_locales. cbv zeta. rewrite !in_app_iff. intros [[HI|HI]|HI].
  - unfold remembered in HI. destruct (u_try_prev cfg); [|destruct HI]. destruct (List.find _ _) as [x|] eqn:F; [|destruct HI]. destruct HI as [<-|[]]. apply find_some in F as [F _]. now apply (reach_named D det p).
  - apply filter_In in HI as [HI _]. destruct (selection E D det cfg s) as [l|e|] eqn:G.
    + cbn [not_found_empty] in HS. assert (l = lds) by congruence. subst l. eapply (selected_named E D det NM); eassumption.
    + assert (lds = []) as -> by (destruct e; cbn in HS; congruence). destruct HI.
    + discriminate HS.
  - apply filter_In in HI as [HI _]. now apply (defaults_named E D NM cfg).
Qed.
Lemma ans_in E p cfg s fs lds : ans E p cfg s fs (List.find (good E p cfg s fs) lds) = answer_in (date_of E p cfg s fs) lds.
Proof. unfold ans, answer_in. change (good E p cfg s fs) with (fun ld => negb (date_is_zero (date_of E p cfg s fs ld))). destruct (List.find _ _); reflexivity. Qed.
Lemma answer_in_ok x lds : answer_in x lds = Ok (zero_date, Some ENoParse) \/ succeeds (answer_in x lds).
Proof. unfold answer_in. destruct (List.find _ _); [right; eexists; reflexivity|now left]. Qed.
Lemma not_success e : ~ succeeds (Ok (zero_date, Some e)). Proof. intros (d & X). congruence. Qed.

(** ** Theorems *)
(** Several formats: the call returns what it returns without formats or with one of them alone, and it finds a date iff one of
    these calls does. *)
Theorem C63_formats_are_alternatives : forall E D det p cfg s formats, tables_sound D -> db_named D -> reachable D det p ->
  never_zero E D cfg s formats ->
  let one f := answer E D det p cfg s [f] in let none := answer E D det p cfg s [] in let all := answer E D det p cfg s formats in
  (all = none \/ exists f, In f formats /\ all = one f) /\
  (succeeds all <-> succeeds none \/ exists f, In f formats /\ succeeds (one f)).
Proof.
  intros E D det p cfg s fs TS NM RE NZ. cbv zeta. pose proof (reachable_sound D det p TS RE) as SU. set (G := [] :: map (fun f => [f]) fs).
  enough (H : (exists g, In g G /\ answer E D det p cfg s fs = answer E D det p cfg s g) /\ (forall g, In g G -> succeeds (answer E D det p cfg s g) -> succeeds (answer E D det p cfg s fs))).
  { destruct H as [(g & HG & EQ) H2]. assert (HF : forall f, In f fs -> In [f] G) by (intros f HF; right; apply in_map_iff; now exists f). split.
    - destruct HG as [<-|HG]; [now left|]. apply in_map_iff in HG as (f & <- & HI). right. now exists f.
    - split.
      + intros HS. destruct HG as [<-|HG]; [left; now rewrite <- EQ|]. apply in_map_iff in HG as (f & <- & HI). right. exists f. rewrite <- EQ. auto.
      + intros [HS|(f & HI & HS)]; [apply (H2 []); [now left|exact HS]|]. apply (H2 [f]); auto. }
  rewrite (answer_closed E D det TS NM p cfg s fs SU). unfold early.
  destruct (existsb _ (p_types p)) eqn:T.
  { split.
    - exists []. split; [now left|]. rewrite (answer_closed E D det TS NM p cfg s [] SU). unfold early. now rewrite T.
    - intros g _. rewrite (answer_closed E D det TS NM p cfg s g SU). unfold early. now rewrite T. }
  destruct (negb (validate (e_uni E) (c1 E cfg))) eqn:V.
  { split.
    - exists []. split; [now left|]. rewrite (answer_closed E D det TS NM p cfg s [] SU). unfold early. now rewrite T, V.
    - intros g _. rewrite (answer_closed E D det TS NM p cfg s g SU). unfold early. now rewrite T, V. }
  destruct (amal_text E D cfg s fs s (or_introl eq_refl) NZ) as [[Z HZ]|[Z (g & HG & EQ)]].
  - rewrite Z. cbn [negb].
    assert (EG : forall g, In g G -> answer E D det p cfg s g = match not_found_empty (selection E D det cfg s) with
      | Ok lds => answer_in (date_of E p cfg s g) (chosen_locales E D p cfg s lds) | Err e => Ok (zero_date, Some e) | Panic => Panic end).
    { intros g HG. rewrite (answer_closed E D det TS NM p cfg s g SU). unfold early. rewrite T, V, (HZ g HG). cbn [negb]. destruct (not_found_empty _); [|reflexivity|reflexivity]. apply ans_in. }
    assert (NG : G <> []) by discriminate. destruct (not_found_empty (selection E D det cfg s)) as [lds|e|] eqn:NF.
    + rewrite ans_in. destruct (amal_locales (list str) G (date_of E p cfg s fs) (date_of E p cfg s) NG (chosen_locales E D p cfg s lds)) as [(g & HG & EQ) H2].
      { intros ld HI. apply (amal_locale E D TS cfg s fs p ld); [|exact NZ]. eapply chosen_named; eassumption. }
      split; [exists g; split; [exact HG|]; now rewrite (EG g HG)|]. intros g' HG' HS. rewrite (EG g' HG') in HS. destruct (answer_in_ok (date_of E p cfg s fs) (chosen_locales E D p cfg s lds)) as [F|F]; [|exact F].
      rewrite (H2 F g' HG') in HS. now apply not_success in HS.
    + split; [exists []; split; [now left|]; now rewrite (EG [] (or_introl eq_refl))|]. intros g HG. now rewrite (EG g HG).
    + split; [exists []; split; [now left|]; now rewrite (EG [] (or_introl eq_refl))|]. intros g HG. now rewrite (EG g HG).
  - rewrite Z. cbn [negb]. split.
    + exists g. split; [exact HG|]. rewrite (answer_closed E D det TS NM p cfg s g SU). unfold early. rewrite T, V, EQ, Z. reflexivity.
    + intros g' _ _. eexists. reflexivity.
Qed.
Print Assumptions C63_formats_are_alternatives.
(** A text that itself matches: the first format that matches decides alone, whatever the locales, the history, the detection function
    and the ParserTypes (if they are valid). *)
Theorem C63_the_text_itself : forall E D det p cfg s before f after x, Forall (fun t => t <= 5) (p_types p) -> validate (e_uni E) (initiate (e_now E) cfg) = true ->
  let zone := fmt_loc E (to_internal (initiate (e_now E) cfg)) s in
  Forall (fun g => time_parse_in g s zone = None) before -> time_parse_in f s zone = Some x -> ~ reads_as_zero E cfg f s ->
  exists d, answer E D det p cfg s (before ++ f :: after) = Ok (d, None) /\ d_locale d = [] /\
    forall D' det' p', Forall (fun t => t <= 5) (p_types p') -> answer E D' det' p' cfg s [f] = Ok (d, None).
Proof.
  intros E D det p cfg s b f a x HT HV zone HB HX NZ.
  assert (TY : forall q : pstate, Forall (fun t => t <= 5) (p_types q) -> existsb (fun t => TNoSpaces <? t) (p_types q) = false).
  { intros q HQ. apply not_true_iff_false. rewrite existsb_exists. intros (t & Ht & Hgt). rewrite Forall_forall in HQ. apply HQ in Ht. unfold TNoSpaces in Hgt. lia. }
  set (icfg := to_internal (initiate (e_now E) cfg)) in *. assert (E1 : formatted_parse E icfg s [f] = fmt_fill E icfg f x) by (rewrite fmt_one; fold zone; now rewrite HX).
  assert (E2 : formatted_parse E icfg s (b ++ f :: a) = fmt_fill E icfg f x).
  { rewrite fmt_app. fold zone. assert (existsb (fun g => match time_parse_in g s zone with Some _ => true | None => false end) b = false) as ->.
    { apply not_true_iff_false. rewrite existsb_exists. intros (g & HG & HH). rewrite Forall_forall in HB. now rewrite (HB g HG) in HH. }
    change (f :: a) with ([f] ++ a). rewrite fmt_app. fold zone. cbn [existsb]. rewrite HX. cbn [orb]. exact E1. }
  assert (Z : date_is_zero (fmt_fill E icfg f x) = false).
  { destruct (date_is_zero (fmt_fill E icfg f x)) eqn:Z; [|reflexivity]. elim NZ. split; [fold icfg zone; rewrite HX; clear; intros X; congruence|]. fold icfg. now rewrite E1. }
  exists (fmt_fill E icfg f x). split; [|split].
  - unfold answer, parse. rewrite (TY p HT). cbv zeta. rewrite HV. cbn [negb]. fold icfg. rewrite E2, Z. reflexivity.
  - unfold fmt_fill. cbv zeta. destruct (_ && _); [reflexivity|]. destruct (negb _); [reflexivity|]. destruct (negb _); reflexivity.
  - intros D' det' p' HT'. unfold answer, parse. rewrite (TY p' HT'). cbv zeta. rewrite HV. cbn [negb]. fold icfg. rewrite E1, Z. reflexivity.
Qed.
Print Assumptions C63_the_text_itself.

Lemma first_ext {A} (f g : A -> res date) l : (forall x, In x l -> f x = g x) -> first_date f l = first_date g l.
Proof. induction l as [|x l IH]; cbn [first_date]; intros H; [reflexivity|]. rewrite H by (now left). destruct (g x) as [d|e|]; cbn [rbind]; [|reflexivity|reflexivity]. destruct (date_is_zero d); [|reflexivity]. apply IH. intros; apply H; now right. Qed.
(** the answers agree if the formats have the same effect on the text and in every locale *)
Lemma answer_formats E D det p cfg s fs gs : tables_sound D -> db_named D -> reachable D det p ->
  formatted_parse E (to_internal (c1 E cfg)) s fs = formatted_parse E (to_internal (c1 E cfg)) s gs ->
  (forall st o trs trsf ty, In ty (eff_types p) -> try_type E (with_order (clone (to_internal (c1 E cfg))) o) st trs trsf fs ty = try_type E (with_order (clone (to_internal (c1 E cfg))) o) st trs trsf gs ty) ->
  answer E D det p cfg s fs = answer E D det p cfg s gs.
Proof.
  intros TS NM RE H1 H2. pose proof (reachable_sound D det p TS RE) as SU. rewrite !(answer_closed E D det TS NM) by exact SU.
  assert (EA : early E p cfg s fs = early E p cfg s gs) by (unfold early; now rewrite H1). rewrite EA. destruct (early E p cfg s gs); [reflexivity|].
  destruct (not_found_empty _) as [lds|e|]; [|reflexivity|reflexivity].
  assert (DD : forall ld, date_of E p cfg s fs ld = date_of E p cfg s gs ld).
  { intros ld. unfold date_of, try_locale. cbv zeta. destruct (translate _ _ _ _ false) as [trs|e|]; cbn [rbind]; [|reflexivity|reflexivity]. destruct (translate _ _ _ _ true) as [trsf|e|]; cbn [rbind]; [|reflexivity|reflexivity].
    rewrite (first_ext _ (try_type E (with_order (clone (to_internal (c1 E cfg))) (order_for E (c1 E cfg) ld)) (text_of E s) trs trsf gs)); [reflexivity|]. intros ty HT. now apply H2. }
  rewrite !ans_in. unfold answer_in. rewrite (find_ext_in _ (fun ld => negb (date_is_zero (date_of E p cfg s gs ld)))) by (intros; now rewrite DD). destruct (List.find _ _); [now rewrite DD|reflexivity].
Qed.
(** Without CustomFormat among the ParserTypes, the formats are only compared with the text itself. *)
Theorem C63_without_custom_format : forall E D det p cfg s formats, tables_sound D -> db_named D -> reachable D det p ->
  p_types p <> [] -> ~ In 3 (p_types p) ->
  Forall (fun f => time_parse_in f s (fmt_loc E (to_internal (initiate (e_now E) cfg)) s) = None) formats ->
  answer E D det p cfg s formats = answer E D det p cfg s [].
Proof.
  intros E D det p cfg s fs TS NM RE NT NC NF. apply answer_formats; try assumption.
  - rewrite C35_no_match by exact NF. reflexivity.
  - intros st o trs trsf ty HT. unfold try_type. destruct (ty =? TTimestamp); [reflexivity|]. destruct (ty =? TNegTimestamp); [reflexivity|]. destruct (ty =? TRelative); [reflexivity|].
    destruct (ty =? TCustom) eqn:TC; [|reflexivity]. elim NC. unfold TCustom in TC. assert (ty = 3) as <- by lia. unfold eff_types in HT. destruct (p_types p); [congruence|exact HT].
Qed.
Print Assumptions C63_without_custom_format.
(** A format that was already given changes nothing. *)
Theorem C63_repeated_formats : forall E D det p cfg s formats again, tables_sound D -> db_named D -> reachable D det p ->
  incl again formats -> answer E D det p cfg s (formats ++ again) = answer E D det p cfg s formats.
Proof.
  intros E D det p cfg s fs gs TS NM RE HI.
  assert (H : forall c t, formatted_parse E c t (fs ++ gs) = formatted_parse E c t fs).
  { intros c t. rewrite fmt_app. destruct (existsb _ fs) eqn:X; [reflexivity|].
    assert (NF : forall f, In f fs -> time_parse_in f t (fmt_loc E c t) = None).
    { intros f HF. destruct (time_parse_in f t (fmt_loc E c t)) as [x|] eqn:TP; [|reflexivity]. apply not_true_iff_false in X. elim X. apply existsb_exists. exists f. split; [exact HF|]. now rewrite TP. }
    rewrite !C35_no_match; [reflexivity| |]; apply Forall_forall; auto. }
  apply answer_formats; try assumption; [apply H|]. intros st o trs trsf ty _. unfold try_type. destruct (ty =? TTimestamp); [reflexivity|]. destruct (ty =? TNegTimestamp); [reflexivity|]. destruct (ty =? TRelative); [reflexivity|].
  destruct (ty =? TCustom); [|reflexivity]. unfold try_custom. apply first_ext. intros t _. now rewrite H.
Qed.
Print Assumptions C63_repeated_formats.

(** ** ParserTypes *)
Section T.
Variables (E : env) (D : langdb) (det : option (str -> list str)).
Hypothesis (TS : tables_sound D) (NM : db_named D).
Lemma amal_types p cfg s fs ld : sound ld -> amal Z (eff_types p) (date_of E p cfg s fs ld) (fun t => date_of E (with_types p [t]) cfg s fs ld).
Proof.
  intros SO. pose proof (date_ok E p cfg s fs ld SO) as H0. pose (d := fun t => date_of E (with_types p [t]) cfg s fs ld). change (amal Z (eff_types p) (date_of E p cfg s fs ld) d).
  assert (H1 : forall t, try_locale E (c1 E cfg) (to_internal (c1 E cfg)) [t] (text_of E s) fs ld = Ok (d t)) by (intros t; apply (date_ok E (with_types p [t]) cfg s fs ld SO)).
  clearbody d. revert H0 H1. generalize (date_of E p cfg s fs ld) as d0. generalize (text_of E s) as st. intros st d0. unfold try_locale. cbv zeta.
  destruct (translate _ _ _ _ false) as [trs|e|]; cbn [rbind]; [|discriminate|discriminate]. destruct (translate _ _ _ _ true) as [trsf|e|]; cbn [rbind]; [|discriminate|discriminate].
  generalize (try_type E (with_order (clone (to_internal (c1 E cfg))) (order_for E (c1 E cfg) ld)) st trs trsf fs). intros f. generalize (eff_types p). clear.
  intros l H0 H1. assert (H2 : forall t, exists x, f t = Ok x /\ d t = if date_is_zero x then zero_date else x).
  { intros t. specialize (H1 t). cbn [first_date] in H1. destruct (f t) as [x|e|]; cbn [rbind] in H1; [|discriminate H1|discriminate H1]. exists x. split; [reflexivity|]. revert H1. destruct (date_is_zero x); intros H1; congruence. }
  clear H1. revert H0. induction l as [|t l IH]; cbn [first_date]; intros H0.
  - left. split; [|intros g []]. assert (zero_date = d0) as <- by congruence. reflexivity.
  - destruct (H2 t) as (x & FX & DX). rewrite FX in H0. cbn [rbind] in H0. destruct (date_is_zero x) eqn:Z.
    + destruct (IH H0) as [[Z0 HG]|[Z0 (g & HG & EQ)]]; [left|right]; (split; [exact Z0|]).
      * intros g [<-|Hg]; [rewrite DX; reflexivity|auto].
      * exists g. split; [now right|exact EQ].
    + right. assert (x = d0) as <- by congruence. split; [exact Z|]. exists t. split; [now left|exact DX].
Qed.
End T.
Lemma eff_nonempty p : eff_types p <> []. Proof. unfold eff_types. destruct (p_types p); discriminate. Qed.
(** Several ParserTypes: the call returns what it returns with one of them alone, and finds a date iff one of these calls does. *)
Theorem C06_types_are_alternatives : forall E D det p cfg s formats, tables_sound D -> db_named D -> reachable D det p ->
  let types := match p_types p with [] => [0; 1; 2; 3; 4; 5] | l => l end in Forall (fun t => t <= 5) types ->
  let one t := answer E D det (with_types p [t]) cfg s formats in let all := answer E D det p cfg s formats in
  (exists t, In t types /\ all = one t) /\ (succeeds all <-> exists t, In t types /\ succeeds (one t)).
Proof.
  intros E D det p cfg s fs TS NM RE types HT. cbv zeta. change types with (eff_types p) in *. clear types. pose proof (reachable_sound D det p TS RE) as SU.
  enough (H : (exists t, In t (eff_types p) /\ answer E D det p cfg s fs = answer E D det (with_types p [t]) cfg s fs) /\ (forall t, In t (eff_types p) -> succeeds (answer E D det (with_types p [t]) cfg s fs) -> succeeds (answer E D det p cfg s fs))).
  { destruct H as [(t & HI & EQ) H2]. split; [now exists t|]. split; [intros HS; exists t; rewrite <- EQ; auto|]. intros (t' & HI' & HS). exact (H2 t' HI' HS). }
  assert (TY : existsb (fun t => TNoSpaces <? t) (p_types p) = false).
  { apply not_true_iff_false. rewrite existsb_exists. intros (t & Ht & Hgt). rewrite Forall_forall in HT. assert (In t (eff_types p)) by (unfold eff_types; destruct (p_types p); [destruct Ht|exact Ht]). apply HT in H. unfold TNoSpaces in Hgt. lia. }
  assert (T1 : forall t, In t (eff_types p) -> existsb (fun t => TNoSpaces <? t) [t] = false) by (intros t Ht; rewrite Forall_forall in HT; apply HT in Ht; cbn [existsb]; unfold TNoSpaces; rewrite orb_false_r; lia).
  assert (exists t0, In t0 (eff_types p)) as (t0 & H0) by (destruct (eff_types p) as [|t l] eqn:X; [now apply eff_nonempty in X|exists t; now left]).
  assert (EG : forall t, In t (eff_types p) -> answer E D det (with_types p [t]) cfg s fs = match early E p cfg s fs with Some a => a | None => match not_found_empty (selection E D det cfg s) with
      | Ok lds => answer_in (date_of E (with_types p [t]) cfg s fs) (chosen_locales E D p cfg s lds) | Err e => Ok (zero_date, Some e) | Panic => Panic end end).
  { intros t Ht. rewrite (answer_closed E D det TS NM (with_types p [t]) cfg s fs SU). assert (early E (with_types p [t]) cfg s fs = early E p cfg s fs) as ->.
    { unfold early. cbn [with_types p_types]. rewrite TY, (T1 t Ht). reflexivity. }
    destruct (early E p cfg s fs); [reflexivity|]. destruct (not_found_empty _); [|reflexivity|reflexivity]. apply ans_in. }
  rewrite (answer_closed E D det TS NM p cfg s fs SU). destruct (early E p cfg s fs) as [a|].
  { split; [exists t0; split; [exact H0|now rewrite EG]|]. intros t Ht. now rewrite EG. }
  destruct (not_found_empty (selection E D det cfg s)) as [lds|e|] eqn:NF.
  - rewrite ans_in. destruct (amal_locales Z (eff_types p) (date_of E p cfg s fs) (fun t => date_of E (with_types p [t]) cfg s fs) (eff_nonempty p) (chosen_locales E D p cfg s lds)) as [(t & HG & EQ) H2].
    { intros ld HI. apply amal_types. exact (TS _ _ (chosen_named E D det p cfg s lds ld NM RE NF HI)). }
    split; [exists t; split; [exact HG|]; now rewrite (EG t HG)|]. intros t' HG' HS. rewrite (EG t' HG') in HS. destruct (answer_in_ok (date_of E p cfg s fs) (chosen_locales E D p cfg s lds)) as [F|F]; [|exact F].
    rewrite (H2 F t' HG') in HS. now apply not_success in HS.
  - split; [exists t0; split; [exact H0|now rewrite EG]|]. intros t Ht. now rewrite EG.
  - split; [exists t0; split; [exact H0|now rewrite EG]|]. intros t Ht. now rewrite EG.
Qed.
Print Assumptions C06_types_are_alternatives.

(** ** Cases *)
(** the Spanish text is read with the second format after its translation; alone it would be 3 March 2010 *)
Definition case_formats : list str := map lit ["2006-01-02"; "06 January 2"]%string.
Lemma case_never_zero : never_zero env0 db0 cfg61 (lit "03 marzo 10") case_formats.
Proof.
  set (icfg := to_internal (initiate (e_now env0) cfg61)).
  set (ok := fun t => forallb (fun f => negb (date_is_zero (formatted_parse env0 icfg t [f])) || match time_parse_in f t (fmt_loc env0 icfg t) with None => true | Some _ => false end) case_formats).
  assert (H : forall n ld, db_get db0 n = Some ld -> match translate env0 icfg ld (sanitize_date (e_uni env0) (lit "03 marzo 10")) true with Ok trs => forallb ok trs | _ => true end = true).
  { apply db0_all. repeat (apply Forall_cons; [vm_compute; reflexivity|]). constructor. }
  intros f t HF HC [N Z]. assert (OK : ok t = true).
  { destruct HC as [-> | (n & ld & trs & HD & HT & HI)]; [vm_compute; reflexivity|]. specialize (H n ld HD). fold icfg in HT. rewrite HT in H. rewrite forallb_forall in H. now apply H. }
  unfold ok in OK. rewrite forallb_forall in OK. specialize (OK f HF). fold icfg in N, Z. rewrite Z in OK. cbn [negb orb] in OK. destruct (time_parse_in f t (fmt_loc env0 icfg t)); [discriminate OK|congruence].
Qed.
Example C63_case : shows (answer env0 db0 None (new_parser []) cfg61 (lit "03 marzo 10") case_formats) 2003 3 10 0 0 0 0 PDay (lit "es") /\
  shows (answer env0 db0 None (new_parser []) cfg61 (lit "03 marzo 10") []) 2010 3 3 0 0 0 0 PDay (lit "es").
Proof. split; apply shows_by; vm_compute; reflexivity. Qed.
(** the condition on the zero time is needed: with the first format alone there is no date; with the second there is; with both there is none *)
Example C63_zero_time_needed : let r fs := answer env0 db0 None (new_parser []) cfg61 (lit "0001-01-01") (map lit fs) in
  shows (r ["1504-01-02"]%string) 2016 1 1 0 1 0 0 PDay [] /\ r ["2006-01-02"; "1504-01-02"]%string = Ok (zero_date, Some ENoParse) /\
  reads_as_zero env0 cfg61 (lit "2006-01-02") (lit "0001-01-01").
Proof. split; [apply shows_by; vm_compute; reflexivity|]. split; [vm_compute; reflexivity|]. split; [vm_compute; discriminate|vm_compute; reflexivity]. Qed.
(** the relative and the absolute parser read the same text differently: "2 days" (in German: "2 tage") *)
Example C06_alternatives_case : let q t := with_types (new_parser []) [t] in
  shows (answer env0 db0 None (q 2) cfg61 (lit "2 tage") []) 2016 2 26 10 0 0 0 PDay (lit "de") /\
  answer env0 db0 None (q 5) cfg61 (lit "2 tage") [] = Ok (zero_date, Some ENoParse) /\
  shows (answer env0 db0 None (with_types (new_parser []) [5; 2]) cfg61 (lit "2 tage") []) 2016 2 26 10 0 0 0 PDay (lit "de").
Proof. split; [|split]; [apply shows_by| |apply shows_by]; vm_compute; reflexivity. Qed.
