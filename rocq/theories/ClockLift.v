(** Lifting what one locale does with a text of numbers and colons to the whole of Parse (NumLift with colons) *)
From Verif Require Import GoBase SMap Regex GoTime Setting Strutil Timezone Env Timestamp Formatted Relative Absolute Language Parser ParserFacts LocaleFacts SelectFacts Search History AbsFacts2 NumericFacts NumTranslate NumLift ClockTranslate.


Section E.
Variable E : env.
Variable D : langdb.
Notation U := (e_uni E).
Hypothesis UA : uni_ascii U.
Hypothesis HD : forall n ld, db_get D n = Some ld -> clock_locale ld = true.

Lemma fetch_clock ns : Forall (fun ld => clock_locale ld = true) (fetch D ns).
Proof. induction ns as [|n ns IH]; cbn [fetch]; [constructor|]. destruct (db_get D n) as [ld|] eqn:G; [|exact IH]. constructor; [exact (HD n ld G)|exact IH]. Qed.
Lemma locales_clock a b c d e lds : get_locales E D a b c d e = Ok lds -> Forall (fun ld => clock_locale ld = true) lds /\ lds <> [].
Proof.
  unfold get_locales. destruct (match a with [] => _ | _ :: _ => _ end) as [names|x|]; cbn [rbind]; try discriminate.
  destruct (fetch D _) as [|ld l] eqn:F; [discriminate|]. intros HE. assert (lds = ld :: l) as -> by congruence. split; [|discriminate]. rewrite <- F. apply fetch_clock.
Qed.


Section Text.
Variables (A : str) (l : list (Z * str)).
Hypothesis HN : groups A l.
Notation s := (numtext A l).
Variable icfg : config.
Hypothesis SK : clock_skip (c_skip icfg).
Hypothesis SE : ~ In [] (c_skip icfg).
Variable dss : list str.
Lemma filter_clock : forall lds acc, Forall (fun ld => clock_locale ld = true) acc -> Forall (fun ld => clock_locale ld = true) lds -> (acc <> [] \/ lds <> []) ->
  exists r, filter_applicable E icfg (s :: dss) acc lds = Ok r /\ Forall (fun ld => clock_locale ld = true) r /\ r <> [].
Proof.
  induction lds as [|ld lds IH]; intros acc HA HL NE; cbn [filter_applicable].
  - exists acc. split; [reflexivity|]. split; [exact HA|]. tauto.
  - inversion HL as [|? ? H1 H2]; subst. destruct (mem (ld_name ld) (map ld_name acc)) eqn:M.
    + apply IH; auto. left. intros ->. discriminate M.
    + cbn [any_applicable]. rewrite (applicable_num E UA ld H1 icfg A l HN SK SE). cbn [rbind]. apply IH; auto; [apply Forall_app; split; [exact HA|repeat constructor; exact H1]|]. left. destruct acc; discriminate.
Qed.
Lemma previous_clock used : Forall (fun ld => clock_locale ld = true) used -> exists o, check_previous E icfg used (s :: dss) = Ok o /\ forall ld, o = Some ld -> clock_locale ld = true.
Proof.
  intros HU. destruct used as [|ld used]; cbn [check_previous]; [exists None; split; [reflexivity|discriminate]|]. inversion HU; subst. cbn [any_applicable].
  rewrite (applicable_num E UA ld) by assumption. cbn [rbind]. exists (Some ld). split; [reflexivity|]. intros ? X. assert (ld = ld0) by congruence. now subst.
Qed.
End Text.

Lemma get_applicable_clock A l det used cfg icfg lds0 : groups A l -> clock_skip (c_skip icfg) -> ~ In [] (c_skip icfg) -> 
  Forall (fun ld => clock_locale ld = true) used ->
  get_locales E D (u_locales cfg) (detected_languages det cfg (numtext A l)) (u_region cfg) (u_given_order cfg) false = Ok lds0 ->
  exists ld r, get_applicable E D det used cfg icfg (numtext A l) = Ok (ld :: r) /\ clock_locale ld = true.
Proof.
  intros HN SK SE HU HG. destruct (locales_clock _ _ _ _ _ _ HG) as [F0 N0]. unfold get_applicable. rewrite (normalize_num E UA (match lds0 as l return l <> [] -> locale with [] => fun n => False_rect _ (n eq_refl) | x :: _ => fun _ => x end N0) A l HN).
  assert (exists x, (if eqs (fst (etz_pop E (numtext A l))) (numtext A l) then [numtext A l] else [numtext A l; fst (etz_pop E (numtext A l))]) = numtext A l :: x) as [x ->] by (destruct (eqs _ _); eexists; reflexivity).
  destruct (previous_clock A l HN icfg SK SE x used HU) as (o & HO & HO2).
  assert (exists o, (if u_try_prev cfg then check_previous E icfg used (numtext A l :: x) else Ok None) = Ok o /\ forall ld, o = Some ld -> clock_locale ld = true) as (o2 & -> & H2).
  { destruct (u_try_prev cfg); [exists o; auto|exists None; split; [reflexivity|discriminate]]. }
  cbn [rbind]. rewrite HG. cbn [rbind].
  destruct (filter_clock A l HN icfg SK SE x lds0 (match o2 with Some ld => [ld] | None => [] end)) as (r & HR & FR & NR); [destruct o2; repeat constructor; auto|exact F0|auto|].
  rewrite HR. cbn [rbind]. destruct r as [|ld r]; [congruence|]. inversion FR; subst. destruct (c_deflang icfg); [eauto|].
  assert (exists y, match get_locales E D [] (u_deflang cfg) (u_region cfg) (u_given_order cfg) false with Err _ => Ok [] | r0 => r0 end = Ok y \/ match get_locales E D [] (u_deflang cfg) (u_region cfg) (u_given_order cfg) false with Err _ => Ok [] | r0 => r0 end = Panic) as [y [-> | HP]].
  { destruct (get_locales E D [] _ _ _ _) as [y|e|]; [exists y|exists []|exists []]; auto. }
  - cbn [rbind app]. eauto.
  - exfalso. revert HP. unfold get_locales. destruct (pick_languages _ _ _ _ _ _) as [nm|e|] eqn:P; cbn [rbind]; try discriminate.
    + destruct (fetch D _); discriminate.
    + intros _. now apply pick_languages_no_panic in P.
Qed.
End E.