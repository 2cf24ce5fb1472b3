(** C47: repeating a language *)
From Verif Require Import GoBase SMap Regex GoTime Setting Strutil Env Formatted Language Parser Search History ParserFacts Concrete LocaleData Shows.

Definition with_languages (c : uconfig) (ls : list str) : uconfig :=
  {| u_locales := u_locales c; u_languages := ls; u_region := u_region c; u_try_prev := u_try_prev c; u_given_order := u_given_order c;
     u_deflang := u_deflang c; u_order := u_order c; u_now := u_now c; u_tz := u_tz c; u_pday := u_pday c; u_pmonth := u_pmonth c; u_src := u_src c;
     u_strict := u_strict c; u_required := u_required c; u_skip := u_skip c; u_timeperiod := u_timeperiod c; u_preserve := u_preserve c |}.
Definition with_defaults (c : uconfig) (ls : list str) : uconfig :=
  {| u_locales := u_locales c; u_languages := u_languages c; u_region := u_region c; u_try_prev := u_try_prev c; u_given_order := u_given_order c;
     u_deflang := ls; u_order := u_order c; u_now := u_now c; u_tz := u_tz c; u_pday := u_pday c; u_pmonth := u_pmonth c; u_src := u_src c;
     u_strict := u_strict c; u_required := u_required c; u_skip := u_skip c; u_timeperiod := u_timeperiod c; u_preserve := u_preserve c |}.

Lemma pick_repeat D region x l2 : forall l1 tracker langs u, In x l1 \/ In x langs ->
  pick_languages D region (l1 ++ x :: l2) tracker langs u = pick_languages D region (l1 ++ l2) tracker langs u.
Proof.
  induction l1 as [|l l1 IH]; intros tracker langs u H.
  - destruct H as [[]|H]. cbn [app pick_languages]. apply mem_In in H. now rewrite H.
  - cbn [app pick_languages]. destruct (mem l langs) eqn:Em.
    + apply IH. destruct H as [[<-|H]|H]; [right; now apply mem_In | now left | now right].
    + assert (H' : In x l1 \/ In x (l :: langs)) by (destruct H as [[<-|H]|H]; [right; now left | now left | right; now right]).
      cbv zeta. destruct (negb (mem l (db_langs D))); [now apply IH|].
      destruct (mem _ tracker); [now apply IH|]. destruct (negb _); now apply IH.
Qed.
Lemma locales_repeat E D x l1 l2 region go allow : In x l1 ->
  get_locales E D [] (l1 ++ x :: l2) region go allow = get_locales E D [] (l1 ++ l2) region go allow.
Proof.
  intros H. unfold get_locales. cbv zeta. destruct l1 as [|y l1]; [destruct H|]. cbn [app]. change (y :: l1 ++ x :: l2) with ((y :: l1) ++ x :: l2). change (y :: l1 ++ l2) with ((y :: l1) ++ l2).
  rewrite (pick_repeat D _ x l2 (y :: l1) [] [] false) by now left. reflexivity.
Qed.
Lemma locales_repeat_gen E D locales x l1 l2 region go allow : In x l1 ->
  get_locales E D locales (l1 ++ x :: l2) region go allow = get_locales E D locales (l1 ++ l2) region go allow.
Proof. destruct locales; [apply locales_repeat | reflexivity]. Qed.

Lemma parse_ext E D det p c c' s fs : initiate (e_now E) c = with_languages (initiate (e_now E) c') (u_languages (initiate (e_now E) c)) ->
  (forall used s', get_applicable E D det used (initiate (e_now E) c) (to_internal (initiate (e_now E) c)) s'
                 = get_applicable E D det used (initiate (e_now E) c') (to_internal (initiate (e_now E) c')) s') ->
  parse E D det p c s fs = parse E D det p c' s fs.
Proof.
  intros HI HG. unfold parse. destruct (existsb _ _); [reflexivity|]. cbv zeta.
  assert (V : forall X l, validate (e_uni E) (with_languages X l) = validate (e_uni E) X) by reflexivity.
  assert (T : forall X l, to_internal (with_languages X l) = to_internal X) by reflexivity.
  assert (L : forall X l a b d f g, try_locales E (with_languages X l) a b d f g = try_locales E X a b d f g).
  { intros X l a b d f g. induction g as [|ld g IH]; [reflexivity|]. cbn [try_locales].
    change (try_locale E (with_languages X l) a b d f ld) with (try_locale E X a b d f ld). destruct (try_locale _ _ _ _ _ _ _) as [z|e|]; cbn [rbind]; [|reflexivity|reflexivity]. destruct (date_is_zero z); [apply IH | reflexivity]. }
  rewrite HG. rewrite HI. rewrite V, T.
  destruct (negb (validate _ _)); [reflexivity|]. destruct (negb (date_is_zero _)); [reflexivity|].
  set (q := match p_types p with [] => _ | _ => _ end).
  destruct (get_applicable _ _ _ _ _ _ _) as [lds|e|]; [|reflexivity|reflexivity]. rewrite L. reflexivity.
Qed.

(** ** For Parse it makes no difference: [x] occurs twice *)
Theorem C47_parse : forall E D det p cfg s formats l1 x l2, In x l1 ->
  parse E D det p (with_languages cfg (l1 ++ x :: l2)) s formats = parse E D det p (with_languages cfg (l1 ++ l2)) s formats.
Proof.
  intros E D det p cfg s fs l1 x l2 H. apply parse_ext; [reflexivity|].
  intros used s'. unfold get_applicable. cbv zeta.
  change (u_try_prev (initiate (e_now E) (with_languages cfg ?l))) with (u_try_prev cfg).
  change (u_locales (initiate (e_now E) (with_languages cfg ?l))) with (u_locales cfg).
  change (u_region (initiate (e_now E) (with_languages cfg ?l))) with (u_region cfg).
  change (u_given_order (initiate (e_now E) (with_languages cfg ?l))) with (u_given_order cfg).
  change (u_deflang (initiate (e_now E) (with_languages cfg ?l))) with (u_deflang cfg).
  change (to_internal (initiate (e_now E) (with_languages cfg ?l))) with (to_internal (initiate (e_now E) cfg)).
  assert (DL : forall l t, l <> [] -> detected_languages det (initiate (e_now E) (with_languages cfg l)) t = l).
  { intros l t Hl. unfold detected_languages. change (u_languages (initiate (e_now E) (with_languages cfg l))) with l. destruct det, (u_locales (initiate (e_now E) (with_languages cfg l))), l; congruence || reflexivity. }
  rewrite !DL by (destruct l1; [destruct H | discriminate]). rewrite (locales_repeat_gen E D _ x l1 l2) by exact H. reflexivity.
Qed.
Print Assumptions C47_parse.

(** not empty: *)
Example C47_case : (let r := snd (parse env0 db0 None (new_parser []) (with_languages (mkcfg [] [] (utc_at 2024 5 10 0 0 0) 0 0 0) [lit "es"; lit "de"; lit "es"]) (lit "12. März 2015") [])
  in match r with Ok (d, None) => d_locale d = lit "de" | _ => False end) /\ In (lit "es") [lit "es"; lit "de"].
Proof. split; [vm_compute; reflexivity | now left]. Qed.
