(** Lemmas about Parser.v *)
From Verif Require Import GoBase SMap GoTime GoTimeParse Setting Env Strutil Timezone Timestamp Formatted Relative Absolute NoSpace Language Parser Search History.

Lemma mem_In x l : mem x l = true <-> In x l.
Proof.
  unfold mem. rewrite existsb_exists. split.
  - intros (y & Hy & Ee). apply eqs_eq in Ee. now subst.
  - intros Hi. exists x. split; [exact Hi | apply eqs_refl].
Qed.

Lemma first_date_spec {A} (f : A -> res date) l d : first_date f l = Ok d ->
  (date_is_zero d = true /\ (forall x, In x l -> exists z, f x = Ok z /\ date_is_zero z = true)) \/
  (date_is_zero d = false /\ exists l1 x l2, l = l1 ++ x :: l2 /\ f x = Ok d /\
     forall y, In y l1 -> exists z, f y = Ok z /\ date_is_zero z = true).
Proof.
  revert d. induction l as [|x l IH]; cbn [first_date]; intros d Hd.
  - injection Hd as <-. left. split; [reflexivity | intros ? []].
  - destruct (f x) as [z|e|] eqn:Hx; cbn [rbind] in Hd; try discriminate.
    destruct (date_is_zero z) eqn:Hz.
    + destruct (IH _ Hd) as [[H1 H2]|[H1 (l1 & y & l2 & -> & Hy & H2)]].
      * left. split; [exact H1|]. intros w [<-|Hw]; eauto.
      * right. split; [exact H1|]. exists (x :: l1), y, l2. split; [reflexivity|]. split; [exact Hy|].
        intros w [<-|Hw]; eauto.
    + injection Hd as ->. right. split; [exact Hz|]. exists [], x, l. repeat split; auto. intros ? [].
Qed.

Lemma fmt_locale E cfg s fs : d_locale (formatted_parse E cfg s fs) = [].
Proof.
  unfold formatted_parse. generalize (fmt_loc E cfg s). intros loc.
  induction fs as [|f fs IH]; cbn [fmt_loop]; [reflexivity|].
  destruct (time_parse_in f s loc); [|exact IH].
  unfold fmt_fill. destruct (negb (fmt_has_month f) && negb (fmt_has_day f)); [reflexivity|].
  destruct (negb (fmt_has_month f)); [reflexivity|].
  now destruct (negb (fmt_has_day f)).
Qed.

Lemma try_locales_spec E cfg icfg types s fs lds o : try_locales E cfg icfg types s fs lds = Ok o ->
  match o with
  | None => forall ld, In ld lds -> exists z, try_locale E cfg icfg types s fs ld = Ok z /\ date_is_zero z = true
  | Some (ld, d) => date_is_zero d = false /\ exists l1 l2, lds = l1 ++ ld :: l2 /\
      try_locale E cfg icfg types s fs ld = Ok d /\
      forall y, In y l1 -> exists z, try_locale E cfg icfg types s fs y = Ok z /\ date_is_zero z = true
  end.
Proof.
  revert o. induction lds as [|x l IH]; cbn [try_locales]; intros o Ho.
  - injection Ho as <-. intros ? [].
  - destruct (try_locale E cfg icfg types s fs x) as [z|e|] eqn:Hx; cbn [rbind] in Ho; try discriminate.
    destruct (date_is_zero z) eqn:Hz.
    + specialize (IH _ Ho). destruct o as [[ld d]|].
      * destruct IH as (H1 & l1 & l2 & -> & Hy & H2). split; [exact H1|].
        exists (x :: l1), l2. split; [reflexivity|]. split; [exact Hy|]. intros w [<-|Hw]; eauto.
      * intros w [<-|Hw]; eauto.
    + injection Ho as <-. split; [exact Hz|]. exists [], l. repeat split; auto. intros ? [].
Qed.

Lemma with_locale_zero d l : date_is_zero (with_locale d l) = date_is_zero d.
Proof. reflexivity. Qed.

(** the stages of Parse *)
Definition eff_types (p : pstate) : list Z := match p_types p with [] => default_types | l => l end.
Definition typed (p : pstate) : pstate := match p_types p with [] => with_types p default_types | _ => p end.
Lemma typed_types p : p_types (typed p) = eff_types p.
Proof. unfold typed, eff_types. destruct (p_types p) eqn:E; [reflexivity | exact E]. Qed.
Lemma typed_used p : p_used (typed p) = p_used p.
Proof. unfold typed. now destruct (p_types p). Qed.

Inductive outcome (E : env) (D : langdb) (det : option (str -> list str)) (p : pstate) (cfg0 : uconfig) (s0 : str) (fs : list str)
  : pstate -> res ret -> Prop :=
| o_types : existsb (fun t => TNoSpaces <? t) (p_types p) = true ->
    outcome E D det p cfg0 s0 fs p (Ok (zero_date, Some EParserType))
| o_config : existsb (fun t => TNoSpaces <? t) (p_types p) = false ->
    validate (e_uni E) (initiate (e_now E) cfg0) = false ->
    outcome E D det p cfg0 s0 fs (typed p) (Ok (zero_date, Some EConfig))
| o_format d : existsb (fun t => TNoSpaces <? t) (p_types p) = false ->
    validate (e_uni E) (initiate (e_now E) cfg0) = true ->
    d = formatted_parse E (to_internal (initiate (e_now E) cfg0)) s0 fs -> date_is_zero d = false ->
    outcome E D det p cfg0 s0 fs (typed p) (Ok (d, None))
| o_panic : existsb (fun t => TNoSpaces <? t) (p_types p) = false ->
    validate (e_uni E) (initiate (e_now E) cfg0) = true ->
    outcome E D det p cfg0 s0 fs (typed p) Panic
| o_fail e : existsb (fun t => TNoSpaces <? t) (p_types p) = false ->
    validate (e_uni E) (initiate (e_now E) cfg0) = true ->
    date_is_zero (formatted_parse E (to_internal (initiate (e_now E) cfg0)) s0 fs) = true ->
    outcome E D det p cfg0 s0 fs (typed p) (Ok (zero_date, Some e))
| o_locale lds l1 l2 ld d : existsb (fun t => TNoSpaces <? t) (p_types p) = false ->
    validate (e_uni E) (initiate (e_now E) cfg0) = true ->
    date_is_zero (formatted_parse E (to_internal (initiate (e_now E) cfg0)) s0 fs) = true ->
    get_applicable E D det (p_used p) (initiate (e_now E) cfg0) (to_internal (initiate (e_now E) cfg0)) (sanitize_date (e_uni E) s0) = Ok lds ->
    lds = l1 ++ ld :: l2 ->
    try_locale E (initiate (e_now E) cfg0) (to_internal (initiate (e_now E) cfg0)) (eff_types p) (sanitize_date (e_uni E) s0) fs ld = Ok d ->
    date_is_zero d = false ->
    (forall y, In y l1 -> exists z, try_locale E (initiate (e_now E) cfg0) (to_internal (initiate (e_now E) cfg0)) (eff_types p)
                                      (sanitize_date (e_uni E) s0) fs y = Ok z /\ date_is_zero z = true) ->
    outcome E D det p cfg0 s0 fs (if u_try_prev cfg0 then with_used (typed p) (save_used (p_used p) ld) else typed p)
            (Ok (with_locale d (ld_name ld), None)).

Lemma parse_outcome E D det p cfg s fs : outcome E D det p cfg s fs (fst (parse E D det p cfg s fs)) (snd (parse E D det p cfg s fs)).
Proof.
  unfold parse. destruct (existsb _ (p_types p)) eqn:Ht; [now apply o_types|].
  fold (typed p).
  destruct (validate _ _) eqn:Hv; cbn [negb]; [|now apply o_config].
  destruct (date_is_zero (formatted_parse _ _ _ _)) eqn:Hf; cbn [negb]; [|cbn [fst snd]; now apply o_format].
  rewrite typed_used, typed_types.
  destruct (get_applicable _ _ _ _ _ _ _) as [lds|e|] eqn:Hg; cbn [fst snd]; [|now apply o_fail|now apply o_panic].
  destruct (try_locales _ _ _ _ _ _ _) as [o|e|] eqn:Hl; cbn [fst snd]; [|now apply o_fail|now apply o_panic].
  apply try_locales_spec in Hl. destruct o as [[ld d]|]; cbn [fst snd]; [|now apply o_fail].
  destruct Hl as (Hd & l1 & l2 & -> & Hy & Hn).
  change (u_try_prev (initiate (e_now E) cfg)) with (u_try_prev cfg).
  eapply (o_locale _ _ _ _ _ _ _ (l1 ++ ld :: l2)); eauto.
Qed.

Lemma exec_types D det p o : p_types (exec D det p o) = p_types p \/ (p_types p = [] /\ p_types (exec D det p o) = default_types).
Proof.
  destruct o as [E cfg s fs|l]; cbn [exec].
  - assert (T : p_types (typed p) = p_types p \/ p_types p = [] /\ p_types (typed p) = default_types).
    { rewrite typed_types. unfold eff_types. destruct (p_types p); auto. }
    destruct (parse_outcome E D det p cfg s fs); auto.
    destruct (u_try_prev cfg); auto.
  - left. unfold init_charsets. destruct (_ || _); reflexivity.
Qed.
Lemma exec_eff D det p o : eff_types (exec D det p o) = eff_types p.
Proof.
  unfold eff_types. destruct (exec_types D det p o) as [-> | [-> ->]]; reflexivity.
Qed.
Lemma run_eff D det ops p : eff_types (run D det p ops) = eff_types p.
Proof.
  revert p. induction ops as [|o ops IH]; intros p; cbn [run fold_left]; [reflexivity|].
  change (fold_left (exec D det) ops (exec D det p o)) with (run D det (exec D det p o) ops).
  now rewrite IH, exec_eff.
Qed.
Lemma run_snoc D det ops o p : run D det p (ops ++ [o]) = exec D det (run D det p ops) o.
Proof. unfold run. now rewrite fold_left_app. Qed.
Lemma run_app D det a b p : run D det p (a ++ b) = run D det (run D det p a) b.
Proof. unfold run. now rewrite fold_left_app. Qed.

Lemma bad_types_eff p : existsb (fun t => TNoSpaces <? t) (p_types p) = existsb (fun t => TNoSpaces <? t) (eff_types p).
Proof. unfold eff_types. now destruct (p_types p). Qed.

(** what Parse returns depends on the state only through the effective types and the remembered locales, and on the
    latter only with TryPreviousLocales *)
Lemma parse_result_dep E D det p q cfg s fs : eff_types p = eff_types q -> (u_try_prev cfg = true -> p_used p = p_used q) ->
  snd (parse E D det p cfg s fs) = snd (parse E D det q cfg s fs).
Proof.
  intros Ht Hu. unfold parse. rewrite (bad_types_eff p), (bad_types_eff q), Ht.
  destruct (existsb _ (eff_types q)); [reflexivity|].
  fold (typed p). fold (typed q).
  destruct (validate _ _); cbn [negb]; [|reflexivity].
  destruct (date_is_zero _); cbn [negb]; [|reflexivity].
  rewrite !typed_used, !typed_types, Ht.
  assert (G : get_applicable E D det (p_used p) (initiate (e_now E) cfg) (to_internal (initiate (e_now E) cfg)) (sanitize_date (e_uni E) s)
            = get_applicable E D det (p_used q) (initiate (e_now E) cfg) (to_internal (initiate (e_now E) cfg)) (sanitize_date (e_uni E) s)).
  { unfold get_applicable. change (u_try_prev (initiate (e_now E) cfg)) with (u_try_prev cfg).
    destruct (u_try_prev cfg) eqn:Ep; [now rewrite Hu | reflexivity]. }
  rewrite G. clear G.
  destruct (get_applicable _ _ _ _ _ _ _); try reflexivity.
  destruct (try_locales _ _ _ _ _ _ _) as [[[ld d]|]| |]; reflexivity.
Qed.

Lemma save_used_cases used ld : save_used used ld = used /\ In (ld_name ld) (map ld_name used) \/
  save_used used ld = used ++ [ld] /\ ~ In (ld_name ld) (map ld_name used).
Proof.
  unfold save_used. destruct (mem _ _) eqn:Em; [left | right]; (split; [reflexivity|]).
  - now apply mem_In.
  - intros Hi. apply mem_In in Hi. congruence.
Qed.

Lemma NoDup_snoc {A} (l : list A) x : NoDup l -> ~ In x l -> NoDup (l ++ [x]).
Proof.
  intros Hn Hx. induction l as [|y l IH]; cbn [app]; [constructor; auto; constructor|].
  inversion Hn; subst. constructor.
  - rewrite in_app_iff. intros [Hi|[<-|[]]]; auto. apply Hx. now left.
  - apply IH; auto. intros Hi. apply Hx. now right.
Qed.
Lemma exec_nodup D det p o : NoDup (map ld_name (p_used p)) -> NoDup (map ld_name (p_used (exec D det p o))).
Proof.
  intros Hn. destruct o as [E cfg s fs|l]; cbn [exec].
  - destruct (parse_outcome E D det p cfg s fs); rewrite ?typed_used; auto.
    destruct (u_try_prev cfg); rewrite ?typed_used; auto.
    cbn [p_used with_used]. destruct (save_used_cases (p_used p) ld) as [[-> _]|[-> Hx]]; auto.
    rewrite map_app. apply NoDup_snoc; auto.
  - unfold init_charsets. destruct (_ || _); exact Hn.
Qed.
Lemma exec_prefix D det p o : exists l, p_used (exec D det p o) = p_used p ++ l.
Proof.
  destruct o as [E cfg s fs|l]; cbn [exec].
  - assert (T : exists l, p_used (typed p) = p_used p ++ l) by (exists []; now rewrite typed_used, app_nil_r).
    destruct (parse_outcome E D det p cfg s fs); auto; [exists []; now rewrite app_nil_r|].
    destruct (u_try_prev cfg); auto.
    cbn [p_used with_used]. destruct (save_used_cases (p_used p) ld) as [[-> _]|[-> Hx]]; eauto.
    exists []. now rewrite app_nil_r.
  - exists []. rewrite app_nil_r. unfold init_charsets. now destruct (_ || _).
Qed.
Lemma run_prefix D det ops p : exists l, p_used (run D det p ops) = p_used p ++ l.
Proof.
  revert p. induction ops as [|o ops IH]; intros p; [exists []; now rewrite app_nil_r|].
  change (run D det p (o :: ops)) with (run D det (exec D det p o) ops).
  destruct (IH (exec D det p o)) as [l1 ->]. destruct (exec_prefix D det p o) as [l2 ->].
  exists (l2 ++ l1). now rewrite app_assoc.
Qed.
Lemma run_nodup D det ops p : NoDup (map ld_name (p_used p)) -> NoDup (map ld_name (p_used (run D det p ops))).
Proof.
  revert p. induction ops as [|o ops IH]; intros p Hn; [exact Hn|].
  apply (IH (exec D det p o)). now apply exec_nodup.
Qed.
