(** C43: Parse always returns *)
From Coq Require Import ZifyBool.
From Verif Require Import GoBase SMap Regex Civil GoTime GoTimeFacts Setting Strutil Tokenizer Timezone Env Common Timestamp Formatted Relative Absolute NoSpace Language Parser History
  Utf8Facts ParserFacts LocaleFacts SelectFacts AbsFacts AbsFacts2 AbsSpec Prop_Absolute RegexFacts2 RegexFacts5 Concrete LocaleData Shows.

(** What the code assumes of the tables of a locale: every match of the splitting regex sets all groups of the regex, and no word has an
    empty list of translations. *)
Record sound (ld : locale) : Prop := {
  so_groups : forall rx, ld_rx ld = Some rx -> forall U s m g, Regex.find U rx s = Some m -> (1 <= g <= rx_ngroups rx)%nat -> cap m g <> None;
  so_trans : forall w ts, mget (ld_trans ld) w = Some ts -> ts <> [] }.
Definition soundb (ld : locale) : bool :=
  match ld_rx ld with Some rx => forallb (fun g => sets g (rx_ast rx)) (seq 1 (rx_ngroups rx)) | None => true end
  && forallb (fun p => match snd p with [] => false | _ => true end) (ld_trans ld).
Lemma mget_In {A} (m : smap A) k v : mget m k = Some v -> In (k, v) m.
Proof. induction m as [|[k' v'] m IH]; cbn [mget]; [discriminate|]. destruct (eqs k k') eqn:EK; [|right; auto]. apply eqs_eq in EK. subst. intros X. left. congruence. Qed.
Lemma soundb_ok ld : soundb ld = true -> sound ld.
Proof.
  unfold soundb. intros HB. apply andb_true_iff in HB as [H1 H2]. constructor.
  - intros rx EX U s m g HF HG. rewrite EX in H1. rewrite forallb_forall in H1. apply (find_sets U g rx s m); [apply H1, in_seq; lia|lia|exact HF].
  - intros w ts HM. apply mget_In in HM. rewrite forallb_forall in H2. apply H2 in HM. cbn [snd] in HM. now destruct ts.
Qed.
Definition tables_sound (D : langdb) : Prop := forall code ld, db_get D code = Some ld -> sound ld.
Lemma db0_sound : tables_sound db0.
Proof.
  assert (B : forallb (fun p => soundb (snd p)) loc_table = true) by (vm_compute; reflexivity).
  intros code ld HG. cbn [db_get db0] in HG. apply mget_In in HG. rewrite forallb_forall in B. apply B in HG. now apply soundb_ok.
Qed.

Definition returns {A} (r : res A) : Prop := r <> Panic.
Lemma bind_returns {A B} (r : res A) (f : A -> res B) : returns r -> (forall x, r = Ok x -> returns (f x)) -> returns (rbind r f).
Proof. unfold returns. destruct r as [x|e|]; cbn [rbind]; intros H1 H2; [auto|discriminate|congruence]. Qed.
Lemma ok_returns {A} (x : A) : returns (Ok x). Proof. discriminate. Qed.
Lemma rmap_returns {A B} (f : A -> res B) l : (forall x, In x l -> returns (f x)) -> returns (rmap f l).
Proof.
  induction l as [|x l IH]; cbn [rmap]; intros HF; [discriminate|]. apply bind_returns; [apply HF; now left|]. intros y _. apply bind_returns; [apply IH; intros; apply HF; now right|]. discriminate.
Qed.

Section E.
Variable E : env.
Section L.
Variable ld : locale.
Hypothesis SO : sound ld.
Lemma sub_returns s m i : cap m i <> None -> returns (sub_or_panic s m i).
Proof. unfold sub_or_panic. destruct (cap m i) as [[a b]|]; [discriminate|congruence]. Qed.
Lemma split_regex_returns rx : ld_rx ld = Some rx -> forall fuel s, returns (split_with_regex E fuel s rx).
Proof.
  intros RX. induction fuel as [|f IH]; intros s; cbn [split_with_regex]; [discriminate|]. destruct (Regex.find (e_uni E) rx s) as [m|] eqn:F; [|discriminate].
  pose proof (fun g => so_groups ld SO rx RX (e_uni E) s m g F) as HG. apply bind_returns; [|intros mid _; apply bind_returns; [apply IH|discriminate]].
  destruct (Nat.eqb_spec (rx_ngroups rx) 1) as [N1|N1]; [apply bind_returns; [apply sub_returns, HG; lia|discriminate]|].
  destruct (Nat.eqb_spec (rx_ngroups rx) 3) as [N3|N3]; [|discriminate].
  apply bind_returns; [apply sub_returns, HG; lia|intros g1 _]. apply bind_returns; [apply sub_returns, HG; lia|intros g2 _]. apply bind_returns; [apply sub_returns, HG; lia|discriminate].
Qed.
Lemma lsplit_returns s keep skipped : returns (lsplit E ld s keep skipped).
Proof. unfold lsplit. apply bind_returns; [|discriminate]. destruct (ld_rx ld) as [rx|] eqn:RX; [now apply split_regex_returns|discriminate]. Qed.
Lemma translate_word_ne w ts : translate_word ld w = Some ts -> ts <> [].
Proof. unfold translate_word. destruct (mget (ld_reltype ld) w); [intros X; assert (ts = [s]) as -> by congruence; discriminate|apply (so_trans ld SO)]. Qed.
Lemma perm_returns {A} (d : A) input : (forall e, In e input -> e <> []) -> returns (create_permutation d input).
Proof.
  intros HI. unfold create_permutation. destruct (existsb _ input) eqn:X; [|discriminate]. exfalso. apply existsb_exists in X as (e & He & HX). destruct e; [|discriminate HX]. now apply (HI _ He).
Qed.
Lemma translate_returns cfg s keep : returns (translate E cfg ld s keep).
Proof.
  unfold translate. apply bind_returns; [apply lsplit_returns|]. intros tokens _. apply bind_returns; [|discriminate]. apply perm_returns. intros e He. apply in_map_iff in He as (t & <- & _).
  unfold translate_token. destruct (mem t _); [discriminate|]. destruct (List.find _ _) as [[rx rp]|]; [discriminate|]. destruct (translate_word ld t) as [ts|] eqn:T; [|discriminate]. apply translate_word_ne in T. destruct ts; [congruence|discriminate].
Qed.
Lemma is_applicable_returns cfg s strip : returns (is_applicable E cfg ld s strip).
Proof. unfold is_applicable. apply bind_returns; [apply lsplit_returns|discriminate]. Qed.
Lemma any_applicable_returns icfg dss : returns (any_applicable E icfg ld dss).
Proof. induction dss as [|s dss IH]; cbn [any_applicable]; [discriminate|]. apply bind_returns; [apply is_applicable_returns|]. intros [] _; [discriminate|exact IH]. Qed.
End L.
Lemma check_previous_returns icfg dss used : (forall ld, In ld used -> sound ld) -> returns (check_previous E icfg used dss).
Proof.
  induction used as [|ld used IH]; cbn [check_previous]; intros SO; [discriminate|]. apply bind_returns; [apply any_applicable_returns, SO; now left|]. intros [] _; [discriminate|]. apply IH. intros; apply SO; now right.
Qed.
Lemma filter_applicable_returns icfg dss lds : (forall ld, In ld lds -> sound ld) -> forall acc, returns (filter_applicable E icfg dss acc lds).
Proof.
  induction lds as [|ld lds IH]; intros SO acc; cbn [filter_applicable]; [discriminate|]. assert (SO' : forall l, In l lds -> sound l) by (intros; apply SO; now right). destruct (mem _ _); [now apply IH|]. apply bind_returns; [apply any_applicable_returns, SO; now left|]. intros b _. now apply IH.
Qed.

(** the absolute parser *)
Lemma wd_steps_all src i j : 0 <= i < 7 -> 0 <= j < 7 -> wd_steps src i (wd_name j) <> None.
Proof.
  intros Hi Hj. assert (C : src = CurrentPeriod \/ src = Past \/ src = Future \/ (src <> Past /\ src <> Future)) by (unfold CurrentPeriod, Past, Future; lia).
  destruct C as [C|[C|[C|[C1 C2]]]]; [destruct (wd_steps_ok src i j Hi Hj ltac:(auto)) as (n & -> & _); discriminate..|].
  destruct (wd_steps_ok CurrentPeriod i j Hi Hj ltac:(auto)) as (n & HN & _). assert (X : wd_steps src i (wd_name j) = wd_steps CurrentPeriod i (wd_name j)).
  { unfold wd_steps. replace (src =? Future) with false by lia. replace (src =? Past) with false by lia. reflexivity. }
  rewrite X, HN. discriminate.
Qed.
Lemma absolute_returns cfg s tz : returns (absolute_parse E cfg s tz).
Proof.
  unfold absolute_parse, abs_run. destruct (abs_init E (greg_hooks E) cfg s) as [a|] eqn:HI; [|discriminate]. unfold abs_finish. destruct (negb _); [discriminate|].
  apply bind_returns; [destruct (a_time a) as [tk|]; [destruct (parse_time E (tk_text tk))|]; discriminate|]. intros tp _.
  destruct (h_params (greg_hooks E) (a_vals a) (abs_now E cfg)) as [[Y M] Dd]. destruct (match tp with Some _ => _ | None => _ end) as [[[h mi] sc] ns]. apply bind_returns; [discriminate|]. intros t _.
  apply bind_returns; [|discriminate]. unfold correct_time_frame. apply bind_returns; [|discriminate]. unfold ctf_weekday. destruct (cm_wd (a_toks a)) as [tk|] eqn:TK; [|discriminate]. destruct (_ && _); [|discriminate].
  apply greg_init_inv in HI. pose proof (bi_dom _ _ _ HI CWeekday) as DOM. unfold chas in DOM. cbn [cget] in DOM. rewrite TK in DOM. destruct (cm_wd (a_vals a)) as [v|] eqn:V; [|discriminate DOM].
  destruct (bi_src _ _ _ HI CWeekday tk v TK V) as [S0 Hin]. destruct S0 as [[(d & Hd & Hv)|[? _]]|[[X|X] _]]; [|discriminate..].
  destruct (tk_type tk) eqn:TY; cbn [layouts] in Hd; try (destruct Hd; fail). pose proof (token_kind _ _ Hin) as [_ K]; [rewrite TY; discriminate|]. rewrite TY in K.
  unfold greg_hooks in Hv; cbn [h_value] in Hv. destruct (V_weekday E _ _ _ K Hd Hv) as (j & Hj & Hs). destruct (spells_first3 j (tk_text tk) Hj Hs) as [F3 L3]. rewrite L3.
  assert (HF : forallb (is_kind TLetter) (firstn 3 (tk_text tk)) = true).
  { rewrite forallb_forall in *. intros x Hx. apply K. rewrite <- (firstn_skipn 3 (tk_text tk)). apply in_or_app. now left. }
  rewrite (to_lower_kind _ TLetter) by exact HF. rewrite F3. assert (W7 : 0 <= weekday t < 7) by (unfold weekday, weekday_of_days; apply Z.mod_pos_bound; reflexivity).
  pose proof (wd_steps_all (c_src cfg) (weekday t) j W7 Hj) as HW. destruct (wd_steps (c_src cfg) (weekday t) (wd_name j)); [discriminate|congruence].
Qed.
Lemma first_date_returns {A} (f : A -> res date) l : (forall x, returns (f x)) -> returns (first_date f l).
Proof. intros HF. induction l as [|x l IH]; cbn [first_date]; [discriminate|]. apply bind_returns; [apply HF|]. intros d _. destruct (date_is_zero d); [exact IH|discriminate]. Qed.
Lemma drop_returns r : returns r -> returns (drop_err r). Proof. destruct r; cbn; auto; discriminate. Qed.
Lemma try_type_returns cfg s trs trsf fs ty : returns (try_type E cfg s trs trsf fs ty).
Proof.
  unfold try_type. destruct (ty =? TTimestamp); [discriminate|]. destruct (ty =? TNegTimestamp); [discriminate|]. destruct (ty =? TRelative); [apply first_date_returns; discriminate|]. destruct (ty =? TCustom); [apply first_date_returns; discriminate|].
  destruct (ty =? TAbsolute); [apply first_date_returns|destruct (ty =? TNoSpaces); [apply first_date_returns|discriminate]].
  - intros t. unfold abs_one. destruct (strip_tz E t) as [t' tz]. destruct t'; [discriminate|]. apply bind_returns; [apply drop_returns, absolute_returns|discriminate].
  - intros t. unfold nospace_one. destruct (strip_tz E t) as [t' tz]. destruct t'; [discriminate|]. apply bind_returns; [apply drop_returns|discriminate]. unfold nospace_parse. destruct (negb _); [discriminate|]. destruct (empty _); [discriminate|]. destruct (if _ && _ then _ else _); [discriminate|]. destruct (datetime_formats _) as [fs'|]; [|discriminate]. match goal with |- returns (match ?x with _ => _ end) => destruct x as [?|amb]; [discriminate|destruct (date_is_zero amb); discriminate] end.
Qed.
Lemma try_locales_returns cfg icfg types s fs lds : (forall ld, In ld lds -> sound ld) -> returns (try_locales E cfg icfg types s fs lds).
Proof.
  induction lds as [|ld lds IH]; intros SO; cbn [try_locales]; [discriminate|]. apply bind_returns.
  - unfold try_locale. apply bind_returns; [apply translate_returns, SO; now left|intros trs _]. apply bind_returns; [apply translate_returns, SO; now left|intros trsf _]. apply first_date_returns. intros ty. apply try_type_returns.
  - intros d _. destruct (date_is_zero d); [apply IH; intros; apply SO; now right|discriminate].
Qed.

Variable D : langdb.
Hypothesis TS : tables_sound D.
Lemma fetch_sound names ld : In ld (fetch D names) -> sound ld.
Proof. induction names as [|n names IH]; cbn [fetch]; [intros []|]. destruct (db_get D n) as [l|] eqn:G; [|exact IH]. intros [<-|HI]; [exact (TS n l G)|auto]. Qed.
Lemma get_locales_sound locales languages region g allow lds ld : get_locales E D locales languages region g allow = Ok lds -> In ld lds -> sound ld.
Proof.
  unfold get_locales. intros HG HI. destruct (match locales with [] => _ | _ => _ end) as [names|e|]; cbn [rbind] in HG; try discriminate HG. apply (fetch_sound (if g then names else sort_by (locale_lt D) names)).
  destruct (fetch D _); [discriminate HG|]. congruence.
Qed.
Lemma pick_locales_returns allow ls : forall t l i, returns (pick_locales E D allow ls t l i).
Proof. induction ls as [|x ls IH]; intros t l i; cbn [pick_locales]; [destruct i; discriminate|]. destruct (mem x t); [apply IH|]. destruct (negb _); [apply IH|]. destruct allow; [apply IH|]. cbv zeta. destruct (mem _ l); [discriminate|apply IH]. Qed.
Lemma pick_languages_returns region ls : forall t l u, returns (pick_languages D region ls t l u).
Proof. induction ls as [|x ls IH]; intros t l u; cbn [pick_languages]; [destruct u; discriminate|]. cbv zeta. destruct (mem x l); [apply IH|]. destruct (negb _); [apply IH|]. destruct (mem _ t); [apply IH|]. destruct (negb _); apply IH. Qed.
Lemma get_locales_returns locales languages region g allow : returns (get_locales E D locales languages region g allow).
Proof. unfold get_locales. apply bind_returns; [destruct locales; [apply pick_languages_returns|apply pick_locales_returns]|]. intros names _. destruct (fetch D _); discriminate. Qed.
Lemma get_applicable_returns det used cfg icfg s : (forall ld, In ld used -> sound ld) -> returns (get_applicable E D det used cfg icfg s).
Proof.
  intros SU. unfold get_applicable. apply bind_returns; [destruct (u_try_prev cfg); [now apply check_previous_returns|discriminate]|]. intros prev _. apply bind_returns.
  - pose proof (get_locales_returns (u_locales cfg) (detected_languages det cfg (normalize_string (e_uni E) s)) (u_region cfg) (u_given_order cfg) false) as R. destruct (get_locales E D (u_locales cfg) _ _ _ _) as [l|[]|]; try discriminate. exact R.
  - intros lds HL. apply bind_returns.
    + apply filter_applicable_returns. intros ld HI. destruct (get_locales E D (u_locales cfg) _ _ _ _) as [l|e|] eqn:GL; [| |discriminate HL].
      * eapply get_locales_sound; [exact GL|]. assert (lds = l) as <- by congruence. exact HI.
      * assert (lds = []) as -> by (destruct e; congruence). destruct HI.
    + intros rs _. destruct (c_deflang icfg); [discriminate|]. apply bind_returns; [|discriminate]. pose proof (get_locales_returns [] (u_deflang cfg) (u_region cfg) (u_given_order cfg) false) as R. destruct (get_locales E D [] _ _ _ _); try discriminate. exact R.
Qed.
Lemma used_parse_sound det p cfg s fs : (forall ld, In ld (p_used p) -> sound ld) -> forall ld, In ld (p_used (fst (parse E D det p cfg s fs))) -> sound ld.
Proof.
  intros SU ld. destruct (parse_outcome E D det p cfg s fs) as [| | | | |lds l1 l2 l d ? ? ? HA HL]; rewrite ?typed_used; auto. destruct (u_try_prev cfg); [|rewrite typed_used; auto]. cbn [p_used with_used]. intros HI.
  destruct (save_used_cases (p_used p) l) as [[X _]|[X _]]; rewrite X in HI; [auto|]. apply in_app_iff in HI as [HI|[<-|[]]]; [auto|].
  destruct (get_applicable_In E D det _ _ _ _ _ HA l) as [[_ HI]|[(l' & GL & HI)|(_ & l' & GL & HI)]]; [subst lds; apply in_or_app; right; now left|auto| |]; eapply get_locales_sound; eassumption.
Qed.
Lemma parse_returns det p cfg s fs : (forall ld, In ld (p_used p) -> sound ld) -> returns (snd (parse E D det p cfg s fs)).
Proof.
  intros SU. unfold parse. destruct (existsb _ _); [discriminate|]. set (p' := match p_types p with [] => _ | _ => _ end). destruct (negb (validate _ _)); [discriminate|]. destruct (negb _); [discriminate|].
  assert (EU : p_used p' = p_used p) by (unfold p'; destruct (p_types p); reflexivity). rewrite EU.
  match goal with |- context [get_applicable E D det (p_used p) ?c ?i ?t] => pose proof (get_applicable_returns det (p_used p) c i t SU) as R; destruct (get_applicable E D det (p_used p) c i t) as [lds|e|] eqn:GA end; [|discriminate|congruence].
  assert (SL : forall ld, In ld lds -> sound ld).
  { intros ld HI. destruct (get_applicable_In E D det _ _ _ _ _ GA ld HI) as [[_ H]|[(l' & GL & H)|(_ & l' & GL & H)]]; [auto| |]; eapply get_locales_sound; eassumption. }
  match goal with |- context [try_locales E ?c ?i ?ty ?t fs lds] => pose proof (try_locales_returns c i ty t fs lds SL) as R2; destruct (try_locales E c i ty t fs lds) as [[[l d]|]|e|] end; [| | |congruence]; discriminate.
Qed.
End E.

Lemma reachable_sound D det p : tables_sound D -> reachable D det p -> forall ld, In ld (p_used p) -> sound ld.
Proof.
  intros TS (types & ops & ->). induction ops as [|o ops IH] using rev_ind; [intros ld []|]. rewrite run_snoc. destruct o as [E cfg s fs|l]; cbn [exec].
  - now apply used_parse_sound.
  - unfold Search.init_charsets. destruct (_ || _); exact IH.
Qed.

(** Parse returns: with any clock, tables, detector, parser, configuration, text and formats *)
Theorem C43_parse_returns : forall E D det p cfg s formats, tables_sound D -> reachable D det p ->
  exists d e, snd (parse E D det p cfg s formats) = Ok (d, e).
Proof.
  intros E D det p cfg s fs TS RE. pose proof (parse_returns E D TS det p cfg s fs (reachable_sound D det p TS RE)) as R.
  destruct (parse_outcome E D det p cfg s fs); try (eexists _, _; reflexivity). congruence.
Qed.
Print Assumptions C43_parse_returns.
