(** C20: whole amounts of units are applied exactly *)
From Coq Require Import ZifyBool SpecFloat.
From Verif Require Import GoBase SMap Regex Civil GoTime GoTimeFacts GoFloat FloatFacts Strutil Setting Timezone Env Common Relative RelSpec AbsFacts2 AbsSpec RegexFacts RegexFacts6 RegexFacts7 SpaceFacts NumericFacts
  Prop_Timestamp Prop_Relative Prop_Clocktime RelFacts RelText RelText2 Parser Shows Prop_Absolute3 Concrete LocaleData.
Ltac Zify.zify_post_hook ::= Z.div_mod_to_equations.

(** ** Specification: the texts *)
(** an amount: its digits, the unit, and whether a comma follows *)
Record item := { i_num : str; i_unit : tunit; i_comma : bool }.
Definition comma (b : bool) : str := if b then [44] else [].
(** "in", the amounts with their units, "ago": words separated by single spaces *)
Definition rel_words (i : bool) (l : list item) (a : bool) : list str :=
  (if i then [lit "in"] else []) ++ flat_map (fun x => [i_num x; name (i_unit x) ++ comma (i_comma x)]) l ++ (if a then [lit "ago"] else []).
Definition rel_string (i : bool) (l : list item) (a : bool) : str := join_words (rel_words i l a).
Definition tunit_eq_dec : forall u v : tunit, {u = v} + {u <> v}. Proof. decide equality. Defined.
(** the amount of a unit, if there is one *)
Fixpoint amount_of (l : list item) (u : tunit) : option Z :=
  match l with [] => None | x :: l' => if tunit_eq_dec (i_unit x) u then Some (number 0 (i_num x)) else amount_of l' u end.
Definition count_of (l : list item) (u : tunit) : Z := match amount_of l u with Some n => n | None => 0 end.
(** the largest amounts: those whose duration fits into 64 bits of nanoseconds *)
Definition largest (u : tunit) : Z := match u with Hour => 2562047 | Minute => 153722867 | Second => 9223372036 | _ => 1000000000 end.
Definition item_ok (x : item) : Prop := digits (i_num x) /\ number 0 (i_num x) <= largest (i_unit x).
(** the period: the smallest unit, where weeks count as days and decades as years *)
Definition smallest (l : list item) : period :=
  let has u := match amount_of l u with Some _ => true | None => false end in
  if has Second then PSecond else if has Minute then PMinute else if has Hour then PHour
  else if has Day || has Week then PDay else if has Month then PMonth else PYear.

(** ** The text as pieces *)
Definition ago_s (a : bool) : str := if a then 32 :: lit "ago" else [].
Definition in_s (i : bool) : str := if i then lit "in" ++ [32] else [].
Fixpoint pieces (g : str) (l : list item) : list piece :=
  match l with [] => [] | x :: l' => {| p_gap := g; p_num := i_num x; p_unit := i_unit x |} :: pieces (comma (i_comma x) ++ [32]) l' end.
Fixpoint post (c : bool) (l : list item) (a : bool) : str := match l with [] => comma c ++ ago_s a | x :: l' => post (i_comma x) l' a end.
Definition show_item (x : item) : str := i_num x ++ 32 :: name (i_unit x).
Fixpoint after (c : bool) (l : list item) (a : bool) : str :=
  match l with [] => comma c ++ ago_s a | x :: l' => comma c ++ 32 :: show_item x ++ after (i_comma x) l' a end.
Lemma flat_after l : forall c a, flat (pieces (comma c ++ [32]) l) (post c l a) = after c l a.
Proof.
  induction l as [|x l IH]; intros c a; cbn [pieces post flat after p_gap]; [reflexivity|]. rewrite IH. unfold show_num, show_item. cbn [p_num p_unit]. rewrite <- !app_assoc. reflexivity.
Qed.
Lemma join_cons w ws : ws <> [] -> join_words (w :: ws) = w ++ 32 :: join_words ws.
Proof. destruct ws; [congruence|reflexivity]. Qed.
Lemma join_items (l : list item) : forall (x : item) (a : bool), join_words (i_num x :: (name (i_unit x) ++ comma (i_comma x)) :: flat_map (fun x : item => [i_num x; name (i_unit x) ++ comma (i_comma x)]) l ++ (if a then [lit "ago"] else [])) = show_item x ++ after (i_comma x) l a.
Proof.
  induction l as [|y l IH]; intros x a; unfold show_item; (rewrite join_cons by discriminate).
  - cbn [flat_map app after]. destruct a; cbn [app ago_s]; [rewrite join_cons by discriminate|]; cbn [join_words]; rewrite <- ?app_assoc; cbn [app]; rewrite <- ?app_assoc, ?app_nil_r; reflexivity.
  - rewrite join_cons by discriminate. cbn [flat_map app after]. rewrite IH. rewrite <- ?app_assoc. cbn [app]. rewrite <- ?app_assoc. reflexivity.
Qed.
Lemma rel_string_flat i x l a : rel_string i (x :: l) a = flat (pieces (in_s i) (x :: l)) (post (i_comma x) l a) /\ rel_string i (x :: l) a = in_s i ++ show_item x ++ after (i_comma x) l a.
Proof.
  assert (E : rel_string i (x :: l) a = in_s i ++ show_item x ++ after (i_comma x) l a).
  { unfold rel_string, rel_words. cbn [flat_map app]. destruct i; cbn [app in_s].
    - rewrite join_cons by discriminate. rewrite join_items. rewrite <- app_assoc. reflexivity.
    - apply join_items. }
  split; [|exact E]. rewrite E. cbn [pieces flat p_gap]. rewrite flat_after. reflexivity.
Qed.
Lemma comma_ok c : gap_ok (comma c). Proof. destruct c; repeat constructor; lia. Qed.
Lemma ago_ok a : gap_ok (ago_s a). Proof. destruct a; cbn; repeat constructor; lia. Qed.
Lemma in_ok i : gap_ok (in_s i). Proof. destruct i; cbn; repeat constructor; lia. Qed.
Lemma after_head c l a : nonword_head (after c l a).
Proof. destruct l, c, a; reflexivity || exact I. Qed.
Lemma pieces_ok l : forall c a, Forall item_ok l -> flat_ok (pieces (comma c ++ [32]) l) (post c l a).
Proof.
  induction l as [|x l IH]; intros c a H; cbn [pieces post flat_ok p_gap p_num]; [apply Forall_app; split; [apply comma_ok|apply ago_ok]|]. inversion H as [|? ? [H1 _] H2]; subst.
  split; [apply Forall_app; split; [apply comma_ok|repeat constructor; lia]|]. split; [now apply digits_num|]. rewrite flat_after. split; [apply after_head|now apply IH].
Qed.
Lemma text_ok i x l a : Forall item_ok (x :: l) -> flat_ok (pieces (in_s i) (x :: l)) (post (i_comma x) l a).
Proof.
  intros H. inversion H as [|? ? [H1 _] H2]; subst. cbn [pieces flat_ok p_gap p_num]. split; [apply in_ok|]. split; [now apply digits_num|]. rewrite flat_after. split; [apply after_head|now apply pieces_ok].
Qed.
(** ** All words are units *)
Lemma good_nil U : good U []. Proof. reflexivity. Qed.
Lemma good_ago U a : uni_ascii U -> good U (ago_s a).
Proof. intros UA. destruct a; [|reflexivity]. cbn [ago_s]. apply (good_cons U [] 32); [constructor|reflexivity|reflexivity|]. apply good_end; [repeat constructor|]. apply good_lit; [exact UA|reflexivity|vm_compute; reflexivity]. Qed.
Lemma good_show U x s : uni_ascii U -> digits (i_num x) -> nonword_head s -> (forall c s', s = c :: s' -> good U s') -> good U (show_item x ++ s).
Proof.
  intros UA HD HN HG. unfold show_item. rewrite <- app_assoc. cbn [app]. apply good_cons; [now apply num_wordy, digits_num|reflexivity|apply good_num; [exact UA|now apply digits_num]|].
  destruct s as [|c s]; [rewrite app_nil_r; apply good_end; [apply name_wordy|now apply good_name]|]. apply good_cons; [apply name_wordy|exact HN|now apply good_name|]. now apply (HG c).
Qed.
Lemma good_after U l : uni_ascii U -> Forall item_ok l -> forall c a d s', after c l a = d :: s' -> good U s'.
Proof.
  intros UA. induction l as [|x l IH]; intros H c a d s' E; cbn [after] in E.
  - destruct c; cbn [comma app] in E; [assert (s' = ago_s a) by congruence; subst; now apply good_ago|]. destruct a; cbn [ago_s] in E; [|discriminate E]. assert (s' = lit "ago") as -> by congruence. apply good_end; [repeat constructor|]. apply good_lit; [exact UA|reflexivity|vm_compute; reflexivity].
  - inversion H as [|? ? [H1 _] H2]; subst. assert (G : good U (show_item x ++ after (i_comma x) l a)) by (apply good_show; [exact UA|exact H1|apply after_head|intros c' s2 E2; exact (IH H2 _ _ _ _ E2)]).
    destruct c; cbn [comma app] in E; [assert (s' = 32 :: show_item x ++ after (i_comma x) l a) as -> by congruence; apply (good_cons U [] 32); [constructor|reflexivity|reflexivity|exact G]|]. assert (s' = show_item x ++ after (i_comma x) l a) as -> by congruence. exact G.
Qed.
Lemma good_text U i x l a : uni_ascii U -> Forall item_ok (x :: l) -> good U (in_s i ++ show_item x ++ after (i_comma x) l a).
Proof.
  intros UA H. inversion H as [|? ? [H1 _] H2]; subst. assert (G : good U (show_item x ++ after (i_comma x) l a)) by (apply good_show; [exact UA|exact H1|apply after_head|intros c' s2 E2; exact (good_after U l UA H2 _ _ _ _ E2)]).
  destruct i; [|exact G]. cbn [in_s]. rewrite <- app_assoc. cbn [app]. apply good_cons; [repeat constructor|reflexivity|apply good_lit; [exact UA|reflexivity|vm_compute; reflexivity]|exact G].
Qed.
Lemma words_clean i l a : Forall item_ok l -> Forall word (rel_words i l a) /\ Forall asc (rel_words i l a).
Proof.
  intros H. assert (WL : forall s, s <> [] -> forallb (fun c => (33 <=? c) && (c <? 127)) s = true -> word s /\ asc s).
  { intros s N F. rewrite forallb_forall in F. split; [split; [exact N|]|]; apply Forall_forall; intros c Hc; specialize (F c Hc); [unfold is_space|]; lia. }
  assert (W : Forall (fun s => word s /\ asc s) (rel_words i l a)).
  { unfold rel_words. apply Forall_app. split; [destruct i; repeat (apply Forall_cons || apply Forall_nil); (apply WL; [discriminate|reflexivity])|]. apply Forall_app. split; [|destruct a; repeat (apply Forall_cons || apply Forall_nil); (apply WL; [discriminate|reflexivity])].
    apply Forall_flat_map. eapply Forall_impl; [|exact H]. intros x [[N D] _]. constructor.
    - apply WL; [exact N|]. rewrite forallb_forall. rewrite Forall_forall in D. intros c Hc. specialize (D c Hc). cbn in D. lia.
    - constructor; [|constructor]. destruct (i_unit x), (i_comma x); (apply WL; [discriminate|reflexivity]). }
  split; (eapply Forall_impl; [|exact W]); cbn; tauto.
Qed.
Lemma all_units E i x l a : uni_ascii (e_uni E) -> Forall item_ok (x :: l) -> all_words_units E (rel_string i (x :: l) a) = true.
Proof.
  intros UA H. unfold all_words_units. destruct (words_clean i (x :: l) a H) as [W1 W2]. unfold rel_string at 1. rewrite sanitize_asc by assumption. fold (rel_string i (x :: l) a).
  destruct (rel_string_flat i x l a) as [F E1]. rewrite rsplit_words; [|exact UA|rewrite F; apply flat_asc; now apply text_ok]. rewrite E1. now apply good_text.
Qed.
(** ** Direction *)
Lemma nob_after x l : (x = 105 \/ x = 97) -> Forall item_ok l -> forall c a prev, x = 105 \/ a = false -> nob x prev (after c l a) = true.
Proof.
  intros Hx. induction l as [|y l IH]; intros H c a prev HA; cbn [after].
  - rewrite nob_app. destruct c, a, Hx as [-> | ->]; destruct HA as [HA|HA]; try discriminate HA; try (exfalso; lia); reflexivity.
  - inversion H as [|? ? [H1 _] H2]; subst. rewrite nob_app. change (32 :: show_item y ++ after (i_comma y) l a) with ([32] ++ show_item y ++ after (i_comma y) l a). rewrite !nob_app. rewrite IH by assumption.
    change (show_item y) with (show_num {| p_gap := []; p_num := i_num y; p_unit := i_unit y |}). rewrite nob_show by (exact Hx || now apply digits_num). destruct c, Hx as [-> | ->]; reflexivity.
Qed.
Lemma text_nob x i y l a : (x = 105 \/ x = 97) -> Forall item_ok (y :: l) -> (x = 105 /\ i = false \/ x = 97 /\ a = false) -> nob x (-1) (in_s i ++ show_item y ++ after (i_comma y) l a) = true.
Proof.
  intros Hx H HA. inversion H as [|? ? [H1 _] H2]; subst. rewrite !nob_app. rewrite nob_after; [|exact Hx|exact H2|tauto].
  change (show_item y) with (show_num {| p_gap := []; p_num := i_num y; p_unit := i_unit y |}). rewrite nob_show by (exact Hx || now apply digits_num). destruct HA as [[-> ->]|[-> ->]]; [reflexivity|]. destruct i; reflexivity.
Qed.
Lemma after_ago c l : exists q, after c l true = q ++ 32 :: lit "ago".
Proof.
  revert c. induction l as [|x l IH]; intros c; cbn [after]; [exists (comma c); reflexivity|]. destruct (IH (i_comma x)) as (q & ->). exists (comma c ++ 32 :: show_item x ++ q). rewrite <- !app_assoc. cbn [app]. rewrite <- !app_assoc. reflexivity.
Qed.
Lemma text_says U i x l a : uni_ascii U -> Forall item_ok (x :: l) -> match_string U rxIn (rel_string i (x :: l) a) = i /\ match_string U rxAgo (rel_string i (x :: l) a) = a.
Proof.
  intros UA H. destruct (rel_string_flat i x l a) as [F E]. assert (HA : asc (rel_string i (x :: l) a)) by (rewrite F; apply flat_asc; now apply text_ok).
  split.
  - destruct i.
    + apply (word_search U (lit "in") _ UA); [discriminate|cbn; repeat (apply Forall_cons; [lia|]); apply Forall_nil|reflexivity|vm_compute; reflexivity|exact HA|]. exists [], (lit "in"), (32 :: show_item x ++ after (i_comma x) l a).
      split; [rewrite E; cbn [in_s]; rewrite <- app_assoc; reflexivity|]. split; [reflexivity|]. split; [intros (a' & c & E2 & _); destruct a'; discriminate E2|]. intros (c & b' & E2 & W). assert (c = 32) by congruence. subst c. unfold word_char in W. lia.
    + apply (nob_match U rxIn 105 [110]); [exact UA|reflexivity|vm_compute; reflexivity|lia|repeat (apply Forall_cons; [lia|]); apply Forall_nil|exact HA|]. rewrite E. apply text_nob; auto.
  - destruct a.
    + destruct (after_ago (i_comma x) l) as (q & EQ). apply (word_search U (lit "ago") _ UA); [discriminate|cbn; repeat (apply Forall_cons; [lia|]); apply Forall_nil|reflexivity|vm_compute; reflexivity|exact HA|]. exists (in_s i ++ show_item x ++ q ++ [32]), (lit "ago"), [].
      split; [rewrite E, EQ, <- !app_assoc; reflexivity|]. split; [reflexivity|]. split; [|intros (c & b' & E2 & _); discriminate E2]. intros (a' & c & E2 & W). rewrite !app_assoc in E2. apply app_inj_tail in E2 as [_ <-]. unfold word_char in W. lia.
    + apply (nob_match U rxAgo 97 [103; 111]); [exact UA|reflexivity|vm_compute; reflexivity|lia|repeat (apply Forall_cons; [lia|]); apply Forall_nil|exact HA|]. rewrite E. apply text_nob; auto.
Qed.
(** ** Durations *)
Definition rep (m : durs) (A : tunit -> option Z) : Prop := forall u, mget m (name u) = option_map fi (A u).
Lemma name_inj u v : name u = name v -> u = v.
Proof. unfold name. intros E. apply lit_inj in E. destruct u, v; reflexivity || discriminate E. Qed.
Definition upd (A : tunit -> option Z) (u : tunit) (o : option Z) : tunit -> option Z := fun v => if tunit_eq_dec u v then o else A v.
Lemma rep_set m A u n : rep m A -> rep (mset m (name u) (fi n)) (upd A u (Some n)).
Proof.
  intros H v. unfold upd. destruct (tunit_eq_dec u v) as [<- | N]; [now rewrite mget_mset_same|]. rewrite mget_mset_other; [apply H|]. intros E. apply N. now apply name_inj.
Qed.
Lemma rep_del m A u : rep m A -> rep (mdel m (name u)) (upd A u None).
Proof.
  intros H v. unfold upd. destruct (tunit_eq_dec u v) as [<- | N]; [now rewrite mget_mdel_same|]. rewrite mget_mdel_other; [apply H|]. intros E. apply N. now apply name_inj.
Qed.
Lemma amount_in l u n : amount_of l u = Some n -> In u (map i_unit l) /\ exists x, In x l /\ i_unit x = u /\ n = number 0 (i_num x).
Proof.
  induction l as [|x l IH]; cbn [amount_of map]; [discriminate|]. destruct (tunit_eq_dec (i_unit x) u) as [<- | N].
  - intros E. split; [now left|]. exists x. split; [now left|]. split; [reflexivity|congruence].
  - intros E. destruct (IH E) as (I1 & y & I2 & I3). split; [now right|]. exists y. split; [now right|exact I3].
Qed.
Lemma rep_items l : forall m A, NoDup (map i_unit l) -> rep m A ->
  rep (fold_left (fun m x => mset m (name (i_unit x)) (fi (number 0 (i_num x)))) l m) (fun u => match amount_of l u with Some n => Some n | None => A u end).
Proof.
  induction l as [|x l IH]; intros m A HN HR; cbn [fold_left]; [exact HR|]. cbn [map] in HN. inversion HN as [|? ? N1 N2]; subst.
  intros u. rewrite (IH _ _ N2 (rep_set _ _ (i_unit x) (number 0 (i_num x)) HR) u). cbn [amount_of]. unfold upd. destruct (tunit_eq_dec (i_unit x) u) as [<- | N].
  - destruct (amount_of l (i_unit x)) as [n|] eqn:AO; [|reflexivity]. exfalso. apply N1. now apply (amount_in l _ n).
  - destruct (amount_of l u); reflexivity.
Qed.
Lemma largest_small u : largest u <= 9223372036. Proof. destruct u; cbn; lia. Qed.
Lemma parse_num ds : digits ds -> number 0 ds < 2 ^ 53 -> parse_float (replace_all ds (lit ",") (lit ".")) = fi (number 0 ds).
Proof.
  intros HD L. pose proof HD as [_ D]. change (lit ",") with [44]. change (lit ".") with [46]. rewrite replace_all_one, comma_dot_digits by exact D. unfold parse_float. change (lit ".") with [46]. rewrite index_none by exact D. rewrite digits_dec_val by exact D.
  apply f_of_Z_int. pose proof (number_bound ds HD). lia.
Qed.
Lemma pieces_items l : forall g, map (fun p => (p_num p, p_unit p)) (pieces g l) = map (fun x => (i_num x, i_unit x)) l.
Proof. induction l as [|x l IH]; intros g; cbn [pieces map]; [reflexivity|]. cbn [p_num p_unit]. now rewrite IH. Qed.
Lemma raw_rep E i x l a : uni_ascii (e_uni E) -> Forall item_ok (x :: l) -> NoDup (map i_unit (x :: l)) -> rep (raw_durations E (rel_string i (x :: l) a)) (amount_of (x :: l)).
Proof.
  intros UA H HN. destruct (rel_string_flat i x l a) as [F _]. pose proof (find_flat (e_uni E) _ _ UA (text_ok i x l a H) (flat_long _ _)) as FA. rewrite <- F in FA. unfold raw_durations.
  set (t := rel_string i (x :: l) a) in *. clearbody t. set (xl := x :: l) in *. clearbody xl. clear F x l. rename xl into l.
  assert (R : rep [] (fun _ => None)) by (intros u; reflexivity). pose proof (rep_items l [] _ HN R) as RI.
  replace (fold_left (fun m mt => mset m (cap_str t mt 2) (parse_float (replace_all (cap_str t mt 1) (lit ",") (lit ".")))) (find_all (e_uni E) rxRelativePattern t) [])
    with (fold_left (fun m x => mset m (name (i_unit x)) (fi (number 0 (i_num x)))) l (@nil (str * f64))).
  - intros u. rewrite RI. destruct (amount_of l u); reflexivity.
  - clear R RI HN. generalize (@nil (str * f64)) as m. revert FA. generalize (find_all (e_uni E) rxRelativePattern t) as ms. revert H. generalize (in_s i) as g. induction l as [|x l IH]; intros g H ms FA m; cbn [pieces] in FA.
    + inversion FA; subst. reflexivity.
    + inversion FA as [|mt p ms' ps' [C1 C2] FA']; subst. cbn [p_num p_unit] in *. inversion H as [|? ? [H1 H2] H3]; subst. cbn [fold_left]. rewrite C1, C2. rewrite parse_num; [|exact H1|pose proof (largest_small (i_unit x)); lia]. apply (IH _ H3 _ FA').
Qed.
Definition valo (o : option Z) : Z := match o with Some n => n | None => 0 end.
Lemma dget_rep m A u : rep m A -> dget m (uname u) = fi (valo (A u)).
Proof. intros H. unfold dget, mget_or. fold (name u). rewrite H. destruct (A u); reflexivity. Qed.
Definition small (A : tunit -> option Z) : Prop := forall u, 0 <= valo (A u) < 2 ^ 40.
Lemma merge_rep m A a b k : rep m A -> small A -> 0 < k < 100 ->
  rep (match mget m (lit (uname a)) with Some d => mdel (dset m (uname b) (fadd (dget m (uname b)) (fmul d (f_of_Z k)))) (lit (uname a)) | None => m end)
      (match A a with Some d => upd (upd A b (Some (valo (A b) + d * k))) a None | None => A end).
Proof.
  intros H HS HK. fold (name a). rewrite (H a). destruct (A a) as [d|] eqn:EA; cbn [option_map]; [|exact H]. pose proof (HS a) as Sa. pose proof (HS b) as Sb. rewrite EA in Sa. cbn [valo] in Sa.
  rewrite (dget_rep m A b H). rewrite f_of_Z_int by lia. rewrite fmul_int by nia. rewrite fadd_int by nia. apply rep_del. apply rep_set. exact H.
Qed.
Lemma spread_rep m A u : rep m A -> small A -> spread_unit m (uname u) = m.
Proof.
  intros H HS. unfold spread_unit. fold (name u). rewrite H. specialize (HS u). destruct (A u) as [n|]; cbn [option_map]; [|reflexivity]. cbn [valo] in HS. unfold split_fraction. destruct (feqb (fi n) fzero); [reflexivity|].
  rewrite floor_int by lia. replace (feqb (fabs (fi n)) (fi n)) with true; [reflexivity|]. symmetry. unfold fi. destruct (n =? 0); [reflexivity|]. unfold canon. apply feqb_refl_fin.
Qed.
Lemma count_bound l u : Forall item_ok l -> 0 <= valo (amount_of l u) <= largest u.
Proof.
  intros H. destruct (amount_of l u) as [n|] eqn:A; cbn [valo]; [|destruct u; cbn; lia]. apply amount_in in A as (_ & x & I1 & <- & ->). rewrite Forall_forall in H. destruct (H x I1) as [H1 H2]. pose proof (number_bound _ H1). lia.
Qed.
(** the durations that are applied *)
Definition applied (l : list item) : tunit -> option Z :=
  let A := amount_of l in
  let A1 := match A Decade with Some d => upd (upd A Year (Some (valo (A Year) + d * 10))) Decade None | None => A end in
  match A1 Week with Some d => upd (upd A1 Day (Some (valo (A1 Day) + d * 7))) Week None | None => A1 end.
Lemma durations_rep E i x l a : uni_ascii (e_uni E) -> Forall item_ok (x :: l) -> NoDup (map i_unit (x :: l)) -> rep (get_durations E (rel_string i (x :: l) a)) (applied (x :: l)).
Proof.
  intros UA H HN. pose proof (raw_rep E i x l a UA H HN) as R. unfold get_durations. set (m := raw_durations E _) in *. clearbody m. set (xl := x :: l) in *. clearbody xl. clear x l HN.
  assert (S0 : small (amount_of xl)) by (intros u; pose proof (count_bound xl u H); pose proof (largest_small u); lia).
  pose proof (merge_rep m _ Decade Year 10 R S0 ltac:(lia)) as R1. change (uname Decade) with "decade"%string in R1. change (uname Year) with "year"%string in R1.
  set (A1 := match amount_of xl Decade with Some _ => _ | None => _ end) in R1. cbv zeta. set (m1 := match mget m (lit "decade") with Some _ => _ | None => _ end) in *. clearbody m1.
  assert (S1 : small A1).
  { intros u. unfold A1. pose proof (count_bound xl u H) as B. pose proof (count_bound xl Decade H) as BD. pose proof (count_bound xl Year H) as BY. pose proof (largest_small u). change (largest Decade) with 1000000000 in BD. change (largest Year) with 1000000000 in BY.
    destruct (amount_of xl Decade) as [d|]; [|lia]. cbn [valo] in BD. unfold upd. destruct (tunit_eq_dec Decade u); [cbn [valo]; lia|]. destruct (tunit_eq_dec Year u); [cbn [valo]; lia|]. lia. }
  pose proof (merge_rep m1 _ Week Day 7 R1 S1 ltac:(lia)) as R2. change (uname Week) with "week"%string in R2. change (uname Day) with "day"%string in R2.
  set (m2 := match mget m1 (lit "week") with Some _ => _ | None => _ end) in *. clearbody m2. fold A1 in R2. change (rep m2 (applied xl)) in R2.
  assert (S2 : small (applied xl)).
  { intros u. unfold applied. fold A1. pose proof (S1 u) as B. assert (BW : 0 <= valo (A1 Week) <= 1000000000).
    { unfold A1. pose proof (count_bound xl Week H) as BW. destruct (amount_of xl Decade); [|exact BW]. exact BW. }
    assert (BY : 0 <= valo (A1 Day) <= 1000000000). { unfold A1. pose proof (count_bound xl Day H) as BW2. destruct (amount_of xl Decade); [|exact BW2]. exact BW2. }
    destruct (A1 Week) as [d|]; [|exact B]. cbn [valo] in BW. unfold upd. destruct (tunit_eq_dec Week u); [cbn [valo]; lia|]. destruct (tunit_eq_dec Day u); [cbn [valo]; lia|]. exact B. }
  unfold relative_units. cbn [fold_left]. change "decade"%string with (uname Decade). change "year"%string with (uname Year). change "month"%string with (uname Month). change "week"%string with (uname Week). change "day"%string with (uname Day). change "hour"%string with (uname Hour). change "minute"%string with (uname Minute). change "second"%string with (uname Second).
  rewrite !(spread_rep m2 (applied xl)) by assumption. exact R2.
Qed.
Lemma applied_vals l : Forall item_ok l ->
  valo (applied l Year) = 10 * count_of l Decade + count_of l Year /\ valo (applied l Month) = count_of l Month /\ valo (applied l Day) = 7 * count_of l Week + count_of l Day /\
  valo (applied l Hour) = count_of l Hour /\ valo (applied l Minute) = count_of l Minute /\ valo (applied l Second) = count_of l Second.
Proof.
  intros H. unfold applied, count_of. destruct (amount_of l Decade) as [d|]; unfold upd; cbn [tunit_eq_dec]; repeat (destruct (tunit_eq_dec _ _) as [?|?]; try discriminate; try congruence).
  all: destruct (amount_of l Week) as [w|]; repeat (destruct (tunit_eq_dec _ _) as [?|?]; try discriminate; try congruence).
  all: unfold valo; repeat split; try lia; try (destruct (amount_of l _); lia).
Qed.
Lemma applied_has l : smallest l = (let has u := match applied l u with Some _ => true | None => false end in
  if has Second then PSecond else if has Minute then PMinute else if has Hour then PHour else if has Day then PDay else if has Month then PMonth else if has Year then PYear else smallest l).
Proof.
  unfold smallest, applied. cbv zeta. destruct (amount_of l Decade) as [d|]; unfold upd; destruct (amount_of l Week) as [w|] eqn:W; repeat (destruct (tunit_eq_dec _ _) as [?|?]; try discriminate; try congruence).
  all: rewrite ?W; destruct (amount_of l Second), (amount_of l Minute), (amount_of l Hour), (amount_of l Day); try reflexivity.
  all: destruct (amount_of l Month), (amount_of l Year); reflexivity.
Qed.
Lemma applied_some x l : exists u, applied (x :: l) u <> None.
Proof.
  unfold applied. cbv zeta. destruct (amount_of (x :: l) Decade) as [d|] eqn:D.
  - exists Year. unfold upd. repeat (destruct (tunit_eq_dec _ _) as [?|?]; try discriminate; try congruence). destruct (amount_of (x :: l) Week); repeat (destruct (tunit_eq_dec _ _) as [?|?]; try discriminate; try congruence).
  - destruct (amount_of (x :: l) Week) as [w|] eqn:W.
    + exists Day. unfold upd. repeat (destruct (tunit_eq_dec _ _) as [?|?]; try discriminate; try congruence).
    + exists (i_unit x). cbn [amount_of]. destruct (tunit_eq_dec (i_unit x) (i_unit x)); [discriminate|congruence].
Qed.
Lemma rep_period m x l : rep m (applied (x :: l)) -> rel_period m = smallest (x :: l).
Proof.
  intros R. rewrite applied_has. cbv zeta. unfold rel_period, dhas, mhas.
  change (lit "second") with (name Second). change (lit "minute") with (name Minute). change (lit "hour") with (name Hour). change (lit "day") with (name Day). change (lit "month") with (name Month). change (lit "year") with (name Year).
  rewrite !R. destruct (applied_some x l) as [u Hu].
  destruct (applied (x :: l) Second) eqn:E1, (applied (x :: l) Minute) eqn:E2, (applied (x :: l) Hour) eqn:E3, (applied (x :: l) Day) eqn:E4, (applied (x :: l) Month) eqn:E5, (applied (x :: l) Year) eqn:E6; try reflexivity.
  exfalso. assert (applied (x :: l) Week = None /\ applied (x :: l) Decade = None) as [E7 E8].
  { clear. unfold applied. cbv zeta. destruct (amount_of (x :: l) Decade) as [d|] eqn:D; unfold upd; destruct (amount_of (x :: l) Week) as [w|] eqn:W; repeat (destruct (tunit_eq_dec _ _) as [?|?]; try discriminate; try congruence); rewrite ?W; repeat (destruct (tunit_eq_dec _ _) as [?|?]; try discriminate; try congruence); split; congruence. }
  destruct u; congruence.
Qed.
(** ** The theorems *)
(** the sign of the step: forwards for [in] or when dates come from the future, unless [ago] is there *)
Definition direction (cfg : config) (i a : bool) : Z := if (i || (c_src cfg =? Future)) && negb a then 1 else -1.
(** In any zone: Go's AddDate (or its end-of-month preserving variant) by the years, months and days, then the hours, minutes and seconds. *)
Theorem C20_step : forall E cfg s0 i l a tz, uni_ascii (e_uni E) ->
  l <> [] -> Forall item_ok l -> NoDup (map i_unit l) ->
  etz_pop E (strip_braces s0) = (rel_string i l a, tz) ->
  let now := here E cfg tz in
  let g := direction cfg i a in
  let r := relative_parse E cfg s0 in
  d_time r = add (rel_add_date cfg now (g * (10 * count_of l Decade + count_of l Year)) (g * count_of l Month) (g * (7 * count_of l Week + count_of l Day)))
                 (g * (3600 * count_of l Hour + 60 * count_of l Minute + count_of l Second) * 1000000000) /\
  d_period r = (if negb (c_timeperiod cfg) && is_time (smallest l) then PDay else smallest l).
Proof.
  intros E cfg s0 i l a tz UA NE H HN HP now g r. destruct l as [|x l]; [congruence|]. clear NE. unfold r, relative_parse. rewrite HP, rel_now_here. fold now.
  destruct (rel_string_flat i x l a) as [F _]. assert (RT : rel_parse_time E (rel_string i (x :: l) a) = None) by (rewrite F; apply flat_no_time; [exact UA|now apply text_ok]). rewrite RT.
  unfold rel_parse_date. rewrite all_units by assumption. cbn [negb]. pose proof (durations_rep E i x l a UA H HN) as R. unfold rel_forward. destruct (text_says (e_uni E) i x l a UA H) as [S1 S2]. rewrite S1, S2.
  set (m := get_durations E (rel_string i (x :: l) a)) in *. clearbody m.
  destruct m as [|p m]; [exfalso; destruct (applied_some x l) as [u Hu]; specialize (R u); cbn in R; destruct (applied (x :: l) u); [discriminate R|congruence]|].
  set (m' := p :: m) in *. clearbody m'. clear p m. rename m' into m. rewrite (rep_period m x l R).
  replace (is_zero zero_time) with true by reflexivity. rewrite andb_false_r. unfold mkd. cbn [d_time d_period]. split; [|reflexivity].
  unfold rel_apply. pose proof (applied_vals (x :: l) H) as (V1 & V2 & V3 & V4 & V5 & V6). set (xl := x :: l) in *. clearbody xl.
  assert (B : forall u, 0 <= count_of xl u <= largest u) by (intros u; exact (count_bound xl u H)).
  pose proof (B Decade) as B1. pose proof (B Year) as B2. pose proof (B Month) as B3. pose proof (B Week) as B4. pose proof (B Day) as B5. pose proof (B Hour) as B6. pose proof (B Minute) as B7. pose proof (B Second) as B8. cbn [largest] in B1, B2, B3, B4, B5, B6, B7, B8.
  change "year"%string with (uname Year). change "month"%string with (uname Month). change "day"%string with (uname Day). change "hour"%string with (uname Hour). change "minute"%string with (uname Minute). change "second"%string with (uname Second).
  rewrite !(dget_rep m _ _ R), V1, V2, V3, V4, V5, V6. rewrite !int_int by lia. unfold hour_ns, minute_ns, second_ns. rewrite !(wrap_id (_ * _)) by lia. rewrite !wrap_id by lia.
  unfold g, direction. destruct ((i || (c_src cfg =? Future)) && negb a).
  - rewrite !Z.mul_1_l. generalize (rel_add_date cfg now (10 * count_of xl Decade + count_of xl Year) (count_of xl Month) (7 * count_of xl Week + count_of xl Day)). intros t. unfold add. cbn [t_sec t_nsec t_loc]. f_equal; lia.
  - replace (-1 * (10 * count_of xl Decade + count_of xl Year)) with (- (10 * count_of xl Decade + count_of xl Year)) by lia. replace (-1 * count_of xl Month) with (- count_of xl Month) by lia. replace (-1 * (7 * count_of xl Week + count_of xl Day)) with (- (7 * count_of xl Week + count_of xl Day)) by lia.
    generalize (rel_add_date cfg now (- (10 * count_of xl Decade + count_of xl Year)) (- count_of xl Month) (- (7 * count_of xl Week + count_of xl Day))). intros t. unfold add. cbn [t_sec t_nsec t_loc]. f_equal; lia.
Qed.
(** the day reached from that of [t] by years, months and days: the month is counted on, the day of the month is kept
    (and, if the end of the month is to be preserved, limited to the length of the month reached), then the days are counted on *)
Definition moved_day (preserve : bool) (t : time) (y m d : Z) : Z :=
  let k := month_index t + (12 * y + m) in
  month_start k + ((if preserve then Z.min (day t) (days_in (k / 12) (k mod 12 + 1)) else day t) - 1) + d.
Lemma rel_add_date_exact cfg t y m d : fixed (t_loc t) -> wf_time t ->
  instant (rel_add_date cfg t y m d) = instant t + (moved_day (c_preserve cfg) t y m d - local_days t) * (86400 * 1000000000) /\ t_loc (rel_add_date cfg t y m d) = t_loc t.
Proof.
  intros HF HW. unfold rel_add_date, moved_day. cbv zeta. set (k := month_index t + (12 * y + m)). destruct (c_preserve cfg); cbn [negb]; (split; [|reflexivity]).
  - rewrite (last_of_month' (year t + y) (month t + m) (k / 12) (k mod 12 + 1)) by (unfold k, month_index; destruct (civil_valid t) as [[V1 V2] _]; lia).
    set (D := days_in (k / 12) (k mod 12 + 1)). set (dd := if D <? day t then D else day t). pose proof (moved_date t y m dd HF HW) as MD. fold k in MD.
    set (t1 := mk_date _ _ dd _ _ _ _ _) in *. assert (W1 : wf_time t1) by apply mk_date_wf. assert (F1 : fixed (t_loc t1)) by exact HF.
    destruct (add_days_sec t1 d W1 F1) as [A1 A2].
    assert (I : instant (add_date t1 0 0 d) = instant t1 + d * (86400 * 1000000000)) by (unfold instant; rewrite A1, A2; lia).
    rewrite I, MD. assert (dd = Z.min (day t) D) as -> by (unfold dd; destruct (D <? day t) eqn:C; lia). lia.
  - unfold add_date. rewrite (moved_date t y m (day t + d) HF HW). fold k. lia.
Qed.
(** With the current time in a fixed zone, the instant is exactly this: *)
Theorem C20_exact : forall E cfg s0 i l a tz, uni_ascii (e_uni E) ->
  l <> [] -> Forall item_ok l -> NoDup (map i_unit l) ->
  etz_pop E (strip_braces s0) = (rel_string i l a, tz) ->
  let now := here E cfg tz in
  fixed (t_loc now) -> wf_time now ->
  let g := direction cfg i a in
  let r := relative_parse E cfg s0 in
  let days := moved_day (c_preserve cfg) now (g * (10 * count_of l Decade + count_of l Year)) (g * count_of l Month) (g * (7 * count_of l Week + count_of l Day)) - local_days now in
  let seconds := g * (3600 * count_of l Hour + 60 * count_of l Minute + count_of l Second) in
  instant (d_time r) = instant now + (86400 * days + seconds) * 1000000000 /\
  t_loc (d_time r) = t_loc now /\
  d_period r = (if negb (c_timeperiod cfg) && is_time (smallest l) then PDay else smallest l).
Proof.
  intros E cfg s0 i l a tz UA NE H HN HP now HF HW g r days seconds. destruct (C20_step E cfg s0 i l a tz UA NE H HN HP) as [T P]. fold now g r in T, P.
  split; [|split; [|exact P]].
  - rewrite T, instant_add. destruct (rel_add_date_exact cfg now (g * (10 * count_of l Decade + count_of l Year)) (g * count_of l Month) (g * (7 * count_of l Week + count_of l Day)) HF HW) as [-> _]. unfold days, seconds. lia.
  - rewrite T. unfold add. cbn [t_loc]. apply rel_add_date_exact; assumption.
Qed.
(** ** A case that meets the hypotheses *)
Definition ex_items : list item := [ {| i_num := lit "2"; i_unit := Year; i_comma := true |}; {| i_num := lit "14"; i_unit := Month; i_comma := false |}; {| i_num := lit "1"; i_unit := Week; i_comma := false |}; {| i_num := lit "90"; i_unit := Minute; i_comma := false |} ].
Definition ex_text : str := lit "in 2 year, 14 month 1 week 90 minute".
Definition ex_cfg : config := acfg "" (utc_at 2016 3 31 10 0 0) 0 0 0.
Example C20_hyp : ex_text = rel_string true ex_items false /\ ex_items <> [] /\ Forall item_ok ex_items /\ NoDup (map i_unit ex_items) /\
  (exists tz, etz_pop env0 (strip_braces ex_text) = (ex_text, tz) /\ fixed (t_loc (here env0 ex_cfg tz)) /\ wf_time (here env0 ex_cfg tz)) /\ smallest ex_items = PMinute.
Proof.
  split; [reflexivity|]. split; [discriminate|]. split; [|split; [|split; [|reflexivity]]].
  - unfold ex_items. repeat apply Forall_cons; [| | | |apply Forall_nil]; (split; [split; [discriminate|]|vm_compute; discriminate]); vm_compute; repeat (apply Forall_cons; [split; discriminate|]); apply Forall_nil.
  - cbn. repeat constructor; cbn; intuition discriminate.
  - exists (snd (etz_pop env0 (strip_braces ex_text))). split; [vm_compute; reflexivity|]. split; [vm_compute; reflexivity|]. vm_compute. split; [discriminate|reflexivity].
Qed.
(** through the public API, in its plural spelling: two years and fourteen months after 31 March 2016 is 31 May 2019; a week and 90 minutes later *)
Example C20_api : instant_of (go "" (utc_at 2016 3 31 10 0 0) 0 0 0 "in 2 years, 14 months 1 week and 90 minutes") = Some (instant (utc_at 2019 6 7 11 30 0)).
Proof. vm_compute. reflexivity. Qed.
Print Assumptions C20_step.
Print Assumptions C20_exact.
