(** Texts that name no zone: PopTzOffset leaves them alone *)
From Coq Require Import ZifyBool.
From Verif Require Import GoBase Regex Timezone Env ParserFacts AbsFacts2 RegexFacts RegexFacts2 RegexFacts3 RegexFacts6 Prop_Timezone.

(** ** The runs of letters of a text *)
Fixpoint runs_from (cur : str) (s : str) : list str :=
  match s with
  | [] => match cur with [] => [] | _ => [cur] end
  | c :: s' => if is_alphaA c then runs_from (cur ++ [c]) s' else match cur with [] => runs_from [] s' | _ => cur :: runs_from [] s' end
  end.
Definition runs (s : str) : list str := runs_from [] s.
Lemma runs_from_app s : forall cur t, (forall c t', t = c :: t' -> is_alphaA c = false) -> runs_from cur (s ++ t) = runs_from cur s ++ runs t.
Proof.
  induction s as [|c s IH]; intros cur t HT; cbn [app runs_from].
  - destruct t as [|d t]; [unfold runs; cbn [runs_from]; now rewrite app_nil_r|]. unfold runs. cbn [runs_from]. rewrite (HT d t eq_refl). destruct cur; reflexivity.
  - destruct (is_alphaA c); [now apply IH|]. destruct cur; cbn [app]; [now apply IH|]. f_equal. now apply IH.
Qed.
Lemma runs_break c s : is_alphaA c = false -> runs (c :: s) = runs s.
Proof. intros H. unfold runs. cbn [runs_from]. now rewrite H. Qed.
Lemma runs_from_letters : forall x cur b, Forall (fun c => is_alphaA c = true) x -> runs_from cur (x ++ b) = runs_from (cur ++ x) b.
Proof.
  induction x as [|c x IH]; intros cur b H; [cbn [app]; now rewrite app_nil_r|]. inversion H; subst. cbn [app runs_from]. rewrite H2. rewrite IH by assumption. now rewrite <- app_assoc.
Qed.
Lemma runs_found a c x b : is_alphaA c = false -> x <> [] -> Forall (fun c => is_alphaA c = true) x -> (forall d b', b = d :: b' -> is_alphaA d = false) ->
  In x (runs (a ++ c :: x ++ b)).
Proof.
  intros HC NX HX HB. unfold runs. rewrite runs_from_app by (intros ? ? [= <- _]; exact HC). apply in_or_app. right. rewrite runs_break by exact HC. unfold runs. rewrite runs_from_letters by exact HX. cbn [app].
  destruct x as [|y x]; [congruence|]. destruct b as [|d b]; cbn [runs_from]; [now left|]. rewrite (HB d b eq_refl). now left.
Qed.

(** ** The patterns of the named zones *)
Definition ctx_left : re := Eval vm_compute in match tz_second with o :: _ => match od_rx o with Some r => match rx_ast r with Cat (Grp _ l) _ => l | _ => Eps end | None => Eps end | [] => Eps end.
Definition ctx_right : re := Alt Eot (Cls false {| cl_neg := false; cl_items := [INotRanges ranges_w] |}).
Fixpoint chrs (w : list Z) (r : re) : re := match w with [] => r | c :: w' => Cat (Chr true c) (chrs w' r) end.
Definition name_re (w : list Z) : re := Cat (Grp 1 ctx_left) (chrs w (Grp 2 ctx_right)).
Lemma second_shape : map od_rx tz_second = map (fun o => Some {| rx_ast := name_re (GoBase.runes (od_name o)); rx_ngroups := 2 |}) tz_second.
Proof. vm_compute. reflexivity. Qed.
Lemma ctx_left_spec s k : asc (m_rest s) -> mtch uni_min ctx_left s k <> None -> exists c t, m_rest s = c :: t /\ is_alphaA c = false /\ exists pc, k {| m_prev := c; m_rest := t; m_pos := S (m_pos s); m_caps := pc |} <> None.
Proof.
  intros HA. unfold ctx_left. cbn [mtch]. unfold step. destruct (m_rest s) as [|c t] eqn:ER; [congruence|]. inversion HA as [|? ? Hc HT]; subst. rewrite rune1 by lia. cbn [skipn]. rewrite Nat.add_1_r.
  set (k0 := k {| m_prev := c; m_rest := t; m_pos := S (m_pos s); m_caps := m_caps s |}). intros HN. exists c, t. split; [reflexivity|].
  assert (X : is_alphaA c = false /\ k0 <> None); [|destruct X; split; [assumption|]; eexists; exact H0].
  revert HN. destruct k0 as [e|]; [|intros HN; exfalso; apply HN; repeat match goal with |- context [if ?b then None else None] => destruct b end; reflexivity].
  intros HN. split; [|discriminate]. match type of HN with context [if ?b then Some e else None] => destruct b eqn:B1 end.
  - unfold cls_has in B1. cbn [cl_neg cl_items existsb item_has] in B1. unfold in_ranges in B1. cbn [existsb fst snd] in B1. unfold is_alphaA, is_upperA, is_lowerA. lia.
  - match type of HN with context [if ?b then Some e else None] => destruct b eqn:B2 end.
    + unfold cls_has in B2. cbn [cl_neg cl_items existsb item_has] in B2. unfold is_alphaA, is_upperA, is_lowerA. lia.
    + match type of HN with context [if ?b then Some e else None] => destruct b eqn:B3 end; [|congruence]. unfold chr_is in B3. cbn [uni_min u_fold] in B3. change (lowerA 95) with 95 in B3. unfold lowerA, is_upperA in B3. unfold is_alphaA, is_upperA, is_lowerA. destruct ((65 <=? c) && (c <=? 90)) eqn:BU; lia.
Qed.
Lemma chrs_spec r : forall w s k, asc (m_rest s) -> mtch uni_min (chrs w r) s k <> None -> exists x b prev pos caps, m_rest s = x ++ b /\ map lowerA x = map lowerA w /\ mtch uni_min r {| m_prev := prev; m_rest := b; m_pos := pos; m_caps := caps |} k <> None.
Proof.
  induction w as [|c w IH]; intros s k HA HM; cbn [chrs] in HM.
  - exists [], (m_rest s), (m_prev s), (m_pos s), (m_caps s). split; [reflexivity|]. split; [reflexivity|]. destruct s; exact HM.
  - change (mtch uni_min (Cat (Chr true c) (chrs w r)) s k) with (step s (chr_is uni_min true c) (fun s' => mtch uni_min (chrs w r) s' k)) in HM. unfold step in HM. destruct (m_rest s) as [|d t] eqn:ER; [congruence|]. inversion HA as [|? ? Hd HT]; subst. rewrite rune1 in HM by lia.
    destruct (chr_is uni_min true c d) eqn:CH; [|congruence]. cbn [skipn] in HM. apply IH in HM; [|exact HT]. destruct HM as (x & b & prev & pos & caps & E1 & E2 & E3). cbn [m_rest] in E1. exists (d :: x), b, prev, pos, caps. split; [now rewrite E1|]. split; [|exact E3]. cbn [map]. f_equal; [|exact E2]. unfold chr_is in CH. cbn [uni_min u_fold] in CH. lia.
Qed.
Lemma name_spec w s : asc s -> (exists m, find uni_min {| rx_ast := name_re w; rx_ngroups := 2 |} s = Some m) ->
  exists a c x b, s = a ++ c :: x ++ b /\ is_alphaA c = false /\ map lowerA x = map lowerA w /\ (forall d b', b = d :: b' -> ~ word_char d).
Proof.
  intros HA HM. rewrite find_scan in HM by exact HA. apply scan_some in HM as (a & b & -> & HM). cbn [rx_ast] in HM. unfold match_here in HM.
  set (st := Build_mst (last a (-1)) b (0 + length a) []) in HM. apply asc_app in HA as [_ HB].
  assert (HM2 : mtch uni_min (name_re w) st Some <> None) by (destruct (mtch uni_min (name_re w) st Some); congruence). clear HM. unfold name_re in HM2.
  change (mtch uni_min (Cat (Grp 1 ctx_left) (chrs w (Grp 2 ctx_right))) st Some) with (mtch uni_min ctx_left st (fun s' => mtch uni_min (chrs w (Grp 2 ctx_right)) {| m_prev := m_prev s'; m_rest := m_rest s'; m_pos := m_pos s'; m_caps := (1%nat, (m_pos st, m_pos s')) :: m_caps s' |} Some)) in HM2.
  apply ctx_left_spec in HM2; [|exact HB]. destruct HM2 as (c & t & EB & HC & pc & HM). cbn [m_rest m_prev m_pos m_caps] in HM. assert (HT : asc t) by (cbn [m_rest st] in EB; subst b; now inversion HB).
  apply chrs_spec in HM; [|exact HT]. cbn [m_rest] in HM. destruct HM as (x & q & prev & pos & caps & -> & EX & HM). cbn [m_rest st] in EB. subst b. exists a, c, x, q. split; [reflexivity|]. split; [exact HC|]. split; [exact EX|].
  apply asc_app in HT as [_ HQ]. intros d b' ->. inversion HQ; subst. intros WC. apply HM. clear HM. unfold ctx_right. cbn [mtch]. cbn [m_rest]. unfold step. cbn [m_rest]. rewrite rune1 by lia.
  assert (CH : cls_has uni_min false {| cl_neg := false; cl_items := [INotRanges ranges_w] |} d = false); [|now rewrite CH].
  unfold cls_has. cbn [cl_neg cl_items existsb item_has]. apply is_word_char in WC. unfold is_word in WC. rewrite WC. reflexivity.
Qed.

(** ** Texts without a sign none of whose runs of letters is a zone *)
Definition sign (c : Z) : bool := (c =? 43) || (c =? 45).
Definition zone_names : list str := Eval vm_compute in map (fun o => map lowerA (od_name o)) tz_second.
Definition zone_free (s : str) : Prop := asc s /\ (forall c, In c s -> sign c = false) /\ (forall x, In x (runs s) -> ~ In (map lowerA x) zone_names).
Lemma second_ok : forallb (fun o => (forallb (fun c => (0 <=? c) && (c <? 128)) (od_name o) && forallb is_alphaA (od_name o) && negb (empty (od_name o)) && mem (map lowerA (od_name o)) zone_names) || negb (forallb (fun c => lowerA c <? 128) (GoBase.runes (od_name o)))) tz_second = true.
Proof. vm_compute. reflexivity. Qed.
(** with the identity only the constants of a pattern matter *)
Fixpoint plain_consts (r : re) : bool :=
  match r with
  | Chr ci c => const_ok ci c
  | Cls ci k => forallb (item_ok ci) (cl_items k)
  | Cat a b | Alt a b => if plain_consts a then plain_consts b else false
  | Star _ a | Grp _ a => plain_consts a
  | _ => true
  end.
Lemma keep_respects r : plain_consts r = true -> respects keep r = true.
Proof.
  assert (K : forall f, invb keep f = true) by (intros f; unfold invb, keep; apply forallb_forall; intros x _; apply Bool.eqb_reflx).
  induction r as [|ci c|ci c| |a IHa b IHb|a IHa b IHb|g a IHa|n a IHa| | |neg]; cbn [respects plain_consts]; auto.
  - intros ->. now rewrite K.
  - intros ->. now rewrite K.
  - intros H. destruct (plain_consts a); [|discriminate H]. now rewrite IHa, IHb.
  - intros H. destruct (plain_consts a); [|discriminate H]. now rewrite IHa, IHb.
Qed.
Lemma entries_plain : forallb (fun o => match od_rx o with Some r => plain_consts (rx_ast r) | None => true end) tz_source_order = true.
Proof. vm_compute. reflexivity. Qed.
Lemma entries_respect : forallb (fun o => match od_rx o with Some r => respects keep (rx_ast r) | None => true end) tz_source_order = true.
Proof.
  pose proof entries_plain as B. rewrite forallb_forall in B |- *. intros o HI. specialize (B o HI). destruct (od_rx o); [now apply keep_respects|reflexivity].
Qed.
Lemma signs_needed : forallb (fun o => match od_rx o with Some r => needs sign (rx_ast r) | None => true end) (tz_main ++ concat tz_altblocks) = true.
Proof. vm_compute. reflexivity. Qed.
Lemma alpha_lower x : forall w, map lowerA x = map lowerA w -> forallb is_alphaA w = true -> Forall (fun c => is_alphaA c = true) x.
Proof.
  induction x as [|c x IH]; intros [|d w] E H; try discriminate E; constructor; cbn [map forallb] in *.
  - apply andb_true_iff in H as [H _]. assert (EC : lowerA c = lowerA d) by congruence. unfold lowerA, is_alphaA, is_upperA, is_lowerA in *. destruct ((65 <=? c) && (c <=? 90)) eqn:B1, ((65 <=? d) && (d <=? 90)) eqn:B2; lia.
  - apply andb_true_iff in H as [_ H]. apply (IH w); [congruence|exact H].
Qed.
Theorem no_zone U s l : uni_ascii U -> tz_order l -> zone_free s -> pop_tz U l s = (s, od_zero).
Proof.
  intros UA HL (HA & HS & HR). unfold pop_tz. destruct (match_string U rxSearchIgnoreCase s); [|reflexivity].
  destruct (pop_loop U l s) as [s' od] eqn:PL. apply pop_loop_cases in PL as [[-> ->]|(r & m & HI & ER & HF & _)]; [reflexivity|exfalso].
  apply (tz_order_perm l HL) in HI. unfold tz_source_order in HI. rewrite app_assoc in HI. apply in_app_iff in HI as [HI|HI].
  - pose proof signs_needed as B. rewrite forallb_forall in B. apply B in HI. rewrite ER in HI. rewrite (lacks_none sign U UA r s) in HF; [discriminate HF|exact HI|]. unfold lacks. rewrite Forall_forall. intros c HC. split; [|now apply HS].
    unfold asc in HA. rewrite Forall_forall in HA. now apply HA.
  - assert (RK : respects keep (rx_ast r) = true). { pose proof entries_respect as B. rewrite forallb_forall in B. specialize (B od). rewrite ER in B. apply B. unfold tz_source_order. rewrite app_assoc. apply in_or_app. now right. }
    assert (SH : r = {| rx_ast := name_re (GoBase.runes (od_name od)); rx_ngroups := 2 |}).
    { destruct (In_nth_error _ _ HI) as (n & HN). pose proof (map_nth_error od_rx n tz_second HN) as X. rewrite second_shape in X. rewrite (map_nth_error _ n tz_second HN) in X. congruence. }
    rewrite (find_norm keep U UA keep_ok r s RK HA), map_keep in HF. rewrite SH in HF. destruct (name_spec (GoBase.runes (od_name od)) s HA) as (a & c & x & b & ES & HC & EX & HB); [now exists m|].
    pose proof second_ok as B. rewrite forallb_forall in B. specialize (B od HI). apply orb_true_iff in B as [B|B].
    + apply andb_true_iff in B as [B B4]. apply andb_true_iff in B as [B B3]. apply andb_true_iff in B as [B1 B2].
      assert (RN : GoBase.runes (od_name od) = od_name od) by (apply Utf8Facts.runes_ascii; unfold is_ascii; apply forallb_forall; intros y HY; rewrite forallb_forall in B1; apply B1 in HY; lia).
      rewrite RN in EX. apply (HR x).
      * rewrite ES. apply runs_found; [exact HC|intros ->; destruct (od_name od); [discriminate B3|discriminate EX]|eapply alpha_lower; eassumption|]. intros d b' EB. specialize (HB d b' EB). unfold word_char in HB. unfold is_alphaA, is_upperA, is_lowerA. lia.
      * rewrite EX. now apply mem_In.
    + apply negb_true_iff in B. rewrite <- not_true_iff_false in B. apply B. apply forallb_forall. intros y HY. apply (in_map lowerA) in HY. rewrite <- EX in HY. apply in_map_iff in HY as (z & HZ & IZ).
      assert (AZ : 0 <= z < 128). { unfold asc in HA. rewrite Forall_forall in HA. apply HA. rewrite ES. apply in_or_app. right. right. apply in_or_app. now left. }
      rewrite <- HZ. unfold lowerA, is_upperA. destruct (_ && _) eqn:BB; lia.
Qed.
