(** Searching an ASCII text from left to right *)
From Coq Require Import ZifyBool.
From Verif Require Import GoBase Regex Timezone AbsFacts2 RegexFacts RegexFacts3.

(** the first match of [r] in [s], where [prev] is the character before and [pos] the position of [s] *)
Fixpoint scan (U : uni) (r : re) (prev : Z) (s : str) (pos : nat) : option match_ :=
  match match_here U r (Build_mst prev s pos []) with
  | Some m => Some m
  | None => match s with [] => None | c :: s' => scan U r c s' (S pos) end
  end.
Lemma decode_asc c s : 0 <= c < 128 -> decode (c :: s) = (c, 1%nat) :: decode s.
Proof. intros H. unfold decode. cbn [decode_from]. rewrite rune1 by lia. reflexivity. Qed.
Lemma states_scan U r : forall s prev pos, asc s -> first_match U r (states_from prev pos (decode s) s) = scan U r prev s pos.
Proof.
  induction s as [|c s IH]; intros prev pos H; [reflexivity|]. inversion H as [|? ? Hc Hs]; subst. rewrite decode_asc by lia. cbn [states_from first_match scan].
  destruct (match_here U r _) as [m|]; [reflexivity|]. cbn [skipn]. rewrite Nat.add_1_r. now apply IH.
Qed.
Lemma find_scan U r s : asc s -> find U r s = scan U (rx_ast r) (-1) s 0.
Proof. apply states_scan. Qed.
Lemma scan_some U r : forall s prev pos, (exists m, scan U r prev s pos = Some m) <-> exists a b, s = a ++ b /\ match_here U r (Build_mst (last a prev) b (pos + length a) []) <> None.
Proof.
  induction s as [|c s IH]; intros prev pos; cbn [scan].
  - destruct (match_here U r _) as [m|] eqn:M; split.
    + intros _. exists [], []. cbn [last length]. rewrite Nat.add_0_r, M. split; [reflexivity|discriminate].
    + intros _. eauto.
    + intros (m & Hm). discriminate Hm.
    + intros (a & b & E & N). symmetry in E. apply app_eq_nil in E as [-> ->]. cbn [last length] in N. rewrite Nat.add_0_r in N. congruence.
  - destruct (match_here U r _) as [m|] eqn:M.
    + split; [|eauto]. intros _. exists [], (c :: s). cbn [last length app]. rewrite Nat.add_0_r, M. split; [reflexivity|discriminate].
    + rewrite IH. split; intros (a & b & E & N).
      * exists (c :: a), b. split; [now rewrite E|]. replace (last (c :: a) prev) with (last a c); [cbn [length]; now replace (pos + S (length a))%nat with (S pos + length a)%nat by lia|].
        clear. destruct a as [|x a]; [reflexivity|]. cbn [last]. revert x. induction a as [|y a IH]; intros x; [reflexivity|]. cbn [last] in *. apply IH.
      * destruct a as [|x a]; cbn [app] in E; [subst b; cbn [last length] in N; rewrite Nat.add_0_r in N; congruence|]. assert (x = c) by congruence. assert (s = a ++ b) by congruence. subst x.
        exists a, b. split; [assumption|]. replace (last a c) with (last (c :: a) prev); [cbn [length] in N; now replace (S pos + length a)%nat with (pos + S (length a))%nat by lia|].
        clear. destruct a as [|x a]; [reflexivity|]. cbn [last]. revert x. induction a as [|y a IH]; intros x; [reflexivity|]. cbn [last] in *. apply IH.
Qed.
Lemma match_scan U r s : asc s -> match_string U r s = true <-> exists a b, s = a ++ b /\ match_here U (rx_ast r) (Build_mst (last a (-1)) b (length a) []) <> None.
Proof.
  intros H. rewrite <- (scan_some U (rx_ast r) s (-1) 0). rewrite <- (find_scan U r s H). unfold match_string. destruct (find U r s); split; eauto; try discriminate. intros (m & Hm). discriminate Hm.
Qed.

(** ** Whole words *)
Definition word_char (c : Z) : Prop := 48 <= c <= 57 \/ 65 <= c <= 90 \/ c = 95 \/ 97 <= c <= 122.
Lemma is_word_char c : is_word c = true <-> word_char c.
Proof. unfold is_word, in_ranges, ranges_w, word_char. cbn [existsb fst snd]. lia. Qed.
(** the text contains the (lower-case) word [w], in any case, not inside a longer word *)
Definition says (w s : str) : Prop :=
  exists a x b, s = a ++ x ++ b /\ map lowerA x = w /\ ~ (exists a' c, a = a' ++ [c] /\ word_char c) /\ ~ (exists c b', b = c :: b' /\ word_char c).
Fixpoint word_re (w : str) : re := match w with [] => WordB false | c :: w' => Cat (Chr true c) (word_re w') end.
Lemma fold_lower c x : 97 <= c <= 122 -> 0 <= x < 128 -> chr_is uni_min true c x = (lowerA x =? c).
Proof.
  intros Hc Hx. assert (K : forallb (fun c => implb ((97 <=? c) && (c <=? 122)) (forallb (fun x => Bool.eqb (chr_is uni_min true c x) (lowerA x =? c)) ascii_all)) ascii_all = true) by (vm_compute; reflexivity).
  rewrite forallb_forall in K. specialize (K c (ascii_all_in keep c ltac:(lia))). replace ((97 <=? c) && (c <=? 122)) with true in K by lia. cbn [implb] in K. rewrite forallb_forall in K. specialize (K x (ascii_all_in keep x Hx)). now apply Bool.eqb_prop in K.
Qed.
Lemma lower_word x c : 97 <= c <= 122 -> lowerA x = c -> is_word x = true.
Proof. intros H E. apply is_word_char. unfold word_char. unfold lowerA, is_upperA in E. destruct (_ && _) eqn:B in E; lia. Qed.
Lemma head_word b : asc b -> match b with [] => false | z :: l0 => is_word (fst (decode_rune (z :: l0))) end = match b with [] => false | c :: _ => is_word c end.
Proof. destruct b as [|c b]; [reflexivity|]. intros H. inversion H; subst. now rewrite rune1 by lia. Qed.
Lemma word_re_match w : Forall (fun c => 97 <= c <= 122) w -> forall b prev pos k, asc b -> (forall s, k s <> None) ->
  (mtch uni_min (word_re w) (Build_mst prev b pos []) k <> None <->
   exists x b', b = x ++ b' /\ map lowerA x = w /\ xorb (is_word (last x prev)) (match b' with [] => false | c :: _ => is_word c end) = true).
Proof.
  induction 1 as [|c w Hc _ IH]; intros b prev pos k HA HK; cbn [word_re mtch].
  - unfold at_wordb. cbn [m_prev m_rest]. rewrite head_word by exact HA.
    destruct (xorb (is_word prev) _) eqn:X; cbn [xorb negb].
    + split; [|intros _; apply HK]. intros _. exists [], b. split; [reflexivity|]. split; [reflexivity|]. exact X.
    + split; [congruence|]. intros (x & b' & E1 & E2 & E3). apply map_eq_nil in E2. subst x. cbn [app last] in *. subst b'. congruence.
  - unfold step. cbn [m_rest m_pos m_caps]. destruct b as [|d b].
    + split; [congruence|]. intros (x & b' & E1 & E2 & _). symmetry in E1. apply app_eq_nil in E1 as [-> _]. discriminate E2.
    + inversion HA as [|? ? Hd HA']; subst. rewrite rune1 by lia. rewrite fold_lower by lia. cbn [skipn]. destruct (lowerA d =? c) eqn:L.
      * rewrite IH by assumption. split; intros (x & b' & E1 & E2 & E3).
        -- exists (d :: x), b'. split; [now rewrite E1|]. split; [cbn [map]; rewrite E2; f_equal; lia|]. destruct x as [|y x]; [exact E3|]. cbn [last] in *. exact E3 || (replace (match x with [] => y | _ :: _ => last x prev end) with (match x with [] => y | _ :: _ => last x d end); [exact E3|]; clear; destruct x as [|z x]; [reflexivity|]; revert z; induction x as [|z' x IHx]; intros z; [reflexivity|]; cbn [last] in *; apply IHx).
        -- destruct x as [|y x]; [discriminate E2|]. cbn [app map] in *. assert (y = d) by congruence. subst y. exists x, b'. split; [congruence|]. split; [congruence|]. destruct x as [|y x]; [exact E3|]. cbn [last] in *.
           replace (match x with [] => y | _ :: _ => last x d end) with (match x with [] => y | _ :: _ => last x prev end); [exact E3|]. clear. destruct x as [|z x]; [reflexivity|]. revert z. induction x as [|z' x IHx]; intros z; [reflexivity|]. cbn [last] in *. apply IHx.
      * split; [congruence|]. intros (x & b' & E1 & E2 & _). destruct x as [|y x]; [discriminate E2|]. cbn [app map] in *. assert (y = d) by congruence. subst y. assert (lowerA d = c) by congruence. lia.
Qed.
Lemma last_in (x : str) d : x <> [] -> exists x' c, x = x' ++ [c] /\ last x d = c.
Proof. intros N. destruct (exists_last N) as (x' & c & ->). exists x', c. split; [reflexivity|]. apply last_last. Qed.
Theorem word_search U w s : uni_ascii U -> w <> [] -> Forall (fun c => 97 <= c <= 122) w -> forall r, rx_ast r = Cat (WordB false) (word_re w) -> respects keep (rx_ast r) = true -> asc s ->
  (match_string U r s = true <-> says w s).
Proof.
  intros UA NW HW r ER RK HA. rewrite (match_norm keep U UA keep_ok r s RK HA), map_keep. rewrite match_scan by exact HA. rewrite ER. split.
  - intros (a & b & -> & N). apply asc_app in HA as [HA HB]. unfold match_here in N. cbn [mtch] in N. set (st := Build_mst (last a (-1)) b (length a) []) in N.
    assert (AW : at_wordb st = true) by (revert N; destruct (at_wordb st); [reflexivity|intros N; exfalso; apply N; reflexivity]). rewrite AW in N. cbn [xorb] in N.
    assert (N2 : mtch uni_min (word_re w) st Some <> None) by (destruct (mtch uni_min (word_re w) st Some); congruence).
    unfold at_wordb, st in AW. cbn [m_prev m_rest] in AW. rewrite head_word in AW by exact HB. unfold st in N2.
    apply word_re_match in N2; [|exact HW|exact HB|congruence]. destruct N2 as (x & b' & -> & E2 & E3).
    assert (NX : x <> []) by (intros ->; apply NW; now rewrite <- E2). exists a, x, b'. split; [reflexivity|]. split; [exact E2|].
    assert (FX : is_word (last x (last a (-1))) = true).
    { destruct (last_in x (last a (-1)) NX) as (x' & c & EX & ->). rewrite EX, map_app in E2. cbn [map] in E2. rewrite <- E2 in HW. apply Forall_app in HW as [_ HW]. inversion HW; subst. eapply lower_word; [eassumption|reflexivity]. }
    rewrite FX in E3. assert (FB : match x ++ b' with [] => false | c :: _ => is_word c end = true).
    { destruct x as [|c x]; [congruence|]. cbn [app]. cbn [map] in E2. rewrite <- E2 in HW. inversion HW; subst. eapply lower_word; [eassumption|reflexivity]. }
    rewrite FB in AW. split.
    + intros (a' & c & -> & WC). rewrite last_last in AW. apply is_word_char in WC. rewrite WC in AW. discriminate AW.
    + intros (c & b2 & -> & WC). apply is_word_char in WC. rewrite WC in E3. discriminate E3.
  - intros (a & x & b & -> & E2 & N1 & N2). apply asc_app in HA as [HA HB]. exists a, (x ++ b). split; [reflexivity|].
    assert (NX : x <> []) by (intros ->; apply NW; now rewrite <- E2). unfold match_here. cbn [mtch]. set (st := Build_mst (last a (-1)) (x ++ b) (length a) []).
    assert (FB : match x ++ b with [] => false | c :: _ => is_word c end = true).
    { destruct x as [|c x]; [congruence|]. cbn [app]. rewrite <- E2 in HW. cbn [map] in HW. inversion HW; subst. eapply lower_word; [eassumption|reflexivity]. }
    assert (FA : is_word (last a (-1)) = false).
    { destruct a as [|y a]; [reflexivity|]. destruct (last_in (y :: a) (-1) ltac:(discriminate)) as (a' & c & EA & ->). destruct (is_word c) eqn:WC; [|reflexivity]. exfalso. apply N1. exists a', c. split; [exact EA|]. now apply is_word_char. }
    assert (AW : at_wordb st = true) by (unfold at_wordb, st; cbn [m_prev m_rest]; rewrite head_word by exact HB; rewrite FA, FB; reflexivity). rewrite AW. cbn [xorb].
    assert (N3 : mtch uni_min (word_re w) (Build_mst (last a (-1)) (x ++ b) (length a) []) Some <> None).
    { apply word_re_match; [exact HW|exact HB|congruence|]. exists x, b. split; [reflexivity|]. split; [exact E2|]. destruct (last_in x (last a (-1)) NX) as (x' & c & EX & ->).
      assert (WC : is_word c = true). { rewrite EX, map_app in E2. cbn [map] in E2. rewrite <- E2 in HW. apply Forall_app in HW as [_ HW]. inversion HW; subst. eapply lower_word; [eassumption|reflexivity]. }
      rewrite WC. destruct b as [|d b]; [reflexivity|]. destruct (is_word d) eqn:WD; [|reflexivity]. exfalso. apply N2. exists d, b. split; [reflexivity|]. now apply is_word_char. }
    destruct (mtch uni_min (word_re w) _ Some); congruence.
Qed.
