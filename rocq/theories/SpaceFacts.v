(** strings.Fields, strings.ReplaceAll with an empty replacement, SanitizeSpaces *)
From Coq Require Import ZifyBool.
From Verif Require Import GoBase SMap Utf8Facts Strutil.

Lemma sjoin_nil l : sjoin l [] = concat l.
Proof. induction l as [|x [|y l] IH]; [reflexivity|cbn; now rewrite app_nil_r|]. change (sjoin (x :: y :: l) []) with (x ++ [] ++ sjoin (y :: l) []). now rewrite IH. Qed.

Lemma split_skip k acc s sep : split_from k acc s sep = split_from 0 acc (skipn k s) sep.
Proof. revert k. induction s as [|c s IH]; intros [|k]; cbn [skipn]; try reflexivity. cbn [split_from]. apply IH. Qed.
(** bytes at which the separator does not start are copied *)
Lemma split_copy : forall a acc s sep, (forall a1 a2, a = a1 ++ a2 -> a2 <> [] -> has_prefix sep (a2 ++ s) = false) ->
  split_from 0 acc (a ++ s) sep = split_from 0 (rev a ++ acc) s sep.
Proof.
  induction a as [|c a IH]; intros acc s sep H; [reflexivity|]. cbn [app split_from]. pose proof (H [] (c :: a) eq_refl ltac:(discriminate)) as H0. cbn [app] in H0. rewrite H0.
  cbn [rev]. rewrite <- app_assoc. cbn [app]. apply IH. intros a1 a2 -> Hne. apply (H (c :: a1) a2); [reflexivity|exact Hne].
Qed.
Lemma split_sep acc s sep : sep <> [] -> split_from 0 acc (sep ++ s) sep = rev acc :: split_from 0 [] s sep.
Proof.
  intros Hs. destruct sep as [|c sep]; [congruence|]. cbn [app split_from].
  assert (P : forall p x, has_prefix p (p ++ x) = true) by (induction p as [|y p IH]; intros x; [reflexivity|]; cbn; now rewrite Z.eqb_refl, IH).
  change (c :: sep ++ s) with ((c :: sep) ++ s). rewrite P. cbn [length pred]. rewrite split_skip. rewrite skipn_app_exact by reflexivity. reflexivity.
Qed.

(** U+00A0 occurs in an encoding exactly where the rune is U+00A0 *)
Lemma encode_no_nbsp r s a1 a2 : scalar r -> r <> 160 -> encode_rune r = a1 ++ a2 -> a2 <> [] -> has_prefix nbsp (a2 ++ s) = false.
Proof.
  intros Hr Hn E Ha. unfold nbsp. destruct a2 as [|b a2]; [congruence|]. cbn [app has_prefix].
  destruct (194 =? b) eqn:Eb; [|reflexivity]. apply Z.eqb_eq in Eb. subst b. cbn [andb].
  unfold encode_rune in E. unfold scalar in Hr.
  destruct ((0 <=? r) && (r <? 128)) eqn:C1.
  { destruct a1 as [|? [|? ?]]; try discriminate. injection E as E _. lia. }
  destruct ((0 <=? r) && (r <? 2048)) eqn:C2.
  { pose proof (Z.div_mod r 64 ltac:(lia)). pose proof (Z.mod_pos_bound r 64 ltac:(lia)).
    set (q := r / 64) in *. set (t := r mod 64) in *. clearbody q t.
    remember (192 + q) as B1. remember (128 + t) as B2.
    destruct a1 as [|x [|y [|? ?]]]; try discriminate; cbn [app] in E.
    - injection E as E1 E2. subst a2. cbn [app].
      destruct (160 =? B2) eqn:T; [|reflexivity]. exfalso. lia.
    - injection E as E0 E1 E2. lia. }
  destruct ((r <? 0) || (1114111 <? r) || ((55296 <=? r) && (r <=? 57343))) eqn:C3; [exfalso; lia|].
  pose proof (Z.mod_pos_bound r 64 ltac:(lia)). pose proof (Z.mod_pos_bound (r / 64) 64 ltac:(lia)). pose proof (Z.mod_pos_bound (r / 4096) 64 ltac:(lia)).
  assert (0 <= r / 4096) by (apply Z.div_pos; lia). assert (0 <= r / 262144) by (apply Z.div_pos; lia).
  set (t := r mod 64) in *. set (u := (r / 64) mod 64) in *. set (v := (r / 4096) mod 64) in *. set (q := r / 4096) in *. set (q2 := r / 262144) in *. clearbody t u v q q2.
  remember (128 + t) as B1. remember (128 + u) as B2. remember (128 + v) as B3. remember (224 + q) as B4. remember (240 + q2) as B5.
  destruct (r <? 65536) eqn:C4.
  - destruct a1 as [|x1 [|x2 [|x3 [|? ?]]]]; try discriminate; cbn [app] in E; exfalso; injection E; intros; lia.
  - destruct a1 as [|x1 [|x2 [|x3 [|x4 [|? ?]]]]]; try discriminate; cbn [app] in E; exfalso; injection E; intros; lia.
Qed.
Definition not_nbsp (r : Z) : bool := negb (r =? 160).
Lemma remove_nbsp l : Forall scalar l -> replace_all (encode l) nbsp [] = encode (filter not_nbsp l).
Proof.
  intros HS. unfold replace_all, split. rewrite sjoin_nil.
  assert (G : forall acc, concat (split_from 0 acc (encode l) nbsp) = rev acc ++ encode (filter not_nbsp l)).
  { induction HS as [|r l Hr HS IH]; intros acc; [cbn; now rewrite !app_nil_r|]. rewrite encode_cons. cbn [filter]. unfold not_nbsp at 1.
    destruct (Z.eqb_spec r 160) as [->|Hn]; cbn [negb].
    - change (encode_rune 160) with nbsp. rewrite split_sep by discriminate. cbn [concat]. now rewrite IH.
    - rewrite split_copy by (intros a1 a2 E Ha; eapply encode_no_nbsp; eauto). rewrite IH, rev_app_distr, rev_involutive, encode_cons. now rewrite app_assoc. }
  apply (G []).
Qed.

(** words of a list of characters *)
Definition spaces (l : list Z) : Prop := Forall (fun r => is_space r = true) l.
Definition word (l : list Z) : Prop := l <> [] /\ Forall (fun r => is_space r = false) l.
Inductive words : list Z -> list (list Z) -> Prop :=
| words_none sp : spaces sp -> words sp []
| words_cons sp w rest ws : spaces sp -> word w -> (rest = [] \/ exists r rest', rest = r :: rest' /\ is_space r = true) -> words rest ws ->
    words (sp ++ w ++ rest) (w :: ws).

Lemma chunks_encode l : Forall scalar l -> chunks (encode l) = map (fun r => (r, encode_rune r)) l.
Proof.
  induction 1 as [|r l Hr HS IH]; [reflexivity|]. rewrite encode_cons. pose proof (encode_rune_nonempty r) as Hne.
  rewrite chunks_unfold by (destruct (encode_rune r); [congruence|discriminate]).
  rewrite decode_encode_rune by exact Hr. cbn [fst snd map]. rewrite firstn_app, Nat.sub_diag, firstn_all, app_nil_r.
  rewrite skipn_app_exact by reflexivity. now rewrite IH.
Qed.
Lemma encode_eq_nil l : encode l = [] -> l = [].
Proof. destruct l as [|r l]; [reflexivity|]. rewrite encode_cons. pose proof (encode_rune_nonempty r). destruct (encode_rune r); [congruence|discriminate]. Qed.
Lemma fields_words l : forall acc, Forall (fun r => is_space r = false) acc ->
  exists ws, fields_from (encode acc) (map (fun r => (r, encode_rune r)) l) = map encode ws /\ words (acc ++ l) ws /\
    (acc <> [] -> exists w' ws', ws = (acc ++ w') :: ws').
Proof.
  induction l as [|r l IH]; intros acc Ha; cbn [map fields_from].
  - destruct acc as [|a acc].
    + exists []. split; [reflexivity|]. split; [apply words_none; constructor | congruence].
    + exists [a :: acc]. destruct (empty (encode (a :: acc))) eqn:Ee; [destruct (encode (a :: acc)) eqn:X; [apply encode_eq_nil in X|]; discriminate|].
      split; [reflexivity|]. split; [|intros _; exists [], []; now rewrite app_nil_r].
      replace ((a :: acc) ++ []) with ([] ++ (a :: acc) ++ []) by reflexivity. apply words_cons; [constructor | split; [discriminate | exact Ha] | now left | apply words_none; constructor].
  - destruct (is_space r) eqn:Er.
    + destruct acc as [|a acc].
      * cbn [encode flat_map empty]. destruct (IH [] ltac:(constructor)) as (ws & H1 & H2 & _). exists ws. split; [exact H1|]. split; [|congruence]. cbn [app] in *.
        inversion H2 as [sp Hs|sp w rest ws0 Hs Hw Hr Hws]; subst.
        -- apply words_none. now constructor.
        -- apply (words_cons (r :: sp)); auto. now constructor.
      * destruct (empty (encode (a :: acc))) eqn:Ee; [destruct (encode (a :: acc)) eqn:X; [apply encode_eq_nil in X|]; discriminate|].
        destruct (IH [] ltac:(constructor)) as (ws & H1 & H2 & _). exists ((a :: acc) :: ws). cbn [map]. split; [f_equal; exact H1|].
        split; [|intros _; exists [], ws; now rewrite app_nil_r].
        apply (words_cons [] (a :: acc) (r :: l) ws); [constructor | split; [discriminate | exact Ha] | right; eauto |].
        cbn [app] in H2. inversion H2 as [sp Hs|sp w rest ws0 Hs Hw Hr Hws]; subst.
        -- apply words_none. now constructor.
        -- apply (words_cons (r :: sp)); auto. now constructor.
    + replace (encode acc ++ encode_rune r) with (encode (acc ++ [r])) by (rewrite encode_app; cbn; now rewrite app_nil_r).
      destruct (IH (acc ++ [r])) as (ws & H1 & H2 & H3); [apply Forall_app; split; [exact Ha | now repeat constructor]|].
      exists ws. split; [exact H1|]. rewrite <- app_assoc in H2. split; [exact H2|]. intros _. destruct H3 as (w' & ws' & ->); [now destruct acc|].
      exists (r :: w'), ws'. now rewrite <- app_assoc.
Qed.
Fixpoint join_words (ws : list (list Z)) : list Z :=
  match ws with [] => [] | [w] => w | w :: r => w ++ 32 :: join_words r end.
Lemma join_encode ws : sjoin (map encode ws) (lit " ") = encode (join_words ws).
Proof.
  induction ws as [|w [|w2 ws] IH]; [reflexivity|reflexivity|]. change (sjoin (map encode (w :: w2 :: ws)) (lit " ")) with (encode w ++ lit " " ++ sjoin (map encode (w2 :: ws)) (lit " ")).
  rewrite IH. change (join_words (w :: w2 :: ws)) with (w ++ 32 :: join_words (w2 :: ws)). now rewrite encode_app, encode_cons.
Qed.
Lemma words_unique : forall l ws, words l ws -> forall ws', words l ws' -> ws = ws'.
Proof.
  assert (Sp : forall sp sp' x y, spaces sp -> spaces sp' -> sp ++ x = sp' ++ y ->
     (forall r, nth_error x 0 = Some r -> is_space r = false) -> (forall r, nth_error y 0 = Some r -> is_space r = false) -> sp = sp' /\ x = y).
  { induction sp as [|a sp IH]; intros [|b sp'] x y Ha Hb E Hx Hy; cbn [app] in E.
    - auto.
    - exfalso. subst x. inversion Hb; subst. specialize (Hx b eq_refl). congruence.
    - exfalso. subst y. inversion Ha; subst. specialize (Hy a eq_refl). congruence.
    - injection E as -> E. inversion Ha; inversion Hb; subst. destruct (IH sp' x y) as [-> ->]; auto. }
  assert (Wd : forall w w' x y, Forall (fun r => is_space r = false) w -> Forall (fun r => is_space r = false) w' -> w ++ x = w' ++ y ->
     (x = [] \/ exists r x', x = r :: x' /\ is_space r = true) -> (y = [] \/ exists r y', y = r :: y' /\ is_space r = true) -> w = w' /\ x = y).
  { induction w as [|a w IH]; intros [|b w'] x y Ha Hb E Hx Hy; cbn [app] in E.
    - auto.
    - exfalso. subst x. inversion Hb; subst. destruct Hx as [?|(r & x' & [= <- _] & ?)]; [discriminate|congruence].
    - exfalso. subst y. inversion Ha; subst. destruct Hy as [?|(r & x' & [= <- _] & ?)]; [discriminate|congruence].
    - injection E as -> E. inversion Ha; inversion Hb; subst. destruct (IH w' x y) as [-> ->]; auto. }
  assert (Hd : forall w rest r, word w -> nth_error (w ++ rest) 0 = Some r -> is_space r = false).
  { intros w rest r [Hn Hf] H. destruct w; [congruence|]. injection H as ->. now inversion Hf. }
  assert (No : forall sp w rest, spaces (sp ++ w ++ rest) -> word w -> False).
  { intros sp w rest H [Hn Hf]. apply Forall_app in H as [_ H]. destruct w as [|a w]; [congruence|]. inversion H; inversion Hf; subst. congruence. }
  induction 1 as [sp Hs|sp w rest ws Hs Hw Hr Hws IH]; intros ws' H'.
  - inversion H'; subst; [reflexivity|]. exfalso. eapply No; eauto.
  - inversion H' as [sp' Hs'|sp' w' rest' ws0 Hs' Hw' Hr' Hws' E]; subst; [exfalso; eapply No; eauto|].
    destruct (Sp sp' sp (w' ++ rest') (w ++ rest) Hs' Hs E) as [_ E2]; [intros r; apply Hd; assumption.. |].
    destruct (Wd w' w rest' rest (proj2 Hw') (proj2 Hw) E2 Hr' Hr) as [-> ->]. f_equal. now apply IH.
Qed.

Lemma sanitize_words s : bytes s -> valid_utf8 s ->
  exists ws, words (filter not_nbsp (runes s)) ws /\ sanitize_spaces s = encode (join_words ws).
Proof.
  intros Hb Hv. pose proof (runes_scalar s Hb) as HS. unfold sanitize_spaces.
  assert (RB : replace_all s nbsp [] = encode (filter not_nbsp (runes s))) by (unfold valid_utf8 in Hv; rewrite <- remove_nbsp by exact HS; now rewrite Hv). rewrite RB.
  assert (HF : Forall scalar (filter not_nbsp (runes s))) by (apply Forall_forall; intros r Hr; apply filter_In in Hr as [Hr _]; rewrite Forall_forall in HS; auto).
  unfold fields. rewrite chunks_encode by exact HF.
  destruct (fields_words (filter not_nbsp (runes s)) [] ltac:(constructor)) as (ws & H1 & H2 & _). change (encode []) with (@nil Z) in H1. cbn [app] in H2.
  exists ws. split; [exact H2|]. rewrite H1. apply join_encode.
Qed.
Lemma words_scalar l ws : words l ws -> Forall scalar l -> Forall (Forall scalar) ws.
Proof.
  induction 1 as [|sp w rest ws Hs Hw Hr Hws IH]; intros HF; [constructor|]. apply Forall_app in HF as [_ HF]. apply Forall_app in HF as [H1 H2]. constructor; auto.
Qed.
Lemma words_word l ws : words l ws -> Forall word ws.
Proof. induction 1; constructor; auto. Qed.
Lemma words_join ws : Forall word ws -> words (join_words ws) ws.
Proof.
  induction ws as [|w [|w2 ws] IH]; intros H.
  - apply words_none. constructor.
  - inversion H; subst. cbn [join_words]. replace w with ([] ++ w ++ []) at 1 by (cbn; apply app_nil_r). apply words_cons; [constructor | assumption | now left | apply words_none; constructor].
  - inversion H; subst. change (join_words (w :: w2 :: ws)) with ([] ++ w ++ 32 :: join_words (w2 :: ws)). apply words_cons; [constructor | assumption | right; eauto |].
    specialize (IH H3). remember (join_words (w2 :: ws)) as J. inversion IH as [|sp w' rest ws0 Hs Hw Hr Hws E]; subst. apply (words_cons (32 :: sp)); auto. now constructor.
Qed.
Lemma join_scalar ws : Forall (Forall scalar) ws -> Forall scalar (join_words ws).
Proof.
  induction ws as [|w [|w2 ws] IH]; intros H; [constructor|now inversion H|]. inversion H; subst. change (join_words (w :: w2 :: ws)) with (w ++ 32 :: join_words (w2 :: ws)).
  apply Forall_app. split; [assumption|]. constructor; [unfold scalar; lia | auto].
Qed.
Lemma join_no_nbsp ws : Forall word ws -> Forall (fun r => not_nbsp r = true) (join_words ws).
Proof.
  assert (W : forall w, word w -> Forall (fun r => not_nbsp r = true) w).
  { intros w [_ H]. eapply Forall_impl; [|exact H]. intros r Hr. unfold not_nbsp. destruct (Z.eqb_spec r 160) as [->|]; [discriminate Hr|reflexivity]. }
  induction ws as [|w [|w2 ws] IH]; intros H; [constructor|inversion H; subst; auto|]. inversion H; subst. change (join_words (w :: w2 :: ws)) with (w ++ 32 :: join_words (w2 :: ws)).
  apply Forall_app. split; [auto|]. constructor; [reflexivity | auto].
Qed.
Lemma filter_all {A} (f : A -> bool) l : Forall (fun x => f x = true) l -> filter f l = l.
Proof. induction 1 as [|x l H _ IH]; [reflexivity|]. cbn. now rewrite H, IH. Qed.

(** a text of words joined by single spaces is left alone *)
Lemma sanitize_clean ws : Forall word ws -> Forall (Forall scalar) ws -> sanitize_spaces (encode (join_words ws)) = encode (join_words ws).
Proof.
  intros Hw Hs. pose proof (join_scalar ws Hs) as HS.
  destruct (sanitize_words (encode (join_words ws)) (encode_bytes _) (valid_encode _ HS)) as (ws' & H1 & ->).
  rewrite runes_encode in H1 by exact HS. rewrite (filter_all _ _ (join_no_nbsp ws Hw)) in H1.
  now rewrite (words_unique _ _ H1 _ (words_join ws Hw)).
Qed.
