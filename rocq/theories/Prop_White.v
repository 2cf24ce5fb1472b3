(** C57: the amount and the kind of white space make no difference. *)
From Coq Require Import ZifyBool.
From Verif Require Import GoBase SMap Regex RegexFacts RegexFacts2 RegexFacts3 RegexFacts4 NumParse SpaceFacts Utf8Facts Spec Formatted Civil GoTime Setting Strutil Digit Tokenizer Timezone Env Common Timestamp Language Parser NumericFacts TextRename TextFront Shows Prop_Absolute3 Concrete LocaleData Prop_Case.

Section W.
Variable U : uni.
Hypothesis UA : uni_ascii U.
(** characters kept, or one white space for another *)
Definition blank_eq (c c' : Z) : Prop := c = c' \/ (is_space c = true /\ is_space c' = true).
Lemma one_byte c s : c < 128 -> decode_rune (c :: s) = (c, 1%nat).
Proof. apply (ascii_rune (fun _ _ => False)); contradiction. Qed.
Lemma chr_step k c t pr p cs f : asc (c :: t) -> mtch U (Chr false k) {| m_prev := pr; m_rest := c :: t; m_pos := p; m_caps := cs |} f = if c =? k then f {| m_prev := c; m_rest := t; m_pos := (p + 1)%nat; m_caps := cs |} else None.
Proof. intros HA. inversion_clear HA as [|? ? HC HT]. cbn [mtch]. unfold step. cbn [m_rest m_pos m_caps]. rewrite one_byte by lia. unfold chr_is. cbn [skipn orb andb]. rewrite ?orb_false_r. now rewrite ?(Z.eqb_sym c k). Qed.
Lemma chr_far k st f : 128 <= k -> asc (m_rest st) -> mtch U (Chr false k) st f = None.
Proof.
  intros HK HA. destruct st as [pr [|c t] p cs]; [reflexivity|]. cbn [m_rest] in HA. rewrite chr_step by exact HA. inversion_clear HA. assert (c =? k = false) as -> by lia. reflexivity.
Qed.
Lemma cls_far cl k st f : 128 <= k -> asc (m_rest st) -> mtch U (Cat (Chr false 44) (Cat (Cls false cl) (Cat (Chr false k) (WordB false)))) st f = None.
Proof.
  intros HK HA. change (mtch U (Chr false 44) st (fun s' => mtch U (Cat (Cls false cl) (Cat (Chr false k) (WordB false))) s' f) = None).
  destruct st as [pr [|c t] p cs]; [reflexivity|]. cbn [m_rest] in HA. rewrite chr_step by exact HA. destruct (c =? 44); [|reflexivity]. inversion_clear HA as [|? ? _ HT].
  match goal with |- mtch U (Cat ?a ?b) ?s f = None => change (mtch U a s (fun s' => mtch U b s' f) = None) end.
  cbn [mtch]. unfold step at 1. cbn [m_rest m_pos m_caps]. destruct t as [|d t]; [reflexivity|]. inversion_clear HT as [|? ? HD HT']. rewrite one_byte by lia. destruct (cls_has _ _ _ _); [|reflexivity]. cbn [skipn].
  apply (chr_far k _ (fun s' => mtch U (WordB false) s' f)); [exact HK|exact HT'].
Qed.
Lemma skip_here st m : asc (m_rest st) -> match_here U (rx_ast rxSanitizeSkip) st = Some m ->
  exists c t, m_rest st = c :: t /\ is_space c = true /\ mt_start m = m_pos st /\ mt_end m = (m_pos st + 1)%nat.
Proof.
  intros HA. destruct st as [pr [|c t] p cs]; cbn [m_rest] in HA |- *.
  - unfold match_here. cbn. intros H. discriminate H.
  - unfold match_here. intros H.
    assert (X : mtch U (rx_ast rxSanitizeSkip) {| m_prev := pr; m_rest := c :: t; m_pos := p; m_caps := cs |} Some =
      if (c =? 9) || (c =? 10) || (c =? 13) then Some {| m_prev := c; m_rest := t; m_pos := (p + 1)%nat; m_caps := cs |} else None).
    { clear H. unfold rxSanitizeSkip. cbn [rx_ast].
      repeat match goal with |- context [mtch U (Alt ?a ?b) ?s ?k] => change (mtch U (Alt a b) s k) with (match mtch U a s k with Some x => Some x | None => mtch U b s k end) end.
      rewrite (chr_far 187), (chr_far 8206), (chr_far 183), (chr_far 8207), (chr_far 1614), (chr_far 1615) by (cbn [m_rest]; first [lia|exact HA]). rewrite cls_far by (cbn [m_rest]; first [lia|exact HA]). rewrite !chr_step by exact HA.
      destruct (c =? 9), (c =? 10), (c =? 13); reflexivity. }
    rewrite X in H. destruct ((c =? 9) || (c =? 10) || (c =? 13)) eqn:CB; [|discriminate H]. cbn [m_pos m_caps] in H. assert (EM : m = {| mt_start := p; mt_end := p + 1; mt_caps := cs |}) by congruence. subst m.
    exists c, t. split; [reflexivity|]. split; [unfold is_space; lia|]. split; reflexivity.
Qed.
Lemma skip_first s l m : asc s -> Forall (in_text s) l -> first_match U (rx_ast rxSanitizeSkip) l = Some m ->
  exists c, nth_error s (mt_start m) = Some c /\ is_space c = true /\ mt_end m = (mt_start m + 1)%nat /\ exists st, In st l /\ m_pos st = mt_start m.
Proof.
  intros HA HL. induction HL as [|st l Hs HL IH]; cbn [first_match]; [intros H; discriminate H|]. destruct (match_here U _ st) as [m'|] eqn:MH.
  - intros H. assert (m' = m) by congruence. subst m'. destruct Hs as (R1 & R2 & R3). apply skip_here in MH as (c & t & E1 & E2 & E3 & E4); [|rewrite R1; now apply asc_skipn].
    exists c. rewrite E3. split; [|split; [exact E2|split; [exact E4|exists st; split; [now left|reflexivity]]]].
    rewrite R1 in E1. rewrite <- (firstn_skipn (m_pos st) s), nth_error_app2; rewrite firstn_length_le by exact R2; [|lia]. now rewrite Nat.sub_diag, E1.
  - intros H. destruct (IH H) as (c & X1 & X2 & X3 & st' & X4 & X5). exists c. split; [exact X1|]. split; [exact X2|]. split; [exact X3|]. exists st'. split; [now right|exact X5].
Qed.
Lemma drop_in (s : str) p l : Forall (in_text s) l -> Forall (in_text s) (drop_while (fun x => Nat.ltb (m_pos x) p) l).
Proof. induction 1 as [|x l Hx F IH]; cbn [drop_while]; [constructor|]. destruct (Nat.ltb (m_pos x) p); [exact IH|now constructor]. Qed.
Lemma states_from_pos : forall ws prev pos s, Forall (fun p => (pos <= m_pos p)%nat) (states_from prev pos ws s).
Proof.
  induction ws as [|[r w] ws IH]; intros prev pos s; cbn [states_from]; constructor; cbn [m_pos]; [lia|constructor|lia|]. eapply Forall_impl; [|apply IH]. cbv beta. intros x Hx. lia.
Qed.
Lemma drop_pos : forall ws prev pos s p, Forall (fun x => (p <= m_pos x)%nat) (drop_while (fun x => Nat.ltb (m_pos x) p) (states_from prev pos ws s)).
Proof.
  induction ws as [|[r w] ws IH]; intros prev pos s p; cbn [states_from drop_while m_pos].
  - destruct (Nat.ltb_spec pos p); [constructor|]. constructor; [cbn [m_pos]; lia|constructor].
  - destruct (Nat.ltb_spec pos p); [apply IH|]. constructor; [cbn [m_pos]; lia|]. eapply Forall_impl; [|apply states_from_pos]. cbv beta. intros x Hx. lia.
Qed.
Lemma skip_exec s p m : asc s -> Regex.exec_from U (rx_ast rxSanitizeSkip) (states s) p = Some m ->
  exists c, nth_error s (mt_start m) = Some c /\ is_space c = true /\ mt_end m = (mt_start m + 1)%nat /\ (p <= mt_start m)%nat.
Proof.
  intros HA H. unfold Regex.exec_from in H. destruct (skip_first s _ m HA (drop_in s p _ (states_in s)) H) as (c & X1 & X2 & X3 & st & X4 & X5). exists c. split; [exact X1|]. split; [exact X2|]. split; [exact X3|].
  pose proof (drop_pos (decode s) (-1) 0 s p) as F. rewrite Forall_forall in F. specialize (F st X4). cbv beta in F. lia.
Qed.
Lemma blank_refl l : Forall2 blank_eq l l.
Proof. induction l; constructor; [now left|assumption]. Qed.
Lemma skip_loop s : asc s -> forall fuel le sp, (le <= sp)%nat -> Forall2 blank_eq (skipn le s) (replace_loop U fuel (rx_ast rxSanitizeSkip) (states s) s le sp (fun _ => [32])).
Proof.
  intros HA. induction fuel as [|f IH]; intros le sp HL; cbn [replace_loop]; [apply blank_refl|]. destruct (Nat.ltb (length s) sp); [apply blank_refl|].
  destruct (Regex.exec_from U (rx_ast rxSanitizeSkip) (states s) sp) as [m|] eqn:EX; [|apply blank_refl]. apply skip_exec in EX as (c & X1 & X2 & X3 & X4); [|exact HA].
  cbv zeta. rewrite X3. assert ((Nat.ltb le (mt_start m + 1) || Nat.eqb (mt_start m) 0) = true) as -> by lia.
  set (sp' := if Nat.ltb _ (sp + _) then _ else _). assert (HS : (mt_start m + 1 <= sp')%nat) by (unfold sp'; repeat match goal with |- context [Nat.ltb ?a ?b] => destruct (Nat.ltb_spec a b) end; lia). clearbody sp'.
  apply nth_error_split in X1 as (s1 & s2 & ES & L1).
  assert (K : skipn le s = slice s le (mt_start m) ++ c :: skipn (mt_start m + 1) s).
  { unfold slice. rewrite <- L1 in *. clear L1. rewrite ES. rewrite !skipn_app. replace (le - length s1)%nat with 0%nat by lia. rewrite (skipn_all2 (n := length s1 + 1) s1) by lia. replace (length s1 + 1 - length s1)%nat with 1%nat by lia. cbn [skipn app].
    rewrite firstn_app, skipn_length. rewrite (firstn_all2 (n := length s1 - le)) by (rewrite skipn_length; lia). replace (length s1 - le - (length s1 - le))%nat with 0%nat by lia. cbn [firstn]. now rewrite app_nil_r. }
  rewrite K. apply Forall2_app; [apply blank_refl|]. cbn [app]. constructor; [right; split; [exact X2|reflexivity]|]. now apply IH.
Qed.
Lemma skip_blank s : asc s -> Forall2 blank_eq s (replace_all_string U rxSanitizeSkip s (lit " ")).
Proof. intros HA. unfold replace_all_string, replace_all_fn. apply (skip_loop s HA _ 0%nat 0%nat). lia. Qed.
Lemma blank_fields_from : forall s s', Forall2 blank_eq s s' -> forall acc, fields_from acc (map (fun c => (c, [c])) s') = fields_from acc (map (fun c => (c, [c])) s).
Proof.
  induction 1 as [|c c' s s' HC HF IH]; intros acc; [reflexivity|]. cbn [map fields_from]. destruct HC as [<- | [H1 H2]].
  - destruct (is_space c); [destruct acc; now rewrite ?IH|apply IH].
  - rewrite H1, H2. destruct acc; now rewrite ?IH.
Qed.
End W.

(** ** Patterns that need several characters of one kind *)
Section Count.
Variable f : Z -> bool.
Fixpoint ncnt (r : re) : nat :=
  match r with
  | Chr _ _ | Cls _ _ => if needs f r then 1 else 0
  | Cat a b => ncnt a + ncnt b
  | Alt a b => Nat.min (ncnt a) (ncnt b)
  | Grp _ a => ncnt a
  | _ => 0
  end.
Definition cnt (s : str) : nat := length (filter f s).
Lemma cnt_skip n s : (cnt (skipn n s) <= cnt s)%nat.
Proof. unfold cnt. revert s. induction n as [|n IH]; intros s; [cbn [skipn]; lia|]. destruct s as [|c s]; [cbn [skipn]; lia|]. cbn [skipn filter]. specialize (IH s). destruct (f c); cbn [length]; lia. Qed.
Variable U : uni.
Hypothesis UA : uni_ascii U.
Lemma step_cnt s g k e : asc (m_rest s) -> step s g k = Some e -> exists s' c, k s' = Some e /\ asc (m_rest s') /\ m_rest s = c :: m_rest s' /\ g c = true /\ 0 <= c < 128.
Proof.
  unfold step. intros HA. destruct (m_rest s) as [|c l]; [intros H; discriminate H|]. inversion_clear HA as [|? ? A1 A2]. rewrite one_byte by lia. destruct (g c) eqn:G; [|intros H; discriminate H]. intros H. exists {| m_prev := c; m_rest := skipn 1 (c :: l); m_pos := m_pos s + 1; m_caps := m_caps s |}, c.
  split; [exact H|]. cbn [m_rest skipn]. auto.
Qed.
Lemma needs_chr ci c x : needs f (Chr ci c) = true -> 0 <= x < 128 -> chr_is U ci c x = true -> f x = true.
Proof. cbn [needs]. intros H HX HG. apply andb_true_iff in H as [H1 H2]. rewrite (chr_min keep U UA) in HG by assumption. exact (onlyf_spec f _ x H2 HX HG). Qed.
Lemma needs_cls ci c x : needs f (Cls ci c) = true -> 0 <= x < 128 -> cls_has U ci c x = true -> f x = true.
Proof. cbn [needs]. intros H HX HG. apply andb_true_iff in H as [H1 H2]. rewrite (cls_min keep U UA) in HG by assumption. exact (onlyf_spec f _ x H2 HX HG). Qed.
Lemma moved_cnt s s' w : asc (m_rest s) -> moved s s' w -> asc (m_rest s') /\ (cnt (m_rest s') + 0 <= cnt (m_rest s))%nat.
Proof. intros HA M. rewrite (mv_rest _ _ _ M). split; [now apply asc_skipn|]. pose proof (cnt_skip w (m_rest s)). lia. Qed.
Lemma mtch_cnt : forall r s k e, asc (m_rest s) -> mtch U r s k = Some e -> exists s', k s' = Some e /\ asc (m_rest s') /\ (cnt (m_rest s') + ncnt r <= cnt (m_rest s))%nat.
Proof.
  assert (MV : forall r, ncnt r = 0%nat -> forall s k e, asc (m_rest s) -> mtch U r s k = Some e -> exists s', k s' = Some e /\ asc (m_rest s') /\ (cnt (m_rest s') + ncnt r <= cnt (m_rest s))%nat).
  { intros r HZ s k e HA H. rewrite HZ. apply mtch_moved in H as (s' & w & H & M & _). exists s'. split; [exact H|]. exact (moved_cnt s s' w HA M). }
  induction r as [|ci c|ci c| |a IHa b IHb|a IHa b IHb|g a IHa|n a IHa| | |neg]; try (apply MV; reflexivity).
  - intros s k e HA H. cbn [ncnt]. destruct (needs f (Chr ci c)) eqn:N; [|exact (ltac:(pose proof (MV (Chr ci c)) as X; cbn [ncnt] in X; rewrite N in X; exact (X eq_refl s k e HA H)))].
    cbn [mtch] in H. apply step_cnt in H as (s' & x & H & A' & ER & G & HX); [|exact HA]. exists s'. split; [exact H|]. split; [exact A'|]. rewrite ER. unfold cnt. cbn [filter]. rewrite (needs_chr ci c x N HX G). cbn [length]. lia.
  - intros s k e HA H. cbn [ncnt]. destruct (needs f (Cls ci c)) eqn:N; [|exact (ltac:(pose proof (MV (Cls ci c)) as X; cbn [ncnt] in X; rewrite N in X; exact (X eq_refl s k e HA H)))].
    cbn [mtch] in H. apply step_cnt in H as (s' & x & H & A' & ER & G & HX); [|exact HA]. exists s'. split; [exact H|]. split; [exact A'|]. rewrite ER. unfold cnt. cbn [filter]. rewrite (needs_cls ci c x N HX G). cbn [length]. lia.
  - intros s k e HA H. cbn [mtch] in H. apply IHa in H as (s1 & H & A1 & C1); [|exact HA]. apply IHb in H as (s2 & H & A2 & C2); [|exact A1]. exists s2. split; [exact H|]. split; [exact A2|]. cbn [ncnt]. lia.
  - intros s k e HA H. cbn [mtch] in H. destruct (mtch U a s k) as [x|] eqn:Ea.
    + assert (x = e) by congruence. subst x. apply IHa in Ea as (s1 & H1 & A1 & C1); [|exact HA]. exists s1. split; [exact H1|]. split; [exact A1|]. cbn [ncnt]. lia.
    + apply IHb in H as (s1 & H1 & A1 & C1); [|exact HA]. exists s1. split; [exact H1|]. split; [exact A1|]. cbn [ncnt]. lia.
  - intros s k e HA H. cbn [mtch] in H. apply IHa in H as (s1 & H & A1 & C1); [|exact HA]. eexists. split; [exact H|]. cbn [m_rest ncnt]. split; assumption.
Qed.
Lemma few_none r s : asc s -> (cnt s < ncnt (rx_ast r))%nat -> Regex.find U r s = None.
Proof.
  intros HA HC. unfold Regex.find. pose proof (states_in s) as HS. induction HS as [|st l [Hr _] _ IH]; cbn [first_match]; [reflexivity|].
  unfold match_here. destruct (mtch U (rx_ast r) st Some) as [e|] eqn:M; [|exact IH]. exfalso. assert (A : asc (m_rest st)) by (rewrite Hr; now apply asc_skipn).
  apply mtch_cnt in M as (s' & _ & _ & C); [|exact A]. rewrite Hr in C. pose proof (cnt_skip (m_pos st) s). lia.
Qed.
End Count.

Section P.
Variable E : env.
Notation U := (e_uni E).
Hypothesis UA : uni_ascii U.
Definition dot (c : Z) : bool := c =? 46.
Lemma needs_three : ncnt dot (rx_ast rxSanitizeCroatian) = 3%nat /\ ncnt (fun _ => false) (rx_ast rxSanitizeRussian) = 1%nat.
Proof. split; vm_compute; reflexivity. Qed.
Lemma blank_cnt s s' : Forall2 blank_eq s s' -> asc s -> cnt dot s' = cnt dot s.
Proof.
  unfold cnt. induction 1 as [|c c' s s' HC HF IH]; intros HA; [reflexivity|]. inversion_clear HA as [|? ? H1 H2]. cbn [filter]. assert (dot c' = dot c) as ->; [|destruct (dot c); cbn [length]; now rewrite IH].
  destruct HC as [<- | [HB HB']]; [reflexivity|]. unfold is_space in HB, HB'. unfold dot. lia.
Qed.
Lemma white_sanitize s s' : asc s -> asc s' -> (cnt dot s <= 2)%nat -> (cnt dot s' <= 2)%nat -> fields s = fields s' -> sanitize_date U s = sanitize_date U s'.
Proof.
  assert (G : forall s, asc s -> (cnt dot s <= 2)%nat -> exists t, asc t /\ fields t = fields s /\ replace_all_string U rxSanitizeCroatian (replace_all_string U rxSanitizeRussian (replace_all_string U rxSanitizeSkip s (lit " ")) (lit "$1 ")) (lit "$1.$2.$3 ") = t).
  { clear s s'. intros s HA HD. pose proof (skip_blank U s HA) as B. assert (A1 : asc (replace_all_string U rxSanitizeSkip s (lit " "))) by (apply replace_asc; [exact HA|apply ascb_asc; reflexivity]).
    revert B A1. set (t := replace_all_string U rxSanitizeSkip s (lit " ")). intros B A1. clearbody t. exists t. split; [exact A1|]. split.
    - unfold fields. rewrite !chunks_asc by assumption. now apply blank_fields_from.
    - destruct needs_three as [N1 N2]. rewrite (replace_none _ rxSanitizeRussian); [|apply (few_none (fun _ => false) U UA); [exact A1|rewrite N2; unfold cnt; clear; induction t; cbn [filter length]; lia]].
      rewrite (replace_none _ rxSanitizeCroatian); [reflexivity|]. apply (few_none dot U UA); [exact A1|]. rewrite N1, (blank_cnt s t B HA). lia. }
  intros HA HA' HD HD' HF. destruct (G s HA HD) as (t & T1 & T2 & T3). destruct (G s' HA' HD') as (t' & T1' & T2' & T3').
  unfold sanitize_date. rewrite T3, T3'. assert (sanitize_spaces t = sanitize_spaces t') as ->; [|reflexivity]. unfold sanitize_spaces. rewrite !no_nbsp by assumption. congruence.
Qed.
End P.

(** ** C57 *)
(** the words of a text: what remains when it is cut at white space (tab, line feed, vertical tab, form feed, carriage return, space) *)
Definition white (c : Z) : Prop := 9 <= c <= 13 \/ c = 32.
Inductive words_are : str -> list str -> Prop :=
| wa_end : words_are [] []
| wa_white c s ws : white c -> words_are s ws -> words_are (c :: s) ws
| wa_last w : w <> [] -> Forall (fun c => ~ white c) w -> words_are w [w]
| wa_word w c s ws : w <> [] -> Forall (fun c => ~ white c) w -> white c -> words_are s ws -> words_are (w ++ c :: s) (w :: ws).
Lemma white_space c : 0 <= c < 128 -> is_space c = true <-> white c.
Proof. unfold is_space, white. lia. Qed.
Lemma fields_word : forall w acc rest, asc w -> Forall (fun c => ~ white c) w -> fields_from acc (map (fun c => (c, [c])) (w ++ rest)) = fields_from (acc ++ w) (map (fun c => (c, [c])) rest).
Proof.
  induction w as [|c w IH]; intros acc rest HA HW; [now rewrite app_nil_r|]. inversion_clear HA as [|? ? A1 A2]. inversion_clear HW as [|? ? W1 W2]. cbn [app map fields_from]. destruct (is_space c) eqn:SP; [apply white_space in SP; [contradiction|exact A1]|].
  rewrite IH by assumption. now rewrite <- app_assoc.
Qed.
Lemma words_fields s ws : words_are s ws -> asc s -> fields s = ws.
Proof.
  intros H HA. unfold fields. rewrite chunks_asc by exact HA. induction H as [|c s ws HC H IH|w NE HW|w c s ws NE HW HC H IH].
  - reflexivity.
  - inversion_clear HA as [|? ? A1 A2]. cbn [map fields_from]. assert (is_space c = true) as -> by (now apply white_space). cbn [empty]. now apply IH.
  - pose proof (fields_word w [] [] HA HW) as X. rewrite app_nil_r in X. rewrite X. cbn [app map fields_from]. destruct w; [contradiction|reflexivity].
  - apply Forall_app in HA as [A1 A2]. inversion_clear A2 as [|? ? A3 A4]. rewrite (fields_word w [] (c :: s) A1 HW). cbn [app map fields_from]. assert (is_space c = true) as -> by (now apply white_space). destruct w as [|x w]; [contradiction|]. cbn [empty]. f_equal. now apply IH.
Qed.
(** at most two full stops *)
Definition few_stops (s : str) : Prop := Nat.le (count_occ Z.eq_dec s 46) 2.
Lemma stops_cnt s : cnt dot s = count_occ Z.eq_dec s 46.
Proof. unfold cnt, dot. induction s as [|c s IH]; [reflexivity|]. cbn [filter count_occ]. destruct (Z.eq_dec c 46) as [->|N]; [rewrite <- IH; reflexivity|]. assert (c =? 46 = false) as -> by lia. exact IH. Qed.
(** two ASCII texts with the same words and at most two full stops get the same
    answer from Parse: date, period, locale, error, and what is remembered for the
    next call; every table of locales, configuration, history and language detector *)
Theorem C57_white_space_partial : forall E D det p cfg s s' ws, uni_ascii (e_uni E) -> Forall (fun c => 0 <= c < 128) s -> Forall (fun c => 0 <= c < 128) s' ->
  words_are s ws -> words_are s' ws -> few_stops s -> parse E D det p cfg s [] = parse E D det p cfg s' [].
Proof.
  intros E D det p cfg s s' ws UA A A' W W' F.
  assert (F' : few_stops s').
  { unfold few_stops in *. assert (K : forall s ws, words_are s ws -> count_occ Z.eq_dec s 46 = count_occ Z.eq_dec (List.concat ws) 46); [|rewrite (K _ _ W'), <- (K _ _ W); exact F].
    clear. induction 1 as [|c s ws HC H IH|w NE HW|w c s ws NE HW HC H IH]; [reflexivity| | |].
    - cbn [count_occ]. destruct (Z.eq_dec c 46); [unfold white in HC; lia|exact IH].
    - cbn [List.concat]. now rewrite app_nil_r.
    - cbn [List.concat]. rewrite !count_occ_app. cbn [count_occ]. destruct (Z.eq_dec c 46); [unfold white in HC; lia|]. now rewrite IH. }
  unfold few_stops in F, F'. rewrite <- stops_cnt in F, F'.
  unfold parse. destruct (existsb _ _); [reflexivity|]. cbv zeta. destruct (negb (validate _ _)); [reflexivity|]. change (formatted_parse E ?c ?x []) with zero_date.
  rewrite (white_sanitize E UA s s' A A' F F'); [reflexivity|]. now rewrite (words_fields s ws W A), (words_fields s' ws W' A').
Qed.
Lemma words_by s ws : asc s -> fields s = ws -> words_are s ws.
Proof.
  intros HA <-. unfold fields. rewrite chunks_asc by exact HA.
  assert (G : forall s acc, asc s -> Forall (fun c => ~ white c) acc -> words_are (acc ++ s) (fields_from acc (map (fun c => (c, [c])) s))).
  { clear. induction s as [|c s IH]; intros acc HA HC; cbn [map fields_from].
    - rewrite app_nil_r. destruct acc as [|a acc]; [constructor|]. cbn [empty]. apply wa_last; [discriminate|exact HC].
    - inversion_clear HA as [|? ? A1 A2]. destruct (is_space c) eqn:SP.
      + apply white_space in SP; [|exact A1]. destruct acc as [|a acc]; cbn [empty app].
        * apply wa_white; [exact SP|]. exact (IH [] A2 ltac:(constructor)).
        * apply (wa_word (a :: acc)); [discriminate|exact HC|exact SP|]. exact (IH [] A2 ltac:(constructor)).
      + replace (acc ++ c :: s) with ((acc ++ [c]) ++ s) by (now rewrite <- app_assoc). apply IH; [exact A2|]. apply Forall_app. split; [exact HC|]. constructor; [|constructor]. intros W. apply white_space in W; [congruence|exact A1]. }
  exact (G s [] HA ltac:(constructor)).
Qed.
(** every ASCII text has its words *)
Lemma words_exist s : asc s -> exists ws, words_are s ws.
Proof. intros HA. exists (fields s). now apply words_by. Qed.
Example C57_example : let s := (lit "  12" ++ [9; 10] ++ lit "Mar. 2015   7:08 pm ")%list in let ws := [lit "12"; lit "Mar."; lit "2015"; lit "7:08"; lit "pm"] in
  words_are s ws /\ words_are (lit "12 Mar. 2015 7:08 pm") ws /\ few_stops s /\
  shows (go "" (utc_at 2016 2 28 10 0 0) CurrentPeriod 0 0 "12 Mar. 2015 7:08 pm") 2015 3 12 19 8 0 0 PDay (lit "en").
Proof.
  split; [apply words_by; [apply ascb_asc|]; vm_compute; reflexivity|]. split; [apply words_by; [apply ascb_asc|]; vm_compute; reflexivity|]. split; [vm_compute; lia|]. apply shows_by. vm_compute. reflexivity.
Qed.
(** three full stops: the pattern for Croatian dates allows one space after a full stop, and not two *)
Theorem C57_refuted : let ws := [lit "12."; lit "3."; lit "2015."; lit "u"; lit "10:10"] in
  words_are (lit "12. 3. 2015. u 10:10") ws /\ words_are (lit "12.  3. 2015. u 10:10") ws /\
  shows (go "" (utc_at 2016 2 28 10 0 0) CurrentPeriod 0 0 "12. 3. 2015. u 10:10") 2015 12 3 10 10 0 0 PDay (lit "en") /\
  exists d e, go "" (utc_at 2016 2 28 10 0 0) CurrentPeriod 0 0 "12.  3. 2015. u 10:10" = Ok (d, Some e).
Proof.
  split; [apply words_by; [apply ascb_asc|]; vm_compute; reflexivity|]. split; [apply words_by; [apply ascb_asc|]; vm_compute; reflexivity|]. split; [apply shows_by; vm_compute; reflexivity|].
  destruct (go "" (utc_at 2016 2 28 10 0 0) CurrentPeriod 0 0 "12.  3. 2015. u 10:10") as [[d [e|]]| |] eqn:G; [now exists d, e|exfalso..].
  - assert (match go "" (utc_at 2016 2 28 10 0 0) CurrentPeriod 0 0 "12.  3. 2015. u 10:10" with Ok (_, Some _) => true | _ => false end = true) by (vm_compute; reflexivity). rewrite G in H. discriminate H.
  - assert (match go "" (utc_at 2016 2 28 10 0 0) CurrentPeriod 0 0 "12.  3. 2015. u 10:10" with Ok (_, Some _) => true | _ => false end = true) by (vm_compute; reflexivity). rewrite G in H. discriminate H.
  - assert (match go "" (utc_at 2016 2 28 10 0 0) CurrentPeriod 0 0 "12.  3. 2015. u 10:10" with Ok (_, Some _) => true | _ => false end = true) by (vm_compute; reflexivity). rewrite G in H. discriminate H.
Qed.
Print Assumptions C57_white_space_partial.
Print Assumptions C57_refuted.
