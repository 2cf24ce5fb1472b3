(** Numbers joined by separators, colons and the letter t: the letter is dropped (ClockTranslate with one separator more) *)
From Coq Require Import ZifyBool.
From Verif Require Import GoBase SMap Regex RegexWiden TextRename RegexFacts RegexFacts2 RegexFacts3 RegexFacts4 Setting Strutil Utf8Facts SpaceFacts Digit Timezone Env Language ParserFacts Tokenizer AbsFacts2 NumericFacts NumTranslate.

(** - / . space : t and + *)
Definition isep (c : Z) : Prop := c = 45 \/ c = 47 \/ c = 46 \/ c = 32 \/ c = 58 \/ c = 116 \/ c = 43.

Definition iseps : list Z := [45; 47; 46; 32; 58; 116; 43].
Definition isepb (c : Z) : bool := existsb (Z.eqb c) iseps.
Definition iplain (c : Z) : bool := is_digitA c || isepb c.
Definition iother (c : Z) : bool := negb (iplain c).
Definition isep1 (w : str) : bool := match w with [c] => isepb c | _ => false end.
Lemma isepb_iff c : isepb c = true <-> isep c.
Proof. unfold isepb, iseps, isep. cbn [existsb]. lia. Qed.

(** what the tables of a locale must look like; a check for concrete locales *)
Definition iso_locale (ld : locale) : bool :=
  forallb (fun p => needs iother (rx_ast (fst p))) (ld_simpl ld) && forallb (fun p => needs iother (rx_ast (fst p))) (ld_relrx ld)
  && match ld_rx ld with Some r => needs iother (rx_ast r) | None => true end
  && match ld_rx_exact ld with Some r => needs iother (rx_ast r) | None => true end
  && forallb (fun w => negb (forallb iplain w) || isep1 w) (ld_known ld)
  && forallb (fun p => negb (forallb iplain (fst p))) (ld_reltype ld)
  && forallb (fun p => negb (forallb iplain (fst p)) || (isep1 (fst p) && (if eqs (fst p) [116] then true else match snd p with [t] => eqs t (fst p) | _ => false end))) (ld_trans ld)
  && forallb (fun c => mhas (ld_trans ld) [c]) [45; 47; 46; 32; 58]
  && negb (eqs (ld_name ld) (lit "fi")).

Definition igroups (A : str) (l : list (Z * str)) : Prop := digits A /\ Forall (fun pb => isep (fst pb) /\ digits (snd pb)) l.
Lemma groups_cons A p B l : igroups A ((p, B) :: l) -> digits A /\ isep p /\ igroups B l.
Proof. intros [HA HL]. inversion HL as [|? ? [H1 H2] H3]; subst. cbn [fst snd] in *. repeat split; auto; apply HA || apply H2. Qed.
Lemma digits_iplain A : digits A -> lacks iother A.
Proof. intros [_ H]. eapply Forall_impl; [|exact H]. cbv beta. intros c Hc. unfold iother, iplain, isepb, is_digitA. split; [lia|]. apply negb_false_iff, orb_true_iff. left. lia. Qed.
Lemma isep_plain p : isep p -> 0 <= p < 128 /\ iother p = false.
Proof. intros H. split; [unfold isep in H; lia|]. unfold iother, iplain. apply isepb_iff in H. rewrite H. apply negb_false_iff, orb_true_r. Qed.
Lemma groups_plain : forall l A, igroups A l -> lacks iother (numtext A l).
Proof.
  induction l as [|[p B] l IH]; intros A HN; [apply digits_iplain, HN|]. apply groups_cons in HN as (HA & Hp & HB). cbn [numtext].
  apply Forall_app. split; [now apply digits_iplain|]. constructor; [now apply isep_plain | now apply IH].
Qed.
Lemma groups_asc A l : igroups A l -> asc (numtext A l).
Proof. intros H. eapply Forall_impl; [|apply groups_plain, H]. cbv beta. tauto. Qed.
Lemma groups_ne : forall l A, igroups A l -> numtext A l <> [].
Proof. intros [|[p B] l] A [[H _] _]; cbn [numtext]; [exact H|]. destruct A; [congruence|discriminate]. Qed.
Lemma groups_head l A : igroups A l -> exists c s, numtext A l = c :: s /\ 48 <= c <= 57.
Proof.
  intros [[H1 H2] _]. destruct A as [|c A]; [congruence|]. inversion H2; subst. destruct l as [|[p B] l]; cbn [numtext app]; eauto.
Qed.
Lemma groups_last : forall l A, igroups A l -> 48 <= last (numtext A l) 0 <= 57.
Proof.
  assert (D : forall A, digits A -> 48 <= last A 0 <= 57).
  { intros A [H1 H2]. clear - H1 H2. induction H2 as [|c s Hc _ IH]; [congruence|]. destruct s as [|d s]; [exact Hc|]. apply IH. discriminate. }
  induction l as [|[p B] l IH]; intros A HN; [apply D, HN|]. apply groups_cons in HN as (HA & Hp & HB). cbn [numtext].
  specialize (IH B HB). pose proof (groups_ne l B HB) as NE. clear - IH NE. revert IH NE. generalize (numtext B l). intros s IH NE.
  induction A as [|c A IHA]; [destruct s; [congruence|exact IH]|]. cbn [app]. destruct (A ++ p :: s) as [|x y] eqn:EE; [now destruct A|]. exact IHA.
Qed.

(** ** Searching in such a text *)
Lemma iindex_none s w : forallb iplain w = false -> lacks iother s -> index s w = None.
Proof.
  intros HW HS. destruct (index s w) as [n|] eqn:I; [|reflexivity]. exfalso. apply index_prefix, prefix_app in I as (t & Ht).
  pose proof (lacks_skip iother n s HS) as HL. rewrite Ht in HL. apply Forall_app in HL as [HL _]. apply not_true_iff_false in HW. apply HW.
  apply forallb_forall. intros c Hc. unfold lacks in HL. rewrite Forall_forall in HL. apply HL in Hc as [_ Hc]. now apply negb_false_iff in Hc.
Qed.
(** a isep found in the text splits the list *)
Lemma groups_split : forall l A n c t, igroups A l -> isep c -> skipn n (numtext A l) = c :: t ->
  exists l1 B l2, l = l1 ++ (c, B) :: l2 /\ firstn n (numtext A l) = numtext A l1 /\ t = numtext B l2 /\ (0 < n)%nat.
Proof.
  assert (AD : forall A : str, digits A -> forall n c t, isep c -> skipn n A <> c :: t).
  { intros A [_ HA] n c t Hc Hs. assert (In c A) by (rewrite <- (firstn_skipn n A), Hs; apply in_or_app; right; now left). rewrite Forall_forall in HA. apply HA in H. unfold isep in Hc. lia. }
  induction l as [|[p B] l IH]; intros A n c t HN Hc Hs.
  - exfalso. eapply AD; [apply HN | exact Hc | exact Hs].
  - apply groups_cons in HN as (HA & Hp & HB). cbn [numtext] in *. destruct (Nat.lt_trichotomy n (length A)) as [L|[L|L]].
    + exfalso. rewrite skipn_app in Hs. replace (n - length A)%nat with 0%nat in Hs by lia. cbn [skipn] in Hs.
      destruct (skipn n A) as [|x y] eqn:ES; [apply (f_equal (@length Z)) in ES; rewrite skipn_length in ES; cbn in ES; lia|].
      cbn [app] in Hs. apply (AD A HA n c y Hc). rewrite ES. congruence.
    + subst n. rewrite skipn_app, skipn_all, Nat.sub_diag in Hs. cbn [app skipn] in Hs. assert (c = p) by congruence. assert (t = numtext B l) by congruence. subst.
      exists [], B, l. split; [reflexivity|]. rewrite firstn_app, firstn_all, Nat.sub_diag. cbn [firstn numtext]. rewrite app_nil_r. repeat split.
      destruct HA as [HA _]. destruct A; [congruence|cbn; lia].
    + rewrite skipn_app in Hs. rewrite (skipn_all2 A) in Hs by lia. destruct (n - length A)%nat as [|k] eqn:EK; [lia|]. cbn [app skipn] in Hs.
      destruct (IH B k c t HB Hc Hs) as (l1 & B' & l2 & -> & HF & -> & _). exists ((p, B) :: l1), B', l2. split; [reflexivity|].
      rewrite firstn_app, (firstn_all2 A) by lia. rewrite EK. cbn [firstn]. rewrite HF. cbn [numtext]. repeat split. lia.
Qed.
Lemma groups_app A l1 c B l2 : igroups A (l1 ++ (c, B) :: l2) -> igroups A l1 /\ isep c /\ igroups B l2.
Proof. intros [HA HL]. apply Forall_app in HL as [H1 H2]. inversion H2 as [|? ? [H3 H4] H5]; subst. repeat split; auto; apply HA || apply H4. Qed.

Section E.
Variable E : env.
Notation U := (e_uni E).
Hypothesis UA : uni_ascii U.

(** ** Splitting at digits *)
Lemma groups_run rest : forall ds cur, Forall (fun c => 48 <= c <= 57) ds -> numeral_groups E cur true (ds ++ rest) = numeral_groups E (rev ds ++ cur) true rest.
Proof.
  induction ds as [|c ds IH]; intros cur H; [reflexivity|]. inversion H; subst. cbn [app numeral_groups]. rewrite (ua_isNd _ UA) by lia. unfold is_digitA.
  assert ((48 <=? c) && (c <=? 57) = true) as -> by lia. cbn [Bool.eqb]. rewrite IH by assumption. cbn [rev]. now rewrite <- app_assoc.
Qed.
Lemma groups_num : forall l a A, igroups (a :: A) l -> numeral_groups E [a] true (match l with [] => A | (p, B) :: l' => A ++ p :: numtext B l' end) = numtokens (a :: A) l.
Proof.
  induction l as [|[p B] l IH]; intros a A HN.
  - rewrite <- (app_nil_r A) at 1. destruct HN as [[_ HA] _]. inversion HA; subst. rewrite groups_run by assumption. cbn [numeral_groups numtokens]. rewrite rev_app_distr, rev_involutive. reflexivity.
  - apply groups_cons in HN as (HA & Hp & HB). destruct HA as [_ HA]. inversion HA; subst. rewrite groups_run by assumption. cbn [numeral_groups numtokens].
    destruct (isep_plain p Hp) as [Rp _]. rewrite (ua_isNd _ UA p Rp). assert (is_digitA p = false) as -> by (unfold isep in Hp; unfold is_digitA; lia). cbn [Bool.eqb]. rewrite rev_app_distr, rev_involutive. cbn [rev app]. f_equal.
    destruct B as [|b B]; [destruct HB as [[HB _] _]; congruence|].
    assert (NB : 48 <= b <= 57) by (destruct HB as [[_ HB] _]; now inversion HB).
    destruct (numtext (b :: B) l) as [|x y] eqn:EX; [destruct l as [|[? ?] ?]; discriminate EX|]. rewrite <- EX.
    assert (EB : numtext (b :: B) l = b :: match l with [] => B | (p, B0) :: l' => B ++ p :: numtext B0 l' end) by (destruct l as [|[? ?] ?]; reflexivity).
    rewrite EB. cbn [numeral_groups]. rewrite (ua_isNd _ UA) by lia. assert (is_digitA b = true) as -> by (unfold is_digitA; lia). cbn [Bool.eqb rev app]. f_equal. now apply IH.
Qed.
Lemma numtokens_asc : forall l A, igroups A l -> Forall asc (numtokens A l).
Proof.
  induction l as [|[p B] l IH]; intros A HN; cbn [numtokens]; [constructor; [now apply digits_asc, HN|constructor]|]. apply groups_cons in HN as (HA & Hp & HB).
  constructor; [now apply digits_asc|]. constructor; [constructor; [apply (isep_plain p Hp)|constructor]|now apply IH].
Qed.
(** every token is kept *)
Lemma captured_text A l keep : igroups A l -> token_captured E (numtext A l) keep = true.
Proof.
  intros HN. destruct (groups_head l A HN) as (c & s & Es & Hc). pose proof (groups_plain l A HN) as HP. rewrite Es in HP. unfold token_captured. rewrite Es, keep1; [now rewrite orb_true_r|exact Hc| |].
  - inversion HP as [|? ? _ H]; subst. eapply Forall_impl; [|exact H]. cbv beta. tauto.
  - intros Hi. inversion HP as [|? ? _ H]; subst. rewrite Forall_forall in H. apply H in Hi. vm_compute in Hi. intuition discriminate.
Qed.
Lemma captured_sep p keep : isep p -> token_captured E [p] keep = true.
Proof.
  intros Hp. unfold token_captured. destruct (Z.eq_dec p 116) as [->|N].
  - assert (match_string U rxKeepToken1 [116] = true) as -> by (rewrite (match_norm dig0 U UA dig0_ok); [vm_compute; reflexivity|vm_compute; reflexivity|repeat constructor; lia]). now rewrite orb_true_r.
  - assert (mem [p] always_kept = true) as -> by (destruct Hp as [-> | [-> | [-> | [-> | [-> | [-> | ->]]]]]]; try congruence; reflexivity). now rewrite orb_true_r.
Qed.
Lemma captured_num : forall l A keep, igroups A l -> forallb (fun t => token_captured E t keep) (numtokens A l) = true.
Proof.
  assert (D : forall A keep, digits A -> token_captured E A keep = true) by (intros A keep HA; apply (captured_text A []); split; [exact HA|constructor]).
  assert (S : forall p keep, isep p -> token_captured E [p] keep = true).
  { intros p keep Hp. now apply captured_sep. }
  induction l as [|[p B] l IH]; intros A keep HN; cbn [numtokens forallb].
  - rewrite D; [reflexivity|apply HN].
  - apply groups_cons in HN as (HA & Hp & HB). rewrite D, S by assumption. now apply IH.
Qed.
Lemma split_numerals_num A l keep : igroups A l -> split_numerals E (numtext A l) keep = numtokens A l.
Proof.
  intros HN. unfold split_numerals. rewrite runes_asc by (now apply groups_asc). destruct A as [|a A]; [destruct HN as [[HN _] _]; congruence|].
  assert (EA : numtext (a :: A) l = a :: match l with [] => A | (p, B0) :: l' => A ++ p :: numtext B0 l' end) by (destruct l as [|[? ?] ?]; reflexivity).
  rewrite EA. assert (NA : 48 <= a <= 57) by (destruct HN as [[_ HA] _]; now inversion HA). rewrite (ua_isNd _ UA) by lia. assert (is_digitA a = true) as -> by (unfold is_digitA; lia).
  rewrite groups_num by assumption. rewrite map_id_asc by (now apply numtokens_asc). apply filter_id. now apply captured_num.
Qed.

(** ** Splitting at known words *)
Variable ld : locale.
Hypothesis NL : iso_locale ld = true.
Lemma nl_facts :
  Forall (fun p => needs iother (rx_ast (fst p)) = true) (ld_simpl ld) /\ Forall (fun p => needs iother (rx_ast (fst p)) = true) (ld_relrx ld) /\
  (forall r, ld_rx ld = Some r -> needs iother (rx_ast r) = true) /\ (forall r, ld_rx_exact ld = Some r -> needs iother (rx_ast r) = true) /\
  (forall w, In w (ld_known ld) -> forallb iplain w = true -> exists c, w = [c] /\ isep c) /\
  (forall w v, mget (ld_reltype ld) w = Some v -> forallb iplain w = true -> False) /\
  (forall w v, mget (ld_trans ld) w = Some v -> forallb iplain w = true -> (exists c, w = [c] /\ isep c) /\ (w = [116] \/ v = [w])) /\
  (forall c, isep c -> c <> 116 -> c <> 43 -> exists v, mget (ld_trans ld) [c] = Some v) /\ ld_name ld <> lit "fi".
Proof.
  pose proof NL as H. unfold iso_locale in H. rewrite !andb_true_iff in H. destruct H as [[[[[[[[H1 H2] H3] H4] H5] H6] H7] H8] H9].
  assert (MG : forall X (m : smap X) w v, mget m w = Some v -> In (w, v) m).
  { intros X m w v. induction m as [|[k x] m IH]; cbn [mget]; [discriminate|]. destruct (eqs_spec w k) as [->|_]; [intros HX; injection HX as ->; now left|right; auto]. }
  assert (S1 : forall w, isep1 w = true -> exists c, w = [c] /\ isep c) by (intros [|c [|d w]]; cbn [isep1]; intros Hw; try discriminate; exists c; split; [reflexivity|now apply isepb_iff]).
  rewrite !forallb_forall in *. repeat split.
  - apply Forall_forall. exact H1.
  - apply Forall_forall. exact H2.
  - intros r Hr. now rewrite Hr in H3.
  - intros r Hr. now rewrite Hr in H4.
  - intros w Hw Pw. specialize (H5 w Hw). rewrite Pw in H5. now apply S1.
  - intros w v Hm Pw. apply MG in Hm. specialize (H6 _ Hm). cbn [fst] in H6. rewrite Pw in H6. discriminate.
  - apply MG in H. specialize (H7 _ H). cbn [fst snd] in H7. rewrite H0 in H7. cbn [negb orb] in H7. apply andb_true_iff in H7 as [H7 _]. now apply S1.
  - apply MG in H. specialize (H7 _ H). cbn [fst snd] in H7. rewrite H0 in H7. cbn [negb orb] in H7. apply andb_true_iff in H7 as [_ H7]. destruct (eqs w [116]) eqn:EW; [left; now apply eqs_eq|right]. destruct v as [|t [|]]; try discriminate. apply eqs_eq in H7. now subst.
  - intros c Hc NC NP. specialize (H8 c). unfold mhas in H8. destruct (mget (ld_trans ld) [c]) as [v|]; [now exists v|]. assert (false = true); [|discriminate]. apply H8. unfold isep in Hc. cbn [In]. lia.
  - intros EN. rewrite EN in H9. discriminate H9.
Qed.
Definition found (s : str) (b : nat * (str * str * str)) : Prop :=
  exists c, isep c /\ index s [c] = Some (fst b) /\ snd b = (firstn (fst b) s, [c], skipn (fst b + 1) s).
Lemma find_known_num A l : igroups A l -> forall ws best, Forall (fun w => In w (ld_known ld)) ws ->
  (forall b, best = Some b -> found (numtext A l) b) -> find_known E ld (numtext A l) ws best = None \/ exists b, found (numtext A l) b /\ find_known E ld (numtext A l) ws best = Some (snd b).
Proof.
  intros HN. destruct nl_facts as (_ & _ & _ & _ & HK & _). induction ws as [|w ws IH]; intros best HW HB; cbn [find_known].
  - destruct best as [b|]; [right; exists b; split; [now apply HB|reflexivity]|now left].
  - inversion HW; subst. destruct (index (numtext A l) w) as [n|] eqn:I; [|now apply IH]. destruct (_ || _); [|now apply IH].
    destruct (forallb iplain w) eqn:PW; [|rewrite iindex_none in I; [discriminate|exact PW|now apply groups_plain]].
    destruct (HK w) as (c & -> & Hc); [assumption|assumption|].
    assert (FN : found (numtext A l) (n, (firstn n (numtext A l), [c], skipn (n + length [c]) (numtext A l)))) by (exists c; auto).
    set (best' := match best with None => _ | Some _ => _ end).
    assert (FB : forall b, best' = Some b -> found (numtext A l) b).
    { subst best'. intros b. destruct best as [[p x]|]; [destruct (Nat.ltb n p)|]; intros HH; try (injection HH as <-; exact FN). now apply HB. }
    destruct (Nat.eqb n 0); [|now apply IH]. destruct best' as [b|]; [right; exists b; split; [now apply FB|reflexivity]|now left].
Qed.
Lemma trim_num A l : igroups A l -> trim_space (numtext A l) = numtext A l.
Proof.
  intros HN. destruct (groups_head l A HN) as (c & s & Es & Hc). pose proof (groups_last l A HN) as HL. pose proof (groups_asc A l HN) as HA. revert HL HA. rewrite Es. clear Es HN. intros HL HA.
  apply trim_ends; assumption || lia.
Qed.
Lemma split_known_num keep : forall n l A fuel, (length l <= n)%nat -> (n < fuel)%nat -> igroups A l -> split_known E fuel ld (numtext A l) keep = numtokens A l.
Proof.
  induction n as [n IH] using lt_wf_ind. intros l A fuel HL HF HN. destruct fuel as [|f]; [lia|]. cbn [split_known].
  assert (TC : forall l A, igroups A l -> split_numerals E (numtext A l) keep = numtokens A l) by (intros; now apply split_numerals_num).
  assert (FK : find_known_word E ld (numtext A l) = None \/ exists b, found (numtext A l) b /\ find_known_word E ld (numtext A l) = Some (snd b)).
  { unfold find_known_word. rewrite trim_num by exact HN. assert (empty (numtext A l) = false) as -> by (pose proof (groups_ne l A HN); now destruct (numtext A l)). apply find_known_num; [exact HN| |discriminate]. apply Forall_forall. auto. }
  destruct FK as [->|([pos x] & (c & Hc & HI & HX) & ->)].
  - rewrite captured_text by exact HN. now apply TC.
  - cbn [fst snd] in *. subst x. pose proof (index_prefix _ _ _ HI) as HP. apply prefix_app in HP as (t & Ht). cbn [app] in Ht.
    destruct (groups_split l A pos c t HN Hc Ht) as (l1 & B & l2 & -> & HF1 & -> & _). rewrite HF1.
    apply groups_app in HN as (N1 & _ & N2).
    assert (SK : skipn (pos + 1) (numtext A (l1 ++ (c, B) :: l2)) = numtext B l2) by (rewrite <- skipn_skipn, Ht; reflexivity). rewrite SK.
    assert (empty (numtext A l1) = false) as -> by (pose proof (groups_ne l1 A N1); now destruct (numtext A l1)).
    assert (empty (numtext B l2) = false) as -> by (pose proof (groups_ne l2 B N2); now destruct (numtext B l2)).
    rewrite captured_text by exact N1. cbn [negb andb]. rewrite TC by exact N1.
    rewrite (captured_sep c keep Hc).
    rewrite app_length in HL. cbn [length] in HL. rewrite (IH (length l2)); [|lia|lia|lia|exact N2]. now rewrite numtokens_app.
Qed.

(** ** Simplification, splitting, translation *)
Lemma simplify_plain s : lacks iother s -> simplify E ld s = s.
Proof.
  intros HS. destruct nl_facts as (H & _). unfold simplify. induction H as [|p l Hp _ IH]; [reflexivity|]. cbn [fold_left].
  assert (match_string U (fst p) s = false) as -> by (now apply (lacks_match iother)). exact IH.
Qed.
Lemma split_plain s : lacks iother s -> split s split_separator = [s].
Proof.
  intros HS. unfold split. rewrite <- (app_nil_r s) at 1. rewrite split_copy.
  - cbn [split_from]. now rewrite rev_app_distr, rev_involutive, app_nil_r || rewrite app_nil_r, rev_involutive.
  - intros a1 a2 -> NE. rewrite app_nil_r. apply Forall_app in HS as [_ HS]. destruct a2 as [|c a2]; [congruence|]. inversion HS as [|? ? [Hc Ho] _]; subst.
    change split_separator with (124 :: tl split_separator). cbn [has_prefix]. destruct (124 =? c) eqn:EC; [|reflexivity]. apply Z.eqb_eq in EC. subst c. discriminate Ho.
Qed.
Definition iso_skip (skipped : list str) : Prop := In [116] skipped /\ Forall (fun w => w = [116] \/ exists c, In c w /\ ~ (48 <= c <= 57) /\ ~ isep c) skipped.
Lemma not_skipped skipped s : iso_skip skipped -> lacks iother s -> s <> [116] -> mem s skipped = false.
Proof.
  intros [_ HK] HS NS. destruct (mem s skipped) eqn:M; [|reflexivity]. apply mem_In in M. rewrite Forall_forall in HK. destruct (HK s M) as [EQ|(c & Hi & H1 & H2)]; [congruence|].
  unfold lacks in HS. rewrite Forall_forall in HS. apply HS in Hi as [_ Hi]. unfold iother, iplain in Hi. apply negb_false_iff, orb_true_iff in Hi as [Hi|Hi]; [unfold is_digitA in Hi; lia|]. now apply isepb_iff in Hi.
Qed.
Lemma tokens_plain : forall l A, igroups A l -> Forall (lacks iother) (numtokens A l).
Proof.
  induction l as [|[p B] l IH]; intros A HN; cbn [numtokens]; [constructor; [apply digits_iplain, HN|constructor]|]. apply groups_cons in HN as (HA & Hp & HB).
  constructor; [now apply digits_iplain|]. constructor; [constructor; [now apply isep_plain|constructor]|now apply IH].
Qed.
Lemma token_cases : forall l A t, igroups A l -> In t (numtokens A l) -> digits t \/ exists p, isep p /\ t = [p].
Proof.
  induction l as [|[p B] l IH]; intros A t HN; cbn [numtokens In]; [intros [<-|[]]; left; apply HN|]. apply groups_cons in HN as (HA & Hp & HB).
  intros [<-|[<-|Hi]]; [now left|right; eauto|eauto].
Qed.
(** the tokens without the letter t, and the text they make *)
Fixpoint ktokens (A : str) (l : list (Z * str)) : list str :=
  match l with [] => [A] | (p, B) :: l' => A :: (if p =? 116 then [] else [[p]]) ++ ktokens B l' end.
Definition blanked (l : list (Z * str)) : list (Z * str) := map (fun x => (if fst x =? 116 then 32 else fst x, snd x)) l.
Lemma isep_kept p : isep p -> p <> 116 -> mem [p] always_kept = true.
Proof. intros [-> | [-> | [-> | [-> | [-> | [-> | ->]]]]]] N; try congruence; reflexivity. Qed.
Lemma digits_t A : digits A -> A <> [116].
Proof. intros [_ H] ->. inversion H; lia. Qed.
Lemma ktokens_filter : forall l A, igroups A l -> filter (fun t => negb (eqs t [116])) (numtokens A l) = ktokens A l.
Proof.
  assert (D : forall A : str, digits A -> negb (eqs A [116]) = true) by (intros A HA; destruct (eqs_spec A [116]) as [e|]; [now apply digits_t in e|reflexivity]).
  induction l as [|[p B] l IH]; intros A HN; cbn [numtokens filter ktokens]; [rewrite D by apply HN; reflexivity|]. apply groups_cons in HN as (HA & Hp & HB). rewrite (D A HA). f_equal.
  destruct (eqs_spec [p] [116]) as [e|e]; cbn [negb].
  - assert (p = 116) as -> by congruence. cbn [Z.eqb Pos.eqb app]. now apply IH.
  - assert (p =? 116 = false) as -> by (apply Z.eqb_neq; congruence). cbn [app]. f_equal. now apply IH.
Qed.
Lemma ktokens_in l A t : igroups A l -> In t (ktokens A l) -> In t (numtokens A l) /\ t <> [116].
Proof. intros HN HI. rewrite <- ktokens_filter in HI by exact HN. apply filter_In in HI as [H1 H2]. split; [exact H1|]. intros ->. discriminate H2. Qed.
Lemma lsplit_num A l keep skipped : igroups A l -> iso_skip skipped -> ~ In [] skipped -> lsplit E ld (numtext A l) keep skipped = Ok (ktokens A l).
Proof.
  intros HN HK HE. destruct nl_facts as (_ & _ & HR & HX & _). pose proof (groups_plain l A HN) as HP. unfold lsplit.
  assert (S1 : match ld_rx ld with Some rx => split_with_regex E (S (length (numtext A l))) (numtext A l) rx | None => Ok (numtext A l) end = Ok (numtext A l)).
  { destruct (ld_rx ld) as [r|] eqn:ER; [|reflexivity]. cbn [split_with_regex]. rewrite (lacks_none iother); auto. }
  rewrite S1. cbn [rbind]. rewrite split_plain by exact HP. cbn [flat_map].
  assert (match ld_rx_exact ld with Some rx => match_string U rx (numtext A l) | None => false end = false) as -> by (destruct (ld_rx_exact ld) as [r|] eqn:ER; [apply (lacks_match iother); auto|reflexivity]).
  rewrite (split_known_num keep (length l)); [|lia| |exact HN].
  - rewrite app_nil_r. f_equal. rewrite <- ktokens_filter by exact HN. apply filter_ext_in. intros t Ht. pose proof (tokens_plain l A HN) as TP. rewrite Forall_forall in TP. specialize (TP t Ht).
    pose proof (token_cases l A t HN Ht) as TCs. assert (NE : t <> []) by (destruct TCs as [[? _]|(p & _ & ->)]; [assumption|discriminate]).
    assert (empty t = false) as -> by (now destruct t). cbn [negb andb]. f_equal.
    destruct (eqs_spec t [116]) as [->|NT]; [apply mem_In, HK|].
    assert (TS : lacks iother (trim_space t) /\ trim_space t <> [116]).
    { destruct TCs as [Hd|(p & Hp & ->)]; [rewrite trim_digits by exact Hd; auto|]. destruct Hp as [-> | [-> | [-> | [-> | [-> | [-> | ->]]]]]]; try congruence; (split; [vm_compute; repeat constructor; intuition congruence|vm_compute; congruence]). }
    destruct TS as [TS TS2]. destruct (trim_space t) eqn:ET; [destruct (mem [] skipped) eqn:M; [apply mem_In in M; contradiction|reflexivity]|]. rewrite <- ET in *. now apply not_skipped.
  - assert (LL : forall l A, (length l <= length (numtext A l))%nat) by (clear; induction l as [|[p B] l IH]; intros A; cbn [numtext length]; [lia|]; rewrite app_length; cbn [length]; specialize (IH B); lia). specialize (LL l A). lia.
Qed.

Lemma translate_token_num A l t keep skipped : igroups A l -> iso_skip skipped -> ~ In [] skipped -> In t (ktokens A l) -> translate_token E ld skipped keep t = [t].
Proof.
  intros HN HK HE Ht0. destruct (ktokens_in l A t HN Ht0) as [Ht NT]. pose proof (tokens_plain l A HN) as TP. rewrite Forall_forall in TP. specialize (TP t Ht). unfold translate_token. rewrite not_skipped by assumption.
  destruct nl_facts as (_ & HR & _ & _ & _ & H6 & H7 & _).
  assert (FN : List.find (fun p => match_string U (fst p) t) (ld_relrx ld) = None).
  { clear - HR TP UA. induction HR as [|p r Hp _ IH]; [reflexivity|]. cbn [List.find]. now rewrite (lacks_match iother). }
  rewrite FN. unfold translate_word.
  assert (PT : forallb iplain t = true). { apply forallb_forall. intros c Hc. unfold lacks in TP. rewrite Forall_forall in TP. apply TP in Hc as [_ Hc]. now apply negb_false_iff in Hc. }
  destruct (mget (ld_reltype ld) t) as [v|] eqn:M1; [destruct (H6 _ _ M1 PT)|].
  destruct (mget (ld_trans ld) t) as [v|] eqn:M2; [|reflexivity]. destruct (H7 _ _ M2 PT) as ((c & Ec & _) & [e | ->]); [congruence|]. rewrite Ec. reflexivity.
Qed.
Lemma igroups_blanked : forall l A, igroups A l -> igroups A (blanked l).
Proof.
  intros l A [HA HL]. split; [exact HA|]. unfold blanked. apply Forall_forall. intros x HX. apply in_map_iff in HX as ([p B] & <- & HI). rewrite Forall_forall in HL. destruct (HL _ HI) as [H1 H2]. cbn [fst snd] in *. split; [|exact H2].
  destruct (p =? 116); [unfold isep; lia|exact H1].
Qed.
Lemma digits_kept A : digits A -> mem A always_kept = false.
Proof.
  intros HA. destruct (mem A always_kept) eqn:M; [|reflexivity]. exfalso. apply mem_In in M. destruct HA as [NA HA]. destruct A as [|a A]; [congruence|]. inversion HA; subst.
  unfold always_kept in M. cbn [In] in M. repeat (destruct M as [M|M]; [injection M as <- _; lia|]). destruct M.
Qed.
Lemma join_num A l : igroups A l -> join (ktokens A l) [32] = numtext A (blanked l).
Proof.
  intros HN. assert (JF : forall l A, igroups A l -> A ++ match ktokens A l with [] => [] | t :: r => join_from t r [32] end = numtext A (blanked l)).
  { clear HN l A. induction l as [|[p B] l IH]; intros A HN; cbn [ktokens numtext join_from blanked map fst snd]; [apply app_nil_r|]. apply groups_cons in HN as (HA & Hp & HB).
    specialize (IH B HB). fold (blanked l). rewrite <- IH. assert (HT : exists r, ktokens B l = B :: r) by (destruct l as [|[? ?] ?]; cbn [ktokens]; eauto). destruct HT as [r ->].
    destruct (p =? 116) eqn:EP; cbn [app join_from].
    - rewrite (digits_kept A HA), (digits_kept B (proj1 HB)). apply Z.eqb_eq in EP. subst p. reflexivity.
    - rewrite (isep_kept p Hp) by lia. rewrite andb_false_r. reflexivity. }
  specialize (JF l A HN). unfold join. assert (HT : exists r, ktokens A l = A :: r) by (destruct l as [|[? ?] ?]; cbn [ktokens]; eauto). destruct HT as [r ET]. rewrite ET in *.
  rewrite JF. apply trim_num. now apply igroups_blanked.
Qed.
Lemma finish_num A l : igroups A l -> finish_translation false (ktokens A l) = numtext A (blanked l).
Proof.
  intros HN. unfold finish_translation.
  assert (IN : forall t, In t (ktokens A l) -> t <> lit "in" /\ t <> []).
  { intros t Ht. destruct (ktokens_in l A t HN Ht) as [Ht2 _]. destruct (token_cases l A t HN Ht2) as [[H1 H2]|(p & Hp & ->)]; split; try assumption; try discriminate. intros ->. inversion H2; lia. }
  assert (mem (lit "in") (ktokens A l) = false) as ->. { destruct (mem _ _) eqn:M; [|reflexivity]. apply mem_In in M. apply IN in M as [M _]. congruence. }
  rewrite filter_id; [now apply join_num|]. apply forallb_forall. intros t Ht. apply IN in Ht as [_ Ht]. now destruct t.
Qed.
(** normalisation *)
Lemma lower_plain s : lacks iother s -> to_lower U s = s.
Proof.
  intros HS. unfold to_lower. rewrite asc_ascii by (eapply Forall_impl; [|exact HS]; cbv beta; tauto). rewrite <- (map_id s) at 2. apply map_ext_in. intros c Hc. unfold lacks in HS. rewrite Forall_forall in HS.
  apply HS in Hc as [_ Hc]. unfold iother, iplain, isepb, is_digitA in Hc. cbn [existsb iseps] in Hc. unfold lowerA, is_upperA. destruct ((65 <=? c) && (c <=? 90)) eqn:B; [lia|reflexivity].
Qed.
Lemma isep_word c : isep c -> c <> 32 -> word [c].
Proof. intros H N. split; [discriminate|]. constructor; [|constructor]. destruct H as [-> | [-> | [-> | [-> | [-> | [-> | ->]]]]]]; try reflexivity. congruence. Qed.
Lemma num_words : forall l A, igroups A l -> exists ws, numtext A l = join_words ws /\ Forall word ws /\ Forall asc ws /\ ws <> [].
Proof.
  induction l as [|[p B] l IH]; intros A HN; cbn [numtext].
  - exists [A]. repeat split; try discriminate; constructor; auto using digits_word, digits_asc; try apply digits_word, HN; try apply digits_asc, HN.
  - apply groups_cons in HN as (HA & Hp & HB). destruct (IH B HB) as (ws & -> & W1 & W2 & W3). destruct (Z.eq_dec p 32) as [->|NP].
    + exists (A :: ws). destruct ws as [|w ws]; [congruence|]. repeat split; try discriminate; constructor; auto using digits_word, digits_asc.
    + destruct ws as [|w ws]; [congruence|]. exists ((A ++ [p] ++ w) :: ws). inversion W1; inversion W2; subst. repeat split.
      * destruct ws; cbn [join_words]; rewrite <- ?app_assoc; reflexivity.
      * constructor; auto using word_app, digits_word, isep_word.
      * constructor; auto. apply Forall_app. split; [now apply digits_asc|]. apply Forall_app. split; [|assumption]. constructor; [apply (isep_plain p Hp)|constructor].
      * discriminate.
Qed.
Lemma sanitize_num A l : igroups A l -> sanitize_spaces (numtext A l) = numtext A l.
Proof. intros HN. destruct (num_words l A HN) as (ws & -> & W1 & W2 & _). now apply sanitize_asc. Qed.
Lemma normalize_num A l : igroups A l -> normalize_string U (numtext A l) = numtext A l.
Proof.
  intros HN. unfold normalize_string, normalize_unicode. rewrite (ua_nfkd _ UA) by (apply asc_ascii, groups_asc, HN). rewrite lower_plain by (now apply groups_plain). now apply sanitize_num.
Qed.
Lemma normalize_token_num A l : igroups A l -> normalize_token E (numtext A l) = numtext A l.
Proof.
  intros HN. unfold normalize_token. rewrite normalize_num by exact HN. apply (digit_normalize_ascii E UA ld). now apply groups_asc.
Qed.
Lemma iso_skipped cfg : iso_skip (c_skip cfg) -> ~ In [] (c_skip cfg) -> iso_skip (skipped_tokens cfg ld) /\ ~ In [] (skipped_tokens cfg ld).
Proof.
  intros HK HE. unfold skipped_tokens. destruct nl_facts as (_ & _ & _ & _ & _ & _ & _ & _ & NF). destruct (eqs_spec (ld_name ld) (lit "fi")) as [e|]; [congruence|auto].
Qed.
Theorem translate_num cfg A l keep : igroups A l -> iso_skip (c_skip cfg) -> ~ In [] (c_skip cfg) ->
  exists r, translate E cfg ld (numtext A l) keep = Ok r /\ (keep = false -> r = [numtext A (blanked l)]).
Proof.
  intros HN HK HE. unfold translate. destruct (iso_skipped cfg HK HE) as [S1 S2]. rewrite normalize_token_num by exact HN. rewrite simplify_plain by (now apply groups_plain). rewrite lsplit_num by assumption. cbn [rbind].
  assert (map (translate_token E ld (skipped_tokens cfg ld) keep) (ktokens A l) = map (fun x => [x]) (ktokens A l)) as ->.
  { apply map_ext_in. intros t Ht. eapply translate_token_num; eauto. }
  rewrite create_single. cbn [rbind map]. eexists. split; [reflexivity|]. intros ->. now rewrite finish_num.
Qed.
Theorem applicable_num cfg A l : igroups A l -> Forall (fun x => fst x <> 43) l -> iso_skip (c_skip cfg) -> ~ In [] (c_skip cfg) -> is_applicable E cfg ld (numtext A l) false = Ok true.
Proof.
  intros HN HP HK HE. unfold is_applicable. destruct (iso_skipped cfg HK HE) as [S1 S2]. rewrite normalize_token_num by exact HN. rewrite simplify_plain by (now apply groups_plain). rewrite lsplit_num by assumption. cbn [rbind].
  assert (forallb (fun t => mem t always_kept) (ktokens A l) = false) as ->.
  { apply not_true_iff_false. rewrite forallb_forall. intros H. specialize (H A). assert (IA : In A (ktokens A l)) by (destruct l as [|[? ?] ?]; now left). apply H in IA. rewrite (digits_kept A) in IA by apply HN. discriminate IA. }
  f_equal. apply forallb_forall. intros t Ht0. destruct (ktokens_in l A t HN Ht0) as [Ht NT]. unfold token_known. destruct (token_cases l A t HN Ht) as [HD|(p & Hp & ->)].
  - assert (is_number_only U t = true) as ->; [|reflexivity]. unfold is_number_only. rewrite runes_asc by (now apply digits_asc). apply forallb_forall. intros c Hc. destruct HD as [_ HD]. rewrite Forall_forall in HD. apply HD in Hc.
    rewrite (ua_isNd _ UA) by lia. unfold is_digitA. lia.
  - destruct nl_facts as (_ & _ & _ & _ & _ & _ & _ & H8 & _). destruct (H8 p Hp) as (v & Hv); [congruence| |].
    { intros ->. revert Ht HP. clear - HN. revert A HN. induction l as [|[p B] l IH]; intros A HN; cbn [numtokens In]; [intros [e|[]]; subst A; destruct HN as [[_ H] _]; inversion H; lia|]. apply groups_cons in HN as (HA & Hp & HB).
      intros [e|[e|HI]] HF; inversion HF as [|? ? H1 H2]; subst; cbn [fst] in *; [destruct HA as [_ H]; inversion H; lia|congruence|exact (IH B HB HI H2)]. } unfold in_dictionary, translate_word. destruct (mget (ld_reltype ld) [p]); [now rewrite orb_true_r|]. rewrite Hv. now rewrite orb_true_r.
Qed.
End E.
