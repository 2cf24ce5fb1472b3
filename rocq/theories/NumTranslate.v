(** Numbers joined by separators are translated to themselves *)
From Coq Require Import ZifyBool.
From Verif Require Import GoBase SMap Regex RegexFacts RegexFacts2 RegexFacts3 RegexFacts4 Setting Strutil Utf8Facts SpaceFacts Digit Timezone Env Language ParserFacts Tokenizer AbsFacts2 NumericFacts.

Definition seps : list Z := [45; 47; 46; 32].
Definition sepb (c : Z) : bool := existsb (Z.eqb c) seps.
Definition plain (c : Z) : bool := is_digitA c || sepb c.
Definition other (c : Z) : bool := negb (plain c).
Definition sep1 (w : str) : bool := match w with [c] => sepb c | _ => false end.
Lemma sepb_iff c : sepb c = true <-> separator c.
Proof. unfold sepb, seps, separator. cbn [existsb]. lia. Qed.

(** what the tables of a locale must look like; a check for concrete locales *)
Definition numeric_locale (ld : locale) : bool :=
  forallb (fun p => needs other (rx_ast (fst p))) (ld_simpl ld) && forallb (fun p => needs other (rx_ast (fst p))) (ld_relrx ld)
  && match ld_rx ld with Some r => needs other (rx_ast r) | None => true end
  && match ld_rx_exact ld with Some r => needs other (rx_ast r) | None => true end
  && forallb (fun w => negb (forallb plain w) || sep1 w) (ld_known ld)
  && forallb (fun p => negb (forallb plain (fst p))) (ld_reltype ld)
  && forallb (fun p => negb (forallb plain (fst p)) || (sep1 (fst p) && match snd p with [t] => eqs t (fst p) | _ => false end)) (ld_trans ld)
  && forallb (fun c => mhas (ld_trans ld) [c]) seps.

Fixpoint numtext (A : str) (l : list (Z * str)) : str := match l with [] => A | (p, B) :: l => A ++ p :: numtext B l end.
Fixpoint numtokens (A : str) (l : list (Z * str)) : list str := match l with [] => [A] | (p, B) :: l => A :: [p] :: numtokens B l end.
Definition numbers (A : str) (l : list (Z * str)) : Prop := digits A /\ Forall (fun pb => separator (fst pb) /\ digits (snd pb)) l.
Lemma three_numtext A p B q C : three A p B q C = numtext A [(p, B); (q, C)]. Proof. reflexivity. Qed.

Lemma numbers_cons A p B l : numbers A ((p, B) :: l) -> digits A /\ separator p /\ numbers B l.
Proof. intros [HA HL]. inversion HL as [|? ? [H1 H2] H3]; subst. cbn [fst snd] in *. repeat split; auto; apply HA || apply H2. Qed.
Lemma digits_plain A : digits A -> lacks other A.
Proof. intros [_ H]. eapply Forall_impl; [|exact H]. cbv beta. intros c Hc. unfold other, plain, sepb, is_digitA. split; [lia|]. apply negb_false_iff, orb_true_iff. left. lia. Qed.
Lemma sep_plain p : separator p -> 0 <= p < 128 /\ other p = false.
Proof. intros H. split; [unfold separator in H; lia|]. unfold other, plain. apply sepb_iff in H. rewrite H. apply negb_false_iff, orb_true_r. Qed.
Lemma num_plain : forall l A, numbers A l -> lacks other (numtext A l).
Proof.
  induction l as [|[p B] l IH]; intros A HN; [apply digits_plain, HN|]. apply numbers_cons in HN as (HA & Hp & HB). cbn [numtext].
  apply Forall_app. split; [now apply digits_plain|]. constructor; [now apply sep_plain | now apply IH].
Qed.
Lemma num_asc A l : numbers A l -> asc (numtext A l).
Proof. intros H. eapply Forall_impl; [|apply num_plain, H]. cbv beta. tauto. Qed.
Lemma num_ne : forall l A, numbers A l -> numtext A l <> [].
Proof. intros [|[p B] l] A [[H _] _]; cbn [numtext]; [exact H|]. destruct A; [congruence|discriminate]. Qed.
Lemma num_head l A : numbers A l -> exists c s, numtext A l = c :: s /\ 48 <= c <= 57.
Proof.
  intros [[H1 H2] _]. destruct A as [|c A]; [congruence|]. inversion H2; subst. destruct l as [|[p B] l]; cbn [numtext app]; eauto.
Qed.
Lemma num_last : forall l A, numbers A l -> 48 <= last (numtext A l) 0 <= 57.
Proof.
  assert (D : forall A, digits A -> 48 <= last A 0 <= 57).
  { intros A [H1 H2]. clear - H1 H2. induction H2 as [|c s Hc _ IH]; [congruence|]. destruct s as [|d s]; [exact Hc|]. apply IH. discriminate. }
  induction l as [|[p B] l IH]; intros A HN; [apply D, HN|]. apply numbers_cons in HN as (HA & Hp & HB). cbn [numtext].
  specialize (IH B HB). pose proof (num_ne l B HB) as NE. clear - IH NE. revert IH NE. generalize (numtext B l). intros s IH NE.
  induction A as [|c A IHA]; [destruct s; [congruence|exact IH]|]. cbn [app]. destruct (A ++ p :: s) as [|x y] eqn:EE; [now destruct A|]. exact IHA.
Qed.

(** ** Searching in such a text *)
Lemma index_prefix : forall s w n, index s w = Some n -> has_prefix w (skipn n s) = true.
Proof.
  induction s as [|c s IH]; intros w n; cbn [index].
  - destruct (has_prefix w []) eqn:P; [|discriminate]. intros E. injection E as <-. exact P.
  - destruct (has_prefix w (c :: s)) eqn:P; [intros E; injection E as <-; exact P|]. destruct (index s w) as [m|] eqn:I; [|discriminate].
    intros E. injection E as <-. cbn [skipn]. now apply IH.
Qed.
Lemma prefix_app : forall w s, has_prefix w s = true -> exists t, s = w ++ t.
Proof.
  induction w as [|c w IH]; intros [|d s]; cbn [has_prefix]; intros H; try discriminate; try (eexists; reflexivity).
  apply andb_true_iff in H as [H1 H2]. apply Z.eqb_eq in H1 as ->. apply IH in H2 as (t & ->). now exists t.
Qed.
Lemma index_none s w : forallb plain w = false -> lacks other s -> index s w = None.
Proof.
  intros HW HS. destruct (index s w) as [n|] eqn:I; [|reflexivity]. exfalso. apply index_prefix, prefix_app in I as (t & Ht).
  pose proof (lacks_skip other n s HS) as HL. rewrite Ht in HL. apply Forall_app in HL as [HL _]. apply not_true_iff_false in HW. apply HW.
  apply forallb_forall. intros c Hc. unfold lacks in HL. rewrite Forall_forall in HL. apply HL in Hc as [_ Hc]. now apply negb_false_iff in Hc.
Qed.
(** a separator found in the text splits the list *)
Lemma num_split : forall l A n c t, numbers A l -> separator c -> skipn n (numtext A l) = c :: t ->
  exists l1 B l2, l = l1 ++ (c, B) :: l2 /\ firstn n (numtext A l) = numtext A l1 /\ t = numtext B l2 /\ (0 < n)%nat.
Proof.
  assert (AD : forall A : str, digits A -> forall n c t, separator c -> skipn n A <> c :: t).
  { intros A [_ HA] n c t Hc Hs. assert (In c A) by (rewrite <- (firstn_skipn n A), Hs; apply in_or_app; right; now left). rewrite Forall_forall in HA. apply HA in H. unfold separator in Hc. lia. }
  induction l as [|[p B] l IH]; intros A n c t HN Hc Hs.
  - exfalso. eapply AD; [apply HN | exact Hc | exact Hs].
  - apply numbers_cons in HN as (HA & Hp & HB). cbn [numtext] in *. destruct (Nat.lt_trichotomy n (length A)) as [L|[L|L]].
    + exfalso. rewrite skipn_app in Hs. replace (n - length A)%nat with 0%nat in Hs by lia. cbn [skipn] in Hs.
      destruct (skipn n A) as [|x y] eqn:ES; [apply (f_equal (@length Z)) in ES; rewrite skipn_length in ES; cbn in ES; lia|].
      cbn [app] in Hs. apply (AD A HA n c y Hc). rewrite ES. congruence.
    + subst n. rewrite skipn_app, skipn_all, Nat.sub_diag in Hs. cbn [app skipn] in Hs. assert (c = p) by congruence. assert (t = numtext B l) by congruence. subst.
      exists [], B, l. split; [reflexivity|]. rewrite firstn_app, firstn_all, Nat.sub_diag. cbn [firstn numtext]. rewrite app_nil_r. repeat split.
      destruct HA as [HA _]. destruct A; [congruence|cbn; lia].
    + rewrite skipn_app in Hs. rewrite (skipn_all2 A) in Hs by lia. destruct (n - length A)%nat as [|k] eqn:EK; [lia|]. cbn [app skipn] in Hs.
      destruct (IH B k c t HB Hc Hs) as (l1 & B' & l2 & -> & HF & -> & _). exists ((p, B) :: l1), B', l2. split; [reflexivity|].
      rewrite firstn_app, (firstn_all2 A) by lia. rewrite EK. cbn [firstn]. rewrite HF. cbn [numtext]. repeat split. lia.
Qed.
Lemma numtokens_app : forall l1 A c B l2, numtokens A (l1 ++ (c, B) :: l2) = numtokens A l1 ++ [c] :: numtokens B l2.
Proof. induction l1 as [|[p B'] l1 IH]; intros A c B l2; [reflexivity|]. cbn [app numtokens]. now rewrite IH. Qed.
Lemma numtext_app : forall l1 A c B l2, numtext A (l1 ++ (c, B) :: l2) = numtext A l1 ++ c :: numtext B l2.
Proof. induction l1 as [|[p B'] l1 IH]; intros A c B l2; [reflexivity|]. cbn [app numtext]. rewrite IH. now rewrite <- app_assoc. Qed.
Lemma numbers_app A l1 c B l2 : numbers A (l1 ++ (c, B) :: l2) -> numbers A l1 /\ separator c /\ numbers B l2.
Proof. intros [HA HL]. apply Forall_app in HL as [H1 H2]. inversion H2 as [|? ? [H3 H4] H5]; subst. repeat split; auto; apply HA || apply H4. Qed.

Lemma trim_ends c s : asc (c :: s) -> 48 <= c <= 57 -> 48 <= last (c :: s) 0 <= 57 -> trim_space (c :: s) = c :: s.
Proof.
  intros HA Hc HL. unfold trim_space, trim_func. set (t := c :: s) in *.
  assert (NS : forall x, 48 <= x <= 57 -> is_space x = false) by (intros x Hx; unfold is_space; lia).
  assert (MC : map fst (chunks t) = t) by (rewrite chunks_runes; now apply runes_asc).
  assert (D1 : drop_while (fun p => is_space (fst p)) (chunks t) = chunks t).
  { destruct (chunks t) as [|p l] eqn:EC; [reflexivity|]. cbn [drop_while]. assert (fst p = c) as -> by (cbn [map] in MC; subst t; congruence). now rewrite NS. }
  rewrite D1. assert (D2 : drop_while (fun p => is_space (fst p)) (rev (chunks t)) = rev (chunks t)).
  { destruct (rev (chunks t)) as [|p l] eqn:EC; [reflexivity|]. cbn [drop_while]. assert (ER : chunks t = rev l ++ [p]) by (rewrite <- (rev_involutive (chunks t)), EC; reflexivity).
    assert (fst p = last t 0) as ->; [|now rewrite NS]. rewrite <- MC, ER, map_app. cbn [map]. now rewrite last_app_ne. }
  rewrite D2, rev_involutive. apply unchunks_chunks.
Qed.

Section E.
Variable E : env.
Notation U := (e_uni E).
Hypothesis UA : uni_ascii U.

(** ** Splitting at digits *)
Lemma groups_run rest : forall ds cur, Forall (fun c => 48 <= c <= 57) ds -> numeral_groups E cur true (ds ++ rest) = numeral_groups E (rev ds ++ cur) true rest.
Proof.
  induction ds as [|c ds IH]; intros cur H; [reflexivity|]. inversion H; subst. cbn [app numeral_groups]. rewrite (ua_isNd _ UA) by lia. unfold is_digitA.
  assert ((48 <=? c) && (c <=? 57) = true) as -> by lia. cbn [Bool.eqb]. rewrite IH by assumption. cbn [rev]. now rewrite <- app_assoc.
Qed.
Lemma groups_num : forall l a A, numbers (a :: A) l -> numeral_groups E [a] true (match l with [] => A | (p, B) :: l' => A ++ p :: numtext B l' end) = numtokens (a :: A) l.
Proof.
  induction l as [|[p B] l IH]; intros a A HN.
  - rewrite <- (app_nil_r A) at 1. destruct HN as [[_ HA] _]. inversion HA; subst. rewrite groups_run by assumption. cbn [numeral_groups numtokens]. rewrite rev_app_distr, rev_involutive. reflexivity.
  - apply numbers_cons in HN as (HA & Hp & HB). destruct HA as [_ HA]. inversion HA; subst. rewrite groups_run by assumption. cbn [numeral_groups numtokens].
    destruct (sep_plain p Hp) as [Rp _]. rewrite (ua_isNd _ UA p Rp). assert (is_digitA p = false) as -> by (unfold separator in Hp; unfold is_digitA; lia). cbn [Bool.eqb]. rewrite rev_app_distr, rev_involutive. cbn [rev app]. f_equal.
    destruct B as [|b B]; [destruct HB as [[HB _] _]; congruence|].
    assert (NB : 48 <= b <= 57) by (destruct HB as [[_ HB] _]; now inversion HB).
    destruct (numtext (b :: B) l) as [|x y] eqn:EX; [destruct l as [|[? ?] ?]; discriminate EX|]. rewrite <- EX.
    assert (EB : numtext (b :: B) l = b :: match l with [] => B | (p, B0) :: l' => B ++ p :: numtext B0 l' end) by (destruct l as [|[? ?] ?]; reflexivity).
    rewrite EB. cbn [numeral_groups]. rewrite (ua_isNd _ UA) by lia. assert (is_digitA b = true) as -> by (unfold is_digitA; lia). cbn [Bool.eqb rev app]. f_equal. now apply IH.
Qed.
Lemma numtokens_asc : forall l A, numbers A l -> Forall asc (numtokens A l).
Proof.
  induction l as [|[p B] l IH]; intros A HN; cbn [numtokens]; [constructor; [now apply digits_asc, HN|constructor]|]. apply numbers_cons in HN as (HA & Hp & HB).
  constructor; [now apply digits_asc|]. constructor; [constructor; [apply (sep_plain p Hp)|constructor]|now apply IH].
Qed.
Lemma map_id_asc l : Forall asc l -> map encode l = l.
Proof. induction 1 as [|s l Hs _ IH]; [reflexivity|]. cbn [map]. now rewrite IH, encode_asc. Qed.

(** every token is kept *)
Lemma keep1 c t : 48 <= c <= 57 -> asc t -> ~ In 10 t -> match_string U rxKeepToken1 (c :: t) = true.
Proof.
  intros Hc Ht HN. destruct (dots U true t c 1 [] Ht HN) as [p HP]. eapply (accepts_start U).
  eapply acc_cat; [now constructor|]. eapply acc_cat; [constructor|]. eapply acc_cat; [eapply (acc_cls U _ _ _ c t); [reflexivity|lia|]|].
  - unfold cls_has. cbn [cl_neg cl_items existsb item_has]. unfold in_ranges. cbn [existsb fst snd]. rewrite Bool.xorb_true_l. lia.
  - eapply acc_cat; [exact HP|]. now constructor.
Qed.
Lemma captured_text A l keep : numbers A l -> token_captured E (numtext A l) keep = true.
Proof.
  intros HN. destruct (num_head l A HN) as (c & s & Es & Hc). pose proof (num_plain l A HN) as HP. rewrite Es in HP. unfold token_captured. rewrite Es, keep1; [now rewrite orb_true_r|exact Hc| |].
  - inversion HP as [|? ? _ H]; subst. eapply Forall_impl; [|exact H]. cbv beta. tauto.
  - intros Hi. inversion HP as [|? ? _ H]; subst. rewrite Forall_forall in H. apply H in Hi. vm_compute in Hi. intuition discriminate.
Qed.
Lemma captured_num : forall l A keep, numbers A l -> forallb (fun t => token_captured E t keep) (numtokens A l) = true.
Proof.
  assert (D : forall A keep, digits A -> token_captured E A keep = true) by (intros A keep HA; apply (captured_text A []); split; [exact HA|constructor]).
  assert (S : forall p keep, separator p -> token_captured E [p] keep = true).
  { intros p keep Hp. unfold token_captured. assert (mem [p] always_kept = true) as -> by (destruct Hp as [-> | [-> | [-> | ->]]]; reflexivity). now rewrite orb_true_r. }
  induction l as [|[p B] l IH]; intros A keep HN; cbn [numtokens forallb].
  - rewrite D; [reflexivity|apply HN].
  - apply numbers_cons in HN as (HA & Hp & HB). rewrite D, S by assumption. now apply IH.
Qed.
Lemma filter_id {X} (f : X -> bool) l : forallb f l = true -> filter f l = l.
Proof. induction l as [|x l IH]; [reflexivity|]. cbn [forallb filter]. intros H. apply andb_true_iff in H as [-> H]. now rewrite IH. Qed.
Lemma split_numerals_num A l keep : numbers A l -> split_numerals E (numtext A l) keep = numtokens A l.
Proof.
  intros HN. unfold split_numerals. rewrite runes_asc by (now apply num_asc). destruct A as [|a A]; [destruct HN as [[HN _] _]; congruence|].
  assert (EA : numtext (a :: A) l = a :: match l with [] => A | (p, B0) :: l' => A ++ p :: numtext B0 l' end) by (destruct l as [|[? ?] ?]; reflexivity).
  rewrite EA. assert (NA : 48 <= a <= 57) by (destruct HN as [[_ HA] _]; now inversion HA). rewrite (ua_isNd _ UA) by lia. assert (is_digitA a = true) as -> by (unfold is_digitA; lia).
  rewrite groups_num by assumption. rewrite map_id_asc by (now apply numtokens_asc). apply filter_id. now apply captured_num.
Qed.

(** ** Splitting at known words *)
Variable ld : locale.
Hypothesis NL : numeric_locale ld = true.
Lemma nl_facts :
  Forall (fun p => needs other (rx_ast (fst p)) = true) (ld_simpl ld) /\ Forall (fun p => needs other (rx_ast (fst p)) = true) (ld_relrx ld) /\
  (forall r, ld_rx ld = Some r -> needs other (rx_ast r) = true) /\ (forall r, ld_rx_exact ld = Some r -> needs other (rx_ast r) = true) /\
  (forall w, In w (ld_known ld) -> forallb plain w = true -> exists c, w = [c] /\ separator c) /\
  (forall w v, mget (ld_reltype ld) w = Some v -> forallb plain w = true -> False) /\
  (forall w v, mget (ld_trans ld) w = Some v -> forallb plain w = true -> (exists c, w = [c] /\ separator c) /\ v = [w]) /\
  (forall c, separator c -> exists v, mget (ld_trans ld) [c] = Some v).
Proof.
  pose proof NL as H. unfold numeric_locale in H. rewrite !andb_true_iff in H. destruct H as [[[[[[[H1 H2] H3] H4] H5] H6] H7] H8].
  assert (MG : forall X (m : smap X) w v, mget m w = Some v -> In (w, v) m).
  { intros X m w v. induction m as [|[k x] m IH]; cbn [mget]; [discriminate|]. destruct (eqs_spec w k) as [->|_]; [intros HX; injection HX as ->; now left|right; auto]. }
  assert (S1 : forall w, sep1 w = true -> exists c, w = [c] /\ separator c) by (intros [|c [|d w]]; cbn [sep1]; intros Hw; try discriminate; exists c; split; [reflexivity|now apply sepb_iff]).
  rewrite !forallb_forall in *. repeat split.
  - apply Forall_forall. exact H1.
  - apply Forall_forall. exact H2.
  - intros r Hr. now rewrite Hr in H3.
  - intros r Hr. now rewrite Hr in H4.
  - intros w Hw Pw. specialize (H5 w Hw). rewrite Pw in H5. now apply S1.
  - intros w v Hm Pw. apply MG in Hm. specialize (H6 _ Hm). cbn [fst] in H6. rewrite Pw in H6. discriminate.
  - apply MG in H. specialize (H7 _ H). cbn [fst snd] in H7. rewrite H0 in H7. cbn [negb orb] in H7. apply andb_true_iff in H7 as [H7 _]. now apply S1.
  - apply MG in H. specialize (H7 _ H). cbn [fst snd] in H7. rewrite H0 in H7. cbn [negb orb] in H7. apply andb_true_iff in H7 as [_ H7]. destruct v as [|t [|]]; try discriminate. apply eqs_eq in H7. now subst.
  - intros c Hc. specialize (H8 c). unfold mhas in H8. destruct (mget (ld_trans ld) [c]) as [v|]; [now exists v|]. assert (false = true); [|discriminate]. apply H8. unfold separator in Hc. unfold seps. cbn [In]. lia.
Qed.
Definition found (s : str) (b : nat * (str * str * str)) : Prop :=
  exists c, separator c /\ index s [c] = Some (fst b) /\ snd b = (firstn (fst b) s, [c], skipn (fst b + 1) s).
Lemma find_known_num A l : numbers A l -> forall ws best, Forall (fun w => In w (ld_known ld)) ws ->
  (forall b, best = Some b -> found (numtext A l) b) -> find_known E ld (numtext A l) ws best = None \/ exists b, found (numtext A l) b /\ find_known E ld (numtext A l) ws best = Some (snd b).
Proof.
  intros HN. destruct nl_facts as (_ & _ & _ & _ & HK & _). induction ws as [|w ws IH]; intros best HW HB; cbn [find_known].
  - destruct best as [b|]; [right; exists b; split; [now apply HB|reflexivity]|now left].
  - inversion HW; subst. destruct (index (numtext A l) w) as [n|] eqn:I; [|now apply IH]. destruct (_ || _); [|now apply IH].
    destruct (forallb plain w) eqn:PW; [|rewrite index_none in I; [discriminate|exact PW|now apply num_plain]].
    destruct (HK w) as (c & -> & Hc); [assumption|assumption|].
    assert (FN : found (numtext A l) (n, (firstn n (numtext A l), [c], skipn (n + length [c]) (numtext A l)))) by (exists c; auto).
    set (best' := match best with None => _ | Some _ => _ end).
    assert (FB : forall b, best' = Some b -> found (numtext A l) b).
    { subst best'. intros b. destruct best as [[p x]|]; [destruct (Nat.ltb n p)|]; intros HH; try (injection HH as <-; exact FN). now apply HB. }
    destruct (Nat.eqb n 0); [|now apply IH]. destruct best' as [b|]; [right; exists b; split; [now apply FB|reflexivity]|now left].
Qed.
Lemma trim_num A l : numbers A l -> trim_space (numtext A l) = numtext A l.
Proof.
  intros HN. destruct (num_head l A HN) as (c & s & Es & Hc). pose proof (num_last l A HN) as HL. pose proof (num_asc A l HN) as HA. revert HL HA. rewrite Es. clear Es HN. intros HL HA.
  apply trim_ends; assumption || lia.
Qed.
Lemma split_known_num keep : forall n l A fuel, (length l <= n)%nat -> (n < fuel)%nat -> numbers A l -> split_known E fuel ld (numtext A l) keep = numtokens A l.
Proof.
  induction n as [n IH] using lt_wf_ind. intros l A fuel HL HF HN. destruct fuel as [|f]; [lia|]. cbn [split_known].
  assert (TC : forall l A, numbers A l -> split_numerals E (numtext A l) keep = numtokens A l) by (intros; now apply split_numerals_num).
  assert (FK : find_known_word E ld (numtext A l) = None \/ exists b, found (numtext A l) b /\ find_known_word E ld (numtext A l) = Some (snd b)).
  { unfold find_known_word. rewrite trim_num by exact HN. assert (empty (numtext A l) = false) as -> by (pose proof (num_ne l A HN); now destruct (numtext A l)). apply find_known_num; [exact HN| |discriminate]. apply Forall_forall. auto. }
  destruct FK as [->|([pos x] & (c & Hc & HI & HX) & ->)].
  - rewrite captured_text by exact HN. now apply TC.
  - cbn [fst snd] in *. subst x. pose proof (index_prefix _ _ _ HI) as HP. apply prefix_app in HP as (t & Ht). cbn [app] in Ht.
    destruct (num_split l A pos c t HN Hc Ht) as (l1 & B & l2 & -> & HF1 & -> & _). rewrite HF1.
    apply numbers_app in HN as (N1 & _ & N2).
    assert (SK : skipn (pos + 1) (numtext A (l1 ++ (c, B) :: l2)) = numtext B l2) by (rewrite <- skipn_skipn, Ht; reflexivity). rewrite SK.
    assert (empty (numtext A l1) = false) as -> by (pose proof (num_ne l1 A N1); now destruct (numtext A l1)).
    assert (empty (numtext B l2) = false) as -> by (pose proof (num_ne l2 B N2); now destruct (numtext B l2)).
    rewrite captured_text by exact N1. cbn [negb andb]. rewrite TC by exact N1.
    assert (token_captured E [c] keep = true) as -> by (unfold token_captured; assert (mem [c] always_kept = true) as -> by (destruct Hc as [-> | [-> | [-> | ->]]]; reflexivity); now rewrite orb_true_r).
    rewrite app_length in HL. cbn [length] in HL. rewrite (IH (length l2)); [|lia|lia|lia|exact N2]. now rewrite numtokens_app.
Qed.

(** ** Simplification, splitting, translation *)
Lemma simplify_plain s : lacks other s -> simplify E ld s = s.
Proof.
  intros HS. destruct nl_facts as (H & _). unfold simplify. induction H as [|p l Hp _ IH]; [reflexivity|]. cbn [fold_left].
  assert (match_string U (fst p) s = false) as -> by (now apply (lacks_match other)). exact IH.
Qed.
Lemma split_plain s : lacks other s -> split s split_separator = [s].
Proof.
  intros HS. unfold split. rewrite <- (app_nil_r s) at 1. rewrite split_copy.
  - cbn [split_from]. now rewrite rev_app_distr, rev_involutive, app_nil_r || rewrite app_nil_r, rev_involutive.
  - intros a1 a2 -> NE. rewrite app_nil_r. apply Forall_app in HS as [_ HS]. destruct a2 as [|c a2]; [congruence|]. inversion HS as [|? ? [Hc Ho] _]; subst.
    change split_separator with (124 :: tl split_separator). cbn [has_prefix]. destruct (124 =? c) eqn:EC; [|reflexivity]. apply Z.eqb_eq in EC. subst c. discriminate Ho.
Qed.
Definition no_skip (skipped : list str) : Prop := Forall (fun w => exists c, In c w /\ ~ (48 <= c <= 57) /\ ~ separator c) skipped.
Lemma not_skipped skipped s : no_skip skipped -> lacks other s -> mem s skipped = false.
Proof.
  intros HK HS. destruct (mem s skipped) eqn:M; [|reflexivity]. apply mem_In in M. unfold no_skip in HK. rewrite Forall_forall in HK. destruct (HK s M) as (c & Hi & H1 & H2).
  unfold lacks in HS. rewrite Forall_forall in HS. apply HS in Hi as [_ Hi]. unfold other, plain in Hi. apply negb_false_iff, orb_true_iff in Hi as [Hi|Hi]; [unfold is_digitA in Hi; lia|]. now apply sepb_iff in Hi.
Qed.
Lemma tokens_plain : forall l A, numbers A l -> Forall (lacks other) (numtokens A l).
Proof.
  induction l as [|[p B] l IH]; intros A HN; cbn [numtokens]; [constructor; [apply digits_plain, HN|constructor]|]. apply numbers_cons in HN as (HA & Hp & HB).
  constructor; [now apply digits_plain|]. constructor; [constructor; [now apply sep_plain|constructor]|now apply IH].
Qed.
Lemma token_cases : forall l A t, numbers A l -> In t (numtokens A l) -> digits t \/ exists p, separator p /\ t = [p].
Proof.
  induction l as [|[p B] l IH]; intros A t HN; cbn [numtokens In]; [intros [<-|[]]; left; apply HN|]. apply numbers_cons in HN as (HA & Hp & HB).
  intros [<-|[<-|Hi]]; [now left|right; eauto|eauto].
Qed.
Lemma lsplit_num A l keep skipped : numbers A l -> no_skip skipped -> ~ In [] skipped -> lsplit E ld (numtext A l) keep skipped = Ok (numtokens A l).
Proof.
  intros HN HK HE. destruct nl_facts as (_ & _ & HR & HX & _). pose proof (num_plain l A HN) as HP. unfold lsplit.
  assert (S1 : match ld_rx ld with Some rx => split_with_regex E (S (length (numtext A l))) (numtext A l) rx | None => Ok (numtext A l) end = Ok (numtext A l)).
  { destruct (ld_rx ld) as [r|] eqn:ER; [|reflexivity]. cbn [split_with_regex]. rewrite (lacks_none other); auto. }
  rewrite S1. cbn [rbind]. rewrite split_plain by exact HP. cbn [flat_map].
  assert (match ld_rx_exact ld with Some rx => match_string U rx (numtext A l) | None => false end = false) as -> by (destruct (ld_rx_exact ld) as [r|] eqn:ER; [apply (lacks_match other); auto|reflexivity]).
  rewrite (split_known_num keep (length l)); [|lia| |exact HN].
  - rewrite app_nil_r. f_equal. apply filter_id. apply forallb_forall. intros t Ht. pose proof (tokens_plain l A HN) as TP. rewrite Forall_forall in TP. specialize (TP t Ht).
    pose proof (token_cases l A t HN Ht) as TCs. assert (NE : t <> []) by (destruct TCs as [[? _]|(p & _ & ->)]; [assumption|discriminate]).
    assert (empty t = false) as -> by (now destruct t). cbn [negb andb]. apply negb_true_iff.
    assert (TS : lacks other (trim_space t)). { destruct TCs as [Hd|(p & Hp & ->)]; [now rewrite trim_digits|]. destruct Hp as [-> | [-> | [-> | ->]]]; vm_compute; repeat constructor; intuition congruence. }
    destruct (trim_space t) eqn:ET; [destruct (mem [] skipped) eqn:M; [apply mem_In in M; contradiction|reflexivity]|]. rewrite <- ET in *. now apply not_skipped.
  - assert (LL : forall l A, (length l <= length (numtext A l))%nat) by (clear; induction l as [|[p B] l IH]; intros A; cbn [numtext length]; [lia|]; rewrite app_length; cbn [length]; specialize (IH B); lia). specialize (LL l A). lia.
Qed.

Lemma translate_token_num A l t keep skipped : numbers A l -> no_skip skipped -> ~ In [] skipped -> In t (numtokens A l) -> translate_token E ld skipped keep t = [t].
Proof.
  intros HN HK HE Ht. pose proof (tokens_plain l A HN) as TP. rewrite Forall_forall in TP. specialize (TP t Ht). unfold translate_token. rewrite not_skipped by assumption.
  destruct nl_facts as (_ & HR & _ & _ & _ & H6 & H7 & _).
  assert (FN : List.find (fun p => match_string U (fst p) t) (ld_relrx ld) = None).
  { clear - HR TP UA. induction HR as [|p r Hp _ IH]; [reflexivity|]. cbn [List.find]. now rewrite (lacks_match other). }
  rewrite FN. unfold translate_word.
  assert (PT : forallb plain t = true). { apply forallb_forall. intros c Hc. unfold lacks in TP. rewrite Forall_forall in TP. apply TP in Hc as [_ Hc]. now apply negb_false_iff in Hc. }
  destruct (mget (ld_reltype ld) t) as [v|] eqn:M1; [destruct (H6 _ _ M1 PT)|].
  destruct (mget (ld_trans ld) t) as [v|] eqn:M2; [|reflexivity]. destruct (H7 _ _ M2 PT) as ((c & Ec & _) & ->). rewrite Ec. reflexivity.
Qed.
Lemma create_single {X} (d : X) (l : list X) : create_permutation d (map (fun x => [x]) l) = Ok [l].
Proof.
  unfold create_permutation. assert (existsb (fun e => match e with [] => true | _ => false end) (map (fun x => [x]) l) = false) as -> by (induction l; auto).
  assert (fold_left (fun a e => (a * length e)%nat) (map (fun x => [x]) l) 1%nat = 1%nat) as -> by (induction l as [|x l IH]; [reflexivity|cbn [map fold_left length Nat.mul]; exact IH]).
  f_equal. cbn [seq map]. f_equal. induction l as [|x l IH]; [reflexivity|]. cbn [map perm_columns length]. change (Nat.div 1 1) with 1%nat. cbn [perm_column Nat.leb nth length map]. now rewrite IH.
Qed.
Lemma join_num sep A l : numbers A l -> join (numtokens A l) sep = numtext A l.
Proof.
  intros HN. assert (JF : forall l A, numbers A l -> A ++ match numtokens A l with [] => [] | t :: r => join_from t r sep end = numtext A l).
  { clear. induction l as [|[p B] l IH]; intros A HN; cbn [numtokens numtext join_from]; [apply app_nil_r|]. apply numbers_cons in HN as (HA & Hp & HB).
    assert (KP : mem [p] always_kept = true) by (destruct Hp as [-> | [-> | [-> | ->]]]; reflexivity). rewrite KP. rewrite andb_false_r. cbn [app]. f_equal. f_equal.
    specialize (IH B HB). destruct (numtokens B l) as [|t r] eqn:ET; [destruct l as [|[? ?] ?]; discriminate ET|]. assert (t = B) by (destruct l as [|[? ?] ?]; cbn [numtokens] in ET; congruence). subst t.
    cbn [join_from]. rewrite KP. cbn [negb andb app]. exact IH. }
  specialize (JF l A HN). unfold join. destruct (numtokens A l) as [|t r] eqn:ET; [destruct l as [|[? ?] ?]; discriminate ET|]. assert (t = A) by (destruct l as [|[? ?] ?]; cbn [numtokens] in ET; congruence). subst t.
  rewrite JF. apply trim_num, HN.
Qed.
Lemma finish_num keep A l : numbers A l -> finish_translation keep (numtokens A l) = numtext A l.
Proof.
  intros HN. unfold finish_translation.
  assert (IN : forall t, In t (numtokens A l) -> t <> lit "in" /\ t <> []).
  { intros t Ht. destruct (token_cases l A t HN Ht) as [[H1 H2]|(p & Hp & ->)]; split; try assumption; try discriminate. intros ->. inversion H2; lia. }
  assert (mem (lit "in") (numtokens A l) = false) as ->. { destruct (mem _ _) eqn:M; [|reflexivity]. apply mem_In in M. apply IN in M as [M _]. congruence. }
  rewrite filter_id; [now apply join_num|]. apply forallb_forall. intros t Ht. apply IN in Ht as [_ Ht]. now destruct t.
Qed.
(** normalisation *)
Lemma lower_plain s : lacks other s -> to_lower U s = s.
Proof.
  intros HS. unfold to_lower. rewrite asc_ascii by (eapply Forall_impl; [|exact HS]; cbv beta; tauto). rewrite <- (map_id s) at 2. apply map_ext_in. intros c Hc. unfold lacks in HS. rewrite Forall_forall in HS.
  apply HS in Hc as [_ Hc]. unfold other, plain, sepb, is_digitA in Hc. cbn [existsb seps] in Hc. unfold lowerA, is_upperA. destruct ((65 <=? c) && (c <=? 90)) eqn:B; [lia|reflexivity].
Qed.
Lemma num_words : forall l A, numbers A l -> exists ws, numtext A l = join_words ws /\ Forall word ws /\ Forall asc ws /\ ws <> [].
Proof.
  induction l as [|[p B] l IH]; intros A HN; cbn [numtext].
  - exists [A]. repeat split; try discriminate; constructor; auto using digits_word, digits_asc; try apply digits_word, HN; try apply digits_asc, HN.
  - apply numbers_cons in HN as (HA & Hp & HB). destruct (IH B HB) as (ws & -> & W1 & W2 & W3). destruct (Z.eq_dec p 32) as [->|NP].
    + exists (A :: ws). destruct ws as [|w ws]; [congruence|]. repeat split; try discriminate; constructor; auto using digits_word, digits_asc.
    + destruct ws as [|w ws]; [congruence|]. exists ((A ++ [p] ++ w) :: ws). inversion W1; inversion W2; subst. repeat split.
      * destruct ws; cbn [join_words]; rewrite <- ?app_assoc; reflexivity.
      * constructor; auto using word_app, digits_word, sep_word.
      * constructor; auto. apply Forall_app. split; [now apply digits_asc|]. apply Forall_app. split; [|assumption]. constructor; [apply (sep_plain p Hp)|constructor].
      * discriminate.
Qed.
Lemma sanitize_num A l : numbers A l -> sanitize_spaces (numtext A l) = numtext A l.
Proof. intros HN. destruct (num_words l A HN) as (ws & -> & W1 & W2 & _). now apply sanitize_asc. Qed.
Lemma normalize_num A l : numbers A l -> normalize_string U (numtext A l) = numtext A l.
Proof.
  intros HN. unfold normalize_string, normalize_unicode. rewrite (ua_nfkd _ UA) by (apply asc_ascii, num_asc, HN). rewrite lower_plain by (now apply num_plain). now apply sanitize_num.
Qed.
Lemma digit_normalize_ascii s : asc s -> digit_normalize U s = s.
Proof.
  intros HS. unfold digit_normalize. rewrite runes_asc by exact HS.
  assert (G : forall last, last = None \/ last = Some 0%nat -> norm_runes (u_isNd U) last s = s).
  { induction HS as [|c s Hc _ IH]; intros last HL; [reflexivity|]. cbn [norm_runes]. rewrite (ua_isNd _ UA) by lia. destruct (is_digitA c) eqn:D; cbn [negb]; [|now rewrite IH].
    assert (match last with Some (S k) => dr_apply (nth (S k) digit_ranges (0, -1)) c | _ => None end = None) as -> by (destruct HL as [-> | ->]; reflexivity).
    change digit_ranges with ((48, 57) :: tl digit_ranges). cbn [dr_first]. unfold dr_apply. cbn [fst snd]. unfold is_digitA in D. rewrite D. rewrite IH by auto. f_equal. lia. }
  rewrite G by auto. now apply encode_asc.
Qed.
Lemma normalize_token_num A l : numbers A l -> normalize_token E (numtext A l) = numtext A l.
Proof.
  intros HN. unfold normalize_token. rewrite normalize_num by exact HN. apply digit_normalize_ascii. now apply num_asc.
Qed.
Theorem translate_num cfg A l keep : numbers A l -> no_skip (c_skip cfg) -> ~ In [] (c_skip cfg) -> translate E cfg ld (numtext A l) keep = Ok [numtext A l].
Proof.
  intros HN HK HE. unfold translate. assert (SK : no_skip (skipped_tokens cfg ld) /\ ~ In [] (skipped_tokens cfg ld)).
  { unfold skipped_tokens. destruct (eqs _ _); [|auto]. split; [|intros Hi; apply filter_In in Hi; tauto]. unfold no_skip in *. rewrite Forall_forall in *. intros w Hw. apply filter_In in Hw. apply HK, Hw. }
  destruct SK as [S1 S2]. rewrite normalize_token_num by exact HN. rewrite simplify_plain by (now apply num_plain). rewrite lsplit_num by assumption. cbn [rbind].
  assert (map (translate_token E ld (skipped_tokens cfg ld) keep) (numtokens A l) = map (fun x => [x]) (numtokens A l)) as ->.
  { apply map_ext_in. intros t Ht. eapply translate_token_num; eauto. }
  rewrite create_single. cbn [rbind map]. now rewrite finish_num.
Qed.
Theorem applicable_num cfg A l : numbers A l -> no_skip (c_skip cfg) -> ~ In [] (c_skip cfg) -> is_applicable E cfg ld (numtext A l) false = Ok true.
Proof.
  intros HN HK HE. unfold is_applicable. assert (SK : no_skip (skipped_tokens cfg ld) /\ ~ In [] (skipped_tokens cfg ld)).
  { unfold skipped_tokens. destruct (eqs _ _); [|auto]. split; [|intros Hi; apply filter_In in Hi; tauto]. unfold no_skip in *. rewrite Forall_forall in *. intros w Hw. apply filter_In in Hw. apply HK, Hw. }
  destruct SK as [S1 S2]. rewrite normalize_token_num by exact HN. rewrite simplify_plain by (now apply num_plain). rewrite lsplit_num by assumption. cbn [rbind].
  assert (forallb (fun t => mem t always_kept) (numtokens A l) = false) as ->.
  { apply not_true_iff_false. rewrite forallb_forall. intros H. specialize (H A). assert (IA : In A (numtokens A l)) by (destruct l as [|[? ?] ?]; now left). apply H, mem_In in IA.
    destruct HN as [[NA DA] _]. destruct A as [|a A]; [congruence|]. inversion DA; subst. unfold always_kept in IA. cbn [In] in IA. repeat (destruct IA as [IA|IA]; [injection IA as <- _; lia|]). destruct IA. }
  f_equal. apply forallb_forall. intros t Ht. unfold token_known. destruct (token_cases l A t HN Ht) as [HD|(p & Hp & ->)].
  - assert (is_number_only U t = true) as ->; [|reflexivity]. unfold is_number_only. rewrite runes_asc by (now apply digits_asc). apply forallb_forall. intros c Hc. destruct HD as [_ HD]. rewrite Forall_forall in HD. apply HD in Hc.
    rewrite (ua_isNd _ UA) by lia. unfold is_digitA. lia.
  - destruct nl_facts as (_ & _ & _ & _ & _ & _ & _ & H8). destruct (H8 p Hp) as (v & Hv). unfold in_dictionary, translate_word. destruct (mget (ld_reltype ld) [p]); [now rewrite orb_true_r|]. rewrite Hv. now rewrite orb_true_r.
Qed.
End E.
