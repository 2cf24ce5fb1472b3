(** Renaming the digits of an ASCII text: splitting and translating it does the same with the renamed text, provided that the tables of the
    locale do not distinguish digits. So what the translation does with one text of distinct digits shows what it does with all texts of that shape. *)
From Coq Require Import ZifyBool.
From Verif Require Import GoBase SMap Regex RegexFacts RegexFacts2 RegexFacts3 GoTime Setting Strutil Digit Utf8Facts SpaceFacts Timezone Env Language Parser AbsFacts2 NumericFacts NumTranslate RegexWiden.

(** an environment with the least Unicode tables, for computing *)
Definition emin : env := {| e_now := zero_time; e_local := utc; e_uni := uni_min; e_tz := []; e_wd_first := false |}.
Lemma min_ascii : uni_ascii uni_min.
Proof. constructor; cbn; intros; try reflexivity; try lia. unfold lowerA, is_upperA. destruct (_ && _) eqn:B; lia. Qed.

(** [f] renames digits *)
Definition renames (f : Z -> Z) : Prop := forall c, 0 <= c < 128 -> if is_digitA c then is_digitA (f c) = true else f c = c.
Definition no_digit (s : str) : bool := forallb (fun c => negb (is_digitA c)) s.

(** a locale whose tables do not distinguish digits *)
Definition respectso (o : option regex) : bool := match o with Some r => respects dig0 (rx_ast r) | None => true end.
Definition blind (ld : locale) : bool :=
  forallb no_digit (ld_known ld) && forallb (fun p => no_digit (fst p)) (ld_trans ld) && forallb (fun p => no_digit (fst p)) (ld_reltype ld) &&
  forallb (fun p => forallb (fun v => ascb v && no_digit v) (snd p)) (ld_trans ld) &&
  respectso (ld_rx ld) && respectso (ld_rx_exact ld) &&
  forallb (fun p => respects dig0 (rx_ast (widened dig0 (fst p)))) (ld_simpl ld) && forallb (fun p => respects dig0 (rx_ast (fst p))) (ld_relrx ld).

Section R.
Variable f : Z -> Z.
Hypothesis RF : renames f.
Lemma ren_ascii c : 0 <= c < 128 -> 0 <= f c < 128.
Proof. intros H. specialize (RF c H). destruct (is_digitA c) eqn:D; [unfold is_digitA in RF; lia|lia]. Qed.
Lemma ren_digit c : 0 <= c < 128 -> is_digitA (f c) = is_digitA c.
Proof. intros H. specialize (RF c H). destruct (is_digitA c) eqn:D; [exact RF|now rewrite RF]. Qed.
Lemma ren_other c : 0 <= c < 128 -> is_digitA c = false -> f c = c.
Proof. intros H D. specialize (RF c H). now rewrite D in RF. Qed.
Lemma ren_eqb c k : 0 <= c < 128 -> is_digitA k = false -> (f c =? k) = (c =? k).
Proof. intros H D. specialize (RF c H). destruct (is_digitA c) eqn:DC; [|now rewrite RF]. transitivity false; [|symmetry]; apply Z.eqb_neq; intros EQ; subst; congruence. Qed.
Lemma ren_dig0 c : 0 <= c < 128 -> dig0 (f c) = dig0 c.
Proof. intros H. unfold dig0. rewrite (ren_digit c H). destruct (is_digitA c) eqn:D; [reflexivity|now apply ren_other]. Qed.
Lemma ren_asc s : asc s -> asc (map f s).
Proof. intros H. unfold asc in *. rewrite Forall_forall in *. intros c Hc. apply in_map_iff in Hc as (x & <- & Hx). apply ren_ascii. auto. Qed.
Lemma ren_dig0s s : asc s -> map dig0 (map f s) = map dig0 s.
Proof. intros H. rewrite map_map. apply map_ext_in. intros c Hc. unfold asc in H. rewrite Forall_forall in H. apply ren_dig0. auto. Qed.
Lemma ren_none s : asc s -> no_digit s = true -> map f s = s.
Proof. intros H D. rewrite <- (map_id s) at 2. apply map_ext_in. intros c Hc. unfold asc in H. rewrite Forall_forall in H. unfold no_digit in D. rewrite forallb_forall in D. apply ren_other; [auto|]. apply D in Hc. destruct (is_digitA c); [discriminate Hc|reflexivity]. Qed.

(** texts without digits are told apart from the renamed text as from the text *)
Lemma ren_prefix w : no_digit w = true -> forall s, asc s -> has_prefix w (map f s) = has_prefix w s.
Proof.
  intros HW. unfold no_digit in HW. induction w as [|x w IH]; intros s HS; [reflexivity|]. cbn [forallb] in HW. apply andb_true_iff in HW as [HX HW]. destruct s as [|c s]; [reflexivity|]. inversion HS; subst. cbn [map has_prefix].
  rewrite IH by assumption. rewrite (Z.eqb_sym x (f c)), (Z.eqb_sym x c), ren_eqb; [reflexivity|assumption|]. now destruct (is_digitA x).
Qed.
Lemma ren_index w : no_digit w = true -> forall s, asc s -> index (map f s) w = index s w.
Proof.
  intros HW. induction s as [|c s IH]; intros HS; cbn [index]; [reflexivity|]. change (map f (c :: s)) with (f c :: map f s). cbn [index]. change (f c :: map f s) with (map f (c :: s)). rewrite ren_prefix by assumption. inversion HS; subst. now rewrite IH.
Qed.
Lemma ren_eqs w : no_digit w = true -> forall s, asc s -> eqs (map f s) w = eqs s w.
Proof.
  intros HW s. unfold no_digit in HW. revert w HW. induction s as [|c s IH]; intros [|x w] HW HS; try reflexivity. cbn [forallb] in HW. apply andb_true_iff in HW as [HX HW]. inversion HS; subst. cbn [map eqs]. rewrite IH by assumption. rewrite ren_eqb; [reflexivity|assumption|]. now destruct (is_digitA x).
Qed.
Lemma ren_mem l s : forallb no_digit l = true -> asc s -> mem (map f s) l = mem s l.
Proof.
  intros HL HS. unfold mem. induction l as [|w l IH]; [reflexivity|]. cbn [existsb forallb] in *. apply andb_true_iff in HL as [H1 H2]. rewrite IH by exact H2. now rewrite ren_eqs.
Qed.
Lemma ren_mget {A} (m : smap A) s : forallb (fun p => no_digit (fst p)) m = true -> asc s -> mget m (map f s) = mget m s.
Proof.
  intros HM HS. induction m as [|[k v] m IH]; [reflexivity|]. cbn [forallb fst mget] in *. apply andb_true_iff in HM as [H1 H2]. rewrite ren_eqs by assumption. now rewrite IH.
Qed.
Lemma ren_slice s a b : slice (map f s) a b = map f (slice s a b).
Proof. unfold slice. now rewrite skipn_map, firstn_map. Qed.
Lemma ren_empty s : empty (map f s) = empty s.
Proof. now destruct s. Qed.

(** white space *)
Lemma ren_space c : 0 <= c < 128 -> is_space (f c) = is_space c.
Proof. intros H. specialize (RF c H). destruct (is_digitA c) eqn:D; [|now rewrite RF]. unfold is_digitA in *. unfold is_space. transitivity false; [|symmetry]; lia. Qed.
Lemma chunks_asc s : asc s -> chunks s = map (fun c => (c, [c])) s.
Proof.
  unfold chunks. induction 1 as [|c s Hc HS IH]; [reflexivity|]. rewrite decode_unfold by discriminate. rewrite (rune1 c s) by lia. cbn [snd skipn]. cbn [chunks_from firstn skipn map]. now rewrite IH.
Qed.
Lemma trim_asc s : asc s -> trim_space s = rev (drop_while is_space (rev (drop_while is_space s))).
Proof.
  intros HS. unfold trim_space, trim_func. rewrite chunks_asc by exact HS.
  assert (DW : forall l : str, drop_while (fun p : Z * str => is_space (fst p)) (map (fun c => (c, [c])) l) = map (fun c => (c, [c])) (drop_while is_space l)).
  { induction l as [|c l IH]; [reflexivity|]. cbn [map drop_while fst]. destruct (is_space c); [exact IH|reflexivity]. }
  rewrite DW, <- map_rev, DW, <- map_rev. unfold unchunks. generalize (rev (drop_while is_space (rev (drop_while is_space s)))). induction l as [|c l IH]; [reflexivity|]. cbn [map flat_map snd app]. now rewrite IH.
Qed.
Lemma drop_asc g s : asc s -> asc (drop_while g s).
Proof. induction 1; cbn [drop_while]; [constructor|]. destruct (g x); [assumption|constructor; assumption]. Qed.
Lemma ren_drop s : asc s -> drop_while is_space (map f s) = map f (drop_while is_space s).
Proof. induction 1 as [|c s Hc HS IH]; [reflexivity|]. cbn [map drop_while]. rewrite ren_space by exact Hc. destruct (is_space c); [exact IH|reflexivity]. Qed.
Lemma asc_rev s : asc s -> asc (rev s).
Proof. unfold asc. rewrite !Forall_forall. intros H c Hc. apply H. now apply in_rev. Qed.
Lemma trim_is_asc s : asc s -> asc (trim_space s).
Proof. intros H. rewrite trim_asc by exact H. auto using asc_rev, drop_asc. Qed.
Lemma ren_trim s : asc s -> trim_space (map f s) = map f (trim_space s).
Proof. intros H. rewrite (trim_asc s H), (trim_asc (map f s)) by now apply ren_asc. rewrite ren_drop by exact H. rewrite <- map_rev, ren_drop, <- map_rev; [reflexivity|auto using asc_rev, drop_asc]. Qed.

(** splitting at a separator *)
Lemma ren_split_from sep : no_digit sep = true -> forall s k acc, asc s -> split_from k (map f acc) (map f s) sep = map (map f) (split_from k acc s sep).
Proof.
  intros HS. induction s as [|c s IH]; intros k acc HA.
  - cbn [split_from map]. now rewrite map_rev.
  - inversion HA; subst. cbn [map]. cbn [split_from]. destruct k as [|k]; [|now apply IH]. change (f c :: map f s) with (map f (c :: s)). rewrite ren_prefix by assumption. destruct (has_prefix sep (c :: s)).
    + cbn [map]. rewrite map_rev. f_equal. now apply (IH _ []).
    + change (f c :: map f acc) with (map f (c :: acc)). now apply IH.
Qed.
Lemma ren_split sep s : no_digit sep = true -> asc s -> split (map f s) sep = map (map f) (split s sep).
Proof. intros H1 H2. now apply (ren_split_from sep H1 s 0%nat []). Qed.
Lemma split_from_asc sep : forall s k acc, asc s -> asc acc -> Forall asc (split_from k acc s sep).
Proof.
  induction s as [|c s IH]; intros k acc HS HA; cbn [split_from]; [constructor; [now apply asc_rev|constructor]|]. inversion HS; subst. destruct k; [|now apply IH]. destruct (has_prefix sep (c :: s)); [constructor; [now apply asc_rev|]; apply IH; [assumption|constructor]|]. apply IH; [assumption|now constructor].
Qed.
Lemma split_asc s sep : asc s -> Forall asc (split s sep).
Proof. intros H. apply split_from_asc; [exact H|constructor]. Qed.

(** ** regular expressions that do not distinguish digits *)
Variable E : env.
Hypothesis UA : uni_ascii (e_uni E).
Notation U := (e_uni E).
Lemma ren_find r s : respects dig0 (rx_ast r) = true -> asc s -> Regex.find U r (map f s) = Regex.find uni_min r s.
Proof.
  intros HR HS. rewrite (find_norm dig0 U UA dig0_ok) by (auto using ren_asc). rewrite ren_dig0s by exact HS. symmetry. now apply (find_norm dig0 uni_min min_ascii dig0_ok).
Qed.
Lemma ren_match r s : respects dig0 (rx_ast r) = true -> asc s -> match_string U r (map f s) = match_string uni_min r s.
Proof. intros HR HS. unfold match_string. now rewrite ren_find. Qed.
Lemma asc_firstn n s : asc s -> asc (firstn n s).
Proof. intros H. rewrite <- (firstn_skipn n s) in H. now apply asc_app in H. Qed.
Lemma asc_skipn n s : asc s -> asc (skipn n s).
Proof. intros H. rewrite <- (firstn_skipn n s) in H. now apply asc_app in H. Qed.
Lemma asc_slice s a b : asc s -> asc (slice s a b).
Proof. intros H. unfold slice. now apply asc_firstn, asc_skipn. Qed.

(** ** Splitting *)
Definition rres {A B} (g : A -> B) (r : res A) : res B := match r with Ok x => Ok (g x) | Err e => Err e | Panic => Panic end.
Lemma rres_bind {A B C} (g : B -> C) (r : res A) (k : A -> res B) : rres g (rbind r k) = rbind r (fun x => rres g (k x)).
Proof. destruct r; reflexivity. Qed.
Lemma ren_sub s m i : sub_or_panic (map f s) m i = rres (map f) (sub_or_panic s m i).
Proof. unfold sub_or_panic. destruct (cap m i) as [[a b]|]; [|reflexivity]. cbn [rres]. now rewrite ren_slice. Qed.
Lemma sep_same : map f split_separator = split_separator.
Proof. apply ren_none; [apply ascb_asc; reflexivity|reflexivity]. Qed.
Lemma sep_asc : asc split_separator. Proof. apply ascb_asc. reflexivity. Qed.
Lemma ren_split_rx rx : respects dig0 (rx_ast rx) = true -> forall n s, asc s -> split_with_regex E n (map f s) rx = rres (map f) (split_with_regex emin n s rx).
Proof.
  intros HR. induction n as [|n IH]; intros s HS; cbn [split_with_regex]; [reflexivity|]. rewrite ren_find by assumption. change (e_uni emin) with uni_min. destruct (Regex.find uni_min rx s) as [m|]; [|reflexivity].
  rewrite !ren_sub.
  rewrite skipn_map, firstn_map, ren_slice, (IH (skipn _ s)) by now apply asc_skipn.
  destruct (Nat.eqb (rx_ngroups rx) 1); [|destruct (Nat.eqb (rx_ngroups rx) 3)].
  - destruct (sub_or_panic s m 1) as [g1|e|]; cbn [rres rbind]; try reflexivity. destruct (split_with_regex emin n _ rx) as [x|e|]; cbn [rres rbind]; try reflexivity. f_equal. rewrite !map_app. now rewrite sep_same.
  - destruct (sub_or_panic s m 1) as [g1|e|]; cbn [rres rbind]; try reflexivity. destruct (sub_or_panic s m 2) as [g2|e|]; cbn [rres rbind]; try reflexivity. destruct (sub_or_panic s m 3) as [g3|e|]; cbn [rres rbind]; try reflexivity.
    destruct (split_with_regex emin n _ rx) as [x|e|]; cbn [rres rbind]; try reflexivity. f_equal. rewrite !map_app. now rewrite sep_same.
  - cbn [rbind]. destruct (split_with_regex emin n _ rx) as [x|e|]; cbn [rres rbind]; try reflexivity. f_equal. rewrite !map_app. now rewrite sep_same.
Qed.
Lemma split_rx_asc rx : forall n s x, asc s -> split_with_regex emin n s rx = Ok x -> asc x.
Proof.
  induction n as [|n IH]; intros s x HS; cbn [split_with_regex]; [intros H; assert (x = s) by congruence; now subst|]. destruct (Regex.find _ rx s) as [m|]; [|intros H; assert (x = s) by congruence; now subst].
  assert (SB : forall i g, sub_or_panic s m i = Ok g -> asc g) by (intros i g; unfold sub_or_panic; destruct (cap m i) as [[a b]|]; [|discriminate]; intros H; assert (g = slice s a b) by congruence; subst; now apply asc_slice).
  pose proof sep_asc as SA. pose proof (asc_firstn (mt_start m) s HS) as FA. pose proof (asc_slice s (mt_start m) (mt_end m) HS) as MA.
  destruct (split_with_regex emin n (skipn (mt_end m) s) rx) as [y|e|] eqn:RS.
  - apply IH in RS; [|now apply asc_skipn].
    destruct (Nat.eqb (rx_ngroups rx) 1); [|destruct (Nat.eqb (rx_ngroups rx) 3)].
    + destruct (sub_or_panic s m 1) as [g1|e|] eqn:G1; cbn [rbind]; try discriminate. apply SB in G1. intros H. assert (x = firstn (mt_start m) s ++ (split_separator ++ g1 ++ split_separator) ++ y) as -> by congruence. rewrite !asc_app. auto.
    + destruct (sub_or_panic s m 1) as [g1|e|] eqn:G1; cbn [rbind]; try discriminate. destruct (sub_or_panic s m 2) as [g2|e|] eqn:G2; cbn [rbind]; try discriminate. destruct (sub_or_panic s m 3) as [g3|e|] eqn:G3; cbn [rbind]; try discriminate.
      apply SB in G1, G2, G3. intros H. assert (x = firstn (mt_start m) s ++ (g1 ++ split_separator ++ g2 ++ split_separator ++ g3) ++ y) as -> by congruence. rewrite !asc_app. auto 10.
    + cbn [rbind]. intros H. assert (x = firstn (mt_start m) s ++ (split_separator ++ slice s (mt_start m) (mt_end m) ++ split_separator) ++ y) as -> by congruence. rewrite !asc_app. auto.
  - destruct (if Nat.eqb (rx_ngroups rx) 1 then _ else _); cbn [rbind]; discriminate.
  - destruct (if Nat.eqb (rx_ngroups rx) 1 then _ else _); cbn [rbind]; discriminate.
Qed.

Lemma keep1_ok : respects dig0 (rx_ast rxKeepToken1) = true. Proof. vm_compute. reflexivity. Qed.
Lemma keep2_ok : respects dig0 (rx_ast rxKeepToken2) = true. Proof. vm_compute. reflexivity. Qed.
Lemma ren_captured t k : asc t -> token_captured E (map f t) k = token_captured emin t k.
Proof.
  intros HT. unfold token_captured. rewrite ren_mem by (reflexivity || exact HT). rewrite (ren_match _ _ keep1_ok HT), (ren_match _ _ keep2_ok HT). reflexivity.
Qed.
Lemma ren_Nd c : 0 <= c < 128 -> u_isNd U (f c) = is_digitA c.
Proof. intros H. rewrite (ua_isNd _ UA) by now apply ren_ascii. now apply ren_digit. Qed.
Lemma ren_groups : forall s cur d, asc s -> numeral_groups E (map f cur) d (map f s) = map (map f) (numeral_groups emin cur d s).
Proof.
  induction s as [|c s IH]; intros cur d HS; cbn [numeral_groups map]; [now rewrite map_rev|]. inversion HS; subst. rewrite ren_Nd by assumption. change (u_isNd (e_uni emin) c) with (is_digitA c). destruct (Bool.eqb (is_digitA c) d).
  - change (f c :: map f cur) with (map f (c :: cur)). now apply IH.
  - cbn [map]. rewrite map_rev. f_equal. now apply (IH [c]).
Qed.
Lemma groups_asc : forall s cur d, asc s -> asc cur -> Forall asc (numeral_groups emin cur d s).
Proof.
  induction s as [|c s IH]; intros cur d HS HC; cbn [numeral_groups]; [constructor; [now apply asc_rev|constructor]|]. inversion HS; subst. destruct (Bool.eqb _ _); [apply IH; [assumption|now constructor]|]. constructor; [now apply asc_rev|]. apply IH; [assumption|]. constructor; [assumption|constructor].
Qed.
Lemma filter_map_in {A B} (g : A -> B) (p : B -> bool) (q : A -> bool) l : (forall x, In x l -> p (g x) = q x) -> filter p (map g l) = map g (filter q l).
Proof. induction l as [|x l IH]; intros H; [reflexivity|]. cbn [map filter]. rewrite H by now left. rewrite IH by (intros; apply H; now right). destruct (q x); reflexivity. Qed.
Lemma ren_numerals s k : asc s -> split_numerals E (map f s) k = map (map f) (split_numerals emin s k) /\ Forall asc (split_numerals emin s k).
Proof.
  intros HS. unfold split_numerals. rewrite (runes_asc s HS), (runes_asc (map f s)) by now apply ren_asc.
  set (g := match s with [] => [[]] | r :: rs => numeral_groups emin [r] (u_isNd (e_uni emin) r) rs end).
  assert (GA : Forall asc g) by (unfold g; destruct s as [|r rs]; [repeat constructor|]; inversion HS; subst; apply groups_asc; [assumption|constructor; [assumption|constructor]]).
  assert (GM : (match map f s with [] => [[]] | r :: rs => numeral_groups E [r] (u_isNd U r) rs end) = map (map f) g).
  { unfold g. destruct s as [|r rs]; [reflexivity|]. inversion HS; subst. cbn [map]. rewrite ren_Nd by assumption. now apply (ren_groups rs [r]). }
  rewrite GM. assert (EN : map encode (map (map f) g) = map (map f) (map encode g)).
  { rewrite !map_map. apply map_ext_in. intros x Hx. rewrite Forall_forall in GA. apply GA in Hx. rewrite (encode_asc x Hx). apply encode_asc. now apply ren_asc. }
  assert (E2 : map encode g = g) by (rewrite <- (map_id g) at 2; apply map_ext_in; intros x Hx; rewrite Forall_forall in GA; apply encode_asc; auto).
  rewrite EN, E2. split.
  - apply filter_map_in. intros x Hx. apply ren_captured. rewrite Forall_forall in GA. auto.
  - apply Forall_forall. intros x Hx. apply filter_In in Hx as [Hx _]. rewrite Forall_forall in GA. auto.
Qed.

Lemma ren_letter c : 0 <= c < 128 -> is_alphaA (f c) = is_alphaA c.
Proof. intros H. specialize (RF c H). destruct (is_digitA c) eqn:D; [|now rewrite RF]. unfold is_digitA in *. unfold is_alphaA, is_upperA, is_lowerA. transitivity false; [|symmetry]; lia. Qed.
Lemma ren_last s d : asc s -> s <> [] -> last (map f s) d = f (last s d).
Proof. intros HS. induction HS as [|c s Hc HS IH]; [congruence|]. intros _. destruct s as [|c2 s]; [reflexivity|]. change (last (c :: c2 :: s) d) with (last (c2 :: s) d). rewrite <- IH by discriminate. reflexivity. Qed.
Lemma last_in (s : str) d : s <> [] -> In (last s d) s.
Proof. induction s as [|c s IH]; [congruence|]. intros _. destruct s as [|c2 s]; [now left|]. right. apply IH. discriminate. Qed.
Lemma ren_neighbor s b : asc s -> neighbor_ok E (map f s) b = neighbor_ok emin s b.
Proof.
  intros HS. unfold neighbor_ok. destruct s as [|c s]; [reflexivity|]. set (w := c :: s) in *. assert (NW : w <> []) by discriminate.
  change (match map f w with [] => true | _ :: _ => let r := if b then last_rune (map f w) else fst (decode_rune (map f w)) in (r =? 95) || u_isN U r || negb (u_isL U r || u_isM U r || u_isN U r) end = (let r := if b then last_rune w else fst (decode_rune w) in (r =? 95) || u_isN uni_min r || negb (u_isL uni_min r || u_isM uni_min r || u_isN uni_min r))).
  assert (exists r, 0 <= r < 128 /\ (if b then last_rune w else fst (decode_rune w)) = r /\ (if b then last_rune (map f w) else fst (decode_rune (map f w))) = f r) as (r & Hr & E1 & E2).
  { destruct b.
    - exists (last w rune_error). unfold last_rune. rewrite (runes_asc w HS), (runes_asc (map f w)) by now apply ren_asc. split; [|split; [reflexivity|now apply ren_last]]. apply (last_in w rune_error) in NW. unfold asc in HS. rewrite Forall_forall in HS. auto.
    - exists c. inversion HS; subst. unfold w. cbn [map]. pose proof (ren_ascii c) as RA. rewrite (rune1 c s), (rune1 (f c) (map f s)) by lia. auto. }
  rewrite E1. replace (map f w) with (f c :: map f s) by reflexivity. cbv iota. change (f c :: map f s) with (map f w). rewrite E2. cbv zeta. cbn [uni_min u_isL u_isM u_isN].
  rewrite (ua_isL _ UA), (ua_isM _ UA), (ua_isN _ UA) by now apply ren_ascii. rewrite ren_letter, ren_digit by exact Hr. rewrite ren_eqb by (exact Hr || reflexivity). reflexivity.
Qed.

Variable ld : locale.
Hypothesis BL : blind ld = true.
Lemma blind_facts : forallb no_digit (ld_known ld) = true /\ forallb (fun p => no_digit (fst p)) (ld_trans ld) = true /\ forallb (fun p => no_digit (fst p)) (ld_reltype ld) = true /\
  forallb (fun p => forallb (fun v => ascb v && no_digit v) (snd p)) (ld_trans ld) = true /\
  (forall rx, ld_rx ld = Some rx -> respects dig0 (rx_ast rx) = true) /\ (forall rx, ld_rx_exact ld = Some rx -> respects dig0 (rx_ast rx) = true) /\
  forallb (fun p => respects dig0 (rx_ast (widened dig0 (fst p)))) (ld_simpl ld) = true /\ forallb (fun p => respects dig0 (rx_ast (fst p))) (ld_relrx ld) = true.
Proof.
  pose proof BL as B. unfold blind, respectso in B. rewrite !andb_true_iff in B. destruct B as [[[[[[[B1 B2] B3] B4] B5] B6] B7] B8]. repeat split; try assumption; intros rx HE; rewrite HE in *; assumption.
Qed.
Lemma KN : forallb no_digit (ld_known ld) = true.
Proof. exact (proj1 blind_facts). Qed.
Definition tri (p : str * str * str) : str * str * str := let '(a, w, b) := p in (map f a, w, map f b).
Definition ptri (p : nat * (str * str * str)) := (fst p, tri (snd p)).
Lemma ren_known s : asc s -> forall ws best, forallb no_digit ws = true -> find_known E ld (map f s) ws (option_map ptri best) = option_map tri (find_known emin ld s ws best).
Proof.
  intros HS. induction ws as [|w ws IH]; intros best HW; cbn [find_known].
  - destruct best as [[n p]|]; reflexivity.
  - cbn [forallb] in HW. apply andb_true_iff in HW as [H1 H2]. rewrite ren_index by assumption. destruct (index s w) as [pos|]; [|now apply IH].
    cbv zeta. rewrite firstn_map, skipn_map. rewrite !ren_neighbor by (auto using asc_firstn, asc_skipn).
    destruct (ld_nospacing ld || (neighbor_ok emin (firstn pos s) true && neighbor_ok emin (skipn (pos + length w) s) false)); [|now apply IH].
    set (b' := match best with None => Some (pos, (firstn pos s, w, skipn (pos + length w) s)) | Some (p, _) => if Nat.ltb pos p then Some (pos, (firstn pos s, w, skipn (pos + length w) s)) else best end).
    assert (EB : match option_map ptri best with None => Some (pos, (map f (firstn pos s), w, map f (skipn (pos + length w) s))) | Some (p, _) => if Nat.ltb pos p then Some (pos, (map f (firstn pos s), w, map f (skipn (pos + length w) s))) else option_map ptri best end = option_map ptri b').
    { unfold b'. destruct best as [[p q]|]; cbn [option_map ptri fst snd]; [|reflexivity]. destruct (Nat.ltb pos p); reflexivity. }
    rewrite EB. destruct (Nat.eqb pos 0); [destruct b' as [[n p]|]; reflexivity|now apply IH].
Qed.
Lemma known_asc s : asc s -> forall ws best p, find_known emin ld s ws best = Some p -> (forall q, best = Some q -> asc (fst (fst (snd q))) /\ asc (snd (snd q)) /\ asc (snd (fst (snd q))) /\ In (snd (fst (snd q))) (ld_known ld)) -> (forall w, In w ws -> In w (ld_known ld)) -> asc (fst (fst p)) /\ asc (snd p) /\ asc (snd (fst p)) /\ In (snd (fst p)) (ld_known ld).
Proof.
  intros HS. induction ws as [|w ws IH]; intros best p H HB HW; cbn [find_known] in H.
  - destruct best as [[n q]|]; [|discriminate H]. cbn [option_map snd] in H. assert (q = p) by congruence. subst. now apply (HB (n, p)).
  - assert (HW' : forall w, In w ws -> In w (ld_known ld)) by (intros; apply HW; now right). destruct (index s w) as [pos|] eqn:IX; [|now apply (IH best)]. cbv zeta in H. destruct (ld_nospacing ld || _); [|now apply (IH best)].
    set (b' := match best with None => _ | Some _ => _ end) in H.
    assert (HB' : forall q, b' = Some q -> asc (fst (fst (snd q))) /\ asc (snd (snd q)) /\ asc (snd (fst (snd q))) /\ In (snd (fst (snd q))) (ld_known ld)).
    { intros q Hq. unfold b' in Hq. assert (HN : q = (pos, (firstn pos s, w, skipn (pos + length w) s)) -> asc (fst (fst (snd q))) /\ asc (snd (snd q)) /\ asc (snd (fst (snd q))) /\ In (snd (fst (snd q))) (ld_known ld)) by (intros ->; cbn [fst snd]; split; [now apply asc_firstn|split; [now apply asc_skipn|split; [|apply HW; now left]]]; apply index_prefix, prefix_app in IX as (t & IX); apply (asc_skipn pos) in HS; rewrite IX in HS; now apply asc_app in HS).
      destruct best as [[p0 q0]|]; [|apply HN; congruence]. destruct (Nat.ltb pos p0); [apply HN; congruence|now apply HB]. }
    clearbody b'. destruct (Nat.eqb pos 0); [|now apply (IH b')]. destruct b' as [[n q]|]; [|discriminate H]. cbn [option_map snd] in H. assert (q = p) by congruence. subst. now apply (HB' (n, p)).
Qed.
Lemma ren_known_word s : asc s -> find_known_word E ld (map f s) = option_map tri (find_known_word emin ld s).
Proof.
  intros HS. unfold find_known_word. rewrite ren_trim by exact HS. rewrite ren_empty. destruct (empty (trim_space s)); [reflexivity|]. apply (ren_known s HS (ld_known ld) None), KN.
Qed.
Lemma ren_split_known k : forall n s, asc s -> split_known E n ld (map f s) k = map (map f) (split_known emin n ld s k) /\ Forall asc (split_known emin n ld s k).
Proof.
  induction n as [|n IH]; intros s HS; cbn [split_known]; [split; [reflexivity|constructor]|]. rewrite ren_known_word by exact HS.
  destruct (find_known_word emin ld s) as [[[a w] b]|] eqn:FK; cbn [option_map tri].
  - assert (HP : asc a /\ asc b /\ asc w /\ In w (ld_known ld)).
    { unfold find_known_word in FK. destruct (empty (trim_space s)); [discriminate FK|]. apply (known_asc s HS (ld_known ld) None (a, w, b) FK); [discriminate|auto]. }
    destruct HP as (HA & HB & AW & HW). assert (FW : map f w = w).
    { pose proof KN as K2. rewrite forallb_forall in K2. apply ren_none; auto. }
    destruct (ren_numerals a k HA) as [N1 N2]. destruct (IH b HB) as [I1 I2]. rewrite !ren_empty, ren_captured by exact HA. rewrite <- FW at 1. rewrite ren_captured by exact AW. rewrite N1, I1. split.
    + rewrite !map_app. f_equal; [destruct (negb (empty a) && token_captured emin a k); reflexivity|]. f_equal; [destruct (token_captured emin w k); cbn [map]; [now rewrite FW|reflexivity]|]. destruct (empty b); reflexivity.
    + apply Forall_app. split; [destruct (negb (empty a) && token_captured emin a k); [exact N2|constructor]|].
      apply Forall_app. split; [destruct (token_captured emin w k); [constructor; [exact AW|constructor]|constructor]|]. destruct (empty b); [constructor|exact I2].
  - rewrite ren_captured by exact HS. destruct (ren_numerals s k HS) as [N1 N2]. destruct (token_captured emin s k); [auto|split; [reflexivity|constructor]].
Qed.

Lemma ren_exact t : asc t -> match ld_rx_exact ld with Some rx => match_string U rx (map f t) | None => false end = match ld_rx_exact ld with Some rx => match_string uni_min rx t | None => false end.
Proof. intros HT. pose proof blind_facts as (_ & _ & _ & _ & _ & B & _). destruct (ld_rx_exact ld) as [rx|]; [|reflexivity]. apply ren_match; [now apply B|exact HT]. Qed.
Lemma ren_flat {A B C D} (g : A -> B) (h : C -> D) (p : B -> list D) (q : A -> list C) l : (forall x, In x l -> p (g x) = map h (q x)) -> flat_map p (map g l) = map h (flat_map q l).
Proof. induction l as [|x l IH]; intros H; [reflexivity|]. cbn [map flat_map]. rewrite map_app, H by now left. rewrite IH; [reflexivity|]. intros; apply H; now right. Qed.
Variable skipped : list str.
Hypothesis SK : forallb no_digit skipped = true.
Lemma ren_lsplit s k : asc s -> lsplit E ld (map f s) k skipped = rres (map (map f)) (lsplit emin ld s k skipped) /\ forall l, lsplit emin ld s k skipped = Ok l -> Forall asc l.
Proof.
  intros HS. pose proof blind_facts as (_ & _ & _ & _ & BR & _). unfold lsplit. rewrite map_length.
  assert (EQ : match ld_rx ld with Some rx => split_with_regex E (S (length s)) (map f s) rx | None => @Ok str (map f s) end = @rres str str (map f) match ld_rx ld with Some rx => split_with_regex emin (S (length s)) s rx | None => Ok s end).
  { destruct (ld_rx ld) as [rx|]; [|reflexivity]. apply ren_split_rx; [now apply BR|exact HS]. }
  assert (AS : forall x, match ld_rx ld with Some rx => split_with_regex emin (S (length s)) s rx | None => Ok s end = Ok x -> asc x).
  { intros x. destruct (ld_rx ld) as [rx|]; [now apply split_rx_asc|]. intros H. assert (x = s) by congruence. now subst. }
  rewrite EQ. destruct (match ld_rx ld with Some rx => split_with_regex emin (S (length s)) s rx | None => Ok s end) as [s'|e|]; cbn [rres rbind]; [|split; [reflexivity|discriminate]|split; [reflexivity|discriminate]].
  specialize (AS s' eq_refl). rewrite ren_split by (reflexivity || exact AS). pose proof (split_asc s' split_separator AS) as SA. rewrite Forall_forall in SA.
  rewrite (ren_flat (map f) (map f) _ (fun token => if match ld_rx_exact ld with Some rx => match_string uni_min rx token | None => false end then [token] else split_known emin (S (length token)) ld token k)).
  - assert (FA : Forall asc (flat_map (fun token => if match ld_rx_exact ld with Some rx => match_string uni_min rx token | None => false end then [token] else split_known emin (S (length token)) ld token k) (split s' split_separator))).
    { apply Forall_forall. intros t Ht. apply in_flat_map in Ht as (x & Hx & Ht). apply SA in Hx. destruct (match ld_rx_exact ld with Some _ => _ | None => _ end); [destruct Ht as [<-|[]]; exact Hx|]. destruct (ren_split_known k (S (length x)) x Hx) as [_ F]. rewrite Forall_forall in F. auto. }
    rewrite Forall_forall in FA. split.
    + f_equal. apply filter_map_in. intros t Ht. apply FA in Ht. rewrite ren_empty, ren_trim by exact Ht. rewrite ren_mem by (exact SK || now apply trim_is_asc). reflexivity.
    + intros l HL. match type of HL with Ok ?x = _ => assert (EL : x = l) by congruence end. subst l.
      apply Forall_forall. intros t Ht. apply filter_In in Ht as [Ht _]. auto.
  - intros t Ht. apply SA in Ht. rewrite ren_exact by exact Ht. destruct (match ld_rx_exact ld with Some _ => _ | None => _ end); [reflexivity|]. rewrite map_length. apply ren_split_known. exact Ht.
Qed.

(** ** Translating *)
(** the token is not turned into a phrase with numbers of its own *)
Definition plain_token (t : str) : bool := mem t skipped || (forallb (fun p => negb (match_string uni_min (fst p) t)) (ld_relrx ld) && match mget (ld_reltype ld) t with None => true | Some _ => false end).
Lemma ren_translate_word t : asc t -> mget (ld_reltype ld) t = None -> translate_word ld (map f t) = translate_word ld t.
Proof. intros HT HR. pose proof blind_facts as (_ & B2 & B3 & _). unfold translate_word. rewrite ren_mget by assumption. rewrite HR. now apply ren_mget. Qed.
Lemma ren_in_dictionary t : asc t -> in_dictionary ld (map f t) = in_dictionary ld t.
Proof. intros HT. pose proof blind_facts as (_ & B2 & B3 & _). unfold in_dictionary, translate_word. rewrite !ren_mget by assumption. reflexivity. Qed.
Lemma find_none {A} (p : A -> bool) l : (forall x, In x l -> p x = false) -> List.find p l = None.
Proof. induction l as [|x l IH]; intros H; [reflexivity|]. cbn [List.find]. rewrite H by now left. apply IH. intros; apply H; now right. Qed.
Lemma mget_in {A} (m : smap A) k v : mget m k = Some v -> exists k', In (k', v) m.
Proof. induction m as [|[k' v'] m IH]; cbn [mget]; [discriminate|]. destruct (eqs k k'); [intros H; exists k'; left; congruence|]. intros H. apply IH in H as (x & Hx). exists x. now right. Qed.
Lemma ren_token k t : asc t -> plain_token t = true -> translate_token E ld skipped k (map f t) = map (map f) (translate_token emin ld skipped k t) /\ Forall asc (translate_token emin ld skipped k t).
Proof.
  intros HT HP. pose proof blind_facts as (_ & _ & _ & B4 & _ & _ & _ & B8). unfold translate_token. rewrite ren_mem by assumption. destruct (mem t skipped) eqn:M; [split; [reflexivity|constructor; [constructor|constructor]]|].
  unfold plain_token in HP. rewrite M in HP. cbn [orb] in HP. apply andb_true_iff in HP as [HR HW]. rewrite forallb_forall in HR, B8.
  rewrite find_none by (intros p Hp; rewrite ren_match by (auto || exact HT); apply HR in Hp; now apply negb_true_iff in Hp).
  rewrite find_none by (intros p Hp; apply HR in Hp; now apply negb_true_iff in Hp).
  destruct (mget (ld_reltype ld) t) as [x|] eqn:GR; [discriminate HW|]. rewrite ren_translate_word by assumption.
  destruct (translate_word ld t) as [ts|] eqn:TW.
  - assert (TA : forall v, In v ts -> asc v /\ map f v = v).
    { intros v Hv. unfold translate_word in TW. rewrite GR in TW. apply mget_in in TW as (k' & HI). rewrite forallb_forall in B4. apply B4 in HI. cbn [snd] in HI. rewrite forallb_forall in HI. apply HI in Hv. apply andb_true_iff in Hv as [V1 V2]. apply ascb_asc in V1. split; [exact V1|now apply ren_none]. }
    split.
    + rewrite map_map. apply map_ext_in. intros v Hv. destruct (TA v Hv) as [_ FV]. destruct (empty v && k); [reflexivity|now rewrite FV].
    + apply Forall_forall. intros v Hv. apply in_map_iff in Hv as (w & <- & Hw). destruct (TA w Hw) as [AW _]. destruct (empty w && k); assumption.
  - split; [reflexivity|constructor; [exact HT|constructor]].
Qed.

(** the permutations *)
Lemma ren_column {A B} (g : A -> B) d es m : forall n idx cnt, perm_column (map g es) (g d) m idx cnt n = map g (perm_column es d m idx cnt n).
Proof.
  induction n as [|n IH]; intros idx cnt; [reflexivity|]. cbn [perm_column]. destruct (if Nat.leb m cnt then _ else _) as [i c]. rewrite map_length, map_nth. cbn [map]. f_equal. apply IH.
Qed.
Lemma ren_columns {A B} (g : A -> B) d n : forall l total, perm_columns (g d) n total (map (map g) l) = map (map g) (perm_columns d n total l).
Proof. induction l as [|e l IH]; intros total; [reflexivity|]. cbn [map perm_columns]. rewrite map_length. cbv zeta. cbn [map]. f_equal; [apply ren_column|apply IH]. Qed.
Lemma ren_perms {A B} (g : A -> B) d l : create_permutation (g d) (map (map g) l) = rres (map (map g)) (create_permutation d l).
Proof.
  unfold create_permutation.
  assert (E1 : existsb (fun e : list B => match e with [] => true | _ => false end) (map (map g) l) = existsb (fun e : list A => match e with [] => true | _ => false end) l).
  { induction l as [|e l IH]; [reflexivity|]. cbn [map existsb]. rewrite IH. now destruct e. }
  assert (E2 : forall n, fold_left (fun a (e : list B) => (a * length e)%nat) (map (map g) l) n = fold_left (fun a (e : list A) => (a * length e)%nat) l n).
  { clear E1. induction l as [|e l IH]; intros n; [reflexivity|]. cbn [map fold_left]. rewrite map_length. apply IH. }
  rewrite E1. destruct (existsb _ l); [reflexivity|]. rewrite E2. cbv zeta. cbn [rres]. f_equal. rewrite ren_columns. rewrite map_map. apply map_ext. intros p. rewrite !map_map. apply map_ext. intros c. apply map_nth.
Qed.

Lemma perms_asc (l ps : list (list str)) : Forall (Forall asc) l -> create_permutation [] l = Ok ps -> Forall (Forall asc) ps.
Proof.
  intros HL. unfold create_permutation. match goal with |- (if ?c then _ else _) = _ -> _ => destruct c end; [discriminate|]. intros H. match type of H with Ok ?x = Ok _ => assert (HP : ps = x) by congruence end. subst ps. clear H.
  match goal with |- context [perm_columns _ ?x ?x l] => set (n := x) end. assert (HC : forall t, Forall (Forall asc) (perm_columns [] n t l)).
  { clearbody n. induction HL as [|e l HE HL IH]; intros t; cbn [perm_columns]; [constructor|]. constructor; [|apply IH].
    assert (G : forall m k i c, Forall asc (perm_column e [] m i c k)). { intros m. induction k as [|k IK]; intros i c; cbn [perm_column]; [constructor|]. destruct (if Nat.leb m c then _ else _) as [i' c']. constructor; [|apply IK]. destruct (nth_in_or_default (if Nat.leb (length e) i' then O else i') e []) as [Hi| ->]; [rewrite Forall_forall in HE; auto|constructor]. }
    apply G. }
  apply Forall_forall. intros p Hp. apply in_map_iff in Hp as (i & <- & _). apply Forall_forall. intros x Hx. apply in_map_iff in Hx as (c & <- & Hc). pose proof (HC n) as HC'. rewrite Forall_forall in HC'. apply HC' in Hc. destruct (nth_in_or_default i c []) as [Hi| ->]; [rewrite Forall_forall in Hc; auto|constructor].
Qed.

(** joining *)
Lemma ren_join_from sep : asc sep -> map f sep = sep -> forall l a, asc a -> Forall asc l -> join_from (map f a) (map (map f) l) sep = map f (join_from a l sep) /\ asc (join_from a l sep).
Proof.
  intros AS SS. induction l as [|b l IH]; intros a HA HL; cbn [map join_from]; [split; [reflexivity|constructor]|]. inversion HL; subst. destruct (IH b) as [I1 I2]; [assumption|assumption|]. rewrite I1. rewrite !ren_mem by (reflexivity || assumption). split.
  - rewrite !map_app. destruct (negb (mem a always_kept) && negb (mem b always_kept)); [now rewrite SS|reflexivity].
  - rewrite !asc_app. split; [destruct (_ && _); [exact AS|constructor]|auto].
Qed.
Lemma ren_join sep l : asc sep -> map f sep = sep -> Forall asc l -> join (map (map f) l) sep = map f (join l sep) /\ asc (join l sep).
Proof.
  intros AS SS HL. destruct l as [|a l]; [split; [reflexivity|constructor]|]. inversion HL; subst. destruct (ren_join_from sep AS SS l a) as [J1 J2]; [assumption|assumption|]. unfold join. change (map (map f) (a :: l)) with (map f a :: map (map f) l). cbv iota. rewrite J1, <- map_app. split; [apply ren_trim|apply trim_is_asc]; apply asc_app; auto.
Qed.
Lemma ren_clear l : Forall asc l -> clear_future_words (map (map f) l) = map (map f) (clear_future_words l).
Proof.
  intros HL. rewrite Forall_forall in HL. unfold clear_future_words.
  assert (E1 : existsb (fun w => mem w freshness_words) (map (map f) l) = existsb (fun w => mem w freshness_words) l).
  { clear - HL RF. induction l as [|t l IH]; [reflexivity|]. cbn [map existsb]. rewrite ren_mem by (reflexivity || (apply HL; now left)). rewrite IH; [reflexivity|]. intros; apply HL; now right. }
  rewrite E1. destruct (existsb _ l); [reflexivity|]. apply filter_map_in. intros t Ht. rewrite ren_eqs by (reflexivity || auto). reflexivity.
Qed.
Lemma filter_asc (p : str -> bool) l : Forall asc l -> Forall asc (filter p l).
Proof. rewrite !Forall_forall. intros H x Hx. apply filter_In in Hx as [Hx _]. auto. Qed.
Lemma clear_asc l : Forall asc l -> Forall asc (clear_future_words l).
Proof. intros H. unfold clear_future_words. destruct (existsb _ l); [exact H|now apply filter_asc]. Qed.
Lemma mem_in_map w l : no_digit w = true -> asc w -> Forall asc l -> mem w (map (map f) l) = mem w l.
Proof.
  intros NW AW HL. unfold mem. induction HL as [|t l HT HL IH]; [reflexivity|]. cbn [map existsb]. rewrite IH. rewrite (eqs_sym w (map f t)), (eqs_sym w t), ren_eqs by assumption. reflexivity.
Qed.
Lemma ren_finish k l : Forall asc l -> finish_translation k (map (map f) l) = map f (finish_translation k l) /\ asc (finish_translation k l).
Proof.
  intros HL. unfold finish_translation. rewrite mem_in_map by (reflexivity || (apply ascb_asc; reflexivity) || exact HL).
  set (l1 := if mem (lit "in") l then clear_future_words l else l). assert (A1 : Forall asc l1) by (unfold l1; destruct (mem (lit "in") l); [now apply clear_asc|exact HL]).
  replace (if mem (lit "in") l then clear_future_words (map (map f) l) else map (map f) l) with (map (map f) l1) by (unfold l1; destruct (mem (lit "in") l); [now rewrite ren_clear|reflexivity]).
  cbv zeta. rewrite (filter_map_in (map f) _ (fun t => negb (empty t))) by (intros t _; now rewrite ren_empty). apply ren_join; [destruct k; apply ascb_asc; reflexivity| |now apply filter_asc].
  destruct k; [reflexivity|apply ren_none; [apply ascb_asc; reflexivity|reflexivity]].
Qed.
End R.

(** ** The whole translation *)
(** the text is not rewritten before it is split *)
Definition untouched (ld : locale) (s : str) : bool := forallb (fun p => negb (match_string uni_min (widened dig0 (fst p)) s)) (ld_simpl ld).
(** the tokens of a text and its translations, when no token is skipped; computed with the least tables *)
Definition analysis (ld : locale) (s : str) (k : bool) : option (list str * list str) :=
  if ascb s then if untouched ld s then
    match lsplit emin ld s k [] with
    | Ok toks => if forallb (plain_token ld []) toks then
        match create_permutation [] (map (translate_token emin ld [] k) toks) with Ok ps => Some (toks, map (finish_translation k) ps) | _ => None end
      else None
    | _ => None
    end
  else None else None.
(** tokens to skip that leave such a text alone *)
Definition spares (skip : list str) (toks : list str) : Prop := forallb no_digit skip = true /\ forall t, In t toks -> ~ In t skip /\ ~ In (trim_space t) skip.

Section W.
Variable f : Z -> Z.
Hypothesis RF : renames f.
Variable E : env.
Hypothesis UA : uni_ascii (e_uni E).
Variable ld : locale.
Hypothesis BL : blind ld = true.

Lemma ren_simplify s : asc s -> untouched ld s = true -> simplify E ld (map f s) = map f s.
Proof.
  intros HS HU. destruct (blind_facts ld BL) as (_ & _ & _ & _ & _ & _ & B & _). unfold simplify. unfold untouched in HU. revert HU B. generalize (ld_simpl ld) as l. induction l as [|[r t] l IH]; intros HU B; [reflexivity|].
  cbn [forallb fst] in *. apply andb_true_iff in HU as [U1 U2]. apply andb_true_iff in B as [B1 B2]. cbn [fold_left fst]. apply negb_true_iff in U1. rewrite <- (ren_match f RF E UA (widened dig0 r) s B1 HS) in U1. rewrite (widen_none dig0 (e_uni E) r (map f s) (ren_asc f RF s HS) U1). now apply IH.
Qed.
Lemma skip_filter cfg toks : spares (c_skip cfg) toks -> spares (skipped_tokens cfg ld) toks.
Proof.
  intros [H1 H2]. unfold skipped_tokens. destruct (eqs (ld_name ld) (lit "fi")); [|now split]. split.
  - rewrite forallb_forall in *. intros x Hx. apply filter_In in Hx as [Hx _]. auto.
  - intros t Ht. destruct (H2 t Ht) as [N1 N2]. split; intros X; apply filter_In in X as [X _]; auto.
Qed.
Lemma mem_out (x : str) l : ~ In x l -> mem x l = false.
Proof. intros N. destruct (mem x l) eqn:M; [|reflexivity]. exfalso. apply N. unfold mem in M. apply existsb_exists in M as (y & Hy & EQ). apply eqs_eq in EQ. now subst. Qed.
Lemma filter_none {A} (p q : A -> bool) l r : filter p l = r -> (forall x, In x r -> q x = true) -> (forall x, In x l -> q x = true -> p x = true) -> filter q l = filter q r.
Proof.
  intros HF HQ HP. subst r. induction l as [|x l IH]; [reflexivity|]. cbn [filter] in *. destruct (p x) eqn:PX.
  - cbn [filter]. destruct (q x); [f_equal|]; (apply IH; [intros; apply HQ; now right|intros; apply HP; [now right|assumption]]).
  - destruct (q x) eqn:QX; [rewrite HP in PX; [discriminate PX|now left|exact QX]|]. apply IH; [exact HQ|]. intros; apply HP; [now right|assumption].
Qed.
Lemma filter_all {A} (q : A -> bool) l : (forall x, In x l -> q x = true) -> filter q l = l.
Proof. induction l as [|x l IH]; intros H; [reflexivity|]. cbn [filter]. rewrite H by now left. f_equal. apply IH. intros; apply H; now right. Qed.
Lemma spare_split s k toks skip : lsplit emin ld s k [] = Ok toks -> spares skip toks -> lsplit emin ld s k skip = Ok toks.
Proof.
  unfold lsplit. destruct (match ld_rx ld with Some _ => _ | None => _ end) as [s'|e|]; cbn [rbind]; try discriminate. intros H [_ HS]. match type of H with Ok ?x = _ => assert (EL : x = toks) by congruence end. clear H. f_equal.
  erewrite filter_none; [|exact EL| |].
  - apply filter_all. intros t Ht. destruct (HS t Ht) as [_ N]. rewrite mem_out by exact N. rewrite <- EL in Ht. apply filter_In in Ht as [_ Ht]. cbn [mem existsb negb] in Ht. rewrite andb_true_r in *. exact Ht.
  - intros t Ht. destruct (HS t Ht) as [_ N]. rewrite mem_out by exact N. rewrite <- EL in Ht. apply filter_In in Ht as [_ Ht]. cbn [mem existsb negb] in Ht. rewrite andb_true_r in *. exact Ht.
  - intros t _ Ht. apply andb_true_iff in Ht as [Ht _]. rewrite Ht. reflexivity.
Qed.
Lemma spare_token k t skip toks : spares skip toks -> In t toks -> translate_token E ld skip k t = translate_token E ld [] k t.
Proof. intros [_ HS] Ht. destruct (HS t Ht) as [N _]. unfold translate_token. rewrite (mem_out t skip N). reflexivity. Qed.

Variable cfg : config.
Variables (s0 s : str).
Hypothesis NT : normalize_token E s = map f s0.
Theorem ren_translate k toks trs : analysis ld s0 k = Some (toks, trs) -> spares (c_skip cfg) toks -> translate E cfg ld s k = Ok (map (map f) trs).
Proof.
  unfold analysis. destruct (ascb s0) eqn:AS; [|discriminate]. apply ascb_asc in AS. destruct (untouched ld s0) eqn:UT; [|discriminate]. destruct (lsplit emin ld s0 k []) as [tk|e|] eqn:SP; try discriminate.
  destruct (forallb (plain_token ld []) tk) eqn:PT; [|discriminate]. destruct (create_permutation [] (map (translate_token emin ld [] k) tk)) as [ps|e|] eqn:CP; try discriminate. intros H HS. assert (tk = toks) by congruence. assert (ET : map (finish_translation k) ps = trs) by congruence. clear H. subst tk.
  apply skip_filter in HS. unfold translate. rewrite NT, ren_simplify by assumption. set (skip := skipped_tokens cfg ld) in *.
  pose proof (ren_lsplit f RF E UA ld BL skip (proj1 HS) s0 k AS) as [R1 R2]. pose proof (spare_split s0 k toks skip SP HS) as SP2. rewrite R1, SP2. cbn [rres rbind]. specialize (R2 toks SP2).
  assert (AT : Forall (Forall asc) (map (translate_token emin ld [] k) toks)).
  { apply Forall_forall. intros x Hx. apply in_map_iff in Hx as (t & <- & Ht). rewrite forallb_forall in PT. rewrite Forall_forall in R2. apply (ren_token f RF E UA ld BL [] eq_refl k t); auto. }
  assert (ET2 : map (translate_token E ld skip k) (map (map f) toks) = map (map (map f)) (map (translate_token emin ld [] k) toks)).
  { rewrite !map_map. apply map_ext_in. intros t Ht. rewrite forallb_forall in PT. rewrite Forall_forall in R2. pose proof (ren_token f RF E UA ld BL skip (proj1 HS) k t (R2 t Ht)) as [RT _].
    - specialize (PT t Ht). unfold plain_token in *. cbn [mem existsb orb] in PT. rewrite PT. apply orb_true_r.
    - rewrite RT. f_equal. unfold translate_token. destruct HS as [_ HS]. destruct (HS t Ht) as [N _]. now rewrite (mem_out t skip N). }
  rewrite ET2. change (@nil Z) with (map f []) at 1. rewrite (ren_perms (map f) [] (map (translate_token emin ld [] k) toks)). rewrite CP. cbn [rres rbind]. f_equal. rewrite <- ET, !map_map. apply map_ext_in. intros p Hp.
  pose proof (perms_asc _ _ AT CP) as PA. rewrite Forall_forall in PA. apply (ren_finish f RF k p). auto.
Qed.
Definition known_min (t : str) : bool := forallb is_digitA t || in_dictionary ld t || match ld_rx_exact ld with Some rx => match_string uni_min rx t | None => false end.
Theorem ren_applicable toks trs : analysis ld s0 false = Some (toks, trs) -> spares (c_skip cfg) toks -> forallb (fun t => mem t always_kept) toks = false -> forallb known_min toks = true ->
  is_applicable E cfg ld s false = Ok true.
Proof.
  unfold analysis. destruct (ascb s0) eqn:AS; [|discriminate]. apply ascb_asc in AS. destruct (untouched ld s0) eqn:UT; [|discriminate]. destruct (lsplit emin ld s0 false []) as [tk|e|] eqn:SP; try discriminate.
  destruct (forallb (plain_token ld []) tk) eqn:PT; [|discriminate]. destruct (create_permutation [] _) as [ps|e|]; try discriminate. intros H HS HK HM. assert (tk = toks) by congruence. clear H. subst tk.
  apply skip_filter in HS. unfold is_applicable. rewrite NT, ren_simplify by assumption. set (skip := skipped_tokens cfg ld) in *.
  pose proof (ren_lsplit f RF E UA ld BL skip (proj1 HS) s0 false AS) as [R1 R2]. pose proof (spare_split s0 false toks skip SP HS) as SP2. rewrite R1, SP2. cbn [rres rbind]. specialize (R2 toks SP2). rewrite Forall_forall in R2.
  assert (E1 : forallb (fun t => mem t always_kept) (map (map f) toks) = forallb (fun t => mem t always_kept) toks).
  { clear - R2 RF. induction toks as [|t l IH]; [reflexivity|]. cbn [map forallb]. rewrite (ren_mem f RF) by (reflexivity || (apply R2; now left)). rewrite IH; [reflexivity|]. intros; apply R2; now right. }
  rewrite E1, HK. f_equal. rewrite forallb_forall in *. intros t' Ht'. apply in_map_iff in Ht' as (t & <- & Ht). specialize (HM t Ht). specialize (R2 t Ht). unfold token_known, known_min in *.
  rewrite (ren_in_dictionary f RF ld BL t R2). rewrite (ren_exact f RF E UA ld BL t R2). unfold is_number_only. rewrite (runes_asc (map f t)) by now apply ren_asc.
  replace (forallb (u_isNd (e_uni E)) (map f t)) with (forallb is_digitA t); [|].
  - destruct (forallb is_digitA t); [reflexivity|]. destruct (in_dictionary ld t); [reflexivity|]. cbn [orb] in *. rewrite HM. apply orb_true_r.
  - clear - R2 RF UA. induction R2 as [|c t Hc HT IH]; [reflexivity|]. cbn [map forallb]. rewrite IH. f_equal. rewrite (ua_isNd _ UA) by now apply ren_ascii. symmetry. now apply ren_digit.
Qed.
End W.
