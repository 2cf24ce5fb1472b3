(** Checking the shapes of many texts in many locales: cheaper forms of the checks of TextFast *)
From Coq Require Import ZifyBool.
From Verif Require Import GoBase SMap Regex RegexFacts RegexFacts2 RegexFacts3 Setting Strutil Tokenizer Timezone Env Common Absolute Language RegexWiden NumTranslate TextRename TextFront TextActs TextParse TextForms TextFast.

(** ** Character classes that occur often *)
Definition item_eqb (a b : citem) : bool :=
  match a, b with
  | IRange l h, IRange l' h' => if l =? l' then h =? h' else false
  | ICat n c, ICat n' c' => if Bool.eqb n n' then match c, c' with UL, UL | UM, UM | UN, UN => true | _, _ => false end else false
  | _, _ => false
  end.
Fixpoint items_eqb (a b : list citem) : bool := match a, b with [], [] => true | x :: a', y :: b' => if item_eqb x y then items_eqb a' b' else false | _, _ => false end.
Definition cls_eqb (ci : bool) (k : cls) (p : bool * cls) : bool := if Bool.eqb ci (fst p) then if Bool.eqb (cl_neg k) (cl_neg (snd p)) then items_eqb (cl_items k) (cl_items (snd p)) else false else false.
Lemma item_eqb_eq a b : item_eqb a b = true -> a = b.
Proof.
  destruct a as [l h|n c|l], b as [l' h'|n' c'|l']; cbn [item_eqb]; try discriminate.
  - destruct (Z.eqb_spec l l'); [|discriminate]. intros H. apply Z.eqb_eq in H. now subst.
  - destruct (Bool.eqb n n') eqn:N; [|discriminate]. apply Bool.eqb_prop in N. subst. destruct c, c'; try discriminate; reflexivity.
Qed.
Lemma items_eqb_eq a : forall b, items_eqb a b = true -> a = b.
Proof. induction a as [|x a IH]; intros [|y b]; cbn [items_eqb]; try discriminate; [reflexivity|]. destruct (item_eqb x y) eqn:I; [|discriminate]. apply item_eqb_eq in I. intros H. apply IH in H. now subst. Qed.
Lemma cls_eqb_eq ci k p : cls_eqb ci k p = true -> p = (ci, k).
Proof.
  unfold cls_eqb. destruct p as [ci' [n l]], k as [n' l']. cbn [fst snd cl_neg cl_items]. destruct (Bool.eqb ci ci') eqn:A; [|discriminate]. destruct (Bool.eqb n' n) eqn:B; [|discriminate]. intros H. apply items_eqb_eq in H. apply Bool.eqb_prop in A, B. now subst.
Qed.
Definition digit_class : bool * cls := (false, {| cl_neg := false; cl_items := [IRange 48 57] |}).
Definition usual_classes : list (bool * cls) :=
  [ digit_class; (true, {| cl_neg := false; cl_items := [IRange 46 46; IRange 44 44] |});
    (true, {| cl_neg := true; cl_items := [ICat false UL; ICat false UM; IRange 48 57; IRange 95 95] |}); (true, {| cl_neg := true; cl_items := [ICat false UL; ICat false UM; IRange 48 57] |});
    (false, {| cl_neg := false; cl_items := [IRange 9 10; IRange 12 13; IRange 32 32] |}) ].
Definition usual (ci : bool) (k : cls) : bool := existsb (cls_eqb ci k) usual_classes.
Lemma usual_ok ci k : usual ci k = true -> forallb (item_ok ci) (cl_items k) = true /\ invb dig0 (cls_has uni_min ci k) = true.
Proof.
  intros H. assert (F : forallb (fun p => forallb (item_ok (fst p)) (cl_items (snd p)) && invb dig0 (cls_has uni_min (fst p) (snd p))) usual_classes = true) by (vm_compute; reflexivity).
  rewrite forallb_forall in F. unfold usual in H. apply existsb_exists in H as (p & HI & HE). apply cls_eqb_eq in HE. subst p. specialize (F _ HI). now apply andb_true_iff in F.
Qed.

(** ** Patterns that do not distinguish digits *)
Lemma chr_blind ci c : is_digitA c = false -> invb dig0 (chr_is uni_min ci c) = true.
Proof.
  intros H. unfold invb. apply forallb_forall. intros x _. apply Bool.eqb_true_iff. unfold dig0. destruct (is_digitA x) eqn:D; [|reflexivity]. unfold chr_is. cbn [u_fold uni_min]. unfold lowerA, is_upperA, is_digitA in *. destruct ci; [|lia].
  destruct ((65 <=? c) && (c <=? 90)) eqn:C; [|destruct ((65 <=? x) && (x <=? 90)) eqn:X; [lia|]; cbn [andb]; destruct ((65 <=? 48) && (48 <=? 90)) eqn:Y; lia]. destruct ((65 <=? x) && (x <=? 90)) eqn:X; [lia|]. destruct ((65 <=? 48) && (48 <=? 90)) eqn:Y; lia.
Qed.
Lemma chr_sees ci c : is_digitA c = true -> invb dig0 (chr_is uni_min ci c) = false.
Proof.
  intros H. assert (C : c = 48 \/ c = 49 \/ c = 50 \/ c = 51 \/ c = 52 \/ c = 53 \/ c = 54 \/ c = 55 \/ c = 56 \/ c = 57) by (unfold is_digitA in H; lia).
  repeat (destruct C as [C|C]; [subst c; destruct ci; vm_compute; reflexivity|]). subst c; destruct ci; vm_compute; reflexivity.
Qed.
Fixpoint qresp (r : re) : bool :=
  match r with
  | Chr ci c => if is_digitA c then false else const_ok ci c
  | Cls ci k => if usual ci k then true else forallb (item_ok ci) (cl_items k) && invb dig0 (cls_has uni_min ci k)
  | Cat a b | Alt a b => if qresp a then qresp b else false
  | Star _ a | Grp _ a => qresp a
  | _ => true
  end.
Lemma qresp_ok r : qresp r = true -> respects dig0 r = true.
Proof.
  induction r as [|ci c|ci k| |a IHa b IHb|a IHa b IHb|g a IHa|n a IHa| | |neg]; cbn [qresp respects]; auto.
  - destruct (is_digitA c) eqn:D; [discriminate|]. intros ->. now apply chr_blind.
  - destruct (usual ci k) eqn:K; [|exact (fun x => x)]. intros _. apply usual_ok in K as [-> ->]. reflexivity.
  - destruct (qresp a); [|discriminate]. intros H. now rewrite IHa, IHb.
  - destruct (qresp a); [|discriminate]. intros H. now rewrite IHa, IHb.
Qed.
Fixpoint qwiden (r : re) : re :=
  match r with
  | Chr ci c => if is_digitA c then any_char else r
  | Cls ci k => if usual ci k then r else if invb dig0 (cls_has uni_min ci k) then r else any_char
  | Cat a b => Cat (qwiden a) (qwiden b)
  | Alt a b => Alt (qwiden a) (qwiden b)
  | Star g a => Star g (qwiden a)
  | Grp n a => Grp n (qwiden a)
  | _ => r
  end.
Lemma qwiden_eq r : qwiden r = widen dig0 r.
Proof.
  induction r as [|ci c|ci k| |a IHa b IHb|a IHa b IHb|g a IHa|n a IHa| | |neg]; cbn [qwiden widen]; try congruence.
  - destruct (is_digitA c) eqn:D; [now rewrite chr_sees|now rewrite chr_blind].
  - destruct (usual ci k) eqn:K; [|reflexivity]. apply usual_ok in K as [_ ->]. reflexivity.
Qed.
Definition qwidened (r : regex) : regex := {| rx_ast := qwiden (rx_ast r); rx_ngroups := rx_ngroups r |}.
Lemma qwidened_eq r : qwidened r = widened dig0 r.
Proof. unfold qwidened, widened. now rewrite qwiden_eq. Qed.
Definition qwidened_simpl (ld : locale) : list regex := map (fun p => qwidened (fst p)) (ld_simpl ld).
Lemma qwidened_simpl_eq ld : qwidened_simpl ld = widened_simpl ld.
Proof. unfold qwidened_simpl, widened_simpl. apply map_ext. intros p. apply qwidened_eq. Qed.
Definition qrespo (o : option regex) : bool := match o with Some r => qresp (rx_ast r) | None => true end.
Lemma qrespo_ok o : qrespo o = true -> respectso o = true.
Proof. destruct o as [r|]; [apply qresp_ok|exact (fun x => x)]. Qed.
Definition quick_blind (ld : locale) : bool :=
  if forallb no_digit (ld_known ld) then if forallb (fun p => no_digit (fst p)) (ld_trans ld) then if forallb (fun p => no_digit (fst p)) (ld_reltype ld) then
  if forallb (fun p => forallb (fun v => ascb v && no_digit v) (snd p)) (ld_trans ld) then
  if qrespo (ld_rx ld) then if qrespo (ld_rx_exact ld) then
  if forallb (fun p => qresp (qwiden (rx_ast (fst p)))) (ld_simpl ld) then forallb (fun p => qresp (rx_ast (fst p))) (ld_relrx ld) else false else false else false else false else false else false else false.
Lemma forallb_weaken {A} (f g : A -> bool) l : (forall x, f x = true -> g x = true) -> forallb f l = true -> forallb g l = true.
Proof. intros H. rewrite !forallb_forall. auto. Qed.
Lemma quick_blind_ok ld : quick_blind ld = true -> blind ld = true.
Proof.
  unfold quick_blind, blind. destruct (forallb no_digit (ld_known ld)); [|discriminate]. destruct (forallb _ (ld_trans ld)); [|discriminate]. destruct (forallb _ (ld_reltype ld)); [|discriminate]. destruct (forallb _ (ld_trans ld)); [|discriminate].
  destruct (qrespo (ld_rx ld)) eqn:R1; [|discriminate]. destruct (qrespo (ld_rx_exact ld)) eqn:R2; [|discriminate]. destruct (forallb _ (ld_simpl ld)) eqn:S; [|discriminate]. intros R. rewrite (qrespo_ok _ R1), (qrespo_ok _ R2). cbn [andb]. apply andb_true_iff. split.
  - revert S. apply forallb_weaken. intros p H. cbn [widened rx_ast]. rewrite <- qwiden_eq. now apply qresp_ok.
  - revert R. apply forallb_weaken. intros p. apply qresp_ok.
Qed.

(** ** Patterns with a digit and something else *)
Fixpoint has_digit (r : re) : bool :=
  match r with Cls ci k => cls_eqb ci k digit_class | Cat a b => if has_digit a then true else has_digit b | Grp _ a => has_digit a | _ => false end.
Fixpoint has_other (r : re) : bool :=
  match r with Chr ci c => if is_digitA c then false else const_ok ci c | Cat a b => if has_other a then true else has_other b | Grp _ a => has_other a | _ => false end.
Lemma has_digit_ok r : has_digit r = true -> needs is_digitA r = true.
Proof.
  induction r as [|ci c|ci k| |a IHa b IHb|a IHa b IHb|g a IHa|n a IHa| | |neg]; cbn [has_digit needs]; try discriminate.
  - intros H. apply cls_eqb_eq in H. assert (ci = false) by (unfold digit_class in H; congruence). assert (k = {| cl_neg := false; cl_items := [IRange 48 57] |}) by (unfold digit_class in H; congruence). subst. vm_compute. reflexivity.
  - destruct (has_digit a); intros H; [now rewrite IHa|]. rewrite IHb by exact H. apply orb_true_r.
  - exact IHa.
Qed.
Lemma has_other_ok r : has_other r = true -> needs (fun c => negb (is_digitA c)) r = true.
Proof.
  induction r as [|ci c|ci k| |a IHa b IHb|a IHa b IHb|g a IHa|n a IHa| | |neg]; cbn [has_other needs]; try discriminate.
  - destruct (is_digitA c) eqn:D; [discriminate|]. intros ->. cbn [andb]. unfold onlyf. apply forallb_forall. intros x _. unfold chr_is. cbn [u_fold uni_min]. destruct (is_digitA x) eqn:X; [|now rewrite implb_true_r].
    assert ((if ci then lowerA x =? lowerA c else x =? c) = false) as ->; [|reflexivity]. unfold lowerA, is_upperA, is_digitA in *. destruct ci; [|lia]. destruct ((65 <=? c) && (c <=? 90)) eqn:C; destruct ((65 <=? x) && (x <=? 90)) eqn:Y; lia.
  - destruct (has_other a); intros H; [now rewrite IHa|]. rewrite IHb by exact H. apply orb_true_r.
  - exact IHa.
Qed.
Definition quick_mixed (ld : locale) : bool := forallb (fun p => (fun r => if has_digit r then has_other r else false) (rx_ast (fst p))) (ld_relrx ld).
Lemma quick_mixed_ok ld : quick_mixed ld = true -> rel_patterns_mixed ld = true.
Proof. unfold quick_mixed, rel_patterns_mixed. apply forallb_weaken. intros p. cbv beta. destruct (has_digit _) eqn:D; [|discriminate]. intros H. now rewrite (has_digit_ok _ D), (has_other_ok _ H). Qed.

(** ** Patterns that need a character that a lower-case text does not have *)
Fixpoint occurs_in (c : Z) (s : str) : bool := match s with [] => false | x :: s' => if c =? x then true else occurs_in c s' end.
Lemma occurs_in_In c s : In c s -> occurs_in c s = true.
Proof. induction s as [|x s IH]; cbn [In occurs_in]; [tauto|]. intros [->|H]; [now rewrite Z.eqb_refl|]. destruct (c =? x); auto. Qed.
Fixpoint lacking (s : str) (r : re) : bool :=
  match r with
  | Chr ci c => if occurs_in (if ci then lowerA c else c) s then false else const_ok ci c
  | Cat a b => if lacking s a then true else lacking s b
  | Alt a b => if lacking s a then lacking s b else false
  | Grp _ a => lacking s a
  | _ => false
  end.
Section L.
Variable s : str.
Hypothesis AS : asc s.
Hypothesis LO : forallb (fun c => negb (is_upperA c)) s = true.
Lemma lacking_needs r : lacking s r = true -> needs (fun c => negb (existsb (Z.eqb c) s)) r = true.
Proof.
  induction r as [|ci c|ci k| |a IHa b IHb|a IHa b IHb|g a IHa|n a IHa| | |neg]; cbn [lacking needs]; try discriminate.
  - destruct (occurs_in _ s) eqn:O; [discriminate|]. intros ->. cbn [andb]. unfold onlyf. apply forallb_forall. intros x _. destruct (existsb (Z.eqb x) s) eqn:X; [|now rewrite implb_true_r]. apply existsb_exists in X as (y & HI & EQ). apply Z.eqb_eq in EQ. subst y.
    rewrite forallb_forall in LO. pose proof (LO x HI) as U. apply negb_true_iff in U. assert (chr_is uni_min ci c x = false) as ->; [|reflexivity]. apply not_true_iff_false. intros C. unfold chr_is in C. cbn [u_fold uni_min] in C.
    assert (x = if ci then lowerA c else c) as EX by (destruct ci; apply Z.eqb_eq in C; [|exact C]; unfold lowerA at 1 in C; rewrite U in C; exact C). rewrite <- EX in O. rewrite (occurs_in_In x s HI) in O. discriminate O.
  - destruct (lacking s a); intros H; [now rewrite IHa|]. rewrite IHb by exact H. apply orb_true_r.
  - destruct (lacking s a); [|discriminate]. intros H. now rewrite IHa, IHb.
  - exact IHa.
Qed.
Lemma lacking_none r : lacking s (rx_ast r) = true -> Regex.find uni_min r s = None.
Proof.
  intros H. apply (lacks_none (fun c => negb (existsb (Z.eqb c) s)) uni_min min_ascii); [now apply lacking_needs|]. unfold lacks. apply Forall_forall. intros c Hc. unfold asc in AS. rewrite Forall_forall in AS. split; [now apply AS|].
  apply negb_false_iff. apply existsb_exists. exists c. split; [exact Hc|apply Z.eqb_refl].
Qed.
Definition unmatched (r : regex) : bool := if lacking s (rx_ast r) then true else negb (match_string uni_min r s).
Lemma unmatched_ok r : unmatched r = true -> Regex.find uni_min r s = None.
Proof. unfold unmatched. destruct (lacking s (rx_ast r)) eqn:L; [intros _; now apply lacking_none|]. unfold match_string. destruct (Regex.find uni_min r s); [discriminate|reflexivity]. Qed.
End L.

(** ** Known words that do not occur in the text play no part *)
Definition thin (ld : locale) (s : str) : locale :=
  {| ld_name := ld_name ld; ld_order := ld_order ld; ld_nospacing := ld_nospacing ld; ld_splitter := ld_splitter ld; ld_charset := ld_charset ld; ld_abbr := ld_abbr ld; ld_simpl := ld_simpl ld; ld_trans := ld_trans ld; ld_reltype := ld_reltype ld;
     ld_relrx := ld_relrx ld; ld_rx := ld_rx ld; ld_rx_exact := ld_rx_exact ld; ld_known := filter (contains s) (ld_known ld) |}.
Lemma prefix_app w : forall s b, has_prefix w s = true -> has_prefix w (s ++ b) = true.
Proof. induction w as [|x w IH]; intros [|y s] b; cbn [has_prefix app]; try reflexivity; try discriminate. rewrite !andb_true_iff. intros [H1 H2]. split; [exact H1|now apply IH]. Qed.
Lemma contains_app_r w : forall s b, contains s w = true -> contains (s ++ b) w = true.
Proof.
  unfold contains. induction s as [|y s IH]; intros b.
  - cbn [index app]. destruct (has_prefix w []) eqn:P; [|discriminate]. intros _. pose proof (prefix_app w [] b P) as Q. cbn [app] in Q. destruct b; cbn [index]; now rewrite Q.
  - cbn [index app]. destruct (has_prefix w (y :: s)) eqn:P.
    + intros _. pose proof (prefix_app w (y :: s) b P) as Q. cbn [app] in Q. now rewrite Q.
    + intros H. destruct (has_prefix w (y :: s ++ b)); [reflexivity|]. specialize (IH b). destruct (index s w); [|discriminate H]. specialize (IH eq_refl). destruct (index (s ++ b) w); [reflexivity|discriminate IH].
Qed.
Lemma contains_app_l w : forall a s, contains s w = true -> contains (a ++ s) w = true.
Proof.
  unfold contains. induction a as [|y a IH]; intros s H; [exact H|]. specialize (IH s H). cbn [app index]. destruct (has_prefix w (y :: a ++ s)); [reflexivity|]. destruct (index (a ++ s) w); [reflexivity|discriminate IH].
Qed.
Lemma thin_find ld s t : (forall w, contains t w = true -> contains s w = true) -> forall ws best, find_known emin (thin ld s) t (filter (contains s) ws) best = find_known emin ld t ws best.
Proof.
  intros H. induction ws as [|w ws IH]; intros best; [reflexivity|]. cbn [filter]. destruct (contains s w) eqn:C.
  - cbn [find_known]. change (ld_nospacing (thin ld s)) with (ld_nospacing ld). destruct (index t w) as [pos|]; [|apply IH]. destruct (_ || _); [|apply IH]. destruct (Nat.eqb pos 0); [reflexivity|apply IH].
  - cbn [find_known]. assert (index t w = None) as ->; [|apply IH]. specialize (H w). unfold contains in H at 1. destruct (index t w); [|reflexivity]. rewrite H in C by reflexivity. discriminate C.
Qed.
Lemma known_suffix ld (t : str) : forall ws best a w b, (forall q : nat * (str * str * str), best = Some q -> exists n, snd (snd q) = (skipn n t : str)) -> find_known emin ld t ws best = Some (a, w, b) -> exists n, b = skipn n t.
Proof.
  induction ws as [|x ws IH]; intros best a w b HB; cbn [find_known].
  - destruct best as [q|]; [|discriminate]. intros E. cbn [option_map] in E. destruct (HB q eq_refl) as (n & HN). exists n. rewrite <- HN. apply (f_equal (fun o : option (str * str * str) => match o with Some x => snd x | None => [] end)) in E. symmetry. exact E.
  - destruct (index t x) as [pos|]; [|now apply IH]. destruct (_ || _); [|now apply IH]. 
    set (best' := match best with None => _ | Some _ => _ end). assert (HB' : forall q : nat * (str * str * str), best' = Some q -> exists n, snd (snd q) = skipn n t).
    { intros q. unfold best'. destruct best as [[p r]|].
      - destruct (Nat.ltb pos p); [|apply HB]. intros E. exists (pos + length x)%nat. replace q with (pos, (firstn pos t, x, skipn (pos + length x) t)) by congruence. reflexivity.
      - intros E. exists (pos + length x)%nat. replace q with (pos, (firstn pos t, x, skipn (pos + length x) t)) by congruence. reflexivity. }
    clearbody best'. destruct (Nat.eqb pos 0); [|now apply IH]. intros E. destruct best' as [q|]; [|discriminate E]. cbn [option_map] in E. destruct (HB' q eq_refl) as (n & HN). exists n. rewrite <- HN. apply (f_equal (fun o : option (str * str * str) => match o with Some x => snd x | None => [] end)) in E. symmetry. exact E.
Qed.
Lemma thin_split ld s k : forall n t, (forall w, contains t w = true -> contains s w = true) -> split_known emin n (thin ld s) t k = split_known emin n ld t k.
Proof.
  induction n as [|n IH]; intros t H; [reflexivity|]. cbn [split_known]. unfold find_known_word. change (ld_known (thin ld s)) with (filter (contains s) (ld_known ld)). rewrite (thin_find ld s t H).
  destruct (empty (trim_space t)); [reflexivity|]. destruct (find_known emin ld t (ld_known ld) None) as [[[a w] b]|] eqn:F; [|reflexivity]. destruct (known_suffix ld t _ None a w b ltac:(discriminate) F) as (m & ->).
  rewrite IH; [reflexivity|]. intros v HV. apply H. rewrite <- (firstn_skipn m t). now apply contains_app_l.
Qed.
Lemma split_single sep s : (forall c, In c s -> has_prefix [c] sep = false) -> sep <> [] -> forall acc, split_from 0 acc s sep = [rev acc ++ s].
Proof.
  intros H NE. induction s as [|c s IH]; intros acc; cbn [split_from]; [now rewrite app_nil_r|]. assert (has_prefix sep (c :: s) = false) as ->.
  { destruct sep as [|x sep]; [congruence|]. specialize (H c (or_introl eq_refl)). cbn [has_prefix] in *. rewrite andb_true_r in H. rewrite Z.eqb_sym, H. reflexivity. }
  rewrite IH by (intros x Hx; apply H; now right). cbn [rev]. now rewrite <- app_assoc.
Qed.
(** the tokens of a text in which the patterns of the locale do not match *)
Definition quick_split (ld th : locale) (s : str) (k : bool) : list str := filter (fun t => negb (empty t)) (split_known emin (S (length s)) th s k).
Definition unmatchedo (s : str) (o : option regex) : bool := match o with Some r => unmatched s r | None => true end.
Lemma quick_split_ok ld s k : asc s -> forallb (fun c => negb (is_upperA c)) s = true -> occurs_in 124 s = false -> unmatchedo s (ld_rx ld) = true -> unmatchedo s (ld_rx_exact ld) = true -> lsplit emin ld s k [] = Ok (quick_split ld (thin ld s) s k).
Proof.
  intros AS LO BAR R1 R2. unfold lsplit.
  assert (match ld_rx ld with Some rx => split_with_regex emin (S (length s)) s rx | None => Ok s end = Ok s) as ->.
  { unfold unmatchedo in R1. destruct (ld_rx ld) as [r|]; [|reflexivity]. cbn [split_with_regex]. change (e_uni emin) with uni_min. now rewrite (unmatched_ok s AS LO r R1). }
  cbn [rbind]. assert (split s split_separator = [s]) as ->.
  { unfold split. rewrite (split_single split_separator s); [reflexivity| |discriminate]. intros c Hc. destruct (Z.eqb_spec c 124) as [->|N]; [rewrite (occurs_in_In 124 s Hc) in BAR; discriminate BAR|]. apply Z.eqb_neq in N. change split_separator with (124 :: tl split_separator). cbn [has_prefix]. now rewrite N. }
  cbn [flat_map]. assert ((match ld_rx_exact ld with Some rx => match_string (e_uni emin) rx s | None => false end) = false) as ->.
  { unfold unmatchedo in R2. destruct (ld_rx_exact ld) as [r|]; [|reflexivity]. unfold match_string. change (e_uni emin) with uni_min. now rewrite (unmatched_ok s AS LO r R2). }
  rewrite app_nil_r. f_equal. unfold quick_split. rewrite (thin_split ld s k _ s (fun w x => x)). apply filter_ext. intros t. cbn [mem existsb]. now rewrite andb_true_r.
Qed.

(** ** The whole check of a text whose translation is known *)
Definition quick_text (ws : list regex) (ld : locale) (names : list str) (s t : str) : bool :=
  if ascb s then if spaced s then if last s 0 =? 58 then false else if forallb (fun c => negb (is_upperA c)) s then if occurs_in 124 s then false else
  if forallb (unmatched s) ws then if unmatchedo s (ld_rx ld) then if unmatchedo s (ld_rx_exact ld) then
  (fun th => (fun toks => if forallb (quick_plain ld) toks then if forallb (fun t => mem t always_kept) toks then false else if forallb (known_min ld) toks then if forallb (token_ok names) toks then
    match create_permutation [] (map (quick_translate ld false) toks) with
    | Ok [p] => if eqs (finish_translation false p) t then
        (fun toks2 => if forallb (quick_plain ld) toks2 then if forallb (token_ok names) toks2 then match create_permutation [] (map (quick_translate ld true) toks2) with Ok _ => true | _ => false end else false else false) (quick_split ld th s true)
      else false
    | _ => false end
    else false else false else false) (quick_split ld th s false)) (thin ld s)
  else false else false else false else false else false else false.
Lemma quick_text_ok ld names s t l : quick_mixed ld = true -> quick_text (widened_simpl ld) ld names s t = true -> forallb (fun r => shapeless r s) front_patterns = true -> quiet t = true -> actions emin t = l ->
  ok_text (widened_simpl ld) ld names s l = true.
Proof.
  intros HM HQ HF QT HA. apply quick_mixed_ok in HM. unfold quick_text in HQ. cbv beta in HQ. destruct (ascb s) eqn:AS; [|discriminate HQ]. destruct (spaced s) eqn:SP; [|discriminate HQ]. destruct (last s 0 =? 58) eqn:LS; [discriminate HQ|]. destruct (forallb _ s) eqn:LO; [|discriminate HQ].
  destruct (occurs_in 124 s) eqn:BAR; [discriminate HQ|]. destruct (forallb (unmatched s) _) eqn:WS; [|discriminate HQ]. destruct (unmatchedo s (ld_rx ld)) eqn:R1; [|discriminate HQ]. destruct (unmatchedo s (ld_rx_exact ld)) eqn:R2; [|discriminate HQ].
  pose proof (proj1 (ascb_asc s) AS) as A. assert (W : forallb (fun r => negb (match_string uni_min r s)) (widened_simpl ld) = true).
  { revert WS. apply forallb_weaken. intros r H. unfold match_string. now rewrite (unmatched_ok s A LO r H). }
  pose proof (fun k => quick_split_ok ld s k A LO BAR R1 R2) as LSP. set (toks := quick_split ld (thin ld s) s false) in *. set (toks2 := quick_split ld (thin ld s) s true) in *.
  destruct (forallb (quick_plain ld) toks) eqn:Q1; [|discriminate HQ]. destruct (forallb (fun t => mem t always_kept) toks) eqn:K; [discriminate HQ|]. destruct (forallb (known_min ld) toks) eqn:KM; [|discriminate HQ]. destruct (forallb (token_ok names) toks) eqn:T1; [|discriminate HQ].
  destruct (create_permutation [] (map (quick_translate ld false) toks)) as [[|p [|]]| |] eqn:C1; try discriminate HQ. destruct (eqs _ t) eqn:ET; [|discriminate HQ]. apply eqs_eq in ET. destruct (forallb (quick_plain ld) toks2) eqn:Q2; [|discriminate HQ]. destruct (forallb (token_ok names) toks2) eqn:T2; [|discriminate HQ].
  destruct (create_permutation [] (map (quick_translate ld true) toks2)) as [ps2| |] eqn:C2; try discriminate HQ. clear HQ.
  assert (F1 : fast_analysis ld s false = Some (toks, [t])) by (unfold fast_analysis; rewrite (LSP false); fold toks; rewrite Q1, C1; cbn [map]; now rewrite ET).
  assert (F2 : fast_analysis ld s true = Some (toks2, map (finish_translation true) ps2)) by (unfold fast_analysis; rewrite (LSP true); fold toks2; now rewrite Q2, C2).
  unfold ok_text, shape_with, tidy. rewrite AS, SP, LS, HF. cbn [andb negb]. rewrite (fast_analysis_ok _ ld s false _ HM W F1), (fast_analysis_ok _ ld s true _ HM W F2), QT, K, KM. rewrite forallb_app, T1, T2. cbn [andb]. subst l. clear.
  generalize (actions emin t). intros l. induction l as [|x l IH]; [reflexivity|]. cbn [actions_eqb]. rewrite IH, andb_true_r. destruct x; cbn [action_eqb]; apply eqs_eq; reflexivity.
Qed.
