(** Unix timestamps: what the two patterns match *)
From Coq Require Import ZifyBool.
From Verif Require Import GoBase SMap Regex RegexFacts RegexFacts2 RegexFacts3 RegexFacts4 GoTime Setting Env Timestamp Utf8Facts AbsFacts2.

Lemma decode_high x t : 128 <= x -> 128 <= fst (decode_rune (x :: t)).
Proof.
  intros Hx. unfold decode_rune. unfold rune_error, cont. repeat match goal with |- context [if ?b then _ else _] => destruct b eqn:? | |- context [match ?l with [] => _ | _ :: _ => _ end] => destruct l end; cbn [fst]; lia.
Qed.

(** the first [n] bytes are digits *)
Definition lead (n : nat) (s : str) : bool := Nat.leb n (length s) && forallb is_digitA (firstn n s).
(** after the digits: the end, a '.' or white space *)
Definition space_byte (c : Z) : bool := ((9 <=? c) && (c <=? 10)) || ((12 <=? c) && (c <=? 13)) || (c =? 32).
Definition ends (s : str) : bool := match s with [] => true | c :: _ => (c =? 46) || space_byte c end.

Section U.
Variable U : uni.
Definition digitc : re := Cls false {| cl_neg := false; cl_items := [IRange 48 57] |}.
Fixpoint dseq (n : nat) : re := match n with O => Eps | S O => digitc | S n' => Cat digitc (dseq n') end.
Definition term : re := Alt (Chr false 46) (Alt (Cls false {| cl_neg := false; cl_items := [IRange 9 10; IRange 12 13; IRange 32 32] |}) Eot).
Definition tail : re := Cat (Alt (Grp 2 (dseq 3)) Eps) (Cat (Alt (Grp 3 (dseq 3)) Eps) term).
Lemma ast_pos : rx_ast rxTimestamp = Cat Bot (Cat (Grp 1 (dseq 10)) tail). Proof. reflexivity. Qed.
Lemma ast_neg : rx_ast rxNegativeTimestamp = Cat Bot (Cat (Grp 1 (Cat (Cls false {| cl_neg := false; cl_items := [IRange 45 45] |}) (dseq 10))) tail). Proof. reflexivity. Qed.

Lemma mtch_digit s k : mtch U digitc s k = match m_rest s with [] => None | x :: t => if is_digitA x then k (Build_mst x t (m_pos s + 1) (m_caps s)) else None end.
Proof.
  cbn [mtch digitc]. unfold step. destruct (m_rest s) as [|x t]; [reflexivity|]. destruct (Z.ltb_spec x 128) as [Hx|Hx].
  - rewrite rune1 by exact Hx. unfold cls_has. cbn [existsb cl_items cl_neg xorb item_has]. unfold is_digitA. cbn [skipn]. destruct ((48 <=? x) && (x <=? 57)) eqn:D; cbn [orb]; reflexivity.
  - pose proof (decode_high x t Hx) as DH. destruct (decode_rune (x :: t)) as [r w] eqn:DR. cbn [fst] in DH. unfold cls_has. cbn [existsb cl_items cl_neg xorb item_has].
    assert ((48 <=? r) && (r <=? 57) || false = false) as -> by lia. unfold is_digitA. assert ((48 <=? x) && (x <=? 57) = false) as -> by lia. reflexivity.
Qed.
Definition adv (n : nat) (s : mst) : mst := Build_mst (last (firstn n (m_rest s)) (m_prev s)) (skipn n (m_rest s)) (m_pos s + n) (m_caps s).
Lemma lead_S n x t : lead (S n) (x :: t) = is_digitA x && lead n t.
Proof. unfold lead. cbn [length Nat.leb firstn forallb]. destruct (is_digitA x), (Nat.leb n (length t)); reflexivity. Qed.
Lemma mtch_dseq : forall n s k, mtch U (dseq (S n)) s k = if lead (S n) (m_rest s) then k (adv (S n) s) else None.
Proof.
  induction n as [|n IH]; intros s k.
  - change (dseq 1) with digitc. rewrite mtch_digit. destruct s as [prev rest pos caps]. cbn [m_rest m_pos m_caps]. destruct rest as [|x t]; [reflexivity|]. rewrite lead_S. change (lead 0 t) with true. rewrite andb_true_r. destruct (is_digitA x); reflexivity.
  - change (dseq (S (S n))) with (Cat digitc (dseq (S n))). cbn [mtch]. rewrite mtch_digit. destruct s as [prev rest pos caps]. cbn [m_rest m_pos m_caps]. destruct rest as [|x t]; [reflexivity|]. rewrite lead_S. destruct (is_digitA x); [|reflexivity].
    cbn [andb]. rewrite IH. cbn [m_rest]. destruct (lead (S n) t) eqn:L; [|reflexivity]. f_equal. unfold adv. cbn [m_rest m_prev m_pos m_caps skipn firstn]. f_equal; [|lia].
    destruct t as [|y t]; [discriminate L|]. cbn [firstn last]. destruct (firstn n t) eqn:FN; [reflexivity|]. clear. generalize z. induction l as [|a l IH]; intros b; [reflexivity|]. cbn [last] in *. destruct l; [reflexivity|]. apply (IH a).
Qed.
Lemma mtch_term s : exists s', m_caps s' = m_caps s /\ mtch U term s Some = if ends (m_rest s) then Some s' else None.
Proof.
  destruct s as [prev rest pos caps]. unfold term. cbn [mtch]. unfold step. cbn [m_rest m_pos m_caps]. destruct rest as [|x t]; [eexists; split; [|reflexivity]; reflexivity|].
  cbn [ends]. destruct (Z.ltb_spec x 128) as [Hx|Hx].
  - rewrite rune1 by exact Hx. unfold chr_is. destruct (x =? 46); [eexists; split; [|reflexivity]; reflexivity|]. cbn [orb]. unfold cls_has. cbn [existsb cl_items cl_neg xorb item_has]. unfold space_byte.
    destruct ((9 <=? x) && (x <=? 10) || ((12 <=? x) && (x <=? 13) || ((32 <=? x) && (x <=? 32) || false))) eqn:D.
    + assert ((9 <=? x) && (x <=? 10) || (12 <=? x) && (x <=? 13) || (x =? 32) = true) as -> by lia. eexists; split; [|reflexivity]; reflexivity.
    + assert ((9 <=? x) && (x <=? 10) || (12 <=? x) && (x <=? 13) || (x =? 32) = false) as -> by lia. eexists; split; [|reflexivity]. instantiate (1 := Build_mst 0 [] 0 caps). reflexivity.
  - pose proof (decode_high x t Hx) as DH. destruct (decode_rune (x :: t)) as [r w] eqn:DR. cbn [fst] in DH. unfold chr_is, cls_has. cbn [existsb cl_items cl_neg xorb item_has]. unfold space_byte.
    assert (r =? 46 = false) as -> by lia. assert ((9 <=? r) && (r <=? 10) || ((12 <=? r) && (r <=? 13) || ((32 <=? r) && (r <=? 32) || false)) = false) as -> by lia.
    assert ((x =? 46) || ((9 <=? x) && (x <=? 10) || (12 <=? x) && (x <=? 13) || (x =? 32)) = false) as -> by lia. exists (Build_mst 0 [] 0 caps). auto.
Qed.
Lemma lead_not_ends n s : lead (S n) s = true -> ends s = false.
Proof. destruct s as [|x t]; [discriminate|]. rewrite lead_S. intros H. apply andb_true_iff in H as [H _]. unfold is_digitA in H. unfold ends, space_byte. lia. Qed.

(** the captures of the tail: how many digits belong to the number *)
Definition tail_caps (pos : nat) (rest : str) (caps : list (nat * (nat * nat))) : option (list (nat * (nat * nat))) :=
  if ends rest then Some caps
  else if lead 3 rest then
    if ends (skipn 3 rest) then Some ((2%nat, (pos, pos + 3)%nat) :: caps)
    else if lead 3 (skipn 3 rest) && ends (skipn 6 rest) then Some ((3%nat, (pos + 3, pos + 6)%nat) :: (2%nat, (pos, pos + 3)%nat) :: caps)
    else None
  else None.
Lemma mtch_tail s : option_map m_caps (mtch U tail s Some) = tail_caps (m_pos s) (m_rest s) (m_caps s).
Proof.
  destruct s as [prev rest pos caps]. cbn [m_pos m_rest m_caps]. unfold tail_caps.
  assert (G3 : forall s', option_map m_caps (mtch U (Cat (Alt (Grp 3 (dseq 3)) Eps) term) s' Some) =
    if ends (m_rest s') then Some (m_caps s') else if lead 3 (m_rest s') && ends (skipn 3 (m_rest s')) then Some ((3%nat, (m_pos s', m_pos s' + 3)%nat) :: m_caps s') else None).
  { intros s'. change (mtch U (Cat (Alt (Grp 3 (dseq 3)) Eps) term) s' Some) with
      (match mtch U (dseq 3) s' (fun s2 => mtch U term (Build_mst (m_prev s2) (m_rest s2) (m_pos s2) ((3%nat, (m_pos s', m_pos s2)) :: m_caps s2)) Some) with Some x => Some x | None => mtch U term s' Some end).
    rewrite mtch_dseq. destruct (mtch_term s') as (e & HE & ->). destruct (lead 3 (m_rest s')) eqn:L; cbn [andb].
    - rewrite (lead_not_ends 2 _ L). match goal with |- context [mtch U term ?x Some] => destruct (mtch_term x) as (e2 & HE2 & ->) end. cbn [adv m_rest m_pos m_caps] in *. destruct (ends (skipn 3 (m_rest s'))); [cbn [option_map]; now rewrite HE2|reflexivity].
    - destruct (ends (m_rest s')); [cbn [option_map]; now rewrite HE|reflexivity]. }
  set (s := Build_mst prev rest pos caps). change (mtch U tail s Some) with
      (match mtch U (dseq 3) s (fun s2 => mtch U (Cat (Alt (Grp 3 (dseq 3)) Eps) term) (Build_mst (m_prev s2) (m_rest s2) (m_pos s2) ((2%nat, (m_pos s, m_pos s2)) :: m_caps s2)) Some) with Some x => Some x | None => mtch U (Cat (Alt (Grp 3 (dseq 3)) Eps) term) s Some end).
  rewrite mtch_dseq. pose proof (G3 s) as G0. change (m_rest s) with rest in *. change (m_caps s) with caps in *. change (m_pos s) with pos in *. destruct (lead 3 rest) eqn:L.
  - rewrite (lead_not_ends 2 _ L). match goal with |- context [mtch U _ ?x Some] => pose proof (G3 x) as G1; destruct (mtch U _ x Some) as [e|] end; cbn [option_map adv m_rest m_pos m_caps] in *; change (m_rest s) with rest in *; change (m_caps s) with caps in *; change (m_pos s) with pos in *; rewrite ?skipn_skipn in G1; cbn [Nat.add] in G1.
    + rewrite G1. replace (pos + 3 + 3)%nat with (pos + 6)%nat by lia. reflexivity.
    + rewrite G0. rewrite (lead_not_ends 2 _ L). cbn [andb]. clear G0. destruct (ends (skipn 3 rest)); [congruence|]. destruct (lead 3 (skipn 3 rest) && ends (skipn 6 rest)); [congruence|reflexivity].
  - rewrite G0. cbn [andb]. reflexivity.
Qed.
End U.

(** ** The whole pattern *)
Section Whole.
Variable U : uni.
Definition stamp_caps (n : nat) (s : str) : option (list (nat * (nat * nat))) :=
  if lead n s then tail_caps n (skipn n s) [(1%nat, (0, n)%nat)] else None.
Lemma anchored r s : (forall st, m_pos st <> 0%nat -> mtch U r st Some = None) -> option_map mt_caps (first_match U r (states s)) = option_map m_caps (mtch U r (start s) Some).
Proof.
  intros HA. unfold states. assert (LATE : forall ws pos prev t, (pos <> 0)%nat -> first_match U r (states_from prev pos ws t) = None).
  { induction ws as [|[c w] ws IH]; intros pos prev t HP; cbn [states_from first_match]; unfold match_here; rewrite HA by exact HP; [reflexivity|]. apply IH. lia. }
  assert (ST : exists ws, states_from (-1) 0 (decode s) s = start s :: ws /\ first_match U r ws = None).
  { destruct (decode s) as [|[c w] ws] eqn:ED; cbn [states_from]; [exists []; auto|]. exists (states_from c (0 + w) ws (skipn w s)). split; [reflexivity|]. apply LATE.
    destruct s as [|x t]; [discriminate ED|]. rewrite decode_unfold in ED by discriminate. destruct (decode_rune_width (x :: t)) as [W _]; [discriminate|]. assert (decode_rune (x :: t) = (c, w)) as EW by congruence. rewrite EW in W. cbn [snd] in W. lia. }
  destruct ST as (ws & -> & HW). cbn [first_match]. rewrite HW. unfold match_here. destruct (mtch U r (start s) Some); reflexivity.
Qed.
Lemma late_bot a st : m_pos st <> 0%nat -> mtch U (Cat Bot a) st Some = None.
Proof. intros H. cbn [mtch]. destruct (m_pos st); [congruence|reflexivity]. Qed.
Lemma find_pos s : option_map mt_caps (find U rxTimestamp s) = stamp_caps 10 s.
Proof.
  unfold find. rewrite ast_pos, anchored by (intros; now apply late_bot).
  change (mtch U (Cat Bot (Cat (Grp 1 (dseq 10)) tail)) (start s) Some) with (mtch U (dseq 10) (start s) (fun s2 => mtch U tail (Build_mst (m_prev s2) (m_rest s2) (m_pos s2) ((1%nat, (0%nat, m_pos s2)) :: m_caps s2)) Some)).
  rewrite mtch_dseq. change (m_rest (start s)) with s. unfold stamp_caps. destruct (lead 10 s); [|reflexivity]. rewrite mtch_tail. reflexivity.
Qed.
Lemma find_neg s : option_map mt_caps (find U rxNegativeTimestamp s) =
  match s with c :: t => if (c =? 45) && lead 10 t then tail_caps 11 (skipn 10 t) [(1%nat, (0, 11)%nat)] else None | [] => None end.
Proof.
  unfold find. rewrite ast_neg, anchored by (intros; now apply late_bot).
  change (mtch U (Cat Bot (Cat (Grp 1 (Cat (Cls false {| cl_neg := false; cl_items := [IRange 45 45] |}) (dseq 10))) tail)) (start s) Some) with
    (step (start s) (cls_has U false {| cl_neg := false; cl_items := [IRange 45 45] |}) (fun s1 => mtch U (dseq 10) s1 (fun s2 => mtch U tail (Build_mst (m_prev s2) (m_rest s2) (m_pos s2) ((1%nat, (0%nat, m_pos s2)) :: m_caps s2)) Some))).
  unfold step. change (m_rest (start s)) with s. destruct s as [|x t]; [reflexivity|]. destruct (Z.ltb_spec x 128) as [Hx|Hx].
  - rewrite rune1 by exact Hx. unfold cls_has. cbn [existsb cl_items cl_neg xorb item_has]. destruct (x =? 45) eqn:E4.
    + assert ((45 <=? x) && (x <=? 45) || false = true) as -> by lia. cbn [andb]. rewrite mtch_dseq. cbn [m_rest skipn]. destruct (lead 10 t); [|reflexivity]. rewrite mtch_tail. reflexivity.
    + assert ((45 <=? x) && (x <=? 45) || false = false) as -> by lia. reflexivity.
  - pose proof (decode_high x t Hx) as DH. destruct (decode_rune (x :: t)) as [r w] eqn:DR. cbn [fst] in DH. unfold cls_has. cbn [existsb cl_items cl_neg xorb item_has].
    assert ((45 <=? r) && (r <=? 45) || false = false) as -> by lia. assert (x =? 45 = false) as -> by lia. reflexivity.
Qed.
End Whole.
