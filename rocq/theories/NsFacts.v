(** The candidates of the no-space parser are the cuts of the specification *)
From Coq Require Import ZifyBool.
From Verif Require Import GoBase Civil GoTime GoTimeFacts GoTimeParse Setting Dateutil DateutilFacts Env Common AbsFacts AbsFacts2 LayoutFacts Prop_Clock NoSpace NsSpec.
Ltac Zify.zify_post_hook ::= Z.div_mod_to_equations.

(** ** All the formats *)
Definition formats : list string := (preferred_formats ++ all_formats)%list.
Lemma formats_of order fs f : datetime_formats order = Some fs -> In f fs -> In f formats.
Proof.
  assert (S : forall p, In f (sorted_formats p) -> In f all_formats).
  { intros p. unfold sorted_formats. intros H. apply in_app_or in H as [H|H]; apply filter_In in H; tauto. }
  intros H HF. unfold formats. apply in_or_app. unfold datetime_formats in H. destruct (eqs order (lit "mdy")).
  - apply some_inj in H. subst fs. apply in_app_or in HF as [HF|HF]; [now left|right; eauto].
  - right. repeat match type of H with (if ?b then _ else _) = _ => destruct b end; try discriminate H; apply some_inj in H; subst fs; eauto.
Qed.

(** ** The permutations *)
Definition all_widths (p : part) : list Z := match p with FY => [4; 3; 2; 1] | _ => [2; 1] end.
Fixpoint lims (ps : list part) : list (list Z) :=
  match ps with [] => [[]] | p :: ps' => flat_map (fun n => map (cons n) (lims ps')) (all_widths p) end.
Lemma map_eq_in {A B} (f g : A -> B) l : map f l = map g l -> forall x, In x l -> f x = g x.
Proof. induction l as [|a l IH]; cbn [map]; intros H x []; [subst; congruence|]. apply IH; [congruence|assumption]. Qed.
Lemma perms_check : map (fun f => limit_permutations (format_parts f)) formats = map (fun f => lims (format_parts f)) formats.
Proof. vm_compute. reflexivity. Qed.
Lemma perms f : In f formats -> limit_permutations (format_parts f) = lims (format_parts f).
Proof. exact (map_eq_in _ _ formats perms_check f). Qed.
(** ** The layouts *)
Definition std_of (p : part) : std := match p with FY => StdLongYear | Fy => StdYear | Fm => StdNumMonth | Fd => StdDay | FH => StdHour | FM => StdMinute | FS => StdSecond end.
Definition chunks_for (ps : list part) : list (str * std) := match ps with [] => [] | p :: ps' => ([], std_of p) :: map (fun p => ([45], std_of p)) ps' end.
Lemma layouts_check : map (fun f => chunks_of (go_format (format_parts f))) formats = map (fun f => (chunks_for (format_parts f), [])) formats.
Proof. vm_compute. reflexivity. Qed.
Lemma layouts f : In f formats -> chunks_of (go_format (format_parts f)) = (chunks_for (format_parts f), []).
Proof. exact (map_eq_in _ _ formats layouts_check f). Qed.
(** no field twice, one kind of year *)
Definition part_eq_dec : forall a b : part, {a = b} + {a <> b}. Proof. decide equality. Defined.
Definition one_year (ps : list part) : Prop := ~ (In FY ps /\ In Fy ps).
Lemma parts_check : forallb (fun f => let ps := format_parts f in Nat.eqb (length (nodup part_eq_dec ps)) (length ps) && negb (existsb (part_eqb FY) ps && existsb (part_eqb Fy) ps)) formats = true.
Proof. vm_compute. reflexivity. Qed.
Lemma part_eqb_eq a b : part_eqb a b = true <-> a = b.
Proof. destruct a, b; cbn; split; intros H; reflexivity || discriminate H || congruence. Qed.
Lemma existsb_part p ps : existsb (part_eqb p) ps = true <-> In p ps.
Proof. rewrite existsb_exists. split; [intros (x & H1 & H2); apply part_eqb_eq in H2; now subst|intros H; exists p; split; [exact H|now apply part_eqb_eq]]. Qed.
Lemma nodup_length {A} (dec : forall a b : A, {a = b} + {a <> b}) l : length (nodup dec l) = length l -> NoDup l.
Proof.
  induction l as [|a l IH]; [constructor|]. cbn [nodup length]. pose proof (NoDup_nodup dec l). assert (LL : (length (nodup dec l) <= length l)%nat) by (clear; induction l as [|x l IH]; [reflexivity|]; cbn [nodup length]; destruct (in_dec dec x l); cbn [length]; lia).
  destruct (in_dec dec a l); cbn [length]; [lia|]. intros E. constructor; [assumption|]. apply IH. lia.
Qed.
Lemma parts_wf f : In f formats -> NoDup (format_parts f) /\ one_year (format_parts f).
Proof.
  intros H. pose proof parts_check as P. rewrite forallb_forall in P. specialize (P f H). cbv zeta in P. apply andb_true_iff in P as [P1 P2]. apply Nat.eqb_eq in P1. split; [now apply nodup_length in P1|].
  intros [I1 I2]. apply existsb_part in I1, I2. rewrite I1, I2 in P2. discriminate P2.
Qed.

(** ** Cutting *)
Fixpoint pieces (s : str) (l : list Z) : list str := match l with [] => [] | n :: l' => firstn (Z.to_nat n) s :: pieces (skipn (Z.to_nat n) s) l' end.
Fixpoint fits (ps : list part) (l : list Z) : bool :=
  match ps, l with
  | [], [] => true
  | p :: ps', n :: l' => existsb (fun w => Z.of_nat w =? n) (widths p) && fits ps' l'
  | _, _ => false
  end.
Lemma lims_len ps : forall l, In l (lims ps) -> length l = length ps /\ Forall (fun n => 1 <= n) l.
Proof.
  induction ps as [|p ps IH]; intros l; cbn [lims]; [intros [<-|[]]; auto|]. rewrite in_flat_map. intros (n & Hn & H). apply in_map_iff in H as (l' & <- & H'). destruct (IH l' H') as [IH1 IH2]. split; [cbn; lia|]. constructor; [|exact IH2]. destruct p; cbn in Hn; lia.
Qed.
Lemma zsum_cons n l : zsum (n :: l) = n + zsum l. Proof. reflexivity. Qed.
Lemma lims_pos ps l : In l (lims ps) -> 0 <= zsum l.
Proof. intros H. apply lims_len in H as [_ H]. induction H; [cbn; lia|]. rewrite zsum_cons. lia. Qed.
Lemma filter_flat_map {A B} (g : B -> bool) (f : A -> list B) l : filter g (flat_map f l) = flat_map (fun x => filter g (f x)) l.
Proof. induction l as [|a l IH]; [reflexivity|]. cbn [flat_map]. now rewrite filter_app, IH. Qed.
Lemma map_flat_map {A B C} (g : B -> C) (f : A -> list B) l : map g (flat_map f l) = flat_map (fun x => map g (f x)) l.
Proof. induction l as [|a l IH]; [reflexivity|]. cbn [flat_map]. now rewrite map_app, IH. Qed.
Lemma filter_map {A B} (g : B -> bool) (f : A -> B) l : filter g (map f l) = map f (filter (fun x => g (f x)) l).
Proof. induction l as [|a l IH]; [reflexivity|]. cbn [map filter]. destruct (g (f a)); cbn [map]; now rewrite IH. Qed.
Lemma filter_none {A} (g : A -> bool) l : (forall x, In x l -> g x = false) -> filter g l = [].
Proof. induction l as [|a l IH]; [reflexivity|]. intros H. cbn [filter]. rewrite (H a) by now left. apply IH. intros x Hx. apply H. now right. Qed.
Definition sel (ps : list part) (s : str) (l : list Z) : bool := (zsum l =? slen s) && fits ps l.
Lemma sel_cons p ps s n l : In l (lims ps) -> In n (all_widths p) -> Nat.leb (Z.to_nat n) (length s) = true ->
  sel (p :: ps) s (n :: l) = existsb (fun w => Z.of_nat w =? n) (widths p) && sel ps (skipn (Z.to_nat n) s) l.
Proof.
  intros HL HN HB. unfold sel. cbn [fits]. rewrite zsum_cons. apply Nat.leb_le in HB. unfold slen. rewrite skipn_length. assert (0 <= n) by (destruct p; cbn in HN; lia).
  replace (n + zsum l =? Z.of_nat (length s)) with (zsum l =? Z.of_nat (length s - Z.to_nat n)) by lia. destruct (existsb _ _), (zsum l =? _), (fits ps l); reflexivity.
Qed.
Lemma sel_long p ps s n l : In l (lims ps) -> Nat.leb (Z.to_nat n) (length s) = false -> sel (p :: ps) s (n :: l) = false.
Proof. intros HL HB. unfold sel. rewrite zsum_cons. apply Nat.leb_gt in HB. pose proof (lims_pos ps l HL). unfold slen. replace (n + zsum l =? Z.of_nat (length s)) with false by lia. reflexivity. Qed.
Lemma filter_ext_in' {A} (f g : A -> bool) l : (forall a, In a l -> f a = g a) -> filter f l = filter g l.
Proof. apply filter_ext_in. Qed.
Lemma one_width p ps s n : In n (all_widths p) -> (forall s, map (pieces s) (filter (sel ps s) (lims ps)) = splits ps s) ->
  map (pieces s) (filter (sel (p :: ps) s) (map (cons n) (lims ps))) =
  if existsb (fun w => Z.of_nat w =? n) (widths p) then if Nat.leb (Z.to_nat n) (length s) then map (cons (firstn (Z.to_nat n) s)) (splits ps (skipn (Z.to_nat n) s)) else [] else [].
Proof.
  intros HN IH. rewrite filter_map, map_map. cbn [pieces]. destruct (Nat.leb (Z.to_nat n) (length s)) eqn:HB.
  - rewrite (filter_ext_in' _ (fun l => existsb (fun w => Z.of_nat w =? n) (widths p) && sel ps (skipn (Z.to_nat n) s) l)) by (intros l Hl; now apply sel_cons).
    destruct (existsb _ _); cbn [andb]; [|now rewrite filter_none by reflexivity]. rewrite <- IH, map_map. reflexivity.
  - rewrite filter_none by (intros l Hl; now apply sel_long). destruct (existsb _ _); reflexivity.
Qed.
Lemma splits_lims ps : forall s, map (pieces s) (filter (sel ps s) (lims ps)) = splits ps s.
Proof.
  induction ps as [|p ps IH]; intros s.
  - cbn [lims splits]. unfold sel. cbn [filter fits]. unfold zsum, slen. cbn [fold_right]. destruct s; reflexivity.
  - cbn [lims]. rewrite filter_flat_map, map_flat_map.
    assert (G : forall l, (forall n, In n l -> In n (all_widths p)) -> flat_map (fun n => map (pieces s) (filter (sel (p :: ps) s) (map (cons n) (lims ps)))) l =
      flat_map (fun n => if existsb (fun w => Z.of_nat w =? n) (widths p) then if Nat.leb (Z.to_nat n) (length s) then map (cons (firstn (Z.to_nat n) s)) (splits ps (skipn (Z.to_nat n) s)) else [] else []) l).
    { induction l as [|n l IHl]; intros H; [reflexivity|]. cbn [flat_map]. rewrite one_width by (auto; apply H; now left). rewrite IHl by (intros; apply H; now right). reflexivity. }
    rewrite G by auto. cbn [splits]. destruct p; cbn [all_widths widths flat_map existsb Z.of_nat Pos.of_succ_nat Pos.succ Z.eqb Pos.eqb orb Z.to_nat Pos.to_nat Pos.iter_op Nat.add]; reflexivity.
Qed.
