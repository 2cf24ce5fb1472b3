(** The no-space parser on one run of digits *)
From Coq Require Import ZifyBool.
From Verif Require Import GoBase Civil GoTime GoTimeFacts GoTimeParse Setting Dateutil DateutilFacts Tokenizer Env Common AbsFacts AbsFacts2 LayoutFacts Prop_Clock NoSpace NsSpec NsFacts NsFacts2.
Ltac Zify.zify_post_hook ::= Z.div_mod_to_equations.

Lemma number_bound t : digs t -> (length t <= 4)%nat -> 0 <= number 0 t <= 9999.
Proof.
  intros HD HL. destruct t as [|a [|b [|c [|d [|e t]]]]]; cbn [length] in HL; try lia; cbn [number]; repeat match goal with H : digs (_ :: _) |- _ => inversion H; clear H; subst | H : Forall _ (_ :: _) |- _ => inversion H; clear H; subst end; lia.
Qed.
Lemma ok_range ps ts : Forall piece_ok (combine ps ts) -> forallb ok_val (combine ps ts) = forallb (fun x => in_range (fst x) (number 0 (snd x))) (combine ps ts).
Proof.
  induction 1 as [|[p t] l [HD HL] _ IH]; [reflexivity|]. cbn [forallb fst snd]. rewrite IH. f_equal. unfold ok_val. cbn [fst snd] in *. assert (0 <= number 0 t <= 9999) by (apply number_bound; [exact HD|destruct p; lia]). destruct p; cbn [value_valid in_range]; lia.
Qed.

Section E.
Variable E : env.
Definition good_guess : Prop := forall y, 0 <= y <= 99 -> leap (guess_year E y) = leap (century y).
Lemma guess_2000 : 2001 <= clock_year E <= 2999 -> good_guess.
Proof.
  intros H y Hy. unfold guess_year, century. set (a := clock_year E) in *. clearbody a. rewrite Z.quot_div_nonneg by lia. replace (a / 1000) with 2 by lia.
  destruct (Z.eq_dec y 0) as [->|Hn].
  - assert (0 <? a - 2 * 1000 = true) as -> by lia. reflexivity.
  - assert (L : leap (y + 2 * 1000) = leap (y + (2 * 1000 - 100))) by (unfold leap; apply eq_true_iff_eq; lia).
    assert (L2 : leap (1900 + y) = leap (y + (2 * 1000 - 100))) by (f_equal; lia). assert (L3 : leap (2000 + y) = leap (y + 2 * 1000)) by (f_equal; lia).
    destruct (y <? a - 2 * 1000), (69 <=? y); congruence.
Qed.

Local Opaque mk_date.
Lemma or0_dflt o : dflt o 0 = or0 o. Proof. destruct o; reflexivity. Qed.
Lemma parse_pieces f ts y m d : let ps := format_parts f in In f formats -> length ts = length ps -> Forall piece_ok (combine ps ts) -> forallb ok_val (combine ps ts) = true ->
  the_year ps ts = Some y -> field Fm ps ts = Some m -> field Fd ps ts = Some d ->
  time_parse (e_local E) (go_format ps) (sjoin ts (lit "-")) =
  if fits_len ps ts then if d <=? days_in y m then Some (mk_date y m d (or0 (field FH ps ts)) (or0 (field FM ps ts)) (or0 (field FS ps ts)) 0 utc) else None else None.
Proof.
  intros ps HF HL HO HV Hy Hm Hd. unfold time_parse, tparse. unfold ps. rewrite layouts by exact HF. fold ps. rewrite chunks_first by assumption. destruct (fits_len ps ts); cbn [obind]; [|reflexivity].
  destruct (parts_wf f HF) as [ND OY]. fold ps in ND, OY. destruct (setall_fields ps ND OY ts pst0) as (F1 & F2 & F3 & F4 & F5 & F6). destruct (setall_consts ps ts pst0) as (G1 & G2 & G3 & G4 & G5 & G6 & G7).
  rewrite Hy in F1. rewrite Hm in F2. rewrite Hd in F3. cbn [dflt] in F1, F2, F3. pose proof (field_valid ps ts Fm m HV Hm) as Vm. pose proof (field_valid ps ts Fd d HV Hd) as Vd. cbn [value_valid] in Vm, Vd.
  unfold finish_md. rewrite F1, F2, F3, F4, F5, F6, G1, G2, G3, G4, G5, G6, G7. cbn [pst0 p_yday p_nsec p_am p_pm p_z p_zoff p_zname p_hour p_min p_sec andb]. change (0 <=? -1) with false. cbv iota. cbn [obind].
  assert (m <? 0 = false) as -> by lia. assert (d <? 0 = false) as -> by lia. assert (d <? 1 = false) as -> by lia. cbn [orb]. change (-1 =? -1) with true. cbn [negb empty]. rewrite !or0_dflt.
  destruct (days_in y m <? d) eqn:A, (d <=? days_in y m) eqn:B; try lia; reflexivity.
Qed.
Definition cand_time (s : str) (f : string) (l : list Z) : option time :=
  match cut s (format_parts f) l with Some c => if candidate_valid E c then time_parse (e_local E) (go_format (format_parts f)) (candidate_text c) else None | None => None end.
Lemma cand_text ps ts : length ts = length ps -> candidate_text (map with_val (combine ps ts)) = sjoin ts (lit "-").
Proof.
  intros HL. unfold candidate_text. f_equal. rewrite map_map. revert ts HL. induction ps as [|p ps IH]; intros [|t ts] HL; cbn [length] in HL; try discriminate HL; [reflexivity|]. cbn [combine map]. rewrite IH by congruence. reflexivity.
Qed.
Lemma cand_read s f l : In f formats -> digs s -> In l (lims (format_parts f)) -> zsum l = slen s ->
  (forall t, cand_time s f l = Some t -> fits (format_parts f) l = true /\ read (format_parts f) (pieces s l) = Some t) /\
  (good_guess -> fits (format_parts f) l = true -> cand_time s f l = read (format_parts f) (pieces s l)) /\ (fits (format_parts f) l = false -> cand_time s f l = None).
Proof.
  intros HF HS HI HZ. unfold cand_time. set (ps := format_parts f) in *. destruct (lims_len ps l HI) as [HL HP]. rewrite cut_pieces by assumption. pose proof (pieces_ok ps s l HS HI HZ) as PO.
  rewrite <- (fits_pieces ps s l) by assumption. assert (LT : length (pieces s l) = length ps) by (rewrite pieces_len; exact HL). set (ts := pieces s l) in *. clearbody ts.
  unfold read. rewrite <- ok_range by exact PO. destruct (forallb ok_val (combine ps ts)) eqn:HV; [|split; [discriminate|split; reflexivity]].
  unfold candidate_valid, candidate_year. rewrite !part_value_field, cand_text by exact LT. unfold the_year.
  destruct (field Fm ps ts) as [m|] eqn:Hm; [|destruct (field FY ps ts), (field Fy ps ts); (split; [discriminate|split; reflexivity])].
  destruct (field Fd ps ts) as [d|] eqn:Hd; [|destruct (field FY ps ts), (field Fy ps ts); (split; [discriminate|split; reflexivity])].
  pose proof (field_valid ps ts Fm m HV Hm) as Vm. pose proof (field_valid ps ts Fd d HV Hd) as Vd. cbn [value_valid] in Vm, Vd.
  assert (P : forall y, the_year ps ts = Some y -> time_parse (e_local E) (go_format ps) (sjoin ts (lit "-")) =
    if fits_len ps ts then if d <=? days_in y m then Some (mk_date y m d (or0 (field FH ps ts)) (or0 (field FM ps ts)) (or0 (field FS ps ts)) 0 utc) else None else None) by (intros y Hy; now apply parse_pieces).
  unfold the_year in P. destruct (field FY ps ts) as [y|] eqn:HY.
  - rewrite (P y eq_refl), last_day by lia. destruct (fits_len ps ts); [|split; [|split]; destruct (negb _); (discriminate || reflexivity)].
    assert (negb ((d <? 1) || (days_in y m <? d)) = (d <=? days_in y m)) as -> by lia. destruct (d <=? days_in y m); (split; [intros t Ht; split; [reflexivity|exact Ht]|split; [reflexivity|discriminate]]).
  - destruct (field Fy ps ts) as [y|] eqn:Hy; cbn [option_map] in *; [|split; [discriminate|split; reflexivity]]. pose proof (field_valid ps ts Fy y HV Hy) as Vy. cbn [value_valid] in Vy.
    rewrite (P (century y) eq_refl), last_day by lia. destruct (fits_len ps ts); [|split; [|split]; destruct (negb _); (discriminate || reflexivity)].
    split; [intros t; destruct (negb _); [auto|discriminate]|]. split; [|discriminate]. intros G _. rewrite (days_in_leap (guess_year E y) (century y) m) by (apply G; lia).
    assert (negb ((d <? 1) || (days_in (century y) m <? d)) = (d <=? days_in (century y) m)) as -> by lia. destruct (d <=? days_in (century y) m); reflexivity.
Qed.
(** a time that was read has its fields *)
Lemma read_fields ps ts t : read ps ts = Some t -> exists y m d, the_year ps ts = Some y /\ field Fm ps ts = Some m /\ field Fd ps ts = Some d /\ 1000 <= y <= 9999 /\ valid_date y m d /\
  valid_clock (or0 (field FH ps ts)) (or0 (field FM ps ts)) (or0 (field FS ps ts)) 0 /\ t = mk_date y m d (or0 (field FH ps ts)) (or0 (field FM ps ts)) (or0 (field FS ps ts)) 0 utc.
Proof.
  unfold read. destruct (forallb _ _) eqn:HV; [|discriminate]. assert (R : forall p v, field p ps ts = Some v -> in_range p v = true).
  { clear -HV. revert ts HV. induction ps as [|q ps IH]; intros [|t ts]; cbn [combine forallb field]; try discriminate. intros H p v. apply andb_true_iff in H as [H1 H2]. cbn [fst snd] in H1. destruct (part_eqb p q) eqn:EQ; [|now apply IH].
    apply part_eqb_eq in EQ. subst q. intros XE. apply some_inj in XE. now subst v. }
  destruct (the_year ps ts) as [y|] eqn:Hy; [|discriminate]. destruct (field Fm ps ts) as [m|] eqn:Hm; [|discriminate]. destruct (field Fd ps ts) as [d|] eqn:Hd; [|discriminate].
  destruct (d <=? days_in y m) eqn:D; [|discriminate]. intros XE. apply some_inj in XE. subst t. exists y, m, d. split; [reflexivity|]. split; [reflexivity|]. split; [reflexivity|].
  pose proof (R _ _ Hm) as Vm. pose proof (R _ _ Hd) as Vd. cbn [in_range] in Vm, Vd. split; [|split; [unfold valid_date; lia|split; [|reflexivity]]].
  - unfold the_year in Hy. destruct (field FY ps ts) as [z|] eqn:HY; [apply some_inj in Hy; subst z; apply R in HY; cbn [in_range] in HY; lia|].
    destruct (field Fy ps ts) as [z|] eqn:HZ; [|discriminate Hy]. cbn [option_map] in Hy. apply some_inj in Hy. subst y. apply R in HZ. cbn [in_range] in HZ. unfold century. destruct (69 <=? z) eqn:C; lia.
  - unfold valid_clock. assert (A : 0 <= or0 (field FH ps ts) < 24) by (destruct (field FH ps ts) eqn:X; [apply R in X; cbn [in_range] in X|]; cbn [or0]; lia).
    assert (B : 0 <= or0 (field FM ps ts) < 60) by (destruct (field FM ps ts) eqn:X; [apply R in X; cbn [in_range] in X|]; cbn [or0]; lia).
    assert (C : 0 <= or0 (field FS ps ts) < 60) by (destruct (field FS ps ts) eqn:X; [apply R in X; cbn [in_range] in X|]; cbn [or0]; lia). lia.
Qed.
Lemma read_year ps ts t : read ps ts = Some t -> is_zero t = false /\ 1000 <= year t.
Proof.
  intros H. destruct (read_fields ps ts t H) as (y & m & d & _ & _ & _ & Hy & VD & VC & ->). assert (Y : year (mk_date y m d (or0 (field FH ps ts)) (or0 (field FM ps ts)) (or0 (field FS ps ts)) 0 utc) = y) by (apply mk_date_year; [apply fixed_utc|assumption|assumption]).
  split; [|lia]. destruct (is_zero _) eqn:Z; [|reflexivity]. apply zero_year in Z; [lia|reflexivity].
Qed.

(** ** All candidates of a format *)
Definition found (cfg : config) (f : string) (r : option time) (amb : date) : date + date :=
  match r with Some t => if check_strict cfg (ns_missing f) then inl (mkd PDay t) else inr amb | None => inr amb end.
Lemma periods_check : map period_of_format formats = map (fun _ => PDay) formats.
Proof. vm_compute. reflexivity. Qed.
Lemma periods f : In f formats -> period_of_format f = PDay.
Proof. exact (map_eq_in _ _ formats periods_check f). Qed.
(** the first admissible cut whose reading the parser accepts *)
Definition first_time (s : str) (f : string) : option time := first_some (fun l => if zsum l =? slen s then cand_time s f l else None) (lims (format_parts f)).
Lemma cands_first cfg f s amb : In f formats -> digs s ->
  ns_cands E cfg f (go_format (format_parts f)) (candidates E s (format_parts f)) amb = found cfg f (first_time s f) amb.
Proof.
  intros HF HS. unfold candidates, first_time. rewrite perms by exact HF. assert (G : forall l, In l (lims (format_parts f)) -> In l (lims (format_parts f))) by auto. revert G. generalize (lims (format_parts f)) at 1 3 4 as ls.
  induction ls as [|l ls IH]; intros G; [reflexivity|]. cbn [flat_map first_some]. assert (G' : forall l, In l ls -> In l (lims (format_parts f))) by (intros; apply G; now right). specialize (IH G'). assert (HI : In l (lims (format_parts f))) by (apply G; now left). clear G G'.
  destruct (zsum l =? slen s) eqn:Z; [|exact IH]. apply Z.eqb_eq in Z. destruct (cand_read s f l HF HS HI Z) as (R & _). unfold cand_time in R |- *. destruct (cut s (format_parts f) l) as [c|]; [|exact IH].
  destruct (candidate_valid E c); [|exact IH]. cbn [app ns_cands]. destruct (time_parse (e_local E) (go_format (format_parts f)) (candidate_text c)) as [t|]; [|exact IH].
  destruct (R t eq_refl) as [_ RT]. apply read_year in RT as [Z0 Y0]. rewrite Z0. assert (year t <? 1000 = false) as -> by lia. rewrite periods by exact HF. cbn [found]. destruct (check_strict cfg (ns_missing f)) eqn:CS; [reflexivity|]. cbn [negb].
  rewrite IH. destruct (first_some _ ls); cbn [found]; rewrite ?CS; reflexivity.
Qed.
Lemma first_filter {A B} (g : A -> bool) (h : A -> option B) l : first_some (fun x => if g x then h x else None) l = first_some h (filter g l).
Proof. induction l as [|x l IH]; [reflexivity|]. cbn [first_some filter]. destruct (g x); cbn [first_some]; rewrite IH; reflexivity. Qed.
Lemma first_map {A B C} (g : A -> B) (h : B -> option C) l : first_some h (map g l) = first_some (fun x => h (g x)) l.
Proof. induction l as [|x l IH]; [reflexivity|]. cbn [first_some map]. rewrite IH. reflexivity. Qed.
Lemma first_ext {A B} (f g : A -> option B) l : (forall x, In x l -> f x = g x) -> first_some f l = first_some g l.
Proof. induction l as [|x l IH]; intros H; [reflexivity|]. cbn [first_some]. rewrite H by now left. rewrite IH; [reflexivity|]. intros y Hy. apply H. now right. Qed.
Lemma first_time_exact s f : good_guess -> In f formats -> digs s -> first_time s f = first_some (read (format_parts f)) (splits (format_parts f) s).
Proof.
  intros G HF HS. rewrite <- splits_lims, first_map, <- first_filter. apply first_ext. intros l HI. unfold sel. destruct (zsum l =? slen s) eqn:Z; [|reflexivity]. apply Z.eqb_eq in Z. destruct (cand_read s f l HF HS HI Z) as (_ & R & N). cbn [andb].
  destruct (fits (format_parts f) l); [now apply R|now apply N].
Qed.
Lemma first_sound {A B} (f : A -> option B) l y : first_some f l = Some y -> exists x, In x l /\ f x = Some y.
Proof. induction l as [|x l IH]; cbn [first_some]; [discriminate|]. destruct (f x) eqn:F; [intros XE; apply some_inj in XE; subst; exists x; split; [now left|exact F]|]. intros H. destruct (IH H) as (z & Hz & E1). exists z. split; [now right|exact E1]. Qed.
Lemma first_time_sound s f t : In f formats -> digs s -> first_time s f = Some t -> exists ts, In ts (splits (format_parts f) s) /\ read (format_parts f) ts = Some t.
Proof.
  intros HF HS H. apply first_sound in H as (l & HI & H). destruct (zsum l =? slen s) eqn:Z; [|discriminate H]. pose proof Z as Z'. apply Z.eqb_eq in Z. destruct (cand_read s f l HF HS HI Z) as (R & _). destruct (R t H) as [R1 R2].
  exists (pieces s l). split; [|exact R2]. rewrite <- splits_lims. apply in_map, filter_In. split; [exact HI|]. unfold sel. now rewrite Z', R1.
Qed.
End E.
