(** Reading one candidate of the no-space parser *)
From Coq Require Import ZifyBool.
From Verif Require Import GoBase Civil GoTime GoTimeFacts GoTimeParse Setting Dateutil DateutilFacts Env Common AbsFacts AbsFacts2 LayoutFacts Prop_Clock NoSpace NsSpec NsFacts.
Ltac Zify.zify_post_hook ::= Z.div_mod_to_equations.

(** ** Cutting gives the pieces *)
Definition ok_val (x : part * str) : bool := value_valid (fst x) (number 0 (snd x)).
Definition with_val (x : part * str) : part * str * Z := (x, number 0 (snd x)).
Definition digs (s : str) : Prop := Forall (fun c => 48 <= c <= 57) s.
Lemma digs_firstn n s : digs s -> digs (firstn n s).
Proof. intros H. apply Forall_forall. intros x Hx. unfold digs in H. rewrite Forall_forall in H. apply H. rewrite <- (firstn_skipn n s). apply in_or_app. now left. Qed.
Lemma digs_skipn n s : digs s -> digs (skipn n s).
Proof. intros H. apply Forall_forall. intros x Hx. unfold digs in H. rewrite Forall_forall in H. apply H. rewrite <- (firstn_skipn n s). apply in_or_app. now right. Qed.
Lemma zsum_nonneg l : Forall (fun n => 1 <= n) l -> 0 <= zsum l.
Proof. induction 1; [cbn; lia|]. rewrite zsum_cons. lia. Qed.
Lemma cut_pieces ps : forall s l, digs s -> length l = length ps -> Forall (fun n => 1 <= n) l -> zsum l = slen s ->
  cut s ps l = if forallb ok_val (combine ps (pieces s l)) then Some (map with_val (combine ps (pieces s l))) else None.
Proof.
  induction ps as [|p ps IH]; intros s [|n l] HS HL HP HZ; cbn [length] in HL; try discriminate HL; [reflexivity|].
  cbn [cut pieces combine forallb map]. cbv zeta. rewrite zsum_cons in HZ. inversion HP as [|? ? H1 H2]; subst. pose proof (zsum_nonneg l H2). unfold slen in HZ.
  assert (D : digits (firstn (Z.to_nat n) s)). { split; [|now apply digs_firstn]. intros X. apply (f_equal (@length Z)) in X. rewrite firstn_length in X. cbn [length] in X. lia. }
  rewrite digits_atoi by exact D. unfold ok_val at 1. cbn [fst snd]. destruct (value_valid p (number 0 (firstn (Z.to_nat n) s))); cbn [negb andb]; [|reflexivity].
  rewrite IH; [|now apply digs_skipn|congruence|exact H2|unfold slen; rewrite skipn_length; lia]. destruct (forallb _ _); reflexivity.
Qed.
Fixpoint fits_len (ps : list part) (ts : list str) : bool :=
  match ps, ts with
  | [], [] => true
  | p :: ps', t :: ts' => existsb (Nat.eqb (length t)) (widths p) && fits_len ps' ts'
  | _, _ => false
  end.
Lemma fits_pieces ps : forall s l, Forall (fun n => 1 <= n) l -> zsum l = slen s -> fits_len ps (pieces s l) = fits ps l.
Proof.
  induction ps as [|p ps IH]; intros s [|n l] HP HZ; cbn [fits_len fits pieces]; try reflexivity. rewrite zsum_cons in HZ. inversion HP as [|? ? H1 H2]; subst. pose proof (zsum_nonneg l H2). unfold slen in HZ.
  rewrite IH; [|exact H2|unfold slen; rewrite skipn_length; lia]. f_equal. rewrite firstn_length. replace (Nat.min (Z.to_nat n) (length s)) with (Z.to_nat n) by lia. destruct p; cbn [widths existsb]; lia.
Qed.
(** the pieces of an admissible cut *)
Definition piece_ok (x : part * str) : Prop := digs (snd x) /\ (1 <= length (snd x) <= match fst x with FY => 4 | _ => 2 end)%nat.
Lemma pieces_ok ps : forall s l, digs s -> In l (lims ps) -> zsum l = slen s -> Forall piece_ok (combine ps (pieces s l)).
Proof.
  induction ps as [|p ps IH]; intros s l HS HL HZ; [constructor|]. cbn [lims] in HL. apply in_flat_map in HL as (n & Hn & HL). apply in_map_iff in HL as (l' & <- & HL).
  cbn [pieces combine]. rewrite zsum_cons in HZ. pose proof (lims_pos ps l' HL). unfold slen in HZ. assert (1 <= n <= match p with FY => 4 | _ => 2 end) by (destruct p; cbn in Hn; lia). constructor.
  - split; cbn [fst snd]; [now apply digs_firstn|]. rewrite firstn_length. destruct p; lia.
  - apply IH; [now apply digs_skipn|exact HL|]. unfold slen. rewrite skipn_length. lia.
Qed.
Lemma pieces_len s l : length (pieces s l) = length l.
Proof. revert s. induction l as [|n l IH]; intros s; [reflexivity|]. cbn [pieces length]. now rewrite IH. Qed.

(** ** Reading the fields with the layout *)
Definition setp (p : part) (v : Z) : pst -> pst :=
  match p with FY => with_year v | Fy => with_year (if 69 <=? v then v + 1900 else v + 2000) | Fm => with_month v | Fd => with_day v | FH => with_hour v | FM => with_min v | FS => with_sec v end.
Fixpoint setall (ps : list part) (ts : list str) (st : pst) : pst :=
  match ps, ts with p :: ps', t :: ts' => setall ps' ts' (setp p (number 0 t) st) | _, _ => st end.
Definition next_of (ps : list part) : option std := match ps with [] => None | p :: _ => Some (std_of p) end.
Definition sep_rest (r : str) : Prop := r = [] \/ exists r', r = 45 :: r'.
Lemma getnum_piece t r : digs t -> (1 <= length t <= 2)%nat -> sep_rest r -> getnum (t ++ r) false = Some (number 0 t, r).
Proof.
  intros HD HL HR. destruct t as [|a [|b [|c t]]]; cbn [length] in HL; try lia; inversion HD as [|? ? Ha HD']; subst; cbn [app getnum].
  - unfold is_digitA. assert ((48 <=? a) && (a <=? 57) = true) as -> by lia. assert (N : number 0 [a] = a - 48) by (cbn [number]; lia). rewrite N. destruct HR as [-> | [r' ->]]; reflexivity.
  - inversion HD' as [|? ? Hb _]; subst. unfold is_digitA. assert ((48 <=? a) && (a <=? 57) = true) as -> by lia. assert ((48 <=? b) && (b <=? 57) = true) as -> by lia. reflexivity.
Qed.
Lemma year_short t : digs t -> (length t <= 3)%nat -> number 0 t < 1000.
Proof.
  intros HD HL. destruct t as [|a [|b [|c [|d t]]]]; cbn [length] in HL; try lia; cbn [number]; repeat match goal with H : digs (_ :: _) |- _ => inversion H; clear H; subst | H : Forall _ (_ :: _) |- _ => inversion H; clear H; subst end; lia.
Qed.
Lemma chunk_piece p nx st t r : piece_ok (p, t) -> value_valid p (number 0 t) = true -> sep_rest r ->
  parse_chunk (std_of p) nx st (t ++ r) = if existsb (Nat.eqb (length t)) (widths p) then Some (setp p (number 0 t) st, r) else None.
Proof.
  intros [HD HL] HV HR. cbn [fst snd] in HD, HL. destruct p; cbn [std_of widths setp] in *; cbn [parse_chunk value_valid] in *.
  1: { assert (length t = 4%nat) as L4. { destruct (le_lt_dec (length t) 3) as [L|L]; [pose proof (year_short t HD L); lia|lia]. } rewrite L4. cbn [existsb Nat.eqb orb].
    assert (Nat.ltb (length (t ++ r)) 4 = false) as -> by (rewrite app_length; lia). destruct t as [|a t]; [discriminate L4|]. inversion HD; subst. unfold is_digit_at. cbn [app nth_error]. unfold is_digitA at 1. assert ((48 <=? a) && (a <=? 57) = true) as -> by lia. cbn [orb negb].
    change (a :: t ++ r)%list with ((a :: t) ++ r)%list. rewrite <- L4. rewrite firstn_app, firstn_all, Nat.sub_diag, firstn_O, app_nil_r, skipn_app, skipn_all, Nat.sub_diag. rewrite digits_atoi by (split; [discriminate|assumption]). reflexivity. }
  1: { destruct t as [|a [|b [|c t]]]; cbn [length] in HL; try lia; inversion HD as [|? ? Ha HD']; subst; cbn [length existsb Nat.eqb orb].
    - destruct HR as [-> | [r' ->]]; cbn [app length Nat.ltb Nat.leb]; [reflexivity|]. cbn [firstn]. unfold atoi. assert (a =? 45 = false) as -> by lia. assert (a =? 43 = false) as -> by lia. cbn [dec_val]. unfold is_digitA. assert ((48 <=? a) && (a <=? 57) = true) as -> by lia. reflexivity.
    - assert (Nat.ltb (length ([a; b] ++ r)) 2 = false) as -> by (rewrite app_length; cbn; lia). change (firstn 2 ([a; b] ++ r)) with [a; b]. change (skipn 2 ([a; b] ++ r)) with r. rewrite digits_atoi by (split; [discriminate|assumption]). reflexivity. }
  all: rewrite getnum_piece by assumption; cbn [obind];
    assert (existsb (Nat.eqb (length t)) [2%nat; 1%nat] = true) as -> by (cbn [existsb]; lia).
  - assert ((number 0 t <=? 0) || (12 <? number 0 t) = false) as -> by lia. reflexivity.
  - reflexivity.
  - assert (24 <=? number 0 t = false) as -> by lia. reflexivity.
  - assert (60 <=? number 0 t = false) as -> by lia. reflexivity.
  - assert (60 <=? number 0 t = false) as -> by lia. destruct HR as [-> | [r' ->]]; reflexivity.
Qed.
Definition dashed (ts : list str) : str := flat_map (fun t => 45 :: t) ts.
Lemma dashed_sep ts : sep_rest (dashed ts).
Proof. destruct ts as [|t ts]; [now left|right]. eexists. reflexivity. Qed.
Lemma chunks_pieces ps : forall ts st, length ts = length ps -> Forall piece_ok (combine ps ts) -> forallb ok_val (combine ps ts) = true ->
  parse_chunks (map (fun p => ([45], std_of p)) ps) [] st (dashed ts) = if fits_len ps ts then Some (setall ps ts st) else None.
Proof.
  induction ps as [|p ps IH]; intros [|t ts] st HL HO HV; cbn [length] in HL; try discriminate HL; [reflexivity|].
  cbn [combine] in HO, HV. inversion HO as [|? ? H1 H2]; subst. cbn [forallb] in HV. apply andb_true_iff in HV as [V1 V2].
  cbn [map parse_chunks dashed flat_map fits_len setall]. change (skip ((45 :: t) ++ flat_map (fun t0 => 45 :: t0) ts) [45]) with (Some (t ++ dashed ts)%list). cbn [obind].
  rewrite chunk_piece by (exact H1 || exact V1 || apply dashed_sep). destruct (existsb _ _); cbn [obind andb]; [|reflexivity]. apply IH; [congruence|assumption|assumption].
Qed.
Lemma join_dashed t ts : sjoin (t :: ts) (lit "-") = (t ++ dashed ts)%list.
Proof. revert t. induction ts as [|u ts IH]; intros t; [cbn; now rewrite app_nil_r|]. cbn [sjoin]. cbn [sjoin] in IH. rewrite IH. reflexivity. Qed.
Lemma chunks_first ps ts : length ts = length ps -> Forall piece_ok (combine ps ts) -> forallb ok_val (combine ps ts) = true ->
  parse_chunks (chunks_for ps) [] pst0 (sjoin ts (lit "-")) = if fits_len ps ts then Some (setall ps ts pst0) else None.
Proof.
  destruct ps as [|p ps], ts as [|t ts]; intros HL HO HV; cbn [length] in HL; try discriminate HL; [reflexivity|]. rewrite join_dashed.
  cbn [combine] in HO, HV. inversion HO as [|? ? H1 H2]; subst. cbn [forallb] in HV. apply andb_true_iff in HV as [V1 V2]. cbn [chunks_for parse_chunks fits_len setall].
  change (skip (t ++ dashed ts) []) with (Some (t ++ dashed ts)%list). cbn [obind]. rewrite chunk_piece by (exact H1 || exact V1 || apply dashed_sep). destruct (existsb _ _); cbn [obind andb]; [|reflexivity]. apply chunks_pieces; [congruence|assumption|assumption].
Qed.

(** ** The fields of the final state *)
Definition dflt (o : option Z) (d : Z) : Z := match o with Some v => v | None => d end.
Lemma field_none p ps : forall ts, ~ In p ps -> field p ps ts = None.
Proof. induction ps as [|q ps IH]; intros [|t ts] H; cbn [field]; try reflexivity. destruct (part_eqb p q) eqn:E; [apply part_eqb_eq in E; subst; exfalso; apply H; now left|]. apply IH. intros X. apply H. now right. Qed.
Lemma setall_consts ps : forall ts st, p_yday (setall ps ts st) = p_yday st /\ p_nsec (setall ps ts st) = p_nsec st /\ p_am (setall ps ts st) = p_am st /\ p_pm (setall ps ts st) = p_pm st /\
  p_z (setall ps ts st) = p_z st /\ p_zoff (setall ps ts st) = p_zoff st /\ p_zname (setall ps ts st) = p_zname st.
Proof.
  induction ps as [|p ps IH]; intros [|t ts] st; cbn [setall]; try tauto. destruct (IH ts (setp p (number 0 t) st)) as (-> & -> & -> & -> & -> & -> & ->). destruct p; cbn; tauto.
Qed.
Lemma setall_fields ps : NoDup ps -> one_year ps -> forall ts st,
  p_year (setall ps ts st) = dflt (the_year ps ts) (p_year st) /\ p_month (setall ps ts st) = dflt (field Fm ps ts) (p_month st) /\ p_day (setall ps ts st) = dflt (field Fd ps ts) (p_day st) /\
  p_hour (setall ps ts st) = dflt (field FH ps ts) (p_hour st) /\ p_min (setall ps ts st) = dflt (field FM ps ts) (p_min st) /\ p_sec (setall ps ts st) = dflt (field FS ps ts) (p_sec st).
Proof.
  induction 1 as [|p ps NI ND IH]; intros OY [|t ts] st; try (cbn; tauto). assert (OY' : one_year ps) by (intros [A B]; apply OY; split; now right).
  cbn [setall]. destruct (IH OY' ts (setp p (number 0 t) st)) as (-> & -> & -> & -> & -> & ->). unfold the_year. cbn [field].
  destruct p; cbn [part_eqb setp with_year with_month with_day with_hour with_min with_sec p_year p_month p_day p_hour p_min p_sec]; try (split; [|split; [|split; [|split; [|split]]]]; try reflexivity; try (rewrite field_none by exact NI; reflexivity)).
  - rewrite field_none by exact NI. rewrite (field_none Fy) by (intros X; apply OY; split; [now left|now right]). reflexivity.
  - rewrite (field_none FY) by (intros X; apply OY; split; [now right|now left]). rewrite field_none by exact NI. cbn [option_map dflt]. unfold century. destruct (69 <=? number 0 t); lia.
Qed.
Lemma part_value_field ps : forall ts p, part_value (map with_val (combine ps ts)) p = field p ps ts.
Proof.
  unfold part_value. induction ps as [|q ps IH]; intros [|t ts] p; cbn [combine map field find]; try reflexivity. unfold with_val at 1. cbn [fst]. destruct (part_eqb p q); [reflexivity|]. apply IH.
Qed.
Lemma field_valid ps : forall ts p v, forallb ok_val (combine ps ts) = true -> field p ps ts = Some v -> value_valid p v = true.
Proof.
  induction ps as [|q ps IH]; intros [|t ts] p v; cbn [combine forallb field]; try discriminate. intros H. apply andb_true_iff in H as [H1 H2]. destruct (part_eqb p q) eqn:EQ; [|now apply IH].
  apply part_eqb_eq in EQ. subst q. intros XE. apply some_inj in XE. subst v. exact H1.
Qed.
