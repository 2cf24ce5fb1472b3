(** C28: dates written without separators *)
From Coq Require Import ZifyBool.
From Verif Require Import GoBase SMap Regex Civil GoTime GoTimeFacts GoTimeParse Setting Strutil Dateutil DateutilFacts Tokenizer Env Common Utf8Facts SpaceFacts AbsFacts AbsFacts2 LayoutFacts Prop_Clock
  NoSpace NsSpec NsFacts NsFacts2 NsFacts3 NsFacts4.

(** ** The formats of an order *)
Definition all_orders : list order := [MDY; MYD; YMD; YDM; DMY; DYM].
Definition code (o : order) : str := map lowerA (lit (order_name o)).
Definition has_date (ps : list part) : bool := existsb (part_eqb Fm) ps && existsb (part_eqb Fd) ps.
Definition fs_of (o : order) : list string := match datetime_formats (code o) with Some fs => fs | None => [] end.
Lemma fs_check : map (fun o => (datetime_formats (code o), filter has_date (map format_parts (fs_of o)))) all_orders = map (fun o => (Some (fs_of o), layouts_for o)) all_orders.
Proof. vm_compute. reflexivity. Qed.
Lemma fs_ok o : datetime_formats (code o) = Some (fs_of o) /\ filter has_date (map format_parts (fs_of o)) = layouts_for o.
Proof.
  assert (HI : In o all_orders) by (destruct o; cbn; tauto). pose proof (map_eq_in _ _ all_orders fs_check o HI) as H. split; [exact (f_equal fst H)|exact (f_equal snd H)].
Qed.
Lemma missing_check : forallb (fun f => negb (has_date (format_parts f)) || (match ns_missing f with [x] => eqs x (lit "year") | _ => false end)) formats = true.
Proof. vm_compute. reflexivity. Qed.
(** the configuration accepts dates without separators: it is not strict and does not ask for a year *)
Definition accepts (cfg : config) : bool := negb (c_strict cfg) && negb (existsb (eqs (lit "year")) (c_required cfg)).
Lemma accepts_ok cfg f : In f formats -> has_date (format_parts f) = true -> check_strict cfg (ns_missing f) = accepts cfg.
Proof.
  intros HF HD. pose proof missing_check as H. rewrite forallb_forall in H. specialize (H f HF). rewrite HD in H. cbn [negb orb] in H. destruct (ns_missing f) as [|x [|]]; try discriminate H. apply eqs_eq in H. subst x.
  unfold check_strict, accepts. cbn [negb]. rewrite andb_true_r. destruct (c_strict cfg); [reflexivity|]. cbn [negb andb]. f_equal. induction (c_required cfg) as [|r l IH]; [reflexivity|]. cbn [existsb]. rewrite IH. f_equal. unfold mem. cbn [existsb]. rewrite orb_false_r. apply eqs_sym.
Qed.
Lemma field_in p ps ts v : field p ps ts = Some v -> existsb (part_eqb p) ps = true.
Proof. intros H. apply existsb_part. destruct (in_dec part_eq_dec p ps) as [I|N]; [exact I|]. rewrite field_none in H by exact N. discriminate H. Qed.
Lemma read_dated ps ts t : read ps ts = Some t -> has_date ps = true.
Proof. intros H. destruct (read_fields ps ts t H) as (y & m & d & _ & H1 & H2 & _). unfold has_date. now rewrite (field_in _ _ _ _ H1), (field_in _ _ _ _ H2). Qed.

Section E.
Variable E : env.
Lemma undated s f : In f formats -> digs s -> has_date (format_parts f) = false -> first_time E s f = None.
Proof.
  intros HF HS HD. destruct (first_time E s f) as [t|] eqn:F; [|reflexivity]. destruct (first_time_sound E s f t HF HS F) as (ts & _ & R). apply read_dated in R. congruence.
Qed.
Definition pick (b : bool) (r : option time) (amb : date) : date + date := match r with Some t => if b then inl (mkd PDay t) else inr amb | None => inr amb end.
Lemma formats_first cfg s fs : digs s -> (forall f, In f fs -> In f formats) -> forall amb, ns_formats E cfg s fs amb = pick (accepts cfg) (first_some (first_time E s) fs) amb.
Proof.
  intros HS. induction fs as [|f fs IH]; intros HF amb; [reflexivity|]. assert (HF1 : In f formats) by (apply HF; now left). assert (HF2 : forall f, In f fs -> In f formats) by (intros; apply HF; now right).
  cbn [ns_formats first_some]. rewrite cands_first by assumption. unfold found. destruct (first_time E s f) as [t|] eqn:FT; [|now apply IH].
  destruct (has_date (format_parts f)) eqn:HD; [|rewrite undated in FT by assumption; discriminate FT]. rewrite accepts_ok by assumption. cbn [pick]. destruct (accepts cfg) eqn:A; [reflexivity|]. rewrite IH by assumption. destruct (first_some (first_time E s) fs); cbn [pick]; rewrite ?A; reflexivity.
Qed.
Lemma tokens_first cfg fs : (forall f, In f fs -> In f formats) -> forall ts amb, Forall digs (nums ts) ->
  ns_tokens E cfg fs ts amb = pick (accepts cfg) (first_some (fun r => first_some (first_time E r) fs) (nums ts)) amb.
Proof.
  intros HF. induction ts as [|t ts IH]; intros amb HD; [reflexivity|]. cbn [ns_tokens]. unfold nums in *. cbn [filter map] in *. destruct (ttype_eqb (tk_type t) TDigit); [|now apply IH]. cbn [map] in HD. inversion HD as [|? ? H1 H2]; subst. cbn [map first_some].
  rewrite formats_first by assumption. destruct (first_some (first_time E (tk_text t)) fs) as [x|]; cbn [pick]; [|now apply IH]. destruct (accepts cfg) eqn:A; [reflexivity|]. rewrite IH by exact H2. destruct (first_some _ _); cbn [pick]; rewrite ?A; reflexivity.
Qed.
Lemma reads_formats o s : good_guess E -> digs s -> first_some (first_time E s) (fs_of o) = reads (layouts_for o) s.
Proof.
  intros G HS. destruct (fs_ok o) as [F1 F2]. rewrite <- F2. unfold reads. rewrite <- first_filter, first_map. apply first_ext. intros f HI. assert (HF : In f formats) by (eapply formats_of; eassumption).
  destruct (has_date (format_parts f)) eqn:HD; [now apply first_time_exact|now apply undated].
Qed.
Lemma runs_ok l : Forall digs (runs [] l).
Proof. eapply Forall_impl; [|apply (runs_digs l []); constructor]. intros r [_ H]. exact H. Qed.
Definition as_option (r : res date) : option date := match r with Ok d => Some d | _ => None end.
Lemma code_lower o : uni_ascii (e_uni E) -> to_lower (e_uni E) (lit (order_name o)) = code o.
Proof. intros UA. apply to_lower_kind with (ty := TLetter). destruct o; vm_compute; reflexivity. Qed.
End E.

(** the date order of the configuration *)
Definition asks (cfg : config) (o : option order) : Prop := c_order cfg = match o with Some o => lit (order_name o) | None => [] end.

(** The result for every text, configuration and clock of this millennium: nothing unless the text is digits, a colon, digits and anything; otherwise the reading of the text (NsSpec.no_space). *)
Theorem C28_exact : forall E cfg s o, uni_ascii (e_uni E) -> 2001 <= clock_year E <= 2999 -> asks cfg o ->
  as_option (nospace_parse E cfg s) =
  if eligible s then option_map (mkd PDay) (no_space (accepts cfg) o (filter (fun c => negb (c =? 58)) (sanitize_spaces s))) else None.
Proof.
  intros E cfg s o UA HC HA. pose proof (guess_2000 E HC) as G. unfold nospace_parse. rewrite elig_exact. destruct (eligible s); cbn [negb]; [|reflexivity]. rewrite colons. fold no_colon. set (text := filter no_colon (sanitize_spaces s)).
  assert (NC : ~ In 58 (runes text)) by apply colons_gone. clearbody text. destruct text as [|c0 text0]; [destruct o, (accepts cfg); reflexivity|]. change (empty (c0 :: text0)) with false. cbv iota. set (text := c0 :: text0) in *. clearbody text.
  rewrite eight_match. unfold no_space. unfold asks in HA. rewrite HA.
  assert (GO : forall x, as_option (match ns_tokens E cfg (fs_of x) (tokenize text) zero_date with inl d => Ok d | inr amb => if date_is_zero amb then Err ENoParse else Ok amb end) =
     option_map (mkd PDay) (if accepts cfg then first_some (reads (layouts_for x)) (runs [] (runes text)) else None)).
  { intros x. destruct (fs_ok x) as [F1 F2]. rewrite tokens_first; [|intros f Hf; eapply formats_of; eassumption|rewrite token_runs by exact NC; apply runs_ok]. rewrite token_runs by exact NC.
    rewrite (first_ext _ (reads (layouts_for x))); [|intros r Hr; apply reads_formats; [exact G|]; pose proof (runs_ok (runes text)) as RO; rewrite Forall_forall in RO; now apply RO].
    destruct (first_some _ _) as [t|]; cbn [pick]; destruct (accepts cfg); reflexivity. }
  destruct o as [o|].
  - assert (empty (lit (order_name o)) = false) as -> by (destruct o; reflexivity). cbn [andb]. rewrite code_lower by exact UA. rewrite (proj1 (fs_ok o)). apply GO.
  - cbn [empty andb]. change (lit "mdy") with (code MDY). rewrite (proj1 (fs_ok MDY)). destruct (forallb is_num text && Nat.eqb (length text) 8) eqn:E8; [|apply GO]. apply andb_true_iff in E8 as [N8 L8]. apply Nat.eqb_eq in L8.
    assert (D8 : digs text) by (apply Forall_forall; intros x Hx; rewrite forallb_forall in N8; apply N8 in Hx; unfold is_num in Hx; lia). rewrite eight_exact by assumption. destruct (reads eight text) as [t|]; [reflexivity|]. apply GO.
Qed.
Print Assumptions C28_exact.


Lemma splits_widths ps : forall s ts, In ts (splits ps s) -> concat ts = s /\ Forall2 (fun p t => In (length t) (widths p)) ps ts.
Proof.
  induction ps as [|p ps IH]; intros s ts; cbn [splits].
  - destruct s; [|intros []]. intros [<-|[]]. split; [reflexivity|constructor].
  - intros H. apply in_flat_map in H as (n & Hn & H). destruct (Nat.leb n (length s)) eqn:L; [|destruct H]. apply Nat.leb_le in L. apply in_map_iff in H as (u & <- & H). destruct (IH _ _ H) as [C W].
    split; [cbn [concat]; rewrite C; apply firstn_skipn|]. constructor; [|exact W]. rewrite firstn_length_le by exact L. exact Hn.
Qed.
Lemma read_ranges ps ts t : Forall2 (fun p t => In (length t) (widths p)) ps ts -> read ps ts = Some t ->
  Forall2 (fun p t => In (length t) (widths p) /\ in_range p (number 0 t) = true) ps ts.
Proof.
  unfold read. intros F. destruct (forallb _ _) eqn:HV; [intros _|discriminate]. revert HV. induction F as [|p x ps ts W F IH]; [constructor|]. cbn [combine forallb fst snd]. intros H. apply andb_true_iff in H as [H1 H2]. constructor; [now split|now apply IH].
Qed.
Lemma runs_num : forall l acc, Forall (fun c => is_num c = true) l -> runs acc l = emit (acc ++ l).
Proof.
  induction l as [|c l IH]; intros acc H; cbn [runs]; [now rewrite app_nil_r|]. inversion H as [|? ? H1 H2]; subst. rewrite H1. rewrite IH by exact H2. now rewrite <- app_assoc.
Qed.

(** The date is real, for every text and every reading of the clock: some run of digits is cut completely into fields within their ranges, among them year, month and day, and the result is the time with these fields. *)
Theorem C28_sound : forall E cfg s d, nospace_parse E cfg s = Ok d ->
  exists r ps ts y m dd, In r (runs [] (runes (filter (fun c => negb (c =? 58)) (sanitize_spaces s)))) /\
    concat ts = r /\ Forall2 (fun p t => In (length t) (widths p) /\ in_range p (number 0 t) = true) ps ts /\
    the_year ps ts = Some y /\ field Fm ps ts = Some m /\ field Fd ps ts = Some dd /\ valid_date y m dd /\
    d = mkd PDay (mk_date y m dd (or0 (field FH ps ts)) (or0 (field FM ps ts)) (or0 (field FS ps ts)) 0 utc).
Proof.
  intros E cfg s d. unfold nospace_parse. destruct (negb (is_eligible _ _)); [discriminate|]. rewrite colons. fold no_colon. set (text := filter no_colon (sanitize_spaces s)).
  assert (NC : ~ In 58 (runes text)) by apply colons_gone. clearbody text. destruct (empty text) eqn:EM; [discriminate|]. cbv zeta.
  assert (FIN : forall r ps ts t, In r (runs [] (runes text)) -> In ts (splits ps r) -> read ps ts = Some t -> d = mkd PDay t ->
    exists r ps ts y m dd, In r (runs [] (runes text)) /\
    concat ts = r /\ Forall2 (fun p t => In (length t) (widths p) /\ in_range p (number 0 t) = true) ps ts /\
    the_year ps ts = Some y /\ field Fm ps ts = Some m /\ field Fd ps ts = Some dd /\ valid_date y m dd /\
    d = mkd PDay (mk_date y m dd (or0 (field FH ps ts)) (or0 (field FM ps ts)) (or0 (field FS ps ts)) 0 utc)).
  { intros r ps ts t HR HS RD ->. destruct (splits_widths _ _ _ HS) as [C W]. pose proof (read_ranges _ _ _ W RD) as RR. destruct (read_fields _ _ _ RD) as (y & m & dd & H1 & H2 & H3 & _ & H4 & _ & H5).
    exists r, ps, ts, y, m, dd. split; [exact HR|]. split; [exact C|]. split; [exact RR|]. split; [exact H1|]. split; [exact H2|]. split; [exact H3|]. split; [exact H4|]. now rewrite <- H5. }
  assert (TOK : forall fs, (forall f, In f fs -> In f formats) -> match ns_tokens E cfg fs (tokenize text) zero_date with inl d => Ok d | inr amb => if date_is_zero amb then Err ENoParse else Ok amb end = Ok d ->
    exists r ps ts t, In r (runs [] (runes text)) /\ In ts (splits ps r) /\ read ps ts = Some t /\ d = mkd PDay t).
  { intros fs HF. rewrite tokens_first; [|exact HF|rewrite token_runs by exact NC; apply runs_ok]. rewrite token_runs by exact NC. destruct (first_some _ _) as [t|] eqn:FS; cbn [pick]; [|intros H; discriminate H].
    destruct (accepts cfg); [|intros H; discriminate H]. intros H. assert (d = mkd PDay t) by congruence. clear H. apply first_sound in FS as (r & HR & FS). apply first_sound in FS as (f & Hf & FS).
    apply first_time_sound in FS as (ts & S & R); [|now apply HF|pose proof (runs_ok (runes text)) as RO; rewrite Forall_forall in RO; now apply RO]. exists r, (format_parts f), ts, t. auto. }
  assert (GO : forall o, match datetime_formats o with None => Err ENoParse | Some fs => match ns_tokens E cfg fs (tokenize text) zero_date with inl d => Ok d | inr amb => if date_is_zero amb then Err ENoParse else Ok amb end end = Ok d ->
    exists r ps ts t, In r (runs [] (runes text)) /\ In ts (splits ps r) /\ read ps ts = Some t /\ d = mkd PDay t).
  { intros o. destruct (datetime_formats o) as [fs|] eqn:DF; [|discriminate]. apply TOK. intros f Hf. eapply formats_of; eassumption. }
  assert (GO' : forall o, match datetime_formats o with None => Err ENoParse | Some fs => match ns_tokens E cfg fs (tokenize text) zero_date with inl d => Ok d | inr amb => if date_is_zero amb then Err ENoParse else Ok amb end end = Ok d ->
    exists r ps ts y m dd, In r (runs [] (runes text)) /\
    concat ts = r /\ Forall2 (fun p t => In (length t) (widths p) /\ in_range p (number 0 t) = true) ps ts /\
    the_year ps ts = Some y /\ field Fm ps ts = Some m /\ field Fd ps ts = Some dd /\ valid_date y m dd /\
    d = mkd PDay (mk_date y m dd (or0 (field FH ps ts)) (or0 (field FM ps ts)) (or0 (field FS ps ts)) 0 utc)).
  { intros o H. destruct (GO o H) as (r & ps & ts & t & H1 & H2 & H3 & H4). exact (FIN r ps ts t H1 H2 H3 H4). }
  rewrite eight_match. destruct (empty (c_order cfg) && (forallb is_num text && Nat.eqb (length text) 8)) eqn:E8; [|apply GO'].
  apply andb_true_iff in E8 as [_ E8]. apply andb_true_iff in E8 as [N8 L8]. apply Nat.eqb_eq in L8.
  assert (D8 : digs text) by (apply Forall_forall; intros x Hx; rewrite forallb_forall in N8; apply N8 in Hx; unfold is_num in Hx; lia). rewrite eight_exact by assumption.
  destruct (reads eight text) as [t|] eqn:RE; [|apply GO']. cbn [option_map]. intros H. assert (D : d = mkd PDay t) by congruence. clear H. unfold reads in RE. apply first_sound in RE as (ps & _ & RE). apply first_sound in RE as (ts & HS & RE).
  apply (FIN text ps ts t); [|exact HS|exact RE|exact D]. assert (runes text = text) as -> by (apply runes_ascii; unfold is_ascii; apply forallb_forall; intros x Hx; rewrite forallb_forall in N8; apply N8 in Hx; unfold is_num in Hx; lia).
  rewrite runs_num by (apply Forall_forall; now rewrite forallb_forall in N8). cbn [app]. destruct text; [discriminate L8|]. now left.
Qed.
Print Assumptions C28_sound.

(** ** Eight digits in the asked order *)
(** a date written with two digits for the day and the month and four for the year, in some order *)
Definition written (o : order) (td tm ty : str) : str :=
  match o with MDY => tm ++ td ++ ty | MYD => tm ++ ty ++ td | YMD => ty ++ tm ++ td | YDM => ty ++ td ++ tm | DMY => td ++ tm ++ ty | DYM => td ++ ty ++ tm end.
Definition simple (o : order) : list part :=
  match o with MDY => [Fm; Fd; FY] | MYD => [Fm; FY; Fd] | YMD => [FY; Fm; Fd] | YDM => [FY; Fd; Fm] | DMY => [Fd; Fm; FY] | DYM => [Fd; FY; Fm] end.
Definition cutting (o : order) (td tm ty : str) : list str :=
  match o with MDY => [tm; td; ty] | MYD => [tm; ty; td] | YMD => [ty; tm; td] | YDM => [ty; td; tm] | DMY => [td; tm; ty] | DYM => [td; ty; tm] end.
Definition lead (o : order) : list (list part) := match o with MDY => [[FY; Fm; Fd; FH; FM]; [FY; Fm; Fd; FH; FM; FS]] | _ => [] end.
Lemma layouts_first o : exists tl, layouts_for o = (lead o ++ simple o :: tl)%list.
Proof. destruct o; eexists; reflexivity. Qed.
Lemma cutting_first o td tm ty : length td = 2%nat -> length tm = 2%nat -> length ty = 4%nat -> exists tl, splits (simple o) (written o td tm ty) = cutting o td tm ty :: tl.
Proof.
  intros H1 H2 H3. destruct td as [|a [|b [|]]]; try discriminate H1. destruct tm as [|c [|d [|]]]; try discriminate H2. destruct ty as [|e [|f [|g [|h [|]]]]]; try discriminate H3.
  destruct o; eexists; cbn [written simple app]; reflexivity.
Qed.
Lemma cutting_reads o td tm ty : length td = 2%nat -> length tm = 2%nat -> length ty = 4%nat -> 1000 <= number 0 ty <= 9999 -> valid_date (number 0 ty) (number 0 tm) (number 0 td) ->
  read (simple o) (cutting o td tm ty) = Some (mk_date (number 0 ty) (number 0 tm) (number 0 td) 0 0 0 0 utc).
Proof.
  intros _ _ _ HY [HM HD]. assert (D31 : days_in (number 0 ty) (number 0 tm) <= 31) by (pose proof (days_in_bounds (number 0 ty) (number 0 tm)); lia).
  assert (RY : in_range FY (number 0 ty) = true) by (cbn [in_range]; lia). assert (RM : in_range Fm (number 0 tm) = true) by (cbn [in_range]; lia). assert (RD : in_range Fd (number 0 td) = true) by (cbn [in_range]; lia).
  unfold read. assert (forallb (fun x => in_range (fst x) (number 0 (snd x))) (combine (simple o) (cutting o td tm ty)) = true) as ->.
  { destruct o; cbn [simple cutting combine forallb fst snd]; rewrite RY, RM, RD; reflexivity. }
  assert (the_year (simple o) (cutting o td tm ty) = Some (number 0 ty)) as -> by (destruct o; reflexivity).
  assert (field Fm (simple o) (cutting o td tm ty) = Some (number 0 tm)) as -> by (destruct o; reflexivity).
  assert (field Fd (simple o) (cutting o td tm ty) = Some (number 0 td)) as -> by (destruct o; reflexivity).
  assert (number 0 td <=? days_in (number 0 ty) (number 0 tm) = true) as -> by lia.
  assert (NH : forall p, In p [FH; FM; FS] -> field p (simple o) (cutting o td tm ty) = None) by (intros p Hp; cbn [In] in Hp; destruct Hp as [<-|[<-|[<-|[]]]]; destruct o; reflexivity).
  rewrite !NH by (cbn [In]; auto). reflexivity.
Qed.
Definition all_num (s : str) : Prop := Forall (fun c => is_num c = true) s.
Lemma all_num_runs s : s <> [] -> all_num s -> runs [] (runes s) = [s] /\ forallb is_num s = true.
Proof.
  intros NE H. assert (HB : forallb is_num s = true) by (apply forallb_forall; unfold all_num in H; rewrite Forall_forall in H; exact H).
  assert (runes s = s) as -> by (apply runes_ascii; unfold is_ascii; apply forallb_forall; intros x Hx; rewrite forallb_forall in HB; apply HB in Hx; unfold is_num in Hx; lia).
  rewrite runs_num by exact H. cbn [app]. split; [destruct s; [congruence|reflexivity]|exact HB].
Qed.
(** month-day-year: the digits must not be readable as a four-digit year, and one digit each for month, day, hour and minute *)
Lemma mdy_lead td tm ty : length td = 2%nat -> length tm = 2%nat -> length ty = 4%nat -> (number 0 tm < 10 \/ nth_error ty 1 = Some 48) -> all_num (tm ++ td ++ ty) ->
  reads (lead MDY) (written MDY td tm ty) = None.
Proof.
  intros H1 H2 H3 HK HN. destruct td as [|a [|b [|]]]; try discriminate H1. destruct tm as [|c [|d [|]]]; try discriminate H2. destruct ty as [|e [|f [|g [|h [|]]]]]; try discriminate H3. clear H1 H2 H3.
  unfold reads, lead, written. cbn [app first_some].
  assert (S1 : splits [FY; Fm; Fd; FH; FM] [c; d; a; b; e; f; g; h] = [[[c; d; a; b]; [e]; [f]; [g]; [h]]]) by reflexivity.
  assert (S2 : splits [FY; Fm; Fd; FH; FM; FS] [c; d; a; b; e; f; g; h] = []) by reflexivity. rewrite S1, S2. cbn [first_some].
  assert (BD : forall x, In x [c; d; a; b; e; f; g; h] -> 48 <= x <= 57) by (intros x Hx; unfold all_num in HN; rewrite Forall_forall in HN; specialize (HN x Hx); unfold is_num in HN; lia).
  pose proof (BD c ltac:(cbn; tauto)). pose proof (BD d ltac:(cbn; tauto)). pose proof (BD a ltac:(cbn; tauto)). pose proof (BD b ltac:(cbn; tauto)).
  unfold read. cbn [combine forallb fst snd number]. destruct HK as [HK|HK].
  - cbn [number] in HK. assert (in_range FY ((((0 * 10 + (c - 48)) * 10 + (d - 48)) * 10 + (a - 48)) * 10 + (b - 48)) = false) as -> by (cbn [in_range]; lia). reflexivity.
  - cbn [nth_error] in HK. apply some_inj in HK. subst f. change (in_range Fd (0 * 10 + (48 - 48))) with false. rewrite !andb_false_r. reflexivity.
Qed.
Lemma written_num o td tm ty : all_num (written o td tm ty) <-> all_num (tm ++ td ++ ty).
Proof. unfold all_num. destruct o; cbn [written]; rewrite !Forall_app; tauto. Qed.
(** for month-day-year a restriction is needed: see C48_month_day_year_refuted *)
Definition clear_order (o : order) (tm ty : str) : Prop := o = MDY -> number 0 tm < 10 \/ nth_error ty 1 = Some 48.
Lemma eight_spec o td tm ty : length td = 2%nat -> length tm = 2%nat -> length ty = 4%nat -> all_num (tm ++ td ++ ty) -> 1000 <= number 0 ty <= 9999 ->
  valid_date (number 0 ty) (number 0 tm) (number 0 td) -> clear_order o tm ty ->
  no_space true (Some o) (written o td tm ty) = Some (mk_date (number 0 ty) (number 0 tm) (number 0 td) 0 0 0 0 utc).
Proof.
  intros H1 H2 H3 HN HY HV HK. unfold no_space. assert (NE : written o td tm ty <> []) by (intros X; apply (f_equal (@length Z)) in X; destruct o; cbn [written] in X; rewrite !app_length in X; cbn [length] in X; lia).
  destruct (all_num_runs (written o td tm ty) NE) as [-> _]; [now apply written_num|]. cbn [first_some]. destruct (layouts_first o) as [tl EL]. destruct (cutting_first o td tm ty H1 H2 H3) as [tl2 EC].
  assert (R : reads (simple o :: tl) (written o td tm ty) = Some (mk_date (number 0 ty) (number 0 tm) (number 0 td) 0 0 0 0 utc)).
  { unfold reads. cbn [first_some]. rewrite EC. cbn [first_some]. now rewrite cutting_reads. }
  assert (reads (layouts_for o) (written o td tm ty) = reads (simple o :: tl) (written o td tm ty)) as ->; [|now rewrite R].
  rewrite EL. destruct o; try reflexivity. pose proof (mdy_lead td tm ty H1 H2 H3 (HK eq_refl) HN) as L. unfold reads in L |- *. set (f := fun ps => first_some (read ps) (splits ps (written MDY td tm ty))) in *. clearbody f.
  cbn [lead app first_some] in *. destruct (f [FY; Fm; Fd; FH; FM]); [discriminate L|]. destruct (f [FY; Fm; Fd; FH; FM; FS]); [discriminate L|]. reflexivity.
Qed.
