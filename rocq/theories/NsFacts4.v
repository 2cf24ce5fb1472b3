(** Eligibility, tokens, eight digits *)
From Coq Require Import ZifyBool.
From Verif Require Import GoBase SMap Regex Civil GoTime GoTimeFacts GoTimeParse Setting Strutil Dateutil DateutilFacts Tokenizer Env Common Utf8Facts SpaceFacts AbsFacts AbsFacts2 LayoutFacts Prop_Clock
  RegexFacts RegexFacts2 RegexFacts3 RegexFacts5 NoSpace NsSpec NsFacts NsFacts2 NsFacts3.
Ltac Zify.zify_post_hook ::= Z.div_mod_to_equations.

(** ** Eligibility *)
Lemma num_digit c : is_num c = is_digitA c. Proof. reflexivity. Qed.
(** the first character is a digit exactly when the first byte is *)
Lemma rune_num s : s <> [] -> is_num (fst (decode_rune s)) = is_num (hd 0 s) /\ (is_num (hd 0 s) = true -> decode_rune s = (hd 0 s, 1%nat)).
Proof.
  intros Hs. destruct s as [|c s]; [congruence|]. cbn [hd]. destruct (Z_lt_le_dec c 128) as [L|L]; [rewrite rune1 by exact L; auto|].
  assert (is_num c = false) as -> by (unfold is_num; lia). split; [|discriminate]. destruct (is_num _) eqn:N; [|reflexivity]. destruct (decode_rune_ascii (c :: s)) as (s' & X & _); [discriminate|unfold is_num in N; lia|]. assert (c = fst (decode_rune (c :: s))) by congruence. unfold is_num in N. lia.
Qed.
Section E.
Variable U : uni.
Definition nd : re := Cls false {| cl_neg := false; cl_items := [INotRanges [(48, 57)]] |}.
Lemma compat_ast : rx_ast rxCompatible = Cat nd (Star true nd). Proof. reflexivity. Qed.
Lemma nd_step s k : mtch U nd s k = step s (fun c => negb (is_num c)) k.
Proof.
  unfold nd. cbn [mtch]. unfold step. destruct (m_rest s); [reflexivity|]. destruct (decode_rune _) as [r w]. unfold cls_has. cbn [cl_neg cl_items existsb item_has]. unfold in_ranges. cbn [existsb fst snd]. rewrite !orb_false_r, xorb_false_l. reflexivity.
Qed.
Lemma nd_star_pos n : forall s, exists e, star_loop U true nd Some n s = Some e /\ (m_pos s <= m_pos e)%nat.
Proof.
  induction n as [|n IH]; intros s; [exists s; split; [reflexivity|lia]|]. rewrite star_loop_S, nd_step. unfold step. destruct (m_rest s) as [|c t]; [exists s; split; [reflexivity|lia]|].
  destruct (decode_rune _) as [r w]. destruct (negb _); [|exists s; split; [reflexivity|lia]]. cbn [m_pos]. destruct (Nat.ltb _ _) eqn:L; [|exists s; split; [reflexivity|lia]].
  match goal with |- context [star_loop U true nd Some n ?x] => destruct (IH x) as (e & -> & P) end. cbn [m_pos] in P. exists e. split; [reflexivity|lia].
Qed.
Lemma compat_first prev pos c t : is_num c = false -> exists e w, mtch U (rx_ast rxCompatible) (Build_mst prev (c :: t) pos []) Some = Some e /\ m_pos e = (pos + w)%nat /\ (1 <= w <= length (c :: t))%nat /\
  (c = 58 -> (w = 1%nat <-> match t with [] => true | d :: _ => is_num d end = true)).
Proof.
  intros NC. rewrite compat_ast. set (st := Build_mst prev (c :: t) pos []).
  assert (X : exists e, mtch U (Cat nd (Star true nd)) st Some = Some e /\ (c = 58 -> (m_pos e = (pos + 1)%nat <-> match t with [] => true | d :: _ => is_num d end = true))).
  { change (mtch U (Cat nd (Star true nd)) st Some) with (mtch U nd st (fun s' => mtch U (Star true nd) s' Some)). rewrite nd_step. unfold step, st. cbn [m_rest m_pos m_caps].
    destruct (Z.eq_dec c 58) as [->|N58].
    - rewrite rune1 by lia. cbn [is_num Z.leb andb negb skipn]. change (negb (is_num 58)) with true. cbv iota. rewrite mtch_star, star_loop_S, nd_step. unfold step. cbn [m_rest m_pos m_caps]. destruct t as [|d t].
      + eexists. split; [reflexivity|]. cbn [m_pos]. tauto.
      + destruct (rune_num (d :: t) ltac:(discriminate)) as [R1 _]. cbn [hd] in R1. pose proof (decode_rune_width (d :: t) ltac:(discriminate)) as [W _]. destruct (decode_rune (d :: t)) as [r w]. cbn [fst snd] in R1, W. rewrite R1. destruct (is_num d); cbn [negb].
        * eexists. split; [reflexivity|]. cbn [m_pos]. tauto.
        * assert (Nat.ltb (pos + 1) (pos + 1 + w) = true) as -> by (apply Nat.ltb_lt; lia). match goal with |- context [star_loop U true nd Some ?n ?x] => destruct (nd_star_pos n x) as (e & -> & P) end. cbn [m_pos] in P. exists e. split; [reflexivity|]. intros _. split; [lia|discriminate].
    - destruct (rune_num (c :: t) ltac:(discriminate)) as [R1 _]. cbn [hd] in R1. rewrite NC in R1. destruct (decode_rune (c :: t)) as [r w] eqn:D. cbn [fst] in R1. rewrite R1. cbn [negb]. rewrite mtch_star.
      match goal with |- context [star_loop U true nd Some ?n ?x] => destruct (nd_star_pos n x) as (e & -> & P) end. exists e. split; [reflexivity|]. intros X. congruence. }
  destruct X as (e & HM & HP). destruct (mtch_moved U _ _ _ _ HM) as (s' & w & HS & [M1 M2 M3 _] & MW). apply some_inj in HS. subst s'. unfold st in M1, M3. cbn [m_pos m_rest] in M1, M3. exists e, w. split; [exact HM|]. split; [exact M1|]. change (rmin (Cat nd (Star true nd))) with 1%nat in MW. split; [lia|].
  intros C. rewrite <- (HP C). lia.
Qed.
Lemma compat_digit prev pos c t : is_num c = true -> match_here U (rx_ast rxCompatible) (Build_mst prev (c :: t) pos []) = None.
Proof.
  intros NC. unfold match_here. rewrite compat_ast. change (mtch U (Cat nd (Star true nd)) ?st Some) with (mtch U nd st (fun s' => mtch U (Star true nd) s' Some)). rewrite nd_step. unfold step. cbn [m_rest].
  destruct (rune_num (c :: t) ltac:(discriminate)) as [R1 R2]. cbn [hd] in R1, R2. rewrite (R2 NC), NC. reflexivity.
Qed.
Lemma compat_find : forall b a prev, let s := (a ++ b)%list in
  let m := match first_match U (rx_ast rxCompatible) (states_from prev (length a) (decode b) b) with Some m => slice s (mt_start m) (mt_end m) | None => [] end in
  (empty m || eqs m (lit ":")) = eligible b.
Proof.
  induction b as [|c b IH]; intros a prev; cbv zeta.
  - cbn [decode decode_from states_from first_match]. reflexivity.
  - rewrite decode_unfold by discriminate. destruct (decode_rune (c :: b)) as [r w] eqn:D. cbn [snd states_from first_match eligible]. destruct (is_num c) eqn:NC.
    + rewrite compat_digit by exact NC. destruct (rune_num (c :: b) ltac:(discriminate)) as [_ R]. rewrite (R NC) in D. cbn [hd] in D. injection D as <- <-. cbn [skipn]. specialize (IH (a ++ [c])%list c). cbv zeta in IH. rewrite app_length in IH. cbn [length] in IH. rewrite <- app_assoc in IH. cbn [app] in IH. exact IH.
    + unfold match_here. destruct (compat_first prev (length a) c b NC) as (e & v & -> & P & V & C). cbn [mt_start mt_end m_pos]. rewrite P. unfold slice. rewrite skipn_app_exact by reflexivity. replace (length a + v - length a)%nat with v by lia. destruct v as [|v]; [lia|]. cbn [firstn empty orb].
      change (lit ":") with [58]. destruct (Z.eqb_spec c 58) as [->|N]; cbn [andb]; [|apply eqs_neq; congruence].
      specialize (C eq_refl). destruct (match b with [] => true | d :: _ => is_num d end).
      * assert (v = O) as -> by (apply proj2 in C; specialize (C eq_refl); lia). apply eqs_eq. reflexivity.
      * apply eqs_neq. intros X. apply (f_equal (@length Z)) in X. cbn [length] in X. rewrite firstn_length in X. cbn [length] in V. assert (S v = 1%nat) by lia. apply C in H. discriminate H.
Qed.
End E.
Theorem elig_exact E s : is_eligible E s = eligible s.
Proof. unfold is_eligible, find_string, find, states. pose proof (compat_find (e_uni E) s [] (-1)) as H. cbv zeta in H. cbn [length app] in H. rewrite H. reflexivity. Qed.

(** ** Tokens *)
Definition nums (ts : list token) : list str := map tk_text (filter (fun t => ttype_eqb (tk_type t) TDigit) ts).
Lemma num_t c : c <> 58 -> is_tdigit c = is_num c.
Proof. unfold is_tdigit, is_digitA, is_num. intros. lia. Qed.
Lemma num_enc l : forallb is_num l = true -> encode l = l.
Proof. intros H. apply encode_ascii. rewrite forallb_forall in *. intros x Hx. apply H in Hx. unfold is_num in Hx. lia. Qed.
Lemma tok_runs : forall cs prev text, ~ In 58 cs -> prev <> 58 -> text <> [] -> hd 0 text = prev -> ~ In 58 text ->
  (is_num prev = true -> forallb is_num (rev text) = true -> nums (tok_loop prev text cs) = runs (rev text) cs) /\
  (is_num prev = false -> forallb (fun c => negb (is_num c)) (rev text) = true -> nums (tok_loop prev text cs) = runs [] cs).
Proof.
  induction cs as [|c cs IH]; intros prev text HC HP HT HH H58; cbn [tok_loop runs].
  - assert (LI : In (last text 0) text) by (destruct text as [|a t]; [congruence|]; apply (@exists_last) in HT as (l' & x & ->); rewrite last_last; apply in_or_app; right; now left).
    unfold nums. cbn [filter tk_type]. unfold compare_chars. rewrite num_t by (intros X; apply H58; rewrite <- X; exact LI). split; intros NP HF.
    + assert (is_num (last text 0) = true) as -> by (rewrite forallb_forall in HF; apply HF; now apply -> in_rev). cbn [fst ttype_eqb map tk_text]. rewrite num_enc by exact HF. unfold emit. destruct (rev text) eqn:R; [|reflexivity]. apply (f_equal (@rev Z)) in R. rewrite rev_involutive in R. cbn in R. congruence.
    + assert (is_num (last text 0) = false) as -> by (rewrite forallb_forall in HF; assert (Y : negb (is_num (last text 0)) = true) by (apply HF; now apply -> in_rev); now destruct (is_num (last text 0))). destruct (is_tletter _); reflexivity.
  - assert (C58 : c <> 58) by (intros X; apply HC; now left). assert (HC' : ~ In 58 cs) by (intros X; apply HC; now right). unfold compare_chars. rewrite !num_t by assumption.
    assert (NEW : ~ In 58 [c]) by (intros [X|[]]; congruence). destruct (IH c [c] HC' C58 ltac:(discriminate) eq_refl NEW) as [N1 N2]. cbn [rev app forallb] in N1, N2.
    assert (OLD : ~ In 58 (c :: text)) by (intros [X|X]; [congruence|now apply H58]). destruct (IH c (c :: text) HC' C58 ltac:(discriminate) eq_refl OLD) as [O1 O2]. cbn [rev] in O1, O2. rewrite !forallb_app in O1, O2. cbn [forallb] in O1, O2.
    split; intros NP HF; rewrite NP.
    + destruct (is_num c) eqn:NC; cbn [negb].
      * apply O1; [reflexivity|]. now rewrite HF.
      * unfold nums. cbn [filter tk_type ttype_eqb map tk_text]. fold (nums (tok_loop c [c] cs)). rewrite N2 by reflexivity. rewrite num_enc by exact HF. unfold emit. destruct (rev text) eqn:R; [|reflexivity]. apply (f_equal (@rev Z)) in R. rewrite rev_involutive in R. cbn in R. congruence.
    + destruct (is_num c) eqn:NC; cbn [emit app].
      * destruct (is_tletter prev); [assert (is_tletter c = false) as -> by (unfold is_num in NC; unfold is_tletter, is_alphaA, is_upperA, is_lowerA; lia)|]; cbn [negb orb]; unfold nums; cbn [filter tk_type ttype_eqb]; fold (nums (tok_loop c [c] cs)); now apply N1.
      * assert (O2' : nums (tok_loop c (c :: text) cs) = runs [] cs) by (apply O2; [reflexivity|]; now rewrite HF). assert (N2' : nums (tok_loop c [c] cs) = runs [] cs) by now apply N2.
        destruct (is_tletter prev); [destruct (is_tletter c); cbn [negb]|destruct (is_tletter c); cbn [orb]]; try exact O2'; unfold nums; cbn [filter tk_type ttype_eqb]; fold (nums (tok_loop c [c] cs)); exact N2'.
Qed.
Theorem token_runs s : ~ In 58 (runes s) -> nums (tokenize s) = runs [] (runes s).
Proof.
  intros H. unfold tokenize. destruct (runes s) as [|c [|c2 cs]] eqn:R; [reflexivity| |].
  - assert (c <> 58) by (intros X; apply H; now left). unfold nums. cbn [filter tk_type runs]. unfold compare_chars. rewrite num_t by assumption. destruct (is_num c) eqn:N; [|destruct (is_tletter c); reflexivity]. cbn [fst ttype_eqb map tk_text emit app].
    assert (SN : s <> []) by (intros ->; discriminate R). rewrite runes_unfold in R by exact SN. assert (F : fst (decode_rune s) = c) by congruence. destruct (decode_rune_ascii s SN) as (s' & X & W); [rewrite F; unfold is_num in N; lia|]. rewrite W in R. rewrite X in R |- *. rewrite F in *. cbn [skipn] in R.
    destruct s' as [|d s']; [reflexivity|]. rewrite (runes_unfold (d :: s')) in R by discriminate. discriminate R.
  - assert (c <> 58) by (intros X; apply H; now left). assert (H' : ~ In 58 (c2 :: cs)) by (intros X; apply H; now right). assert (NEW : ~ In 58 [c]) by (intros [X|[]]; congruence).
    destruct (tok_runs (c2 :: cs) c [c] H' H0 ltac:(discriminate) eq_refl NEW) as [N1 N2]. cbn [rev app forallb] in N1, N2. change (runs [] (c :: c2 :: cs)) with (if is_num c then runs ([] ++ [c]) (c2 :: cs) else (emit [] ++ runs [] (c2 :: cs))%list). destruct (is_num c); [now apply N1|now apply N2].
Qed.
(** runs consist of digits *)
Lemma runs_digs : forall l acc, digs acc -> Forall (fun r => digits r) (runs acc l).
Proof.
  assert (EM : forall acc, digs acc -> Forall digits (emit acc)) by (intros [|a acc] H; constructor; [split; [discriminate|exact H]|constructor]).
  induction l as [|c l IH]; intros acc HA; cbn [runs]; [now apply EM|]. destruct (is_num c) eqn:N; [apply IH; apply Forall_app; split; [exact HA|constructor; [unfold is_num in N; lia|constructor]]|]. apply Forall_app. split; [now apply EM|apply IH; constructor].
Qed.

(** removing the colons *)
Lemma split_one c : forall s acc, sjoin (split_from 0 acc s [c]) [] = (rev acc ++ filter (fun x => negb (x =? c)) s)%list.
Proof.
  induction s as [|x s IH]; intros acc; cbn [split_from]; [cbn; now rewrite app_nil_r|]. cbn [has_prefix length pred]. rewrite andb_true_r, Z.eqb_sym. cbn [filter]. destruct (x =? c) eqn:X; cbn [negb].
  - rewrite sjoin_nil. cbn [concat]. rewrite <- sjoin_nil, IH. reflexivity.
  - rewrite IH. cbn [rev]. now rewrite <- app_assoc.
Qed.
Definition no_colon (x : Z) : bool := negb (x =? 58).
Lemma colons s : replace_all s (lit ":") [] = filter no_colon s.
Proof. unfold replace_all, split. change (lit ":") with [58]. rewrite split_one. reflexivity. Qed.
Lemma no_colon_rune s : ~ In 58 s -> ~ In 58 (runes s).
Proof.
  pattern s. apply rune_ind; clear s; [intros _ []|]. intros s Hs IH H. rewrite runes_unfold by exact Hs. intros [X|X].
  - destruct (decode_rune_ascii s Hs) as (s' & Y & _); [lia|]. rewrite X in Y. apply H. rewrite Y. now left.
  - apply IH; [|exact X]. intros Y. apply H. rewrite <- (firstn_skipn (snd (decode_rune s)) s). apply in_or_app. now right.
Qed.
Lemma colons_gone s : ~ In 58 (runes (filter no_colon s)).
Proof. apply no_colon_rune. rewrite filter_In. unfold no_colon. intros [_ H]. discriminate H. Qed.

(** ** Eight digits *)
Section E8.
Variable U : uni.
Definition dg : re := Cls false {| cl_neg := false; cl_items := [IRange 48 57] |}.
Lemma dg_step s k : mtch U dg s k = match m_rest s with c :: t => if is_num c then k (Build_mst c t (m_pos s + 1) (m_caps s)) else None | [] => None end.
Proof.
  unfold dg. cbn [mtch]. unfold step. destruct (m_rest s) as [|c t] eqn:R; [reflexivity|]. destruct (rune_num (c :: t) ltac:(discriminate)) as [R1 R2]. cbn [hd] in R1, R2. destruct (decode_rune (c :: t)) as [r w]. cbn [fst] in R1.
  unfold cls_has. cbn [cl_neg cl_items existsb item_has]. rewrite orb_false_r, xorb_false_l. fold (is_num r). rewrite R1. destruct (is_num c); [|reflexivity]. specialize (R2 eq_refl). injection R2 as -> ->. reflexivity.
Qed.
Lemma eight_ast : rx_ast rxEightDigit = Cat Bot (Cat (Cat dg (Cat dg (Cat dg (Cat dg (Cat dg (Cat dg (Cat dg dg))))))) Eot). Proof. reflexivity. Qed.
Lemma mtch_cat a b s k : mtch U (Cat a b) s k = mtch U a s (fun s' => mtch U b s' k). Proof. reflexivity. Qed.
Lemma eight_here s : match match_here U (rx_ast rxEightDigit) (Build_mst (-1) s 0 []) with Some _ => true | None => false end = forallb is_num s && Nat.eqb (length s) 8.
Proof.
  unfold match_here. rewrite eight_ast, mtch_cat. change (mtch U Bot ?s ?k) with (match m_pos s with O => k s | _ => None end). cbn [m_pos]. rewrite !mtch_cat.
  Local Opaque dg.
  do 8 (rewrite ?mtch_cat, dg_step; cbn [m_rest m_pos m_caps]; let c := fresh "c" in destruct s as [|c s]; cbn [forallb length Nat.eqb]; [rewrite ?andb_false_r; reflexivity|]; match goal with |- context [if is_num ?x then _ else None] => destruct (is_num x) end; cbn [andb]; [|reflexivity]).
  change (mtch U Eot ?s ?k) with (match m_rest s with [] => k s | _ => None end). cbn [m_rest]. destruct s as [|cc s]; [reflexivity|]. cbn [forallb length Nat.eqb]. now rewrite andb_false_r.
Qed.
Lemma eight_match s : match_string U rxEightDigit s = forallb is_num s && Nat.eqb (length s) 8.
Proof.
  rewrite <- eight_here. unfold match_string, find. unfold states. assert (ST : exists tl, states_from (-1) 0 (decode s) s = Build_mst (-1) s 0 [] :: tl /\ forall x, In x tl -> (0 < m_pos x)%nat).
  { exists (tl (states_from (-1) 0 (decode s) s)). split; [destruct (decode s); reflexivity|]. intros x Hx. apply (states_from_pos (-1) 0 (decode s) s); [apply decode_widths|exact Hx]. }
  destruct ST as (l & -> & HP). cbn [first_match]. destruct (match_here U (rx_ast rxEightDigit) (Build_mst (-1) s 0 [])); [reflexivity|].
  assert (FN : first_match U (rx_ast rxEightDigit) l = None); [|now rewrite FN]. induction l as [|x l IH]; [reflexivity|]. cbn [first_match]. assert (match_here U (rx_ast rxEightDigit) x = None) as ->.
  { unfold match_here. rewrite eight_ast, mtch_cat. change (mtch U Bot ?s ?k) with (match m_pos s with O => k s | _ => None end). specialize (HP x (or_introl eq_refl)). destruct (m_pos x); [lia|reflexivity]. }
  apply IH. intros y Hy. apply HP. now right.
Qed.
End E8.

(** the six layouts of eight digits *)
Definition zero_std (p : part) : std := match p with FY => StdLongYear | Fm => StdZeroMonth | _ => StdZeroDay end.
Lemma eight_chunks : map (fun f => chunks_of (lit f)) preferred8 = map (fun ps => (map (fun p => ([], zero_std p)) ps, [])) eight.
Proof. vm_compute. reflexivity. Qed.
Lemma eight_periods : map period_of_format preferred8 = map (fun _ => PDay) preferred8.
Proof. vm_compute. reflexivity. Qed.
Definition wide (p : part) : nat := match p with FY => 4 | _ => 2 end.
Definition date_part (p : part) : Prop := match p with FY | Fm | Fd => True | _ => False end.
Lemma getnum2 t r : digs t -> length t = 2%nat -> getnum (t ++ r) true = Some (number 0 t, r).
Proof.
  intros HD HL. destruct t as [|a [|b [|c t]]]; try discriminate HL. inversion HD as [|? ? Ha HD']; subst. inversion HD' as [|? ? Hb _]; subst. cbn [app getnum]. unfold is_digitA. assert ((48 <=? a) && (a <=? 57) = true) as -> by lia. assert ((48 <=? b) && (b <=? 57) = true) as -> by lia. reflexivity.
Qed.
(** what the fixed-width fields accept by themselves *)
Definition month_ok (x : part * str) : bool := match fst x with Fm => in_range Fm (number 0 (snd x)) | _ => true end.
Lemma zero_piece p nx st t r : date_part p -> digs t -> length t = wide p ->
  parse_chunk (zero_std p) nx st (t ++ r) = if month_ok (p, t) then Some (setp p (number 0 t) st, r) else None.
Proof.
  intros HP HD HL. destruct p; try destruct HP; cbn [zero_std wide setp] in *; cbn [parse_chunk].
  - assert (Nat.ltb (length (t ++ r)) 4 = false) as -> by (rewrite app_length; lia). destruct t as [|a t]; [discriminate HL|]. inversion HD; subst. unfold is_digit_at. cbn [app nth_error]. unfold is_digitA at 1. assert ((48 <=? a) && (a <=? 57) = true) as -> by lia. cbn [orb negb].
    change (a :: t ++ r)%list with ((a :: t) ++ r)%list. rewrite <- HL. rewrite firstn_app, firstn_all, Nat.sub_diag, firstn_O, app_nil_r, skipn_app, skipn_all, Nat.sub_diag. rewrite digits_atoi by (split; [discriminate|assumption]). reflexivity.
  - rewrite getnum2 by assumption. cbn [obind]. unfold month_ok. cbn [fst snd in_range]. destruct ((number 0 t <=? 0) || (12 <? number 0 t)) eqn:A, ((1 <=? number 0 t) && (number 0 t <=? 12)) eqn:B; try lia; reflexivity.
  - rewrite getnum2 by assumption. reflexivity.
Qed.
Definition wide_ok (x : part * str) : Prop := date_part (fst x) /\ digs (snd x) /\ length (snd x) = wide (fst x).
Lemma zero_chunks ps : forall ts st, length ts = length ps -> Forall wide_ok (combine ps ts) ->
  parse_chunks (map (fun p => ([], zero_std p)) ps) [] st (concat ts) = if forallb month_ok (combine ps ts) then Some (setall ps ts st) else None.
Proof.
  induction ps as [|p ps IH]; intros [|t ts] st HL HW; cbn [length] in HL; try discriminate HL; [reflexivity|]. cbn [combine] in HW. inversion HW as [|? ? [H1 [H2 H3]] HW']; subst. cbn [fst snd] in *. cbn [map parse_chunks concat combine forallb setall].
  change (skip (t ++ concat ts) []) with (Some (t ++ concat ts)%list). cbn [obind]. rewrite zero_piece by assumption. destruct (month_ok (p, t)); cbn [obind andb]; [|reflexivity]. apply IH; [congruence|assumption].
Qed.
Local Opaque mk_date.
Definition late (o : option time) : option time := match o with Some t => if negb (is_zero t) && (1000 <=? year t) then Some t else None | None => None end.
Lemma wide_read L f ps ts y m d : chunks_of (lit f) = (map (fun p => ([], zero_std p)) ps, []) -> NoDup ps -> one_year ps -> length ts = length ps -> Forall wide_ok (combine ps ts) ->
  field FY ps ts = Some y -> field Fm ps ts = Some m -> field Fd ps ts = Some d -> field FH ps ts = None -> field FM ps ts = None -> field FS ps ts = None ->
  forallb month_ok (combine ps ts) = in_range Fm m -> forallb (fun x => in_range (fst x) (number 0 (snd x))) (combine ps ts) = in_range FY y && in_range Fm m && in_range Fd d -> 0 <= y <= 9999 -> 0 <= d <= 99 ->
  late (time_parse L (lit f) (concat ts)) = read ps ts.
Proof.
  intros HC ND OY HL HW Hy Hm Hd Hh Hmi Hs MO IR Y9 D9. unfold read. rewrite IR. unfold the_year. rewrite Hy, Hm, Hd, Hh, Hmi, Hs. cbn [or0]. unfold time_parse, tparse. rewrite HC, zero_chunks by assumption. rewrite MO.
  destruct (in_range Fm m) eqn:RM; cbn [obind late]; [|now rewrite andb_false_r]. rewrite andb_true_r.
  destruct (setall_fields ps ND OY ts pst0) as (F1 & F2 & F3 & F4 & F5 & F6). destruct (setall_consts ps ts pst0) as (G1 & G2 & G3 & G4 & G5 & G6 & G7). unfold the_year in F1. rewrite Hy in F1. rewrite Hm in F2. rewrite Hd in F3. rewrite Hh in F4. rewrite Hmi in F5. rewrite Hs in F6. cbn [dflt] in F1, F2, F3, F4, F5, F6.
  cbn [in_range] in RM. unfold finish_md. rewrite F1, F2, F3, F4, F5, F6, G1, G2, G3, G4, G5, G6, G7. cbn [pst0 p_yday p_nsec p_am p_pm p_z p_zoff p_zname p_hour p_min p_sec andb]. change (0 <=? -1) with false. cbv iota. cbn [obind].
  assert (m <? 0 = false) as -> by lia. assert (d <? 0 = false) as -> by lia. change (-1 =? -1) with true. cbn [negb empty]. cbn [in_range].
  pose proof (days_in_bounds y m). destruct ((d <? 1) || (days_in y m <? d)) eqn:DV; cbn [late].
  - destruct ((1000 <=? y) && (y <=? 9999) && ((1 <=? d) && (d <=? 31))) eqn:A; [|reflexivity]. assert (d <=? days_in y m = false) as -> by lia. reflexivity.
  - assert (VD : valid_date y m d) by (unfold valid_date; lia). assert (YE : year (mk_date y m d 0 0 0 0 utc) = y) by (apply mk_date_year; [apply fixed_utc|exact VD|unfold valid_clock; lia]). rewrite YE.
    assert (d <=? days_in y m = true) as -> by lia. destruct (1000 <=? y) eqn:Y; [|now rewrite andb_false_r].
    assert (is_zero (mk_date y m d 0 0 0 0 utc) = false) as -> by (apply not_zero; [lia|exact VD]). cbn [negb andb]. assert ((y <=? 9999) && ((1 <=? d) && (d <=? 31)) = true) as -> by lia. reflexivity.
Qed.
Lemma eight_one L s f ps : digs s -> length s = 8%nat -> In (f, ps) (combine preferred8 eight) -> late (time_parse L (lit f) s) = first_some (read ps) (splits ps s).
Proof.
  intros HD HL HI. do 8 (let x := fresh "x" in destruct s as [|x s]; [discriminate HL|]). destruct s; [|discriminate HL].
  assert (B : forall t, digs t -> (length t <= 4)%nat -> 0 <= number 0 t <= 9999) by exact number_bound.
  assert (B2 : forall a b, 48 <= a <= 57 -> 48 <= b <= 57 -> 0 <= number 0 [a; b] <= 99) by (intros a b Ha Hb; cbn [number]; lia).
  repeat match goal with H : digs (_ :: _) |- _ => inversion H; clear H; subst | H : Forall _ (_ :: _) |- _ => inversion H; clear H; subst end.
  cbn [preferred8 eight combine In] in HI.
  do 6 (destruct HI as [HI|HI]; [
    injection HI as <- <-; cbn [splits widths flat_map length Nat.leb firstn skipn map app];
    match goal with |- late (time_parse _ (lit ?g) _) = first_some (read ?p) [?ts] => cut (late (time_parse L (lit g) (concat ts)) = read p ts); [cbn [concat app first_some]; intros ->; destruct (read p ts); reflexivity|]; eapply wide_read;
      [vm_compute; reflexivity | repeat constructor; cbn; intuition discriminate | intros [A1 A2]; cbn in A1, A2; intuition discriminate | reflexivity |
       repeat (apply Forall_cons; [split; [exact I|split; [repeat (constructor; [assumption|]); constructor|reflexivity]]|]); apply Forall_nil | reflexivity | reflexivity | reflexivity | reflexivity | reflexivity | reflexivity |
       cbn [combine forallb]; unfold month_ok; cbn [fst snd]; rewrite ?andb_true_r; reflexivity |
       cbn [combine forallb fst snd]; rewrite ?andb_true_r; repeat match goal with |- context [in_range ?q ?v] => destruct (in_range q v) end; reflexivity |
       apply B; [repeat (constructor; [assumption|]); constructor | cbn; lia] |
       apply B2; assumption] end |]).
  destruct HI.
Qed.
Lemma find_best_late E fs s : map period_of_format fs = map (fun _ => PDay) fs -> find_best E fs s = option_map (mkd PDay) (first_some (fun f => late (time_parse (e_local E) (lit f) s)) fs).
Proof.
  induction fs as [|f fs IH]; [reflexivity|]. cbn [map find_best first_some]. intros H. assert (H1 : period_of_format f = PDay) by congruence. assert (H2 : map period_of_format fs = map (fun _ => PDay) fs) by congruence. rewrite IH by exact H2. destruct (time_parse _ _ _) as [t|]; cbn [late]; [|reflexivity].
  destruct (negb (is_zero t) && (1000 <=? year t)); [rewrite H1; reflexivity|reflexivity].
Qed.
Lemma first_combine {A B C} (f : A -> option C) (g : B -> option C) : forall l1 l2, length l1 = length l2 -> (forall a b, In (a, b) (combine l1 l2) -> f a = g b) -> first_some f l1 = first_some g l2.
Proof.
  induction l1 as [|a l1 IH]; intros [|b l2] HL H; cbn [length] in HL; try discriminate HL; [reflexivity|]. cbn [first_some]. rewrite (H a b) by now left. rewrite (IH l2); [reflexivity|congruence|]. intros x y Hx. apply H. now right.
Qed.
Theorem eight_exact E s : digs s -> length s = 8%nat -> find_best E preferred8 s = option_map (mkd PDay) (reads eight s).
Proof.
  intros HD HL. rewrite find_best_late by (vm_compute; reflexivity). f_equal. unfold reads. apply first_combine; [reflexivity|]. intros f ps HI. now apply eight_one.
Qed.
