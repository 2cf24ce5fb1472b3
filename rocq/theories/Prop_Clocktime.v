(** C38: times of day (internal/parser/common/time.go: ParseTime). *)
From Verif Require Import GoBase Civil GoTime GoTimeFacts GoTimeParse Setting Env Common Spec AbsFacts AbsFacts2 AbsSpec LayoutFacts RegexFacts NumericFacts NumTranslate Utf8Facts Prop_Timestamp Concrete.
From Coq Require Import ZifyBool.

(** ** Specification: what a time of day looks like and which time it denotes *)
(** one or two digits with value [v] *)
Definition numeral (w : str) (v : Z) : Prop := digits w /\ (length w <= 2)%nat /\ number 0 w = v.
(** nothing, or a period or comma and decimal digits: the fraction of a second, of which nine digits count *)
Definition fraction (w : str) (ns : Z) : Prop :=
  (w = [] /\ ns = 0) \/
  exists c ds, w = c :: ds /\ In c [46; 44] /\ digits ds /\ ns = number 0 (firstn 9 (ds ++ repeat 48 9)).
Inductive half := AM | PM.
(** one or more blanks, then AM or PM *)
Definition half_word (w : str) (x : half) : Prop := exists k, w = repeat 32 (S k) ++ lit (match x with AM => "AM" | PM => "PM" end).
(** the 24-hour value of an hour of the 12-hour clock *)
Definition hour_of (h : Z) (x : half) : Z := match x with AM => if h =? 12 then 0 else h | PM => if h <? 12 then h + 12 else h end.
Definition colon : str := [58].

(** [clock s h m sec ns per]: [s] denotes [h]:[m]:[sec] and [ns] nanoseconds with resolution [per] *)
Inductive clock : str -> Z -> Z -> Z -> Z -> period -> Prop :=
| hms hw h mw m sw s fw ns : numeral hw h -> h < 24 -> numeral mw m -> m < 60 -> numeral sw s -> s < 60 -> fraction fw ns ->
    clock (hw ++ colon ++ mw ++ colon ++ sw ++ fw) h m s ns PSecond
| hms_half hw h mw m sw s fw ns aw x : numeral hw h -> h <= 12 -> numeral mw m -> m < 60 -> numeral sw s -> s < 60 -> fraction fw ns -> half_word aw x ->
    clock (hw ++ colon ++ mw ++ colon ++ sw ++ fw ++ aw) (hour_of h x) m s ns PSecond
| hm hw h mw m : numeral hw h -> h < 24 -> numeral mw m -> m < 60 -> clock (hw ++ colon ++ mw) h m 0 0 PMinute
| hm_half hw h mw m aw x : numeral hw h -> h < 24 -> numeral mw m -> m < 60 -> half_word aw x ->
    clock (hw ++ colon ++ mw ++ aw) (hour_of h x) m 0 0 PMinute
| h_half hw h aw x : numeral hw h -> h <= 12 -> half_word aw x -> clock (hw ++ aw) (hour_of h x) 0 0 0 PHour.

(** ** The fields *)
Definition nodigit (r : str) : Prop := match r with c :: _ => is_digitA c = false | [] => True end.
Lemma digitA c : 48 <= c <= 57 <-> is_digitA c = true. Proof. unfold is_digitA. lia. Qed.
Lemma numeral_cases w v : numeral w v <-> (exists a, w = [a] /\ is_digitA a = true /\ v = a - 48) \/
  (exists a b, w = [a; b] /\ is_digitA a = true /\ is_digitA b = true /\ v = (a - 48) * 10 + (b - 48)).
Proof.
  unfold numeral, digits. split.
  - intros ((N & D) & L & V). destruct w as [|a [|b [|c w]]]; [congruence| | |cbn [length] in L; lia].
    + left. exists a. inversion D; subst. cbn [number]. rewrite <- digitA. repeat split; try lia.
    + right. exists a, b. inversion D as [|? ? Ha D']; subst. inversion D'; subst. cbn [number]. rewrite <- !digitA. repeat split; lia.
  - intros [(a & -> & A & ->)|(a & b & -> & A & B & ->)]; rewrite <- digitA in *; cbn [number length]; (split; [split; [congruence|]|]).
    + constructor; [exact A|constructor].
    + lia.
    + constructor; [exact A|constructor; [exact B|constructor]].
    + lia.
Qed.
Lemma getnum_app w v r : numeral w v -> nodigit r -> getnum (w ++ r) false = Some (v, r).
Proof.
  rewrite numeral_cases. intros [(a & -> & A & ->)|(a & b & -> & A & B & ->)] R; cbn [app getnum]; rewrite A; [|now rewrite B].
  destruct r as [|c r]; [reflexivity|]. cbn in R. now rewrite R.
Qed.
Lemma getnum_inv v n r : getnum v false = Some (n, r) -> exists w, v = w ++ r /\ numeral w n.
Proof.
  unfold getnum. destruct v as [|a s1]; [discriminate|]. destruct (is_digitA a) eqn:A; [|discriminate].
  assert (ONE : Some (a - 48, s1) = Some (n, r) -> exists w, a :: s1 = w ++ r /\ numeral w n).
  { intros H. assert (n = a - 48) by congruence. assert (s1 = r) by congruence. subst. exists [a]. split; [reflexivity|]. apply numeral_cases. left. now exists a. }
  destruct s1 as [|b s2]; [exact ONE|]. destruct (is_digitA b) eqn:B; [|exact ONE].
  intros H. assert (n = (a - 48) * 10 + (b - 48)) by congruence. assert (s2 = r) by congruence. subst. exists [a; b]. split; [reflexivity|]. apply numeral_cases. right. now exists a, b.
Qed.
Lemma numeral_nonneg w v : numeral w v -> 0 <= v.
Proof. intros (D & _ & <-). now apply number_bound. Qed.

Lemma skip_nil v : skip v [] = Some v. Proof. reflexivity. Qed.
Lemma skip_colon r : skip (58 :: r) [58] = Some r. Proof. reflexivity. Qed.
Lemma skip_colon_inv v r : skip v [58] = Some r -> v = colon ++ r.
Proof.
  unfold skip. cbn [skip_aux]. change (58 =? 32) with false. cbv iota. destruct v as [|c v]; [discriminate|]. destruct (c =? 58) eqn:C; [|discriminate].
  intros H. apply Z.eqb_eq in C. subst. apply some_inj in H. now subst.
Qed.
Lemma skip_colon_none v : match v with c :: _ => c <> 58 | [] => True end -> skip v [58] = None.
Proof.
  unfold skip. cbn [skip_aux]. change (58 =? 32) with false. cbv iota. destruct v as [|c v]; [reflexivity|]. intros H. destruct (c =? 58) eqn:C; [lia|reflexivity].
Qed.
Lemma cutspace_repeat k r : match r with c :: _ => c <> 32 | [] => True end -> cutspace (repeat 32 k ++ r) = r.
Proof. intros H. induction k as [|k IH]; cbn [repeat app cutspace]; [|exact IH]. destruct r as [|c r]; [reflexivity|]. cbn [cutspace]. destruct c as [|p|p]; try reflexivity. repeat (destruct p as [p|p|]; try reflexivity). lia. Qed.
Lemma cutspace_inv v : exists k, v = repeat 32 k ++ cutspace v.
Proof.
  induction v as [|c v [k IH]]; [now exists 0%nat|]. destruct (Z.eq_dec c 32) as [->|N].
  - exists (S k). cbn [cutspace repeat app]. now rewrite <- IH.
  - exists 0%nat. cbn [repeat app]. symmetry. now apply (cutspace_repeat 0 (c :: v)).
Qed.
Lemma skip_blank_inv v r : skip v [32] = Some r -> (v = [] /\ r = []) \/ exists k, v = repeat 32 (S k) ++ r.
Proof.
  unfold skip. cbn [skip_aux]. change (32 =? 32) with true. cbv iota. destruct v as [|c v]; [intros H; left; split; congruence|].
  destruct (c =? 32) eqn:C; [|discriminate]. intros H. right. apply Z.eqb_eq in C. subst. apply some_inj in H. subst r. cbn [cutspace].
  destruct (cutspace_inv v) as [k K]. exists k. cbn [repeat app]. now rewrite <- K.
Qed.
Lemma skip_blank k r : match r with c :: _ => c <> 32 | [] => True end -> skip (repeat 32 (S k) ++ r) [32] = Some r.
Proof. intros H. unfold skip. cbn [repeat app skip_aux]. change (32 =? 32) with true. cbv iota. change (cutspace (32 :: repeat 32 k ++ r)) with (cutspace (repeat 32 k ++ r)). now rewrite cutspace_repeat. Qed.

Definition half_state (x : half) (p : pst) : pst := match x with AM => with_ampm true (p_pm p) p | PM => with_ampm (p_am p) true p end.
Definition pm_chunk (v : str) (p : pst) : option (pst * str) := parse_chunk StdPM None p v.
Lemma half_step nx p aw x : half_word aw x -> exists r, skip aw [32] = Some r /\ parse_chunk StdPM nx p r = Some (half_state x p, []).
Proof.
  intros (k & ->). eexists. split; [apply skip_blank; destruct x; vm_compute; congruence|]. destruct x; reflexivity.
Qed.
Lemma prefix_app p : forall v, has_prefix p v = true -> v = p ++ skipn (length p) v.
Proof.
  induction p as [|a p IH]; intros v H; [reflexivity|]. destruct v as [|b v]; [discriminate|]. cbn [has_prefix] in H. apply andb_true_iff in H as [E H].
  apply Z.eqb_eq in E. subst. cbn [app length skipn]. now rewrite <- (IH v H).
Qed.
Lemma half_inv v r nx p q u : skip v [32] = Some r -> parse_chunk StdPM nx p r = Some (q, u) -> exists x aw, half_word aw x /\ v = aw ++ u /\ q = half_state x p.
Proof.
  intros S P. unfold parse_chunk in P. 
  assert (X : exists x, r = lit (match x with AM => "AM" | PM => "PM" end) ++ u /\ q = half_state x p).
  { destruct (has_prefix (lit "PM") r) eqn:H1; [exists PM | destruct (has_prefix (lit "AM") r) eqn:H2; [exists AM|discriminate P]].
    - apply prefix_app in H1. assert (u = skipn 2 r) by congruence. subst u. split; [exact H1|]. cbn [half_state]. congruence.
    - apply prefix_app in H2. assert (u = skipn 2 r) by congruence. subst u. split; [exact H2|]. cbn [half_state]. congruence. }
  destruct X as (x & R & Q). exists x. destruct (skip_blank_inv v r S) as [[-> ->]|(k & ->)].
  - exfalso. destruct x; discriminate R.
  - exists (repeat 32 (Datatypes.S k) ++ lit (match x with AM => "AM" | PM => "PM" end)). split; [now exists k|]. split; [|exact Q]. rewrite R. now rewrite app_assoc.
Qed.

Lemma digits_len_app ds r : Forall (fun c => 48 <= c <= 57) ds -> nodigit r -> digits_len (ds ++ r) = length ds.
Proof.
  intros H R. induction H as [|c ds Hc _ IH]; cbn [app digits_len length].
  - destruct r as [|c r]; [reflexivity|]. cbn in R. cbn [digits_len]. now rewrite R.
  - apply digitA in Hc. now rewrite Hc, IH.
Qed.
Lemma digits_len_inv v : exists ds r, v = ds ++ r /\ Forall (fun c => 48 <= c <= 57) ds /\ nodigit r /\ length ds = digits_len v.
Proof.
  induction v as [|c v (ds & r & -> & F & R & L)]; [exists [], []; repeat split; constructor|]. cbn [digits_len]. destruct (is_digitA c) eqn:C.
  - exists (c :: ds), r. split; [reflexivity|]. split; [constructor; [now apply digitA|exact F]|]. split; [exact R|]. cbn [length]. now rewrite L.
  - exists [], (c :: ds ++ r). repeat split; [constructor|exact C].
Qed.
Lemma number_zeros n : forall acc, number acc (repeat 48 n) = acc * 10 ^ Z.of_nat n.
Proof. induction n as [|n IH]; intros acc; [cbn; lia|]. cbn [repeat number]. rewrite IH, Nat2Z.inj_succ, Z.pow_succ_r by lia. lia. Qed.
Lemma firstn_repeat {A} (x : A) : forall n k, firstn n (repeat x k) = repeat x (Nat.min n k).
Proof. induction n as [|n IH]; intros [|k]; cbn [firstn repeat Nat.min]; [reflexivity..|]. now rewrite IH. Qed.
Lemma nanos c ds r : In c [46; 44] -> digits ds -> nodigit r ->
  parse_nanos (c :: ds ++ r) (S (length ds)) = Some (number 0 (firstn 9 (ds ++ repeat 48 9))).
Proof.
  intros C D R. unfold parse_nanos. assert (comma_or_period c = true) as -> by (destruct C as [<- | [<- | []]]; reflexivity). cbv zeta.
  assert (M : (Nat.min (S (length ds)) 10 - 1 = Nat.min (length ds) 9)%nat) by lia. rewrite M.
  assert (F : firstn (Nat.min (length ds) 9) (ds ++ r) = firstn 9 ds).
  { rewrite firstn_app. replace (Nat.min (length ds) 9 - length ds)%nat with 0%nat by lia. rewrite firstn_O, app_nil_r.
    destruct (Nat.le_ge_cases (length ds) 9); [rewrite Nat.min_l by lia; rewrite firstn_all; rewrite firstn_all2 by lia; reflexivity|now rewrite Nat.min_r by lia]. }
  rewrite F. assert (D9 : digits (firstn 9 ds)).
  { destruct D as [N D]. split; [destruct ds; [congruence|discriminate]|]. apply Forall_forall. intros x Hx. rewrite Forall_forall in D. apply D. rewrite <- (firstn_skipn 9 ds). apply in_or_app. now left. }
  rewrite digits_atoi by exact D9. pose proof (number_bound _ D9) as [B _]. destruct (_ <? 0) eqn:N; [lia|]. f_equal. 
  rewrite firstn_app, number_app, firstn_repeat, number_zeros. do 3 f_equal. lia.
Qed.

(** seconds with their fraction *)
Lemma sec_step nx p w s fw ns r : is_frac nx = false -> p_nsec p = 0 -> numeral w s -> s < 60 -> fraction fw ns -> match r with c :: _ => c = 32 | [] => True end ->
  parse_chunk StdSecond nx p (w ++ fw ++ r) = Some (with_nsec ns (with_sec s p), r).
Proof.
  intros NF NP W S F R. unfold parse_chunk. assert (NR : nodigit r) by (destruct r; [exact I|subst; reflexivity]).
  rewrite (getnum_app w s (fw ++ r)) by (exact W || (destruct F as [[-> _]|(c & ds & -> & C & _)]; [exact NR|destruct C as [<- | [<- | []]]; reflexivity])).
  cbn [obind]. destruct (60 <=? s) eqn:B; [lia|]. cbv zeta. destruct F as [[-> ->]|(c & ds & -> & C & D & ->)]; cbn [app].
  - assert (Q : with_nsec 0 (with_sec s p) = with_sec s p) by (destruct p; cbn in NP; subst; reflexivity). rewrite Q. destruct r as [|c r]; [reflexivity|]. subst c. reflexivity.
  - rewrite NF. assert (is_digit_at (c :: ds ++ r) 1 = true) as ->.
    { destruct D as [N D]. destruct ds as [|d ds]; [congruence|]. inversion D; subst. unfold is_digit_at. cbn. now apply digitA. }
    assert (comma_or_period c = true) as -> by (destruct C as [<- | [<- | []]]; reflexivity). cbn [andb negb]. change (skipn 1 (c :: ds ++ r)) with (ds ++ r).
    rewrite digits_len_app by (apply D || exact NR). rewrite nanos by assumption. cbn [obind]. now rewrite skipn_cons, skip_app.
Qed.
Definition add_frac (p : pst) (v : str) : option (pst * str) :=
  match v with
  | c :: r => if comma_or_period c && is_digit_at v 1 then obind (parse_nanos v (S (digits_len r))) (fun ns => Some (with_nsec ns p, skipn (S (digits_len r)) v)) else Some (p, v)
  | [] => Some (p, v)
  end.
Lemma add_frac_inv p v q u : p_nsec p = 0 -> add_frac p v = Some (q, u) -> exists fw ns, fraction fw ns /\ v = fw ++ u /\ q = with_nsec ns p.
Proof.
  intros NP. assert (Q : with_nsec 0 p = p) by (destruct p; cbn in NP; subst; reflexivity).
  assert (NO : Some (p, v) = Some (q, u) -> exists fw ns, fraction fw ns /\ v = fw ++ u /\ q = with_nsec ns p).
  { intros H. exists [], 0. split; [now left|]. rewrite Q. split; cbn [app]; congruence. }
  unfold add_frac. destruct v as [|c r]; [exact NO|]. destruct (comma_or_period c && is_digit_at (c :: r) 1) eqn:C; [|exact NO].
  apply andb_true_iff in C as [C1 C2]. destruct (digits_len_inv r) as (ds & r' & -> & F & R & L). rewrite <- L.
  assert (D : digits ds). { split; [|exact F]. intros ->. unfold is_digit_at in C2. cbn [nth_error app] in C2. destruct r' as [|x r']; [discriminate|]. cbn in R. rewrite R in C2. discriminate. }
  assert (CC : In c [46; 44]) by (unfold comma_or_period in C1; cbn; lia). rewrite nanos by assumption. cbn [obind]. rewrite skipn_cons, skip_app by reflexivity.
  intros H. eexists (c :: ds), _. split; [right; exists c, ds; repeat split; [exact CC|apply D|apply D]|]. assert (u = r') by congruence. subst. split; [reflexivity|congruence].
Qed.
Lemma sec_inv nx p v q u : parse_chunk StdSecond nx p v = Some (q, u) -> is_frac nx = false -> p_nsec p = 0 ->
  exists w s fw ns, v = w ++ fw ++ u /\ numeral w s /\ s < 60 /\ fraction fw ns /\ q = with_nsec ns (with_sec s p).
Proof.
  intros H NF NP. revert H. unfold parse_chunk. destruct (getnum v false) as [[s r]|] eqn:G; [|discriminate]. cbn [obind]. destruct (60 <=? s) eqn:B; [discriminate|]. cbv zeta. rewrite NF. intros H.
  destruct (getnum_inv _ _ _ G) as (w & -> & W). assert (A : add_frac (with_sec s p) r = Some (q, u)).
  { destruct r as [|c r]; [exact H|]. unfold add_frac. cbn [negb] in H. rewrite andb_true_r in H. change (skipn 1 (c :: r)) with r in H. exact H. }
  destruct (add_frac_inv (with_sec s p) _ _ _ NP A) as (fw & ns & F & -> & ->). exists w, s, fw, ns. repeat split; auto; try lia; apply W.
Qed.
Lemma sec_plain_inv n sep p v q u : parse_chunk StdSecond (Some (StdFracSecond9 n sep)) p v = Some (q, u) -> exists w s, v = w ++ u /\ numeral w s /\ s < 60 /\ q = with_sec s p.
Proof.
  unfold parse_chunk. destruct (getnum v false) as [[s r]|] eqn:G; [|discriminate]. cbn [obind]. destruct (60 <=? s) eqn:B; [discriminate|]. cbv zeta. cbn [is_frac negb]. intros H.
  destruct (getnum_inv _ _ _ G) as (w & -> & W). assert (Some (with_sec s p, r) = Some (q, u)) by (destruct r; [exact H|rewrite andb_false_r in H; exact H]).
  exists w, s. assert (r = u) by congruence. subst. repeat split; try apply W; try lia. congruence.
Qed.

(** ** The layouts *)
Definition timeonly (p : pst) : Prop :=
  p_year p = 0 /\ p_month p = -1 /\ p_day p = -1 /\ p_yday p = -1 /\ p_z p = false /\ p_zoff p = -1 /\ p_zname p = [].
Definition time_of (p : pst) : time := mk_date 0 1 1 (hour24 p) (p_min p) (p_sec p) (p_nsec p) utc.
Lemma tp_state L layout cs v : chunks_of layout = (cs, []) ->
  match parse_chunks cs [] pst0 v with
  | Some p => timeonly p -> time_parse L layout v = Some (time_of p)
  | None => time_parse L layout v = None
  end.
Proof.
  intros C. unfold time_parse, tparse. rewrite C. destruct (parse_chunks cs [] pst0 v) as [p|]; [|reflexivity].
  intros (Y & M & D & YD & Z1 & Z2 & Z3). cbn [obind]. unfold finish_md. rewrite YD, M, D, Y, Z1, Z2, Z3. change (0 <=? -1) with false. change (-1 <? 0) with true. cbv iota. cbn [obind].
  change ((1 <? 1) || (days_in 0 1 <? 1)) with false. cbv iota zeta. change (negb (-1 =? -1)) with false. cbn [empty negb]. reflexivity.
Qed.
(** the chunks of the eight layouts *)
Definition L1 : list (str * std) := [([], StdHour); ([58], StdMinute); ([58], StdSecond)].
Definition L2 : list (str * std) := [([], StdHour12); ([58], StdMinute); ([58], StdSecond); ([32], StdPM)].
Definition L3 : list (str * std) := [([], StdHour); ([58], StdMinute)].
Definition L4 : list (str * std) := [([], StdHour12); ([58], StdMinute); ([32], StdPM)].
Definition L5 : list (str * std) := [([], StdHour12); ([32], StdPM)].
Definition L6 : list (str * std) := [([], StdHour); ([58], StdMinute); ([58], StdSecond); ([], StdFracSecond9 6 46)].
Definition L7 : list (str * std) := [([], StdHour12); ([58], StdMinute); ([58], StdSecond); ([], StdFracSecond9 6 46); ([32], StdPM)].
Definition L8 : list (str * std) := [([], StdHour); ([58], StdMinute); ([32], StdPM)].
Lemma layouts_ok : map (fun f => chunks_of (lit (fst f))) time_formats = map (fun l => (l, [])) [L1; L2; L3; L4; L5; L6; L7; L8].
Proof. vm_compute. reflexivity. Qed.

Lemma chunks_cons p sd l v st q : parse_chunks ((p, sd) :: l) [] st v = Some q ->
  exists v1 st' v2, skip v p = Some v1 /\ parse_chunk sd (match l with (_, n) :: _ => Some n | [] => None end) st v1 = Some (st', v2) /\ parse_chunks l [] st' v2 = Some q.
Proof.
  cbn [parse_chunks]. destruct (skip v p) as [v1|] eqn:S; [|discriminate]. cbn [obind]. destruct (parse_chunk sd _ st v1) as [[st' v2]|] eqn:P; [|discriminate]. cbn [obind]. intros H. exists v1, st', v2. auto.
Qed.
Lemma chunks_nil v st q : parse_chunks [] [] st v = Some q -> v = [] /\ q = st.
Proof. cbn [parse_chunks]. rewrite skip_nil. cbn [obind]. destruct v; [|discriminate]. intros H. split; congruence. Qed.
Lemma hour_inv nx p v q u : parse_chunk StdHour nx p v = Some (q, u) -> exists w h, v = w ++ u /\ numeral w h /\ h < 24 /\ q = with_hour h p.
Proof.
  unfold parse_chunk. destruct (getnum v false) as [[h r]|] eqn:G; [|discriminate]. cbn [obind]. destruct (24 <=? h) eqn:B; [discriminate|]. intros H. destruct (getnum_inv _ _ _ G) as (w & -> & W).
  exists w, h. assert (r = u) by congruence. subst. repeat split; try apply W; try lia. congruence.
Qed.
Lemma hour12_inv nx p v q u : parse_chunk StdHour12 nx p v = Some (q, u) -> exists w h, v = w ++ u /\ numeral w h /\ h <= 12 /\ q = with_hour h p.
Proof.
  unfold parse_chunk. destruct (getnum v false) as [[h r]|] eqn:G; [|discriminate]. cbn [obind]. destruct (12 <? h) eqn:B; [discriminate|]. intros H. destruct (getnum_inv _ _ _ G) as (w & -> & W).
  exists w, h. assert (r = u) by congruence. subst. repeat split; try apply W; try lia. congruence.
Qed.
Lemma min_inv nx p v q u : parse_chunk StdMinute nx p v = Some (q, u) -> exists w h, v = w ++ u /\ numeral w h /\ h < 60 /\ q = with_min h p.
Proof.
  unfold parse_chunk. destruct (getnum v false) as [[h r]|] eqn:G; [|discriminate]. cbn [obind]. destruct (60 <=? h) eqn:B; [discriminate|]. intros H. destruct (getnum_inv _ _ _ G) as (w & -> & W).
  exists w, h. assert (r = u) by congruence. subst. repeat split; try apply W; try lia. congruence.
Qed.
Lemma hour_step nx p w h r : numeral w h -> nodigit r -> parse_chunk StdHour nx p (w ++ r) = if 24 <=? h then None else Some (with_hour h p, r).
Proof. intros W R. unfold parse_chunk. now rewrite (getnum_app w h r W R). Qed.
Lemma hour12_step nx p w h r : numeral w h -> nodigit r -> parse_chunk StdHour12 nx p (w ++ r) = if 12 <? h then None else Some (with_hour h p, r).
Proof. intros W R. unfold parse_chunk. now rewrite (getnum_app w h r W R). Qed.
Lemma min_step nx p w h r : numeral w h -> nodigit r -> parse_chunk StdMinute nx p (w ++ r) = if 60 <=? h then None else Some (with_min h p, r).
Proof. intros W R. unfold parse_chunk. now rewrite (getnum_app w h r W R). Qed.
Lemma frac_inv n sep nx p v q u : parse_chunk (StdFracSecond9 n sep) nx p v = Some (q, u) -> p_nsec p = 0 -> exists fw ns, fraction fw ns /\ v = fw ++ u /\ q = with_nsec ns p.
Proof. intros H N. apply (add_frac_inv p v q u N). unfold parse_chunk in H. unfold add_frac. destruct v; exact H. Qed.

Ltac inv_chunks :=
  repeat match goal with
  | H : parse_chunks (_ :: _) _ _ _ = Some _ |- _ => let S := fresh "S" in let P := fresh "P" in destruct (chunks_cons _ _ _ _ _ _ H) as (? & ? & ? & S & P & ?); clear H;
      lazymatch type of S with
      | skip _ [] = _ => rewrite skip_nil in S; apply some_inj in S; subst
      | skip _ [58] = _ => apply skip_colon_inv in S; subst
      | _ => idtac
      end;
      cbv iota in P; lazymatch type of P with
      | parse_chunk StdHour _ _ _ = _ => destruct (hour_inv _ _ _ _ _ P) as (? & ? & -> & ? & ? & ->); clear P
      | parse_chunk StdHour12 _ _ _ = _ => destruct (hour12_inv _ _ _ _ _ P) as (? & ? & -> & ? & ? & ->); clear P
      | parse_chunk StdMinute _ _ _ = _ => destruct (min_inv _ _ _ _ _ P) as (? & ? & -> & ? & ? & ->); clear P
      | parse_chunk StdSecond (Some (StdFracSecond9 _ _)) _ _ = _ => destruct (sec_plain_inv _ _ _ _ _ _ P) as (? & ? & -> & ? & ? & ->); clear P
      | parse_chunk StdSecond _ _ _ = _ => destruct (sec_inv _ _ _ _ _ P eq_refl eq_refl) as (? & ? & ? & ? & -> & ? & ? & ? & ->); clear P
      | parse_chunk (StdFracSecond9 _ _) _ _ _ = _ => destruct (frac_inv _ _ _ _ _ _ _ P eq_refl) as (? & ? & ? & -> & ->); clear P
      | parse_chunk StdPM _ _ _ = _ => destruct (half_inv _ _ _ _ _ _ S P) as (? & ? & ? & -> & ->); clear P S
      end
  | H : parse_chunks [] _ _ _ = Some _ |- _ => destruct (chunks_nil _ _ _ H) as [-> ->]; clear H
  end.
Definition read_as (l : list (str * std)) (per : period) : Prop := forall v p, parse_chunks l [] pst0 v = Some p ->
  timeonly p /\ exists h m s ns, clock v h m s ns per /\ time_of p = mk_date 0 1 1 h m s ns utc.
Lemma time_of_24 h p : p_am p = false -> p_pm p = false -> p_hour p = h -> hour24 p = h.
Proof. intros A P H. unfold hour24. now rewrite A, P. Qed.
Lemma time_of_half x p : p_am p = false -> p_pm p = false -> hour24 (half_state x p) = hour_of (p_hour p) x.
Proof. intros A P. destruct x; unfold hour24, half_state, hour_of; cbn; now rewrite ?A, ?P. Qed.
Ltac reads tac := let v := fresh in let p := fresh in let H := fresh in intros v p H; unfold L1, L2, L3, L4, L5, L6, L7, L8 in H; inv_chunks; split; [repeat split; match goal with x : half |- _ => destruct x; reflexivity | _ => reflexivity end|];
  eexists _, _, _, _; split; [rewrite ?app_nil_r, <- ?app_assoc; tac; first [eassumption|lia]|unfold time_of; rewrite ?time_of_half by reflexivity; try (match goal with x : half |- _ => destruct x end); reflexivity].
Lemma L1_reads : read_as L1 PSecond. Proof. reads ltac:(eapply hms). Qed.
Lemma L2_reads : read_as L2 PSecond. Proof. reads ltac:(eapply hms_half). Qed.
Lemma L3_reads : read_as L3 PMinute. Proof. reads ltac:(eapply hm). Qed.
Lemma L4_reads : read_as L4 PMinute. Proof. reads ltac:(eapply hm_half). Qed.
Lemma L5_reads : read_as L5 PHour. Proof. reads ltac:(eapply h_half). Qed.
Lemma L6_reads : read_as L6 PSecond. Proof. reads ltac:(eapply hms). Qed.
Lemma L7_reads : read_as L7 PSecond. Proof. reads ltac:(eapply hms_half). Qed.
Lemma L8_reads : read_as L8 PMinute. Proof. reads ltac:(eapply hm_half). Qed.
Definition try_layout (v : str) (l : list (str * std)) (per : period) (rest : option (time * period)) : option (time * period) :=
  match parse_chunks l [] pst0 v with Some p => Some (time_of p, per) | None => rest end.
Lemma try_ok L v f l per rest : chunks_of (lit f) = (l, []) -> read_as l per ->
  (match time_parse L (lit f) v with Some t => Some (t, per) | None => rest end) = try_layout v l per rest.
Proof.
  intros C R. unfold try_layout. pose proof (tp_state L (lit f) l v C) as T. destruct (parse_chunks l [] pst0 v) as [p|] eqn:P; [|now rewrite T].
  destruct (R v p P) as [TO _]. now rewrite (T TO).
Qed.
Lemma loop_states E v : parse_time_loop E time_formats v =
  try_layout v L1 PSecond (try_layout v L2 PSecond (try_layout v L3 PMinute (try_layout v L4 PMinute (try_layout v L5 PHour (try_layout v L6 PSecond (try_layout v L7 PSecond (try_layout v L8 PMinute None))))))).
Proof.
  pose proof layouts_ok as H. unfold time_formats in *. cbn [map fst] in H.
  assert (H1 : chunks_of (lit "15:4:5") = (L1, [])) by congruence. assert (H2 : chunks_of (lit "3:4:5 PM") = (L2, [])) by congruence.
  assert (H3 : chunks_of (lit "15:4") = (L3, [])) by congruence. assert (H4 : chunks_of (lit "3:4 PM") = (L4, [])) by congruence.
  assert (H5 : chunks_of (lit "3 PM") = (L5, [])) by congruence. assert (H6 : chunks_of (lit "15:4:5.999999") = (L6, [])) by congruence.
  assert (H7 : chunks_of (lit "3:4:5.999999 PM") = (L7, [])) by congruence. assert (H8 : chunks_of (lit "15:4 PM") = (L8, [])) by congruence. clear H.
  cbn [parse_time_loop].
  rewrite (try_ok _ _ _ _ _ _ H8 L8_reads), (try_ok _ _ _ _ _ _ H7 L7_reads), (try_ok _ _ _ _ _ _ H6 L6_reads), (try_ok _ _ _ _ _ _ H5 L5_reads),
    (try_ok _ _ _ _ _ _ H4 L4_reads), (try_ok _ _ _ _ _ _ H3 L3_reads), (try_ok _ _ _ _ _ _ H2 L2_reads), (try_ok _ _ _ _ _ _ H1 L1_reads). reflexivity.
Qed.
Lemma try_sound v l per rest t q : read_as l per -> (rest = Some (t, q) -> exists h m s ns, clock v h m s ns q /\ t = mk_date 0 1 1 h m s ns utc) ->
  try_layout v l per rest = Some (t, q) -> exists h m s ns, clock v h m s ns q /\ t = mk_date 0 1 1 h m s ns utc.
Proof.
  intros R K. unfold try_layout. destruct (parse_chunks l [] pst0 v) as [p|] eqn:P; [|exact K]. intros H. assert (per = q) by congruence. assert (T : time_of p = t) by congruence. subst.
  exact (proj2 (R v p P)).
Qed.
Lemma loop_sound E v t q : parse_time_loop E time_formats v = Some (t, q) -> exists h m s ns, clock v h m s ns q /\ t = mk_date 0 1 1 h m s ns utc.
Proof.
  rewrite loop_states. apply (try_sound _ _ _ _ _ _ L1_reads), (try_sound _ _ _ _ _ _ L2_reads), (try_sound _ _ _ _ _ _ L3_reads), (try_sound _ _ _ _ _ _ L4_reads),
    (try_sound _ _ _ _ _ _ L5_reads), (try_sound _ _ _ _ _ _ L6_reads), (try_sound _ _ _ _ _ _ L7_reads), (try_sound _ _ _ _ _ _ L8_reads). discriminate.
Qed.

(** ** Each time of day is read by the right layout *)
Lemma nd_colon r : nodigit (colon ++ r). Proof. reflexivity. Qed.
Lemma half_head aw x : half_word aw x -> exists r, aw = 32 :: r. Proof. intros (k & ->). now eexists. Qed.
Lemma nd_half aw x r : half_word aw x -> nodigit (aw ++ r). Proof. intros H. destruct (half_head _ _ H) as [u ->]. reflexivity. Qed.
Lemma nd_half0 aw x : half_word aw x -> nodigit aw. Proof. intros H. destruct (half_head _ _ H) as [u ->]. reflexivity. Qed.
Lemma half_no_colon aw x : half_word aw x -> skip aw [58] = None.
Proof. intros H. destruct (half_head _ _ H) as [u ->]. apply skip_colon_none. discriminate. Qed.
Lemma colon_no_blank r : skip (colon ++ r) [32] = None. Proof. reflexivity. Qed.
Lemma skip_colon' r : skip (colon ++ r) [58] = Some r. Proof. reflexivity. Qed.
Lemma nil_no_colon : skip [] [58] = None. Proof. reflexivity. Qed.
Lemma loop_complete E v h m s ns per : clock v h m s ns per -> parse_time_loop E time_formats v = Some (mk_date 0 1 1 h m s ns utc, per).
Proof.
  rewrite loop_states. intros C. unfold try_layout, L1, L2, L3, L4, L5, L6, L7, L8. cbn [parse_chunks].
  destruct C as [hw h mw m sw s fw ns Hh Bh Hm Bm Hs Bs Hf|hw h mw m sw s fw ns aw x Hh Bh Hm Bm Hs Bs Hf Ha|hw h mw m Hh Bh Hm Bm|hw h mw m aw x Hh Bh Hm Bm Ha|hw h aw x Hh Bh Ha].
  - rewrite !skip_nil. cbn [obind]. rewrite (hour_step _ _ _ _ _ Hh (nd_colon _)). destruct (24 <=? h) eqn:B; [lia|]. cbn [obind]. rewrite skip_colon'. cbn [obind].
    rewrite (min_step _ _ _ _ _ Hm (nd_colon _)). destruct (60 <=? m) eqn:B'; [lia|]. cbn [obind]. rewrite skip_colon'. cbn [obind].
    rewrite <- (app_nil_r fw). rewrite (sec_step None _ sw s fw ns []) by (reflexivity || assumption || exact I). cbn [obind]. rewrite skip_nil. reflexivity.
  - rewrite !skip_nil. cbn [obind]. rewrite (hour_step _ _ _ _ _ Hh (nd_colon _)). destruct (24 <=? h) eqn:B; [lia|]. cbn [obind]. rewrite skip_colon'. cbn [obind].
    rewrite (min_step _ _ _ _ _ Hm (nd_colon _)). destruct (60 <=? m) eqn:B'; [lia|]. cbn [obind]. rewrite skip_colon'. cbn [obind].
    assert (AW : match aw with c :: _ => c = 32 | [] => True end) by (destruct (half_head _ _ Ha) as [u ->]; reflexivity).
    rewrite (sec_step None _ sw s fw ns aw) by (reflexivity || assumption). cbn [obind]. rewrite skip_nil. cbn [obind].
    assert (N : exists a u, aw = a :: u) by (destruct (half_head _ _ Ha) as [u ->]; now eexists _, _). destruct N as (a & u & EA). rewrite EA at 1. cbv iota.
    rewrite (hour12_step _ _ _ _ _ Hh (nd_colon _)). destruct (12 <? h) eqn:B2; [lia|]. cbn [obind]. rewrite skip_colon'. cbn [obind].
    rewrite (min_step _ _ _ _ _ Hm (nd_colon _)). rewrite B'. cbn [obind]. rewrite skip_colon'. cbn [obind].
    rewrite (sec_step (Some StdPM) _ sw s fw ns aw) by (reflexivity || assumption). cbn [obind].
    destruct (half_step None (with_nsec ns (with_sec s (with_min m (with_hour h pst0)))) aw x Ha) as (r & -> & K). cbn [obind]. rewrite K. cbn [obind]. rewrite skip_nil. cbn [obind].
    unfold time_of. rewrite time_of_half by reflexivity. destruct x; reflexivity.
  - rewrite !skip_nil. cbn [obind]. rewrite (hour_step _ _ _ _ _ Hh (nd_colon _)). destruct (24 <=? h) eqn:B; [lia|]. cbn [obind]. rewrite skip_colon'. cbn [obind].
    rewrite <- (app_nil_r mw). rewrite (min_step _ _ _ _ [] Hm I). destruct (60 <=? m) eqn:B'; [lia|]. cbn [obind]. rewrite nil_no_colon. cbn [obind].
    rewrite (hour12_step _ _ _ _ _ Hh (nd_colon _)). destruct (12 <? h) eqn:B2.
    + cbn [obind]. rewrite (min_step _ _ _ _ [] Hm I), B'. cbn [obind]. rewrite skip_nil. reflexivity.
    + cbn [obind]. rewrite skip_colon'. cbn [obind]. rewrite !(min_step _ _ _ _ [] Hm I), B'. cbn [obind]. rewrite nil_no_colon, skip_nil. reflexivity.
  - rewrite !skip_nil. cbn [obind]. rewrite (hour_step _ _ _ _ _ Hh (nd_colon _)). destruct (24 <=? h) eqn:B; [lia|]. cbn [obind]. rewrite skip_colon'. cbn [obind].
    rewrite !(min_step _ _ _ _ aw Hm (nd_half0 _ _ Ha)). destruct (60 <=? m) eqn:B'; [lia|]. cbn [obind]. rewrite (half_no_colon _ _ Ha), skip_nil. cbn [obind].
    assert (N : exists a u, aw = a :: u) by (destruct (half_head _ _ Ha) as [u ->]; now eexists _, _). destruct N as (a & u & EA). 
    replace (match aw with [] => Some (with_min m (with_hour h pst0)) | _ :: _ => None end) with (@None pst) by (rewrite EA; reflexivity).
    rewrite !(hour12_step _ _ _ _ _ Hh (nd_colon _)). destruct (12 <? h) eqn:B2.
    + cbn [obind]. destruct (half_step None (with_min m (with_hour h pst0)) aw x Ha) as (r & -> & K). cbn [obind]. rewrite K. cbn [obind]. rewrite skip_nil. cbn [obind].
      unfold time_of. rewrite time_of_half by reflexivity. destruct x; reflexivity.
    + cbn [obind]. rewrite skip_colon'. cbn [obind]. rewrite !(min_step _ _ _ _ aw Hm (nd_half0 _ _ Ha)), B'. cbn [obind]. rewrite (half_no_colon _ _ Ha). cbn [obind].
      destruct (half_step None (with_min m (with_hour h pst0)) aw x Ha) as (r & -> & K). cbn [obind]. rewrite K. cbn [obind]. rewrite skip_nil. cbn [obind].
      unfold time_of. rewrite time_of_half by reflexivity. destruct x; reflexivity.
  - rewrite !skip_nil. cbn [obind]. rewrite !(hour_step _ _ _ _ aw Hh (nd_half0 _ _ Ha)). destruct (24 <=? h) eqn:B; [lia|]. cbn [obind]. rewrite (half_no_colon _ _ Ha). cbn [obind].
    rewrite !(hour12_step _ _ _ _ aw Hh (nd_half0 _ _ Ha)). destruct (12 <? h) eqn:B2; [lia|]. cbn [obind]. rewrite (half_no_colon _ _ Ha). cbn [obind].
    destruct (half_step None (with_hour h pst0) aw x Ha) as (r & -> & K). cbn [obind]. rewrite K. cbn [obind]. rewrite skip_nil. cbn [obind].
    unfold time_of. rewrite time_of_half by reflexivity. destruct x; reflexivity.
Qed.

(** ** C38 *)
Lemma fraction_range fw ns : fraction fw ns -> 0 <= ns < 1000000000.
Proof.
  intros [[_ ->]|(c & ds & _ & _ & D & ->)]; [lia|]. assert (D9 : digits (firstn 9 (ds ++ repeat 48 9))).
  { destruct D as [N D]. split; [destruct ds; [congruence|discriminate]|]. apply Forall_forall. intros x Hx. assert (In x (ds ++ repeat 48 9)) as I by (rewrite <- (firstn_skipn 9 (ds ++ repeat 48 9)); apply in_or_app; now left).
    apply in_app_or in I as [I|I]; [rewrite Forall_forall in D; now apply D|]. apply repeat_spec in I. lia. }
  pose proof (number_bound _ D9) as B. rewrite firstn_length, app_length, repeat_length in B. replace (Nat.min 9 (length ds + 9)) with 9%nat in B by lia. exact B.
Qed.
Lemma clock_range v h m s ns per : clock v h m s ns per -> valid_clock h m s ns.
Proof.
  intros C. destruct C; repeat match goal with H : numeral _ _ |- _ => apply numeral_nonneg in H end; try (match goal with H : fraction _ _ |- _ => apply fraction_range in H end);
    try (match goal with x : half |- _ => destruct x; unfold hour_of end); unfold valid_clock; repeat match goal with |- context [if ?c then _ else _] => destruct c eqn:? end; lia.
Qed.
(** the fields of the time found *)
Definition tod_is (t : time) (h m s ns : Z) : Prop := year t = 0 /\ month t = 1 /\ day t = 1 /\ hour t = h /\ minute t = m /\ second t = s /\ nanosecond t = ns /\ t_loc t = utc.
Lemma tod_mk v h m s ns per : clock v h m s ns per -> tod_is (mk_date 0 1 1 h m s ns utc) h m s ns.
Proof.
  intros C. apply clock_range in C. pose proof (mk_date_clock 0 1 1 h m s ns utc eq_refl ltac:(lia) C) as K. cbv zeta in K.
  assert (V : valid_date 0 1 1) by (unfold valid_date; vm_compute; intuition congruence).
  unfold tod_is. rewrite mk_date_year, mk_date_month, mk_date_day by (reflexivity || assumption). intuition.
Qed.
Lemma tod_inj t h m s ns : wf_time t -> tod_is t h m s ns -> t = mk_date 0 1 1 h m s ns utc.
Proof. intros W (Y & M & D & H & Mi & S & N & L). rewrite <- (time_of_fields t W) by (rewrite L; reflexivity). now rewrite Y, M, D, H, Mi, S, N, L. Qed.

(** a string is a time of day iff it reads, in upper case and without surrounding white space, as one of the forms of [clock];
    the time found is then that time of day, on 1 January of year 0, UTC *)
Theorem C38_exact : forall E s t per,
  parse_time E s = Some (t, per) <->
  wf_time t /\ exists h m sec ns, clock (to_upper (e_uni E) (trim_space s)) h m sec ns per /\ tod_is t h m sec ns.
Proof.
  intros E s t per. unfold parse_time. split.
  - intros H. destruct (loop_sound E _ _ _ H) as (h & m & sec & ns & C & ->). split; [apply mk_date_wf|]. exists h, m, sec, ns. split; [exact C|]. exact (tod_mk _ _ _ _ _ _ C).
  - intros (W & h & m & sec & ns & C & T). rewrite (loop_complete E _ _ _ _ _ _ C). now rewrite <- (tod_inj _ _ _ _ _ W T).
Qed.
(** no string denotes two times of day *)
Theorem C38_unambiguous : forall v h m s ns per h' m' s' ns' per',
  clock v h m s ns per -> clock v h' m' s' ns' per' -> (h, m, s, ns, per) = (h', m', s', ns', per').
Proof.
  intros v h m s ns per h' m' s' ns' per' C C'. pose proof (loop_complete env0 v _ _ _ _ _ C) as A. rewrite (loop_complete env0 v _ _ _ _ _ C') in A.
  assert (P : per' = per) by congruence. assert (T : mk_date 0 1 1 h' m' s' ns' utc = mk_date 0 1 1 h m s ns utc) by congruence.
  pose proof (tod_mk _ _ _ _ _ _ C) as K. pose proof (tod_mk _ _ _ _ _ _ C') as K'. rewrite T in K'. destruct K as (_ & _ & _ & K1 & K2 & K3 & K4 & _), K' as (_ & _ & _ & K1' & K2' & K3' & K4' & _). clear T A C C'. congruence.
Qed.

Lemma upper_inv c : (48 <= upperA c <= 58 \/ In (upperA c) [46; 44; 32; 65; 77; 80]) -> 0 <= c < 128 /\ (upperA c <> 32 -> is_space c = false).
Proof. unfold upperA, is_lowerA, is_space. cbn [In]. intros H. destruct ((97 <=? c) && (c <=? 122)) eqn:B; lia. Qed.
Definition clock_char (c : Z) : Prop := 48 <= c <= 58 \/ In c [46; 44; 32; 65; 77; 80].
Lemma numeral_chars w v : numeral w v -> Forall clock_char w /\ exists a w', w = a :: w' /\ a <> 32.
Proof. rewrite numeral_cases. intros [(a & -> & A & _)|(a & b & -> & A & B & _)]; rewrite <- digitA in *; (split; [repeat constructor; lia|eexists _, _; split; [reflexivity|lia]]). Qed.
Lemma half_chars w x : half_word w x -> Forall clock_char w /\ exists w', w = w' ++ [77].
Proof.
  intros (k & ->). split.
  - apply Forall_app. split; [apply Forall_forall; intros y Hy; apply repeat_spec in Hy; subst; right; cbn; tauto|destruct x; repeat constructor; right; cbn; tauto].
  - destruct x; [exists (repeat 32 (S k) ++ [65])|exists (repeat 32 (S k) ++ [80])]; now rewrite <- app_assoc.
Qed.
Lemma fraction_chars w ns : fraction w ns -> Forall clock_char w /\ (w = [] \/ exists a w', w = w' ++ [a] /\ a <> 32).
Proof.
  intros [[-> _]|(c & ds & -> & C & [N D] & _)]; [split; [constructor|now left]|]. split.
  - constructor; [right; cbn in *; tauto|]. eapply Forall_impl; [|exact D]. cbn. intros a Ha. left. lia.
  - right. destruct (exists_last N) as (w' & a & ->). exists a, (c :: w'). split; [reflexivity|]. apply Forall_app in D as [_ D]. inversion D; subst. lia.
Qed.
Lemma numeral_last w v : numeral w v -> exists w' a, w = w' ++ [a] /\ a <> 32.
Proof. rewrite numeral_cases. intros [(a & -> & A & _)|(a & b & -> & A & B & _)]; rewrite <- digitA in *; [exists [], a|exists [a], b]; (split; [reflexivity|lia]). Qed.
Lemma clock_chars v h m s ns per : clock v h m s ns per -> Forall clock_char v /\ (exists a w, v = a :: w /\ a <> 32) /\ exists w a, v = w ++ [a] /\ a <> 32.
Proof.
  assert (K : Forall clock_char colon) by (repeat constructor; lia).
  intros C. destruct C as [hw h mw m sw s fw ns Hh Bh Hm Bm Hs Bs Hf|hw h mw m sw s fw ns aw x Hh Bh Hm Bm Hs Bs Hf Ha|hw h mw m Hh Bh Hm Bm|hw h mw m aw x Hh Bh Hm Bm Ha|hw h aw x Hh Bh Ha];
    destruct (numeral_chars _ _ Hh) as (C1 & a & w & E1 & A); (split; [repeat (apply Forall_app; split);
      first [assumption | now apply (numeral_chars _ _ Hm) | now apply (numeral_chars _ _ Hs) | now apply (fraction_chars _ _ Hf) | now apply (half_chars _ _ Ha)]|]);
    (split; [exists a; eexists; split; [rewrite E1; reflexivity|exact A]|]).
  - destruct (fraction_chars _ _ Hf) as [_ [-> |(b & w' & -> & B)]].
    + destruct (numeral_last _ _ Hs) as (w' & b & -> & B). exists (hw ++ colon ++ mw ++ colon ++ w'), b. split; [|exact B]. now rewrite app_nil_r, <- !app_assoc.
    + exists (hw ++ colon ++ mw ++ colon ++ sw ++ w'), b. split; [|exact B]. now rewrite <- !app_assoc.
  - destruct (half_chars _ _ Ha) as (_ & w' & ->). exists (hw ++ colon ++ mw ++ colon ++ sw ++ fw ++ w'), 77. split; [now rewrite <- !app_assoc|lia].
  - destruct (numeral_last _ _ Hm) as (w' & b & -> & B). exists (hw ++ colon ++ w'), b. split; [|exact B]. now rewrite <- !app_assoc.
  - destruct (half_chars _ _ Ha) as (_ & w' & ->). exists (hw ++ colon ++ mw ++ w'), 77. split; [now rewrite <- !app_assoc|lia].
  - destruct (half_chars _ _ Ha) as (_ & w' & ->). exists (hw ++ w'), 77. split; [now rewrite <- !app_assoc|lia].
Qed.
Lemma trim_ends_any c s l b : asc (c :: s) -> is_space c = false -> c :: s = l ++ [b] -> is_space b = false -> trim_space (c :: s) = c :: s.
Proof.
  intros HA Hc HL Hb. unfold trim_space, trim_func. set (t := c :: s) in *.
  assert (MC : map fst (chunks t) = t) by (rewrite chunks_runes; now apply runes_asc).
  assert (D1 : drop_while (fun p => is_space (fst p)) (chunks t) = chunks t).
  { destruct (chunks t) as [|p u] eqn:EC; [reflexivity|]. cbn [drop_while]. assert (fst p = c) as -> by (cbn [map] in MC; subst t; congruence). now rewrite Hc. }
  rewrite D1. assert (D2 : drop_while (fun p => is_space (fst p)) (rev (chunks t)) = rev (chunks t)).
  { destruct (rev (chunks t)) as [|p u] eqn:EC; [reflexivity|]. cbn [drop_while]. assert (ER : chunks t = rev u ++ [p]) by (rewrite <- (rev_involutive (chunks t)), EC; reflexivity).
    assert (fst p = b) as ->; [|now rewrite Hb]. rewrite ER, map_app in MC. cbn [map] in MC. assert (MC' : map fst (rev u) ++ [fst p] = l ++ [b]) by (rewrite MC; exact HL). apply app_inj_tail in MC'. apply MC'. }
  rewrite D2, rev_involutive. apply unchunks_chunks.
Qed.
(** every time of day, in any mixture of cases, is understood *)
Theorem C38_any_case : forall E s h m sec ns per,
  clock (map upperA s) h m sec ns per -> exists t, parse_time E s = Some (t, per) /\ tod_is t h m sec ns.
Proof.
  intros E s h m sec ns per C. exists (mk_date 0 1 1 h m sec ns utc). split; [|exact (tod_mk _ _ _ _ _ _ C)]. unfold parse_time.
  destruct (clock_chars _ _ _ _ _ _ C) as (F & (a & w & E1 & A) & (w' & b & E2 & B)).
  assert (HA : Forall (fun c => 0 <= c < 128 /\ (upperA c <> 32 -> is_space c = false)) s).
  { apply Forall_forall. intros c Hc. apply upper_inv. rewrite Forall_forall in F. apply F. apply in_map_iff. now exists c. }
  assert (AS : asc s) by (eapply Forall_impl; [|exact HA]; cbn; tauto). rewrite Forall_forall in HA.
  assert (TR : trim_space s = s).
  { destruct s as [|c s]; [reflexivity|]. cbn [map] in E1. assert (EC : upperA c = a) by congruence. destruct (exists_last (l := c :: s) ltac:(discriminate)) as (l & d & EL).
    assert (ED : upperA d = b). { rewrite EL, map_app in E2. cbn [map] in E2. apply app_inj_tail in E2. apply E2. }
    apply (trim_ends_any c s l d AS); [apply HA; [now left|congruence]|exact EL|]. apply HA; [|congruence]. rewrite EL. apply in_or_app. right. now left. }
  rewrite TR. unfold to_upper. rewrite (asc_ascii s AS). now apply loop_complete.
Qed.
(** fields out of range are rejected, whatever follows *)
Theorem C38_out_of_range : forall E s hw h rest,
  to_upper (e_uni E) (trim_space s) = hw ++ rest -> numeral hw h ->
  (24 <= h /\ nodigit rest \/
   (exists mw m r, rest = colon ++ mw ++ r /\ numeral mw m /\ 60 <= m /\ nodigit r) \/
   (exists mw m sw sec r, rest = colon ++ mw ++ colon ++ sw ++ r /\ numeral mw m /\ numeral sw sec /\ 60 <= sec /\ nodigit r) \/
   (exists aw x, rest = aw /\ half_word aw x /\ 12 < h) \/
   (exists mw m sw sec fw ns aw x, rest = colon ++ mw ++ colon ++ sw ++ fw ++ aw /\ numeral mw m /\ numeral sw sec /\ fraction fw ns /\ half_word aw x /\ 12 < h)) ->
  parse_time E s = None.
Proof.
  intros E s hw h rest ES Hh R. unfold parse_time. rewrite ES. clear ES s. rewrite loop_states. unfold try_layout, L1, L2, L3, L4, L5, L6, L7, L8. cbn [parse_chunks]. rewrite !skip_nil. cbn [obind].
  assert (NR : nodigit rest).
  { destruct R as [[_ N]|[(mw & m & r & -> & _)|[(mw & m & sw & sec & r & -> & _)|[(aw & x & -> & Ha & _)|(mw & m & sw & sec & fw & ns & aw & x & -> & _)]]]]; try reflexivity; [exact N|now apply (nd_half0 _ _ Ha)]. }
  rewrite !(hour_step _ _ _ _ rest Hh NR), !(hour12_step _ _ _ _ rest Hh NR).
  destruct (24 <=? h) eqn:B24; cbn [obind]; [destruct (12 <? h) eqn:B12; [reflexivity|lia]|].
  destruct R as [[B _]|[(mw & m & r & -> & Hm & Bm & Nr)|[(mw & m & sw & sec & r & -> & Hm & Hs & Bs & Nr)|[(aw & x & -> & Ha & Bh)|(mw & m & sw & sec & fw & ns & aw & x & -> & Hm & Hs & Hf & Ha & Bh)]]]]; [lia| | | |].
  - rewrite !skip_colon', ?colon_no_blank. cbn [obind]. rewrite !(min_step _ _ _ _ r Hm Nr). destruct (60 <=? m) eqn:B; [|lia]. cbn [obind]. destruct (12 <? h); cbn [obind]; rewrite ?skip_colon'; cbn [obind]; rewrite ?(min_step _ _ _ _ r Hm Nr), ?B; reflexivity.
  - rewrite !skip_colon', ?colon_no_blank. cbn [obind]. rewrite !(min_step _ _ _ _ _ Hm (nd_colon _)). destruct (60 <=? m) eqn:B; cbn [obind].
    + destruct (12 <? h); cbn [obind]; rewrite ?skip_colon'; cbn [obind]; rewrite ?(min_step _ _ _ _ _ Hm (nd_colon _)), ?B; reflexivity.
    + assert (SB : forall nx p, parse_chunk StdSecond nx p (sw ++ r) = None).
      { intros nx p. unfold parse_chunk. rewrite (getnum_app sw sec r Hs Nr). cbn [obind]. destruct (60 <=? sec) eqn:BS; [reflexivity|lia]. }
      rewrite !skip_colon', ?colon_no_blank, ?skip_nil. cbn [obind]. rewrite !SB. cbn [obind].
      destruct (12 <? h); cbn [obind]; rewrite ?skip_colon'; cbn [obind]; rewrite ?(min_step _ _ _ _ _ Hm (nd_colon _)), ?B; cbn [obind]; rewrite ?skip_colon', ?colon_no_blank; cbn [obind]; rewrite ?SB; reflexivity.
  - rewrite !(half_no_colon _ _ Ha). destruct (12 <? h) eqn:B; [reflexivity|lia].
  - rewrite !skip_colon', ?colon_no_blank. cbn [obind]. rewrite !(min_step _ _ _ _ _ Hm (nd_colon _)). destruct (12 <? h) eqn:B12; [|lia]. destruct (60 <=? m) eqn:B; cbn [obind]; [reflexivity|].
    rewrite !skip_colon', ?colon_no_blank, ?skip_nil. cbn [obind]. 
    assert (AW : match aw with c :: _ => c = 32 | [] => True end) by (destruct (half_head _ _ Ha) as [u ->]; reflexivity).
    assert (AN : exists a u, aw = a :: u) by (destruct (half_head _ _ Ha) as [u ->]; now eexists _, _). destruct AN as (a & u & EA).
    destruct (60 <=? sec) eqn:BS.
    + assert (NF : nodigit (fw ++ aw)) by (destruct Hf as [[-> _]|(c & ds & -> & C & _)]; [now apply (nd_half0 _ _ Ha)|destruct C as [<- | [<- | []]]; reflexivity]).
      assert (SB : forall nx p, parse_chunk StdSecond nx p (sw ++ fw ++ aw) = None).
      { intros nx p. unfold parse_chunk. rewrite (getnum_app sw sec _ Hs NF). cbn [obind]. now rewrite BS. }
      rewrite !SB. reflexivity.
    + rewrite (sec_step None _ sw sec fw ns aw) by (reflexivity || assumption || lia). cbn [obind]. rewrite skip_nil. cbn [obind]. rewrite EA at 1. cbv iota.
      destruct (parse_chunk StdSecond (Some (StdFracSecond9 6 46)) _ _) as [[q u2]|] eqn:P; [|reflexivity]. cbn [obind]. rewrite skip_nil. cbn [obind].
      destruct (sec_plain_inv _ _ _ _ _ _ P) as (w & s2 & EW & HW & _ & EQ). destruct (parse_chunk (StdFracSecond9 6 46) None q u2) as [[q2 u3]|] eqn:P2; [|reflexivity]. cbn [obind]. rewrite skip_nil. cbn [obind].
      destruct u3 as [|]; [|reflexivity]. exfalso. destruct (frac_inv _ _ _ _ _ _ _ P2) as (fw2 & ns2 & F2 & -> & _); [subst q; reflexivity|].
      destruct (half_chars _ _ Ha) as (_ & w' & EM). assert (I : In 77 (sw ++ fw ++ aw)) by (rewrite EM, !in_app_iff; cbn; tauto). rewrite EW, app_nil_r in I. apply in_app_or in I as [I|I].
      * destruct HW as ((_ & D) & _). rewrite Forall_forall in D. apply D in I. lia.
      * destruct F2 as [[-> _]|(c & ds & -> & C & (_ & D) & _)]; [destruct I|]. destruct I as [I|I]; [cbn in C; lia|]. rewrite Forall_forall in D. apply D in I. lia.
Qed.

(** the hypotheses can be met *)
Example C38_some_times :
  (exists t, parse_time env0 (lit "9:05:07.25") = Some (t, PSecond) /\ tod_is t 9 5 7 250000000) /\
  (exists t, parse_time env0 (lit "12:30 am") = Some (t, PMinute) /\ tod_is t 0 30 0 0) /\
  (exists t, parse_time env0 (lit "11   pM") = Some (t, PHour) /\ tod_is t 23 0 0 0) /\
  (exists t, parse_time env0 (lit "13:05 PM") = Some (t, PMinute) /\ tod_is t 13 5 0 0) /\
  parse_time env0 (lit "24:00") = None /\ parse_time env0 (lit "13:05:00 PM") = None /\ parse_time env0 (lit "3:04PM") = None.
Proof.
  assert (N1 : forall a, is_digitA a = true -> numeral [a] (a - 48)) by (intros a A; apply numeral_cases; left; now exists a).
  assert (N2 : forall a b, is_digitA a = true -> is_digitA b = true -> numeral [a; b] ((a - 48) * 10 + (b - 48))) by (intros a b A B; apply numeral_cases; right; now exists a, b).
  split; [|split; [|split; [|split]]].
  - apply C38_any_case. change (map upperA (lit "9:05:07.25")) with ([57] ++ colon ++ [48; 53] ++ colon ++ [48; 55] ++ [46; 50; 53]).
    apply hms; try lia; [exact (N1 57 eq_refl)|exact (N2 48 53 eq_refl eq_refl)|exact (N2 48 55 eq_refl eq_refl)|]. right. exists 46, [50; 53]. repeat split; [cbn; tauto|discriminate|repeat constructor; lia].
  - apply C38_any_case. change (map upperA (lit "12:30 am")) with ([49; 50] ++ colon ++ [51; 48] ++ (repeat 32 1 ++ lit "AM")). change 0 with (hour_of 12 AM) at 1.
    apply hm_half; try lia; [exact (N2 49 50 eq_refl eq_refl)|exact (N2 51 48 eq_refl eq_refl)|now exists 0%nat].
  - apply C38_any_case. change (map upperA (lit "11   pM")) with ([49; 49] ++ (repeat 32 3 ++ lit "PM")). change 23 with (hour_of 11 PM).
    apply h_half; try lia; [exact (N2 49 49 eq_refl eq_refl)|now exists 2%nat].
  - apply C38_any_case. change (map upperA (lit "13:05 PM")) with ([49; 51] ++ colon ++ [48; 53] ++ (repeat 32 1 ++ lit "PM")). change 13 with (hour_of 13 PM) at 1.
    apply hm_half; try lia; [exact (N2 49 51 eq_refl eq_refl)|exact (N2 48 53 eq_refl eq_refl)|now exists 0%nat].
  - split; [|split]; vm_compute; reflexivity.
Qed.
Print Assumptions C38_exact. Print Assumptions C38_unambiguous. Print Assumptions C38_any_case. Print Assumptions C38_out_of_range.
