(** C26, C27, C37: text preparation *)
From Coq Require Import ZifyBool.
From Verif Require Import GoBase SMap Regex Utf8Facts Tokenizer Digit Strutil SpaceFacts Concrete Env.

(** * C26: tokens *)
(** the three kinds of characters (tokenizer.go:10-12): digits and colon; ASCII letters; everything else *)
Definition kind (r : Z) : ttype :=
  if (48 <=? r) && (r <=? 57) || (r =? 58) then TDigit
  else if (65 <=? r) && (r <=? 90) || (97 <=? r) && (r <=? 122) then TLetter
  else TOther.
Fixpoint alternating (l : list token) : Prop :=
  match l with
  | a :: (b :: _) as l' => tk_type a <> tk_type b /\ alternating l'
  | _ => True
  end.

Lemma compare_kind a b : compare_chars a b = (kind a, negb (ttype_eqb (kind a) (kind b))).
Proof.
  unfold compare_chars, kind, is_tdigit, is_tletter, is_digitA, is_alphaA, is_upperA, is_lowerA.
  destruct ((48 <=? a) && (a <=? 57) || (a =? 58)); destruct ((65 <=? a) && (a <=? 90) || (97 <=? a) && (a <=? 122));
  destruct ((48 <=? b) && (b <=? 57) || (b =? 58)) eqn:B1; destruct ((65 <=? b) && (b <=? 90) || (97 <=? b) && (b <=? 122)) eqn:B2;
  try reflexivity; exfalso; clear -B1 B2; lia.
Qed.
Lemma ttype_eqb_eq a b : ttype_eqb a b = true <-> a = b.
Proof. destruct a, b; cbn; split; congruence. Qed.

(** tokens as lists of characters: the loop in terms of [kind] *)
Lemma tok_loop_spec : forall cs prev text, (exists t', text = prev :: t') -> Forall (fun r => kind r = kind prev) text ->
  exists toks, tok_loop prev text cs = map (fun p => {| tk_text := encode (fst p); tk_type := snd p |}) toks /\
    concat (map fst toks) = rev text ++ cs /\
    (exists x r, toks = (rev text ++ x, kind prev) :: r) /\
    Forall (fun p => fst p <> [] /\ Forall (fun r => kind r = snd p) (fst p)) toks /\
    (forall i a b, nth_error toks i = Some a -> nth_error toks (S i) = Some b -> snd a <> snd b).
Proof.
  induction cs as [|c cs IH]; intros prev text [t' Ht] Hk; cbn [tok_loop].
  - exists [(rev text, kind prev)]. split; [|split; [|split; [|split]]].
    + cbn [map fst snd]. rewrite compare_kind. cbn [fst].
      assert (In (last text 0) text) by (rewrite Ht; clear; revert prev; induction t' as [|y t IHt]; intros p; [now left|]; right; apply IHt).
      rewrite Forall_forall in Hk. now rewrite (Hk _ H).
    + cbn. now rewrite app_nil_r.
    + exists [], []. now rewrite app_nil_r.
    + constructor; [|constructor]. cbn [fst snd]. split; [rewrite Ht; cbn; now destruct (rev t')|]. now apply Forall_rev.
    + intros [|i] a b; cbn; discriminate || (destruct i; discriminate).
  - rewrite compare_kind. destruct (ttype_eqb (kind prev) (kind c)) eqn:E; cbn [negb].
    + apply ttype_eqb_eq in E. destruct (IH c (c :: text)) as (toks & Ht1 & Ht2 & (x & r & Ht3) & Ht4 & Ht5).
      * eexists; reflexivity.
      * constructor; [reflexivity|]. eapply Forall_impl; [|exact Hk]. intros; cbv beta in *. congruence.
      * exists toks. split; [exact Ht1|]. split; [rewrite Ht2; cbn [rev]; rewrite <- app_assoc; reflexivity|].
        split; [exists (c :: x), r; rewrite Ht3, E; cbn [rev]; now rewrite <- app_assoc|]. split; assumption.
    + destruct (IH c [c]) as (toks & Ht1 & Ht2 & (x & r & Ht3) & Ht4 & Ht5).
      * eexists; reflexivity.
      * repeat constructor.
      * exists ((rev text, kind prev) :: toks). split; [cbn [map fst snd]; now rewrite Ht1|].
        split; [cbn [map fst concat]; now rewrite Ht2|]. split; [exists [], toks; now rewrite app_nil_r|]. split.
        -- constructor; [|exact Ht4]. cbn [fst snd]. split; [rewrite Ht; cbn; now destruct (rev t')|]. now apply Forall_rev.
        -- intros [|i] a b; cbn [nth_error].
           ++ intros [= <-] Hb. rewrite Ht3 in Hb. injection Hb as <-. cbn [snd]. intros Hx. rewrite Hx in E. destruct (kind c); discriminate.
           ++ apply Ht5.
Qed.

Lemma alternating_nth l : (forall i a b, nth_error l i = Some a -> nth_error l (S i) = Some b -> tk_type a <> tk_type b) -> alternating l.
Proof.
  induction l as [|a l IH]; intros H; [exact I|]. destruct l as [|b l]; [exact I|]. split.
  - apply (H 0%nat); reflexivity.
  - apply IH. intros i x y Hx Hy. exact (H (S i) x y Hx Hy).
Qed.

(** Every string of two characters or more (and every well-formed string): the tokens give back the characters, in order; each
    token is a non-empty run of one kind; neighbours differ in kind. *)
Theorem C26_tokens_are_lossless : forall s,
  bytes s -> (valid_utf8 s \/ (2 <= length (runes s))%nat) ->
  concat (map tk_text (tokenize s)) = encode (runes s) /\
  Forall (fun t => runes (tk_text t) <> [] /\ Forall (fun r => kind r = tk_type t) (runes (tk_text t))) (tokenize s) /\
  alternating (tokenize s).
Proof.
  intros s Hb Hv. pose proof (runes_scalar s Hb) as HS. unfold tokenize. destruct (runes s) as [|c [|c2 cs]] eqn:R.
  - split; [reflexivity|]. split; [constructor|exact I].
  - destruct Hv as [Hv|Hv]; [|cbn in Hv; lia]. split; [cbn [map concat tk_text]; rewrite app_nil_r; unfold valid_utf8 in Hv; congruence|].
    split; [|exact I]. constructor; [|constructor]. cbn [tk_text tk_type]. rewrite R. split; [discriminate|]. constructor; [|constructor].
    rewrite compare_kind. reflexivity.
  - destruct (tok_loop_spec (c2 :: cs) c [c]) as (toks & -> & Hc & _ & Hf & Ha); [eexists; reflexivity | repeat constructor|].
    cbn [rev app] in Hc.
    assert (HSt : Forall (fun p => Forall scalar (fst p)) toks).
    { rewrite <- Hc in HS. clear -HS. induction toks as [|p toks IH]; [constructor|]. cbn [map concat] in HS. apply Forall_app in HS as [H1 H2]. constructor; auto. }
    split; [|split].
    + rewrite map_map. cbn [tk_text]. rewrite <- Hc. clear. induction toks as [|p toks IH]; [reflexivity|]. cbn [map concat]. now rewrite encode_app, IH.
    + clear -Hf HSt. induction toks as [|p toks IH]; cbn [map]; [constructor|]. inversion Hf; inversion HSt; subst. constructor; [|now apply IH].
      cbn [tk_text tk_type]. rewrite runes_encode by assumption. assumption.
    + apply alternating_nth. intros i a b. rewrite !nth_error_map.
      destruct (nth_error toks i) as [pa|] eqn:Ea; [|discriminate]. destruct (nth_error toks (S i)) as [pb|] eqn:Eb; [|discriminate].
      intros [= <-] [= <-]. cbn [tk_type]. eapply Ha; eauto.
Qed.
Print Assumptions C26_tokens_are_lossless.

(** in particular, on well-formed text nothing is lost at all *)
Theorem C26_tokens_rejoin : forall s, bytes s -> valid_utf8 s -> concat (map tk_text (tokenize s)) = s.
Proof. intros s Hb Hv. destruct (C26_tokens_are_lossless s Hb (or_introl Hv)) as [H _]. rewrite H. exact Hv. Qed.
Print Assumptions C26_tokens_rejoin.

(** and the tokens are determined by these properties *)
Lemma app_split_kind (a b x y : list Z) k k' :
  a <> [] -> b <> [] -> Forall (fun r => kind r = k) a -> Forall (fun r => kind r = k') b ->
  a ++ x = b ++ y -> (forall r, nth_error x 0 = Some r -> kind r <> k) -> (forall r, nth_error y 0 = Some r -> kind r <> k') -> a = b /\ k = k' /\ x = y.
Proof.
  intros Ha Hb HA HB E HX HY.
  assert (K : k = k').
  { destruct a, b; try congruence. injection E as -> _. inversion HA; inversion HB; congruence. }
  subst k'. clear Ha Hb. revert b HB E. induction a as [|r a IH]; intros b HB E.
  - destruct b as [|s b]; [auto|]. exfalso. cbn in E. subst x. apply (HX s); [reflexivity|]. now inversion HB.
  - destruct b as [|s b].
    + exfalso. cbn in E. apply (HY r); [rewrite <- E; reflexivity|]. now inversion HA.
    + injection E as -> E. inversion HA; inversion HB; subst. destruct (IH H2 b H6 E) as (-> & _ & ->). auto.
Qed.
Definition good (l : list (list Z * ttype)) : Prop :=
  Forall (fun p => fst p <> [] /\ Forall (fun r => kind r = snd p) (fst p)) l /\
  (forall i a b, nth_error l i = Some a -> nth_error l (S i) = Some b -> snd a <> snd b).
Lemma good_tail p l : good (p :: l) -> good l.
Proof. intros [H1 H2]. inversion H1; subst. split; [assumption|]. intros i a b Ha Hb. exact (H2 (S i) a b Ha Hb). Qed.
Lemma good_head p l : good (p :: l) -> forall r, nth_error (concat (map fst l)) 0 = Some r -> kind r <> snd p.
Proof.
  intros [H1 H2] r Hr. destruct l as [|q l]; [discriminate|]. inversion H1 as [|? ? _ H3]; subst. inversion H3 as [|? ? [Hq Hk] _]; subst.
  destruct q as [[|r' q] k]; [cbn in Hq; congruence|]. cbn in Hr. injection Hr as ->. cbn [fst snd] in *. inversion Hk; subst.
  intros E. apply (H2 0%nat p (r :: q, kind r)); [reflexivity..|]. now cbn.
Qed.
Lemma good_unique : forall l l', good l -> good l' -> concat (map fst l) = concat (map fst l') -> l = l'.
Proof.
  induction l as [|[a k] l IH]; intros [|[b k'] l'] G G' E.
  - reflexivity.
  - exfalso. destruct G' as [H _]. inversion H as [|? ? [Hn _] _]; subst. cbn in *. destruct b; [congruence|discriminate].
  - exfalso. destruct G as [H _]. inversion H as [|? ? [Hn _] _]; subst. cbn in *. destruct a; [congruence|discriminate].
  - cbn [map concat fst] in E. pose proof (good_head _ _ G) as HX. pose proof (good_head _ _ G') as HY. cbn [snd] in *.
    destruct G as [HA HA'] eqn:EG. destruct G' as [HB HB'] eqn:EG'.
    inversion HA as [|? ? [Hna Hka] _]; subst. inversion HB as [|? ? [Hnb Hkb] _]; subst. cbn [fst snd] in *.
    destruct (app_split_kind a b _ _ k k' Hna Hnb Hka Hkb E HX HY) as (-> & -> & E').
    f_equal. apply IH; [eapply good_tail; split; eassumption | eapply good_tail; split; eassumption | exact E'].
Qed.
Lemma alternating_nth' l : alternating l -> forall i a b, nth_error l i = Some a -> nth_error l (S i) = Some b -> tk_type a <> tk_type b.
Proof.
  induction l as [|x l IH]; intros H i a b; [destruct i; discriminate|]. destruct l as [|y l]; [destruct i as [|[|i]]; discriminate|].
  destruct H as [H1 H2]. destruct i as [|i]; [intros [= <-] [= <-]; exact H1|]. apply (IH H2 i).
Qed.
Lemma runes_concat l : Forall (fun t => bytes t /\ valid_utf8 t) l -> runes (concat l) = concat (map runes l).
Proof.
  intros H. assert (E : concat l = encode (concat (map runes l))).
  { induction H as [|t l [_ Hv] _ IH]; [reflexivity|]. cbn [map concat]. rewrite encode_app, <- IH. f_equal. symmetry. exact Hv. }
  rewrite E, runes_encode; [reflexivity|]. clear E. induction H as [|t l [Hb _] _ IH]; cbn [map concat]; [constructor|].
  apply Forall_app. split; [now apply runes_scalar | exact IH].
Qed.
(** any way to cut the string into non-empty runs of one kind, neighbours of different kinds, is the one computed *)
Theorem C26_tokens_are_unique : forall s toks, bytes s -> valid_utf8 s ->
  concat (map tk_text toks) = s ->
  Forall (fun t => bytes (tk_text t) /\ valid_utf8 (tk_text t) /\ tk_text t <> [] /\ Forall (fun r => kind r = tk_type t) (runes (tk_text t))) toks ->
  alternating toks -> toks = tokenize s.
Proof.
  intros s toks Hb Hv Hc Hf Ha. destruct (C26_tokens_are_lossless s Hb (or_introl Hv)) as (Tc & Tf & Ta).
  assert (VT : Forall (fun t => bytes (tk_text t) /\ valid_utf8 (tk_text t)) (tokenize s)).
  { unfold tokenize. destruct (runes s) as [|c [|c2 cs]] eqn:R; [constructor|constructor; [cbn; auto|constructor]|].
    pose proof (runes_scalar s Hb) as HS. rewrite R in HS.
    destruct (tok_loop_spec (c2 :: cs) c [c]) as (l & -> & Hl & _); [eexists; reflexivity | repeat constructor|]. cbn [rev app] in Hl.
    rewrite <- Hl in HS. clear -HS. induction l as [|p l IH]; cbn [map]; [constructor|]. cbn [map concat] in HS. apply Forall_app in HS as [H1 H2].
    constructor; [|now apply IH]. cbn [tk_text]. split; [apply encode_bytes | now apply valid_encode]. }
  assert (G : forall l, Forall (fun t => runes (tk_text t) <> [] /\ Forall (fun r => kind r = tk_type t) (runes (tk_text t))) l -> alternating l ->
              good (map (fun t => (runes (tk_text t), tk_type t)) l)).
  { intros l H1 H2. split; [apply Forall_map; exact H1|]. intros i a b. rewrite !nth_error_map.
    destruct (nth_error l i) eqn:E1; [|discriminate]. destruct (nth_error l (S i)) eqn:E2; [|discriminate]. intros [= <-] [= <-]. cbn [snd].
    eapply alternating_nth'; eauto. }
  assert (Inj : forall l l', Forall (fun t => valid_utf8 (tk_text t)) l -> Forall (fun t => valid_utf8 (tk_text t)) l' ->
            map (fun t => (runes (tk_text t), tk_type t)) l = map (fun t => (runes (tk_text t), tk_type t)) l' -> l = l').
  { induction l as [|t l IH]; intros [|t' l'] H1 H2 E; try discriminate; [reflexivity|]. injection E as E1 E2 E3.
    inversion H1; inversion H2; subst. f_equal; [|now apply IH]. destruct t as [x1 k1], t' as [x2 k2]. cbn [tk_text tk_type] in *. subst. f_equal. unfold valid_utf8 in *. congruence. }
  apply Inj.
  - eapply Forall_impl; [|exact Hf]. cbv beta. tauto.
  - eapply Forall_impl; [|exact VT]. cbv beta. tauto.
  - apply good_unique.
    + apply G; [|exact Ha]. eapply Forall_impl; [|exact Hf]. intros t (Ht & Hv2 & Hn & Hk). split; [|exact Hk].
      intros E. apply Hn. unfold valid_utf8 in Hv2. rewrite E in Hv2. now rewrite <- Hv2.
    + now apply G.
    + assert (M : forall l, map fst (map (fun t => (runes (tk_text t), tk_type t)) l) = map runes (map tk_text l)) by (intros l; rewrite !map_map; reflexivity).
      rewrite !M. rewrite <- !runes_concat.
      * rewrite Hc. now rewrite (C26_tokens_rejoin s Hb Hv).
      * apply Forall_map. exact VT.
      * apply Forall_map. eapply Forall_impl; [|exact Hf]. cbv beta. tauto.
Qed.
Print Assumptions C26_tokens_are_unique.
Example C26_case : map tk_text (tokenize (lit "10:30am, 5x")) = map lit ["10:30"; "am"; ", "; "5"; "x"]%string.
Proof. vm_compute. reflexivity. Qed.

(** * C27: digits *)
(** code points of DIGIT ZERO of each script (Unicode 16, general category Nd): the ten decimal digits follow in order *)
Definition digit_zeros : list Z :=
  [48; 1632; 1776; 1984; 2406; 2534; 2662; 2790; 2918; 3046; 3174; 3302; 3430; 3558; 3664; 3792; 3872; 4160; 4240; 6112; 6160; 6470; 6608; 6784;
   6800; 6992; 7088; 7232; 7248; 42528; 43216; 43264; 43472; 43504; 43600; 44016; 65296; 66720; 68912; 68928; 69734; 69872; 69942; 70096; 70384;
   70736; 70864; 71248; 71360; 71376; 71386; 71472; 71904; 72016; 72688; 72784; 73040; 73120; 73552; 90416; 92768; 92864; 93008; 93552; 118000;
   120782; 120792; 120802; 120812; 120822; 123200; 123632; 124144; 124401; 125264; 130032].
Definition digit_value (r : Z) : option Z := option_map (fun z => r - z) (List.find (fun z => (z <=? r) && (r <=? z + 9)) digit_zeros).
(** the decimal digits are the ones of that table *)
Definition unicode_digits (U : uni) : Prop := forall r, u_isNd U r = true <-> digit_value r <> None.
Definition ascii_digit (r : Z) : Z := match digit_value r with Some v => 48 + v | None => r end.
(** the digits for which the table of ranges in the source is wrong: two of its ranges cover more than one script *)
Definition misread (r : Z) : bool := ((120792 <=? r) && (r <=? 120831)) || ((71386 <=? r) && (r <=? 71395)).

Definition dr_of (r : Z) : option Z := option_map fst (dr_first digit_ranges 0 r).
Lemma dr_first_shift rs : forall j r, option_map fst (dr_first rs j r) = option_map fst (dr_first rs 0 r).
Proof. induction rs as [|dr rs IH]; intros j r; cbn [dr_first]; [reflexivity|]. destruct (dr_apply dr r); [reflexivity|]. rewrite IH. symmetry. apply IH. Qed.
Definition disjoint (a b : Z * Z) : bool := (snd a <? fst b) || (snd b <? fst a).
Fixpoint all_disjoint (l : list (Z * Z)) : bool := match l with [] => true | a :: r => forallb (disjoint a) r && all_disjoint r end.
Lemma dr_apply_iff dr r n : dr_apply dr r = Some n <-> fst dr <= r <= snd dr /\ n = 48 + (r - fst dr).
Proof.
  unfold dr_apply. destruct ((fst dr <=? r) && (r <=? snd dr)) eqn:B.
  - split; [intros H; assert (n = 48 + (r - fst dr)) by congruence; lia | intros [_ ->]; reflexivity].
  - split; [discriminate | intros H; exfalso; lia].
Qed.
Lemma dr_unique : forall rs dr r n, all_disjoint rs = true -> In dr rs -> dr_apply dr r = Some n -> option_map fst (dr_first rs 0 r) = Some n.
Proof.
  induction rs as [|a rs IH]; intros dr r n HD Hi Hr; [destruct Hi|]. cbn [all_disjoint] in HD. apply andb_true_iff in HD as [H1 H2].
  cbn [dr_first]. destruct Hi as [->|Hi]; [now rewrite Hr|].
  destruct (dr_apply a r) as [m|] eqn:Ea; [|rewrite dr_first_shift; eapply IH; eauto].
  exfalso. rewrite forallb_forall in H1. specialize (H1 _ Hi). unfold disjoint in H1. apply dr_apply_iff in Hr, Ea. lia.
Qed.
Lemma ranges_disjoint : all_disjoint digit_ranges = true.
Proof. vm_compute. reflexivity. Qed.
(** remembering the last range changes nothing *)
Lemma norm_runes_map isNd : forall rs last,
  (forall k, last = Some k -> (k < length digit_ranges)%nat) ->
  norm_runes isNd last rs = map (fun r => if isNd r then match dr_of r with Some n => n | None => r end else r) rs.
Proof.
  induction rs as [|r rs IH]; intros last HL; cbn [norm_runes map]; [reflexivity|]. destruct (isNd r) eqn:En; cbn [negb]; [|now rewrite IH].
  assert (HF : forall n j, dr_first digit_ranges 0 r = Some (n, j) -> (j < length digit_ranges)%nat).
  { generalize digit_ranges. intros l. assert (G : forall l j0 n j, dr_first l j0 r = Some (n, j) -> (j < j0 + length l)%nat).
    { clear. induction l as [|a l IHl]; intros j0 n j; cbn [dr_first length]; [discriminate|]. destruct (dr_apply a r); [intros [= _ <-]; lia|].
      intros H. apply IHl in H. lia. }
    intros n j H. apply G in H. lia. }
  destruct (match last with Some (S k) => _ | _ => None end) as [n|] eqn:R.
  - destruct last as [[|k]|]; try discriminate R. rewrite IH by exact HL. f_equal. unfold dr_of.
    rewrite (dr_unique digit_ranges _ r n ranges_disjoint (nth_In _ _ (HL _ eq_refl)) R). reflexivity.
  - unfold dr_of. destruct (dr_first digit_ranges 0 r) as [[n j]|] eqn:F; cbn [option_map fst]; rewrite IH; auto.
    intros k [= <-]. eapply HF. reflexivity.
Qed.
(** each listed digit outside the two wide ranges is in a range of ten that starts at its zero *)
Definition zero_ok (z : Z) : bool :=
  misread z || match dr_first digit_ranges 0 z with
               | Some (n, j) => let dr := nth j digit_ranges (0, -1) in
                                (fst dr =? z) && (z + 9 <=? snd dr)
               | None => false end.
Lemma zeros_ok : forallb zero_ok digit_zeros = true.
Proof. vm_compute. reflexivity. Qed.
Lemma zeros_misread : forallb (fun z => negb (existsb (fun k => negb (Bool.eqb (misread z) (misread (z + k)))) [1;2;3;4;5;6;7;8;9])) digit_zeros = true.
Proof. vm_compute. reflexivity. Qed.
Lemma dr_first_nth rs r : forall j0 n j, dr_first rs j0 r = Some (n, j) -> (j0 <= j)%nat /\ dr_apply (nth (j - j0) rs (0, -1)) r = Some n.
Proof.
  induction rs as [|a rs IH]; intros j0 n j; cbn [dr_first]; [discriminate|]. destruct (dr_apply a r) as [m|] eqn:A.
  - intros [= <- <-]. rewrite Nat.sub_diag. auto.
  - intros H. apply IH in H as [H1 H2]. split; [lia|]. replace (j - j0)%nat with (S (j - S j0)) by lia. exact H2.
Qed.
Lemma dr_value r v : digit_value r = Some v -> misread r = false -> dr_of r = Some (48 + v).
Proof.
  unfold digit_value. destruct (List.find _ digit_zeros) as [z|] eqn:F; [|discriminate]. intros [= <-] Hm.
  apply find_some in F as [Hi Hr]. pose proof zeros_ok as ZO. rewrite forallb_forall in ZO. specialize (ZO _ Hi). unfold zero_ok in ZO.
  assert (Hmz : misread z = false).
  { pose proof zeros_misread as ZM. rewrite forallb_forall in ZM. specialize (ZM _ Hi). unfold misread in *. clear -ZM Hm Hr. cbn [existsb] in ZM. lia. }
  rewrite Hmz in ZO. cbn [orb] in ZO. destruct (dr_first digit_ranges 0 z) as [[n j]|] eqn:D; [|discriminate].
  cbv zeta in ZO. pose proof (dr_first_nth _ _ _ _ _ D) as [_ DA]. rewrite Nat.sub_0_r in DA.
  set (dr := nth j digit_ranges (0, -1)) in *. apply dr_apply_iff in DA.
  assert (Hj : In dr digit_ranges).
  { subst dr. destruct (Nat.lt_ge_cases j (length digit_ranges)); [now apply nth_In|]. exfalso. rewrite nth_overflow in DA by lia. cbn in DA. lia. }
  unfold dr_of. apply (dr_unique digit_ranges dr r _ ranges_disjoint Hj). apply dr_apply_iff. lia.
Qed.

(** every digit is mapped to the ASCII digit of its value, every other character is kept; number of characters and positions too *)
Theorem C27_digits_by_value_partial : forall U s, unicode_digits U -> bytes s ->
  Forall (fun r => misread r = false) (runes s) ->
  runes (digit_normalize U s) = map ascii_digit (runes s).
Proof.
  intros U s HU Hb Hm. unfold digit_normalize. rewrite norm_runes_map by discriminate.
  pose proof (runes_scalar s Hb) as HS.
  assert (E : map (fun r => if u_isNd U r then match dr_of r with Some n => n | None => r end else r) (runes s) = map ascii_digit (runes s)).
  { apply map_ext_in. intros r Hr. rewrite Forall_forall in Hm. specialize (Hm _ Hr). unfold ascii_digit.
    destruct (digit_value r) as [v|] eqn:V.
    - assert (u_isNd U r = true) as -> by (apply HU; congruence). now rewrite (dr_value _ _ V Hm).
    - destruct (u_isNd U r) eqn:En; [|reflexivity]. apply HU in En. congruence. }
  rewrite E. apply runes_encode. apply Forall_map. eapply Forall_impl; [|exact HS]. intros r Hr. unfold ascii_digit, digit_value.
  destruct (List.find _ digit_zeros) as [z|] eqn:F; cbn [option_map]; [|exact Hr]. apply find_some in F as [_ F]. unfold scalar. lia.
Qed.
Print Assumptions C27_digits_by_value_partial.

(** in general: the number of characters is preserved and normalising twice is normalising once *)
Lemma dr_of_range r n : dr_of r = Some n -> 48 <= n < 128.
Proof.
  unfold dr_of. destruct (dr_first digit_ranges 0 r) as [[m j]|] eqn:D; [|discriminate]. intros [= ->].
  apply dr_first_nth in D as [_ DA]. rewrite Nat.sub_0_r in DA. apply dr_apply_iff in DA.
  destruct (Nat.lt_ge_cases j (length digit_ranges)) as [L|L]; [|rewrite nth_overflow in DA by lia; cbn in DA; lia].
  assert (W : forallb (fun dr => snd dr - fst dr <? 80) digit_ranges = true) by (vm_compute; reflexivity).
  rewrite forallb_forall in W. specialize (W _ (nth_In _ (0, -1) L)). lia.
Qed.
Lemma dr_of_ascii n : 48 <= n <= 57 -> dr_of n = Some n.
Proof. intros H. unfold dr_of. change digit_ranges with ((48, 57) :: tl digit_ranges). cbn [dr_first]. unfold dr_apply. cbn [fst snd].
  assert ((48 <=? n) && (n <=? 57) = true) as -> by lia. cbn [option_map fst]. f_equal. lia. Qed.
Theorem C27_same_length_and_idempotent : forall U s, uni_ascii U -> bytes s ->
  length (runes (digit_normalize U s)) = length (runes s) /\
  digit_normalize U (digit_normalize U s) = digit_normalize U s.
Proof.
  intros U s HU Hb. unfold digit_normalize. rewrite (norm_runes_map _ (runes s)) by discriminate.
  pose proof (runes_scalar s Hb) as HS. set (f := fun r => if u_isNd U r then match dr_of r with Some n => n | None => r end else r).
  assert (SF : Forall scalar (map f (runes s))).
  { apply Forall_map. eapply Forall_impl; [|exact HS]. intros r Hr. unfold f. destruct (u_isNd U r); [|exact Hr].
    destruct (dr_of r) eqn:D; [|exact Hr]. apply dr_of_range in D. unfold scalar. lia. }
  rewrite runes_encode by exact SF. split; [apply map_length|]. f_equal. rewrite norm_runes_map by discriminate. fold f. rewrite map_map.
  apply map_ext. intros r. unfold f at 2 3. destruct (u_isNd U r) eqn:En; [|unfold f; now rewrite En].
  destruct (dr_of r) as [n|] eqn:D; [|unfold f; now rewrite En, D]. pose proof (dr_of_range _ _ D). unfold f.
  rewrite (ua_isNd _ HU) by lia. unfold is_digitA. destruct ((48 <=? n) && (n <=? 57)) eqn:G; [|reflexivity]. rewrite dr_of_ascii by lia. reflexivity.
Qed.
Print Assumptions C27_same_length_and_idempotent.

(** the full claim is false: MATHEMATICAL DOUBLE-STRUCK DIGIT ZERO becomes a colon, MATHEMATICAL MONOSPACE DIGIT NINE the letter a *)
Theorem C27_mathematical_digits_refuted :
  exists U, unicode_digits U /\ uni_ascii U /\
    digit_normalize U (encode [120792]) = lit ":" /\ digit_value 120792 = Some 0 /\
    digit_normalize U (encode [120831]) = lit "a" /\ digit_value 120831 = Some 9.
Proof.
  exists {| u_lower := u_lower uni0; u_upper := u_upper uni0; u_fold := u_fold uni0; u_isL := u_isL uni0; u_isM := u_isM uni0; u_isN := u_isN uni0;
            u_isNd := fun r => match digit_value r with Some _ => true | None => false end; u_nfkc := u_nfkc uni0; u_nfkd_noMn_nfkc := u_nfkd_noMn_nfkc uni0 |}.
  split; [intros r; cbn [u_isNd]; destruct (digit_value r); split; congruence|]. split.
  - pose proof uni0_ascii as A. destruct A. constructor; cbn [u_lower u_upper u_fold u_isL u_isM u_isN u_isNd u_nfkc u_nfkd_noMn_nfkc]; auto.
    intros c Hc. unfold digit_value, is_digitA. change digit_zeros with (48 :: tl digit_zeros). cbn [List.find].
    destruct ((48 <=? c) && (c <=? 48 + 9)) eqn:D; cbn [option_map]; [lia|].
    destruct (List.find _ (tl digit_zeros)) as [z|] eqn:F; [|cbn [option_map]; lia]. exfalso.
    apply find_some in F as [Hi Hz]. assert (M : forallb (fun z => 128 <=? z) (tl digit_zeros) = true) by (vm_compute; reflexivity).
    rewrite forallb_forall in M. specialize (M _ Hi). lia.
  - vm_compute. auto.
Qed.
Print Assumptions C27_mathematical_digits_refuted.

(** * C37: white space *)
(** Unicode's White_Space characters *)
Definition white_space : list Z :=
  [9; 10; 11; 12; 13; 32; 133; 160; 5760; 8192; 8193; 8194; 8195; 8196; 8197; 8198; 8199; 8200; 8201; 8202; 8232; 8233; 8239; 8287; 12288].
Lemma is_space_white r : is_space r = true <-> In r white_space.
Proof.
  unfold is_space, white_space. cbn [In existsb]. split; intros H; [|lia]. lia.
Qed.
(** [separated l ws]: [ws] are the maximal runs of characters of [l] that are not white space, in order *)
Definition separated : list Z -> list (list Z) -> Prop := words.

(** what the code does: non-breaking spaces are deleted, then the words are joined by single spaces *)
Theorem C37_nbsp_deleted_then_words : forall s, bytes s -> valid_utf8 s ->
  exists ws, separated (filter (fun r => negb (r =? 160)) (runes s)) ws /\ (forall ws', separated (filter (fun r => negb (r =? 160)) (runes s)) ws' -> ws' = ws) /\
    sanitize_spaces s = encode (join_words ws).
Proof.
  intros s Hb Hv. destruct (sanitize_words s Hb Hv) as (ws & H & E). exists ws. split; [exact H|]. split; [|exact E].
  intros ws' H'. eapply words_unique; eauto.
Qed.
Print Assumptions C37_nbsp_deleted_then_words.

(** the claim, for texts without a non-breaking space *)
Theorem C37_words_single_spaces_partial : forall s, bytes s -> valid_utf8 s -> ~ In 160 (runes s) ->
  exists ws, separated (runes s) ws /\ (forall ws', separated (runes s) ws' -> ws' = ws) /\ sanitize_spaces s = encode (join_words ws).
Proof.
  intros s Hb Hv Hn. pose proof (C37_nbsp_deleted_then_words s Hb Hv) as H. rewrite filter_all in H; [exact H|].
  apply Forall_forall. intros r Hr. destruct (Z.eqb_spec r 160) as [->|]; [contradiction|reflexivity].
Qed.
Print Assumptions C37_words_single_spaces_partial.

Theorem C37_idempotent : forall s, bytes s -> valid_utf8 s -> sanitize_spaces (sanitize_spaces s) = sanitize_spaces s.
Proof.
  intros s Hb Hv. destruct (sanitize_words s Hb Hv) as (ws & H & E). rewrite E. apply sanitize_clean; [eapply words_word; eauto|].
  eapply words_scalar; [exact H|]. apply Forall_forall. intros r Hr. apply filter_In in Hr as [Hr _]. pose proof (runes_scalar s Hb) as HS. rewrite Forall_forall in HS. auto.
Qed.
Print Assumptions C37_idempotent.

(** with a non-breaking space it fails: "1<nbsp>2" has two words but becomes "12" *)
Theorem C37_nbsp_is_a_separator_refuted :
  exists s ws, bytes s /\ valid_utf8 s /\ separated (runes s) ws /\ encode (join_words ws) = lit "1 2" /\ sanitize_spaces s = lit "12".
Proof.
  exists (encode [49; 160; 50]), [[49]; [50]]. split; [apply encode_bytes|]. split; [vm_compute; reflexivity|]. split; [|split; vm_compute; reflexivity].
  change (runes (encode [49; 160; 50])) with ([] ++ [49] ++ [160; 50]). apply words_cons.
  - constructor.
  - split; [discriminate|]. repeat constructor.
  - right. exists 160, [50]. split; reflexivity.
  - change [160; 50] with ([160] ++ [50] ++ []). apply words_cons; [repeat constructor | split; [discriminate|repeat constructor] | now left | apply words_none; constructor].
Qed.
Print Assumptions C37_nbsp_is_a_separator_refuted.
Example C37_case : sanitize_spaces (lit "  a  b c ") = lit "a b c". Proof. vm_compute. reflexivity. Qed.
