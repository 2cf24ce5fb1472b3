(** Normalising a text does not distinguish the digits of the scripts of the world *)
From Coq Require Import ZifyBool.
From Verif Require Import GoBase Regex Strutil Digit Utf8Facts SpaceFacts Setting Tokenizer Timezone Env Common Absolute Language Calendars Prop_Text.

(** ** Specification *)
(** the digits that Unicode turns into others when it composes a text: fullwidth, outlined, mathematical and segmented digits *)
Definition recomposed (r : Z) : bool := ((65296 <=? r) && (r <=? 65305)) || ((118000 <=? r) && (r <=? 118009)) || ((120782 <=? r) && (r <=? 120831)) || ((130032 <=? r) && (r <=? 130041)).
(** the digits of a script: decimal digits (see C27) but for those and for the ones that the source misreads *)
Definition script_digit (r : Z) : bool := match digit_value r with Some _ => negb (recomposed r) && negb (misread r) | None => false end.
(** every digit of a script replaced by the ASCII digit of its value *)
Definition latin_digits (l : list Z) : list Z := map (fun r => if script_digit r then ascii_digit r else r) l.
(** what has to be known of the Unicode tables: which characters are digits, that case and normal forms leave the digits of scripts alone,
    and that normal forms do not depend on the script of a digit *)
Record script_tables (U : uni) : Prop := {
  st_digits : unicode_digits U;
  st_lower : forall r, script_digit r = true -> u_lower U r = r;
  st_lower_other : forall r, script_digit r = false -> script_digit (u_lower U r) = false;
  st_scalar : forall r, scalar r -> scalar (u_lower U r);
  st_form : forall l, Forall scalar l -> exists n, Forall scalar n /\ u_nfkd_noMn_nfkc U (encode l) = encode n /\ u_nfkd_noMn_nfkc U (encode (latin_digits l)) = encode (latin_digits n) }.

(** ** Proof *)
Definition lat (r : Z) : Z := if script_digit r then ascii_digit r else r.
Lemma latin_map l : latin_digits l = map lat l. Proof. reflexivity. Qed.
Lemma digit_at r v : digit_value r = Some v -> 0 <= v <= 9 /\ In (r - v) digit_zeros.
Proof.
  unfold digit_value. destruct (List.find _ digit_zeros) as [z|] eqn:F; [|discriminate]. cbn [option_map]. intros E. assert (v = r - z) as -> by congruence. apply find_some in F as [HI F]. split; [lia|]. replace (r - (r - z)) with z by lia. exact HI.
Qed.
Lemma ascii_value c : 48 <= c <= 57 -> digit_value c = Some (c - 48).
Proof. intros H. unfold digit_value. change digit_zeros with (48 :: tl digit_zeros). cbn [List.find]. assert ((48 <=? c) && (c <=? 48 + 9) = true) as -> by lia. reflexivity. Qed.
Lemma script_value r : script_digit r = true -> exists v, digit_value r = Some v /\ 0 <= v <= 9 /\ misread r = false /\ lat r = 48 + v.
Proof.
  intros H. unfold lat. rewrite H. unfold script_digit in H. unfold ascii_digit. destruct (digit_value r) as [v|] eqn:V; [|discriminate H]. exists v. destruct (digit_at r v V) as [B _]. apply andb_true_iff in H as [_ H]. apply negb_true_iff in H. auto.
Qed.
Lemma ascii_script c : 48 <= c <= 57 -> script_digit c = true.
Proof. intros H. unfold script_digit. rewrite ascii_value by exact H. unfold recomposed, misread. lia. Qed.
Lemma lat_lat r : lat (lat r) = lat r.
Proof.
  destruct (script_digit r) eqn:S; [|assert (lat r = r) as EQ by (unfold lat; now rewrite S); now rewrite EQ]. destruct (script_value r S) as (v & _ & B & _ & EQ). rewrite EQ. unfold lat. rewrite ascii_script by lia. unfold ascii_digit. rewrite ascii_value by lia. lia.
Qed.
Lemma lat_keeps r : script_digit r = false -> lat r = r.
Proof. intros H. unfold lat. now rewrite H. Qed.
Lemma space_script r : is_space r = true -> script_digit r = false.
Proof.
  intros H. apply is_space_white in H. assert (F : forallb (fun c => negb (script_digit c)) white_space = true) by (vm_compute; reflexivity). rewrite forallb_forall in F. apply F in H. now apply negb_true_iff in H.
Qed.
Lemma lat_space r : is_space (lat r) = is_space r.
Proof.
  destruct (script_digit r) eqn:S; [|now rewrite lat_keeps]. destruct (script_value r S) as (v & _ & B & _ & ->). destruct (is_space r) eqn:P; [apply space_script in P; congruence|]. unfold is_space. lia.
Qed.
Lemma lat_nbsp r : not_nbsp (lat r) = not_nbsp r.
Proof.
  destruct (script_digit r) eqn:S; [|now rewrite lat_keeps]. destruct (script_value r S) as (v & _ & B & _ & ->). unfold not_nbsp. destruct (Z.eqb_spec r 160) as [->|N]; [vm_compute in S; discriminate S|]. lia.
Qed.
Lemma lat_scalar r : scalar r -> scalar (lat r).
Proof. destruct (script_digit r) eqn:S; [|now rewrite lat_keeps]. destruct (script_value r S) as (v & _ & B & _ & ->). unfold scalar. lia. Qed.
Lemma words_lat l ws : words l ws -> words (map lat l) (map (map lat) ws).
Proof.
  assert (SP : forall sp, spaces sp -> spaces (map lat sp)) by (unfold spaces; intros sp H; apply Forall_map; eapply Forall_impl; [|exact H]; intros r Hr; cbv beta in *; now rewrite lat_space).
  induction 1 as [sp Hs|sp w rest ws Hs Hw HR HW IH]; [apply words_none; auto|]. rewrite !map_app. cbn [map]. apply words_cons.
  - auto.
  - destruct Hw as [Hw1 Hw2]. split; [destruct w; [congruence|discriminate]|]. apply Forall_map. eapply Forall_impl; [|exact Hw2]. intros r Hr. cbv beta in *. rewrite lat_space, ?lat_nbsp. exact Hr.
  - destruct HR as [->|(r & rest' & -> & HR)]; [now left|]. right. exists (lat r), (map lat rest'). split; [reflexivity|]. now rewrite lat_space.
  - exact IH.
Qed.
Lemma map_join f ws : f 32 = 32 -> map f (join_words ws) = join_words (map (map f) ws).
Proof.
  intros H. induction ws as [|w [|w2 ws] IH]; [reflexivity|reflexivity|]. change (join_words (w :: w2 :: ws)) with (w ++ 32 :: join_words (w2 :: ws)). rewrite map_app. cbn [map]. rewrite H, IH. reflexivity.
Qed.
Lemma filter_lat l : filter not_nbsp (map lat l) = map lat (filter not_nbsp l).
Proof. induction l as [|r l IH]; [reflexivity|]. cbn [map filter]. rewrite lat_nbsp. destruct (not_nbsp r); cbn [map]; now rewrite IH. Qed.

Section U.
Variables (E : env).
Notation U := (e_uni E).
Hypothesis UA : uni_ascii U.
Hypothesis ST : script_tables U.
Lemma lower_script r : script_digit (u_lower U r) = script_digit r.
Proof. destruct (script_digit r) eqn:S; [now rewrite (st_lower _ ST)|now apply (st_lower_other _ ST)]. Qed.
Lemma lower_lat r : u_lower U (lat r) = lat (u_lower U r).
Proof.
  destruct (script_digit r) eqn:S; [|rewrite (lat_keeps r S), lat_keeps; [reflexivity|now rewrite lower_script]]. rewrite (st_lower _ ST r S). destruct (script_value r S) as (v & _ & B & _ & ->).
  apply (st_lower _ ST). apply ascii_script. lia.
Qed.
Lemma lower_encode l : Forall scalar l -> to_lower U (encode l) = encode (map (u_lower U) l).
Proof.
  intros HS. unfold to_lower. destruct (is_ascii (encode l)) eqn:A; [|now rewrite runes_encode].
  assert (AL : Forall (fun c => 0 <= c < 128) l).
  { rewrite <- (runes_encode l HS). assert (B : Forall (fun c => 0 <= c < 128) (encode l)). { pose proof (encode_bytes l) as EB. unfold bytes in EB. unfold is_ascii in A. rewrite forallb_forall in A. rewrite Forall_forall in *. intros c Hc. pose proof (A c Hc). pose proof (EB c Hc). cbv beta in *. lia. }
    rewrite runes_ascii; [exact B|]. apply forallb_forall. rewrite Forall_forall in B. intros c Hc. apply B in Hc. lia. }
  rewrite encode_ascii by (apply forallb_forall; rewrite Forall_forall in AL; intros c Hc; apply AL in Hc; lia). rewrite (map_ext_in (u_lower U) lowerA) by (intros c Hc; rewrite Forall_forall in AL; now apply (ua_lower _ UA), AL).
  symmetry. apply encode_ascii. apply forallb_forall. intros c Hc. apply in_map_iff in Hc as (x & <- & Hx). rewrite Forall_forall in AL. apply AL in Hx. unfold lowerA, is_upperA. destruct ((65 <=? x) && (x <=? 90)) eqn:Q; lia.
Qed.
(** the map that [digit_normalize] performs *)
Definition dn (r : Z) : Z := if u_isNd U r then match dr_of r with Some n => n | None => r end else r.
Lemma dn_lat r : dn (lat r) = dn r.
Proof.
  destruct (script_digit r) eqn:S; [|now rewrite lat_keeps]. destruct (script_value r S) as (v & V & B & M & ->). unfold dn.
  assert (u_isNd U r = true) as -> by (apply (st_digits _ ST); congruence). rewrite (dr_value r v V M). assert (u_isNd U (48 + v) = true) as -> by (apply (st_digits _ ST); rewrite ascii_value by lia; discriminate). rewrite dr_of_ascii by lia. reflexivity.
Qed.
Lemma dn_space : dn 32 = 32.
Proof. unfold dn. destruct (u_isNd U 32) eqn:N; [|reflexivity]. apply (st_digits _ ST) in N. exfalso. apply N. vm_compute. reflexivity. Qed.
Lemma sanitize_encode l ws : Forall scalar l -> words (filter not_nbsp l) ws -> sanitize_spaces (encode l) = encode (join_words ws) /\ Forall scalar (join_words ws).
Proof.
  intros HS HW. destruct (sanitize_words (encode l) (encode_bytes _) (valid_encode _ HS)) as (ws' & H1 & H2). rewrite runes_encode in H1 by exact HS. rewrite (words_unique _ _ H1 _ HW) in H2. split; [exact H2|].
  apply join_scalar. eapply words_scalar; [exact HW|]. apply Forall_forall. intros r Hr. apply filter_In in Hr as [Hr _]. rewrite Forall_forall in HS. auto.
Qed.
Lemma digit_encode l : Forall scalar l -> digit_normalize U (encode l) = encode (map dn l).
Proof. intros HS. unfold digit_normalize. rewrite runes_encode by exact HS. rewrite norm_runes_map by discriminate. reflexivity. Qed.

Theorem latin_token l : Forall scalar l -> normalize_token E (encode (latin_digits l)) = normalize_token E (encode l).
Proof.
  intros HS. unfold normalize_token, normalize_string, normalize_unicode. destruct (st_form _ ST l HS) as (n & HN & -> & ->). rewrite latin_map.
  assert (HN' : Forall scalar (map lat n)) by (apply Forall_map; eapply Forall_impl; [|exact HN]; intros r Hr; now apply lat_scalar). rewrite !lower_encode by assumption.
  assert (EM : map (u_lower U) (map lat n) = map lat (map (u_lower U) n)) by (rewrite !map_map; apply map_ext; intros r; apply lower_lat). rewrite EM. clear EM HN'. set (m := map (u_lower U) n).
  assert (HM : Forall scalar m) by (apply Forall_map; eapply Forall_impl; [|exact HN]; intros r Hr; now apply (st_scalar _ ST)). clearbody m. clear HN n.
  assert (HM' : Forall scalar (map lat m)) by (apply Forall_map; eapply Forall_impl; [|exact HM]; intros r Hr; now apply lat_scalar).
  destruct (sanitize_words (encode m) (encode_bytes _) (valid_encode _ HM)) as (ws & HW & _). rewrite runes_encode in HW by exact HM.
  destruct (sanitize_encode m ws HM HW) as [-> HJ]. pose proof (words_lat _ _ HW) as HW'. rewrite <- filter_lat in HW'. destruct (sanitize_encode (map lat m) _ HM' HW') as [-> HJ'].
  rewrite !digit_encode by assumption. f_equal. rewrite !(map_join dn) by (apply dn_space). f_equal. rewrite map_map. apply map_ext. intros w. rewrite map_map. apply map_ext. intros r. apply dn_lat.
Qed.
End U.
