(** UTF-8 lemmas *)
From Coq Require Import ZifyBool.
From Verif Require Import GoBase SMap.
Ltac Zify.zify_post_hook ::= Z.div_mod_to_equations.

Definition bytes (s : str) : Prop := Forall (fun c => 0 <= c < 256) s.
Definition scalar (r : Z) : Prop := 0 <= r <= 1114111 /\ ~ (55296 <= r <= 57343).

Lemma decode_rune_width s : s <> [] -> (1 <= snd (decode_rune s) <= length s)%nat /\ (snd (decode_rune s) <= 4)%nat.
Proof.
  destruct s as [|b0 s]; [congruence|]. intros _. cbn [decode_rune].
  destruct (b0 <? 128); [cbn; lia|]. destruct (b0 <? 194); [cbn; lia|].
  destruct s as [|b1 s]; [cbn; lia|].
  destruct (b0 <? 224); [destruct (cont b1); cbn; lia|].
  destruct s as [|b2 s]; [cbn; lia|].
  destruct (b0 <? 240).
  { destruct (_ && cont b2); cbn; lia. }
  destruct s as [|b3 s]; [cbn; lia|].
  destruct (b0 <? 245); [|cbn; lia]. destruct (_ && cont b3); cbn; lia.
Qed.

Lemma decode_from_skip k s : decode_from k s = decode (skipn k s).
Proof.
  unfold decode. revert k. induction s as [|c s IH]; intros [|k]; cbn [skipn]; try reflexivity.
  cbn [decode_from]. rewrite IH. reflexivity.
Qed.
Lemma decode_nil : decode [] = []. Proof. reflexivity. Qed.
Lemma decode_unfold s : s <> [] -> decode s = decode_rune s :: decode (skipn (snd (decode_rune s)) s).
Proof.
  intros Hs. pose proof (decode_rune_width s Hs) as [Hw _]. destruct s as [|c s]; [congruence|].
  unfold decode at 1. cbn [decode_from]. destruct (decode_rune (c :: s)) as [r w] eqn:E. cbn [snd] in *.
  rewrite decode_from_skip. destruct w as [|w]; [lia|]. reflexivity.
Qed.
Lemma runes_unfold s : s <> [] -> runes s = fst (decode_rune s) :: runes (skipn (snd (decode_rune s)) s).
Proof. intros Hs. unfold runes. rewrite decode_unfold at 1 by exact Hs. reflexivity. Qed.

(** induction rune by rune *)
Lemma rune_ind (P : str -> Prop) : P [] -> (forall s, s <> [] -> P (skipn (snd (decode_rune s)) s) -> P s) -> forall s, P s.
Proof.
  intros H0 HS s. remember (length s) as n eqn:Hn. revert s Hn.
  induction n as [n IH] using (well_founded_induction lt_wf). intros s ->.
  destruct s as [|c s]; [exact H0|]. apply HS; [discriminate|].
  eapply IH; [|reflexivity]. pose proof (decode_rune_width (c :: s)) as [Hw _]; [discriminate|].
  rewrite skipn_length. cbn [length] in *. lia.
Qed.

Lemma runes_cons_ascii c s : c < 128 -> runes (c :: s) = c :: runes s.
Proof.
  intros Hc. rewrite runes_unfold by discriminate.
  assert (decode_rune (c :: s) = (c, 1%nat)) as -> by (cbn [decode_rune]; replace (c <? 128) with true by lia; reflexivity).
  reflexivity.
Qed.
Lemma runes_ascii s : is_ascii s = true -> runes s = s.
Proof.
  induction s as [|c s IH]; [reflexivity|]. unfold is_ascii. cbn [forallb]. intros H. apply andb_true_iff in H as [H1 H2].
  rewrite runes_cons_ascii by lia. now rewrite IH.
Qed.
Lemma encode_ascii s : forallb (fun c => (0 <=? c) && (c <? 128)) s = true -> encode s = s.
Proof.
  induction s as [|c s IH]; [reflexivity|]. cbn [forallb]. intros H. apply andb_true_iff in H as [H1 H2].
  unfold encode. cbn [flat_map]. fold (encode s). rewrite IH by exact H2. unfold encode_rune. now rewrite H1.
Qed.

Lemma skipn_app_exact {A} (a b : list A) n : n = length a -> skipn n (a ++ b) = b.
Proof. intros ->. rewrite skipn_app, skipn_all, Nat.sub_diag. reflexivity. Qed.

Lemma decode_encode_rune r s : scalar r -> decode_rune (encode_rune r ++ s) = (r, length (encode_rune r)).
Proof.
  intros [Hr Hs]. unfold encode_rune.
  destruct ((0 <=? r) && (r <? 128)) eqn:E1.
  { cbn [app decode_rune length]. now replace (r <? 128) with true by lia. }
  destruct ((0 <=? r) && (r <? 2048)) eqn:E2.
  { cbn [app decode_rune length].
    replace (192 + r / 64 <? 128) with false by lia. replace (192 + r / 64 <? 194) with false by lia.
    replace (192 + r / 64 <? 224) with true by lia. unfold cont.
    replace ((128 <=? 128 + r mod 64) && (128 + r mod 64 <=? 191)) with true by lia. f_equal. lia. }
  replace ((r <? 0) || (1114111 <? r) || ((55296 <=? r) && (r <=? 57343))) with false by lia.
  destruct (r <? 65536) eqn:E3.
  { cbn [app decode_rune length].
    replace (224 + r / 4096 <? 128) with false by lia. replace (224 + r / 4096 <? 194) with false by lia.
    replace (224 + r / 4096 <? 224) with false by lia. replace (224 + r / 4096 <? 240) with true by lia.
    unfold cont.
    destruct (Z.eqb_spec (224 + r / 4096) 224), (Z.eqb_spec (224 + r / 4096) 237); try lia.
    - replace ((160 <=? 128 + (r / 64) mod 64) && (128 + (r / 64) mod 64 <=? 191) && ((128 <=? 128 + r mod 64) && (128 + r mod 64 <=? 191))) with true by lia.
      f_equal. lia.
    - replace ((128 <=? 128 + (r / 64) mod 64) && (128 + (r / 64) mod 64 <=? 159) && ((128 <=? 128 + r mod 64) && (128 + r mod 64 <=? 191))) with true by lia.
      f_equal. lia.
    - replace ((128 <=? 128 + (r / 64) mod 64) && (128 + (r / 64) mod 64 <=? 191) && ((128 <=? 128 + r mod 64) && (128 + r mod 64 <=? 191))) with true by lia.
      f_equal. lia. }
  cbn [app decode_rune length].
  replace (240 + r / 262144 <? 128) with false by lia. replace (240 + r / 262144 <? 194) with false by lia.
  replace (240 + r / 262144 <? 224) with false by lia. replace (240 + r / 262144 <? 240) with false by lia.
  replace (240 + r / 262144 <? 245) with true by lia. unfold cont.
  replace ((128 <=? 128 + (r / 64) mod 64) && (128 + (r / 64) mod 64 <=? 191)) with true by lia.
  replace ((128 <=? 128 + r mod 64) && (128 + r mod 64 <=? 191)) with true by lia.
  destruct (Z.eqb_spec (240 + r / 262144) 240), (Z.eqb_spec (240 + r / 262144) 244); try lia.
  - replace ((144 <=? 128 + (r / 4096) mod 64) && (128 + (r / 4096) mod 64 <=? 191)) with true by lia.
    cbn [andb]. f_equal. lia.
  - replace ((128 <=? 128 + (r / 4096) mod 64) && (128 + (r / 4096) mod 64 <=? 143)) with true by lia.
    cbn [andb]. f_equal. lia.
  - replace ((128 <=? 128 + (r / 4096) mod 64) && (128 + (r / 4096) mod 64 <=? 191)) with true by lia.
    cbn [andb]. f_equal. lia.
Qed.
Lemma encode_rune_nonempty r : encode_rune r <> [].
Proof. unfold encode_rune. repeat (match goal with |- context [if ?b then _ else _] => destruct b end); discriminate. Qed.
Lemma runes_encode_app r s : scalar r -> runes (encode_rune r ++ s) = r :: runes s.
Proof.
  intros Hr. rewrite runes_unfold.
  - rewrite decode_encode_rune by exact Hr. cbn [fst snd]. now rewrite skipn_app_exact.
  - intros H. apply app_eq_nil in H as [H _]. now apply encode_rune_nonempty in H.
Qed.
Lemma encode_cons r l : encode (r :: l) = encode_rune r ++ encode l. Proof. reflexivity. Qed.
Lemma encode_app a b : encode (a ++ b) = encode a ++ encode b. Proof. unfold encode. apply flat_map_app. Qed.
Lemma runes_encode l : Forall scalar l -> runes (encode l) = l.
Proof.
  induction l as [|r l IH]; [reflexivity|]. intros H. inversion H; subst.
  rewrite encode_cons, runes_encode_app by assumption. now rewrite IH.
Qed.

Lemma decode_rune_scalar s : bytes s -> scalar (fst (decode_rune s)).
Proof.
  intros Hb. assert (SE : scalar rune_error) by (unfold scalar, rune_error; lia).
  destruct s as [|b0 s]; [exact SE|]. inversion Hb as [|? ? H0 Hb1]; subst. cbn [decode_rune].
  destruct (b0 <? 128) eqn:E1; [cbn [fst]; unfold scalar; lia|]. destruct (b0 <? 194) eqn:E2; [exact SE|].
  destruct s as [|b1 s]; [exact SE|].
  inversion Hb1 as [|? ? H1 Hb2]; subst.
  destruct (b0 <? 224) eqn:E3.
  { unfold cont. destruct ((128 <=? b1) && (b1 <=? 191)) eqn:E4; cbn [fst]; [unfold scalar; lia|exact SE]. }
  destruct s as [|b2 s]; [exact SE|].
  destruct (b0 <? 240) eqn:E4.
  { unfold cont. cbv zeta. destruct (_ && _) eqn:E5; cbn [fst]; [|exact SE].
    destruct (Z.eqb_spec b0 224), (Z.eqb_spec b0 237); unfold scalar; lia. }
  destruct s as [|b3 s]; [exact SE|].
  destruct (b0 <? 245) eqn:E5; [|exact SE]. unfold cont. cbv zeta.
  destruct (_ && _) eqn:E6; cbn [fst]; [|exact SE].
  destruct (Z.eqb_spec b0 240), (Z.eqb_spec b0 244); unfold scalar; lia.
Qed.
Lemma bytes_skipn n s : bytes s -> bytes (skipn n s).
Proof. unfold bytes. revert n. induction s as [|c s IH]; intros [|n] H; cbn [skipn]; auto. inversion H; auto. Qed.
Lemma runes_scalar s : bytes s -> Forall scalar (runes s).
Proof.
  pattern s. apply rune_ind; clear s.
  - constructor.
  - intros s Hs IH Hb. rewrite runes_unfold by exact Hs. constructor; [now apply decode_rune_scalar|].
    apply IH. now apply bytes_skipn.
Qed.
Lemma encode_rune_bytes r : bytes (encode_rune r).
Proof.
  unfold encode_rune, bytes.
  destruct ((0 <=? r) && (r <? 128)) eqn:E1; [repeat constructor; lia|].
  destruct ((0 <=? r) && (r <? 2048)) eqn:E2; [repeat constructor; lia|].
  destruct (_ || _) eqn:E3; [repeat constructor; lia|].
  destruct (r <? 65536) eqn:E4; repeat constructor; lia.
Qed.
Lemma encode_bytes l : bytes (encode l).
Proof. induction l as [|r l IH]; [constructor|]. rewrite encode_cons. apply Forall_app. split; [apply encode_rune_bytes | exact IH]. Qed.
Lemma valid_encode l : Forall scalar l -> valid_utf8 (encode l).
Proof. intros H. unfold valid_utf8. now rewrite runes_encode. Qed.

Lemma chunks_unfold s : s <> [] ->
  chunks s = (fst (decode_rune s), firstn (snd (decode_rune s)) s) :: chunks (skipn (snd (decode_rune s)) s).
Proof.
  intros Hs. unfold chunks. rewrite decode_unfold at 1 by exact Hs. destruct (decode_rune s) as [r w]. reflexivity.
Qed.
Lemma unchunks_chunks s : unchunks (chunks s) = s.
Proof.
  pattern s. apply rune_ind; clear s; [reflexivity|]. intros s Hs IH. rewrite chunks_unfold by exact Hs.
  unfold unchunks. cbn [flat_map snd]. fold (unchunks (chunks (skipn (snd (decode_rune s)) s))). rewrite IH. apply firstn_skipn.
Qed.
Lemma chunks_runes s : map fst (chunks s) = runes s.
Proof.
  pattern s. apply rune_ind; clear s; [reflexivity|]. intros s Hs IH. rewrite chunks_unfold, runes_unfold by exact Hs.
  cbn [map fst]. now rewrite IH.
Qed.
Lemma rune_count_le s : (length (runes s) <= length s)%nat.
Proof.
  pattern s. apply rune_ind; clear s; [cbn; lia|]. intros s Hs IH. rewrite runes_unfold by exact Hs.
  pose proof (decode_rune_width s Hs) as [Hw _]. cbn [length]. rewrite skipn_length in IH. lia.
Qed.
(** only one-byte runes: every byte is ASCII or replaced *)
Lemma rune_count_eq s : length (runes s) = length s -> Forall2 (fun c r => r = c /\ c < 128 \/ r = rune_error) s (runes s).
Proof.
  pattern s. apply rune_ind; clear s; [constructor|]. intros s Hs IH. rewrite runes_unfold by exact Hs.
  pose proof (decode_rune_width s Hs) as [Hw _]. pose proof (rune_count_le (skipn (snd (decode_rune s)) s)) as Hle.
  cbn [length]. rewrite skipn_length in Hle. intros Hl.
  assert (W : snd (decode_rune s) = 1%nat) by lia. rewrite W in *. rewrite skipn_length in IH.
  destruct s as [|c s]; [congruence|]. cbn [skipn length] in *. constructor; [|apply IH; lia].
  clear -W. revert W. cbn [decode_rune].
  destruct (c <? 128) eqn:E1; [intros _; left; cbn; lia|]. destruct (c <? 194); [right; reflexivity|].
  destruct s as [|b1 s]; [right; reflexivity|].
  destruct (c <? 224); [destruct (cont b1); [discriminate | right; reflexivity]|].
  destruct s as [|b2 s]; [right; reflexivity|].
  destruct (c <? 240).
  { cbv zeta. destruct (_ && _); [discriminate | right; reflexivity]. }
  destruct s as [|b3 s]; [right; reflexivity|].
  destruct (c <? 245); [|right; reflexivity]. cbv zeta. destruct (_ && _); [discriminate | right; reflexivity].
Qed.
