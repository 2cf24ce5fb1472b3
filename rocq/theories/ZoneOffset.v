(** Texts that end in an offset from UTC, "+02:00": PopTzOffset takes it away *)
From Coq Require Import ZifyBool Permutation.
From Verif Require Import GoBase SMap Regex RegexFacts RegexFacts2 RegexFacts3 RegexFacts6 RegexFacts7 TimezoneData Timezone Env ParserFacts Utf8Facts AbsFacts2 Prop_Timezone ZoneWords.

(** ** Specification: the offsets that the library knows, as ISO 8601 writes them *)
Definition known_offsets : list string :=
  ["-12:00"; "-11:00"; "-10:00"; "-09:30"; "-09:00"; "-08:00"; "-07:00"; "-06:00"; "-05:00"; "-04:30"; "-04:00"; "-03:30"; "-03:00"; "-02:30"; "-02:00"; "-01:00"; "-00:00"; "+00:00";
   "+01:00"; "+02:00"; "+03:00"; "+03:30"; "+04:00"; "+04:30"; "+05:00"; "+05:30"; "+05:45"; "+06:00"; "+06:30"; "+07:00"; "+08:00"; "+08:45"; "+09:00"; "+09:30"; "+10:00"; "+10:30"; "+11:00";
   "+11:30"; "+12:00"; "+12:45"; "+13:00"; "+14:00"]%string.
(** seconds east of UTC of "+hh:mm" or "-hh:mm" *)
Definition seconds_east (z : str) : Z :=
  match z with
  | [sg; h1; h2; _; m1; m2] => (if sg =? 45 then -1 else 1) * ((10 * (h1 - 48) + (h2 - 48)) * 3600 + (10 * (m1 - 48) + (m2 - 48)) * 60)
  | _ => 0
  end.

(** ** Patterns that look for a text at the end *)
Fixpoint chars_of (r : re) : option str := match r with Eot => Some [] | Cat (Chr true c) r' => option_map (cons c) (chars_of r') | _ => None end.
Fixpoint ends_re (w : str) : re := match w with [] => Eot | c :: w' => Cat (Chr true c) (ends_re w') end.
Lemma chars_of_ok r : forall w, chars_of r = Some w -> r = ends_re w.
Proof.
  induction r as [|ci c|ci c| |a IHa b IHb|a IHa b IHb|g a IHa|n a IHa| | |neg]; intros w H; cbn [chars_of] in H; try discriminate H.
  - destruct a as [|ci c| | | | | | | | |]; try discriminate H. destruct ci; [|discriminate H]. destruct (chars_of b) as [v|] eqn:EB; [|discriminate H]. injection H as <-. cbn [ends_re]. now rewrite (IHb v eq_refl).
  - injection H as <-. reflexivity.
Qed.
Definition at_end (r : re) : option str := match r with Cat (Grp 1 Dot) b => chars_of b | _ => None end.
Lemma at_end_ok r w : at_end r = Some w -> r = Cat (Grp 1 Dot) (ends_re w).
Proof.
  unfold at_end. destruct r as [| | | |a b| | | | | |]; try discriminate. destruct a as [| | | | | | |n a| | |]; try discriminate. destruct n as [|[|n]]; try discriminate. destruct a; try discriminate. intros H. apply chars_of_ok in H. now subst.
Qed.

Lemma ends_match : forall w b prev pos caps k, asc b -> (forall s, k s <> None) ->
  (mtch uni_min (ends_re w) (Build_mst prev b pos caps) k <> None -> map lowerA b = map lowerA w) /\
  (map lowerA b = map lowerA w -> exists p, mtch uni_min (ends_re w) (Build_mst prev b pos caps) k = k (Build_mst p [] (pos + length w) caps)).
Proof.
  induction w as [|c w IH]; intros b prev pos caps k HA HK; cbn [ends_re mtch].
  - cbn [m_rest]. destruct b as [|d b]; (split; [intros H|intros H]).
    + reflexivity.
    + exists prev. cbn [length]. rewrite Nat.add_0_r. reflexivity.
    + congruence.
    + discriminate H.
  - unfold step. cbn [m_rest m_pos m_caps]. destruct b as [|d b]; [split; [congruence|discriminate]|]. inversion HA as [|? ? Hd HA']; subst. rewrite rune1 by lia. cbn [skipn].
    assert (CE : chr_is uni_min true c d = (lowerA d =? lowerA c)) by (unfold chr_is; cbn [uni_min u_fold]; lia). rewrite CE.
    destruct (Z.eqb_spec (lowerA d) (lowerA c)) as [e|e].
    + destruct (IH b d (pos + 1)%nat caps k HA' HK) as [I1 I2]. split.
      * intros H. apply I1 in H. cbn [map]. congruence.
      * cbn [map length]. intros H. destruct I2 as (p & ->); [congruence|]. exists p. f_equal. f_equal. lia.
    + split; [congruence|]. cbn [map]. congruence.
Qed.
(** the pattern matches at most at one place, which is the end *)
Lemma end_scan w : forall s prev pos, asc s ->
  scan uni_min (Cat (Grp 1 Dot) (ends_re w)) prev s pos = None \/
  exists a c x m, s = a ++ c :: x /\ map lowerA x = map lowerA w /\ scan uni_min (Cat (Grp 1 Dot) (ends_re w)) prev s pos = Some m /\ mt_start m = (pos + length a)%nat /\ mt_end m = (pos + length s)%nat.
Proof.
  induction s as [|c s IH]; intros prev pos HA; [left; reflexivity|]. inversion HA as [|? ? Hc HS]; subst. cbn [scan]. unfold match_here. cbn [mtch]. unfold step. cbn [m_rest m_pos m_caps]. rewrite rune1 by lia. cbn [skipn m_prev m_rest m_pos m_caps].
  assert (NEXT : scan uni_min (Cat (Grp 1 Dot) (ends_re w)) c s (S pos) = None \/
    (exists a c0 x m, c :: s = a ++ c0 :: x /\ map lowerA x = map lowerA w /\ scan uni_min (Cat (Grp 1 Dot) (ends_re w)) c s (S pos) = Some m /\ mt_start m = (pos + length a)%nat /\ mt_end m = (pos + length (c :: s))%nat)).
  { destruct (IH c (S pos) HS) as [N|(a & c0 & x & m & -> & H1 & H2 & H3 & H4)]; [now left|right]. exists (c :: a), c0, x, m. repeat (split; [first [reflexivity|assumption]|]). cbn [length]. lia. }
  destruct (negb (c =? 10)); [|exact NEXT].
  destruct (ends_match w s c (pos + 1)%nat [(1%nat, (pos, (pos + 1)%nat))] Some HS ltac:(discriminate)) as [M1 M2].
  match goal with |- context [mtch uni_min (ends_re w) ?st Some] => destruct (mtch uni_min (ends_re w) st Some) as [e|] eqn:EM end; [|exact NEXT].
  right. specialize (M1 ltac:(discriminate)). destruct (M2 M1) as (p & HP). injection HP as ->. eexists [], c, s, _. split; [reflexivity|]. split; [exact M1|]. split; [reflexivity|].
  cbn [mt_start mt_end m_pos length]. assert (length s = length w) by (rewrite <- (map_length lowerA s), M1, map_length; reflexivity). lia.
Qed.
Lemma end_scan_hit w c x : forall a prev pos, asc (a ++ c :: x) -> c <> 10 -> map lowerA x = map lowerA w -> scan uni_min (Cat (Grp 1 Dot) (ends_re w)) prev (a ++ c :: x) pos <> None.
Proof.
  intros a prev pos HA NC HX. apply asc_app in HA as [_ HA]. intros HN.
  assert (EX : exists m, scan uni_min (Cat (Grp 1 Dot) (ends_re w)) prev (a ++ c :: x) pos = Some m); [|destruct EX; congruence].
  apply scan_some. exists a, (c :: x). split; [reflexivity|]. inversion HA as [|? ? Hc HS]; subst. unfold match_here. cbn [mtch]. unfold step. cbn [m_rest m_pos m_caps]. rewrite rune1 by lia. cbn [skipn m_prev m_rest m_pos m_caps].
  assert (negb (c =? 10) = true) as -> by lia.
  match goal with |- context [mtch uni_min (ends_re w) (Build_mst ?p x ?q ?cc) Some] => destruct (ends_match w x p q cc Some HS ltac:(discriminate)) as [_ M2]; destruct (M2 HX) as (pp & ->) end. discriminate.
Qed.

(** ** Alternatives *)
Fixpoint plain_re (r : re) : option str := match r with Eps => Some [] | Chr true c => Some [c] | Cat a b => match plain_re a, plain_re b with Some x, Some y => Some (x ++ y) | _, _ => None end | _ => None end.
Lemma plain_match r : forall w b prev pos caps k, plain_re r = Some w -> asc b -> forall x t, b = x ++ t -> map lowerA x = map lowerA w -> exists p, mtch uni_min r (Build_mst prev b pos caps) k = k (Build_mst p t (pos + length w) caps).
Proof.
  induction r as [|ci c|ci c| |a1 IH1 a2 IH2|a1 IH1 a2 IH2|g a1 IH1|n a1 IH1| | |neg]; intros w b prev pos caps k HP HA x t -> HX; cbn [plain_re] in HP; try discriminate HP.
  - injection HP as <-. apply map_eq_nil in HX. subst x. exists prev. cbn [length app mtch]. now rewrite Nat.add_0_r.
  - destruct ci; [|discriminate HP]. injection HP as <-. destruct x as [|d [|? ?]]; cbn [map] in HX; try discriminate HX. injection HX as HX. inversion HA; subst. exists d. cbn [mtch app]. unfold step. cbn [m_rest m_pos m_caps]. rewrite rune1 by lia. cbn [skipn length].
    assert (chr_is uni_min true c d = true) as -> by (unfold chr_is; cbn [uni_min u_fold]; lia). reflexivity.
  - destruct (plain_re a1) as [w1|] eqn:E1; [|discriminate HP]. destruct (plain_re a2) as [w2|] eqn:E2; [|discriminate HP]. injection HP as <-. rewrite map_app in HX.
    assert (XS : exists x1 x2, x = x1 ++ x2 /\ map lowerA x1 = map lowerA w1 /\ map lowerA x2 = map lowerA w2).
    { exists (firstn (length w1) x), (skipn (length w1) x). split; [now rewrite firstn_skipn|]. rewrite <- firstn_map, <- skipn_map, HX. rewrite firstn_app, skipn_app, map_length, Nat.sub_diag. cbn [firstn skipn].
      rewrite firstn_all2, skipn_all2 by (rewrite map_length; lia). split; [apply app_nil_r|reflexivity]. }
    destruct XS as (x1 & x2 & -> & X1 & X2). cbn [mtch]. rewrite <- app_assoc in HA |- *.
    destruct (IH1 w1 (x1 ++ x2 ++ t) prev pos caps (fun s' => mtch uni_min a2 s' k) eq_refl HA x1 (x2 ++ t) eq_refl X1) as (p1 & ->). apply asc_app in HA as [_ HA].
    destruct (IH2 w2 (x2 ++ t) p1 (pos + length w1)%nat caps k eq_refl HA x2 t eq_refl X2) as (p2 & ->). exists p2. rewrite app_length. f_equal. f_equal. lia.
Qed.
Fixpoint has_branch (w : str) (r : re) : bool := match r with Alt a b => if has_branch w a then true else has_branch w b | _ => match plain_re r with Some v => eqs v w | None => false end end.
Lemma branch_match w r : has_branch w r = true -> forall b prev pos caps, asc b -> forall x t, b = x ++ t -> map lowerA x = map lowerA w -> mtch uni_min r (Build_mst prev b pos caps) Some <> None.
Proof.
  induction r as [|ci c|ci c| |a1 IH1 a2 IH2|a1 IH1 a2 IH2|g a1 IH1|n a1 IH1| | |neg]; intros H b prev pos caps HA x t HB HX.
  6: { cbn [has_branch] in H. cbn [mtch]. destruct (has_branch w a1).
    - specialize (IH1 eq_refl b prev pos caps HA x t HB HX). destruct (mtch uni_min a1 _ Some); congruence.
    - specialize (IH2 H b prev pos caps HA x t HB HX). destruct (mtch uni_min a1 _ Some); [discriminate|exact IH2]. }
  all: unfold has_branch in H; match type of H with match ?p with _ => _ end = _ => destruct p as [v|] eqn:EP; [|discriminate H] end; apply eqs_eq in H; subst v;
    destruct (plain_match _ w b prev pos caps Some EP HA x t HB HX) as (p & ->); discriminate.
Qed.
Lemma ignore_case_keep : respects keep (rx_ast rxSearchIgnoreCase) = true. Proof. apply keep_respects. vm_compute. reflexivity. Qed.
Lemma branch_found U w s a x t : uni_ascii U -> has_branch w (rx_ast rxSearchIgnoreCase) = true -> asc s -> s = a ++ x ++ t -> map lowerA x = map lowerA w -> match_string U rxSearchIgnoreCase s = true.
Proof.
  intros UA HB HA ES HX. rewrite (match_norm keep U UA keep_ok _ s ignore_case_keep HA), map_keep. apply match_scan; [exact HA|]. exists a, (x ++ t). split; [exact ES|]. unfold match_here.
  assert (HA2 : asc (x ++ t)) by (rewrite ES in HA; now apply asc_app in HA as [_ HA]).
  pose proof (branch_match w _ HB (x ++ t) (last a (-1)) (length a) [] HA2 x t eq_refl HX) as N. destruct (mtch _ _ _ Some); congruence.
Qed.

(** ** The entries for a text without letters, other than t *)
Definition letter (c : Z) : bool := is_alphaA c && negb (lowerA c =? 116).
Definition letter_free (s : str) : Prop := asc s /\ Forall (fun c => letter c = false /\ c <> 10) s.
Definition offset_shape (z : str) : bool := match z with [sg; h1; h2; c; m1; m2] => sign sg && is_digitA h1 && is_digitA h2 && (c =? 58) && is_digitA m1 && is_digitA m2 | _ => false end.
(** sign, hours, colon, minutes; with or without the colon *)
Definition zentry_ok (o : offset_data) : bool :=
  match od_rx o with
  | None => false
  | Some r => if needs letter (rx_ast r) then true else
      negb (empty (od_name o)) &&
      match at_end (rx_ast r) with
      | Some [sg; h1; h2; c; m1; m2] => offset_shape [sg; h1; h2; c; m1; m2] && (od_off o =? seconds_east [sg; h1; h2; c; m1; m2])
      | Some [sg; h1; h2; m1; m2] => sign sg && (od_off o =? seconds_east [sg; h1; h2; 58; m1; m2])
      | _ => false
      end
  end.
Lemma zentries_ok : forallb zentry_ok (tz_main ++ concat tz_altblocks) = true. Proof. vm_compute. reflexivity. Qed.
Lemma second_needs : forallb (fun o => match od_rx o with Some r => needs letter (rx_ast r) | None => false end) tz_second = true. Proof. vm_compute. reflexivity. Qed.
Lemma offsets_found : forallb (fun z => if has_branch (lit z) (rx_ast rxSearchIgnoreCase) then existsb (fun o => match od_rx o with Some r => match at_end (rx_ast r) with Some w => eqs w (lit z) | None => false end | None => false end) (tz_main ++ concat tz_altblocks) else false) known_offsets = true.
Proof. vm_compute. reflexivity. Qed.
Lemma offsets_shape : forallb (fun z => offset_shape (lit z)) known_offsets = true. Proof. vm_compute. reflexivity. Qed.

Lemma lower_fixed c : sign c = true \/ is_digitA c = true \/ c = 58 -> lowerA c = c.
Proof. unfold lowerA, is_upperA. intros H. destruct ((65 <=? c) && (c <=? 90)) eqn:B; [|reflexivity]. exfalso. unfold sign, is_digitA in H. destruct H as [H|[H|H]]; lia. Qed.
Lemma shape_lower w : offset_shape w = true -> map lowerA w = w.
Proof.
  destruct w as [|sg [|h1 [|h2 [|c [|m1 [|m2 [|? ?]]]]]]]; cbn [offset_shape]; try discriminate. rewrite !andb_true_iff. intros (((((H1 & H2) & H3) & H4) & H5) & H6). cbn [map].
  rewrite !lower_fixed by (first [left; assumption|right; left; assumption|right; right; lia]). reflexivity.
Qed.
Theorem offset_popped U l W z : uni_ascii U -> tz_order l -> In z known_offsets -> letter_free W -> W <> [] ->
  exists od, pop_tz U l (W ++ lit z) = (W, od) /\ od_off od = seconds_east (lit z) /\ od_is_zero od = false.
Proof.
  intros UA HL HZ [AW FW] NW. pose proof offsets_shape as OS. rewrite forallb_forall in OS. specialize (OS z HZ). pose proof offsets_found as OF. rewrite forallb_forall in OF. specialize (OF z HZ). cbv beta in OF.
  destruct (has_branch (lit z) (rx_ast rxSearchIgnoreCase)) eqn:HB; [|discriminate OF]. apply existsb_exists in OF as (o1 & I1 & OF). set (s := W ++ lit z).
  assert (ZC : forall c, In c (lit z) -> 0 <= c < 128 /\ letter c = false /\ c <> 10).
  { intros c HC. destruct (lit z) as [|sg [|h1 [|h2 [|c0 [|m1 [|m2 [|? ?]]]]]]]; cbn [offset_shape] in OS; try discriminate OS. rewrite !andb_true_iff in OS. destruct OS as (((((H1 & H2) & H3) & H4) & H5) & H6).
    unfold sign, is_digitA in *. unfold letter, is_alphaA, is_upperA, is_lowerA. cbn [In] in HC. lia. }
  assert (AZ : asc (lit z)) by (unfold asc; apply Forall_forall; intros c HC; apply ZC in HC; lia).
  assert (AS : asc s) by (apply Forall_app; split; assumption).
  assert (LS : lacks letter s).
  { apply Forall_app. split; apply Forall_forall; intros c HC.
    - unfold asc in AW. rewrite Forall_forall in AW, FW. specialize (AW c HC). specialize (FW c HC). tauto.
    - apply ZC in HC. tauto. }
  unfold pop_tz. rewrite (branch_found U (lit z) s W (lit z) []) by (auto; unfold s; now rewrite ?app_nil_r).
  rewrite pop_first. set (f := fun o => match od_rx o with Some r => match find U r s with Some _ => true | None => false end | None => false end).
  assert (ALL : forall o, In o tz_source_order -> f o = true -> exists r m, od_rx o = Some r /\ find U r s = Some m /\ mt_start m = (length W - 1)%nat /\ mt_end m = length s /\ od_off o = seconds_east (lit z) /\ od_is_zero o = false).
  { intros o HI Hf. unfold f in Hf. destruct (od_rx o) as [r|] eqn:ER; [|discriminate Hf]. destruct (find U r s) as [m|] eqn:EF; [|discriminate Hf]. exists r, m. split; [reflexivity|]. split; [exact EF|].
    assert (NN : needs letter (rx_ast r) = false). { destruct (needs letter (rx_ast r)) eqn:N; [|reflexivity]. rewrite (lacks_none letter U UA r s N LS) in EF. discriminate EF. }
    unfold tz_source_order in HI. rewrite app_assoc in HI. apply in_app_iff in HI as [HI|HI].
    2: { pose proof second_needs as SN. rewrite forallb_forall in SN. specialize (SN o HI). rewrite ER in SN. congruence. }
    pose proof zentries_ok as ZE. rewrite forallb_forall in ZE. specialize (ZE o HI). unfold zentry_ok in ZE. rewrite ER, NN in ZE. rewrite !andb_true_iff in ZE. destruct ZE as [Z2 Z3].
    assert (Z1 : respects keep (rx_ast r) = true). { pose proof entries_respect as B. rewrite forallb_forall in B. specialize (B o). rewrite ER in B. apply B. unfold tz_source_order. rewrite app_assoc. apply in_or_app. now left. }
    destruct (at_end (rx_ast r)) as [w|] eqn:AE; [|discriminate Z3]. apply at_end_ok in AE. rewrite (find_norm keep U UA keep_ok r s Z1 AS), map_keep, (find_scan uni_min r s AS), AE in EF.
    destruct (end_scan w s (-1) 0 AS) as [N|(a & c & x & m' & ES & HX & EM & M1 & M2)]; [congruence|]. assert (m' = m) by congruence. subst m'. clear EM.
    assert (LX : length x = length w) by (rewrite <- (map_length lowerA x), HX, map_length; reflexivity).
    assert (LZ : length (lit z) = 6%nat) by (destruct (lit z) as [|? [|? [|? [|? [|? [|? [|? ?]]]]]]]; try discriminate OS; reflexivity).
    assert (W6 : length w = 6%nat -> offset_shape w = true -> od_off o = seconds_east w -> mt_start m = (length W - 1)%nat /\ mt_end m = length s /\ od_off o = seconds_east (lit z) /\ od_is_zero o = false).
    { intros L6 SH OO. assert (E2 : W ++ lit z = (a ++ [c]) ++ x) by (rewrite <- app_assoc; exact ES). assert (LE : length W = length (a ++ [c])) by (apply (f_equal (@length Z)) in E2; rewrite !app_length in E2; rewrite app_length; lia).
      assert (WE : W = a ++ [c] /\ lit z = x). { clear - E2 LE. revert W LE E2. generalize (lit z). intros t W. generalize (a ++ [c]). intros v. revert W. induction v as [|y v IH]; intros [|d W] L E; cbn in L; try discriminate L; [auto|]. cbn [app] in E. destruct (IH W) as [-> ->]; [lia|congruence|]. split; [congruence|reflexivity]. }
      destruct WE as [EW WE]. rewrite <- WE in HX. rewrite !shape_lower in HX by assumption. subst w. rewrite M1, M2, EW. rewrite app_length. cbn [length]. split; [lia|]. split; [reflexivity|]. split; [exact OO|].
      unfold od_is_zero. apply negb_true_iff in Z2. now rewrite Z2. }
    destruct w as [|sg [|h1 [|h2 [|c0 [|m1 [|m2 [|? ?]]]]]]]; try discriminate Z3.
    - exfalso. apply andb_true_iff in Z3 as [Z3 _].
      assert (EX : exists z0, lit z = z0 :: x). { assert (E2 : W ++ lit z = (a ++ [c]) ++ x) by (rewrite <- app_assoc; exact ES). destruct (lit z) as [|z0 zr]; [discriminate LZ|]. exists z0. f_equal.
        assert (E3 : (W ++ [z0]) ++ zr = (a ++ [c]) ++ x) by (rewrite <- app_assoc; exact E2). cbn [length] in LX, LZ.
        assert (LE : length (W ++ [z0]) = length (a ++ [c])) by (apply (f_equal (@length Z)) in E3; rewrite !app_length in E3; rewrite !app_length; cbn [length] in *; lia).
        clear - E3 LE. revert LE E3. generalize (W ++ [z0]), (a ++ [c]). intros u v. revert u. induction v as [|y v IH]; intros [|d u] L E; cbn in L; try discriminate L; [exact E|]. cbn [app] in E. apply (IH u); [lia|congruence]. }
      destruct EX as (z0 & EX). rewrite EX in OS. destruct x as [|x1 [|x2 [|x3 [|x4 [|x5 [|? ?]]]]]]; try discriminate LX. cbn [offset_shape] in OS. rewrite !andb_true_iff in OS. destruct OS as (((((_ & O2) & _) & _) & _) & _). cbn [map] in HX.
      assert (EH : lowerA x1 = lowerA sg) by congruence. rewrite !lower_fixed in EH by auto. subst x1. unfold sign, is_digitA in *. lia.
    - apply andb_true_iff in Z3 as [Z3 Z4]. apply Z.eqb_eq in Z4. now apply W6. }
  destruct (List.find f l) as [o|] eqn:FO.
  - apply find_some in FO as [IO FO]. apply (tz_order_perm l HL) in IO. destruct (ALL o IO FO) as (r & m & -> & -> & M1 & M2 & M3 & M4). exists o. split; [|split; assumption]. f_equal.
    assert (LW : (0 < length W)%nat) by (destruct W; [congruence|cbn; lia]). rewrite M1, M2. replace (S (length W - 1)) with (length W) by lia. rewrite skipn_all, app_nil_r. unfold s. rewrite firstn_app, Nat.sub_diag, firstn_all. cbn [firstn]. apply app_nil_r.
  - exfalso. assert (I2 : In o1 l) by (apply (tz_order_perm l HL); unfold tz_source_order; rewrite app_assoc; apply in_or_app; now left). pose proof (find_none _ _ FO o1 I2) as N. unfold f in N.
    destruct (od_rx o1) as [r|] eqn:ER; [|discriminate OF]. destruct (at_end (rx_ast r)) as [w|] eqn:AE; [|discriminate OF]. apply eqs_eq in OF. subst w. apply at_end_ok in AE.
    assert (RK : respects keep (rx_ast r) = true). { pose proof entries_respect as B. rewrite forallb_forall in B. specialize (B o1). rewrite ER in B. apply B. unfold tz_source_order. rewrite app_assoc. apply in_or_app. now left. }
    rewrite (find_norm keep U UA keep_ok r s RK AS), map_keep, (find_scan uni_min r s AS), AE in N.
    destruct (exists_last NW) as (a & c & EW). rewrite Forall_forall in FW. assert (NC : c <> 10) by (apply FW; rewrite EW; apply in_or_app; right; now left).
    assert (ES : s = a ++ c :: lit z) by (unfold s; rewrite EW, <- app_assoc; reflexivity). pose proof (end_scan_hit (lit z) c (lit z) a (-1) 0%nat) as H. rewrite <- ES in H. specialize (H AS NC eq_refl). destruct (scan _ _ _ s 0); congruence.
Qed.
