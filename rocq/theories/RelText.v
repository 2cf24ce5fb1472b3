(** Relative texts made of whole amounts with units *)
From Coq Require Import ZifyBool.
From Verif Require Import GoBase SMap Regex Strutil Timezone Env Common Relative AbsFacts2 RegexFacts RegexFacts2 RegexFacts3 RegexFacts6 RegexFacts7.

Inductive tunit := Decade | Year | Month | Week | Day | Hour | Minute | Second.
Definition uname (u : tunit) : string :=
  match u with Decade => "decade" | Year => "year" | Month => "month" | Week => "week" | Day => "day" | Hour => "hour" | Minute => "minute" | Second => "second" end.
Definition name (u : tunit) : str := lit (uname u).

Definition digit_re : re := Cls false {| cl_neg := false; cl_items := [IRange 48 57] |}.
Definition point_re : re := Cls true {| cl_neg := false; cl_items := [IRange 46 46; IRange 44 44] |}.
Definition space_re : re := Cls false {| cl_neg := false; cl_items := [IRange 9 10; IRange 12 13; IRange 32 32] |}.
Fixpoint lit_re (w : str) : re := match w with [] => Eps | [c] => Chr true c | c :: w' => Cat (Chr true c) (lit_re w') end.
Definition units_re : re := Alt (lit_re (name Decade)) (Alt (lit_re (name Year)) (Alt (lit_re (name Month)) (Alt (lit_re (name Week))
  (Alt (lit_re (name Day)) (Alt (lit_re (name Hour)) (Alt (lit_re (name Minute)) (lit_re (name Second)))))))).
Definition unit_end : re := Cat (Grp 2 units_re) (WordB false).
Lemma pattern_parts : rx_ast rxRelativePattern =
  Cat (Grp 1 (Cat (Cat digit_re (Star true digit_re)) (Cat (Alt point_re Eps) (Star true digit_re)))) (Cat (Star true space_re) unit_end).
Proof. reflexivity. Qed.

Definition nonword_head (s : str) : Prop := match s with [] => True | c :: _ => is_word c = false end.
Lemma digit_step s k : mtch uni_min digit_re s k = step s is_digitA k.
Proof. unfold digit_re. cbn [mtch]. unfold step. destruct (m_rest s); [reflexivity|]. destruct (decode_rune _) as [r w]. unfold cls_has. cbn [cl_neg cl_items existsb item_has]. rewrite xorb_false_l, orb_false_r. reflexivity. Qed.
Lemma space_step s k : mtch uni_min space_re s k = step s (fun c => ((9 <=? c) && (c <=? 10)) || ((12 <=? c) && (c <=? 13)) || ((32 <=? c) && (c <=? 32))) k.
Proof. unfold space_re. cbn [mtch]. unfold step. destruct (m_rest s); [reflexivity|]. destruct (decode_rune _) as [r w]. unfold cls_has. cbn [cl_neg cl_items existsb item_has]. rewrite xorb_false_l, orb_false_r. now rewrite orb_assoc. Qed.
Fixpoint lit_head (w s : str) : bool := match w, s with [], _ => true | c :: w', d :: s' => (lowerA d =? c) && lit_head w' s' | _, _ => false end.
Lemma lit_re_cons c w s k : mtch uni_min (lit_re (c :: w)) s k = mtch uni_min (Cat (Chr true c) (lit_re w)) s k.
Proof. destruct w; reflexivity. Qed.
Lemma lit_re_miss w : Forall (fun c => 97 <= c <= 122) w -> forall s prev pos caps k, asc s -> lit_head w s = false -> mtch uni_min (lit_re w) (Build_mst prev s pos caps) k = None.
Proof.
  induction 1 as [|c w Hc _ IH]; intros s prev pos caps k HA H; [discriminate H|]. rewrite lit_re_cons. cbn [mtch]. unfold step. cbn [m_rest m_pos m_caps]. destruct s as [|d s]; [reflexivity|].
  inversion HA; subst. rewrite rune1 by lia. rewrite fold_lower by assumption. cbn [lit_head] in H. destruct (lowerA d =? c); [|reflexivity]. cbn [andb] in H. cbn [skipn]. now apply IH.
Qed.
Lemma lit_re_hit w : Forall (fun c => 97 <= c <= 122) w -> forall rest prev pos caps k, mtch uni_min (lit_re w) (Build_mst prev (w ++ rest) pos caps) k = k (Build_mst (last w prev) rest (pos + length w) caps).
Proof.
  induction 1 as [|c w Hc _ IH]; intros rest prev pos caps k; [cbn [lit_re mtch app last length]; now rewrite Nat.add_0_r|]. rewrite lit_re_cons. cbn [mtch]. unfold step. cbn [m_rest m_pos m_caps app].
  rewrite rune1 by lia. rewrite fold_lower by lia. assert (lowerA c = c) as -> by (unfold lowerA, is_upperA; destruct (_ && _) eqn:B; lia). rewrite Z.eqb_refl. cbn [skipn]. rewrite IH. rewrite last_cons. cbn [length]. do 2 f_equal. lia.
Qed.
Lemma name_letters u : Forall (fun c => 97 <= c <= 122) (name u).
Proof. destruct u; unfold name; cbn; repeat (apply Forall_cons; [lia|]); apply Forall_nil. Qed.
Lemma letters_asc w : Forall (fun c => 97 <= c <= 122) w -> asc w.
Proof. intros H. eapply Forall_impl; [|exact H]. cbn. lia. Qed.
(** the unit name and the end of the word *)
Lemma unit_match u prev rest pos caps k : asc rest -> nonword_head rest ->
  mtch uni_min unit_end (Build_mst prev (name u ++ rest) pos caps) k =
  k (Build_mst (last (name u) prev) rest (pos + length (name u)) ((2%nat, (pos, (pos + length (name u))%nat)) :: caps)).
Proof.
  intros HA HN. assert (HB : forall p, is_word p = true -> at_wordb (Build_mst p rest (pos + length (name u)) ((2%nat, (pos, (pos + length (name u))%nat)) :: caps)) = true).
  { intros p Hp. unfold at_wordb. cbn [m_prev m_rest]. rewrite head_word by exact HA. rewrite Hp. unfold nonword_head in HN. destruct rest; [reflexivity|now rewrite HN]. }
  set (K := fun s' => let s2 := Build_mst (m_prev s') (m_rest s') (m_pos s') ((2%nat, (pos, m_pos s')) :: m_caps s') in if xorb false (at_wordb s2) then k s2 else None).
  change (mtch uni_min unit_end (Build_mst prev (name u ++ rest) pos caps) k) with (mtch uni_min units_re (Build_mst prev (name u ++ rest) pos caps) K).
  assert (W : is_word (last (name u) prev) = true) by (destruct u; reflexivity). specialize (HB _ W). clear W.
  assert (HK : K (Build_mst (last (name u) prev) rest (pos + length (name u)) caps) = k (Build_mst (last (name u) prev) rest (pos + length (name u)) ((2%nat, (pos, (pos + length (name u))%nat)) :: caps))).
  { unfold K. cbv zeta beta. cbn [m_prev m_rest m_pos m_caps]. rewrite HB. reflexivity. }
  rewrite <- HK. clearbody K. clear HB HK HN.
  rewrite <- (lit_re_hit (name u) (name_letters u) rest prev pos caps K). assert (HAS : asc (name u ++ rest)) by (apply asc_app; split; [apply letters_asc, name_letters|exact HA]).
  assert (MI : forall v, lit_head (name v) (name u ++ rest) = false -> mtch uni_min (lit_re (name v)) (Build_mst prev (name u ++ rest) pos caps) K = None) by (intros v Hv; apply lit_re_miss; [apply name_letters|exact HAS|exact Hv]).
  assert (AL : forall a b s, mtch uni_min (Alt a b) s K = match mtch uni_min a s K with Some x => Some x | None => mtch uni_min b s K end) by reflexivity.
  unfold units_re. destruct u; rewrite !AL; repeat (rewrite MI by reflexivity); try reflexivity.
  all: match goal with |- match ?x with Some _ => _ | None => _ end = _ => destruct x eqn:X; [reflexivity|] end; rewrite ?AL; rewrite ?MI by reflexivity; reflexivity.
Qed.
Definition num (s : str) : Prop := s <> [] /\ Forall (fun c => is_digitA c = true) s.
Lemma digits_num s : digits s -> num s.
Proof. intros [H1 H2]. split; [exact H1|]. eapply Forall_impl; [|exact H2]. unfold is_digitA. cbn. lia. Qed.
Lemma num_asc s : num s -> asc s.
Proof. intros [_ H]. eapply Forall_impl; [|exact H]. unfold is_digitA. cbn. lia. Qed.
(** an amount with its unit is one match, of which the number and the unit are captured *)
Lemma amount_match prev ds u rest pos : num ds -> asc rest -> nonword_head rest ->
  match_here uni_min (rx_ast rxRelativePattern) (Build_mst prev (ds ++ 32 :: name u ++ rest) pos []) =
  Some {| mt_start := pos; mt_end := pos + length ds + 1 + length (name u);
          mt_caps := [(2, (pos + length ds + 1, pos + length ds + 1 + length (name u))); (1, (pos, pos + length ds))] |}%nat.
Proof.
  intros HD HA HN. pose proof (num_asc ds HD) as AD. destruct HD as [ND FD].
  assert (HR : asc (32 :: name u ++ rest)) by (constructor; [lia|]; apply asc_app; split; [apply letters_asc, name_letters|exact HA]). assert (HR' : asc (name u ++ rest)) by (now inversion HR).
  unfold match_here. rewrite pattern_parts.
  set (e := Build_mst (last (name u) 32) rest (pos + length ds + 1 + length (name u)) [(2, (pos + length ds + 1, pos + length ds + 1 + length (name u))); (1, (pos, pos + length ds))]%nat).
  assert (M : mtch uni_min (Cat (Grp 1 (Cat (Cat digit_re (Star true digit_re)) (Cat (Alt point_re Eps) (Star true digit_re)))) (Cat (Star true space_re) unit_end)) (Build_mst prev (ds ++ 32 :: name u ++ rest) pos []) Some = Some e); [|rewrite M; reflexivity].
  destruct ds as [|c ds]; [congruence|]. inversion FD as [|? ? Fc FD']; subst. cbn [app] in *. inversion AD as [|? ? Ac AD']; subst.
  set (s0 := Build_mst prev (c :: ds ++ 32 :: name u ++ rest) pos []).
  set (K1 := fun s' => mtch uni_min (Cat (Star true space_re) unit_end) (Build_mst (m_prev s') (m_rest s') (m_pos s') ((1%nat, (pos, m_pos s')) :: m_caps s')) Some).
  change (mtch uni_min digit_re s0 (fun s' => mtch uni_min (Star true digit_re) s' (fun s2 => mtch uni_min (Alt point_re Eps) s2 (fun s3 => mtch uni_min (Star true digit_re) s3 K1))) = Some e).
  rewrite digit_step. unfold step, s0. cbn [m_rest m_pos m_caps]. rewrite rune1 by lia. rewrite Fc. cbn [skipn]. rewrite mtch_star. cbn [m_rest].
  apply (greedy_run uni_min digit_re is_digitA _ digit_step ds); [apply asc_app; split; assumption|exact FD'|reflexivity|rewrite app_length; lia|].
  set (p := last ds c).
  assert (NP : forall st q k, m_rest st = 32 :: q -> mtch uni_min (Alt point_re Eps) st k = k st).
  { intros st q k E. change (mtch uni_min (Alt point_re Eps) st k) with (match step st (cls_has uni_min true {| cl_neg := false; cl_items := [IRange 46 46; IRange 44 44] |}) k with Some x => Some x | None => k st end).
    unfold step. rewrite E. rewrite rune1 by lia. change (cls_has uni_min true {| cl_neg := false; cl_items := [IRange 46 46; IRange 44 44] |} 32) with false. reflexivity. }
  rewrite (NP _ (name u ++ rest)) by reflexivity. rewrite mtch_star. cbn [m_rest]. change (length (32 :: name u ++ rest)) with (S (length (name u ++ rest))).
  rewrite (greedy_none uni_min digit_re is_digitA _ digit_step) by (assumption || reflexivity).
  unfold K1. cbn [m_prev m_rest m_pos m_caps]. change (mtch uni_min (Cat (Star true space_re) unit_end)) with (fun s k => mtch uni_min (Star true space_re) s (fun s' => mtch uni_min unit_end s' k)). cbv beta. rewrite mtch_star. cbn [m_rest].
  apply (greedy_run uni_min space_re _ _ space_step [32]); [exact HR|repeat constructor|destruct u; reflexivity|cbn [length]; lia|].
  cbn [last length]. rewrite unit_match by assumption. unfold e. cbn [length]. replace (pos + 1 + length ds)%nat with (pos + S (length ds))%nat by lia. reflexivity.
Qed.
(** nothing matches at a character that is not a digit *)
Lemma amount_miss prev c q pos : is_digitA c = false -> 0 <= c < 128 -> match_here uni_min (rx_ast rxRelativePattern) (Build_mst prev (c :: q) pos []) = None.
Proof.
  intros H Hc. unfold match_here. rewrite pattern_parts. set (K1 := fun s' => mtch uni_min (Cat (Star true space_re) unit_end) (Build_mst (m_prev s') (m_rest s') (m_pos s') ((1%nat, (pos, m_pos s')) :: m_caps s')) Some).
  change (mtch uni_min (Cat (Grp 1 (Cat (Cat digit_re (Star true digit_re)) (Cat (Alt point_re Eps) (Star true digit_re)))) (Cat (Star true space_re) unit_end)) (Build_mst prev (c :: q) pos []) Some)
    with (mtch uni_min digit_re (Build_mst prev (c :: q) pos []) (fun s' => mtch uni_min (Star true digit_re) s' (fun s2 => mtch uni_min (Alt point_re Eps) s2 (fun s3 => mtch uni_min (Star true digit_re) s3 K1)))).
  rewrite digit_step. unfold step. cbn [m_rest]. rewrite rune1 by lia. now rewrite H.
Qed.
Lemma amount_end prev pos : match_here uni_min (rx_ast rxRelativePattern) (Build_mst prev [] pos []) = None.
Proof. reflexivity. Qed.

(** ** Texts: amounts with units, separated and surrounded by characters that are no digits *)
Record piece := { p_gap : str; p_num : str; p_unit : tunit }.
Definition show_num (p : piece) : str := p_num p ++ 32 :: name (p_unit p).
Fixpoint flat (ps : list piece) (post : str) : str := match ps with [] => post | p :: ps' => p_gap p ++ show_num p ++ flat ps' post end.
Definition gap_ok (g : str) : Prop := Forall (fun c => 0 <= c < 128 /\ is_digitA c = false) g.
Fixpoint flat_ok (ps : list piece) (post : str) : Prop :=
  match ps with [] => gap_ok post | p :: ps' => gap_ok (p_gap p) /\ num (p_num p) /\ nonword_head (flat ps' post) /\ flat_ok ps' post end.
Lemma gap_asc g : gap_ok g -> asc g.
Proof. intros H. eapply Forall_impl; [|exact H]. cbn. tauto. Qed.
Lemma show_asc p : num (p_num p) -> asc (show_num p).
Proof. intros H. unfold show_num. apply asc_app. split; [now apply num_asc|]. constructor; [lia|]. apply letters_asc, name_letters. Qed.
Lemma flat_asc ps post : flat_ok ps post -> asc (flat ps post).
Proof.
  induction ps as [|p ps IH]; cbn [flat_ok flat]; [apply gap_asc|]. intros (H1 & H2 & H3 & H4). apply asc_app. split; [now apply gap_asc|]. apply asc_app. split; [now apply show_asc|now apply IH].
Qed.
Lemma scan_gap g prev q pos : gap_ok g -> scan uni_min (rx_ast rxRelativePattern) prev (g ++ q) pos = scan uni_min (rx_ast rxRelativePattern) (last g prev) q (pos + length g).
Proof. intros H. apply scan_skip. intros c prev' q' pos' Hc. unfold gap_ok in H. rewrite Forall_forall in H. apply amount_miss; apply H; exact Hc. Qed.
Lemma scan_post g prev pos : gap_ok g -> scan uni_min (rx_ast rxRelativePattern) prev g pos = None.
Proof. intros H. rewrite <- (app_nil_r g). rewrite scan_gap by exact H. apply scan_end, amount_end. Qed.
Definition piece_match (p : piece) (pos : nat) : match_ :=
  let b := (pos + length (p_gap p))%nat in let n := length (p_num p) in let k := length (name (p_unit p)) in
  {| mt_start := b; mt_end := b + n + 1 + k; mt_caps := [(2, (b + n + 1, b + n + 1 + k)); (1, (b, b + n))] |}%nat.
Lemma scan_piece p rest prev pos : gap_ok (p_gap p) -> num (p_num p) -> asc rest -> nonword_head rest ->
  scan uni_min (rx_ast rxRelativePattern) prev (p_gap p ++ show_num p ++ rest) pos = Some (piece_match p pos).
Proof.
  intros H1 H2 H3 H4. rewrite scan_gap by exact H1. unfold show_num. rewrite <- app_assoc. cbn [app]. apply scan_hit. now apply amount_match.
Qed.
Lemma show_length p : length (show_num p) = (length (p_num p) + 1 + length (name (p_unit p)))%nat.
Proof. unfold show_num. rewrite app_length. cbn [length]. lia. Qed.
Lemma show_ne p : show_num p <> [].
Proof. unfold show_num. destruct (p_num p); discriminate. Qed.
(** the captured parts *)
Lemma cap_piece a p rest : let text := a ++ p_gap p ++ show_num p ++ rest in
  cap_str text (piece_match p (length a)) 1 = p_num p /\ cap_str text (piece_match p (length a)) 2 = name (p_unit p).
Proof.
  cbv zeta. unfold cap_str, cap, piece_match. cbn [mt_caps List.find fst Nat.eqb option_map snd]. unfold show_num.
  assert (SL : forall (x y z : str) n m, n = length x -> m = (length x + length y)%nat -> slice (x ++ y ++ z) n m = y).
  { intros x y z n m -> ->. unfold slice. rewrite skipn_app, skipn_all, Nat.sub_diag. cbn [app skipn]. replace (length x + length y - length x)%nat with (length y) by lia. rewrite firstn_app, firstn_all, Nat.sub_diag. cbn [firstn]. apply app_nil_r. }
  split.
  - replace (a ++ p_gap p ++ (p_num p ++ 32 :: name (p_unit p)) ++ rest) with ((a ++ p_gap p) ++ p_num p ++ (32 :: name (p_unit p) ++ rest)) by (rewrite <- !app_assoc; reflexivity). apply SL; rewrite ?app_length; lia.
  - replace (a ++ p_gap p ++ (p_num p ++ 32 :: name (p_unit p)) ++ rest) with ((a ++ p_gap p ++ p_num p ++ [32]) ++ name (p_unit p) ++ rest) by (rewrite <- !app_assoc; reflexivity). apply SL; rewrite ?app_length; cbn [length]; lia.
Qed.
Lemma all_flat ps post : forall a f pe, asc a -> flat_ok ps post -> (length ps < f)%nat ->
  let text := a ++ flat ps post in
  Forall2 (fun m p => cap_str text m 1 = p_num p /\ cap_str text m 2 = name (p_unit p)) (all_matches uni_min f (rx_ast rxRelativePattern) (states text) text (length a) pe) ps.
Proof.
  induction ps as [|p ps IH]; intros a f pe HA H L; cbv zeta; cbn [flat flat_ok] in *.
  - rewrite all_miss; [constructor|apply asc_app; split; [exact HA|now apply gap_asc]|now apply scan_post].
  - destruct H as (H1 & H2 & H3 & H4). destruct f as [|f]; [lia|]. cbn [length] in L. pose proof (flat_asc ps post H4) as AF.
    assert (AA : asc (a ++ (p_gap p ++ show_num p) ++ flat ps post)) by (apply asc_app; split; [exact HA|]; apply asc_app; split; [apply asc_app; split; [now apply gap_asc|now apply show_asc]|exact AF]).
    rewrite (app_assoc (p_gap p)). rewrite (all_hit uni_min _ a (p_gap p ++ show_num p) (flat ps post) (piece_match p (length a))); [|exact AA|rewrite <- app_assoc; now apply scan_piece| |].
    + constructor; [rewrite <- app_assoc; apply cap_piece|]. specialize (IH (a ++ p_gap p ++ show_num p) f (Some (mt_end (piece_match p (length a))))). cbv zeta in IH. rewrite <- (app_assoc a) in IH. apply IH; [|exact H4|lia].
      rewrite app_assoc in AA. apply asc_app in AA. apply AA.
    + unfold piece_match. cbn [mt_end]. rewrite !app_length, show_length. lia.
    + destruct (p_gap p); [apply show_ne|discriminate].
Qed.
Theorem find_flat U ps post : uni_ascii U -> flat_ok ps post -> (length ps <= length (flat ps post))%nat ->
  Forall2 (fun m p => cap_str (flat ps post) m 1 = p_num p /\ cap_str (flat ps post) m 2 = name (p_unit p)) (find_all U rxRelativePattern (flat ps post)) ps.
Proof.
  intros UA H L. rewrite find_all_min by (exact UA || (vm_compute; reflexivity) || now apply flat_asc). unfold find_all. apply (all_flat ps post [] _ None); [constructor|exact H|lia].
Qed.
Fixpoint gaps (ps : list piece) (post : str) : str := match ps with [] => post | p :: ps' => p_gap p ++ gaps ps' post end.
Lemma repl_flat ps post : forall a f, asc a -> flat_ok ps post -> (length ps < f)%nat ->
  let text := a ++ flat ps post in
  replace_loop uni_min f (rx_ast rxRelativePattern) (states text) text (length a) (length a) (fun _ => []) = gaps ps post.
Proof.
  induction ps as [|p ps IH]; intros a f HA H L; cbv zeta; cbn [flat flat_ok gaps] in *.
  - apply repl_miss; [apply asc_app; split; [exact HA|now apply gap_asc]|now apply scan_post].
  - destruct H as (H1 & H2 & H3 & H4). destruct f as [|f]; [lia|]. cbn [length] in L. pose proof (flat_asc ps post H4) as AF.
    assert (AA : asc (a ++ p_gap p ++ show_num p ++ flat ps post)) by (apply asc_app; split; [exact HA|]; apply asc_app; split; [now apply gap_asc|apply asc_app; split; [now apply show_asc|exact AF]]).
    rewrite (repl_hit uni_min _ a (p_gap p) (show_num p) (flat ps post) (piece_match p (length a))); [|exact AA|now apply scan_piece| | |apply show_ne].
    + cbn [app]. f_equal. specialize (IH (a ++ p_gap p ++ show_num p) f). cbv zeta in IH. rewrite <- !app_assoc in IH. apply IH; [|exact H4|lia].
      rewrite !app_assoc in AA. apply asc_app in AA. rewrite !app_assoc. apply AA.
    + unfold piece_match. cbn [mt_start]. rewrite app_length. lia.
    + unfold piece_match. cbn [mt_end]. rewrite !app_length, show_length. lia.
Qed.
Lemma flat_long ps post : (length ps <= length (flat ps post))%nat.
Proof. induction ps as [|p ps IH]; cbn [flat length]; [lia|]. rewrite !app_length, show_length. lia. Qed.
(** removing the amounts leaves the gaps *)
Theorem remove_flat U ps post : uni_ascii U -> flat_ok ps post -> replace_all_string U rxRelativePattern (flat ps post) [] = gaps ps post.
Proof.
  intros UA H. rewrite replace_min by (exact UA || (vm_compute; reflexivity) || now apply flat_asc). unfold replace_all_string, replace_all_fn. apply (repl_flat ps post []); [constructor|exact H|].
  cbn [app]. pose proof (flat_long ps post). lia.
Qed.
