(** C58: the texts reported by Search come from the input. *)
From Coq Require Import ZifyBool.
From Verif Require Import Timezone Absolute Common Concrete LocaleData Shows GoBase SMap Regex Utf8Facts RegexFacts RegexFacts2 RegexFacts3 RegexFacts5 SpaceRuns Civil GoTime Setting Strutil Env Language Parser Search SplitFacts Prop_Search.

(** [a] occurs in [b] *)
Definition occurs (a b : str) : Prop := exists x y, b = x ++ a ++ y.
Lemma occurs_refl a : occurs a a. Proof. exists [], []. now rewrite app_nil_r. Qed.
Lemma occurs_trans a b c : occurs a b -> occurs b c -> occurs a c.
Proof. intros (x & y & ->) (u & v & ->). exists (u ++ x), (y ++ v). now rewrite <- !app_assoc. Qed.
Lemma occurs_nil b : occurs [] b. Proof. exists [], b. reflexivity. Qed.
Lemma slice_occurs s i j : occurs (slice s i j) s.
Proof. exists (firstn i s), (skipn (j - i) (skipn i s)). unfold slice. now rewrite firstn_skipn, firstn_skipn. Qed.
Lemma skipn_occurs n (s : str) : occurs (skipn n s) s.
Proof. exists (firstn n s), []. now rewrite app_nil_r, firstn_skipn. Qed.

(** ** Trimming *)
Lemma drop_suffix {A} (f : A -> bool) l : exists a, l = a ++ drop_while f l /\ match drop_while f l with [] => True | x :: _ => f x = false end.
Proof.
  induction l as [|x l (a & E & H)]; [now exists []|]. cbn [drop_while]. destruct (f x) eqn:F; [exists (x :: a); cbn [app]; now rewrite <- E|]. now exists [].
Qed.
Lemma unchunks_app a b : unchunks (a ++ b) = unchunks a ++ unchunks b.
Proof. unfold unchunks. now rewrite flat_map_app. Qed.
(** the pieces of a text *)
Definition chunk_ok (p : Z * str) : Prop := snd p <> [] /\ (fst p < 128 -> snd p = [fst p]) /\ (128 <= fst p -> Forall (fun c => 128 <= c) (snd p)).
Lemma chunks_ok s : Forall chunk_ok (chunks s).
Proof.
  pattern s. apply rune_ind; clear s; [constructor|]. intros s Hs IH. rewrite chunks_unfold by exact Hs. constructor; [|exact IH]. destruct (rune_bytes s Hs) as [R1 R2]. pose proof (decode_rune_width s Hs) as [W _]. destruct (decode_rune s) as [r w]. unfold chunk_ok. cbn [fst snd] in *.
  split; [|split].
  - destruct s; [congruence|]. destruct w; [lia|]. discriminate.
  - intros L. destruct (R1 L) as (t & -> & ->). reflexivity.
  - exact R2.
Qed.
Lemma trim_func_spec f s : exists a b c, chunks s = a ++ b ++ c /\ trim_func f s = unchunks b /\ match b with [] => True | x :: _ => f (fst x) = false end /\ match rev b with [] => True | x :: _ => f (fst x) = false end.
Proof.
  unfold trim_func. destruct (drop_suffix (fun p => f (fst p)) (chunks s)) as (a & E1 & H1). set (l := drop_while (fun p => f (fst p)) (chunks s)) in *. destruct (drop_suffix (fun p => f (fst p)) (rev l)) as (c & E2 & H2). set (m := drop_while (fun p => f (fst p)) (rev l)) in *.
  exists a, (rev m), (rev c). assert (EL : l = rev m ++ rev c) by (rewrite <- rev_app_distr, <- E2; symmetry; apply rev_involutive). split; [rewrite E1; congruence|]. split; [reflexivity|]. split; [|now rewrite rev_involutive].
  rewrite EL in H1. destruct (rev m) as [|x m']; [exact I|]. exact H1.
Qed.
Lemma trim_occurs f s : occurs (trim_func f s) s.
Proof. destruct (trim_func_spec f s) as (a & b & c & E & -> & _). exists (unchunks a), (unchunks c). rewrite <- (unchunks_chunks s), E. now rewrite !unchunks_app. Qed.
(** a text that neither begins nor ends with a space *)
Definition tight (r : str) : Prop := (forall t, r <> 32 :: t) /\ (forall t, r <> t ++ [32]).
Lemma trim_tight f s : f 32 = true -> tight (trim_func f s).
Proof.
  intros HF. destruct (trim_func_spec f s) as (a & b & c & E & -> & H1 & H2). pose proof (chunks_ok s) as CO. rewrite E in CO. apply Forall_app in CO as [_ CO]. apply Forall_app in CO as [CO _]. split; intros t X.
  - destruct b as [|[r w] b]; [discriminate X|]. inversion_clear CO as [|? ? (C1 & C2 & C3) _]. cbn [fst snd] in *. unfold unchunks in X. cbn [flat_map snd] in X. destruct (Z.ltb_spec r 128) as [L|G].
    + rewrite (C2 L) in X. cbn [app] in X. assert (r = 32) by congruence. subst r. congruence.
    + specialize (C3 G). destruct w as [|z0 w]; [congruence|]. inversion_clear C3 as [|? ? Y _]. cbn [app] in X. assert (z0 = 32) by congruence. lia.
  - destruct (rev b) as [|p rb] eqn:RB; [assert (b = []) as -> by (rewrite <- (rev_involutive b), RB; reflexivity); destruct t; discriminate X|].
    assert (EB : b = rev rb ++ [p]) by (rewrite <- (rev_involutive b), RB; reflexivity). subst b. apply Forall_app in CO as [_ CO]. inversion_clear CO as [|? ? (C1 & C2 & C3) _]. rewrite unchunks_app in X. change (unchunks [p]) with (snd p ++ []) in X. rewrite app_nil_r in X. destruct (Z.ltb_spec (fst p) 128) as [L|G].
    + rewrite (C2 L) in X. apply app_inj_tail in X as [_ X]. congruence.
    + specialize (C3 G). destruct (exists_last C1) as (w & z & EW). rewrite EW in X, C3. rewrite app_assoc in X. apply app_inj_tail in X as [_ X]. apply Forall_app in C3 as [_ C3]. inversion_clear C3. lia.
Qed.
Lemma tight_inside r l M t : (l = [] \/ l = [32]) -> (t = [] \/ t = [32]) -> tight r -> occurs r (l ++ M ++ t) -> occurs r M.
Proof.
  intros HL HT [T1 T2] (x & y & E). destruct r as [|c r]; [apply occurs_nil|].
  assert (E' : exists x', M ++ t = x' ++ (c :: r) ++ y).
  { destruct HL as [-> | ->]; [now exists x|]. destruct x as [|x0 x]; [exfalso; cbn [app] in E; apply (T1 r); congruence|]. cbn [app] in E. exists x. cbn [app]. congruence. }
  clear x E. destruct E' as (x & E). destruct HT as [-> | ->]; [rewrite app_nil_r in E; now exists x, y|].
  destruct (rev y) as [|y0 ry] eqn:RY.
  - exfalso. assert (y = []) as -> by (rewrite <- (rev_involutive y), RY; reflexivity). rewrite app_nil_r in E. destruct (exists_last (l := c :: r) ltac:(discriminate)) as (w & z & EW). rewrite EW in E. rewrite app_assoc in E. apply app_inj_tail in E as [_ E]. subst z. exact (T2 w EW).
  - assert (EY : y = rev ry ++ [y0]) by (rewrite <- (rev_involutive y), RY; reflexivity). rewrite EY in E. rewrite !app_assoc in E. apply app_inj_tail in E as [E _]. exists x, (rev ry). rewrite E. now rewrite <- !app_assoc.
Qed.

(** ** The words of a text whose only white space is the space *)
Definition nz (w : str) : list str := if empty w then [] else [w].
Fixpoint cut (s : str) : str * list str :=
  match s with [] => ([], []) | c :: t => let '(w, ws) := cut t in if c =? 32 then ([], nz w ++ ws) else (c :: w, ws) end.
Definition wds (s : str) : list str := nz (fst (cut s)) ++ snd (cut s).
Definition plain (s : str) : Prop := Forall (fun c => wb c = true -> c = 32) s.
Lemma cut_app y : forall x, cut (x ++ 32 :: y) = (fst (cut x), snd (cut x) ++ wds y).
Proof.
  induction x as [|c x IH].
  - cbn [app cut fst snd]. unfold wds. destruct (cut y). reflexivity.
  - cbn [app cut]. rewrite IH. destruct (cut x) as [w ws]. cbn [fst snd]. destruct (c =? 32); [|reflexivity]. cbn [fst snd]. now rewrite <- app_assoc.
Qed.
Lemma wds_app x y : wds (x ++ 32 :: y) = wds x ++ wds y.
Proof. unfold wds at 1 2. rewrite cut_app. cbn [fst snd]. now rewrite <- app_assoc. Qed.
Lemma wds_sjoin l : wds (sjoin l (lit " ")) = flat_map wds l.
Proof.
  induction l as [|x l IH]; [reflexivity|]. destruct l as [|y l]; [cbn [sjoin flat_map]; now rewrite app_nil_r|]. rewrite sjoin_cons by discriminate. change (lit " ") with [32] in *. cbn [app]. rewrite wds_app, IH. reflexivity.
Qed.
Lemma lead_cut s : plain s -> (1 <= lead s)%nat -> fst (cut s) = [].
Proof. destruct s as [|c s]; cbn [lead]; [lia|]. intros HP HL. inversion_clear HP as [|? ? H1 _]. destruct (wb c); [|lia]. rewrite (H1 eq_refl). cbn [cut]. destruct (cut s). reflexivity. Qed.
Lemma cut_collapse : forall s, plain s -> cut (collapse s) = cut s.
Proof.
  induction s as [|c s IH]; intros HP; [reflexivity|]. inversion_clear HP as [|? ? H1 H2]. cbn [collapse]. destruct (wb c) eqn:W; cbn [andb].
  - rewrite (H1 eq_refl). destruct (Nat.leb_spec 1 (lead s)) as [L|L].
    + rewrite IH by exact H2. cbn [cut]. pose proof (lead_cut s H2 L) as F. destruct (cut s) as [w ws]. cbn [fst] in F. subst w. reflexivity.
    + cbn [cut]. now rewrite IH by exact H2.
  - cbn [cut]. now rewrite IH by exact H2.
Qed.
Lemma wds_collapse s : plain s -> wds (collapse s) = wds s.
Proof. intros HP. unfold wds. now rewrite cut_collapse. Qed.
Lemma collapse_plain s : plain s -> plain (collapse s).
Proof. induction s as [|c s IH]; intros HP; [constructor|]. inversion_clear HP as [|? ? H1 H2]. cbn [collapse]. destruct (wb c && _); [now apply IH|]. constructor; [exact H1|now apply IH]. Qed.
Lemma collapse_cut : forall s, plain s -> exists t, (t = [] \/ t = [32]) /\ collapse s = fst (cut s) ++ flat_map (cons 32) (snd (cut s)) ++ t.
Proof.
  induction s as [|c s IH]; intros HP; [exists []; auto|]. inversion_clear HP as [|? ? H1 H2]. destruct (IH H2) as (t & HT & EC). cbn [collapse]. destruct (wb c) eqn:W; cbn [andb].
  - rewrite (H1 eq_refl). destruct (Nat.leb_spec 1 (lead s)) as [L|L].
    + exists t. split; [exact HT|]. rewrite EC. cbn [cut]. pose proof (lead_cut s H2 L) as F. destruct (cut s) as [w ws]. cbn [fst] in F. subst w. reflexivity.
    + destruct s as [|d s].
      * exists [32]. auto.
      * exists t. split; [exact HT|]. rewrite EC. remember (d :: s) as ds. cbn [cut]. assert (F : fst (cut ds) <> []).
        { subst ds. cbn [cut lead] in *. assert (d =? 32 = false) as ->. { destruct (d =? 32) eqn:X; [|reflexivity]. apply Z.eqb_eq in X. subst d. change (wb 32) with true in L. cbv iota in L. lia. } destruct (cut s). discriminate. }
        destruct (cut ds) as [w ws]. cbn [fst snd] in *. change (32 =? 32) with true. cbn [fst snd]. destruct w; [congruence|]. cbn [nz empty app flat_map]. now rewrite <- !app_assoc.
  - exists t. split; [exact HT|]. rewrite EC. cbn [cut]. assert (c =? 32 = false) as -> by (destruct (Z.eqb_spec c 32) as [->|]; [discriminate W|reflexivity]). destruct (cut s) as [w ws]. reflexivity.
Qed.
Lemma flat_sjoin w ws : w ++ flat_map (cons 32) ws = sjoin (w :: ws) (lit " ").
Proof. revert w. induction ws as [|x ws IH]; intros w; [cbn; now rewrite app_nil_r|]. rewrite sjoin_cons by discriminate. rewrite <- IH. reflexivity. Qed.
Lemma collapse_form s : plain s -> exists l t, (l = [] \/ l = [32]) /\ (t = [] \/ t = [32]) /\ collapse s = l ++ sjoin (wds s) (lit " ") ++ t.
Proof.
  intros HP. destruct (collapse_cut s HP) as (t & HT & E). unfold wds. destruct (cut s) as [w ws]. cbn [fst snd] in *. destruct w as [|c w].
  - cbn [nz empty app]. destruct ws as [|x ws]; [exists [], t; auto|]. exists [32], t. split; [auto|]. split; [exact HT|]. rewrite E. rewrite <- flat_sjoin. cbn [flat_map app]. now rewrite <- app_assoc.
  - exists [], t. split; [auto|]. split; [exact HT|]. rewrite E. cbn [nz empty app]. rewrite <- flat_sjoin. cbn [app]. now rewrite <- app_assoc.
Qed.
(** a word *)
Lemma word_cut s : Forall (fun c => wb c = false) s -> cut s = (s, []).
Proof. induction 1 as [|c s H _ IH]; [reflexivity|]. cbn [cut]. rewrite IH. assert (c =? 32 = false) as -> by (destruct (Z.eqb_spec c 32) as [->|]; [discriminate H|reflexivity]). reflexivity. Qed.
Lemma wds_word s : Forall (fun c => wb c = false) s -> wds s = nz s.
Proof. intros H. unfold wds. rewrite (word_cut s H). apply app_nil_r. Qed.
Lemma word_plain s : Forall (fun c => wb c = false) s -> plain s.
Proof. unfold plain. apply Forall_impl. intros c H. congruence. Qed.
Lemma sjoin_plain l : Forall plain l -> plain (sjoin l (lit " ")).
Proof. induction 1 as [|x l H HF IH]; [constructor|]. destruct l as [|y l]; [exact H|]. rewrite sjoin_cons by discriminate. unfold plain. apply Forall_app. split; [exact H|]. apply Forall_app. split; [constructor; [auto|constructor]|exact IH]. Qed.

(** ** The words of a sentence *)
Lemma fields_word s w : In w (fields s) -> w <> [] /\ Forall (fun c => wb c = false) w.
Proof.
  unfold fields. assert (G : forall l acc, Forall chunk_ok l -> Forall (fun c => wb c = false) acc -> forall w, In w (fields_from acc l) -> w <> [] /\ Forall (fun c => wb c = false) w).
  { induction l as [|[r b] l IH]; intros acc HL HA x; cbn [fields_from].
    - destruct acc as [|a acc]; cbn [empty]; [intros []|]. intros [<-|[]]. split; [discriminate|exact HA].
    - inversion_clear HL as [|? ? (C1 & C2 & C3) HL']. cbn [fst snd] in *. destruct (is_space r) eqn:SP.
      + destruct acc as [|a acc]; cbn [empty]; [apply IH; [exact HL'|constructor]|]. intros [<-|HI]; [split; [discriminate|exact HA]|]. revert HI. apply IH; [exact HL'|constructor].
      + apply IH; [exact HL'|]. apply Forall_app. split; [exact HA|]. destruct (Z.ltb_spec r 128) as [L|GE].
        * rewrite (C2 L). constructor; [|constructor]. revert SP. unfold is_space, wb. lia.
        * eapply Forall_impl; [|exact (C3 GE)]. intros c HC. cbv beta in HC. unfold wb. lia. }
  apply G; [apply chunks_ok|constructor].
Qed.
Notation ne := (fun x : str => negb (empty x)).
Lemma filter_insert i l : filter ne (insert_slice l i []) = filter ne l.
Proof. unfold insert_slice. rewrite filter_app. cbn [filter empty negb]. rewrite <- filter_app. now rewrite firstn_skipn. Qed.
Lemma filter_align eq : forall long i add short, filter ne (align_loop eq long i add short) = filter ne short.
Proof.
  induction long as [|t long IH]; intros i add short; cbn [align_loop]; [reflexivity|]. destruct (nth_error short i) as [st|].
  - destruct (eq t st); [apply IH|]. destruct add; rewrite IH; [apply filter_insert|reflexivity].
  - rewrite IH, filter_app. cbn [filter empty negb]. apply app_nil_r.
Qed.
Lemma filter_remove : forall l l', remove_empty l = Some l' -> filter ne l' = filter ne l.
Proof.
  induction l as [|x l IH]; intros l' HR; cbn [remove_empty] in HR; [discriminate HR|]. cbn [filter]. destruct (empty x) eqn:EX; cbn [negb]; [congruence|]. destruct (remove_empty l) as [l2|]; [|discriminate HR]. cbn [option_map] in HR. assert (l' = x :: l2) as -> by congruence. cbn [filter]. rewrite EX. cbn [negb]. now rewrite (IH l2 eq_refl).
Qed.
Lemma filter_balance : forall fuel a b, filter ne (fst (balance fuel a b)) = filter ne a.
Proof.
  induction fuel as [|f IH]; intros a b; cbn [balance]; [reflexivity|]. destruct (Nat.eqb _ _); [reflexivity|]. destruct (Nat.ltb _ _).
  - destruct (remove_empty a) as [a'|] eqn:RA; [|reflexivity]. rewrite IH. now apply filter_remove.
  - destruct (remove_empty b); [apply IH|reflexivity].
Qed.
Lemma align_orig E ld s skipped o si : ld_nospacing ld = false -> simplify_split_align E ld s skipped = Ok (o, si) -> filter ne o = fields s.
Proof.
  intros NS. unfold simplify_split_align, word_split. rewrite NS. cbn [rbind]. intros HA. cbv zeta in HA. set (simp := fields (simplify E ld (normalize_token E s))) in *. set (orig := fields s) in *.
  assert (FO : filter ne orig = orig).
  { assert (H : forall x, In x orig -> ne x = true) by (intros x HX; apply fields_word in HX as [HX _]; destruct x; [congruence|reflexivity]). revert H. generalize orig. induction orig0 as [|x l IH]; intros H; [reflexivity|]. cbn [filter]. rewrite (H x (or_introl eq_refl)). f_equal. apply IH. intros y HY. apply H. now right. }
  destruct (Nat.eqb _ _); [congruence|]. destruct (Nat.ltb _ _).
  - match type of HA with Ok (balance ?f ?a ?b) = _ => assert (HB : fst (balance f a b) = o) by (assert (balance f a b = (o, si)) as -> by congruence; reflexivity) end. rewrite <- HB, filter_balance, filter_align. exact FO.
  - match type of HA with Ok (balance ?f ?a ?b) = _ => assert (HB : fst (balance f a b) = o) by (assert (balance f a b = (o, si)) as -> by congruence; reflexivity) end. rewrite <- HB, filter_balance. exact FO.
Qed.
Lemma words_flat l : Forall (fun w => Forall (fun c => wb c = false) w) l -> flat_map wds l = filter ne l.
Proof. induction 1 as [|w l H _ IH]; [reflexivity|]. cbn [flat_map filter]. rewrite wds_word, IH by exact H. unfold nz. destruct (empty w); reflexivity. Qed.

(** ** The chunks *)
Section Chunks.
Variable E : env.
Variable ld : locale.
Hypothesis NS : ld_nospacing ld = false.
Variable orig : list str.
Hypothesis OW : Forall (fun w => Forall (fun c => wb c = false) w) orig.
Lemma join_collapse l : Forall plain l -> join_chunk E ld l = collapse (sjoin l (lit " ")).
Proof. intros HL. unfold join_chunk. rewrite NS. apply spaces_collapse. now apply sjoin_plain. Qed.
(** a chunk is a run of the words *)
Definition run (l : list str) : Prop := Forall plain l /\ exists a b, flat_map wds orig = a ++ flat_map wds l ++ b.
Definition upto (k : nat) (oc : list str) : Prop := Forall plain oc /\ exists a, flat_map wds (firstn k orig) = a ++ flat_map wds (rev oc).
Lemma upto_run k oc : upto k oc -> run (rev oc).
Proof.
  intros [H1 (a & HA)]. split; [now apply Forall_rev|]. exists a, (flat_map wds (skipn k orig)). rewrite <- (firstn_skipn k orig) at 1. rewrite flat_map_app, HA. now rewrite <- app_assoc.
Qed.
Lemma at_word k o : orig_at orig k = Ok o -> nth_error orig k = Some o /\ plain o.
Proof. unfold orig_at. destruct (nth_error orig k) as [o'|] eqn:N; [|discriminate]. intros H. assert (o' = o) by congruence. subst o'. split; [reflexivity|]. apply word_plain. rewrite Forall_forall in OW. apply OW. eapply nth_error_In. exact N. Qed.
Lemma firstn_next {A} (l : list A) k x : nth_error l k = Some x -> firstn (S k) l = firstn k l ++ [x].
Proof. revert k. induction l as [|y l IH]; intros [|k] H; try discriminate H; cbn [nth_error] in H; [cbn; congruence|]. rewrite firstn_cons, (IH k H). reflexivity. Qed.
Lemma upto_next k o oc : orig_at orig k = Ok o -> upto k oc -> upto (S k) (o :: oc).
Proof.
  intros HO [H1 (a & HA)]. apply at_word in HO as [HN HP]. split; [now constructor|]. exists a. rewrite (firstn_next _ _ _ HN), flat_map_app, HA. cbn [rev flat_map]. rewrite flat_map_app. cbn [flat_map]. now rewrite <- !app_assoc.
Qed.
Lemma upto_none k oc : oc = [] -> upto k oc.
Proof. intros ->. split; [constructor|]. exists (flat_map wds (firstn k orig)). cbn [rev flat_map]. now rewrite app_nil_r. Qed.
Lemma upto_two k o o2 oc : orig_at orig k = Ok o -> orig_at orig (S k) = Ok o2 -> upto k oc -> upto (S (S k)) (join_chunk E ld [o; o2] :: oc).
Proof.
  intros HO HO2 [H1 (a & HA)]. apply at_word in HO as [HN HP]. apply at_word in HO2 as [HN2 HP2]. assert (PP : plain (sjoin [o; o2] (lit " "))) by (apply sjoin_plain; auto).
  rewrite join_collapse by auto. split; [constructor; [now apply collapse_plain|exact H1]|]. exists a. rewrite (firstn_next _ _ _ HN2), (firstn_next _ _ _ HN), !flat_map_app, HA. cbn [rev]. rewrite flat_map_app. cbn [flat_map]. rewrite wds_collapse by exact PP. rewrite wds_sjoin. cbn [flat_map]. rewrite !app_nil_r. now rewrite <- !app_assoc.
Qed.
Definition runs (done : list (list str * list str)) : Prop := Forall (fun p => run (snd p)) done.
Lemma flush_runs k tc oc done done' : upto k oc -> runs done -> flush tc oc done = Ok done' -> runs done'.
Proof.
  intros HU HD. unfold flush. destruct tc as [|t tc]; [congruence|]. destruct (create_permutation [] (rev (t :: tc))) as [ps|e|]; cbn [rbind]; [|discriminate|discriminate]. intros H. assert (EH : done' = rev (map (fun p => (p, rev oc)) ps) ++ done) by congruence. subst done'. apply Forall_app. split; [|exact HD]. apply Forall_rev, Forall_map, Forall_forall. intros p _. cbn [snd]. exact (upto_run k oc HU).
Qed.
Lemma ts_runs : forall words i (skip : bool) tc oc done r, (tc = [] -> oc = []) -> upto (if skip then S i else i) oc -> runs done ->
  ts_loop E ld orig words i skip tc oc done = Ok r -> runs r.
Proof.
  induction words as [|word rest IH]; intros i skip tc oc done r HE HU HD; cbn [ts_loop]; [eapply flush_runs; eassumption|]. destruct skip; [apply IH; [exact HE|exact HU|exact HD]|].
  cbv zeta. assert (ONE : forall t, (do o <- orig_at orig i ; ts_loop E ld orig rest (S i) false (t :: tc) (o :: oc) done) = Ok r -> runs r).
  { intros t. destruct (orig_at orig i) as [o|e|] eqn:OA; cbn [rbind]; [|discriminate|discriminate]. apply IH; [discriminate|exact (upto_next i o oc OA HU)|exact HD]. }
  destruct (empty word || _); [apply ONE|]. destruct (in_dictionary ld (join_chunk _ _ _) && _ && _).
  { destruct (orig_at orig i) as [o|e|] eqn:OA; cbn [rbind]; [|discriminate|discriminate]. destruct (orig_at orig (S i)) as [o2|e|] eqn:OA2; cbn [rbind]; [|discriminate|discriminate]. apply IH; [discriminate|exact (upto_two i o o2 oc OA OA2 HU)|exact HD]. }
  destruct (in_dictionary ld word && _); [apply ONE|]. destruct (in_dictionary ld (trim_chars word _) && _); [apply ONE|]. destruct (token_digits_ok E ld word); [apply ONE|].
  destruct tc as [|t tc]; [apply IH; [exact HE|apply upto_none; now apply HE|exact HD]|].
  destruct (orig_at orig i) as [o|e|] eqn:OA; cbn [rbind]; [|discriminate|discriminate]. destruct (word_is_tz _ o); [apply IH; [discriminate|exact (upto_next i o oc OA HU)|exact HD]|].
  destruct (flush (t :: tc) oc done) as [done'|e|] eqn:FL; cbn [rbind]; [|discriminate|discriminate]. apply IH; [reflexivity|now apply upto_none|exact (flush_runs i _ _ _ _ HU HD FL)].
Qed.
(** the text of a chunk *)
Lemma run_text l r : run l -> tight r -> occurs r (join_chunk E ld (filter_chunk l)) -> occurs r (sjoin (filter ne orig) (lit " ")).
Proof.
  intros [HP (a & b & HA)] HT HO. assert (HF : Forall plain (filter_chunk l)) by (unfold filter_chunk; rewrite Forall_forall in *; intros x HX; apply filter_In in HX as [HX _]; auto).
  rewrite join_collapse in HO by exact HF. destruct (collapse_form _ (sjoin_plain _ HF)) as (u & v & HU & HV & EC). rewrite EC, wds_sjoin in HO. apply tight_inside in HO; [|assumption|assumption|exact HT].
  assert (FL : flat_map wds (filter_chunk l) = flat_map wds l) by (clear; induction l as [|x l IH]; [reflexivity|]; cbn [filter_chunk filter]; destruct x; cbn [empty negb]; [exact IH|cbn [flat_map]; now rewrite <- IH]).
  rewrite FL in HO. rewrite words_flat in HA by exact OW. rewrite HA. eapply occurs_trans; [exact HO|]. clear. set (m := flat_map wds l). clearbody m. destruct m as [|x m]; [apply occurs_nil|].
  assert (S1 : forall y, occurs (sjoin (x :: m) (lit " ")) (sjoin ((x :: m) ++ y) (lit " "))) by (intros [|z y]; [rewrite app_nil_r; apply occurs_refl|]; rewrite sjoin_app by discriminate; exists [], (lit " " ++ sjoin (z :: y) (lit " ")); reflexivity).
  destruct a as [|z a]; [apply S1|]. rewrite sjoin_app by discriminate. eapply occurs_trans; [apply (S1 b)|]. exists (sjoin (z :: a) (lit " ") ++ lit " "), []. now rewrite app_nil_r, <- app_assoc.
Qed.
End Chunks.

(** ** Sentences *)
Lemma sentence_occurs E ld s : forall ms lst l, sentence_loop E ld s ms lst = Ok l -> Forall (fun x => occurs x s) l.
Proof.
  induction ms as [|m ms IH]; intros lst l; cbn [sentence_loop].
  - intros H. assert (EL : l = if empty (trim_space (skipn lst s)) then [] else [trim_space (skipn lst s)]) by congruence. subst l. destruct (empty _); [constructor|]. constructor; [|constructor]. eapply occurs_trans; [apply trim_occurs|apply skipn_occurs].
  - destruct (cap m 1) as [[a b]|]; [|discriminate]. destruct (_ || _); [apply IH|]. destruct (sentence_loop E ld s ms (mt_end m)) as [r|e|] eqn:SL; cbn [rbind]; [|discriminate|discriminate]. intros H. specialize (IH _ _ SL).
    assert (EL : l = if empty (trim_space (slice s lst b)) then r else trim_space (slice s lst b) :: r) by congruence. subst l. destruct (empty _); [exact IH|]. constructor; [|exact IH]. eapply occurs_trans; [apply trim_occurs|apply slice_occurs].
Qed.
Lemma split_occurs E ld s l : split_sentence E ld s = Ok l -> Forall (fun x => occurs x s) l.
Proof. apply sentence_occurs. Qed.
Lemma rmap_In {A B} (f : A -> res B) : forall l r, rmap f l = Ok r -> forall y, In y r -> exists x, In x l /\ f x = Ok y.
Proof.
  induction l as [|x l IH]; intros r HR y HY; cbn [rmap] in HR; [assert (r = []) as -> by congruence; destruct HY|]. destruct (f x) as [b|e|] eqn:FX; cbn [rbind] in HR; [|discriminate HR|discriminate HR]. destruct (rmap f l) as [bs|e|]; cbn [rbind] in HR; [|discriminate HR|discriminate HR]. assert (r = b :: bs) as -> by congruence.
  destruct HY as [<-|HY]; [exists x; split; [now left|exact FX]|]. destruct (IH bs eq_refl y HY) as (z & Z1 & Z2). exists z. split; [now right|exact Z2].
Qed.
Lemma originals_occur E cfg ld s tr og o r : ld_nospacing ld = false -> translate_search E cfg ld s = Ok (tr, og) -> In o og -> tight r -> occurs r o -> exists piece, occurs piece s /\ occurs r (sjoin (fields piece) (lit " ")).
Proof.
  intros NS HT HI TR HO. unfold translate_search in HT. destruct (split_sentence E ld s) as [ss|e|] eqn:SS; cbn [rbind] in HT; [|discriminate HT|discriminate HT]. destruct (rmap _ ss) as [ch|e|] eqn:RM; cbn [rbind] in HT; [|discriminate HT|discriminate HT].
  assert (EO : og = map (fun p => join_chunk E ld (filter_chunk (snd p))) (concat ch)) by congruence. subst og. clear HT. apply in_map_iff in HI as (p & <- & HP). apply in_concat in HP as (c & HC & HP). destruct (rmap_In _ _ _ RM c HC) as (piece & P1 & P2). exists piece. split.
  { pose proof (split_occurs E ld s ss SS) as F. rewrite Forall_forall in F. now apply F. }
  destruct (simplify_split_align E ld piece (skipped_tokens cfg ld)) as [[orig simp]|e|] eqn:SA; cbn [rbind] in P2; [|discriminate P2|discriminate P2]. destruct (ts_loop E ld orig simp 0 false [] [] []) as [done|e|] eqn:TL; cbn [rbind] in P2; [|discriminate P2|discriminate P2]. assert (EC : c = rev done) by congruence. subst c.
  pose proof (align_orig E ld piece _ _ _ NS SA) as FO. assert (OW : Forall (fun w => Forall (fun c => wb c = false) w) orig).
  { apply Forall_forall. intros w HW. destruct w as [|x w]; [constructor|]. assert (HF : In (x :: w) (filter ne orig)) by (apply filter_In; auto). rewrite FO in HF. now apply fields_word in HF. }
  assert (RR : runs orig done) by (apply (ts_runs E ld NS orig OW simp 0 false [] [] []) with (2 := upto_none orig 0 [] eq_refl); [auto|constructor|exact TL]).
  rewrite <- FO. unfold runs in RR. rewrite Forall_forall in RR. apply in_rev in HP. exact (run_text E ld NS orig OW (snd p) r (RR p HP) TR HO).
Qed.
Lemma part_occurs sep : forall parts k o, nth_error parts k = Some o -> occurs o (sjoin parts sep).
Proof.
  induction parts as [|x parts IH]; intros [|k] o H; try discriminate H; cbn [nth_error] in H.
  - assert (x = o) as -> by congruence. destruct parts as [|y parts]; [apply occurs_refl|]. rewrite sjoin_cons by discriminate. exists [], (sep ++ sjoin (y :: parts) sep). reflexivity.
  - destruct parts as [|y parts]; [destruct k; discriminate H|]. rewrite sjoin_cons by discriminate. eapply occurs_trans; [exact (IH k o H)|]. exists (x ++ sep), []. now rewrite app_nil_r, <- app_assoc.
Qed.

(** every text reported by a search is a part of the input: it occurs in a piece of it when each run of white space of
    that piece is replaced by one space; for languages whose words are separated by spaces *)
Theorem C58_texts : forall E D det p cfg lang text p' rs ld,
  search_with_language E D det p cfg lang text = Ok (p', (rs, None)) -> db_get D lang = Some ld -> ld_nospacing ld = false ->
  forall r, In r rs -> exists piece, occurs piece text /\ occurs (sr_text r) (sjoin (fields piece) (lit " ")).
Proof.
  intros E D det p cfg lang text p' rs ld HS HD NS r HR. destruct (C32_results E D det p cfg lang text p' rs HS) as (ld' & tr & og & gs & D' & TS & ER & LG & LT & HG). assert (ld' = ld) by congruence. subst ld'.
  rewrite ER in HR. apply in_concat in HR as (g & HI & HR). apply In_nth_error in HI as (i & HI). destruct (HG i g HI) as (entry & o & N1 & N2 & FG). rewrite Forall_forall in FG. destruct (FG r HR) as (d & _ & _ & [(_ & TX)|(sp & k & e & o' & H1 & H2 & H3 & _ & TX)]).
  - rewrite TX. eapply (originals_occur E _ ld text tr og o); [exact NS|exact TS|exact (nth_error_In _ _ N2)| |apply trim_occurs]. apply trim_tight. reflexivity.
  - rewrite TX. eapply (originals_occur E _ ld text tr og o); [exact NS|exact TS|exact (nth_error_In _ _ N2)| |]; [apply trim_tight; reflexivity|]. eapply occurs_trans; [apply trim_occurs|].
    destruct (C42_split_consistent entry o sp H1) as (sep & _ & _ & _ & _ & _ & CO). unfold cut_at in CO. rewrite <- CO. exact (part_occurs sep _ k o' H3).
Qed.
Print Assumptions C58_texts.
(** the same for [Search], which chooses the language itself *)
Theorem C58_search : forall E D det p cfg text p' lang rs ld,
  search E D det p cfg text = Ok (p', (lang, rs, None)) -> db_get D lang = Some ld -> ld_nospacing ld = false ->
  forall r, In r rs -> exists piece, occurs piece text /\ occurs (sr_text r) (sjoin (fields piece) (lit " ")).
Proof.
  intros E D det p cfg text p' lang rs ld HS HD NS. unfold search in HS. destruct (init_search_config E cfg) as [c|]; [|congruence]. destruct (get_languages _ _ _ _ _) as [ls|e|]; [|congruence|congruence].
  destruct (detect_language _ _ _ _ _ _) as [lg|e|]; [|congruence|congruence]. destruct (search_with_language E D det (init_charsets D p ls) c lg text) as [[p2 [rs2 err]]|e|] eqn:SL; cbn [rbind] in HS; [|discriminate HS|discriminate HS].
  assert (lg = lang) by congruence. assert (rs2 = rs) by congruence. assert (err = None) by congruence. subst lg rs2 err. exact (C58_texts E D det _ _ _ _ _ _ _ SL HD NS).
Qed.
Print Assumptions C58_search.
(** tabs and double spaces of the input are single spaces in the reported text *)
Example C58_case : found (search_with_language env0 db0 None (new_parser []) search_cfg (lit "en") (lit "We met on 10  March" ++ [9] ++ lit "2015, then."))
  = Some [(lit "on 10 March 2015", 2015, 3, 10, lit "en")] /\
  (exists ld, db_get db0 (lit "en") = Some ld /\ ld_nospacing ld = false).
Proof. split; [vm_compute; reflexivity|]. exists loc_en. split; vm_compute; reflexivity. Qed.
(** other languages: in Chinese the skipped token [t] is missing in the reported text *)
Example C58_other_languages : found (search_with_language env0 db0 None (new_parser []) search_cfg (lit "zh") (lit "10日t10月")) = Some [(lit "10日10月", 2023, 6, 30, lit "zh")].
Proof. vm_compute. reflexivity. Qed.
