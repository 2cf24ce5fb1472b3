(** Parse of texts in the digits of scripts other than the Latin one *)
From Coq Require Import ZifyBool.
From Verif Require Import GoBase SMap Utf8Facts Regex RegexFacts RegexFacts2 RegexFacts3 GoTime Setting Strutil SpaceFacts Digit Timezone Env Common Timestamp Formatted Relative Absolute NoSpace Language Parser Tokenizer NumParse Prop_Text ScriptDigits.

(** ** Specification *)
(** the characters of such texts: digits of scripts other than the Latin one, '-', '/', ':', a blank, and the T of ISO 8601 *)
Definition foreign_char (r : Z) : Prop := (script_digit r = true /\ 128 <= r) \/ In r (lit "-/: tT").
(** what has to be known of the Unicode tables besides [script_tables]: digits of scripts (and the replacement character) have no other
    case in patterns, and a text of such digits and ASCII characters is in normal form *)
Record script_plain (U : uni) : Prop := {
  sp_fold : forall r, script_digit r = true -> u_fold U r = r;
  sp_error : u_fold U rune_error = rune_error;
  sp_form : forall l, Forall (fun r => script_digit r = true \/ 0 <= r < 128) l -> u_nfkd_noMn_nfkc U (encode l) = encode l }.

(** ** Patterns that need an ASCII character that the text lacks *)
Definition good_rune (f : Z -> bool) (c : Z) : Prop := (0 <= c < 128 /\ f c = false) \/ (128 <= c /\ (script_digit c = true \/ c = rune_error)).
Definition flacks (f : Z -> bool) (s : str) : Prop := forall n, skipn n s <> [] -> good_rune f (fst (decode_rune (skipn n s))).
Fixpoint fneeds (f : Z -> bool) (r : re) : bool :=
  match r with
  | Chr ci c => if (0 <=? c) && (c <? 128) then const_ok ci c && onlyf f (chr_is uni_min ci c) else negb ci && negb (script_digit c) && negb (c =? rune_error)
  | Cls ci k => negb ci && negb (cl_neg k) && forallb (fun i => match i with IRange l h => (0 <=? l) && (h <? 128) | _ => false end) (cl_items k) && onlyf f (cls_has uni_min ci k)
  | Cat a b => if fneeds f a then true else fneeds f b
  | Alt a b => if fneeds f a then fneeds f b else false
  | Grp _ a => fneeds f a
  | _ => false
  end.
Lemma flacks_skip f n s : flacks f s -> flacks f (skipn n s).
Proof. intros H m. rewrite skipn_skipn. apply H. Qed.
Section F.
Variable U : uni.
Hypotheses (UA : uni_ascii U) (SP : script_plain U).
Variable f : Z -> bool.
Lemma step_flacks s g k e : flacks f (m_rest s) -> step s g k = Some e -> exists c, good_rune f c /\ g c = true.
Proof.
  unfold step. destruct (m_rest s) as [|c l] eqn:Er; [discriminate|]. intros HL. specialize (HL 0%nat ltac:(discriminate)). cbn [skipn] in HL. destruct (decode_rune (c :: l)) as [x w]. cbn [fst] in HL.
  destruct (g x) eqn:G; [|discriminate]. intros _. now exists x.
Qed.
Lemma fneeds_none r : fneeds f r = true -> forall s k, flacks f (m_rest s) -> mtch U r s k = None.
Proof.
  induction r as [|ci c|ci c| |a IHa b IHb|a IHa b IHb|g a IHa|n a IHa| | |neg]; cbn [fneeds]; intros HN s k HL; try discriminate; cbn [mtch].
  - destruct (step s _ k) as [e|] eqn:ES; [|reflexivity]. exfalso. apply step_flacks in ES as (x & Hx & Hg); [|exact HL].
    destruct ((0 <=? c) && (c <? 128)) eqn:AC.
    + apply andb_true_iff in HN as [H1 H2]. destruct Hx as [[Hx Hf]|[Hx Hd]].
      * rewrite (chr_min keep U UA) in Hg by assumption. rewrite (onlyf_spec f _ x H2 Hx Hg) in Hf. discriminate.
      * unfold chr_is in Hg. destruct ci; [|lia]. assert (u_fold U x = x) as EX by (destruct Hd as [Hd| ->]; [now apply (sp_fold _ SP)|apply (sp_error _ SP)]). rewrite EX in Hg. rewrite (ua_fold _ UA c) in Hg by lia. unfold lowerA, is_upperA in Hg. destruct ((65 <=? c) && (c <=? 90)) eqn:Q; lia.
    + apply andb_true_iff in HN as [HN H3]. apply andb_true_iff in HN as [H1 H2]. destruct ci; [discriminate H1|]. unfold chr_is in Hg. assert (x = c) by lia. subst x.
      destruct Hx as [[Hx _]|[_ [Hd| ->]]]; [lia| |discriminate H3]. rewrite Hd in H2. discriminate H2.
  - destruct (step s _ k) as [e|] eqn:ES; [|reflexivity]. exfalso. apply step_flacks in ES as (x & Hx & Hg); [|exact HL].
    apply andb_true_iff in HN as [HN H4]. apply andb_true_iff in HN as [HN H3]. apply andb_true_iff in HN as [H1 H2]. destruct ci; [discriminate H1|].
    assert (EC : cls_has U false c x = cls_has uni_min false c x).
    { unfold cls_has. f_equal. clear -H3. induction (cl_items c) as [|i l IH]; [reflexivity|]. cbn [forallb existsb] in *. apply andb_true_iff in H3 as [H3 H3']. rewrite IH by exact H3'. destruct i; [reflexivity|discriminate H3|discriminate H3]. }
    destruct Hx as [[Hx Hf]|[Hx Hd]].
    + rewrite EC in Hg. rewrite (onlyf_spec f _ x H4 Hx Hg) in Hf. discriminate.
    + unfold cls_has in Hg. destruct (cl_neg c); [discriminate H2|]. cbn [xorb] in Hg. assert (HG : existsb (fun i => item_has U false i x) (cl_items c) = true) by (destruct (existsb _ _); [reflexivity|discriminate Hg]). clear Hg. apply existsb_exists in HG as (i & Hi & Hg). rewrite forallb_forall in H3. specialize (H3 i Hi). destruct i as [lo hi| |]; try discriminate H3. cbn [item_has] in Hg. lia.
  - destruct (mtch U a s _) as [e|] eqn:E; [|reflexivity]. destruct (fneeds f a) eqn:NA; [now rewrite IHa in E|].
    apply mtch_moved in E as (s' & w & E & M & _). rewrite IHb in E; [discriminate | exact HN |]. rewrite (mv_rest _ _ _ M). now apply flacks_skip.
  - destruct (fneeds f a) eqn:NA; [|discriminate HN]. now rewrite IHa, IHb.
  - now apply IHa.
Qed.
Lemma flacks_none r s : fneeds f (rx_ast r) = true -> flacks f s -> find U r s = None.
Proof.
  intros HN HL. unfold find. pose proof (states_in s) as HS. induction HS as [|st l [Hr _] _ IH]; cbn [first_match]; [reflexivity|].
  unfold match_here. rewrite fneeds_none; [exact IH | exact HN |]. rewrite Hr. now apply flacks_skip.
Qed.
End F.

(** ** The texts *)
Definition unseen (c : Z) : bool := negb (existsb (Z.eqb c) (lit "-/: tT")).
Lemma foreign_scalar r : foreign_char r -> scalar r.
Proof.
  intros [[S _]|I]; [|cbn in I; unfold scalar; lia]. destruct (script_value r S) as (v & V & B & _). destruct (digit_at r v V) as [_ HI].
  assert (M : forallb (fun z => (0 <=? z) && ((z + 9 <? 55296) || ((57343 <? z) && (z + 9 <=? 1114111)))) digit_zeros = true) by (vm_compute; reflexivity). rewrite forallb_forall in M. specialize (M _ HI). cbv beta in M. unfold scalar. lia.
Qed.
Lemma foreign_good r : foreign_char r -> good_rune unseen r.
Proof. intros [[S L]|I]; [right; auto|]. left. cbn in I. unfold unseen. split; [lia|]. cbn [existsb lit]. cbn. lia. Qed.
Lemma cont_bytes r n : scalar r -> (0 < n < length (encode_rune r))%nat -> exists b t, skipn n (encode_rune r) = b :: t /\ 128 <= b < 192.
Proof.
  intros HS Hn. assert (M : forall x, 0 <= x mod 64 < 64) by (intros x; apply Z.mod_pos_bound; lia). pose proof (M r) as M0. pose proof (M (r / 64)) as M1. pose proof (M (r / 4096)) as M2. clear M. unfold encode_rune, scalar in *.
  destruct ((0 <=? r) && (r <? 128)) eqn:A1; [cbn [length] in Hn; lia|].
  destruct ((0 <=? r) && (r <? 2048)) eqn:A2; [destruct n as [|[|n]]; cbn [length] in Hn; try lia; cbn [skipn]; eexists _, _; split; [reflexivity|lia]|].
  destruct (_ || _ || _) eqn:A3; [lia|]. destruct (r <? 65536) eqn:A4; (destruct n as [|[|[|[|n]]]]; cbn [length] in Hn; try lia); cbn [skipn]; eexists _, _; (split; [reflexivity|lia]).
Qed.
Lemma flacks_encode l : Forall foreign_char l -> flacks unseen (encode l).
Proof.
  induction 1 as [|r l Hr _ IH]; intros n HN.
  - cbn [encode flat_map] in HN. rewrite skipn_nil in HN. congruence.
  - rewrite encode_cons in *. pose proof (foreign_scalar r Hr) as HS. rewrite skipn_app in *. destruct (Nat.ltb_spec n (length (encode_rune r))) as [L|L].
    + destruct n as [|n].
      * cbn [skipn Nat.sub]. rewrite decode_encode_rune by exact HS. cbn [fst]. now apply foreign_good.
      * destruct (cont_bytes r (S n) HS) as (b & t & -> & B); [lia|]. right. cbn [app decode_rune]. assert (b <? 128 = false) as -> by lia. assert (b <? 194 = true) as -> by lia. cbn [fst]. split; [unfold rune_error; lia|now right].
    + rewrite (skipn_all2 (encode_rune r)) in * by lia. cbn [app] in *. apply IH. exact HN.
Qed.
Lemma unseen_regexes : Forall (fun r => fneeds unseen (rx_ast r) = true) [rxSanitizeSkip; rxSanitizeRussian; rxSanitizeCroatian; rxSanitizePeriod; rxSanitizeOn; rxSearchIgnoreCase; rxTimestamp; rxNegativeTimestamp].
Proof. repeat (apply Forall_cons; [vm_compute; reflexivity|]). constructor. Qed.

Section T.
Variable E : env.
Notation U := (e_uni E).
Hypotheses (UA : uni_ascii U) (ST : script_tables U) (SP : script_plain U).
Variables (l : list Z) (ws : list (list Z)).
Hypotheses (HF : Forall foreign_char l) (HW : Forall word ws) (HJ : l = join_words ws) (HL : last l 0 <> 58).
Lemma foreign_none r : In r [rxSanitizeSkip; rxSanitizeRussian; rxSanitizeCroatian; rxSanitizePeriod; rxSanitizeOn; rxSearchIgnoreCase; rxTimestamp; rxNegativeTimestamp] -> find U r (encode l) = None.
Proof. intros H. pose proof unseen_regexes as N. rewrite Forall_forall in N. apply (flacks_none U UA SP unseen); [now apply N|now apply flacks_encode]. Qed.
Lemma foreign_all_scalar : Forall scalar l.
Proof. eapply Forall_impl; [|exact HF]. apply foreign_scalar. Qed.
Lemma foreign_spaces : sanitize_spaces (encode l) = encode l.
Proof.
  pose proof foreign_all_scalar as HS. rewrite HJ in HS |- *. apply sanitize_clean; [exact HW|]. apply Forall_forall. intros w Hw. apply Forall_forall. intros r Hr. rewrite Forall_forall in HS. apply HS. clear -Hw Hr.
  induction ws as [|x [|y xs] IH]; [destruct Hw|cbn [join_words]; destruct Hw as [->|[]]; exact Hr|]. change (join_words (x :: y :: xs)) with (x ++ 32 :: join_words (y :: xs)). apply in_or_app. destruct Hw as [->|Hw]; [now left|right; right; now apply IH].
Qed.
Lemma foreign_suffix : trim_suffix (encode l) (lit ":") = encode l.
Proof.
  unfold trim_suffix, has_suffix. change (rev (lit ":")) with [58]. destruct (rev (encode l)) as [|c t] eqn:ER; [reflexivity|]. cbn [has_prefix].
  assert (c <> 58); [|destruct (58 =? c) eqn:Q; [lia|reflexivity]].
  assert (EL : encode l = rev t ++ [c]) by (rewrite <- (rev_involutive (encode l)), ER; reflexivity). clear ER.
  revert HF HL EL. clear. destruct l as [|x l0] using rev_ind; intros HF HL EL; [destruct (rev t); discriminate EL|]. rewrite last_last in HL. apply Forall_app in HF as [_ HF]. inversion HF as [|? ? Hx _]; subst. pose proof (foreign_scalar x Hx) as HS.
  rewrite encode_app, encode_cons in EL. cbn [encode flat_map] in EL. rewrite app_nil_r in EL. intros ->.
  destruct (Z.ltb_spec x 128) as [L|L].
  - unfold scalar in HS. assert (encode_rune x = [x]) as EX by (unfold encode_rune; assert ((0 <=? x) && (x <? 128) = true) as -> by lia; reflexivity). rewrite EX in EL. apply app_inj_tail in EL as [_ EL]. congruence.
  - assert (B : exists u b, encode_rune x = u ++ [b] /\ 128 <= b).
    { assert (M : 0 <= x mod 64 < 64) by (apply Z.mod_pos_bound; lia). unfold encode_rune. destruct ((0 <=? x) && (x <? 128)) eqn:A1; [lia|]. destruct ((0 <=? x) && (x <? 2048)); [eexists [_], _; split; [reflexivity|lia]|].
      destruct (_ || _ || _); [eexists [_; _], _; split; [reflexivity|lia]|]. destruct (x <? 65536); [eexists [_; _], _; split; [reflexivity|lia]|eexists [_; _; _], _; split; [reflexivity|lia]]. }
    destruct B as (u & b & EB & HB). rewrite EB, app_assoc in EL. apply app_inj_tail in EL as [_ EL]. lia.
Qed.
Lemma foreign_apos : normalize_apos (encode l) = encode l.
Proof.
  unfold normalize_apos. rewrite runes_encode by apply foreign_all_scalar. f_equal. rewrite <- (map_id l) at 2. apply map_ext_in. intros c Hc. rewrite Forall_forall in HF. apply HF in Hc. unfold apos_map. destruct (existsb (Z.eqb c) _) eqn:X; [|reflexivity]. exfalso.
  destruct Hc as [[S _]|I].
  - apply existsb_exists in X as (y & Hy & EY). apply Z.eqb_eq in EY. subst y. revert Hy. assert (M : script_digit c = true) by exact S. cbn [In]. intros Hy. repeat (destruct Hy as [<-|Hy]; [vm_compute in M; discriminate M|]). exact Hy.
  - cbn in I. cbn [existsb] in X. lia.
Qed.
Lemma trim_foreign (m : list Z) : Forall scalar m -> (forall r t, m = r :: t -> is_space r = false) -> (forall r t, m = t ++ [r] -> is_space r = false) -> trim_space (encode m) = encode m.
Proof.
  intros HS H1 H2. unfold trim_space, trim_func. rewrite (chunks_encode m HS). set (g := fun r => (r, encode_rune r)).
  assert (D1 : drop_while (fun p => is_space (fst p)) (map g m) = map g m).
  { destruct m as [|r t]; [reflexivity|]. cbn [map drop_while]. unfold g at 1. cbn [fst]. now rewrite (H1 r t eq_refl). }
  rewrite D1. assert (D2 : drop_while (fun p => is_space (fst p)) (rev (map g m)) = rev (map g m)).
  { destruct m as [|r t] using rev_ind; [reflexivity|]. rewrite map_app, rev_app_distr. cbn [map rev app drop_while]. unfold g at 1. cbn [fst]. now rewrite (H2 r t eq_refl). }
  rewrite D2, rev_involutive. unfold unchunks, encode. clear. induction m as [|r m IH]; [reflexivity|]. cbn [map flat_map]. unfold g at 1. cbn [snd]. now rewrite IH.
Qed.
Lemma foreign_trim : trim_space (encode l) = encode l.
Proof.
  apply trim_foreign; [apply foreign_all_scalar| |].
  - intros r t EL. rewrite HJ in EL. clear -EL HW. destruct ws as [|w xs]; [discriminate EL|]. inversion HW as [|? ? [N F] _]; subst. destruct w as [|c w]; [congruence|]. inversion F; subst. destruct xs; cbn [join_words app] in EL; congruence.
  - intros r t EL. rewrite HJ in EL. clear -EL HW. revert t EL. induction HW as [|w xs [N F] HX IH]; intros t EL; [destruct t; discriminate EL|]. destruct xs as [|y xs].
    + cbn [join_words] in EL. subst w. apply Forall_app in F as [_ F]. now inversion F.
    + change (join_words (w :: y :: xs)) with (w ++ 32 :: join_words (y :: xs)) in EL. inversion HX as [|? ? [NY _] _]; subst.
      assert (NJ : join_words (y :: xs) <> []) by (destruct y; [congruence|]; destruct xs; discriminate). destruct (join_words (y :: xs)) as [|z u] eqn:EJ using rev_ind; [congruence|].
      apply (IH HX u). f_equal. rewrite app_comm_cons, app_assoc in EL. apply app_inj_tail in EL as [_ EL]. now rewrite EL.
Qed.
Lemma foreign_sanitize : sanitize_date U (encode l) = encode l.
Proof.
  unfold sanitize_date. rewrite (replace_none _ rxSanitizeSkip) by (apply foreign_none; cbn; tauto). rewrite (replace_none _ rxSanitizeRussian) by (apply foreign_none; cbn; tauto). rewrite (replace_none _ rxSanitizeCroatian) by (apply foreign_none; cbn; tauto).
  rewrite foreign_spaces. rewrite (replace_none _ rxSanitizePeriod) by (apply foreign_none; cbn; tauto). rewrite (replace_none _ rxSanitizeOn) by (apply foreign_none; cbn; tauto). rewrite foreign_suffix, foreign_apos. apply foreign_trim.
Qed.
Lemma foreign_tz : etz_pop E (encode l) = (encode l, od_zero).
Proof. unfold etz_pop, pop_tz. unfold match_string. rewrite foreign_none by (cbn; tauto). reflexivity. Qed.
Lemma foreign_timestamp cfg neg : timestamp_parse E cfg (encode l) neg = zero_date.
Proof. unfold timestamp_parse. destruct neg; now rewrite foreign_none by (cbn; tauto). Qed.
End T.

(** ** Parse looks at a text only through its normal form, the time zone in it, the detected languages and the timestamp patterns *)
Lemma parse_alike E D det p cfg s s' : forall (a b : str) (lg : list str),
  sanitize_date (e_uni E) s = a -> sanitize_date (e_uni E) s' = b -> normalize_token E a = normalize_token E b ->
  normalize_token E (normalize_string (e_uni E) a) = normalize_token E (normalize_string (e_uni E) b) ->
  etz_pop E (normalize_string (e_uni E) a) = (normalize_string (e_uni E) a, od_zero) -> etz_pop E (normalize_string (e_uni E) b) = (normalize_string (e_uni E) b, od_zero) ->
  (forall c neg, timestamp_parse E c a neg = timestamp_parse E c b neg) ->
  detected_languages det (initiate (e_now E) cfg) (normalize_string (e_uni E) a) = lg -> detected_languages det (initiate (e_now E) cfg) (normalize_string (e_uni E) b) = lg ->
  parse E D det p cfg s [] = parse E D det p cfg s' [].
Proof.
  intros a b lg SA SB NT NT' TA TB TS DA DB.
  assert (GA : forall used c ic, c = initiate (e_now E) cfg -> get_applicable E D det used c ic a = get_applicable E D det used c ic b).
  { intros used c ic ->. unfold get_applicable. cbv zeta. rewrite TA, TB, DA, DB. cbn [fst]. rewrite !eqs_refl. set (na := normalize_string (e_uni E) a) in *. set (nb := normalize_string (e_uni E) b) in *. clearbody na nb.
    assert (AA : forall ld, any_applicable E ic ld [na] = any_applicable E ic ld [nb]) by (intros ld; cbn [any_applicable]; unfold is_applicable; now rewrite NT').
    assert (CP : check_previous E ic used [na] = check_previous E ic used [nb]) by (induction used as [|u used IH]; cbn [check_previous]; [reflexivity|]; now rewrite AA, IH).
    assert (FA : forall lds acc, filter_applicable E ic [na] acc lds = filter_applicable E ic [nb] acc lds).
    { induction lds as [|x lds IH]; intros acc; cbn [filter_applicable]; [reflexivity|]. rewrite AA, IH. destruct (any_applicable E ic x [nb]); cbn [rbind]; [|reflexivity|reflexivity]. now rewrite IH. }
    rewrite CP. do 2 (match goal with |- rbind ?x _ = rbind ?x _ => destruct x end; cbn [rbind]; [|reflexivity|reflexivity]). now rewrite FA. }
  assert (TR : forall c ld keep, translate E c ld a keep = translate E c ld b keep) by (intros; unfold translate; now rewrite NT).
  assert (TL : forall c ic types lds, try_locales E c ic types a [] lds = try_locales E c ic types b [] lds).
  { intros c ic types. induction lds as [|ld lds IH]; cbn [try_locales]; [reflexivity|]. assert (TO : try_locale E c ic types a [] ld = try_locale E c ic types b [] ld).
    { unfold try_locale. cbv zeta. rewrite !TR. destruct (translate E _ ld b false) as [t1| |]; cbn [rbind]; [|reflexivity|reflexivity]. destruct (translate E _ ld b true) as [t2| |]; cbn [rbind]; [|reflexivity|reflexivity].
      set (c0 := with_order _ _). clearbody c0. assert (FD : forall f g : Z -> res date, (forall x, f x = g x) -> forall tys, first_date f tys = first_date g tys).
      { intros f g H tys. induction tys as [|x l IHt]; cbn [first_date]; [reflexivity|]. rewrite H. destruct (g x); cbn [rbind]; [|reflexivity|reflexivity]. now rewrite IHt. }
      apply FD. intros ty. unfold try_type. rewrite !TS. reflexivity. }
    rewrite TO, IH. reflexivity. }
  unfold parse. destruct (existsb _ (p_types p)); [reflexivity|]. cbv zeta. destruct (negb (validate _ _)); [reflexivity|].
  assert (FP : forall c t, formatted_parse E c t [] = zero_date) by reflexivity. rewrite !FP. change (negb (date_is_zero zero_date)) with false. cbv iota. rewrite SA, SB. rewrite (GA _ _ _ eq_refl).
  destruct (get_applicable _ _ _ _ _ _ b); [|reflexivity|reflexivity]. now rewrite TL.
Qed.

Section M.
Variable E : env.
Notation U := (e_uni E).
Hypotheses (UA : uni_ascii U) (ST : script_tables U) (SP : script_plain U).
Lemma normal_text m ws : Forall (fun r => script_digit r = true \/ 0 <= r < 128) m -> Forall scalar m -> Forall word ws -> m = join_words ws -> normalize_string U (encode m) = encode (map (u_lower U) m).
Proof.
  intros HM HS HW HJ. unfold normalize_string, normalize_unicode. rewrite (sp_form _ SP m HM). rewrite (lower_encode E UA) by exact HS. rewrite HJ, (map_join (u_lower U)) by (apply (ua_lower _ UA 32); lia).
  apply sanitize_clean.
  - assert (HI : forall w, In w ws -> Forall (fun r => script_digit r = true \/ 0 <= r < 128) w).
    { intros w Hw. rewrite HJ in HM. clear -HM Hw. induction ws as [|x [|y xs] IH]; [destruct Hw|destruct Hw as [->|[]]; exact HM|]. change (join_words (x :: y :: xs)) with (x ++ 32 :: join_words (y :: xs)) in HM. apply Forall_app in HM as [H1 H2]. inversion H2; subst. destruct Hw as [->|Hw]; auto. }
    apply Forall_map. apply Forall_forall. intros w Hw. specialize (HI w Hw). rewrite Forall_forall in HW. destruct (HW w Hw) as [N F]. split; [destruct w; [congruence|discriminate]|]. apply Forall_map. apply Forall_forall. intros r Hr. rewrite Forall_forall in F, HI. specialize (F r Hr). specialize (HI r Hr). cbv beta in *.
    destruct HI as [HD|HA]; [now rewrite (st_lower _ ST)|]. rewrite (ua_lower _ UA r HA). unfold lowerA, is_upperA. destruct ((65 <=? r) && (r <=? 90)) eqn:Q; [|exact F]. unfold is_space. lia.
  - apply Forall_forall. intros w Hw. apply in_map_iff in Hw as (v & <- & Hv). apply Forall_map. apply Forall_forall. intros r Hr. apply (st_scalar _ ST). rewrite HJ in HS. clear -HS Hv Hr. rewrite Forall_forall in HS. apply HS. clear HS.
    induction ws as [|x [|y xs] IH]; [destruct Hv|destruct Hv as [->|[]]; exact Hr|]. change (join_words (x :: y :: xs)) with (x ++ 32 :: join_words (y :: xs)). apply in_or_app. destruct Hv as [->|Hv]; [now left|right; right; now apply IH].
Qed.
Lemma latin_ascii l : Forall foreign_char l -> Forall (fun r => 0 <= r < 128) (latin_digits l).
Proof.
  intros HF. rewrite latin_map. apply Forall_map. eapply Forall_impl; [|exact HF]. intros r [[S _]|I]; [destruct (script_value r S) as (v & _ & B & _ & ->); lia|].
  rewrite lat_keeps; [cbn in I; lia|]. destruct (script_digit r) eqn:S; [|reflexivity]. exfalso. cbn in I. repeat (destruct I as [<-|I]; [vm_compute in S; discriminate S|]). exact I.
Qed.
Lemma word_lat w : word w -> word (map lat w).
Proof. intros [N F]. split; [destruct w; [congruence|discriminate]|]. apply Forall_map. eapply Forall_impl; [|exact F]. intros r Hr. cbv beta in *. now rewrite lat_space. Qed.

(** the answer for a text in foreign digits is that for the same text in ASCII digits, provided the latter is clean, has no time zone and is no timestamp *)
Theorem script_parse D det p cfg l ws :
  Forall foreign_char l -> Forall word ws -> l = join_words ws -> last l 0 <> 58 ->
  sanitize_date U (latin_digits l) = latin_digits l ->
  etz_pop E (normalize_string U (latin_digits l)) = (normalize_string U (latin_digits l), od_zero) ->
  (forall c neg, timestamp_parse E c (latin_digits l) neg = zero_date) ->
  detected_languages det (initiate (e_now E) cfg) (normalize_string U (encode l)) = detected_languages det (initiate (e_now E) cfg) (normalize_string U (latin_digits l)) ->
  parse E D det p cfg (encode l) [] = parse E D det p cfg (latin_digits l) [].
Proof.
  intros HF HW HJ HL SA TZ TS DL. pose proof (latin_ascii l HF) as LA.
  assert (EA : encode (latin_digits l) = latin_digits l) by (apply encode_ascii; apply forallb_forall; rewrite Forall_forall in LA; intros c Hc; apply LA in Hc; lia).
  assert (HS : Forall scalar l) by (eapply Forall_impl; [|exact HF]; apply foreign_scalar).
  assert (HS' : Forall scalar (latin_digits l)) by (eapply Forall_impl; [|exact LA]; unfold scalar; intros; cbv beta in *; lia).
  assert (HP : Forall (fun r => script_digit r = true \/ 0 <= r < 128) l) by (eapply Forall_impl; [|exact HF]; intros r [[S _]|I]; [now left|right; cbn in I; lia]).
  assert (HP' : Forall (fun r => script_digit r = true \/ 0 <= r < 128) (latin_digits l)) by (eapply Forall_impl; [|exact LA]; intros r Hr; right; exact Hr).
  pose proof (normal_text l ws HP HS HW HJ) as N1.
  assert (HW' : Forall word (map (map lat) ws)) by (apply Forall_map; eapply Forall_impl; [|exact HW]; apply word_lat).
  pose proof (normal_text (latin_digits l) (map (map lat) ws) HP' HS' HW') as N2. rewrite latin_map in N2 at 1. rewrite HJ in N2 at 1. specialize (N2 (map_join lat ws eq_refl)). rewrite EA in N2.
  assert (EM : map (u_lower U) (latin_digits l) = latin_digits (map (u_lower U) l)) by (rewrite (latin_map l), (latin_map (map (u_lower U) l)), !map_map; apply map_ext; intros r; apply (lower_lat E ST)).
  assert (HF' : Forall foreign_char (map (u_lower U) l)).
  { apply Forall_map. eapply Forall_impl; [|exact HF]. intros r [[S L]|I]; [left; now rewrite (st_lower _ ST)|right]. rewrite (ua_lower _ UA) by (cbn in I; lia). cbn in I. repeat (destruct I as [<-|I]; [vm_compute; tauto|]). destruct I. }
  apply (parse_alike E D det p cfg (encode l) (latin_digits l) (encode l) (latin_digits l) (detected_languages det (initiate (e_now E) cfg) (normalize_string U (latin_digits l))) (foreign_sanitize E UA SP l ws HF HW HJ HL) SA).
  - rewrite <- EA at 1. symmetry. apply (latin_token E UA ST l HS).
  - rewrite N1, N2, EM. symmetry. apply (latin_token E UA ST). eapply Forall_impl; [|exact HF']. apply foreign_scalar.
  - rewrite N1. apply (foreign_tz E UA SP _ HF').
  - exact TZ.
  - intros c neg. rewrite TS. apply (foreign_timestamp E UA SP l HF).
  - exact DL.
  - reflexivity.
Qed.
End M.
