(** Three numbers joined by separators, as the absolute parser sees them *)
From Coq Require Import ZifyBool.
From Verif Require Import GoBase SMap Regex RegexFacts RegexFacts2 RegexFacts3 Civil GoTime GoTimeFacts GoTimeParse Setting Strutil Utf8Facts SpaceFacts Tokenizer Timezone Env Common Absolute AbsFacts AbsFacts2.

Definition separator (c : Z) : Prop := c = 45 \/ c = 47 \/ c = 46 \/ c = 32. (* - / . space *)

Lemma asc_b s : asc s -> forallb (fun c => (0 <=? c) && (c <? 128)) s = true.
Proof. intros H. apply forallb_forall. intros c Hc. unfold asc in H. rewrite Forall_forall in H. apply H in Hc. lia. Qed.
Lemma runes_asc s : asc s -> runes s = s.
Proof. intros H. apply runes_ascii. apply ascii_is, asc_b, H. Qed.
Lemma encode_asc s : asc s -> encode s = s.
Proof. intros H. apply encode_ascii, asc_b, H. Qed.
Lemma digits_asc s : digits s -> asc s.
Proof. intros [_ H]. eapply Forall_impl; [|exact H]. cbn. lia. Qed.
Lemma digits_tdigit s : digits s -> forallb is_tdigit s = true.
Proof. intros [_ H]. apply forallb_forall. intros c Hc. rewrite Forall_forall in H. apply H in Hc. unfold is_tdigit, is_digitA. lia. Qed.

(** ** Words *)
Lemma sanitize_asc ws : Forall word ws -> Forall asc ws -> sanitize_spaces (join_words ws) = join_words ws.
Proof.
  intros Hw Ha. assert (HJ : asc (join_words ws)).
  { clear Hw. induction ws as [|w [|w2 ws] IH]; [constructor|now inversion Ha|]. inversion Ha; subst. change (join_words (w :: w2 :: ws)) with (w ++ 32 :: join_words (w2 :: ws))%list.
    apply Forall_app. split; [assumption|]. constructor; [lia|]. now apply IH. }
  rewrite <- (encode_asc (join_words ws)) at 1 by exact HJ. rewrite sanitize_clean.
  - apply encode_asc, HJ.
  - exact Hw.
  - eapply Forall_impl; [|exact Ha]. intros w H. eapply Forall_impl; [|exact H]. unfold scalar. lia.
Qed.
Lemma word_app a b : word a -> word b -> word (a ++ b).
Proof. intros [A1 A2] [B1 B2]. split; [now destruct a|]. apply Forall_app. auto. Qed.
Lemma digits_word s : digits s -> word s.
Proof. intros [H1 H2]. split; [exact H1|]. eapply Forall_impl; [|exact H2]. intros c Hc. cbv beta in Hc. apply (is_kind_ascii TDigit). change (is_tdigit c = true). unfold is_tdigit, is_digitA. lia. Qed.
Lemma sep_word c : separator c -> c <> 32 -> word [c].
Proof. intros H N. split; [discriminate|]. constructor; [|constructor]. destruct H as [-> | [-> | [-> | ->]]]; try reflexivity. congruence. Qed.

Definition three (A : str) (p : Z) (B : str) (q : Z) (C : str) : str := A ++ p :: B ++ q :: C.
Lemma three_asc A p B q C : digits A -> digits B -> digits C -> separator p -> separator q -> asc (three A p B q C).
Proof.
  intros HA HB HC Hp Hq. unfold three. apply Forall_app. split; [now apply digits_asc|]. constructor; [unfold separator in Hp; lia|]. apply Forall_app. split; [now apply digits_asc|]. constructor; [unfold separator in Hq; lia | now apply digits_asc].
Qed.
Lemma three_sanitize A p B q C : digits A -> digits B -> digits C -> separator p -> separator q -> sanitize_spaces (three A p B q C) = three A p B q C.
Proof.
  intros HA HB HC Hp Hq. unfold three.
  pose proof (digits_word A HA) as WA. pose proof (digits_word B HB) as WB. pose proof (digits_word C HC) as WC.
  pose proof (digits_asc A HA) as AA. pose proof (digits_asc B HB) as AB. pose proof (digits_asc C HC) as AC.
  assert (SP : forall c, separator c -> asc [c]) by (intros c H; constructor; [unfold separator in H; lia|constructor]).
  assert (AS : forall a b, asc a -> asc b -> asc (a ++ b)) by (intros a b Ha Hb; apply Forall_app; auto).
  destruct (Z.eq_dec p 32) as [->|Np], (Z.eq_dec q 32) as [->|Nq].
  - apply (sanitize_asc [A; B; C]); repeat (apply Forall_cons); try apply Forall_nil; auto.
  - change (A ++ 32 :: B ++ q :: C) with (join_words [A; B ++ [q] ++ C]). apply sanitize_asc; repeat (apply Forall_cons); try apply Forall_nil; auto using word_app, sep_word.
  - replace (A ++ p :: B ++ 32 :: C) with (join_words [A ++ [p] ++ B; C]) by (cbn [join_words]; now rewrite <- !app_assoc). apply sanitize_asc; repeat (apply Forall_cons); try apply Forall_nil; auto using word_app, sep_word.
  - change (A ++ p :: B ++ q :: C) with (join_words [A ++ [p] ++ B ++ [q] ++ C]). apply sanitize_asc; repeat (apply Forall_cons); try apply Forall_nil; auto 10 using word_app, sep_word.
Qed.

(** ** Tokens *)
Lemma tok_run rest : forall ds prev acc, is_tdigit prev = true -> Forall (fun c => 48 <= c <= 57) ds ->
  tok_loop prev acc (ds ++ rest) = tok_loop (last ds prev) (rev ds ++ acc) rest.
Proof.
  induction ds as [|c ds IH]; intros prev acc Hp Hd; [reflexivity|]. inversion Hd as [|? ? Hc Hd']; subst. cbn [app tok_loop]. unfold compare_chars. rewrite Hp.
  assert (is_tdigit c = true) as C by (unfold is_tdigit, is_digitA; lia). rewrite C. cbn [negb]. rewrite IH by assumption. cbn [rev]. rewrite <- app_assoc. cbn [app]. f_equal.
  destruct ds as [|d ds]; [reflexivity|]. cbn. clear. revert d. induction ds as [|e ds IH]; intros d; [reflexivity|]. apply IH.
Qed.
Lemma last_tdigit ds prev : is_tdigit prev = true -> Forall (fun c => 48 <= c <= 57) ds -> is_tdigit (last ds prev) = true.
Proof.
  intros Hp Hd. revert prev Hp. induction Hd as [|c ds Hc Hd IH]; intros prev Hp; [exact Hp|]. destruct ds as [|d ds]; [cbn; unfold is_tdigit, is_digitA; lia|]. apply IH, Hp.
Qed.
Lemma last_app_ne (l : list Z) x d : last (l ++ [x]) d = x.
Proof. induction l as [|a l IH]; [reflexivity|]. cbn [app]. destruct (l ++ [x])%list eqn:E; [now destruct l|]. exact IH. Qed.
Lemma last_rev_run (c : Z) ds : last (rev ds ++ [c]) 0 = c. Proof. apply last_app_ne. Qed.
Definition dig (s : str) : token := {| tk_text := s; tk_type := TDigit |}.
Definition oth (s : str) : token := {| tk_text := s; tk_type := TOther |}.
Lemma is_sep p : separator p -> is_tdigit p = false /\ is_tletter p = false.
Proof. intros [-> | [-> | [-> | ->]]]; split; reflexivity. Qed.
Lemma tok_number_sep a ds p rest : 48 <= a <= 57 -> Forall (fun c => 48 <= c <= 57) ds -> separator p ->
  tok_loop a [a] (ds ++ p :: rest) = dig (a :: ds) :: tok_loop p [p] rest.
Proof.
  intros Ha Hd Hp. assert (TA : is_tdigit a = true) by (unfold is_tdigit, is_digitA; lia). rewrite tok_run by assumption. cbn [tok_loop]. unfold compare_chars.
  rewrite (last_tdigit ds a TA Hd). rewrite (proj1 (is_sep p Hp)). cbn [negb]. unfold dig. do 2 f_equal. rewrite rev_app_distr, rev_involutive. cbn [rev app].
  apply encode_asc. constructor; [lia|]. eapply Forall_impl; [|exact Hd]. cbn. lia.
Qed.
Lemma tok_sep p b rest : separator p -> 48 <= b <= 57 -> tok_loop p [p] (b :: rest) = oth [p] :: tok_loop b [b] rest.
Proof.
  intros Hp Hb. cbn [tok_loop]. unfold compare_chars. destruct (is_sep p Hp) as [-> ->]. assert (is_tdigit b = true) as -> by (unfold is_tdigit, is_digitA; lia). cbn [orb rev app].
  destruct Hp as [-> | [-> | [-> | ->]]]; reflexivity.
Qed.
Lemma tok_number_end a ds : 48 <= a <= 57 -> Forall (fun c => 48 <= c <= 57) ds -> tok_loop a [a] ds = [dig (a :: ds)].
Proof.
  intros Ha Hd. assert (TA : is_tdigit a = true) by (unfold is_tdigit, is_digitA; lia). rewrite <- (app_nil_r ds). rewrite tok_run by assumption. cbn [tok_loop]. rewrite last_rev_run. unfold compare_chars. rewrite TA. cbn [fst].
  rewrite app_nil_r, rev_app_distr, rev_involutive. cbn [rev app]. unfold dig. do 2 f_equal. apply encode_asc. constructor; [lia|]. eapply Forall_impl; [|exact Hd]. cbn. lia.
Qed.
Lemma tokenize_three A p B q C : digits A -> digits B -> digits C -> separator p -> separator q ->
  tokenize (three A p B q C) = [dig A; oth [p]; dig B; oth [q]; dig C].
Proof.
  intros HA HB HC Hp Hq. unfold tokenize. rewrite runes_asc by (now apply three_asc). unfold three.
  destruct HA as [NA HA], HB as [NB HB], HC as [NC HC]. destruct A as [|a A]; [congruence|]. destruct B as [|b B]; [congruence|]. destruct C as [|c C]; [congruence|].
  inversion HA; inversion HB; inversion HC; subst. cbn [app]. destruct (A ++ p :: b :: B ++ q :: c :: C) as [|x l] eqn:EA; [now destruct A|]. rewrite <- EA.
  rewrite tok_number_sep by assumption. rewrite tok_sep by assumption. rewrite tok_number_sep by assumption. rewrite tok_sep by assumption. now rewrite tok_number_end by assumption.
Qed.
(** the separators lose their text if they are spaces *)
Definition sep_text (p : Z) : str := if p =? 32 then [] else [p].
Lemma trim_digits s : digits s -> trim_space s = s.
Proof. intros H. apply (trim_kind TDigit). now apply digits_tdigit. Qed.
Lemma trimmed_three A p B q C : digits A -> digits B -> digits C -> separator p -> separator q ->
  trimmed_tokens (three A p B q C) = [dig A; oth (sep_text p); dig B; oth (sep_text q); dig C].
Proof.
  intros HA HB HC Hp Hq. unfold trimmed_tokens. rewrite tokenize_three by assumption. cbn [map dig oth tk_text tk_type].
  rewrite (trim_digits A HA), (trim_digits B HB), (trim_digits C HC).
  assert (SP : forall c, separator c -> trim_space [c] = sep_text c) by (intros c [-> | [-> | [-> | ->]]]; reflexivity).
  rewrite !SP by assumption. reflexivity.
Qed.

(** ** No time of day is seen *)
Section E.
Variable E : env.
Hypothesis UA : uni_ascii (e_uni E).
Notation U := (e_uni E).

Definition is_ap (c : Z) : bool := is_alphaA c || (c =? 43) || (c =? 58).
Lemma digits_lack s : digits s -> lacks is_ap s.
Proof. intros [_ H]. eapply Forall_impl; [|exact H]. cbn beta. intros c Hc. unfold is_ap, is_alphaA, is_upperA, is_lowerA. lia. Qed.
Lemma no_meridian s : digits s -> find_string U rxMeridian s = [].
Proof. intros H. apply (lacks_find_string is_ap); [exact UA | vm_compute; reflexivity | now apply digits_lack]. Qed.
Lemma no_colon s : digits s -> contains s (lit ":") = false.
Proof.
  intros [_ H]. unfold contains. change (lit ":") with [58]. assert (index s [58] = None) as ->; [|reflexivity].
  induction H as [|c s Hc _ IH]; [reflexivity|]. cbn [index has_prefix]. assert (58 =? c = false) as -> by lia. cbn [andb]. now rewrite IH.
Qed.
Lemma filtered_three A B C x y : filtered [dig A; oth x; dig B; oth y; dig C] = [(dig A, 0%nat); (dig B, 2%nat); (dig C, 4%nat)].
Proof. reflexivity. Qed.
Lemma no_time A p B q C i ft : digits A -> digits B -> digits C -> separator p -> separator q -> nth_error [(dig A, 0%nat); (dig B, 2%nat); (dig C, 4%nat)] i = Some ft ->
  (p = 46 <-> q = 46) ->
  try_time E [dig A; oth (sep_text p); dig B; oth (sep_text q); dig C] [(dig A, 0%nat); (dig B, 2%nat); (dig C, 4%nat)] i ft = {| tt_text := None; tt_ftext := tk_text (fst ft); tt_skip := [] |}.
Proof.
  intros HA HB HC Hp Hq HN PQ. set (toks := [dig A; _; _; _; _]). set (fts := [(dig A, 0%nat); _; _]).
  assert (DT : dotted_time E toks fts i ft = None).
  { unfold dotted_time. destruct i as [|[|[|i]]]; cbn [nth_error fts] in *; try discriminate; assert (ft = ft) by reflexivity.
    - assert (ft = (dig A, 0%nat)) by congruence. subst ft. unfold is_before_period, is_after_period, nth_text. cbn [snd toks nth_error oth tk_text negb andb]. rewrite andb_true_r.
      destruct (eqs (sep_text p) period_txt) eqn:EP; [|reflexivity]. cbn [length Nat.eqb pred orb].
      assert (p = 46) by (destruct Hp as [-> | [-> | [-> | ->]]]; try discriminate EP; reflexivity). assert (q = 46) by tauto. subst. reflexivity.
    - assert (ft = (dig B, 2%nat)) by congruence. subst ft. unfold is_before_period, is_after_period, nth_text. cbn [snd toks nth_error oth tk_text].
      destruct (eqs (sep_text q) period_txt) eqn:EQ; [|reflexivity]. assert (q = 46) by (destruct Hq as [-> | [-> | [-> | ->]]]; try discriminate EQ; reflexivity). assert (p = 46) by tauto. subst. reflexivity.
    - reflexivity.
    - destruct i; discriminate. }
  assert (TD : digits (tk_text (fst ft))).
  { apply nth_error_In in HN. destruct HN as [<-|[<-|[<-|[]]]]; assumption. }
  assert (MP : micro_part E toks fts i (tk_text (fst ft)) = []).
  { unfold micro_part. rewrite no_colon by exact TD. cbn [andb]. match goal with |- match ?x with _ => _ end = _ => destruct x as [[nt k]|]; reflexivity end. }
  assert (MD : match @nth_error ftoken fts (S i) with Some (mt, _) => find_string U rxMeridian (tk_text mt) | None => [] end = []).
  { destruct i as [|[|[|i]]]; cbn [nth_error fts dig tk_text]; try (now apply no_meridian); try reflexivity. }
  unfold try_time. rewrite DT. cbv iota beta zeta. rewrite MP. cbn [empty]. rewrite MD. rewrite no_colon by exact TD. reflexivity.
Qed.

(** ** The three numbers are taken in the given order *)
Variable H : hooks.
Definition dstep (dirs : list (comp * list string)) (text : str) (a : ast) : option ast :=
  match digit_token H a text dirs with None => None | Some (a, rs) => Some (fold_left (save_result text) rs a) end.
Lemma digits_not_skipped s : digits s -> skipped_token s = false.
Proof.
  intros [Hn HF]. destruct s as [|c s]; [congruence|]. inversion HF; subst. unfold skipped_token.
  destruct (mem (c :: s) _) eqn:M; [|reflexivity]. exfalso. unfold mem in M. apply existsb_exists in M as (w & Hw & Ew). apply eqs_eq in Ew. subst w.
  cbn [In lit] in Hw. destruct Hw as [Hw|[Hw|[Hw|[Hw|[]]]]]; injection Hw as <- _; lia.
Qed.
Lemma step_three dirs A p B q C i ft a : digits A -> digits B -> digits C -> separator p -> separator q -> (p = 46 <-> q = 46) ->
  nth_error [(dig A, 0%nat); (dig B, 2%nat); (dig C, 4%nat)] i = Some ft -> a_skipidx a = [] ->
  init_step E H dirs [dig A; oth (sep_text p); dig B; oth (sep_text q); dig C] [(dig A, 0%nat); (dig B, 2%nat); (dig C, 4%nat)] i ft a = dstep dirs (tk_text (fst ft)) a.
Proof.
  intros HA HB HC Hp Hq PQ HN HS. unfold init_step. rewrite HS. cbn [existsb].
  assert (TD : digits (tk_text (fst ft)) /\ tk_type (fst ft) = TDigit) by (apply nth_error_In in HN; destruct HN as [<-|[<-|[<-|[]]]]; auto).
  destruct TD as [TD TY]. rewrite digits_not_skipped by exact TD. rewrite no_time by assumption. cbv zeta. cbn [tt_text tt_ftext tt_skip]. rewrite TY.
  assert (add_skip a [] = a) as -> by (destruct a; reflexivity). reflexivity.
Qed.

(** the texts of day, month and year, and what they mean *)
Record parts (td tm ty : str) (d m y : Z) : Prop := {
  pa_d : h_value H CDay td "2" = Some d; pa_m : h_value H CMonth tm "1" = Some m; pa_y : h_value H CYear ty "2006" = Some y;
  pa_d0 : d <> 0; pa_m0 : m <> 0; pa_y0 : y <> 0; pa_4 : slen ty = 4;
  pa_yd : h_value H CDay ty "2" = None; pa_ym : h_value H CMonth ty "1" = None }.
Definition orders : list string := ["DMY"; "DYM"; "MDY"; "MYD"; "YDM"; "YMD"]%string.
(** the texts in the order of the date *)
Definition arranged (order : string) (td tm ty : str) : list str :=
  map (fun c => if c =? 68 then td else if c =? 77 then tm else ty) (lit order).
Definition final (td tm ty : str) (d m y : Z) (a : ast) : Prop :=
  a_vals a = {| cm_day := Some d; cm_month := Some m; cm_year := Some y; cm_wd := None |} /\
  a_toks a = {| cm_day := Some (dig td); cm_month := Some (dig tm); cm_year := Some (dig ty); cm_wd := None |} /\
  a_time a = None /\ a_unset a = [].
Definition dirs_of (o : string) : list (comp * list string) := map (fun c => if c =? 68 then (CDay, ["2"%string]) else if c =? 77 then (CMonth, ["1"%string]) else (CYear, ["2006"%string; "06"%string])) (lit o).
Lemma number_directives_lit o : In o orders -> number_directives E (lit o) = dirs_of o.
Proof. intros HO. repeat (destruct HO as [<-|HO]; [vm_compute; reflexivity|]). destruct HO. Qed.
Lemma dsteps order td tm ty d m y : In order orders -> parts td tm ty d m y ->
  exists A B C a1 a2 a3, arranged order td tm ty = [A; B; C] /\
    dstep (number_directives E (lit order)) A ast0 = Some a1 /\ a_skipidx a1 = [] /\
    dstep (number_directives E (lit order)) B a1 = Some a2 /\ a_skipidx a2 = [] /\
    dstep (number_directives E (lit order)) C a2 = Some a3 /\ final td tm ty d m y a3.
Proof.
  intros HO [Pd Pm Py Nd Nm Ny L4 Yd Ym]. apply Z.eqb_neq in Nd, Nm, Ny. apply Z.eqb_eq in L4.
  assert (ST : forall o X Y Z, arranged o td tm ty = [X; Y; Z] ->
      (exists a1 a2 a3, dstep (number_directives E (lit o)) X ast0 = Some a1 /\ a_skipidx a1 = [] /\
        dstep (number_directives E (lit o)) Y a1 = Some a2 /\ a_skipidx a2 = [] /\
        dstep (number_directives E (lit o)) Z a2 = Some a3 /\ final td tm ty d m y a3) ->
      exists A B C a1 a2 a3, arranged o td tm ty = [A; B; C] /\ dstep (number_directives E (lit o)) A ast0 = Some a1 /\ a_skipidx a1 = [] /\
        dstep (number_directives E (lit o)) B a1 = Some a2 /\ a_skipidx a2 = [] /\
        dstep (number_directives E (lit o)) C a2 = Some a3 /\ final td tm ty d m y a3).
  { intros o X Y Z HA (a1 & a2 & a3 & K). exists X, Y, Z, a1, a2, a3. split; assumption. }
  destruct HO as [<-|[<-|[<-|[<-|[<-|[<-|[]]]]]]].
  1: apply (ST "DMY"%string td tm ty eq_refl). 2: apply (ST "DYM"%string td ty tm eq_refl). 3: apply (ST "MDY"%string tm td ty eq_refl). 4: apply (ST "MYD"%string tm ty td eq_refl). 5: apply (ST "YDM"%string ty td tm eq_refl). 6: apply (ST "YMD"%string ty tm td eq_refl).
  all: clear ST.
  all: rewrite number_directives_lit by (unfold orders; cbn [In]; tauto).
  all: match goal with |- context [dirs_of ?o] => let x := eval vm_compute in (dirs_of o) in change (dirs_of o) with x end.
  all: unfold dstep; destruct (h_value H CDay tm "2") eqn:Dm, (h_value H CMonth td "1") eqn:Md.
  all: do 3 eexists.
  all: repeat (split; [
    repeat (cbn [digit_token digit_directives a_skipyear ast0 a_vals a_toks cget cm0 cm_day cm_month cm_year cm_wd comp_eqb andb orb set_tok add_unset save_result fold_left fst snd cset tk_type tk_text ttype_eqb];
      rewrite ?Pd, ?Pm, ?Py, ?Nd, ?Nm, ?Ny, ?L4, ?Yd, ?Ym, ?Dm, ?Md; rewrite ?Z.eqb_refl, ?andb_false_r); reflexivity | split; [reflexivity|]]).
  all: repeat split.
Qed.
Lemma fallback_final td tm ty d m y a : final td tm ty d m y a -> fallback a = a.
Proof. intros (HV & _ & _ & _). unfold fallback. cbn [fold_left]. 
  assert (F : forall c, In c [CDay; CMonth; CYear] -> fallback1 a c = a) by (intros c Hc; unfold fallback1, chas, cget; rewrite HV; repeat (destruct Hc as [<-|Hc]; [reflexivity|]); destruct Hc).
  rewrite (F CDay), (F CMonth), (F CYear) by (cbn [In]; tauto). reflexivity.
Qed.
Lemma init_three cfg order td tm ty d m y A p B q C : c_order cfg = lit order -> In order orders -> parts td tm ty d m y ->
  arranged order td tm ty = [A; B; C] -> digits td -> digits tm -> digits ty -> separator p -> separator q -> (p = 46 <-> q = 46) ->
  exists a, abs_init E H cfg (three A p B q C) = Some a /\ final td tm ty d m y a.
Proof.
  intros HC HO HP HA Dd Dm Dy Sp Sq PQ. destruct (dsteps order td tm ty d m y HO HP) as (A' & B' & C' & a1 & a2 & a3 & HA' & S1 & K1 & S2 & K2 & S3 & HF).
  rewrite HA in HA'. assert (A' = A /\ B' = B /\ C' = C) as (-> & -> & ->) by (injection HA' as -> -> ->; auto). exists a3. split; [|exact HF].
  assert (DD : digits A /\ digits B /\ digits C).
  { assert (F : Forall digits [A; B; C]). { rewrite <- HA. unfold arranged. apply Forall_forall. intros x Hx. apply in_map_iff in Hx as (c & <- & _). destruct (c =? 68); [assumption|]. destruct (c =? 77); assumption. }
    inversion F as [|? ? ? F1]; inversion F1 as [|? ? ? F2]; inversion F2; auto. }
  destruct DD as (DA & DB & DC). unfold abs_init. rewrite three_sanitize by assumption. destruct (three A p B q C) as [|x l] eqn:ET; [unfold three in ET; destruct A; [destruct DA; congruence|discriminate ET]|]. rewrite <- ET. clear ET x l.
  rewrite trimmed_three by assumption. rewrite filtered_three. cbn [init_loop].
  rewrite (step_three _ A p B q C 0 (dig A, 0%nat)) by (assumption || reflexivity). rewrite HC. cbn [fst dig tk_text]. rewrite S1.
  rewrite (step_three _ A p B q C 1 (dig B, 2%nat)) by (assumption || reflexivity). cbn [fst dig tk_text]. rewrite S2.
  rewrite (step_three _ A p B q C 2 (dig C, 4%nat)) by (assumption || reflexivity). cbn [fst dig tk_text]. rewrite S3. cbn [option_map]. f_equal. eapply fallback_final, HF.
Qed.
End E.
