(** The absolute parser on three numbers, with years of two or four digits (generalises the end of NumericFacts) *)
From Coq Require Import ZifyBool.
From Verif Require Import GoBase Regex RegexFacts3 GoTime Setting Strutil Tokenizer Env Common Absolute AbsFacts2 NumericFacts.

Section E.
Variable E : env.
Hypothesis UA : uni_ascii (e_uni E).
Variable H : hooks.

(** the value of a text under the first directive that accepts it *)
Fixpoint firstv (c : comp) (t : str) (ds : list string) : option Z :=
  match ds with [] => None | d :: ds' => match h_value H c t d with Some v => Some v | None => firstv c t ds' end end.
(** the text [t], already taken for [c], is kept when [t'] comes *)
Definition kept (c : comp) (ds : list string) (t t' : str) : Prop := Forall (fun d => h_value H c t' d = None \/ h_value H c t d <> None) ds.

Lemma takes a c t ds v : firstv c t ds = Some v -> cget (a_vals a) c = None -> digit_directives H a c t ds = Some (set_tok a c (dig t) false, [(c, v)]).
Proof.
  intros HV HN. induction ds as [|d ds IH]; [discriminate HV|]. cbn [firstv digit_directives] in *. destruct (h_value H c t d) as [w|]; [|auto]. rewrite HN. assert (w = v) by congruence. subst w. reflexivity.
Qed.
Lemma keeps a c t t' ds v : kept c ds t t' -> cget (a_vals a) c = Some v -> v <> 0 -> cget (a_toks a) c = Some (dig t) -> digit_directives H a c t' ds = None.
Proof.
  intros HK HV Hv HT. induction HK as [|d ds [N|N] _ IH]; [reflexivity| |]; cbn [digit_directives].
  - now rewrite N.
  - destruct (h_value H c t' d); [|exact IH]. rewrite HV, HT. assert (v =? 0 = false) as -> by lia. cbn [dig tk_type tk_text ttype_eqb]. destruct (h_value H c t d); [exact IH|congruence].
Qed.

Lemma take1 a c t ds v rest : firstv c t ds = Some v -> cget (a_vals a) c = None -> a_skipyear a && comp_eqb c CYear = false ->
  digit_token H a t ((c, ds) :: rest) = Some (set_tok a c (dig t) false, [(c, v)]).
Proof. intros HV HN HS. cbn [digit_token]. rewrite HS, (takes _ _ _ _ _ HV HN). reflexivity. Qed.
Lemma pass1 a c t t' ds v rest : a_skipyear a && comp_eqb c CYear = true \/ kept c ds t t' -> cget (a_vals a) c = Some v -> v <> 0 -> cget (a_toks a) c = Some (dig t) ->
  digit_token H a t' ((c, ds) :: rest) = digit_token H a t' rest.
Proof.
  intros HK HV Hv HT. cbn [digit_token]. destruct HK as [-> | HK]; [reflexivity|]. destruct (_ && _); [reflexivity|]. now rewrite (keeps _ _ _ _ _ _ HK HV Hv HT).
Qed.

Record parts2 (td tm ty : str) (d m y : Z) : Prop := {
  p2_d : h_value H CDay td "2" = Some d; p2_m : h_value H CMonth tm "1" = Some m; p2_y : firstv CYear ty ["2006"; "06"]%string = Some y;
  p2_d0 : d <> 0; p2_m0 : m <> 0; p2_y0 : y <> 0;
  p2_keep : slen ty = 4 \/ (kept CYear ["2006"; "06"]%string ty td /\ kept CYear ["2006"; "06"]%string ty tm) }.

Ltac sk := cbn [a_skipyear set_tok save_result ast0 fst snd comp_eqb]; rewrite ?andb_false_r, ?andb_true_r, ?orb_false_r; reflexivity.
Ltac stp := repeat (lazymatch goal with
  | |- context [digit_token H ?a _ ((?c, _) :: _)] =>
    let v := eval cbv in (cget (a_vals a) c) in
    lazymatch v with Some _ => erewrite pass1; [|solve [right; auto | match goal with K : _ |- _ => apply K end; [solve [auto]|sk]] |reflexivity|assumption|reflexivity] end end);
  erewrite take1 by first [eassumption | reflexivity | apply andb_false_r | sk]; cbn [fold_left]; reflexivity.
Lemma dsteps2 order td tm ty d m y : In order orders -> parts2 td tm ty d m y ->
  exists A B C a1 a2 a3, arranged order td tm ty = [A; B; C] /\
    dstep H (number_directives E (lit order)) A ast0 = Some a1 /\ a_skipidx a1 = [] /\
    dstep H (number_directives E (lit order)) B a1 = Some a2 /\ a_skipidx a2 = [] /\
    dstep H (number_directives E (lit order)) C a2 = Some a3 /\ final td tm ty d m y a3.
Proof.
  intros HO [Pd Pm Py Nd Nm Ny PK].
  assert (FD : firstv CDay td ["2"%string] = Some d) by (cbn [firstv]; now rewrite Pd).
  assert (FM : firstv CMonth tm ["1"%string] = Some m) by (cbn [firstv]; now rewrite Pm).
  assert (KD : forall t, kept CDay ["2"%string] td t) by (intros t; constructor; [right; rewrite Pd; discriminate|constructor]).
  assert (KM : forall t, kept CMonth ["1"%string] tm t) by (intros t; constructor; [right; rewrite Pm; discriminate|constructor]).
  assert (KY : forall t a, t = td \/ t = tm -> a_skipyear a = (slen ty =? 4) -> a_skipyear a && comp_eqb CYear CYear = true \/ kept CYear ["2006"; "06"]%string ty t).
  { intros t a Ht Ha. destruct PK as [L|[K1 K2]]; [left; rewrite Ha; cbn; lia|right; destruct Ht; now subst]. }
  assert (ST : forall o X Y Z, arranged o td tm ty = [X; Y; Z] ->
      (exists a1 a2 a3, dstep H (number_directives E (lit o)) X ast0 = Some a1 /\ a_skipidx a1 = [] /\
        dstep H (number_directives E (lit o)) Y a1 = Some a2 /\ a_skipidx a2 = [] /\
        dstep H (number_directives E (lit o)) Z a2 = Some a3 /\ final td tm ty d m y a3) ->
      exists A B C a1 a2 a3, arranged o td tm ty = [A; B; C] /\ dstep H (number_directives E (lit o)) A ast0 = Some a1 /\ a_skipidx a1 = [] /\
        dstep H (number_directives E (lit o)) B a1 = Some a2 /\ a_skipidx a2 = [] /\
        dstep H (number_directives E (lit o)) C a2 = Some a3 /\ final td tm ty d m y a3).
  { intros o X Y Z HA (a1 & a2 & a3 & K). exists X, Y, Z, a1, a2, a3. split; assumption. }
  destruct HO as [<-|[<-|[<-|[<-|[<-|[<-|[]]]]]]].
  1: apply (ST "DMY"%string td tm ty eq_refl). 2: apply (ST "DYM"%string td ty tm eq_refl). 3: apply (ST "MDY"%string tm td ty eq_refl). 4: apply (ST "MYD"%string tm ty td eq_refl). 5: apply (ST "YDM"%string ty td tm eq_refl). 6: apply (ST "YMD"%string ty tm td eq_refl).
  all: clear ST.
  all: rewrite number_directives_lit by (unfold orders; cbn [In]; tauto).
  all: match goal with |- context [dirs_of ?o] => let x := eval vm_compute in (dirs_of o) in change (dirs_of o) with x end.
  all: unfold dstep.
  all: do 3 eexists.
  all: split; [stp|split; [reflexivity|]].
  all: split; [stp|split; [reflexivity|]].
  all: split; [stp|].
  all: repeat split.
Qed.
Lemma init_three2 cfg order td tm ty d m y A p B q C : c_order cfg = lit order -> In order orders -> parts2 td tm ty d m y ->
  arranged order td tm ty = [A; B; C] -> digits td -> digits tm -> digits ty -> separator p -> separator q -> (p = 46 <-> q = 46) ->
  exists a, abs_init E H cfg (three A p B q C) = Some a /\ final td tm ty d m y a.
Proof.
  intros HC HO HP HA Dd Dm Dy Sp Sq PQ. destruct (dsteps2 order td tm ty d m y HO HP) as (A' & B' & C' & a1 & a2 & a3 & HA' & S1 & K1 & S2 & K2 & S3 & HF).
  rewrite HA in HA'. assert (A' = A /\ B' = B /\ C' = C) as (-> & -> & ->) by (injection HA' as -> -> ->; auto). exists a3. split; [|exact HF].
  assert (DD : digits A /\ digits B /\ digits C).
  { assert (F : Forall digits [A; B; C]). { rewrite <- HA. unfold arranged. apply Forall_forall. intros x Hx. apply in_map_iff in Hx as (c & <- & _). destruct (c =? 68); [assumption|]. destruct (c =? 77); assumption. }
    inversion F as [|? ? ? F1]; inversion F1 as [|? ? ? F2]; inversion F2; auto. }
  destruct DD as (DA & DB & DC). unfold abs_init. rewrite three_sanitize by assumption. destruct (three A p B q C) as [|x l] eqn:ET; [unfold three in ET; destruct A; [destruct DA; congruence|discriminate ET]|]. rewrite <- ET. clear ET x l.
  rewrite trimmed_three by assumption. rewrite filtered_three. cbn [init_loop].
  rewrite (step_three E UA H _ A p B q C 0 (dig A, 0%nat)) by (assumption || reflexivity). rewrite HC. cbn [fst dig tk_text]. rewrite S1.
  rewrite (step_three E UA H _ A p B q C 1 (dig B, 2%nat)) by (assumption || reflexivity). cbn [fst dig tk_text]. rewrite S2.
  rewrite (step_three E UA H _ A p B q C 2 (dig C, 4%nat)) by (assumption || reflexivity). cbn [fst dig tk_text]. rewrite S3. cbn [option_map]. f_equal. eapply fallback_final, HF.
Qed.
End E.
