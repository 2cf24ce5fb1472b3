(** A faster way to check the shapes of many texts in one locale *)
From Coq Require Import ZifyBool.
From Verif Require Import GoBase SMap Regex RegexFacts RegexFacts2 RegexFacts3 Setting Strutil Tokenizer Timezone Env Common Absolute Language RegexWiden TextRename TextFront TextActs TextParse TextForms.

(** every relative pattern of the locale needs a digit and something that is no digit *)
Definition rel_patterns_mixed (ld : locale) : bool := forallb (fun p => needs is_digitA (rx_ast (fst p)) && needs (fun c => negb (is_digitA c)) (rx_ast (fst p))) (ld_relrx ld).
Definition quick_plain (ld : locale) (t : str) : bool :=
  if ascb t then if no_digit t || forallb is_digitA t then match mget (ld_reltype ld) t with None => true | Some _ => false end else false else false.
Definition quick_translate (ld : locale) (keep : bool) (token : str) : list str :=
  match mget (ld_trans ld) token with
  | Some ts => map (fun t => if empty t && keep then token else t) ts
  | None => [token]
  end.
Lemma quick_relative ld t : rel_patterns_mixed ld = true -> ascb t = true -> no_digit t || forallb is_digitA t = true -> forall p, In p (ld_relrx ld) -> match_string uni_min (fst p) t = false.
Proof.
  intros HM HA HT p HI. unfold rel_patterns_mixed in HM. rewrite forallb_forall in HM. specialize (HM p HI). apply andb_true_iff in HM as [M1 M2]. apply ascb_asc in HA. apply orb_true_iff in HT as [HT|HT].
  - apply (lacks_match is_digitA uni_min min_ascii _ _ M1). unfold lacks, asc in *. unfold no_digit in HT. rewrite forallb_forall in HT. rewrite Forall_forall in *. intros c Hc. split; [now apply HA|]. apply HT in Hc. now apply negb_true_iff.
  - apply (lacks_match (fun c => negb (is_digitA c)) uni_min min_ascii _ _ M2). unfold lacks, asc in *. rewrite forallb_forall in HT. rewrite Forall_forall in *. intros c Hc. split; [now apply HA|]. apply HT in Hc. now rewrite Hc.
Qed.
Lemma quick_plain_ok ld t : rel_patterns_mixed ld = true -> quick_plain ld t = true -> plain_token ld [] t = true /\ forall k, translate_token emin ld [] k t = quick_translate ld k t.
Proof.
  intros HM. unfold quick_plain. destruct (ascb t) eqn:A; [|discriminate]. destruct (no_digit t || forallb is_digitA t) eqn:T; [|discriminate]. destruct (mget (ld_reltype ld) t) eqn:G; [discriminate|]. intros _.
  pose proof (quick_relative ld t HM A T) as Q. split.
  - unfold plain_token. rewrite G. cbn [mem]. apply orb_true_iff. right. rewrite andb_true_r. apply forallb_forall. intros p HI. now rewrite Q.
  - intros k. unfold translate_token. cbn [mem existsb]. rewrite find_none by (intros p HI; exact (Q p HI)). unfold translate_word, quick_translate. now rewrite G.
Qed.
Definition fast_analysis (ld : locale) (s : str) (k : bool) : option (list str * list str) :=
  match lsplit emin ld s k [] with
  | Ok toks => if forallb (quick_plain ld) toks then
      match create_permutation [] (map (quick_translate ld k) toks) with Ok ps => Some (toks, map (finish_translation k) ps) | _ => None end
    else None
  | _ => None
  end.
Definition fast_text (fw ws : list regex) (ld : locale) (names : list str) (s : str) (l : list action) : bool :=
  if ascb s && spaced s && negb (last s 0 =? 58) then
  if (fun shs => forallb (fun r => negb (match_string uni_min r shs)) fw) (map sh s) then
  if forallb (fun r => negb (match_string uni_min r s)) ws then
    match fast_analysis ld s false with
    | Some (toks, [t]) => match fast_analysis ld s true with
      | Some (toks2, _) => if quiet t then if forallb (fun t => mem t always_kept) toks then false else if forallb (known_min ld) toks then
          if forallb (token_ok names) (toks ++ toks2) then actions_eqb (actions emin t) l else false else false else false
      | None => false end
    | _ => false
    end
  else false else false else false.
Lemma fast_analysis_ok ws ld s k r : rel_patterns_mixed ld = true -> forallb (fun r => negb (match_string uni_min r s)) ws = true -> fast_analysis ld s k = Some r -> analysis_with ws ld s k = Some r.
Proof.
  intros HM HW. unfold fast_analysis, analysis_with. rewrite HW. destruct (lsplit emin ld s k []) as [toks|e|]; try discriminate. destruct (forallb (quick_plain ld) toks) eqn:Q; [|discriminate]. rewrite forallb_forall in Q.
  assert (forallb (plain_token ld []) toks = true) as -> by (apply forallb_forall; intros t HI; exact (proj1 (quick_plain_ok ld t HM (Q t HI)))).
  assert (map (translate_token emin ld [] k) toks = map (quick_translate ld k) toks) as -> by (apply map_ext_in; intros t HI; exact (proj2 (quick_plain_ok ld t HM (Q t HI)) k)). exact (fun x => x).
Qed.
Lemma fast_text_ok ld names s l : rel_patterns_mixed ld = true -> fast_text (map (widened sh) front_patterns) (widened_simpl ld) ld names s l = true -> ok_text (widened_simpl ld) ld names s l = true.
Proof.
  intros HM. unfold fast_text, ok_text, shape_with, tidy. cbv beta. destruct (ascb s && spaced s && negb (last s 0 =? 58)); [|discriminate]. rewrite forallb_map_. unfold shapeless. cbn [andb].
  destruct (forallb _ front_patterns); [|discriminate]. destruct (forallb _ (widened_simpl ld)) eqn:W; [|discriminate].
  destruct (fast_analysis ld s false) as [[toks [|t [|]]]|] eqn:F1; try discriminate. destruct (fast_analysis ld s true) as [[toks2 ts2]|] eqn:F2; [|discriminate].
  rewrite (fast_analysis_ok _ ld s false _ HM W F1), (fast_analysis_ok _ ld s true _ HM W F2). destruct (quiet t); [|discriminate]. destruct (forallb (fun t => mem t always_kept) toks); [discriminate|]. destruct (forallb (known_min ld) toks); [|discriminate]. exact (fun x => x).
Qed.
