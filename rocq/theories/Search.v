(** search.go *)
From Verif Require Import GoBase SMap Regex GoTime Setting Strutil Env Language Parser.

(** splitters, relativeWords (search.go:19-22) *)
Definition splitters : list str := Eval vm_compute in [lit ","; lit "،"; lit "——"; lit "—"; lit "–"; lit "."; lit " "].
Definition relative_words : list str :=
  Eval vm_compute in [lit "ago"; lit "in"; lit "from now"; lit "tomorrow"; lit "today"; lit "yesterday"].

(** SearchResult (search.go:24-27), parsedSearch (:29-32), splitResult (:34-37) *)
Record search_result := { sr_date : date; sr_text : str }.
Definition parsed_search := (date * bool)%type.
Record split_result := { sp_entry : list str; sp_orig : list str }.

(** splitBy (search.go:297-330): grouping of [n] consecutive parts, the last group may be shorter *)
Fixpoint group_parts (fuel n : nat) (parts : list str) (sep : str) : list str :=
  match fuel with
  | O => []
  | S f => match parts with
           | [] => []
           | _ => sjoin (firstn n parts) sep :: group_parts f n (skipn n parts) sep
           end
  end.
(** originalParts[j:end] is sliced with bounds computed from the entry parts: a panic if there are fewer of them.
    The caller only splits when both have the same number of separators. *)
Definition split_by (entry original sep : str) : list split_result :=
  let ep := split entry sep in
  let op := split original sep in
  {| sp_entry := ep; sp_orig := op |} ::
  (if Nat.leb (count entry sep) 2 then []
   else map (fun i => {| sp_entry := group_parts (length ep) i ep sep; sp_orig := group_parts (length ep) i op sep |}) [2%nat; 3%nat]).

(** splitIfNotParsed (search.go:284-295) *)
Definition split_if_not_parsed (entry original : str) : list split_result :=
  flat_map (fun sep => if contains entry sep && Nat.eqb (count entry sep) (count original sep)
                       then split_by entry original sep else []) splitters.

(** chooseBestSplit (search.go:332-395). The ratios are float64 quotients of counts below 2^26, for which comparing the
    quotients is comparing the fractions; they are compared exactly here (an empty split has ratio 0/1). *)
Record rating := { rt_index : nat; rt_n : nat; rt_notparsed : nat; rt_nodigit : nat }.
Definition rt_den (r : rating) : nat := Nat.max 1 (rt_n r).
Definition ratio_lt (a b : rating) (f : rating -> nat) : bool := Nat.ltb (f a * rt_den b) (f b * rt_den a).
Definition ratio_eq (a b : rating) (f : rating -> nat) : bool := Nat.eqb (f a * rt_den b) (f b * rt_den a).
Definition rating_lt (a b : rating) : bool :=
  if negb (ratio_eq a b rt_notparsed) then ratio_lt a b rt_notparsed
  else if negb (Nat.eqb (rt_n a) (rt_n b)) then Nat.ltb (rt_n a) (rt_n b)
  else if negb (ratio_eq a b rt_nodigit) then ratio_lt a b rt_nodigit
  else false.
Definition count_if {A} (f : A -> bool) (l : list A) : nat := length (filter f l).

Section S.
Variable E : env.
Variable D : langdb.
Variable det : option (str -> list str).
Notation U := (e_uni E).

Definition has_digit (s : str) : bool := existsb (u_isNd U) (runes s).
Definition rate (i : nat) (c : list (parsed_search * str)) : rating :=
  {| rt_index := i; rt_n := length c;
     rt_notparsed := count_if (fun x => date_is_zero (fst (fst x))) c;
     rt_nodigit := count_if (fun x => negb (has_digit (snd x))) c |}.
Definition choose_best_split (cands : list (list (parsed_search * str))) : list (parsed_search * str) :=
  let ratings := map (fun p => rate (fst p) (snd p)) (combine (seq 0 (length cands)) cands) in
  match sort_by rating_lt ratings with
  | [] => []
  | r :: _ => nth (rt_index r) cands []
  end.

(** getRelativeBase (search.go:266-282): the last result that is not relative *)
Definition relative_base (parsed : list parsed_search) : time :=
  match List.find (fun p => negb (snd p)) (rev parsed) with
  | Some p => d_time (fst p)
  | None => zero_time
  end.

(** [strings.ReplaceAll(strings.ReplaceAll(entry, "ngày", ""), "am", "")] (search.go:236-237) *)
Definition clean_entry (entry : str) : str := replace_all (replace_all entry (lit "ngày") []) (lit "am") [].
Definition is_relative_text (translation : str) : bool := existsb (fun w => contains translation w) relative_words.

(** the date of [dt, _ := p.Parse(cfg, entry)] *)
Definition parse_date (p : pstate) (cfg : uconfig) (entry : str) : res (pstate * date) :=
  match parse E D det p cfg entry [] with
  | (p', Ok (d, _)) => Ok (p', d)
  | (_, Err e) => Err e
  | (_, Panic) => Panic
  end.
Definition with_unow (c : uconfig) (t : time) : uconfig :=
  {| u_locales := u_locales c; u_languages := u_languages c; u_region := u_region c; u_try_prev := u_try_prev c;
     u_given_order := u_given_order c; u_deflang := u_deflang c; u_order := u_order c; u_now := t; u_tz := u_tz c;
     u_pday := u_pday c; u_pmonth := u_pmonth c; u_src := u_src c; u_strict := u_strict c; u_required := u_required c;
     u_skip := u_skip c; u_timeperiod := u_timeperiod c; u_preserve := u_preserve c |}.

(** parseEntry (search.go:234-264). iCfg is passed by pointer: its CurrentTime is overwritten by a relative base. All the
    Parse calls of one Search are given the same clock reading (a simplification that only matters when CurrentTime is
    unset). *)
Definition parse_entry (p : pstate) (icfg : config) (entry translation : str) (parsed : list parsed_search) (need_base : bool)
  : res (pstate * config * parsed_search) :=
  let entry := clean_entry entry in
  let cfg := of_internal icfg in
  do (p, d) <- parse_date p cfg entry ;
  let base := if need_base then relative_base parsed else zero_time in
  if is_zero base then Ok (p, icfg, (d, is_relative_text translation))
  else
    do (p, d) <- parse_date p (with_unow cfg base) entry ;
    Ok (p, with_now icfg base, (d, is_relative_text translation)).

(** search.go:191-210: one possible split *)
Fixpoint parse_split (p : pstate) (icfg : config) (need_base : bool) (parts : list (str * str)) (acc : list (parsed_search * str))
  : res (pstate * config * list (parsed_search * str)) :=
  match parts with
  | [] => Ok (p, icfg, acc)
  | (e, o) :: r =>
    if Nat.leb (rune_count e) 2 then parse_split p icfg need_base r acc
    else
      do (p, icfg, ps) <- parse_entry p icfg e e (map fst acc) need_base ;
      parse_split p icfg need_base r (acc ++ [(ps, trim_chars o (lit " .,:()[]-"))])
  end.
Fixpoint parse_splits (p : pstate) (icfg : config) (need_base : bool) (sps : list split_result)
  : res (pstate * config * list (list (parsed_search * str))) :=
  match sps with
  | [] => Ok (p, icfg, [])
  | sp :: r =>
    do (p, icfg, c) <- parse_split p icfg need_base (combine (sp_entry sp) (sp_orig sp)) [] ;
    do (p, icfg, cs) <- parse_splits p icfg need_base r ;
    Ok (p, icfg, c :: cs)
  end.

(** parseFoundObjects (search.go:156-232); an item of [l] is (entry, translation, original) *)
Fixpoint parse_found (p : pstate) (icfg : config) (need_base : bool) (l : list (str * str * str)) (acc : list (parsed_search * str))
  : res (pstate * list (parsed_search * str)) :=
  match l with
  | [] => Ok (p, acc)
  | (entry, translation, original) :: r =>
    if Nat.leb (rune_count entry) 2 then parse_found p icfg need_base r acc
    else
      do (p, icfg, ps) <- parse_entry p icfg entry translation (map fst acc) need_base ;
      if negb (date_is_zero (fst ps)) then
        parse_found p icfg need_base r (acc ++ [(ps, trim_chars original (lit " .,:()[]-'"))])
      else match split_if_not_parsed entry original with
      | [] => parse_found p icfg need_base r acc
      | sps =>
        do (p, icfg, cands) <- parse_splits p icfg need_base sps ;
        let best := choose_best_split cands in
        parse_found p icfg need_base r (acc ++ filter (fun x => negb (date_is_zero (fst (fst x)))) best)
      end
  end.

(** initSearchConfig (search.go:113-131) *)
Definition init_search_config (cfg0 : uconfig) : option uconfig :=
  let cfg := initiate (e_now E) cfg0 in
  if negb (validate U cfg) then None
  else Some (if is_zero (u_now cfg0) then with_unow cfg zero_time else cfg).

(** SearchWithLanguage (search.go:78-111) *)
Definition search_with_language (p : pstate) (cfg0 : uconfig) (lang text : str)
  : res (pstate * (list search_result * option goerr)) :=
  match init_search_config cfg0 with
  | None => Ok (p, ([], Some EConfig))
  | Some cfg =>
    let icfg := to_internal cfg in
    match db_get D lang with
    | None => Ok (p, ([], Some EUnknownLang))
    | Some ld =>
      do (translation, original) <- translate_search E icfg ld text ;
      let use_translation := (negb (eqs lang (lit "vi")) && negb (eqs lang (lit "hu"))) || eqs (ld_name ld) (lit "en") in
      let entries := if use_translation then translation else original in
      do (p, found) <- parse_found p icfg (is_zero (c_now icfg)) (combine (combine entries translation) original) [] ;
      Ok (p, (map (fun x => {| sr_date := with_locale (fst (fst x)) lang; sr_text := snd x |}) found, None))
    end
  end.

(** initUniqueCharsets (search.go:133-154) *)
Definition init_charsets (p : pstate) (languages : list str) : pstate :=
  let cur := match p_charsets p with Some m => m | None => [] end in
  if negb (Nat.eqb (length cur) (length languages)) || existsb (fun l => negb (mhas cur l)) languages
  then with_charsets p (unique_charsets D languages)
  else with_charsets p cur.
Definition charsets_of (p : pstate) : smap (list Z) := match p_charsets p with Some m => m | None => [] end.

(** Search (search.go:48-76) *)
Definition search (p : pstate) (cfg0 : uconfig) (text : str) : res (pstate * (str * list search_result * option goerr)) :=
  match init_search_config cfg0 with
  | None => Ok (p, ([], [], Some EConfig))
  | Some cfg =>
    let cfgl := match u_languages cfg, det with [], Some f => f text | l, _ => l end in
    match get_languages E D (u_locales cfg) cfgl (u_given_order cfg) with
    | Panic => Panic
    | Err e => Ok (p, ([], [], Some e))
    | Ok languages =>
      let p := init_charsets p languages in
      match detect_language E D (to_internal cfg) text languages (charsets_of p) with
      | Panic => Panic
      | Err e => Ok (p, ([], [], Some e))
      | Ok lang =>
        do (p, (rs, err)) <- search_with_language p cfg lang text ;
        Ok (p, (lang, rs, err))
      end
    end
  end.
End S.
