(** internal/parser/nospace *)
From Verif Require Import GoBase Regex GoTime GoTimeParse Setting Strutil Dateutil Tokenizer Env Common.

(** nospace/constants.go:16-17 *)
Definition rxCompatible : regex := Eval vm_compute in rxc "\D+".
Definition rxEightDigit : regex := Eval vm_compute in rxc "^\d{8}$".

(** formatMapping (nospace/constants.go:19-24): key, part *)
Definition format_mapping : list (string * string) := [("d", "day"); ("m", "month"); ("y", "year"); ("Y", "year")]%string.
(** nospace/constants.go:26-47 *)
Definition date_formats : list string :=
  ["Ymd"; "Ydm"; "mYd"; "mdY"; "dYm"; "dmY"; "ymd"; "ydm"; "myd"; "mdy"; "dym"; "dmy"]%string.
Definition ns_time_formats : list string := ["HMS"; "HM"; "H"]%string.
Definition preferred_formats : list string := ["YmdHM"; "YmdHMS"]%string.
Definition preferred8 : list string := ["01022006"; "02012006"; "20060102"; "20060201"; "01200602"; "02200601"]%string.
(** allFormats (nospace/constants.go:49-61) *)
Definition all_formats : list string :=
  (date_formats ++ flat_map (fun d => map (fun t => String.append d t) ns_time_formats) date_formats ++ ns_time_formats)%list.

(** createSortedFormats (nospace/constants.go:83-94): a stable sort by "has the prefix" is a stable partition. The formats are
    ASCII. *)
Definition has_order_prefix (prefix : string) (f : string) : bool := has_prefix (lit prefix) (map lowerA (lit f)).
Definition sorted_formats (prefix : string) : list string :=
  (filter (has_order_prefix prefix) all_formats ++ filter (fun f => negb (has_order_prefix prefix f)) all_formats)%list.
(** dateTimeFormats (nospace/constants.go:63-75) *)
Definition datetime_formats (order : str) : option (list string) :=
  if eqs order (lit "mdy") then Some (preferred_formats ++ sorted_formats "mdy")%list
  else if eqs order (lit "myd") then Some (sorted_formats "myd")
  else if eqs order (lit "ymd") then Some (sorted_formats "ymd")
  else if eqs order (lit "ydm") then Some (sorted_formats "ydm")
  else if eqs order (lit "dmy") then Some (sorted_formats "dmy")
  else if eqs order (lit "dym") then Some (sorted_formats "dym")
  else None.

(** a format letter; partSizeMap (nospace/constants.go:77-80) *)
Inductive part : Set := FY | Fy | Fm | Fd | FH | FM | FS.
Definition part_of (c : Z) : option part :=
  if c =? 89 then Some FY else if c =? 121 then Some Fy else if c =? 109 then Some Fm else if c =? 100 then Some Fd
  else if c =? 72 then Some FH else if c =? 77 then Some FM else if c =? 83 then Some FS else None.
Definition part_size (p : part) : Z := match p with FY => 4 | _ => 2 end.
Definition part_eqb (a b : part) : bool :=
  match a, b with FY, FY | Fy, Fy | Fm, Fm | Fd, Fd | FH, FH | FM, FM | FS, FS => true | _, _ => false end.
Definition format_parts (f : string) : list part :=
  flat_map (fun c => match part_of c with Some p => [p] | None => [] end) (lit f).

(** number of permutations of the following parts (nospace/constants.go:111-125) *)
Fixpoint perm_count (ps : list part) : Z := match ps with [] => 1 | p :: ps' => part_size p * perm_count ps' end.
(** the limits of permutation [i] (nospace/constants.go:134-148): ceil((i+1)/n), reduced to 1..size. The float division is
    exact: all factors are powers of two. *)
Fixpoint limits_at (ps : list part) (i : Z) : list Z :=
  match ps with
  | [] => []
  | p :: ps' =>
    let n := perm_count ps' in
    let limit := (i + n) / n in
    let size := part_size p in
    let limit := if size <? limit then (if limit mod size =? 0 then size else limit mod size) else limit in
    limit :: limits_at ps' i
  end.
(** limitPermutations (nospace/constants.go:128-153): stored in reverse *)
Definition limit_permutations (ps : list part) : list (list Z) :=
  rev (map (fun i => limits_at ps (Z.of_nat i)) (seq 0 (Z.to_nat (perm_count ps)))).
Definition zsum (l : list Z) : Z := fold_right Z.add 0 l.

(** valueIsValid (nospace/constants.go:201-218) *)
Definition value_valid (p : part) (v : Z) : bool :=
  match p with
  | FY => 1000 <=? v
  | Fy => (0 <=? v) && (v <=? 99)
  | Fm => (0 <? v) && (v <=? 12)
  | Fd => (0 <? v) && (v <=? 31)
  | FH => (0 <=? v) && (v <? 24)
  | FM | FS => (0 <=? v) && (v <? 60)
  end.

(** cutting the digits by the limits (nospace/constants.go:166-180): texts and values, None = continue candidate_loop *)
Fixpoint cut (s : str) (ps : list part) (limits : list Z) : option (list (part * str * Z)) :=
  match ps, limits with
  | p :: ps', l :: limits' =>
    let n := Z.to_nat l in
    let text := firstn n s in
    match atoi text with
    | None => None
    | Some v =>
      if negb (value_valid p v) then None
      else option_map (cons (p, text, v)) (cut (skipn n s) ps' limits')
    end
  | _, _ => Some []
  end.
Definition part_value (l : list (part * str * Z)) (p : part) : option Z :=
  option_map snd (List.find (fun x => part_eqb p (fst (fst x))) l).

Section E.
Variable E : env.
Notation U := (e_uni E).

(** time.Now().Year() *)
Definition clock_year : Z := year (in_loc (e_now E) (e_local E)).
(** candidateIsValid (nospace/constants.go:220-255) *)
Definition guess_year (y : Z) : Z :=
  let cur := clock_year in
  let cent := Z.quot cur 1000 * 1000 in
  if y <? cur - cent then y + cent else y + (cent - 100).
Definition candidate_year (l : list (part * str * Z)) : option Z :=
  match part_value l FY with
  | Some y => Some y
  | None => option_map guess_year (part_value l Fy)
  end.
Definition candidate_valid (l : list (part * str * Z)) : bool :=
  match candidate_year l, part_value l Fm, part_value l Fd with
  | Some y, Some m, Some d => negb ((d <? 1) || (get_last_day_of_month y m <? d))
  | _, _, _ => false
  end.

(** createParseCandidates (nospace/constants.go:102-199): candidates and Go layout *)
Definition candidates (s : str) (ps : list part) : list (list (part * str * Z)) :=
  flat_map (fun limits => if zsum limits =? slen s
                          then match cut s ps limits with
                               | Some l => if candidate_valid l then [l] else []
                               | None => []
                               end
                          else []) (limit_permutations ps).
Definition candidate_text (l : list (part * str * Z)) : str := sjoin (map (fun x => snd (fst x)) l) (lit "-").
(** the chain of ReplaceAll (nospace/constants.go:188-196) replaces each format letter, see [go_format_ok] *)
Definition part_layout (p : part) : str :=
  lit (match p with FY => "2006" | Fy => "06" | Fm => "1" | Fd => "2" | FH => "15" | FM => "4" | FS => "5" end).
Definition go_format (ps : list part) : str := sjoin (map part_layout ps) (lit "-").

(** getPeriodFromFormat (nospace/parser.go:114-128) *)
Definition period_of_format (f : string) : period :=
  if existsb (fun k => contains (lit f) (lit k)) ["02"; "d"; "H"; "M"; "S"; "f"]%string then PDay
  else if existsb (fun k => contains (lit f) (lit k)) ["01"; "m"]%string then PMonth
  else PYear.

(** isEligible (nospace/parser.go:97-100) *)
Definition is_eligible (s : str) : bool :=
  let m := find_string U rxCompatible s in empty m || eqs m (lit ":").

(** findBestMatchingDate (nospace/parser.go:102-112) *)
Fixpoint find_best (fs : list string) (s : str) : option date :=
  match fs with
  | [] => None
  | f :: fs' =>
    match time_parse (e_local E) (lit f) s with
    | Some t => if negb (is_zero t) && (1000 <=? year t) then Some (mkd (period_of_format f) t) else find_best fs' s
    | None => find_best fs' s
    end
  end.

(** missing parts of a format (nospace/parser.go:74-79); a set in the source *)
Definition ns_missing (f : string) : list str :=
  flat_map (fun '(k, p) => if contains (lit f) (lit k) then [] else [lit p]) format_mapping.

(** the three nested loops (nospace/parser.go:51-88) over (format, candidate) pairs; [inl d] = return d, [inr a] = ambiguousDate *)
Fixpoint ns_cands (cfg : config) (f : string) (layout : str) (cs : list (list (part * str * Z))) (amb : date) : date + date :=
  match cs with
  | [] => inr amb
  | c :: cs' =>
    match time_parse (e_local E) layout (candidate_text c) with
    | None => ns_cands cfg f layout cs' amb
    | Some t =>
      if is_zero t then ns_cands cfg f layout cs' amb
      else
        let dt := mkd (period_of_format f) t in
        if year t <? 1000 then ns_cands cfg f layout cs' dt
        else if negb (check_strict cfg (ns_missing f)) then ns_cands cfg f layout cs' amb
        else inl dt
    end
  end.
Fixpoint ns_formats (cfg : config) (text : str) (fs : list string) (amb : date) : date + date :=
  match fs with
  | [] => inr amb
  | f :: fs' =>
    let ps := format_parts f in
    match ns_cands cfg f (go_format ps) (candidates text ps) amb with
    | inl d => inl d
    | inr amb' => ns_formats cfg text fs' amb'
    end
  end.
Fixpoint ns_tokens (cfg : config) (fs : list string) (toks : list token) (amb : date) : date + date :=
  match toks with
  | [] => inr amb
  | t :: toks' =>
    if ttype_eqb (tk_type t) TDigit then
      match ns_formats cfg (tk_text t) fs amb with
      | inl d => inl d
      | inr amb' => ns_tokens cfg fs toks' amb'
      end
    else ns_tokens cfg fs toks' amb
  end.

(** Parse (nospace/parser.go:17-95) *)
Definition nospace_parse (cfg : config) (s0 : str) : res date :=
  if negb (is_eligible s0) then Err ENoParse
  else
    let s := replace_all (sanitize_spaces s0) (lit ":") [] in
    if empty s then Err EEmpty
    else
      let best := if empty (c_order cfg) && match_string U rxEightDigit s then find_best preferred8 s else None in
      match best with
      | Some d => Ok d
      | None =>
        let order := if empty (c_order cfg) then lit "mdy" else to_lower U (c_order cfg) in
        match datetime_formats order with
        | None => Err ENoParse
        | Some fs =>
          match ns_tokens cfg fs (tokenize s) zero_date with
          | inl d => Ok d
          | inr amb => if date_is_zero amb then Err ENoParse else Ok amb
          end
        end
      end.
End E.

(** the chain of strings.ReplaceAll over the joined format letters (nospace/constants.go:188-196) gives [go_format], for every format *)
Definition part_letter (p : part) : str := lit (match p with FY => "Y" | Fy => "y" | Fm => "m" | Fd => "d" | FH => "H" | FM => "M" | FS => "S" end).
Definition go_format_chain (ps : list part) : str :=
  let f := sjoin (map part_letter ps) (lit "-") in
  let f := replace_all f (lit "Y") (lit "2006") in
  let f := replace_all f (lit "y") (lit "06") in
  let f := replace_all f (lit "m") (lit "1") in
  let f := replace_all f (lit "d") (lit "2") in
  let f := replace_all f (lit "H") (lit "15") in
  let f := replace_all f (lit "M") (lit "4") in
  replace_all f (lit "S") (lit "5").
Lemma go_format_ok :
  forallb (fun f => eqs (go_format (format_parts f)) (go_format_chain (format_parts f))) (preferred_formats ++ all_formats)%list = true.
Proof. vm_compute. reflexivity. Qed.
