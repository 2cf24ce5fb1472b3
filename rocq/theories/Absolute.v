(** internal/parser/absolute *)
From Verif Require Import GoBase Regex GoTime GoTimeParse Setting Strutil Dateutil Tokenizer Timezone Env Common.

(** absolute/parser.go:20-22 *)
Definition rxHourMinute : regex := Eval vm_compute in rxc "^([0-9]|0[0-9]|1[0-9]|2[0-3]):[0-5][0-9]$".
Definition rxMicrosecond : regex := Eval vm_compute in rxc "\d{1,6}".
Definition rxMeridian : regex := Eval vm_compute in rxc "(?i)am|pm".

(** component names "day", "month", "year", "weekday" (keys of ComponentValues) *)
Inductive comp : Set := CDay | CMonth | CYear | CWeekday.
Definition comp_eqb (a b : comp) : bool :=
  match a, b with CDay, CDay | CMonth, CMonth | CYear, CYear | CWeekday, CWeekday => true | _, _ => false end.

(** a map from components: ComponentValues, ComponentTokens (the extra key "time" of the latter is separate) *)
Record cmap (A : Type) := { cm_day : option A; cm_month : option A; cm_year : option A; cm_wd : option A }.
Arguments cm_day {A}. Arguments cm_month {A}. Arguments cm_year {A}. Arguments cm_wd {A}.
Definition cm0 {A} : cmap A := {| cm_day := None; cm_month := None; cm_year := None; cm_wd := None |}.
Definition cget {A} (m : cmap A) (c : comp) : option A :=
  match c with CDay => cm_day m | CMonth => cm_month m | CYear => cm_year m | CWeekday => cm_wd m end.
Definition cset {A} (m : cmap A) (c : comp) (v : A) : cmap A :=
  match c with
  | CDay => {| cm_day := Some v; cm_month := cm_month m; cm_year := cm_year m; cm_wd := cm_wd m |}
  | CMonth => {| cm_day := cm_day m; cm_month := Some v; cm_year := cm_year m; cm_wd := cm_wd m |}
  | CYear => {| cm_day := cm_day m; cm_month := cm_month m; cm_year := Some v; cm_wd := cm_wd m |}
  | CWeekday => {| cm_day := cm_day m; cm_month := cm_month m; cm_year := cm_year m; cm_wd := Some v |}
  end.
Definition chas {A} (m : cmap A) (c : comp) : bool := match cget m c with Some _ => true | None => false end.

(** the mutable part of absolute.Parser during Init (absolute/parser.go:49-60). ParsedTime stays zero during Init, so the guard
    [p.ParsedTime.IsZero()] of line 144 always holds. *)
Record ast := {
  a_vals : cmap Z;
  a_toks : cmap token;
  a_time : option token;          (* ComponentTokens["time"] *)
  a_order : list comp;            (* AutoOrder *)
  a_unset : list token;           (* UnsetTokens *)
  a_skipyear : bool;              (* SkippedComponent = "year" *)
  a_skipidx : list nat }.         (* SkippedIndexes *)
Definition ast0 : ast :=
  {| a_vals := cm0; a_toks := cm0; a_time := None; a_order := []; a_unset := []; a_skipyear := false; a_skipidx := [] |}.

(** the three function members of absolute.Parser; [h_create] may not return an error for Hijri, see Hijri.v *)
Record hooks := {
  h_params : cmap Z -> time -> Z * Z * Z;                                  (* FnGetDateTimeParams: year, month, day *)
  h_create : config -> Z -> Z -> Z -> Z -> Z -> Z -> Z -> location -> res time;  (* FnCreateDateTime: Y M D h m s ns loc *)
  h_value : comp -> str -> string -> option Z }.                           (* FnGetDatePartValue component token directive *)

Section E.
Variable E : env.
Variable H : hooks.
Notation U := (e_uni E).

(** alphaDirectives (absolute/parser.go:24-27), in map iteration order *)
Definition alpha_directives : list (comp * list string) :=
  let w := (CWeekday, ["Monday"; "Mon"]%string) in
  let m := (CMonth, ["January"; "Jan"]%string) in
  if e_wd_first E then [w; m] else [m; w].

(** Components / NumberDirectives from the date order (absolute/parser.go:116-130) *)
Definition number_directives (order : str) : list (comp * list string) :=
  flat_map (fun r => if r =? 100 then [(CDay, ["2"]%string)]
                     else if r =? 109 then [(CMonth, ["1"]%string)]
                     else if r =? 121 then [(CYear, ["2006"; "06"]%string)]
                     else [])
           (runes (to_lower U order)).

(** setAndReturn (absolute/parser.go:343-353) *)
Definition set_tok (a : ast) (c : comp) (tok : token) (skipOrder : bool) : ast :=
  {| a_vals := a_vals a; a_toks := cset (a_toks a) c tok; a_time := a_time a;
     a_order := if skipOrder then a_order a else a_order a ++ [c];
     a_unset := a_unset a; a_skipyear := a_skipyear a; a_skipidx := a_skipidx a |}.
Definition add_unset (a : ast) (tok : token) : ast :=
  {| a_vals := a_vals a; a_toks := a_toks a; a_time := a_time a; a_order := a_order a;
     a_unset := a_unset a ++ [tok]; a_skipyear := a_skipyear a; a_skipidx := a_skipidx a |}.

Definition results := list (comp * Z).

(** inner loop of parseDigitToken (absolute/parser.go:374-389) *)
Fixpoint digit_directives (a : ast) (c : comp) (text : str) (ds : list string) : option (ast * results) :=
  match ds with
  | [] => None
  | d :: ds' =>
    match h_value H c text d with
    | None => digit_directives a c text ds'
    | Some v =>
      let tok := {| tk_text := text; tk_type := TDigit |} in
      let prevValue := match cget (a_vals a) c with Some x => x | None => 0 end in
      let prevTok := match cget (a_toks a) c with Some t => t | None => tk_null end in
      if prevValue =? 0 then Some (set_tok a c tok false, [(c, v)])
      else if ttype_eqb (tk_type prevTok) TDigit then
        match h_value H c (tk_text prevTok) d with
        | None => Some (set_tok (add_unset a prevTok) c tok false, [(c, v)])
        | Some _ => digit_directives a c text ds'
        end
      else digit_directives a c text ds'
    end
  end.
(** parseDigitToken (absolute/parser.go:355-393) *)
Fixpoint digit_token (a : ast) (text : str) (dirs : list (comp * list string)) : option (ast * results) :=
  match dirs with
  | [] => None
  | (c, ds) :: dirs' =>
    if a_skipyear a && comp_eqb c CYear then digit_token a text dirs'
    else match digit_directives a c text ds with
         | Some r => Some r
         | None => digit_token a text dirs'
         end
  end.

Definition replace_first_month (l : list comp) : option (list comp) :=
  (fix go (l : list comp) : option (list comp) :=
     match l with
     | [] => None
     | CMonth :: l' => Some (CDay :: l')
     | c :: l' => option_map (cons c) (go l')
     end) l.
(** inner loop of parseLetterToken (absolute/parser.go:412-441). [p.ComponentTokens["day"] = p.ComponentTokens["month"]] stores
    the zero token if there is no month token. *)
Fixpoint letter_directives (a : ast) (c : comp) (text : str) (ds : list string) : option (ast * results) :=
  match ds with
  | [] => None
  | d :: ds' =>
    match h_value H c text d with
    | None => letter_directives a c text ds'
    | Some v =>
      let tok := {| tk_text := text; tk_type := TLetter |} in
      let prevValue := match cget (a_vals a) c with Some x => x | None => 0 end in
      if prevValue =? 0 then Some (set_tok a c tok true, [(c, v)])
      else if comp_eqb c CMonth then
        match replace_first_month (a_order a) with
        | None => letter_directives a c text ds'
        | Some order' =>
          let mt := match cm_month (a_toks a) with Some t => t | None => tk_null end in
          Some ({| a_vals := a_vals a; a_toks := cset (cset (a_toks a) CDay mt) CMonth tok; a_time := a_time a;
                   a_order := order'; a_unset := a_unset a; a_skipyear := a_skipyear a; a_skipidx := a_skipidx a |},
                [(CMonth, v); (CDay, prevValue)])
        end
      else letter_directives a c text ds'
    end
  end.
(** parseLetterToken (absolute/parser.go:395-445); SkippedComponent is "" or "year", never a key of alphaDirectives *)
Fixpoint letter_token (a : ast) (text : str) (dirs : list (comp * list string)) : option (ast * results) :=
  match dirs with
  | [] => None
  | (c, ds) :: dirs' =>
    match letter_directives a c text ds with
    | Some r => Some r
    | None => letter_token a text dirs'
    end
  end.

(** saving the results (absolute/parser.go:242-247) *)
Definition save_result (text : str) (a : ast) (r : comp * Z) : ast :=
  {| a_vals := cset (a_vals a) (fst r) (snd r); a_toks := a_toks a; a_time := a_time a; a_order := a_order a;
     a_unset := a_unset a;
     a_skipyear := a_skipyear a || ((slen text =? 4) && comp_eqb (fst r) CYear);
     a_skipidx := a_skipidx a |}.

(** FilteredToken (absolute/parser.go:32-35) *)
Definition ftoken := (token * nat)%type.
Definition filtered (toks : list token) : list ftoken :=
  filter (fun ft => match tk_type (fst ft) with TOther => false | _ => true end) (combine toks (seq 0 (length toks))).

(** SkippedTokens (absolute/parser.go:103) *)
Definition skipped_token (text : str) : bool := mem text [lit "t"; lit "year"; lit "hour"; lit "minute"].

Definition nth_text (toks : list token) (i : nat) : str := match nth_error toks i with Some t => tk_text t | None => [] end.
Definition first_digit_index (toks : list token) (text : str) : option nat :=
  (fix go (i : nat) (l : list token) : option nat :=
     match l with
     | [] => None
     | t :: l' => if eqs (tk_text t) text && ttype_eqb (tk_type t) TDigit then Some i else go (S i) l'
     end) O toks.

Definition period_txt : str := lit ".".
(** time detection for the filtered token at [index] (absolute/parser.go:144-227): the time text and the extra skipped indexes, or
    None with the indexes skipped and the text, when it is not a time *)
Definition is_before_period (toks : list token) (oi : nat) : bool := eqs (nth_text toks (S oi)) period_txt.
Definition is_after_period (toks : list token) (oi : nat) : bool :=
  match oi with O => false | S k => eqs (nth_text toks k) period_txt end.

(** hours and minutes separated by a period (absolute/parser.go:147-174): the joined text, if taken *)
Definition dotted_time (toks : list token) (fts : list ftoken) (index : nat) (ft : ftoken) : option str :=
  match nth_error fts (S index) with
  | None => None
  | Some (nt, noi) =>
    if is_before_period toks (snd ft) && negb (is_after_period toks (snd ft)) then
      let nextIsLast := Nat.eqb (S index) (pred (length fts)) in
      let notPeriod := match nth_error toks (S noi) with None => true | Some t => negb (eqs (tk_text t) period_txt) end in
      if nextIsLast || notPeriod then
        let nt' := tk_text (fst ft) ++ lit ":" ++ tk_text nt in
        if match_string U rxHourMinute nt' then Some nt' else None
      else None
    else None
  end.

(** microsecond (absolute/parser.go:176-193); [text] is the possibly joined text *)
Definition micro_part (toks : list token) (fts : list ftoken) (index : nat) (text : str) : str :=
  match nth_error fts (S index) with
  | None => []
  | Some (nt, _) =>
    (* not found: nextOriginalIndex + 1 = -1, so there is no token *)
    let nextText := match first_digit_index toks text with Some i => nth_text toks (S i) | None => [] end in
    if contains text (lit ":") && contains nextText (lit ".") then find_string U rxMicrosecond (tk_text nt) else []
  end.

Record time_try := { tt_text : option str; tt_ftext : str; tt_skip : list nat }.
Definition try_time (toks : list token) (fts : list ftoken) (index : nat) (ft : ftoken) : time_try :=
  let '(text, skip0, midx) :=
    match dotted_time toks fts index ft with
    | Some t => (t, [S index], S (S index))
    | None => (tk_text (fst ft), [], S index)
    end in
  let micro := micro_part toks fts index text in
  let midx := if empty micro then midx else S midx in
  let meridian := match nth_error fts midx with Some (mt, _) => find_string U rxMeridian (tk_text mt) | None => [] end in
  if contains text (lit ":") || negb (empty meridian) || negb (empty micro) then
    if negb (empty meridian) && empty micro then
      {| tt_text := Some (text ++ lit " " ++ meridian); tt_ftext := text; tt_skip := midx :: skip0 |}
    else if negb (empty micro) && empty meridian then
      {| tt_text := Some (text ++ lit "." ++ micro); tt_ftext := text; tt_skip := S index :: skip0 |}
    else if negb (empty meridian) && negb (empty micro) then
      {| tt_text := Some (text ++ lit "." ++ micro ++ lit " " ++ meridian); tt_ftext := text; tt_skip := midx :: S index :: skip0 |}
    else {| tt_text := Some text; tt_ftext := text; tt_skip := skip0 |}
  else {| tt_text := None; tt_ftext := text; tt_skip := skip0 |}.

Definition add_skip (a : ast) (l : list nat) : ast :=
  {| a_vals := a_vals a; a_toks := a_toks a; a_time := a_time a; a_order := a_order a; a_unset := a_unset a;
     a_skipyear := a_skipyear a; a_skipidx := l ++ a_skipidx a |}.
Definition set_time (a : ast) (text : str) : ast :=
  {| a_vals := a_vals a; a_toks := a_toks a; a_time := Some {| tk_text := text; tk_type := TDigit |}; a_order := a_order a;
     a_unset := a_unset a; a_skipyear := a_skipyear a; a_skipidx := a_skipidx a |}.

(** one iteration of the main loop (absolute/parser.go:133-248); None = error *)
Definition init_step (order : list (comp * list string)) (toks : list token) (fts : list ftoken) (index : nat) (ft : ftoken) (a : ast)
  : option ast :=
  if existsb (Nat.eqb index) (a_skipidx a) then Some a
  else if skipped_token (tk_text (fst ft)) then Some a
  else
    let tr := try_time toks fts index ft in
    let a := add_skip a (tt_skip tr) in
    match tt_text tr with
    | Some text => Some (set_time a text)
    | None =>
      let text := tt_ftext tr in
      let r := match tk_type (fst ft) with
               | TDigit => digit_token a text order
               | TLetter => letter_token a text alpha_directives
               | _ => Some (a, [])
               end in
      match r with
      | None => None
      | Some (a, rs) => Some (fold_left (save_result text) rs a)
      end
    end.
Fixpoint init_loop (order : list (comp * list string)) (toks : list token) (fts : list ftoken) (index : nat) (rest : list ftoken) (a : ast)
  : option ast :=
  match rest with
  | [] => Some a
  | ft :: rest' => match init_step order toks fts index ft a with
                   | None => None
                   | Some a' => init_loop order toks fts (S index) rest' a'
                   end
  end.

(** fallback for unknown components (absolute/parser.go:251-261) *)
Definition fallback1 (a : ast) (c : comp) : ast :=
  if chas (a_vals a) c then a
  else fold_left (fun a ut => if ttype_eqb (tk_type ut) TDigit
                              then {| a_vals := cset (a_vals a) c (atoi0 (tk_text ut)); a_toks := cset (a_toks a) c ut;
                                      a_time := a_time a; a_order := a_order a; a_unset := a_unset a;
                                      a_skipyear := a_skipyear a; a_skipidx := a_skipidx a |}
                              else a) (a_unset a) a.
Definition fallback (a : ast) : ast := fold_left fallback1 [CDay; CMonth; CYear] a.

(** tokens with trimmed text (absolute/parser.go:94-97) *)
Definition trimmed_tokens (s : str) : list token :=
  map (fun t => {| tk_text := trim_space (tk_text t); tk_type := tk_type t |}) (tokenize s).

(** Parser.Init (absolute/parser.go:63-264); the hooks are always defined *)
Definition abs_init (cfg : config) (s0 : str) : option ast :=
  let s := sanitize_spaces s0 in
  match s with
  | [] => None
  | _ =>
    let toks := trimmed_tokens s in
    let fts := filtered toks in
    option_map fallback (init_loop (number_directives (c_order cfg)) toks fts 0 fts ast0)
  end.
(** p.Now (absolute/parser.go:89-92) *)
Definition abs_now (cfg : config) : time := if is_zero (c_now cfg) then now_utc E else c_now cfg.

(** missing parts (absolute/parser.go:268-273) *)
Definition missing_parts (v : cmap Z) : list str :=
  (if chas v CDay then [] else [lit "day"]) ++ (if chas v CMonth then [] else [lit "month"])
  ++ (if chas v CYear then [] else [lit "year"]).

(** getCorrectLeapYear (absolute/parser.go:599-620) *)
Definition correct_leap_year (cfg : config) (y : Z) : Z :=
  if c_src cfg =? Future then get_leap_year y true
  else if c_src cfg =? Past then get_leap_year y false
  else
    let next := get_leap_year y true in
    let prev := get_leap_year y false in
    if next - y <? y - prev then next else prev.

(** weekdayNames (absolute/parser.go:29) *)
Definition weekday_names : list string := ["sun"; "mon"; "tue"; "wed"; "thu"; "fri"; "sat"]%string.
Definition wd_name (i : Z) : str := lit (nth (Z.to_nat i) weekday_names ""%string).
(** the two search loops (absolute/parser.go:470-473, 483-489); None = they never stop *)
Fixpoint wd_fwd (fuel : nat) (i : Z) (d : str) : option Z :=
  if eqs (wd_name i) d then Some 0
  else match fuel with O => None | S f => option_map (fun n => n + 1) (wd_fwd f ((i + 1) mod 7) d) end.
Fixpoint wd_bwd (fuel : nat) (i : Z) (d : str) : option Z :=
  if eqs (wd_name i) d then Some 0
  else match fuel with O => None | S f => option_map (fun n => n + 1) (wd_bwd f (if i - 1 <? 0 then 6 else i - 1) d) end.
(** steps (absolute/parser.go:462-492) *)
Definition wd_steps (src : Z) (i : Z) (d : str) : option Z :=
  if src =? Future then if eqs (wd_name i) d then Some 7 else wd_fwd 7 i d
  else if eqs (wd_name i) d then Some (if src =? Past then -7 else 0)
  else option_map Z.opp (wd_bwd 7 i d).

(** correctForTimeFrame, weekday part (absolute/parser.go:461-495) *)
Definition ctf_weekday (cfg : config) (a : ast) (t : time) : res time :=
  match cm_wd (a_toks a) with
  | Some wt =>
    if negb (chas (a_toks a) CYear) && negb (chas (a_toks a) CMonth) && negb (chas (a_toks a) CDay) then
      if slen (tk_text wt) <? 3 then Panic   (* tokenWeekday.Text[:3] out of range *)
      else match wd_steps (c_src cfg) (weekday t) (to_lower U (firstn 3 (tk_text wt))) with
           | Some n => Ok (add_date t 0 0 n)
           | None => Panic                   (* endless loop in the source *)
           end
    else Ok t
  | None => Ok t
  end.
(** missing year (absolute/parser.go:497-517) *)
Definition ctf_month (cfg : config) (a : ast) (now t : time) : time :=
  if chas (a_vals a) CMonth && negb (chas (a_vals a) CYear) then
    let y := year t in
    let y := if before now t then (if c_src cfg =? Past then y - 1 else y)
             else (if c_src cfg =? Future then y + 1 else y) in
    let y := if (day t =? 29) && (month t =? 2) && negb (is_leap_year y) then correct_leap_year cfg y else y in
    mk_date y (month t) (day t) (hour t) (minute t) (second t) (nanosecond t) (t_loc t)
  else t.
(** two digit year (absolute/parser.go:519-529) *)
Definition ctf_year2 (cfg : config) (a : ast) (now t : time) : time :=
  match cm_year (a_toks a) with
  | Some yt =>
    if slen (tk_text yt) =? 2 then
      if before now t then (if c_src cfg =? Past then add_date t (-100) 0 0 else t)
      else (if c_src cfg =? Future then add_date t 100 0 0 else t)
    else t
  | None => t
  end.
(** time only (absolute/parser.go:531-546) *)
Definition is_some {A} (o : option A) : bool := match o with Some _ => true | None => false end.
Definition ctf_time (cfg : config) (a : ast) (tz : offset_data) (now t : time) : time :=
  if is_some (a_time a) && negb (chas (a_toks a) CYear) && negb (chas (a_toks a) CMonth) && negb (chas (a_toks a) CDay)
     && negb (chas (a_toks a) CWeekday)
  then
    let off := match od_is_zero tz, c_tz cfg with
               | true, Some l => off_at l (t_sec t)
               | _, _ => od_off tz
               end in
    let tmp := add t (- off * 1000000000) in
    let t := if (c_src cfg =? Past) && before now tmp then add_date t 0 0 (-1) else t in
    if (c_src cfg =? Future) && after now tmp then add_date t 0 0 1 else t
  else t.
(** correctForTimeFrame (absolute/parser.go:447-549) *)
Definition correct_time_frame (cfg : config) (a : ast) (tz : offset_data) (now t : time) : res time :=
  do t <- ctf_weekday cfg a t ;
  Ok (ctf_time cfg a tz now (ctf_year2 cfg a now (ctf_month cfg a now t))).

(** correctForDay (absolute/parser.go:551-561) *)
Definition correct_day (cfg : config) (a : ast) (now t : time) : time :=
  if chas (a_toks a) CDay || is_some (a_time a) || chas (a_toks a) CWeekday then t
  else apply_day E cfg t (Some (day now)).
(** correctForMonth (absolute/parser.go:563-580) *)
Definition correct_month (cfg : config) (a : ast) (now t : time) : time :=
  if chas (a_toks a) CMonth then t
  else if chas (a_toks a) CWeekday && negb (chas (a_toks a) CYear) && negb (chas (a_toks a) CDay) then t
  else apply_month E cfg t (Some (month now)).
(** getPeriod (absolute/parser.go:582-597) *)
Definition get_period (v : cmap Z) : period :=
  if chas v CDay then PDay else if chas v CMonth then PMonth else if chas v CYear then PYear else PDay.

(** Parser.Parse (absolute/parser.go:266-327) *)
Definition abs_finish (cfg : config) (a : ast) (tz : offset_data) : res date :=
  if negb (check_strict cfg (missing_parts (a_vals a))) then Err EStrict
  else
    do tp <- match a_time a with
             | None => Ok None
             | Some tk => match parse_time E (tk_text tk) with Some p => Ok (Some p) | None => Err ENoParse end
             end ;
    let now := abs_now cfg in
    let '(Y, M, D) := h_params H (a_vals a) now in
    let '(h, mi, s, ns) := match tp with
                           | Some (t, _) => (hour t, minute t, second t, nanosecond t)
                           | None => (0, 0, 0, 0)
                           end in
    do dt <- h_create H cfg Y M D h mi s ns (t_loc now) ;
    do dt <- correct_time_frame cfg a tz now dt ;
    let dt := correct_month cfg a now dt in
    let dt := correct_day cfg a now dt in
    let per := get_period (a_vals a) in
    let per := match tp with
               | Some (_, tper) => if c_timeperiod cfg then period_min per tper else per
               | None => per
               end in
    Ok (mkd per dt).

(** Init followed by Parse *)
Definition abs_run (cfg : config) (s : str) (tz : offset_data) : res date :=
  match abs_init cfg s with
  | None => Err ENoParse
  | Some a => abs_finish cfg a tz
  end.
End E.

(** getDateTimeParams (absolute/root.go:28-50) *)
Definition or_default (o : option Z) (d : Z) : Z :=
  match o with Some v => if v =? 0 then d else v | None => d end.
Definition greg_params (v : cmap Z) (now : time) : Z * Z * Z :=
  (or_default (cm_year v) (year now), or_default (cm_month v) (month now), or_default (cm_day v) (day now)).
(** createDateTime (absolute/root.go:52-68) *)
Definition greg_create (cfg : config) (Y M D h mi s ns : Z) (loc : location) : res time :=
  let Y := if (D =? 29) && (M =? 2) && negb (is_leap_year Y) then correct_leap_year cfg Y else Y in
  let lastDay := get_last_day_of_month Y M in
  let D := if lastDay <? D then lastDay else D in
  Ok (mk_date Y M D h mi s ns loc).
(** getDatePartValue (absolute/root.go:70-86) *)
Definition greg_value (E : env) (c : comp) (tok : str) (directive : string) : option Z :=
  match time_parse (e_local E) (lit directive) (to_lower (e_uni E) tok) with
  | None => None
  | Some t =>
    if is_zero t then None
    else Some (match c with CDay => day t | CWeekday => weekday t | CMonth => month t | CYear => year t end)
  end.
Definition greg_hooks (E : env) : hooks :=
  {| h_params := greg_params; h_create := greg_create; h_value := greg_value E |}.
(** absolute.Parse (absolute/root.go:13-26) *)
Definition absolute_parse (E : env) (cfg : config) (s : str) (tz : offset_data) : res date :=
  abs_run E (greg_hooks E) cfg s tz.
