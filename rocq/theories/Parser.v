(** parser.go, hijri-parser.go, jalali-parser.go, root.go: the public parsing API *)
From Verif Require Import GoBase SMap Regex GoTime Setting Strutil Timezone Env Timestamp Formatted Relative Absolute NoSpace Calendars Language.

(** What a method returns: the date and the error of [return date, err] *)
Definition ret := (date * option goerr)%type.

(** ParserType (parser.go:45-65): uint8 constants *)
Definition TTimestamp : Z := 0.  Definition TNegTimestamp : Z := 1.  Definition TRelative : Z := 2.
Definition TCustom : Z := 3.     Definition TAbsolute : Z := 4.      Definition TNoSpaces : Z := 5.
Definition default_types : list Z := [TTimestamp; TNegTimestamp; TRelative; TCustom; TAbsolute; TNoSpaces].

(** Parser (parser.go:26-43). The mutex is treated in Concurrency.v; usedLocalesTracker always holds exactly the names
    of usedLocales, so only the list is kept. [p_charsets] is a nil map when None. *)
Record pstate := {
  p_types : list Z;
  p_used : list locale;
  p_charsets : option (smap (list Z)) }.
(** &Parser{ParserTypes: types} *)
Definition new_parser (types : list Z) : pstate := {| p_types := types; p_used := []; p_charsets := None |}.
Definition with_types (p : pstate) (t : list Z) : pstate :=
  {| p_types := t; p_used := p_used p; p_charsets := p_charsets p |}.
Definition with_used (p : pstate) (u : list locale) : pstate :=
  {| p_types := p_types p; p_used := u; p_charsets := p_charsets p |}.
Definition with_charsets (p : pstate) (c : smap (list Z)) : pstate :=
  {| p_types := p_types p; p_used := p_used p; p_charsets := Some c |}.

(** validateDateOrder (parser.go:334-356): the order to use, if valid. ToUpper can change the length only for
    non-ASCII letters, which are then rejected. *)
Definition validate_order (U : uni) (o : str) : option str :=
  if negb (slen o =? 3) then None
  else
    let o' := to_upper U o in
    let rs := runes o' in
    if forallb (fun r => (r =? 68) || (r =? 77) || (r =? 89)) rs
       && existsb (Z.eqb 68) rs && existsb (Z.eqb 77) rs && existsb (Z.eqb 89) rs
    then Some o' else None.

(** results in a list: the first that is not the zero date *)
Fixpoint first_date {A} (f : A -> res date) (l : list A) : res date :=
  match l with
  | [] => Ok zero_date
  | x :: l' => do d <- f x ; if date_is_zero d then first_date f l' else Ok d
  end.
(** [dt, _ := ...] : errors become the zero date *)
Definition drop_err (r : res date) : res date := match r with Err _ => Ok zero_date | r => r end.

(** applyTimezone (parser.go:311-332) *)
Definition apply_timezone (cfg : config) (dt : date) (tz : offset_data) : date :=
  if date_is_zero dt || (od_is_zero tz && match c_tz cfg with None => true | Some _ => false end) then dt
  else
    let '(name, off) := if negb (od_is_zero tz) then (od_name tz, od_off tz)
                        else match c_tz cfg with
                             | Some l => let z := zone_at l (t_sec (d_time dt)) in (z_name z, z_off z)
                             | None => ([], 0)
                             end in
    let t := d_time dt in
    with_time dt (mk_date (year t) (month t) (day t) (hour t) (minute t) (second t) (nanosecond t) (fixed_zone name off)).

Section P.
Variable E : env.
Variable D : langdb.
Notation U := (e_uni E).

(** stripBracesAndTimezones (parser.go:306-309) *)
Definition strip_tz (s : str) : str * offset_data := etz_pop E (strip_braces s).

(** tryRelativeTime (parser.go:168-176), tryCustomFormat (:178-186), tryAbsoluteTime (:188-199), tryNoSpacesTime (:201-212) *)
Definition try_relative (cfg : config) (trs : list str) : res date := first_date (fun t => Ok (relative_parse E cfg t)) trs.
Definition try_custom (cfg : config) (trs formats : list str) : res date :=
  first_date (fun t => Ok (formatted_parse E cfg t formats)) trs.
Definition abs_one (cfg : config) (translation : str) : res date :=
  let '(t, tz) := strip_tz translation in
  match t with
  | [] => Ok zero_date
  | _ => do dt <- drop_err (absolute_parse E cfg t tz) ; Ok (apply_timezone cfg dt tz)
  end.
Definition try_absolute (cfg : config) (trs : list str) : res date := first_date (abs_one cfg) trs.
Definition nospace_one (cfg : config) (translation : str) : res date :=
  let '(t, tz) := strip_tz translation in
  match t with
  | [] => Ok zero_date
  | _ => do dt <- drop_err (nospace_parse E cfg t) ; Ok (apply_timezone cfg dt tz)
  end.
Definition try_nospace (cfg : config) (trs : list str) : res date := first_date (nospace_one cfg) trs.

(** the switch of parser.go:138-151 *)
Definition try_type (cfg : config) (s : str) (trs trsf formats : list str) (ty : Z) : res date :=
  if ty =? TTimestamp then Ok (timestamp_parse E cfg s false)
  else if ty =? TNegTimestamp then Ok (timestamp_parse E cfg s true)
  else if ty =? TRelative then try_relative cfg trs
  else if ty =? TCustom then try_custom cfg trsf formats
  else if ty =? TAbsolute then try_absolute cfg trs
  else if ty =? TNoSpaces then try_nospace cfg trs
  else Ok zero_date.

(** one locale (parser.go:119-161) *)
Definition order_for (cfg : uconfig) (ld : locale) : str :=
  match u_order cfg with
  | Some f => match validate_order U (f (ld_name ld)) with Some o => o | None => ld_order ld end
  | None => ld_order ld
  end.
Definition try_locale (cfg : uconfig) (icfg : config) (types : list Z) (s : str) (formats : list str) (ld : locale) : res date :=
  let lcfg := with_order (clone icfg) (order_for cfg ld) in
  do trs <- translate E lcfg ld s false ;
  do trsf <- translate E lcfg ld s true ;
  first_date (try_type lcfg s trs trsf formats) types.

(** the date of the first successful locale, with the locale (parser.go:117-162) *)
Fixpoint try_locales (cfg : uconfig) (icfg : config) (types : list Z) (s : str) (formats : list str) (lds : list locale)
  : res (option (locale * date)) :=
  match lds with
  | [] => Ok None
  | ld :: r =>
    do dt <- try_locale cfg icfg types s formats ld ;
    if date_is_zero dt then try_locales cfg icfg types s formats r else Ok (Some (ld, dt))
  end.

(** short-circuiting [any] over the date strings (parser.go:254-260, :282-288) *)
Fixpoint any_applicable (icfg : config) (ld : locale) (dss : list str) : res bool :=
  match dss with
  | [] => Ok false
  | ds :: r => do b <- is_applicable E icfg ld ds false ; if b then Ok true else any_applicable icfg ld r
  end.
(** checkPreviousLocales (parser.go:281-291) *)
Fixpoint check_previous (icfg : config) (used : list locale) (dss : list str) : res (option locale) :=
  match used with
  | [] => Ok None
  | ld :: r => do b <- any_applicable icfg ld dss ; if b then Ok (Some ld) else check_previous icfg r dss
  end.
(** parser.go:247-267: [acc] are the results so far *)
Fixpoint filter_applicable (icfg : config) (dss : list str) (acc : list locale) (lds : list locale) : res (list locale) :=
  match lds with
  | [] => Ok acc
  | ld :: r =>
    if mem (ld_name ld) (map ld_name acc) then filter_applicable icfg dss acc r
    else do b <- any_applicable icfg ld dss ;
         filter_applicable icfg dss (if b then acc ++ [ld] else acc) r
  end.

(** Languages passed to GetLocales (parser.go:236-240); [det] is DetectLanguagesFunction, assumed pure *)
Definition detected_languages (det : option (str -> list str)) (cfg : uconfig) (s : str) : list str :=
  match det, u_locales cfg, u_languages cfg with
  | Some f, [], [] => f s
  | _, _, _ => u_languages cfg
  end.

(** getApplicableLocales (parser.go:214-279) *)
Definition get_applicable (det : option (str -> list str)) (used : list locale) (cfg : uconfig) (icfg : config) (s : str)
  : res (list locale) :=
  let s := normalize_string U s in
  let popped := fst (etz_pop E s) in
  let dss := if eqs popped s then [s] else [s; popped] in
  do prev <- (if u_try_prev cfg then check_previous icfg used dss else Ok None) ;
  let results := match prev with Some ld => [ld] | None => [] end in
  let languages := detected_languages det cfg s in
  do lds <- match get_locales E D (u_locales cfg) languages (u_region cfg) (u_given_order cfg) false with
            | Err ENotFound => Ok []
            | r => r
            end ;
  do results <- filter_applicable icfg dss results lds ;
  match c_deflang icfg with
  | [] => Ok results
  | _ =>
    do dl <- match get_locales E D [] (u_deflang cfg) (u_region cfg) (u_given_order cfg) false with
             | Err _ => Ok []
             | r => r
             end ;
    Ok (results ++ filter (fun ld => negb (mem (ld_name ld) (map ld_name results))) dl)
  end.

(** saveUsedLocale (parser.go:293-302) *)
Definition save_used (used : list locale) (ld : locale) : list locale :=
  if mem (ld_name ld) (map ld_name used) then used else used ++ [ld].

(** Parser.Parse (parser.go:69-166) between Lock and Unlock; a nil cfg is [uconfig0]. [E] supplies time.Now(). The result is
    the new state and what is returned (or a panic). *)
Definition parse (det : option (str -> list str)) (p : pstate) (cfg0 : uconfig) (s0 : str) (formats : list str)
  : pstate * res ret :=
  if existsb (fun t => TNoSpaces <? t) (p_types p) then (p, Ok (zero_date, Some EParserType))
  else
    let p := match p_types p with [] => with_types p default_types | _ => p end in
    let cfg := initiate (e_now E) cfg0 in
    if negb (validate U cfg) then (p, Ok (zero_date, Some EConfig))
    else
      let icfg := to_internal cfg in
      let dt := formatted_parse E icfg s0 formats in
      if negb (date_is_zero dt) then (p, Ok (dt, None))
      else
        let s := sanitize_date U s0 in
        match get_applicable det (p_used p) cfg icfg s with
        | Panic => (p, Panic)
        | Err e => (p, Ok (zero_date, Some e))
        | Ok lds =>
          match try_locales cfg icfg (p_types p) s formats lds with
          | Panic => (p, Panic)
          | Err e => (p, Ok (zero_date, Some e))      (* does not occur *)
          | Ok None => (p, Ok (zero_date, Some ENoParse))
          | Ok (Some (ld, dt)) =>
            let p := if u_try_prev cfg then with_used p (save_used (p_used p) ld) else p in
            (p, Ok (with_locale dt (ld_name ld), None))
          end
        end.

(** ParseHijri (hijri-parser.go:12-38), ParseJalali (jalali-parser.go:12-38) *)
Definition calendar_order (cfg : uconfig) : str :=
  match u_order cfg with
  | Some f => match validate_order U (f []) with Some o => o | None => lit "DMY" end
  | None => lit "DMY"
  end.
Definition parse_calendar (inner : config -> str -> res date) (cfg0 : uconfig) (s : str) : res ret :=
  let order := calendar_order cfg0 in
  let cfg := initiate (e_now E) cfg0 in
  if negb (validate U cfg) then Ok (zero_date, Some EConfig)
  else match inner (with_order (to_internal cfg) order) s with
       | Ok d => Ok (d, None)
       | Err e => Ok (zero_date, Some e)
       | Panic => Panic
       end.
Definition parse_hijri (K : calendars) (cfg : uconfig) (s : str) : res ret := parse_calendar (hijri_parse E K) cfg s.
Definition parse_jalali (K : calendars) (cfg : uconfig) (s : str) : res ret := parse_calendar (jalali_parse E K) cfg s.

(** IsKnownLocale (root.go:26-29), PopTzOffset (root.go:33-37) *)
Definition is_known_locale (code : str) : bool := match db_get D code with Some _ => true | None => false end.
Definition pop_tz_offset (s : str) : str * str * Z :=
  let '(s', od) := etz_pop E s in (s', od_name od, od_off od).
End P.
