(** internal/parser/hijri/parser.go and internal/parser/jalali/{parser,translate}.go. The calendar arithmetic of
    github.com/hablullah/go-hijri and github.com/jalaali/go-jalaali is a parameter. *)
From Verif Require Import GoBase Regex GoTime Setting Strutil Digit Tokenizer Timezone Env Common Absolute JalaliData SMap.

Record calendars := {
  hj_of : time -> Z * Z * Z;                  (* hijri.CreateUmmAlQuraDate: year, month, day *)
  hj_to : Z -> Z -> Z -> Z * Z * Z;           (* UmmAlQuraDate{..}.ToGregorian(): Gregorian year, month, day *)
  jl_of : time -> Z * Z * Z;                  (* jalaali.From *)
  jl_leap : Z -> option bool;                 (* jalaali.IsLeapYear; None = error *)
  jl_mlen : Z -> Z -> option Z;               (* jalaali.MonthLength *)
  jl_to : Z -> Z -> Z -> option (Z * Z * Z);  (* jalaali.ToGregorian *)
}.

Definition is_digits (U : uni) (s : str) : bool := forallb (u_isNd U) (runes s).

(** re-attaching the popped timezone (hijri/parser.go:56-61, jalali/parser.go:52-57) *)
Definition attach_tz (d : date) (tz : offset_data) : date :=
  if negb (date_is_zero d) && negb (od_is_zero tz) then
    let t := d_time d in
    with_time d (mk_date (year t) (month t) (day t) (hour t) (minute t) (second t) (nanosecond t) (fixed_zone (od_name tz) (od_off tz)))
  else d.

Section C.
Variable E : env.
Variable K : calendars.
Notation U := (e_uni E).

(** ** Hijri *)
(** handleTwoDigitYear (hijri/parser.go:214-220) *)
Definition hj_two_digit (y : Z) : Z := if 90 <=? y then y + 1300 else y + 1400.
(** getDatePartValue (hijri/parser.go:93-127) *)
Definition hj_value (c : comp) (tok : str) (directive : string) : option Z :=
  let n := slen tok in
  let dg := is_digits U tok in
  match c with
  | CYear =>
    if (n =? 4) && dg && (0 <=? atoi0 tok) then Some (atoi0 tok)
    else if (n =? 2) && dg && (0 <=? hj_two_digit (atoi0 tok)) then Some (hj_two_digit (atoi0 tok))
    else None
  | CMonth => if (n <=? 2) && dg && (1 <=? atoi0 tok) && (atoi0 tok <=? 12) then Some (atoi0 tok) else None
  | CDay => if (n <=? 2) && dg && (1 <=? atoi0 tok) && (atoi0 tok <=? 30) then Some (atoi0 tok) else None
  | CWeekday => None
  end.
(** getDateTimeParams (hijri/parser.go:66-91) *)
Definition hj_params (v : cmap Z) (now : time) : Z * Z * Z :=
  let '(y, m, d) := hj_of K now in
  (or_default (cm_year v) y, or_default (cm_month v) m, or_default (cm_day v) d).
(** isHijriLeapYear (hijri/parser.go:159-164); [mk_date .. utc] is the time.Time returned by ToGregorian *)
Definition hj_greg_time (y m d : Z) : time := let '(gy, gm, gd) := hj_to K y m d in mk_date gy gm gd 0 0 0 0 utc.
Definition hj_leap (y : Z) : bool := snd (hj_of K (hj_greg_time y 12 30)) =? 30.
(** getHijriLeapYear (hijri/parser.go:166-178): None = no leap year within the fuel (endless loop in the source) *)
Fixpoint hj_next_leap (fuel : nat) (y step : Z) : option Z :=
  match fuel with
  | O => None
  | S f => if hj_leap (y + step) then Some (y + step) else hj_next_leap f (y + step) step
  end.
Definition hj_fuel : nat := 400.
(** getCorrectHijriLeapYear (hijri/parser.go:180-201) *)
Definition hj_correct_leap (cfg : config) (y : Z) : option Z :=
  if c_src cfg =? Future then hj_next_leap hj_fuel y 1
  else if c_src cfg =? Past then hj_next_leap hj_fuel y (-1)
  else match hj_next_leap hj_fuel y 1, hj_next_leap hj_fuel y (-1) with
       | Some next, Some prev => Some (if next - y <? y - prev then next else prev)
       | _, _ => None
       end.
(** getLastDayOfHijriMonth (hijri/parser.go:203-212) *)
Definition hj_last_day (y m : Z) : Z :=
  if (m =? 12) && hj_leap y then 30 else if Z.rem m 2 =? 0 then 29 else 30.
(** createDateTime (hijri/parser.go:129-147) *)
Definition hj_create (cfg : config) (Y M D h mi s ns : Z) (loc : location) : res time :=
  let oy := if (D =? 30) && (M =? 12) && negb (hj_leap Y) then hj_correct_leap cfg Y else Some Y in
  match oy with
  | None => Panic
  | Some Y =>
    let D := if hj_last_day Y M <? D then hj_last_day Y M else D in
    let '(gy, gm, gd) := hj_to K Y M D in
    Ok (mk_date gy gm gd h mi s ns loc)
  end.
Definition hj_hooks : hooks := {| h_params := hj_params; h_create := hj_create; h_value := hj_value |}.
(** Parse (hijri/parser.go:23-64); the two replacements of timeConventions touch different letters *)
Definition hj_prepare (s : str) : str * offset_data :=
  let s := digit_normalize U (normalize_string U s) in
  let s := fold_left (fun s '(latin, arabic) => replace_all s (lit arabic) (lit latin)) time_conventions s in
  etz_pop E (strip_braces (sanitize_date U s)).
Definition hijri_parse (cfg : config) (s0 : str) : res date :=
  let '(s, tz) := hj_prepare s0 in
  do d <- abs_run E hj_hooks cfg s tz ;
  Ok (attach_tz d tz).

(** ** Jalali *)
(** handleTwoDigitYear (jalali/parser.go:213-219) *)
Definition jl_two_digit (y : Z) : Z := if 60 <? y then y + 1300 else y + 1400.
(** getDatePartValue (jalali/parser.go:89-130) *)
Definition jl_month_name (tok : str) : option Z :=
  option_map snd (List.find (fun p => eqs tok (lit (fst p))) month_name_values).
Definition jl_value (c : comp) (tok : str) (directive : string) : option Z :=
  let n := slen tok in
  let dg := is_digits U tok in
  match c with
  | CYear =>
    if (n =? 4) && dg && (0 <=? atoi0 tok) then Some (atoi0 tok)
    else if (n =? 2) && dg && (0 <=? jl_two_digit (atoi0 tok)) then Some (jl_two_digit (atoi0 tok))
    else None
  | CMonth =>
    match (if String.eqb directive "January" then jl_month_name tok else None) with
    | Some v => Some v
    | None => if (n <=? 2) && dg && (1 <=? atoi0 tok) && (atoi0 tok <=? 12) then Some (atoi0 tok) else None
    end
  | CDay => if (n <=? 2) && dg && (1 <=? atoi0 tok) && (atoi0 tok <=? 30) then Some (atoi0 tok) else None
  | CWeekday => None
  end.
(** getDateTimeParams (jalali/parser.go:62-87) *)
Definition jl_params (v : cmap Z) (now : time) : Z * Z * Z :=
  let '(y, m, d) := jl_of K now in
  (or_default (cm_year v) y, or_default (cm_month v) m, or_default (cm_day v) d).
(** getLeapYear (jalali/parser.go:171-188) *)
Fixpoint jl_next_leap (fuel : nat) (orig y step : Z) : option Z :=
  match fuel with
  | O => None
  | S f => match jl_leap K (y + step) with
           | Some true => Some (y + step)
           | Some false => jl_next_leap f orig (y + step) step
           | None => Some orig
           end
  end.
Definition jl_fuel : nat := 400.
(** getCorrectLeapYear (jalali/parser.go:190-211) *)
Definition jl_correct_leap (cfg : config) (y : Z) : option Z :=
  if c_src cfg =? Future then jl_next_leap jl_fuel y y 1
  else if c_src cfg =? Past then jl_next_leap jl_fuel y y (-1)
  else match jl_next_leap jl_fuel y y 1, jl_next_leap jl_fuel y y (-1) with
       | Some next, Some prev => Some (if next - y <? y - prev then next else prev)
       | _, _ => None
       end.
(** createDateTime (jalali/parser.go:132-159) *)
Definition jl_create (cfg : config) (Y M D h mi s ns : Z) (loc : location) : res time :=
  match jl_leap K Y with
  | None => Err ENoParse
  | Some lp =>
    let oy := if (D =? 30) && (M =? 12) && negb lp then jl_correct_leap cfg Y else Some Y in
    match oy with
    | None => Panic
    | Some Y =>
      let D := match jl_mlen K Y M with Some n => if n <? D then n else D | None => D end in
      match jl_to K Y M D with
      | None => Err ENoParse
      | Some (gy, gm, gd) => Ok (mk_date gy gm gd h mi s ns loc)
      end
    end
  end.
Definition jl_hooks : hooks := {| h_params := jl_params; h_create := jl_create; h_value := jl_value |}.

Definition repl_many (l : list (str * str)) (s : str) : str := fold_left (fun s p => replace_all s (fst p) (snd p)) l s.
(** replaceMonths, replaceWeekdays (jalali/translate.go:115-131) *)
Definition replace_months (s : str) : str :=
  repl_many (flat_map (fun '(latin, ps) => map (fun p => (lit p, lit " " ++ lit latin ++ lit " ")) ps) month_names) s.
Definition replace_weekdays (s : str) : str :=
  repl_many (flat_map (fun '(latin, ps) => map (fun p => (lit p, lit " " ++ lit latin ++ lit " ")) ps) weekday_tr) s.
(** replaceDays (jalali/translate.go:146-155) *)
Definition replace_days (s : str) : str :=
  repl_many (flat_map (fun '(n, ps) => map (fun p => (lit p, itoa n)) ps) day_numbers)
            (replace_all_string U rxOrdinalPattern s []).
(** replaceTime (jalali/translate.go:133-144) *)
Definition number_only (s : str) : str := replace_all_string U rxNonDigit s (lit " ").
Definition repl_match (r : regex) (s : str) : str :=
  replace_all_fn U r s (fun m => number_only (slice s (mt_start m) (mt_end m))).
Definition replace_time (s : str) : str :=
  let s := repl_match rxHourPattern s in
  let s := repl_match rxMinutePattern s in
  let s := repl_match rxSecondPattern s in
  let s := replace_all_string U rxColonPattern s (lit ":") in
  replace_all s (lit hour_word) [].
(** removeWeekdayTranslations (jalali/translate.go:157-162) *)
Definition remove_weekday_tr (s : str) : str := repl_many (map (fun '(latin, _) => (lit latin, lit " ")) weekday_tr) s.

(** Parse (jalali/parser.go:17-60) *)
Definition jl_prepare (s : str) : str * offset_data :=
  let s := digit_normalize U (normalize_string U s) in
  let s := replace_time (replace_days (replace_weekdays (replace_months s))) in
  let s := remove_weekday_tr s in
  etz_pop E (strip_braces (sanitize_date U s)).
Definition jalali_parse (cfg : config) (s0 : str) : res date :=
  let '(s, tz) := jl_prepare s0 in
  do d <- abs_run E jl_hooks cfg s tz ;
  Ok (attach_tz d tz).
End C.
