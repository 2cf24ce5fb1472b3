(** internal/parser/relative/parser.go *)
From Verif Require Import GoBase Regex GoTime GoFloat SMap Setting Strutil Env Timezone Common.

(** relative/parser.go:17-25 *)
Definition rxNonWord : regex := Eval vm_compute in rxc "\W".
Definition rxIn : regex := Eval vm_compute in rxc "(?i)\bin\b".
Definition rxAgo : regex := Eval vm_compute in rxc "(?i)\bago\b".
Definition rxInAgo : regex := Eval vm_compute in rxc "(?i)\b(?:ago|in)\b".
Definition rxRelativePattern : regex := Eval vm_compute in
  rxc "(?i)(\d+[.,]?\d*)\s*(decade|year|month|week|day|hour|minute|second)\b".
Definition rxRelativeSkipWord : regex := Eval vm_compute in
  rxc "(?i)^(?:decade|year|month|week|day|hour|minute|second|ago|in|\d+|:|[ap]m)".
Definition relative_units : list string := ["decade"; "year"; "month"; "week"; "day"; "hour"; "minute"; "second"]%string.

Definition durs := smap f64.
Definition dget (m : durs) (k : string) : f64 := mget_or fzero m (lit k).
Definition dhas (m : durs) (k : string) : bool := mhas m (lit k).
Definition dset (m : durs) (k : string) (v : f64) : durs := mset m (lit k) v.

(** splitFraction (relative/parser.go:293-301) *)
Definition split_fraction (fl : f64) : f64 * f64 * bool :=
  if feqb fl fzero then (fzero, fzero, false)
  else let value := fabs fl in
       let fl' := ffloor value in
       (fl', fsub value fl', negb (feqb value fl')).
(** addMapValue (relative/parser.go:303-307) *)
Definition add_map_value (m : durs) (k : string) (v : f64) : durs :=
  if negb (feqb v fzero) then dset m k (fadd (dget m k) v) else m.

Definition sgn (neg : bool) (x : f64) : f64 := if neg then fneg x else x.

(** the lower-unit cascade of the switch (relative/parser.go:200-277): fraction of the previous unit, factor and name of each lower unit *)
Fixpoint cascade (fraction : f64) (lower : list (Z * string)) : list (string * f64) :=
  match lower with
  | [] => []
  | (factor, name) :: l =>
    let '(v, fr, _) := split_fraction (fmul fraction (f_of_Z factor)) in
    (name, v) :: cascade fr l
  end.
Definition lower_units (unit : string) : list (Z * string) :=
  if String.eqb unit "year" then [(12, "month"); (30, "day"); (24, "hour"); (60, "minute"); (60, "second")]%string
  else if String.eqb unit "month" then [(30, "day"); (24, "hour"); (60, "minute"); (60, "second")]%string
  else if String.eqb unit "day" then [(24, "hour"); (60, "minute"); (60, "second")]%string
  else if String.eqb unit "hour" then [(60, "minute"); (60, "second")]%string
  else if String.eqb unit "minute" then [(60, "second")]%string
  else [].

(** one iteration over the units (relative/parser.go:186-288); decade and week have been deleted before *)
Definition spread_unit (m : durs) (unit : string) : durs :=
  match mget m (lit unit) with
  | None => m
  | Some value0 =>
    let neg := fltb value0 fzero in
    let '(value, fraction, hasF) := split_fraction value0 in
    if negb hasF then m
    else if String.eqb unit "second" then dset m "second" (sgn neg (fround (fadd value fraction)))
    else if String.eqb unit "decade" || String.eqb unit "week" then m
    else fold_left (fun m '(name, v) => add_map_value m name (sgn neg v))
                   (cascade fraction (lower_units unit)) (dset m unit (sgn neg value))
  end.

Section E.
Variable E : env.
Notation U := (e_uni E).

(** getRelativeDurations, the regex part (relative/parser.go:164-171): a later occurrence of a unit overwrites an earlier one *)
Definition raw_durations (s : str) : durs :=
  fold_left (fun m mt => mset m (cap_str s mt 2) (parse_float (replace_all (cap_str s mt 1) (lit ",") (lit "."))))
            (find_all U rxRelativePattern s) [].
(** getRelativeDurations (relative/parser.go:163-291) *)
Definition get_durations (s : str) : durs :=
  let m := raw_durations s in
  let m := match mget m (lit "decade") with
           | Some d => mdel (dset m "year" (fadd (dget m "year") (fmul d (f_of_Z 10)))) (lit "decade")
           | None => m end in
  let m := match mget m (lit "week") with
           | Some w => mdel (dset m "day" (fadd (dget m "day") (fmul w (f_of_Z 7)))) (lit "week")
           | None => m end in
  fold_left spread_unit relative_units m.

(** allWordsAreUnits (relative/parser.go:146-161) *)
Definition all_words_units (s : str) : bool :=
  forallb (fun w => empty w || match_string U rxRelativeSkipWord w) (rsplit U rxNonWord (sanitize_spaces s)).

(** addDate (relative/parser.go:127-144) *)
Definition rel_add_date (cfg : config) (d : time) (years months days : Z) : time :=
  if negb (c_preserve cfg) then add_date d years months days
  else
    let y := year d + years in
    let m := month d + months in
    let lastDay := day (mk_date y (m + 1) 0 0 0 0 0 utc) in
    let dd := if lastDay <? day d then lastDay else day d in
    add_date (mk_date y m dd (hour d) (minute d) (second d) (nanosecond d) (t_loc d)) 0 0 days.

(** the period (relative/parser.go:86-101) *)
Definition rel_period (m : durs) : period :=
  if dhas m "second" then PSecond else if dhas m "minute" then PMinute else if dhas m "hour" then PHour
  else if dhas m "day" then PDay else if dhas m "month" then PMonth else if dhas m "year" then PYear else PDay.

Definition second_ns : Z := 1000000000.
Definition minute_ns : Z := 60000000000.
Definition hour_ns : Z := 3600000000000.
(** direction (relative/parser.go:112) *)
Definition rel_forward (cfg : config) (s : str) : bool :=
  (match_string U rxIn s || (c_src cfg =? Future)) && negb (match_string U rxAgo s).
(** conversion and application of the durations (relative/parser.go:104-122); Duration arithmetic wraps at 64 bits *)
Definition rel_apply (cfg : config) (m : durs) (fwd : bool) (now : time) : time :=
  let y := int_of_f (dget m "year") in
  let mo := int_of_f (dget m "month") in
  let d := int_of_f (dget m "day") in
  let h := wrap64 (int_of_f (dget m "hour") * hour_ns) in
  let mi := wrap64 (int_of_f (dget m "minute") * minute_ns) in
  let se := wrap64 (int_of_f (dget m "second") * second_ns) in
  if fwd then add (add (add (rel_add_date cfg now y mo d) h) mi) se
  else add (add (add (rel_add_date cfg now (- y) (- mo) (- d)) (wrap64 (- h))) (wrap64 (- mi))) (wrap64 (- se)).

(** parseDate (relative/parser.go:74-125) *)
Definition rel_parse_date (cfg : config) (s : str) (now : time) : time * period :=
  if negb (all_words_units s) then (zero_time, PNone)
  else
    let m := get_durations s in
    match m with
    | [] => (zero_time, PNone)
    | _ => (rel_apply cfg m (rel_forward cfg s) now, rel_period m)
    end.

(** parseTime (relative/parser.go:68-72) *)
Definition rel_parse_time (s : str) : option (time * period) :=
  parse_time E (replace_all_string U rxInAgo (replace_all_string U rxRelativePattern s []) []).

(** now and its zone (relative/parser.go:37-48) *)
Definition rel_now (cfg : config) (tz : offset_data) : time :=
  let now := if is_zero (c_now cfg) then now_utc E else c_now cfg in
  if negb (od_is_zero tz) then in_loc now (fixed_zone (od_name tz) (od_off tz))
  else match c_tz cfg with Some l => in_loc now l | None => now end.

(** Parse (relative/parser.go:28-66). A failed ParseTime yields the zero time and period None. *)
Definition relative_parse (cfg : config) (s0 : str) : date :=
  let '(s, tz) := etz_pop E (strip_braces s0) in
  let '(t, tper) := match rel_parse_time s with Some p => p | None => (zero_time, PNone) end in
  let '(dt, per) := rel_parse_date cfg s (rel_now cfg tz) in
  let '(dt, per) :=
    if negb (is_zero dt) && negb (is_zero t)
    then (mk_date (year dt) (month dt) (day dt) (hour t) (minute t) (second t) (nanosecond t) (t_loc dt), period_min per tper)
    else (dt, per) in
  let per := if negb (c_timeperiod cfg) && is_time per then PDay else per in
  mkd per dt.
End E.
