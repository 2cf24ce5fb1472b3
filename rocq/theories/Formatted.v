(** internal/parser/formatted/parser.go *)
From Verif Require Import GoBase GoTime GoTimeParse Setting Env Timezone Common.

Section E.
Variable E : env.

(** formatted/parser.go:18-28 *)
Definition fmt_loc (cfg : config) (s : str) : location :=
  let '(_, tz) := etz_pop E s in
  if od_is_zero tz then match c_tz cfg with Some l => l | None => utc end
  else fixed_zone (od_name tz) (od_off tz).

(** checker (formatted/parser.go:37) *)
Definition checker : time := mk_date 12 3 4 5 6 7 8 utc.
(** formatted/parser.go:47-49 *)
Definition fmt_has_day (format : str) : bool := contains (format_utc checker format) (lit "4").
Definition fmt_has_month (format : str) : bool :=
  let c := format_utc checker format in contains c (lit "3") || contains c (lit "Mar").

(** the body of the loop after a successful parse (formatted/parser.go:46-70). [period] is declared before the loop, but the loop
    returns at the first success, so it is always Day on entry *)
Definition fmt_fill (cfg : config) (format : str) (t : time) : date :=
  let cur := if is_zero (c_now cfg) then now_utc E else c_now cfg in
  let hasDay := fmt_has_day format in
  let hasMonth := fmt_has_month format in
  let '(period, t) :=
    if negb hasMonth && negb hasDay then (PYear, apply_day E cfg (apply_month E cfg t None) None)
    else if negb hasMonth then (PYear, apply_month E cfg t None)
    else if negb hasDay then (PMonth, apply_day E cfg t None)
    else (PDay, t) in
  let t := if year t =? 0
           then mk_date (year cur) (month t) (day t) (hour t) (minute t) (second t) (nanosecond t) (t_loc t)
           else t in
  mkd period t.

Fixpoint fmt_loop (cfg : config) (s : str) (loc : location) (formats : list str) : date :=
  match formats with
  | [] => zero_date
  | f :: fs => match time_parse_in f s loc with
               | None => fmt_loop cfg s loc fs
               | Some t => fmt_fill cfg f t
               end
  end.
(** Parse (formatted/parser.go:14-74) *)
Definition formatted_parse (cfg : config) (s : str) (formats : list str) : date :=
  fmt_loop cfg s (fmt_loc cfg s) formats.
End E.
