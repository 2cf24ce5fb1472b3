(** internal/parser/common *)
From Verif Require Import GoBase GoTime GoTimeParse Setting Dateutil Env.

Section E.
Variable E : env.

(** ApplyDayFromConfig (common/apply-day.go:10-42); cfg is never nil here; [cur] is the optional currentDay *)
Definition pref_day (cfg : config) (t : time) (cur : option Z) : Z :=
  if c_pday cfg =? First then 1
  else if c_pday cfg =? Last then day (add_date t 0 1 (- day t))
  else match cur with
       | Some d => d
       | None => if is_zero (c_now cfg) then day (now_utc E) else day (c_now cfg)
       end.
Definition apply_day (cfg : config) (t : time) (cur : option Z) : time :=
  let newDay := pref_day cfg t cur in
  let lastDay := get_last_day_of_month (year t) (month t) in
  let newDay := if lastDay <? newDay then lastDay else newDay in
  mk_date (year t) (month t) newDay (hour t) (minute t) (second t) (nanosecond t) (t_loc t).

(** ApplyMonthFromConfig (common/apply-month.go:9-35) *)
Definition pref_month (cfg : config) (cur : option Z) : Z :=
  if c_pmonth cfg =? FirstMonth then 1
  else if c_pmonth cfg =? LastMonth then 12
  else match cur with
       | Some m => m
       | None => if is_zero (c_now cfg) then month (now_utc E) else month (c_now cfg)
       end.
Definition apply_month (cfg : config) (t : time) (cur : option Z) : time :=
  mk_date (year t) (pref_month cfg cur) (day t) (hour t) (minute t) (second t) (nanosecond t) (t_loc t).

(** CheckStrictParsing (common/strict-check.go:10-32): true = no error *)
Definition check_strict (cfg : config) (missing : list str) : bool :=
  if c_strict cfg && negb (match missing with [] => true | _ => false end) then false
  else negb (existsb (fun r => mem r missing) (c_required cfg)).

(** ParseTime (common/time.go:12-40) *)
Definition time_formats : list (string * period) :=
  [("15:4:5", PSecond); ("3:4:5 PM", PSecond); ("15:4", PMinute); ("3:4 PM", PMinute); ("3 PM", PHour);
   ("15:4:5.999999", PSecond); ("3:4:5.999999 PM", PSecond); ("15:4 PM", PMinute)]%string.
Fixpoint parse_time_loop (fs : list (string * period)) (tmp : str) : option (time * period) :=
  match fs with
  | [] => None
  | (pat, per) :: fs' =>
    match time_parse (e_local E) (lit pat) tmp with
    | Some t => Some (t, per)
    | None => parse_time_loop fs' tmp
    end
  end.
Definition parse_time (s : str) : option (time * period) :=
  parse_time_loop time_formats (to_upper (e_uni E) (trim_space s)).
End E.

(** min on date.Period (numeric order of the constants) *)
Definition period_num (p : period) : Z :=
  match p with PNone => 0 | PSecond => 1 | PMinute => 2 | PHour => 3 | PDay => 4 | PMonth => 5 | PYear => 6 end.
Definition period_min (a b : period) : period := if period_num b <? period_num a then b else a.
