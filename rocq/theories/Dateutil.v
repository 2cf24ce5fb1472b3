(** internal/dateutil/dateutil.go *)
From Verif Require Import GoBase Civil GoTime.

(** IsLeapYear (dateutil.go:6-16). Go's [%] truncates, but only the test against 0 matters. *)
Definition is_leap_year (y : Z) : bool :=
  if Z.rem y 400 =? 0 then true
  else if Z.rem y 100 =? 0 then false
  else if Z.rem y 4 =? 0 then true
  else false.

(** GetLeapYear (dateutil.go:20-32): unbounded loop in the source; [None] = not found within the fuel. Prop files show 8 steps always suffice. *)
Fixpoint get_leap_year_fuel (fuel : nat) (y step : Z) : option Z :=
  match fuel with
  | O => None
  | S f => let y' := y + step in if is_leap_year y' then Some y' else get_leap_year_fuel f y' step
  end.
Definition get_leap_year (y : Z) (toFuture : bool) : Z :=
  match get_leap_year_fuel 8 y (if toFuture then 1 else -1) with Some r => r | None => 0 end.

(** GetLastDayOfMonth (dateutil.go:35-38) *)
Definition get_last_day_of_month (y m : Z) : Z := day (add_date (mk_date y m 1 0 0 0 0 utc) 0 1 (-1)).
