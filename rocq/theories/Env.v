(** What the program reads from outside: clock, local zone, Unicode tables, map orders. *)
From Verif Require Import GoBase GoTime Timezone.

Record env := {
  e_now : time;                   (* time.Now() during the call *)
  e_local : location;             (* time.Local *)
  e_uni : uni;
  e_tz : list offset_data;        (* timezoneOffsets, see [tz_order] *)
  e_wd_first : bool;              (* iteration order of the map alphaDirectives: weekday before month? *)
}.
Definition etz_pop (E : env) (s : str) : str * offset_data := pop_tz (e_uni E) (e_tz E) s.
Definition now_utc (E : env) : time := in_loc (e_now E) utc.
