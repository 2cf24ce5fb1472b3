(** Go's [time.Time], [time.Location], Date, AddDate, Add, In, Zone, Weekday, Unix (package time, outside
    /repo).  Instants are unbounded (Go: 64-bit seconds).  A location is a base zone plus a finite,
    ascending list of transitions; Go's rule for the far future is not modelled beyond that list. *)
From Verif Require Import GoBase Civil.

Record zone := { z_name : str; z_off : Z }.
Record location := { l_name : str; l_base : zone; l_trans : list (Z * zone) }.

Definition utc_zone : zone := {| z_name := lit "UTC"; z_off := 0 |}.
Definition utc : location := {| l_name := lit "UTC"; l_base := utc_zone; l_trans := [] |}.
Definition fixed_zone (name : str) (off : Z) : location :=
  {| l_name := name; l_base := {| z_name := name; z_off := off |}; l_trans := [] |}.

(** Location.lookup: zone in effect at unix second [sec], with its validity interval [start, end) *)
Fixpoint lookup_from (z : zone) (start : option Z) (tr : list (Z * zone)) (sec : Z)
  : zone * option Z * option Z :=
  match tr with
  | [] => (z, start, None)
  | (at_, z') :: tr' => if sec <? at_ then (z, start, Some at_) else lookup_from z' (Some at_) tr' sec
  end.
Definition lookup (l : location) (sec : Z) := lookup_from (l_base l) None (l_trans l) sec.
Definition zone_at (l : location) (sec : Z) : zone := fst (fst (lookup l sec)).
Definition off_at (l : location) (sec : Z) : Z := z_off (zone_at l sec).

Record time := { t_sec : Z; t_nsec : Z; t_loc : location }.

(** seconds from 0001-01-01T00:00:00Z to the Unix epoch *)
Definition zero_sec : Z := -62135596800.
(** time.Time{} *)
Definition zero_time : time := {| t_sec := zero_sec; t_nsec := 0; t_loc := utc |}.
Definition is_zero (t : time) : bool := (t_sec t =? zero_sec) && (t_nsec t =? 0).

Definition zone_of (t : time) : zone := zone_at (t_loc t) (t_sec t).
Definition local_sec (t : time) : Z := t_sec t + z_off (zone_of t).
Definition local_days (t : time) : Z := local_sec t / 86400.
Definition civil (t : time) : Z * Z * Z := civil_of_days (local_days t).
Definition year (t : time) : Z := fst (fst (civil t)).
Definition month (t : time) : Z := snd (fst (civil t)).
Definition day (t : time) : Z := snd (civil t).
Definition sod (t : time) : Z := local_sec t mod 86400.
Definition hour (t : time) : Z := sod t / 3600.
Definition minute (t : time) : Z := sod t mod 3600 / 60.
Definition second (t : time) : Z := sod t mod 60.
Definition nanosecond (t : time) : Z := t_nsec t.
Definition weekday (t : time) : Z := weekday_of_days (local_days t).

Definition outside (u : Z) (start end_ : option Z) : bool :=
  match start with Some s => u <? s | None => false end
  || match end_ with Some e => e <=? u | None => false end.

(** time.Date: normalises every field, then resolves the zone offset as Go does *)
Definition wall_sec (y m d h mi s : Z) : Z :=
  let y' := y + (m - 1) / 12 in
  let m' := (m - 1) mod 12 + 1 in
  86400 * (days_of_civil y' m' 1 + (d - 1)) + 3600 * h + 60 * mi + s.
Definition resolve (l : location) (w : Z) : Z :=
  let '(z, st, en) := lookup l w in
  if z_off z =? 0 then w
  else
    let u := w - z_off z in
    if outside u st en then w - off_at l u else u.
Definition mk_date (y m d h mi s ns : Z) (l : location) : time :=
  {| t_sec := resolve l (wall_sec y m d h mi s + ns / 1000000000);
     t_nsec := ns mod 1000000000; t_loc := l |}.

Definition add_date (t : time) (y m d : Z) : time :=
  mk_date (year t + y) (month t + m) (day t + d) (hour t) (minute t) (second t) (nanosecond t) (t_loc t).

(** t.Add(d), d in nanoseconds *)
Definition add (t : time) (d : Z) : time :=
  let n := t_nsec t + d in
  {| t_sec := t_sec t + n / 1000000000; t_nsec := n mod 1000000000; t_loc := t_loc t |}.

Definition in_loc (t : time) (l : location) : time :=
  {| t_sec := t_sec t; t_nsec := t_nsec t; t_loc := l |}.

Definition before (a b : time) : bool :=
  (t_sec a <? t_sec b) || ((t_sec a =? t_sec b) && (t_nsec a <? t_nsec b)).
Definition after (a b : time) : bool := before b a.

(** time.Unix: normalises nsec; the result is in time.Local *)
Definition unix (local : location) (sec nsec : Z) : time :=
  {| t_sec := sec + nsec / 1000000000; t_nsec := nsec mod 1000000000; t_loc := local |}.

(** nanoseconds since the Unix epoch: the instant denoted by a time *)
Definition instant (t : time) : Z := t_sec t * 1000000000 + t_nsec t.
