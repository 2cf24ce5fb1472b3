(** date/date.go, internal/setting/config.go, config.go *)
From Verif Require Import GoBase Civil GoTime.

(** date.Period (date/date.go:11-21), constants in iota order *)
Inductive period : Set := PNone | PSecond | PMinute | PHour | PDay | PMonth | PYear.
Definition period_eqb (a b : period) : bool :=
  match a, b with
  | PNone, PNone | PSecond, PSecond | PMinute, PMinute | PHour, PHour | PDay, PDay
  | PMonth, PMonth | PYear, PYear => true
  | _, _ => false
  end.
(** Period.IsTime (date/date.go:36-38) *)
Definition is_time (p : period) : bool :=
  match p with PSecond | PMinute | PHour => true | _ => false end.

(** date.Date (date/date.go:41-45) *)
Record date := { d_locale : str; d_period : period; d_time : time }.
Definition zero_date : date := {| d_locale := []; d_period := PNone; d_time := zero_time |}.
(** Date.IsZero (date/date.go:48-50) *)
Definition date_is_zero (d : date) : bool := period_eqb (d_period d) PNone || is_zero (d_time d).
Definition mkd (p : period) (t : time) : date := {| d_locale := []; d_period := p; d_time := t |}.
Definition with_locale (d : date) (l : str) : date := {| d_locale := l; d_period := d_period d; d_time := d_time d |}.
Definition with_time (d : date) (t : time) : date := {| d_locale := d_locale d; d_period := d_period d; d_time := t |}.

(** uint8 enumerations (internal/setting/config.go:8-30, config.go:36-77): kept as numbers because the public ones are unchecked uint8 *)
Definition CurrentPeriod : Z := 0.  Definition Past : Z := 1.       Definition Future : Z := 2.
Definition Current : Z := 0.        Definition First : Z := 1.      Definition Last : Z := 2.
Definition CurrentMonth : Z := 0.   Definition FirstMonth : Z := 1. Definition LastMonth : Z := 2.

(** setting.Configuration (internal/setting/config.go:32-52). [c_order] is the per-locale date order, filled in by Parser.translateAndParse. *)
Record config := {
  c_order : str;
  c_now : time;
  c_tz : option location;
  c_pday : Z;
  c_pmonth : Z;
  c_src : Z;
  c_strict : bool;
  c_required : list str;
  c_skip : list str;
  c_deflang : list str;
  c_timeperiod : bool;
  c_preserve : bool }.
Definition with_order (c : config) (o : str) : config :=
  {| c_order := o; c_now := c_now c; c_tz := c_tz c; c_pday := c_pday c; c_pmonth := c_pmonth c; c_src := c_src c;
     c_strict := c_strict c; c_required := c_required c; c_skip := c_skip c; c_deflang := c_deflang c;
     c_timeperiod := c_timeperiod c; c_preserve := c_preserve c |}.
Definition with_now (c : config) (t : time) : config :=
  {| c_order := c_order c; c_now := t; c_tz := c_tz c; c_pday := c_pday c; c_pmonth := c_pmonth c; c_src := c_src c;
     c_strict := c_strict c; c_required := c_required c; c_skip := c_skip c; c_deflang := c_deflang c;
     c_timeperiod := c_timeperiod c; c_preserve := c_preserve c |}.

(** setting.Configuration.Clone (internal/setting/config.go:54-69): values are immutable here, so cloning copies the fields *)
Definition clone (c : config) : config :=
  {| c_order := c_order c; c_now := c_now c; c_tz := c_tz c; c_pday := c_pday c; c_pmonth := c_pmonth c; c_src := c_src c;
     c_strict := c_strict c; c_required := c_required c; c_skip := c_skip c; c_deflang := c_deflang c;
     c_timeperiod := c_timeperiod c; c_preserve := c_preserve c |}.

(** dateparser.Configuration (config.go:80-148). [u_order = None] is a nil DateOrder; DateOrder functions are assumed pure. *)
Record uconfig := {
  u_locales : list str;
  u_languages : list str;
  u_region : str;
  u_try_prev : bool;
  u_given_order : bool;
  u_deflang : list str;
  u_order : option (str -> str);
  u_now : time;
  u_tz : option location;
  u_pday : Z;
  u_pmonth : Z;
  u_src : Z;
  u_strict : bool;
  u_required : list str;
  u_skip : list str;
  u_timeperiod : bool;
  u_preserve : bool }.

(** &Configuration{} *)
Definition uconfig0 : uconfig :=
  {| u_locales := []; u_languages := []; u_region := []; u_try_prev := false; u_given_order := false;
     u_deflang := []; u_order := None; u_now := zero_time; u_tz := None; u_pday := 0; u_pmonth := 0; u_src := 0;
     u_strict := false; u_required := []; u_skip := []; u_timeperiod := false; u_preserve := false |}.

(** Configuration.Clone (config.go:151-171) *)
Definition uclone (c : uconfig) : uconfig :=
  {| u_locales := u_locales c; u_languages := u_languages c; u_region := u_region c; u_try_prev := u_try_prev c;
     u_given_order := u_given_order c; u_deflang := u_deflang c; u_order := u_order c; u_now := u_now c; u_tz := u_tz c;
     u_pday := u_pday c; u_pmonth := u_pmonth c; u_src := u_src c; u_strict := u_strict c; u_required := u_required c;
     u_skip := u_skip c; u_timeperiod := u_timeperiod c; u_preserve := u_preserve c |}.

(** Configuration.validate (config.go:174-199) *)
Definition part_rejected (U : uni) (part : str) : bool :=
  let p := to_lower U part in eqs p (lit "day") || eqs p (lit "month") || eqs p (lit "year").
Definition validate (U : uni) (c : uconfig) : bool :=
  if Last <? u_pday c then false
  else if LastMonth <? u_pmonth c then false
  else if Future <? u_src c then false
  else negb (existsb (part_rejected U) (u_required c)).

(** Configuration.initiate (config.go:202-214); [now] is time.Now() *)
Definition initiate (now : time) (c0 : uconfig) : uconfig :=
  let c := uclone c0 in
  {| u_locales := u_locales c; u_languages := u_languages c; u_region := u_region c; u_try_prev := u_try_prev c;
     u_given_order := u_given_order c; u_deflang := u_deflang c; u_order := u_order c;
     u_now := if is_zero (u_now c) then in_loc now utc else u_now c; u_tz := u_tz c;
     u_pday := u_pday c; u_pmonth := u_pmonth c; u_src := u_src c; u_strict := u_strict c; u_required := u_required c;
     u_skip := match u_skip c with [] => [lit "t"] | l => l end;
     u_timeperiod := u_timeperiod c; u_preserve := u_preserve c |}.

(** Configuration.toInternalConfig (config.go:216-230): DateOrder is left empty *)
Definition to_internal (c : uconfig) : config :=
  {| c_order := []; c_now := u_now c; c_tz := u_tz c; c_pday := u_pday c; c_pmonth := u_pmonth c; c_src := u_src c;
     c_strict := u_strict c; c_required := u_required c; c_skip := u_skip c; c_deflang := u_deflang c;
     c_timeperiod := u_timeperiod c; c_preserve := u_preserve c |}.

(** configFromInternal (config.go:232-248): Locales, Languages, Region, TryPreviousLocales, UseGivenOrder and DateOrder are lost *)
Definition of_internal (c : config) : uconfig :=
  {| u_locales := []; u_languages := []; u_region := []; u_try_prev := false; u_given_order := false;
     u_deflang := c_deflang c; u_order := None; u_now := c_now c; u_tz := c_tz c; u_pday := c_pday c;
     u_pmonth := c_pmonth c; u_src := c_src c; u_strict := c_strict c; u_required := c_required c; u_skip := c_skip c;
     u_timeperiod := c_timeperiod c; u_preserve := c_preserve c |}.
