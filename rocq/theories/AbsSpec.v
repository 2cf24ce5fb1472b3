(** Vocabulary for the statements about the absolute parser *)
From Verif Require Import GoBase SMap Civil GoTime GoTimeFacts GoTimeParse Setting Tokenizer Timezone Env Common Absolute.

(** What the absolute parser read from a string: the numbers taken as day, month and year (with the text of the year), the text
    taken as the weekday, and the time of day (hour, minute, second, nanosecond, resolution). *)
Record reading := {
  r_day : option Z; r_month : option Z; r_year : option (str * Z); r_weekday : option str;
  r_clock : option (Z * Z * Z * Z * period) }.
(** [reads E cfg s R]: the string [s] is recognised, its parts are [R] *)
Definition reads (E : env) (cfg : config) (s : str) (R : reading) : Prop :=
  exists a, abs_init E (greg_hooks E) cfg s = Some a /\
    r_day R = cm_day (a_vals a) /\ r_month R = cm_month (a_vals a) /\
    option_map snd (r_year R) = cm_year (a_vals a) /\ option_map fst (r_year R) = option_map tk_text (cm_year (a_toks a)) /\
    r_weekday R = option_map tk_text (cm_wd (a_toks a)) /\
    match a_time a with
    | None => r_clock R = None
    | Some tk => exists t p, parse_time E (tk_text tk) = Some (t, p) /\ r_clock R = Some (hour t, minute t, second t, nanosecond t, p)
    end.
Definition clock_of (R : reading) : Z * Z * Z * Z :=
  match r_clock R with Some (h, mi, s, ns, _) => (h, mi, s, ns) | None => (0, 0, 0, 0) end.

(** the current time of the call: [now], in a zone with a fixed offset (UTC if the caller does not set it) *)
Record current (cfg : config) (now : time) : Prop := {
  cur_now : c_now cfg = now; cur_set : is_zero now = false; cur_wf : wf_time now; cur_fixed : fixed (t_loc now) }.
(** missing parts are not forbidden *)
Definition lenient (cfg : config) : Prop := c_strict cfg = false /\ c_required cfg = [].

(** [t] shows this date, this time of day *)
Definition on (t : time) (y m d : Z) : Prop := year t = y /\ month t = m /\ day t = d.
Definition at_ (t : time) (c : Z * Z * Z * Z) : Prop := (hour t, minute t, second t, nanosecond t) = c.

(** the leap year that replaces the non-leap year [y]: the next one with Future, the previous one with Past, else the nearer one
    (the previous one if both are equally near) *)
Definition next_leap (y z : Z) : Prop := leap z = true /\ y < z /\ forall x, y < x < z -> leap x = false.
Definition prev_leap (y z : Z) : Prop := leap z = true /\ z < y /\ forall x, z < x < y -> leap x = false.
Definition adjusted (src y z : Z) : Prop :=
  (src = Future -> next_leap y z) /\ (src = Past -> prev_leap y z) /\
  (src <> Future -> src <> Past ->
     (next_leap y z /\ (forall x, prev_leap y x -> z - y < y - x)) \/ (prev_leap y z /\ (forall x, next_leap y x -> y - z <= x - y))).
