(** Specification vocabulary used in the statements of the theorems. Nothing here is used by the model. *)
From Verif Require Import GoBase SMap GoTime Setting Timezone Env Timestamp Formatted Relative Absolute NoSpace Language Parser.

(** A Date a caller can use: it has a period and its time is not 0001-01-01T00:00:00Z (package time's zero Time). *)
Definition usable (d : date) : Prop :=
  d_period d <> PNone /\ ~ (t_sec (d_time d) = -62135596800 /\ t_nsec (d_time d) = 0).

(** The locale codes a caller asks for (config.go:83-104): the listed locales; without locales, the listed languages
    (all languages if none), each combined with the region if there is one. *)
Inductive asks (U : uni) (D : langdb) (locales languages : list str) (region : str) : str -> Prop :=
| asks_locale code : In code locales -> asks U D locales languages region code
| asks_language lang : locales = [] -> In lang languages -> trim_space (to_upper U region) = [] ->
    asks U D locales languages region lang
| asks_region lang : locales = [] -> In lang languages -> trim_space (to_upper U region) <> [] ->
    asks U D locales languages region (lang ++ lit "-" ++ trim_space (to_upper U region))
| asks_any lang : locales = [] -> languages = [] -> In lang (db_langs D) -> trim_space (to_upper U region) = [] ->
    asks U D locales languages region lang
| asks_any_region lang : locales = [] -> languages = [] -> In lang (db_langs D) -> trim_space (to_upper U region) <> [] ->
    asks U D locales languages region (lang ++ lit "-" ++ trim_space (to_upper U region)).

(** ** Sub-parsers by number (parser.go:49-65) *)
(** [d] is the date of the first element of [l] that has a usable one under [R] *)
Definition first_hit {A} (R : A -> date -> Prop) (l : list A) (d : date) : Prop :=
  exists l1 x l2, l = l1 ++ x :: l2 /\ R x d /\ usable d /\ forall y d', In y l1 -> R y d' -> ~ usable d'.

(** removing brackets and the timezone, then parsing what remains, then attaching the timezone *)
Definition zoned (E : env) (cfg : config) (parser : str -> offset_data -> res date) (t : str) (d : date) : Prop :=
  exists rest tz d0, etz_pop E (Strutil.strip_braces t) = (rest, tz) /\ rest <> [] /\ parser rest tz = Ok d0 /\
    d = apply_timezone cfg d0 tz.

Definition sub_parser (E : env) (cfg : config) (s : str) (translations translations_fmt formats : list str) (ty : Z) (d : date) : Prop :=
  usable d /\
  ((ty = 0 /\ d = timestamp_parse E cfg s false) \/
   (ty = 1 /\ d = timestamp_parse E cfg s true) \/
   (ty = 2 /\ first_hit (fun t d => d = relative_parse E cfg t) translations d) \/
   (ty = 3 /\ first_hit (fun t d => d = formatted_parse E cfg t formats) translations_fmt d) \/
   (ty = 4 /\ first_hit (zoned E cfg (absolute_parse E cfg)) translations d) \/
   (ty = 5 /\ first_hit (zoned E cfg (fun t _ => nospace_parse E cfg t)) translations d)).

(** the six date orders *)
Definition six_orders : list str := map lit ["DMY"; "DYM"; "MDY"; "MYD"; "YDM"; "YMD"]%string.

(** cfg with another DateOrder function *)
Definition set_order (c : uconfig) (f : option (str -> str)) : uconfig :=
  {| u_locales := u_locales c; u_languages := u_languages c; u_region := u_region c; u_try_prev := u_try_prev c;
     u_given_order := u_given_order c; u_deflang := u_deflang c; u_order := f; u_now := u_now c; u_tz := u_tz c;
     u_pday := u_pday c; u_pmonth := u_pmonth c; u_src := u_src c; u_strict := u_strict c; u_required := u_required c;
     u_skip := u_skip c; u_timeperiod := u_timeperiod c; u_preserve := u_preserve c |}.

(** the same environment at another clock reading *)
Definition at_clock (E : env) (now : time) : env :=
  {| e_now := now; e_local := e_local E; e_uni := e_uni E; e_tz := e_tz E; e_wd_first := e_wd_first E |}.
