(** internal/parser/timestamp/parser.go *)
From Verif Require Import GoBase Regex GoTime Setting Env.

(** timestamp/parser.go:12-15 *)
Definition rxTimestamp : regex := Eval vm_compute in rxc "^(\d{10})(\d{3})?(\d{3})?(?:\.|\s|$)".
Definition rxNegativeTimestamp : regex := Eval vm_compute in rxc "^([-]\d{10})(\d{3})?(\d{3})?(?:\.|\s|$)".

(** Parse (timestamp/parser.go:18-43); the errors of ParseInt are discarded (empty groups give 0) *)
Definition timestamp_parse (E : env) (cfg : config) (s : str) (negative : bool) : date :=
  let period := if c_timeperiod cfg then PSecond else PDay in
  let r := if negative then rxNegativeTimestamp else rxTimestamp in
  match find (e_uni E) r s with
  | None => zero_date
  | Some m =>
    let seconds := atoi0 (cap_str s m 1) in
    let millis := atoi0 (cap_str s m 2) in
    let micros := atoi0 (cap_str s m 3) in
    let nanos := micros * 1000 + millis * 1000000 in
    mkd period (unix (e_local E) seconds nanos)
  end.
