(** Histories of a Parser. Every access to the Parser's state happens inside one of two critical sections: Parse
    (parser.go:69-166) and initUniqueCharsets (search.go:133-154); see Concurrency.v for schedules. *)
From Verif Require Import GoBase SMap Setting Env Language Parser Search.

(** one critical section; every section may see another clock (environment) *)
Inductive op : Type :=
| OpParse (E : env) (cfg : uconfig) (s : str) (formats : list str)
| OpCharsets (languages : list str).

Section H.
Variable D : langdb.
Variable det : option (str -> list str).

(** what a critical section returns to its caller: nothing for initUniqueCharsets *)
Definition exec (p : pstate) (o : op) : pstate :=
  match o with
  | OpParse E cfg s formats => fst (parse E D det p cfg s formats)
  | OpCharsets l => init_charsets D p l
  end.
Definition run (p : pstate) (ops : list op) : pstate := fold_left exec ops p.

(** the parsers a program can hold: created with some ParserTypes, then used *)
Definition reachable (p : pstate) : Prop := exists types ops, p = run (new_parser types) ops.
End H.
