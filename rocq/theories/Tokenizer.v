(** internal/parser/tokenizer/tokenizer.go *)
From Verif Require Import GoBase.

(** tokenizer.go:14-21 *)
Inductive ttype : Set := TNull | TDigit | TLetter | TOther.
(** tokenizer.go:23-26 *)
Record token := { tk_text : str; tk_type : ttype }.
Definition tk_null : token := {| tk_text := []; tk_type := TNull |}.
(** Token.IsEmpty (tokenizer.go:28-30) *)
Definition tk_empty (t : token) : bool :=
  match tk_text t, tk_type t with [], TNull => true | _, _ => false end.
Definition ttype_eqb (a b : ttype) : bool :=
  match a, b with TNull, TNull | TDigit, TDigit | TLetter, TLetter | TOther, TOther => true | _, _ => false end.

Definition is_tdigit (r : Z) : bool := is_digitA r || (r =? 58).
Definition is_tletter (r : Z) : bool := is_alphaA r.

(** compareChars (tokenizer.go:69-84) *)
Definition compare_chars (r1 r2 : Z) : ttype * bool :=
  if is_tdigit r1 then (TDigit, negb (is_tdigit r2))
  else if is_tletter r1 then (TLetter, negb (is_tletter r2))
  else (TOther, is_tdigit r2 || is_tletter r2).

(** the loop (tokenizer.go:44-56): [prev] is chars[i-1], [text] the accumulated runes in reverse *)
Fixpoint tok_loop (prev : Z) (text : list Z) (cs : list Z) : list token :=
  match cs with
  | [] => [{| tk_text := encode (rev text); tk_type := fst (compare_chars (last text 0) 0) |}]
  | c :: cs' =>
    let '(ty, changed) := compare_chars prev c in
    if changed then {| tk_text := encode (rev text); tk_type := ty |} :: tok_loop c [c] cs'
    else tok_loop c (c :: text) cs'
  end.

(** Tokenize (tokenizer.go:32-67): a one-rune string keeps its bytes *)
Definition tokenize (s : str) : list token :=
  match runes s with
  | [] => []
  | [c] => [{| tk_text := s; tk_type := fst (compare_chars c 0) |}]
  | c :: cs => tok_loop c [c] cs
  end.
