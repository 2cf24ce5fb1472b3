(** Go base library: byte strings, UTF-8, the parts of [strings] and [strconv] that
    go-dateparser uses.  Nothing here models code in /repo: these are the semantics of
    Go's own packages (Go 1.24 documentation), part of the trusted reading. *)
From Coq Require Export String Ascii.
From Coq Require Export List ZArith Lia Bool.
Export ListNotations.
Open Scope Z_scope.

(** A Go [string] is its sequence of bytes (each 0..255). *)
Definition str := list Z.
Definition rune := Z.

Fixpoint lit (s : string) : str :=
  match s with
  | EmptyString => []
  | String c r => Z.of_N (N_of_ascii c) :: lit r
  end.

(** Outcome of a Go function: a value, an error return, or a run-time panic. *)
Inductive goerr : Set :=
| EConfig            (* "config error: ..." *)
| EUnknownLocales | EUnknownLanguages | EConflictingLocales | ENotFound
| EParserType        (* "invalid parser type" *)
| ENoParse           (* "unable to parse ..." / "unknown format" *)
| EStrict            (* missing parts *)
| EEmpty             (* "string is empty" *)
| EDetect            (* language detector failed *)
| EUnknownLang.      (* "unknown language" *)

Inductive res (A : Type) : Type :=
| Ok (a : A)
| Err (e : goerr)
| Panic.
Arguments Ok {A} a.
Arguments Err {A} e.
Arguments Panic {A}.

Definition rbind {A B} (r : res A) (f : A -> res B) : res B :=
  match r with Ok a => f a | Err e => Err e | Panic => Panic end.
Notation "'do' x <- r ; k" := (rbind r (fun x => k))
  (at level 200, x pattern, r at level 100, k at level 200).

(** Comparison of strings: equality and Go's bytewise [<]. *)
Fixpoint eqs (a b : str) : bool :=
  match a, b with
  | [], [] => true
  | x :: a', y :: b' => (x =? y) && eqs a' b'
  | _, _ => false
  end.

Fixpoint lts (a b : str) : bool :=
  match a, b with
  | [], [] => false
  | [], _ :: _ => true
  | _ :: _, [] => false
  | x :: a', y :: b' => if x <? y then true else if y <? x then false else lts a' b'
  end.

Definition empty (s : str) : bool := match s with [] => true | _ => false end.
Definition slen (s : str) : Z := Z.of_nat (length s).
Definition mem (s : str) (l : list str) : bool := existsb (eqs s) l.

(** ASCII *)
Definition is_upperA (c : Z) : bool := (65 <=? c) && (c <=? 90).
Definition is_lowerA (c : Z) : bool := (97 <=? c) && (c <=? 122).
Definition is_alphaA (c : Z) : bool := is_upperA c || is_lowerA c.
Definition is_digitA (c : Z) : bool := (48 <=? c) && (c <=? 57).
Definition lowerA (c : Z) : Z := if is_upperA c then c + 32 else c.
Definition upperA (c : Z) : Z := if is_lowerA c then c - 32 else c.
Definition is_ascii (s : str) : bool := forallb (fun c => c <? 128) s.

(** ** UTF-8 (unicode/utf8) *)
Definition rune_error : Z := 65533.
Definition cont (b : Z) : bool := (128 <=? b) && (b <=? 191).

(** utf8.DecodeRuneInString on a non-empty string: rune and width; [(RuneError,1)] if malformed. *)
Definition decode_rune (s : str) : Z * nat :=
  match s with
  | [] => (rune_error, 0%nat)
  | b0 :: s1 =>
    if b0 <? 128 then (b0, 1%nat)
    else if b0 <? 194 then (rune_error, 1%nat)
    else match s1 with
    | [] => (rune_error, 1%nat)
    | b1 :: s2 =>
      if b0 <? 224 then
        if cont b1 then ((b0 - 192) * 64 + (b1 - 128), 2%nat) else (rune_error, 1%nat)
      else match s2 with
      | [] => (rune_error, 1%nat)
      | b2 :: s3 =>
        if b0 <? 240 then
          let lo := if b0 =? 224 then 160 else 128 in
          let hi := if b0 =? 237 then 159 else 191 in
          if (lo <=? b1) && (b1 <=? hi) && cont b2
          then ((b0 - 224) * 4096 + (b1 - 128) * 64 + (b2 - 128), 3%nat)
          else (rune_error, 1%nat)
        else match s3 with
        | [] => (rune_error, 1%nat)
        | b3 :: _ =>
          if b0 <? 245 then
            let lo := if b0 =? 240 then 144 else 128 in
            let hi := if b0 =? 244 then 143 else 191 in
            if (lo <=? b1) && (b1 <=? hi) && cont b2 && cont b3
            then ((b0 - 240) * 262144 + (b1 - 128) * 4096 + (b2 - 128) * 64 + (b3 - 128), 4%nat)
            else (rune_error, 1%nat)
          else (rune_error, 1%nat)
        end
      end
    end
  end.

(** [for i, r := range s]: runes with byte widths. [skip] counts bytes of the current rune left. *)
Fixpoint decode_from (skip : nat) (s : str) : list (Z * nat) :=
  match s with
  | [] => []
  | _ :: s' =>
    match skip with
    | S k => decode_from k s'
    | O => let '(r, w) := decode_rune s in (r, w) :: decode_from (pred w) s'
    end
  end.
Definition decode (s : str) : list (Z * nat) := decode_from 0 s.
(** [[]rune(s)] *)
Definition runes (s : str) : list Z := map fst (decode s).

(** utf8.AppendRune *)
Definition encode_rune (r : Z) : str :=
  if (0 <=? r) && (r <? 128) then [r]
  else if (0 <=? r) && (r <? 2048) then [192 + r / 64; 128 + r mod 64]
  else if (r <? 0) || (1114111 <? r) || ((55296 <=? r) && (r <=? 57343)) then [239; 191; 189]
  else if r <? 65536 then [224 + r / 4096; 128 + (r / 64) mod 64; 128 + r mod 64]
  else [240 + r / 262144; 128 + (r / 4096) mod 64; 128 + (r / 64) mod 64; 128 + r mod 64].
(** [string(runes)] *)
Definition encode (rs : list Z) : str := flat_map encode_rune rs.

Definition valid_utf8 (s : str) : Prop := encode (runes s) = s.

Definition rune_count (s : str) : nat := length (runes s).

(** last rune of a string (utf8.DecodeLastRuneInString), on well-formed strings *)
Definition last_rune (s : str) : Z := last (runes s) rune_error.

(** ** strings *)
Fixpoint has_prefix (p s : str) : bool :=
  match p, s with
  | [], _ => true
  | x :: p', y :: s' => (x =? y) && has_prefix p' s'
  | _, _ => false
  end.

(** strings.Index: byte position of the first occurrence *)
Fixpoint index (s sub : str) : option nat :=
  if has_prefix sub s then Some 0%nat
  else match s with
       | [] => None
       | _ :: s' => option_map S (index s' sub)
       end.
Definition contains (s sub : str) : bool := match index s sub with Some _ => true | None => false end.

(** strings.Split with a non-empty separator *)
Fixpoint split_from (skip : nat) (acc : str) (s sep : str) : list str :=
  match s with
  | [] => [rev acc]
  | c :: s' =>
    match skip with
    | S k => split_from k acc s' sep
    | O => if has_prefix sep s then rev acc :: split_from (pred (length sep)) [] s' sep
           else split_from 0 (c :: acc) s' sep
    end
  end.
Definition split (s sep : str) : list str := split_from 0 [] s sep.
Definition count (s sub : str) : nat := pred (length (split s sub)).

Fixpoint sjoin (l : list str) (sep : str) : str :=
  match l with
  | [] => []
  | [x] => x
  | x :: l' => x ++ sep ++ sjoin l' sep
  end.
Definition replace_all (s old new : str) : str := sjoin (split s old) new.

Definition has_suffix (p s : str) : bool := has_prefix (rev p) (rev s).
Definition trim_suffix (s p : str) : str :=
  if has_suffix p s then firstn (length s - length p) s else s.

(** strings.LastIndex for a one byte substring *)
Fixpoint last_index1 (s : str) (c : Z) : option nat :=
  match s with
  | [] => None
  | x :: s' => match last_index1 s' c with
               | Some i => Some (S i)
               | None => if x =? c then Some 0%nat else None
               end
  end.

(** unicode.IsSpace (White_Space) *)
Definition is_space (r : Z) : bool :=
  ((9 <=? r) && (r <=? 13)) || (r =? 32) || (r =? 133) || (r =? 160) || (r =? 5760)
  || ((8192 <=? r) && (r <=? 8202)) || (r =? 8232) || (r =? 8233) || (r =? 8239)
  || (r =? 8287) || (r =? 12288).

(** bytes of each rune *)
Fixpoint chunks_from (ws : list (Z * nat)) (s : str) : list (Z * str) :=
  match ws with
  | [] => []
  | (r, w) :: ws' => (r, firstn w s) :: chunks_from ws' (skipn w s)
  end.
Definition chunks (s : str) : list (Z * str) := chunks_from (decode s) s.
Definition unchunks (l : list (Z * str)) : str := flat_map snd l.

Fixpoint drop_while {A} (f : A -> bool) (l : list A) : list A :=
  match l with
  | [] => []
  | x :: l' => if f x then drop_while f l' else l
  end.

(** strings.TrimFunc *)
Definition trim_func (f : Z -> bool) (s : str) : str :=
  let l := drop_while (fun p => f (fst p)) (chunks s) in
  unchunks (rev (drop_while (fun p => f (fst p)) (rev l))).
Definition trim_space (s : str) : str := trim_func is_space s.

(** strings.Fields *)
Fixpoint fields_from (acc : str) (l : list (Z * str)) : list str :=
  match l with
  | [] => if empty acc then [] else [acc]
  | (r, b) :: l' =>
    if is_space r then (if empty acc then fields_from [] l' else acc :: fields_from [] l')
    else fields_from (acc ++ b) l'
  end.
Definition fields (s : str) : list str := fields_from [] (chunks s).

(** strconv: decimal digits to number *)
Fixpoint dec_val (acc : Z) (s : str) : option Z :=
  match s with
  | [] => Some acc
  | c :: s' => if is_digitA c then dec_val (acc * 10 + (c - 48)) s' else None
  end.
(** strconv.Atoi / ParseInt(_, 10, 64); range errors cannot occur for the at most 16 digit
    arguments used in the repository and are not modelled *)
Definition atoi (s : str) : option Z :=
  match s with
  | [] => None
  | c :: s' =>
    if c =? 45 then (if empty s' then None else option_map Z.opp (dec_val 0 s'))
    else if c =? 43 then (if empty s' then None else dec_val 0 s')
    else dec_val 0 s
  end.
(** [v, _ := strconv.Atoi(s)] *)
Definition atoi0 (s : str) : Z := match atoi s with Some v => v | None => 0 end.

(** strconv.Itoa *)
Fixpoint itoa_aux (fuel : nat) (n : Z) (acc : str) : str :=
  match fuel with
  | O => acc
  | S f => let acc' := (48 + n mod 10) :: acc in
           if n / 10 =? 0 then acc' else itoa_aux f (n / 10) acc'
  end.
Definition itoa (n : Z) : str :=
  if n <? 0 then 45 :: itoa_aux (S (Z.to_nat (Z.log2 (- n)))) (- n) []
  else itoa_aux (S (Z.to_nat (Z.log2 n))) n [].

(** 64-bit two's complement wrap-around *)
Definition wrap64 (z : Z) : Z :=
  let m := z mod 18446744073709551616 in
  if m <? 9223372036854775808 then m else m - 18446744073709551616.

(** Things outside the repository that the model does not compute: Unicode tables and
    transformations (golang.org/x/text, unicode), over which every theorem quantifies. *)
Record uni := {
  u_lower : Z -> Z;                 (* unicode.ToLower *)
  u_upper : Z -> Z;                 (* unicode.ToUpper *)
  u_fold : Z -> Z;                  (* canonical representative of the unicode.SimpleFold orbit *)
  u_isL : Z -> bool;                (* category L  (\pL, unicode.IsLetter) *)
  u_isM : Z -> bool;                (* category M *)
  u_isN : Z -> bool;                (* category N  (\pN, unicode.IsNumber) *)
  u_isNd : Z -> bool;               (* category Nd (unicode.IsDigit) *)
  u_nfkc : str -> str;              (* transform.Chain(norm.NFKD, norm.NFKC) *)
  u_nfkd_noMn_nfkc : str -> str;    (* transform.Chain(norm.NFKD, remove Mn, norm.NFKC) *)
}.

(** strings.ToLower / ToUpper: bytewise on ASCII-only strings, else rune by rune *)
Definition to_lower (U : uni) (s : str) : str :=
  if is_ascii s then map lowerA s else encode (map (u_lower U) (runes s)).
Definition to_upper (U : uni) (s : str) : str :=
  if is_ascii s then map upperA s else encode (map (u_upper U) (runes s)).

(** What the theorems need to know about the Unicode tables: they agree with ASCII,
    and the replacement character has no case. *)
Record uni_ascii (U : uni) : Prop := {
  ua_lower : forall c, 0 <= c < 128 -> u_lower U c = lowerA c;
  ua_upper : forall c, 0 <= c < 128 -> u_upper U c = upperA c;
  ua_upper_fffd : u_upper U 65533 = 65533;
  ua_fold : forall c, 0 <= c < 128 -> u_fold U c = lowerA c;
  (* only the long s and the Kelvin sign fold to ASCII (the dotted capital I is left open) *)
  ua_fold_hi : forall c, 128 <= c -> existsb (Z.eqb c) [304; 383; 8490] = false -> 128 <= u_fold U c;
  ua_isL : forall c, 0 <= c < 128 -> u_isL U c = is_alphaA c;
  ua_isM : forall c, 0 <= c < 128 -> u_isM U c = false;
  ua_isN : forall c, 0 <= c < 128 -> u_isN U c = is_digitA c;
  ua_isNd : forall c, 0 <= c < 128 -> u_isNd U c = is_digitA c;
  ua_nfkc : forall s, is_ascii s = true -> u_nfkc U s = s;
  ua_nfkd : forall s, is_ascii s = true -> u_nfkd_noMn_nfkc U s = s;
}.
