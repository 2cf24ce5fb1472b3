(** Go's [regexp] package (RE2 syntax, leftmost-first semantics), as used through
    /repo/internal/regexp/regexp.go (a thin wrapper around the standard package).
    The syntax parser accepts the sub-language occurring in the repository.
    Simplifications: [(?i)] on the category classes \pL, \pM, \pN does not add the few characters of
    Go's fold-category tables; bounded repetition is expanded. *)
From Verif Require Import GoBase.

(** ** Abstract syntax *)
Inductive ucat : Set := UL | UM | UN.
Inductive citem : Set :=
| IRange (lo hi : Z)
| ICat (neg : bool) (c : ucat)
| INotRanges (l : list (Z * Z)).      (* \D, \W, \S *)
Record cls : Set := { cl_neg : bool; cl_items : list citem }.

Inductive re : Set :=
| Eps
| Chr (ci : bool) (c : Z)
| Cls (ci : bool) (k : cls)
| Dot                                  (* any character except \n *)
| Cat (a b : re)
| Alt (a b : re)
| Star (greedy : bool) (a : re)
| Grp (n : nat) (a : re)
| Bot                                  (* ^ and \A: beginning of text *)
| Eot                                  (* $ and \z: end of text *)
| WordB (neg : bool).                  (* \b, \B (ASCII) *)

Definition ropt (greedy : bool) (a : re) : re := if greedy then Alt a Eps else Alt Eps a.
Definition rplus (greedy : bool) (a : re) : re := Cat a (Star greedy a).
Fixpoint rrep (n : nat) (a : re) : re := match n with O => Eps | 1%nat => a | S k => Cat a (rrep k a) end.
Fixpoint roptn (greedy : bool) (n : nat) (a : re) : re :=
  match n with O => Eps | S k => ropt greedy (Cat a (roptn greedy k a)) end.

Record regex : Set := { rx_ast : re; rx_ngroups : nat }.

(** ** Matching *)
Definition in_ranges (l : list (Z * Z)) (r : Z) : bool :=
  existsb (fun p => (fst p <=? r) && (r <=? snd p)) l.
Definition ranges_d : list (Z * Z) := [(48, 57)].
Definition ranges_w : list (Z * Z) := [(48, 57); (65, 90); (95, 95); (97, 122)].
Definition ranges_s : list (Z * Z) := [(9, 10); (12, 13); (32, 32)].

Section Match.
Variable U : uni.

Definition cat_has (c : ucat) (r : Z) : bool :=
  match c with UL => u_isL U r | UM => u_isM U r | UN => u_isN U r end.

Definition item_has (ci : bool) (i : citem) (r : Z) : bool :=
  match i with
  | IRange lo hi =>
      if ci then
        if lo =? hi then u_fold U r =? u_fold U lo
        else existsb (fun r' => (lo <=? r') && (r' <=? hi)) [r; u_lower U r; u_upper U r; u_fold U r]
      else (lo <=? r) && (r <=? hi)
  | ICat neg c => xorb neg (cat_has c r)
  | INotRanges l => negb (in_ranges l r)
  end.
Definition cls_has (ci : bool) (k : cls) (r : Z) : bool :=
  xorb (cl_neg k) (existsb (fun i => item_has ci i r) (cl_items k)).
Definition chr_is (ci : bool) (c r : Z) : bool :=
  if ci then u_fold U r =? u_fold U c else r =? c.

(** position in the subject: previous rune (-1 at the beginning), remaining bytes, byte offset,
    captures (latest first) *)
Record mst := { m_prev : Z; m_rest : str; m_pos : nat; m_caps : list (nat * (nat * nat)) }.

Definition is_word (r : Z) : bool := in_ranges ranges_w r.
Definition at_wordb (s : mst) : bool :=
  xorb (is_word (m_prev s))
       (match m_rest s with [] => false | l => is_word (fst (decode_rune l)) end).

Definition step (s : mst) (f : Z -> bool) (k : mst -> option mst) : option mst :=
  match m_rest s with
  | [] => None
  | l => let '(r, w) := decode_rune l in
         if f r then k {| m_prev := r; m_rest := skipn w l; m_pos := (m_pos s + w)%nat; m_caps := m_caps s |}
         else None
  end.

(** leftmost-first (Perl-like) backtracking search in continuation-passing style *)
Fixpoint mtch (r : re) (s : mst) (k : mst -> option mst) {struct r} : option mst :=
  match r with
  | Eps => k s
  | Chr ci c => step s (chr_is ci c) k
  | Cls ci c => step s (cls_has ci c) k
  | Dot => step s (fun x => negb (x =? 10)) k
  | Cat a b => mtch a s (fun s' => mtch b s' k)
  | Alt a b => match mtch a s k with Some x => Some x | None => mtch b s k end
  | Star g a =>
      (fix loop (n : nat) (s : mst) {struct n} : option mst :=
         match n with
         | O => k s
         | S n' =>
           if g then
             match mtch a s (fun s' => if Nat.ltb (m_pos s) (m_pos s') then loop n' s' else None) with
             | Some x => Some x
             | None => k s
             end
           else
             match k s with
             | Some x => Some x
             | None => mtch a s (fun s' => if Nat.ltb (m_pos s) (m_pos s') then loop n' s' else None)
             end
         end) (S (length (m_rest s))) s
  | Grp n a =>
      mtch a s (fun s' => k {| m_prev := m_prev s'; m_rest := m_rest s'; m_pos := m_pos s';
                               m_caps := (n, (m_pos s, m_pos s')) :: m_caps s' |})
  | Bot => match m_pos s with O => k s | _ => None end
  | Eot => match m_rest s with [] => k s | _ => None end
  | WordB neg => if xorb neg (at_wordb s) then k s else None
  end.

(** a match: start, end, captures *)
Record match_ := { mt_start : nat; mt_end : nat; mt_caps : list (nat * (nat * nat)) }.

Definition match_here (r : re) (s : mst) : option match_ :=
  match mtch r s Some with
  | Some e => Some {| mt_start := m_pos s; mt_end := m_pos e; mt_caps := m_caps e |}
  | None => None
  end.

(** all rune boundaries of the subject *)
Fixpoint states_from (prev : Z) (pos : nat) (ws : list (Z * nat)) (s : str) : list mst :=
  {| m_prev := prev; m_rest := s; m_pos := pos; m_caps := [] |} ::
  match ws with
  | [] => []
  | (r, w) :: ws' => states_from r (pos + w) ws' (skipn w s)
  end.
Definition states (s : str) : list mst := states_from (-1) 0 (decode s) s.

Fixpoint first_match (r : re) (l : list mst) : option match_ :=
  match l with
  | [] => None
  | s :: l' => match match_here r s with Some m => Some m | None => first_match r l' end
  end.

(** doExecute from byte position [p] *)
Definition exec_from (r : re) (l : list mst) (p : nat) : option match_ :=
  first_match r (drop_while (fun s => Nat.ltb (m_pos s) p) l).

Definition find (r : regex) (s : str) : option match_ := first_match (rx_ast r) (states s).
Definition match_string (r : regex) (s : str) : bool := match find r s with Some _ => true | None => false end.

Definition slice (s : str) (i j : nat) : str := firstn (j - i) (skipn i s).

(** FindString *)
Definition find_string (r : regex) (s : str) : str :=
  match find r s with Some m => slice s (mt_start m) (mt_end m) | None => [] end.

(** capture [i] as byte range ([None] = index -1) *)
Definition cap (m : match_) (i : nat) : option (nat * nat) :=
  match i with
  | O => Some (mt_start m, mt_end m)
  | _ => option_map snd (List.find (fun p => Nat.eqb (fst p) i) (mt_caps m))
  end.
(** capture [i] as string ("" when unset), as in FindStringSubmatch *)
Definition cap_str (s : str) (m : match_) (i : nat) : str :=
  match cap m i with Some (a, b) => slice s a b | None => [] end.

(** width of the rune at byte position p (0 at the end) *)
Definition width_at (s : str) (p : nat) : nat := match skipn p s with [] => 0%nat | l => snd (decode_rune l) end.

(** allMatches: FindAll* with n = -1 *)
Fixpoint all_matches (fuel : nat) (r : re) (l : list mst) (s : str) (pos : nat) (prevEnd : option nat)
  : list match_ :=
  match fuel with
  | O => []
  | S f =>
    if Nat.ltb (length s) pos then []
    else match exec_from r l pos with
    | None => []
    | Some m =>
      let empty_here := Nat.eqb (mt_end m) pos in
      let accept := negb (empty_here && match prevEnd with Some e => Nat.eqb (mt_start m) e | None => false end) in
      let pos' := if empty_here
                  then match width_at s pos with O => S (length s) | w => (pos + w)%nat end
                  else mt_end m in
      let rest := all_matches f r l s pos' (Some (mt_end m)) in
      if accept then m :: rest else rest
    end
  end.
Definition find_all (r : regex) (s : str) : list match_ :=
  all_matches (S (S (length s))) (rx_ast r) (states s) s 0 None.

(** replaceAll *)
Fixpoint replace_loop (fuel : nat) (r : re) (l : list mst) (s : str) (lastEnd searchPos : nat)
  (repl : match_ -> str) : str :=
  match fuel with
  | O => skipn lastEnd s
  | S f =>
    if Nat.ltb (length s) searchPos then skipn lastEnd s
    else match exec_from r l searchPos with
    | None => skipn lastEnd s
    | Some m =>
      let before := slice s lastEnd (mt_start m) in
      let ins := if Nat.ltb lastEnd (mt_end m) || Nat.eqb (mt_start m) 0 then repl m else [] in
      let w := width_at s searchPos in
      let pos' := if Nat.ltb (mt_end m) (searchPos + w) then (searchPos + w)%nat
                  else if Nat.ltb (mt_end m) (searchPos + 1) then (searchPos + 1)%nat
                  else mt_end m in
      before ++ ins ++ replace_loop f r l s (mt_end m) pos' repl
    end
  end.
Definition replace_all_fn (r : regex) (s : str) (repl : match_ -> str) : str :=
  replace_loop (S (S (length s))) (rx_ast r) (states s) s 0 0 repl.

(** Expand: [$1] with the longest run of letters, digits, underscores as name, or [${1}]; only numeric names
    occur in the repository (an unknown name expands to the empty string). [$$] is not used. *)
Fixpoint take_while {A} (f : A -> bool) (l : list A) : list A :=
  match l with [] => [] | x :: l' => if f x then x :: take_while f l' else [] end.
Fixpoint expand_aux (skip : nat) (t : str) (s : str) (m : match_) : str :=
  match t with
  | [] => []
  | c :: t' =>
    match skip with
    | S k => expand_aux k t' s m
    | O =>
      if c =? 36 then
        let brace := match t' with b :: _ => b =? 123 | [] => false end in
        let name := take_while is_word (if brace then tl t' else t') in
        match name with
        | [] => c :: expand_aux 0 t' s m
        | _ =>
          if brace && negb (match skipn (S (length name)) t' with b :: _ => b =? 125 | [] => false end)
          then c :: expand_aux 0 t' s m
          else (match dec_val 0 name with Some i => cap_str s m (Z.to_nat i) | None => [] end)
               ++ expand_aux (length name + (if brace then 2 else 0)) t' s m
        end
      else c :: expand_aux 0 t' s m
    end
  end.
Definition expand (t : str) (s : str) (m : match_) : str := expand_aux 0 t s m.
Definition replace_all_string (r : regex) (s t : str) : str := replace_all_fn r s (expand t s).

(** Split(s, -1) *)
Fixpoint rsplit_loop (ms : list match_) (s : str) (beg en : nat) : list str :=
  match ms with
  | [] => if Nat.eqb en (length s) then [] else [skipn beg s]
  | m :: ms' =>
    (if Nat.eqb (mt_end m) 0 then [] else [slice s beg (mt_start m)])
    ++ rsplit_loop ms' s (mt_end m) (mt_start m)
  end.
Definition rsplit (r : regex) (s : str) : list str :=
  match s with [] => [[]] | _ => rsplit_loop (find_all r s) s 0 0 end.

End Match.

(** ** Syntax *)
Definition hexval (c : Z) : Z := if is_digitA c then c - 48 else lowerA c - 87.

(** escapes that denote one character: letter code -> rune *)
Definition esc_char (c : Z) : Z :=
  if c =? 110 then 10 else if c =? 114 then 13 else if c =? 116 then 9 else c.

Definition cat_of (c : Z) : ucat := if c =? 76 then UL else if c =? 77 then UM else UN.

(** after a backslash: a class item or a single character *)
Definition parse_escape (s : list Z) : option ((citem + Z) * list Z) :=
  match s with
  | [] => None
  | c :: s1 =>
    if c =? 100 then Some (inl (IRange 48 57), s1)                    (* \d *)
    else if c =? 68 then Some (inl (INotRanges ranges_d), s1)         (* \D *)
    else if c =? 87 then Some (inl (INotRanges ranges_w), s1)         (* \W *)
    else if c =? 83 then Some (inl (INotRanges ranges_s), s1)         (* \S *)
    else if (c =? 112) || (c =? 80) then                              (* \p \P *)
      match s1 with
      | 123 :: k :: 125 :: s2 => Some (inl (ICat (c =? 80) (cat_of k)), s2)
      | k :: s2 => Some (inl (ICat (c =? 80) (cat_of k)), s2)
      | [] => None
      end
    else if c =? 120 then                                             (* \x{hhhh} *)
      match s1 with
      | 123 :: s2 =>
        (fix go (acc : Z) (l : list Z) : option ((citem + Z) * list Z) :=
           match l with
           | [] => None
           | h :: l' => if h =? 125 then Some (inr acc, l') else go (acc * 16 + hexval h) l'
           end) 0 s2
      | _ => None
      end
    else Some (inr (esc_char c), s1)
  end.

(** items of a perl class with several ranges *)
Definition perl_items (c : Z) : option (list citem) :=
  if c =? 119 then Some (map (fun p => IRange (fst p) (snd p)) ranges_w)      (* \w *)
  else if c =? 115 then Some (map (fun p => IRange (fst p) (snd p)) ranges_s) (* \s *)
  else None.

(** inside [...] *)
Fixpoint parse_class (fuel : nat) (s : list Z) (acc : list citem) (first : bool) : option (list citem * list Z) :=
  match fuel with
  | O => None
  | S f =>
    match s with
    | [] => None
    | c :: s1 =>
      if (c =? 93) && negb first then Some (rev acc, s1)
      else
        match (if c =? 92 then
                 match s1 with
                 | e :: s2 => match perl_items e with
                              | Some l => Some (inl l, s2)
                              | None => match parse_escape s1 with
                                        | Some (inl i, r) => Some (inl [i], r)
                                        | Some (inr z, r) => Some (inr z, r)
                                        | None => None
                                        end
                              end
                 | [] => None
                 end
               else Some (inr c, s1)) with
        | None => None
        | Some (inl l, r) => parse_class f r (rev l ++ acc) false
        | Some (inr lo, r) =>
          match r with
          | 45 :: 93 :: _ => parse_class f r (IRange lo lo :: acc) false
          | 45 :: 92 :: hi :: r' => parse_class f r' (IRange lo (esc_char hi) :: acc) false
          | 45 :: hi :: r' => parse_class f r' (IRange lo hi :: acc) false
          | _ => parse_class f r (IRange lo lo :: acc) false
          end
        end
    end
  end.

(** {n}, {n,}, {n,m}: returns (n, Some m / None, rest) *)
Fixpoint take_num (s : list Z) (acc : Z) : Z * list Z :=
  match s with
  | c :: s' => if is_digitA c then take_num s' (acc * 10 + (c - 48)) else (acc, s)
  | [] => (acc, [])
  end.
Definition parse_braces (s : list Z) : option (nat * option nat * list Z) :=
  let '(n, r) := take_num s 0 in
  match r with
  | 125 :: r' => Some (Z.to_nat n, Some (Z.to_nat n), r')
  | 44 :: 125 :: r' => Some (Z.to_nat n, None, r')
  | 44 :: r' => let '(m, r2) := take_num r' 0 in
                match r2 with 125 :: r3 => Some (Z.to_nat n, Some (Z.to_nat m), r3) | _ => None end
  | _ => None
  end.

(** quantifier after an atom *)
Definition parse_quant (a : re) (s : list Z) : option (re * list Z) :=
  let lazy_ (r : list Z) := match r with 63 :: r' => (false, r') | _ => (true, r) end in
  match s with
  | c :: r =>
    if c =? 42 then let '(g, r') := lazy_ r in Some (Star g a, r')
    else if c =? 43 then let '(g, r') := lazy_ r in Some (rplus g a, r')
    else if c =? 63 then let '(g, r') := lazy_ r in Some (ropt g a, r')
    else if c =? 123 then
      match parse_braces r with
      | Some (n, m, r1) =>
        let '(g, r') := lazy_ r1 in
        match m with
        | Some m => Some (if Nat.eqb n m then rrep n a else Cat (rrep n a) (roptn g (m - n) a), r')
        | None => Some (Cat (rrep n a) (Star g a), r')
        end
      | None => None
      end
    else Some (a, s)
  | [] => Some (a, [])
  end.

Section Syntax.
Variable ci : bool.

Fixpoint p_alt (fuel : nat) (n : nat) (s : list Z) {struct fuel} : option (re * nat * list Z) :=
  match fuel with
  | O => None
  | S f =>
    match p_cat f n s with
    | Some (a, n1, 124 :: s1) =>
      match p_alt f n1 s1 with
      | Some (b, n2, s2) => Some (Alt a b, n2, s2)
      | None => None
      end
    | x => x
    end
  end
with p_cat (fuel : nat) (n : nat) (s : list Z) {struct fuel} : option (re * nat * list Z) :=
  match fuel with
  | O => None
  | S f =>
    match s with
    | [] => Some (Eps, n, [])
    | c :: _ =>
      if (c =? 124) || (c =? 41) then Some (Eps, n, s)
      else match p_atom f n s with
      | Some (a, n1, s1) =>
        match parse_quant a s1 with
        | Some (a', s2) =>
          match p_cat f n1 s2 with
          | Some (b, n2, s3) => Some (match b with Eps => a' | _ => Cat a' b end, n2, s3)
          | None => None
          end
        | None => None
        end
      | None => None
      end
    end
  end
with p_atom (fuel : nat) (n : nat) (s : list Z) {struct fuel} : option (re * nat * list Z) :=
  match fuel with
  | O => None
  | S f =>
    match s with
    | [] => None
    | c :: s1 =>
      if c =? 40 then                                        (* ( *)
        match s1 with
        | 63 :: 58 :: s2 =>                                  (* (?: *)
          match p_alt f n s2 with
          | Some (a, n1, 41 :: s3) => Some (a, n1, s3)
          | _ => None
          end
        | _ =>
          match p_alt f (S n) s1 with
          | Some (a, n1, 41 :: s3) => Some (Grp (S n) a, n1, s3)
          | _ => None
          end
        end
      else if c =? 91 then                                   (* [ *)
        match s1 with
        | 94 :: s2 => match parse_class f s2 [] true with
                      | Some (l, r) => Some (Cls ci {| cl_neg := true; cl_items := l |}, n, r)
                      | None => None end
        | _ => match parse_class f s1 [] true with
               | Some (l, r) => Some (Cls ci {| cl_neg := false; cl_items := l |}, n, r)
               | None => None end
        end
      else if c =? 46 then Some (Dot, n, s1)
      else if c =? 94 then Some (Bot, n, s1)
      else if c =? 36 then Some (Eot, n, s1)
      else if c =? 92 then
        match s1 with
        | 98 :: s2 => Some (WordB false, n, s2)              (* \b *)
        | 66 :: s2 => Some (WordB true, n, s2)               (* \B *)
        | 65 :: s2 => Some (Bot, n, s2)                      (* \A *)
        | 122 :: s2 => Some (Eot, n, s2)                     (* \z *)
        | e :: s2 =>
          match perl_items e with
          | Some l => Some (Cls false {| cl_neg := false; cl_items := l |}, n, s2)
          | None =>
            match parse_escape s1 with
            | Some (inl (IRange lo hi), r) => Some (Cls false {| cl_neg := false; cl_items := [IRange lo hi] |}, n, r)
            | Some (inl i, r) => Some (Cls false {| cl_neg := false; cl_items := [i] |}, n, r)
            | Some (inr z, r) => Some (Chr ci z, n, r)
            | None => None
            end
          end
        | [] => None
        end
      else Some (Chr ci c, n, s1)
    end
  end.
End Syntax.

Definition parse_regex (s : str) : option regex :=
  let rs := runes s in
  let '(ci, body) := match rs with
                     | 40 :: 63 :: 105 :: 41 :: b => (true, b)    (* (?i) *)
                     | _ => (false, rs)
                     end in
  match p_alt ci (10 + 4 * length body) 0 body with
  | Some (a, n, []) => Some {| rx_ast := a; rx_ngroups := n |}
  | _ => None
  end.

(** never matches: stands for a syntax error; [rx_ok] checks that it is not produced *)
Definition never : regex := {| rx_ast := Cls false {| cl_neg := false; cl_items := [] |}; rx_ngroups := 0 |}.
Definition must_compile (s : str) : regex := match parse_regex s with Some r => r | None => never end.
Definition rx (s : string) : regex := must_compile (lit s).

(** regexp.QuoteMeta *)
Definition quote_meta (s : str) : str :=
  flat_map (fun c => if existsb (Z.eqb c) (lit "\.+*?()|[]{}^$") then [92; c] else [c]) s.

(** checked compilation: [Definition r : regex := Eval vm_compute in rxc "..."] only type-checks if the pattern parses *)
Definition rxc (s : string) : match parse_regex (lit s) with Some _ => regex | None => unit end :=
  match parse_regex (lit s) as o return match o with Some _ => regex | None => unit end with
  | Some r => r | None => tt end.
