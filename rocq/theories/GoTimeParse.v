(** Go's layout engine: [time.Parse], [time.ParseInLocation] and [Time.Format] (package time,
    format.go, Go 1.24; outside /repo). *)
From Verif Require Import GoBase Civil GoTime.

Inductive std : Set :=
| StdLongMonth | StdMonth | StdNumMonth | StdZeroMonth
| StdLongWeekDay | StdWeekDay
| StdDay | StdUnderDay | StdZeroDay | StdUnderYearDay | StdZeroYearDay
| StdHour | StdHour12 | StdZeroHour12
| StdMinute | StdZeroMinute | StdSecond | StdZeroSecond
| StdLongYear | StdYear | StdPM | Stdpm | StdTZ
| StdISO8601TZ | StdISO8601SecondsTZ | StdISO8601ShortTZ | StdISO8601ColonTZ | StdISO8601ColonSecondsTZ
| StdNumTZ | StdNumSecondsTZ | StdNumShortTZ | StdNumColonTZ | StdNumColonSecondsTZ
| StdFracSecond0 (n : nat) (sep : Z) | StdFracSecond9 (n : nat) (sep : Z).

Definition is_digit_at (s : str) (i : nat) : bool :=
  match nth_error s i with Some c => is_digitA c | None => false end.
Definition starts_lower (s : str) : bool := match s with c :: _ => is_lowerA c | [] => false end.

Fixpoint run_len (ch : Z) (s : str) : nat :=
  match s with c :: s' => if c =? ch then S (run_len ch s') else O | [] => O end.

Definition pre (s : str) (p : string) : bool := has_prefix (lit p) s.
(** the std chunk starting exactly at the head of [s], with the number of literal bytes that still
    belong to the prefix (1 for the [_2006] case) *)
Definition chunk_here (s : str) : option (nat * std * str) :=
  let drop n := skipn n s in
  match s with
  | [] => None
  | c :: _ =>
    if c =? 74 then (* J *)
      if (pre s "January") then Some (O, StdLongMonth, drop 7%nat)
      else if (pre s "Jan") then (if starts_lower (drop 3%nat) then None else Some (O, StdMonth, drop 3%nat))
      else None
    else if c =? 77 then (* M *)
      if (pre s "Monday") then Some (O, StdLongWeekDay, drop 6%nat)
      else if (pre s "Mon") then (if starts_lower (drop 3%nat) then None else Some (O, StdWeekDay, drop 3%nat))
      else if (pre s "MST") then Some (O, StdTZ, drop 3%nat)
      else None
    else if c =? 48 then (* 0 *)
      if (pre s "01") then Some (O, StdZeroMonth, drop 2%nat)
      else if (pre s "02") then Some (O, StdZeroDay, drop 2%nat)
      else if (pre s "03") then Some (O, StdZeroHour12, drop 2%nat)
      else if (pre s "04") then Some (O, StdZeroMinute, drop 2%nat)
      else if (pre s "05") then Some (O, StdZeroSecond, drop 2%nat)
      else if (pre s "06") then Some (O, StdYear, drop 2%nat)
      else if (pre s "002") then Some (O, StdZeroYearDay, drop 3%nat)
      else None
    else if c =? 49 then (* 1 *)
      if (pre s "15") then Some (O, StdHour, drop 2%nat) else Some (O, StdNumMonth, drop 1%nat)
    else if c =? 50 then (* 2 *)
      if (pre s "2006") then Some (O, StdLongYear, drop 4%nat) else Some (O, StdDay, drop 1%nat)
    else if c =? 95 then (* _ *)
      if (pre s "_2006") then Some (1%nat, StdLongYear, drop 5%nat)
      else if (pre s "_2") then Some (O, StdUnderDay, drop 2%nat)
      else if (pre s "__2") then Some (O, StdUnderYearDay, drop 3%nat)
      else None
    else if c =? 51 then Some (O, StdHour12, drop 1%nat)
    else if c =? 52 then Some (O, StdMinute, drop 1%nat)
    else if c =? 53 then Some (O, StdSecond, drop 1%nat)
    else if c =? 80 then if (pre s "PM") then Some (O, StdPM, drop 2%nat) else None
    else if c =? 112 then if (pre s "pm") then Some (O, Stdpm, drop 2%nat) else None
    else if c =? 45 then (* - *)
      if (pre s "-070000") then Some (O, StdNumSecondsTZ, drop 7%nat)
      else if (pre s "-07:00:00") then Some (O, StdNumColonSecondsTZ, drop 9%nat)
      else if (pre s "-0700") then Some (O, StdNumTZ, drop 5%nat)
      else if (pre s "-07:00") then Some (O, StdNumColonTZ, drop 6%nat)
      else if (pre s "-07") then Some (O, StdNumShortTZ, drop 3%nat)
      else None
    else if c =? 90 then (* Z *)
      if (pre s "Z070000") then Some (O, StdISO8601SecondsTZ, drop 7%nat)
      else if (pre s "Z07:00:00") then Some (O, StdISO8601ColonSecondsTZ, drop 9%nat)
      else if (pre s "Z0700") then Some (O, StdISO8601TZ, drop 5%nat)
      else if (pre s "Z07:00") then Some (O, StdISO8601ColonTZ, drop 6%nat)
      else if (pre s "Z07") then Some (O, StdISO8601ShortTZ, drop 3%nat)
      else None
    else if (c =? 46) || (c =? 44) then (* . , *)
      match drop 1%nat with
      | d :: _ =>
        if (d =? 48) || (d =? 57) then
          let n := run_len d (drop 1%nat) in
          if is_digit_at s (S n) then None
          else Some (O, (if d =? 48 then StdFracSecond0 n c else StdFracSecond9 n c), drop (S n))
        else None
      | [] => None
      end
    else None
  end.

(** nextStdChunk: literal prefix, chunk (None at the end), suffix *)
Fixpoint next_chunk (acc : str) (layout : str) : str * option std * str :=
  match chunk_here layout with
  | Some (lit_n, sd, suffix) => (rev acc ++ firstn lit_n layout, Some sd, suffix)
  | None => match layout with
            | [] => (rev acc, None, [])
            | c :: l' => next_chunk (c :: acc) l'
            end
  end.

(** the layout as a list of (literal prefix, chunk), plus the final literal. Each chunk consumes at
    least one byte of the layout, so [length layout] steps suffice. *)
Fixpoint layout_chunks (fuel : nat) (layout : str) : list (str * std) * str :=
  match fuel with
  | O => ([], layout)
  | S f => match next_chunk [] layout with
           | (p, None, _) => ([], p)
           | (p, Some sd, suf) => let '(l, e) := layout_chunks f suf in ((p, sd) :: l, e)
           end
  end.
Definition chunks_of (layout : str) := layout_chunks (S (length layout)) layout.

(** skip *)
Fixpoint cutspace (s : str) : str := match s with 32 :: s' => cutspace s' | _ => s end.
Fixpoint skip_aux (skipping : bool) (value prefix : str) : option str :=
  match prefix with
  | [] => Some value
  | c :: p' =>
    if c =? 32 then
      if skipping then skip_aux true value p'
      else match value with
           | v :: _ => if v =? 32 then skip_aux true (cutspace value) p' else None
           | [] => skip_aux true value p'
           end
    else match value with
         | v :: v' => if v =? c then skip_aux false v' p' else None
         | [] => None
         end
  end.
Definition skip (value prefix : str) : option str := skip_aux false value prefix.

Definition getnum (s : str) (fixed : bool) : option (Z * str) :=
  match s with
  | a :: s1 =>
    if is_digitA a then
      match s1 with
      | b :: s2 => if is_digitA b then Some ((a - 48) * 10 + (b - 48), s2)
                   else if fixed then None else Some (a - 48, s1)
      | [] => if fixed then None else Some (a - 48, s1)
      end
    else None
  | [] => None
  end.

Fixpoint getnum3_aux (n : nat) (acc : Z) (got : nat) (s : str) : Z * nat * str :=
  match n with
  | O => (acc, got, s)
  | S n' => match s with
            | c :: s' => if is_digitA c then getnum3_aux n' (acc * 10 + (c - 48)) (S got) s' else (acc, got, s)
            | [] => (acc, got, s)
            end
  end.
Definition getnum3 (s : str) (fixed : bool) : option (Z * str) :=
  let '(v, got, r) := getnum3_aux 3 0 0 s in
  if Nat.eqb got 0 || (fixed && negb (Nat.eqb got 3)) then None else Some (v, r).

Definition match_ci (a b : str) : bool := eqs (map lowerA a) (map lowerA b).
Fixpoint lookup_name (tab : list string) (i : Z) (v : str) : option (Z * str) :=
  match tab with
  | [] => None
  | n :: tab' =>
    let n := lit n in
    if (Nat.leb (length n) (length v)) && match_ci (firstn (length n) v) n
    then Some (i, skipn (length n) v) else lookup_name tab' (i + 1) v
  end.
Definition long_months : list string :=
  ["January"; "February"; "March"; "April"; "May"; "June"; "July"; "August"; "September"; "October";
   "November"; "December"]%string.
Definition short_months : list string :=
  ["Jan"; "Feb"; "Mar"; "Apr"; "May"; "Jun"; "Jul"; "Aug"; "Sep"; "Oct"; "Nov"; "Dec"]%string.
Definition long_days : list string :=
  ["Sunday"; "Monday"; "Tuesday"; "Wednesday"; "Thursday"; "Friday"; "Saturday"]%string.
Definition short_days : list string := ["Sun"; "Mon"; "Tue"; "Wed"; "Thu"; "Fri"; "Sat"]%string.

Definition comma_or_period (c : Z) : bool := (c =? 46) || (c =? 44).

(** parseNanoseconds(value, nbytes) *)
Definition parse_nanos (value : str) (nbytes : nat) : option Z :=
  match value with
  | c :: v' =>
    if comma_or_period c then
      let n := Nat.min nbytes 10 in
      match atoi (firstn (n - 1) v') with
      | Some ns => if ns <? 0 then None else Some (ns * 10 ^ (Z.of_nat (10 - n)))
      | None => None
      end
    else None
  | [] => None
  end.

Definition parse_signed_offset (v : str) : nat :=
  match v with
  | c :: v' =>
    if (c =? 45) || (c =? 43) then
      let ds := (fix tw (l : str) : str := match l with x :: l' => if is_digitA x then x :: tw l' else [] | [] => [] end) v' in
      match ds with
      | [] => O
      | _ => if 23 <? atoi0 ds then O else S (length ds)
      end
    else O
  | [] => O
  end.
Definition parse_time_zone (v : str) : option nat :=
  if Nat.ltb (length v) 3 then None
  else if has_prefix (lit "ChST") v || has_prefix (lit "MeST") v then Some 4%nat
  else if has_prefix (lit "GMT") v then
    Some (match skipn 3 v with [] => 3 | r => 3 + parse_signed_offset r end)%nat
  else if match v with c :: _ => (c =? 43) || (c =? 45) | [] => false end then
    match parse_signed_offset v with O => None | n => Some n end
  else
    let n := (fix up (k : nat) (l : str) : nat :=
                match k, l with
                | S k', c :: l' => if is_upperA c then S (up k' l') else O
                | _, _ => O
                end) 6%nat v in
    match n with
    | 5%nat => match nth_error v 4 with Some 84 => Some 5%nat | _ => None end
    | 4%nat => match nth_error v 3 with
               | Some 84 => Some 4%nat
               | _ => if has_prefix (lit "WITA") v then Some 4%nat else None
               end
    | 3%nat => Some 3%nat
    | _ => None
    end.

(** state of [parse] *)
Record pst := {
  p_year : Z; p_month : Z; p_day : Z; p_yday : Z;
  p_hour : Z; p_min : Z; p_sec : Z; p_nsec : Z;
  p_am : bool; p_pm : bool; p_z : bool; p_zoff : Z; p_zname : str }.
Definition pst0 : pst :=
  {| p_year := 0; p_month := -1; p_day := -1; p_yday := -1; p_hour := 0; p_min := 0; p_sec := 0; p_nsec := 0;
     p_am := false; p_pm := false; p_z := false; p_zoff := -1; p_zname := [] |}.

Definition with_year v p := {| p_year := v; p_month := p_month p; p_day := p_day p; p_yday := p_yday p; p_hour := p_hour p; p_min := p_min p; p_sec := p_sec p; p_nsec := p_nsec p; p_am := p_am p; p_pm := p_pm p; p_z := p_z p; p_zoff := p_zoff p; p_zname := p_zname p |}.
Definition with_month v p := {| p_year := p_year p; p_month := v; p_day := p_day p; p_yday := p_yday p; p_hour := p_hour p; p_min := p_min p; p_sec := p_sec p; p_nsec := p_nsec p; p_am := p_am p; p_pm := p_pm p; p_z := p_z p; p_zoff := p_zoff p; p_zname := p_zname p |}.
Definition with_day v p := {| p_year := p_year p; p_month := p_month p; p_day := v; p_yday := p_yday p; p_hour := p_hour p; p_min := p_min p; p_sec := p_sec p; p_nsec := p_nsec p; p_am := p_am p; p_pm := p_pm p; p_z := p_z p; p_zoff := p_zoff p; p_zname := p_zname p |}.
Definition with_yday v p := {| p_year := p_year p; p_month := p_month p; p_day := p_day p; p_yday := v; p_hour := p_hour p; p_min := p_min p; p_sec := p_sec p; p_nsec := p_nsec p; p_am := p_am p; p_pm := p_pm p; p_z := p_z p; p_zoff := p_zoff p; p_zname := p_zname p |}.
Definition with_hour v p := {| p_year := p_year p; p_month := p_month p; p_day := p_day p; p_yday := p_yday p; p_hour := v; p_min := p_min p; p_sec := p_sec p; p_nsec := p_nsec p; p_am := p_am p; p_pm := p_pm p; p_z := p_z p; p_zoff := p_zoff p; p_zname := p_zname p |}.
Definition with_min v p := {| p_year := p_year p; p_month := p_month p; p_day := p_day p; p_yday := p_yday p; p_hour := p_hour p; p_min := v; p_sec := p_sec p; p_nsec := p_nsec p; p_am := p_am p; p_pm := p_pm p; p_z := p_z p; p_zoff := p_zoff p; p_zname := p_zname p |}.
Definition with_sec v p := {| p_year := p_year p; p_month := p_month p; p_day := p_day p; p_yday := p_yday p; p_hour := p_hour p; p_min := p_min p; p_sec := v; p_nsec := p_nsec p; p_am := p_am p; p_pm := p_pm p; p_z := p_z p; p_zoff := p_zoff p; p_zname := p_zname p |}.
Definition with_nsec v p := {| p_year := p_year p; p_month := p_month p; p_day := p_day p; p_yday := p_yday p; p_hour := p_hour p; p_min := p_min p; p_sec := p_sec p; p_nsec := v; p_am := p_am p; p_pm := p_pm p; p_z := p_z p; p_zoff := p_zoff p; p_zname := p_zname p |}.
Definition with_ampm a b p := {| p_year := p_year p; p_month := p_month p; p_day := p_day p; p_yday := p_yday p; p_hour := p_hour p; p_min := p_min p; p_sec := p_sec p; p_nsec := p_nsec p; p_am := a; p_pm := b; p_z := p_z p; p_zoff := p_zoff p; p_zname := p_zname p |}.
Definition with_zone z o n p := {| p_year := p_year p; p_month := p_month p; p_day := p_day p; p_yday := p_yday p; p_hour := p_hour p; p_min := p_min p; p_sec := p_sec p; p_nsec := p_nsec p; p_am := p_am p; p_pm := p_pm p; p_z := z; p_zoff := o; p_zname := n |}.

(** numeric zone: sign, hour, minute, second strings and the rest *)
Definition parse_num_zone (sd : std) (v : str) : option (Z * str) :=
  let at_ i := nth_error v i in
  let fin (sg : Z) (h m s : str) (r : str) : option (Z * str) :=
    match getnum h true, getnum m true, getnum s true with
    | Some (hr, _), Some (mm, _), Some (ss, _) =>
      if (24 <? hr) || (60 <? mm) || (60 <? ss) then None
      else let o := (hr * 60 + mm) * 60 + ss in
           if sg =? 43 then Some (o, r) else if sg =? 45 then Some (- o, r) else None
    | _, _, _ => None
    end in
  let sub i j := firstn (j - i) (skipn i v) in
  let len := length v in
  let sg := match v with c :: _ => c | [] => 0 end in
  match sd with
  | StdISO8601ColonTZ | StdNumColonTZ =>
    if Nat.ltb len 6 then None
    else match at_ 3%nat with Some 58 => fin sg (sub 1 3)%nat (sub 4 6)%nat (lit "00") (skipn 6 v) | _ => None end
  | StdISO8601ShortTZ | StdNumShortTZ =>
    if Nat.ltb len 3 then None else fin sg (sub 1 3)%nat (lit "00") (lit "00") (skipn 3 v)
  | StdISO8601ColonSecondsTZ | StdNumColonSecondsTZ =>
    if Nat.ltb len 9 then None
    else match at_ 3%nat, at_ 6%nat with
         | Some 58, Some 58 => fin sg (sub 1 3)%nat (sub 4 6)%nat (sub 7 9)%nat (skipn 9 v)
         | _, _ => None
         end
  | StdISO8601SecondsTZ | StdNumSecondsTZ =>
    if Nat.ltb len 7 then None else fin sg (sub 1 3)%nat (sub 3 5)%nat (sub 5 7)%nat (skipn 7 v)
  | _ => if Nat.ltb len 5 then None else fin sg (sub 1 3)%nat (sub 3 5)%nat (lit "00") (skipn 5 v)
  end.

Definition is_frac (o : option std) : bool :=
  match o with Some (StdFracSecond0 _ _) | Some (StdFracSecond9 _ _) => true | _ => false end.

Fixpoint digits_len (s : str) : nat := match s with c :: s' => if is_digitA c then S (digits_len s') else O | [] => O end.

Definition obind {A B} (o : option A) (f : A -> option B) : option B := match o with Some a => f a | None => None end.

(** one std chunk; [next_std] is the chunk that follows in the layout (looked at by the seconds case) *)
Definition parse_chunk (sd : std) (next_std : option std) (p : pst) (v : str) : option (pst * str) :=
  match sd with
  | StdYear =>
    if Nat.ltb (length v) 2 then None
    else obind (atoi (firstn 2 v)) (fun y => Some (with_year (if 69 <=? y then y + 1900 else y + 2000) p, skipn 2 v))
  | StdLongYear =>
    if Nat.ltb (length v) 4 || negb (is_digit_at v 0) then None
    else obind (atoi (firstn 4 v)) (fun y => Some (with_year y p, skipn 4 v))
  | StdMonth => obind (lookup_name short_months 0 v) (fun '(i, r) => Some (with_month (i + 1) p, r))
  | StdLongMonth => obind (lookup_name long_months 0 v) (fun '(i, r) => Some (with_month (i + 1) p, r))
  | StdNumMonth | StdZeroMonth =>
    obind (getnum v (match sd with StdZeroMonth => true | _ => false end))
      (fun '(m, r) => if (m <=? 0) || (12 <? m) then None else Some (with_month m p, r))
  | StdWeekDay => obind (lookup_name short_days 0 v) (fun '(_, r) => Some (p, r))
  | StdLongWeekDay => obind (lookup_name long_days 0 v) (fun '(_, r) => Some (p, r))
  | StdDay | StdUnderDay | StdZeroDay =>
    let v' := match sd, v with StdUnderDay, 32 :: r => r | _, _ => v end in
    obind (getnum v' (match sd with StdZeroDay => true | _ => false end)) (fun '(d, r) => Some (with_day d p, r))
  | StdUnderYearDay | StdZeroYearDay =>
    let strip s := match sd, s with StdUnderYearDay, 32 :: r => r | _, _ => s end in
    obind (getnum3 (strip (strip v)) (match sd with StdZeroYearDay => true | _ => false end))
      (fun '(d, r) => Some (with_yday d p, r))
  | StdHour => obind (getnum v false) (fun '(h, r) => if 24 <=? h then None else Some (with_hour h p, r))
  | StdHour12 | StdZeroHour12 =>
    obind (getnum v (match sd with StdZeroHour12 => true | _ => false end))
      (fun '(h, r) => if 12 <? h then None else Some (with_hour h p, r))
  | StdMinute | StdZeroMinute =>
    obind (getnum v (match sd with StdZeroMinute => true | _ => false end))
      (fun '(m, r) => if 60 <=? m then None else Some (with_min m p, r))
  | StdSecond | StdZeroSecond =>
    obind (getnum v (match sd with StdZeroSecond => true | _ => false end))
      (fun '(s, r) =>
         if 60 <=? s then None
         else
           let p' := with_sec s p in
           match r with
           | c :: _ =>
             if comma_or_period c && is_digit_at r 1 && negb (is_frac next_std) then
               let n := S (digits_len (skipn 1 r)) in
               obind (parse_nanos r n) (fun ns => Some (with_nsec ns p', skipn n r))
             else Some (p', r)
           | [] => Some (p', r)
           end)
  | StdPM =>
    if has_prefix (lit "PM") v then Some (with_ampm (p_am p) true p, skipn 2 v)
    else if has_prefix (lit "AM") v then Some (with_ampm true (p_pm p) p, skipn 2 v) else None
  | Stdpm =>
    if has_prefix (lit "pm") v then Some (with_ampm (p_am p) true p, skipn 2 v)
    else if has_prefix (lit "am") v then Some (with_ampm true (p_pm p) p, skipn 2 v) else None
  | StdTZ =>
    if has_prefix (lit "UTC") v then Some (with_zone true (p_zoff p) (p_zname p) p, skipn 3 v)
    else obind (parse_time_zone v) (fun n => Some (with_zone (p_z p) (p_zoff p) (firstn n v) p, skipn n v))
  | StdISO8601TZ | StdISO8601SecondsTZ | StdISO8601ShortTZ | StdISO8601ColonTZ | StdISO8601ColonSecondsTZ =>
    match v with
    | 90 :: r => Some (with_zone true (p_zoff p) (p_zname p) p, r)
    | _ => obind (parse_num_zone sd v) (fun '(o, r) => Some (with_zone (p_z p) o (p_zname p) p, r))
    end
  | StdNumTZ | StdNumSecondsTZ | StdNumShortTZ | StdNumColonTZ | StdNumColonSecondsTZ =>
    obind (parse_num_zone sd v) (fun '(o, r) => Some (with_zone (p_z p) o (p_zname p) p, r))
  | StdFracSecond0 n _ =>
    if Nat.ltb (length v) (S n) then None
    else obind (parse_nanos v (S n)) (fun ns => Some (with_nsec ns p, skipn (S n) v))
  | StdFracSecond9 _ _ =>
    match v with
    | c :: r => if comma_or_period c && is_digit_at v 1 then
                  let n := S (digits_len r) in
                  obind (parse_nanos v n) (fun ns => Some (with_nsec ns p, skipn n v))
                else Some (p, v)
    | [] => Some (p, v)
    end
  end.

Fixpoint parse_chunks (l : list (str * std)) (last_lit : str) (p : pst) (v : str) : option pst :=
  match l with
  | [] => obind (skip v last_lit) (fun r => match r with [] => Some p | _ => None end)
  | (pre, sd) :: l' =>
    obind (skip v pre) (fun v1 =>
      obind (parse_chunk sd (match l' with (_, n) :: _ => Some n | [] => None end) p v1)
        (fun '(p', v2) => parse_chunks l' last_lit p' v2))
  end.

Definition days_before (m : Z) : Z := dbm 1 (m + 1).   (* non-leap table, daysBefore[m] *)

(** month and day from the collected fields *)
Definition finish_md (p : pst) : option (Z * Z) :=
  if 0 <=? p_yday p then
    let lp := leap (p_year p) in
    let feb29 := lp && (p_yday p =? 60) in
    let yd := if lp && (60 <? p_yday p) then p_yday p - 1 else p_yday p in
    if (yd <? 1) || (365 <? yd) then None
    else
      let '(m, d) :=
        if feb29 then (2, 29)
        else let m0 := (yd - 1) / 31 + 1 in
             let m := if (if m0 =? 12 then 365 else days_before m0) <? yd then m0 + 1 else m0 in
             (m, yd - days_before (m - 1)) in
      if (0 <=? p_month p) && negb (p_month p =? m) then None
      else if (0 <=? p_day p) && negb (p_day p =? d) then None
      else Some (m, d)
  else Some ((if p_month p <? 0 then 1 else p_month p), (if p_day p <? 0 then 1 else p_day p)).

Definition loc_zones (l : location) : list zone := l_base l :: map snd (l_trans l).
Definition lookup_zone_name (l : location) (name : str) (u : Z) : option Z :=
  match List.find (fun z => eqs (z_name z) name && eqs (z_name (zone_at l (u - z_off z))) (z_name z)) (loc_zones l) with
  | Some z => Some (off_at l (u - z_off z))
  | None => option_map z_off (List.find (fun z => eqs (z_name z) name) (loc_zones l))
  end.

(** parse(layout, value, defaultLocation, local); [None] = error (and the zero Time) *)
Definition tparse (layout value : str) (dflt local : location) : option time :=
  let '(cs, e) := chunks_of layout in
  obind (parse_chunks cs e pst0 value) (fun p =>
    let h := if p_pm p && (p_hour p <? 12) then p_hour p + 12
             else if p_am p && (p_hour p =? 12) then 0 else p_hour p in
    obind (finish_md p) (fun '(m, d) =>
      if (d <? 1) || (days_in (p_year p) m <? d) then None
      else
        let mk l := mk_date (p_year p) m d h (p_min p) (p_sec p) (p_nsec p) l in
        if p_z p then Some (mk utc)
        else if negb (p_zoff p =? -1) then
          let t := mk utc in
          let u := t_sec t - p_zoff p in
          let z := zone_at local u in
          let l := if (z_off z =? p_zoff p) && (empty (p_zname p) || eqs (z_name z) (p_zname p)) then local
                   else fixed_zone (p_zname p) (p_zoff p) in
          Some {| t_sec := u; t_nsec := t_nsec t; t_loc := l |}
        else if negb (empty (p_zname p)) then
          let t := mk utc in
          match lookup_zone_name local (p_zname p) (t_sec t) with
          | Some o => Some {| t_sec := t_sec t - o; t_nsec := t_nsec t; t_loc := local |}
          | None =>
            let o := if Nat.ltb 3 (length (p_zname p)) && has_prefix (lit "GMT") (p_zname p)
                     then atoi0 (skipn 3 (p_zname p)) * 3600 else 0 in
            Some (in_loc t (fixed_zone (p_zname p) o))
          end
        else Some (mk dflt))).

(** time.Parse: the default zone is UTC, the local zone is time.Local *)
Definition time_parse (Local : location) (layout value : str) : option time := tparse layout value utc Local.
(** time.ParseInLocation *)
Definition time_parse_in (layout value : str) (loc : location) : option time := tparse layout value loc loc.

(** ** Format (only what the repository formats: a UTC time, formatted/parser.go:44) *)
Definition pad (w : nat) (n : Z) : str :=
  let s := itoa n in repeat 48 (w - length s) ++ s.
Definition nth_name (l : list string) (i : Z) : str := lit (nth (Z.to_nat i) l ""%string).
Fixpoint strip_zeros_rev (s : str) : str := match s with 48 :: s' => strip_zeros_rev s' | _ => s end.
Definition yday (t : time) : Z := dbm (year t) (month t) + day t.

Definition format_chunk (sd : std) (t : time) : str :=
  match sd with
  | StdYear => pad 2 (year t mod 100)
  | StdLongYear => pad 4 (year t)
  | StdMonth => nth_name short_months (month t - 1)
  | StdLongMonth => nth_name long_months (month t - 1)
  | StdNumMonth => itoa (month t)
  | StdZeroMonth => pad 2 (month t)
  | StdWeekDay => nth_name short_days (weekday t)
  | StdLongWeekDay => nth_name long_days (weekday t)
  | StdDay => itoa (day t)
  | StdUnderDay => if day t <? 10 then 32 :: itoa (day t) else itoa (day t)
  | StdZeroDay => pad 2 (day t)
  | StdUnderYearDay => (if yday t <? 100 then [32] else []) ++ (if yday t <? 10 then [32] else []) ++ itoa (yday t)
  | StdZeroYearDay => pad 3 (yday t)
  | StdHour => pad 2 (hour t)
  | StdHour12 => itoa (let h := hour t mod 12 in if h =? 0 then 12 else h)
  | StdZeroHour12 => pad 2 (let h := hour t mod 12 in if h =? 0 then 12 else h)
  | StdMinute => itoa (minute t)
  | StdZeroMinute => pad 2 (minute t)
  | StdSecond => itoa (second t)
  | StdZeroSecond => pad 2 (second t)
  | StdPM => if 12 <=? hour t then lit "PM" else lit "AM"
  | Stdpm => if 12 <=? hour t then lit "pm" else lit "am"
  | StdISO8601TZ | StdISO8601SecondsTZ | StdISO8601ShortTZ | StdISO8601ColonTZ | StdISO8601ColonSecondsTZ => lit "Z"
  | StdNumTZ => lit "+0000"
  | StdNumSecondsTZ => lit "+000000"
  | StdNumShortTZ => lit "+00"
  | StdNumColonTZ => lit "+00:00"
  | StdNumColonSecondsTZ => lit "+00:00:00"
  | StdTZ => lit "UTC"
  | StdFracSecond0 n sep => sep :: firstn n (pad 9 (nanosecond t))
  | StdFracSecond9 n sep =>
    match strip_zeros_rev (rev (firstn n (pad 9 (nanosecond t)))) with
    | [] => []
    | r => sep :: rev r
    end
  end.
Definition format_utc (t : time) (layout : str) : str :=
  let '(cs, e) := chunks_of layout in
  flat_map (fun '(p, sd) => p ++ format_chunk sd t) cs ++ e.

Section Tests.
  Let ok l v := match time_parse utc (lit l) (lit v) with
                | Some t => Some (civil t, hour t, minute t, second t, nanosecond t) | None => None end.
  Goal ok "2006-1-2" "2021-10-11" = Some ((2021, 10, 11), 0, 0, 0, 0). reflexivity. Qed.
  Goal ok "15:4:5" "1:02:03.5" = Some ((0, 1, 1), 1, 2, 3, 500000000). reflexivity. Qed.
  Goal ok "3:4:5 PM" "12:02:03 AM" = Some ((0, 1, 1), 0, 2, 3, 0). reflexivity. Qed.
  Goal ok "2" "31" = Some ((0, 1, 31), 0, 0, 0, 0). reflexivity. Qed.
  Goal ok "2" "32" = None. reflexivity. Qed.
  Goal ok "Jan" "may" = Some ((0, 5, 1), 0, 0, 0, 0). reflexivity. Qed.
  Goal ok "06" "69" = Some ((1969, 1, 1), 0, 0, 0, 0). reflexivity. Qed.
  Goal format_utc (mk_date 12 3 4 5 6 7 8 utc) (lit "Mon Jan _2 15:04:05.000 MST 2006") = lit "Sun Mar  4 05:06:07.000 UTC 0012".
  vm_compute. reflexivity. Qed.
End Tests.
