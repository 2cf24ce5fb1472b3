(** Specification of the dates written without separators (C28), independent of the code in NoSpace.v except for the names of the fields *)
From Verif Require Import GoBase Civil GoTime AbsFacts2 NoSpace.

(** the numbers of digits a field may have, longest first: years have all their digits, the others two or one *)
Definition widths (p : part) : list nat := match p with FY => [4%nat] | Fy => [2%nat] | _ => [2%nat; 1%nat] end.
(** all ways to cut a text completely into fields, the earlier fields as long as possible first *)
Fixpoint splits (ps : list part) (s : str) : list (list str) :=
  match ps with
  | [] => match s with [] => [[]] | _ => [] end
  | p :: ps' => flat_map (fun n => if Nat.leb n (length s) then map (cons (firstn n s)) (splits ps' (skipn n s)) else []) (widths p)
  end.
(** the values a field may have *)
Definition in_range (p : part) (v : Z) : bool :=
  match p with
  | FY => (1000 <=? v) && (v <=? 9999)
  | Fy => (0 <=? v) && (v <=? 99)
  | Fm => (1 <=? v) && (v <=? 12)
  | Fd => (1 <=? v) && (v <=? 31)
  | FH => (0 <=? v) && (v <=? 23)
  | FM | FS => (0 <=? v) && (v <=? 59)
  end.
(** the value of a field of a cut text *)
Fixpoint field (p : part) (ps : list part) (ts : list str) : option Z :=
  match ps, ts with q :: ps', t :: ts' => if part_eqb p q then Some (number 0 t) else field p ps' ts' | _, _ => None end.
Definition or0 (o : option Z) : Z := match o with Some v => v | None => 0 end.
(** two digits denote the years 1969 to 2068 *)
Definition century (y : Z) : Z := if 69 <=? y then 1900 + y else 2000 + y.
Definition the_year (ps : list part) (ts : list str) : option Z :=
  match field FY ps ts with Some y => Some y | None => option_map century (field Fy ps ts) end.
(** the time denoted by a cut text: every field in range, the date in the calendar *)
Definition read (ps : list part) (ts : list str) : option time :=
  if forallb (fun x => in_range (fst x) (number 0 (snd x))) (combine ps ts) then
    match the_year ps ts, field Fm ps ts, field Fd ps ts with
    | Some y, Some m, Some d =>
      if d <=? days_in y m then Some (mk_date y m d (or0 (field FH ps ts)) (or0 (field FM ps ts)) (or0 (field FS ps ts)) 0 utc) else None
    | _, _, _ => None
    end
  else None.
Fixpoint first_some {A B} (f : A -> option B) (l : list A) : option B :=
  match l with [] => None | x :: l' => match f x with Some y => Some y | None => first_some f l' end end.
(** the first field sequence, in a list of them, that reads the whole text *)
Definition reads (ls : list (list part)) (s : str) : option time := first_some (fun ps => first_some (read ps) (splits ps s)) ls.

(** the sequences of fields tried for a date order: all six orders of year, month and day with four digits for the year, then with two;
    then the same followed by the hour, minute and second; those in the asked order come first. For month-day-year, the default,
    year-month-day with a time of day comes before all others. *)
Definition dates : list (list part) :=
  [[FY; Fm; Fd]; [FY; Fd; Fm]; [Fm; FY; Fd]; [Fm; Fd; FY]; [Fd; FY; Fm]; [Fd; Fm; FY];
   [Fy; Fm; Fd]; [Fy; Fd; Fm]; [Fm; Fy; Fd]; [Fm; Fd; Fy]; [Fd; Fy; Fm]; [Fd; Fm; Fy]].
Definition clocks : list (list part) := [[FH; FM; FS]; [FH; FM]; [FH]].
Definition dated : list (list part) := dates ++ flat_map (fun d => map (app d) clocks) dates.
Inductive order : Set := MDY | MYD | YMD | YDM | DMY | DYM.
Definition order_name (o : order) : string := match o with MDY => "MDY" | MYD => "MYD" | YMD => "YMD" | YDM => "YDM" | DMY => "DMY" | DYM => "DYM" end.
Definition in_order (o : order) (ps : list part) : bool :=
  match o, ps with
  | MDY, Fm :: Fd :: (FY | Fy) :: _ | MYD, Fm :: (FY | Fy) :: Fd :: _ | YMD, (FY | Fy) :: Fm :: Fd :: _
  | YDM, (FY | Fy) :: Fd :: Fm :: _ | DMY, Fd :: Fm :: (FY | Fy) :: _ | DYM, Fd :: (FY | Fy) :: Fm :: _ => true
  | _, _ => false
  end.
Definition layouts_for (o : order) : list (list part) :=
  (match o with MDY => [[FY; Fm; Fd; FH; FM]; [FY; Fm; Fd; FH; FM; FS]] | _ => [] end ++
   filter (in_order o) dated ++ filter (fun ps => negb (in_order o ps)) dated)%list.
(** eight digits, when no order is asked for *)
Definition eight : list (list part) := [[Fm; Fd; FY]; [Fd; Fm; FY]; [FY; Fm; Fd]; [FY; Fd; Fm]; [Fm; FY; Fd]; [Fd; FY; Fm]].

Definition is_num (c : Z) : bool := (48 <=? c) && (c <=? 57).
(** only texts that begin with digits and go on, if at all, with one colon and then digits are tried *)
Fixpoint eligible (s : str) : bool :=
  match s with
  | [] => true
  | c :: s' => if is_num c then eligible s' else (c =? 58) && match s' with [] => true | d :: _ => is_num d end
  end.
(** the maximal runs of digits of a text *)
Definition emit (acc : str) : list str := match acc with [] => [] | _ => [acc] end.
Fixpoint runs (acc : str) (l : list Z) : list str :=
  match l with [] => emit acc | c :: l' => if is_num c then runs (acc ++ [c]) l' else (emit acc ++ runs [] l')%list end.
(** the whole parser: [o] is the order asked for, if any; [accepts] says that the configuration accepts such dates at all; [text] is the
    text without colons, with white space at its ends removed *)
Definition no_space (accepts : bool) (o : option order) (text : str) : option time :=
  match (match o with None => if forallb is_num text && Nat.eqb (length text) 8 then reads eight text else None | Some _ => None end) with
  | Some t => Some t
  | None => if accepts then first_some (reads (layouts_for (match o with Some o => o | None => MDY end))) (runs [] (runes text)) else None
  end.
