(** internal/timezone *)
From Verif Require Import GoBase Regex GoTime TimezoneData.
From Coq Require Import Permutation.

(** OffsetData (internal/timezone/tz-offsets.go:11-15); a nil Regex is [None] *)
Record offset_data := { od_name : str; od_rx : option regex; od_off : Z }.
Definition od_zero : offset_data := {| od_name := []; od_rx := None; od_off := 0 |}.
(** IsZero (tz-offsets.go:17-19) *)
Definition od_is_zero (o : offset_data) : bool :=
  empty (od_name o) && match od_rx o with None => true | Some _ => false end && (od_off o =? 0).

(** one entry: pattern with the search text substituted for %s (tz-offsets.go:31-42, 48-60). The [exist] test against
    regexPatterns is always false: that map is never written. *)
Definition mk_entry (pat : string * string) (name : string) (off : Z) (search : str) : offset_data :=
  {| od_name := lit name;
     od_rx := Some (must_compile (lit "(?i)" ++ lit (fst pat) ++ search ++ lit (snd pat))%list);
     od_off := off |}.
(** search text of a zone under an alternative pattern (tz-offsets.go:48-49). The replacement only tests ASCII
    characters, so it is computed with plain ASCII tables. *)
Definition uni_min : uni :=
  {| u_lower := lowerA; u_upper := upperA; u_fold := lowerA; u_isL := is_alphaA; u_isM := fun _ => false;
     u_isN := is_digitA; u_isNd := is_digitA; u_nfkc := fun s => s; u_nfkd_noMn_nfkc := fun s => s |}.
Definition alt_search (alt : string * string) (name : string) : str :=
  replace_all_string uni_min (rx (fst alt)) (quote_meta (lit name)) (lit (snd alt)).

(** the blocks appended by the initialiser (tz-offsets.go:21-64): zones of group 1 with the main pattern, the same with
    each of the eight alternatives, zones of group 2 *)
Definition tz_main_src : list offset_data :=
  map (fun '(n, o) => mk_entry tz_pattern1 n o (quote_meta (lit n))) tz_group1.
Definition tz_altblocks_src : list (list offset_data) :=
  map (fun alt => map (fun '(n, o) => mk_entry tz_pattern1 n o (alt_search alt n)) tz_group1) tz_alts.
Definition tz_second_src : list offset_data :=
  map (fun '(n, o) => mk_entry tz_pattern2 n o (quote_meta (lit n))) tz_group2.
Definition tz_main : list offset_data := Eval vm_compute in tz_main_src.
Definition tz_altblocks : list (list offset_data) := Eval vm_compute in tz_altblocks_src.
Definition tz_second : list offset_data := Eval vm_compute in tz_second_src.

(** Go ranges over maps in an unspecified order, a new one for each loop: [timezoneOffsets] is one of these lists, chosen
    once per process *)
Definition tz_order (l : list offset_data) : Prop :=
  exists m bs bs' s,
    Permutation m tz_main /\ Permutation bs tz_altblocks /\ Forall2 (@Permutation _) bs' bs /\ Permutation s tz_second
    /\ l = (m ++ concat bs' ++ s)%list.
(** the order of the source file *)
Definition tz_source_order : list offset_data := (tz_main ++ concat tz_altblocks ++ tz_second)%list.

(** rxSearch, rxSearchIgnoreCase (tz-offsets.go:67-77): sorted, so independent of map order *)
Fixpoint insert_str (s : str) (l : list str) : list str :=
  match l with
  | [] => [s]
  | x :: l' => if eqs s x then l else if lts s x then s :: l else x :: insert_str s l'
  end.
Definition sort_dedup (l : list str) : list str := fold_right insert_str [] l.
Definition search_pattern : str :=
  sjoin (sort_dedup (map (fun '(n, _) => quote_meta (lit n)) tz_group1
                     ++ flat_map (fun alt => map (fun '(n, _) => alt_search alt n) tz_group1) tz_alts
                     ++ map (fun '(n, _) => quote_meta (lit n)) tz_group2)%list) (lit "|").
Definition rxSearch : regex := Eval vm_compute in must_compile search_pattern.
Definition rxSearchIgnoreCase : regex := Eval vm_compute in must_compile (lit "(?i)" ++ search_pattern)%list.

Section P.
Variable U : uni.
Variable offsets : list offset_data.   (* timezoneOffsets *)

(** the loop of PopTzOffset (internal/timezone/parser.go:7-15): [str[:idxs[0]+1] + str[idxs[1]:]], on bytes *)
Fixpoint pop_loop (l : list offset_data) (s : str) : str * offset_data :=
  match l with
  | [] => (s, od_zero)
  | o :: l' =>
    match od_rx o with
    | None => pop_loop l' s
    | Some r => match find U r s with
                | None => pop_loop l' s
                | Some m => ((firstn (S (mt_start m)) s ++ skipn (mt_end m) s)%list, o)
                end
    end
  end.
(** PopTzOffset (parser.go:5-19) *)
Definition pop_tz (s : str) : str * offset_data :=
  if match_string U rxSearchIgnoreCase s then pop_loop offsets s else (s, od_zero).

(** WordIsTz (parser.go:22-24) *)
Definition word_is_tz (w : str) : bool := match_string U rxSearch w.
End P.
