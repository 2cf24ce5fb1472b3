(** internal/digit/digit.go *)
From Verif Require Import GoBase.

(** allDigitRanges (internal/digit/digit.go:55-127), in source order *)
Definition digit_ranges : list (Z * Z) :=
  [(48, 57);
   (65296, 65305);
   (118000, 118009);
   (120782, 120831);
   (130032, 130041);
   (1632, 1641);
   (1776, 1785);
   (2406, 2415);
   (2534, 2543);
   (2662, 2671);
   (2790, 2799);
   (2918, 2927);
   (3046, 3055);
   (3174, 3183);
   (3302, 3311);
   (3430, 3439);
   (3558, 3567);
   (3664, 3673);
   (3792, 3801);
   (3872, 3881);
   (4160, 4169);
   (4240, 4249);
   (43504, 43513);
   (71376, 71395);
   (6112, 6121);
   (6160, 6169);
   (6470, 6479);
   (66720, 66729);
   (6608, 6617);
   (6992, 7001);
   (1984, 1993);
   (7088, 7097);
   (7232, 7241);
   (7248, 7257);
   (42528, 42537);
   (43216, 43225);
   (43264, 43273);
   (43600, 43609);
   (6784, 6793);
   (6800, 6809);
   (43472, 43481);
   (44016, 44025);
   (69734, 69743);
   (69942, 69951);
   (70096, 70105);
   (69872, 69881);
   (71360, 71369);
   (93008, 93017);
   (71248, 71257);
   (92768, 92777);
   (70384, 70393);
   (70864, 70873);
   (71904, 71913);
   (71472, 71481);
   (125264, 125273);
   (72784, 72793);
   (70736, 70745);
   (73040, 73049);
   (73120, 73129);
   (68912, 68921);
   (123200, 123209);
   (123632, 123641);
   (72016, 72025);
   (92864, 92873);
   (73552, 73561);
   (124144, 124153);
   (68928, 68937);
   (90416, 90425);
   (93552, 93561);
   (124401, 124410);
   (72688, 72697)].

(** digitRange.apply (digit.go:46-53) *)
Definition dr_apply (dr : Z * Z) (r : Z) : option Z :=
  if (fst dr <=? r) && (r <=? snd dr) then Some (48 + (r - fst dr)) else None.

Fixpoint dr_first (rs : list (Z * Z)) (j : nat) (r : Z) : option (Z * nat) :=
  match rs with
  | [] => None
  | dr :: rs' => match dr_apply dr r with Some n => Some (n, j) | None => dr_first rs' (S j) r end
  end.

(** the loop of NormalizeString (digit.go:11-36); [last] is lastUsedRange, [None] for -1. The source tests
    [lastUsedRange > 0], so index 0 is never re-used. *)
Fixpoint norm_runes (isNd : Z -> bool) (last : option nat) (rs : list Z) : list Z :=
  match rs with
  | [] => []
  | r :: rs' =>
    if negb (isNd r) then r :: norm_runes isNd last rs'
    else
      let retry := match last with
                   | Some (S k) => dr_apply (nth (S k) digit_ranges (0, -1)) r
                   | _ => None
                   end in
      match retry with
      | Some n => n :: norm_runes isNd last rs'
      | None => match dr_first digit_ranges 0 r with
                | Some (n, j) => n :: norm_runes isNd (Some j) rs'
                | None => r :: norm_runes isNd last rs'
                end
      end
  end.

(** NormalizeString (digit.go:11-39) *)
Definition digit_normalize (U : uni) (s : str) : str := encode (norm_runes (u_isNd U) None (runes s)).
