(** Go float64 (IEEE 754 binary64, round to nearest even) by the standard library's [SpecFloat], and the operations used by
    internal/parser/relative: strconv.ParseFloat on digit strings, math.Floor, math.Abs, math.Round, conversion to int. *)
From Verif Require Import GoBase.
From Coq Require Import SpecFloat.

Definition f64 := spec_float.
Definition prec : Z := 53.
Definition emax : Z := 1024.
Definition fadd : f64 -> f64 -> f64 := SFadd prec emax.
Definition fsub : f64 -> f64 -> f64 := SFsub prec emax.
Definition fmul : f64 -> f64 -> f64 := SFmul prec emax.
Definition feqb : f64 -> f64 -> bool := SFeqb.
Definition fltb : f64 -> f64 -> bool := SFltb.
Definition fabs : f64 -> f64 := SFabs.
Definition fneg : f64 -> f64 := SFopp.
Definition fzero : f64 := S754_zero false.

(** float64(n) *)
Definition f_of_Z (n : Z) : f64 :=
  match n with
  | Z0 => S754_zero false
  | Zpos p => binary_round prec emax false p 0
  | Zneg p => binary_round prec emax true p 0
  end.
(** correctly rounded n / d, n >= 0, d > 0 *)
Definition f_of_ratio (n : Z) (d : positive) : f64 :=
  match n with
  | Zpos p => SFdiv prec emax (S754_finite false p 0) (S754_finite false d 0)
  | _ => S754_zero false
  end.

(** strconv.ParseFloat(s, 64) for s of the form digits[.digits] (the only shape produced by the regular expression
    [\d+[.,]?\d*] with "," replaced by "."); a too large number gives +Inf (the error is discarded by the caller) *)
Definition parse_float (s : str) : f64 :=
  match index s (lit ".") with
  | None => match dec_val 0 s with Some n => f_of_Z n | None => fzero end
  | Some i =>
    let ip := firstn i s in
    let fp := skipn (S i) s in
    match dec_val 0 (ip ++ fp) with
    | Some n => match fp with [] => f_of_Z n | _ => f_of_ratio n (Pos.pow 10 (Pos.of_nat (length fp))) end
    | None => fzero
    end
  end.

(** magnitude truncated to an integer *)
Definition trunc_mag (m : positive) (e : Z) : Z := if 0 <=? e then Zpos m * 2 ^ e else Zpos m / 2 ^ (- e).
(** math.Floor on non-negative arguments (negative ones do not occur) *)
Definition ffloor (x : f64) : f64 :=
  match x with
  | S754_finite false m e => if 0 <=? e then x else f_of_Z (trunc_mag m e)
  | _ => x
  end.
(** math.Round: half away from zero *)
Definition fround (x : f64) : f64 :=
  match x with
  | S754_finite s m e =>
    if 0 <=? e then x
    else let q := (2 * Zpos m + 2 ^ (- e)) / (2 * 2 ^ (- e)) in f_of_Z (if s then - q else q)
  | _ => x
  end.

Definition min_int64 : Z := -9223372036854775808.
(** int(x), time.Duration(x): truncation; out of range (also Inf, NaN) is 0x8000000000000000 on amd64 *)
Definition int_of_f (x : f64) : Z :=
  match x with
  | S754_zero _ => 0
  | S754_finite s m e =>
    let v := if s then - trunc_mag m e else trunc_mag m e in
    if (min_int64 <=? v) && (v <=? 9223372036854775807) then v else min_int64
  | _ => min_int64
  end.

Section Tests.
Goal int_of_f (parse_float (lit "12345")) = 12345. reflexivity. Qed.
Goal int_of_f (fmul (parse_float (lit "2.5")) (f_of_Z 10)) = 25. vm_compute. reflexivity. Qed.
Goal feqb (parse_float (lit "0.1")) (fsub (parse_float (lit "1.1")) (f_of_Z 1)) = false. vm_compute. reflexivity. Qed.
Goal parse_float (lit "0.1") = S754_finite false 7205759403792794 (-56). vm_compute. reflexivity. Qed.
Goal int_of_f (fround (parse_float (lit "2.5"))) = 3. vm_compute. reflexivity. Qed.
End Tests.
