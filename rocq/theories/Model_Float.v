(** The floating point operations that the modelled code uses, bit exact:
    IEEE 754 binary64 with round to nearest even, taken from the standard
    library's [SpecFloat] (plain Gallina over integers, no primitive floats). *)
From Coq Require Export SpecFloat.
From Verif Require Import Model_Py.

Definition prec : Z := 53.
Definition emax : Z := 1024.

Definition f_add := SFadd prec emax.
Definition f_sub := SFsub prec emax.
Definition f_sqrt := SFsqrt prec emax.

(** [float(n)]: nearest double; raises OverflowError when it does not fit. *)
Definition f_of_Z (n : Z) : spec_float := binary_normalize prec emax n 0 false.

Definition f_finite (f : spec_float) : bool :=
  match f with S754_zero _ | S754_finite _ _ _ => true | _ => false end.

(** [a / b] on two ints: CPython rounds the exact quotient once (longobject.c,
    long_true_divide), raising ZeroDivisionError for b = 0 and OverflowError if
    the result is too large.  [SFdiv] on unnormalised operands computes the
    exact quotient and rounds once. *)
Definition Z_to_exact (n : Z) : spec_float :=
  match n with
  | Z0 => S754_zero false
  | Zpos p => S754_finite false p 0
  | Zneg p => S754_finite true p 0
  end.
Definition py_truediv (a b : Z) : res spec_float :=
  if b =? 0 then Err ZeroDivision else
  let q := SFdiv prec emax (Z_to_exact a) (Z_to_exact b) in
  if f_finite q then Ok q else Err OverflowErr.

(** [math.ceil(f)] of a finite float: exact. *)
Definition f_ceil (f : spec_float) : res Z :=
  match f with
  | S754_zero _ => Ok 0
  | S754_finite s m e =>
      let n := if s then Zneg m else Zpos m in
      if 0 <=? e then Ok (n * 2 ^ e)
      else Ok (- ((- n) / 2 ^ (- e)))
  | S754_infinity _ => Err OverflowErr
  | S754_nan => Err ValueError
  end.

(** [math.sqrt(n)] of an int: converted to float first, then correctly rounded
    square root; a negative argument raises ValueError. *)
Definition py_sqrt (n : Z) : res spec_float :=
  if n <? 0 then Err ValueError else
  let f := f_of_Z n in
  if f_finite f then Ok (f_sqrt f) else Err OverflowErr.

(** [max(a, b, c)] on floats keeps the first largest. *)
Definition f_max2 (a b : spec_float) : spec_float := if SFltb a b then b else a.
Definition f_max3 (a b c : spec_float) : spec_float := f_max2 (f_max2 a b) c.
