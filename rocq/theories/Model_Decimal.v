(** Floats that json.load makes and what the code does with them: comparing them with
    ints.  A float is an IEEE 754 binary64 number (the standard library's [spec_float]). *)
From Coq Require Import SpecFloat.
From Verif Require Import Model_Py.
Open Scope Z_scope.

(** [float(text)] for a text with the exact value [n / d] and the sign [s]: CPython rounds
    it once, to the nearest double, of two nearest to the one with the even mantissa
    (Python/dtoa.c _Py_dg_strtod); too large values give an infinity.  All doubles are
    multiples of 2 ^ -1074; [a / d] is the value counted in these. *)
Definition nearest_double (s : bool) (n d : Z) : spec_float :=
  let a := n * 2 ^ 1074 in
  let k := Z.max 0 (Z.log2 (a / d) - 52) in
  let b := d * 2 ^ k in
  let q := a / b in
  let r := a mod b in
  let m := if (2 * r <? b) || ((2 * r =? b) && Z.even q) then q else q + 1 in
  let '(m, k) := if m =? 2 ^ 53 then (2 ^ 52, k + 1) else (m, k) in
  if 971 + 1074 <? k then S754_infinity s
  else match m with Zpos p => S754_finite s p (k - 1074) | _ => S754_zero s end.

(** [float(text)] for the digits [n] and the power [e] of ten *)
Definition decimal_double (s : bool) (n e : Z) : spec_float :=
  if 0 <=? e then nearest_double s (n * 10 ^ e) 1 else nearest_double s n (10 ^ (- e)).

(** [f == n] for a float and an int: Python compares the exact values *)
Definition float_eq_int (f : spec_float) (n : Z) : bool :=
  match f with
  | S754_zero _ => n =? 0
  | S754_finite s m e =>
      let v := if s then Zneg m else Zpos m in
      if 0 <=? e then v * 2 ^ e =? n else v =? n * 2 ^ (- e)
  | _ => false
  end.
