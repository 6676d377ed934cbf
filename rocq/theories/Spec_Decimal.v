(** Rounding to doubles (IEEE 754 binary64, to nearest, ties to even), said with
    integers: all doubles are multiples of 2 ^ -1074, which is the unit here. *)
From Coq Require Import SpecFloat.
From Verif Require Import Model_Py.
Open Scope Z_scope.

(** [u] units are a double, without regard to the largest one. *)
Definition double_units (u : Z) : Prop := exists m k, 0 <= m < 2 ^ 53 /\ 0 <= k /\ u = m * 2 ^ k.

(** The value [n / d] rounds to [u] units: doubles are [2 ^ k] apart where [n / d] is; [u] is
    a multiple of that, at most half of it away, and the even one if exactly half. *)
Definition rounds_to (n d u : Z) : Prop :=
  exists m k, 0 <= k /\ u = m * 2 ^ k /\
    n * 2 ^ 1074 < 2 ^ 53 * 2 ^ k * d /\ (k = 0 \/ 2 ^ 52 * 2 ^ k * d <= n * 2 ^ 1074) /\
    2 * Z.abs (n * 2 ^ 1074 - u * d) <= 2 ^ k * d /\
    (2 * Z.abs (n * 2 ^ 1074 - u * d) = 2 ^ k * d -> Z.Even m).

(** [f] is the float of the sign [s] and [u] units, in its only form. *)
Definition float_of_units (s : bool) (u : Z) (f : spec_float) : Prop :=
  u = 0 /\ f = S754_zero s \/
  u < 2 ^ 2098 /\ (exists p e, f = S754_finite s p e /\ -1074 <= e /\ Zpos p < 2 ^ 53 /\
                     (e = -1074 \/ 2 ^ 52 <= Zpos p) /\ u = Zpos p * 2 ^ (e + 1074)) \/
  2 ^ 2098 <= u /\ f = S754_infinity s.

Definition nearest (s : bool) (n d : Z) (f : spec_float) : Prop :=
  exists u, rounds_to n d u /\ float_of_units s u f.

(** The float is exactly the whole number. *)
Definition is_whole (f : spec_float) (n : Z) : Prop :=
  match f with
  | S754_zero _ => n = 0
  | S754_finite s m e =>
      exists v, (if s then v = - Zpos m else v = Zpos m) /\
        (0 <= e /\ n = v * 2 ^ e \/ e < 0 /\ v = n * 2 ^ (- e))
  | _ => False
  end.
