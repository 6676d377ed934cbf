(** Supported sizes and wraps of each board version, independent of the code. *)
From Verif Require Import Model_Py Model_Version Spec_Board.

(** The sizes a version supports: a single 4 chip board, a single chip, one 48
    chip board, or more than 8 in both dimensions in multiples of 4. *)
Definition supported (v : vid) (w h : Z) : Prop :=
  match v with
  | V3 => w = 2 /\ h = 2
  | V201 => w = 1 /\ h = 1
  | V5 | V248 => size48 w h
  end.

(** In which dimensions a machine of the version wraps. *)
Definition should_wrap (v : vid) (n : Z) : Prop :=
  match v with
  | V3 => True
  | V201 => False
  | V5 | V248 => (12 | n)
  end.
