(** What a 48 chip board and the triad pattern are, independent of the code. *)
From Verif Require Import Model_Py Model_Wrap Spec_Hops.

(** The 48 positions of a board relative to its bottom left chip: a hexagon. *)
Definition on_board (p : XY) : Prop :=
  0 <= fst p <= 7 /\ 0 <= snd p <= 7 /\ -4 <= snd p - fst p <= 3.

(** The bottom left chips of the boards of the infinite triad pattern whose
    board (0,0) is at [root]. *)
Definition triad_origin (root p : XY) : Prop :=
  (4 | fst p - fst root) /\ (12 | (fst p - fst root) + (snd p - snd root)).

(** Inside a machine. *)
Definition inside (w h : Z) (p : XY) : Prop := 0 <= fst p < w /\ 0 <= snd p < h.

(** The sizes a 48 chip version supports. *)
Definition size48 (w h : Z) : Prop :=
  (w = 8 /\ h = 8) \/ (8 < w /\ 8 < h /\ (4 | w) /\ (4 | h)).

(** A board at [e] is completely in the machine: nothing to check in a dimension
    that wraps (those are the multiples of 12). *)
Definition board_fits (w h : Z) (e : XY) : Prop :=
  inside w h e /\
  (~ (12 | w) -> fst e + 8 <= w) /\ (~ (12 | h) -> snd e + 8 <= h).

(** Equality of coordinates up to the wraps of the machine. *)
Definition same_place (k : wrap) (w h : Z) (p q : XY) : Prop :=
  (if wraps_x k then (w | fst p - fst q) else fst p = fst q) /\
  (if wraps_y k then (h | snd p - snd q) else snd p = snd q).
