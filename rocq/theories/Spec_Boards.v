(** What the boards of the four versions are, as data of the hardware, written without the
    tables of the code. *)
From Verif Require Import Model_Py Model_Wrap Model_Version Spec_Hops Spec_Board.

(** Where chips are on a board. *)
Definition board_position (v : vid) (p : XY) : Prop :=
  match v with
  | V3 => 0 <= fst p <= 1 /\ 0 <= snd p <= 1
  | V201 => p = (0, 0)
  | V5 | V248 => on_board p
  end.

(** The cores of a chip: 18 or 153 less the cores that failed at these positions. *)
Definition one_core_less : list XY :=
  [(1, 1); (1, 3); (3, 1); (3, 3); (5, 2); (5, 4); (5, 6)].
Definition cores_on (v : vid) (p : XY) : Z :=
  match v with
  | V3 => 18
  | V201 => 153
  | V5 => if existsb (xy_eqb p) ((3, 5) :: one_core_less) then 17 else 18
  | V248 => if existsb (xy_eqb p) [(3, 5); (4, 3)] then 151
            else if existsb (xy_eqb p) ((6, 2) :: (6, 3) :: one_core_less) then 152 else 153
  end.

(** Fewer cores than this make a chip not usable. *)
Definition fewest_cores (v : vid) : Z :=
  match v with V3 | V5 => 5 | V201 | V248 => 100 end.

(** The most cores and bytes of SDRAM of any chip, and its routing entries. *)
Definition most_cores (v : vid) : Z :=
  match v with V3 | V5 => 18 | V201 | V248 => 153 end.
Definition most_sdram (v : vid) : Z :=
  match v with V3 | V5 => 123469792 | V201 | V248 => 1024 * 1024 * 1024 end.
Definition routing_entries (v : vid) : Z :=
  match v with V3 | V5 => 1024 - 1 | V201 | V248 => 16 * 1024 end.
