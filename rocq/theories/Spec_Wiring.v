(** How SpiNN-5 boards are wired to each other (C71), written down without the
    table of FPGA links. *)
From Verif Require Import Model_Py Model_Wrap Model_Core Model_Machine.

(** The other end of link [n] of FPGA [f]: FPGA and link number there. *)
Definition facing (f n : Z) : Z * Z :=
  ((f + (if n <? 8 then 1 else 2)) mod 3, 15 - n).

(** Where the Ethernet chip of the board at the other end is, from the Ethernet
    chip of this one, before wrapping: the lower and the upper eight links of each
    FPGA go to one of the six neighbouring boards each. *)
Definition neighbour_board (f n : Z) : XY :=
  match f, n <? 8 with
  | 0, true => (4, -4)
  | 0, false => (-4, -8)
  | 1, true => (-8, -4)
  | 1, false => (-4, 4)
  | 2, true => (4, 8)
  | _, _ => (8, 4)
  end.

(** The machine says that link [l] of the chip at (x, y) is link [n] of FPGA [f] of
    the board with address [a]. *)
Definition wired (m : machine) (x y l f n : Z) (a : string) : Prop :=
  get_fpga_link_with_id m f n None (Some (x, y)) = Ok (mkFpgaLink n f x y l a) /\
  get_fpga_link_with_id m f n (Some a) None = Ok (mkFpgaLink n f x y l a).
