(** What machine_repair leaves, said of the machine before the repair. *)
From Verif Require Import Model_Py Model_Wrap Model_Core Model_Machine Spec_Machine Spec_Router.
Open Scope Z_scope.

(** Chip (x, y) has link [l], which leads to [q], and [q] has the link back. *)
Definition two_way (m : machine) (x y l : Z) (q : XY) : Prop :=
  link_at m x y l /\ m_over m x y l = Ok q /\ link_at m (fst q) (snd q) ((l + 3) mod 6).

(** Chip (x, y) has a link both ways with a chip of its own board (the chip right next
    to it, not across the seam of a machine that wraps). *)
Definition holds_on (m : machine) (x y : Z) : Prop :=
  exists l q a b, flat_neighbour x y l q /\ two_way m x y l q /\
    get_chip_at m x y = Some a /\ get_chip_at m (fst q) (snd q) = Some b /\
    (c_eth_x b, c_eth_y b) = (c_eth_x a, c_eth_y a).

(** Chip (x, y) has a link to, and a link from, a chip of its board right next to it:
    it survives the first look for chips that are cut off. *)
Definition hangs_on (m : machine) (x y : Z) : Prop :=
  exists ch, get_chip_at m x y = Some ch /\
    linked_to_board flat_neighbour m ch /\ linked_from_board flat_neighbour m ch.

(** Among the chips [kept] is the one at (0, 0), and with each chip its Ethernet chip. *)
Definition boards_stay (m : machine) (kept : Z -> Z -> Prop) : Prop :=
  kept 0 0 /\
  forall x y ch, kept x y -> get_chip_at m x y = Some ch -> kept (c_eth_x ch) (c_eth_y ch).
