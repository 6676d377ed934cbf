(** Walking over the links of a machine: what can really be reached. *)
From Verif Require Import Model_Py Model_Core Model_Machine.

(** From the chip at [p] one can get to the chip at [q] over [n] links that the
    routers on the way have. *)
Inductive walk (m : machine) : XY -> nat -> XY -> Prop :=
| walk_stay p ch : get_chip_at m (fst p) (snd p) = Some ch -> walk m p 0 p
| walk_link p ch l k n q :
    get_chip_at m (fst p) (snd p) = Some ch ->
    get_link (c_router ch) l = Some k ->
    walk m (l_destination_x k, l_destination_y k) n q ->
    walk m p (S n) q.

(** Every chip can be reached from every chip. *)
Definition connected (m : machine) : Prop :=
  forall p q, is_chip_at m (fst p) (snd p) = true -> is_chip_at m (fst q) (snd q) = true ->
    exists n, walk m p n q.
