(** Ways round the faults of a machine. *)
From Verif Require Import Model_Py Model_Wrap Model_Version Model_Core Model_Machine
  Spec_Machine Spec_Router Spec_Version Spec_Virtual.
Open Scope list_scope.
Open Scope Z_scope.

(** Instead of link [l] of the chip at [p]: over a neighbour next to it, by the link
    before or after [l], and on by the link on the other side of [l]. *)
Definition detour (m : machine) (p : XY) (l : Z) : Prop :=
  exists l1 l2 r,
    ((l1 = (l + 1) mod 6 /\ l2 = (l + 5) mod 6) \/ (l1 = (l + 5) mod 6 /\ l2 = (l + 1) mod 6)) /\
    link_at m (fst p) (snd p) l1 /\ m_over m (fst p) (snd p) l1 = Ok r /\ link_at m (fst r) (snd r) l2.

(** Two chips that are there and next to each other are linked, or there is a detour. *)
Definition links_have_detours (m : machine) : Prop :=
  forall p l q, is_chip_at m (fst p) (snd p) = true -> 0 <= l < 6 ->
    m_over m (fst p) (snd p) l = Ok q -> is_chip_at m (fst q) (snd q) = true ->
    link_at m (fst p) (snd p) l \/ detour m p l.

(** The six neighbours of every place of a board without a chip are there. *)
Definition dead_chips_apart (v : vid) (m : machine) : Prop :=
  forall p e d n, place_of v (m_width m) (m_height m) p e d n -> is_chip_at m (fst p) (snd p) = false ->
  forall l, 0 <= l < 6 ->
    exists q, m_over m (fst p) (snd p) l = Ok q /\ is_chip_at m (fst q) (snd q) = true.
