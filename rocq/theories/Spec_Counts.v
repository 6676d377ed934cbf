(** What the counts of a machine without faults are expressed in. *)
From Verif Require Import Model_Py Model_Wrap Model_Version Spec_Board Spec_Version Spec_Virtual.
Open Scope list_scope.
Open Scope Z_scope.

(** The boards of a machine, by their bottom left chips, each once. *)
Definition all_boards (v : vid) (w h : Z) (boards : list XY) : Prop :=
  NoDup boards /\ forall e, In e boards <-> board_origin v w h e.

(** The six sides of a 48 chip board, by the step to the board beyond the side. *)
Definition sides : list XY := [(8, 4); (4, 8); (-4, 4); (-8, -4); (-4, -8); (4, -4)].

(** The sides of boards that have another board beyond them, each once. *)
Definition joined_sides (v : vid) (w h : Z) (joined : list (XY * XY)) : Prop :=
  NoDup joined /\
  forall e s, In (e, s) joined <->
    board_origin v w h e /\ In s sides /\ exists e', board_origin v w h e' /\ lands v w h s e e'.

(** The chips that are not there although the boards have a place for them. *)
Definition missing_chips (v : vid) (w h : Z) (down : XY -> Prop) (missing : list XY) : Prop :=
  NoDup missing /\
  forall p, In p missing <-> down p /\ exists e d n, place_of v w h p e d n.
