(** What a virtual machine should look like, independent of how it is built. *)
From Verif Require Import Model_Py Model_Wrap Model_Version Model_Core Model_Machine Model_Ignore
  Spec_Board Spec_Version.
Open Scope Z_scope.

(** The bottom left chips of the boards of a machine. *)
Definition board_origin (v : vid) (w h : Z) (e : XY) : Prop :=
  match v with
  | V3 | V201 => e = (0, 0)
  | V5 | V248 => triad_origin (0, 0) e /\ board_fits w h e
  end.

(** Position [d] of the board at [e] is at [p], around the edges where the
    machine wraps. *)
Definition lands (v : vid) (w h : Z) (d e p : XY) : Prop :=
  inside w h p /\
  (should_wrap v w -> (w | fst d + fst e - fst p)) /\
  (~ should_wrap v w -> fst p = fst d + fst e) /\
  (should_wrap v h -> (h | snd d + snd e - snd p)) /\
  (~ should_wrap v h -> snd p = snd d + snd e).

(** [p] is the place of position [d] with [n] cores of the board at [e]. *)
Definition place_of (v : vid) (w h : Z) (p e d : XY) (n : Z) : Prop :=
  board_origin v w h e /\ In (d, n) (chip_core_map v) /\ lands v w h d e p.

(** Core [p] of the chip at (x, y) is down by the cfg. *)
Definition core_down (items : list ignore_core) (x y p : Z) : Prop :=
  exists i, In i items /\ ico_ip i = None /\ ico_x i = x /\ ico_y i = y /\ virtual_p i = Ok p.

(** Link [l] of the chip at (x, y) is down: by the cfg, or because a board of 4
    chips has no connection there: links 3 and 4 of its left chips and 0 and 1 of
    its right chips, which would wrap around. *)
Definition link_down (v : vid) (items : list ignore_link) (x y l : Z) : Prop :=
  In (mkIgnoreLink x y l None) items \/
  (v = V3 /\ ((x = 0 /\ (y = 0 \/ y = 1) /\ (l = 3 \/ l = 4)) \/
              (x = 1 /\ (y = 0 \/ y = 1) /\ (l = 0 \/ l = 1)))).
