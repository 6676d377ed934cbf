(** A packet that is passed on by routing entries for the link it came in by. *)
From Verif Require Import Model_Py Model_Wrap Model_Core Model_Routing.
Open Scope list_scope.
Open Scope Z_scope.

(** It leaves [p] over link [l], meets the entries one after the other, each on the chip
    it has come to, each made for the link on which it comes in and defaultable, and
    leaves over a link of the entry; at last it arrives at [q]. *)
Inductive carried (k : wrap) (w h : Z) : XY -> Z -> list entry -> XY -> Prop :=
| carried_to p l q : xy_over_link k w h (fst p) (snd p) l = Ok q -> carried k w h p l [] q
| carried_on p l p' ps ls e l' es q :
    xy_over_link k w h (fst p) (snd p) l = Ok p' ->
    new_entry (Some ps) (Some ls) None (Some (opposite l)) None None = Ok e ->
    defaultable e = true -> In l' (link_ids e) ->
    carried k w h p' l' es q -> carried k w h p l (e :: es) q.
