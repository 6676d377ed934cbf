(** Machines that share chip objects. *)
From Verif Require Import Model_Py Model_Wrap Model_Version Model_Core Model_Machine Model_Heap
  Spec_Repair Spec_Machine.

(** A machine as programs hold it: the objects it refers to exist, each under its own position;
    the list of Ethernet chips refers to the same objects; and what it looks like is a machine
    of chips that programs can make. *)
Record held (v : vid) (s : heap) (h : hmachine) : Prop := mkHeld {
  held_exist : forall p i, In (p, i) (h_chips h) -> (i < List.length s)%nat;
  held_eth : h_eth h = dvalues (filter (fun e => match c_ip (deref s (snd e)) with Some _ => true | None => false end) (h_chips h));
  held_made : made_machine v (view s h)
}.

(** The object at a position of a machine. *)
Definition object_at (h : hmachine) (p : XY) : option ref := dget xy_eqb (h_chips h) p.

(** Chip [b] still has all the links of chip [a]. *)
Definition kept_links (a b : chip) : Prop :=
  forall l, get_link (c_router b) l = get_link (c_router a) l.

(** Both machines have the same chip object at [p]. *)
Definition share (h h' : hmachine) (p : XY) : Prop :=
  exists i, object_at h p = Some i /\ object_at h' p = Some i.
