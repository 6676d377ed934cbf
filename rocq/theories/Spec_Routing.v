(** The routing entries that programs can hold, and routable destinations. *)
From Verif Require Import Model_Py Model_Routing.
Open Scope Z_scope.

(** Entries come from the constructor and merge; reading the ids may change what an
    entry has stored. *)
Inductive made_entry : entry -> Prop :=
| made_new ps ls ip il d r e : new_entry ps ls ip il d r = Ok e -> made_entry e
| made_merge a b e : made_entry a -> made_entry b -> entry_merge a b = Ok e -> made_entry e
| made_read_processors e : made_entry e -> made_entry (snd (read_processor_ids e))
| made_read_links e : made_entry e -> made_entry (snd (read_link_ids e)).

(** The ids that a route of 24 bits can name. *)
Definition routable_ids (ps ls : list Z) : Prop :=
  (forall p, In p ps -> 0 <= p < 18) /\ (forall l, In l ls -> 0 <= l < 6).
Definition routable (e : entry) : Prop := routable_ids (processor_ids e) (link_ids e).

(** Two collections with the same members. *)
Definition same_members (a b : list Z) : Prop := forall x, In x a <-> In x b.

(** Multicast entries. *)
Inductive made_multicast : multicast -> Prop :=
| mc_new k m e c : made_entry e -> new_multicast k m e = Ok c -> made_multicast c
| mc_merged a b c : made_multicast a -> made_multicast b -> mc_merge a b = Ok c -> made_multicast c.
