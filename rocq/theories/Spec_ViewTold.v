(** What the calls of the data view answer and say, from the history alone (Spec_View). *)
From Coq Require Import String.
From Verif Require Import Model_Py Model_Version Model_Core Model_Machine Model_Factory Model_Virtual Model_Text
  Model_View Model_Told Spec_View.
Open Scope string_scope.
Open Scope list_scope.
Open Scope Z_scope.

Definition both_maps : string := "Can not have both quad_map and v_to_p_map".
Definition second_map : string := "Unexpected second call to set_v_to_p_map".
Definition no_machine_made : string := "machine generator did not generate machine".

(** A version whose cores are in quads is known after the calls of [tr]. *)
Definition quads_known (tr : trace) : Prop := exists v, version_after tr = Some v /\ has_quads v = true.
(** A map of physical ids that is not empty is held, or any map. *)
Definition ids_held (tr : trace) : Prop := exists m, map_after tr = Some m /\ m <> [].
Definition map_held (tr : trace) : Prop := exists m, map_after tr = Some m.

(** A set_v_to_p_map that worked, with no reset after it. *)
Definition was_set (tr : trace) : Prop :=
  exists before e m r after, tr = before ++ (e, SetVtoP m, Ok r) :: after /\
    forall t, In t after -> resets (op_of t) = false.
