(** The least and greatest value of a number of the chips of a machine. *)
From Verif Require Import Model_Py Model_Core Model_Machine.
Open Scope Z_scope.

Definition least (m : machine) (f : chip -> Z) (n : Z) : Prop :=
  (exists c, In c (chips m) /\ f c = n) /\ forall c, In c (chips m) -> n <= f c.
Definition greatest (m : machine) (f : chip -> Z) (n : Z) : Prop :=
  (exists c, In c (chips m) /\ f c = n) /\ forall c, In c (chips m) -> f c <= n.
