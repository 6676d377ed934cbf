(** Which thing is at fault. *)
From Coq Require Import String Ascii.
From Verif Require Import Model_Py Model_Core Model_Str Model_Virtual Model_Text Model_Machine Model_Fault
  Spec_Machine Prop_ReprExact.
Open Scope string_scope.
Open Scope list_scope.
Open Scope Z_scope.

(** [a] is the first of the list that was there before: in [old] or earlier in the list. *)
Definition first_again {A} (old l : list A) (a : A) : Prop :=
  exists before after, l = before ++ a :: after /\ In a (old ++ before) /\
    NoDup before /\ (forall b, In b before -> ~ In b old).

Definition value_of {A E} (r : A + E) : option A := match r with inl a => Some a | inr _ => None end.
Definition exn_of {A E} (r : A + E) : option E := match r with inl _ => None | inr e => Some e end.

(** A number in hexadecimal, lower case, without zeros in front *)
Definition hex_text (s : string) (n : Z) : Prop := exists u, s = lower u /\ hex_in 1 u n.

(** The address of the board of a lookup: the one given, else that of the chip at 0, 0. *)
Definition board_meant (m : machine) (given : option string) (a : string) : Prop :=
  given = Some a \/
  (given = None /\ exists c, In c (chips m) /\ c_x c = 0 /\ c_y c = 0 /\ c_ip c = Some a).
