(** How often machine_repair calls itself. *)
From Verif Require Import Model_Py Model_Version Model_Machine Model_Repair.

(** machine_repair (machine_factory.py:124-216) ends with [r] and was called [n] times,
    the first call included. *)
Inductive repair_calls (repair : bool) (v : vid) : machine -> list XY -> nat -> res machine -> Prop :=
| calls_raises m removed e :
    repair_step repair v m removed = Err e -> repair_calls repair v m removed 1 (Err e)
| calls_done m removed :
    repair_step repair v m removed = Ok None -> repair_calls repair v m removed 1 (Ok m)
| calls_again m removed n k r :
    repair_step repair v m removed = Ok (Some n) -> repair_calls repair v n [] k r ->
    repair_calls repair v m removed (S k) r.
