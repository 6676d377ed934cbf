(** Words for C101: the iterator of an OrderedDict *)
From Verif Require Import Model_Py Model_Iter Spec_Iter.

(** It has raised something, StopIteration or another exception *)
Definition ended {A} (past : list (answer A)) : Prop := exists a, In a past /\ forall x, a <> Gives x.

(** [a] is the right answer of next() on an iterator that was made when there were [size]
    items, after the answers [past], when the items are [items]: one by one while there are as
    many, RuntimeError when there are more before all [size] have been given, and
    StopIteration when all have been given, and for ever after any exception. *)
Definition answers_in_order {A} (size : Z) (items : list A) (past : list (answer A)) (a : answer A) : Prop :=
  (ended past \/ Z.of_nat (List.length (given past)) = size -> a = Stops) /\
  (~ ended past -> Z.of_nat (List.length (given past)) <> size ->
     Z.of_nat (List.length items) = size ->
     exists x, nth_error items (List.length past) = Some x /\ a = Gives x) /\
  (~ ended past -> Z.of_nat (List.length (given past)) <> size ->
     Z.of_nat (List.length items) <> size -> a = Raises RuntimeErr).
