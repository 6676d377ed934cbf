(** What the log of a summary says about a number that every chip has. *)
From Coq Require Import String Sorted.
From Verif Require Import Model_Py Model_Core Model_Machine Model_Virtual Model_Text Model_Repr.
Open Scope string_scope.
Open Scope list_scope.
Open Scope Z_scope.

(** The number of chips whose number is [a]. *)
Definition many (m : machine) (f : chip -> Z) (a : Z) : Z :=
  Z.of_nat (List.length (filter (fun c => f c =? a) (chips m))).
(** [a] is met before [b] in the order in which the chips were added. *)
Definition met_before (m : machine) (f : chip -> Z) (a b : Z) : Prop :=
  exists before c after, chips m = before ++ c :: after /\ f c = a /\
    (forall d, In d (before ++ [c]) -> f d <> b).

(** The numbers with their frequencies, the most frequent first, those met first first. *)
Definition tally (m : machine) (f : chip -> Z) (l : list (Z * Z)) : Prop :=
  (forall a n, In (a, n) l <-> n = many m f a /\ 0 < n) /\
  StronglySorted (fun p q => snd q < snd p \/ (snd p = snd q /\ met_before m f (fst p) (fst q))) l.
Definition tally_text (l : list (Z * Z)) : string :=
  cat ["Counter({"; comma_join (map (fun p => cat [dec (fst p); ": "; dec (snd p)]) l); "})"].

(** The lines about the numbers [f] of the chips when [expected] is usual. *)
Inductive lines (m : machine) (f : chip -> Z) (expected : Z) (one mixed : string -> string) : list string -> Prop :=
| as_expected : (forall c, In c (chips m) -> f c = expected) -> lines m f expected one mixed []
| all_other n : n <> expected -> (forall c, In c (chips m) -> f c = n) ->
    lines m f expected one mixed [one (dec n)]
| not_all_same c d l : In c (chips m) -> In d (chips m) -> f c <> f d -> tally m f l ->
    lines m f expected one mixed [mixed (tally_text l)].
