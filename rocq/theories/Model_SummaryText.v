(** The lines that summary_string logs.  Model_Summary has which kinds of lines they are. *)
From Coq Require Import String.
From Verif Require Import Model_Py Model_Version Model_Core Model_Machine Model_Virtual Model_Text Model_Repr
  Model_Identity.
Open Scope string_scope.
Open Scope list_scope.
Open Scope Z_scope.

(** Lib/collections/__init__.py Counter.most_common: sorted by the counts, the greatest first,
    equal counts in the order of the counter *)
Fixpoint place (p : Z * Z) (l : list (Z * Z)) : list (Z * Z) :=
  match l with
  | [] => [p]
  | q :: l' => if snd q <? snd p then p :: l else q :: place p l'
  end.
Definition most_common (c : counter) : list (Z * Z) := fold_left (fun l p => place p l) c [].

(** Lib/collections/__init__.py Counter.__repr__ *)
Definition counter_repr (c : counter) : string :=
  match c with
  | [] => "Counter()"
  | _ => cat ["Counter({"; comma_join (map (fun p => cat [dec (fst p); ": "; dec (snd p)]) (most_common c)); "})"]
  end.

(** machine.py:961-971 and 973-987: the line for one counter, if any; [None] when the
    first key is asked for and there is none *)
Definition log_part (c : counter) (expected : Z) (unexpected mixed : string -> string) : option (list string) :=
  match zsorted (dkeys c) with
  | [n] => Some (if negb (n =? expected) then [unexpected (dec n)] else [])
  | [] => None
  | _ => Some [mixed (counter_repr c)]
  end.

(** machine.py:949-987: what summary_string has logged when it returns or raises; nothing is
    logged after line 987 *)
Definition summary_log (V : version) (m : machine) : list string :=
  match log_part (m_sdram_counter m) (max_sdram_per_chip V)
    (fun n => cat ["The sdram per chip of "; n; " was different to the expected value of ";
                   dec (max_sdram_per_chip V); " for board Version "; version_name (v_id V)])
    (fun c => cat ["Not all Chips have the same sdram. The counts where "; c; "."]) with
  | None => []
  | Some a =>
      a ++
      match log_part (m_entries_counter m) (n_router_entries (v_id V))
        (fun n => cat ["The number of router entries per chip of "; n; " was different to the expected value of ";
                       dec (n_router_entries (v_id V)); " for board Version "; version_name (v_id V)])
        (fun c => cat ["Not all Chips had the same n_router_tables. The counts where "; c; "."]) with
      | None => []
      | Some b => b
      end
  end.
