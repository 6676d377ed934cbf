(** What can be wrong with a machine, and the text that says so. *)
From Coq Require Import String Ascii.
From Verif Require Import Model_Py Model_Wrap Model_Core Model_Machine Model_Virtual Model_Text Model_Repr
  Spec_Machine Spec_Router Spec_Repair.
Open Scope string_scope.
Open Scope list_scope.
Open Scope Z_scope.

Inductive defect : Type :=
| NoWayIn (x y : Z)      (* no link from the board to chip (x, y) *)
| NoWayOut (x y : Z)     (* no link from chip (x, y) to the board *)
| NoReverse (x y l : Z)  (* link [l] of chip (x, y) cannot be gone back *)
| NoParent (x y : Z).    (* the parent of chip (x, y) is not there *)

(** The defects of a machine; links to removed chips do not count. *)
Definition has_defect (m : machine) (removed : list XY) (d : defect) : Prop :=
  match d with
  | NoWayIn x y => exists ch, get_chip_at m x y = Some ch /\ ~ linked_from_board flat_neighbour m ch
  | NoWayOut x y => exists ch, get_chip_at m x y = Some ch /\ ~ linked_to_board flat_neighbour m ch
  | NoReverse x y l => exists ch q, get_chip_at m x y = Some ch /\ one_way m ch l /\
      m_over m x y l = Ok q /\ ~ In q removed
  | NoParent x y => exists ch p q, get_chip_at m x y = Some ch /\ c_parent ch = Some p /\
      m_over m x y p = Ok q /\ is_chip_at m (fst q) (snd q) = false
  end.

(** The board of a chip: its Ethernet chip. *)
Definition board_of (m : machine) (ch e : chip) : Prop :=
  get_chip_at m (c_eth_x ch) (c_eth_y ch) = Some e.

Definition please : string :=
  "Please report this to spinnakerusers@googlegroups.com " ++ String "010" (String "010" "").

(** [says m text d]: the text for the defect [d] of the machine [m]. *)
Inductive says (m : machine) : string -> defect -> Prop :=
| says_in x y ch e lx ly :
    get_chip_at m x y = Some ch -> board_of m ch e -> m_local m ch = (lx, ly) ->
    says m (cat ["Your machine has unreachable incoming chips at ("; dec lx; ", "; dec ly; ") on board ";
                 chip_str e; " which will cause algorithms to fail. "; please]) (NoWayIn x y)
| says_out x y ch e lx ly :
    get_chip_at m x y = Some ch -> board_of m ch e -> m_local m ch = (lx, ly) ->
    says m (cat ["Your machine has unreachable outgoing chips at ("; dec lx; ", "; dec ly; ") on board ";
                 chip_str e; " which will cause algorithms to fail. "; please]) (NoWayOut x y)
| says_dead x y l ch e q :
    get_chip_at m x y = Some ch -> board_of m ch e -> m_over m x y l = Ok q ->
    get_chip_at m (fst q) (snd q) = None ->
    says m (cat ["Link "; dec l; " from "; chip_str ch; " to "; dec (fst q); ":"; dec (snd q);
                 " points to a dead chip. Chip "; dec x; ":"; dec y;
                 " resides on board with ip address "; opt_str (c_ip e); ". "; please]) (NoReverse x y l)
| says_same_board x y l ch e q ch' e' lx ly lx' ly' :
    get_chip_at m x y = Some ch -> board_of m ch e -> m_over m x y l = Ok q ->
    get_chip_at m (fst q) (snd q) = Some ch' -> board_of m ch' e' ->
    m_local m ch = (lx, ly) -> m_local m ch' = (lx', ly') -> c_ip e = c_ip e' ->
    says m (cat ["Link "; dec ((l + 3) mod 6); " from "; chip_str ch'; " to "; chip_str ch;
                 " does not exist, but the opposite does. Both chips live on the same board under ip address ";
                 opt_str (c_ip e); " and are local chip ids "; dec lx'; ":"; dec ly'; " and "; dec lx; ":"; dec ly;
                 ". "; please]) (NoReverse x y l)
| says_other_board x y l ch e q ch' e' lx ly lx' ly' :
    get_chip_at m x y = Some ch -> board_of m ch e -> m_over m x y l = Ok q ->
    get_chip_at m (fst q) (snd q) = Some ch' -> board_of m ch' e' ->
    m_local m ch = (lx, ly) -> m_local m ch' = (lx', ly') -> c_ip e <> c_ip e' ->
    says m (cat ["Link "; dec ((l + 3) mod 6); " from "; chip_str ch'; " to "; chip_str ch;
                 " does not exist, but the opposite does. The chips live on different boards. chip ";
                 dec (fst q); ":"; dec (snd q); " resides on board with ip address "; opt_str (c_ip e');
                 " with local id "; dec lx'; ":"; dec ly'; " and chip "; dec x; ":"; dec y;
                 " resides on board with ip address "; opt_str (c_ip e); " with local id "; dec lx; ":"; dec ly;
                 ". "; please]) (NoReverse x y l)
| says_parent x y ch e p q :
    get_chip_at m x y = Some ch -> board_of m ch e -> c_parent ch = Some p -> m_over m x y p = Ok q ->
    says m (cat ["The source: <class 'spinn_machine.chip.Chip'> will fail to receive signals because its parent ";
                 dec (fst q); ":"; dec (snd q);
                 " in the signal tree has disappeared from the machine since it was booted. This occurred on board with ip address ";
                 opt_str (c_ip e); " "; please]) (NoParent x y).
