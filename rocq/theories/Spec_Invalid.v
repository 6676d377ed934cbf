(** What can be wrong with one chip, in words. *)
From Coq Require Import String.
From Verif Require Import Model_Py Model_Wrap Model_Version Model_Core Model_Machine Model_Virtual Model_Text
  Spec_Version Spec_Boards Spec_Machine.
Open Scope string_scope.
Open Scope list_scope.
Open Scope Z_scope.

(** [wrong v m c why]: the words [why] are true of the chip [c] of machine [m]. *)
Inductive wrong (v : vid) (m : machine) (c : chip) : string -> Prop :=
| w_neg_x : c_x c < 0 -> wrong v m c "has a negative x"
| w_neg_y : c_y c < 0 -> wrong v m c "has a negative y"
| w_big_x : m_width m <= c_x c -> wrong v m c (cat ["has an x larger than width "; dec (m_width m)])
| w_big_y : m_height m <= c_y c -> wrong v m c (cat ["has a y larger than height "; dec (m_height m)])
| w_cores : n_processors c < fewest_cores v ->
    wrong v m c (cat ["has too few cores found "; dec (n_processors c)])
| w_eth_one : has_address c -> (v = V3 \/ v = V201) -> (c_x c, c_y c) <> (0, 0) ->
    wrong v m c "Only Chip 0, 0 may be an Ethernet Chip"
| w_eth_x : has_address c -> (v = V5 \/ v = V248) -> ~ (4 | c_x c) ->
    wrong v m c "Only Chip with X divisible by 4 may be an Ethernet Chip"
| w_eth_xy : has_address c -> (v = V5 \/ v = V248) -> ~ (12 | c_x c + c_y c) ->
    wrong v m c "Only Chip with x + y divisible by 12 may be an Ethernet Chip"
| w_no_eth : ~ has_address c -> get_chip_at m (c_eth_x c) (c_eth_y c) = None ->
    wrong v m c "has an invalid ethernet chip"
| w_local lx ly : ~ has_address c -> m_local m c = (lx, ly) -> ~ In (lx, ly) (local_xys m) ->
    wrong v m c (cat ["has an unexpected local xy of ("; dec lx; ", "; dec ly; ")"]).
