(** Machines that cannot be told apart, but for the order of what they list. *)
From Coq Require Import Permutation.
From Verif Require Import Model_Py Model_Wrap Model_Version Model_Core Model_Machine Spec_Boards
  Spec_Machine.

Record looks_same (m m' : machine) : Prop := mkLooksSame {
  (* look ups *)
  same_chip_at : forall x y, get_chip_at m x y = get_chip_at m' x y;
  same_getitem : forall p, getitem m p = getitem m' p;
  same_is_chip : forall x y, is_chip_at m x y = is_chip_at m' x y;
  same_is_link : forall x y l, is_link_at m x y l = is_link_at m' x y l;
  same_boot_chip : boot_chip m = boot_chip m';
  same_boot : m_boot m = m_boot m';
  (* boards *)
  same_existing : forall x y, m_existing m x y = m_existing m' x y;
  same_down : forall x y, m_down m x y = m_down m' x y;
  same_by_ethernet : forall x y, get_chips_by_ethernet m x y = get_chips_by_ethernet m' x y;
  (* counts *)
  same_n_chips : n_chips m = n_chips m';
  same_cores : get_cores_count m = get_cores_count m';
  same_total : total_cores m = total_cores m';
  same_user : total_available_user_cores m = total_available_user_cores m';
  same_links : get_links_count_doubled m = get_links_count_doubled m';
  same_entries : min_n_router_enteries m = min_n_router_enteries m';
  (* verdicts *)
  same_valid : forall v, validate v m = validate v m';
  same_unused : 0 < m_height m -> get_unused_xy m = get_unused_xy m';
  (* lists, but for their order *)
  same_coordinates : Permutation (chip_coordinates m) (chip_coordinates m');
  same_ethernets : Permutation (ethernet_connected_chips m) (ethernet_connected_chips m');
  same_outgoing : Permutation (unreachable_outgoing_chips m) (unreachable_outgoing_chips m');
  same_incoming : Permutation (unreachable_incoming_chips m) (unreachable_incoming_chips m');
  same_outgoing_local : Permutation (unreachable_outgoing_local_chips m) (unreachable_outgoing_local_chips m');
  same_incoming_local : Permutation (unreachable_incoming_local_chips m) (unreachable_incoming_local_chips m');
  same_one_way : Permutation (one_way_links m) (one_way_links m')
}.

(** The chips that a call adds, if it raises nothing. *)
Definition adds (a : call) : list chip :=
  match a with
  | CallAddChip c => [c]
  | CallAddChips cs => cs
  | CallAddSpinnakerLinks | CallAddFpgaLinks => []
  end.
