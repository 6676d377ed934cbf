(** Machines with the same layout. *)
From Verif Require Import Model_Py Model_Wrap Model_Version Model_Core Model_Machine.

(** Two chips in the same place, of the same board, with the same links (in whatever
    order they were added), Ethernet address and parent; both have at least the least
    number of cores that the version expects, or neither has.  Which cores these are, how
    many more, the memory, the tags and the router entries are free. *)
Record alike (v : vid) (a b : chip) : Prop := mkAlike {
  alike_x : c_x a = c_x b;
  alike_y : c_y a = c_y b;
  alike_links : forall l, get_link (c_router a) l = get_link (c_router b) l;
  alike_eth_x : c_eth_x a = c_eth_x b;
  alike_eth_y : c_eth_y a = c_eth_y b;
  alike_ip : c_ip a = c_ip b;
  alike_parent : c_parent a = c_parent b;
  alike_cores : minimum_cores_expected v <= n_processors a <-> minimum_cores_expected v <= n_processors b
}.

(** Two machines of one class and size, whose chips are alike one by one.  The origin, the
    counters and the recorded SpiNNaker and FPGA links are free. *)
Record same_layout (v : vid) (a b : machine) : Prop := mkLayout {
  layout_kind : m_kind a = m_kind b;
  layout_width : m_width a = m_width b;
  layout_height : m_height a = m_height b;
  layout_chips : Forall2 (alike v) (chips a) (chips b)
}.

(** The values of a chip that its layout does not fix. *)
Definition resources (ch : chip) : list Z * list Z * Z * Z * list Z :=
  (c_scamp ch, c_placable ch, r_entries (c_router ch), c_sdram ch, c_tags ch).

(** The JSON format can say everything about the links of the machine: each link leads from
    its chip to the neighbour that its id names, and chips have no parent.  Their order,
    the cores and the other values are free. *)
Definition sayable (m : machine) : Prop :=
  (forall ch l k, In ch (chips m) -> get_link (c_router ch) l = Some k ->
     0 <= l < 6 /\ l_source_x k = c_x ch /\ l_source_y k = c_y ch /\
     m_over m (c_x ch) (c_y ch) l = Ok (l_destination_x k, l_destination_y k)) /\
  (forall ch, In ch (chips m) -> c_parent ch = None).
