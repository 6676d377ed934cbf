(** The iteration over SpiNNaker links, and the order of FPGA links. *)
From Verif Require Import Model_Py Model_Core Model_Machine.

(** machine.py:720-729 spinnaker_links: the items of the dictionary *)
Definition spinnaker_links_items (m : machine) : list (spin_key * spin_link_data) := m_spin m.

(** machine.py:903-907 _next_fpga_link *)
Definition next_fpga_link (fpga_id fpga_link : Z) : Z * Z :=
  if fpga_link =? 15 then (fpga_id + 1, 0) else (fpga_id, fpga_link + 1).
