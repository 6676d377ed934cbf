(** What a machine looks like after it was written to and read from JSON. *)
From Coq Require Import Sorted.
From Verif Require Import Model_Py Model_Wrap Model_Version Model_Core Model_Machine Spec_Machine Spec_Repair.

(** The links of the ids in [0..5] that the chip has, to the neighbours they name. *)
Definition straight (k : wrap) (w h : Z) (ch : chip) (l : Z) : list link :=
  match xy_over_link k w h (c_x ch) (c_y ch) l with
  | Ok (dx, dy) => if is_link (c_router ch) l then [mkLink (c_x ch) (c_y ch) l dx dy] else []
  | Err _ => []
  end.

(** A chip as it comes back: scamp on core 0, the other cores numbered from 1, the
    links in order of id, the router entries capped, no parent. *)
Definition chip_back (k : wrap) (w h : Z) (ch : chip) : chip :=
  mkChip (c_x ch) (c_y ch) [0] (zrange 1 (n_processors ch))
    (mkRouter (map (fun l => (l_source_link_id l, l)) (flat_map (straight k w h ch) [0; 1; 2; 3; 4; 5]))
       (Z.min (r_entries (c_router ch)) 2147483647))
    (c_sdram ch) (c_eth_x ch) (c_eth_y ch) (c_ip ch) (c_tags ch) None.

(** A machine with these chips, with its SpiNNaker and FPGA links. *)
Definition machine_of (v : vid) (w h : Z) (origin : string) (cs : list chip) : machine :=
  fst (history v (new_machine (machine_class v w h) w h (chip_core_map v) origin)
         (map CallAddChip cs ++ [CallAddSpinnakerLinks; CallAddFpgaLinks])).

(** A chip of which the JSON format can say everything. *)
Record plain (v : vid) (w h : Z) (ch : chip) : Prop := mkPlain {
  plain_made : made_chip ch;
  plain_scamp : c_scamp ch = [0];
  plain_cores : c_placable ch = zrange 1 (n_processors ch);
  plain_entries : r_entries (c_router ch) <= 2147483647;
  plain_parent : c_parent ch = None;
  plain_order : StronglySorted Z.lt (map fst (router_iter (c_router ch)));
  plain_links : forall l k, get_link (c_router ch) l = Some k ->
    0 <= l < 6 /\ l_source_x k = c_x ch /\ l_source_y k = c_y ch /\
    xy_over_link (machine_class v w h) w h (c_x ch) (c_y ch) l = Ok (l_destination_x k, l_destination_y k)
}.

(** The same machine with another origin. *)
Definition with_origin (o : string) (m : machine) : machine :=
  mkMachine (m_kind m) (m_width m) (m_height m) (m_ccm m) (m_eth m) (m_spin m) (m_fpga m) (m_boot m)
    (m_chips m) o (m_cores_counter m) (m_links_counter m) (m_entries_counter m) (m_sdram_counter m).
