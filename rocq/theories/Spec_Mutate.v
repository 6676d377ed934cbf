(** Histories that add chips to a machine and links to the routers of its chips. *)
From Verif Require Import Model_Py Model_Wrap Model_Version Model_Core Model_Machine Model_Mutate
  Spec_Machine.

Inductive act : Type :=
| AddChip (c : chip)
| AddLink (p : XY) (l : link).

Definition do_act (m : machine) (a : act) : machine * option exn :=
  match (match a with AddChip c => add_chip m c | AddLink p l => add_link_later m p l end) with
  | Ok m' => (m', None)
  | Err e => (m, Some e)
  end.

(** A history: the machine reached, and how often a link was added. *)
Inductive acted (m0 : machine) : machine -> Z -> Prop :=
| acted_none : acted m0 m0 0
| acted_add : forall m n a m' e, acted m0 m n -> do_act m a = (m', e) ->
    acted m0 m' (match a, e with AddLink _ _, None => n + 1 | _, _ => n end).

(** The chips as a plain list: a new chip goes to the end, a new link to the end of the links
    of its chip. *)
Definition has_link_id (c : chip) (i : Z) : bool :=
  existsb (fun l => l_source_link_id l =? i) (router_links (c_router c)).

Definition link_more (p : XY) (l : link) (c c' : chip) : Prop :=
  if xy_eqb (c_xy c) p
  then router_links (c_router c') = router_links (c_router c) ++ [l] /\
       r_entries (c_router c') = r_entries (c_router c) /\
       c_xy c' = c_xy c /\ c_scamp c' = c_scamp c /\ c_placable c' = c_placable c /\
       c_sdram c' = c_sdram c /\ (c_eth_x c', c_eth_y c') = (c_eth_x c, c_eth_y c) /\
       c_ip c' = c_ip c /\ c_tags c' = c_tags c /\ c_parent c' = c_parent c
  else c' = c.

(** The same machine but for the counter of links. *)
Definition with_links_counter (k : counter) (m : machine) : machine :=
  mkMachine (m_kind m) (m_width m) (m_height m) (m_ccm m) (m_eth m) (m_spin m) (m_fpga m)
    (m_boot m) (m_chips m) (m_origin m) (m_cores_counter m) k (m_entries_counter m)
    (m_sdram_counter m).
