(** Histories of calls on a machine, and a plain list of chips as specification. *)
From Verif Require Import Model_Py Model_Wrap Model_Version Model_Core Model_Machine Spec_Boards.

(** The calls that change a machine. *)
Inductive call : Type :=
| CallAddChip (c : chip)
| CallAddChips (cs : list chip)
| CallAddSpinnakerLinks
| CallAddFpgaLinks.

(** One call: the machine afterwards and the exception, if any.  After an
    exception the machine can still be used. *)
Definition exec (v : vid) (m : machine) (a : call) : machine * option exn :=
  let keep r := match r with Ok m' => (m', None) | Err e => (m, Some e) end in
  match a with
  | CallAddChip c => keep (add_chip m c)
  | CallAddChips cs => add_chips m cs
  | CallAddSpinnakerLinks => keep (add_spinnaker_links v m)
  | CallAddFpgaLinks => keep (add_fpga_links v m)
  end.

Fixpoint history (v : vid) (m : machine) (calls : list call)
  : machine * list (option exn) :=
  match calls with
  | [] => (m, [])
  | a :: rest =>
      let '(m1, e) := exec v m a in
      let '(m2, es) := history v m1 rest in (m2, e :: es)
  end.

(** The machines that programs can hold. *)
Definition made (v : vid) (m : machine) : Prop :=
  exists k w h ccm origin calls,
    m = fst (history v (new_machine k w h ccm origin) calls).

(** ** The specification: a list of chips in order of adding. *)
Definition at_xy (x y : Z) (c : chip) : bool := (c_x c =? x) && (c_y c =? y).

Definition enter (seen : list chip) (c : chip) : list chip * option exn :=
  if existsb (at_xy (c_x c) (c_y c)) seen then (seen, Some AlreadyExists)
  else (seen ++ [c], None).

Fixpoint enter_all (seen : list chip) (cs : list chip) : list chip * option exn :=
  match cs with
  | [] => (seen, None)
  | c :: rest =>
      match enter seen c with
      | (seen', None) => enter_all seen' rest
      | (seen', Some e) => (seen', Some e)
      end
  end.

Definition book_exec (seen : list chip) (a : call) : list chip * option exn :=
  match a with
  | CallAddChip c => enter seen c
  | CallAddChips cs => enter_all seen cs
  | CallAddSpinnakerLinks | CallAddFpgaLinks => (seen, None)
  end.

Fixpoint book (seen : list chip) (calls : list call) : list chip * list (option exn) :=
  match calls with
  | [] => (seen, [])
  | a :: rest =>
      let '(s1, e) := book_exec seen a in
      let '(s2, es) := book s1 rest in (s2, e :: es)
  end.

Definition has_ip (c : chip) : bool :=
  match c_ip c with Some _ => true | None => false end.

(** ** Well formed machines (what validate should accept) *)

(** An Ethernet chip for validate: one with a non empty address. *)
Definition has_address (c : chip) : Prop :=
  exists a, c_ip c = Some a /\ a <> EmptyString.

Definition legal_ethernet (v : vid) (x y : Z) : Prop :=
  match v with
  | V3 | V201 => x = 0 /\ y = 0
  | V5 | V248 => (4 | x) /\ (12 | x + y)
  end.

Definition chip_well_formed (v : vid) (m : machine) (c : chip) : Prop :=
  0 <= c_x c < m_width m /\ 0 <= c_y c < m_height m /\
  fewest_cores v <= n_processors c /\
  (has_address c -> legal_ethernet v (c_x c) (c_y c)) /\
  (~ has_address c ->
     (exists e, get_chip_at m (c_eth_x c) (c_eth_y c) = Some e) /\
     In (m_local m c) (local_xys m)).

Definition well_formed (v : vid) (m : machine) : Prop :=
  (exists c a, get_chip_at m 0 0 = Some c /\ c_ip c = Some a) /\
  (supports_multiple_boards v = false ->
     (List.length (ethernet_connected_chips m) <= 1)%nat) /\
  (forall c, In c (chips m) -> chip_well_formed v m c).

(** ** SpiNNaker and FPGA links *)

(** Where the sockets of the SpiNNaker links are on the boards: chip and link. *)
Definition spin_place (v : vid) (id : Z) (place : Z * Z * Z) : Prop :=
  match v with
  | V3 => (id = 0 /\ place = (0, 0, 3)) \/ (id = 1 /\ place = (1, 0, 0))
  | V5 => id = 0 /\ place = (0, 0, 4)
  | V201 | V248 => False
  end.

(** The SpiNNaker link [id] of the board of Ethernet chip [e] is present. *)
Definition spin_present (v : vid) (m : machine) (e : chip) (id : Z) (d : spin_link_data)
  : Prop :=
  exists lx ly l gx gy c a,
    In e (ethernet_connected_chips m) /\ c_ip e = Some a /\
    0 <= id /\ spin_place v id (lx, ly, l) /\
    m_global m lx ly (c_x e) (c_y e) = (gx, gy) /\
    get_chip_at m gx gy = Some c /\ is_link (c_router c) l = false /\
    d = mkSpinLink id gx gy l a.

(** The FPGA link (f, fl) of the board of Ethernet chip [e] is present. *)
Definition fpga_present (v : vid) (m : machine) (e : chip) (f fl : Z) (d : fpga_link_data)
  : Prop :=
  exists lx ly l gx gy c a,
    In e (ethernet_connected_chips m) /\ c_ip e = Some a /\
    In (lx, ly, l, f, fl) (fpga_links v) /\
    m_global m lx ly (c_x e) (c_y e) = (gx, gy) /\
    get_chip_at m gx gy = Some c /\
    d = mkFpgaLink fl f gx gy l a.

(** The boards do not overlap, contain their own Ethernet chip, and have
    different addresses. *)
Definition boards_apart (v : vid) (m : machine) : Prop :=
  m_ccm m = chip_core_map v /\
  (forall e e', In e (ethernet_connected_chips m) -> In e' (ethernet_connected_chips m) ->
     (c_ip e = c_ip e' \/
      exists p, In p (m_xys m (c_x e) (c_y e)) /\ In p (m_xys m (c_x e') (c_y e'))) ->
     e = e') /\
  (forall e, In e (ethernet_connected_chips m) ->
     NoDup (m_xys m (c_x e) (c_y e)) /\ In (c_xy e) (m_xys m (c_x e) (c_y e))).

(** A machine with chips to which no SpiNNaker or FPGA links were added yet. *)
Definition made_of_chips (m : machine) : Prop :=
  exists k w h ccm origin v cs,
    m = fst (history v (new_machine k w h ccm origin) (map CallAddChip cs)).
