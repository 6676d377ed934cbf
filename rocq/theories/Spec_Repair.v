(** What machine_repair should do, independent of how. *)
From Verif Require Import Model_Py Model_Wrap Model_Version Model_Core Model_Machine
  Spec_Machine Spec_Router.

(** Chips as programs make them: from the constructors of Router and Chip. *)
Definition made_chip (ch : chip) : Prop :=
  exists x y scamp placable links n r sdram ex ey ip tags parent,
    new_router links n = Ok r /\
    ch = new_chip x y scamp placable r sdram ex ey ip tags parent.

(** A machine that programs can hold, with chips that programs can make. *)
Definition made_machine (v : vid) (m : machine) : Prop :=
  made v m /\ Forall made_chip (chips m).

(** Nothing wrong with a machine: each link has its reverse; each chip has a link
    to, and from, a neighbour of the same board; parents are present. *)
Definition clean (m : machine) : Prop :=
  (forall ch l k, In ch (chips m) -> 0 <= l < 6 -> get_link (c_router ch) l = Some k ->
     link_at m (l_destination_x k) (l_destination_y k) ((l + 3) mod 6)) /\
  (forall ch, In ch (chips m) ->
     linked_to_board flat_neighbour m ch /\ linked_from_board flat_neighbour m ch) /\
  (forall ch p, In ch (chips m) -> c_parent ch = Some p ->
     exists q, m_over m (c_x ch) (c_y ch) p = Ok q /\ is_chip_at m (fst q) (snd q) = true).

(** [b] is chip [a] with some of its links, and perhaps without its parent. *)
Definition chip_reduced (a b : chip) : Prop :=
  c_x b = c_x a /\ c_y b = c_y a /\ c_scamp b = c_scamp a /\ c_placable b = c_placable a /\
  c_sdram b = c_sdram a /\ c_eth_x b = c_eth_x a /\ c_eth_y b = c_eth_y a /\
  c_ip b = c_ip a /\ c_tags b = c_tags a /\ r_entries (c_router b) = r_entries (c_router a) /\
  (forall l k, get_link (c_router b) l = Some k -> get_link (c_router a) l = Some k) /\
  (c_parent b = c_parent a \/ (c_parent b = None /\ router_len (c_router b) < router_len (c_router a))).

(** Subsequence: some elements, in the same order. *)
Inductive subseq {A} : list A -> list A -> Prop :=
| subseq_nil : subseq [] []
| subseq_skip a l l' : subseq l l' -> subseq l (a :: l')
| subseq_keep a l l' : subseq l l' -> subseq (a :: l) (a :: l').

(** A part of a machine that can stay: a set of chips and a set of links that
    together have nothing wrong. *)
Record sound_part (m : machine) (cs : XY -> Prop) (ls : Z -> Z -> Z -> Prop) : Prop := mkSound {
  sound_chips : forall x y, cs (x, y) -> exists ch, get_chip_at m x y = Some ch;
  sound_links : forall x y l, ls x y l -> cs (x, y) /\ 0 <= l < 6 /\
     exists ch k, get_chip_at m x y = Some ch /\ get_link (c_router ch) l = Some k /\
       ls (l_destination_x k) (l_destination_y k) ((l + 3) mod 6);
  sound_out : forall x y ch, cs (x, y) -> get_chip_at m x y = Some ch ->
     exists l q n, flat_neighbour x y l q /\ ls x y l /\ cs q /\
       get_chip_at m (fst q) (snd q) = Some n /\
       (c_eth_x n, c_eth_y n) = (c_eth_x ch, c_eth_y ch);
  sound_in : forall x y ch, cs (x, y) -> get_chip_at m x y = Some ch ->
     exists l q n, flat_neighbour x y l q /\ ls (fst q) (snd q) ((l + 3) mod 6) /\ cs q /\
       get_chip_at m (fst q) (snd q) = Some n /\
       (c_eth_x n, c_eth_y n) = (c_eth_x ch, c_eth_y ch);
  sound_parent : forall x y ch p, cs (x, y) -> get_chip_at m x y = Some ch -> c_parent ch = Some p ->
     exists q, m_over m x y p = Ok q /\ cs q
}.

(** Chips plus links: what each round of machine_repair makes smaller. *)
Definition chips_and_links (m : machine) : Z :=
  n_chips m + zsum (map (fun ch => router_len (c_router ch)) (chips m)).

(** The link [l] of a chip has no reverse. *)
Definition one_way (m : machine) (ch : chip) (l : Z) : Prop :=
  0 <= l < 6 /\ exists k, get_link (c_router ch) l = Some k /\
    ~ link_at m (l_destination_x k) (l_destination_y k) ((l + 3) mod 6).

(** Something is wrong that is not explained by the removed chips. *)
Inductive unexpected (m : machine) (removed : list XY) : Prop :=
| unexpected_out ch : In ch (chips m) -> ~ linked_to_board flat_neighbour m ch -> unexpected m removed
| unexpected_in ch : In ch (chips m) -> ~ linked_from_board flat_neighbour m ch -> unexpected m removed
| unexpected_parent ch p q : In ch (chips m) -> c_parent ch = Some p ->
    m_over m (c_x ch) (c_y ch) p = Ok q -> is_chip_at m (fst q) (snd q) = false -> unexpected m removed
| unexpected_link ch l q : In ch (chips m) -> one_way m ch l -> m_over m (c_x ch) (c_y ch) l = Ok q ->
    ~ In q removed -> unexpected m removed.

(** The look ups for the messages succeed: the nearest Ethernet chip of each chip
    is on the machine, and parent links are link ids. *)
Definition messages_work (m : machine) : Prop :=
  forall ch, In ch (chips m) ->
    is_chip_at m (c_eth_x ch) (c_eth_y ch) = true /\
    (forall p, c_parent ch = Some p -> 0 <= p < 6).

(** Every link leads to the neighbour that its id names. *)
Definition straight_links (m : machine) : Prop :=
  forall ch l k, In ch (chips m) -> get_link (c_router ch) l = Some k ->
    0 <= l < 6 /\ m_over m (c_x ch) (c_y ch) l = Ok (l_destination_x k, l_destination_y k).
