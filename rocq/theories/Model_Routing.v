(** RoutingEntry, MulticastRoutingEntry, the route conversions of Router, and the
    equality and hash methods of tags and link data.  Ids are ints; a collection of
    ids is the list of its elements in the order in which it is iterated; a
    frozenset is a list of which only the members matter. *)
From Verif Require Import Model_Py Model_Core Model_Str Model_Ignore.
Open Scope list_scope.
Open Scope Z_scope.

(** router.py:36 and 41 MAX_LINKS_PER_ROUTER and MAX_CORES_PER_ROUTER *)
Definition MAX_LINKS_PER_ROUTER : Z := 6.
Definition MAX_CORES_PER_ROUTER : Z := 18.

(** [1 << n]: a negative count raises *)
Definition shl1 (n : Z) : res Z := if n <? 0 then Err ValueError else Ok (Z.shiftl 1 n).

(** The two types of argument for ids: Union[int, Collection[int]] *)
Inductive ids : Type := OneId (n : Z) | ManyIds (l : list Z).
(** routing_entry.py:90-93: the list for an argument *)
Definition ids_list (a : ids) : list Z := match a with OneId n => [n] | ManyIds l => l end.

(** [frozenset(l)] *)
Definition frozenset (l : list Z) : list Z := fold_left (set_add Z.eqb) l [].

(** routing_entry.py:27-28 __slots__; the text of __repr__ is not kept *)
Record entry : Type := mkEntry {
  e_defaultable : bool;
  e_processor_ids : option (list Z);
  e_link_ids : option (list Z);
  e_route : Z
}.

(** routing_entry.py:213-227 _calc_spinnaker_route *)
Definition calc_spinnaker_route (procs links : list Z) : res Z :=
  do r <- fold_res (fun r p => do b <- shl1 (MAX_LINKS_PER_ROUTER + p) ; Ok (Z.lor r b)) procs 0 ;
  fold_res (fun r l => do b <- shl1 l ; Ok (Z.lor r b)) links r.

(** routing_entry.py:229-241 _calc_routing_ids; [route & 1 << n] is true when not 0 *)
Definition calc_routing_ids (route : Z) : list Z * list Z :=
  (filter (fun p => negb (Z.land route (Z.shiftl 1 (MAX_LINKS_PER_ROUTER + p)) =? 0))
     (zrange 0 MAX_CORES_PER_ROUTER),
   filter (fun l => negb (Z.land route (Z.shiftl 1 l) =? 0)) (zrange 0 MAX_LINKS_PER_ROUTER)).

(** routing_entry.py:49-120 __init__ *)
Definition new_entry (processor_ids link_ids : option ids)
  (incoming_processor incoming_link : option Z) (defaultable : option bool)
  (spinnaker_route : option Z) : res entry :=
  match spinnaker_route with
  | None =>
      match processor_ids, link_ids, defaultable with
      | Some procs, Some links, None =>
          let procs := ids_list procs in
          let links := ids_list links in
          let ps := frozenset procs in
          let ls := frozenset links in
          do route <- calc_spinnaker_route ps ls ;
          match incoming_link with
          | None => Ok (mkEntry false (Some ps) (Some ls) route)
          | Some i =>
              match incoming_processor with
              | None =>
                  match links with
                  | [l] => Ok (mkEntry ((i + 3) mod 6 =? l) (Some ps) (Some ls) route)
                  | _ => Ok (mkEntry false (Some ps) (Some ls) route)
                  end
              | Some _ => Err InvalidParameter
              end
          end
      | _, _, _ => Err AssertionError
      end
  | Some route =>
      match processor_ids, link_ids, incoming_link, incoming_processor with
      | None, None, None, None =>
          Ok (mkEntry (match defaultable with Some true => true | _ => false end) None None route)
      | _, _, _, _ => Err AssertionError
      end
  end.

(** routing_entry.py:122-131 processor_ids: the value, and the entry afterwards *)
Definition read_processor_ids (e : entry) : list Z * entry :=
  match e_processor_ids e with
  | Some ps => (ps, e)
  | None =>
      let '(ps, ls) := calc_routing_ids (e_route e) in
      (ps, mkEntry (e_defaultable e) (Some ps) (Some ls) (e_route e))
  end.

(** routing_entry.py:133-142 link_ids *)
Definition read_link_ids (e : entry) : list Z * entry :=
  match e_link_ids e with
  | Some ls => (ls, e)
  | None =>
      let '(ps, ls) := calc_routing_ids (e_route e) in
      (ls, mkEntry (e_defaultable e) (Some ps) (Some ls) (e_route e))
  end.

(** The values of routing_entry.py:122-142 *)
Definition processor_ids (e : entry) : list Z := fst (read_processor_ids e).
Definition link_ids (e : entry) : list Z := fst (read_link_ids e).

(** routing_entry.py:144-155 defaultable, 156-164 spinnaker_route *)
Definition defaultable (e : entry) : bool := e_defaultable e.
Definition spinnaker_route (e : entry) : Z := e_route e.

(** routing_entry.py:188-193 __eq__ on two entries *)
Definition entry_eqb (a b : entry) : bool :=
  (e_route a =? e_route b) && Bool.eqb (e_defaultable a) (e_defaultable b).

(** [hash(n)] of an int, and [hash(o)] for an object whose __hash__ gives [n]
    (CPython, 64 bits) *)
Definition hash_int (n : Z) : Z :=
  let r := Z.sgn n * (Z.abs n mod (2 ^ 61 - 1)) in if r =? -1 then -2 else r.

(** routing_entry.py:195-196 __hash__ *)
Definition entry_hash (a : entry) : Z :=
  e_route a * 29 * (if e_defaultable a then 1 else 0) * 131.

(** routing_entry.py:166-186 merge *)
Definition entry_merge (a b : entry) : res entry :=
  if entry_eqb a b then Ok a
  else new_entry None None None None (Some false) (Some (Z.lor (e_route a) (e_route b))).

(** router.py:146-176 convert_routing_table_entry_to_spinnaker_route, on the ids of
    an entry of either kind *)
Definition convert_to_route (procs links : list Z) : res Z :=
  do r <- fold_res (fun r p =>
      if (p >=? MAX_CORES_PER_ROUTER) || (p <? 0) then Err InvalidParameter
      else do b <- shl1 (MAX_LINKS_PER_ROUTER + p) ; Ok (Z.lor r b)) procs 0 ;
  fold_res (fun r l =>
      if (l >=? MAX_LINKS_PER_ROUTER) || (l <? 0) then Err InvalidParameter
      else do b <- shl1 l ; Ok (Z.lor r b)) links r.
Definition convert_entry_to_route (e : entry) : res Z :=
  convert_to_route (processor_ids e) (link_ids e).

(** router.py:178-193 convert_spinnaker_route_to_routing_ids: lists this time *)
Definition convert_route_to_ids (route : Z) : list Z * list Z :=
  (filter (fun p => negb (Z.land route (Z.shiftl 1 (MAX_LINKS_PER_ROUTER + p)) =? 0))
     (zrange 0 MAX_CORES_PER_ROUTER),
   filter (fun l => negb (Z.land route (Z.shiftl 1 l) =? 0)) (zrange 0 MAX_LINKS_PER_ROUTER)).

(** ** MulticastRoutingEntry *)

(** multicast_routing_entry.py:26-27 __slots__ *)
Record multicast : Type := mkMulticast {
  mc_key : Z; mc_mask : Z; mc_entry : entry
}.

(** multicast_routing_entry.py:29-46 __init__ *)
Definition new_multicast (key mask : Z) (e : entry) : res multicast :=
  if negb (Z.land key mask =? key) then Err InvalidParameter
  else Ok (mkMulticast key mask e).

(** multicast_routing_entry.py:66-103: the properties of the routing entry *)
Definition mc_processor_ids (m : multicast) : list Z := processor_ids (mc_entry m).
Definition mc_link_ids (m : multicast) : list Z := link_ids (mc_entry m).
Definition mc_defaultable (m : multicast) : bool := defaultable (mc_entry m).
Definition mc_route (m : multicast) : Z := spinnaker_route (mc_entry m).

(** multicast_routing_entry.py:106-134 merge *)
Definition mc_merge (a b : multicast) : res multicast :=
  if negb (mc_key b =? mc_key a) then Err InvalidParameter
  else if negb (mc_mask b =? mc_mask a) then Err InvalidParameter
  else
    do e <- entry_merge (mc_entry a) (mc_entry b) ;
    new_multicast (mc_key a) (mc_mask a) e.

(** multicast_routing_entry.py:136-143 __eq__ *)
Definition mc_eqb (a b : multicast) : bool :=
  (mc_key a =? mc_key b) && (mc_mask a =? mc_mask b) && entry_eqb (mc_entry a) (mc_entry b).

(** multicast_routing_entry.py:145-147 __hash__ *)
Definition mc_hash (a : multicast) : Z :=
  mc_key a * 13 + mc_mask a * 19 + hash_int (entry_hash (mc_entry a)).

(** ** Tags *)

(** tags/abstract_tag.py:32-35 and tags/iptag.py:34-61 *)
Record iptag : Type := mkIPTag {
  it_board : string; it_tag : Z; it_port : Z; it_ip : string; it_strip : bool;
  it_traffic : string; it_x : Z; it_y : Z
}.

(** tags/iptag.py:107-115 __eq__ *)
Definition iptag_eqb (a b : iptag) : bool :=
  String.eqb (it_ip a) (it_ip b) && Bool.eqb (it_strip a) (it_strip b) &&
  String.eqb (it_board a) (it_board b) && (it_port a =? it_port b) &&
  (it_tag a =? it_tag b) && String.eqb (it_traffic a) (it_traffic b).

(** tags/iptag.py:117-119 __hash__: [tuple_hash] is the hash of tuples, of which
    we only use that it is a function *)
Definition iptag_hash (tuple_hash : string * bool * string * Z * Z * string -> Z) (a : iptag) : Z :=
  tuple_hash (it_ip a, it_strip a, it_board a, it_port a, it_tag a, it_traffic a).

(** ** Link data *)

(** link_data_objects/spinnaker_link_data.py:40-47 __eq__ *)
Definition spin_link_eqb (a b : spin_link_data) : bool :=
  (sl_id a =? sl_id b) && (sl_x a =? sl_x b) && (sl_y a =? sl_y b) &&
  (sl_link a =? sl_link b) && String.eqb (sl_addr a) (sl_addr b).

(** link_data_objects/spinnaker_link_data.py:54-57 __hash__ *)
Definition spin_link_hash (tuple_hash : Z * Z * Z * Z * string -> Z) (a : spin_link_data) : Z :=
  tuple_hash (sl_id a, sl_x a, sl_y a, sl_link a, sl_addr a).

(** link_data_objects/fpga_link_data.py:50-58 __eq__ *)
Definition fpga_link_eqb (a b : fpga_link_data) : bool :=
  (fl_fpga_id a =? fl_fpga_id b) && (fl_link_id a =? fl_link_id b) && (fl_x a =? fl_x b) &&
  (fl_y a =? fl_y b) && (fl_link a =? fl_link b) && String.eqb (fl_addr a) (fl_addr b).

(** link_data_objects/fpga_link_data.py:65-68 __hash__ *)
Definition fpga_link_hash (tuple_hash : Z * Z * Z * Z * Z * string -> Z) (a : fpga_link_data) : Z :=
  tuple_hash (fl_fpga_id a, fl_link_id a, fl_x a, fl_y a, fl_link a, fl_addr a).
