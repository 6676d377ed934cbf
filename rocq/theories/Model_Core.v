(** Link, Router and Chip, and the two kinds of link data. *)
From Verif Require Import Model_Py Model_Wrap.

(** link.py:20-46 *)
Record link : Type := mkLink {
  l_source_x : Z;
  l_source_y : Z;
  l_source_link_id : Z;
  l_destination_x : Z;
  l_destination_y : Z
}.

(** router.py:43: _links and _n_available_multicast_entries *)
Record router : Type := mkRouter {
  r_links : dict Z link;
  r_entries : Z
}.

(** router.py:61-72 add_link *)
Definition router_add_link (r : router) (l : link) : res router :=
  if dmem Z.eqb (r_links r) (l_source_link_id l) then Err AlreadyExists
  else Ok (mkRouter (dset Z.eqb (r_links r) (l_source_link_id l) l) (r_entries r)).

(** router.py:45-59 __init__ *)
Definition new_router (links : list link) (entries : Z) : res router :=
  fold_res router_add_link links (mkRouter [] entries).

(** router.py:74-83 is_link, 85-89 __contains__ *)
Definition is_link (r : router) (i : Z) : bool := dmem Z.eqb (r_links r) i.

(** router.py:91-100 get_link, 102-106 __getitem__ *)
Definition get_link (r : router) (i : Z) : option link := dget Z.eqb (r_links r) i.

(** router.py:108-115 links *)
Definition router_links (r : router) : list link := dvalues (r_links r).

(** router.py:117-126 __iter__ *)
Definition router_iter (r : router) : list (Z * link) := r_links r.

(** router.py:128-135 __len__ *)
Definition router_len (r : router) : Z := Z.of_nat (List.length (r_links r)).

(** router.py:195-204 get_neighbouring_chips_coords; each dict with the keys
    'x' and 'y' is a pair *)
Definition get_neighbouring_chips_coords (r : router) : list XY :=
  map (fun l => (l_destination_x l, l_destination_y l)) (router_links r).

(** chip.py:33-95.  The chip is the tuple (x, y) with attributes. *)
Record chip : Type := mkChip {
  c_x : Z;
  c_y : Z;
  c_scamp : list Z;
  c_placable : list Z;
  c_router : router;
  c_sdram : Z;
  c_eth_x : Z;
  c_eth_y : Z;
  c_ip : option string;
  c_tags : list Z;
  c_parent : option Z
}.

(** The chip as a tuple, which is how it is used as a dictionary key. *)
Definition c_xy (c : chip) : XY := (c_x c, c_y c).

(** chip.py:31 _IPTAG_IDS *)
Definition IPTAG_IDS : list Z := oset_of (zrange 1 8).

(** chip.py:43-95 __init__ *)
Definition new_chip (x y : Z) (scamp placable : list Z) (r : router) (sdram ex ey : Z)
  (ip : option string) (tag_ids : option (list Z)) (parent : option Z) : chip :=
  mkChip x y scamp placable r sdram ex ey ip
    (match tag_ids with
     | Some t => oset_of t
     | None => match ip with None => [] | Some _ => IPTAG_IDS end
     end) parent.

(** chip.py:97-108 is_processor_with_id *)
Definition is_processor_with_id (c : chip) (p : Z) : bool :=
  if zmem (c_placable c) p then true else zmem (c_scamp c) p.

(** chip.py:128-136 all_processor_ids *)
Definition all_processor_ids (c : chip) : list Z := c_scamp c ++ c_placable c.

(** chip.py:138-145 n_processors *)
Definition n_processors (c : chip) : Z :=
  Z.of_nat (List.length (c_scamp c)) + Z.of_nat (List.length (c_placable c)).

(** chip.py:156-163 n_placable_processors *)
Definition n_placable_processors (c : chip) : Z := Z.of_nat (List.length (c_placable c)).

(** chip.py:174-181 n_scamp_processors *)
Definition n_scamp_processors (c : chip) : Z := Z.of_nat (List.length (c_scamp c)).

(** Truth value of the attribute [ip_address]: None and "" are false. *)
Definition ip_truthy (ip : option string) : bool :=
  match ip with None => false | Some s => negb (String.eqb s "") end.

(** link_data_objects/abstract_link_data.py:26-31 and
    link_data_objects/spinnaker_link_data.py:26-31 *)
Record spin_link_data : Type := mkSpinLink {
  sl_id : Z; sl_x : Z; sl_y : Z; sl_link : Z; sl_addr : string
}.

(** link_data_objects/fpga_link_data.py:28-34 *)
Record fpga_link_data : Type := mkFpgaLink {
  fl_link_id : Z; fl_fpga_id : Z; fl_x : Z; fl_y : Z; fl_link : Z; fl_addr : string
}.
