(** The texts (__str__ and __repr__) of links, routers, tags, routing entries and
    collections of cores. *)
From Coq Require Import String Ascii.
From Verif Require Import Model_Py Model_Core Model_Virtual Model_Text Model_Routing Model_Subsets.
Open Scope string_scope.
Open Scope list_scope.
Open Scope Z_scope.

(** [", ".join(l)], and the text of a list of objects between the brackets *)
Definition comma_join (l : list string) : string := String.concat ", " l.

(** link.py:93-98 __str__, 100-101 __repr__ *)
Definition link_str (l : link) : string :=
  cat ["[Link: source_x="; dec (l_source_x l); ", source_y="; dec (l_source_y l);
       ", source_link_id="; dec (l_source_link_id l); ", destination_x="; dec (l_destination_x l);
       ", destination_y="; dec (l_destination_y l); "]"].

(** router.py:206-210 __str__, 212-213 __repr__: the text of a list uses the
    __repr__ of its elements *)
Definition router_str (r : router) : string :=
  cat ["[Router: available_entries="; dec (r_entries r); ", links=[";
       comma_join (map link_str (router_links r)); "]]"].

(** link_data_objects/spinnaker_link_data.py:59-62 __str__, 64-65 __repr__ *)
Definition spin_link_str (l : spin_link_data) : string :=
  cat ["id:"; dec (sl_id l); " x:"; dec (sl_x l); " y:"; dec (sl_y l); " link:"; dec (sl_id l);
       " "; sl_addr l].

(** A bool in a format string *)
Definition bool_str (b : bool) : string := if b then "True" else "False".

(** tags/iptag.py:98-105 __repr__ *)
Definition iptag_repr (t : iptag) : string :=
  cat ["IPTag(board_address="; it_board t; ", destination_x="; dec (it_x t);
       ", destination_y="; dec (it_y t); ", tag="; dec (it_tag t); ", port="; dec (it_port t);
       ", ip_address="; it_ip t; ", strip_sdp="; bool_str (it_strip t);
       ", traffic_identifier="; it_traffic t; ")"].

(** tags/abstract_tag.py:32-35 and tags/reverse_iptag.py:31-56; the board address may
    be None *)
Record reverse_iptag : Type := mkReverseIPTag {
  rt_board : option string; rt_tag : Z; rt_port : Z; rt_x : Z; rt_y : Z; rt_p : Z;
  rt_sdp_port : Z
}.

(** tags/reverse_iptag.py:88-94 __repr__ *)
Definition reverse_iptag_repr (t : reverse_iptag) : string :=
  cat ["ReverseIPTag(board_address="; opt_str (rt_board t); ", tag="; dec (rt_tag t);
       ", port="; dec (rt_port t); ", destination_x="; dec (rt_x t);
       ", destination_y="; dec (rt_y t); ", destination_p="; dec (rt_p t);
       ", sdp_port="; dec (rt_sdp_port t); ")"].

(** routing_entry.py:201-208 __repr__, 210-211 __str__.  The text is kept after the
    first call; no attribute that it shows changes after the constructor, so keeping it
    is not modelled. *)
Definition entry_repr (e : entry) : string :=
  cat ["{"; comma_join (map dec (zsorted (processor_ids e))); "}:{";
       comma_join (map dec (zsorted (link_ids e))); "}";
       if e_defaultable e then "(defaultable)" else ""].

(** A hexadecimal digit, in upper case *)
Definition hex_digit (d : Z) : ascii :=
  ascii_of_nat (Z.to_nat (if d <? 10 then 48 + d else 55 + d)).
(** The hexadecimal digits of [n >= 0] in front of [acc]; [fuel] is a bound on their number *)
Fixpoint hex_digits (fuel : nat) (n : Z) (acc : string) : string :=
  let acc := String (hex_digit (n mod 16)) acc in
  match fuel with
  | O => acc
  | S f => if n / 16 =? 0 then acc else hex_digits f (n / 16) acc
  end.
Definition hex (n : Z) : string := hex_digits (Z.to_nat (Z.log2 n)) n "".

(** [f"{n:08X}"]: the sign, then zeros up to a length of 8 with the sign, then the digits *)
Definition format_08X (n : Z) : string :=
  let sign := if n <? 0 then "-" else "" in
  let digits := hex (Z.abs n) in
  cat [sign; string_of_list_ascii (repeat "0"%char (8 - String.length sign - String.length digits));
       digits].

(** multicast_routing_entry.py:152-154 __repr__, 156-157 __str__ *)
Definition mc_repr (m : multicast) : string :=
  cat ["0x"; format_08X (mc_key m); ":0x"; format_08X (mc_mask m); ":"; entry_repr (mc_entry m)].

(** The text of a tuple of two ints *)
Definition xy_str (p : XY) : string := cat ["("; dec (fst p); ", "; dec (snd p); ")"].

(** core_subsets.py:161-170 __repr__: the keys, in the order of the dictionary *)
Definition s_repr (s : subsets) : string :=
  fold_left (fun output xy => String.append output (xy_str xy)) (dkeys s) "".
