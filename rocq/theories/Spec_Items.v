(** Down items of the cfg as sets. *)
From Verif Require Import Model_Py Model_Str Model_Ignore Model_Version Model_Core Spec_Str.

Definition same_members {A} (l l' : list A) : Prop := forall a, In a l <-> In a l'.

(** Two texts that list the same items, in any order and any number of times. *)
Definition same_items (a b : option string) : Prop :=
  a = b \/
  exists texts texts',
    texts <> [] /\ texts' <> [] /\ Forall (without ":") texts /\ Forall (without ":") texts' /\
    a = Some (joined texts) /\ b = Some (joined texts') /\
    lower (joined texts) <> "none"%string /\ lower (joined texts') <> "none"%string /\
    same_members texts texts'.

Definition same_faults (c c' : config) : Prop :=
  same_items (cfg_down_chips c) (cfg_down_chips c') /\
  same_items (cfg_down_cores c) (cfg_down_cores c') /\
  same_items (cfg_down_links c) (cfg_down_links c').

(** Chip [b] is chip [a] with perhaps fewer cores and links. *)
Definition chip_less (a b : chip) : Prop :=
  c_x b = c_x a /\ c_y b = c_y a /\ c_scamp b = c_scamp a /\
  incl (c_placable b) (c_placable a) /\
  c_sdram b = c_sdram a /\ c_eth_x b = c_eth_x a /\ c_eth_y b = c_eth_y a /\
  c_ip b = c_ip a /\ c_tags b = c_tags a /\ c_parent b = c_parent a /\
  r_entries (c_router b) = r_entries (c_router a) /\
  (forall l k, get_link (c_router b) l = Some k -> get_link (c_router a) l = Some k).
