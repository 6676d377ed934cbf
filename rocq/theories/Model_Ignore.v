(** Parsing of cores and of the down items of the cfg (version parsing and
    spinn_machine/ignores). *)
From Verif Require Import Model_Py Model_Version Model_Str.
Open Scope Z_scope.

(** version/version_spin1.py:109-112, version/version_spin2.py:119-129
    version_parse_cores_string *)
Definition version_parse_cores_string (v : vid) (s : string) : res (list Z) :=
  match v with
  | V3 | V5 => Err ConfigExc
  | V201 | V248 =>
      match core_quad s with
      | Some (a, b, c) =>
          do qx <- py_int a ;
          do qy <- py_int b ;
          do qp <- py_int c ;
          do id <- qx_qy_qp_to_id v qx qy qp ;
          Ok [id]
      | None => Err ConfigExc
      end
  end.

(** version/abstract_version.py:495-525 parse_cores_string; a [range] is the
    list of its elements *)
Definition parse_cores_string (v : vid) (s : string) : res (list Z) :=
  if core_single s then do n <- py_int s ; Ok [n]
  else match core_range s with
       | Some (a, b) =>
           do lo <- py_int a ;
           do hi <- py_int b ;
           Ok (zrange lo (hi + 1))
       | None => version_parse_cores_string v s
       end.

(** A Python set of objects with [__eq__] given by [eqb]: only membership can be
    observed, the order of the list has no meaning. *)
Definition set_add {A} (eqb : A -> A -> bool) (s : list A) (a : A) : list A :=
  if existsb (eqb a) s then s else s ++ [a].

Definition ip_eqb (a b : option string) : bool :=
  match a, b with
  | None, None => true
  | Some s, Some t => String.eqb s t
  | _, _ => false
  end.

(** The common shape of the three [parse_string] methods
    (ignores/ignore_chip.py:111-118, ignores/ignore_core.py:144-151,
    ignores/ignore_link.py:107-114): None and "none" give the empty set, else each
    item between colons is parsed and all results are added. *)
Definition parse_items {A} (eqb : A -> A -> bool) (single : string -> res (list A))
  (text : option string) : res (list A) :=
  match text with
  | None => Ok []
  | Some s =>
      if String.eqb (lower s) "none" then Ok []
      else fold_res (fun acc t =>
             do items <- single t ; Ok (fold_left (set_add eqb) items acc))
           (split_on ":" s) []
  end.

(** ** IgnoreChip *)

(** ignores/ignore_chip.py:25-44 *)
Record ignore_chip : Type := mkIgnoreChip {
  ich_x : Z; ich_y : Z; ich_ip : option string
}.

(** ignores/ignore_chip.py:28-43 __init__ with strings *)
Definition new_ignore_chip (x y : string) (ip : option string) : res ignore_chip :=
  do x <- py_int x ; do y <- py_int y ; Ok (mkIgnoreChip x y ip).

(** ignores/ignore_chip.py:120-124 __eq__ *)
Definition ignore_chip_eqb (a b : ignore_chip) : bool :=
  (ich_x a =? ich_x b) && (ich_y a =? ich_y b) && ip_eqb (ich_ip a) (ich_ip b).

(** ignores/ignore_chip.py:126-127 __hash__ *)
Definition ignore_chip_hash (a : ignore_chip) : Z :=
  Z.lor (Z.shiftl (ich_x a) 8) (ich_y a).

(** ignores/ignore_chip.py:46-80 parse_single_string *)
Definition parse_single_chip (s : string) : res ignore_chip :=
  match split_on "," s with
  | [x; y] => new_ignore_chip x y None
  | [x; y; ip] => new_ignore_chip x y (Some ip)
  | _ => Err ValueError
  end.

(** ignores/ignore_chip.py:82-118 parse_string *)
Definition parse_chips (text : option string) : res (list ignore_chip) :=
  parse_items ignore_chip_eqb (fun s => do c <- parse_single_chip s ; Ok [c]) text.

(** ** IgnoreCore *)

(** ignores/ignore_core.py:20-22 TYPICAL_PHYSICAL_VIRTUAL_MAP *)
Definition TYPICAL_PHYSICAL_VIRTUAL_MAP : dict Z Z :=
  [(0, 1); (1, 2); (2, 3); (3, 4); (4, 5); (5, 6); (6, 7); (7, 8); (8, 9); (9, 10);
   (10, 0); (11, 12); (12, 13); (13, 14); (14, 15); (15, 16); (16, 17); (17, 18)].

(** ignores/ignore_core.py:30-55 *)
Record ignore_core : Type := mkIgnoreCore {
  ico_x : Z; ico_y : Z; ico_p : Z; ico_ip : option string
}.

(** ignores/ignore_core.py:33-54 __init__ with strings and a parsed core *)
Definition new_ignore_core (x y : string) (p : Z) (ip : option string) : res ignore_core :=
  do x <- py_int x ; do y <- py_int y ; Ok (mkIgnoreCore x y p ip).

(** ignores/ignore_core.py:57-69 virtual_p *)
Definition virtual_p (c : ignore_core) : res Z :=
  if ico_p c >? 0 then Ok (ico_p c)
  else dgetitem Z.eqb TYPICAL_PHYSICAL_VIRTUAL_MAP (0 - ico_p c).

(** ignores/ignore_core.py:153-157 __eq__ *)
Definition ignore_core_eqb (a b : ignore_core) : bool :=
  (ico_x a =? ico_x b) && (ico_y a =? ico_y b) && (ico_p a =? ico_p b) &&
  ip_eqb (ico_ip a) (ico_ip b).

(** ignores/ignore_core.py:159-160 __hash__ *)
Definition ignore_core_hash (a : ignore_core) : Z :=
  Z.lor (Z.lor (Z.shiftl (ico_x a) 16) (Z.shiftl (ico_y a) 8)) (ico_p a).

(** ignores/ignore_core.py:71-110 parse_single_string; the version of
    MachineDataView is an argument *)
Definition parse_single_core (v : vid) (s : string) : res (list ignore_core) :=
  match split_on "," s with
  | [x; y; p] =>
      do ps <- parse_cores_string v p ; map_res (fun c => new_ignore_core x y c None) ps
  | [x; y; p; ip] =>
      do ps <- parse_cores_string v p ; map_res (fun c => new_ignore_core x y c (Some ip)) ps
  | _ => Err ValueError
  end.

(** ignores/ignore_core.py:112-151 parse_string *)
Definition parse_cores (v : vid) (text : option string) : res (list ignore_core) :=
  parse_items ignore_core_eqb (parse_single_core v) text.

(** ** IgnoreLink *)

(** ignores/ignore_link.py:24-47 *)
Record ignore_link : Type := mkIgnoreLink {
  ili_x : Z; ili_y : Z; ili_link : Z; ili_ip : option string
}.

(** ignores/ignore_link.py:27-46 __init__ with strings *)
Definition new_ignore_link (x y l : string) (ip : option string) : res ignore_link :=
  do x <- py_int x ; do y <- py_int y ; do l <- py_int l ; Ok (mkIgnoreLink x y l ip).

(** ignores/ignore_link.py:116-120 __eq__ *)
Definition ignore_link_eqb (a b : ignore_link) : bool :=
  (ili_x a =? ili_x b) && (ili_y a =? ili_y b) && (ili_link a =? ili_link b) &&
  ip_eqb (ili_ip a) (ili_ip b).

(** ignores/ignore_link.py:122-123 __hash__ *)
Definition ignore_link_hash (a : ignore_link) : Z :=
  Z.lor (Z.lor (Z.shiftl (ili_x a) 16) (Z.shiftl (ili_y a) 8)) (ili_link a).

(** ignores/ignore_link.py:49-79 parse_single_string *)
Definition parse_single_link (s : string) : res ignore_link :=
  match split_on "," s with
  | [x; y; l] => new_ignore_link x y l None
  | [x; y; l; ip] => new_ignore_link x y l (Some ip)
  | _ => Err ValueError
  end.

(** ignores/ignore_link.py:81-114 parse_string *)
Definition parse_links (text : option string) : res (list ignore_link) :=
  parse_items ignore_link_eqb (fun s => do l <- parse_single_link s ; Ok [l]) text.
