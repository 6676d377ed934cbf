(** What the exceptions of lookups, of adding twice and of invalid values carry. *)
From Coq Require Import String Ascii.
From Verif Require Import Model_Py Model_Version Model_Core Model_Str Model_Virtual Model_Text Model_Machine
  Model_Routing Model_Repr.
Open Scope string_scope.
Open Scope list_scope.
Open Scope Z_scope.

(** exceptions.py:24-54 SpinnMachineAlreadyExistsException, 55-98 SpinnMachineInvalidParameterException
    with their attributes (the values as text), and any other exception *)
Inductive raised : Type :=
| AlreadyExistsE (item value : string)
| InvalidParameterE (parameter value problem : string)
| OtherE (e : exn).
(** exceptions.py:38-39 and 72-73: str() *)
Definition raised_text (r : raised) : string :=
  match r with
  | AlreadyExistsE item value => cat ["There can only be one "; item; " with a value of "; value]
  | InvalidParameterE parameter value problem =>
      cat ["It is invalid to set "; parameter; " to "; value; ": "; problem]
  | OtherE _ => ""
  end.
Definition raised_class (r : raised) : exn :=
  match r with AlreadyExistsE _ _ => AlreadyExists | InvalidParameterE _ _ _ => InvalidParameter | OtherE e => e end.

(** router.py:61-72 add_link *)
Definition add_link_raises (r : router) (l : link) : router + raised :=
  if dmem Z.eqb (r_links r) (l_source_link_id l) then inr (AlreadyExistsE "link" (dec (l_source_link_id l)))
  else inl (mkRouter (dset Z.eqb (r_links r) (l_source_link_id l) l) (r_entries r)).
(** router.py:45-59 __init__ *)
Fixpoint add_links_raise (r : router) (links : list link) : router + raised :=
  match links with
  | [] => inl r
  | l :: links => match add_link_raises r l with inl r => add_links_raise r links | inr x => inr x end
  end.
Definition new_router_raises (links : list link) (entries : Z) : router + raised :=
  add_links_raise (mkRouter [] entries) links.

(** machine.py:546-570 add_chip; the machine is that of Model_Machine.add_chip *)
Definition add_chip_raises (m : machine) (c : chip) : machine + raised :=
  match add_chip m c with
  | Ok m' => inl m'
  | Err AlreadyExists => inr (AlreadyExistsE "chip" (cat [dec (c_x c); ", "; dec (c_y c)]))
  | Err e => inr (OtherE e)
  end.
(** machine.py:572-582 add_chips: the machine then, and the exception *)
Fixpoint add_chips_raises (m : machine) (cs : list chip) : machine * option raised :=
  match cs with
  | [] => (m, None)
  | c :: cs => match add_chip_raises m c with inl m' => add_chips_raises m' cs | inr x => (m, Some x) end
  end.

(** multicast_routing_entry.py:29-46 __init__ *)
Definition new_multicast_raises (key mask : Z) (e : entry) : multicast + raised :=
  if negb (Z.land key mask =? key) then
    inr (InvalidParameterE "key_mask_combo and mask" (cat [dec key; " and "; dec mask])
      "The key combo is changed when masked with the mask. This is determined to be an error in the tool chain. Please correct this and try again.")
  else inl (mkMulticast key mask e).

(** [hex(n)] and [f"0x{n:x}"]: the sign of a negative number is before and after the 0x *)
Definition py_hex (n : Z) : string := cat [if n <? 0 then "-" else ""; "0x"; lower (hex (Z.abs n))].
Definition format_x (n : Z) : string := cat ["0x"; if n <? 0 then "-" else ""; lower (hex (Z.abs n))].

(** multicast_routing_entry.py:106-134 merge *)
Definition mc_merge_raises (a b : multicast) : multicast + raised :=
  if negb (mc_key b =? mc_key a) then
    inr (InvalidParameterE "other.key" (py_hex (mc_key b)) (cat ["The key does not match "; format_x (mc_key a)]))
  else if negb (mc_mask b =? mc_mask a) then
    inr (InvalidParameterE "other.mask" (py_hex (mc_mask b)) (cat ["The mask does not match "; format_x (mc_mask a)]))
  else match entry_merge (mc_entry a) (mc_entry b) with
       | Ok e => new_multicast_raises (mc_key a) (mc_mask a) e
       | Err x => inr (OtherE x)
       end.

(** machine.py:731-777 get_spinnaker_link_with_id: is the warning "Board address will be ignored because chip
    coordinates are specified" logged, and the result, an exception with its argument *)
Definition spinnaker_link_told (m : machine) (id : Z) (board_address : option string) (chip_coords : option XY)
  : bool * (spin_link_data + (exn * string)) :=
  match chip_coords with
  | Some p =>
      (match board_address with Some _ => true | None => false end,
       if negb (contains m p) then inr (KeyError, cat ["No chip "; xy_str p; " found!"])
       else match dget spin_key_eqb (m_spin m) (AtXY p, id) with
            | Some d => inl d
            | None => inr (KeyError, cat ["SpiNNaker link "; dec id; " not found on chip "; xy_str p])
            end)
  | None =>
      (false,
       match (match board_address with Some a => Some a | None => m_boot m end) with
       | None => inr (AssertionError, "")
       | Some a =>
           match dget spin_key_eqb (m_spin m) (Board a, id) with
           | Some d => inl d
           | None => inr (KeyError, cat ["SpiNNaker Link "; dec id; " does not exist on board "; a])
           end
       end)
  end.

(** machine.py:779-834 get_fpga_link_with_id, likewise *)
Definition fpga_link_told (m : machine) (fpga_id fpga_link_id : Z) (board_address : option string)
  (chip_coords : option XY) : bool * (fpga_link_data + (exn * string)) :=
  match chip_coords with
  | Some p =>
      (match board_address with Some _ => true | None => false end,
       if negb (contains m p) then inr (KeyError, cat ["No chip "; xy_str p; " found!"])
       else match dget fpga_key_eqb (m_fpga m) (AtXY p, fpga_id, fpga_link_id) with
            | Some d => inl d
            | None => inr (KeyError, cat ["FPGA "; dec fpga_id; ", link "; dec fpga_link_id; " not found on chip ";
                                          xy_str p])
            end)
  | None =>
      (false,
       match (match board_address with Some a => Some a | None => m_boot m end) with
       | None => inr (AssertionError, "")
       | Some a =>
           match dget fpga_key_eqb (m_fpga m) (Board a, fpga_id, fpga_link_id) with
           | Some d => inl d
           | None => inr (KeyError, cat ["FPGA Link "; dec fpga_id; ":"; dec fpga_link_id; " does not exist on board "; a])
           end
       end)
  end.
