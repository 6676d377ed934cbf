(** The texts of the exceptions raised by Machine.validate (machine.py).  Model_Machine
    keeps which exception is raised; here is its text. *)
From Coq Require Import String.
From Verif Require Import Model_Py Model_Wrap Model_Version Model_Core Model_Machine Model_Virtual Model_Text
  Model_Summary Model_Repr.
Open Scope string_scope.
Open Scope list_scope.
Open Scope Z_scope.

(** version_3.py:75-79, version_48_chips.py:86-93, version_201.py:74-78
    illegal_ethernet_message *)
Definition illegal_ethernet_text (v : vid) (x y : Z) : option string :=
  match v with
  | V3 | V201 =>
      if negb (x =? 0) || negb (y =? 0) then Some "Only Chip 0, 0 may be an Ethernet Chip" else None
  | V5 | V248 =>
      if negb (x mod 4 =? 0) then Some "Only Chip with X divisible by 4 may be an Ethernet Chip"
      else if negb ((x + y) mod 12 =? 0) then
        Some "Only Chip with x + y divisible by 12 may be an Ethernet Chip"
      else None
  end.

(** machine.py:498-534: the body of the loop for one chip; the text of the exception, or
    None if none is raised *)
Definition invalid_chip_text (v : vid) (m : machine) (c : chip) : option string :=
  if c_x c <? 0 then Some (cat [m_where_is_chip m c; " has a negative x"])
  else if c_y c <? 0 then Some (cat [m_where_is_chip m c; " has a negative y"])
  else if c_x c >=? m_width m then
    Some (cat [m_where_is_chip m c; " has an x larger than width "; dec (m_width m)])
  else if c_y c >=? m_height m then
    Some (cat [m_where_is_chip m c; " has a y larger than height "; dec (m_height m)])
  else if n_processors c <? minimum_cores_expected v then
    Some (cat [m_where_is_chip m c; " has too few cores found "; dec (n_processors c)])
  else if ip_truthy (c_ip c) then
    match illegal_ethernet_text v (c_x c) (c_y c) with
    | Some error => Some (cat [m_where_is_chip m c; " "; error])
    | None => None
    end
  else
    if negb (is_chip_at m (c_eth_x c) (c_eth_y c)) then
      Some (cat [m_where_is_chip m c; " has an invalid ethernet chip"])
    else
      let local_xy := m_local m c in
      if negb (dmem xy_eqb (m_ccm m) local_xy) then
        Some (cat [m_where_is_chip m c; " has an unexpected local xy of "; xy_str local_xy])
      else None.

(** The loop of machine.py:498: the first text *)
Fixpoint first_text (f : chip -> option string) (l : list chip) : option string :=
  match l with
  | [] => None
  | c :: rest => match f c with Some t => Some t | None => first_text f rest end
  end.

(** machine.py:463-534 validate *)
Definition invalid_text (v : vid) (m : machine) : option string :=
  match m_boot m with
  | None => Some "no ethernet chip at 0, 0 found"
  | Some _ =>
      if (Z.of_nat (List.length (m_eth m)) >? 1) && negb (supports_multiple_boards v)
      then Some (cat ["A "; wrap_text (m_kind m); " machine of size "; dec (m_width m); ", "; dec (m_height m);
                      " can not handle multiple ethernet chips"])
      else first_text (invalid_chip_text v m) (chips m)
  end.
