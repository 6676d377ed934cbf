(** The texts that describe chips and their places. *)
From Coq Require Import String.
From Verif Require Import Model_Py Model_Wrap Model_Version Model_Core Model_Machine Model_Virtual.
Open Scope string_scope.
Open Scope list_scope.
Open Scope Z_scope.

(** A format string is the pieces one after the other. *)
Definition cat (l : list string) : string := fold_right String.append "" l.

(** An attribute that is a str or None in a format string *)
Definition opt_str (s : option string) : string := match s with Some t => t | None => "None" end.

(** chip.py:249-256 __str__, 258-259 __repr__ *)
Definition chip_str (c : chip) : string :=
  let ip_info := if ip_truthy (c_ip c) then cat ["ip_address="; opt_str (c_ip c); " "] else "" in
  cat ["[Chip: x="; dec (c_x c); ", y="; dec (c_y c); ", "; ip_info; "n_cores="; dec (n_processors c); "]"].

(** machine.py:303-326 where_is_chip *)
Definition m_where_is_chip (m : machine) (c : chip) : string :=
  match getitem m (0, 0) with
  | Err _ => chip_str c
  | Ok chip00 =>
      let ip_address :=
        match getitem m (c_eth_x c, c_eth_y c) with
        | Ok local00 => cat ["on "; opt_str (c_ip local00)]
        | Err _ => ""
        end in
      let '(localx, localy) := m_local m c in
      cat ["global chip "; dec (c_x c); ", "; dec (c_y c); " on "; opt_str (c_ip chip00);
           " is chip "; dec localx; ", "; dec localy; " "; ip_address]
  end.

(** machine.py:328-340 where_is_xy; a chip is a tuple of two and so always true *)
Definition m_where_is_xy (m : machine) (x y : Z) : string :=
  match get_chip_at m x y with
  | Some c => m_where_is_chip m c
  | None => cat ["No chip "; dec x; ", "; dec y; " found"]
  end.
