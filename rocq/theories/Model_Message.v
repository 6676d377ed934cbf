(** The messages of machine_repair (machine_factory.py).  Model_Repair keeps whether
    there is an error message; here is its text. *)
From Coq Require Import String Ascii.
From Verif Require Import Model_Py Model_Wrap Model_Core Model_Machine Model_Virtual Model_Text Model_Repr.
Open Scope string_scope.
Open Scope list_scope.
Open Scope Z_scope.

(** The end of every message: two line feeds after a space *)
Definition report_this : string :=
  cat ["Please report this to spinnakerusers@googlegroups.com "; String "010" (String "010" "")].

(** machine_factory.py:148-154 and 161-167: the message for one chip; [way] is
    "incoming" or "outgoing" *)
Definition cut_message (way : string) (m : machine) (xy : XY) : res string :=
  do ch <- getitem m xy ;
  let error_xy := m_local m ch in
  do ethernet <- getitem m (c_eth_x ch, c_eth_y ch) ;
  Ok (cat ["Your machine has unreachable "; way; " chips at "; xy_str error_xy; " on board ";
           chip_str ethernet; " which will cause algorithms to fail. "; report_this]).

(** [==] of two attributes ip_address, which are str or None *)
Definition address_eqb (a b : option string) : bool :=
  match a, b with
  | None, None => true
  | Some s, Some t => String.eqb s t
  | _, _ => false
  end.

(** machine_factory.py:80-121 _generate_uni_direction_link_error *)
Definition uni_direction_error (m : machine) (dest_x dest_y src_x src_y out back : Z) : res string :=
  let dest_chip := get_chip_at m dest_x dest_y in
  do src_chip <- getitem m (src_x, src_y) ;
  do src_board <- getitem m (c_eth_x src_chip, c_eth_y src_chip) ;
  let src_ethernet := c_ip src_board in
  match dest_chip with
  | None =>
      Ok (cat ["Link "; dec out; " from "; chip_str src_chip; " to "; dec dest_x; ":"; dec dest_y;
               " points to a dead chip. Chip "; dec src_x; ":"; dec src_y;
               " resides on board with ip address "; opt_str src_ethernet; ". "; report_this])
  | Some d =>
      do dest_board <- getitem m (c_eth_x d, c_eth_y d) ;
      let dest_ethernet := c_ip dest_board in
      let '(local_src_x, local_src_y) := m_local m src_chip in
      let '(local_dest_x, local_dest_y) := m_local m d in
      if address_eqb src_ethernet dest_ethernet then
        Ok (cat ["Link "; dec back; " from "; chip_str d; " to "; chip_str src_chip;
                 " does not exist, but the opposite does. Both chips live on the same board under ip address ";
                 opt_str src_ethernet; " and are local chip ids "; dec local_dest_x; ":"; dec local_dest_y;
                 " and "; dec local_src_x; ":"; dec local_src_y; ". "; report_this])
      else
        Ok (cat ["Link "; dec back; " from "; chip_str d; " to "; chip_str src_chip;
                 " does not exist, but the opposite does. The chips live on different boards. chip ";
                 dec dest_x; ":"; dec dest_y; " resides on board with ip address "; opt_str dest_ethernet;
                 " with local id "; dec local_dest_x; ":"; dec local_dest_y; " and chip ";
                 dec src_x; ":"; dec src_y; " resides on board with ip address "; opt_str src_ethernet;
                 " with local id "; dec local_src_x; ":"; dec local_src_y; ". "; report_this])
  end.

(** machine_factory.py:174-180: no message for a link to a chip that was removed *)
Definition link_messages (m : machine) (removed : list XY) (t : Z * Z * Z * Z) : res (list string) :=
  let '(source_x, source_y, out, back) := t in
  do dest <- m_over m source_x source_y out ;
  if xymem removed dest then Ok []
  else do msg <- uni_direction_error m (fst dest) (snd dest) source_x source_y out back ; Ok [msg].

(** machine_factory.py:188-202.  The code has [{Chip}], the class, where it means the
    chip. *)
Definition parent_messages (m : machine) (ch : chip) : res (list string) :=
  match c_parent ch with
  | None => Ok []
  | Some p =>
      do parent <- m_over m (c_x ch) (c_y ch) p ;
      if is_chip_at m (fst parent) (snd parent) then Ok []
      else
        do ethernet <- getitem m (c_eth_x ch, c_eth_y ch) ;
        Ok [cat ["The source: <class 'spinn_machine.chip.Chip'> will fail to receive signals because its parent ";
                 dec (fst parent); ":"; dec (snd parent);
                 " in the signal tree has disappeared from the machine since it was booted. This occurred on board with ip address ";
                 opt_str (c_ip ethernet); " "; report_this]]
  end.

(** machine_factory.py:148-207: all the messages in the order in which they are logged,
    as warnings if repair_machine is on and as errors if it is off *)
Definition repair_messages (m : machine) (removed : list XY) : res (list string) :=
  do incoming <- map_res (cut_message "incoming" m) (unreachable_incoming_local_chips m) ;
  do outgoing <- map_res (cut_message "outgoing" m) (unreachable_outgoing_local_chips m) ;
  do links <- map_res (link_messages m removed) (one_way_links m) ;
  do parents <- map_res (parent_messages m) (chips m) ;
  Ok (incoming ++ outgoing ++ List.concat links ++ List.concat parents).

(** machine_factory.py:146, 160, 173, 186, 207: the local error_message at line 209, the
    text of the exception raised there if it is not empty *)
Definition error_message (repair : bool) (m : machine) (removed : list XY) : res string :=
  do msgs <- repair_messages m removed ;
  Ok (if repair then "" else fold_left String.append msgs "").
