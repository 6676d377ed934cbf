(** virtual_machine with the texts of its exceptions.  Model_Virtual is the same without the texts. *)
From Coq Require Import String Ascii.
From Verif Require Import Model_Py Model_Wrap Model_Version Model_Core Model_Machine Model_Str Model_Ignore Model_Virtual
  Model_Text Model_Told Model_ItemText Model_Invalid Model_JsonTold.
Open Scope string_scope.
Open Scope list_scope.
Open Scope Z_scope.

(** ignores/ignore_core.py:57-69 virtual_p: the text of a KeyError is the key *)
Definition virtual_p_told (c : ignore_core) : answer Z :=
  match virtual_p c with Ok p => inl p | Err e => inr (e, dec (0 - ico_p c)) end.

(** virtual_machine.py:180-185: the ids of the down cores, as they come out of their set *)
Fixpoint ids_told (cores : list ignore_core) : answer unit :=
  match cores with
  | [] => inl tt
  | c :: r =>
      match ico_ip c with
      | None => abind (virtual_p_told c) (fun _ => ids_told r)
      | Some _ => ids_told r
      end
  end.

(** machine.py:463-534 validate *)
Definition validate_told (v : vid) (m : machine) : answer unit :=
  match invalid_text v m with None => inl tt | Some t => inr (MachineExc, t) end.

(** virtual_machine.py:165-225 _VirtualMachine.__init__, as Model_Virtual.virtual_machine.  [seen]
    is the order in which the down cores come out of their set; it matters for the KeyError only. *)
Definition virtual_machine_told (seen : list ignore_core) (c : config) (V : version) (w h : Z) (check : bool)
  : answer machine :=
  let v := v_id V in
  abind (snd (verify_size_told v (Some w) (Some h))) (fun _ =>
  abind (silent (create_machine v (Some w) (Some h) (Some "Virtual"))) (fun m0 =>
  abind (chips_told (cfg_down_chips c)) (fun down_chips =>
  abind (cores_told v (cfg_down_cores c)) (fun down_cores =>
  abind (ids_told seen) (fun _ =>
  abind (links_told (cfg_down_links c)) (fun down_links =>
  abind (silent (
    do unused_cores <- virtual_unused_cores down_cores ;
    do eths <- get_potential_ethernet_chips v w h ;
    let conf := configured_chips m0 (virtual_unused_chips down_chips) (max_cores_per_chip V) eths in
    do m1 <- fold_res (fun m xy =>
        do ch <- create_chip V m unused_cores (virtual_unused_links down_links w) conf xy
                   (if xymem eths xy then Some (virtual_ip (fst xy) (snd xy)) else None) ;
        add_chip m ch) (dkeys conf) m0 ;
    do m2 <- add_spinnaker_links v m1 ;
    add_fpga_links v m2)) (fun m3 =>
  if check then abind (validate_told v m3) (fun _ => inl m3) else inl m3))))))).
