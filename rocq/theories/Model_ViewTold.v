(** MachineDataView and MachineDataWriter with the texts of their exceptions and the log.
    Model_View is the same without the texts. *)
From Coq Require Import String.
From Verif Require Import Model_Py Model_Version Model_Core Model_Machine Model_Factory Model_Virtual Model_Text
  Model_View Model_Told.
Open Scope string_scope.
Open Scope list_scope.
Open Scope Z_scope.

(** raise cls._exception(name) (UtilsDataView of spinn_utilities, not modelled): the text is made
    there from the name, which stands for it here *)
Definition missing {A} (name : string) : told A := ([], inr (DataNotAvailable, name)).

Definition tmap {A B} (f : A -> B) (r : told A) : told B :=
  (fst r, match snd r with inl a => inl (f a) | inr e => inr e end).

(** The text of a KeyError: repr of the key, a pair or an int *)
Definition pair_key (xy : XY) : string := cat ["("; dec (fst xy); ", "; dec (snd xy); ")"].

(** data/machine_data_view.py:261-277 get_machine_version *)
Definition get_machine_version_told (e : env) (d : data) : data * told version :=
  match d_version d with
  | Some v => (d, tret v)
  | None =>
      match version_factory_told (e_config e) (e_minor e) with
      | (log, inr x) => (d, (log, inr x))
      | (log, inl v) =>
          let d := mkData (d_all_monitors d) (d_eth_monitors d) (d_machine d) (d_generator d) (Some v)
                     (quads_maps (v_id v)) (d_user_accessed d) (d_v_to_p d) in
          if dict_true (d_quad_map d) && dict_true (d_v_to_p d)
          then (d, (log, inr (MachineExc, "Can not have both quad_map and v_to_p_map")))
          else (d, (log, inl v))
      end
  end.

(** data/machine_data_view.py:279-295 set_v_to_p_map *)
Definition set_v_to_p_map_told (d : data) (m : dict XY (list Z)) : data * told unit :=
  if dict_true (d_quad_map d) then (d, traise "Can not have both quad_map and v_to_p_map")
  else match d_v_to_p d with
       | None => (mkData (d_all_monitors d) (d_eth_monitors d) (d_machine d) (d_generator d) (d_version d)
                    (d_quad_map d) (d_user_accessed d) (Some m), tret tt)
       | Some _ => (d, traise "Unexpected second call to set_v_to_p_map")
       end.

(** data/machine_data_view.py:297-314 get_physical_core_id; the IndexError of bytes *)
Definition get_physical_core_id_told (d : data) (xy : XY) (p : Z) : told Z :=
  match d_v_to_p d with
  | None => missing "v_to_p map"
  | Some m =>
      match dget xy_eqb m xy with
      | None => ([], inr (KeyError, pair_key xy))
      | Some l => match py_index l p with Ok n => tret n | Err e => ([], inr (e, "index out of range")) end
      end
  end.

(** data/machine_data_view.py:316-334 get_physical_quad; the dict access of line 334 *)
Definition quad_in (q : dict Z (Z * Z * Z)) (p : Z) : told (Z * Z * Z) :=
  match dget Z.eqb q p with None => ([], inr (KeyError, dec p)) | Some x => tret x end.
Definition get_physical_quad_told (e : env) (d : data) (p : Z) : data * told (Z * Z * Z) :=
  match d_quad_map d with
  | Some q => (d, quad_in q p)
  | None =>
      let '(d, r) := get_machine_version_told e d in
      (d, tell _ <- r ; match d_quad_map d with None => missing "quad_map" | Some q => quad_in q p end)
  end.

(** Every call that does not run a generator.  The calls not listed raise and log nothing. *)
Definition plain_told (e : env) (d : data) (o : op) : option (data * told value) :=
  match o with
  | GetMachineVersion => let '(d, r) := get_machine_version_told e d in Some (d, tmap VVersion r)
  | SetVtoP m => let '(d, r) := set_v_to_p_map_told d m in Some (d, tmap (fun _ => VNone) r)
  | GetPhysicalCoreId xy p => Some (d, tmap VInt (get_physical_core_id_told d xy p))
  | GetPhysicalQuad p => let '(d, r) := get_physical_quad_told e d p in Some (d, tmap VQuad r)
  (* data/machine_data_writer.py:75-84 set_machine *)
  | SetMachine None => Some (d, ([], inr (TypeError, "machine should be a Machine")))
  (* data/machine_data_writer.py:97-108 set_machine_generator *)
  | SetMachineGenerator None => Some (d, ([], inr (TypeError, "machine_generator must be callable")))
  | _ => match plain_step e d o with Some (d, r) => Some (d, of_res r) | None => None end
  end.

(** data/machine_data_view.py:134-158 get_machine.  The generator (see Model_View) makes the calls
    [tr], logs what it likes and returns or raises what it likes. *)
Inductive get_machine_told : env -> data -> trace -> data -> told machine -> Prop :=
| THave e d m : d_machine (touch e d) = Some m -> get_machine_told e d [] (touch e d) (tret m)
| TNone e d : d_machine (touch e d) = None -> d_generator (touch e d) = None ->
    get_machine_told e d [] (touch e d) (missing "machine")
| TRaised e d g tr d' x log text : d_machine (touch e d) = None -> d_generator (touch e d) = Some g ->
    gen_run e g (touch e d) tr d' (Err x) -> get_machine_told e d tr d' (log, inr (x, text))
| TReturned e d g tr d' log : d_machine (touch e d) = None -> d_generator (touch e d) = Some g ->
    gen_run e g (touch e d) tr d' (Ok tt) ->
    get_machine_told e d tr d'
      (log, match d_machine d' with
            | None => inr (MachineExc, "machine generator did not generate machine")
            | Some m => inl m
            end).

(** data/machine_data_view.py:160-177 get_chip_at *)
Definition chip_in (x y : Z) (m : machine) : told chip :=
  match getitem m (x, y) with Ok c => tret c | Err e => ([], inr (e, pair_key (x, y))) end.
Definition get_chip_at_told (x y : Z) (r : told machine) : told chip := tell m <- r ; chip_in x y m.
