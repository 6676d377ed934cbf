(** version_factory and VersionStrings. *)
From Verif Require Import Model_Py Model_Version Model_Str.
Open Scope Z_scope.

(** version/version_strings.py:28-37: the text and versions of each member, in
    the order of definition *)
Definition VERSION_STRINGS : list (string * list Z) :=
  [("Any"%string, [3; 5; 201; 248]);
   ("Four plus"%string, [3; 5; 248]);
   ("Big"%string, [5; 248]);
   ("eight by eigth"%string, [5; 248]);
   ("with fpgas"%string, [5])].

(** version/version_strings.py:75-83 shorten *)
Definition shorten (s : string) : string :=
  remove_char " " (remove_char "-" (remove_char "_" (lower s))).

(** version/version_strings.py:85-97 from_string; the result is the list of
    options of the member found (version_strings.py:63-73) *)
Definition options_from_string (s : string) : res (list Z) :=
  match find (fun m => String.eqb (shorten s) (shorten (fst m))) VERSION_STRINGS with
  | Some m => Ok (snd m)
  | None => Err MachineExc
  end.

(** version/version_factory.py:87-102 _get_cfg_version; [minor] is
    sys.version_info.minor *)
Definition get_cfg_version (c : config) (minor : Z) : res (option Z) :=
  match cfg_versions c with
  | Some versions =>
      match cfg_version c with
      | Some _ => Err MachineExc
      | None =>
          do options <- options_from_string versions ;
          let n := Z.of_nat (List.length options) in
          if n =? 0 then Err ZeroDivision
          else do v <- py_index options (minor mod n) ; Ok (Some v)
      end
  | None => Ok (cfg_version c)
  end.

Definition is_some {A} (o : option A) : bool :=
  match o with Some _ => true | None => false end.

(** version/version_factory.py:105-139 _get_url_version *)
Definition get_url_version (c : config) : res (option Z) :=
  if is_some (cfg_spalloc_server c) then
    if is_some (cfg_remote_spinnaker_url c) then Err MachineExc
    else if is_some (cfg_machine_name c) then Err MachineExc
    else if cfg_virtual_board c then Err MachineExc
    else Ok (Some 5)
  else if is_some (cfg_remote_spinnaker_url c) then
    if is_some (cfg_machine_name c) then Err MachineExc
    else if cfg_virtual_board c then Err MachineExc
    else Ok (Some 5)
  else if is_some (cfg_machine_name c) then
    if cfg_virtual_board c then Err MachineExc else Ok None
  else Ok None.

(** version/version_factory.py:142-159 _get_size_version *)
Definition get_size_version (c : config) : res (option Z) :=
  match cfg_height c with
  | None => match cfg_width c with None => Ok None | Some _ => Err MachineExc end
  | Some h =>
      match cfg_width c with
      | None => Err MachineExc
      | Some w =>
          if (h =? w) && (w =? 2) then Ok (Some 3)
          else if (h =? w) && (w =? 1) then Ok (Some 201)
          else Ok (Some 5)
      end
  end.

(** version/version_factory.py:162-182 _number_to_version *)
Definition number_to_version (c : config) (n : Z) : res version :=
  if (n =? 2) || (n =? 3) then new_version c V3
  else if (n =? 4) || (n =? 5) then new_version c V5
  else if n =? 201 then new_version c V201
  else if n =? 248 then new_version c V248
  else Err MachineExc.

(** version/version_factory.py:40-84 version_factory.  Two versions are equal when
    they are of the same class (version_3.py:120-121, version_5.py:147-148,
    version_201.py:93-94, version_248.py:72-73).  raise_version_error
    (version_factory.py:185-206) always raises SpinnMachineException. *)
Definition version_factory (c : config) (minor : Z) : res version :=
  do cfg_v <- get_cfg_version c minor ;
  do url_v <- get_url_version c ;
  do size_v <- get_size_version c ;
  do v <- match cfg_v with
          | None =>
              match url_v with
              | None => Ok None
              | Some u => do x <- number_to_version c u ; Ok (Some x)
              end
          | Some n =>
              match url_v with
              | None => do x <- number_to_version c n ; Ok (Some x)
              | Some u =>
                  do version_cfg <- number_to_version c n ;
                  do version_url <- number_to_version c u ;
                  if vid_eqb (v_id version_cfg) (v_id version_url)
                  then Ok (Some version_cfg) else Err MachineExc
              end
          end ;
  match size_v with
  | None => match v with None => Err MachineExc | Some x => Ok x end
  | Some s =>
      match v with
      | None => number_to_version c s
      | Some x =>
          do sized <- number_to_version c s ;
          if vid_eqb (v_id x) (v_id sized) then Ok x else Err MachineExc
      end
  end.
