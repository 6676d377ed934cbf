(** The members of VersionStrings as the mutable objects that they are: options hands out the
    member's own list, and text is an attribute that can be set. *)
From Verif Require Import Model_Py Model_Version Model_Str Model_Factory.
Open Scope list_scope.
Open Scope Z_scope.

(** version/version_strings.py:28-47: the members in the order of definition, each with its
    text and its own list object *)
Definition groups : Type := list (string * list Z).
Definition groups_at_import : groups := VERSION_STRINGS.

(** version/version_strings.py:64-73 options: the list itself, told by the place of the member *)
Definition options_of (g : groups) (i : nat) : option (list Z) := option_map snd (nth_error g i).

(** What a program does.  Any change of a list that was handed out (append, remove, sort,
    slices and so on) leaves some other list in it. *)
Inductive group_event : Type :=
| ChangeOptions (i : nat) (l : list Z)      (* member.options[:] = l *)
| SetText (i : nat) (s : string)            (* member.text = s *)
| RunFactory (c : config) (minor : Z).      (* version_factory() *)

Fixpoint set_nth {A} (l : list A) (i : nat) (f : A -> A) : list A :=
  match l, i with
  | [], _ => []
  | a :: r, O => f a :: r
  | a :: r, S i => a :: set_nth r i f
  end.

Definition group_step (g : groups) (e : group_event) : groups :=
  match e with
  | ChangeOptions i l => set_nth g i (fun m => (fst m, l))
  | SetText i s => set_nth g i (fun m => (s, snd m))
  | RunFactory _ _ => g
  end.
Definition group_run (evs : list group_event) : groups := fold_left group_step evs groups_at_import.

(** version/version_strings.py:85-97 from_string, with version_strings.py:52-61 short_str made
    from the text as it is now; the result is the list in the member found *)
Definition options_now (g : groups) (s : string) : res (list Z) :=
  match find (fun m => String.eqb (shorten s) (shorten (fst m))) g with
  | Some m => Ok (snd m)
  | None => Err MachineExc
  end.

(** version/version_factory.py:87-102 _get_cfg_version *)
Definition get_cfg_version_now (g : groups) (c : config) (minor : Z) : res (option Z) :=
  match cfg_versions c with
  | Some versions =>
      match cfg_version c with
      | Some _ => Err MachineExc
      | None =>
          do options <- options_now g versions ;
          let n := Z.of_nat (List.length options) in
          if n =? 0 then Err ZeroDivision
          else do v <- py_index options (minor mod n) ; Ok (Some v)
      end
  | None => Ok (cfg_version c)
  end.

(** version/version_factory.py:40-84 version_factory, as in Model_Factory *)
Definition version_factory_now (g : groups) (c : config) (minor : Z) : res version :=
  do cfg_v <- get_cfg_version_now g c minor ;
  do url_v <- get_url_version c ;
  do size_v <- get_size_version c ;
  do v <- match cfg_v with
          | None =>
              match url_v with
              | None => Ok None
              | Some u => do x <- number_to_version c u ; Ok (Some x)
              end
          | Some n =>
              match url_v with
              | None => do x <- number_to_version c n ; Ok (Some x)
              | Some u =>
                  do version_cfg <- number_to_version c n ;
                  do version_url <- number_to_version c u ;
                  if vid_eqb (v_id version_cfg) (v_id version_url)
                  then Ok (Some version_cfg) else Err MachineExc
              end
          end ;
  match size_v with
  | None => match v with None => Err MachineExc | Some x => Ok x end
  | Some s =>
      match v with
      | None => number_to_version c s
      | Some x =>
          do sized <- number_to_version c s ;
          if vid_eqb (v_id x) (v_id sized) then Ok x else Err MachineExc
      end
  end.
