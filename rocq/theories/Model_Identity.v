(** Equality, hash and text of the version objects. *)
From Verif Require Import Model_Py Model_Wrap Model_Geometry Model_Version.
Open Scope Z_scope.

(** version/version_3.py:120-121, version/version_5.py:147-148,
    version/version_201.py:93-94, version/version_248.py:72-73 __eq__: the class
    of the other object; no version class is a subclass of another. *)
Definition version_eqb (a b : version) : bool := vid_eqb (v_id a) (v_id b).

(** [hash(version)].  The four classes define __eq__ and not __hash__, so Python
    sets their __hash__ to None (data model, object.__hash__) and hash raises
    TypeError; the __hash__ of version/abstract_version.py:580-581 is never reached. *)
Definition version_hash (a : version) : res Z := Err TypeError.

(** version/version_3.py:40-42, version/version_5.py:67-69, version/version_201.py:39-41,
    version/version_248.py:48-50 name *)
Definition version_name (v : vid) : string :=
  match v with
  | V3 => "Spin1 4 Chip" | V5 => "Spin1 48 Chip"
  | V201 => "Spin2 1 Chip" | V248 => "Spin2 48 Chips"
  end.
