(** The parsers of cores and of down items with the texts of their exceptions.  Model_Ignore is the
    same without the texts. *)
From Coq Require Import String Ascii.
From Verif Require Import Model_Py Model_Version Model_Str Model_Ignore Model_Virtual Model_Text Model_Told.
Open Scope string_scope.
Open Scope list_scope.
Open Scope Z_scope.

(** A value, or an exception with its str() *)
Notation answer A := (A + (exn * string))%type.
Definition abind {A B} (r : answer A) (f : A -> answer B) : answer B :=
  match r with inl a => f a | inr e => inr e end.
Fixpoint map_answer {A B} (f : A -> answer B) (l : list A) : answer (list B) :=
  match l with
  | [] => inl []
  | a :: l => abind (f a) (fun b => abind (map_answer f l) (fun bs => inl (b :: bs)))
  end.
Fixpoint fold_answer {A B} (f : B -> A -> answer B) (l : list A) (b : B) : answer B :=
  match l with
  | [] => inl b
  | a :: l => abind (f b a) (fun b => fold_answer f l b)
  end.

(** CPython Objects/longobject.c PyLong_FromUnicodeObject: the exception of [int(s)] has the first 200
    characters of [repr(s)] *)
Definition int_told (s : string) : answer Z :=
  match py_int s with
  | Ok n => inl n
  | Err e => inr (e, cat ["invalid literal for int() with base 10: "; substring 0 200 (repr_str s)])
  end.

(** version/version_spin1.py:101-103, version/version_spin2.py:111-113 qx_qy_qp_to_id; the text of a KeyError is
    the repr of the key *)
Definition quad_told (v : vid) (qx qy qp : Z) : answer Z :=
  match qx_qy_qp_to_id v qx qy qp with
  | Ok id => inl id
  | Err KeyError => inr (KeyError, cat ["("; dec qx; ", "; dec qy; ", "; dec qp; ")"])
  | Err e => inr (e, "Not supported in Version 1")
  end.

(** version/version_spin1.py:109-112, version/version_spin2.py:119-129 version_parse_cores_string *)
Definition version_parse_cores_told (v : vid) (s : string) : answer (list Z) :=
  match v with
  | V3 | V5 => inr (ConfigExc, cat [s; " does not represent cores for Version 1 boards"])
  | V201 | V248 =>
      match core_quad s with
      | Some (a, b, c) =>
          abind (int_told a) (fun qx => abind (int_told b) (fun qy => abind (int_told c) (fun qp =>
          abind (quad_told v qx qy qp) (fun id => inl [id]))))
      | None => inr (ConfigExc, cat [s; " does not represent cores for Version 2 boards"])
      end
  end.

(** version/abstract_version.py:495-525 parse_cores_string *)
Definition parse_cores_told (v : vid) (s : string) : answer (list Z) :=
  if core_single s then abind (int_told s) (fun n => inl [n])
  else match core_range s with
       | Some (a, b) => abind (int_told a) (fun lo => abind (int_told b) (fun hi => inl (zrange lo (hi + 1))))
       | None => version_parse_cores_told v s
       end.

(** ignores/ignore_chip.py:111-118, ignores/ignore_core.py:144-151, ignores/ignore_link.py:107-114: the common
    shape of parse_string, as Model_Ignore.parse_items *)
Definition items_told {A} (eqb : A -> A -> bool) (single : string -> answer (list A)) (text : option string)
  : answer (list A) :=
  match text with
  | None => inl []
  | Some s =>
      if String.eqb (lower s) "none" then inl []
      else fold_answer (fun acc t => abind (single t) (fun items => inl (fold_left (set_add eqb) items acc)))
             (split_on ":" s) []
  end.

(** ignores/ignore_chip.py:28-43 __init__ *)
Definition new_chip_told (x y : string) (ip : option string) : answer ignore_chip :=
  abind (int_told x) (fun x => abind (int_told y) (fun y => inl (mkIgnoreChip x y ip))).
(** ignores/ignore_chip.py:46-80 parse_single_string *)
Definition single_chip_told (s : string) : answer ignore_chip :=
  match split_on "," s with
  | [x; y] => new_chip_told x y None
  | [x; y; ip] => new_chip_told x y (Some ip)
  | _ => inr (ValueError, cat ["Unexpected downed_chip: "; s])
  end.
(** ignores/ignore_chip.py:82-118 parse_string *)
Definition chips_told (text : option string) : answer (list ignore_chip) :=
  items_told ignore_chip_eqb (fun s => abind (single_chip_told s) (fun c => inl [c])) text.

(** ignores/ignore_core.py:33-54 __init__ *)
Definition new_core_told (x y : string) (p : Z) (ip : option string) : answer ignore_core :=
  abind (int_told x) (fun x => abind (int_told y) (fun y => inl (mkIgnoreCore x y p ip))).
(** ignores/ignore_core.py:71-110 parse_single_string *)
Definition single_core_told (v : vid) (s : string) : answer (list ignore_core) :=
  match split_on "," s with
  | [x; y; p] => abind (parse_cores_told v p) (map_answer (fun c => new_core_told x y c None))
  | [x; y; p; ip] => abind (parse_cores_told v p) (map_answer (fun c => new_core_told x y c (Some ip)))
  | _ => inr (ValueError, cat ["Unexpected downed_core: "; s])
  end.
(** ignores/ignore_core.py:112-151 parse_string *)
Definition cores_told (v : vid) (text : option string) : answer (list ignore_core) :=
  items_told ignore_core_eqb (single_core_told v) text.

(** ignores/ignore_link.py:27-46 __init__ *)
Definition new_link_told (x y l : string) (ip : option string) : answer ignore_link :=
  abind (int_told x) (fun x => abind (int_told y) (fun y => abind (int_told l) (fun l =>
  inl (mkIgnoreLink x y l ip)))).
(** ignores/ignore_link.py:49-79 parse_single_string *)
Definition single_link_told (s : string) : answer ignore_link :=
  match split_on "," s with
  | [x; y; l] => new_link_told x y l None
  | [x; y; l; ip] => new_link_told x y l (Some ip)
  | _ => inr (ValueError, cat ["Unexpected downed_link: "; s])
  end.
(** ignores/ignore_link.py:81-114 parse_string *)
Definition links_told (text : option string) : answer (list ignore_link) :=
  items_told ignore_link_eqb (fun s => abind (single_link_told s) (fun l => inl [l])) text.
