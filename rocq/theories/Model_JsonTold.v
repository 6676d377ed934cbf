(** machine_from_json with the texts of its exceptions.  Model_Json is the same without the texts. *)
From Coq Require Import String Ascii.
From Verif Require Import Model_Py Model_Wrap Model_Version Model_Core Model_Machine Model_Str Model_Ignore Model_Virtual
  Model_Text Model_Told Model_ItemText Model_Fault Model_Json.
Open Scope string_scope.
Open Scope list_scope.
Open Scope Z_scope.

(** str(type(value)) of what json.load makes *)
Definition class_text (v : json) : string :=
  cat ["<class '"; match v with
                   | JNull => "NoneType" | JBool _ => "bool" | JInt _ => "int" | JStr _ => "str"
                   | JArr _ => "list" | JObj _ => "dict" | JFloat _ => "float" end; "'>"].
Definition unsupported {A} (field : string) (v : json) : answer A :=
  inr (ValueError, cat ["unsupported value type for "; field; " field: "; class_text v]).

(** json_machine.py:46-52 _int *)
Definition int_field (v : json) : answer Z :=
  match v with
  | JInt n => inl n
  | JBool b => inl (if b then 1 else 0)
  | JStr s => int_told s
  | _ => unsupported "integer" v
  end.
(** json_machine.py:55-59 _str *)
Definition str_field (v : json) : answer string := match v with JStr s => inl s | _ => unsupported "string" v end.
(** json_machine.py:62-66 _ary *)
Definition ary_field (v : json) : answer (list json) := match v with JArr l => inl l | _ => unsupported "array" v end.
(** json_machine.py:69-73 _obj *)
Definition obj_field (v : json) : answer jobject := match v with JObj d => inl d | _ => unsupported "object" v end.

(** d[k]: the text of a KeyError is the repr of the key *)
Definition get_told (d : jobject) (k : string) : answer json :=
  match dget String.eqb d k with Some v => inl v | None => inr (KeyError, repr_str k) end.
(** l[i] *)
Definition item_told (l : list json) (i : Z) : answer json :=
  match py_index l i with Ok v => inl v | Err e => inr (e, "list index out of range") end.
(** a, b = l (CPython up to 3.13) *)
Definition two_told (l : list json) : answer (json * json) :=
  match l with
  | [a; b] => inl (a, b)
  | _ => inr (ValueError,
      if Z.of_nat (List.length l) <? 2
      then cat ["not enough values to unpack (expected 2, got "; dec (Z.of_nat (List.length l)); ")"]
      else "too many values to unpack (expected 2)")
  end.
(** if k in d: ... d[k] *)
Definition maybe {A B} (d : dict string A) (k : string) (f : A -> answer B) (b : B) : answer B :=
  match dget String.eqb d k with Some v => f v | None => inl b end.

(** json_machine.py:123-134, as Model_Json.j_exceptions *)
Definition exceptions_told (ex : jobject) (s : json * Z * Z * list json) : answer (json * Z * Z * list json) :=
  let '(monitors, entries, sdram, tags) := s in
  let monitors := match dget String.eqb ex "monitors" with Some v => v | None => monitors end in
  abind (maybe ex "routerEntries" int_field entries) (fun entries =>
  abind (maybe ex "sdram" int_field sdram) (fun sdram =>
  abind (maybe ex "tags" ary_field tags) (fun tags =>
  inl (monitors, entries, sdram, tags)))).

(** The text of an exception of [add_chip] *)
Definition add_told (m : machine) (c : chip) : answer machine :=
  match add_chip_raises m c with inl m' => inl m' | inr x => inr (raised_class x, raised_text x) end.
Definition silent {A} (r : res A) : answer A := match r with Ok a => inl a | Err e => inr (e, "") end.

(** json_machine.py:107-163, as Model_Json.j_chip; the links cannot fail *)
Definition chip_told (m : machine) (std eth : json * Z * Z * list json) (aj : json) : answer machine :=
  abind (ary_field aj) (fun j =>
  abind (item_told j 2) (fun a => abind (obj_field a) (fun details =>
  abind (item_told j 0) (fun a => abind (int_field a) (fun x =>
  abind (item_told j 1) (fun a => abind (int_field a) (fun y =>
  abind (get_told details "ethernet") (fun a => abind (ary_field a) (fun board =>
  abind (two_told board) (fun b =>
  abind (maybe details "ipAddress" (fun a => abind (str_field a) (fun a => inl (Some a, eth))) (None, std)) (fun k =>
  abind (if Z.of_nat (List.length j) >? 3
         then abind (item_told j 3) (fun a => abind (obj_field a) (fun e => exceptions_told e (snd k)))
         else inl (snd k)) (fun s =>
  let '(monitors, entries, sdram, tags) := s in
  abind (if negb (j_eq_int 1 monitors)
         then inr (NotImplementedErr, "We currently only support exactly 1 monitor per core") else inl tt) (fun _ =>
  abind (maybe details "deadLinks" ary_field []) (fun dead =>
  abind (silent (do links <- fold_res (fun links l =>
            if existsb (j_eq_int l) dead then Ok links
            else do (dx, dy) <- m_over m x y l ; Ok (links ++ [mkLink x y l dx dy])) (zrange 0 6) [] ;
          new_router links entries)) (fun r =>
  abind (get_told details "cores") (fun a => abind (int_field a) (fun n =>
  abind (int_field (fst b)) (fun bx =>
  abind (int_field (snd b)) (fun by_ =>
  abind (map_answer int_field tags) (fun tags =>
  add_told m (new_chip x y [0] (zrange 1 n) r sdram bx by_ (fst k) (Some tags) None))))))))))))))))))))).

(** json_machine.py:92-104, as Model_Json.j_resources *)
Definition resources_told (o : jobject) : answer (json * Z * Z * list json) :=
  abind (get_told o "monitors") (fun monitors =>
  abind (get_told o "routerEntries") (fun a => abind (int_field a) (fun entries =>
  abind (get_told o "sdram") (fun a => abind (int_field a) (fun sdram =>
  abind (get_told o "tags") (fun a => abind (ary_field a) (fun tags =>
  inl (monitors, entries, sdram, tags)))))))).

(** json_machine.py:76-168, as Model_Json.machine_from_json; create_machine (abstract_version.py:250-266) only
    raises in verify_size *)
Definition machine_from_json_told (v : vid) (o : jobject) : answer machine :=
  abind (get_told o "width") (fun a => abind (int_field a) (fun w =>
  abind (get_told o "height") (fun a => abind (int_field a) (fun h =>
  abind (snd (verify_size_told v (Some w) (Some h))) (fun _ =>
  abind (silent (create_machine v (Some w) (Some h) (Some "Json"))) (fun m =>
  abind (get_told o "standardResources") (fun a => abind (obj_field a) (fun d => abind (resources_told d) (fun std =>
  abind (get_told o "ethernetResources") (fun a => abind (obj_field a) (fun d => abind (resources_told d) (fun eth =>
  abind (get_told o "chips") (fun a => abind (ary_field a) (fun cs =>
  abind (fold_answer (fun m aj => chip_told m std eth aj) cs m) (fun m =>
  silent (do m <- add_spinnaker_links v m ; add_fpga_links v m)))))))))))))))).
