(** What can be wrong with the description of a machine, in the order in which it is read. *)
From Coq Require Import String Ascii.
From Verif Require Import Model_Py Model_Version Model_Str Model_Virtual Model_Text Model_Told Model_Json
  Spec_Str Spec_Told Spec_ItemText Spec_JsonRead.
Open Scope string_scope.
Open Scope list_scope.
Open Scope Z_scope.

(** A place in a description: keys of objects and numbers of items of arrays *)
Inductive part : Type := Key (k : string) | Item (i : nat).
Fixpoint look (p : list part) (v : json) : option json :=
  match p with
  | [] => Some v
  | Key k :: p =>
      match v with
      | JObj d => match dget String.eqb d k with Some w => look p w | None => None end
      | _ => None
      end
  | Item i :: p =>
      match v with
      | JArr l => match nth_error l i with Some w => look p w | None => None end
      | _ => None
      end
  end.

(** How a demand on a description can be violated: with which exception and which text *)
Definition demand : Type := exn -> string -> Prop.
(** The first demand that is violated is so with this exception and this text. *)
Definition first_violated (ds : list demand) (e : exn) (t : string) : Prop :=
  exists before d after, ds = before ++ d :: after /\
    (forall d' e' t', In d' before -> ~ d' e' t') /\ d e t.

Definition class_of (v : json) : string :=
  match v with
  | JNull => "<class 'NoneType'>" | JBool _ => "<class 'bool'>" | JInt _ => "<class 'int'>"
  | JStr _ => "<class 'str'>" | JArr _ => "<class 'list'>" | JObj _ => "<class 'dict'>"
  | JFloat _ => "<class 'float'>"
  end.
(** What is wrong with a value that should say a number *)
Definition wrong_int (v : json) (e : exn) (t : string) : Prop :=
  e = ValueError /\
  ((exists s, v = JStr s /\ not_int s /\ t = int_problem s) \/
   ((forall s, v <> JStr s) /\ (forall n, ~ says_int v n) /\
    t = cat ["unsupported value type for integer field: "; class_of v])).

Section Description.
Variable o : jobject.
Definition value_at (p : list part) (v : json) : Prop := look p (JObj o) = Some v.
Definition nothing_at (p : list part) : Prop := look p (JObj o) = None.

Definition missing (p : list part) (k : string) : demand := fun e t =>
  nothing_at (p ++ [Key k]) /\ e = KeyError /\ t = repr_str k.
Definition too_short (p : list part) (i : nat) : demand := fun e t =>
  nothing_at (p ++ [Item i]) /\ e = IndexError /\ t = "list index out of range".
Definition not_integer (p : list part) : demand := fun e t => exists v, value_at p v /\ wrong_int v e t.
Definition not_kind (kind : string) (good : json -> Prop) (p : list part) : demand := fun e t =>
  exists v, value_at p v /\ ~ good v /\ e = ValueError /\
    t = cat ["unsupported value type for "; kind; " field: "; class_of v].
Definition not_string : list part -> demand := not_kind "string" (fun v => exists s, v = JStr s).
Definition not_array : list part -> demand := not_kind "array" (fun v => exists l, v = JArr l).
Definition not_object : list part -> demand := not_kind "object" (fun v => exists d, v = JObj d).
Definition not_two (p : list part) : demand := fun e t =>
  exists l, let n := Z.of_nat (List.length l) in value_at p (JArr l) /\ e = ValueError /\
    (n < 2 /\ t = cat ["not enough values to unpack (expected 2, got "; dec n; ")"] \/
     2 < n /\ t = "too many values to unpack (expected 2)").

(** width and height say a size that the version has not *)
Definition wrong_size (v : vid) : demand := fun e t =>
  exists a b w h, value_at [Key "width"] a /\ says_int a w /\ value_at [Key "height"] b /\ says_int b h /\
    e = MachineExc /\ size_wrong v w h t.

Definition resource_demands (kind : string) : list demand :=
  [missing [] kind; not_object [Key kind];
   missing [Key kind] "monitors";
   missing [Key kind] "routerEntries"; not_integer [Key kind; Key "routerEntries"];
   missing [Key kind] "sdram"; not_integer [Key kind; Key "sdram"];
   missing [Key kind] "tags"; not_array [Key kind; Key "tags"]].

(** The parts of the item of a chip *)
Definition item (i : nat) (rest : list part) : list part := Key "chips" :: Item i :: rest.
(** A resource of the chip: its exception, or else that of its kind, which is decided by an address *)
Definition resource_at (i : nat) (key : string) (v : json) : Prop :=
  value_at (item i [Item 3; Key key]) v \/
  (nothing_at (item i [Item 3; Key key]) /\
   ((~ nothing_at (item i [Item 2; Key "ipAddress"]) /\ value_at [Key "ethernetResources"; Key key] v) \/
    (nothing_at (item i [Item 2; Key "ipAddress"]) /\ value_at [Key "standardResources"; Key key] v))).
Definition monitors_not_1 (i : nat) : demand := fun e t =>
  exists v, resource_at i "monitors" v /\ ~ equals v 1 /\ e = NotImplementedErr /\
    t = "We currently only support exactly 1 monitor per core".
Definition wrong_tag (i : nat) : demand := fun e t =>
  exists before v after, resource_at i "tags" (JArr (before ++ v :: after)) /\
    Forall (fun b => exists n, says_int b n) before /\ wrong_int v e t.
(** The chip has the place of an earlier one. *)
Definition place (i : nat) (x y : Z) : Prop :=
  exists a b, value_at (item i [Item 0]) a /\ says_int a x /\ value_at (item i [Item 1]) b /\ says_int b y.
Definition taken (i : nat) : demand := fun e t =>
  exists x y j, (j < i)%nat /\ place j x y /\ place i x y /\ e = AlreadyExists /\
    t = cat ["There can only be one chip with a value of "; dec x; ", "; dec y].

Definition chip_demands (i : nat) : list demand :=
  [not_array (item i []); too_short (item i []) 2; not_object (item i [Item 2]);
   not_integer (item i [Item 0]); not_integer (item i [Item 1]);
   missing (item i [Item 2]) "ethernet"; not_array (item i [Item 2; Key "ethernet"]);
   not_two (item i [Item 2; Key "ethernet"]);
   not_string (item i [Item 2; Key "ipAddress"]);
   not_object (item i [Item 3]); not_integer (item i [Item 3; Key "routerEntries"]);
   not_integer (item i [Item 3; Key "sdram"]); not_array (item i [Item 3; Key "tags"]);
   monitors_not_1 i;
   not_array (item i [Item 2; Key "deadLinks"]);
   missing (item i [Item 2]) "cores"; not_integer (item i [Item 2; Key "cores"]);
   not_integer (item i [Item 2; Key "ethernet"; Item 0]); not_integer (item i [Item 2; Key "ethernet"; Item 1]);
   wrong_tag i; taken i].

Definition n_items : nat :=
  match look [Key "chips"] (JObj o) with Some (JArr l) => List.length l | _ => O end.

Definition demands (v : vid) : list demand :=
  [missing [] "width"; not_integer [Key "width"]; missing [] "height"; not_integer [Key "height"]; wrong_size v] ++
  resource_demands "standardResources" ++ resource_demands "ethernetResources" ++
  [missing [] "chips"; not_array [Key "chips"]] ++
  flat_map chip_demands (seq 0 n_items).
End Description.
