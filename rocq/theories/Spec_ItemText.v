(** What is wrong with the texts of down items, in words. *)
From Coq Require Import String Ascii.
From Verif Require Import Model_Py Model_Version Model_Str Model_Ignore Model_Virtual Model_Text Model_Told Spec_Str.
Open Scope string_scope.
Open Scope list_scope.
Open Scope Z_scope.

(** What is left of a value or an exception when nobody reads the text *)
Definition unworded {A} (r : A + (exn * string)) : res A :=
  match r with inl a => Ok a | inr (e, _) => Err e end.

Definition not_int (s : string) : Prop := forall z, ~ int_text s z.
(** What int(s) says *)
Definition int_problem (s : string) : string :=
  cat ["invalid literal for int() with base 10: "; substring 0 200 (repr_str s)].

(** The fields of an item are what is between its commas. *)
Definition fields (s : string) (fs : list string) : Prop :=
  fs <> [] /\ Forall (without ",") fs /\ s = String.concat "," fs.
(** Nothing or one address. *)
Definition address (rest : list string) : Prop := (List.length rest <= 1)%nat.

(** What can be wrong with the item of a chip *)
Inductive chip_fault (s : string) : exn -> string -> Prop :=
| chip_shape fs : fields s fs -> (forall x y rest, fs = x :: y :: rest -> ~ address rest) ->
    chip_fault s ValueError (cat ["Unexpected downed_chip: "; s])
| chip_x x y rest : fields s (x :: y :: rest) -> address rest -> not_int x ->
    chip_fault s ValueError (int_problem x)
| chip_y x y rest n : fields s (x :: y :: rest) -> address rest -> int_text x n -> not_int y ->
    chip_fault s ValueError (int_problem y).

(** ... of a link *)
Inductive link_fault (s : string) : exn -> string -> Prop :=
| link_shape fs : fields s fs -> (forall x y l rest, fs = x :: y :: l :: rest -> ~ address rest) ->
    link_fault s ValueError (cat ["Unexpected downed_link: "; s])
| link_x x y l rest : fields s (x :: y :: l :: rest) -> address rest -> not_int x ->
    link_fault s ValueError (int_problem x)
| link_y x y l rest n : fields s (x :: y :: l :: rest) -> address rest -> int_text x n -> not_int y ->
    link_fault s ValueError (int_problem y)
| link_id x y l rest n k : fields s (x :: y :: l :: rest) -> address rest -> int_text x n -> int_text y k ->
    not_int l -> link_fault s ValueError (int_problem l).

(** ... of the field for the cores *)
Definition spin2 (v : vid) : Prop := v = V201 \/ v = V248.
Definition two_dashes (s : string) : Prop :=
  exists dashes digits n, every (fun c => c = "-"%char) dashes /\ numeral digits n /\
    s = ("--" ++ dashes ++ digits)%string.
Definition quad_text (s : string) (qx qy qp : Z) : Prop :=
  exists a b c, numeral (String a "") qx /\ numeral (String b "") qy /\ numeral (String c "") qp /\
    s = String a ("." ++ String b ("." ++ String c ""))%string.
Inductive core_field_fault (v : vid) (s : string) : exn -> string -> Prop :=
| dashes : two_dashes s -> core_field_fault v s ValueError (int_problem s)
| unknown_quad qx qy qp : spin2 v -> quad_text s qx qy qp -> (forall id, qx_qy_qp_to_id v qx qy qp <> Ok id) ->
    core_field_fault v s KeyError (cat ["("; dec qx; ", "; dec qy; ", "; dec qp; ")"])
| not_cores : (forall ps, ~ core_field_on v s ps) -> ~ two_dashes s ->
    (forall qx qy qp, spin2 v -> ~ quad_text s qx qy qp) ->
    core_field_fault v s ConfigExc
      (cat [s; " does not represent cores for Version "; match v with V3 | V5 => "1" | _ => "2" end; " boards"]).

(** ... of an item of cores.  The cores are looked at first, the coordinates only if there is a core. *)
Inductive core_fault (v : vid) (s : string) : exn -> string -> Prop :=
| core_shape fs : fields s fs -> (forall x y p rest, fs = x :: y :: p :: rest -> ~ address rest) ->
    core_fault v s ValueError (cat ["Unexpected downed_core: "; s])
| core_p x y p rest e t : fields s (x :: y :: p :: rest) -> address rest -> core_field_fault v p e t ->
    core_fault v s e t
| core_x x y p rest ps : fields s (x :: y :: p :: rest) -> address rest -> core_field_on v p ps -> ps <> [] ->
    not_int x -> core_fault v s ValueError (int_problem x)
| core_y x y p rest ps n : fields s (x :: y :: p :: rest) -> address rest -> core_field_on v p ps -> ps <> [] ->
    int_text x n -> not_int y -> core_fault v s ValueError (int_problem y).

(** A text of items joined by colons whose first wrong item has the fault *)
Definition first_fault (fault : string -> exn -> string -> Prop) (s : string) (e : exn) (t : string) : Prop :=
  lower s <> "none"%string /\
  exists before item after,
    s = joined (before ++ item :: after) /\ Forall (without ":") (before ++ item :: after) /\
    (forall b e' t', In b before -> ~ fault b e' t') /\ fault item e t.
