(** What the JSON description written for a machine contains. *)
From Coq Require Import Sorted.
From Verif Require Import Model_Py Model_Core Model_Machine Model_Json Spec_JsonRead.
Open Scope list_scope.
Open Scope Z_scope.

(** The four resources of a chip, as JSON; router entries are kept within a Java int. *)
Definition resource (c : chip) (key : string) : option json :=
  if String.eqb key "monitors" then Some (JInt (Z.of_nat (List.length (c_scamp c))))
  else if String.eqb key "routerEntries" then Some (JInt (Z.min (r_entries (c_router c)) (2 ^ 31 - 1)))
  else if String.eqb key "sdram" then Some (JInt (c_sdram c))
  else if String.eqb key "tags" then Some (JArr (map JInt (c_tags c)))
  else None.

(** An object with exactly the resources of a chip. *)
Definition resources_like (c : chip) (v : json) : Prop :=
  exists d, v = JObj d /\ NoDup (map fst d) /\ forall key w, has d key w <-> resource c key = Some w.

(** The item for chip [c]: its place, its details, and its exceptions if there are any, that
    is the resources in which it differs from the model chip of its kind. *)
Definition item_for (plain boot : chip) (c : chip) (item : json) : Prop :=
  exists details exceptions,
    item = JArr ([JInt (c_x c); JInt (c_y c); JObj details] ++
                 match exceptions with [] => [] | _ => [JObj exceptions] end) /\
    NoDup (map fst details) /\ NoDup (map fst exceptions) /\
    (forall key, In key (map fst details) -> In key ["cores"; "ethernet"; "deadLinks"; "ipAddress"]%string) /\
    has details "cores" (JInt (Z.of_nat (List.length (c_scamp c ++ c_placable c)))) /\
    has details "ethernet" (JArr [JInt (c_eth_x c); JInt (c_eth_y c)]) /\
    match c_ip c with Some a => has details "ipAddress" (JStr a) | None => lacks details "ipAddress" end /\
    ((lacks details "deadLinks" /\ forall l, 0 <= l < 6 -> is_link (c_router c) l = true) \/
     (exists dead, dead <> [] /\ has details "deadLinks" (JArr (map JInt dead)) /\ StronglySorted Z.lt dead /\
        forall l, In l dead <-> 0 <= l < 6 /\ is_link (c_router c) l = false)) /\
    (forall key v, has exceptions key v <->
       resource c key = Some v /\
       resource (match c_ip c with Some _ => boot | None => plain end) key <> Some v).

(** The first of the chips without an address. *)
Definition first_without_address (cs : list chip) (c : chip) : Prop :=
  exists before after, cs = before ++ c :: after /\ c_ip c = None /\ forall b, In b before -> c_ip b <> None.
