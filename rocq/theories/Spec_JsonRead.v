(** What a JSON description of a machine says, read as a document. *)
From Coq Require Import Sorted.
From Verif Require Import Model_Py Model_Wrap Model_Core Model_Str Spec_Str Model_Json Spec_Decimal.
Open Scope list_scope.
Open Scope Z_scope.

Definition has (d : jobject) (key : string) (v : json) : Prop := dget String.eqb d key = Some v.
Definition lacks (d : jobject) (key : string) : Prop := dget String.eqb d key = None.

(** A number may be a number, a truth value or a text, but not a float. *)
Inductive says_int : json -> Z -> Prop :=
| SaysNumber n : says_int (JInt n) n
| SaysTrue : says_int (JBool true) 1
| SaysFalse : says_int (JBool false) 0
| SaysText s n : int_text s n -> says_int (JStr s) n.

(** Equal to a number for Python: texts are not, floats that are whole numbers are. *)
Definition equals (v : json) (n : Z) : Prop :=
  v = JInt n \/ (v = JBool true /\ n = 1) \/ (v = JBool false /\ n = 0) \/
  (exists f, v = JFloat f /\ is_whole f n).

(** The resources of one kind of chip. *)
Definition resources (o : jobject) (kind : string) (r : jobject) : Prop :=
  has o kind (JObj r) /\
  (exists v, has r "monitors" v) /\
  (exists v n, has r "routerEntries" v /\ says_int v n) /\
  (exists v n, has r "sdram" v /\ says_int v n) /\
  (exists l, has r "tags" (JArr l)).

(** A resource of a chip: its own exception, or else that of its kind. *)
Definition setting (exceptions r : jobject) (key : string) (v : json) : Prop :=
  has exceptions key v \/ (lacks exceptions key /\ has r key v).

Definition dead_link (details : jobject) (l : Z) : Prop :=
  exists dead v, has details "deadLinks" (JArr dead) /\ In v dead /\ equals v l.

(** The item of the list of chips says that there is the chip [ch]. *)
Definition chip_says (k : wrap) (w h : Z) (o : jobject) (item : json) (ch : chip) : Prop :=
  exists jx jy details more exceptions r,
    item = JArr (jx :: jy :: JObj details :: more) /\
    (more = [] /\ exceptions = [] \/ exists more', more = JObj exceptions :: more') /\
    (* place *)
    says_int jx (c_x ch) /\ says_int jy (c_y ch) /\
    (exists jex jey, has details "ethernet" (JArr [jex; jey]) /\
       says_int jex (c_eth_x ch) /\ says_int jey (c_eth_y ch)) /\
    (* the address decides the kind of chip *)
    ((exists ip, has details "ipAddress" (JStr ip) /\ c_ip ch = Some ip /\ resources o "ethernetResources" r) \/
     (lacks details "ipAddress" /\ c_ip ch = None /\ resources o "standardResources" r)) /\
    (* resources *)
    (exists v, setting exceptions r "monitors" v /\ equals v 1) /\
    (exists v, setting exceptions r "routerEntries" v /\ says_int v (r_entries (c_router ch))) /\
    (exists v, setting exceptions r "sdram" v /\ says_int v (c_sdram ch)) /\
    (exists l ts, setting exceptions r "tags" (JArr l) /\ Forall2 says_int l ts /\ c_tags ch = oset_of ts) /\
    (* cores *)
    (exists v n, has details "cores" v /\ says_int v n /\ c_scamp ch = [0] /\ c_placable ch = zrange 1 n) /\
    (* links: those that are not dead, in order, to the neighbours *)
    (lacks details "deadLinks" \/ exists dead, has details "deadLinks" (JArr dead)) /\
    (exists live, StronglySorted Z.lt live /\
       (forall l, In l live <-> 0 <= l < 6 /\ ~ dead_link details l) /\
       Forall2 (fun l entry => exists dx dy, xy_over_link k w h (c_x ch) (c_y ch) l = Ok (dx, dy) /\
                  entry = (l, mkLink (c_x ch) (c_y ch) l dx dy)) live (r_links (c_router ch))) /\
    c_parent ch = None.
