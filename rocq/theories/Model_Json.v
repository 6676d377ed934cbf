(** json_machine.py.  The version that the code gets from
    MachineDataView.get_machine_version() and the machine from
    MachineDataView.get_machine() are arguments.  Here descriptions are
    JSON values; the files and their texts are in Model_JsonText.v. *)
From Coq Require Import SpecFloat.
From Verif Require Import Model_Py Model_Wrap Model_Version Model_Core Model_Machine Model_Str Model_Decimal.
Open Scope list_scope.
Open Scope Z_scope.

(** JSON values as json.load makes them (spinn_utilities.typing.json) *)
Inductive json : Type :=
| JNull
| JBool (b : bool)
| JInt (n : Z)
| JFloat (f : spec_float)
| JStr (s : string)
| JArr (l : list json)
| JObj (d : dict string json).

Definition jobject : Type := dict string json.

(** json_machine.py:27 JAVA_MAX_INT *)
Definition JAVA_MAX_INT : Z := 2147483647.

(** json_machine.py:46-52 _int; bool is a subclass of int in Python *)
Definition j_int (v : json) : res Z :=
  match v with
  | JInt n => Ok n
  | JBool b => Ok (if b then 1 else 0)
  | JStr s => py_int s
  | _ => Err ValueError
  end.

(** json_machine.py:55-59 _str *)
Definition j_str (v : json) : res string :=
  match v with JStr s => Ok s | _ => Err ValueError end.

(** json_machine.py:62-66 _ary *)
Definition j_ary (v : json) : res (list json) :=
  match v with JArr l => Ok l | _ => Err ValueError end.

(** json_machine.py:69-73 _obj *)
Definition j_obj (v : json) : res jobject :=
  match v with JObj d => Ok d | _ => Err ValueError end.

Definition jget (d : jobject) (k : string) : res json := dgetitem String.eqb d k.

(** [n == v], [n in l] for an int n and JSON values *)
Definition j_eq_int (n : Z) (v : json) : bool :=
  match v with
  | JInt m => m =? n
  | JBool b => (if b then 1 else 0) =? n
  | JFloat f => float_eq_int f n
  | _ => false
  end.

(** json_machine.py:123-134: [exceptions] for one chip; the state is
    (monitors, router_entries, sdram, tag_ids) *)
Definition j_exceptions (ex : jobject) (s : json * Z * Z * list json)
  : res (json * Z * Z * list json) :=
  let '(monitors, entries, sdram, tags) := s in
  let monitors := match dget String.eqb ex "monitors"%string with Some v => v | None => monitors end in
  do entries <- match dget String.eqb ex "routerEntries"%string with Some v => j_int v | None => Ok entries end ;
  do sdram <- match dget String.eqb ex "sdram"%string with Some v => j_int v | None => Ok sdram end ;
  do tags <- match dget String.eqb ex "tags"%string with Some v => j_ary v | None => Ok tags end ;
  Ok (monitors, entries, sdram, tags).

(** json_machine.py:107-163: one chip *)
Definition j_chip (m : machine) (std eth : json * Z * Z * list json) (aj : json) : res machine :=
  do j <- j_ary aj ;
  do details <- (do d <- py_index j 2 ; j_obj d) ;
  do x <- (do a <- py_index j 0 ; j_int a) ;
  do y <- (do a <- py_index j 1 ; j_int a) ;
  do board <- (do a <- jget details "ethernet"%string ; j_ary a) ;
  match board with
  | [bx; by_] =>
      do (ip, s) <- match dget String.eqb details "ipAddress"%string with
                    | Some a => do a <- j_str a ; Ok (Some a, eth)
                    | None => Ok (None, std)
                    end ;
      do (monitors, entries, sdram, tags) <-
        (if Z.of_nat (List.length j) >? 3
         then do e <- (do a <- py_index j 3 ; j_obj a) ; j_exceptions e s
         else Ok s) ;
      if negb (j_eq_int 1 monitors) then Err NotImplementedErr
      else
        do dead <- match dget String.eqb details "deadLinks"%string with
                   | Some a => j_ary a
                   | None => Ok []
                   end ;
        do links <- fold_res (fun links l =>
            if existsb (j_eq_int l) dead then Ok links
            else do (dx, dy) <- m_over m x y l ; Ok (links ++ [mkLink x y l dx dy])) (zrange 0 6) [] ;
        do r <- new_router links entries ;
        do n <- (do a <- jget details "cores"%string ; j_int a) ;
        do bx <- j_int bx ;
        do by_ <- j_int by_ ;
        do tags <- map_res j_int tags ;
        add_chip m (new_chip x y [0] (zrange 1 n) r sdram bx by_ ip (Some tags) None)
  | _ => Err ValueError
  end.

(** json_machine.py:92-104: the resources under a key *)
Definition j_resources (o : jobject) : res (json * Z * Z * list json) :=
  do monitors <- jget o "monitors"%string ;
  do entries <- (do a <- jget o "routerEntries"%string ; j_int a) ;
  do sdram <- (do a <- jget o "sdram"%string ; j_int a) ;
  do tags <- (do a <- jget o "tags"%string ; j_ary a) ;
  Ok (monitors, entries, sdram, tags).

(** json_machine.py:76-168 machine_from_json for a dict *)
Definition machine_from_json (v : vid) (o : jobject) : res machine :=
  do w <- (do a <- jget o "width"%string ; j_int a) ;
  do h <- (do a <- jget o "height"%string ; j_int a) ;
  do m <- create_machine v (Some w) (Some h) (Some "Json"%string) ;
  do std <- (do a <- jget o "standardResources"%string ; do d <- j_obj a ; j_resources d) ;
  do eth <- (do a <- jget o "ethernetResources"%string ; do d <- j_obj a ; j_resources d) ;
  do cs <- (do a <- jget o "chips"%string ; j_ary a) ;
  do m <- fold_res (fun m aj => j_chip m std eth aj) cs m ;
  do m <- add_spinnaker_links v m ;
  add_fpga_links v m.

(** json_machine.py:171-175 _int_value *)
Definition int_value (n : Z) : Z := if n <? JAVA_MAX_INT then n else JAVA_MAX_INT.

(** json_machine.py:31-43 _Desc *)
Record desc : Type := mkDesc {
  d_monitors : Z; d_entries : Z; d_sdram : Z; d_tags : list Z
}.

Definition zlist_eqb (a b : list Z) : bool :=
  (Nat.eqb (List.length a) (List.length b)) && forallb (fun p => fst p =? snd p) (combine a b).

(** json_machine.py:201-227: the exceptions of a chip relative to a description *)
Definition describe_exceptions (c : chip) (d : desc) : jobject :=
  let entries := int_value (r_entries (c_router c)) in
  (if n_scamp_processors c =? d_monitors d then []
   else [("monitors"%string, JInt (n_scamp_processors c))]) ++
  (if entries =? d_entries d then [] else [("routerEntries"%string, JInt entries)]) ++
  (if c_sdram c =? d_sdram d then [] else [("sdram"%string, JInt (c_sdram c))]) ++
  (if zlist_eqb (c_tags c) (d_tags d) then []
   else [("tags"%string, JArr (map JInt (c_tags c)))]).

(** json_machine.py:179-230 _describe_chip; the keys are all new when they are set.
    Chips always have a nearest Ethernet chip here. *)
Definition describe_chip (c : chip) (std eth : desc) : json :=
  let dead := filter (fun l => negb (is_link (c_router c) l)) (zrange 0 6) in
  let details :=
    [("cores"%string, JInt (n_processors c));
     ("ethernet"%string, JArr [JInt (c_eth_x c); JInt (c_eth_y c)])] ++
    (match dead with [] => [] | _ => [("deadLinks"%string, JArr (map JInt dead))] end) in
  let '(details, exceptions) :=
    match c_ip c with
    | Some a => (details ++ [("ipAddress"%string, JStr a)], describe_exceptions c eth)
    | None => (details, describe_exceptions c std)
    end in
  JArr ([JInt (c_x c); JInt (c_y c); JObj details] ++
        match exceptions with [] => [] | _ => [JObj exceptions] end).

(** json_machine.py:242-248, 252-259: the description of a chip *)
Definition desc_of (c : chip) : desc :=
  mkDesc (n_processors c - n_placable_processors c) (int_value (r_entries (c_router c)))
    (c_sdram c) (c_tags c).

Definition json_of_desc (d : desc) : json :=
  JObj [("monitors"%string, JInt (d_monitors d)); ("routerEntries"%string, JInt (d_entries d));
        ("sdram"%string, JInt (d_sdram d)); ("tags"%string, JArr (map JInt (d_tags d)))].

(** json_machine.py:233-286 to_json *)
Definition to_json (m : machine) : res jobject :=
  do boot <- boot_chip m ;
  let eth := desc_of boot in
  do std <- (if n_chips m >? 1 then
               match find (fun c => match c_ip c with None => true | Some _ => false end) (chips m) with
               | Some c => Ok (desc_of c)
               | None => Err ValueError
               end
             else Ok eth) ;
  Ok [("height"%string, JInt (m_height m)); ("width"%string, JInt (m_width m));
      ("root"%string, JArr [JInt 0; JInt 0]);
      ("standardResources"%string, json_of_desc std);
      ("ethernetResources"%string, json_of_desc eth);
      ("chips"%string, JArr (map (fun c => describe_chip c std eth) (chips m)))].
