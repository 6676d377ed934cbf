(** Specification of hops: what it means to walk over links.  Written only in
    terms of [xy_over_link], the observable single hop. *)
From Verif Require Import Model_Py Model_Wrap.

(** Which dimensions of a machine class wrap around. *)
Definition wraps_x (k : wrap) : bool :=
  match k with HorWrap | FullWrap => true | _ => false end.
Definition wraps_y (k : wrap) : bool :=
  match k with VerWrap | FullWrap => true | _ => false end.

(** A machine size that makes sense for its class. *)
Definition good_size (k : wrap) (w h : Z) : Prop :=
  (wraps_x k = true -> 0 < w) /\ (wraps_y k = true -> 0 < h).

(** A coordinate is canonical when it lies inside the machine in every
    dimension that wraps (in the others any coordinate may be named). *)
Definition canonical (k : wrap) (w h : Z) (p : XY) : Prop :=
  (wraps_x k = true -> 0 <= fst p < w) /\
  (wraps_y k = true -> 0 <= snd p < h).

(** Following a list of links, one hop at a time. *)
Fixpoint follow (k : wrap) (w h : Z) (p : XY) (links : list Z) : res XY :=
  match links with
  | [] => Ok p
  | l :: rest => do q <- xy_over_link k w h (fst p) (snd p) l ;
                 follow k w h q rest
  end.

(** A route: only the six links of a router are used. *)
Definition route (k : wrap) (w h : Z) (p q : XY) (links : list Z) : Prop :=
  Forall (fun l => 0 <= l < 6) links /\ follow k w h p links = Ok q.

(** [n] is the length of the shortest route. *)
Definition shortest (k : wrap) (w h : Z) (p q : XY) (n : Z) : Prop :=
  (exists links, route k w h p q links /\ Z.of_nat (List.length links) = n) /\
  (forall links, route k w h p q links -> n <= Z.of_nat (List.length links)).

(** The hops named by a vector (x, y, z): x along links 0/3, y along links
    2/5, z along links 4/1. *)
Definition vector_hops (v : Z * Z * Z) : list Z :=
  let '(x, y, z) := v in
  repeat (if x <? 0 then 3 else 0) (Z.to_nat (Z.abs x)) ++
  repeat (if y <? 0 then 5 else 2) (Z.to_nat (Z.abs y)) ++
  repeat (if z <? 0 then 1 else 4) (Z.to_nat (Z.abs z)).
