(** C63: what to_json writes. *)
From Coq Require Import Lia ZifyBool Sorted.
From Verif Require Import Model_Py Model_Wrap Model_Version Model_Core Model_Machine Model_Json
  Spec_Hops Spec_Board Spec_Machine Spec_Repair Spec_Json Spec_JsonRead Spec_JsonWrite Proof_Wrap Proof_Py Proof_Board Proof_Machine
  Proof_Json Prop_Json.
Open Scope list_scope.
Open Scope Z_scope.

Lemma int_value_min n : int_value n = Z.min n (2 ^ 31 - 1).
Proof. unfold int_value, JAVA_MAX_INT. destruct (n <? 2147483647) eqn:E; lia. Qed.

Lemma zlist_eqb_map a b : zlist_eqb a b = true <-> map JInt a = map JInt b.
Proof.
  unfold zlist_eqb. rewrite andb_true_iff, Nat.eqb_eq. revert b.
  induction a as [|x a IH]; intros [|y b]; cbn [List.length combine forallb map fst snd];
    try (split; [intros [? _]; discriminate|discriminate]); [tauto|].
  rewrite andb_true_iff, Z.eqb_eq. specialize (IH b). split.
  - intros [L [-> F]]. f_equal. apply IH. split; [lia|auto].
  - intros E. assert (x = y) as -> by congruence. assert (map JInt a = map JInt b) as E2 by congruence.
    apply IH in E2 as [-> ?]. auto.
Qed.

Lemma scamp_count c : n_processors c - n_placable_processors c = Z.of_nat (List.length (c_scamp c)).
Proof. unfold n_processors, n_placable_processors. lia. Qed.

Lemma desc_resources c : resources_like c (json_of_desc (desc_of c)).
Proof.
  unfold json_of_desc, desc_of. cbn [d_monitors d_entries d_sdram d_tags].
  eexists. split; [reflexivity|]. split.
  - cbn. repeat constructor; cbn; intuition discriminate.
  - intros key w. unfold has, resource. rewrite scamp_count, int_value_min.
    cbn [dget]. rewrite ?(String.eqb_sym key).
    destruct (String.eqb "monitors" key); [tauto|]. destruct (String.eqb "routerEntries" key); [tauto|].
    destruct (String.eqb "sdram" key); [tauto|]. destruct (String.eqb "tags" key); tauto.
Qed.

Lemma exceptions_of c b :
  NoDup (map fst (describe_exceptions c (desc_of b))) /\
  forall key v, has (describe_exceptions c (desc_of b)) key v <->
    resource c key = Some v /\ resource b key <> Some v.
Proof.
  unfold describe_exceptions, desc_of. cbn [d_monitors d_entries d_sdram d_tags].
  rewrite scamp_count. unfold n_scamp_processors. rewrite !int_value_min.
  unfold has, resource.
  set (m1 := Z.of_nat (List.length (c_scamp c))). set (m2 := Z.of_nat (List.length (c_scamp b))).
  set (e1 := Z.min (r_entries (c_router c)) (2 ^ 31 - 1)). set (e2 := Z.min (r_entries (c_router b)) (2 ^ 31 - 1)).
  pose proof (zlist_eqb_map (c_tags c) (c_tags b)) as TT.
  clearbody m1 m2 e1 e2. generalize dependent (zlist_eqb (c_tags c) (c_tags b)). intros tt TT.
  set (t1 := map JInt (c_tags c)) in *. set (t2 := map JInt (c_tags b)) in *. clearbody t1 t2.
  set (s1 := c_sdram c). set (s2 := c_sdram b). clearbody s1 s2.
  pose proof (Z.eqb_eq m1 m2) as MM. pose proof (Z.eqb_eq e1 e2) as EE. pose proof (Z.eqb_eq s1 s2) as SS.
  destruct (m1 =? m2), (e1 =? e2), (s1 =? s2), tt; cbn [app map fst dget];
  (split; [repeat (first [apply NoDup_nil | apply NoDup_cons; [cbn; intuition discriminate|]])|]);
  intros key v; rewrite ?(String.eqb_sym key);
  (destruct (String.eqb "monitors" key) eqn:K1;
    [apply String.eqb_eq in K1; subst key; cbn; clear TT EE SS|
   destruct (String.eqb "routerEntries" key) eqn:K2;
    [apply String.eqb_eq in K2; subst key; cbn; clear TT MM SS|
   destruct (String.eqb "sdram" key) eqn:K3;
    [apply String.eqb_eq in K3; subst key; cbn; clear TT MM EE|
   destruct (String.eqb "tags" key) eqn:K4;
    [apply String.eqb_eq in K4; subst key; cbn; clear SS MM EE|]]]]); cbv beta iota;
  (split; [intros X; first [discriminate|split; [exact X|intros Y;
             match goal with H : false = true <-> ?a = ?b |- _ =>
               let E := fresh in assert (a = b) as E by congruence; apply H in E; discriminate E end]]|
           intros [X Y]; first [exact X|discriminate X|
             exfalso; apply Y; rewrite <- X;
             match goal with H : true = true <-> ?a = ?b |- _ =>
               rewrite (proj1 H eq_refl); reflexivity end]]).
Qed.

Lemma find_first (cs : list chip) :
  match find (fun c => match c_ip c with None => true | Some _ => false end) cs with
  | Some c => first_without_address cs c
  | None => forall c, In c cs -> c_ip c <> None
  end.
Proof.
  induction cs as [|c cs IH]; cbn [find]; [intros c []|].
  destruct (c_ip c) eqn:E.
  - destruct (find _ cs) as [b|].
    + destruct IH as (bs & a & -> & N & O). exists (c :: bs), a. split; [reflexivity|]. split; [exact N|].
      intros d [->|D]; [congruence|auto].
    + intros d [->|D]; [congruence|auto].
  - exists [], cs. split; [reflexivity|]. split; [exact E|]. intros b [].
Qed.

Lemma zrange6 : zrange 0 6 = [0; 1; 2; 3; 4; 5].
Proof. reflexivity. Qed.

Lemma sorted_filter {A} (R : A -> A -> Prop) f (l : list A) : StronglySorted R l -> StronglySorted R (filter f l).
Proof.
  induction 1 as [|x l S IH F]; cbn [filter]; [constructor|]. destruct (f x); [|auto].
  constructor; [auto|]. rewrite Forall_forall in *. intros y Y. apply filter_In in Y as [Y _]. auto.
Qed.

Lemma described plain boot c : item_for plain boot c (describe_chip c (desc_of plain) (desc_of boot)).
Proof.
  unfold describe_chip.
  set (dead := filter (fun l => negb (is_link (c_router c) l)) (zrange 0 6)).
  assert (DI : forall l, In l dead <-> 0 <= l < 6 /\ is_link (c_router c) l = false).
  { intros l. unfold dead. rewrite filter_In, in_zrange, negb_true_iff. tauto. }
  assert (DS : StronglySorted Z.lt dead).
  { unfold dead. apply sorted_filter. rewrite zrange6. repeat (constructor; [|repeat constructor; reflexivity]). constructor. }
  clearbody dead.
  assert (n_processors c = Z.of_nat (List.length (c_scamp c ++ c_placable c))) as NP.
  { unfold n_processors. rewrite app_length. lia. }
  rewrite NP.
  set (details := ([("cores"%string, JInt (Z.of_nat (List.length (c_scamp c ++ c_placable c))));
     ("ethernet"%string, JArr [JInt (c_eth_x c); JInt (c_eth_y c)])] ++
     match dead with [] => [] | _ => [("deadLinks"%string, JArr (map JInt dead))] end) ++
     match c_ip c with Some a => [("ipAddress"%string, JStr a)] | None => [] end : jobject).
  pose (ref := match c_ip c with Some _ => boot | None => plain end).
  exists details, (describe_exceptions c (desc_of ref)).
  destruct (exceptions_of c ref) as [EN EH].
  split; [unfold details, ref; destruct (c_ip c); rewrite ?app_nil_r; reflexivity|].
  assert (DL : (dead = [] /\ lacks details "deadLinks") \/
               (dead <> [] /\ has details "deadLinks" (JArr (map JInt dead)))).
  { unfold details, has, lacks. destruct dead; [left|right]; destruct (c_ip c); cbn; split; congruence. }
  split; [unfold details; destruct dead, (c_ip c); cbn; repeat constructor; cbn; intuition discriminate|].
  split; [exact EN|].
  split; [unfold details; destruct dead, (c_ip c); cbn; intuition|].
  split; [reflexivity|]. split; [reflexivity|].
  split; [unfold details, has, lacks; destruct dead, (c_ip c); reflexivity|].
  split; [|exact EH].
  destruct DL as [[D L]|[D H]].
  - left. split; [exact L|]. intros l B. destruct (is_link (c_router c) l) eqn:E; [reflexivity|].
    assert (In l dead) as I by (apply DI; auto). rewrite D in I. destruct I.
  - right. exists dead. auto.
Qed.

(** C63: to_json writes the size, the corner, the resources of the two kinds of chip, and for
    each chip of the machine, in order, its place, cores, Ethernet chip, address and dead links
    and the resources in which it differs from its kind.  It raises only when there is no chip
    at (0, 0), or when there are several chips and all have an address. *)
Theorem C63_what_is_written m :
  match to_json m with
  | Ok o =>
      exists boot plain items,
        get_chip_at m 0 0 = Some boot /\
        (n_chips m <= 1 /\ plain = boot \/ 1 < n_chips m /\ first_without_address (chips m) plain) /\
        map fst o = ["height"; "width"; "root"; "standardResources"; "ethernetResources"; "chips"]%string /\
        has o "height" (JInt (m_height m)) /\
        has o "width" (JInt (m_width m)) /\
        has o "root" (JArr [JInt 0; JInt 0]) /\
        (exists v, has o "standardResources" v /\ resources_like plain v) /\
        (exists v, has o "ethernetResources" v /\ resources_like boot v) /\
        has o "chips" (JArr items) /\
        Forall2 (item_for plain boot) (chips m) items
  | Err e =>
      e = KeyError /\ get_chip_at m 0 0 = None \/
      e = ValueError /\ 1 < n_chips m /\ (forall c, In c (chips m) -> c_ip c <> None)
  end.
Proof.
  unfold to_json, boot_chip, get_chip_at, dgetitem. destruct (dget _ _ _) as [boot|]; [|cbn [bind]; auto]. cbn [bind].
  assert (FF : forall plain, Forall2 (item_for plain boot) (chips m)
     (map (fun c => describe_chip c (desc_of plain) (desc_of boot)) (chips m))).
  { intros plain. induction (chips m) as [|c cs IH]; cbn [map]; constructor; [apply described|exact IH]. }
  assert (W : forall plain, (n_chips m <= 1 /\ plain = boot \/ 1 < n_chips m /\ first_without_address (chips m) plain) ->
     exists boot0 plain0 items,
        Some boot = Some boot0 /\
        (n_chips m <= 1 /\ plain0 = boot0 \/ 1 < n_chips m /\ first_without_address (chips m) plain0) /\
        map fst (written m boot plain) = ["height"; "width"; "root"; "standardResources"; "ethernetResources"; "chips"]%string /\
        has (written m boot plain) "height" (JInt (m_height m)) /\
        has (written m boot plain) "width" (JInt (m_width m)) /\
        has (written m boot plain) "root" (JArr [JInt 0; JInt 0]) /\
        (exists v, has (written m boot plain) "standardResources" v /\ resources_like plain0 v) /\
        (exists v, has (written m boot plain) "ethernetResources" v /\ resources_like boot0 v) /\
        has (written m boot plain) "chips" (JArr items) /\
        Forall2 (item_for plain0 boot0) (chips m) items).
  { intros plain P. exists boot, plain. eexists. split; [reflexivity|]. split; [exact P|].
    do 4 (split; [reflexivity|]).
    split; [eexists; split; [reflexivity|apply desc_resources]|].
    split; [eexists; split; [reflexivity|apply desc_resources]|].
    split; [reflexivity|apply FF]. }
  destruct (Z.gtb_spec (n_chips m) 1) as [G|G].
  - pose proof (find_first (chips m)) as F. destruct (find _ _) as [plain|]; cbn [bind]; [|auto].
    apply (W plain). auto.
  - cbn [bind]. apply (W boot). auto.
Qed.
Print Assumptions C63_what_is_written.

(** Three chips, the last with fewer cores, its own resources and dead links. *)
Example C63_case :
  match to_json (machine_of V3 2 2 "" case_chips) with
  | Ok o => map snd (filter (fun e => String.eqb (fst e) "chips") o)
  | Err _ => []
  end =
  [JArr
    [JArr [JInt 0; JInt 0;
       JObj [("cores", JInt 18); ("ethernet", JArr [JInt 0; JInt 0]);
             ("deadLinks", JArr [JInt 2; JInt 3; JInt 4; JInt 5]); ("ipAddress", JStr "127.0.0.0")]];
     JArr [JInt 0; JInt 1;
       JObj [("cores", JInt 18); ("ethernet", JArr [JInt 0; JInt 0]);
             ("deadLinks", JArr [JInt 1; JInt 2; JInt 3; JInt 4; JInt 5])]];
     JArr [JInt 1; JInt 1;
       JObj [("cores", JInt 17); ("ethernet", JArr [JInt 0; JInt 0]);
             ("deadLinks", JArr [JInt 0; JInt 1; JInt 2; JInt 5])];
       JObj [("routerEntries", JInt 1000); ("sdram", JInt 90); ("tags", JArr [JInt 5; JInt 2])]]]]%string.
Proof. vm_compute. reflexivity. Qed.
Example C63_case_raises :
  to_json (machine_of V3 2 2 "" (tl case_chips)) = Err KeyError.
Proof. vm_compute. reflexivity. Qed.
