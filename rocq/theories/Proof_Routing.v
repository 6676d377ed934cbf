From Coq Require Import Lia ZifyBool.
From Verif Require Import Model_Py Model_Core Model_Str Model_Ignore Model_Routing Spec_Routing
  Proof_Py Proof_Board Proof_Str.
Open Scope list_scope.
Open Scope Z_scope.

Lemma frozenset_in l x : In x (frozenset l) <-> In x l.
Proof. unfold frozenset. rewrite (set_adds_in Z.eqb Z.eqb_eq). cbn. tauto. Qed.

Lemma shl1_bit n m : 0 <= n -> 0 <= m -> Z.testbit (Z.shiftl 1 n) m = true <-> m = n.
Proof.
  intros N M. rewrite Z.shiftl_spec by auto.
  destruct (Z.eq_dec m n) as [->|D].
  - rewrite Z.sub_diag. cbn. tauto.
  - split; [|tauto]. destruct (Z.lt_ge_cases m n).
    + rewrite Z.testbit_neg_r by lia. discriminate.
    + rewrite (Z.bits_above_log2 1) by (cbn; lia). discriminate.
Qed.

Lemma land_shl1 r n : 0 <= n -> negb (Z.land r (Z.shiftl 1 n) =? 0) = Z.testbit r n.
Proof.
  intros N. destruct (Z.testbit r n) eqn:T.
  - apply negb_true_iff. apply Z.eqb_neq. intros E. apply (f_equal (fun z => Z.testbit z n)) in E.
    rewrite Z.land_spec, T, Z.bits_0 in E. cbn [andb] in E.
    assert (Z.testbit (Z.shiftl 1 n) n = true) by (apply shl1_bit; auto). congruence.
  - apply negb_false_iff. apply Z.eqb_eq. apply Z.bits_inj'. intros m M.
    rewrite Z.land_spec, Z.bits_0. destruct (Z.testbit (Z.shiftl 1 n) m) eqn:S.
    + apply shl1_bit in S; auto. subst. rewrite T. auto.
    + apply andb_false_r.
Qed.

Lemma calc_ids_procs r p : In p (fst (calc_routing_ids r)) <-> 0 <= p < 18 /\ Z.testbit r (6 + p) = true.
Proof.
  unfold calc_routing_ids. cbn [fst]. rewrite filter_In, in_zrange. unfold MAX_CORES_PER_ROUTER, MAX_LINKS_PER_ROUTER.
  split; intros [H T]; split; auto; rewrite land_shl1 in *; auto; lia.
Qed.

Lemma calc_ids_links r l : In l (snd (calc_routing_ids r)) <-> 0 <= l < 6 /\ Z.testbit r l = true.
Proof.
  unfold calc_routing_ids. cbn [snd]. rewrite filter_In, in_zrange. unfold MAX_LINKS_PER_ROUTER.
  split; intros [H T]; split; auto; rewrite land_shl1 in *; auto; lia.
Qed.

(** One loop of the encoding. *)
Lemma or_bits (f : Z -> Z) l : forall r,
  (forall x, In x l -> 0 <= f x) ->
  exists r', fold_res (fun r p => do b <- shl1 (f p) ; Ok (Z.lor r b)) l r = Ok r' /\
    (0 <= r -> 0 <= r') /\
    forall n, 0 <= n -> Z.testbit r' n = true <-> Z.testbit r n = true \/ exists x, In x l /\ f x = n.
Proof.
  induction l as [|a l IH]; intros r H; cbn [fold_res].
  - exists r. split; auto. split; auto. intros n N. split; auto. intros [T|(x & [] & _)]; auto.
  - unfold shl1 at 1. assert (0 <= f a) as F by (apply H; left; auto).
    destruct (f a <? 0) eqn:B; [lia|]. cbn [bind].
    destruct (IH (Z.lor r (Z.shiftl 1 (f a)))) as (r' & E & P & T); [intros; apply H; right; auto|].
    exists r'. split; auto. split.
    + intros R. apply P. apply Z.lor_nonneg. split; auto. apply Z.shiftl_nonneg. lia.
    + intros n N. rewrite T by auto. rewrite Z.lor_spec, orb_true_iff, shl1_bit by auto. split.
      * intros [[Hr|Ha]|(x & X & Y)].
        -- left; auto.
        -- right. exists a. cbn. auto.
        -- right. exists x. cbn. auto.
      * intros [Hr|(x & [Ha|X] & Y)].
        -- left; auto.
        -- left. right. subst. auto.
        -- right. eauto.
Qed.

Lemma or_bits_err (f : Z -> Z) l : forall r,
  (exists x, In x l /\ f x < 0) ->
  fold_res (fun r p => do b <- shl1 (f p) ; Ok (Z.lor r b)) l r = Err ValueError.
Proof.
  induction l as [|a l IH]; intros r (x & H & N); cbn [fold_res]; [destruct H|].
  unfold shl1 at 1. destruct (f a <? 0) eqn:B; cbn [bind]; auto.
  apply IH. destruct H as [->|H]; [lia|eauto].
Qed.

Lemma neg_dec (f : Z -> Z) (l : list Z) : (forall x, In x l -> 0 <= f x) \/ (exists x, In x l /\ f x < 0).
Proof.
  induction l as [|a l IH]; [left; intros x []|].
  destruct (Z.lt_ge_cases (f a) 0) as [L|L]; [right; exists a; cbn; auto|].
  destruct IH as [IH|(x & H & N)]; [left|right; exists x; cbn; auto].
  intros x [<-|H]; [lia|auto].
Qed.

Lemma calc_route_ok ps ls :
  (forall p, In p ps -> -6 <= p) -> (forall l, In l ls -> 0 <= l) ->
  exists r, calc_spinnaker_route ps ls = Ok r /\ 0 <= r /\
    forall n, 0 <= n -> Z.testbit r n = true <-> In n ls \/ In (n - 6) ps.
Proof.
  intros P L. unfold calc_spinnaker_route.
  destruct (or_bits (fun p => MAX_LINKS_PER_ROUTER + p) ps 0) as (r1 & E1 & N1 & T1).
  { unfold MAX_LINKS_PER_ROUTER. intros x Hx. apply P in Hx. lia. }
  cbv beta in E1. rewrite E1. cbn [bind].
  destruct (or_bits (fun l => l) ls r1) as (r & E & N & T); auto. cbv beta in E.
  exists r. split; auto. split; [apply N, N1; lia|].
  intros n Hn. rewrite T, T1 by auto. rewrite Z.bits_0. unfold MAX_LINKS_PER_ROUTER. split.
  - intros [[X|(x & X & <-)]|(x & X & <-)]; [discriminate|right|auto].
    replace (6 + x - 6) with x by lia. auto.
  - intros [X|X]; [right; eauto|left; right]. exists (n - 6). split; auto. lia.
Qed.

Lemma calc_route_err ps ls :
  (exists p, In p ps /\ p < -6) \/ (exists l, In l ls /\ l < 0) ->
  calc_spinnaker_route ps ls = Err ValueError.
Proof.
  intros H. unfold calc_spinnaker_route.
  destruct (neg_dec (fun p => MAX_LINKS_PER_ROUTER + p) ps) as [P|P].
  2: { rewrite (or_bits_err (fun p => MAX_LINKS_PER_ROUTER + p)) by auto. reflexivity. }
  destruct (or_bits (fun p => MAX_LINKS_PER_ROUTER + p) ps 0 P) as (r1 & E1 & _). cbv beta in E1.
  rewrite E1. cbn [bind]. apply (or_bits_err (fun l => l)).
  destruct H as [(p & H & N)|H]; auto. exfalso. specialize (P p H). unfold MAX_LINKS_PER_ROUTER in P. lia.
Qed.

Lemma calc_route_cases ps ls :
  ((forall p, In p ps -> -6 <= p) /\ (forall l, In l ls -> 0 <= l)) \/
  ((exists p, In p ps /\ p < -6) \/ (exists l, In l ls /\ l < 0)).
Proof.
  destruct (neg_dec (fun p => p + 6) ps) as [P|(p & H & N)].
  - destruct (neg_dec (fun l => l) ls) as [L|L]; auto. left. split; auto. intros p H. apply P in H. lia.
  - right. left. exists p. split; auto. lia.
Qed.

Lemma calc_route_same ps ls ps' ls' : same_members ps ps' -> same_members ls ls' ->
  calc_spinnaker_route ps ls = calc_spinnaker_route ps' ls'.
Proof.
  intros P L. destruct (calc_route_cases ps ls) as [[A B]|A].
  - destruct (calc_route_ok ps ls A B) as (r & E & N & T).
    destruct (calc_route_ok ps' ls') as (r' & E' & N' & T').
    { intros p H. apply A, P, H. } { intros l H. apply B, L, H. }
    rewrite E, E'. f_equal. apply Z.bits_inj'. intros n Hn. apply eq_true_iff_eq.
    rewrite T, T' by auto. rewrite (L n), (P (n - 6)). tauto.
  - rewrite !calc_route_err; auto.
    destruct A as [(p & H & N)|(l & H & N)]; [left; exists p|right; exists l]; split; auto;
      [apply P|apply L]; auto.
Qed.

(** ** The constructor *)
Definition of_ids (ps ls : list Z) (d : bool) (r : Z) : entry :=
  mkEntry d (Some (frozenset ps)) (Some (frozenset ls)) r.

Lemma new_from_ids ps ls ip il :
  new_entry (Some ps) (Some ls) ip il None None =
  match calc_spinnaker_route (frozenset (ids_list ps)) (frozenset (ids_list ls)) with
  | Err e => Err e
  | Ok r =>
      match il, ip with
      | Some _, Some _ => Err InvalidParameter
      | None, _ => Ok (of_ids (ids_list ps) (ids_list ls) false r)
      | Some i, None => Ok (of_ids (ids_list ps) (ids_list ls)
          (match ids_list ls with [l] => (i + 3) mod 6 =? l | _ => false end) r)
      end
  end.
Proof.
  unfold new_entry. destruct (calc_spinnaker_route _ _); cbn [bind]; auto.
  destruct il, ip; auto. unfold of_ids. destruct (ids_list ls) as [|? [|? ?]]; auto.
Qed.

Lemma new_cases ps ls ip il d r e : new_entry ps ls ip il d r = Ok e ->
  (exists P L, ps = Some P /\ ls = Some L /\ d = None /\ r = None /\
     e_processor_ids e = Some (frozenset (ids_list P)) /\ e_link_ids e = Some (frozenset (ids_list L)) /\
     calc_spinnaker_route (frozenset (ids_list P)) (frozenset (ids_list L)) = Ok (e_route e)) \/
  (exists n, ps = None /\ ls = None /\ ip = None /\ il = None /\ r = Some n /\
     e = mkEntry (match d with Some true => true | _ => false end) None None n).
Proof.
  destruct r as [n|].
  - unfold new_entry. destruct ps, ls, il, ip; try discriminate. intros E. apply Ok_inj in E. subst e.
    right. exists n. auto 10.
  - destruct ps as [P|], ls as [L|], d as [d|]; try discriminate. rewrite new_from_ids.
    destruct (calc_spinnaker_route _ _) as [r|] eqn:C; [|discriminate]. intros E. left. exists P, L.
    destruct il, ip; try discriminate; apply Ok_inj in E; subst e; auto 10.
Qed.

(** ** Entries that programs can hold *)
Definition entry_inv (e : entry) : Prop :=
  match e_processor_ids e, e_link_ids e with
  | None, None => True
  | Some ps, Some ls =>
      (ps, ls) = calc_routing_ids (e_route e) \/
      ((forall p, In p ps -> -6 <= p) /\ (forall l, In l ls -> 0 <= l) /\ 0 <= e_route e /\
       forall n, 0 <= n -> Z.testbit (e_route e) n = true <-> In n ls \/ In (n - 6) ps)
  | _, _ => False
  end.

Lemma made_inv e : made_entry e -> entry_inv e.
Proof.
  assert (forall ps ls ip il d r e, new_entry ps ls ip il d r = Ok e -> entry_inv e) as K.
  { clear. intros ps ls ip il d r e E. apply new_cases in E
      as [(P & L & -> & -> & -> & -> & E1 & E2 & E3)|(n & _ & _ & _ & _ & _ & ->)]; [|exact I].
    unfold entry_inv. rewrite E1, E2. right.
    destruct (calc_route_cases (frozenset (ids_list P)) (frozenset (ids_list L))) as [[A B]|A].
    - destruct (calc_route_ok _ _ A B) as (r & E & N & T). assert (r = e_route e) as -> by congruence. auto.
    - rewrite calc_route_err in E3 by auto. discriminate. }
  induction 1 as [? ? ? ? ? ? ? E|a b e A IA B IB E|e A IA|e A IA]; eauto.
  - unfold entry_merge in E. destruct (entry_eqb a b); [apply Ok_inj in E; subst; auto|eauto].
  - unfold read_processor_ids. unfold entry_inv in IA. destruct (e_processor_ids e) as [ps|] eqn:EP.
    + unfold entry_inv. cbn [snd]. rewrite EP. exact IA.
    + destruct (calc_routing_ids (e_route e)) as [ps ls] eqn:C. unfold entry_inv. cbn. left. congruence.
  - unfold read_link_ids. unfold entry_inv in IA. destruct (e_link_ids e) as [ls|] eqn:EP.
    + unfold entry_inv. cbn [snd]. rewrite EP. exact IA.
    + destruct (calc_routing_ids (e_route e)) as [ps ls] eqn:C. unfold entry_inv. cbn. left. congruence.
Qed.

Lemma ids_none e : e_processor_ids e = None -> e_link_ids e = None ->
  (processor_ids e, link_ids e) = calc_routing_ids (e_route e).
Proof.
  intros A B. unfold processor_ids, link_ids, read_processor_ids, read_link_ids. rewrite A, B.
  destruct (calc_routing_ids (e_route e)). reflexivity.
Qed.

Lemma ids_some e ps ls : e_processor_ids e = Some ps -> e_link_ids e = Some ls ->
  processor_ids e = ps /\ link_ids e = ls.
Proof.
  intros A B. unfold processor_ids, link_ids, read_processor_ids, read_link_ids. rewrite A, B. auto.
Qed.

Lemma routable_bits e : made_entry e -> routable e ->
  (forall p, In p (processor_ids e) <-> 0 <= p < 18 /\ Z.testbit (e_route e) (6 + p) = true) /\
  (forall l, In l (link_ids e) <-> 0 <= l < 6 /\ Z.testbit (e_route e) l = true).
Proof.
  intros M [R1 R2]. apply made_inv in M. unfold entry_inv in M.
  assert ((processor_ids e, link_ids e) = calc_routing_ids (e_route e) ->
    (forall p, In p (processor_ids e) <-> 0 <= p < 18 /\ Z.testbit (e_route e) (6 + p) = true) /\
    (forall l, In l (link_ids e) <-> 0 <= l < 6 /\ Z.testbit (e_route e) l = true)) as K.
  { intros E. apply (f_equal fst) in E as E1. apply (f_equal snd) in E as E2. cbn [fst snd] in E1, E2.
    rewrite E1, E2. split; [intros; apply calc_ids_procs|intros; apply calc_ids_links]. }
  destruct (e_processor_ids e) as [ps|] eqn:EP, (e_link_ids e) as [ls|] eqn:EL; try contradiction.
  - destruct (ids_some e ps ls EP EL) as [X Y]. rewrite X, Y in *.
    destruct M as [M|(M1 & M2 & M3 & M4)]; [auto|]. split.
    + intros p. split.
      * intros H. specialize (R1 p H). split; auto. apply M4; [lia|]. right. replace (6 + p - 6) with p by lia. auto.
      * intros [H T]. apply M4 in T; [|lia]. destruct T as [T|T]; [apply R2 in T; lia|].
        replace (6 + p - 6) with p in T by lia. auto.
    + intros l. split.
      * intros H. specialize (R2 l H). split; auto. apply M4; [lia|auto].
      * intros [H T]. apply M4 in T; [|lia]. destruct T as [T|T]; auto. apply R1 in T. lia.
  - apply K. apply ids_none; auto.
Qed.

(** An entry made from a route is routable. *)
Lemma none_routable e : e_processor_ids e = None -> e_link_ids e = None -> routable e.
Proof.
  intros A B. pose proof (ids_none e A B) as E. apply (f_equal fst) in E as E1. apply (f_equal snd) in E as E2.
  cbn [fst snd] in E1, E2. unfold routable, routable_ids. rewrite E1, E2. split; intros x H.
  - apply calc_ids_procs in H. tauto.
  - apply calc_ids_links in H. tauto.
Qed.

Lemma entry_eqb_iff a b : entry_eqb a b = true <-> e_route a = e_route b /\ e_defaultable a = e_defaultable b.
Proof.
  unfold entry_eqb. rewrite andb_true_iff, Z.eqb_eq. split; intros [A B]; split; auto.
  - apply Bool.eqb_prop; auto.
  - rewrite B. apply Bool.eqb_reflx.
Qed.

Lemma merge_ok a b : exists e, entry_merge a b = Ok e /\
  e_route e = Z.lor (e_route a) (e_route b) /\
  e_defaultable e = entry_eqb a b && e_defaultable a /\
  ((e_processor_ids e = None /\ e_link_ids e = None) \/ (entry_eqb a b = true /\ e = a)).
Proof.
  unfold entry_merge. destruct (entry_eqb a b) eqn:E.
  - exists a. apply entry_eqb_iff in E as [E1 E2]. split; auto. split; [rewrite <- E1, Z.lor_diag; auto|auto].
  - eexists. split; [reflexivity|]. cbn. auto.
Qed.

Lemma mod24 r n : 0 <= n -> Z.testbit (r mod 2 ^ 24) n = (n <? 24) && Z.testbit r n.
Proof.
  intros H. destruct (n <? 24) eqn:L.
  - apply Z.mod_pow2_bits_low. lia.
  - apply Z.mod_pow2_bits_high. lia.
Qed.

Lemma calc_back r ps ls : calc_routing_ids r = (ps, ls) -> calc_spinnaker_route ps ls = Ok (r mod 2 ^ 24).
Proof.
  intros E. apply (f_equal fst) in E as E1. apply (f_equal snd) in E as E2. cbn [fst snd] in E1, E2. subst ps ls.
  destruct (calc_route_ok (fst (calc_routing_ids r)) (snd (calc_routing_ids r))) as (r' & C & N & T).
  { intros p H. apply calc_ids_procs in H. lia. }
  { intros l H. apply calc_ids_links in H. lia. }
  rewrite C. f_equal. apply Z.bits_inj'. intros n Hn. apply eq_true_iff_eq.
  rewrite T, mod24, andb_true_iff, calc_ids_procs, calc_ids_links by auto.
  replace (6 + (n - 6)) with n by lia. split.
  - intros [[H X]|[H X]]; split; auto; lia.
  - intros [H X]. destruct (Z.lt_ge_cases n 6); [left|right]; split; auto; lia.
Qed.

Lemma convert_calc ps ls : routable_ids ps ls -> convert_to_route ps ls = calc_spinnaker_route ps ls.
Proof.
  intros [P L]. unfold convert_to_route, calc_spinnaker_route.
  assert (forall l r, (forall p, In p l -> 0 <= p < 18) ->
    fold_res (fun r p => if (p >=? MAX_CORES_PER_ROUTER) || (p <? 0) then Err InvalidParameter
      else do b <- shl1 (MAX_LINKS_PER_ROUTER + p) ; Ok (Z.lor r b)) l r =
    fold_res (fun r p => do b <- shl1 (MAX_LINKS_PER_ROUTER + p) ; Ok (Z.lor r b)) l r) as K1.
  { induction l as [|a l IH]; intros r H; cbn [fold_res]; auto. assert (0 <= a < 18) as A by (apply H; left; auto).
    unfold MAX_CORES_PER_ROUTER at 1. destruct ((a >=? 18) || (a <? 0)) eqn:B; [lia|].
    destruct (do b <- shl1 (MAX_LINKS_PER_ROUTER + a); Ok (Z.lor r b)); cbn [bind]; auto.
    apply IH. intros; apply H; right; auto. }
  assert (forall l r, (forall p, In p l -> 0 <= p < 6) ->
    fold_res (fun r p => if (p >=? MAX_LINKS_PER_ROUTER) || (p <? 0) then Err InvalidParameter
      else do b <- shl1 p ; Ok (Z.lor r b)) l r =
    fold_res (fun r p => do b <- shl1 p ; Ok (Z.lor r b)) l r) as K2.
  { induction l as [|a l IH]; intros r H; cbn [fold_res]; auto. assert (0 <= a < 6) as A by (apply H; left; auto).
    unfold MAX_LINKS_PER_ROUTER at 1. destruct ((a >=? 6) || (a <? 0)) eqn:B; [lia|].
    destruct (do b <- shl1 a; Ok (Z.lor r b)); cbn [bind]; auto.
    apply IH. intros; apply H; right; auto. }
  rewrite K1 by auto. destruct (fold_res _ ps 0); cbn [bind]; auto.
Qed.

Lemma convert_bad ps ls : ~ routable_ids ps ls -> convert_to_route ps ls = Err InvalidParameter.
Proof.
  intros NR. unfold convert_to_route.
  assert (forall l r, (forall p, In p l -> 0 <= p < 18) \/
    fold_res (fun r p => if (p >=? MAX_CORES_PER_ROUTER) || (p <? 0) then Err InvalidParameter
      else do b <- shl1 (MAX_LINKS_PER_ROUTER + p) ; Ok (Z.lor r b)) l r = Err InvalidParameter) as K1.
  { induction l as [|a l IH]; intros r; cbn [fold_res]; [left; intros p []|].
    unfold MAX_CORES_PER_ROUTER at 1. destruct ((a >=? 18) || (a <? 0)) eqn:B; [right; auto|].
    unfold shl1 at 1. destruct (MAX_LINKS_PER_ROUTER + a <? 0) eqn:C; [unfold MAX_LINKS_PER_ROUTER in C; lia|].
    cbn [bind]. destruct (IH (Z.lor r (Z.shiftl 1 (MAX_LINKS_PER_ROUTER + a)))) as [H|H]; auto.
    left. intros p [->|X]; auto. lia. }
  assert (forall l r, (forall p, In p l -> 0 <= p < 6) \/
    fold_res (fun r p => if (p >=? MAX_LINKS_PER_ROUTER) || (p <? 0) then Err InvalidParameter
      else do b <- shl1 p ; Ok (Z.lor r b)) l r = Err InvalidParameter) as K2.
  { induction l as [|a l IH]; intros r; cbn [fold_res]; [left; intros p []|].
    unfold MAX_LINKS_PER_ROUTER at 1. destruct ((a >=? 6) || (a <? 0)) eqn:B; [right; auto|].
    unfold shl1 at 1. destruct (a <? 0) eqn:C; [lia|].
    cbn [bind]. destruct (IH (Z.lor r (Z.shiftl 1 a))) as [H|H]; auto.
    left. intros p [->|X]; auto. lia. }
  assert (forall l r, (forall p, In p l -> 0 <= p < 18) -> exists r',
    fold_res (fun r p => if (p >=? MAX_CORES_PER_ROUTER) || (p <? 0) then Err InvalidParameter
      else do b <- shl1 (MAX_LINKS_PER_ROUTER + p) ; Ok (Z.lor r b)) l r = Ok r') as K3.
  { induction l as [|a l IH]; intros r H; cbn [fold_res]; [eauto|].
    assert (0 <= a < 18) as A by (apply H; left; auto).
    unfold MAX_CORES_PER_ROUTER at 1. destruct ((a >=? 18) || (a <? 0)) eqn:B; [lia|].
    unfold shl1 at 1. destruct (MAX_LINKS_PER_ROUTER + a <? 0) eqn:C; [unfold MAX_LINKS_PER_ROUTER in C; lia|].
    cbn [bind]. apply IH. intros; apply H; right; auto. }
  destruct (K1 ps 0) as [P|P].
  - destruct (K3 ps 0 P) as [r' ->]. cbn [bind]. destruct (K2 ls r') as [L|L]; auto. exfalso. apply NR. split; auto.
  - rewrite P. reflexivity.
Qed.
