(** C47 and C48: routers and chips. *)
From Coq Require Import Lia.
From Verif Require Import Model_Py Model_Wrap Model_Core Model_Machine
  Spec_Hops Spec_Machine Spec_Router Spec_Subsets Proof_Wrap Proof_Py Proof_Report Proof_Subsets.

(** C47: a router is the list of the first link with each id, under every
    history of add_link; the outcomes agree. *)
Theorem C47_router_is_a_map_of_links :
  forall entries ls,
    let '(r, outcomes) := router_history (mkRouter [] entries) ls in
    let '(kept, expected) := first_links [] ls in
    outcomes = expected /\ router_links r = kept /\ r_entries r = entries /\
    NoDup (map l_source_link_id kept) /\
    router_len r = Z.of_nat (List.length kept) /\
    router_iter r = map (fun l => (l_source_link_id l, l)) kept /\
    (forall i, get_link r i = find (fun l => l_source_link_id l =? i) ls) /\
    (forall i, is_link r i = existsb (fun l => l_source_link_id l =? i) ls) /\
    get_neighbouring_chips_coords r =
      map (fun l => (l_destination_x l, l_destination_y l)) kept.
Proof.
  intros n ls. pose proof (router_book ls (mkRouter [] n) eq_refl) as H.
  destruct (router_history (mkRouter [] n) ls) as [r es]. destruct H as (B & W & N).
  change (router_links (mkRouter [] n)) with (@nil link) in B. rewrite B.
  assert (forall i, get_link r i = find (fun l => l_source_link_id l =? i) ls) as G.
  { intros i. pose proof (first_links_find ls [] i) as F. rewrite B in F. cbn [fst app] in F.
    rewrite <- F. unfold get_link. rewrite W. apply dget_find. }
  repeat split; auto.
  - pose proof (first_links_nodup ls []) as D. rewrite B in D. apply D. constructor.
  - unfold router_len. rewrite W at 1. rewrite map_length. reflexivity.
  - intros i. unfold is_link, dmem. specialize (G i). unfold get_link in G. rewrite G. clear.
    induction ls as [|l ls IH]; cbn; auto. destruct (l_source_link_id l =? i); auto.
Qed.
Print Assumptions C47_router_is_a_map_of_links.

(** The constructor adds the links one by one and raises at a repeated id. *)
Theorem C47_new_router :
  forall ls entries,
    (NoDup (map l_source_link_id ls) -> exists r, new_router ls entries = Ok r /\
       router_links r = ls /\ r_entries r = entries) /\
    (~ NoDup (map l_source_link_id ls) -> new_router ls entries = Err AlreadyExists).
Proof.
  intros ls n.
  assert (forall ls r, r_links r = map (fun l => (l_source_link_id l, l)) (router_links r) ->
    (NoDup (map l_source_link_id (router_links r ++ ls)) -> exists r',
       fold_res router_add_link ls r = Ok r' /\
       router_links r' = router_links r ++ ls /\ r_entries r' = r_entries r) /\
    (NoDup (map l_source_link_id (router_links r)) ->
     ~ NoDup (map l_source_link_id (router_links r ++ ls)) ->
       fold_res router_add_link ls r = Err AlreadyExists)) as K.
  { clear. induction ls as [|l ls IH]; intros r W.
    - rewrite app_nil_r. cbn. split; [eauto|tauto].
    - assert (dkeys (r_links r) = map l_source_link_id (router_links r)) as KE.
      { rewrite W at 1. unfold dkeys. rewrite map_map. reflexivity. }
      cbn [fold_res]. unfold router_add_link at 1 3.
      destruct (dmem Z.eqb (r_links r) (l_source_link_id l)) eqn:D; cbn [bind].
      + split; [|auto]. intros N. exfalso.
        apply (dmem_in Z.eqb Z.eqb_eq) in D. rewrite KE in D.
        rewrite map_app in N. cbn [map] in N. apply NoDup_remove_2 in N. apply N.
        apply in_app_iff. auto.
      + apply (dmem_false Z.eqb Z.eqb_eq) in D.
        set (r1 := mkRouter (dset Z.eqb (r_links r) (l_source_link_id l) l) (r_entries r)).
        assert (router_links r1 = router_links r ++ [l]) as R1.
        { unfold router_links, r1. cbn [r_links]. rewrite (dset_new Z.eqb Z.eqb_eq) by auto.
          unfold dvalues. rewrite map_app. reflexivity. }
        assert (r_links r1 = map (fun l => (l_source_link_id l, l)) (router_links r1)) as W1.
        { rewrite R1, map_app, <- W. unfold r1. cbn [r_links].
          rewrite (dset_new Z.eqb Z.eqb_eq) by auto. reflexivity. }
        specialize (IH r1 W1). rewrite R1, <- app_assoc in IH. cbn [app] in IH.
        destruct IH as [IH1 IH2]. split; auto. intros N. apply IH2.
        rewrite map_app. cbn [map]. apply nodup_snoc; auto. rewrite <- KE. auto. }
  destruct (K ls (mkRouter [] n) eq_refl) as [K1 K2]. split; [exact K1|].
  intros N. apply K2; auto. constructor.
Qed.
Print Assumptions C47_new_router.

Example C47_case :
  router_history (mkRouter [] 1023)
    [mkLink 0 0 2 0 1; mkLink 0 0 0 1 0; mkLink 0 0 2 5 5] =
  (mkRouter [(2, mkLink 0 0 2 0 1); (0, mkLink 0 0 0 1 0)] 1023, [None; None; Some AlreadyExists]).
Proof. reflexivity. Qed.

(** An ordered set keeps the first of each. *)
Lemma oset_of_firsts t : oset_of t = rev (nodup Z.eq_dec (rev t)).
Proof.
  change (oset_of t = firsts Z.eq_dec t). induction t as [|x t IH] using rev_ind; [reflexivity|].
  unfold oset_of in *. rewrite fold_left_app. cbn [fold_left]. rewrite IH. apply oset_firsts.
Qed.

(** C48: tags and processors of a chip.  Of tag ids given twice the first one counts. *)
Theorem C48_tags :
  forall x y scamp placable r sdram ex ey ip tags parent,
    let c := new_chip x y scamp placable r sdram ex ey ip tags parent in
    NoDup (c_tags c) /\
    (tags = None -> ip = None -> c_tags c = []) /\
    (tags = None -> ip <> None -> c_tags c = [1; 2; 3; 4; 5; 6; 7]) /\
    (forall t, tags = Some t -> forall i, In i (c_tags c) <-> In i t) /\
    (forall t, tags = Some t -> c_tags c = rev (nodup Z.eq_dec (rev t))) /\
    (c_x c, c_y c, c_eth_x c, c_eth_y c, c_sdram c) = (x, y, ex, ey, sdram) /\
    c_ip c = ip /\ c_router c = r /\ c_parent c = parent /\ c_scamp c = scamp /\ c_placable c = placable.
Proof.
  intros x y s p r sd ex ey ip tags parent c. cbn [c c_tags new_chip].
  split; [destruct tags; [apply oset_of_nodup|destruct ip; [apply oset_of_nodup|constructor]]|].
  split; [intros -> ->; reflexivity|].
  split; [intros -> N; destruct ip; [reflexivity|congruence]|].
  split; [intros t -> i; apply oset_of_in|].
  split; [intros t ->; apply oset_of_firsts|]. repeat split.
Qed.
Print Assumptions C48_tags.

Theorem C48_processors :
  forall x y scamp placable r sdram ex ey ip tags parent,
    let c := new_chip x y scamp placable r sdram ex ey ip tags parent in
    (forall p, is_processor_with_id c p = true <-> In p (all_processor_ids c)) /\
    (forall p, In p (all_processor_ids c) <-> In p scamp \/ In p placable) /\
    n_processors c = n_scamp_processors c + n_placable_processors c /\
    n_processors c = Z.of_nat (List.length (all_processor_ids c)).
Proof.
  intros x y s pl r sd ex ey ip tags parent c.
  assert (forall p, In p (all_processor_ids c) <-> In p s \/ In p pl) as A
    by (intros p; unfold all_processor_ids; apply in_app_iff).
  split; [|split; [exact A|split]].
  - intros p. rewrite A. unfold is_processor_with_id. cbn [c new_chip c_placable c_scamp].
    destruct (zmem pl p) eqn:E.
    + apply zmem_in in E. tauto.
    + apply zmem_false in E. rewrite zmem_in. tauto.
  - reflexivity.
  - unfold n_processors, all_processor_ids. rewrite app_length. lia.
Qed.
Print Assumptions C48_processors.

Example C48_case :
  c_tags (new_chip 0 0 [0] [1; 2] (mkRouter [] 1023) 10 0 0 (Some "a"%string) None None)
    = [1; 2; 3; 4; 5; 6; 7] /\
  c_tags (new_chip 0 0 [0] [1; 2] (mkRouter [] 1023) 10 0 0 None (Some [5; 3; 5]) None)
    = [5; 3].
Proof. split; reflexivity. Qed.
