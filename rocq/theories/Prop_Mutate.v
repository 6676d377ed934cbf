(** C62: links added to the router of a chip that is on a machine. *)
From Coq Require Import Lia ZifyBool.
From Verif Require Import Model_Py Model_Wrap Model_Version Model_Core Model_Machine Model_Mutate
  Spec_Hops Spec_Machine Spec_Mutate Proof_Wrap Proof_Concentric Proof_Py Proof_Board
  Proof_Machine Prop_Machine.
Open Scope list_scope.
Open Scope Z_scope.

(** Routers whose dictionary has every link under its own id, as the constructor makes them. *)
Definition own_router (c : chip) : Prop :=
  r_links (c_router c) = map (fun l => (l_source_link_id l, l)) (router_links (c_router c)).

Lemma has_link_dmem c i : own_router c -> dmem Z.eqb (r_links (c_router c)) i = has_link_id c i.
Proof.
  unfold own_router, has_link_id. intros ->. unfold dmem.
  induction (router_links (c_router c)) as [|l ls IH]; cbn; auto.
  destruct (l_source_link_id l =? i); auto.
Qed.

(** ** The machine with given chips in closed form *)
Section Closed.
  Variables (k : wrap) (w h : Z) (ccm : dict XY Z) (o : string).

  Definition boot_step (b : option string) (c : chip) : option string :=
    match c_ip c with Some ip => if xy_eqb (c_xy c) (0, 0) then Some ip else b | None => b end.

  Definition closed (q : counter) (cs : list chip) : machine :=
    mkMachine k w h ccm (filter has_ip cs) [] [] (fold_left boot_step cs None)
      (map (fun c => (c_xy c, c)) cs) o
      (fold_left cincr (map n_processors cs) []) q
      (fold_left cincr (map (fun c => r_entries (c_router c)) cs) [])
      (fold_left cincr (map c_sdram cs) []).

  Lemma closed_chips q cs : chips (closed q cs) = cs.
  Proof using. unfold chips, closed, dvalues. cbn [m_chips]. rewrite map_map. apply map_id. Qed.

  Lemma closed_keys q cs : dkeys (m_chips (closed q cs)) = map c_xy cs.
  Proof using. unfold closed, dkeys. cbn [m_chips]. rewrite map_map. reflexivity. Qed.

  Lemma closed_add q cs c :
    add_chip (closed q cs) c =
    if dmem xy_eqb (m_chips (closed q cs)) (c_xy c) then Err AlreadyExists
    else Ok (closed (cincr q (router_len (c_router c))) (cs ++ [c])).
  Proof using.
    unfold add_chip. destruct (dmem xy_eqb (m_chips (closed q cs)) (c_xy c)) eqn:E; [reflexivity|].
    apply (dmem_false xy_eqb xyeqb_eq) in E. rewrite (dset_new xy_eqb xyeqb_eq) by auto.
    unfold closed. cbn [m_kind m_width m_height m_ccm m_eth m_spin m_fpga m_boot m_chips m_origin
      m_cores_counter m_links_counter m_entries_counter m_sdram_counter].
    rewrite !map_app, !fold_left_app, filter_app. cbn [map fold_left filter].
    assert (forall b, boot_step b c = match c_ip c with Some ip => if xy_eqb (c_xy c) (0, 0) then Some ip else b | None => b end)
      as B by reflexivity. rewrite B.
    assert (has_ip c = match c_ip c with Some _ => true | None => false end) as -> by reflexivity.
    destruct (c_ip c); [reflexivity|]. rewrite app_nil_r. reflexivity.
  Qed.
End Closed.

Lemma closed_history v k w h ccm o cs : NoDup (map c_xy cs) -> exists q,
  fst (history v (new_machine k w h ccm o) (map CallAddChip cs)) = closed k w h ccm o q cs.
Proof.
  assert (forall cs done q, NoDup (map c_xy (done ++ cs)) -> exists q',
    fst (history v (closed k w h ccm o q done) (map CallAddChip cs)) = closed k w h ccm o q' (done ++ cs)) as K.
  { induction cs0 as [|c cs' IH]; intros done q N; cbn [map history].
    - exists q. rewrite app_nil_r. reflexivity.
    - unfold exec. rewrite closed_add.
      destruct (dmem xy_eqb _ (c_xy c)) eqn:E.
      + exfalso. apply (dmem_in xy_eqb xyeqb_eq) in E. rewrite closed_keys in E.
        rewrite map_app in N. cbn [map] in N. apply NoDup_remove_2 in N. apply N. apply in_app_iff; auto.
      + cbv beta iota. destruct (IH (done ++ [c]) (cincr q (router_len (c_router c)))) as [q' H].
        { rewrite <- app_assoc. exact N. }
        rewrite <- app_assoc in H. exists q'. cbn [app] in H. rewrite <- H.
        destruct (history v _ _). reflexivity. }
  intros N. apply (K cs [] []). exact N.
Qed.

Definition new_links (p : XY) (r : router) (e : chip) : chip :=
  if xy_eqb (c_xy e) p then with_router e r else e.

Lemma new_links_xy p r cs : map c_xy (map (new_links p r) cs) = map c_xy cs.
Proof. rewrite map_map. apply map_ext. intros c. unfold new_links. destruct (xy_eqb (c_xy c) p); reflexivity. Qed.

Lemma dset_map (f : chip -> chip) p c cs : NoDup (map c_xy cs) -> In c cs -> c_xy c = p ->
  (forall e, c_xy e <> p -> f e = e) -> (forall e, c_xy (f e) = c_xy e) ->
  dset xy_eqb (map (fun e => (c_xy e, e)) cs) p (f c) = map (fun e => (c_xy e, e)) (map f cs).
Proof.
  intros N Hc <- F1 F2. induction cs as [|a cs IH]; [destruct Hc|]. cbn [map dset].
  inversion N as [|? ? N1 N2]; subst.
  destruct (xy_eqb (c_xy a) (c_xy c)) eqn:E.
  - apply xyeqb_eq in E. destruct Hc as [->|Hc].
    + rewrite F2. f_equal. rewrite map_map. apply map_ext_in. intros e He.
      rewrite F1; [reflexivity|]. intros X. apply N1. rewrite <- X. apply in_map. auto.
    + exfalso. apply N1. rewrite E. apply in_map. auto.
  - destruct Hc as [->|Hc].
    + rewrite (proj2 (xyeqb_eq _ _) eq_refl) in E. discriminate.
    + rewrite IH; auto. rewrite F1; [reflexivity|]. intros X. rewrite X in E.
      rewrite (proj2 (xyeqb_eq _ _) eq_refl) in E. discriminate.
Qed.

Lemma router_add_parts r l r' : router_add_link r l = Ok r' ->
  r_links r' = r_links r ++ [(l_source_link_id l, l)] /\ r_entries r' = r_entries r.
Proof.
  unfold router_add_link. destruct (dmem Z.eqb (r_links r) (l_source_link_id l)) eqn:E; [discriminate|].
  intros X. apply Ok_inj in X. subst. cbn [r_links r_entries]. split; auto.
  apply (dset_new Z.eqb Z.eqb_eq). apply (dmem_false Z.eqb Z.eqb_eq). exact E.
Qed.

Lemma getitem_in m p c : getitem m p = Ok c -> In (p, c) (m_chips m).
Proof.
  unfold getitem, dgetitem. destruct (dget xy_eqb (m_chips m) p) eqn:E; [|discriminate].
  intros X. apply Ok_inj in X. subst. apply (dget_some_in xy_eqb xyeqb_eq). exact E.
Qed.

Lemma closed_link k w h ccm o q cs p l m' : NoDup (map c_xy cs) ->
  add_link_later (closed k w h ccm o q cs) p l = Ok m' ->
  exists c r, In c cs /\ c_xy c = p /\ router_add_link (c_router c) l = Ok r /\
    m' = closed k w h ccm o q (map (new_links p r) cs).
Proof.
  intros N E. unfold add_link_later in E.
  destruct (getitem (closed k w h ccm o q cs) p) as [c|x] eqn:G; [|discriminate]. cbn [bind] in E.
  destruct (router_add_link (c_router c) l) as [r|x] eqn:R; [|discriminate]. cbn [bind] in E.
  apply Ok_inj in E. apply getitem_in in G. cbn [closed m_chips] in G.
  apply in_map_iff in G as (c' & G & Hc). assert (c_xy c = p) as X by congruence. assert (c' = c) as -> by congruence.
  exists c, r. repeat split; auto. subst m'. apply router_add_parts in R as [RL RE].
  assert (forall e, In e cs -> c_xy e = p -> e = c) as U.
  { intros e He Xe. clear -N Hc He Xe X. induction cs as [|a cs IH]; [destruct He|].
    cbn in N. inversion N as [|? ? N1 N2]; subst. destruct He as [->|He], Hc as [->|Hc]; auto.
    - exfalso. apply N1. rewrite Xe. apply in_map. auto.
    - exfalso. apply N1. rewrite <- Xe. apply in_map. auto. }
  unfold closed. cbn [m_kind m_width m_height m_ccm m_eth m_spin m_fpga m_boot m_chips m_origin
      m_cores_counter m_links_counter m_entries_counter m_sdram_counter].
  f_equal.
  - clear. induction cs as [|a cs IH]; [reflexivity|]. cbn [filter map].
    assert (has_ip (new_links p r a) = has_ip a) as -> by (unfold new_links; destruct (xy_eqb (c_xy a) p); reflexivity).
    destruct (has_ip a); cbn [map]; rewrite IH; reflexivity.
  - clear. generalize (@None string) as b. induction cs as [|a cs IH]; intros b; [reflexivity|]. cbn [fold_left map].
    assert (boot_step b (new_links p r a) = boot_step b a) as -> by (unfold new_links; destruct (xy_eqb (c_xy a) p); reflexivity).
    apply IH.
  - assert (with_router c r = new_links p r c) as -> by (unfold new_links; rewrite (proj2 (xyeqb_eq _ _) X); reflexivity).
    apply dset_map; auto.
    + intros e Xe. unfold new_links. destruct (xy_eqb (c_xy e) p) eqn:E; auto. apply xyeqb_eq in E. congruence.
    + intros e. unfold new_links. destruct (xy_eqb (c_xy e) p); reflexivity.
  - f_equal. rewrite map_map. apply map_ext. intros e. unfold new_links. destruct (xy_eqb (c_xy e) p); reflexivity.
  - f_equal. rewrite map_map. apply map_ext_in. intros e He. unfold new_links.
    destruct (xy_eqb (c_xy e) p) eqn:E; auto. apply xyeqb_eq in E. rewrite (U e He E). cbn [with_router c_router]. auto.
  - f_equal. rewrite map_map. apply map_ext. intros e. unfold new_links. destruct (xy_eqb (c_xy e) p); reflexivity.
Qed.

(** ** Histories *)

Lemma acted_closed k w h ccm o m n : acted (new_machine k w h ccm o) m n ->
  exists q, m = closed k w h ccm o q (chips m) /\ NoDup (map c_xy (chips m)) /\
    ctotal q + n = zsum (map (fun c => router_len (c_router c)) (chips m)).
Proof.
  induction 1 as [|m n a m' e A IH D].
  - exists []. repeat split. constructor.
  - destruct IH as (q & E & N & T). unfold do_act in D. destruct a as [c|p l].
    + rewrite E, closed_add in D. destruct (dmem xy_eqb _ (c_xy c)) eqn:M.
      * injection D as <- <-. exists q. rewrite closed_chips. auto.
      * injection D as <- <-. apply (dmem_false xy_eqb xyeqb_eq) in M. rewrite closed_keys in M.
        rewrite closed_chips. exists (cincr q (router_len (c_router c))). split; [reflexivity|].
        rewrite map_app. cbn [map]. split; [apply nodup_snoc; auto|].
        rewrite ctotal_cincr, map_app, zsum_app. cbn [map zsum fold_right]. lia.
    + destruct (add_link_later m p l) as [m1|x] eqn:L.
      * injection D as <- <-. rewrite E in L. apply closed_link in L as (c & r & Hc & X & R & ->); auto.
        rewrite closed_chips. exists q. split; [reflexivity|]. rewrite new_links_xy. split; auto.
        apply router_add_parts in R as [RL _]. 
        assert (forall cs, NoDup (map c_xy cs) -> In c cs ->
          zsum (map (fun c => router_len (c_router c)) (map (new_links p r) cs)) =
          zsum (map (fun c => router_len (c_router c)) cs) + 1) as K; [|rewrite (K _ N Hc); lia].
        clear -X RL. induction cs as [|a cs IH]; intros N Hc; [destruct Hc|].
        cbn [map]. inversion N as [|? ? N1 N2]; subst. assert (forall z l, zsum (z :: l) = z + zsum l) as ZC by reflexivity. rewrite !ZC.
        destruct (xy_eqb (c_xy a) (c_xy c)) eqn:Q.
        { apply xyeqb_eq in Q.
          assert (map (new_links (c_xy c) r) cs = cs) as ->.
          { rewrite <- (map_id cs) at 2. apply map_ext_in. intros e He. unfold new_links.
            destruct (xy_eqb (c_xy e) (c_xy c)) eqn:Q'; auto. apply xyeqb_eq in Q'. exfalso. apply N1.
            rewrite Q, <- Q'. apply in_map. auto. }
          destruct Hc as [->|Hc]; [|exfalso; apply N1; rewrite Q; apply in_map; auto].
          unfold new_links. rewrite (proj2 (xyeqb_eq _ _) eq_refl). cbn [with_router c_router].
          unfold router_len. rewrite RL, app_length. cbn [List.length]. lia. }
        { unfold new_links at 1. rewrite Q. rewrite IH; auto. 2: destruct Hc as [->|Hc]; auto;
            rewrite (proj2 (xyeqb_eq _ _) eq_refl) in Q; discriminate. lia. }
      * injection D as <- <-. exists q. auto.
Qed.

(** A link can be added if the chip is there and has no link with that id.  Then the chip has
    one more link, and nothing else changes: also the Ethernet chips are the changed ones. *)
Theorem C62_one_link :
  forall k w h ccm o m n p l, acted (new_machine k w h ccm o) m n ->
    (forall c, In c (chips m) -> own_router c) ->
    (add_link_later m p l = Err KeyError <-> is_chip_at m (fst p) (snd p) = false) /\
    (add_link_later m p l = Err AlreadyExists <->
       exists c, get_chip_at m (fst p) (snd p) = Some c /\ has_link_id c (l_source_link_id l) = true) /\
    (forall m', add_link_later m p l = Ok m' ->
       Forall2 (link_more p l) (chips m) (chips m') /\
       ethernet_connected_chips m' = filter has_ip (chips m') /\
       (forall x y i, is_link_at m' x y i = true <->
          is_link_at m x y i = true \/ ((x, y) = p /\ i = l_source_link_id l)) /\
       get_cores_count m' = get_cores_count m /\ m_boot m' = m_boot m /\
       get_links_count_doubled m' = get_links_count_doubled m).
Proof.
  intros k w h ccm o m n p l A OW. destruct (acted_closed _ _ _ _ _ _ _ A) as (q & E & N & _).
  assert (getitem m p = match get_chip_at m (fst p) (snd p) with Some c => Ok c | None => Err KeyError end) as GI
    by (destruct p; reflexivity).
  assert (is_chip_at m (fst p) (snd p) = match get_chip_at m (fst p) (snd p) with Some c => true | None => false end) as IC
    by (destruct p; reflexivity).
  split; [|split].
  - rewrite IC. unfold add_link_later. rewrite GI.
    destruct (get_chip_at m (fst p) (snd p)) as [c|]; cbn [bind]; [|split; reflexivity].
    unfold router_add_link. destruct (dmem Z.eqb _ _); cbn [bind]; split; discriminate.
  - unfold add_link_later. rewrite GI.
    destruct (get_chip_at m (fst p) (snd p)) as [c|] eqn:G; cbn [bind];
      [|split; [discriminate|intros (c & X & _); discriminate]].
    assert (own_router c) as OC.
    { apply OW. unfold get_chip_at in G. apply (dget_some_in xy_eqb xyeqb_eq) in G.
      unfold chips, dvalues. apply in_map_iff. eexists; split; [|exact G]. reflexivity. }
    unfold router_add_link. rewrite (has_link_dmem _ _ OC).
    destruct (has_link_id c (l_source_link_id l)) eqn:H; cbn [bind].
    + split; eauto.
    + split; [discriminate|]. intros (c' & X & Y). injection X as <-. congruence.
  - intros m' L. rewrite E in L. apply closed_link in L as (c & r & Hc & X & R & E'); auto.
    pose proof R as R0. apply router_add_parts in R as [RL RE].
    assert (forall e, In e (chips m) -> c_xy e = p -> e = c) as U.
    { intros e He Xe. clear -N Hc He Xe X. induction (chips m) as [|a cs IH]; [destruct He|].
      cbn in N. inversion N as [|? ? N1 N2]; subst. destruct He as [->|He], Hc as [->|Hc]; auto.
      - exfalso. apply N1. rewrite Xe. apply in_map. auto.
      - exfalso. apply N1. rewrite <- Xe. apply in_map. auto. }
    assert (chips m' = map (new_links p r) (chips m)) as C' by (rewrite E'; apply closed_chips).
    split; [|split; [|split; [|split; [|split]]]].
    + rewrite C'.
      assert (forall cs, (forall e, In e cs -> c_xy e = p -> e = c) -> Forall2 (link_more p l) cs (map (new_links p r) cs)) as F;
        [|apply F; exact U].
      induction cs as [|a cs IH]; intros Ua; cbn [map]; constructor.
      * unfold link_more, new_links. destruct (xy_eqb (c_xy a) p) eqn:Q; auto.
        apply xyeqb_eq in Q. rewrite (Ua a (or_introl eq_refl) Q).
        cbn [with_router c_router c_scamp c_placable c_sdram c_eth_x c_eth_y c_ip c_tags c_parent].
        unfold router_links, dvalues. rewrite RL, map_app. repeat split; auto.
      * apply IH. intros e He. apply Ua. right; auto.
    + rewrite C', E'. reflexivity.
    + intros x y i. unfold is_link_at.
      assert (m_chips m = map (fun c => (c_xy c, c)) (chips m)) as MC by (rewrite E at 1; reflexivity).
      assert (m_chips m' = map (fun c => (c_xy c, c)) (map (new_links p r) (chips m))) as MC' by (rewrite E'; reflexivity).
      assert (forall cs, dget xy_eqb (map (fun c => (c_xy c, c)) (map (new_links p r) cs)) (x, y) =
        option_map (new_links p r) (dget xy_eqb (map (fun c => (c_xy c, c)) cs) (x, y))) as DM.
      { induction cs as [|a cs IH]; [reflexivity|]. cbn [map dget].
        assert (c_xy (new_links p r a) = c_xy a) as -> by (unfold new_links; destruct (xy_eqb (c_xy a) p); reflexivity).
        destruct (xy_eqb (c_xy a) (x, y)); [reflexivity|]. exact IH. }
      rewrite MC', DM, <- MC. clear DM MC'.
      destruct (dget xy_eqb (m_chips m) (x, y)) as [e|] eqn:G; cbn [option_map].
      * apply (dget_some_in xy_eqb xyeqb_eq) in G. rewrite MC in G. apply in_map_iff in G as (e' & G & He).
        assert (e' = e) as -> by congruence. assert (c_xy e = (x, y)) as Xe by congruence.
        unfold new_links. rewrite Xe. destruct (xy_eqb (x, y) p) eqn:Q.
        -- apply xyeqb_eq in Q. assert (e = c) as -> by (apply U; congruence).
           cbn [with_router c_router]. unfold is_link. rewrite !(dmem_in Z.eqb Z.eqb_eq), RL.
           unfold dkeys. rewrite map_app, in_app_iff. cbn [map In fst]. intuition.
        -- split; [auto|]. intros [?|[Y _]]; [auto|]. rewrite Y, (proj2 (xyeqb_eq _ _) eq_refl) in Q. discriminate.
      * split; [discriminate|]. intros [?|[Y _]]; [discriminate|]. exfalso.
        apply (dget_none xy_eqb xyeqb_eq) in G. apply G. rewrite MC. unfold dkeys. rewrite map_map.
        cbn [fst]. rewrite Y, <- X. apply in_map_iff. exists c. auto.
    + unfold get_cores_count. rewrite E', E. cbn [closed m_cores_counter]. rewrite closed_chips. f_equal. f_equal.
      rewrite map_map. apply map_ext. intros e. unfold new_links. destruct (xy_eqb (c_xy e) p); reflexivity.
    + rewrite E', E. cbn [closed m_boot]. rewrite closed_chips. clear.
      generalize (@None string) as b. induction (chips m) as [|a cs IH]; intros b; [reflexivity|]. cbn [fold_left map].
      assert (boot_step b (new_links p r a) = boot_step b a) as -> by (unfold new_links; destruct (xy_eqb (c_xy a) p); reflexivity).
      apply IH.
    + unfold get_links_count_doubled. rewrite E', E. reflexivity.
Qed.
Print Assumptions C62_one_link.

(** Over every history the machine is the one that would have been made by adding its chips
    as they are now, but for the counter of links: all answers that do not use it are those of
    that machine, and C07, C19, C21-C27 speak about it. *)
Theorem C62_as_if_added_like_that :
  forall v k w h ccm o m n, acted (new_machine k w h ccm o) m n ->
    let m' := fst (history v (new_machine k w h ccm o) (map CallAddChip (chips m))) in
    m = with_links_counter (m_links_counter m) m' /\ chips m' = chips m /\
    get_cores_count m = total_cores m.
Proof.
  intros v k w h ccm o m n A. destruct (acted_closed _ _ _ _ _ _ _ A) as (q & E & N & _).
  destruct (closed_history v k w h ccm o (chips m) N) as [q' E']. cbv zeta. rewrite E'.
  assert (m = with_links_counter (m_links_counter m) (closed k w h ccm o q' (chips m))) as EQ
    by (transitivity (closed k w h ccm o q (chips m)); [exact E|];
        replace (m_links_counter m) with q by (rewrite E; reflexivity); reflexivity).
  split; [exact EQ|]. split; [apply closed_chips|].
  assert (made v (closed k w h ccm o q' (chips m))) as M by (do 6 eexists; symmetry; exact E').
  pose proof (proj1 (C20_counts v _ M)) as C. rewrite EQ.
  unfold get_cores_count, total_cores in *. cbn [with_links_counter m_cores_counter] in *.
  rewrite C. unfold chips. reflexivity.
Qed.
Print Assumptions C62_as_if_added_like_that.

(** get_links_count misses exactly the links that were added later. *)
Theorem C62_links_count :
  forall k w h ccm o m n, acted (new_machine k w h ccm o) m n ->
    0 <= n /\
    get_links_count_doubled m + n =
      zsum (map (fun c => Z.of_nat (List.length (router_links (c_router c)))) (chips m)).
Proof.
  intros k w h ccm o m n A. split.
  - clear -A. induction A as [|m n a m' e A IH D]; [lia|]. destruct a, e; lia.
  - destruct (acted_closed _ _ _ _ _ _ _ A) as (q & E & N & T).
    unfold get_links_count_doubled. rewrite E at 1. cbn [closed m_links_counter]. rewrite T. f_equal.
    apply map_ext. intros c. unfold router_len, router_links, dvalues. rewrite map_length. reflexivity.
Qed.
Print Assumptions C62_links_count.

Definition mutate_example : machine :=
  fst (do_act (fst (do_act (new_machine NoWrap 8 8 (chip_core_map V5) "") (AddChip (demo_chip 0 0 [] (Some "10.0.0.1"%string)))))
    (AddLink (0, 0) (mkLink 0 0 1 1 1))).

Theorem C62_links_count_is_the_links_refuted :
  acted (new_machine NoWrap 8 8 (chip_core_map V5) "") mutate_example 1 /\
  is_link_at mutate_example 0 0 1 = true /\ get_links_count_doubled mutate_example = 0 /\
  map (fun c => List.length (router_links (c_router c))) (chips mutate_example) = [1%nat].
Proof.
  split; [|repeat split].
  pose (m0 := new_machine NoWrap 8 8 (chip_core_map V5) "").
  pose (a1 := AddChip (demo_chip 0 0 [] (Some "10.0.0.1"%string))).
  pose (a2 := AddLink (0, 0) (mkLink 0 0 1 1 1)).
  pose proof (acted_add m0 m0 0 a1 (fst (do_act m0 a1)) None (acted_none m0) eq_refl) as A1.
  exact (acted_add m0 _ 0 a2 (fst (do_act (fst (do_act m0 a1)) a2)) None A1 eq_refl).
Qed.
Print Assumptions C62_links_count_is_the_links_refuted.

Example C62_case :
  (forall c, In c (chips mutate_example) -> own_router c) /\
  snd (do_act mutate_example (AddLink (0, 0) (mkLink 0 0 1 5 5))) = Some AlreadyExists /\
  snd (do_act mutate_example (AddLink (1, 0) (mkLink 1 0 1 2 1))) = Some KeyError /\
  is_link_at (fst (do_act mutate_example (AddLink (0, 0) (mkLink 0 0 4 7 7)))) 0 0 4 = true.
Proof. split; [intros c [<-|[]]; reflexivity|]. repeat split. Qed.
