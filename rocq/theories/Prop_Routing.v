(** C36-C41: routing entries, equality and hashes. *)
From Coq Require Import Lia ZifyBool RelationClasses Sorted.
From Verif Require Import Model_Py Model_Core Model_Str Model_Ignore Model_Routing Spec_Routing
  Proof_Py Proof_Board Proof_Str Proof_Routing.
Open Scope list_scope.
Open Scope Z_scope.

(** ** C36 *)

(** Which ids make an entry, and the route: bit i is link i, bit 6 + p is processor p. *)
Theorem C36_route_bits :
  forall ps ls,
    ((exists e, new_entry (Some ps) (Some ls) None None None None = Ok e) <->
     (forall p, In p (ids_list ps) -> -6 <= p) /\ (forall l, In l (ids_list ls) -> 0 <= l)) /\
    (forall x, new_entry (Some ps) (Some ls) None None None None = Err x -> x = ValueError) /\
    (forall ip il e, new_entry (Some ps) (Some ls) ip il None None = Ok e ->
       same_members (processor_ids e) (ids_list ps) /\ same_members (link_ids e) (ids_list ls) /\
       0 <= spinnaker_route e /\
       forall n, 0 <= n -> Z.testbit (spinnaker_route e) n = true <->
         In n (ids_list ls) \/ In (n - 6) (ids_list ps)).
Proof.
  intros ps ls. assert (forall il ip, exists b,
    ((forall p, In p (ids_list ps) -> -6 <= p) /\ (forall l, In l (ids_list ls) -> 0 <= l) /\
     exists r, calc_spinnaker_route (frozenset (ids_list ps)) (frozenset (ids_list ls)) = Ok r /\ 0 <= r /\
     (forall n, 0 <= n -> Z.testbit r n = true <-> In n (ids_list ls) \/ In (n - 6) (ids_list ps)) /\
     new_entry (Some ps) (Some ls) ip il None None =
       match il, ip with Some _, Some _ => Err InvalidParameter
       | _, _ => Ok (of_ids (ids_list ps) (ids_list ls) b r) end) \/
    (~ ((forall p, In p (ids_list ps) -> -6 <= p) /\ (forall l, In l (ids_list ls) -> 0 <= l)) /\
     new_entry (Some ps) (Some ls) ip il None None = Err ValueError)) as K.
  { intros il ip. rewrite new_from_ids.
    destruct (calc_route_cases (frozenset (ids_list ps)) (frozenset (ids_list ls))) as [[A B]|A].
    - destruct (calc_route_ok _ _ A B) as (r & E & N & T). rewrite E.
      destruct il as [i|].
      + eexists. left. split; [intros; apply A, frozenset_in; auto|].
        split; [intros; apply B, frozenset_in; auto|]. exists r. split; auto. split; auto.
        split; [|destruct ip; reflexivity].
        intros n Hn. rewrite T by auto. rewrite !frozenset_in. tauto.
      + exists false. left. split; [intros; apply A, frozenset_in; auto|].
        split; [intros; apply B, frozenset_in; auto|]. exists r. split; auto. split; auto. split; auto.
        intros n Hn. rewrite T by auto. rewrite !frozenset_in. tauto.
    - rewrite calc_route_err by auto. exists false. right. split; auto. intros [X Y].
      destruct A as [(p & H & L)|(l & H & L)].
      + apply (proj1 (frozenset_in _ _)) in H. specialize (X p H). lia.
      + apply (proj1 (frozenset_in _ _)) in H. specialize (Y l H). lia. }
  split; [|split].
  - destruct (K None None) as (b & [(A & B & r & _ & _ & _ & E)|[A E]]); rewrite E.
    + split; eauto.
    + split; [intros [e X]; discriminate|tauto].
  - intros x. destruct (K None None) as (b & [(_ & _ & r & _ & _ & _ & E)|[_ E]]); rewrite E; [discriminate|].
    intros X. congruence.
  - intros ip il e. destruct (K il ip) as (b & [(_ & _ & r & _ & N & T & E)|[_ E]]); rewrite E; [|discriminate].
    intros X. assert (e = of_ids (ids_list ps) (ids_list ls) b r) as -> by (destruct il, ip; congruence).
    cbn. repeat split; intros; rewrite ?frozenset_in in *; auto; try (apply T; auto).
Qed.
Print Assumptions C36_route_bits.

(** From ids to a route and back: exactly for routable ids. *)
Theorem C36_single_ids :
  forall p l ps ls ip il d r,
    new_entry (Some (OneId p)) ls ip il d r = new_entry (Some (ManyIds [p])) ls ip il d r /\
    new_entry ps (Some (OneId l)) ip il d r = new_entry ps (Some (ManyIds [l])) ip il d r.
Proof. intros. split; destruct r; try reflexivity. Qed.
Print Assumptions C36_single_ids.

Theorem C36_ids_round_trip :
  forall ps ls e d e',
    new_entry (Some ps) (Some ls) None None None None = Ok e ->
    new_entry None None None None d (Some (spinnaker_route e)) = Ok e' ->
    (same_members (processor_ids e') (processor_ids e) /\ same_members (link_ids e') (link_ids e)) <->
    routable_ids (ids_list ps) (ids_list ls).
Proof.
  intros ps ls e d e' E E'.
  pose proof (made_new _ _ _ _ _ _ _ E) as M. pose proof (made_new _ _ _ _ _ _ _ E') as M'.
  destruct (C36_route_bits ps ls) as (_ & _ & K). destruct (K _ _ _ E) as (SP & SL & _ & _).
  assert (routable e') as R'.
  { cbn in E'. apply Ok_inj in E'. subst e'. apply none_routable; reflexivity. }
  assert (e_route e' = e_route e) as RR by (cbn in E'; apply Ok_inj in E'; subst e'; reflexivity).
  split.
  - intros [A B]. destruct R' as [R1 R2]. split.
    + intros p H. apply R1, A, SP, H.
    + intros l H. apply R2, B, SL, H.
  - intros [R1 R2]. assert (routable e) as R.
    { split; [intros p H; apply R1, SP, H|intros l H; apply R2, SL, H]. }
    destruct (routable_bits e M R) as [X Y]. destruct (routable_bits e' M' R') as [X' Y'].
    split; intros z; [rewrite X, X', RR|rewrite Y, Y', RR]; tauto.
Qed.
Print Assumptions C36_ids_round_trip.

(** From a route to ids and back: the low 24 bits. *)
Theorem C36_route_round_trip :
  forall r d e, new_entry None None None None d (Some r) = Ok e ->
    exists e', new_entry (Some (ManyIds (processor_ids e))) (Some (ManyIds (link_ids e)))
                 None None None None = Ok e' /\
      spinnaker_route e' = r mod 2 ^ 24 /\
      (spinnaker_route e' = r <-> 0 <= r < 2 ^ 24).
Proof.
  intros r d e E. cbn in E. apply Ok_inj in E.
  assert ((processor_ids e, link_ids e) = calc_routing_ids r) as I.
  { subst e. apply (ids_none (mkEntry _ None None r)); reflexivity. }
  clear E. rewrite new_from_ids. cbn [ids_list].
  rewrite (calc_route_same _ _ (processor_ids e) (link_ids e)).
  2: { intros x. apply frozenset_in. } 2: { intros x. apply frozenset_in. }
  rewrite (calc_back r) by auto. eexists. split; [reflexivity|]. cbn [of_ids spinnaker_route e_route].
  split; auto. pose proof (Z.mod_pos_bound r (2 ^ 24) eq_refl) as B. split.
  - intros X. rewrite X in B. exact B.
  - intros X. apply Z.mod_small. auto.
Qed.
Print Assumptions C36_route_round_trip.

(** Reading ids never changes what an entry shows. *)
Theorem C36_reading_changes_nothing :
  forall e, made_entry e ->
  forall e', e' = snd (read_processor_ids e) \/ e' = snd (read_link_ids e) ->
    processor_ids e' = processor_ids e /\ link_ids e' = link_ids e /\
    defaultable e' = defaultable e /\ spinnaker_route e' = spinnaker_route e.
Proof.
  intros e M e' H. apply made_inv in M. unfold entry_inv in M.
  unfold processor_ids, link_ids, defaultable, spinnaker_route, read_processor_ids, read_link_ids in *.
  destruct (e_processor_ids e) as [ps|] eqn:EP, (e_link_ids e) as [ls|] eqn:EL; try contradiction;
    destruct (calc_routing_ids (e_route e)) as [ps' ls'] eqn:C; cbn [fst snd] in *;
    destruct H as [->| ->]; rewrite ?EP, ?EL; cbn; auto.
Qed.
Print Assumptions C36_reading_changes_nothing.

(** ** C37 *)

Theorem C37_entry_to_route :
  forall e, made_entry e ->
    (convert_entry_to_route e = Err InvalidParameter <-> ~ routable e) /\
    (routable e -> convert_entry_to_route e = Ok (spinnaker_route e mod 2 ^ 24)).
Proof.
  intros e M. unfold convert_entry_to_route.
  assert (routable e -> convert_to_route (processor_ids e) (link_ids e) = Ok (spinnaker_route e mod 2 ^ 24)) as K.
  { intros R. rewrite convert_calc by auto. destruct (routable_bits e M R) as [X Y].
    rewrite (calc_route_same _ _ (fst (calc_routing_ids (e_route e))) (snd (calc_routing_ids (e_route e)))).
    - apply calc_back. destruct (calc_routing_ids _); reflexivity.
    - intros p. rewrite X, calc_ids_procs. tauto.
    - intros l. rewrite Y, calc_ids_links. tauto. }
  split; auto. split.
  - intros E R. rewrite K in E by auto. discriminate.
  - apply convert_bad.
Qed.
Print Assumptions C37_entry_to_route.

(** For entries made from ids the conversion gives the route of the entry. *)
Theorem C37_agrees_with_the_entry :
  forall ps ls e, new_entry (Some ps) (Some ls) None None None None = Ok e -> routable e ->
    convert_entry_to_route e = Ok (spinnaker_route e).
Proof.
  intros ps ls e E R. pose proof (made_new _ _ _ _ _ _ _ E) as M.
  destruct (C37_entry_to_route e M) as [_ K]. rewrite K by auto. f_equal.
  destruct (C36_route_bits ps ls) as (_ & _ & B). destruct (B _ _ _ E) as (SP & SL & N & T).
  apply Z.bits_inj'. intros n Hn. rewrite mod24 by auto.
  destruct (n <? 24) eqn:L; [reflexivity|]. cbn [andb]. symmetry. apply not_true_iff_false. intros X.
  apply T in X; auto. destruct R as [R1 R2]. destruct X as [X|X].
  - apply SL in X. apply R2 in X. lia.
  - apply SP in X. apply R1 in X. lia.
Qed.
Print Assumptions C37_agrees_with_the_entry.

(** The conversion back is the inverse, with the ids in ascending order. *)
Theorem C37_inverse :
  (forall route ps ls, convert_route_to_ids route = (ps, ls) ->
     convert_to_route ps ls = Ok (route mod 2 ^ 24) /\ routable_ids ps ls /\
     StronglySorted Z.lt ps /\ StronglySorted Z.lt ls /\
     (forall p, In p ps <-> 0 <= p < 18 /\ Z.testbit route (6 + p) = true) /\
     (forall l, In l ls <-> 0 <= l < 6 /\ Z.testbit route l = true)) /\
  (forall ps ls route, convert_to_route ps ls = Ok route ->
     same_members (fst (convert_route_to_ids route)) ps /\
     same_members (snd (convert_route_to_ids route)) ls).
Proof.
  split.
  - intros r ps ls E. change (calc_routing_ids r = (ps, ls)) in E.
    apply (f_equal fst) in E as E1. apply (f_equal snd) in E as E2. cbn [fst snd] in E1, E2. symmetry in E1, E2.
    assert (routable_ids ps ls) as R.
    { split; intros x H; [rewrite E1 in H; apply calc_ids_procs in H; tauto|].
      rewrite E2 in H. apply calc_ids_links in H. tauto. }
    assert (forall (f : Z -> bool) l, StronglySorted Z.lt l -> StronglySorted Z.lt (filter f l)) as SF.
    { clear. intros f l. induction 1 as [|a l S IH F]; cbn; [constructor|].
      destruct (f a); auto. constructor; auto. rewrite Forall_forall in *. intros x H. apply F.
      apply filter_In in H. tauto. }
    assert (forall n a, StronglySorted Z.lt (zrange a (a + Z.of_nat n))) as SR.
    { clear. intros n a. unfold zrange. replace (Z.to_nat (a + Z.of_nat n - a)) with n by lia.
      generalize O at 1. induction n as [|n IH]; intros s; cbn [seq map]; constructor; auto.
      apply Forall_forall. intros z Hz. apply in_map_iff in Hz as (i & <- & Hi). apply in_seq in Hi. lia. }
    split; [rewrite convert_calc by auto; apply calc_back; auto|]. split; auto.
    split; [rewrite E1; apply SF; apply (SR 18%nat 0)|]. split; [rewrite E2; apply SF; apply (SR 6%nat 0)|].
    rewrite E1, E2. split; [intros; apply calc_ids_procs|intros; apply calc_ids_links].
  - intros ps ls r E. change (convert_route_to_ids r) with (calc_routing_ids r).
    assert (routable_ids ps ls) as R.
    { destruct (calc_route_cases ps ls) as [_|_]; 
      assert (routable_ids ps ls \/ ~ routable_ids ps ls) as [R|R]; auto;
      try (rewrite convert_bad in E by auto; discriminate).
      all: clear; unfold routable_ids.
      all: destruct (forallb (fun p => (0 <=? p) && (p <? 18)) ps && forallb (fun l => (0 <=? l) && (l <? 6)) ls) eqn:F.
      all: try (left; apply andb_true_iff in F as [F1 F2]; rewrite forallb_forall in F1, F2; split; intros x H;
        [apply F1 in H|apply F2 in H]; lia).
      all: right; intros [A B]; apply not_true_iff_false in F; apply F; apply andb_true_iff; split;
        apply forallb_forall; intros x H; [apply A in H|apply B in H]; lia. }
    rewrite convert_calc in E by auto. destruct R as [R1 R2].
    destruct (calc_route_ok ps ls) as (r' & C & N & T).
    { intros p H. apply R1 in H. lia. } { intros l H. apply R2 in H. lia. }
    assert (r' = r) as -> by congruence. split; intros x.
    + rewrite calc_ids_procs. split.
      * intros [H X]. apply T in X; [|lia]. replace (6 + x - 6) with x in X by lia.
        destruct X as [X|X]; auto. apply R2 in X. lia.
      * intros H. pose proof (R1 _ H). split; auto. apply T; [lia|]. right. replace (6 + x - 6) with x by lia. auto.
    + rewrite calc_ids_links. split.
      * intros [H X]. apply T in X; [|lia]. destruct X as [X|X]; auto. apply R1 in X. lia.
      * intros H. pose proof (R2 _ H). split; auto. apply T; [lia|auto].
Qed.
Print Assumptions C37_inverse.

(** ** C38 *)

Theorem C38_merge_joins :
  forall a b, made_entry a -> made_entry b -> routable a -> routable b ->
    exists e, entry_merge a b = Ok e /\ routable e /\
      (forall p, In p (processor_ids e) <-> In p (processor_ids a) \/ In p (processor_ids b)) /\
      (forall l, In l (link_ids e) <-> In l (link_ids a) \/ In l (link_ids b)) /\
      (defaultable e = true <-> entry_eqb a b = true /\ defaultable a = true /\ defaultable b = true).
Proof.
  intros a b Ma Mb Ra Rb. destruct (merge_ok a b) as (e & E & RE & DE & C). exists e. split; auto.
  pose proof (made_merge _ _ _ Ma Mb E) as Me.
  assert (routable e) as R.
  { destruct C as [[X Y]|[_ ->]]; auto. apply none_routable; auto. }
  split; auto. destruct (routable_bits a Ma Ra) as [A1 A2], (routable_bits b Mb Rb) as [B1 B2],
    (routable_bits e Me R) as [E1 E2]. split; [|split].
  - intros p. rewrite A1, B1, E1, RE, Z.lor_spec, orb_true_iff. tauto.
  - intros l. rewrite A2, B2, E2, RE, Z.lor_spec, orb_true_iff. tauto.
  - unfold defaultable. rewrite DE, andb_true_iff. split; [|tauto]. intros [X Y].
    pose proof X as Q. apply entry_eqb_iff in Q as [_ Q]. rewrite <- Q. auto.
Qed.
Print Assumptions C38_merge_joins.

(** Laws, for all entries, up to ==. *)
Theorem C38_merge_laws :
  (forall a, entry_merge a a = Ok a) /\
  (forall a b, exists x y, entry_merge a b = Ok x /\ entry_merge b a = Ok y /\ entry_eqb x y = true) /\
  (forall a b c, exists ab bc x y,
     entry_merge a b = Ok ab /\ entry_merge ab c = Ok x /\
     entry_merge b c = Ok bc /\ entry_merge a bc = Ok y /\ entry_eqb x y = true).
Proof.
  split; [|split].
  - intros a. unfold entry_merge. assert (entry_eqb a a = true) as -> by (apply entry_eqb_iff; auto). auto.
  - intros a b. destruct (merge_ok a b) as (x & X & RX & DX & _), (merge_ok b a) as (y & Y & RY & DY & _).
    exists x, y. split; auto. split; auto. apply entry_eqb_iff. split; [rewrite RX, RY; apply Z.lor_comm|].
    rewrite DX, DY. apply eq_true_iff_eq. rewrite !andb_true_iff, !entry_eqb_iff. intuition congruence.
  - intros a b c.
    destruct (merge_ok a b) as (ab & AB & RAB & DAB & _), (merge_ok b c) as (bc & BC & RBC & DBC & _).
    destruct (merge_ok ab c) as (x & X & RX & DX & _), (merge_ok a bc) as (y & Y & RY & DY & _).
    exists ab, bc, x, y. repeat (split; [solve [auto]|]). apply entry_eqb_iff. split.
    + rewrite RX, RY, RAB, RBC. symmetry. apply Z.lor_assoc.
    + rewrite DX, DY. apply eq_true_iff_eq. rewrite !andb_true_iff, !entry_eqb_iff.
      rewrite RAB, RBC, DAB, DBC. split.
      * intros [[P Q] R]. apply andb_true_iff in R as [R1 R2]. apply entry_eqb_iff in R1 as [R1 R3].
        assert (entry_eqb a b = true) as H1 by (apply entry_eqb_iff; auto). rewrite H1, R2 in Q.
        rewrite <- R1, Z.lor_diag in P.
        assert (entry_eqb b c = true) as H2 by (apply entry_eqb_iff; split; cbn in *; congruence).
        rewrite H2, <- R1, <- P, Z.lor_diag, <- R3, R2. auto.
      * intros [[P Q] R]. rewrite R in Q. symmetry in Q. apply andb_true_iff in Q as [Q1 Q2].
        apply entry_eqb_iff in Q1 as [Q1 Q3]. rewrite <- Q1, Z.lor_diag in P.
        assert (entry_eqb a b = true) as H1 by (apply entry_eqb_iff; split; congruence).
        rewrite H1, R, <- P, Z.lor_diag. cbn. repeat split; congruence.
Qed.
Print Assumptions C38_merge_laws.

(** Multicast entries: only with the same key and mask, which the result has. *)
Theorem C38_merge_multicast :
  forall a b, made_multicast a -> made_multicast b ->
    (mc_merge a b = Err InvalidParameter <-> mc_key a <> mc_key b \/ mc_mask a <> mc_mask b) /\
    (mc_key a = mc_key b -> mc_mask a = mc_mask b ->
     exists c e, mc_merge a b = Ok c /\ mc_key c = mc_key a /\ mc_mask c = mc_mask a /\
       entry_merge (mc_entry a) (mc_entry b) = Ok e /\ mc_entry c = e).
Proof.
  assert (forall c, made_multicast c -> Z.land (mc_key c) (mc_mask c) = mc_key c) as L.
  { induction 1 as [k m e c _ E|a b c A IA B IB E].
    - unfold new_multicast in E. destruct (Z.land k m =? k) eqn:X; [|discriminate]. apply Ok_inj in E. subst c.
      cbn. lia.
    - unfold mc_merge in E. destruct (negb (mc_key b =? mc_key a)); [discriminate|].
      destruct (negb (mc_mask b =? mc_mask a)); [discriminate|].
      destruct (entry_merge _ _); [|discriminate]. cbn [bind] in E. unfold new_multicast in E.
      destruct (negb _); [discriminate|]. apply Ok_inj in E. subst c. exact IA. }
  intros a b A B. unfold mc_merge. destruct (merge_ok (mc_entry a) (mc_entry b)) as (e & E & _).
  rewrite E. cbn [bind]. unfold new_multicast. rewrite (L a A), Z.eqb_refl. cbn [negb].
  destruct (mc_key b =? mc_key a) eqn:K; cbn [negb].
  - destruct (mc_mask b =? mc_mask a) eqn:M; cbn [negb].
    + split; [split; [discriminate|lia]|]. intros _ _. exists (mkMulticast (mc_key a) (mc_mask a) e), e. cbn. auto.
    + split; [split; [lia|auto]|]. lia.
  - split; [split; [lia|auto]|]. lia.
Qed.
Print Assumptions C38_merge_multicast.

(** What a merged multicast entry says about itself: the union of the destinations,
    and the route that names exactly these. *)
Theorem C38_merged_multicast :
  forall a b c, made_multicast a -> made_multicast b -> mc_merge a b = Ok c ->
    routable_ids (mc_processor_ids a) (mc_link_ids a) ->
    routable_ids (mc_processor_ids b) (mc_link_ids b) ->
    (forall p, In p (mc_processor_ids c) <-> In p (mc_processor_ids a) \/ In p (mc_processor_ids b)) /\
    (forall l, In l (mc_link_ids c) <-> In l (mc_link_ids a) \/ In l (mc_link_ids b)) /\
    (mc_defaultable c = true <->
       mc_route a = mc_route b /\ mc_defaultable a = true /\ mc_defaultable b = true) /\
    (forall l, 0 <= l < 6 -> Z.testbit (mc_route c) l = true <-> In l (mc_link_ids c)) /\
    (forall p, 0 <= p < 18 -> Z.testbit (mc_route c) (6 + p) = true <-> In p (mc_processor_ids c)).
Proof.
  intros a b c Ma Mb E Ra Rb.
  assert (forall d, made_multicast d -> made_entry (mc_entry d)) as ME.
  { induction 1 as [k m e d He Q|d1 d2 d A IA B IB Q].
    - unfold new_multicast in Q. destruct (negb _); [discriminate|]. apply Ok_inj in Q. subst d. exact He.
    - unfold mc_merge in Q. destruct (negb _); [discriminate|]. destruct (negb _); [discriminate|].
      destruct (entry_merge _ _) as [e|] eqn:X; [|discriminate]. cbn [bind] in Q. unfold new_multicast in Q.
      destruct (negb _); [discriminate|]. apply Ok_inj in Q. subst d. apply (made_merge _ _ _ IA IB X). }
  unfold mc_merge in E. destruct (negb _); [discriminate|]. destruct (negb _); [discriminate|].
  destruct (C38_merge_joins _ _ (ME a Ma) (ME b Mb) Ra Rb) as (e & X & R & P & L & D).
  rewrite X in E. cbn [bind] in E. unfold new_multicast in E.
  destruct (negb _); [discriminate|]. apply Ok_inj in E. subst c.
  assert (made_entry e) as Me by (eapply made_merge; [| |exact X]; apply ME; auto).
  destruct (routable_bits e Me R) as [B1 B2].
  unfold mc_processor_ids, mc_link_ids, mc_defaultable, mc_route, spinnaker_route. cbn [mc_entry].
  split; [auto|]. split; [auto|]. split; [|split].
  - rewrite D, entry_eqb_iff. unfold defaultable. intuition congruence.
  - intros l H. rewrite B2. tauto.
  - intros q H. rewrite B1. tauto.
Qed.
Print Assumptions C38_merged_multicast.

Example C38_multicast_case :
  exists a b c ea eb, new_entry (Some (ManyIds [2])) (Some (ManyIds [1])) None None None None = Ok ea /\
    new_entry (Some (ManyIds [])) (Some (ManyIds [4])) None (Some 1) None None = Ok eb /\
    new_multicast 8 12 ea = Ok a /\ new_multicast 8 12 eb = Ok b /\ mc_merge a b = Ok c /\
    mc_defaultable b = true /\ mc_defaultable c = false /\ mc_route c = 256 + 16 + 2.
Proof. do 5 eexists. repeat split. Qed.

(** Without the range the union is not what comes out: core 20 gets lost. *)
Theorem C38_unroutable_refuted :
  exists a b e, new_entry (Some (ManyIds [20])) (Some (ManyIds [])) None None None None = Ok a /\
    new_entry (Some (ManyIds [1])) (Some (ManyIds [])) None None None None = Ok b /\
    entry_merge a b = Ok e /\ processor_ids a = [20] /\ processor_ids e = [1].
Proof. do 3 eexists. repeat split. Qed.
Print Assumptions C38_unroutable_refuted.

(** ** C39 *)

Theorem C39_key_inside_mask :
  (forall c, made_multicast c -> Z.land (mc_key c) (mc_mask c) = mc_key c) /\
  (forall k m e, (new_multicast k m e = Err InvalidParameter <-> Z.land k m <> k) /\
     (Z.land k m = k -> exists c, new_multicast k m e = Ok c /\
        mc_key c = k /\ mc_mask c = m /\ mc_entry c = e)).
Proof.
  split.
  - induction 1 as [k m e c _ E|a b c A IA B IB E].
    + unfold new_multicast in E. destruct (Z.land k m =? k) eqn:X; [|discriminate]. apply Ok_inj in E. subst c.
      cbn. lia.
    + unfold mc_merge in E. destruct (negb (mc_key b =? mc_key a)); [discriminate|].
      destruct (negb (mc_mask b =? mc_mask a)); [discriminate|].
      destruct (entry_merge _ _); [|discriminate]. cbn [bind] in E. unfold new_multicast in E.
      destruct (negb _); [discriminate|]. apply Ok_inj in E. subst c. exact IA.
  - intros k m e. unfold new_multicast. destruct (Z.land k m =? k) eqn:X; cbn [negb].
    + split; [split; [discriminate|lia]|]. intros _. eexists. split; [reflexivity|]. auto.
    + split; [split; [lia|auto]|]. lia.
Qed.
Print Assumptions C39_key_inside_mask.

(** The same bit by bit: no bit of the key is outside of the mask. *)
Theorem C39_bits :
  forall c, made_multicast c -> forall n, 0 <= n ->
    Z.testbit (mc_key c) n = true -> Z.testbit (mc_mask c) n = true.
Proof.
  intros c M n Hn T. destruct C39_key_inside_mask as [K _]. specialize (K c M).
  rewrite <- K, Z.land_spec, andb_true_iff in T. tauto.
Qed.
Print Assumptions C39_bits.

(** ** C40 *)

Theorem C40_defaultable :
  (forall ps ls i e, new_entry (Some ps) (Some ls) None (Some i) None None = Ok e ->
     (defaultable e = true <-> ids_list ls = [(i + 3) mod 6])) /\
  (forall ps ls ip e, new_entry (Some ps) (Some ls) ip None None None = Ok e -> defaultable e = false) /\
  (forall d r e, new_entry None None None None d (Some r) = Ok e ->
     (defaultable e = true <-> d = Some true)) /\
  (forall ps ls ip i, exists x, new_entry (Some ps) (Some ls) (Some ip) (Some i) None None = Err x /\
     (x = InvalidParameter <->
      (forall p, In p (ids_list ps) -> -6 <= p) /\ (forall l, In l (ids_list ls) -> 0 <= l))).
Proof.
  split; [|split; [|split]].
  - intros ps ls i e. rewrite new_from_ids. destruct (calc_spinnaker_route _ _); [|discriminate].
    intros E. apply Ok_inj in E. subst e. cbn. destruct (ids_list ls) as [|l [|? ?]].
    + split; discriminate.
    + split; [intros X; f_equal; lia|]. intros X. assert (l = (i + 3) mod 6) as -> by congruence. apply Z.eqb_refl.
    + split; discriminate.
  - intros ps ls ip e. rewrite new_from_ids. destruct (calc_spinnaker_route _ _); [|discriminate].
    intros E. apply Ok_inj in E. subst e. reflexivity.
  - intros d r e E. cbn in E. apply Ok_inj in E. subst e. cbn. destruct d as [[]|]; split; congruence.
  - intros ps ls ip i. rewrite new_from_ids.
    destruct (calc_route_cases (frozenset (ids_list ps)) (frozenset (ids_list ls))) as [[A B]|A].
    + destruct (calc_route_ok _ _ A B) as (r & E & _). rewrite E. exists InvalidParameter. split; auto.
      split; auto. intros _. split; intros x H; [apply A|apply B]; apply frozenset_in; auto.
    + rewrite calc_route_err by auto. exists ValueError. split; auto. split; [discriminate|].
      intros [X Y]. exfalso. destruct A as [(p & H & L)|(l & H & L)]; apply (proj1 (frozenset_in _ _)) in H;
        [apply X in H|apply Y in H]; lia.
Qed.
Print Assumptions C40_defaultable.

(** What the documentation of defaultable says about links holds for every
    argument ... *)
Theorem C40_one_opposite_link :
  forall ps ls i e, new_entry (Some ps) (Some ls) None (Some i) None None = Ok e ->
    defaultable e = true -> forall l, In l (link_ids e) <-> l = (i + 3) mod 6.
Proof.
  intros ps ls i e E D l. destruct C40_defaultable as [K _]. apply (K _ _ _ _ E) in D.
  destruct (C36_route_bits ps ls) as (_ & _ & B). destruct (B _ _ _ E) as (_ & SL & _).
  rewrite (SL l), D. cbn. split; [intros [H|[]]; auto|auto].
Qed.
Print Assumptions C40_one_opposite_link.

(** ... but "without routing it to any processors" does not: *)
Theorem C40_no_processors_refuted :
  exists e, new_entry (Some (ManyIds [1; 2])) (Some (ManyIds [3])) None (Some 0) None None = Ok e /\
    defaultable e = true /\ processor_ids e = [1; 2].
Proof. eexists. repeat split. Qed.
Print Assumptions C40_no_processors_refuted.

(** and an id given twice makes a difference, though duplicates are ignored. *)
Theorem C40_duplicates_ignored_refuted :
  exists a b, new_entry (Some (ManyIds [])) (Some (ManyIds [3])) None (Some 0) None None = Ok a /\
    new_entry (Some (ManyIds [])) (Some (ManyIds [3; 3])) None (Some 0) None None = Ok b /\
    link_ids a = link_ids b /\ entry_eqb a b = false.
Proof. do 2 eexists. repeat split. Qed.
Print Assumptions C40_duplicates_ignored_refuted.

(** ** C41 *)

Definition proper_eq {A} (eqb : A -> A -> bool) (hash : A -> Z) : Prop :=
  Equivalence (fun a b => eqb a b = true) /\ forall a b, eqb a b = true -> hash a = hash b.

Theorem C41_equality_and_hash :
  proper_eq entry_eqb entry_hash /\ proper_eq mc_eqb mc_hash /\
  proper_eq ignore_chip_eqb ignore_chip_hash /\ proper_eq ignore_core_eqb ignore_core_hash /\
  proper_eq ignore_link_eqb ignore_link_hash /\
  (forall h, proper_eq iptag_eqb (iptag_hash h)) /\
  (forall h, proper_eq spin_link_eqb (spin_link_hash h)) /\
  (forall h, proper_eq fpga_link_eqb (fpga_link_hash h)).
Proof.
  assert (forall A K (eqb : A -> A -> bool) (key : A -> K) (h : K -> Z),
    (forall a b, eqb a b = true <-> key a = key b) -> proper_eq eqb (fun a => h (key a))) as P.
  { intros A K eqb key h H. split.
    - split.
      + intros a. apply H. reflexivity.
      + intros a b X. apply H. symmetry. apply H. auto.
      + intros a b c X Y. apply H. transitivity (key b); apply H; auto.
    - intros a b X. f_equal. apply H. auto. }
  assert (forall a b, entry_eqb a b = true <->
    (e_route a, e_defaultable a) = (e_route b, e_defaultable b)) as E.
  { intros a b. rewrite entry_eqb_iff. split; [intros [-> ->]; auto|intros X; injection X; auto]. }
  split; [|split; [|split; [|split; [|split; [|split; [|split]]]]]].
  - apply (P _ _ entry_eqb _ (fun k : Z * bool => fst k * 29 * (if snd k then 1 else 0 : Z) * 131) E).
  - apply (P _ _ mc_eqb (fun m => (mc_key m, mc_mask m, (e_route (mc_entry m), e_defaultable (mc_entry m))))
      (fun k : Z * Z * (Z * bool) => fst (fst k) * 13 + snd (fst k) * 19 +
         hash_int (fst (snd k) * 29 * (if snd (snd k) then 1 else 0 : Z) * 131))).
    intros a b. unfold mc_eqb. rewrite !andb_true_iff, !Z.eqb_eq, E. split.
    + intros ((-> & ->) & ->). auto.
    + intros X. injection X as -> -> X1 X2. rewrite X1, X2. repeat split; auto.
  - apply (P _ _ ignore_chip_eqb (fun a => a) ignore_chip_hash). apply ignore_chip_eqb_eq.
  - apply (P _ _ ignore_core_eqb (fun a => a) ignore_core_hash). apply ignore_core_eqb_eq.
  - apply (P _ _ ignore_link_eqb (fun a => a) ignore_link_hash). apply ignore_link_eqb_eq.
  - intros h. apply (P _ _ iptag_eqb (fun a => (it_ip a, it_strip a, it_board a, it_port a, it_tag a, it_traffic a)) h). intros a b. unfold iptag_eqb.
    rewrite !andb_true_iff, !Z.eqb_eq, !String.eqb_eq. split.
    + intros (((((-> & X) & ->) & ->) & ->) & ->). apply Bool.eqb_prop in X. rewrite X. auto.
    + intros X. injection X as -> -> -> -> -> ->. repeat split; auto. apply Bool.eqb_reflx.
  - intros h. apply (P _ _ spin_link_eqb (fun a => (sl_id a, sl_x a, sl_y a, sl_link a, sl_addr a)) h). intros a b. unfold spin_link_eqb.
    rewrite !andb_true_iff, !Z.eqb_eq, !String.eqb_eq. split.
    + intros ((((-> & ->) & ->) & ->) & ->). auto.
    + intros X. injection X as -> -> -> -> ->. repeat split; auto.
  - intros h. apply (P _ _ fpga_link_eqb
      (fun a => (fl_fpga_id a, fl_link_id a, fl_x a, fl_y a, fl_link a, fl_addr a)) h). intros a b. unfold fpga_link_eqb.
    rewrite !andb_true_iff, !Z.eqb_eq, !String.eqb_eq. split.
    + intros (((((-> & ->) & ->) & ->) & ->) & ->). auto.
    + intros X. injection X as -> -> -> -> -> ->. repeat split; auto.
Qed.
Print Assumptions C41_equality_and_hash.

(** Equal link data and equal down items are the same in every field. *)
Theorem C41_equal_means_same :
  (forall a b, spin_link_eqb a b = true -> a = b) /\ (forall a b, fpga_link_eqb a b = true -> a = b) /\
  (forall a b, ignore_chip_eqb a b = true -> a = b) /\ (forall a b, ignore_core_eqb a b = true -> a = b) /\
  (forall a b, ignore_link_eqb a b = true -> a = b).
Proof.
  split; [|split; [|split; [|split]]].
  - intros [] [] H. unfold spin_link_eqb in H. cbn in H. rewrite !andb_true_iff, !Z.eqb_eq, String.eqb_eq in H.
    destruct H as ((((-> & ->) & ->) & ->) & ->). auto.
  - intros [] [] H. unfold fpga_link_eqb in H. cbn in H. rewrite !andb_true_iff, !Z.eqb_eq, String.eqb_eq in H.
    destruct H as (((((-> & ->) & ->) & ->) & ->) & ->). auto.
  - intros a b. apply ignore_chip_eqb_eq.
  - intros a b. apply ignore_core_eqb_eq.
  - intros a b. apply ignore_link_eqb_eq.
Qed.
Print Assumptions C41_equal_means_same.

(** Equal entries in routable ids have the same destinations; in other ids not. *)
Theorem C41_equal_entries :
  (forall a b, made_entry a -> made_entry b -> routable a -> routable b -> entry_eqb a b = true ->
     same_members (processor_ids a) (processor_ids b) /\ same_members (link_ids a) (link_ids b) /\
     defaultable a = defaultable b).
Proof.
  intros a b Ma Mb Ra Rb E. apply entry_eqb_iff in E as [E D].
  destruct (routable_bits a Ma Ra) as [A1 A2], (routable_bits b Mb Rb) as [B1 B2].
  split; [|split; auto].
  - intros p. rewrite A1, B1, E. tauto.
  - intros l. rewrite A2, B2, E. tauto.
Qed.
Print Assumptions C41_equal_entries.

(** Link 6 and processor 0 are the same to ==. *)
Theorem C41_equal_unroutable_refuted :
  exists a b, new_entry (Some (ManyIds [])) (Some (ManyIds [6])) None None None None = Ok a /\
    new_entry (Some (ManyIds [0])) (Some (ManyIds [])) None None None None = Ok b /\
    entry_eqb a b = true /\ link_ids a = [6] /\ link_ids b = [].
Proof. do 2 eexists. repeat split. Qed.
Print Assumptions C41_equal_unroutable_refuted.

(** Two IP tags with different destinations can be equal. *)
Theorem C41_equal_tags_same_destination_refuted :
  exists a b, iptag_eqb a b = true /\ it_x a <> it_x b.
Proof.
  exists (mkIPTag "b" 1 2 "i" false "D" 0 0), (mkIPTag "b" 1 2 "i" false "D" 1 0).
  split; [reflexivity|discriminate].
Qed.
Print Assumptions C41_equal_tags_same_destination_refuted.

(** ** Cases *)

Example C36_case :
  exists e, new_entry (Some (ManyIds [17; 1; 17])) (Some (OneId 5)) None None None None = Ok e /\
    spinnaker_route e = 2 ^ 23 + 2 ^ 7 + 2 ^ 5 /\ routable e.
Proof.
  eexists. split; [reflexivity|]. split; [reflexivity|]. split; cbn; intros x H.
  - destruct H as [<-|[<-|[]]]; lia.
  - destruct H as [<-|[]]; lia.
Qed.

Example C37_case : convert_to_route [3; 18] [1] = Err InvalidParameter /\ convert_to_route [3; 17] [1] = Ok 8389122.
Proof. split; reflexivity. Qed.

Example C38_case :
  exists a b e c, new_entry (Some (ManyIds [1])) (Some (ManyIds [2; 3])) None None None None = Ok a /\
    new_entry (Some (OneId 4)) (Some (OneId 3)) None (Some 0) None None = Ok b /\ defaultable b = true /\
    entry_merge a b = Ok e /\ processor_ids e = [1; 4] /\ link_ids e = [2; 3] /\ defaultable e = false /\
    mc_merge (mkMulticast 16 48 a) (mkMulticast 16 48 b) = Ok c.
Proof. do 4 eexists. repeat split. Qed.

Example C39_case :
  forall e, new_multicast 0x10 0x30 e = Ok (mkMulticast 0x10 0x30 e) /\ new_multicast 0x11 0x30 e = Err InvalidParameter.
Proof. intros e. split; reflexivity. Qed.

Example C40_case :
  exists e, new_entry (Some (ManyIds [])) (Some (OneId 1)) None (Some 4) None None = Ok e /\ defaultable e = true.
Proof. eexists. split; reflexivity. Qed.

(** Entries made in different ways, tags and link data that are equal, or not. *)
Example C41_case :
  exists a b, new_entry (Some (ManyIds [2; 1; 2])) (Some (ManyIds [4])) None None None None = Ok a /\
    new_entry None None None None (Some false) (Some (2 ^ 8 + 2 ^ 7 + 2 ^ 4)) = Ok b /\
    a <> b /\ entry_eqb a b = true /\ routable a /\ routable b /\ processor_ids b = [1; 2] /\
    mc_eqb (mkMulticast 16 48 a) (mkMulticast 16 48 b) = true /\
    mc_eqb (mkMulticast 16 48 a) (mkMulticast 16 16 b) = false /\
    spin_link_eqb (mkSpinLink 0 0 0 4 "a") (mkSpinLink 0 0 0 4 "a") = true /\
    spin_link_eqb (mkSpinLink 0 0 0 4 "a") (mkSpinLink 0 0 0 3 "a") = false /\
    fpga_link_eqb (mkFpgaLink 1 2 3 4 5 "a") (mkFpgaLink 1 2 3 4 5 "b") = false.
Proof.
  eexists. eexists. split; [reflexivity|]. split; [reflexivity|]. split; [discriminate|]. split; [reflexivity|].
  split; [|split].
  - split; cbn; intros x H.
    + destruct H as [<-|[<-|[]]]; lia.
    + destruct H as [<-|[]]; lia.
  - split; cbn; intros x H.
    + destruct H as [<-|[<-|[]]]; lia.
    + destruct H as [<-|[]]; lia.
  - repeat split; reflexivity.
Qed.
