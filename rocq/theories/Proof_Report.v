From Coq Require Import Lia ZifyBool Permutation Sorted.
From Verif Require Import Model_Py Model_Wrap Model_Version Model_Core Model_Machine
  Spec_Hops Spec_Machine Spec_Router Proof_Wrap Proof_Concentric Proof_Py Proof_Board
  Proof_Machine.

Lemma six l : 0 <= l < 6 -> l = 0 \/ l = 1 \/ l = 2 \/ l = 3 \/ l = 4 \/ l = 5.
Proof. lia. Qed.

Lemma flat_moves x y l q : flat_neighbour x y l q <->
  exists mv, In (l, mv) (enumerate MOVES) /\ q = (x + fst mv, y + snd mv).
Proof.
  unfold flat_neighbour. split.
  - intros [H E]. apply six in H.
    assert (exists mv, In (l, mv) (enumerate MOVES) /\ Ok q = Ok (x + fst mv, y + snd mv)) as K.
    { rewrite <- E.
      destruct H as [->|[->|[->|[->|[->| ->]]]]]; eexists;
        (split; [cbn; repeat (first [left; reflexivity|right])|reflexivity]). }
    destruct K as (mv & K1 & K2). exists mv. split; auto. congruence.
  - intros (mv & H & ->). cbn in H.
    destruct H as [H|[H|[H|[H|[H|[H|[]]]]]]]; injection H as <- <-;
      (split; [lia|reflexivity]).
Qed.

Lemma flat_moves_in x y l q : flat_neighbour x y l q <->
  exists mv, In ((l + 3) mod 6, mv) (enumerate MOVES_IN) /\ 0 <= l < 6 /\
    q = (x + fst mv, y + snd mv).
Proof.
  unfold flat_neighbour. split.
  - intros [H E]. pose proof H as H6. apply six in H.
    assert (exists mv, In ((l + 3) mod 6, mv) (enumerate MOVES_IN) /\
       Ok q = Ok (x + fst mv, y + snd mv)) as K.
    { rewrite <- E.
      destruct H as [->|[->|[->|[->|[->| ->]]]]]; eexists;
        (split; [cbn; repeat (first [left; reflexivity|right])|reflexivity]). }
    destruct K as (mv & K1 & K2). exists mv. repeat split; auto; try lia. congruence.
  - intros (mv & H & H6 & ->). split; auto. apply six in H6.
    destruct H6 as [->|[->|[->|[->|[->| ->]]]]]; cbn in H;
    destruct H as [H|[H|[H|[H|[H|[H|[]]]]]]]; try discriminate; injection H as <-;
      reflexivity.
Qed.

(** ** one_way_links *)
Lemma link_checks_spec o b : In (o, b) LINK_CHECKS <-> 0 <= o < 6 /\ b = (o + 3) mod 6.
Proof.
  split.
  - intros H. cbn in H. destruct H as [H|[H|[H|[H|[H|[H|[]]]]]]]; injection H as <- <-;
      (split; [lia|reflexivity]).
  - intros [H ->]. apply six in H.
    destruct H as [->|[->|[->|[->|[->| ->]]]]]; cbn; tauto.
Qed.

Lemma one_way_spec m x y o b : wf m ->
  In (x, y, o, b) (one_way_links m) <->
  exists c l, get_chip_at m x y = Some c /\ 0 <= o < 6 /\ b = (o + 3) mod 6 /\
    get_link (c_router c) o = Some l /\
    is_link_at m (l_destination_x l) (l_destination_y l) b = false.
Proof.
  intros W. unfold one_way_links. rewrite in_flat_map. split.
  - intros (c & Hc & H). apply in_flat_map in H as ([o' b'] & Hk & H).
    apply link_checks_spec in Hk as [Ho Hb].
    destruct (get_link (c_router c) o') as [l|] eqn:G; [|destruct H].
    destruct (is_link_at m _ _ b') eqn:I; cbn in H; [destruct H|].
    destruct H as [H|[]]. injection H as <- <- <- <-.
    exists c, l. repeat split; auto; try lia. apply get_chip_in; auto.
  - intros (c & l & G & Ho & -> & GL & I). apply get_chip_in in G as [Hc X]; auto.
    exists c. split; auto. apply in_flat_map. exists (o, (o + 3) mod 6).
    split; [apply link_checks_spec; auto|]. rewrite GL, I. cbn. left.
    unfold c_xy in X. injection X as <- <-. reflexivity.
Qed.

Lemma one_way_nodup m : wf m -> NoDup (one_way_links m).
Proof.
  intros W. unfold one_way_links. apply nodup_flat_map.
  - apply (NoDup_map_inv c_xy). apply W.
  - intros c _. apply nodup_flat_map.
    + repeat constructor; cbn; intuition congruence.
    + intros [o b] _. destruct (get_link (c_router c) o) as [l|]; [|constructor].
      destruct (negb _); repeat constructor; auto.
    + intros [o b] [o' b'] q _ _ H H'.
      destruct (get_link (c_router c) o) as [l|]; [|destruct H].
      destruct (get_link (c_router c) o') as [l'|]; [|destruct H'].
      destruct (negb _); [|destruct H]. destruct (negb _); [|destruct H'].
      cbn in H, H'. destruct H as [<-|[]], H' as [E|[]]. congruence.
  - intros c c' q Hc Hc' H H'. apply (chip_unique m); auto.
    apply in_flat_map in H as ([o b] & _ & H). apply in_flat_map in H' as ([o' b'] & _ & H').
    destruct (get_link (c_router c) o) as [l|]; [|destruct H].
    destruct (get_link (c_router c') o') as [l'|]; [|destruct H'].
    destruct (negb _); [|destruct H]. destruct (negb _); [|destruct H'].
    cbn in H, H'. destruct H as [<-|[]], H' as [E|[]]. unfold c_xy. congruence.
Qed.

(** ** unreachable reports *)
Lemma outgoing_spec m p : wf m ->
  In p (unreachable_outgoing_chips m) <->
  In p (chip_coordinates m) /\ forall l, 0 <= l < 6 -> is_link_at m (fst p) (snd p) l = false.
Proof.
  intros W. unfold unreachable_outgoing_chips. rewrite filter_In, negb_true_iff.
  split; intros [H X]; (split; [auto|]).
  - intros l Hl. destruct (is_link_at m (fst p) (snd p) l) eqn:E; auto.
    assert (existsb (fun l => is_link_at m (fst p) (snd p) l) (zrange 0 6) = true); [|congruence].
    apply existsb_exists. exists l. split; auto. apply in_zrange. auto.
  - destruct (existsb _ _) eqn:E; auto. apply existsb_exists in E as (l & Hl & E).
    apply in_zrange in Hl. rewrite X in E; auto.
Qed.

Lemma existsb_false {A} (f : A -> bool) l :
  existsb f l = false <-> forall a, In a l -> f a = false.
Proof.
  split.
  - intros E a Ha. destruct (f a) eqn:F; auto. assert (existsb f l = true); [|congruence].
    apply existsb_exists. eauto.
  - intros H. destruct (existsb f l) eqn:E; auto.
    apply existsb_exists in E as (a & Ha & E). rewrite H in E; auto.
Qed.

Lemma link_at_iff m x y l : is_link_at m x y l = true <-> link_at m x y l.
Proof.
  unfold is_link_at, link_at, get_chip_at. destruct (dget xy_eqb (m_chips m) (x, y)) as [c|].
  - unfold is_link, get_link, dmem. split.
    + destruct (dget Z.eqb (r_links (c_router c)) l) as [k|] eqn:E; [|discriminate]. exists c, k. auto.
    + intros (c' & k & G & E). assert (c = c') as -> by congruence. rewrite E. reflexivity.
  - split; [discriminate|intros (c & k & E & _); discriminate].
Qed.

Lemma link_at_not m x y l : is_link_at m x y l = false <-> ~ link_at m x y l.
Proof. rewrite <- link_at_iff, not_true_iff_false. reflexivity. Qed.

Lemma incoming_spec m p : wf m ->
  In p (unreachable_incoming_chips m) <->
  In p (chip_coordinates m) /\ ~ linked_from flat_neighbour m (fst p) (snd p).
Proof.
  intros W. unfold unreachable_incoming_chips. rewrite filter_In, negb_true_iff, existsb_false.
  split; intros [H X]; (split; [auto|]).
  - intros (l & q & N & E). apply link_at_iff in E. apply flat_moves in N as (mv & Hm & ->).
    specialize (X _ Hm). cbn [fst snd] in *. cbv zeta in X. congruence.
  - intros [l mv] Hm. cbv zeta. destruct (is_link_at _ _ _ _) eqn:E; auto.
    exfalso. apply X. exists l, (fst p + fst mv, snd p + snd mv). split; [|apply link_at_iff; exact E].
    apply flat_moves. eauto.
Qed.

Lemma same_eth_spec a b : same_ethernet a b = true <->
  (c_eth_x a, c_eth_y a) = (c_eth_x b, c_eth_y b).
Proof.
  unfold same_ethernet. rewrite andb_true_iff, !Z.eqb_eq.
  split; [intros [-> ->]; auto|intros E; injection E; auto].
Qed.

Lemma outgoing_local_spec m p : wf m ->
  In p (unreachable_outgoing_local_chips m) <->
  exists c, get_chip_at m (fst p) (snd p) = Some c /\ ~ linked_to_board flat_neighbour m c.
Proof.
  intros W. unfold unreachable_outgoing_local_chips. rewrite in_map_iff.
  assert (forall c, negb (existsb (fun lm : Z * XY =>
      let '(l, mv) := lm in
      if is_link (c_router c) l then
        match dget xy_eqb (m_chips m) (c_x c + fst mv, c_y c + snd mv) with
        | Some n => same_ethernet n c
        | None => false
        end
      else false) (enumerate MOVES)) = true <-> ~ linked_to_board flat_neighbour m c) as K.
  { intros c. rewrite negb_true_iff, <- not_true_iff_false, existsb_exists.
    unfold linked_to_board. split; intros H X; apply H; clear H.
    - destruct X as (l & q & n & N & L & G & S). apply flat_moves in N as (mv & Hm & ->).
      exists (l, mv). split; auto. rewrite L. cbn [fst snd] in G.
      unfold get_chip_at in G. rewrite G. apply same_eth_spec; auto.
    - destruct X as ((l & mv) & Hm & E). destruct (is_link (c_router c) l) eqn:L; [|discriminate].
      destruct (dget xy_eqb (m_chips m) (c_x c + fst mv, c_y c + snd mv)) as [n|] eqn:G;
        [|discriminate].
      exists l, (c_x c + fst mv, c_y c + snd mv), n. split; [apply flat_moves; eauto|].
      split; auto. split; auto. apply same_eth_spec; auto. }
  split.
  - intros (c & X & H). apply filter_In in H as [Hc H]. apply K in H. exists c.
    split; auto. apply get_chip_in; auto. split; auto. destruct p; auto.
  - intros (c & G & H). apply get_chip_in in G as [Hc X]; auto. exists c.
    split; [destruct p; auto|]. apply filter_In. split; auto. apply K. auto.
Qed.

Lemma incoming_local_spec m p : wf m ->
  In p (unreachable_incoming_local_chips m) <->
  exists c, get_chip_at m (fst p) (snd p) = Some c /\ ~ linked_from_board flat_neighbour m c.
Proof.
  intros W. unfold unreachable_incoming_local_chips. rewrite in_map_iff.
  assert (forall c, negb (existsb (fun om : Z * XY =>
      let '(opp, mv) := om in
      match dget xy_eqb (m_chips m) (c_x c + fst mv, c_y c + snd mv) with
      | Some n => if is_link (c_router n) opp then same_ethernet n c else false
      | None => false
      end) (enumerate MOVES_IN)) = true <-> ~ linked_from_board flat_neighbour m c) as K.
  { intros c. rewrite negb_true_iff, <- not_true_iff_false, existsb_exists.
    unfold linked_from_board. split; intros H X; apply H; clear H.
    - destruct X as (l & q & n & N & G & L & S). apply flat_moves_in in N as (mv & Hm & _ & ->).
      exists ((l + 3) mod 6, mv). split; auto. cbn [fst snd] in G.
      unfold get_chip_at in G. rewrite G, L. apply same_eth_spec; auto.
    - destruct X as ((o & mv) & Hm & E).
      destruct (dget xy_eqb (m_chips m) (c_x c + fst mv, c_y c + snd mv)) as [n|] eqn:G;
        [|discriminate].
      destruct (is_link (c_router n) o) eqn:L; [|discriminate].
      assert (0 <= o < 6) as Ho.
      { apply enumerate_in in Hm as [H0 Hm].
        assert (Z.to_nat o < 6)%nat; [|lia]. apply nth_error_Some with (l := MOVES_IN).
        rewrite Hm. discriminate. }
      assert (((o + 3) mod 6 + 3) mod 6 = o) as Eo
        by (apply six in Ho; destruct Ho as [->|[->|[->|[->|[->| ->]]]]]; reflexivity).
      exists ((o + 3) mod 6), (c_x c + fst mv, c_y c + snd mv), n. rewrite Eo.
      split; [apply flat_moves_in; exists mv; rewrite Eo; repeat split; auto;
              apply Z.mod_pos_bound; lia|].
      split; auto. split; auto. apply same_eth_spec; auto. }
  split.
  - intros (c & X & H). apply filter_In in H as [Hc H]. apply K in H. exists c.
    split; auto. apply get_chip_in; auto. split; auto. destruct p; auto.
  - intros (c & G & H). apply get_chip_in in G as [Hc X]; auto. exists c.
    split; [destruct p; auto|]. apply filter_In. split; auto. apply K. auto.
Qed.

(** ** min_n_router_enteries *)
Lemma min_entries_spec m : wf m -> chips m <> [] ->
  exists n, min_n_router_enteries m = Ok n /\
    (exists c, In c (chips m) /\ r_entries (c_router c) = n) /\
    (forall c, In c (chips m) -> r_entries (c_router c) <= n).
Proof.
  intros W N. unfold min_n_router_enteries. set (l := dkeys (m_entries_counter m)).
  assert (forall n, In n (zsorted l) <-> exists c, In c (chips m) /\ r_entries (c_router c) = n)
    as K by (intros n; rewrite zsorted_in; apply (wf_entries m W)).
  assert (zsorted l <> []) as NE.
  { destruct (chips m) as [|c cs] eqn:E; [congruence|]. intros X.
    assert (In (r_entries (c_router c)) (zsorted l)) as H.
    { apply K. exists c. cbn. auto. }
    rewrite X in H. destruct H. }
  destruct (exists_last NE) as (l' & n & E). exists n. rewrite E. split; [apply py_index_last|].
  split.
  - apply K. rewrite E. apply in_app_iff. cbn. auto.
  - intros c Hc. pose proof (sorted_last (zsorted l) 0 (r_entries (c_router c))
      (zsorted_sorted l)) as S. rewrite E in S. rewrite last_last in S. apply S.
    rewrite <- E. apply K. eauto.
Qed.

(** ** Routers *)
Lemma router_book ls : forall r, r_links r = map (fun l => (l_source_link_id l, l)) (router_links r) ->
  let '(r', es) := router_history r ls in
  first_links (router_links r) ls = (router_links r', es) /\
  r_links r' = map (fun l => (l_source_link_id l, l)) (router_links r') /\
  r_entries r' = r_entries r.
Proof.
  induction ls as [|l ls IH]; intros r W; cbn [router_history first_links]; [auto|].
  assert (dkeys (r_links r) = map l_source_link_id (router_links r)) as KE.
  { rewrite W at 1. unfold dkeys. rewrite map_map. reflexivity. }
  unfold router_add_link. destruct (dmem Z.eqb (r_links r) (l_source_link_id l)) eqn:D.
  - assert (existsb (fun l' => l_source_link_id l' =? l_source_link_id l) (router_links r) = true)
      as ->.
    { apply (dmem_in Z.eqb Z.eqb_eq) in D. rewrite KE in D. apply in_map_iff in D as (l' & X & H).
      apply existsb_exists. exists l'. split; auto. apply Z.eqb_eq. auto. }
    specialize (IH r W). destruct (router_history r ls) as [r' es].
    destruct IH as (-> & IH). split; auto.
  - apply (dmem_false Z.eqb Z.eqb_eq) in D.
    assert (existsb (fun l' => l_source_link_id l' =? l_source_link_id l) (router_links r) = false)
      as ->.
    { apply not_true_iff_false. intros H. apply existsb_exists in H as (l' & H & X).
      apply Z.eqb_eq in X. apply D. rewrite KE. apply in_map_iff. eauto. }
    set (r1 := mkRouter _ _).
    assert (router_links r1 = router_links r ++ [l]) as R1.
    { unfold router_links, r1. cbn [r_links]. rewrite (dset_new Z.eqb Z.eqb_eq) by auto.
      unfold dvalues. rewrite map_app. reflexivity. }
    assert (r_links r1 = map (fun l => (l_source_link_id l, l)) (router_links r1)) as W1.
    { rewrite R1, map_app, <- W. unfold r1. cbn [r_links].
      rewrite (dset_new Z.eqb Z.eqb_eq) by auto. reflexivity. }
    specialize (IH r1 W1). rewrite R1 in IH. destruct (router_history r1 ls) as [r' es].
    destruct IH as (-> & IH). split; auto.
Qed.

Lemma first_links_nodup ls : forall seen, NoDup (map l_source_link_id seen) ->
  NoDup (map l_source_link_id (fst (first_links seen ls))).
Proof.
  induction ls as [|l ls IH]; intros seen N; cbn [first_links]; [auto|].
  destruct (existsb _ _) eqn:E.
  - specialize (IH seen N). destruct (first_links seen ls). exact IH.
  - specialize (IH (seen ++ [l])). destruct (first_links (seen ++ [l]) ls). apply IH.
    rewrite map_app. cbn. apply nodup_snoc; auto. intros H. apply in_map_iff in H as (l' & X & H).
    assert (existsb (fun l' => l_source_link_id l' =? l_source_link_id l) seen = true); [|congruence].
    apply existsb_exists. exists l'. split; auto. apply Z.eqb_eq; auto.
Qed.

Lemma dget_find (ls : list link) i :
  dget Z.eqb (map (fun l => (l_source_link_id l, l)) ls) i =
  find (fun l => l_source_link_id l =? i) ls.
Proof. induction ls as [|l ls IH]; cbn; auto. destruct (l_source_link_id l =? i); auto. Qed.

Lemma first_links_find ls : forall seen i,
  find (fun l => l_source_link_id l =? i) (fst (first_links seen ls)) =
  find (fun l => l_source_link_id l =? i) (seen ++ ls).
Proof.
  induction ls as [|l ls IH]; intros seen i; cbn [first_links]; [rewrite app_nil_r; auto|].
  destruct (existsb _ _) eqn:E.
  - specialize (IH seen i). destruct (first_links seen ls). cbn [fst] in *. rewrite IH.
    apply existsb_exists in E as (l' & H & X). apply Z.eqb_eq in X. clear IH.
    induction seen as [|s seen IHs]; cbn in *; [tauto|].
    destruct (Z.eqb_spec (l_source_link_id s) i) as [|N]; auto.
    destruct H as [->|H]; auto.
    (* the duplicate is not the one looked for *)
    assert (l_source_link_id l <> i) as N' by congruence. clear - N'.
    induction seen as [|s seen IHs]; cbn.
    + destruct (Z.eqb_spec (l_source_link_id l) i); congruence.
    + destruct (l_source_link_id s =? i); auto.
  - specialize (IH (seen ++ [l]) i). destruct (first_links (seen ++ [l]) ls). cbn [fst] in *.
    rewrite IH, <- app_assoc. reflexivity.
Qed.
