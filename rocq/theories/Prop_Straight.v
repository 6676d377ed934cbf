(** C82: defaultable entries send packets straight on. *)
From Coq Require Import Lia ZifyBool.
From Verif Require Import Model_Py Model_Wrap Model_Core Model_Ignore Model_Routing
  Spec_Hops Spec_Straight Proof_Wrap Prop_Routing.
Open Scope list_scope.
Open Scope Z_scope.

Lemma twice_opposite l : 0 <= l < 6 -> (opposite l + 3) mod 6 = l.
Proof. intros H. destruct (link_cases l H) as [->|[->|[->|[->|[->| ->]]]]]; reflexivity. Qed.

(** The packet goes straight on: it leaves every chip over the link it left the first. *)
Theorem C82_straight_on :
  forall k w h p l es q, 0 <= l < 6 -> carried k w h p l es q ->
    follow k w h p (repeat l (S (List.length es))) = Ok q /\
    forall e, In e es -> forall l', In l' (link_ids e) <-> l' = l.
Proof.
  intros k w h p l es q L C. revert L. induction C as [p l q E|p l p' ps ls e l' es q E N D I C IH]; intros L.
  - split; [|intros e []]. cbn. rewrite E. reflexivity.
  - pose proof (C40_one_opposite_link _ _ _ _ N D) as O. rewrite twice_opposite in O by auto.
    apply O in I as ->. destruct (IH L) as [F A]. split.
    + change (repeat l (S (List.length (e :: es)))) with (l :: repeat l (S (List.length es))).
      cbn [follow]. rewrite E. exact F.
    + intros e' [<-|H]; auto.
Qed.
Print Assumptions C82_straight_on.

(** Every straight way can be had: with an entry for just that link on each chip in between. *)
Theorem C82_every_straight_way :
  forall k w h p l n q ps, 0 <= l < 6 ->
    (forall x, In x (ids_list ps) -> -6 <= x) ->
    follow k w h p (repeat l (S n)) = Ok q ->
    exists e, new_entry (Some ps) (Some (OneId l)) None (Some (opposite l)) None None = Ok e /\
      carried k w h p l (repeat e n) q.
Proof.
  intros k w h p l n q ps L P F.
  destruct (C36_route_bits ps (OneId l)) as ((_ & X) & _). destruct (X ltac:(split; [auto|cbn; intros ? [<-|[]]; lia])) as [e0 E0].
  assert (exists e, new_entry (Some ps) (Some (OneId l)) None (Some (opposite l)) None None = Ok e) as [e E].
  { cbn [new_entry] in E0 |- *. destruct (calc_spinnaker_route _ _) as [r|x]; cbn [bind] in *; [|discriminate E0].
    cbn [ids_list]. eauto. }
  exists e. split; auto.
  assert (defaultable e = true) as D.
  { destruct C40_defaultable as [K _]. apply (K _ _ _ _ E). rewrite twice_opposite by auto. reflexivity. }
  assert (In l (link_ids e)) as I.
  { apply (C40_one_opposite_link _ _ _ _ E D). rewrite twice_opposite by auto. reflexivity. }
  revert p F. induction n as [|n IH]; intros p F.
  - cbn in F. destruct (xy_over_link k w h (fst p) (snd p) l) as [p'|] eqn:O; [|discriminate F].
    cbn in F. injection F as <-. constructor. exact O.
  - change (repeat l (S (S n))) with (l :: repeat l (S n)) in F. cbn [follow] in F.
    destruct (xy_over_link k w h (fst p) (snd p) l) as [p'|] eqn:O; [|discriminate F]. cbn [bind] in F.
    cbn [repeat]. econstructor; eauto.
Qed.
Print Assumptions C82_every_straight_way.

(** ** Where straight ways lead *)
Lemma sum_repeat l n : sum_vec (repeat l n) = (Z.of_nat n * fst (link_vec l), Z.of_nat n * snd (link_vec l)).
Proof.
  induction n as [|n IH]; [reflexivity|]. cbn [repeat sum_vec]. rewrite IH. unfold vadd. cbn [fst snd].
  apply pair_eq; lia.
Qed.

Lemma repeat_ok l n : 0 <= l < 6 -> Forall (fun l => 0 <= l < 6) (repeat l n).
Proof. intros H. induction n; constructor; auto. Qed.

Lemma half_way a v t m : t = Z.abs t \/ t = - Z.abs t -> 0 < m -> 2 * Z.abs t <= m ->
  (a + v) mod m = (a + t) mod m -> Z.abs t <= Z.abs v.
Proof.
  intros T M H E. pose proof (Z.div_mod (a + v) m ltac:(lia)). pose proof (Z.div_mod (a + t) m ltac:(lia)).
  assert (exists i, v = t + i * m) as [i ->] by (exists ((a + v) / m - (a + t) / m); lia).
  destruct (Z.eq_dec i 0); [subst; lia|]. assert (i <= -1 \/ 1 <= i) as [I|I] by lia; nia.
Qed.

(** A straight way is a shortest one if it is no longer than half way round the machine. *)
Theorem C82_straight_is_shortest :
  forall k w h p l n q, good_size k w h -> canonical k w h p -> 0 <= l < 6 ->
    (wraps_x k = true -> 2 * Z.of_nat n <= w) -> (wraps_y k = true -> 2 * Z.of_nat n <= h) ->
    follow k w h p (repeat l n) = Ok q ->
    get_vector_length k w h p q = Z.of_nat n.
Proof.
  intros k w h p l n q G C L X Y F. rewrite follow_sum in F by (auto using repeat_ok). injection F as <-.
  rewrite sum_repeat. destruct (length_min_lift k w h p (red k w h (vadd p (Z.of_nat n * fst (link_vec l), Z.of_nat n * snd (link_vec l)))) G) as [(v & LV & <-) M].
  assert (norm2 (Z.of_nat n * fst (link_vec l), Z.of_nat n * snd (link_vec l)) = Z.of_nat n) as N.
  { destruct (link_cases l L) as [->|[->|[->|[->|[->| ->]]]]]; unfold norm2; cbn [link_vec Z.eqb fst snd]; cbn; lia. }
  apply Z.le_antisymm.
  - set (u := (Z.of_nat n * fst (link_vec l), Z.of_nat n * snd (link_vec l))) in *.
    transitivity (norm2 u); [|lia]. apply M. unfold lifts.
    symmetry. apply red_canon. apply canon_red; auto.
  - clear M N. unfold lifts in LV. rewrite (red_canon k w h (red k w h _)) in LV by (apply canon_red; auto).
    unfold red, vadd in LV. cbn [fst snd] in LV. injection LV as L1 L2. destruct v as [a b]. cbn [fst snd] in *.
    set (dx := fst (link_vec l)) in *. set (dy := snd (link_vec l)) in *.
    assert (dx = 1 \/ dx = -1 \/ dy = 1 \/ dy = -1) as DD.
    { subst dx dy. destruct (link_cases l L) as [->|[->|[->|[->|[->| ->]]]]]; cbn; auto. }
    clearbody dx dy. destruct (Z.eq_dec dx 1) as [D1|D1]; [|destruct (Z.eq_dec dx (-1)) as [D2|D2]].
    + enough (Z.of_nat n <= Z.abs a) by (unfold norm2; cbn [fst snd]; lia).
      destruct (wraps_x k) eqn:WX; [|lia].
      pose proof (half_way (fst p) a (Z.of_nat n * dx) w ltac:(lia) (proj1 G WX) ltac:(subst; specialize (X eq_refl); lia) L1). lia.
    + enough (Z.of_nat n <= Z.abs a) by (unfold norm2; cbn [fst snd]; lia).
      destruct (wraps_x k) eqn:WX; [|lia].
      pose proof (half_way (fst p) a (Z.of_nat n * dx) w ltac:(lia) (proj1 G WX) ltac:(subst; specialize (X eq_refl); lia) L1). lia.
    + enough (Z.of_nat n <= Z.abs b) by (unfold norm2; cbn [fst snd]; lia).
      destruct (wraps_y k) eqn:WY; [|lia].
      pose proof (half_way (snd p) b (Z.of_nat n * dy) h ltac:(lia) (proj2 G WY) ltac:(specialize (Y eq_refl); nia) L2). nia.
Qed.
Print Assumptions C82_straight_is_shortest.

(** A straight way comes back to where it started after so many hops as the machine is
    wide, or high, or both for the diagonal links; and never if it does not wrap. *)
Theorem C82_comes_back :
  forall k w h p l n, good_size k w h -> canonical k w h p -> 0 <= l < 6 ->
    (follow k w h p (repeat l n) = Ok p <->
     (l <> 2 -> l <> 5 -> if wraps_x k then (w | Z.of_nat n) else n = 0%nat) /\
     (l <> 0 -> l <> 3 -> if wraps_y k then (h | Z.of_nat n) else n = 0%nat)).
Proof.
  intros k w h p l n G C L. rewrite follow_sum by (auto using repeat_ok). rewrite sum_repeat.
  set (dx := fst (link_vec l)) in *. set (dy := snd (link_vec l)) in *.
  assert (forall a d m, 0 < m -> 0 <= a < m -> ((a + Z.of_nat n * d) mod m = a <-> (m | Z.of_nat n * d))) as DV.
  { intros a d m Hm Ha. rewrite <- (Z.mod_divide (Z.of_nat n * d)) by lia.
    pose proof (Z.div_mod (a + Z.of_nat n * d) m ltac:(lia)) as D1. pose proof (Z.div_mod (Z.of_nat n * d) m ltac:(lia)) as D2.
    pose proof (Z.mod_pos_bound (a + Z.of_nat n * d) m Hm). pose proof (Z.mod_pos_bound (Z.of_nat n * d) m Hm). split; intros E.
    - rewrite E in D1. assert (Z.of_nat n * d = m * ((a + Z.of_nat n * d) / m)) as -> by lia. rewrite Z.mul_comm. apply Z_mod_mult.
    - rewrite E in D2. rewrite D2, Z.add_0_r, Z.mul_comm, Z_mod_plus_full. apply Z.mod_small. auto. }
  assert (red k w h (vadd p (Z.of_nat n * dx, Z.of_nat n * dy)) = p <->
    (if wraps_x k then (w | Z.of_nat n * dx) else Z.of_nat n * dx = 0) /\
    (if wraps_y k then (h | Z.of_nat n * dy) else Z.of_nat n * dy = 0)) as R.
  { destruct G as [G1 G2], C as [C1 C2], p as [x y]. unfold red, vadd. cbn [fst snd] in *.
    assert (forall a b c d : Z, (a, b) = (c, d) <-> a = c /\ b = d) as PE by (split; [intros X; injection X; auto|intros [-> ->]; auto]).
    rewrite PE. destruct (wraps_x k), (wraps_y k); rewrite ?DV by auto;
      assert (forall a b, a + b = a <-> b = 0) as Z0 by (intros; lia); rewrite ?Z0; tauto. }
  assert (forall a b : XY, Ok a = Ok b <-> a = b) as OE by (split; congruence).
  rewrite OE, R. clear R DV OE.
  assert ((l = 0 \/ l = 3) /\ (dx = 1 \/ dx = -1) /\ dy = 0 \/ (l = 2 \/ l = 5) /\ dx = 0 /\ (dy = 1 \/ dy = -1) \/
    (l = 1 \/ l = 4) /\ (dx = 1 \/ dx = -1) /\ (dy = 1 \/ dy = -1)) as DD.
  { subst dx dy. destruct (link_cases l L) as [->|[->|[->|[->|[->| ->]]]]]; cbn; tauto. }
  clearbody dx dy.
  assert (forall m d, d = 1 \/ d = -1 -> ((m | Z.of_nat n * d) <-> (m | Z.of_nat n))) as D1.
  { intros m d [->| ->]; [rewrite Z.mul_1_r; tauto|]. replace (Z.of_nat n * -1) with (- Z.of_nat n) by lia. apply Z.divide_opp_r. }
  assert (forall d, d = 1 \/ d = -1 -> (Z.of_nat n * d = 0 <-> n = 0%nat)) as D2 by (intros d [->| ->]; lia).
  assert (forall m, (m | Z.of_nat n * 0)) as D3 by (intros m; rewrite Z.mul_0_r; apply Z.divide_0_r).
  destruct DD as [(LL & DX & ->)|[(LL & -> & DY)|(LL & DX & DY)]].
  - assert ((if wraps_y k then (h | Z.of_nat n * 0) else Z.of_nat n * 0 = 0) <-> True) as -> by (destruct (wraps_y k); split; auto; lia).
    assert ((if wraps_x k then (w | Z.of_nat n * dx) else Z.of_nat n * dx = 0) <-> (if wraps_x k then (w | Z.of_nat n) else n = 0%nat)) as ->
      by (destruct (wraps_x k); auto).
    split; [intros [X _]; split; auto; intros; lia|]. intros [X _]. split; auto. apply X; lia.
  - assert ((if wraps_x k then (w | Z.of_nat n * 0) else Z.of_nat n * 0 = 0) <-> True) as -> by (destruct (wraps_x k); split; auto; lia).
    assert ((if wraps_y k then (h | Z.of_nat n * dy) else Z.of_nat n * dy = 0) <-> (if wraps_y k then (h | Z.of_nat n) else n = 0%nat)) as ->
      by (destruct (wraps_y k); auto).
    split; [intros [_ X]; split; auto; intros; lia|]. intros [_ X]. split; auto. apply X; lia.
  - assert ((if wraps_y k then (h | Z.of_nat n * dy) else Z.of_nat n * dy = 0) <-> (if wraps_y k then (h | Z.of_nat n) else n = 0%nat)) as ->
      by (destruct (wraps_y k); auto).
    assert ((if wraps_x k then (w | Z.of_nat n * dx) else Z.of_nat n * dx = 0) <-> (if wraps_x k then (w | Z.of_nat n) else n = 0%nat)) as ->
      by (destruct (wraps_x k); auto).
    split; [intros [X Y]; split; auto|]. intros [X Y]. split; [apply X|apply Y]; lia.
Qed.
Print Assumptions C82_comes_back.

(** Four hops to the south west across both seams, with entries that also go to a core. *)
Example C82_case :
  exists e, new_entry (Some (OneId 3)) (Some (OneId 4)) None (Some 1) None None = Ok e /\
    carried FullWrap 12 24 (2, 1) 4 [e; e; e] (10, 21) /\
    get_vector_length FullWrap 12 24 (2, 1) (10, 21) = 4 /\
    follow FullWrap 12 24 (2, 1) (repeat 4 24) = Ok (2, 1) /\ follow FullWrap 12 24 (2, 1) (repeat 4 12) = Ok (2, 13).
Proof.
  destruct (C82_every_straight_way FullWrap 12 24 (2, 1) 4 3 (10, 21) (OneId 3) ltac:(lia)) as (e & E & C).
  - cbn. intros x [<-|[]]. lia.
  - reflexivity.
  - exists e. split; [exact E|]. split; [exact C|]. repeat split; reflexivity.
Qed.
