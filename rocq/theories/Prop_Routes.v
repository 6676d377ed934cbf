(** More on C01, C02 and C04: the order of the hops, shifting both ends, neighbours. *)
From Coq Require Import Lia Permutation.
From Verif Require Import Model_Py Model_Wrap Spec_Hops Proof_Wrap Proof_Concentric Proof_Board.
Open Scope Z_scope.

Lemma sum_vec_perm ls ls' : Permutation ls ls' -> sum_vec ls = sum_vec ls'.
Proof.
  induction 1 as [|l a b _ IH|l l' a|a b c _ IH _ IH']; cbn [sum_vec]; auto; try congruence.
  rewrite <- !vadd_assoc. f_equal. unfold vadd. apply pair_eq; ring.
Qed.

(** C02: the hops of the vector can be made in any order; all these are shortest
    routes. *)
Theorem C02_hops_in_any_order :
  forall k w h s d hops,
    good_size k w h -> canonical k w h s -> canonical k w h d ->
    Permutation hops (vector_hops (get_vector k w h s d)) ->
    route k w h s d hops /\ Z.of_nat (List.length hops) = get_vector_length k w h s d.
Proof.
  intros k w h s d hops G Cs Cd P.
  assert (Forall (fun l => 0 <= l < 6) hops) as F.
  { eapply Permutation_Forall; [symmetry; exact P|apply hops_range]. }
  destruct (vector_follow k w h s d G Cs Cd) as [E L]. split; [split; [auto|]|].
  - rewrite follow_sum in * by auto using hops_range. rewrite (sum_vec_perm _ _ P). exact E.
  - rewrite (Permutation_length P). destruct (get_vector k w h s d) as [[x y] z].
    destruct L as [<- _]. unfold vector_hops. rewrite !app_length, !repeat_length. lia.
Qed.
Print Assumptions C02_hops_in_any_order.

Example C02_order_case : Permutation [5; 0; 5; 0; 0; 5] (vector_hops (get_vector FullWrap 12 24 (11, 1) (2, 22))) /\
  follow FullWrap 12 24 (11, 1) [5; 0; 5; 0; 0; 5] = Ok (2, 22).
Proof.
  split; [|reflexivity]. change (Permutation [5; 0; 5; 0; 0; 5] [0; 0; 0; 5; 5; 5]).
  apply (perm_trans (l' := [0; 5; 5; 0; 0; 5])); [apply perm_swap|apply perm_skip].
  apply (perm_trans (l' := [5; 0; 5; 0; 5])); [do 1 apply perm_skip; apply perm_swap|].
  apply (perm_trans (l' := [0; 5; 5; 0; 5])); [apply perm_swap|apply perm_skip].
  apply (perm_trans (l' := [5; 0; 5; 5])); [apply perm_skip; apply perm_swap|apply perm_swap].
Qed.

Lemma lifts_shift k w h s d u v : lifts k w h s d v ->
  lifts k w h (red k w h (vadd s u)) (red k w h (vadd d u)) v.
Proof.
  unfold lifts. intros E.
  assert (forall p, red k w h (red k w h p) = red k w h p) as I.
  { intros p. pose proof (red_add k w h p (0, 0)) as Q. rewrite !vadd_0 in Q. exact Q. }
  rewrite I, red_add. replace (vadd (vadd s u) v) with (vadd (vadd s v) u)
    by (unfold vadd; cbn [fst snd]; apply pair_eq; ring).
  rewrite <- red_add, E, red_add. reflexivity.
Qed.

(** C04: moving both ends by the same way changes nothing. *)
Theorem C04_same_everywhere :
  forall k w h s d s' d' hops,
    good_size k w h -> canonical k w h s -> canonical k w h d ->
    route k w h s s' hops -> route k w h d d' hops ->
    get_vector_length k w h s' d' = get_vector_length k w h s d.
Proof.
  intros k w h s d s' d' hops G Cs Cd [F E] [_ E'].
  rewrite follow_sum in E, E' by auto. apply Ok_inj in E, E'.
  set (u := sum_vec hops) in *.
  destruct (length_min_lift k w h s d G) as [[v [L1 N1]] M1].
  destruct (length_min_lift k w h s' d' G) as [[v' [L2 N2]] M2].
  apply (lifts_shift _ _ _ _ _ u) in L1. rewrite E, E' in L1. apply M2 in L1.
  apply (lifts_shift _ _ _ _ _ (vneg u)) in L2. rewrite <- E, <- E', !red_add, !vadd_assoc in L2.
  replace (vadd u (vneg u)) with ((0, 0) : XY) in L2
    by (unfold vadd, vneg; cbn [fst snd]; apply pair_eq; ring).
  rewrite !vadd_0, !red_canon in L2 by auto. apply M1 in L2. lia.
Qed.
Print Assumptions C04_same_everywhere.

(** C04: the chips at distance 1 are the ones the links lead to, other than itself. *)
Theorem C04_neighbours :
  forall k w h s d, good_size k w h -> canonical k w h s -> canonical k w h d ->
    (get_vector_length k w h s d = 1 <->
     s <> d /\ exists l, 0 <= l < 6 /\ xy_over_link k w h (fst s) (snd s) l = Ok d).
Proof.
  intros k w h s d G Cs Cd. destruct (length_shortest k w h s d G Cs Cd) as [(ls & [F E] & N) M]. split.
  - intros L. split.
    + intros Q. apply (length_zero k w h s d G Cs Cd) in Q. lia.
    + rewrite L in N. destruct ls as [|l [|l' ls]]; cbn [List.length] in N; [lia| |lia].
      inversion F; subst. exists l. split; [auto|]. cbn [follow] in E.
      destruct (xy_over_link k w h (fst s) (snd s) l); cbn [bind] in E; congruence.
  - intros [NE (l & Hl & X)].
    assert (get_vector_length k w h s d <= 1) as U.
    { apply (M [l]). split; [repeat constructor; lia|]. cbn [follow]. rewrite X. reflexivity. }
    pose proof (length_nonneg k w h s d G). 
    assert (get_vector_length k w h s d <> 0) by (rewrite (length_zero k w h s d G Cs Cd); auto). lia.
Qed.
Print Assumptions C04_neighbours.

Example C04_neighbours_case :
  get_vector_length HorWrap 12 16 (11, 3) (0, 4) = 1 /\ xy_over_link HorWrap 12 16 11 3 1 = Ok (0, 4) /\
  route HorWrap 12 16 (11, 3) (1, 5) [1; 1] /\ route HorWrap 12 16 (0, 4) (2, 6) [1; 1].
Proof. repeat split; repeat constructor; discriminate. Qed.
