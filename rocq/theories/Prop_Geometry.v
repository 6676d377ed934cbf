(** C01-C06: hops, distances, vectors, rings, local and global coordinates. *)
From Coq Require Import Sorted.
From Verif Require Import Model_Py Model_Wrap Spec_Hops Proof_Wrap Proof_Concentric.

(** C01: get_vector_length is the length of the shortest route. *)
Theorem C01_distance_is_shortest :
  forall k w h s d,
    good_size k w h -> canonical k w h s -> canonical k w h d ->
    shortest k w h s d (get_vector_length k w h s d).
Proof. exact length_shortest. Qed.
Print Assumptions C01_distance_is_shortest.

Example C01_case :
  good_size FullWrap 12 24 /\ canonical FullWrap 12 24 (11, 1) /\
  canonical FullWrap 12 24 (2, 22) /\
  get_vector_length FullWrap 12 24 (11, 1) (2, 22) = 6.
Proof. repeat split; vm_compute; congruence. Qed.

(** C02: get_vector, walked hop by hop, ends at the destination, has the length
    get_vector_length, and is minimal: a zero component and no two components
    of the same sign. *)
Theorem C02_vector_leads_to_destination :
  forall k w h s d,
    good_size k w h -> canonical k w h s -> canonical k w h d ->
    follow k w h s (vector_hops (get_vector k w h s d)) = Ok d /\
    let '(x, y, z) := get_vector k w h s d in
    Z.abs x + Z.abs y + Z.abs z = get_vector_length k w h s d /\
    x * y * z = 0 /\ x * y <= 0 /\ x * z <= 0 /\ y * z <= 0.
Proof. exact vector_follow. Qed.
Print Assumptions C02_vector_leads_to_destination.

Example C02_case :
  get_vector FullWrap 12 24 (11, 1) (2, 22) = (3, -3, 0) /\
  get_vector HorWrap 12 16 (2, 3) (1, 1) = (0, -1, 1) /\
  follow FullWrap 12 24 (11, 1) [0; 0; 0; 5; 5; 5] = Ok (2, 22).
Proof. repeat split. Qed.

(** The docstring's other reading of the sign of z does not hold: a single hop on
    link 1 from (0,0) to (1,1) is the vector (0,0,-1). *)
Theorem C02_docstring_sign_refuted :
  exists s d, get_vector NoWrap 8 8 s d = (0, 0, -1) /\
    xy_over_link NoWrap 8 8 (fst s) (snd s) 1 = Ok d.
Proof. exists (0, 0), (1, 1). split; reflexivity. Qed.
Print Assumptions C02_docstring_sign_refuted.

(** C03: links and their opposites. *)
Theorem C03_opposite_returns :
  forall k w h p l,
    good_size k w h -> canonical k w h p -> 0 <= l < 6 ->
    exists q,
      xy_over_link k w h (fst p) (snd p) l = Ok q /\
      canonical k w h q /\
      xy_over_link k w h (fst q) (snd q) (opposite l) = Ok p.
Proof.
  intros k w h p l G C H. exists (red k w h (vadd (fst p, snd p) (link_vec l))).
  split; [exact (over_red k w h _ _ l G H)|].
  split; [exact (canon_red k w h _ G)|].
  pose proof (there_and_back k w h p l G C H) as E. cbn [follow] in E.
  rewrite (over_red k w h _ _ l G H) in E. cbn [bind] in E.
  destruct (xy_over_link k w h _ _ (opposite l)); exact E.
Qed.
Print Assumptions C03_opposite_returns.

Theorem C03_opposite_involution :
  forall l, 0 <= l < 6 ->
    0 <= opposite l < 6 /\ opposite (opposite l) = l /\ opposite l <> l.
Proof.
  exact (fun l H => conj (opposite_range l) (opposite_invol l H)).
Qed.
Print Assumptions C03_opposite_involution.

Theorem C03_links_lead_to_different_chips :
  forall k w h p l l',
    (wraps_x k = true -> 3 <= w) -> (wraps_y k = true -> 3 <= h) ->
    0 <= l < 6 -> 0 <= l' < 6 ->
    xy_over_link k w h (fst p) (snd p) l = xy_over_link k w h (fst p) (snd p) l' ->
    l = l'.
Proof. exact links_distinct. Qed.
Print Assumptions C03_links_lead_to_different_chips.

(** The bound 3 is needed: on the 2x2 board link 0 and link 3 lead to the same chip. *)
Example C03_two_wide_board :
  xy_over_link FullWrap 2 2 0 0 0 = xy_over_link FullWrap 2 2 0 0 3.
Proof. reflexivity. Qed.

Example C03_case :
  xy_over_link FullWrap 12 12 11 11 1 = Ok (0, 0) /\
  xy_over_link FullWrap 12 12 0 0 (opposite 1) = Ok (11, 11).
Proof. split; reflexivity. Qed.

(** A link id outside -6..5 is an IndexError; negative ids wrap round the table
    (Python list indexing). *)
Theorem C03_bad_link_raises :
  forall k w h x y l, l < -6 \/ 6 <= l ->
    xy_over_link k w h x y l = Err IndexError.
Proof.
  intros k w h x y l H.
  assert (py_index LINK_ADD_TABLE l = Err IndexError) as E.
  { unfold py_index. cbn [LINK_ADD_TABLE List.length Z.of_nat Pos.of_succ_nat Pos.succ].
    destruct (Z.ltb_spec l 0); cbv zeta.
    - replace (l + 6 <? 0) with true by (symmetry; apply Z.ltb_lt; Lia.lia). reflexivity.
    - replace (l <? 0) with false by (symmetry; apply Z.ltb_ge; Lia.lia).
      replace (6 <=? l) with true by (symmetry; apply Z.leb_le; Lia.lia). reflexivity. }
  destruct k; cbn; unfold nw_xy_over_link, hw_xy_over_link, vw_xy_over_link,
    fw_xy_over_link; rewrite E; reflexivity.
Qed.
Print Assumptions C03_bad_link_raises.

(** C04: get_vector_length is a metric on the coordinates of the machine. *)
Theorem C04_distance_is_a_metric :
  forall k w h, good_size k w h ->
    (forall s d, get_vector_length k w h s d = get_vector_length k w h d s) /\
    (forall s d, 0 <= get_vector_length k w h s d) /\
    (forall s d, canonical k w h s -> canonical k w h d ->
        (get_vector_length k w h s d = 0 <-> s = d)) /\
    (forall a b c, get_vector_length k w h a c <=
        get_vector_length k w h a b + get_vector_length k w h b c).
Proof.
  exact (fun k w h G =>
    conj (fun s d => length_sym k w h s d G)
   (conj (fun s d => length_nonneg k w h s d G)
   (conj (fun s d => length_zero k w h s d G)
         (fun a b c => length_tri k w h a b c G)))).
Qed.
Print Assumptions C04_distance_is_a_metric.

Example C04_case :
  good_size VerWrap 16 12 /\
  get_vector_length VerWrap 16 12 (3, 11) (5, 0) = 2 /\
  get_vector_length VerWrap 16 12 (5, 0) (3, 11) = 2.
Proof. repeat split; vm_compute; congruence. Qed.

(** C05: concentric_xys enumerates exactly the ball. *)
Theorem C05_concentric_is_the_ball :
  forall k w h radius s p,
    good_size k w h -> canonical k w h s -> 0 <= radius ->
    (In p (concentric_xys k w h radius s) <->
     canonical k w h p /\ get_vector_length k w h s p <= radius).
Proof. exact concentric_ball. Qed.
Print Assumptions C05_concentric_is_the_ball.

(** The order: it is the image of a list of displacements without repetition,
    sorted by their (unwrapped) length, beginning with no displacement. *)
Theorem C05_concentric_order :
  forall k w h radius s, canonical k w h s -> good_size k w h -> 0 <= radius ->
    exists moves,
      concentric_xys k w h radius s = map (fun v =>
        get_global_xy k w h (fst v) (snd v) (fst s) (snd s)) moves /\
      hd_error moves = Some (0, 0) /\
      NoDup moves /\
      Z.of_nat (List.length moves) = 1 + 3 * radius * (radius + 1) /\
      StronglySorted (fun a b => get_vector_length NoWrap 0 0 (0,0) a <=
                                 get_vector_length NoWrap 0 0 (0,0) b) moves.
Proof.
  intros k w h radius s C G H. exists (spiral radius). split; [|split; [|split; [|split]]].
  - rewrite concentric_spiral. apply map_ext. intros v.
    rewrite global_red. destruct s, v. unfold vadd. cbn. rewrite (Z.add_comm z), (Z.add_comm z0).
    reflexivity.
  - reflexivity.
  - exact (nodup_spiral radius).
  - exact (spiral_length radius H).
  - pose proof (sorted_spiral radius) as S.
    induction S as [|a l S IH F]; constructor; [exact IH|].
    apply Forall_forall. intros b Hb. rewrite <- !norm2_length.
    exact (proj1 (Forall_forall _ _) F b Hb).
Qed.
Print Assumptions C05_concentric_order.

Theorem C05_concentric_no_repeats :
  forall k w h radius s, good_size k w h -> 0 <= radius ->
    (wraps_x k = true -> 2 * radius < w) -> (wraps_y k = true -> 2 * radius < h) ->
    NoDup (concentric_xys k w h radius s).
Proof. exact concentric_nodup. Qed.
Print Assumptions C05_concentric_no_repeats.

Example C05_case :
  concentric_xys FullWrap 12 12 1 (0, 0) =
    [(0, 0); (0, 11); (1, 0); (1, 1); (0, 1); (11, 0); (11, 11)] /\
  (2 * 1 < 12) /\ List.length (concentric_xys NoWrap 8 8 3 (4, 4)) = 37%nat.
Proof. repeat split; reflexivity. Qed.

(** C06: local and global coordinates are inverse. *)
Theorem C06_global_of_local :
  forall k w h x y ex ey lx ly,
    good_size k w h -> canonical k w h (x, y) ->
    get_local_xy k w h x y ex ey = (lx, ly) ->
    get_global_xy k w h lx ly ex ey = (x, y).
Proof. exact local_global. Qed.
Print Assumptions C06_global_of_local.

Theorem C06_local_of_global :
  forall k w h lx ly ex ey x y,
    good_size k w h -> canonical k w h (lx, ly) ->
    get_global_xy k w h lx ly ex ey = (x, y) ->
    get_local_xy k w h x y ex ey = (lx, ly).
Proof. exact global_local. Qed.
Print Assumptions C06_local_of_global.

Example C06_case :
  get_local_xy FullWrap 12 12 3 2 8 4 = (7, 10) /\
  get_global_xy FullWrap 12 12 7 10 8 4 = (3, 2) /\ canonical FullWrap 12 12 (7, 10).
Proof. repeat split; vm_compute; congruence. Qed.
