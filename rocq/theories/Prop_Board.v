(** C08-C10: the triad geometry, potential Ethernet chips, boards tile. *)
From Coq Require Import Lia.
From Verif Require Import Model_Py Model_Wrap Model_Geometry Model_Version
  Spec_Hops Spec_Board Proof_Wrap Proof_Concentric Proof_Board.

(** C08: the local coordinate of a chip is the one and only position on the
    board such that the chip minus it is a board origin.  It always exists. *)
Theorem C08_local_chip_coordinate :
  forall g, get_spinn5_geometry = Ok g ->
  forall x y root_x root_y,
    (exists dx dy, get_local_chip_coordinate g x y root_x root_y = Ok (dx, dy)) /\
    (forall dx dy, get_local_chip_coordinate g x y root_x root_y = Ok (dx, dy) <->
       on_board (dx, dy) /\ triad_origin (root_x, root_y) (x - dx, y - dy)).
Proof.
  intros g E x y rx ry. rewrite g5_eq in E. apply Ok_inj in E. subst g. split.
  - destruct (local_chip_exists x y rx ry) as (dx & dy & H & _). exists dx, dy. exact H.
  - intros dx dy. exact (local_chip_spec x y rx ry dx dy).
Qed.
Print Assumptions C08_local_chip_coordinate.

(** C08: the Ethernet chip of a chip is that origin, wrapped into the machine. *)
Theorem C08_ethernet_chip_coordinates :
  forall g, get_spinn5_geometry = Ok g ->
  forall x y width height root_x root_y, 0 < width -> 0 < height ->
    exists ex ey dx dy,
      get_ethernet_chip_coordinates g x y width height root_x root_y = Ok (ex, ey) /\
      on_board (dx, dy) /\ triad_origin (root_x, root_y) (x - dx, y - dy) /\
      inside width height (ex, ey) /\
      (width | x - dx - ex) /\ (height | y - dy - ey).
Proof.
  intros g E x y w h rx ry Hw Hh. rewrite g5_eq in E. apply Ok_inj in E. subst g.
  destruct (local_chip_exists x y rx ry) as (dx & dy & E & B & T).
  exists ((x - dx) mod w), ((y - dy) mod h), dx, dy.
  unfold get_ethernet_chip_coordinates. rewrite E. cbn [bind].
  destruct (Z.eqb_spec w 0); [lia|]. destruct (Z.eqb_spec h 0); [lia|]. cbn [orb].
  repeat split; try tauto; try (apply T); try (apply B);
    try (cbn; apply Z.mod_pos_bound; assumption).
  - exists ((x - dx) / w). pose proof (Z.div_mod (x - dx) w). lia.
  - exists ((y - dy) / h). pose proof (Z.div_mod (y - dy) h). lia.
Qed.
Print Assumptions C08_ethernet_chip_coordinates.

(** The geometry exists, and one position of each kind. *)
Example C08_case :
  exists g, get_spinn5_geometry = Ok g /\
  get_local_chip_coordinate g 8 3 0 0 = Ok (4, 7) /\
  get_ethernet_chip_coordinates g 0 4 12 12 0 0 = Ok (8, 4) /\
  get_ethernet_chip_coordinates g 11 3 12 24 0 0 = Ok (4, 20) /\
  on_board (4, 7) /\ triad_origin (0, 0) (8 - 4, 3 - 7).
Proof.
  exists g5. split; [exact g5_eq|]. repeat split; try reflexivity; try (vm_compute; congruence).
  exists 0. reflexivity.
Qed.

(** C09: on every supported size the potential Ethernet chips are exactly the
    origins of the triad pattern whose board fits; no repeats, never an
    exception, (0,0) is one of them and all are legal. *)
Theorem C09_potential_ethernet_chips :
  forall v, v = V5 \/ v = V248 -> forall width height, size48 width height ->
    exists l, get_potential_ethernet_chips v width height = Ok l /\
      NoDup l /\ In (0, 0) l /\
      (forall p, In p l <-> triad_origin (0, 0) p /\ board_fits width height p) /\
      (forall x y, In (x, y) l -> illegal_ethernet_message v x y = false).
Proof.
  intros v Hv w h S. eexists. split; [exact (potential_eq v w h Hv S)|].
  set (l := flat_map _ _). pose proof (potential_eq v w h Hv S) as E.
  split; [|split; [|split]].
  - eapply potential_nodup; eassumption.
  - eapply (potential_spec' v w h _ Hv S E). apply size48_pos in S.
    repeat split; cbn; try lia; exists 0; reflexivity.
  - exact (potential_spec' v w h _ Hv S E).
  - intros x y H. apply (potential_spec' v w h _ Hv S E) in H.
    destruct H as [[[a Ha] [b Hb]] _]. cbn [fst snd] in *. rewrite !Z.sub_0_r in *.
    destruct Hv as [->| ->]; cbn [illegal_ethernet_message];
      rewrite Hb, Ha, !Z.mod_mul by lia; reflexivity.
Qed.
Print Assumptions C09_potential_ethernet_chips.

(** Exactly those sizes are the accepted ones. *)
Theorem C09_accepted_sizes :
  forall v, v = V5 \/ v = V248 -> forall width height,
    verify_size v (Some width) (Some height) = Ok tt <-> size48 width height.
Proof.
  assert (forall n, 0 < n -> n mod 4 = 0 <-> (4 | n)) as D
    by (intros; apply Z.mod_divide; lia).
  intros v Hv w h. unfold verify_size, size48.
  assert (forall w h, verify_size_impl v w h = verify_size_impl V5 w h) as ->
    by (destruct Hv as [->| ->]; reflexivity).
  cbn [verify_size_impl].
  destruct (Z.leb_spec w 0); [split; [discriminate|lia]|].
  destruct (Z.leb_spec h 0); [split; [discriminate|lia]|].
  destruct (Z.leb_spec w 8).
  - destruct (Z.eqb_spec w 8); destruct (Z.eqb_spec h 8); cbn [andb];
      (split; [try discriminate|]; intuition lia).
  - destruct (Z.leb_spec h 8); [split; [discriminate|intuition lia]|].
    destruct (Z.eqb_spec (w mod 4) 0) as [Ew|Ew]; cbn [negb];
      [|split; [discriminate|]; rewrite <- !D by lia; intuition lia].
    destruct (Z.eqb_spec (h mod 4) 0) as [Eh|Eh]; cbn [negb];
      [|split; [discriminate|]; rewrite <- !D by lia; intuition lia].
    rewrite <- !D by lia. intuition lia.
Qed.
Print Assumptions C09_accepted_sizes.

Example C09_case :
  size48 16 28 /\
  get_potential_ethernet_chips V5 16 28 =
    Ok [(0, 0); (0, 12); (4, 8); (4, 20); (8, 4); (8, 16)] /\
  get_potential_ethernet_chips V5 12 12 = Ok [(0, 0); (4, 8); (8, 4)] /\
  get_potential_ethernet_chips V248 8 8 = Ok [(0, 0)].
Proof.
  split; [right; repeat split; try lia; [exists 4|exists 7]; reflexivity|].
  repeat split; vm_compute; reflexivity.
Qed.

(** C10: the boards lie in the machine, have 48 distinct chips, are pairwise
    disjoint, and when both dimensions wrap they cover the machine. *)
Theorem C10_boards_tile :
  forall v, v = V5 \/ v = V248 -> forall width height, size48 width height ->
  forall l, get_potential_ethernet_chips v width height = Ok l ->
  let board e := get_xys_by_ethernet (chip_core_map v) (machine_class v width height)
                   width height (fst e) (snd e) in
    (forall e, In e l -> NoDup (board e) /\ List.length (board e) = 48%nat /\
                         Forall (inside width height) (board e)) /\
    (forall e e' p, In e l -> In e' l -> In p (board e) -> In p (board e') -> e = e') /\
    ((12 | width) -> (12 | height) ->
       forall p, inside width height p -> exists e, In e l /\ In p (board e)).
Proof.
  intros v Hv w h S l E board.
  pose proof (potential_spec' v w h l Hv S E) as P.
  assert (forall e p, In p (board e) <->
    exists d, on_board d /\ p = red (machine_class v w h) w h (vadd d e)) as B.
  { intros e p. unfold board. rewrite (in_xys v w h _ _ p Hv). destruct e; reflexivity. }
  split; [|split].
  - intros e He. apply P in He as [T F]. split; [|split].
    + apply xys_nodup; auto. apply F.
    + unfold board. rewrite xys_red, map_length. destruct Hv as [->| ->]; reflexivity.
    + apply Forall_forall. intros p Hp. apply B in Hp as (d & D & ->).
      apply fits_red_inside; auto.
  - intros e e' p He He' Hp Hp'. apply P in He as [T F]. apply P in He' as [T' F'].
    apply B in Hp as (d & D & ->). apply B in Hp' as (d' & D' & Eq).
    eapply (board_inj v w h e e' d d'); eauto; [apply F|apply F'].
  - intros W H p I. destruct (local_chip_exists (fst p) (snd p) 0 0) as (dx & dy & L & _).
    apply (cover_exact v w h l p dx dy Hv S E I L). tauto.
Qed.
Print Assumptions C10_boards_tile.

(** On any accepted size a chip is on a board exactly when the board that the
    geometry gives it fits into the non wrapping dimensions. *)
Theorem C10_covered_exactly :
  forall v, v = V5 \/ v = V248 -> forall width height, size48 width height ->
  forall l g, get_potential_ethernet_chips v width height = Ok l ->
  get_spinn5_geometry = Ok g ->
  forall p dx dy, inside width height p ->
    get_local_chip_coordinate g (fst p) (snd p) 0 0 = Ok (dx, dy) ->
    ((exists e, In e l /\ In p (get_xys_by_ethernet (chip_core_map v)
        (machine_class v width height) width height (fst e) (snd e))) <->
     (~ (12 | width) -> 0 <= fst p - dx /\ fst p - dx + 8 <= width) /\
     (~ (12 | height) -> 0 <= snd p - dy /\ snd p - dy + 8 <= height)).
Proof.
  intros v Hv w h S l g E G p dx dy I L. rewrite g5_eq in G. apply Ok_inj in G. subst g.
  exact (cover_exact v w h l p dx dy Hv S E I L).
Qed.
Print Assumptions C10_covered_exactly.

Example C10_case :
  size48 12 24 /\ (12 | 12) /\ (12 | 24) /\
  In (8, 2) (get_xys_by_ethernet (chip_core_map V5) (machine_class V5 12 24) 12 24 4 20) /\
  In (4, 20) [(0, 0); (0, 12); (4, 8); (4, 20); (8, 4); (8, 16)].
Proof.
  repeat split.
  - right. repeat split; try lia; [exists 3|exists 6]; reflexivity.
  - exists 1; reflexivity.
  - exists 2; reflexivity.
  - apply xymem_in. reflexivity.
  - apply xymem_in. reflexivity.
Qed.
