(** C81: how far apart chips can be, and what wrap-around does to distances. *)
From Coq Require Import Lia ZifyBool String.
From Verif Require Import Model_Py Model_Wrap Model_Version Model_Core Model_Machine Model_Ignore Model_Virtual
  Spec_Hops Spec_Board Spec_Version Spec_Machine Spec_Virtual Spec_Walk
  Proof_Wrap Proof_Py Proof_Board Proof_Version Proof_Machine Proof_Virtual Proof_VirtualMachine Proof_RepairOff Prop_Walk Prop_Detour.
Open Scope list_scope.
Open Scope Z_scope.

Lemma no_wrap_length w h s d : get_vector_length NoWrap w h s d = norm2 (fst d - fst s, snd d - snd s).
Proof. apply (len_best NoWrap). split; discriminate. Qed.

(** With wrap-around there are many copies of a chip, a width or a height apart; the
    distance is that to the nearest copy on a machine that does not wrap. *)
Theorem C81_nearest_copy :
  forall k w h s d, good_size k w h ->
    let copy i j := (fst d + i * w, snd d + j * h) in
    (exists i j, (wraps_x k = false -> i = 0) /\ (wraps_y k = false -> j = 0) /\
       get_vector_length k w h s d = get_vector_length NoWrap w h s (copy i j)) /\
    (forall i j, (wraps_x k = false -> i = 0) -> (wraps_y k = false -> j = 0) ->
       get_vector_length k w h s d <= get_vector_length NoWrap w h s (copy i j)).
Proof.
  intros k w h s d G copy. destruct (length_min_lift k w h s d G) as [(v & L & N) M].
  assert (forall a b v, 0 < w -> (a + v) mod w = b mod w -> exists i, v = b - a + i * w) as X1.
  { intros a b x W E. exists ((a + x) / w - b / w). pose proof (Z.div_mod (a + x) w ltac:(lia)). pose proof (Z.div_mod b w ltac:(lia)). nia. }
  assert (forall a b v, 0 < h -> (a + v) mod h = b mod h -> exists i, v = b - a + i * h) as X2.
  { intros a b x W E. exists ((a + x) / h - b / h). pose proof (Z.div_mod (a + x) h ltac:(lia)). pose proof (Z.div_mod b h ltac:(lia)). nia. }
  split.
  - unfold lifts, red, vadd in L. cbn [fst snd] in L. injection L as L1 L2. destruct v as [a b]. cbn [fst snd] in *.
    assert (exists i, (wraps_x k = false -> i = 0) /\ a = fst d - fst s + i * w) as (i & I1 & ->).
    { destruct (wraps_x k) eqn:E.
      - destruct (X1 _ _ _ (proj1 G E) L1) as [i ->]. exists i. split; [discriminate|reflexivity].
      - exists 0. split; auto. lia. }
    assert (exists j, (wraps_y k = false -> j = 0) /\ b = snd d - snd s + j * h) as (j & J1 & ->).
    { destruct (wraps_y k) eqn:E.
      - destruct (X2 _ _ _ (proj2 G E) L2) as [j ->]. exists j. split; [discriminate|reflexivity].
      - exists 0. split; auto. lia. }
    exists i, j. split; [auto|]. split; [auto|]. rewrite no_wrap_length, <- N. unfold copy. cbn [fst snd].
    f_equal. f_equal; ring.
  - intros i j I J. rewrite no_wrap_length. apply M. unfold lifts, red, vadd, copy. cbn [fst snd]. f_equal.
    + destruct (wraps_x k) eqn:E; [|rewrite I by auto; ring].
      replace (fst s + (fst d + i * w - fst s)) with (fst d + i * w) by ring. apply Z_mod_plus_full.
    + destruct (wraps_y k) eqn:E; [|rewrite J by auto; ring].
      replace (snd s + (snd d + j * h - snd s)) with (snd d + j * h) by ring. apply Z_mod_plus_full.
Qed.
Print Assumptions C81_nearest_copy.

(** So chips never get further apart when a machine wraps in more dimensions. *)
Theorem C81_wrapping_never_lengthens :
  forall k k' w h s d, good_size k' w h ->
    (wraps_x k = true -> wraps_x k' = true) -> (wraps_y k = true -> wraps_y k' = true) ->
    get_vector_length k' w h s d <= get_vector_length k w h s d.
Proof.
  intros k k' w h s d G X Y.
  assert (good_size k w h) as G0 by (destruct G as [G1 G2]; split; auto).
  destruct (C81_nearest_copy k w h s d G0) as [(i & j & I & J & ->) _].
  apply C81_nearest_copy; auto.
  - intros E. apply I. destruct (wraps_x k); auto. specialize (X eq_refl). congruence.
  - intros E. apply J. destruct (wraps_y k); auto. specialize (Y eq_refl). congruence.
Qed.
Print Assumptions C81_wrapping_never_lengthens.

Lemma full_bound w h D r u : 0 < w -> 0 < h -> 0 <= r < w -> 0 <= u < h ->
  D <= norm2 (r, u) -> D <= norm2 (r - w, u) -> D <= norm2 (r, u - h) -> D <= norm2 (r - w, u - h) ->
  D <= Z.max (Z.max (w / 2) (h / 2)) ((w + h) / 3).
Proof.
  intros W H R U N1 N2 N3 N4.
  assert (norm2 (r, u) <= Z.max r u) as X1 by (unfold norm2; cbn [fst snd]; clear - R U; lia).
  assert (norm2 (r - w, u) <= w - r + u) as X2 by (unfold norm2; cbn [fst snd]; clear - R U; lia).
  assert (norm2 (r, u - h) <= r + h - u) as X3 by (unfold norm2; cbn [fst snd]; clear - R U; lia).
  assert (norm2 (r - w, u - h) <= Z.max (w - r) (h - u)) as X4 by (unfold norm2; cbn [fst snd]; clear - R U; lia).
  pose proof (Z.le_trans _ _ _ N1 X1) as M1. pose proof (Z.le_trans _ _ _ N2 X2) as M2.
  pose proof (Z.le_trans _ _ _ N3 X3) as M3. pose proof (Z.le_trans _ _ _ N4 X4) as M4. clear N1 N2 N3 N4 X1 X2 X3 X4.
  pose proof (Z.div_mod (w + h) 3 ltac:(lia)). pose proof (Z.mod_pos_bound (w + h) 3 ltac:(lia)).
  pose proof (Z.div_mod w 2 ltac:(lia)). pose proof (Z.mod_pos_bound w 2 ltac:(lia)).
  pose proof (Z.div_mod h 2 ltac:(lia)). pose proof (Z.mod_pos_bound h 2 ltac:(lia)).
  set (q := (w + h) / 3) in *. set (a := w / 2) in *. set (b := h / 2) in *. clearbody q a b.
  assert (D <= q \/ D <= a \/ D <= b) by (destruct (Z.le_gt_cases r u), (Z.le_gt_cases (w - r) (h - u)); lia). lia.
Qed.

Lemma norm2_x1 n a b : n <= a -> n <= norm2 (a, b). Proof. unfold norm2. cbn. lia. Qed.
Lemma norm2_x2 n a b : n <= - a -> n <= norm2 (a, b). Proof. unfold norm2. cbn. lia. Qed.
Lemma norm2_y1 n a b : n <= b -> n <= norm2 (a, b). Proof. unfold norm2. cbn. lia. Qed.
Lemma norm2_y2 n a b : n <= - b -> n <= norm2 (a, b). Proof. unfold norm2. cbn. lia. Qed.
Lemma norm2_z1 n a b : n <= a - b -> n <= norm2 (a, b). Proof. unfold norm2. cbn. lia. Qed.
Lemma norm2_z2 n a b : n <= b - a -> n <= norm2 (a, b). Proof. unfold norm2. cbn. lia. Qed.

Lemma full_far w h : 0 < w -> 0 < h ->
  let far := Z.max (Z.max (w / 2) (h / 2)) ((w + h) / 3) in
  exists r u, 0 <= r < w /\ 0 <= u < h /\ far <= norm2 (r, u) /\ far <= norm2 (r - w, u) /\
    far <= norm2 (r, u - h) /\ far <= norm2 (r - w, u - h).
Proof.
  intros W H far.
  pose proof (Z.div_mod (w + h) 3 ltac:(lia)). pose proof (Z.mod_pos_bound (w + h) 3 ltac:(lia)).
  pose proof (Z.div_mod w 2 ltac:(lia)). pose proof (Z.mod_pos_bound w 2 ltac:(lia)).
  pose proof (Z.div_mod h 2 ltac:(lia)). pose proof (Z.mod_pos_bound h 2 ltac:(lia)).
  set (q := (w + h) / 3) in *. set (a := w / 2) in *. set (b := h / 2) in *. subst far.
  assert (exists n, Z.max (Z.max a b) q = n /\ (n = a \/ n = b \/ n = q /\ a < q /\ b < q)) as (n & -> & [->|[->|(-> & A & B)]]).
  { exists (Z.max (Z.max a b) q). split; [reflexivity|]. clearbody q a b. lia. }
  - exists a, 0. split; [lia|]. split; [lia|]. split; [|split; [|split]].
    + apply norm2_x1. lia.
    + apply norm2_x2. lia.
    + apply norm2_x1. lia.
    + apply norm2_x2. lia.
  - exists 0, b. split; [lia|]. split; [lia|]. split; [|split; [|split]].
    + apply norm2_y1. lia.
    + apply norm2_y1. lia.
    + apply norm2_y2. lia.
    + apply norm2_y2. lia.
  - exists q, (2 * q - w). split; [lia|]. split; [lia|]. split; [|split; [|split]].
    + apply norm2_x1. lia.
    + apply norm2_z2. lia.
    + apply norm2_z1. lia.
    + apply norm2_y2. lia.
Qed.

(** The largest distance between two places of a machine. *)
Theorem C81_largest_distance :
  forall k w h, 0 < w -> 0 < h ->
    let far := match k with
      | NoWrap => w + h - 2
      | HorWrap => Z.max (h - 1) ((w + h - 1) / 2)
      | VerWrap => Z.max (w - 1) ((w + h - 1) / 2)
      | FullWrap => Z.max (Z.max (w / 2) (h / 2)) ((w + h) / 3)
      end in
    (forall s d, inside w h s -> inside w h d -> get_vector_length k w h s d <= far) /\
    (exists s d, inside w h s /\ inside w h d /\ get_vector_length k w h s d = far).
Proof.
  intros k w h W H far.
  assert (good_size k w h) as G by (split; auto).
  assert (forall s d, inside w h s -> inside w h d -> get_vector_length k w h s d <= far) as U.
  { intros [sx sy] [dx dy] [SX SY] [DX DY]. cbn [fst snd] in *. destruct (length_min_lift k w h (sx, sy) (dx, dy) G) as [_ M].
    assert (forall i j, (wraps_x k = false -> i = 0) -> (wraps_y k = false -> j = 0) ->
      get_vector_length k w h (sx, sy) (dx, dy) <= norm2 (dx - sx + i * w, dy - sy + j * h)) as N.
    { intros i j I J. pose proof (proj2 (C81_nearest_copy k w h (sx, sy) (dx, dy) G) i j I J) as X.
      rewrite no_wrap_length in X. cbn [fst snd] in X.
      replace (dx - sx + i * w) with (dx + i * w - sx) by ring. replace (dy - sy + j * h) with (dy + j * h - sy) by ring. exact X. }
    set (D := get_vector_length k w h (sx, sy) (dx, dy)) in *. clearbody D. clear M.
    pose proof (Z.div_mod (w + h - 1) 2 ltac:(lia)). pose proof (Z.mod_pos_bound (w + h - 1) 2 ltac:(lia)).
    subst far. destruct k; cbn [wraps_x wraps_y] in N.
    - specialize (N 0 0 ltac:(auto) ltac:(auto)). unfold norm2 in N. cbn [fst snd] in N. lia.
    - destruct (Z.le_gt_cases 0 (dx - sx)).
      + pose proof (N 0 0 ltac:(auto) ltac:(auto)) as N0. pose proof (N (-1) 0 ltac:(discriminate) ltac:(auto)) as N1.
        clear N. unfold norm2 in N0, N1. cbn [fst snd] in N0, N1. lia.
      + pose proof (N 0 0 ltac:(auto) ltac:(auto)) as N0. pose proof (N 1 0 ltac:(discriminate) ltac:(auto)) as N1.
        clear N. unfold norm2 in N0, N1. cbn [fst snd] in N0, N1. lia.
    - destruct (Z.le_gt_cases 0 (dy - sy)).
      + pose proof (N 0 0 ltac:(auto) ltac:(auto)) as N0. pose proof (N 0 (-1) ltac:(auto) ltac:(discriminate)) as N1.
        clear N. unfold norm2 in N0, N1. cbn [fst snd] in N0, N1. lia.
      + pose proof (N 0 0 ltac:(auto) ltac:(auto)) as N0. pose proof (N 0 1 ltac:(auto) ltac:(discriminate)) as N1.
        clear N. unfold norm2 in N0, N1. cbn [fst snd] in N0, N1. lia.
    - assert (exists i j, 0 <= dx - sx + i * w < w /\ 0 <= dy - sy + j * h < h) as (i & j & R & Q).
      { exists (if dx - sx <? 0 then 1 else 0), (if dy - sy <? 0 then 1 else 0).
        destruct (dx - sx <? 0) eqn:E1, (dy - sy <? 0) eqn:E2; lia. }
      apply full_bound with (dx - sx + i * w) (dy - sy + j * h); auto.
      + apply N; discriminate.
      + replace (dx - sx + i * w - w) with (dx - sx + (i - 1) * w) by ring. apply N; discriminate.
      + replace (dy - sy + j * h - h) with (dy - sy + (j - 1) * h) by ring. apply N; discriminate.
      + replace (dx - sx + i * w - w) with (dx - sx + (i - 1) * w) by ring.
        replace (dy - sy + j * h - h) with (dy - sy + (j - 1) * h) by ring. apply N; discriminate. }
  split; [exact U|].
  assert (exists s d, inside w h s /\ inside w h d /\ far <= get_vector_length k w h s d) as (s & d & S & D & E).
  2: { exists s, d. repeat (split; [solve [auto]|]). specialize (U s d S D). lia. }
  pose proof (Z.div_mod (w + h - 1) 2 ltac:(lia)). pose proof (Z.mod_pos_bound (w + h - 1) 2 ltac:(lia)).
  subst far. clear U. destruct k.
  - exists (0, h - 1), (w - 1, 0). split; [split; cbn; lia|]. split; [split; cbn; lia|].
    rewrite no_wrap_length. unfold norm2. cbn [fst snd]. lia.
  - exists (0, 0), (Z.min (w - 1) ((w + h - 1) / 2), h - 1). split; [split; cbn; lia|]. split; [split; cbn [fst snd]; lia|].
    rewrite len_best by auto. cbn [best]. unfold hw_best. cbn [fst snd]. rewrite !Z.sub_0_r, Z.mod_small by lia.
    cbv zeta. match goal with |- context [if ?b then _ else _] => destruct b end; unfold norm2; cbn [fst snd]; lia.
  - exists (0, 0), (w - 1, Z.min (h - 1) ((w + h - 1) / 2)). split; [split; cbn; lia|]. split; [split; cbn [fst snd]; lia|].
    rewrite len_best by auto. cbn [best]. unfold vw_best. cbn [fst snd]. rewrite !Z.sub_0_r, Z.mod_small by lia.
    cbv zeta. match goal with |- context [if ?b then _ else _] => destruct b end; unfold norm2; cbn [fst snd]; lia.
  - destruct (full_far w h W H) as (r & u & R & Q & N1 & N2 & N3 & N4).
    exists (0, 0), (r, u). split; [split; cbn; lia|]. split; [split; cbn [fst snd]; lia|].
    rewrite len_best by auto. cbn [best]. destruct (fw_best_cases w h (0, 0) (r, u)) as [C _]. cbn [fst snd] in C.
    rewrite !Z.sub_0_r, !Z.mod_small in C by lia. destruct C as [->|[->|[->| ->]]]; assumption.
Qed.
Print Assumptions C81_largest_distance.

(** On a machine that wraps in both dimensions, with no chip and no link down, from any
    chip to any other there is a way over at most so many links, and somewhere it
    takes as many. *)
Theorem C81_links_between_chips :
  forall c V w h check m,
    virtual_machine c V w h check = Ok m ->
    parse_chips (cfg_down_chips c) = Ok [] -> parse_links (cfg_down_links c) = Ok [] ->
    v_id V = V5 \/ v_id V = V248 -> (12 | w) -> (12 | h) ->
    let far := Z.max (Z.max (w / 2) (h / 2)) ((w + h) / 3) in
    (forall p q, is_chip_at m (fst p) (snd p) = true -> is_chip_at m (fst q) (snd q) = true ->
       exists n, walk m p n q /\ Z.of_nat n <= far) /\
    (exists p q, is_chip_at m (fst p) (snd p) = true /\ is_chip_at m (fst q) (snd q) = true /\
       forall n, walk m p n q -> far <= Z.of_nat n).
Proof.
  intros c V w h check m E P1 P2 HV Dw Dh far.
  destruct (virtual_built _ _ _ _ _ _ E) as (dch & dco & dl & B & _).
  destruct (b_read _ _ _ _ _ _ _ _ B) as (R1 & R2 & R3).
  assert (dch = []) as -> by congruence. pose proof (b_sup _ _ _ _ _ _ _ _ B) as S.
  assert (size48 w h) as S48 by (destruct HV as [X|X]; rewrite X in S; exact S).
  assert (0 < w /\ 0 < h) as [W H] by (unfold size48 in S48; lia).
  assert (m_kind m = FullWrap) as K.
  { rewrite (b_kind _ _ _ _ _ _ _ _ B). destruct (class_wraps _ w h HV) as [X Y].
    apply Z.mod_divide in Dw, Dh; try lia. rewrite Dw in X. rewrite Dh in Y. cbn in X, Y.
    destruct (machine_class (v_id V) w h); cbn in *; auto; discriminate. }
  assert (forall p, is_chip_at m (fst p) (snd p) = true <-> inside w h p) as CI.
  { intros p. split.
    - intros X. apply present_get in X as [ch X]. apply (built_inside B) in X. rewrite <- surjective_pairing in X. exact X.
    - intros I. destruct (full_place _ _ _ _ HV S48 Dw Dh I) as (e & d & n & P). apply present_get. apply (built_present B).
      rewrite <- surjective_pairing. split; eauto. }
  destruct (C81_largest_distance FullWrap w h W H) as [U (s & d & Is & Id & F)]. cbv zeta in U, F.
  pose proof (b_width _ _ _ _ _ _ _ _ B) as EW. pose proof (b_height _ _ _ _ _ _ _ _ B) as EH. split.
  - intros p q Hp Hq.
    destruct (C64_distance_is_walked _ _ _ _ _ _ E P1 P2 ltac:(auto) p q Hp Hq) as [X _].
    rewrite K, EW, EH in X. eexists. split; [exact X|].
    assert (0 <= get_vector_length FullWrap w h p q) as NN.
    { rewrite len_best by (split; auto). apply norm2_nonneg. }
    rewrite Z2Nat.id by exact NN. apply U; apply CI; auto.
  - exists s, d. split; [apply CI; auto|]. split; [apply CI; auto|]. intros n X.
    apply (C64_no_shorter_way _ _ _ _ _ _ E) in X. rewrite K, EW, EH, F in X. exact X.
Qed.
Print Assumptions C81_links_between_chips.

(** Sizes: one board, a torus of three boards, and a long one. *)
Example C81_case :
  get_vector_length FullWrap 12 12 (0, 0) (8, 4) = 8 /\ Z.max (Z.max (12 / 2) (12 / 2)) ((12 + 12) / 3) = 8 /\
  get_vector_length FullWrap 60 12 (0, 0) (30, 0) = 30 /\ Z.max (Z.max (60 / 2) (12 / 2)) ((60 + 12) / 3) = 30 /\
  get_vector_length NoWrap 8 8 (0, 7) (7, 0) = 14 /\
  get_vector_length HorWrap 12 16 (0, 0) (11, 15) = 15 /\ get_vector_length NoWrap 12 16 (0, 3) (11, 0) = 14 /\
  get_vector_length HorWrap 12 16 (0, 3) (11, 0) = 3 /\
  get_vector_length NoWrap 12 16 (0, 3) (11 + (-1) * 12, 0 + 0 * 16) = 3 /\
  exists m, virtual_machine notch_cfg notch_version 12 24 true = Ok m.
Proof.
  repeat (split; [reflexivity|]). destruct C64_case as (m & E & _). eauto.
Qed.
