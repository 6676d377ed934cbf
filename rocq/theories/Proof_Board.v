(** Lemmas about the triad geometry and boards. *)
From Coq Require Import Lia ZifyBool Znumtheory.
From Verif Require Import Model_Py Model_Wrap Model_Float Model_Geometry
  Model_Version Spec_Hops Spec_Board Proof_Wrap Proof_Concentric.

Ltac Zify.zify_post_hook ::= idtac.

Lemma Ok_inj {A} (a b : A) : Ok a = Ok b -> a = b.
Proof. congruence. Qed.

(** *** The table of the SpiNN-5 geometry *)
Definition g5 : geometry := Eval vm_compute in
  match get_spinn5_geometry with Ok g => g | Err _ => mkGeometry 1 1 1 1 [] [] end.

Lemma g5_eq : get_spinn5_geometry = Ok g5.
Proof. vm_compute. reflexivity. Qed.

Lemma in_zrange lo hi z : In z (zrange lo hi) <-> lo <= z < hi.
Proof.
  unfold zrange. rewrite in_map_iff. split.
  - intros (i & <- & Hi). apply in_seq in Hi. lia.
  - intros H. exists (Z.to_nat (z - lo)). split; [lia|]. apply in_seq. lia.
Qed.

Lemma zrange_nodup lo hi : NoDup (zrange lo hi).
Proof.
  unfold zrange. apply FinFun.Injective_map_NoDup; [|apply seq_NoDup].
  intros i j E. lia.
Qed.

Definition on_board_b (p : XY) : bool :=
  (0 <=? fst p) && (fst p <=? 7) && (0 <=? snd p) && (snd p <=? 7) &&
  (-4 <=? snd p - fst p) && (snd p - fst p <=? 3).

Lemma on_board_b_spec p : on_board_b p = true <-> on_board p.
Proof. unfold on_board_b, on_board. rewrite !andb_true_iff, !Z.leb_le. tauto. Qed.

Definition table_ok (a b : Z) : bool :=
  match (do row <- py_index (g_ethernet_offset g5) b ; py_index row a) with
  | Ok d => on_board_b d && ((a - fst d) mod 4 =? 0) &&
            (((a - fst d) + (b - snd d)) mod 12 =? 0)
  | Err _ => false
  end.

Lemma table_all : forallb (fun a => forallb (table_ok a) (zrange 0 12)) (zrange 0 12) = true.
Proof. vm_compute. reflexivity. Qed.

Lemma table_ok_all a b : 0 <= a < 12 -> 0 <= b < 12 -> table_ok a b = true.
Proof.
  intros Ha Hb. pose proof table_all as H. rewrite forallb_forall in H.
  specialize (H a (proj2 (in_zrange _ _ _) Ha)). rewrite forallb_forall in H.
  apply H. apply in_zrange; auto.
Qed.

Lemma local_chip_exists x y rx ry :
  exists dx dy, get_local_chip_coordinate g5 x y rx ry = Ok (dx, dy) /\
    on_board (dx, dy) /\ triad_origin (rx, ry) (x - dx, y - dy).
Proof.
  unfold get_local_chip_coordinate.
  change (g_triad_width g5) with 12. change (g_triad_height g5) with 12. cbv zeta.
  pose proof (Z.mod_pos_bound (x - rx) 12 ltac:(lia)) as Ha.
  pose proof (Z.mod_pos_bound (y - ry) 12 ltac:(lia)) as Hb.
  pose proof (table_ok_all _ _ Ha Hb) as T. unfold table_ok in T.
  destruct (do row <- _ ; _) as [[dx dy]|]; [|discriminate].
  exists dx, dy. cbn [fst snd] in T. rewrite !andb_true_iff in T.
  destruct T as [[T1 T2] T3]. apply on_board_b_spec in T1.
  split; [reflexivity|]. split; [exact T1|].
  unfold triad_origin; cbn [fst snd].
  apply Z.eqb_eq in T2, T3.
  pose proof (Z.div_mod (x - rx) 12 ltac:(lia)) as D1.
  pose proof (Z.div_mod (y - ry) 12 ltac:(lia)) as D2.
  apply Z.mod_divide in T2; [|lia]. apply Z.mod_divide in T3; [|lia].
  destruct T2 as [u T2]. destruct T3 as [v T3].
  split.
  - exists (u + 3 * ((x - rx) / 12)). lia.
  - exists (v + ((x - rx) / 12) + ((y - ry) / 12)). lia.
Qed.

Lemma board_offset_unique d d' :
  on_board d -> on_board d' ->
  (4 | fst d - fst d') -> (12 | (fst d - fst d') + (snd d - snd d')) -> d = d'.
Proof.
  destruct d as [a b], d' as [a' b']. unfold on_board; cbn [fst snd].
  intros H H' [u Hu] [v Hv]. apply pair_eq; lia.
Qed.

Lemma local_chip_unique x y rx ry dx dy d :
  get_local_chip_coordinate g5 x y rx ry = Ok (dx, dy) ->
  on_board d -> triad_origin (rx, ry) (x - fst d, y - snd d) -> d = (dx, dy).
Proof.
  intros E Hd [[u Hu] [v Hv]].
  destruct (local_chip_exists x y rx ry) as (dx' & dy' & E' & Hb & [[u' Hu'] [v' Hv']]).
  rewrite E in E'. injection E' as <- <-.
  destruct d as [a b]. cbn [fst snd] in *.
  apply board_offset_unique; auto; cbn [fst snd].
  - exists (u' - u). lia.
  - exists (v' - v). lia.
Qed.

Lemma local_chip_spec x y rx ry dx dy :
  get_local_chip_coordinate g5 x y rx ry = Ok (dx, dy) <->
  on_board (dx, dy) /\ triad_origin (rx, ry) (x - dx, y - dy).
Proof.
  split.
  - intros E. destruct (local_chip_exists x y rx ry) as (dx' & dy' & E' & H).
    rewrite E in E'. injection E' as <- <-. exact H.
  - intros [H1 H2]. destruct (local_chip_exists x y rx ry) as (dx' & dy' & E' & H).
    rewrite E'. f_equal. symmetry. eapply local_chip_unique; eauto.
Qed.

(** *** The board map *)
Lemma board48 v : v = V5 \/ v = V248 -> forall p, In p (expected_xys v) <-> on_board p.
Proof.
  assert (forall l : list XY, forallb on_board_b l = true ->
    forallb (fun x => forallb (fun y => implb (on_board_b (x, y)) (xymem l (x, y)))
       (zrange 0 8)) (zrange 0 8) = true ->
    forall p, In p l <-> on_board p) as K.
  { intros l H1 H2 p. split.
    - intros Hp. rewrite forallb_forall in H1. apply on_board_b_spec; auto.
    - intros Hp. destruct p as [x y]. pose proof Hp as Hp'. unfold on_board in Hp'.
      cbn [fst snd] in Hp'. rewrite forallb_forall in H2.
      specialize (H2 x (proj2 (in_zrange 0 8 x) ltac:(lia))).
      rewrite forallb_forall in H2.
      specialize (H2 y (proj2 (in_zrange 0 8 y) ltac:(lia))).
      rewrite (proj2 (on_board_b_spec _) Hp) in H2. cbn in H2.
      unfold xymem in H2. rewrite existsb_exists in H2. destruct H2 as ([x' y'] & Hi & E).
      unfold xy_eqb in E. cbn in E. apply andb_true_iff in E. destruct E as [E1 E2].
      apply Z.eqb_eq in E1, E2. subst; auto. }
  intros [->| ->]; apply K; vm_compute; reflexivity.
Qed.

Fixpoint nodup_b (l : list XY) : bool :=
  match l with [] => true | p :: r => negb (xymem r p) && nodup_b r end.

Lemma xy_eqb_eq a b : xy_eqb a b = true <-> a = b.
Proof.
  destruct a as [x y], b as [x' y']. unfold xy_eqb; cbn.
  rewrite andb_true_iff, !Z.eqb_eq. split; [intros [-> ->]; auto|injection 1; auto].
Qed.

Lemma xymem_in l p : xymem l p = true <-> In p l.
Proof.
  unfold xymem. rewrite existsb_exists. split.
  - intros (q & H & E). apply xy_eqb_eq in E. subst; auto.
  - intros H. exists p. split; auto. apply xy_eqb_eq; auto.
Qed.

Lemma nodup_b_spec l : nodup_b l = true -> NoDup l.
Proof.
  induction l as [|p r IH]; cbn; [constructor|].
  rewrite andb_true_iff, negb_true_iff. intros [H1 H2]. constructor; auto.
  intros H. apply xymem_in in H. congruence.
Qed.

Lemma expected_nodup v : NoDup (expected_xys v).
Proof. destruct v; apply nodup_b_spec; vm_compute; reflexivity. Qed.

(** *** Potential Ethernet chips *)
Lemma in_zrange_step lo hi s z : 0 < s ->
  In z (zrange_step lo hi s) <-> exists i, 0 <= i /\ z = lo + i * s /\ z < hi.
Proof.
  intros Hs. unfold zrange_step. rewrite in_map_iff.
  pose proof (Z.div_mod (hi - lo + s - 1) s ltac:(lia)) as D.
  pose proof (Z.mod_pos_bound (hi - lo + s - 1) s Hs) as B.
  set (n := (hi - lo + s - 1) / s) in *.
  split.
  - intros (i & <- & Hi). apply in_seq in Hi. exists (Z.of_nat i).
    repeat split; try lia. assert (Z.of_nat i <= n - 1) by lia. nia.
  - intros (i & Hi & -> & Hlt). exists (Z.to_nat i). split; [lia|].
    apply in_seq. assert (i < n) by nia. lia.
Qed.

Lemma zrange_step_nodup lo hi s : 0 < s -> NoDup (zrange_step lo hi s).
Proof.
  intros Hs. unfold zrange_step. apply FinFun.Injective_map_NoDup; [|apply seq_NoDup].
  intros i j E. nia.
Qed.

Definition eth_limit (n : Z) : Z := if n mod 12 =? 0 then n else n - 8 + 1.

Lemma size48_limit w h : size48 w h -> 0 < eth_limit w /\ 0 < eth_limit h.
Proof.
  unfold size48, eth_limit. intros [[-> ->]|(H1 & H2 & _)].
  - vm_compute. auto.
  - destruct (w mod 12 =? 0), (h mod 12 =? 0); lia.
Qed.

Lemma potential_eq v w h : v = V5 \/ v = V248 -> size48 w h ->
  get_potential_ethernet_chips v w h = Ok (
    flat_map (fun start => flat_map (fun y =>
      map (fun x => (x, y)) (zrange_step (fst start) (eth_limit w) 12))
      (zrange_step (snd start) (eth_limit h) 12)) [(0, 0); (4, 8); (8, 4)]).
Proof.
  intros Hv S. destruct (size48_limit w h S) as [Lw Lh].
  assert (get_potential_ethernet_chips v w h =
    Ok (geo_potential_ethernet_chips g5 w h)) as E.
  { destruct Hv as [->| ->]; unfold get_potential_ethernet_chips; rewrite g5_eq;
    reflexivity. }
  rewrite E. f_equal. unfold geo_potential_ethernet_chips.
  change (g_triad_width g5) with 12. change (g_triad_height g5) with 12.
  change (g_board_width g5) with 8. change (g_board_height g5) with 8.
  fold (eth_limit w). fold (eth_limit h). cbv zeta.
  destruct (Z.leb_spec (eth_limit w) 0); [lia|].
  destruct (Z.leb_spec (eth_limit h) 0); [lia|]. reflexivity.
Qed.

Lemma in_roots_product (lw lh : Z) x y :
  In (x, y) (flat_map (fun start => flat_map (fun y =>
      map (fun x => (x, y)) (zrange_step (fst start) lw 12))
      (zrange_step (snd start) lh 12)) [(0, 0); (4, 8); (8, 4)]) <->
  exists r, In r [(0, 0); (4, 8); (8, 4)] /\ In x (zrange_step (fst r) lw 12) /\
    In y (zrange_step (snd r) lh 12).
Proof.
  rewrite in_flat_map. split.
  - intros (r & Hr & H). exists r. split; auto. apply in_flat_map in H.
    destruct H as (y' & Hy & H). apply in_map_iff in H. destruct H as (x' & E & Hx).
    injection E as <- <-. auto.
  - intros (r & Hr & Hx & Hy). exists r. split; auto. apply in_flat_map.
    exists y. split; auto. apply in_map_iff. exists x. auto.
Qed.

Lemma potential_spec v w h l : v = V5 \/ v = V248 -> size48 w h ->
  get_potential_ethernet_chips v w h = Ok l ->
  forall p, In p l <->
    triad_origin (0, 0) p /\ 0 <= fst p < eth_limit w /\ 0 <= snd p < eth_limit h.
Proof.
  intros Hv S E [x y]. rewrite potential_eq in E by auto. apply Ok_inj in E. subst l.
  rewrite in_roots_product. unfold triad_origin. cbn [fst snd].
  rewrite !Z.sub_0_r. split.
  - intros (r & Hr & Hx & Hy). apply in_zrange_step in Hx; [|lia].
    apply in_zrange_step in Hy; [|lia]. destruct Hx as (i & Hi & -> & Hx).
    destruct Hy as (j & Hj & -> & Hy). cbn [In] in Hr.
    destruct Hr as [<-|[<-|[<-|[]]]]; cbn [fst snd] in *; (split; [split|lia]).
    + exists (3 * i); lia.
    + exists (i + j); lia.
    + exists (3 * i + 1); lia.
    + exists (i + j + 1); lia.
    + exists (3 * i + 2); lia.
    + exists (i + j + 1); lia.
  - intros ([[u Hu] [t Ht]] & Hx & Hy).
    pose proof (Z.div_mod u 3 ltac:(lia)) as D.
    pose proof (Z.mod_pos_bound u 3 ltac:(lia)) as B.
    assert (u mod 3 = 0 \/ u mod 3 = 1 \/ u mod 3 = 2) as [M|[M|M]] by lia.
    + exists (0, 0). split; [cbn; auto|]. rewrite !in_zrange_step by lia. cbn [fst snd].
      split; [exists (u / 3) | exists (t - u / 3)]; lia.
    + exists (4, 8). split; [cbn; auto|]. rewrite !in_zrange_step by lia. cbn [fst snd].
      split; [exists (u / 3) | exists (t - u / 3 - 1)]; lia.
    + exists (8, 4). split; [cbn; auto|]. rewrite !in_zrange_step by lia. cbn [fst snd].
      split; [exists (u / 3) | exists (t - u / 3 - 1)]; lia.
Qed.

Lemma nodup_flat_map {A B} (f : A -> list B) l :
  NoDup l -> (forall a, In a l -> NoDup (f a)) ->
  (forall a a' b, In a l -> In a' l -> In b (f a) -> In b (f a') -> a = a') ->
  NoDup (flat_map f l).
Proof.
  induction 1 as [|a l Ha N IH]; intros Hn Hd; cbn; [constructor|].
  apply nodup_app.
  - apply Hn; left; auto.
  - apply IH; intros; [apply Hn|eapply Hd]; cbn; eauto.
  - intros b Hb HI. apply in_flat_map in HI. destruct HI as (a' & Ha' & Hb').
    assert (a = a') as <-. { eapply Hd; cbn; eauto. } auto.
Qed.

Lemma potential_nodup v w h l : v = V5 \/ v = V248 -> size48 w h ->
  get_potential_ethernet_chips v w h = Ok l -> NoDup l.
Proof.
  intros Hv S E. rewrite potential_eq in E by auto. apply Ok_inj in E. subst l.
  apply nodup_flat_map.
  - apply nodup_b_spec; reflexivity.
  - intros r _. apply nodup_flat_map.
    + apply zrange_step_nodup; lia.
    + intros y _. apply FinFun.Injective_map_NoDup; [|apply zrange_step_nodup; lia].
      intros a b H; injection H; auto.
    + intros y y' [p q] _ _ H1 H2. apply in_map_iff in H1, H2.
      destruct H1 as (? & E1 & _), H2 as (? & E2 & _). congruence.
  - intros r r' [x y] Hr Hr' H1 H2.
    apply in_flat_map in H1, H2. destruct H1 as (y1 & Hy1 & H1), H2 as (y2 & Hy2 & H2).
    apply in_map_iff in H1, H2. destruct H1 as (x1 & E1 & Hx1), H2 as (x2 & E2 & Hx2).
    injection E1 as -> ->. injection E2 as -> ->.
    apply in_zrange_step in Hx1; [|lia]. apply in_zrange_step in Hx2; [|lia].
    destruct Hx1 as (i & _ & E1 & _), Hx2 as (j & _ & E2 & _).
    cbn [In] in Hr, Hr'.
    destruct Hr as [<-|[<-|[<-|[]]]]; destruct Hr' as [<-|[<-|[<-|[]]]]; auto;
      cbn [fst] in *; lia.
Qed.

Lemma eth_limit_spec n e : (e < eth_limit n) <->
  ((12 | n) /\ e < n) \/ (~ (12 | n) /\ e + 8 <= n).
Proof.
  unfold eth_limit. destruct (Z.eqb_spec (n mod 12) 0) as [E|E].
  - apply Z.mod_divide in E; [|lia]. tauto.
  - assert (~ (12 | n)). { intros H. apply Z.mod_divide in H; lia. } intuition lia.
Qed.

Lemma size48_pos w h : size48 w h -> 8 <= w /\ 8 <= h.
Proof. unfold size48. lia. Qed.

Lemma potential_spec' v w h l : v = V5 \/ v = V248 -> size48 w h ->
  get_potential_ethernet_chips v w h = Ok l ->
  forall p, In p l <-> triad_origin (0, 0) p /\ board_fits w h p.
Proof.
  intros Hv S E p. rewrite (potential_spec v w h l) by auto.
  unfold board_fits, inside.
  pose proof (eth_limit_spec w (fst p)). pose proof (eth_limit_spec h (snd p)).
  apply size48_pos in S.
  destruct (Zdivide_dec 12 w), (Zdivide_dec 12 h); intuition lia.
Qed.

(** *** Boards of a machine of a 48 chip version *)
Lemma class_wraps v w h : v = V5 \/ v = V248 ->
  wraps_x (machine_class v w h) = (w mod 12 =? 0) /\
  wraps_y (machine_class v w h) = (h mod 12 =? 0).
Proof.
  intros [->| ->]; unfold machine_class; destruct (w mod 12 =? 0), (h mod 12 =? 0); auto.
Qed.


Lemma good_size48 v w h : v = V5 \/ v = V248 -> size48 w h ->
  good_size (machine_class v w h) w h.
Proof. intros _ S. apply size48_pos in S. split; lia. Qed.

Lemma red_same k w h p q : good_size k w h ->
  red k w h p = red k w h q -> same_place k w h p q.
Proof.
  intros [Gw Gh] E. unfold red in E. injection E as E1 E2. split.
  - destruct (wraps_x k); auto. apply Z.mod_divide; [specialize (Gw eq_refl); lia|].
    rewrite Zminus_mod, E1, Z.sub_diag. reflexivity.
  - destruct (wraps_y k); auto. apply Z.mod_divide; [specialize (Gh eq_refl); lia|].
    rewrite Zminus_mod, E2, Z.sub_diag. reflexivity.
Qed.

Lemma same_red k w h p q : good_size k w h ->
  same_place k w h p q -> red k w h p = red k w h q.
Proof.
  intros [Gw Gh] [H1 H2]. unfold red. apply pair_eq.
  - destruct (wraps_x k); auto. destruct H1 as [t Ht].
    replace (fst p) with (fst q + t * w) by lia. apply Z_mod_plus_full.
  - destruct (wraps_y k); auto. destruct H2 as [t Ht].
    replace (snd p) with (snd q + t * h) by lia. apply Z_mod_plus_full.
Qed.

(** Wrapping does not leave the triad lattice. *)
Lemma same_place_12 v w h p q : v = V5 \/ v = V248 ->
  same_place (machine_class v w h) w h p q ->
  (12 | fst p - fst q) /\ (12 | snd p - snd q).
Proof.
  intros Hv [H1 H2]. destruct (class_wraps v w h Hv) as [W1 W2].
  rewrite W1 in H1. rewrite W2 in H2. split.
  - destruct (Z.eqb_spec (w mod 12) 0) as [E|E].
    + apply Z.mod_divide in E; [|lia]. etransitivity; eauto.
    + rewrite H1, Z.sub_diag. apply Z.divide_0_r.
  - destruct (Z.eqb_spec (h mod 12) 0) as [E|E].
    + apply Z.mod_divide in E; [|lia]. etransitivity; eauto.
    + rewrite H2, Z.sub_diag. apply Z.divide_0_r.
Qed.

Lemma in_xys v w h ex ey p : v = V5 \/ v = V248 ->
  In p (get_xys_by_ethernet (chip_core_map v) (machine_class v w h) w h ex ey) <->
  exists d, on_board d /\ p = red (machine_class v w h) w h (vadd d (ex, ey)).
Proof.
  intros Hv. rewrite xys_red, in_map_iff. split.
  - intros (d & <- & Hd). exists d. split; auto. apply (board48 v Hv). exact Hd.
  - intros (d & Hd & ->). exists d. split; auto. apply (board48 v Hv). exact Hd.
Qed.

Lemma fits_red_inside v w h e d : v = V5 \/ v = V248 -> size48 w h ->
  board_fits w h e -> on_board d ->
  inside w h (red (machine_class v w h) w h (vadd d e)).
Proof.
  intros Hv S [[I1 I2] [F1 F2]] D. apply size48_pos in S as P.
  destruct (class_wraps v w h Hv) as [W1 W2]. unfold on_board in D.
  unfold inside, red, vadd; cbn [fst snd]. rewrite W1, W2. split.
  - destruct (Z.eqb_spec (w mod 12) 0) as [E|E]; [apply Z.mod_pos_bound; lia|].
    assert (~ (12 | w)) as N by (intros N; apply Z.mod_divide in N; lia).
    specialize (F1 N). lia.
  - destruct (Z.eqb_spec (h mod 12) 0) as [E|E]; [apply Z.mod_pos_bound; lia|].
    assert (~ (12 | h)) as N by (intros N; apply Z.mod_divide in N; lia).
    specialize (F2 N). lia.
Qed.

Lemma inside_canonical k w h p : inside w h p -> canonical k w h p.
Proof. intros [H1 H2]. split; auto. Qed.

(** Chips determine board and offset. *)
Lemma board_inj v w h e e' d d' : v = V5 \/ v = V248 -> size48 w h ->
  triad_origin (0,0) e -> triad_origin (0,0) e' -> inside w h e -> inside w h e' ->
  on_board d -> on_board d' ->
  red (machine_class v w h) w h (vadd d e) = red (machine_class v w h) w h (vadd d' e') ->
  d = d' /\ e = e'.
Proof.
  intros Hv S [T1 T2] [T1' T2'] I I' D D' E.
  pose proof (good_size48 v w h Hv S) as G.
  pose proof (red_same _ _ _ _ _ G E) as SP.
  destruct (same_place_12 v w h _ _ Hv SP) as [M1 M2].
  destruct d as [a b], d' as [a' b'], e as [x y], e' as [x' y'].
  unfold vadd in *; cbn [fst snd] in *.
  destruct T1 as [t1 T1], T2 as [t2 T2], T1' as [t1' T1'], T2' as [t2' T2'],
    M1 as [m1 M1], M2 as [m2 M2].
  assert ((a, b) = (a', b')) as ED.
  { apply board_offset_unique; auto; cbn [fst snd].
    - exists (3 * m1 - t1 + t1'). lia.
    - exists (m1 + m2 - t2 + t2'). lia. }
  split; auto. injection ED as -> ->.
  assert (same_place (machine_class v w h) w h (x, y) (x', y')) as SP'.
  { destruct SP as [S1 S2]. split; cbn [fst snd] in *.
    - destruct (wraps_x _); [|lia]. replace (x - x') with (a' + x - (a' + x')) by ring. auto.
    - destruct (wraps_y _); [|lia]. replace (y - y') with (b' + y - (b' + y')) by ring. auto. }
  apply (same_red _ _ _ _ _ G) in SP'.
  rewrite !red_canon in SP' by (apply inside_canonical; auto). auto.
Qed.

Lemma xys_nodup v w h e : v = V5 \/ v = V248 -> size48 w h -> 
  triad_origin (0,0) e -> inside w h e ->
  NoDup (get_xys_by_ethernet (chip_core_map v) (machine_class v w h) w h (fst e) (snd e)).
Proof.
  intros Hv S T I. rewrite xys_red.
  pose proof (expected_nodup v) as N. unfold expected_xys in N.
  assert (forall d, In d (dkeys (chip_core_map v)) -> on_board d) as B
    by (intros; apply (board48 v Hv); auto).
  revert N B. generalize (dkeys (chip_core_map v)). intros l N B.
  induction N as [|d l Hd N IH]; cbn; constructor.
  - rewrite in_map_iff. intros (d' & E & Hd'). replace (fst e, snd e) with e in E by (destruct e; auto).
    destruct (board_inj v w h e e d' d) as [ED _]; auto; try (apply B; cbn; auto).
    subst; auto.
  - apply IH. intros; apply B; cbn; auto.
Qed.

(** Covering: the board of an inside chip. *)
Lemma cover_exact v w h l p dx dy : v = V5 \/ v = V248 -> size48 w h ->
  get_potential_ethernet_chips v w h = Ok l -> inside w h p ->
  get_local_chip_coordinate g5 (fst p) (snd p) 0 0 = Ok (dx, dy) ->
  ((exists e, In e l /\ In p (get_xys_by_ethernet (chip_core_map v)
      (machine_class v w h) w h (fst e) (snd e))) <->
   (~ (12 | w) -> 0 <= fst p - dx /\ fst p - dx + 8 <= w) /\
   (~ (12 | h) -> 0 <= snd p - dy /\ snd p - dy + 8 <= h)).
Proof.
  intros Hv S E I L. pose proof (good_size48 v w h Hv S) as G.
  apply size48_pos in S as P.
  destruct (class_wraps v w h Hv) as [W1 W2].
  apply local_chip_spec in L. destruct L as [B [T1 T2]]. cbn [fst snd] in *.
  rewrite !Z.sub_0_r in *.
  split.
  - intros (e & He & Hp). apply (potential_spec' v w h l) in He; auto.
    destruct He as [[T1' T2'] [Ie [F1 F2]]].
    apply in_xys in Hp; auto. destruct Hp as (d & Hd & Ep).
    assert (red (machine_class v w h) w h (vadd d e) = red (machine_class v w h) w h p) as E'.
    { rewrite (red_canon _ _ _ p) by (apply inside_canonical; auto). symmetry.
      rewrite Ep. destruct e; reflexivity. }
    pose proof (red_same _ _ _ _ _ G E') as SP.
    destruct (same_place_12 v w h _ _ Hv SP) as [M1 M2].
    destruct d as [a b], e as [x y], p as [px py].
    unfold vadd in *; cbn [fst snd] in *. rewrite !Z.sub_0_r in *.
    destruct T1 as [t1 T1], T2 as [t2 T2], T1' as [t1' T1'], T2' as [t2' T2'],
      M1 as [m1 M1], M2 as [m2 M2].
    assert ((a, b) = (dx, dy)) as ED.
    { apply board_offset_unique; auto; cbn [fst snd].
      - exists (3 * m1 - t1' + t1). lia.
      - exists (m1 + m2 - t2' + t2). lia. }
    injection ED as -> ->. destruct SP as [S1 S2]. rewrite W1 in S1. rewrite W2 in S2.
    cbn [fst snd] in S1, S2. destruct Ie as [Ie1 Ie2]; cbn [fst snd] in Ie1, Ie2.
    split; intros N.
    + destruct (Z.eqb_spec (w mod 12) 0) as [Z0|Z0].
      { exfalso. apply N. apply Z.mod_divide in Z0; auto; lia. }
      specialize (F1 N). lia.
    + destruct (Z.eqb_spec (h mod 12) 0) as [Z0|Z0].
      { exfalso. apply N. apply Z.mod_divide in Z0; auto; lia. }
      specialize (F2 N). lia.
  - intros [C1 C2]. exists (red (machine_class v w h) w h (fst p - dx, snd p - dy)).
    assert (Z0w : forall n, n mod 12 =? 0 = true -> (12 | n)).
    { intros n H. apply Z.mod_divide; [lia|]. apply Z.eqb_eq; auto. }
    assert (Z0n : forall n, n mod 12 =? 0 = false -> ~ (12 | n)).
    { intros n H H'. apply Z.mod_divide in H'; [|lia]. apply Z.eqb_neq in H. auto. }
    split.
    + apply (potential_spec' v w h l); auto. unfold triad_origin, board_fits, inside, red.
      rewrite W1, W2. cbn [fst snd]. rewrite !Z.sub_0_r.
      assert (forall a n, (12 | n) -> 0 < n -> exists t, a mod n = a + 12 * t) as MM.
      { intros a n [c Hc] Hn. exists (- (c * (a / n))). pose proof (Z.div_mod a n). nia. }
      destruct (w mod 12 =? 0) eqn:Ew; destruct (h mod 12 =? 0) eqn:Eh;
        destruct T1 as [t1 T1], T2 as [t2 T2].
      * destruct (MM (fst p - dx) w) as [s Hs]; auto; try lia.
        destruct (MM (snd p - dy) h) as [u Hu]; auto; try lia.
        pose proof (Z.mod_pos_bound (fst p - dx) w ltac:(lia)).
        pose proof (Z.mod_pos_bound (snd p - dy) h ltac:(lia)).
        rewrite Hs, Hu in *.
        split; [split; [exists (t1 + 3 * s)|exists (t2 + s + u)]; lia|].
        apply Z0w in Ew, Eh. tauto.
      * destruct (MM (fst p - dx) w) as [s Hs]; auto; try lia.
        pose proof (Z.mod_pos_bound (fst p - dx) w ltac:(lia)).
        rewrite Hs in *. apply Z0w in Ew. apply Z0n in Eh. specialize (C2 Eh).
        split; [split; [exists (t1 + 3 * s)|exists (t2 + s)]; lia|].
        repeat split; try tauto; lia.
      * destruct (MM (snd p - dy) h) as [u Hu]; auto; try lia.
        pose proof (Z.mod_pos_bound (snd p - dy) h ltac:(lia)).
        rewrite Hu in *. apply Z0w in Eh. apply Z0n in Ew. specialize (C1 Ew).
        split; [split; [exists t1|exists (t2 + u)]; lia|].
        repeat split; try tauto; lia.
      * apply Z0n in Ew, Eh. specialize (C1 Ew). specialize (C2 Eh).
        split; [split; [exists t1|exists t2]; lia|].
        repeat split; try tauto; lia.
    + apply in_xys; auto. exists (dx, dy). split; auto.
      transitivity (red (machine_class v w h) w h p).
      { symmetry; apply red_canon; apply inside_canonical; auto. }
      transitivity (red (machine_class v w h) w h
        (vadd (red (machine_class v w h) w h (fst p - dx, snd p - dy)) (dx, dy))).
      { rewrite red_add. f_equal. destruct p; unfold vadd; cbn. apply pair_eq; ring. }
      f_equal. unfold vadd; cbn [fst snd]. apply pair_eq; ring.
Qed.
