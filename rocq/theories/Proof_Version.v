From Coq Require Import Lia.
From Verif Require Import Model_Py Model_Wrap Model_Float Model_Geometry Model_Version
  Model_Core Model_Machine Spec_Hops Spec_Board Spec_Version Proof_Wrap Proof_Concentric
  Proof_Board Proof_Py Proof_Float.

Lemma verify_supported v w h :
  verify_size v (Some w) (Some h) = Ok tt <-> supported v w h.
Proof.
  assert (forall n, 0 < n -> n mod 4 = 0 <-> (4 | n)) as D
    by (intros; apply Z.mod_divide; lia).
  unfold verify_size.
  destruct (Z.leb_spec w 0).
  { split; [discriminate|]. destruct v; cbn; unfold size48; lia. }
  destruct (Z.leb_spec h 0).
  { split; [discriminate|]. destruct v; cbn; unfold size48; lia. }
  assert (verify_size_impl V5 w h = Ok tt <-> size48 w h) as K48.
  { unfold size48. cbn [verify_size_impl]. destruct (Z.leb_spec w 8).
    - destruct (Z.eqb_spec w 8); destruct (Z.eqb_spec h 8); cbn [andb];
        (split; [try discriminate|]; intuition lia).
    - destruct (Z.leb_spec h 8); [split; [discriminate|intuition lia]|].
      destruct (Z.eqb_spec (w mod 4) 0) as [Ew|Ew]; cbn [negb];
        [|split; [discriminate|]; rewrite <- !D by lia; intuition lia].
      destruct (Z.eqb_spec (h mod 4) 0) as [Eh|Eh]; cbn [negb];
        [|split; [discriminate|]; rewrite <- !D by lia; intuition lia].
      rewrite <- !D by lia. intuition lia. }
  destruct v; [|exact K48| |exact K48]; cbn [verify_size_impl supported];
    [destruct (Z.eqb_spec w 2), (Z.eqb_spec h 2)|destruct (Z.eqb_spec w 1), (Z.eqb_spec h 1)];
    cbn [negb]; split; try discriminate; try tauto; lia.
Qed.

Lemma verify_raises v w h :
  verify_size v w h = Ok tt \/ verify_size v w h = Err MachineExc.
Proof.
  unfold verify_size. destruct w as [w|], h as [h|]; auto; destruct (w <=? 0); auto.
  destruct (h <=? 0); auto. destruct v; cbn;
    repeat match goal with |- context [if ?b then _ else _] => destruct b end; auto.
Qed.

Lemma create_ok v w h o m : create_machine v w h o = Ok m ->
  exists w' h', w = Some w' /\ h = Some h' /\ supported v w' h' /\
   m = new_machine (machine_class v w' h') w' h' (chip_core_map v)
         (match o with Some s => s | None => EmptyString end).
Proof.
  unfold create_machine. intros E. destruct w as [w|]; [|discriminate].
  destruct h as [h|]; [|discriminate]. exists w, h. repeat split; auto.
  - apply verify_supported. destruct (verify_raises v (Some w) (Some h)) as [->|X]; auto.
    rewrite X in E. discriminate.
  - destruct (verify_size v (Some w) (Some h)); [|discriminate]. cbn in E.
    apply Ok_inj in E. auto.
Qed.

Lemma create_some v w h o : supported v w h -> create_machine v (Some w) (Some h) o =
  Ok (new_machine (machine_class v w h) w h (chip_core_map v)
         (match o with Some s => s | None => EmptyString end)).
Proof.
  intros S. apply verify_supported in S. unfold create_machine. rewrite S. reflexivity.
Qed.

Lemma class_should_wrap v w h : supported v w h ->
  (wraps_x (machine_class v w h) = true <-> should_wrap v w) /\
  (wraps_y (machine_class v w h) = true <-> should_wrap v h).
Proof.
  intros S. assert (v = V3 \/ v = V201 \/ (v = V5 \/ v = V248)) as [->|[->|Hv]]
    by (destruct v; auto).
  - cbn. tauto.
  - cbn. intuition discriminate.
  - destruct (class_wraps v w h Hv) as [-> ->].
    assert (forall n, n mod 12 =? 0 = true <-> (12 | n)) as D.
    { intros. rewrite Z.eqb_eq. apply Z.mod_divide. lia. }
    rewrite !D. destruct Hv as [->| ->]; cbn; tauto.
Qed.

(** ** size_from_n_boards *)
Lemma zrange_step_length lo hi s : Z.of_nat (List.length (zrange_step lo hi s)) =
  Z.max 0 ((hi - lo + s - 1) / s).
Proof. unfold zrange_step. rewrite map_length, seq_length. lia. Qed.

Lemma flat_map_const_length {A B} (f : A -> list B) n l :
  (forall a, In a l -> List.length (f a) = n) ->
  List.length (flat_map f l) = (List.length l * n)%nat.
Proof.
  induction l as [|a l IH]; cbn; intros H; auto.
  rewrite app_length, IH, H; auto.
Qed.

Lemma supported_triads v a b : v = V5 \/ v = V248 -> 1 <= a -> 1 <= b ->
  supported v (a * 12 + 4) (b * 12 + 4).
Proof.
  intros Hv Ha Hb. assert (size48 (a * 12 + 4) (b * 12 + 4)).
  { right. repeat split; try lia; [exists (a * 3 + 1)|exists (b * 3 + 1)]; lia. }
  destruct Hv as [->| ->]; auto.
Qed.

Lemma n_boards_of_triads v a b l : v = V5 \/ v = V248 -> 1 <= a -> 1 <= b ->
  get_potential_ethernet_chips v (a * 12 + 4) (b * 12 + 4) = Ok l ->
  Z.of_nat (List.length l) = 3 * a * b.
Proof.
  intros Hv Ha Hb E. pose proof (supported_triads v a b Hv Ha Hb) as S.
  assert (size48 (a * 12 + 4) (b * 12 + 4)) as S' by (destruct Hv as [->| ->]; exact S).
  rewrite (potential_eq v _ _ Hv S') in E. apply Ok_inj in E. subst l.
  assert (forall n, 1 <= n -> eth_limit (n * 12 + 4) = n * 12 - 3) as L.
  { intros n Hn. unfold eth_limit.
    replace ((n * 12 + 4) mod 12) with 4; [cbn; lia|].
    rewrite Z.add_comm, Z_mod_plus_full. reflexivity. }
  rewrite !L by auto.
  assert (forall n lo, 1 <= n -> In lo [0; 4; 8] ->
     List.length (zrange_step lo (n * 12 - 3) 12) = Z.to_nat n) as K.
  { intros n lo Hn Hlo. apply Nat2Z.inj. rewrite zrange_step_length, Z2Nat.id by lia.
    assert ((n * 12 - 3 - lo + 12 - 1) / 12 = n) as ->; [|lia].
    symmetry. apply (Z.div_unique _ _ _ (8 - lo)); [|lia].
    cbn in Hlo. lia. }
  rewrite (flat_map_const_length _ (Z.to_nat b * Z.to_nat a)).
  - cbn [List.length]. nia.
  - intros r Hr. rewrite (flat_map_const_length _ (Z.to_nat a)).
    + rewrite K; auto. cbn in Hr |- *. intuition (subst; cbn; auto).
    + intros y _. rewrite map_length. apply K; auto.
      cbn in Hr |- *. intuition (subst; cbn; auto).
Qed.

Lemma size_boards v n : v = V5 \/ v = V248 -> 2 <= n <= 3 * 2 ^ 52 ->
  exists a b t, size_from_n_boards v n = Ok (a * 12 + 4, b * 12 + 4) /\
    3 * (t - 1) < n <= 3 * t /\ 1 <= a /\ (a - 1) * (a - 1) < t <= a * a /\
    1 <= b /\ (b - 1) * a < t <= b * a.
Proof.
  intros Hv Hn. set (t := cdiv n 3).
  destruct (proj1 (cdiv_spec n 3 t ltac:(lia)) eq_refl) as [T1 T2].
  assert (1 <= t <= 2 ^ 52) as HT by lia.
  destruct (div3_ceil n ltac:(lia)) as (f & F1 & F2).
  destruct (sqrt_ceil t ltac:(lia)) as (g & w & G1 & G2 & W0 & W1).
  assert (w <= 2 ^ 26 + 1) as W2.
  { destruct (Z_le_gt_dec w (2 ^ 26 + 1)); auto. exfalso.
    assert (2 ^ 26 * 2 ^ 26 <= (w - 1) * (w - 1)) by (apply Z.mul_le_mono_nonneg; lia).
    change (2 ^ 26 * 2 ^ 26) with (2 ^ 52) in *. lia. }
  assert (2 ^ 26 + 1 < 2 ^ 900) as W3 by (vm_compute; reflexivity).
  destruct (div_ceil t w ltac:(lia) W0 ltac:(lia) ltac:(lia)) as (k & K1 & K2).
  set (b := cdiv t w) in *.
  destruct (proj1 (cdiv_spec t w b W0) eq_refl) as [B1 B2].
  exists w, b, t. split.
  - assert (size_from_n_boards v n = size_from_n_boards V5 n) as ->
      by (destruct Hv as [->| ->]; reflexivity).
    cbn [size_from_n_boards]. destruct (Z.leb_spec n 1); [lia|].
    rewrite F1. cbn [bind]. rewrite F2. cbn [bind]. fold t. rewrite G1. cbn [bind].
    rewrite G2. cbn [bind]. rewrite K1. cbn [bind]. rewrite K2. reflexivity.
  - split; [lia|]. split; [lia|]. split; [lia|]. split; [|lia].
    clear - B1 B2 HT W0. nia.
Qed.

(** ** Quads *)
Lemma qqq_eq a b : qqq_eqb a b = true <-> a = b.
Proof.
  destruct a as [[x y] p], b as [[x' y'] p']. unfold qqq_eqb.
  rewrite !andb_true_iff, !Z.eqb_eq. split; [intros [[-> ->] ->]; auto|].
  intros E. injection E. auto.
Qed.

Lemma dget_in {K V} (eqb : K -> K -> bool) (E : forall a b, eqb a b = true <-> a = b)
  (d : dict K V) k v : dget eqb d k = Some v -> In (k, v) d.
Proof.
  induction d as [|[k' v'] d IH]; cbn; [discriminate|].
  destruct (eqb k' k) eqn:X; [|auto]. apply E in X. intros [= <-]. subst. auto.
Qed.

Lemma quad_bijection : forall v, v = V201 \/ v = V248 ->
    (forall id, 0 <= id <= 152 -> exists qx qy qp,
        id_to_qx_qy_qp v id = Ok (qx, qy, qp) /\ qx_qy_qp_to_id v qx qy qp = Ok id) /\
    (forall qx qy qp id, qx_qy_qp_to_id v qx qy qp = Ok id ->
        id_to_qx_qy_qp v id = Ok (qx, qy, qp) /\ 0 <= id <= 152) /\
    (forall id, id < 0 \/ 152 < id -> id_to_qx_qy_qp v id = Err KeyError) /\
    (forall qx qy qp, (exists id, qx_qy_qp_to_id v qx qy qp = Ok id) \/
                      qx_qy_qp_to_id v qx qy qp = Err KeyError).
Proof.
  assert (forallb (fun id => match dgetitem Z.eqb QUAD_MAP id with
     | Ok (x, y, p) => match dgetitem qqq_eqb reverse_quad_map (x, y, p) with
           | Ok i => i =? id | Err _ => false end
     | Err _ => false end) (zrange 0 153) = true) as F1 by (vm_compute; reflexivity).
  assert (forallb (fun e => match dgetitem Z.eqb QUAD_MAP (snd e) with
     | Ok q => qqq_eqb q (fst e) && (0 <=? snd e) && (snd e <=? 152)
     | Err _ => false end) reverse_quad_map = true) as F2 by (vm_compute; reflexivity).
  assert (forallb (fun e => (0 <=? fst e) && (fst e <=? 152)) QUAD_MAP = true) as F3
    by (vm_compute; reflexivity).
  rewrite forallb_forall in F1, F2, F3.
  intros v Hv.
  assert (forall id, id_to_qx_qy_qp v id = dgetitem Z.eqb QUAD_MAP id) as E1
    by (destruct Hv as [->| ->]; reflexivity).
  assert (forall x y p, qx_qy_qp_to_id v x y p = dgetitem qqq_eqb reverse_quad_map (x, y, p)) as E2
    by (destruct Hv as [->| ->]; reflexivity).
  split; [|split; [|split]].
  - intros id H. specialize (F1 id (proj2 (in_zrange 0 153 id) ltac:(lia))). rewrite E1.
    destruct (dgetitem Z.eqb QUAD_MAP id) as [[[x y] p]|]; [|discriminate].
    exists x, y, p. split; auto. rewrite E2.
    destruct (dgetitem qqq_eqb reverse_quad_map (x, y, p)); [|discriminate].
    apply Z.eqb_eq in F1. congruence.
  - intros x y p id E. rewrite E2 in E. rewrite E1. unfold dgetitem in E.
    destruct (dget qqq_eqb reverse_quad_map (x, y, p)) eqn:G; [|discriminate].
    injection E as ->. apply (dget_in qqq_eqb qqq_eq) in G. specialize (F2 _ G). cbn [fst snd] in F2.
    destruct (dgetitem Z.eqb QUAD_MAP id); [|discriminate].
    rewrite !andb_true_iff, !Z.leb_le in F2. destruct F2 as [[F2 F2'] F2''].
    apply qqq_eq in F2. subst. auto.
  - intros id H. rewrite E1. unfold dgetitem. destruct (dget Z.eqb QUAD_MAP id) eqn:G; auto.
    apply (dget_in Z.eqb Z.eqb_eq) in G. specialize (F3 _ G). cbn [fst] in F3.
    rewrite andb_true_iff, !Z.leb_le in F3. lia.
  - intros x y p. rewrite E2. unfold dgetitem.
    destruct (dget qqq_eqb reverse_quad_map (x, y, p)); eauto.
Qed.
