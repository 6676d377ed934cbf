(** Lemmas about concentric_xys and the by-board enumerations. *)
From Coq Require Import Lia ZifyBool Sorted Permutation.
From Verif Require Import Model_Py Model_Wrap Spec_Hops Proof_Wrap.

Definition along (p : XY) (dx dy : Z) (i : nat) : XY :=
  (fst p + Z.of_nat i * dx, snd p + Z.of_nat i * dy).

Lemma walk_line_closed n dx dy : forall p,
  walk_line n dx dy p = (map (along p dx dy) (seq 0 n), along p dx dy n).
Proof.
  induction n as [|n IH]; intros p; cbn [walk_line seq map].
  - unfold along. cbn. rewrite !Z.add_0_r. destruct p; reflexivity.
  - rewrite IH. f_equal.
    + f_equal.
      * unfold along. cbn. rewrite !Z.add_0_r. destruct p; reflexivity.
      * rewrite <- seq_shift, map_map. apply map_ext. intros i.
        unfold along; cbn [fst snd]. apply pair_eq; lia.
    + unfold along; cbn [fst snd]. apply pair_eq; lia.
Qed.

Definition ring (r : nat) (s : XY) : list XY :=
  let R := Z.of_nat r in
  map (along (vadd s (0, -R)) 1 1) (seq 0 r) ++
  map (along (vadd s (R, 0)) 0 1) (seq 0 r) ++
  map (along (vadd s (R, R)) (-1) 0) (seq 0 r) ++
  map (along (vadd s (0, R)) (-1) (-1)) (seq 0 r) ++
  map (along (vadd s (-R, 0)) 0 (-1)) (seq 0 r) ++
  map (along (vadd s (-R, -R)) 1 0) (seq 0 r).

Lemma walk_sides_closed r s :
  walk_sides RING_MOVES r (vadd s (0, - Z.of_nat r)) =
  (ring r s, vadd s (0, - Z.of_nat r)).
Proof.
  unfold RING_MOVES, walk_sides, ring. rewrite !walk_line_closed. cbv zeta.
  assert (forall a b, vadd s (a, b) = (fst s + a, snd s + b)) as V by reflexivity.
  assert (forall x y dx dy n, along (x, y) dx dy n =
     (x + Z.of_nat n * dx, y + Z.of_nat n * dy)) as A by reflexivity.
  rewrite !V, !A. cbn [fst snd]. rewrite app_nil_r.
  f_equal; [|apply pair_eq; lia].
  repeat apply (f_equal2 (@app XY));
    apply map_ext; intros i; unfold along; cbn; apply pair_eq; lia.
Qed.

Lemma walk_rings_closed n : forall r s,
  walk_rings n (S r) (vadd s (0, - Z.of_nat r)) =
  flat_map (fun i => ring i s) (seq (S r) n).
Proof.
  induction n as [|n IH]; intros r s; cbn [walk_rings seq flat_map].
  - reflexivity.
  - assert ((fst (vadd s (0, - Z.of_nat r)), snd (vadd s (0, - Z.of_nat r)) - 1)
      = vadd s (0, - Z.of_nat (S r))) as ->.
    { unfold vadd; cbn [fst snd]. apply pair_eq; lia. }
    rewrite walk_sides_closed. rewrite IH. reflexivity.
Qed.

Lemma basic_closed radius s :
  basic_concentric_xys radius s =
  s :: flat_map (fun i => ring i s) (seq 1 (Z.to_nat radius)).
Proof.
  unfold basic_concentric_xys. f_equal.
  rewrite <- (walk_rings_closed _ 0 s). f_equal. symmetry. apply vadd_0.
Qed.

(** The displacements, in the order produced. *)
Definition spiral (radius : Z) : list XY := basic_concentric_xys radius (0, 0).

Lemma ring_shift r s : ring r s = map (vadd s) (ring r (0,0)).
Proof.
  unfold ring. cbv zeta. rewrite !map_app, !map_map.
  repeat apply (f_equal2 (@app XY));
    apply map_ext; intros i; unfold along, vadd; cbn; apply pair_eq; lia.
Qed.

Lemma basic_shift radius s : basic_concentric_xys radius s = map (vadd s) (spiral radius).
Proof.
  unfold spiral. rewrite !basic_closed. cbn [map]. f_equal.
  - symmetry. apply vadd_0.
  - induction (seq 1 (Z.to_nat radius)) as [|i l IH]; cbn; auto.
    rewrite map_app, IH, ring_shift. reflexivity.
Qed.

Lemma concentric_spiral k w h radius s :
  concentric_xys k w h radius s = map (fun v => red k w h (vadd s v)) (spiral radius).
Proof.
  destruct k; cbn [concentric_xys]; rewrite basic_shift, ?map_map;
    apply map_ext; intros v; unfold red; cbn; auto.
Qed.

Lemma in_along p dx dy n q :
  In q (map (along p dx dy) (seq 0 n)) <->
  exists i : Z, 0 <= i < Z.of_nat n /\ q = (fst p + i * dx, snd p + i * dy).
Proof.
  rewrite in_map_iff. split.
  - intros (i & <- & Hi). apply in_seq in Hi. exists (Z.of_nat i). split; [lia|reflexivity].
  - intros (i & Hi & ->). exists (Z.to_nat i). split.
    + unfold along. rewrite Z2Nat.id by lia. reflexivity.
    + apply in_seq. lia.
Qed.

Lemma norm2_eq v n : norm2 v = n <->
  norm2 v <= n /\ ~ norm2 v <= n - 1.
Proof. lia. Qed.

Lemma in_ring r q : (1 <= r)%nat -> In q (ring r (0,0)) <-> norm2 q = Z.of_nat r.
Proof.
  intros Hr. unfold ring. cbv zeta. rewrite !in_app_iff, !in_along.
  rewrite norm2_eq, !norm2_le.
  destruct q as [x y]. unfold vadd; cbn [fst snd]. set (R := Z.of_nat r).
  assert (1 <= R) by lia. split.
  - intros H0.
    repeat match goal with H : _ \/ _ |- _ => destruct H end;
    match goal with H : exists _, _ |- _ => destruct H as (i & Hi & E) end;
    injection E as -> ->; lia.
  - intros [H1 H2].
    destruct (Z_le_gt_dec 0 x) as [A|A]; destruct (Z_le_gt_dec 0 y) as [B|B].
    + (* both nonneg: max = R *)
      destruct (Z_lt_ge_dec y R) as [C|C].
      * right; left. exists y. split; [lia|]. apply pair_eq; lia.
      * destruct (Z_lt_ge_dec 0 x) as [D|D].
        -- do 2 right; left. exists (R - x). split; [lia|]. apply pair_eq; lia.
        -- do 3 right; left. exists 0. split; [lia|]. apply pair_eq; lia.
    + (* x >= 0, y < 0: x - y = R *)
      left. exists x. split; [lia|]. apply pair_eq; lia.
    + (* x < 0, y >= 0 : y - x = R *)
      destruct (Z_lt_ge_dec 0 y) as [D|D].
      * do 3 right; left. exists (- x). split; [lia|]. apply pair_eq; lia.
      * do 4 right; left. exists 0. split; [lia|]. apply pair_eq; lia.
    + (* both negative *)
      destruct (Z_lt_ge_dec (-R) y) as [C|C].
      * do 4 right; left. exists (- y). split; [lia|]. apply pair_eq; lia.
      * do 5 right. exists (x + R). split; [lia|]. apply pair_eq; lia.
Qed.

Lemma in_spiral radius v : 0 <= radius -> In v (spiral radius) <-> norm2 v <= radius.
Proof.
  intros Hr. unfold spiral. rewrite basic_closed. cbn [In]. rewrite in_flat_map. split.
  - intros [<-|(i & Hi & Hv)].
    + cbn. lia.
    + apply in_seq in Hi. apply in_ring in Hv; lia.
  - intros Hv. pose proof (norm2_nonneg v).
    destruct (Z.eq_dec (norm2 v) 0) as [E|E].
    + left. symmetry. apply norm2_zero; auto.
    + right. exists (Z.to_nat (norm2 v)). split.
      * apply in_seq. lia.
      * apply in_ring; lia.
Qed.

Lemma nodup_along p dx dy n : (dx <> 0 \/ dy <> 0) ->
  NoDup (map (along p dx dy) (seq 0 n)).
Proof.
  intros H. apply FinFun.Injective_map_NoDup; [|apply seq_NoDup].
  intros i j E. unfold along in E. injection E as E1 E2. nia.
Qed.

Lemma nodup_app {A} (l l' : list A) : NoDup l -> NoDup l' ->
  (forall x, In x l -> ~ In x l') -> NoDup (l ++ l').
Proof.
  induction 1 as [|a l Ha _ IH]; intros N D; cbn; auto.
  constructor.
  - rewrite in_app_iff. intros [?|?]; [auto|]. eapply D; [left; reflexivity|auto].
  - apply IH; auto. intros x Hx. apply D. right; auto.
Qed.

Lemma nodup_ring r : NoDup (ring r (0,0)).
Proof.
  unfold ring. cbv zeta.
  repeat (apply nodup_app; [apply nodup_along; lia| |intros q Hq HI]).
  apply nodup_along; lia.
  all: repeat rewrite in_app_iff in HI; rewrite in_along in Hq;
    rewrite ?in_along in HI; destruct Hq as (i & Hi & ->);
    unfold vadd in HI; cbn [fst snd] in HI;
    repeat match goal with H : _ \/ _ |- _ => destruct H end;
    match goal with H : exists _, _ |- _ => destruct H as (j & Hj & E) end;
    injection E as E1 E2; lia.
Qed.

Lemma nodup_rings n : forall m, (1 <= m)%nat ->
  NoDup (flat_map (fun i => ring i (0,0)) (seq m n)).
Proof.
  induction n as [|n IH]; intros m Hm; cbn [seq flat_map]; [constructor|].
  apply nodup_app; [apply nodup_ring|apply IH; lia|].
  intros q Hq HI. apply in_ring in Hq; auto. apply in_flat_map in HI.
  destruct HI as (j & Hj & Hq'). apply in_seq in Hj. apply in_ring in Hq'; lia.
Qed.

Lemma nodup_spiral radius : NoDup (spiral radius).
Proof.
  unfold spiral. rewrite basic_closed. constructor; [|apply nodup_rings; lia].
  intros HI. apply in_flat_map in HI. destruct HI as (j & Hj & Hq).
  apply in_seq in Hj. apply in_ring in Hq; [|lia]. cbn in Hq. lia.
Qed.

Lemma ring_length r s : List.length (ring r s) = (6 * r)%nat.
Proof. unfold ring. cbv zeta. rewrite !app_length, !map_length, !seq_length. lia. Qed.

Lemma rings_length n : forall m,
  Z.of_nat (List.length (flat_map (fun i => ring i (0,0)) (seq m n))) =
  3 * Z.of_nat n * (2 * Z.of_nat m + Z.of_nat n - 1).
Proof.
  induction n as [|n IH]; intros m; cbn [seq flat_map]; [cbn; lia|].
  rewrite app_length, ring_length, Nat2Z.inj_add, IH. lia.
Qed.

Lemma spiral_length radius : 0 <= radius ->
  Z.of_nat (List.length (spiral radius)) = 1 + 3 * radius * (radius + 1).
Proof.
  intros H. unfold spiral. rewrite basic_closed. cbn [List.length].
  rewrite Nat2Z.inj_succ, rings_length. lia.
Qed.

Lemma sorted_app_by {A} (f : A -> Z) l l' :
  StronglySorted (fun a b => f a <= f b) l -> StronglySorted (fun a b => f a <= f b) l' ->
  (forall x y, In x l -> In y l' -> f x <= f y) ->
  StronglySorted (fun a b => f a <= f b) (l ++ l').
Proof.
  induction 1 as [|a l Hs IH Ha]; intros S' D; cbn; auto.
  constructor.
  - apply IH; auto. intros; apply D; auto. right; auto.
  - rewrite Forall_app. split; auto. apply Forall_forall. intros y Hy.
    apply D; auto. left; auto.
Qed.

Lemma sorted_const {A} (f : A -> Z) l n : (forall x, In x l -> f x = n) ->
  StronglySorted (fun a b => f a <= f b) l.
Proof.
  induction l as [|a l IH]; intros H; constructor.
  - apply IH. intros; apply H; right; auto.
  - apply Forall_forall. intros y Hy. rewrite (H a), (H y); cbn; auto; lia.
Qed.

Lemma sorted_rings n : forall m, (1 <= m)%nat ->
  StronglySorted (fun a b => norm2 a <= norm2 b)
    (flat_map (fun i => ring i (0,0)) (seq m n)).
Proof.
  induction n as [|n IH]; intros m Hm; cbn [seq flat_map]; [constructor|].
  apply sorted_app_by.
  - apply sorted_const with (n := Z.of_nat m). intros; apply in_ring; auto.
  - apply IH; lia.
  - intros a b Ha Hb. apply in_ring in Ha; auto. apply in_flat_map in Hb.
    destruct Hb as (j & Hj & Hq'). apply in_seq in Hj. apply in_ring in Hq'; lia.
Qed.

Lemma sorted_spiral radius :
  StronglySorted (fun a b => norm2 a <= norm2 b) (spiral radius).
Proof.
  unfold spiral. rewrite basic_closed. constructor; [apply sorted_rings; lia|].
  apply Forall_forall. intros v _. cbn. apply norm2_nonneg.
Qed.

(** norm2 is the unwrapped distance *)
Lemma norm2_length v : norm2 v = get_vector_length NoWrap 0 0 (0,0) v.
Proof.
  cbn [get_vector_length]. rewrite nw_len. unfold nw_best. cbn [fst snd].
  rewrite !Z.sub_0_r. destruct v; reflexivity.
Qed.

Lemma concentric_ball k w h radius s p : good_size k w h -> canonical k w h s ->
  0 <= radius ->
  (In p (concentric_xys k w h radius s) <->
   canonical k w h p /\ get_vector_length k w h s p <= radius).
Proof.
  intros G C Hr. rewrite concentric_spiral, in_map_iff. split.
  - intros (v & <- & Hv). apply in_spiral in Hv; auto. split; [apply canon_red; auto|].
    destruct (length_min_lift k w h s (red k w h (vadd s v)) G) as [_ M].
    etransitivity; [apply (M v)|auto]. unfold lifts.
    pose proof (red_add k w h (vadd s v) (0,0)) as E. rewrite !vadd_0 in E. auto.
  - intros [Cp L]. destruct (length_min_lift k w h s p G) as [[v [Lv N]] _].
    exists v. split.
    + unfold lifts in Lv. rewrite Lv. apply red_canon; auto.
    + apply in_spiral; auto. lia.
Qed.

Lemma concentric_nodup k w h radius s : good_size k w h -> 0 <= radius ->
  (wraps_x k = true -> 2 * radius < w) -> (wraps_y k = true -> 2 * radius < h) ->
  NoDup (concentric_xys k w h radius s).
Proof.
  intros [Gw Gh] Hr Hw Hh. rewrite concentric_spiral.
  assert (forall v v', In v (spiral radius) -> In v' (spiral radius) ->
    red k w h (vadd s v) = red k w h (vadd s v') -> v = v') as Inj.
  { intros [a b] [a' b'] H1 H2 E. apply in_spiral in H1; auto.
    apply in_spiral in H2; auto. apply norm2_le in H1. apply norm2_le in H2.
    cbn [fst snd] in *. unfold red, vadd in E; cbn [fst snd] in E.
    injection E as E1 E2.
    assert (forall x a b m, 0 < m -> 2 * radius < m -> - radius <= a <= radius ->
       - radius <= b <= radius -> (x + a) mod m = (x + b) mod m -> a = b) as K.
    { clear. intros x a b m Hm H1 Ha Hb E. symmetry in E.
      assert ((x + b + (a - b)) mod m = (x + b) mod m) as E' by (rewrite E; f_equal; ring).
      apply mod_lift in E'; [|lia]. destruct E' as [t E'].
      rewrite Z.sub_diag, Z.mod_0_l in E' by lia.
      assert (t = 0 \/ t <= -1 \/ 1 <= t) as [->|[?|?]] by lia; nia. }
    apply pair_eq.
    - destruct (wraps_x k); [|lia]. specialize (Gw eq_refl). specialize (Hw eq_refl).
      eapply (K _ a a' w); eauto; lia.
    - destruct (wraps_y k); [|lia]. specialize (Gh eq_refl). specialize (Hh eq_refl).
      eapply (K _ b b' h); eauto; lia. }
  pose proof (nodup_spiral radius) as N.
  revert N Inj. generalize (spiral radius). clear. intros l N Inj.
  induction N as [|v l Hv N IH]; cbn; constructor.
  - rewrite in_map_iff. intros (v' & E & H). apply Inj in E; cbn; auto. subst; auto.
  - apply IH. intros; apply Inj; cbn; auto.
Qed.

(** *** Boards *)
Lemma xys_red ccm k w h ex ey :
  get_xys_by_ethernet ccm k w h ex ey =
  map (fun p => red k w h (vadd p (ex, ey))) (dkeys ccm).
Proof. destruct k; reflexivity. Qed.

Lemma xy_cores_red ccm k w h ex ey :
  get_xy_cores_by_ethernet ccm k w h ex ey =
  map (fun e => (red k w h (vadd (fst e) (ex, ey)), snd e)) ccm.
Proof. destruct k; reflexivity. Qed.

Lemma flat_map_filter {A B} (f : A -> B) (P : B -> bool) l :
  flat_map (fun a => if P (f a) then [f a] else []) l = filter P (map f l).
Proof.
  induction l as [|a l IH]; cbn; auto. destruct (P (f a)); cbn; rewrite IH; auto.
Qed.

Lemma existing_filter ccm ext k w h ex ey :
  get_existing_xys_by_ethernet ccm ext k w h ex ey =
  filter ext (get_xys_by_ethernet ccm k w h ex ey).
Proof. destruct k; cbn; apply flat_map_filter with (P := ext). Qed.

Lemma down_filter ccm ext k w h ex ey :
  get_down_xys_by_ethernet ccm ext k w h ex ey =
  filter (fun p => negb (ext p)) (get_xys_by_ethernet ccm k w h ex ey).
Proof.
  destruct k; cbn; apply flat_map_filter with (P := fun p => negb (ext p)).
Qed.

Lemma cores_fst ccm k w h ex ey :
  map fst (get_xy_cores_by_ethernet ccm k w h ex ey) =
  get_xys_by_ethernet ccm k w h ex ey.
Proof.
  rewrite xy_cores_red, xys_red. unfold dkeys. rewrite !map_map. reflexivity.
Qed.

Lemma cores_snd ccm k w h ex ey :
  map snd (get_xy_cores_by_ethernet ccm k w h ex ey) = map snd ccm.
Proof. rewrite xy_cores_red, map_map. reflexivity. Qed.

Lemma filter_partition_perm {A} (P : A -> bool) l :
  Permutation (filter P l ++ filter (fun x => negb (P x)) l) l.
Proof.
  induction l as [|a l IH]; cbn; auto.
  destruct (P a); cbn.
  - constructor; auto.
  - rewrite <- Permutation_middle. constructor; auto.
Qed.
