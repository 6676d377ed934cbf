(** Accuracy, order and errors of the energy functions. *)
From Coq Require Import Reals Lra Lia ZArith.
From Verif Require Import Model_Py Model_Wrap Model_Float Model_Version Model_Energy Spec_Energy Proof_Double.
From Flocq Require Import Core.Core IEEE754.BinarySingleNaN.
Open Scope R_scope.

Definition within (a b : Z) (r : R) : Prop := r = 0 \/ bpow radix2 a <= r <= bpow radix2 b.

Lemma within_range a b r : within a b r -> (-1000 <= a)%Z -> (b <= 1000)%Z -> in_range r.
Proof.
  intros [->|[L U]] A B; [left; auto|right]. split.
  - apply Rle_trans with (2 := L). apply bpow_le. auto.
  - apply Rle_trans with (1 := U). apply bpow_le. auto.
Qed.
Lemma within_mul a b c d r s : within a b r -> within c d s -> within (a + c) (b + d) (r * s).
Proof.
  intros [->|[L U]]; [left; ring|]. intros [->|[L' U']]; [left; ring|]. right. rewrite !bpow_plus.
  pose proof (bpow_gt_0 radix2 a). pose proof (bpow_gt_0 radix2 c).
  split; apply Rmult_le_compat; lra.
Qed.
Lemma within_add a b r s : within a b r -> within a b s -> within a (b + 1) (r + s).
Proof.
  pose proof (bpow_gt_0 radix2 a). pose proof (bpow_gt_0 radix2 b).
  unfold within. rewrite bpow_plus. change (bpow radix2 1) with 2.
  intros [->|[L U]] [->|[L' U']]; [left; ring|right; lra..].
Qed.
Lemma within_wider a b c d r : within a b r -> (c <= a)%Z -> (b <= d)%Z -> within c d r.
Proof.
  intros [->|[L U]] A B; [left; auto|right]. split.
  - apply Rle_trans with (2 := L). apply bpow_le. auto.
  - apply Rle_trans with (1 := U). apply bpow_le. auto.
Qed.
Lemma within_Z n : (0 <= n <= 2 ^ 70)%Z -> within 0 70 (IZR n).
Proof.
  intros [N M]. destruct (Z.eq_dec n 0) as [->|N0]; [left; reflexivity|right]. split.
  - cbn. apply IZR_le. lia.
  - apply IZR_le. exact M.
Qed.

Ltac known_float := split; [vm_compute; reflexivity|].
Ltac near_const :=
  match goal with
  | |- near _ ?X _ =>
      let c := eval vm_compute in X in
      replace X with c by (vm_compute; reflexivity)
  end;
  split; [split; [reflexivity|right; split; [reflexivity|unfold value, SF2R, F2R; cbn; lra]]|];
  split; [reflexivity|]; split; [unfold few, eps; cbn; lra|];
  split; [apply (within_range (-60) 60); [right; cbn; lra|lia|lia]|];
  unfold value, SF2R, F2R, eps; cbn; lra.

Lemma near_idle_chip : near 1 WATTS_PER_IDLE_CHIP (35 / 100). Proof. near_const. Qed.
Lemma near_core : near 1 WATTS_PER_CORE_ACTIVE_OVERHEAD (34 / 1000). Proof. near_const. Qed.
Lemma near_packet : near 2 JOULES_PER_PACKET (40 * (25 / 1000000000000)). Proof. near_const. Qed.
Lemma near_payload : near 2 JOULES_PER_PACKET_WITH_PAYLOAD (72 * (25 / 1000000000000)). Proof. near_const. Qed.
Lemma near_4chip : near 1 WATTS_FOR_4_CHIP_BOARD_IDLE_COST (356 / 100). Proof. near_const. Qed.
Lemma near_box : near 1 WATTS_FOR_48_CHIP_BOX_COST_OVERHEAD (504 / 100). Proof. near_const. Qed.
Lemma near_board : near 1 WATTS_FOR_48_CHIP_BOARD_IDLE_COST (2684 / 100). Proof. near_const. Qed.
Lemma near_frame : near 6 WATTS_PER_FRAME_ACTIVE_COST_OVERHEAD (37163558 / 1000000). Proof. near_const. Qed.

Lemma bp_le_pow : bpow radix2 (-700) <= / 10 ^ 200 /\ (10 ^ 200 <= bpow radix2 700).
Proof.
  assert (10 ^ 200 <= bpow radix2 700) as H.
  { rewrite pow_IZR. apply IZR_le. vm_compute. discriminate. }
  split; auto. change (bpow radix2 (-700)) with (bpow radix2 (- (700))). rewrite bpow_opp. apply Rinv_le; auto. apply pow_lt. lra.
Qed.

Lemma time_near t : usable t -> value t = 0 \/ / 10 ^ 200 <= value t <= 10 ^ 200 ->
  near 0 t (value t) /\ within (-700) 700 (value t).
Proof.
  intros (V & F & P) R. destruct bp_le_pow as [L U].
  assert (within (-700) 700 (value t)) as W by (destruct R as [R|[R1 R2]]; [left; auto|right; lra]).
  split; auto. split; [split; auto|]. split; auto. split; [unfold few; cbn; lra|].
  split; [apply (within_range _ _ _ W); lia|]. cbn. lra.
Qed.

Lemma int_mul_ok n f : (0 <= n <= 2 ^ 70)%Z -> int_mul n f = Ok (f_mul (f_of_Z n) f).
Proof. intros H. unfold int_mul. destruct (of_Z_near n H) as [_ ->]. reflexivity. Qed.

Lemma few_50 n : (n <= 50)%nat -> few n.
Proof. intros H. apply (few_le _ 50); auto. unfold few, eps. cbn. lra. Qed.

(** [n * c * t] *)
Lemma term_near k n c w t : (k <= 40)%nat -> (0 <= n <= 2 ^ 70)%Z -> near k c w -> within (-60) 60 w ->
  near 0 t (value t) -> within (-700) 700 (value t) ->
  near (k + 3) (f_mul (f_mul (f_of_Z n) c) t) (IZR n * w * value t) /\
  within (-760) 830 (IZR n * w * value t).
Proof.
  intros K N C W T WT. pose proof (within_Z n N) as WN. destruct (of_Z_near n N) as [NN _].
  assert (within (0 + -60 + -700) (70 + 60 + 700) (IZR n * w * value t)) as WW
    by (apply within_mul; auto; apply within_mul; auto).
  split; [|exact WW].
  replace (k + 3)%nat with (S (S (1 + k) + 0)) by lia. apply mul_near; auto.
  - apply mul_near; auto; [apply few_50; lia|]. apply (within_range _ _ _ (within_mul _ _ _ _ _ _ WN W)); lia.
  - apply few_50; lia.
  - apply (within_range _ _ _ WW); lia.
Qed.

Lemma w_const r : bpow radix2 (-60) <= r <= bpow radix2 60 -> within (-60) 60 r.
Proof. right. auto. Qed.
Ltac wconst := apply w_const; cbn; lra.

Lemma zero_near k : (k <= 40)%nat -> near k (S754_zero false) 0.
Proof.
  intros K. split; [split; [reflexivity|right; split; [reflexivity|unfold value; cbn; lra]]|].
  split; auto. split; [apply few_50; lia|]. split; [left; auto|]. unfold value. cbn. lra.
Qed.

Lemma v3_idle_near t frames boards chips :
  near 0 t (value t) -> within (-700) 700 (value t) -> small frames -> small boards -> small chips ->
  frames = 0%Z /\ (boards <= 1)%Z ->
  exists e, v3_idle_energy t frames boards chips = Ok e /\
    near 4 e (idle_watts V3 frames boards chips * value t) /\
    within (-760) 830 (idle_watts V3 frames boards chips * value t).
Proof.
  intros T WT F B C [-> B1]. unfold v3_idle_energy, idle_watts. cbn [Z.eqb negb]. 
  rewrite (Z.gtb_ltb boards 1), (proj2 (Z.ltb_ge 1 boards)) by lia. unfold small in *.
  destruct (boards =? 0)%Z.
  - rewrite int_mul_ok by lia. cbn [bind]. eexists. split; [reflexivity|].
    apply (term_near 1); auto using near_idle_chip; try lia. wconst.
  - eexists. split; [reflexivity|].
    assert (within (-60 + -700) (60 + 700) (356 / 100 * value t)) as W by (apply within_mul; auto; wconst). split.
    + apply (near_weaken 2); [lia|apply few_50; lia|]. change 2%nat with (S (1 + 0)).
      apply mul_near; auto using near_4chip; [apply few_50; lia|]. apply (within_range _ _ _ W); lia.
    + apply (within_wider _ _ _ _ _ W); lia.
Qed.

Lemma v5_idle_near t frames boards chips :
  near 0 t (value t) -> within (-700) 700 (value t) -> small frames -> small boards -> small chips ->
  exists e, v5_idle_energy t frames boards chips = Ok e /\
    near 5 e (idle_watts V5 frames boards chips * value t) /\
    within (-760) 831 (idle_watts V5 frames boards chips * value t).
Proof.
  intros T WT F B C. unfold small in *. unfold v5_idle_energy, idle_watts.
  set (base := if (boards =? 0)%Z then IZR chips * (35 / 100) else IZR boards * (2684 / 100)).
  assert (exists e, (if (boards =? 0)%Z
     then do w <- int_mul chips WATTS_PER_IDLE_CHIP; Ok (f_mul w t)
     else do w <- int_mul boards WATTS_FOR_48_CHIP_BOARD_IDLE_COST; Ok (f_mul w t)) = Ok e /\
     near 4 e (base * value t) /\ within (-760) 830 (base * value t)) as (e & -> & N & W).
  { unfold base. destruct (boards =? 0)%Z; rewrite int_mul_ok by lia; cbn [bind]; (eexists; split; [reflexivity|]);
    apply (term_near 1); auto using near_idle_chip, near_board; try lia; wconst. }
  cbn [bind]. rewrite (Z.gtb_ltb boards 1).
  assert (forall x, x = 0 -> near 5 e ((base + x) * value t) /\ within (-760) 831 ((base + x) * value t)) as K0.
  { intros x ->. rewrite Rplus_0_r. split; [apply (near_weaken 4); auto; apply few_50; lia|].
    apply (within_wider _ _ _ _ _ W); lia. }
  assert (forall f x, near 4 f (x * value t) -> within (-760) 830 (x * value t) ->
    near 5 (f_add e f) ((base + x) * value t) /\ within (-760) 831 ((base + x) * value t)) as K1.
  { intros f x N' W'. rewrite Rmult_plus_distr_r. pose proof (within_add _ _ _ _ W W') as WW. split; [|exact WW].
    apply add_near; auto; [apply few_50; lia|]. apply (within_range _ _ _ WW); lia. }
  destruct (frames =? 0)%Z eqn:FZ; cbn [negb].
  { apply Z.eqb_eq in FZ. subst frames. eexists. split; [reflexivity|]. apply K0.
    destruct (boards =? 1)%Z; [lra|]. destruct (1 <? boards)%Z; lra. }
  destruct (1 <? boards)%Z eqn:B1.
  - apply Z.ltb_lt in B1. rewrite int_mul_ok by (unfold WATTS_FOR_FRAME_IDLE_COST; lia). cbn [bind].
    eexists. split; [reflexivity|]. rewrite (proj2 (Z.eqb_neq boards 1)) by lia. 
    assert (0 <= frames * 117 <= 2 ^ 70)%Z as FR by lia.
    pose proof (within_mul _ _ _ _ _ _ (within_Z _ FR) WT) as W'. rewrite mult_IZR in W'.
    apply K1.
    + apply (near_weaken 2); [lia|apply few_50; lia|]. change 2%nat with (S (1 + 0)). rewrite <- mult_IZR.
      apply mul_near; auto; [apply of_Z_near; auto|apply few_50; lia|]. rewrite mult_IZR. apply (within_range _ _ _ W'); lia.
    + apply (within_wider _ _ _ _ _ W'); lia.
  - destruct (boards =? 1)%Z.
    + rewrite int_mul_ok by lia. cbn [bind]. eexists. split; [reflexivity|].
      destruct (term_near 1 frames WATTS_FOR_48_CHIP_BOX_COST_OVERHEAD (504 / 100) t) as [X Y];
        auto using near_box; try lia; wconst.
    + eexists. split; [reflexivity|]. apply K0. auto.
Qed.

(** ** Sums *)

Lemma rsum_within a b l n : Forall (within a b) l -> (List.length l <= n)%nat ->
  rsum l = 0 \/ bpow radix2 a <= rsum l <= INR n * bpow radix2 b.
Proof.
  intros F. revert n. pose proof (bpow_gt_0 radix2 a). pose proof (bpow_gt_0 radix2 b).
  induction F as [|x l X F IH]; intros n L; [left; reflexivity|]. cbn [rsum]. cbn [List.length] in L.
  destruct n as [|n]; [lia|]. rewrite S_INR. pose proof (pos_INR n). destruct (IH n) as [->|I]; [lia| |].
  - destruct X as [->|X]; [left; ring|right; nra].
  - destruct X as [->|X]; right; nra.
Qed.

Lemma inr_bpow n b : (Z.of_nat n <= 2 ^ 40)%Z -> INR n * bpow radix2 b <= bpow radix2 (40 + b).
Proof.
  intros H. rewrite bpow_plus, INR_IZR_INZ. apply Rmult_le_compat_r; [apply bpow_ge_0|].
  apply IZR_le. exact H.
Qed.

Lemma sum_within a b l : Forall (within a b) l -> (Z.of_nat (List.length l) <= 2 ^ 40)%Z -> within a (40 + b) (rsum l).
Proof.
  intros F L. destruct (rsum_within a b l _ F (le_n _)) as [H|H]; [left; auto|right].
  pose proof (inr_bpow _ b L). lra.
Qed.

Lemma few_many n : (Z.of_nat n <= 2 ^ 42)%Z -> few n.
Proof.
  intros H. unfold few. rewrite INR_IZR_INZ. apply IZR_le in H. unfold eps. cbn in H. lra.
Qed.

Lemma sum_near_gen a b n l rs acc r : (-1000 <= a)%Z -> (b <= 900)%Z -> (n <= 40)%nat ->
  Forall2 (near n) l rs -> Forall (within a b) rs -> 
  forall k, (n <= k)%nat -> near k acc r -> within a (40 + b) r ->
  (Z.of_nat (k + List.length l) <= 2 ^ 40)%Z ->
  r + rsum rs <= bpow radix2 (40 + b) ->
  near (k + List.length l) (fold_left f_add l acc) (r + rsum rs).
Proof.
  intros A B N F. revert acc r. induction F as [|f x l rs X F IH]; intros acc r W k K NR WR L T.
  - cbn [List.length fold_left rsum]. rewrite Rplus_0_r, Nat.add_0_r. auto.
  - cbn [List.length fold_left rsum] in *. inversion_clear W as [|? ? WX W'].
    replace (r + (x + rsum rs)) with (r + x + rsum rs) by ring.
    replace (k + S (List.length l))%nat with (S k + List.length l)%nat by lia.
    assert (0 <= rsum rs) as P.
    { pose proof (bpow_gt_0 radix2 a). destruct (rsum_within a b rs _ W' (le_n _)) as [->|[]]; lra. }
    assert (within a (40 + b) (r + x)) as W2.
    { pose proof (bpow_gt_0 radix2 a). destruct WR as [->|WR], WX as [->|WX]; [left; ring|right; lra..]. }
    apply IH; auto; try lia; [|cbn [rsum] in T; lra].
    apply add_near; auto.
    + apply (near_weaken n); auto. apply few_many. lia.
    + apply few_many. lia.
    + apply (within_range _ _ _ W2); lia.
Qed.

Lemma f2_length {A B} (P : A -> B -> Prop) l m : Forall2 P l m -> List.length l = List.length m.
Proof. induction 1; cbn; auto. Qed.

Lemma sum_near a b n l rs : (-1000 <= a)%Z -> (b <= 900)%Z -> (n <= 40)%nat ->
  Forall2 (near n) l rs -> Forall (within a b) rs -> (Z.of_nat (List.length l) <= 2 ^ 39)%Z ->
  near (n + List.length l) (f_sum l) (rsum rs) /\ within a (40 + b) (rsum rs).
Proof.
  intros A B N F W L.
  assert (within a (40 + b) (rsum rs)) as WS.
  { apply sum_within; auto. rewrite <- (f2_length _ _ _ F). lia. }
  split; auto. unfold f_sum. replace (rsum rs) with (0 + rsum rs) by ring.
  apply (sum_near_gen a b n); auto; try lia.
  - apply zero_near. lia.
  - left. auto.
  - rewrite Rplus_0_l. destruct WS as [->|WS]; [apply bpow_ge_0|lra].
Qed.

Lemma packet_cost n j : packet_joules n j ->
  exists c, dgetitem String.eqb COST_PER_PACKET_TYPE n = Ok c /\ near 2 c j /\ within (-60) 60 j.
Proof.
  intros H. destruct H as [n H|n H].
  - exists JOULES_PER_PACKET. split; [|split; [apply near_packet|wconst]].
    destruct H as [<-|[<-|[<-|[<-|[<-|[]]]]]]; reflexivity.
  - exists JOULES_PER_PACKET_WITH_PAYLOAD. split; [|split; [apply near_payload|wconst]].
    destruct H as [<-|[<-|[<-|[<-|[]]]]]; reflexivity.
Qed.

Definition cost_item (nv : string * Z) : res spec_float :=
  do cost <- dgetitem String.eqb COST_PER_PACKET_TYPE (fst nv) ; int_mul (snd nv) cost.

Lemma router_items l e : packets_joules l e -> Forall (fun nk => small (snd nk)) l ->
  exists fs rs, map_res cost_item l = Ok fs /\ Forall2 (near 4) fs rs /\
    Forall (within (-60) 130) rs /\ rsum rs = e /\ List.length fs = List.length l.
Proof.
  induction 1 as [|n k j l e J P IH]; intros S.
  - exists [], []. repeat split; auto.
  - inversion_clear S as [|? ? S1 S2]. destruct (IH S2) as (fs & rs & M & F & W & R & LL). cbn [snd] in S1.
    destruct (packet_cost n j J) as (c & G & C & WC). cbn [map_res]. unfold cost_item at 1. cbn [fst snd].
    unfold small in S1. rewrite G. cbn [bind]. rewrite int_mul_ok by lia. cbn [bind]. rewrite M. cbn [bind].
    assert (within (0 + -60) (70 + 60) (IZR k * j)) as WW by (apply within_mul; auto; apply within_Z; lia).
    exists (f_mul (f_of_Z k) c :: fs), (IZR k * j :: rs). split; [reflexivity|]. cbn [rsum List.length].
    split; [|split; [auto|split; [lra|auto]]]. constructor; auto. change 4%nat with (S (1 + 2)).
    apply mul_near; auto; [apply of_Z_near; lia|apply few_50; lia|]. apply (within_range _ _ _ WW); lia.
Qed.

Lemma router_near packets e : packets_joules (counted packets) e ->
  Forall (fun nk => small (snd nk)) (counted packets) ->
  (Z.of_nat (List.length (counted packets)) <= 2 ^ 39)%Z ->
  exists f, router_active_energy packets = Ok f /\
    near (4 + List.length (counted packets)) f e /\ within (-60) 170 e.
Proof.
  intros P S L. destruct (router_items _ e P S) as (fs & rs & M & F & W & R & LL).
  unfold router_active_energy, counted in *. unfold cost_item in M. rewrite M. cbn [bind].
  eexists. split; [reflexivity|]. subst e. rewrite <- LL in *. apply (sum_near (-60) 130); auto; lia.
Qed.

Lemma core_near (times : chip_active_time) : Forall (fun c => time_ok (fst (snd c))) times ->
  (Z.of_nat (List.length times) <= 2 ^ 39)%Z ->
  near (2 + List.length times) (core_active_energy times) (cores_joules times) /\
  within (-760) 800 (cores_joules times).
Proof.
  intros T L. unfold core_active_energy, cores_joules, active_seconds.
  set (rs := map (fun c : XY * (spec_float * Z) => value (fst (snd c)) * (34 / 1000)) times).
  assert (rsum (map (fun c : XY * (spec_float * Z) => value (fst (snd c))) times) * (34 / 1000) = rsum rs) as ->.
  { unfold rs. clear. induction times as [|c l IH]; cbn [map rsum]; [ring|]. rewrite <- IH. ring. }
  rewrite <- (map_length (fun tn : XY * (spec_float * Z) => f_mul (fst (snd tn)) WATTS_PER_CORE_ACTIVE_OVERHEAD) times) in *.
  assert (forall c : XY * (spec_float * Z), time_ok (fst (snd c)) ->
    near 2 (f_mul (fst (snd c)) WATTS_PER_CORE_ACTIVE_OVERHEAD) (value (fst (snd c)) * (34 / 1000)) /\
    within (-760) 760 (value (fst (snd c)) * (34 / 1000))) as K.
  { intros c [U R]. destruct (time_near _ U R) as [N W].
    assert (within (-700 + -60) (700 + 60) (value (fst (snd c)) * (34 / 1000))) as WW by (apply within_mul; auto; wconst).
    split; [|exact WW]. change 2%nat with (S (0 + 1)). apply mul_near; auto using near_core; [apply few_50; lia|].
    apply (within_range _ _ _ WW); lia. }
  apply (sum_near (-760) 760); auto; try lia.
  - unfold rs. clear -T K. induction T; cbn [map]; constructor; auto. apply K; auto.
  - unfold rs. clear -T K. induction T; cbn [map]; constructor; auto. apply K; auto.
Qed.

(** ** The whole *)

Lemma near_error n f r : near n f r -> Rabs (value f - r) <= INR n * / 10 ^ 15 * r.
Proof.
  intros (_ & _ & F & R & L & U). apply range_nonneg in R. unfold few in F.
  pose proof (pow_up n ltac:(lra)) as PU. pose proof (pow_low n) as PL. pose proof (pos_INR n) as PN.
  assert (2 * eps <= / 10 ^ 15) as E by (unfold eps; cbn; lra).
  assert (2 * INR n * eps <= INR n * / 10 ^ 15) by nra.
  assert (0 <= INR n * eps) by (unfold eps; nra).
  apply Rabs_le. split; nra.
Qed.

(** ** Order *)

Lemma nonneg_finite f : usable f -> nonneg f.
Proof. intros (V & F & P). split; auto. Qed.

Lemma ext_fin f : usable f -> ext f = Some (value f).
Proof. intros (_ & F & _). apply ext_value. auto. Qed.

Lemma near_usable n f r : near n f r -> usable f.
Proof. intros ([V H] & F & _). split; auto. split; auto. destruct H as [->|[_ H]]; [discriminate|auto]. Qed.

Lemma le_usable a b : usable a -> usable b -> (f_le a b <-> value a <= value b).
Proof.
  intros A B. unfold f_le. rewrite le_ext by (apply nonneg_finite; auto). rewrite !ext_fin by auto. reflexivity.
Qed.

Lemma mul_mono a a' b b' : usable a -> usable a' -> usable b -> usable b' ->
  value a <= value a' -> value b <= value b' ->
  nonneg (f_mul a b) /\ nonneg (f_mul a' b') /\ ext_le (ext (f_mul a b)) (ext (f_mul a' b')).
Proof.
  intros A A' B B' L L'.
  destruct (mul_nonneg a b) as [N E]; try apply nonneg_finite; auto; try apply A; try apply B.
  destruct (mul_nonneg a' b') as [N' E']; try apply nonneg_finite; auto; try apply A'; try apply B'.
  split; auto. split; auto. rewrite E, E'. apply rounded_le. destruct A as (_ & _ & A), B as (_ & _ & B).
  apply Rmult_le_compat; auto.
Qed.

Lemma add_mono a a' b b' : nonneg a -> nonneg a' -> nonneg b -> nonneg b' ->
  ext_le (ext a) (ext a') -> ext_le (ext b) (ext b') ->
  nonneg (f_add a b) /\ nonneg (f_add a' b') /\ ext_le (ext (f_add a b)) (ext (f_add a' b')).
Proof.
  intros A A' B B' L L'. destruct (add_nonneg a b A B) as [N E]. destruct (add_nonneg a' b' A' B') as [N' E'].
  split; auto. split; auto. rewrite E, E'.
  destruct (ext a) as [x|], (ext a') as [x'|]; cbn in L; try tauto;
  destruct (ext b) as [y|], (ext b') as [y'|]; cbn in L'; try tauto; cbn; auto.
  apply rounded_le. lra.
Qed.

Lemma add_up a b : nonneg a -> nonneg b -> ext_le (ext a) (ext (f_add a b)).
Proof.
  intros A B. destruct (add_nonneg a b A B) as [N E]. rewrite E.
  destruct A as [V [->|[F P]]]; [exact I|]. rewrite (ext_value a) by auto.
  destruct (ext b) as [y|] eqn:Y; [|exact I].
  assert (0 <= y).
  { destruct B as [_ [->|[F' P']]]; [discriminate|]. rewrite (ext_value b) in Y by auto. congruence. }
  assert (rounded (value a) = Some (value a)) as R.
  { unfold rounded. rewrite value_format by auto. rewrite Rlt_bool_true; auto.
    pose proof (value_bounded a V F) as Q. rewrite Rabs_pos_eq in Q; auto. }
  rewrite <- R. apply rounded_le. lra.
Qed.

Lemma add_up_r a b : nonneg a -> nonneg b -> ext_le (ext b) (ext (f_add a b)).
Proof.
  intros A B. destruct (add_nonneg a b A B) as [N E]. rewrite E.
  destruct B as [V [->|[F P]]]; [destruct (ext a); exact I|]. rewrite (ext_value b) by auto.
  destruct (ext a) as [y|] eqn:Y; [|exact I].
  assert (0 <= y).
  { destruct A as [_ [->|[F' P']]]; [discriminate|]. rewrite (ext_value a) in Y by auto. congruence. }
  assert (rounded (value b) = Some (value b)) as R.
  { unfold rounded. rewrite value_format by auto. rewrite Rlt_bool_true; auto.
    pose proof (value_bounded b V F) as Q. rewrite Rabs_pos_eq in Q; auto. }
  rewrite <- R. apply rounded_le. lra.
Qed.

Lemma of_Z_mono n n' : (0 <= n <= n')%Z -> (n' <= 2 ^ 70)%Z ->
  usable (f_of_Z n) /\ usable (f_of_Z n') /\ value (f_of_Z n) <= value (f_of_Z n').
Proof.
  intros N N'. destruct (of_Z_near n) as [A FA]; [lia|]. destruct (of_Z_near n') as [B FB]; [lia|].
  split; [apply (near_usable _ _ _ A)|]. split; [apply (near_usable _ _ _ B)|].
  destruct (of_Z_spec n) as [_ E]; [lia|]. destruct (of_Z_spec n') as [_ E']; [lia|].
  rewrite (ext_value _ FA) in E. rewrite (ext_value _ FB) in E'.
  assert (ext_le (Some (value (f_of_Z n))) (Some (value (f_of_Z n')))) as X; [|exact X].
  rewrite E, E'. apply rounded_le. apply IZR_le. lia.
Qed.

Lemma watts_mono k c w n n' : (k <= 40)%nat -> near k c w -> within (-60) 60 w -> (0 <= n <= n')%Z -> (n' <= 2 ^ 70)%Z ->
  usable (f_mul (f_of_Z n) c) /\ usable (f_mul (f_of_Z n') c) /\
  value (f_mul (f_of_Z n) c) <= value (f_mul (f_of_Z n') c).
Proof.
  intros K C W N N'. destruct (of_Z_mono n n' N N') as (A & B & L).
  destruct (mul_mono _ _ c c A B) as (N1 & N2 & X); auto using (near_usable _ _ _ C); try lra.
  assert (forall m, (0 <= m <= 2 ^ 70)%Z -> usable (f_mul (f_of_Z m) c)) as U.
  { intros m M. destruct (of_Z_near m M) as [Q _].
    apply (near_usable (S (1 + k)) _ (IZR m * w)). apply mul_near; auto; [apply few_50; lia|].
    apply (within_range _ _ _ (within_mul _ _ _ _ _ _ (within_Z m M) W)); lia. }
  split; [apply U; lia|]. split; [apply U; lia|]. rewrite !ext_fin in X by (apply U; lia). exact X.
Qed.

Lemma term_mono k c w n n' t t' : (k <= 40)%nat -> near k c w -> within (-60) 60 w ->
  (0 <= n <= n')%Z -> (n' <= 2 ^ 70)%Z -> usable t -> usable t' -> value t <= value t' ->
  nonneg (f_mul (f_mul (f_of_Z n) c) t) /\ nonneg (f_mul (f_mul (f_of_Z n') c) t') /\
  ext_le (ext (f_mul (f_mul (f_of_Z n) c) t)) (ext (f_mul (f_mul (f_of_Z n') c) t')).
Proof.
  intros K C W N N' T T' L. destruct (watts_mono k c w n n' K C W N N') as (A & B & X).
  apply mul_mono; auto.
Qed.

(** [e] is nonnegative and not more than [e']. *)
Definition below (e e' : spec_float) : Prop := nonneg e /\ nonneg e' /\ ext_le (ext e) (ext e').

Lemma below_le e e' : below e e' -> f_le e e'.
Proof. intros (A & B & L). apply le_ext; auto. Qed.

Definition v5_base (t : spec_float) (boards chips : Z) : spec_float :=
  if (boards =? 0)%Z then f_mul (f_mul (f_of_Z chips) WATTS_PER_IDLE_CHIP) t
  else f_mul (f_mul (f_of_Z boards) WATTS_FOR_48_CHIP_BOARD_IDLE_COST) t.
Definition v5_extra (t : spec_float) (frames boards : Z) : option spec_float :=
  if (frames =? 0)%Z then None
  else if (1 <? boards)%Z then Some (f_mul (f_of_Z (frames * 117)) t)
  else if (boards =? 1)%Z then Some (f_mul (f_mul (f_of_Z frames) WATTS_FOR_48_CHIP_BOX_COST_OVERHEAD) t)
  else None.

Lemma v5_idle_split t frames boards chips : small frames -> small boards -> small chips ->
  v5_idle_energy t frames boards chips =
  Ok (match v5_extra t frames boards with
      | None => v5_base t boards chips
      | Some f => f_add (v5_base t boards chips) f
      end).
Proof.
  unfold small. intros F B C. unfold v5_idle_energy, v5_extra, v5_base. rewrite Z.gtb_ltb.
  destruct (boards =? 0)%Z; rewrite int_mul_ok by lia; cbn [bind];
  (destruct (frames =? 0)%Z; cbn [negb]; auto; destruct (1 <? boards)%Z;
   [rewrite int_mul_ok by (unfold WATTS_FOR_FRAME_IDLE_COST; lia); cbn [bind]; auto|];
   destruct (boards =? 1)%Z; auto; rewrite int_mul_ok by lia; cbn [bind]; auto).
Qed.

Lemma oki {A} (x y : A) : Ok x = Ok y -> x = y.
Proof. congruence. Qed.

Section Order.
  Variables (t t' : spec_float).
  Hypotheses (T : usable t) (T' : usable t') (L : value t <= value t').

  Lemma v5_base_mono boards boards' chips chips' :
    (0 <= boards <= boards')%Z -> (boards' <= 2 ^ 60)%Z -> (0 <= chips <= chips')%Z -> (chips' <= 2 ^ 60)%Z ->
    (boards = 0 <-> boards' = 0)%Z ->
    below (v5_base t boards chips) (v5_base t' boards' chips').
  Proof using T T' L.
    intros B B' C C' Z. unfold v5_base, below. destruct (boards =? 0)%Z eqn:E.
    - apply Z.eqb_eq in E. rewrite (proj2 (Z.eqb_eq boards' 0)) by tauto.
      apply (term_mono 1 _ (35 / 100)); auto using near_idle_chip; try lia. wconst.
    - apply Z.eqb_neq in E. rewrite (proj2 (Z.eqb_neq boards' 0)) by tauto.
      apply (term_mono 1 _ (2684 / 100)); auto using near_board; try lia. wconst.
  Qed.

  Lemma box_frame frames frames' : (1 <= frames <= frames')%Z -> (frames' <= 2 ^ 60)%Z ->
    below (f_mul (f_mul (f_of_Z frames) WATTS_FOR_48_CHIP_BOX_COST_OVERHEAD) t)
          (f_mul (f_of_Z (frames' * 117)) t').
  Proof using T T' L.
    intros F F'.
    destruct (watts_mono 1 _ (504 / 100) frames frames ltac:(lia) near_box) as (A & _ & _); try lia; [wconst|].
    destruct (of_Z_near (frames' * 117)) as [B _]; [lia|]. pose proof (near_usable _ _ _ B) as BU.
    apply mul_mono; auto.
    destruct (of_Z_near frames) as [N _]; [lia|].
    pose proof (mul_near 1 1 _ _ _ _ N near_box) as M.
    destruct M as (_ & _ & _ & _ & _ & M).
    { apply few_50. lia. }
    { apply (within_range 0 (70 + 60)); [|lia|lia]. replace 0%Z with (0 + 0)%Z by lia. apply within_mul; [apply within_Z; lia|].
      right. cbn. lra. }
    destruct B as (_ & _ & _ & _ & B & _). rewrite mult_IZR in B.
    assert (IZR frames <= IZR frames') as Q by (apply IZR_le; lia).
    assert (1 <= IZR frames) as Q1 by (apply IZR_le; lia).
    apply Rle_trans with (1 := M). apply Rle_trans with (2 := B). unfold eps. cbn. nra.
  Qed.

  Lemma v5_idle_mono frames frames' boards boards' chips chips' :
    (0 <= frames <= frames')%Z -> (frames' <= 2 ^ 60)%Z ->
    (0 <= boards <= boards')%Z -> (boards' <= 2 ^ 60)%Z -> (0 <= chips <= chips')%Z -> (chips' <= 2 ^ 60)%Z ->
    (boards = 0 <-> boards' = 0)%Z ->
    exists e e', v5_idle_energy t frames boards chips = Ok e /\ v5_idle_energy t' frames' boards' chips' = Ok e' /\
      below e e'.
  Proof using T T' L.
    intros F F' B B' C C' Z. rewrite !v5_idle_split by (unfold small; lia). do 2 eexists.
    split; [reflexivity|]. split; [reflexivity|].
    pose proof (v5_base_mono boards boards' chips chips' B B' C C' Z) as BB.
    assert (match v5_extra t frames boards, v5_extra t' frames' boards' with
            | Some f, Some f' => below f f'
            | Some f, None => False
            | None, Some f' => nonneg f'
            | None, None => True
            end) as E.
    { unfold v5_extra.
      destruct (frames =? 0)%Z eqn:F0; [apply Z.eqb_eq in F0|apply Z.eqb_neq in F0].
      - destruct (frames' =? 0)%Z; auto. destruct (1 <? boards')%Z.
        + destruct (of_Z_near (frames' * 117)) as [N _]; [lia|]. apply near_usable in N.
          apply (mul_mono _ _ t' t' N N); auto; lra.
        + destruct (boards' =? 1)%Z; auto.
          apply (term_mono 1 _ (504 / 100) frames' frames' t' t'); auto using near_box; try lia; [wconst|lra].
      - rewrite (proj2 (Z.eqb_neq frames' 0)) by lia.
        destruct (1 <? boards)%Z eqn:B1; [apply Z.ltb_lt in B1|apply Z.ltb_ge in B1].
        + rewrite (proj2 (Z.ltb_lt 1 boards')) by lia.
          destruct (of_Z_mono (frames * 117) (frames' * 117)) as (U1 & U2 & UL); [lia|lia|].
          apply mul_mono; auto.
        + destruct (boards =? 1)%Z eqn:B2; [apply Z.eqb_eq in B2|apply Z.eqb_neq in B2].
          * destruct (1 <? boards')%Z eqn:B3; [apply box_frame; lia|apply Z.ltb_ge in B3].
            rewrite (proj2 (Z.eqb_eq boards' 1)) by lia.
            apply (term_mono 1 _ (504 / 100)); auto using near_box; try lia. wconst.
          * assert (boards' = 0)%Z as -> by (apply Z; lia). cbn. auto. }
    destruct BB as (N1 & N2 & BL).
    destruct (v5_extra t frames boards) as [f|], (v5_extra t' frames' boards') as [f'|]; try tauto.
    - destruct E as (M1 & M2 & M3). apply add_mono; auto.
    - split; auto. split; [apply add_nonneg; auto|]. apply (ext_le_trans _ _ _ BL). apply add_up; auto.
    - split; auto.
  Qed.

  Lemma v3_idle_mono frames frames' boards boards' chips chips' e e' :
    (0 <= boards <= boards')%Z -> (0 <= chips <= chips')%Z -> (chips' <= 2 ^ 60)%Z ->
    (boards = 0 <-> boards' = 0)%Z ->
    v3_idle_energy t frames boards chips = Ok e -> v3_idle_energy t' frames' boards' chips' = Ok e' ->
    below e e'.
  Proof using T T' L.
    intros B C C' Z. unfold v3_idle_energy. rewrite !int_mul_ok by lia. cbn [bind].
    destruct (negb (frames =? 0)%Z); [discriminate|]. destruct (negb (frames' =? 0)%Z); [discriminate|].
    destruct (boards >? 1)%Z; [discriminate|]. destruct (boards' >? 1)%Z; [discriminate|].
    destruct (boards =? 0)%Z eqn:E; [apply Z.eqb_eq in E|apply Z.eqb_neq in E].
    - rewrite (proj2 (Z.eqb_eq boards' 0)) by tauto. intros X X'. apply oki in X. apply oki in X'. subst e e'.
      apply (term_mono 1 _ (35 / 100)); auto using near_idle_chip; try lia. wconst.
    - rewrite (proj2 (Z.eqb_neq boards' 0)) by tauto. intros X X'. apply oki in X. apply oki in X'. subst e e'.
      pose proof (near_usable _ _ _ near_4chip). apply mul_mono; auto. lra.
  Qed.
End Order.

(** Sums *)
Lemma sum_mono_gen l l' : Forall2 below l l' -> forall a a', below a a' ->
  below (fold_left f_add l a) (fold_left f_add l' a').
Proof.
  induction 1 as [|x x' l l' X F IH]; intros a a' A; auto. cbn [fold_left]. apply IH.
  destruct A as (A1 & A2 & A3), X as (X1 & X2 & X3). apply add_mono; auto.
Qed.
Lemma zero_below : below (S754_zero false) (S754_zero false).
Proof.
  assert (nonneg (S754_zero false)) as N by (split; [reflexivity|right; split; [reflexivity|unfold value; cbn; lra]]).
  split; auto. split; auto. apply ext_le_refl.
Qed.
Lemma sum_mono l l' : Forall2 below l l' -> below (f_sum l) (f_sum l').
Proof. intros F. apply sum_mono_gen; auto. apply zero_below. Qed.
