(** IEEE doubles as real numbers: the operations of [SpecFloat] are the exact
    operations followed by one rounding (Flocq). *)
From Coq Require Import Reals Lra Lia ZArith.
From Verif Require Import Model_Py Model_Float Model_Version Model_Energy Spec_Energy.
From Flocq Require Import Core.Core Relative IEEE754.BinarySingleNaN.
Open Scope R_scope.

#[local] Instance Hprec : FLX.Prec_gt_0 prec := eq_refl _.
#[local] Instance Hmax : Prec_lt_emax prec emax := eq_refl _.

Definition bfloat := binary_float prec emax.
Notation rnd := (round radix2 (SpecFloat.fexp prec emax) ZnearestE).

Lemma round_nearest_even_equiv s m l : round_nearest_even m l = choice_mode mode_NE s m l.
Proof.
  case l; [reflexivity|intro c]. case c; [ | reflexivity..].
  now simpl; unfold Round.cond_incr; case Z.even.
Qed.
Lemma round_aux_equiv sx mx ex lx :
  SpecFloat.binary_round_aux prec emax sx mx ex lx = binary_round_aux prec emax mode_NE sx mx ex lx.
Proof.
  unfold SpecFloat.binary_round_aux, binary_round_aux. set (mrse' := shr_fexp _ _ _).
  case mrse'; intros mrs' e'; simpl. now rewrite (round_nearest_even_equiv sx).
Qed.
Lemma binary_round_equiv s m e :
  SpecFloat.binary_round prec emax s m e = binary_round prec emax mode_NE s m e.
Proof.
  unfold SpecFloat.binary_round, binary_round, shl_align_fexp.
  set (mez := shl_align _ _ _); case mez as [mz ez]. apply round_aux_equiv.
Qed.
Lemma normalize_equiv m e szero :
  SpecFloat.binary_normalize prec emax m e szero
  = B2SF (binary_normalize prec emax Hprec Hmax mode_NE m e szero).
Proof.
  case m as [ | p | p].
  - now simpl.
  - simpl; rewrite B2SF_SF2B; apply binary_round_equiv.
  - simpl; rewrite B2SF_SF2B; apply binary_round_equiv.
Qed.
Lemma mul_equiv (x y : bfloat) : f_mul (B2SF x) (B2SF y) = B2SF (Bmult mode_NE x y).
Proof.
  unfold f_mul. case x as [sx|sx| |sx mx ex Bx]; case y as [sy|sy| |sy my ey By]; [now trivial.. | ].
  simpl. rewrite B2SF_SF2B. apply round_aux_equiv.
Qed.
Lemma add_equiv (x y : bfloat) : f_add (B2SF x) (B2SF y) = B2SF (Bplus mode_NE x y).
Proof.
  unfold f_add. case x as [sx|sx| |sx mx ex Bx]; case y as [sy|sy| |sy my ey By];
    [now (trivial || simpl; case Bool.eqb).. | ].
  apply normalize_equiv.
Qed.

(** Nonnegative floats, with or without infinity. *)
Definition nonneg (f : spec_float) : Prop :=
  is_float f /\ (f = S754_infinity false \/ f_finite f = true /\ 0 <= value f).

(** The extended value of a nonnegative float: [None] is infinity. *)
Definition ext (f : spec_float) : option R :=
  match f with S754_infinity _ => None | _ => Some (value f) end.
Definition ext_le (a b : option R) : Prop :=
  match b with None => True | Some y => match a with Some x => x <= y | None => False end end.
Definition rounded (x : R) : option R :=
  if Rlt_bool (rnd x) (bpow radix2 emax) then Some (rnd x) else None.

Lemma rnd_nonneg x : 0 <= x -> 0 <= rnd x.
Proof. intros H. rewrite <- (round_0 radix2 (SpecFloat.fexp prec emax) ZnearestE). apply round_le; auto with typeclass_instances. apply fexp_correct; auto with typeclass_instances. Qed.

Lemma rounded_le x y : x <= y -> ext_le (rounded x) (rounded y).
Proof.
  intros H. unfold rounded. assert (rnd x <= rnd y) as L.
  { apply round_le; auto with typeclass_instances. apply fexp_correct; auto with typeclass_instances. }
  destruct (Rlt_bool_spec (rnd y) (bpow radix2 emax)) as [Y|Y]; [|exact I].
  rewrite Rlt_bool_true by lra. exact L.
Qed.
Lemma ext_le_trans a b c : ext_le a b -> ext_le b c -> ext_le a c.
Proof. destruct a, b, c; cbn; try tauto. lra. Qed.
Lemma ext_le_refl a : ext_le a a.
Proof. destruct a; cbn; auto. lra. Qed.

Lemma to_b f : is_float f -> exists b : bfloat, f = B2SF b.
Proof. intros V. exists (SF2B f V). symmetry. apply B2SF_SF2B. Qed.

Lemma b_fin (b : bfloat) : f_finite (B2SF b) = is_finite b.
Proof. destruct b; reflexivity. Qed.
Lemma b_val (b : bfloat) : value (B2SF b) = B2R b.
Proof. apply SF2R_B2SF. Qed.
Lemma b_ext (b : bfloat) : is_finite b = true -> ext (B2SF b) = Some (B2R b).
Proof. destruct b; try discriminate; reflexivity. Qed.

Lemma sign_nonneg (b : bfloat) : 0 < B2R b -> Bsign b = false.
Proof.
  destruct b as [s|s| |s m e H]; cbn; try lra. intros L. destruct s; auto. exfalso.
  apply (Rlt_irrefl 0). apply Rlt_trans with (1 := L). apply F2R_lt_0. reflexivity.
Qed.

Lemma value_bounded f : is_float f -> f_finite f = true -> Rabs (value f) < bpow radix2 emax.
Proof. intros V F. apply to_b in V as [b ->]. rewrite b_val. apply abs_B2R_lt_emax. Qed.
Lemma value_format f : is_float f -> f_finite f = true -> rnd (value f) = value f.
Proof.
  intros V F. apply to_b in V as [b ->]. rewrite b_val. apply round_generic; auto with typeclass_instances.
  apply generic_format_B2R.
Qed.

Lemma mul_nonneg a b : nonneg a -> nonneg b -> f_finite a = true -> f_finite b = true ->
  nonneg (f_mul a b) /\ ext (f_mul a b) = rounded (value a * value b).
Proof.
  intros [Va Ha] [Vb Hb] Fa Fb.
  destruct Ha as [->|[_ Ha]]; [discriminate|]. destruct Hb as [->|[_ Hb]]; [discriminate|].
  apply to_b in Va as [x ->]. apply to_b in Vb as [y ->]. rewrite b_fin in Fa, Fb. rewrite b_val in *. rewrite b_val in *.
  rewrite mul_equiv. unfold rounded, nonneg, is_float. rewrite valid_binary_B2SF.
  assert (0 <= B2R x * B2R y) as P by (apply Rmult_le_pos; auto).
  pose proof (rnd_nonneg _ P) as R.
  pose proof (Bmult_correct prec emax Hprec Hmax mode_NE x y) as C. cbn [round_mode] in C.
  rewrite Rabs_pos_eq in C by auto.
  destruct (Rlt_bool_spec (rnd (B2R x * B2R y)) (bpow radix2 emax)) as [L|L].
  - destruct C as (E & F & _). rewrite Fa, Fb in F. cbn in F. rewrite b_ext by auto. rewrite b_fin, b_val, E.
    split; auto. 
  - assert (0 < B2R x * B2R y) as Q.
    { destruct P as [P|P]; auto. exfalso. rewrite <- P in L. rewrite round_0 in L by auto with typeclass_instances.
      pose proof (bpow_gt_0 radix2 emax). lra. }
    assert (B2R x <> 0) as X by (intros X; rewrite X in Q; lra).
    assert (B2R y <> 0) as Y by (intros Y; rewrite Y in Q; lra).
    rewrite (sign_nonneg x), (sign_nonneg y) in C by lra. rewrite C. cbn. auto.
Qed.

Lemma add_nonneg a b : nonneg a -> nonneg b ->
  nonneg (f_add a b) /\
  ext (f_add a b) = match ext a, ext b with
                    | Some x, Some y => rounded (x + y)
                    | _, _ => None
                    end.
Proof.
  intros [Va Ha] [Vb Hb].
  destruct Ha as [->|[Fa Ha]].
  { destruct Hb as [->|[Fb Hb]]; [|destruct b; try discriminate]; cbn; split; auto; split; auto; reflexivity. }
  destruct Hb as [->|[Fb Hb]].
  { destruct a; try discriminate; cbn; split; auto; split; auto; reflexivity. }
  apply to_b in Va as [x ->]. apply to_b in Vb as [y ->]. rewrite b_fin in Fa, Fb. rewrite b_val in Ha, Hb.
  rewrite add_equiv, (b_ext x), (b_ext y) by auto. unfold rounded, nonneg, is_float. rewrite valid_binary_B2SF.
  assert (0 <= B2R x + B2R y) as P by lra.
  pose proof (rnd_nonneg _ P) as R.
  pose proof (Bplus_correct prec emax Hprec Hmax mode_NE x y Fa Fb) as C. cbn [round_mode] in C.
  rewrite Rabs_pos_eq in C by auto.
  destruct (Rlt_bool_spec (rnd (B2R x + B2R y)) (bpow radix2 emax)) as [L|L].
  - destruct C as (E & F & _). rewrite b_ext by auto. rewrite b_fin, b_val, E. split; auto.
  - assert (0 < B2R x + B2R y) as Q.
    { destruct P as [P|P]; auto. exfalso. rewrite <- P in L. rewrite round_0 in L by auto with typeclass_instances.
      pose proof (bpow_gt_0 radix2 emax). lra. }
    destruct C as [C S].
    assert (Bsign x = false) as X.
    { destruct (Rlt_or_le 0 (B2R x)); [apply sign_nonneg; auto|]. rewrite S. apply sign_nonneg. lra. }
    rewrite X in C. rewrite C. cbn. auto.
Qed.

Lemma of_Z_spec n : (0 <= n)%Z ->
  nonneg (f_of_Z n) /\ ext (f_of_Z n) = rounded (IZR n).
Proof.
  intros N. unfold f_of_Z. rewrite normalize_equiv. unfold nonneg, is_float. rewrite valid_binary_B2SF.
  pose proof (binary_normalize_correct prec emax Hprec Hmax mode_NE n 0 false) as C. cbv zeta in C. cbn [round_mode] in C.
  assert (F2R (Float radix2 n 0) = IZR n) as E by (unfold F2R; cbn; lra). rewrite E in C.
  assert (0 <= IZR n) as P by (apply IZR_le; auto). pose proof (rnd_nonneg _ P) as R.
  rewrite Rabs_pos_eq in C by auto. unfold rounded.
  destruct (Rlt_bool_spec (rnd (IZR n)) (bpow radix2 emax)) as [L|L].
  - destruct C as (C & F & _). rewrite b_ext by auto. rewrite b_fin, b_val, C. auto.
  - rewrite Rlt_bool_false in C by auto. rewrite C. cbn. auto.
Qed.

(** Python's [<=] on nonnegative floats. *)
Lemma le_ext a b : nonneg a -> nonneg b -> (SFleb a b = true <-> ext_le (ext a) (ext b)).
Proof.
  intros [Va Ha] [Vb Hb].
  destruct Ha as [->|[Fa Ha]], Hb as [->|[Fb Hb]].
  - cbn. split; auto.
  - destruct b; try discriminate; cbn; split; try discriminate; try tauto; destruct s; discriminate.
  - destruct a as [[]| | |[]]; try discriminate; cbn; split; auto.
  - apply to_b in Va as [x ->]. apply to_b in Vb as [y ->]. rewrite b_fin in Fa, Fb. rewrite !b_ext by auto. cbn.
    change (SFleb (B2SF x) (B2SF y)) with (Bleb x y). rewrite Bleb_correct by auto.
    destruct (Rle_bool_spec (B2R x) (B2R y)); split; auto; try discriminate. lra.
Qed.

(** ** Accuracy *)

Notation u := (/ 9007199254740992) (only parsing).   (* 2 ^ -53 *)
Definition eps : R := / 9007199254740992.
Lemma eps_bpow : eps = bpow radix2 (-53). Proof. reflexivity. Qed.

Lemma pow_up n : INR n * eps <= / 2 -> (1 + eps) ^ n <= 1 + 2 * INR n * eps.
Proof.
  induction n as [|n IH]; intros H; [cbn; lra|]. rewrite S_INR in *.
  assert (0 < eps) as P by (unfold eps; lra). assert (0 <= INR n) as N by apply pos_INR.
  assert (INR n * eps <= / 2) as H' by nra. specialize (IH H'). cbn [pow].
  assert (2 * INR n * eps * eps <= eps) by nra. nra.
Qed.
Lemma pow_low n : 1 - INR n * eps <= (1 - eps) ^ n.
Proof.
  induction n as [|n IH]; [cbn; lra|]. rewrite S_INR in *.
  assert (0 < eps < 1) as P by (unfold eps; lra). assert (0 <= INR n) as N by apply pos_INR.
  cbn [pow]. nra.
Qed.
Lemma pow_up1 n : 1 <= (1 + eps) ^ n.
Proof. apply pow_R1_Rle. unfold eps. lra. Qed.
Lemma pow_low_pos n : 0 < (1 - eps) ^ n.
Proof. apply pow_lt. unfold eps. lra. Qed.
Lemma pow_low1 n : (1 - eps) ^ n <= 1.
Proof. induction n as [|n IH]; cbn [pow]; [lra|]. pose proof (pow_low_pos n). unfold eps in *. nra. Qed.

Lemma rnd_error x : 0 <= x -> x = 0 \/ bpow radix2 (-1022) <= x ->
  x * (1 - eps) <= rnd x <= x * (1 + eps).
Proof.
  intros P [->|H]; [rewrite round_0 by auto with typeclass_instances; lra|].
  pose proof (relative_error_N_FLT radix2 (3 - emax - prec) prec eq_refl (fun z => negb (Z.even z)) x) as E.
  rewrite (Rabs_pos_eq x) in E by auto. specialize (E H).
  change (bpow radix2 (- prec + 1)) with (/ 4503599627370496) in E.
  assert (Rabs (rnd x - x) <= / 2 * / 4503599627370496 * x) as E' by exact E.
  apply Rabs_le_inv in E'. unfold eps. lra.
Qed.

(** [f] is [r] up to [n] roundings; far from underflow and overflow. *)
Definition in_range (r : R) : Prop := r = 0 \/ bpow radix2 (-1000) <= r <= bpow radix2 1000.
Definition few (n : nat) : Prop := INR n * eps <= / 8.
Definition near (n : nat) (f : spec_float) (r : R) : Prop :=
  nonneg f /\ f_finite f = true /\ few n /\ in_range r /\
  r * (1 - eps) ^ n <= value f <= r * (1 + eps) ^ n.

Lemma few_le n m : (n <= m)%nat -> few m -> few n.
Proof. unfold few. intros L H. apply le_INR in L. unfold eps in *. lra. Qed.
Lemma few_up n : few n -> (1 + eps) ^ n <= 2.
Proof. unfold few. intros H. pose proof (pow_up n). lra. Qed.
Lemma few_low n : few n -> / 2 <= (1 - eps) ^ n.
Proof. unfold few. intros H. pose proof (pow_low n). lra. Qed.

Lemma range_nonneg r : in_range r -> 0 <= r.
Proof. intros [->|[H _]]; [lra|]. pose proof (bpow_gt_0 radix2 (-1000)). lra. Qed.

Lemma near_weaken n m f r : (n <= m)%nat -> few m -> near n f r -> near m f r.
Proof.
  intros L F (A & B & C & D & E1 & E2). split; [|split; [|split; [|split]]]; auto.
  pose proof (range_nonneg r D).
  assert ((1 - eps) ^ m <= (1 - eps) ^ n).
  { replace m with (n + (m - n))%nat by lia. rewrite pow_add. pose proof (pow_low_pos n). pose proof (pow_low1 (m - n)). nra. }
  assert ((1 + eps) ^ n <= (1 + eps) ^ m) by (apply Rle_pow; [unfold eps; lra|auto]).
  split; nra.
Qed.

Lemma bp_1001 : bpow radix2 1001 = 2 * bpow radix2 1000. Proof. apply (bpow_plus_1 radix2 1000). Qed.
Lemma bp_m1001 : bpow radix2 (-1000) = 2 * bpow radix2 (-1001). Proof. apply (bpow_plus_1 radix2 (-1001)). Qed.

(** One more rounding. *)
Lemma rounded_near n x r : few n -> in_range r ->
  r * (1 - eps) ^ n <= x <= r * (1 + eps) ^ n ->
  rounded x = Some (rnd x) /\ r * (1 - eps) ^ (S n) <= rnd x <= r * (1 + eps) ^ (S n).
Proof.
  intros F R [L U]. pose proof (range_nonneg r R) as P. pose proof (few_up n F) as FU. pose proof (few_low n F) as FL.
  assert (0 <= x) as X by nra.
  assert (x = 0 \/ bpow radix2 (-1022) <= x) as Y.
  { destruct R as [->|[R _]]; [left; nra|right].
    assert (bpow radix2 (-1022) <= bpow radix2 (-1001)) by (apply bpow_le; lia).
    pose proof bp_m1001. nra. }
  assert (x <= bpow radix2 1001) as Z.
  { rewrite bp_1001. pose proof (bpow_gt_0 radix2 1000). destruct R as [->|[_ R]]; nra. }
  destruct (rnd_error x X Y) as [A B]. split.
  - unfold rounded. rewrite Rlt_bool_true; auto. apply Rle_lt_trans with (bpow radix2 1001).
    + rewrite <- (round_generic radix2 (SpecFloat.fexp prec emax) ZnearestE (bpow radix2 1001)).
      * apply round_le; auto with typeclass_instances. apply fexp_correct; auto with typeclass_instances.
      * apply generic_format_bpow. cbn. lia.
    + apply bpow_lt. reflexivity.
  - pose proof (pow_low_pos n). assert (0 < eps < 1) by (unfold eps; lra). cbn [pow]. split; nra.
Qed.

Lemma ext_value f : f_finite f = true -> ext f = Some (value f).
Proof. destruct f; try discriminate; reflexivity. Qed.
Lemma finite_ext f x : ext f = Some x -> nonneg f -> f_finite f = true /\ value f = x.
Proof.
  intros E [_ [->|[F _]]]; [discriminate|]. rewrite ext_value in E by auto. split; congruence.
Qed.

Lemma mul_near n m f g r s : near n f r -> near m g s -> few (S (n + m)) -> in_range (r * s) ->
  near (S (n + m)) (f_mul f g) (r * s).
Proof.
  intros (A & B & C & D & E1 & E2) (A' & B' & C' & D' & E1' & E2') F R.
  destruct (mul_nonneg f g A A' B B') as [N X].
  pose proof (range_nonneg r D) as P. pose proof (range_nonneg s D') as P'.
  pose proof (pow_low_pos n). pose proof (pow_low_pos m). pose proof (pow_up1 n). pose proof (pow_up1 m).
  assert (0 <= r * (1 - eps) ^ n) by (apply Rmult_le_pos; lra).
  assert (0 <= s * (1 - eps) ^ m) by (apply Rmult_le_pos; lra).
  destruct (rounded_near (n + m) (value f * value g) (r * s)) as [Y Z]; auto.
  { apply (few_le _ (S (n + m))); auto. }
  { rewrite !pow_add. split.
    - replace (r * s * ((1 - eps) ^ n * (1 - eps) ^ m)) with ((r * (1 - eps) ^ n) * (s * (1 - eps) ^ m)) by ring.
      apply Rmult_le_compat; auto.
    - replace (r * s * ((1 + eps) ^ n * (1 + eps) ^ m)) with ((r * (1 + eps) ^ n) * (s * (1 + eps) ^ m)) by ring.
      apply Rmult_le_compat; auto; lra. }
  rewrite Y in X. apply finite_ext in X as [X1 X2]; auto. unfold near. rewrite X2. auto.
Qed.

Lemma add_near n f g r s : near n f r -> near n g s -> few (S n) -> in_range (r + s) ->
  near (S n) (f_add f g) (r + s).
Proof.
  intros (A & B & C & D & E1 & E2) (A' & B' & C' & D' & E1' & E2') F R.
  destruct (add_nonneg f g A A') as [N X]. rewrite (ext_value f), (ext_value g) in X by auto.
  destruct (rounded_near n (value f + value g) (r + s)) as [Y Z]; auto; [split; lra|].
  rewrite Y in X. apply finite_ext in X as [X1 X2]; auto. unfold near. rewrite X2. auto.
Qed.

Lemma of_Z_near n : (0 <= n <= 2 ^ 70)%Z -> near 1 (f_of_Z n) (IZR n) /\ f_finite (f_of_Z n) = true.
Proof.
  intros [N M]. destruct (of_Z_spec n N) as [A X].
  assert (in_range (IZR n)) as R.
  { destruct (Z.eq_dec n 0) as [->|N0]; [left; reflexivity|right]. split.
    - apply Rle_trans with (bpow radix2 0); [apply bpow_le; lia|]. cbn. apply IZR_le. lia.
    - apply Rle_trans with (bpow radix2 70); [|apply bpow_le; lia]. apply IZR_le. exact M. }
  destruct (rounded_near 0 (IZR n) (IZR n)) as [Y Z]; auto.
  { unfold few. cbn. lra. } { cbn. lra. }
  rewrite Y in X. apply finite_ext in X as [X1 X2]; auto. unfold near. rewrite X2.
  split; auto. split; auto. split; auto. split; [unfold few, eps; cbn; lra|]. auto.
Qed.
