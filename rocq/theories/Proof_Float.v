(** The binary64 computations of size_from_n_boards: when the double division and
    square root, rounded up, give the exact integer result. *)
From Coq Require Import Lia Psatz.
From Verif Require Import Model_Py Model_Float.

Definition cdiv (a b : Z) : Z := - ((- a) / b).

Lemma cdiv_spec a b k : 0 < b -> (cdiv a b = k <-> (k - 1) * b < a <= k * b).
Proof.
  intros Hb. unfold cdiv.
  pose proof (Z.div_mod (- a) b ltac:(lia)). pose proof (Z.mod_pos_bound (- a) b Hb).
  split; [intros <-; nia|intros; nia].
Qed.

Lemma digits_log2 p : Zdigits2 (Zpos p) = Z.log2 (Zpos p) + 1.
Proof.
  cbn [Zdigits2]. assert (digits2_pos p = Pos.size p) as ->.
  { induction p; cbn; congruence. }
  destruct p; cbn [Pos.size Z.log2]; lia.
Qed.

Lemma digits_bounds m d : 0 < m -> (Zdigits2 m = d <-> 2 ^ (d - 1) <= m < 2 ^ d /\ 0 < d).
Proof.
  intros Hm. destruct m as [|p|p]; try lia. rewrite digits_log2.
  pose proof (Z.log2_nonneg (Zpos p)). pose proof (Z.log2_spec (Zpos p) Hm) as L.
  replace (Z.succ (Z.log2 (Zpos p))) with (Z.log2 (Zpos p) + 1) in L by lia.
  split.
  - intros <-. replace (Z.log2 (Zpos p) + 1 - 1) with (Z.log2 (Zpos p)) by lia. lia.
  - intros [[A B] D]. assert (Z.log2 (Zpos p) = d - 1); [|lia].
    apply Z.log2_unique; [lia|]. replace (Z.succ (d - 1)) with d by lia. lia.
Qed.

Definition ceil_at (M e : Z) : Z := if 0 <=? e then M * 2 ^ e else cdiv M (2 ^ (- e)).

Lemma ceil_at_carry e : ceil_at (2 ^ 52) (e + 1) = ceil_at (2 ^ 53) e.
Proof.
  unfold ceil_at. destruct (Z.leb_spec 0 e).
  - destruct (Z.leb_spec 0 (e + 1)); [|lia]. rewrite Z.pow_add_r by lia. lia.
  - destruct (Z.leb_spec 0 (e + 1)).
    + replace e with (-1) by lia. reflexivity.
    + assert (0 < 2 ^ (- (e + 1))) by (apply Z.pow_pos_nonneg; lia).
      assert (2 ^ (- e) = 2 * 2 ^ (- (e + 1))) as E.
      { replace (- e) with (Z.succ (- (e + 1))) by lia. apply Z.pow_succ_r. lia. }
      rewrite E. unfold cdiv. f_equal.
      replace (- 2 ^ 53) with (2 * (- 2 ^ 52)) by lia.
      rewrite Z.div_mul_cancel_l; lia.
Qed.

Definition rounds_to (f : spec_float) (M e : Z) : Prop :=
  f_finite f = true /\ f_ceil f = Ok (ceil_at M e) /\
  (exists m e', f = S754_finite false m e').

Lemma shr_fexp_id m e l : 2 ^ 52 <= m < 2 ^ 53 -> -1074 <= e ->
  shr_fexp 53 1024 m e l = (shr_record_of_loc m l, e).
Proof.
  intros Hm He. unfold shr_fexp.
  assert (Zdigits2 m = 53) as -> by (apply digits_bounds; lia).
  unfold fexp, emin. rewrite Z.max_l by lia.
  replace (53 + e - 53 - e) with 0 by lia. reflexivity.
Qed.

Lemma shr_fexp_one m e l : 2 ^ 53 <= m < 2 ^ 54 -> -1075 <= e ->
  shr_fexp 53 1024 m e l = (shr_1 (shr_record_of_loc m l), e + 1).
Proof.
  intros Hm He. unfold shr_fexp.
  assert (Zdigits2 m = 54) as -> by (apply digits_bounds; lia).
  unfold fexp, emin. rewrite Z.max_l by lia.
  replace (54 + e - 53 - e) with 1 by lia. reflexivity.
Qed.

Lemma finish_round M e : 2 ^ 52 <= M <= 2 ^ 53 -> -1074 <= e <= 900 ->
  rounds_to (let '(mrs'', e'') := shr_fexp 53 1024 M e loc_Exact in
      match shr_m mrs'' with
      | Z0 => S754_zero false
      | Zpos m => if Zle_bool e'' (1024 - 53) then S754_finite false m e''
                  else S754_infinity false
      | _ => S754_nan
      end) M e.
Proof.
  intros HM He. destruct (Z.eq_dec M (2 ^ 53)) as [->|Hne].
  - rewrite shr_fexp_one by lia. change (shr_m (shr_1 (shr_record_of_loc (2 ^ 53) loc_Exact)))
      with (2 ^ 52). cbv iota.
    change (2 ^ 52) with (Zpos 4503599627370496) at 1. cbv iota.
    replace (e + 1 <=? 1024 - 53) with true by (symmetry; apply Z.leb_le; lia).
    split; [reflexivity|]. split; [|eauto].
    rewrite <- ceil_at_carry. cbn [f_ceil]. unfold ceil_at.
    destruct (0 <=? e + 1); reflexivity.
  - rewrite shr_fexp_id by lia. cbn [shr_record_of_loc shr_m].
    destruct M as [|m|m]; try lia.
    replace (e <=? 1024 - 53) with true by (symmetry; apply Z.leb_le; lia).
    split; [reflexivity|]. split; [|eauto].
    cbn [f_ceil]. unfold ceil_at. destruct (0 <=? e); reflexivity.
Qed.

Lemma round_noshift q e l : 2 ^ 52 <= q < 2 ^ 53 -> -1074 <= e <= 900 ->
  rounds_to (binary_round_aux 53 1024 false q e l) (round_nearest_even q l) e.
Proof.
  intros Hq He. unfold binary_round_aux. rewrite shr_fexp_id by lia.
  replace (round_nearest_even (shr_m (shr_record_of_loc q l))
    (loc_of_shr_record (shr_record_of_loc q l))) with (round_nearest_even q l)
    by (destruct l as [|[]]; reflexivity).
  apply finish_round; auto.
  destruct l as [|[]]; cbn [round_nearest_even]; try destruct (Z.even q); lia.
Qed.

(** Rounding after dropping one bit. *)
Definition shift_round (q : Z) (l : location) : Z :=
  round_nearest_even (shr_m (shr_1 (shr_record_of_loc q l)))
    (loc_of_shr_record (shr_1 (shr_record_of_loc q l))).

Lemma shift_round_spec q l : 0 < q -> exists h,
  (q = 2 * h \/ q = 2 * h + 1) /\ (shift_round q l = h \/ shift_round q l = h + 1) /\
  (q = 2 * h -> shift_round q l = h) /\
  (q = 2 * h + 1 -> l <> loc_Exact -> shift_round q l = h + 1).
Proof.
  intros Hq. destruct q as [|p|p]; try lia. unfold shift_round.
  assert (forall h r s, let mrs := Build_shr_record h r s in
    (r = false -> round_nearest_even (shr_m mrs) (loc_of_shr_record mrs) = h) /\
    (r = true -> s = true -> round_nearest_even (shr_m mrs) (loc_of_shr_record mrs) = h + 1) /\
    (round_nearest_even (shr_m mrs) (loc_of_shr_record mrs) = h \/
     round_nearest_even (shr_m mrs) (loc_of_shr_record mrs) = h + 1)) as K.
  { intros h [] []; cbn; try (destruct (Z.even h)); repeat split; intros; auto; discriminate. }
  assert (forall l, l <> loc_Exact -> forall m, let r := shr_record_of_loc m l in
    orb (shr_r r) (shr_s r) = true) as KL
    by (intros [|[]]; intros; try congruence; reflexivity).
  assert (forall m, shr_m (shr_record_of_loc m l) = m) as KM
    by (intros; destruct l as [|[]]; reflexivity).
  specialize (KL l). specialize (KM (Zpos p)). specialize (KL) .
  destruct (shr_record_of_loc (Zpos p) l) as [m r s] eqn:R. cbn in KM. subst m.
  destruct p as [p|p|].
  - exists (Zpos p). cbn [shr_1]. destruct (K (Zpos p) true (r || s)%bool) as (K1 & K2 & K3).
    split; [right; lia|]. split; [exact K3|]. split; [intros; lia|].
    intros _ N. apply K2; auto. specialize (KL N (Zpos p~1)). rewrite R in KL. exact KL.
  - exists (Zpos p). cbn [shr_1]. destruct (K (Zpos p) false (r || s)%bool) as (K1 & K2 & K3).
    split; [left; lia|]. split; [exact K3|]. split; [auto|intros; lia].
  - exists 0. cbn [shr_1]. destruct (K 0 true (r || s)%bool) as (K1 & K2 & K3).
    split; [right; lia|]. split; [exact K3|]. split; [intros; lia|].
    intros _ N. apply K2; auto. specialize (KL N 1). rewrite R in KL. exact KL.
Qed.

Lemma round_shift q e l : 2 ^ 53 <= q < 2 ^ 54 -> -1075 <= e <= 899 ->
  rounds_to (binary_round_aux 53 1024 false q e l) (shift_round q l) (e + 1).
Proof.
  intros Hq He. unfold binary_round_aux. rewrite shr_fexp_one by lia.
  apply finish_round; [|lia].
  destruct (shift_round_spec q l ltac:(lia)) as (h & Hh & HM & _).
  change (2 ^ 52 <= shift_round q l <= 2 ^ 53). lia.
Qed.

(** The location of a remainder. *)
Lemma loc_exact b r : 0 < b -> 0 <= r < b -> new_location b r = loc_Exact -> r = 0.
Proof.
  intros Hb Hr. unfold new_location, new_location_even, new_location_odd.
  destruct (Z.even b); unfold Zeq_bool; destruct (Z.compare_spec r 0); auto; discriminate.
Qed.

Lemma loc_near b r q : 0 < b -> 0 <= r < b ->
  let M := round_nearest_even q (new_location b r) in
  (M = q /\ 2 * r <= b) \/ (M = q + 1 /\ b <= 2 * r).
Proof.
  intros Hb Hr. unfold new_location, new_location_even, new_location_odd, Zeq_bool.
  destruct (Z.even b) eqn:Ev; destruct (Z.compare_spec r 0); try lia; cbn [round_nearest_even];
    try (left; lia).
  - destruct (Z.compare_spec (2 * r) b); cbn [round_nearest_even]; try lia.
    destruct (Z.even q); lia.
  - assert (Z.odd b = true) as Od by (rewrite <- Z.negb_even, Ev; reflexivity).
    apply Z.odd_spec in Od as [k Hk].
    destruct (Z.compare_spec (2 * r + 1) b); cbn [round_nearest_even]; lia.
Qed.

Lemma shift_arith A B X q r h M : 0 < B -> 0 <= r < B -> A * (2 * X) = B * q + r ->
  2 ^ 53 <= q -> (q = 2 * h \/ q = 2 * h + 1) ->
  (q = 2 * h -> M = h) ->
  (q = 2 * h + 1 -> (r = 0 /\ (M = h \/ M = h + 1)) \/ (r <> 0 /\ M = h + 1)) ->
  2 ^ 52 * B <= A * X /\ Z.abs (2 * M * B - 2 * A * X) <= B.
Proof.
  intros HB Hr E Q Hh H1 H2.
  assert (2 * (A * X) = B * q + r) as E' by lia. clear E.
  replace (2 * A * X) with (2 * (A * X)) by ring. set (Y := A * X) in *. clearbody Y.
  assert (B * 2 ^ 53 <= B * q) by (apply Z.mul_le_mono_nonneg_l; lia).
  split; [lia|]. rewrite E'.
  destruct Hh as [Hh|Hh].
  - rewrite (H1 Hh), Hh. replace (2 * h * B) with (B * (2 * h)) by ring. lia.
  - rewrite Hh. replace (B * (2 * h + 1)) with (2 * (h * B) + B) by ring.
    destruct (H2 Hh) as [[-> [-> | ->]]|[N ->]].
    + replace (2 * h * B) with (2 * (h * B)) by ring. lia.
    + replace (2 * (h + 1) * B) with (2 * (h * B) + 2 * B) by ring. lia.
    + replace (2 * (h + 1) * B) with (2 * (h * B) + 2 * B) by ring. lia.
Qed.

Lemma noshift_arith A B X q r M : 0 < B -> 0 <= r < B -> A * X = B * q + r ->
  2 ^ 52 <= q -> ((M = q /\ 2 * r <= B) \/ (M = q + 1 /\ B <= 2 * r)) ->
  2 ^ 52 * B <= A * X /\ Z.abs (2 * M * B - 2 * A * X) <= B.
Proof.
  intros HB Hr E Q HM.
  replace (2 * A * X) with (2 * (A * X)) by ring. rewrite E.
  assert (B * 2 ^ 52 <= B * q) by (apply Z.mul_le_mono_nonneg_l; lia).
  split; [lia|]. destruct HM as [[-> H']|[-> H']].
  - replace (2 * q * B) with (2 * (B * q)) by ring. lia.
  - replace (2 * (q + 1) * B) with (2 * (B * q) + 2 * B) by ring. lia.
Qed.

Lemma quotient_bounds A B X q r lo hi : 0 < B -> 0 <= r < B -> A * X = B * q + r ->
  lo * B <= A * X -> A * X < hi * B -> lo <= q < hi.
Proof.
  intros HB Hr E H1 H2. rewrite E in *. split.
  - destruct (Z_le_gt_dec lo q); auto. assert (B * (q + 1) <= B * lo)
      by (apply Z.mul_le_mono_nonneg_l; lia). lia.
  - destruct (Z_lt_le_dec q hi); auto. assert (B * hi <= B * q)
      by (apply Z.mul_le_mono_nonneg_l; lia). lia.
Qed.

Lemma div_spec a b : 0 < a -> 0 < b -> a < 2 ^ 53 * b -> b < 2 ^ 900 * a ->
  exists f M F, py_truediv a b = Ok f /\ rounds_to f M (- F) /\ 0 <= F /\
    2 ^ 52 * b <= a * 2 ^ F /\ Z.abs (2 * M * b - 2 * a * 2 ^ F) <= b.
Proof.
  intros Ha Hb Hlt Hgt. destruct a as [|a|a]; try lia. destruct b as [|b|b]; try lia.
  unfold py_truediv. cbn [Z.eqb Z_to_exact]. unfold SFdiv. cbn [xorb].
  unfold SFdiv_core_binary. set (A := Zpos a) in *. set (B := Zpos b) in *.
  set (d1 := Zdigits2 A). set (d2 := Zdigits2 B).
  destruct (proj1 (digits_bounds A d1 Ha) eq_refl) as [[A1 A2] A3].
  destruct (proj1 (digits_bounds B d2 Hb) eq_refl) as [[B1 B2] B3].
  assert (d1 - d2 <= 53) as D1.
  { destruct (Z_le_gt_dec (d1 - d2) 53); auto. exfalso.
    assert (2 ^ 53 * 2 ^ d2 <= 2 ^ (d1 - 1)).
    { rewrite <- Z.pow_add_r by lia. apply Z.pow_le_mono_r; lia. }
    assert (2 ^ 53 * B < 2 ^ 53 * 2 ^ d2) by lia. lia. }
  assert (d2 - d1 <= 900) as D2.
  { destruct (Z_le_gt_dec (d2 - d1) 900); auto. exfalso.
    assert (2 ^ 900 * 2 ^ d1 <= 2 ^ (d2 - 1)).
    { rewrite <- Z.pow_add_r by lia. apply Z.pow_le_mono_r; lia. }
    assert (0 < 2 ^ 900) by (apply Z.pow_pos_nonneg; lia).
    assert (2 ^ 900 * A < 2 ^ 900 * 2 ^ d1) by (apply Z.mul_lt_mono_pos_l; auto). lia. }
  assert (fexp prec emax (d1 + 0 - (d2 + 0)) = d1 - d2 - 53) as ->.
  { unfold fexp, emin, prec, emax. rewrite Z.max_l; lia. }
  rewrite Z.min_l by lia. cbv zeta. change (0 - 0) with 0.
  set (s := 0 - (d1 - d2 - 53)). assert (0 <= s) as Hs by lia.
  replace (d1 - d2 - 53) with (- s) by lia.
  assert (match s with Zpos _ => Z.shiftl A s | Z0 => A | Zneg _ => 0 end = A * 2 ^ s) as ->.
  { destruct s; try lia. rewrite Z.shiftl_mul_pow2; lia. }
  pose proof (Z.div_mod (A * 2 ^ s) B ltac:(lia)) as DM.
  pose proof (Z.mod_pos_bound (A * 2 ^ s) B Hb) as MB.
  unfold Z.div, Z.modulo in DM, MB.
  destruct (Z.div_eucl (A * 2 ^ s) B) as [q r]. 
  assert (0 < 2 ^ s) by (apply Z.pow_pos_nonneg; lia).
  assert (2 ^ (d1 - 1) * 2 ^ s = 2 ^ 52 * 2 ^ d2) as P1.
  { rewrite <- !Z.pow_add_r by lia. f_equal. lia. }
  assert (2 ^ d1 * 2 ^ s = 2 ^ 54 * 2 ^ (d2 - 1)) as P2.
  { rewrite <- !Z.pow_add_r by lia. f_equal. lia. }
  assert (2 ^ 52 <= q < 2 ^ 54) as HQ.
  { apply (quotient_bounds A B (2 ^ s) q r); auto.
    - assert (2 ^ (d1 - 1) * 2 ^ s <= A * 2 ^ s) by (apply Z.mul_le_mono_nonneg_r; lia).
      assert (2 ^ 52 * B <= 2 ^ 52 * 2 ^ d2) by lia. lia.
    - assert (A * 2 ^ s < 2 ^ d1 * 2 ^ s) by (apply Z.mul_lt_mono_pos_r; lia). lia. }
  assert (new_location B r = loc_Exact -> r = 0) as LE by (apply loc_exact; lia).
  pose proof (loc_near B r q Hb MB) as LN. cbv zeta in LN.
  destruct (Z_lt_le_dec q (2 ^ 53)) as [Q|Q].
  - destruct (round_noshift q (- s) (new_location B r)) as (R1 & R2 & R3); try lia.
    change prec with 53. change emax with 1024. rewrite R1.
    eexists _, (round_nearest_even q (new_location B r)), s.
    split; [reflexivity|]. split; [split; [exact R1|split; [exact R2|exact R3]]|].
    split; [lia|]. clear - DM MB HQ LN Hb. apply (noshift_arith A B (2 ^ s) q r); auto. lia.
  - assert (s <> 0) as Hs0 by (intros E; rewrite E in DM; clear - E DM MB Q Hlt Hb; change (2 ^ 0) with 1 in DM;
      rewrite Z.mul_1_r in DM; assert (B * 2 ^ 53 <= B * q)
        by (apply Z.mul_le_mono_nonneg_l; lia); lia).
    destruct (round_shift q (- s) (new_location B r)) as (R1 & R2 & R3); try lia.
    change prec with 53. change emax with 1024. rewrite R1.
    eexists _, (shift_round q (new_location B r)), (s - 1).
    replace (- (s - 1)) with (- s + 1) by lia.
    split; [reflexivity|]. split; [split; [exact R1|split; [exact R2|exact R3]]|].
    assert (2 ^ s = 2 * 2 ^ (s - 1)) as Es.
    { replace s with (Z.succ (s - 1)) at 1 by lia. apply Z.pow_succ_r. lia. }
    split; [lia|].
    destruct (shift_round_spec q (new_location B r) ltac:(lia)) as (h & Hh & HM & H1 & H2).
    rewrite Es in DM. clear - DM MB Q Hh HM H1 H2 LE Hb.
    apply (shift_arith A B (2 ^ (s - 1)) q r h); auto.
    intros E. destruct (Z.eq_dec r 0) as [->|Hr]; [auto|]. right. split; auto.
Qed.

Lemma ceil_at_neg M F : 0 <= F -> ceil_at M (- F) = cdiv M (2 ^ F).
Proof.
  intros HF. unfold ceil_at. destruct (Z.leb_spec 0 (- F)).
  - replace F with 0 by lia. cbn [Z.opp Z.pow Z.pow_pos]. unfold cdiv. rewrite Z.div_1_r. lia.
  - rewrite Z.opp_involutive. reflexivity.
Qed.

Lemma near_ceil a b M F : 0 < b -> 0 <= F ->
  Z.abs (2 * M * b - 2 * a * 2 ^ F) <= b -> (b < 2 * 2 ^ F \/ (b | a)) ->
  cdiv M (2 ^ F) = cdiv a b.
Proof.
  intros Hb HF HM Hc. assert (0 < 2 ^ F) by (apply Z.pow_pos_nonneg; lia).
  apply cdiv_spec; auto. set (k := cdiv a b).
  destruct (proj1 (cdiv_spec a b k Hb) eq_refl) as [K1 K2].
  set (P := 2 ^ F) in *.
  assert (M <= k * P) as Hu.
  { assert (a * P <= k * P * b) by nia. nia. }
  split; auto.
  destruct Hc as [Hc|[c Hc]].
  - assert (a * P >= (k - 1) * P * b + P) by nia. nia.
  - assert (c <= k) by nia. assert (k <= c) by nia. assert (c = k) by lia. subst c.
    assert (M = k * P) by nia. nia.
Qed.

Lemma div_ceil a b : 0 < a -> 0 < b -> a < 2 ^ 53 -> b < 2 ^ 900 ->
  exists f, py_truediv a b = Ok f /\ f_ceil f = Ok (cdiv a b).
Proof.
  intros Ha Hb H1 H2.
  destruct (div_spec a b Ha Hb) as (f & M & F & E & (R1 & R2 & _) & HF & HL & HN); try nia.
  exists f. split; auto. rewrite R2. f_equal. rewrite ceil_at_neg by auto.
  apply (near_ceil a b); auto. left. nia.
Qed.

Lemma div3_ceil n : 0 < n <= 3 * 2 ^ 52 ->
  exists f, py_truediv n 3 = Ok f /\ f_ceil f = Ok (cdiv n 3).
Proof.
  intros Hn.
  destruct (div_spec n 3) as (f & M & F & E & (R1 & R2 & _) & HF & HL & HN); try lia.
  exists f. split; auto. rewrite R2. f_equal. rewrite ceil_at_neg by auto.
  apply (near_ceil n 3); auto; [lia|].
  destruct (Z.eq_dec F 0) as [->|].
  - right. cbn [Z.pow] in HL. exists (2 ^ 52). lia.
  - left. assert (2 ^ 1 <= 2 ^ F) by (apply Z.pow_le_mono_r; lia). lia.
Qed.

(** float(n) of a small integer is exact: 53 digit mantissa. *)
Lemma of_Z_small n D : 2 ^ (D - 1) <= n < 2 ^ D -> 0 < D <= 53 ->
  f_of_Z n = S754_finite false (Z.to_pos (n * 2 ^ (53 - D))) (D - 53).
Proof.
  intros Hn HD. assert (0 < 2 ^ (D - 1)) by (apply Z.pow_pos_nonneg; lia).
  destruct n as [|p|p]; try lia. unfold f_of_Z. cbn [binary_normalize].
  unfold binary_round, shl_align.
  assert (Zpos (digits2_pos p) = D) as ->.
  { change (Zpos (digits2_pos p)) with (Zdigits2 (Zpos p)). apply digits_bounds; lia. }
  assert (fexp prec emax (D + 0) = D - 53) as ->.
  { unfold fexp, emin, prec, emax. lia. }
  assert (exists m, Zpos m = Zpos p * 2 ^ (53 - D) /\
    match D - 53 - 0 with Zneg d => (shift_pos d p, D - 53) | _ => (p, 0) end = (m, D - 53))
    as (m & Em & ->).
  { destruct (D - 53 - 0) as [|d|d] eqn:Ed; try lia.
    - replace D with 53 by lia. exists p. split; [|f_equal; lia].
      change (2 ^ (53 - 53)) with 1. lia.
    - exists (shift_pos d p). split; auto.
      rewrite Zpower.shift_pos_correct. replace (53 - D) with (Zpos d) by lia.
      change (Z.pow_pos 2 d) with (2 ^ Zpos d). lia. }
  rewrite <- Em. cbn [Z.to_pos]. cbv iota.
  assert (2 ^ 52 <= Zpos m < 2 ^ 53) as Hm.
  { rewrite Em. assert (2 ^ (D - 1) * 2 ^ (53 - D) = 2 ^ 52) as X1
      by (rewrite <- Z.pow_add_r by lia; f_equal; lia).
    assert (2 ^ D * 2 ^ (53 - D) = 2 ^ 53) as X2
      by (rewrite <- Z.pow_add_r by lia; f_equal; lia).
    assert (0 < 2 ^ (53 - D)) by (apply Z.pow_pos_nonneg; lia). nia. }
  unfold binary_round_aux. change prec with 53. change emax with 1024.
  rewrite shr_fexp_id by lia. cbn [shr_record_of_loc shr_m loc_of_shr_record round_nearest_even].
  rewrite shr_fexp_id by lia. cbn [shr_record_of_loc shr_m].
  replace (D - 53 <=? 1024 - 53) with true by (symmetry; apply Z.leb_le; lia). reflexivity.
Qed.

Lemma sqrt_arith P t q r M w : 0 < P -> 2 ^ 26 <= P -> t <= 2 ^ 52 ->
  t * (P * P) = q * q + r -> 0 <= r <= 2 * q -> 0 < q ->
  (M = q /\ r <= q) \/ (M = q + 1 /\ q < r) ->
  (w - 1) * P < M <= w * P ->
  0 < w /\ (w - 1) * (w - 1) < t <= w * w.
Proof.
  intros HP PL TL E Hr Hq HM [W1 W2].
  assert (0 < w) as W0 by nia. split; auto.
  assert ((w - 1) * P <= q) as L1 by lia.
  assert (0 <= (w - 1) * P) as L0 by (apply Z.mul_nonneg_nonneg; lia).
  split.
  - assert (((w - 1) * P) * ((w - 1) * P) <= q * q)
      by (apply Z.mul_le_mono_nonneg; lia).
    assert (((w - 1) * (w - 1)) * (P * P) <= t * (P * P)) as L2.
    { replace (((w - 1) * (w - 1)) * (P * P)) with (((w - 1) * P) * ((w - 1) * P)) by ring. lia. }
    assert (0 < P * P) by (apply Z.mul_pos_pos; lia).
    apply Z.mul_le_mono_pos_r in L2; auto.
    destruct (Z.eq_dec ((w - 1) * (w - 1)) t) as [Et|]; [|lia]. exfalso.
    assert (q * q + r = ((w - 1) * P) * ((w - 1) * P)) as E1.
    { rewrite <- E, <- Et. ring. }
    assert (q = (w - 1) * P) as Eq.
    { destruct (Z.eq_dec q ((w - 1) * P)); auto.
      assert (((w - 1) * P) * ((w - 1) * P) < q * q) by (apply Z.mul_lt_mono_nonneg; lia). lia. }
    rewrite <- Eq in E1. lia.
  - destruct (Z_le_gt_dec t (w * w)) as [|G]; auto. exfalso.
    assert ((w * w + 1) * (P * P) <= t * (P * P)) as L2
      by (apply Z.mul_le_mono_nonneg_r; [apply Z.mul_nonneg_nonneg|]; lia).
    assert (t * (P * P) <= (w * P) * (w * P) + w * P) as L3.
    { rewrite E. destruct HM as [[-> HM]|[-> HM]].
      - assert (q * q <= (w * P) * (w * P)) by (apply Z.mul_le_mono_nonneg; lia). lia.
      - assert ((q + 1) * (q + 1) <= (w * P) * (w * P)) by (apply Z.mul_le_mono_nonneg; lia). lia. }
    assert (P * P <= w * P) as L4.
    { replace ((w * w + 1) * (P * P)) with ((w * P) * (w * P) + P * P) in L2 by ring. lia. }
    apply Z.mul_le_mono_pos_r in L4; auto.
    assert (2 ^ 26 * 2 ^ 26 <= w * w) by (apply Z.mul_le_mono_nonneg; lia).
    change (2 ^ 26 * 2 ^ 26) with (2 ^ 52) in *. lia.
Qed.

(** Square root. *)
Lemma sqrt_ceil t : 0 < t <= 2 ^ 52 ->
  exists f w, py_sqrt t = Ok f /\ f_ceil f = Ok w /\
    0 < w /\ (w - 1) * (w - 1) < t <= w * w.
Proof.
  intros Ht. unfold py_sqrt. destruct (Z.ltb_spec t 0); [lia|].
  set (D := Zdigits2 t). destruct (proj1 (digits_bounds t D ltac:(lia)) eq_refl) as [[T1 T2] D0].
  assert (D <= 53) as D53.
  { destruct (Z_le_gt_dec D 53); auto. exfalso.
    assert (2 ^ 53 <= 2 ^ (D - 1)) by (apply Z.pow_le_mono_r; lia). lia. }
  rewrite (of_Z_small t D) by lia. cbn [f_finite].
  set (m := Z.to_pos (t * 2 ^ (53 - D))).
  assert (0 < 2 ^ (53 - D)) as P0 by (apply Z.pow_pos_nonneg; lia).
  assert (Zpos m = t * 2 ^ (53 - D)) as Em by (unfold m; rewrite Z2Pos.id; nia).
  assert (2 ^ (D - 1) * 2 ^ (53 - D) = 2 ^ 52) as X1
    by (rewrite <- Z.pow_add_r by lia; f_equal; lia).
  assert (2 ^ D * 2 ^ (53 - D) = 2 ^ 53) as X2
    by (rewrite <- Z.pow_add_r by lia; f_equal; lia).
  assert (Zdigits2 (Zpos m) = 53) as Dm.
  { apply digits_bounds; [lia|]. split; [|lia]. rewrite Em. change (53 - 1) with 52. nia. }
  unfold f_sqrt, SFsqrt, SFsqrt_core_binary. rewrite Dm.
  set (F := 53 - (D + 1) / 2).
  pose proof (Z.div_mod (D + 1) 2 ltac:(lia)) as DM.
  pose proof (Z.mod_pos_bound (D + 1) 2 ltac:(lia)) as MB.
  assert (26 <= F <= 52) as HF by lia.
  assert (fexp prec emax (Z.div2 (53 + (D - 53) + 1)) = - F) as ->.
  { rewrite Z.div2_div. replace (53 + (D - 53) + 1) with (D + 1) by lia.
    unfold fexp, emin, prec, emax. lia. }
  assert (- F <= Z.div2 (D - 53)) as HX.
  { rewrite Z.div2_div. pose proof (Z.div_mod (D - 53) 2 ltac:(lia)).
    pose proof (Z.mod_pos_bound (D - 53) 2 ltac:(lia)). lia. }
  rewrite Z.min_l by exact HX. cbv zeta.
  set (s := D - 53 - 2 * - F). assert (52 <= s <= 53) as Hs by lia.
  assert (match s with Zpos _ => Z.shiftl (Zpos m) s | Z0 => Zpos m | Zneg _ => 0 end
    = t * (2 ^ F * 2 ^ F)) as ->.
  { destruct s eqn:Es; try lia. rewrite Z.shiftl_mul_pow2 by lia. rewrite Em.
    rewrite <- Z.mul_assoc. f_equal. rewrite <- !Z.pow_add_r by lia. f_equal. lia. }
  set (N := t * (2 ^ F * 2 ^ F)).
  pose proof (Z.sqrtrem_spec N) as SR. destruct (Z.sqrtrem N) as [q r].
  assert (0 < 2 ^ F) as PF by (apply Z.pow_pos_nonneg; lia).
  assert (2 ^ 26 <= 2 ^ F) as PF' by (apply Z.pow_le_mono_r; lia).
  destruct SR as [SR1 SR2]; [unfold N; nia|].
  assert (2 ^ 104 <= N < 2 ^ 106) as HN.
  { assert (2 ^ (D - 1) * (2 ^ F * 2 ^ F) = 2 ^ (D - 1 + F + F)) as Y1
      by (rewrite !Z.pow_add_r by lia; ring).
    assert (2 ^ D * (2 ^ F * 2 ^ F) = 2 ^ (D + F + F)) as Y2
      by (rewrite !Z.pow_add_r by lia; ring).
    assert (2 ^ 104 <= 2 ^ (D - 1 + F + F)) by (apply Z.pow_le_mono_r; lia).
    assert (2 ^ (D + F + F) <= 2 ^ 106) by (apply Z.pow_le_mono_r; lia).
    unfold N. nia. }
  assert (0 <= q) as Q0 by nia.
  assert (2 ^ 52 <= q < 2 ^ 53) as HQ.
  { change (2 ^ 104) with (2 ^ 52 * 2 ^ 52) in HN. change (2 ^ 106) with (2 ^ 53 * 2 ^ 53) in HN.
    nia. }
  set (l := if Zeq_bool r 0 then loc_Exact else _).
  destruct (round_noshift q (- F) l HQ ltac:(lia)) as (R1 & R2 & _).
  change prec with 53. change emax with 1024.
  set (M := round_nearest_even q l) in *.
  eexists _, (cdiv M (2 ^ F)). split; [reflexivity|]. split.
  { rewrite R2. f_equal. apply ceil_at_neg. lia. }
  assert ((M = q /\ r <= q) \/ (M = q + 1 /\ q < r)) as HM.
  { unfold M, l, Zeq_bool. clear - SR2 Q0.
    destruct (Z.compare_spec r 0); cbn [round_nearest_even]; try lia.
    destruct (Z.leb_spec r q); cbn [round_nearest_even]; lia. }
  set (w := cdiv M (2 ^ F)). destruct (proj1 (cdiv_spec M (2 ^ F) w PF) eq_refl) as [W1 W2].
  apply (sqrt_arith (2 ^ F) t q r M w); auto; lia.
Qed.
