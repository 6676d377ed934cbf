(** Rounding decimal numbers: the model does what Spec_Decimal says. *)
From Coq Require Import SpecFloat Lia.
From Verif Require Import Model_Py Model_Decimal Spec_Decimal.
Open Scope Z_scope.

(** The two steps of the model apart: the spacing, and the mantissa. *)
Definition spacing (a d : Z) : Z := Z.max 0 (Z.log2 (a / d) - 52).
Definition mantissa (a b : Z) : Z :=
  let q := a / b in
  let r := a mod b in
  if (2 * r <? b) || ((2 * r =? b) && Z.even q) then q else q + 1.

Lemma spacing_ok a d : 0 <= a -> 0 < d ->
  0 <= spacing a d /\ a < 2 ^ 53 * 2 ^ spacing a d * d /\
  (spacing a d = 0 \/ 2 ^ 52 * 2 ^ spacing a d * d <= a).
Proof.
  intros A D. unfold spacing. set (t := a / d).
  assert (0 <= t) as T by (apply Z.div_pos; lia).
  assert (t * d <= a < (t + 1) * d) as B by (unfold t; pose proof (Z.div_mod a d); pose proof (Z.mod_pos_bound a d); nia).
  destruct (Z_lt_le_dec (Z.log2 t) 53) as [L|L].
  - rewrite Z.max_l by lia. split; [lia|]. split; [|auto]. rewrite Z.pow_0_r, Z.mul_1_r.
    assert (t < 2 ^ 53) as U.
    { destruct (Z.eq_dec t 0) as [->|N]; [apply Z.pow_pos_nonneg; lia|]. apply Z.log2_lt_pow2; lia. }
    clearbody t. generalize dependent (2 ^ 53). intros. nia.
  - assert (0 < t) as TP. { destruct (Z.eq_dec t 0) as [E|]; [rewrite E in L; cbn in L; lia|lia]. }
    rewrite Z.max_r by lia. split; [lia|]. pose proof (Z.log2_spec t TP) as [S1 S2].
    assert (2 ^ 52 * 2 ^ (Z.log2 t - 52) = 2 ^ Z.log2 t) as E1 by (rewrite <- Z.pow_add_r by lia; f_equal; lia).
    assert (2 ^ 53 * 2 ^ (Z.log2 t - 52) = 2 ^ Z.succ (Z.log2 t)) as E2 by (rewrite <- Z.pow_add_r by lia; f_equal; lia).
    rewrite E1, E2. clearbody t. generalize dependent (2 ^ Z.log2 t). generalize dependent (2 ^ Z.succ (Z.log2 t)). intros. split; [nia|right; nia].
Qed.

Lemma mantissa_ok a b : 0 <= a -> 0 < b ->
  0 <= mantissa a b /\ 2 * Z.abs (a - mantissa a b * b) <= b /\
  (2 * Z.abs (a - mantissa a b * b) = b -> Z.Even (mantissa a b)) /\
  (forall c, a < c * b -> mantissa a b <= c).
Proof.
  intros A B. unfold mantissa. pose proof (Z.div_mod a b ltac:(lia)) as E. pose proof (Z.mod_pos_bound a b B) as R.
  pose proof (Z.div_pos a b A B) as Q. set (q := a / b) in *. set (r := a mod b) in *. clearbody q r.
  assert (forall c, a < c * b -> q < c) as C by (intros; nia).
  assert (forall c, a < c * b -> q <= c) as C1 by (intros c H; specialize (C c H); lia).
  assert (forall c, a < c * b -> q + 1 <= c) as C2 by (intros c H; specialize (C c H); lia).
  destruct (Z.ltb_spec (2 * r) b) as [L|L]; cbn [orb].
  - split; [nia|]. split; [nia|]. split; [nia|exact C1].
  - destruct (Z.eqb_spec (2 * r) b) as [T|T]; cbn [andb].
    + destruct (Z.even q) eqn:V.
      * split; [nia|]. split; [nia|]. split; [intros _; apply Z.even_spec; exact V|exact C1].
      * split; [nia|]. split; [nia|]. split; [intros _; apply Z.even_spec; rewrite Z.even_add, V; reflexivity|exact C2].
    + split; [nia|]. split; [nia|]. split; [nia|exact C2].
Qed.

Lemma nearest_double_eq s n d : nearest_double s n d =
  let k := spacing (n * 2 ^ 1074) d in
  let m := mantissa (n * 2 ^ 1074) (d * 2 ^ k) in
  let '(m, k) := if m =? 2 ^ 53 then (2 ^ 52, k + 1) else (m, k) in
  if 971 + 1074 <? k then S754_infinity s
  else match m with Zpos p => S754_finite s p (k - 1074) | _ => S754_zero s end.
Proof. reflexivity. Qed.

Lemma pow_le a b : 0 <= a <= b -> 2 ^ a <= 2 ^ b.
Proof. intros. apply Z.pow_le_mono_r; lia. Qed.

(** From units in their form to the float. *)
Lemma form s m k : 0 <= m < 2 ^ 53 -> 0 <= k -> k = 0 \/ 2 ^ 52 <= m ->
  float_of_units s (m * 2 ^ k)
    (if 971 + 1074 <? k then S754_infinity s
     else match m with Zpos p => S754_finite s p (k - 1074) | _ => S754_zero s end).
Proof.
  intros M K C. unfold float_of_units. destruct (Z.ltb_spec (971 + 1074) k) as [L|L].
  - right. right. split; [|reflexivity]. destruct C as [C|C]; [lia|].
    apply Z.le_trans with (2 ^ 52 * 2 ^ k); [|pose proof (Z.pow_pos_nonneg 2 k); nia].
    rewrite <- Z.pow_add_r by lia. apply pow_le. lia.
  - destruct m as [|p|p]; [left; split; [reflexivity|reflexivity]| |lia].
    right. left. split.
    + apply Z.lt_le_trans with (2 ^ 53 * 2 ^ k); [pose proof (Z.pow_pos_nonneg 2 k); nia|].
      rewrite <- Z.pow_add_r by lia. apply pow_le. lia.
    + exists p, (k - 1074). repeat split; try lia. f_equal. f_equal. lia.
Qed.

Lemma double_nearest s n d : 0 <= n -> 0 < d -> nearest s n d (nearest_double s n d).
Proof.
  intros N D. rewrite nearest_double_eq. cbv zeta.
  assert (0 < 2 ^ 1074) as P by (apply Z.pow_pos_nonneg; lia).
  unfold nearest, rounds_to. generalize dependent (2 ^ 1074). intros P0 HP.
  set (a := n * P0). assert (0 <= a) as A by (unfold a; nia).
  pose proof (spacing_ok a d A D) as (K & U & L). set (k := spacing a d) in *. clearbody k a.
  assert (0 < 2 ^ k) as PK by (apply Z.pow_pos_nonneg; lia).
  pose proof (mantissa_ok a (d * 2 ^ k) A ltac:(nia)) as (M0 & H & T & C). set (m := mantissa a (d * 2 ^ k)) in *. clearbody m.
  assert (m <= 2 ^ 53) as M1 by (apply C; lia).
  exists (m * 2 ^ k). split.
  - exists m, k. split; [exact K|]. split; [reflexivity|]. split; [exact U|]. split; [exact L|].
    replace (m * 2 ^ k * d) with (m * (d * 2 ^ k)) by ring. rewrite (Z.mul_comm (2 ^ k) d). split; [exact H|exact T].
  - destruct (Z.eqb_spec m (2 ^ 53)) as [E|E].
    + rewrite E. replace (2 ^ 53 * 2 ^ k) with (2 ^ 52 * 2 ^ (k + 1)) by (rewrite <- !Z.pow_add_r by lia; f_equal; lia).
      apply form; [|lia|right; lia]. split; [|apply Z.pow_lt_mono_r; lia]. apply Z.pow_nonneg. lia.
    + apply form; [lia|exact K|]. destruct L as [L|L]; [auto|right].
      destruct (Z_le_gt_dec (2 ^ 52) m) as [|G]; [assumption|exfalso]. nia.
Qed.

(** Uniqueness. *)
Lemma spacing_unique a d k k' : 0 < d -> 0 <= k -> 0 <= k' ->
  a < 2 ^ 53 * 2 ^ k * d -> k = 0 \/ 2 ^ 52 * 2 ^ k * d <= a ->
  a < 2 ^ 53 * 2 ^ k' * d -> k' = 0 \/ 2 ^ 52 * 2 ^ k' * d <= a -> k = k'.
Proof.
  assert (forall k k', 0 < d -> 0 <= k -> k < k' -> a < 2 ^ 53 * 2 ^ k * d -> k' = 0 \/ 2 ^ 52 * 2 ^ k' * d <= a -> False) as W.
  { intros x y D X LT U [L|L]; [lia|].
    assert (2 ^ 53 * 2 ^ x <= 2 ^ 52 * 2 ^ y) as C by (rewrite <- !Z.pow_add_r by lia; apply pow_le; lia).
    nia. }
  intros D K K' U L U' L'. destruct (Z.lt_trichotomy k k') as [X|[X|X]]; [|exact X|]; exfalso.
  - apply (W k k'); auto.
  - apply (W k' k); auto.
Qed.

Lemma rounding_unique a b m m' : 0 < b ->
  2 * Z.abs (a - m * b) <= b -> (2 * Z.abs (a - m * b) = b -> Z.Even m) ->
  2 * Z.abs (a - m' * b) <= b -> (2 * Z.abs (a - m' * b) = b -> Z.Even m') -> m = m'.
Proof.
  assert (forall m m', 0 < b -> 2 * Z.abs (a - m * b) <= b -> (2 * Z.abs (a - m * b) = b -> Z.Even m) ->
    2 * Z.abs (a - m' * b) <= b -> (2 * Z.abs (a - m' * b) = b -> Z.Even m') -> m < m' -> False) as W.
  { intros x y B H E H' E' LT. assert (y = x + 1) as ->.
    { assert ((y - x) * b <= 1 * b) as Q by (rewrite Z.mul_sub_distr_r; lia). apply Z.mul_le_mono_pos_r in Q; lia. }
    assert (2 * (a - x * b) = b) as Q by nia.
    assert (Z.Even x) as [i I] by (apply E; nia). assert (Z.Even (x + 1)) as [j J] by (apply E'; nia). lia. }
  intros B H E H' E'. destruct (Z.lt_trichotomy m m') as [X|[X|X]]; [|exact X|]; exfalso; [apply (W m m')|apply (W m' m)]; auto.
Qed.

Lemma rounds_unique n d u u' : 0 < d -> rounds_to n d u -> rounds_to n d u' -> u = u'.
Proof.
  unfold rounds_to. generalize (2 ^ 1074). intros P D (m & k & K & -> & U & L & H & T) (m' & k' & K' & -> & U' & L' & H' & T').
  assert (k = k') as <- by (eapply (spacing_unique (n * P) d); eauto).
  f_equal. assert (0 < 2 ^ k) by (apply Z.pow_pos_nonneg; lia).
  apply (rounding_unique (n * P) (d * 2 ^ k)); [nia| | | |];
    rewrite ?(Z.mul_comm d), ?Z.mul_assoc; auto.
Qed.

Lemma units_unique s u f f' : float_of_units s u f -> float_of_units s u f' -> f = f'.
Proof.
  unfold float_of_units. assert (0 < 2 ^ 2098) as B by (apply Z.pow_pos_nonneg; lia). generalize dependent (2 ^ 2098). intros B0 B.
  assert (forall p e, -1074 <= e -> 0 < Zpos p * 2 ^ (e + 1074)) as PP by (intros; apply Z.mul_pos_pos; [lia|apply Z.pow_pos_nonneg; lia]).
  intros [(U & ->)|[(U & p & e & -> & E & M & C & V)|(U & ->)]] [(U' & ->)|[(U' & p' & e' & -> & E' & M' & C' & V')|(U' & ->)]];
    try reflexivity; try (exfalso; lia);
    try (specialize (PP p e E); exfalso; lia); try (specialize (PP p' e' E'); exfalso; lia).
  assert (forall p e p' e', -1074 <= e -> Zpos p < 2 ^ 53 -> (e' = -1074 \/ 2 ^ 52 <= Zpos p') ->
    Zpos p * 2 ^ (e + 1074) = Zpos p' * 2 ^ (e' + 1074) -> e < e' -> False) as W.
  { clear. intros p e p' e' E M C V L. destruct C as [C|C]; [lia|].
    replace (e' + 1074) with ((e' - e - 1) + 1 + (e + 1074)) in V by lia.
    assert (0 <= e + 1074) as EK by lia. revert V EK. generalize (e + 1074). intros K V EK. rewrite !Z.pow_add_r in V by lia.
    assert (0 < 2 ^ K) by (apply Z.pow_pos_nonneg; lia). assert (0 < 2 ^ (e' - e - 1)) by (apply Z.pow_pos_nonneg; lia).
    assert (Zpos p = Zpos p' * (2 ^ (e' - e - 1) * 2 ^ 1)) as X by nia.
    change (2 ^ 53) with (2 * 2 ^ 52) in M. change (2 ^ 1) with 2 in X. nia. }
  assert (e = e') as <-.
  { destruct (Z.lt_trichotomy e e') as [X|[X|X]]; [exfalso; apply (W p e p' e'); auto; congruence|exact X|exfalso; apply (W p' e' p e); auto; congruence]. }
  assert (0 < 2 ^ (e + 1074)) by (apply Z.pow_pos_nonneg; lia). f_equal. assert (Zpos p = Zpos p') by nia. congruence.
Qed.

Lemma nearest_iff s n d f : 0 <= n -> 0 < d -> nearest s n d f <-> f = nearest_double s n d.
Proof.
  intros N D. split; [|intros ->; apply double_nearest; auto]. intros (u & R & F).
  destruct (double_nearest s n d N D) as (u' & R' & F'). assert (u = u') as <- by (eapply rounds_unique; eauto).
  eapply units_unique; eauto.
Qed.

(** What rounding gives is a double, and none is nearer. *)
Lemma none_nearer n d u : 0 <= n -> 0 < d -> rounds_to n d u ->
  double_units u /\
  forall u', double_units u' -> Z.abs (n * 2 ^ 1074 - u * d) <= Z.abs (n * 2 ^ 1074 - u' * d).
Proof.
  intros N D. unfold rounds_to. assert (0 < 2 ^ 1074) as P by (apply Z.pow_pos_nonneg; lia). generalize dependent (2 ^ 1074). intros P0 HP (m & k & K & -> & U & L & H & T).
  set (a := n * P0) in *. assert (0 <= a) as A by (unfold a; nia). clearbody a.
  assert (0 < 2 ^ k) as PK by (apply Z.pow_pos_nonneg; lia).
  assert (0 <= m) as M0 by nia.
  assert (m <= 2 ^ 53) as M1.
  { destruct (Z_le_gt_dec m (2 ^ 53)) as [|G]; [assumption|exfalso]. generalize dependent (2 ^ 53). intros. nia. }
  split.
  - unfold double_units. destruct (Z.eq_dec m (2 ^ 53)) as [->|E].
    + exists (2 ^ 52), (k + 1). split; [split; [apply Z.pow_nonneg; lia|apply Z.pow_lt_mono_r; lia]|]. split; [lia|].
      rewrite <- !Z.pow_add_r by lia. f_equal. lia.
    + exists m, k. repeat split; auto; lia.
  - intros u' (m' & k' & M' & K' & ->).
    (* doubles near a are multiples of 2^k; those with a smaller exponent are below 2^52 * 2^k *)
    destruct (Z_le_gt_dec k k') as [G|G].
    + replace k' with ((k' - k) + k) by lia. rewrite Z.pow_add_r by lia.
      replace (m' * (2 ^ (k' - k) * 2 ^ k)) with (m' * 2 ^ (k' - k) * 2 ^ k) by ring.
      generalize (m' * 2 ^ (k' - k)). intros j.
      destruct (Z.eq_dec j m) as [->|NE]; [lia|].
      assert (2 ^ k * d <= Z.abs (m * 2 ^ k * d - j * 2 ^ k * d)) as G2.
      { replace (m * 2 ^ k * d - j * 2 ^ k * d) with ((m - j) * (2 ^ k * d)) by ring. rewrite Z.abs_mul, (Z.abs_eq (2 ^ k * d)) by nia. nia. }
      lia.
    + destruct L as [L|L]; [lia|].
      assert (m' * 2 ^ k' <= 2 ^ 52 * 2 ^ k) as S.
      { apply Z.le_trans with (2 ^ 53 * 2 ^ k'); [apply Z.mul_le_mono_nonneg_r; [apply Z.pow_nonneg; lia|lia]|].
        rewrite <- !Z.pow_add_r by lia. apply pow_le. lia. }
      generalize dependent (m' * 2 ^ k'). intros u' S.
      assert (2 ^ 52 <= m) as M2.
      { destruct (Z_le_gt_dec (2 ^ 52) m) as [|X]; [assumption|exfalso]. generalize dependent (2 ^ 52). intros. nia. }
      assert (u' * d <= 2 ^ 52 * 2 ^ k * d) as S2 by (apply Z.mul_le_mono_nonneg_r; lia).
      destruct (Z.eq_dec m (2 ^ 52)) as [E|E].
      * rewrite <- E in *. assert (u' * d <= m * 2 ^ k * d) by lia. rewrite !Z.abs_eq by lia. lia.
      * assert (2 ^ 52 * 2 ^ k * d + 2 ^ k * d <= m * 2 ^ k * d) as X.
        { replace (2 ^ 52 * 2 ^ k * d + 2 ^ k * d) with ((2 ^ 52 + 1) * (2 ^ k * d)) by ring. replace (m * 2 ^ k * d) with (m * (2 ^ k * d)) by ring.
          apply Z.mul_le_mono_nonneg_r; nia. }
        lia.
Qed.

Lemma whole_spec f n : float_eq_int f n = true <-> is_whole f n.
Proof.
  destruct f as [s|s| |s m e]; cbn [float_eq_int is_whole]; [apply Z.eqb_eq|split; [discriminate|contradiction]|split; [discriminate|contradiction]|].
  split.
  - intros H. exists (if s then Zneg m else Zpos m). split; [destruct s; reflexivity|].
    destruct (Z.leb_spec 0 e) as [L|L]; apply Z.eqb_eq in H; [left; auto|right; auto].
  - intros (v & V & H). assert ((if s then Zneg m else Zpos m) = v) as -> by (destruct s; subst; reflexivity).
    destruct (Z.leb_spec 0 e) as [L|L]; apply Z.eqb_eq; destruct H as [[]|[]]; lia.
Qed.
