(** Lemmas about the coordinate methods. *)
From Coq Require Import Lia ZifyBool Sorted Permutation.
From Verif Require Import Model_Py Model_Wrap Spec_Hops.

(** Reduction of a coordinate into the machine. *)
Definition red (k : wrap) (w h : Z) (p : XY) : XY :=
  (if wraps_x k then fst p mod w else fst p,
   if wraps_y k then snd p mod h else snd p).

Definition vadd (p v : XY) : XY := (fst p + fst v, snd p + snd v).
Definition norm2 (v : XY) : Z :=
  Z.max (Z.max (Z.abs (fst v)) (Z.abs (snd v))) (Z.abs (fst v - snd v)).

Definition link_vec (l : Z) : XY :=
  if l =? 0 then (1,0) else if l =? 1 then (1,1) else if l =? 2 then (0,1)
  else if l =? 3 then (-1,0) else if l =? 4 then (-1,-1) else (0,-1).

Lemma link_cases l : 0 <= l < 6 ->
  l = 0 \/ l = 1 \/ l = 2 \/ l = 3 \/ l = 4 \/ l = 5.
Proof. lia. Qed.

Lemma table_link l : 0 <= l < 6 -> py_index LINK_ADD_TABLE l = Ok (link_vec l).
Proof.
  intros H. destruct (link_cases l H) as [->|[->|[->|[->|[->| ->]]]]]; reflexivity.
Qed.

Lemma mod_plus_w a w : 0 < w -> (a + w) mod w = a mod w.
Proof.
  intros H. replace (a + w) with (a + 1 * w) by ring. apply Z_mod_plus_full.
Qed.

Lemma over_red k w h x y l : good_size k w h -> 0 <= l < 6 ->
  xy_over_link k w h x y l = Ok (red k w h (vadd (x, y) (link_vec l))).
Proof.
  intros [Hw Hh] Hl. unfold xy_over_link, nw_xy_over_link, hw_xy_over_link,
    vw_xy_over_link, fw_xy_over_link.
  rewrite (table_link l Hl). destruct (link_vec l) as [a b].
  destruct k; cbn in *; unfold red, vadd; cbn;
    rewrite ?(mod_plus_w _ w), ?(mod_plus_w _ h) by auto; reflexivity.
Qed.

Lemma red_canon k w h p : canonical k w h p -> red k w h p = p.
Proof.
  destruct p as [x y]. intros [Hx Hy]. unfold red. cbn in *.
  destruct (wraps_x k), (wraps_y k); f_equal; rewrite ?Z.mod_small by auto; auto.
Qed.

Lemma canon_red k w h p : good_size k w h -> canonical k w h (red k w h p).
Proof.
  intros [Hw Hh]. split; intros E; unfold red; cbn; rewrite E;
    apply Z.mod_pos_bound; auto.
Qed.

Lemma red_add k w h p v : red k w h (vadd (red k w h p) v) = red k w h (vadd p v).
Proof.
  unfold red, vadd; cbn. destruct (wraps_x k), (wraps_y k); f_equal;
    rewrite ?Zplus_mod_idemp_l; auto.
Qed.

Lemma vadd_assoc p a b : vadd (vadd p a) b = vadd p (vadd a b).
Proof. unfold vadd; cbn; f_equal; ring. Qed.

Lemma vadd_0 p : vadd p (0,0) = p.
Proof. destruct p; unfold vadd; cbn; f_equal; ring. Qed.

Lemma pair_eq (a b c d : Z) : a = c -> b = d -> (a, b) = (c, d).
Proof. congruence. Qed.

(** *** Sum of the moves of a list of links *)
Fixpoint sum_vec (ls : list Z) : XY :=
  match ls with [] => (0,0) | l :: r => vadd (link_vec l) (sum_vec r) end.

Lemma follow_sum k w h ls : good_size k w h -> Forall (fun l => 0 <= l < 6) ls ->
  forall p, canonical k w h p ->
  follow k w h p ls = Ok (red k w h (vadd p (sum_vec ls))).
Proof.
  intros G F. induction F as [|l r Hl _ IH]; intros p Hp.
  - cbn. rewrite vadd_0, red_canon; auto.
  - cbn [follow sum_vec]. rewrite over_red by auto. cbn [bind].
    rewrite IH by (apply canon_red; auto). destruct p as [x y]; cbn [fst snd].
    rewrite red_add, vadd_assoc. reflexivity.
Qed.

Lemma link_vec_norm l : 0 <= l < 6 -> norm2 (link_vec l) = 1.
Proof.
  intros H. destruct (link_cases l H) as [->|[->|[->|[->|[->| ->]]]]]; reflexivity.
Qed.

Lemma norm2_le v n : norm2 v <= n <->
  (- n <= fst v <= n) /\ (- n <= snd v <= n) /\ (- n <= fst v - snd v <= n).
Proof.
  unfold norm2. rewrite !Z.max_lub_iff, !Z.abs_le. tauto.
Qed.

Lemma norm2_tri a b : norm2 (vadd a b) <= norm2 a + norm2 b.
Proof.
  pose proof (proj1 (norm2_le a _) (Z.le_refl _)).
  pose proof (proj1 (norm2_le b _) (Z.le_refl _)).
  apply norm2_le. unfold vadd; cbn [fst snd].
  generalize dependent (norm2 a). generalize dependent (norm2 b). intros. lia.
Qed.

Lemma norm2_nonneg a : 0 <= norm2 a.
Proof. unfold norm2. lia. Qed.

Lemma sum_vec_norm ls : Forall (fun l => 0 <= l < 6) ls ->
  norm2 (sum_vec ls) <= Z.of_nat (List.length ls).
Proof.
  induction 1 as [|l r Hl _ IH].
  - cbn. lia.
  - cbn [sum_vec List.length]. pose proof (norm2_tri (link_vec l) (sum_vec r)).
    rewrite link_vec_norm in H by auto. lia.
Qed.

(** A displacement of size n can be walked in exactly n hops. *)
Definition step_towards (v : XY) : Z :=
  let '(x, y) := v in
  if x >? 0 then (if y >? 0 then 1 else 0)
  else if y >? 0 then 2
  else if x <? 0 then (if y <? 0 then 4 else 3)
  else 5.

Lemma step_towards_range v : 0 <= step_towards v < 6.
Proof. destruct v as [x y]; unfold step_towards. 
  destruct (x >? 0), (y >? 0), (x <? 0), (y <? 0); lia. Qed.

Lemma step_towards_norm v : 0 < norm2 v ->
  norm2 (vadd v (- fst (link_vec (step_towards v)), - snd (link_vec (step_towards v))))
  = norm2 v - 1.
Proof.
  destruct v as [x y]. unfold step_towards, norm2, vadd; cbn [fst snd]. intros H.
  destruct (x >? 0) eqn:?, (y >? 0) eqn:?, (x <? 0) eqn:?, (y <? 0) eqn:?;
    cbn; lia.
Qed.

Lemma walk_exists (n : nat) : forall v, norm2 v = Z.of_nat n ->
  exists ls, Forall (fun l => 0 <= l < 6) ls /\ List.length ls = n /\ sum_vec ls = v.
Proof.
  induction n as [|n IH]; intros v Hv.
  - exists []. repeat split; auto. destruct v as [x y]; unfold norm2 in Hv; cbn in *.
    apply pair_eq; lia.
  - assert (0 < norm2 v) as Hp by lia.
    pose proof (step_towards_norm v Hp) as Hs.
    set (l := step_towards v) in *.
    destruct (IH (vadd v (- fst (link_vec l), - snd (link_vec l)))) as (ls & F & L & S).
    { lia. }
    exists (l :: ls). repeat split.
    + constructor; auto. apply step_towards_range.
    + cbn; congruence.
    + cbn [sum_vec]. rewrite S. destruct v; unfold vadd; cbn.
      apply pair_eq; ring.
Qed.

(** Displacements that lead from [s] to [d]. *)
Definition lifts k w h (s d v : XY) : Prop := red k w h (vadd s v) = red k w h d.

Definition min_lift k w h (s d : XY) (n : Z) : Prop :=
  (exists v, lifts k w h s d v /\ norm2 v = n) /\
  (forall v, lifts k w h s d v -> n <= norm2 v).

Lemma min_lift_shortest k w h s d n : good_size k w h ->
  canonical k w h s -> canonical k w h d ->
  min_lift k w h s d n -> shortest k w h s d n.
Proof.
  intros G Cs Cd [[v [Hv Hn]] Hmin]. split.
  - destruct (walk_exists (Z.to_nat n) v) as (ls & F & L & S).
    { pose proof (norm2_nonneg v). lia. }
    exists ls. split; [split; auto|].
    + rewrite follow_sum, S by auto. unfold lifts in Hv. rewrite Hv, red_canon; auto.
    + pose proof (norm2_nonneg v). lia.
  - intros ls [F E]. rewrite follow_sum in E by auto.
    injection E as E. etransitivity; [apply Hmin with (v := sum_vec ls)|].
    + unfold lifts. rewrite E, red_canon; auto.
    + apply sum_vec_norm; auto.
Qed.

(** *** The candidate displacements of the four classes *)
Lemma mod_lift a b v w : 0 < w -> (a + v) mod w = b mod w ->
  exists t, v = (b - a) mod w + t * w.
Proof.
  intros Hw E. exists ((v - (b - a) mod w) / w).
  assert (((v - (b - a) mod w)) mod w = 0) as Z0.
  { rewrite Zminus_mod_idemp_r. replace (v - (b - a)) with ((a + v) - b) by ring.
    rewrite Zminus_mod, E, Z.sub_diag. reflexivity. }
  pose proof (Z.div_mod (v - (b - a) mod w) w). lia.
Qed.

Lemma lift_mod a b t w : 0 < w -> (a + ((b - a) mod w + t * w)) mod w = b mod w.
Proof.
  intros Hw. rewrite Z.add_assoc, Z_mod_plus_full, Zplus_mod_idemp_r.
  f_equal. ring.
Qed.

Lemma lift_mod0 a b w : 0 < w -> (a + (b - a) mod w) mod w = b mod w.
Proof. intros H. rewrite <- (lift_mod a b 0 w H). f_equal; try ring. Qed.
Lemma lift_mod1 a b w : 0 < w -> (a + ((b - a) mod w - w)) mod w = b mod w.
Proof. intros H. rewrite <- (lift_mod a b (-1) w H). f_equal; try ring. Qed.

Lemma far t r w : 0 < w -> 0 <= r < w -> 0 <= r <= r + t * w \/ r + t * w <= r - w < 0.
Proof. intros. assert (0 <= t \/ t <= -1) as [?|?] by lia; nia. Qed.

Lemma norm2_toward_x a a' b : 0 <= a <= a' \/ a' <= a <= 0 ->
  norm2 (a, b) <= norm2 (a', b).
Proof. unfold norm2; cbn. lia. Qed.
Lemma norm2_toward_y a b b' : 0 <= b <= b' \/ b' <= b <= 0 ->
  norm2 (a, b) <= norm2 (a, b').
Proof. unfold norm2; cbn. lia. Qed.

Ltac len_cases :=
  repeat match goal with
  | |- context [if ?c then _ else _] => destruct c eqn:?
  end; cbn [fst snd] in *; try lia.

(** *** The best displacement each class chooses *)
Definition nw_best (s d : XY) : XY := (fst d - fst s, snd d - snd s).

Lemma nw_len s d : nw_get_vector_length s d = norm2 (nw_best s d).
Proof. unfold nw_get_vector_length, norm2, nw_best; cbn. len_cases. Qed.

Definition hw_best (w : Z) (s d : XY) : XY :=
  let r := (fst d - fst s) mod w in let y := snd d - snd s in
  if norm2 (r, y) <? norm2 (r - w, y) then (r, y) else (r - w, y).

Lemma hw_lens r w y : 0 <= r < w ->
  (if y >? 0 then ((if r >? y then r else y), y - (r - w))
   else (r - y, (if r - w >? y then - y else - (r - w))))
  = (norm2 (r, y), norm2 (r - w, y)).
Proof.
  intros H. unfold norm2; cbn. len_cases; apply pair_eq; lia.
Qed.

Lemma hw_len w s d : 0 < w -> hw_get_vector_length w s d = norm2 (hw_best w s d).
Proof.
  intros Hw. unfold hw_get_vector_length, hw_best.
  pose proof (Z.mod_pos_bound (fst d - fst s) w Hw) as Hr.
  set (r := (fst d - fst s) mod w) in *. cbv zeta.
  rewrite hw_lens by auto. destruct (norm2 _ <? norm2 _); reflexivity.
Qed.

Definition vw_best (h : Z) (s d : XY) : XY :=
  let x := fst d - fst s in let r := (snd d - snd s) mod h in
  if norm2 (x, r) <? norm2 (x, r - h) then (x, r) else (x, r - h).

Lemma vw_lens r h x : 0 <= r < h ->
  (if x >? 0 then ((if x >? r then x else r), x - (r - h))
   else (r - x, (if x >? r - h then - (r - h) else - x)))
  = (norm2 (x, r), norm2 (x, r - h)).
Proof.
  intros H. unfold norm2; cbn. len_cases; apply pair_eq; lia.
Qed.

Lemma vw_len h s d : 0 < h -> vw_get_vector_length h s d = norm2 (vw_best h s d).
Proof.
  intros Hh. unfold vw_get_vector_length, vw_best.
  pose proof (Z.mod_pos_bound (snd d - snd s) h Hh) as Hr.
  set (r := (snd d - snd s) mod h) in *. cbv zeta.
  rewrite vw_lens by auto. destruct (norm2 _ <? norm2 _); reflexivity.
Qed.

Definition fw_best (w h : Z) (s d : XY) : XY :=
  let r := (fst d - fst s) mod w in let u := (snd d - snd s) mod h in
  let b := (r, u) in
  let b := if norm2 (r - w, u) <? norm2 b then (r - w, u) else b in
  let b := if norm2 (r, u - h) <? norm2 b then (r, u - h) else b in
  if norm2 (r - w, u - h) <? norm2 b then (r - w, u - h) else b.

Lemma fw_n1 r u : 0 <= r -> 0 <= u -> (if r >? u then r else u) = norm2 (r, u).
Proof. intros; unfold norm2; cbn; len_cases. Qed.
Lemma fw_n2 r u w : 0 <= r < w -> 0 <= u -> u - (r - w) = norm2 (r - w, u).
Proof. intros; unfold norm2; cbn; lia. Qed.
Lemma fw_n3 r u h : 0 <= r -> 0 <= u < h -> r - (u - h) = norm2 (r, u - h).
Proof. intros; unfold norm2; cbn; lia. Qed.
Lemma fw_n4 r u w h : 0 <= r < w -> 0 <= u < h ->
  (if r - w >? u - h then - (u - h) else - (r - w)) = norm2 (r - w, u - h).
Proof. intros; unfold norm2; cbn; len_cases. Qed.

Lemma fw_len w h s d : 0 < w -> 0 < h ->
  fw_get_vector_length w h s d = norm2 (fw_best w h s d).
Proof.
  intros Hw Hh. unfold fw_get_vector_length, fw_best.
  pose proof (Z.mod_pos_bound (fst d - fst s) w Hw) as Hr.
  pose proof (Z.mod_pos_bound (snd d - snd s) h Hh) as Hu.
  set (r := (fst d - fst s) mod w) in *. set (u := (snd d - snd s) mod h) in *.
  cbv zeta. rewrite (fw_n4 r u w h), (fw_n3 r u h), (fw_n2 r u w), (fw_n1 r u) by lia.
  destruct (norm2 (r - w, u) <? norm2 (r, u)) eqn:E1; cbn iota;
  [destruct (norm2 (r, u - h) <? norm2 (r - w, u)) eqn:E2
  |destruct (norm2 (r, u - h) <? norm2 (r, u)) eqn:E2]; cbn iota;
  match goal with |- context [if ?c then _ else _] => destruct c end; reflexivity.
Qed.

Lemma fw_best_cases w h s d :
  let r := (fst d - fst s) mod w in let u := (snd d - snd s) mod h in
  (fw_best w h s d = (r, u) \/ fw_best w h s d = (r - w, u) \/
   fw_best w h s d = (r, u - h) \/ fw_best w h s d = (r - w, u - h)) /\
  norm2 (fw_best w h s d) <= norm2 (r, u) /\
  norm2 (fw_best w h s d) <= norm2 (r - w, u) /\
  norm2 (fw_best w h s d) <= norm2 (r, u - h) /\
  norm2 (fw_best w h s d) <= norm2 (r - w, u - h).
Proof.
  cbv zeta. unfold fw_best. cbv zeta.
  generalize ((fst d - fst s) mod w) as r; intros r.
  generalize ((snd d - snd s) mod h) as u; intros u.
  destruct (norm2 (r - w, u) <? norm2 (r, u)) eqn:E1; cbn iota;
  [destruct (norm2 (r, u - h) <? norm2 (r - w, u)) eqn:E2
  |destruct (norm2 (r, u - h) <? norm2 (r, u)) eqn:E2]; cbn iota;
  match goal with |- context [if ?c then _ else _] => destruct c eqn:E3 end;
  repeat split; auto; lia.
Qed.

Definition best (k : wrap) (w h : Z) (s d : XY) : XY :=
  match k with
  | NoWrap => nw_best s d
  | HorWrap => hw_best w s d
  | VerWrap => vw_best h s d
  | FullWrap => fw_best w h s d
  end.

Lemma len_best k w h s d : good_size k w h ->
  get_vector_length k w h s d = norm2 (best k w h s d).
Proof.
  intros [Hw Hh]; destruct k; cbn in *.
  - apply nw_len.
  - apply hw_len; auto.
  - apply vw_len; auto.
  - apply fw_len; auto.
Qed.

Lemma best_lifts k w h s d : good_size k w h -> lifts k w h s d (best k w h s d).
Proof.
  intros [Hw Hh]. unfold lifts, red, vadd. destruct k; cbn in *.
  - apply pair_eq; ring.
  - unfold hw_best. cbv zeta.
    destruct (norm2 _ <? norm2 _); cbn; apply pair_eq; try ring;
    [apply lift_mod0 | apply lift_mod1]; auto.
  - unfold vw_best. cbv zeta.
    destruct (norm2 _ <? norm2 _); cbn; apply pair_eq; try ring;
    [apply lift_mod0 | apply lift_mod1]; auto.
  - destruct (fw_best_cases w h s d) as [[->|[->|[->| ->]]] _]; cbn;
      apply pair_eq; (apply lift_mod0 || apply lift_mod1); auto.
Qed.

Lemma best_min k w h s d v : good_size k w h -> lifts k w h s d v ->
  norm2 (best k w h s d) <= norm2 v.
Proof.
  intros [Hw Hh] L. unfold lifts, red, vadd in L. destruct v as [a b].
  destruct k; cbn in *; injection L as L1 L2.
  - unfold nw_best, norm2; cbn. lia.
  - specialize (Hw eq_refl). destruct (mod_lift _ _ _ _ Hw L1) as [t ->].
    assert (b = snd d - snd s) as -> by lia.
    unfold hw_best. cbv zeta.
    pose proof (Z.mod_pos_bound (fst d - fst s) w Hw) as Hr.
    set (r := (fst d - fst s) mod w) in *.
    destruct (far t r w Hw Hr) as [F|F].
    + pose proof (norm2_toward_x r (r + t * w) (snd d - snd s) (or_introl F)).
      destruct (norm2 (r, _) <? _) eqn:E; lia.
    + assert (r + t * w <= r - w <= 0) as F' by lia.
      pose proof (norm2_toward_x (r - w) (r + t * w) (snd d - snd s) (or_intror F')).
      destruct (norm2 (r, _) <? _) eqn:E; lia.
  - specialize (Hh eq_refl). destruct (mod_lift _ _ _ _ Hh L2) as [t ->].
    assert (a = fst d - fst s) as -> by lia.
    unfold vw_best. cbv zeta.
    pose proof (Z.mod_pos_bound (snd d - snd s) h Hh) as Hr.
    set (r := (snd d - snd s) mod h) in *.
    destruct (far t r h Hh Hr) as [F|F].
    + pose proof (norm2_toward_y (fst d - fst s) r (r + t * h) (or_introl F)).
      destruct (norm2 (_, r) <? _) eqn:E; lia.
    + assert (r + t * h <= r - h <= 0) as F' by lia.
      pose proof (norm2_toward_y (fst d - fst s) (r - h) (r + t * h) (or_intror F')).
      destruct (norm2 (_, r) <? _) eqn:E; lia.
  - specialize (Hw eq_refl). specialize (Hh eq_refl).
    destruct (mod_lift _ _ _ _ Hw L1) as [t ->].
    destruct (mod_lift _ _ _ _ Hh L2) as [t' ->].
    destruct (fw_best_cases w h s d) as [_ [B1 [B2 [B3 B4]]]].
    pose proof (Z.mod_pos_bound (fst d - fst s) w Hw) as Hr.
    pose proof (Z.mod_pos_bound (snd d - snd s) h Hh) as Hu.
    set (r := (fst d - fst s) mod w) in *. set (u := (snd d - snd s) mod h) in *.
    destruct (far t r w Hw Hr) as [F|F]; destruct (far t' u h Hh Hu) as [F'|F'].
    + pose proof (norm2_toward_x r (r + t * w) u (or_introl F)).
      pose proof (norm2_toward_y (r + t * w) u (u + t' * h) (or_introl F')). lia.
    + pose proof (norm2_toward_x r (r + t * w) (u - h) (or_introl F)).
      assert (u + t' * h <= u - h <= 0) as F2 by lia.
      pose proof (norm2_toward_y (r + t * w) (u - h) (u + t' * h) (or_intror F2)). lia.
    + assert (r + t * w <= r - w <= 0) as F2 by lia.
      pose proof (norm2_toward_x (r - w) (r + t * w) u (or_intror F2)).
      pose proof (norm2_toward_y (r + t * w) u (u + t' * h) (or_introl F')). lia.
    + assert (r + t * w <= r - w <= 0) as F2 by lia.
      assert (u + t' * h <= u - h <= 0) as F3 by lia.
      pose proof (norm2_toward_x (r - w) (r + t * w) (u - h) (or_intror F2)).
      pose proof (norm2_toward_y (r + t * w) (u - h) (u + t' * h) (or_intror F3)). lia.
Qed.

Lemma length_min_lift k w h s d : good_size k w h ->
  min_lift k w h s d (get_vector_length k w h s d).
Proof.
  intros G. rewrite len_best by auto. split.
  - exists (best k w h s d). split; auto. apply best_lifts; auto.
  - intros v. apply best_min; auto.
Qed.

Lemma length_shortest k w h s d : good_size k w h ->
  canonical k w h s -> canonical k w h d ->
  shortest k w h s d (get_vector_length k w h s d).
Proof. intros; apply min_lift_shortest; auto. apply length_min_lift; auto. Qed.

(** *** get_vector *)
Lemma get_vector_best k w h s d : good_size k w h ->
  get_vector k w h s d =
  minimize_vector (fst (best k w h s d)) (snd (best k w h s d)).
Proof.
  intros [Hw Hh]; destruct k; cbn in *.
  - reflexivity.
  - unfold hw_get_vector, hw_best.
    pose proof (Z.mod_pos_bound (fst d - fst s) w (Hw eq_refl)) as Hr.
    set (r := (fst d - fst s) mod w) in *. cbv zeta.
    rewrite hw_lens by auto. destruct (norm2 _ <? norm2 _); reflexivity.
  - unfold vw_get_vector, vw_best.
    pose proof (Z.mod_pos_bound (snd d - snd s) h (Hh eq_refl)) as Hr.
    set (r := (snd d - snd s) mod h) in *. cbv zeta.
    rewrite vw_lens by auto. destruct (norm2 _ <? norm2 _); reflexivity.
  - unfold fw_get_vector, fw_best.
    pose proof (Z.mod_pos_bound (fst d - fst s) w (Hw eq_refl)) as Hr.
    pose proof (Z.mod_pos_bound (snd d - snd s) h (Hh eq_refl)) as Hu.
    set (r := (fst d - fst s) mod w) in *. set (u := (snd d - snd s) mod h) in *.
    cbv zeta. rewrite (fw_n4 r u w h), (fw_n3 r u h), (fw_n2 r u w), (fw_n1 r u) by lia.
    destruct (norm2 (r - w, u) <? norm2 (r, u)) eqn:E1; cbn iota;
    [destruct (norm2 (r, u - h) <? norm2 (r - w, u)) eqn:E2
    |destruct (norm2 (r, u - h) <? norm2 (r, u)) eqn:E2]; cbn iota;
    match goal with |- context [if ?c then _ else _] => destruct c end; reflexivity.
Qed.

Lemma sum_repeat l n : sum_vec (repeat l n) =
  (Z.of_nat n * fst (link_vec l), Z.of_nat n * snd (link_vec l)).
Proof.
  induction n as [|n IH]; cbn [repeat sum_vec].
  - reflexivity.
  - rewrite IH. unfold vadd; cbn [fst snd]. apply pair_eq; lia.
Qed.

Lemma sum_app a b : sum_vec (a ++ b) = vadd (sum_vec a) (sum_vec b).
Proof.
  induction a as [|l a IH]; cbn [app sum_vec].
  - destruct (sum_vec b); unfold vadd; cbn; apply pair_eq; ring.
  - rewrite IH, vadd_assoc. reflexivity.
Qed.

Lemma hops_sum x y z : sum_vec (vector_hops (x, y, z)) = (x - z, y - z).
Proof.
  unfold vector_hops. rewrite !sum_app, !sum_repeat. unfold vadd.
  destruct (x <? 0) eqn:?, (y <? 0) eqn:?, (z <? 0) eqn:?; cbn; apply pair_eq; lia.
Qed.

Lemma hops_range v : Forall (fun l => 0 <= l < 6) (vector_hops v).
Proof.
  destruct v as [[x y] z]. unfold vector_hops.
  rewrite !Forall_app. repeat split; apply Forall_forall; intros l Hl;
    apply repeat_spec in Hl; subst;
    match goal with |- context [if ?c then _ else _] => destruct c end; lia.
Qed.

Lemma hops_length x y z :
  Z.of_nat (List.length (vector_hops (x, y, z))) = Z.abs x + Z.abs y + Z.abs z.
Proof. unfold vector_hops. rewrite !app_length, !repeat_length. lia. Qed.

Lemma minimize_spec a b : let '(x, y, z) := minimize_vector a b in
  (x - z, y - z) = (a, b) /\ Z.abs x + Z.abs y + Z.abs z = norm2 (a, b) /\
  x * y * z = 0 /\ x * y <= 0 /\ x * z <= 0 /\ y * z <= 0.
Proof.
  unfold minimize_vector, norm2. cbn [fst snd].
  destruct (a >? 0) eqn:?; destruct (b >? 0) eqn:?; [destruct (a >? b) eqn:?| | |
    destruct (a >? b) eqn:?]; repeat split; try apply pair_eq; try lia; try nia.
Qed.

Lemma vector_follow k w h s d : good_size k w h ->
  canonical k w h s -> canonical k w h d ->
  follow k w h s (vector_hops (get_vector k w h s d)) = Ok d /\
  let '(x, y, z) := get_vector k w h s d in
  Z.abs x + Z.abs y + Z.abs z = get_vector_length k w h s d /\
  x * y * z = 0 /\ x * y <= 0 /\ x * z <= 0 /\ y * z <= 0.
Proof.
  intros G Cs Cd. rewrite get_vector_best by auto.
  pose proof (minimize_spec (fst (best k w h s d)) (snd (best k w h s d))) as M.
  destruct (minimize_vector _ _) as [[x y] z]. destruct M as (M1 & M2 & M3).
  split.
  - rewrite follow_sum by (auto using hops_range). rewrite hops_sum, M1.
    pose proof (best_lifts k w h s d G) as L. unfold lifts in L.
    destruct (best k w h s d). cbn [fst snd] in *. rewrite L, red_canon; auto.
  - rewrite len_best by auto. destruct (best k w h s d). cbn [fst snd] in *. auto.
Qed.

(** *** Metric *)
Definition vneg (v : XY) : XY := (- fst v, - snd v).
Lemma norm2_neg v : norm2 (vneg v) = norm2 v.
Proof. unfold norm2, vneg; cbn. lia. Qed.

Lemma mod_move a v b w : (a + v) mod w = b mod w -> (b + - v) mod w = a mod w.
Proof.
  intros E. replace a with (a + v + - v) at 1 by ring.
  rewrite <- (Zplus_mod_idemp_l b), <- E, Zplus_mod_idemp_l. f_equal; try ring.
Qed.

Lemma lifts_sym k w h s d v : lifts k w h s d v -> lifts k w h d s (vneg v).
Proof.
  unfold lifts, red, vadd, vneg; cbn. intros E. injection E as E1 E2.
  apply pair_eq.
  - destruct (wraps_x k); [apply mod_move; auto | lia].
  - destruct (wraps_y k); [apply mod_move; auto | lia].
Qed.

Lemma lifts_trans k w h a b c u v :
  lifts k w h a b u -> lifts k w h b c v -> lifts k w h a c (vadd u v).
Proof.
  unfold lifts. intros E1 E2. rewrite <- vadd_assoc, <- red_add, E1, red_add. auto.
Qed.

Lemma length_sym k w h s d : good_size k w h ->
  get_vector_length k w h s d = get_vector_length k w h d s.
Proof.
  intros G. destruct (length_min_lift k w h s d G) as [[v [L1 N1]] M1].
  destruct (length_min_lift k w h d s G) as [[u [L2 N2]] M2].
  pose proof (M1 _ (lifts_sym _ _ _ _ _ _ L2)). 
  pose proof (M2 _ (lifts_sym _ _ _ _ _ _ L1)). rewrite norm2_neg in *. lia.
Qed.

Lemma length_tri k w h a b c : good_size k w h ->
  get_vector_length k w h a c <=
  get_vector_length k w h a b + get_vector_length k w h b c.
Proof.
  intros G. destruct (length_min_lift k w h a b G) as [[v [L1 N1]] _].
  destruct (length_min_lift k w h b c G) as [[u [L2 N2]] _].
  destruct (length_min_lift k w h a c G) as [_ M].
  pose proof (M _ (lifts_trans _ _ _ _ _ _ _ _ L1 L2)).
  pose proof (norm2_tri v u). lia.
Qed.

Lemma length_nonneg k w h s d : good_size k w h -> 0 <= get_vector_length k w h s d.
Proof. intros G. rewrite len_best by auto. apply norm2_nonneg. Qed.

Lemma norm2_zero v : norm2 v = 0 -> v = (0, 0).
Proof. destruct v; unfold norm2; cbn; intros. apply pair_eq; lia. Qed.

Lemma length_zero k w h s d : good_size k w h ->
  canonical k w h s -> canonical k w h d ->
  (get_vector_length k w h s d = 0 <-> s = d).
Proof.
  intros G Cs Cd. split.
  - intros E. destruct (length_min_lift k w h s d G) as [[v [L N]] _].
    rewrite E in N. apply norm2_zero in N. subst v. unfold lifts in L.
    rewrite vadd_0, !red_canon in L; auto.
  - intros <-. destruct (length_min_lift k w h s s G) as [_ M].
    assert (lifts k w h s s (0,0)) as L0 by (unfold lifts; rewrite vadd_0; auto).
    pose proof (M _ L0) as B. cbn in B. pose proof (length_nonneg k w h s s G). lia.
Qed.

(** *** Opposite links *)
Lemma opposite_range l : 0 <= opposite l < 6.
Proof. unfold opposite, MAX_LINKS_PER_ROUTER. apply Z.mod_pos_bound. lia. Qed.

Lemma opposite_invol l : 0 <= l < 6 -> opposite (opposite l) = l /\ opposite l <> l.
Proof.
  intros H. destruct (link_cases l H) as [->|[->|[->|[->|[->| ->]]]]];
    split; cbv; congruence.
Qed.

Lemma link_vec_opposite l : 0 <= l < 6 -> link_vec (opposite l) = vneg (link_vec l).
Proof.
  intros H. destruct (link_cases l H) as [->|[->|[->|[->|[->| ->]]]]]; reflexivity.
Qed.

Lemma there_and_back k w h p l : good_size k w h -> canonical k w h p -> 0 <= l < 6 ->
  follow k w h p [l; opposite l] = Ok p.
Proof.
  intros G C H. rewrite follow_sum; auto.
  - cbn [sum_vec]. rewrite link_vec_opposite by auto.
    destruct p as [x y], (link_vec l) as [a b]; unfold vadd, vneg; cbn [fst snd].
    replace (x + (a + (- a + 0))) with x by ring.
    replace (y + (b + (- b + 0))) with y by ring.
    rewrite red_canon; auto.
  - repeat constructor; try lia; apply opposite_range.
Qed.

Lemma mod_inj_small a b x w : 3 <= w -> -1 <= a <= 1 -> -1 <= b <= 1 ->
  (x + a) mod w = (x + b) mod w -> a = b.
Proof.
  intros Hw Ha Hb E. symmetry in E.
  assert ((x + b + (a - b)) mod w = (x + b) mod w) as E' by (rewrite E; f_equal; ring).
  apply mod_lift in E'; [|lia]. destruct E' as [t E'].
  rewrite Z.sub_diag, Z.mod_0_l in E' by lia.
  assert (t = 0 \/ t <= -1 \/ 1 <= t) as [->|[?|?]] by lia; nia.
Qed.

Lemma link_vec_small l : -1 <= fst (link_vec l) <= 1 /\ -1 <= snd (link_vec l) <= 1.
Proof.
  unfold link_vec. repeat match goal with |- context [if ?c then _ else _] =>
    destruct c end; cbn; lia.
Qed.

Lemma link_vec_inj l l' : 0 <= l < 6 -> 0 <= l' < 6 -> link_vec l = link_vec l' -> l = l'.
Proof.
  intros H H'. destruct (link_cases l H) as [->|[->|[->|[->|[->| ->]]]]];
  destruct (link_cases l' H') as [->|[->|[->|[->|[->| ->]]]]]; cbv; congruence.
Qed.

Lemma links_distinct k w h p l l' : 
  (wraps_x k = true -> 3 <= w) -> (wraps_y k = true -> 3 <= h) ->
  0 <= l < 6 -> 0 <= l' < 6 ->
  xy_over_link k w h (fst p) (snd p) l = xy_over_link k w h (fst p) (snd p) l' ->
  l = l'.
Proof.
  intros Hw Hh H H' E.
  assert (good_size k w h) as G by (split; intros E'; [apply Hw in E'|apply Hh in E']; lia).
  rewrite !over_red in E by auto. apply link_vec_inj; auto.
  destruct (link_vec_small l) as [Sa Sb]. destruct (link_vec_small l') as [Sa' Sb'].
  destruct (link_vec l) as [a b], (link_vec l') as [a' b'].
  unfold red, vadd in E; cbn [fst snd] in *. injection E as E1 E2. apply pair_eq.
  - destruct (wraps_x k); [eapply mod_inj_small; eauto | lia].
  - destruct (wraps_y k); [eapply mod_inj_small; eauto | lia].
Qed.

Lemma over_canonical k w h x y l q : good_size k w h -> 0 <= l < 6 ->
  xy_over_link k w h x y l = Ok q -> canonical k w h q.
Proof.
  intros G H E. rewrite over_red in E by auto. injection E as <-. apply canon_red; auto.
Qed.

(** *** Local and global coordinates *)
Lemma global_red k w h lx ly ex ey :
  get_global_xy k w h lx ly ex ey = red k w h (vadd (lx, ly) (ex, ey)).
Proof. destruct k; reflexivity. Qed.

Lemma local_red k w h x y ex ey : good_size k w h ->
  get_local_xy k w h x y ex ey = red k w h (vadd (x, y) (vneg (ex, ey))).
Proof.
  intros [Hw Hh]. destruct k; cbn in *; unfold red, vadd, vneg, hw_get_local_xy,
    vw_get_local_xy, fw_get_local_xy, nw_get_local_xy; cbn [fst snd wraps_x wraps_y];
  rewrite ?(mod_plus_w _ w), ?(mod_plus_w _ h) by auto; reflexivity.
Qed.

Lemma local_global k w h x y ex ey lx ly : good_size k w h -> canonical k w h (x, y) ->
  get_local_xy k w h x y ex ey = (lx, ly) ->
  get_global_xy k w h lx ly ex ey = (x, y).
Proof.
  intros G C E. rewrite global_red, <- E, local_red, red_add, vadd_assoc by auto.
  unfold vneg, vadd; cbn [fst snd]. rewrite !Z.add_opp_diag_l, !Z.add_0_r.
  apply red_canon; auto.
Qed.

Lemma global_local k w h lx ly ex ey x y : good_size k w h -> canonical k w h (lx, ly) ->
  get_global_xy k w h lx ly ex ey = (x, y) ->
  get_local_xy k w h x y ex ey = (lx, ly).
Proof.
  intros G C E. rewrite local_red, <- E, global_red, red_add, vadd_assoc by auto.
  unfold vneg, vadd; cbn [fst snd]. rewrite !Z.add_opp_diag_r, !Z.add_0_r.
  apply red_canon; auto.
Qed.
