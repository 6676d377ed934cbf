(** Walks over the links of virtual machines. *)
From Coq Require Import Lia ZifyBool Znumtheory.
From Verif Require Import Model_Py Model_Wrap Model_Float Model_Geometry Model_Version Model_Core
  Model_Machine Model_Str Model_Ignore Model_Virtual
  Spec_Hops Spec_Board Spec_Version Spec_Machine Spec_Boards Spec_Str Spec_Virtual Spec_Walk
  Proof_Wrap Proof_Py Proof_Board Proof_Version Proof_Machine Proof_Report Proof_Str Proof_Virtual
  Proof_VirtualMachine Proof_Faultfree.
Open Scope list_scope.
Open Scope Z_scope.

Lemma walk_app m p n q n' r : walk m p n q -> walk m q n' r -> walk m p (n + n') r.
Proof.
  induction 1 as [p ch G|p ch l k n q G K _ IH]; intros W; [exact W|].
  cbn [Nat.add]. eapply walk_link; eauto.
Qed.

Lemma chip_there m x y : is_chip_at m x y = true <-> exists ch, get_chip_at m x y = Some ch.
Proof.
  unfold is_chip_at, get_chip_at, dmem. destruct (dget xy_eqb (m_chips m) (x, y)); split; eauto; [discriminate|].
  intros [? ?]. discriminate.
Qed.

(** ** Any virtual machine: a walk is a route *)
Section Any.
Context {c : config} {V : version} {w h : Z} {m : machine} {dch : list ignore_chip}
  {dco : list ignore_core} {dl : list ignore_link}.
Hypothesis B : built c V w h m dch dco dl.

Lemma walk_ends p n q : walk m p n q -> inside w h p /\ inside w h q.
Proof using B.
  induction 1 as [p ch G|p ch l k n q G K _ IH].
  - apply (built_inside B) in G. rewrite <- surjective_pairing in G. auto.
  - apply (built_inside B) in G. rewrite <- surjective_pairing in G. tauto.
Qed.

Lemma walk_route p n q : walk m p n q ->
  exists links, route (m_kind m) (m_width m) (m_height m) p q links /\ List.length links = n.
Proof using B.
  induction 1 as [p ch G|p ch l k n q G K _ [links [[F R] L]]].
  - exists []. split; [split; [constructor|reflexivity]|reflexivity].
  - apply (built_link B _ _ _ _ _ G) in K as (Hl & _ & dx & dy & O & -> & _).
    exists (l :: links). split; [split|].
    + constructor; auto.
    + cbn [follow]. unfold m_over in O. rewrite O. cbn [bind]. exact R.
    + cbn. congruence.
Qed.

Lemma walk_bound p n q : walk m p n q ->
  get_vector_length (m_kind m) (m_width m) (m_height m) p q <= Z.of_nat n.
Proof using B.
  intros W. destruct (walk_ends _ _ _ W) as [I J]. apply walk_route in W as (links & R & <-).
  assert (shortest (m_kind m) (m_width m) (m_height m) p q
    (get_vector_length (m_kind m) (m_width m) (m_height m) p q)) as [_ S].
  { apply length_shortest; [apply (start_good B)| |];
      rewrite (b_width _ _ _ _ _ _ _ _ B), (b_height _ _ _ _ _ _ _ _ B); apply inside_canonical; auto. }
  apply S. auto.
Qed.
End Any.

Lemma link_back l : 0 <= l < 6 -> link_vec (opposite l) = (- fst (link_vec l), - snd (link_vec l)).
Proof. intros H. destruct (link_cases l H) as [->|[->|[->|[->|[->| ->]]]]]; reflexivity. Qed.

(** ** The 48 chip board: there is always a shortest way on the board *)
Definition on48 (d : XY) : bool := xymem (expected_xys V5) d.

Lemma on48_in d : on48 d = true <-> on_board d.
Proof. unfold on48. rewrite xymem_in. apply board48. auto. Qed.

Definition closer (d d' : XY) (l : Z) : bool :=
  on48 (vadd d (link_vec l)) &&
  (nw_get_vector_length (vadd d (link_vec l)) d' =? nw_get_vector_length d d' - 1).

Lemma closer_exists d d' : on_board d -> on_board d' -> d <> d' ->
  exists l, 0 <= l < 6 /\ on_board (vadd d (link_vec l)) /\
    nw_get_vector_length (vadd d (link_vec l)) d' = nw_get_vector_length d d' - 1.
Proof.
  assert (forallb (fun d => forallb (fun d' => xy_eqb d d' || existsb (closer d d') (zrange 0 6))
    (expected_xys V5)) (expected_xys V5) = true) as K by (vm_compute; reflexivity).
  intros H H' N. apply on48_in in H, H'. unfold on48 in H, H'. apply xymem_in in H, H'.
  rewrite forallb_forall in K. specialize (K d H). rewrite forallb_forall in K. specialize (K d' H').
  apply orb_true_iff in K as [K|K]; [apply xyeqb_eq in K; contradiction|].
  apply existsb_exists in K as (l & Hl & K). apply in_zrange in Hl. exists l. split; auto.
  unfold closer in K. apply andb_true_iff in K as [K1 K2]. split; [apply on48_in; auto|lia].
Qed.

(** ** A machine without faults *)
Section FaultFree.
Context {c : config} {V : version} {w h : Z} {m : machine} {dco : list ignore_core}.
Hypothesis B : built c V w h m [] dco [].
Let v := v_id V.

Lemma free_chip x y : (exists e d n, place_of v w h (x, y) e d n) -> exists ch, get_chip_at m x y = Some ch.
Proof using B. intros H. apply (built_present B). split; [exact H|intros []]. Qed.

Lemma free_step p ch l q ch' : v <> V3 ->
  get_chip_at m (fst p) (snd p) = Some ch -> 0 <= l < 6 ->
  m_over m (fst p) (snd p) l = Ok q -> get_chip_at m (fst q) (snd q) = Some ch' -> walk m p 1 q.
Proof using B.
  intros NV G Hl O G'. destruct q as [qx qy].
  apply (walk_link m p ch l (mkLink (fst p) (snd p) l qx qy) 0).
  - exact G.
  - apply (built_link B _ _ _ _ _ G). split; auto. split.
    + intros [[]|[X _]]. contradiction.
    + exists qx, qy. split; auto. split; auto. exists ch'. exact G'.
  - apply (walk_stay m (qx, qy) ch'). exact G'.
Qed.

Hypothesis V48 : v = V5 \/ v = V248.

Lemma free_not3 : v <> V3.
Proof using V48. clear B. intros E. rewrite E in V48. destruct V48; discriminate. Qed.

Lemma origin_chip d e : board_origin v w h e -> on_board d ->
  exists ch, get_chip_at m (fst (spot v w h d e)) (snd (spot v w h d e)) = Some ch.
Proof using B V48.
  intros He Hd. destruct (layout_exists v w h (b_sup _ _ _ _ _ _ _ _ B)) as [eths L].
  apply free_chip. apply (board48 v V48) in Hd. apply expected_in in Hd as [n Hn].
  exists e, d, n. apply (place_spot B eths); auto. split; [apply (lay_origin _ _ _ _ L); auto|].
  split; [exact Hn|symmetry; apply surjective_pairing].
Qed.

(** One link further on the board *)
Lemma spot_over d e l : 0 <= l < 6 ->
  m_over m (fst (spot v w h d e)) (snd (spot v w h d e)) l = Ok (spot v w h (vadd d (link_vec l)) e).
Proof using B.
  intros Hl. unfold m_over. rewrite over_red by (auto using (start_good B)). f_equal.
  rewrite (b_kind _ _ _ _ _ _ _ _ B), (b_width _ _ _ _ _ _ _ _ B), (b_height _ _ _ _ _ _ _ _ B).
  fold v. rewrite <- surjective_pairing. unfold spot. rewrite red_add. f_equal.
  unfold vadd. cbn. apply pair_eq; lia.
Qed.

(** From board to board: the same position seen from two boards *)
Lemma spot_shift d e d' e' : vadd d e = vadd d' e' -> spot v w h d e = spot v w h d' e'.
Proof. intros E. unfold spot. rewrite E. auto. Qed.

Lemma board_walk d d' e : board_origin v w h e -> on_board d -> on_board d' ->
  walk m (spot v w h d e) (Z.to_nat (nw_get_vector_length d d')) (spot v w h d' e).
Proof using B V48.
  intros He. remember (Z.to_nat (nw_get_vector_length d d')) as n eqn:N. revert d N.
  assert (good_size NoWrap 8 8) as G8 by (split; intros; discriminate).
  induction n as [|n IH]; intros d N Hd Hd'.
  - assert (d = d') as <-.
    { pose proof (length_nonneg NoWrap 8 8 d d' G8) as P. cbn [get_vector_length] in P.
      apply (length_zero NoWrap 8 8 d d' G8); try (split; intros; discriminate).
      cbn [get_vector_length]. lia. }
    destruct (origin_chip d e He Hd) as [ch G]. apply (walk_stay m _ ch G).
  - assert (d <> d') as ND.
    { intros <-. assert (nw_get_vector_length d d = 0) as Z0.
      { apply (length_zero NoWrap 8 8 d d G8); auto; split; intros; discriminate. }
      rewrite Z0 in N. discriminate. }
    destruct (closer_exists d d' Hd Hd' ND) as (l & Hl & Hq & E).
    change (S n) with (1 + n)%nat. apply (walk_app m _ 1 (spot v w h (vadd d (link_vec l)) e) n).
    + destruct (origin_chip d e He Hd) as [ch G], (origin_chip _ e He Hq) as [ch' G'].
      apply (free_step _ ch l _ ch'); auto using free_not3, spot_over.
    + apply IH; auto. lia.
Qed.

(** Stepping from a board to the next one *)
Lemma next_walk d l e d' e' : 0 <= l < 6 -> on_board d -> on_board d' ->
  board_origin v w h e -> board_origin v w h e' -> vadd (vadd d (link_vec l)) e = vadd d' e' ->
  walk m (spot v w h d e) 1 (spot v w h d' e').
Proof using B V48.
  intros Hl Hd Hd' He He' E. destruct (origin_chip d e He Hd) as [ch G], (origin_chip d' e' He' Hd') as [ch' G'].
  apply (free_step _ ch l _ ch'); auto using free_not3. rewrite spot_over; auto. f_equal.
  apply spot_shift. auto.
Qed.

Lemma board_step e e' d l d' : 0 <= l < 6 -> on_board d -> on_board d' ->
  board_origin v w h e -> board_origin v w h e' -> vadd (vadd d (link_vec l)) e = vadd d' e' ->
  (exists n, walk m (spot v w h (0, 0) e) n (spot v w h (0, 0) e')) /\
  (exists n, walk m (spot v w h (0, 0) e') n (spot v w h (0, 0) e)).
Proof using B V48.
  intros Hl Hd Hd' He He' E.
  assert (on_board (0, 0)) as H0 by (unfold on_board; cbn; lia).
  split; eexists.
  - eapply walk_app; [apply (board_walk (0, 0) d e); auto|].
    eapply walk_app; [apply (next_walk d l e d' e'); auto|]. apply board_walk; auto.
  - eapply walk_app; [apply (board_walk (0, 0) d' e'); auto|].
    eapply walk_app; [apply (next_walk d' (opposite l) e' d e); auto using opposite_range|].
    + rewrite (link_back l Hl). unfold vadd in *. cbn [fst snd] in *. injection E as X Y. apply pair_eq; lia.
    + apply board_walk; auto.
Qed.

Lemma origins_meet e : board_origin v w h e ->
  (exists n, walk m (spot v w h (0, 0) e) n (spot v w h (0, 0) (0, 0))) /\
  (exists n, walk m (spot v w h (0, 0) (0, 0)) n (spot v w h (0, 0) e)).
Proof using B V48.
  pose proof (b_sup _ _ _ _ _ _ _ _ B) as S. fold v in S.
  assert (size48 w h) as S48 by (destruct V48 as [X|X]; rewrite X in S; exact S). clear S.
  assert (forall e, board_origin v w h e <-> triad_origin (0, 0) e /\ board_fits w h e) as BO.
  { intros e'. destruct V48 as [X|X]; rewrite X; reflexivity. }
  assert (forall a b, (exists n, walk m a n b) -> forall c, (exists n, walk m b n c) -> exists n, walk m a n c) as T.
  { intros a b [n H] d [n' H']. eexists. eapply walk_app; eauto. }
  assert (0 <= fst e + snd e \/ fst e + snd e < 0) as D by lia.
  intros He. remember (Z.to_nat (fst e + snd e)) as n eqn:N.
  revert e He N D. induction n as [n IH] using lt_wf_ind. intros [x y] He N _. cbn [fst snd] in N.
  pose proof He as He0. apply BO in He as [[[a A] [b Bb]] [[I1 I2] [F1 F2]]].
  cbn [fst snd] in A, Bb, I1, I2, F1, F2.
  assert (forall x' y' a' b', x' = a' * 4 -> x' + y' = b' * 12 -> 0 <= x' < w -> 0 <= y' < h ->
    (~ (12 | w) -> x' + 8 <= w) -> (~ (12 | h) -> y' + 8 <= h) -> board_origin v w h (x', y')) as MK.
  { intros x' y' a' b' E1 E2 E3 E4 E5 E6. apply BO. split; [split|]; cbn.
    - exists a'. lia.
    - exists b'. lia.
    - unfold board_fits, inside. cbn. auto. }
  assert (forall x' y', board_origin v w h (x', y') -> x' + y' < x + y -> 0 <= x' + y' ->
    (exists n, walk m (spot v w h (0, 0) (x', y')) n (spot v w h (0, 0) (0, 0))) /\
    (exists n, walk m (spot v w h (0, 0) (0, 0)) n (spot v w h (0, 0) (x', y')))) as IH'.
  { intros x' y' O L P. apply (IH (Z.to_nat (x' + y'))); auto; cbn [fst snd]; try lia. }
  assert (forall x' y' d l d', board_origin v w h (x', y') ->
    (exists n, walk m (spot v w h (0, 0) (x', y')) n (spot v w h (0, 0) (0, 0))) /\
    (exists n, walk m (spot v w h (0, 0) (0, 0)) n (spot v w h (0, 0) (x', y'))) ->
    0 <= l < 6 -> on_board d -> on_board d' -> vadd (vadd d (link_vec l)) (x', y') = vadd d' (x, y) ->
    (exists n, walk m (spot v w h (0, 0) (x, y)) n (spot v w h (0, 0) (0, 0))) /\
    (exists n, walk m (spot v w h (0, 0) (0, 0)) n (spot v w h (0, 0) (x, y)))) as GO.
  { intros x' y' d l d' O [W1 W2] Hl Hd Hd' E.
    destruct (board_step (x', y') (x, y) d l d' Hl Hd Hd' O He0 E) as [S1 S2].
    split; eapply T; eauto. }
  assert (w = 8 /\ h = 8 \/ 12 <= w /\ 12 <= h) as W12.
  { destruct S48 as [S|(S1 & S2 & [s3 S3] & [s4 S4])]; [left; auto|right; lia]. }
  assert (~ (12 | 8)) as N8 by (intros [k K]; lia).
  Ltac pos := unfold vadd, link_vec; cbn [fst snd Z.eqb Pos.eqb]; apply pair_eq; lia.
  Ltac fit := first [lia | intros Hn; first [lia | match goal with F : ~ (12 | _) -> _ |- _ => specialize (F Hn); lia end]].
  assert (x = 0 /\ y = 0 \/ 4 <= x /\ 8 <= y \/ 8 <= x /\ 4 <= y \/ x = 0 /\ 12 <= y \/ 12 <= x /\ y = 0) as CA by lia.
  destruct CA as [[-> ->]|[[X Y]|[[X Y]|[[X Y]|[X Y]]]]].
  - destruct (origin_chip (0, 0) (0, 0) He0 ltac:(unfold on_board; cbn; lia)) as [ch G].
    split; exists 0%nat; apply (walk_stay m _ ch G).
  - apply (GO (x - 4) (y - 8) (4, 7) 2 (0, 0)); try lia; try (unfold on_board; cbn; lia).
    + apply (MK _ _ (a - 1) (b - 1)); fit.
    + apply IH'; [apply (MK _ _ (a - 1) (b - 1)); fit|lia|lia].
    + pos.
  - apply (GO (x - 8) (y - 4) (7, 3) 1 (0, 0)); try lia; try (unfold on_board; cbn; lia).
    + apply (MK _ _ (a - 2) (b - 1)); fit.
    + apply IH'; [apply (MK _ _ (a - 2) (b - 1)); fit|lia|lia].
    + pos.
  - (* (0, y): by (4, y - 4) and (0, y - 12) *)
    subst x. assert (12 <= w /\ 12 <= h) as [G1 G2].
    { destruct W12 as [[-> ->]|]; auto. specialize (F2 N8). lia. }
    assert (board_origin v w h (4, y - 4)) as O1 by (apply (MK _ _ 1 b); fit).
    assert (board_origin v w h (0, y - 12)) as O2 by (apply (MK _ _ 0 (b - 1)); fit).
    destruct (IH' 0 (y - 12) O2) as [W1 W2]; try lia.
    destruct (board_step (0, y - 12) (4, y - 4) (4, 7) 2 (0, 0)) as [S1 S2]; auto; try lia;
      try (unfold on_board; cbn; lia).
    { pos. }
    apply (GO 4 (y - 4) (0, 3) 2 (4, 0)); auto; try lia; try (unfold on_board; cbn; lia).
    + split; eapply T; eauto.
    + pos.
  - subst y. assert (12 <= w /\ 12 <= h) as [G1 G2].
    { destruct W12 as [[-> ->]|]; auto. specialize (F1 N8). lia. }
    assert (board_origin v w h (x - 4, 4)) as O1 by (apply (MK _ _ (a - 1) b); fit).
    assert (board_origin v w h (x - 12, 0)) as O2 by (apply (MK _ _ (a - 3) (b - 1)); fit).
    destruct (IH' (x - 12) 0 O2) as [W1 W2]; try lia.
    destruct (board_step (x - 12, 0) (x - 4, 4) (7, 3) 1 (0, 0)) as [S1 S2]; auto; try lia;
      try (unfold on_board; cbn; lia).
    { pos. }
    apply (GO (x - 4) 4 (4, 0) 5 (0, 3)); auto; try lia; try (unfold on_board; cbn; lia).
    + split; eapply T; eauto.
    + pos.
Qed.

Lemma connected48 : connected m.
Proof using B V48.
  intros [px py] [qx qy] Hp Hq. cbn [fst snd] in Hp, Hq. apply chip_there in Hp as [ch G], Hq as [ch' G'].
  destruct (layout_exists v w h (b_sup _ _ _ _ _ _ _ _ B)) as [eths L].
  destruct (proj1 (built_present B px py) (ex_intro _ ch G)) as [(e & d & n & P) _].
  destruct (proj1 (built_present B qx qy) (ex_intro _ ch' G')) as [(e' & d' & n' & P') _].
  apply (place_spot B eths) in P as (He & Hd & ->), P' as (He' & Hd' & ->); auto.
  apply (lay_origin _ _ _ _ L) in He, He'.
  assert (on_board d) as Od by (apply (board48 v V48); apply expected_in; eauto).
  assert (on_board d') as Od' by (apply (board48 v V48); apply expected_in; eauto).
  assert (on_board (0, 0)) as O0 by (unfold on_board; cbn; lia).
  destruct (origins_meet e He) as [[k1 W1] _], (origins_meet e' He') as [_ [k2 W2]].
  eexists. eapply walk_app; [apply (board_walk d (0, 0) e); auto|].
  eapply walk_app; [exact W1|]. eapply walk_app; [exact W2|]. apply (board_walk (0, 0) d' e'); auto.
Qed.

(** Full wrap: every route can be walked. *)
Lemma route_walk : (12 | w) -> (12 | h) -> forall links p q,
  inside w h p -> route (m_kind m) (m_width m) (m_height m) p q links ->
  walk m p (List.length links) q.
Proof using B V48.
  intros Ww Wh.
  pose proof (b_sup _ _ _ _ _ _ _ _ B) as S. fold v in S.
  assert (size48 w h) as S48 by (destruct V48 as [X|X]; rewrite X in S; exact S).
  destruct (layout_exists v w h S) as [eths L].
  assert (forall p, inside w h p -> exists ch, get_chip_at m (fst p) (snd p) = Some ch) as ALL.
  { intros p I. destruct (local_chip_exists (fst p) (snd p) 0 0) as (dx & dy & LC & _).
    destruct (proj2 (cover_exact v w h eths p dx dy V48 S48 (lay_eths _ _ _ _ L) I LC)) as (e & He & Hp); [tauto|].
    apply (in_xys v w h _ _ p V48) in Hp as (d & Hd & ->). rewrite <- surjective_pairing.
    apply origin_chip; [apply (lay_origin _ _ _ _ L); auto|auto]. }
  induction links as [|l links IH]; intros p q I [F R].
  - cbn in R. apply Ok_inj in R. subst q. destruct (ALL p I) as [ch G]. apply (walk_stay m p ch G).
  - inversion F as [|? ? Hl F']; subst. cbn [follow] in R.
    destruct (xy_over_link _ _ _ _ _ l) as [r|] eqn:O; [|discriminate]. cbn [bind] in R.
    assert (inside w h r) as J.
    { rewrite over_red in O by (auto using (start_good B)). apply Ok_inj in O. subst r.
      pose proof (canon_red (m_kind m) (m_width m) (m_height m) (vadd (fst p, snd p) (link_vec l)) (start_good B)) as [C1 C2].
      pose proof (class_should_wrap v w h S) as [Cx Cy]. fold v in Cx, Cy.
      rewrite (b_kind _ _ _ _ _ _ _ _ B), (b_width _ _ _ _ _ _ _ _ B), (b_height _ _ _ _ _ _ _ _ B) in *.
      fold v in C1, C2 |- *.
      assert (should_wrap v w /\ should_wrap v h) as [Q1 Q2] by (destruct V48 as [X|X]; rewrite X; split; assumption).
      split; [apply C1; apply Cx; auto|apply C2; apply Cy; auto]. }
    cbn [List.length]. change (Datatypes.S (List.length links)) with (1 + List.length links)%nat.
    destruct (ALL p I) as [ch G], (ALL r J) as [ch' G'].
    apply (walk_app m p 1 r); [apply (free_step p ch l r ch'); auto using free_not3|].
    apply IH; auto. split; auto.
Qed.
End FaultFree.
