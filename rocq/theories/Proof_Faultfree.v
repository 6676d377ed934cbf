From Coq Require Import Lia ZifyBool Permutation Sorted.
From Verif Require Import Model_Py Model_Wrap Model_Float Model_Geometry Model_Version Model_Core
  Model_Machine Model_Str Model_Ignore Model_Virtual
  Spec_Hops Spec_Board Spec_Version Spec_Machine Spec_Router Spec_Str Spec_Virtual
  Proof_Wrap Proof_Py Proof_Board Proof_Version Proof_Machine Proof_Report Proof_Str Proof_Virtual
  Proof_VirtualMachine Proof_Links.
Open Scope list_scope.
Open Scope Z_scope.

Lemma flat_vec x y l : 0 <= l < 6 -> flat_neighbour x y l (x + fst (link_vec l), y + snd (link_vec l)).
Proof.
  intros H. split; auto. apply six in H.
  destruct H as [->|[->|[->|[->|[->| ->]]]]]; reflexivity.
Qed.

(** Every position of a 48 chip board has a neighbour on the board in the same
    quarter: the seams of a machine cut a board at 4 only. *)
Definition quarter_link (d : XY) : Z :=
  match find (fun l =>
    let q := vadd d (link_vec l) in
    xymem (expected_xys V5) q && Bool.eqb (fst d <? 4) (fst q <? 4) && Bool.eqb (snd d <? 4) (snd q <? 4))
    (zrange 0 6) with
  | Some l => l
  | None => -1
  end.

Lemma quarter_ok d : In d (expected_xys V5) ->
  let l := quarter_link d in let q := vadd d (link_vec l) in
  0 <= l < 6 /\ In q (expected_xys V5) /\ (fst d < 4 <-> fst q < 4) /\ (snd d < 4 <-> snd q < 4).
Proof.
  assert (forallb (fun d => let l := quarter_link d in let q := vadd d (link_vec l) in
    (0 <=? l) && (l <? 6) && xymem (expected_xys V5) q && Bool.eqb (fst d <? 4) (fst q <? 4) &&
    Bool.eqb (snd d <? 4) (snd q <? 4)) (expected_xys V5) = true) as K by (vm_compute; reflexivity).
  intros H. rewrite forallb_forall in K. specialize (K d H). cbv zeta in *.
  rewrite !andb_true_iff in K. destruct K as ((((K1 & K2) & K3) & K4) & K5).
  apply xymem_in in K3. apply Bool.eqb_prop in K4, K5. repeat split; auto; lia.
Qed.

(** Crossing no seam: the neighbour of a chip in the same quarter. *)
Lemma seam (b : bool) n e d q : (4 | e) -> 0 <= e < n -> (b = true -> (4 | n)) ->
  0 <= d <= 7 -> 0 <= q <= 7 -> 8 <= n -> (d < 4 <-> q < 4) ->
  (if b then (q + e) mod n else q + e) = (if b then (d + e) mod n else d + e) + (q - d).
Proof.
  intros [t ->] H N D Q N8 S. destruct b; [|lia]. destruct (N eq_refl) as [s ->].
  destruct (Z.lt_ge_cases d 4) as [L|L].
  - rewrite !Z.mod_small by lia. lia.
  - destruct (Z.lt_ge_cases (t + 1) s) as [X|X].
    + rewrite !Z.mod_small by lia. lia.
    + replace (q + t * 4) with (q - 4 + 1 * (s * 4)) by lia.
      replace (d + t * 4) with (d - 4 + 1 * (s * 4)) by lia.
      rewrite !Z.mod_add by lia. rewrite !Z.mod_small by lia. lia.
Qed.

Section FaultFree.
Context {c : config} {V : version} {w h : Z} {m : machine} {dco : list ignore_core}.
Hypothesis B : built c V w h m [] dco [].
Let v := v_id V.

(** A neighbour on the same board, where coordinates do not wrap. *)
Lemma near x y ch : v <> V201 -> get_chip_at m x y = Some ch ->
  exists l q n, flat_neighbour x y l q /\ m_over m x y l = Ok q /\
    ~ link_down v [] x y l /\ ~ link_down v [] (fst q) (snd q) (opposite l) /\
    get_chip_at m (fst q) (snd q) = Some n /\ (c_eth_x n, c_eth_y n) = (c_eth_x ch, c_eth_y ch).
Proof using B.
  intros NV G. destruct (proj1 (built_present B x y) (ex_intro _ ch G)) as [(e & d & n & P) _].
  pose proof (b_sup _ _ _ _ _ _ _ _ B) as S.
  destruct (layout_exists (v_id V) w h S) as [eths L].
  destruct (built_fields B x y ch e d n G P) as (_ & _ & F & _).
  pose proof P as P0. apply (place_spot B eths) in P as (He & Hd & Q); auto.
  assert (In d (expected_xys (v_id V))) as Hd' by (apply expected_in; eauto).
  assert (forall l d', 0 <= l < 6 -> In d' (expected_xys (v_id V)) ->
    spot (v_id V) w h d' e = (x + fst (link_vec l), y + snd (link_vec l)) ->
    ~ link_down v [] x y l -> ~ link_down v [] (x + fst (link_vec l)) (y + snd (link_vec l)) (opposite l) ->
    exists l q n, flat_neighbour x y l q /\ m_over m x y l = Ok q /\
    ~ link_down v [] x y l /\ ~ link_down v [] (fst q) (snd q) (opposite l) /\
    get_chip_at m (fst q) (snd q) = Some n /\ (c_eth_x n, c_eth_y n) = (c_eth_x ch, c_eth_y ch)) as K.
  { intros l d' Hl Hx E N1 N2. set (q := (x + fst (link_vec l), y + snd (link_vec l))) in *.
    apply expected_in in Hx as [k Hk].
    assert (place_of (v_id V) w h (fst q, snd q) e d' k) as P'.
    { apply (place_spot B eths); auto. }
    assert (exists n, get_chip_at m (fst q) (snd q) = Some n) as [n' Gn].
    { apply (built_present B). split; eauto. }
    exists l, q, n'. split; [apply flat_vec; auto|]. split.
    { unfold m_over. rewrite over_red; auto using (start_good B).
      f_equal. transitivity (red (m_kind m) (m_width m) (m_height m) q); [reflexivity|].
      apply red_canon. pose proof (built_inside B _ _ _ Gn) as I.
      rewrite (b_width _ _ _ _ _ _ _ _ B), (b_height _ _ _ _ _ _ _ _ B).
      apply inside_canonical. exact I. }
    repeat split; auto. destruct (built_fields B _ _ _ _ _ _ Gn P') as (_ & _ & F' & _). congruence. }
  destruct (v_id V) eqn:VE; [| |exfalso; apply NV; reflexivity|].
  - (* four chips *)
    destruct S as [-> ->]. cbn in He. apply (lay_origin _ _ _ _ L) in He. cbn in He. subst e.
    assert (x = fst d /\ y = snd d /\ (d = (0,0) \/ d = (0,1) \/ d = (1,0) \/ d = (1,1))) as (Xx & Yy & D).
    { vm_compute in Hd'. destruct Hd' as [<-|[<-|[<-|[<-|[]]]]]; vm_compute in Q; injection Q as -> ->;
        cbn; auto 10. }
    destruct D as [-> | [-> | [-> | ->]]]; cbn in Xx, Yy; subst x y.
    + apply (K 2 (0, 1)); try lia; try reflexivity; try (vm_compute; auto 10);
        intros [[]|[_ X]]; vm_compute in X; lia.
    + apply (K 5 (0, 0)); try lia; try reflexivity; try (vm_compute; auto 10);
        intros [[]|[_ X]]; vm_compute in X; lia.
    + apply (K 2 (1, 1)); try lia; try reflexivity; try (vm_compute; auto 10);
        intros [[]|[_ X]]; vm_compute in X; lia.
    + apply (K 5 (1, 0)); try lia; try reflexivity; try (vm_compute; auto 10);
        intros [[]|[_ X]]; vm_compute in X; lia.
  - assert (size48 w h) as S48 by exact S.
    destruct (quarter_ok d Hd') as (R1 & R2 & R3 & R4).
    apply (K (quarter_link d) (vadd d (link_vec (quarter_link d)))); auto.
    2, 3: intros [[]|[X _]]; unfold v in X; congruence.
    set (vv := link_vec (quarter_link d)) in *.
    apply (board48 V5) in Hd'; auto. apply (board48 V5) in R2; auto.
    apply (lay_origin _ _ _ _ L) in He. destruct He as [[T1 T2] [[I1 I2] _]].
    cbn [fst snd] in T1, T2. rewrite Z.sub_0_r in T1. rewrite !Z.sub_0_r in T2.
    assert (4 | snd e) as T3.
    { destruct T1 as [a Ha], T2 as [b Hb]. exists (3 * b - a). lia. }
    pose proof (size48_pos w h S48) as [Pw Ph].
    pose proof (class_should_wrap V5 w h S) as [Cx Cy].
    unfold spot, red in *. cbn [vadd fst snd] in *.
    pose proof (f_equal fst Q) as Qx. pose proof (f_equal snd Q) as Qy. cbn [fst snd] in Qx, Qy.
    rewrite Qx, Qy.
    destruct d as [dx dy], vv as [ax ay], e as [ex ey]. unfold on_board, vadd in *. cbn [fst snd] in *.
    apply pair_eq.
    + etransitivity; [apply (seam _ w ex dx (dx + ax)); auto; try lia|].
      * intros X. apply Cx in X. destruct X as [k ->]. exists (3 * k). lia.
      * lia.
    + etransitivity; [apply (seam _ h ey dy (dy + ay)); auto; try lia|].
      * intros X. apply Cy in X. destruct X as [k ->]. exists (3 * k). lia.
      * lia.
  - assert (size48 w h) as S48 by exact S.
    assert (In d (expected_xys V5)) as Hd5 by (apply (board48 V5); auto; apply (board48 V248) in Hd'; auto).
    destruct (quarter_ok d Hd5) as (R1 & R2 & R3 & R4).
    apply (K (quarter_link d) (vadd d (link_vec (quarter_link d)))); auto.
    2, 3: intros [[]|[X _]]; unfold v in X; congruence.
    set (vv := link_vec (quarter_link d)) in *.
    apply (board48 V248) in Hd'; auto. apply (board48 V5) in R2; auto.
    apply (lay_origin _ _ _ _ L) in He. destruct He as [[T1 T2] [[I1 I2] _]].
    cbn [fst snd] in T1, T2. rewrite Z.sub_0_r in T1. rewrite !Z.sub_0_r in T2.
    assert (4 | snd e) as T3.
    { destruct T1 as [a Ha], T2 as [b Hb]. exists (3 * b - a). lia. }
    pose proof (size48_pos w h S48) as [Pw Ph].
    pose proof (class_should_wrap V248 w h S) as [Cx Cy].
    unfold spot, red in *. cbn [vadd fst snd] in *.
    pose proof (f_equal fst Q) as Qx. pose proof (f_equal snd Q) as Qy. cbn [fst snd] in Qx, Qy.
    rewrite Qx, Qy.
    destruct d as [dx dy], vv as [ax ay], e as [ex ey]. unfold on_board, vadd in *. cbn [fst snd] in *.
    apply pair_eq.
    + etransitivity; [apply (seam _ w ex dx (dx + ax)); auto; try lia|].
      * intros X. apply Cx in X. destruct X as [k ->]. exists (3 * k). lia.
      * lia.
    + etransitivity; [apply (seam _ h ey dy (dy + ay)); auto; try lia|].
      * intros X. apply Cy in X. destruct X as [k ->]. exists (3 * k). lia.
      * lia.
Qed.

Lemma free_link x y ch l q n : get_chip_at m x y = Some ch -> 0 <= l < 6 ->
  ~ link_down v [] x y l -> m_over m x y l = Ok q -> get_chip_at m (fst q) (snd q) = Some n ->
  is_link (c_router ch) l = true.
Proof using B.
  intros G Hl N O Gn. destruct q as [qx qy].
  assert (get_link (c_router ch) l = Some (mkLink x y l qx qy)) as E.
  { apply (built_link B x y ch l _ G). split; auto. split; auto. exists qx, qy. eauto. }
  unfold is_link, dmem. unfold get_link in E. rewrite E. auto.
Qed.

Lemma free_local : v <> V201 ->
  unreachable_outgoing_local_chips m = [] /\ unreachable_incoming_local_chips m = [].
Proof using B.
  intros NV. pose proof (b_wf _ _ _ _ _ _ _ _ B) as W.
  assert (forall l : list XY, (forall p, ~ In p l) -> l = []) as NIL.
  { intros [|p l] H; auto. exfalso. apply (H p). left. auto. }
  split; apply NIL; intros [x y] H.
  - apply (outgoing_local_spec m (x, y) W) in H as (ch & G & X). apply X. cbn [fst snd] in G.
    pose proof G as G'. apply get_chip_in in G' as [_ E]; auto. injection E as Ex Ey.
    destruct (near x y ch NV G) as (l & q & n & F & O & N1 & N2 & Gn & EQ).
    exists l, q, n. rewrite Ex, Ey. split; auto. split; auto.
    apply (free_link x y ch l q n); auto. apply F.
  - apply (incoming_local_spec m (x, y) W) in H as (ch & G & X). apply X. cbn [fst snd] in G.
    pose proof G as G'. apply get_chip_in in G' as [_ E]; auto. injection E as Ex Ey.
    destruct (near x y ch NV G) as (l & q & n & F & O & N1 & N2 & Gn & EQ).
    exists l, q, n. rewrite Ex, Ey. split; auto. split; auto. split; auto.
    apply (free_link (fst q) (snd q) n (opposite l) (x, y) ch); auto.
    + apply opposite_range.
    + pose proof (built_inside B x y ch G) as I.
      pose proof (inside_canonical (m_kind m) _ _ _ I) as CA.
      rewrite <- (b_width _ _ _ _ _ _ _ _ B), <- (b_height _ _ _ _ _ _ _ _ B) in CA.
      pose proof (there_and_back (m_kind m) (m_width m) (m_height m) (x, y) l (start_good B) CA (proj1 F)) as E.
      cbn [follow fst snd] in E. unfold m_over in *. rewrite O in E. cbn [bind] in E.
      destruct (xy_over_link _ _ _ _ _ (opposite l)); exact E.
Qed.

End FaultFree.
