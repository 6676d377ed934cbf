(** C72: how far a chip is from its nearest Ethernet chip *)
From Coq Require Import Lia.
From Verif Require Import Model_Py Model_Wrap Model_Version Model_Core Model_Machine Model_Str
  Model_Ignore Model_Factory Model_Virtual
  Spec_Hops Spec_Board Spec_Machine Spec_Router Spec_Version Spec_Virtual
  Proof_Wrap Proof_Py Proof_Board Proof_Version
  Proof_Machine Proof_Links Proof_Report Proof_Virtual Proof_VirtualMachine.
Open Scope list_scope.
Open Scope Z_scope.

Lemma times_cases w t : 12 <= w ->
  t * w <= - 2 * w \/ t * w = - w \/ t * w = 0 \/ w <= t * w.
Proof.
  intros W. assert (t <= -2 \/ t = -1 \/ t = 0 \/ 1 <= t) as [H|[H|[H|H]]] by lia; try subst t; try lia; nia.
Qed.

Lemma norm2_bounds x y : x <= norm2 (x, y) /\ - x <= norm2 (x, y) /\ y <= norm2 (x, y) /\ - y <= norm2 (x, y) /\
  x - y <= norm2 (x, y) /\ y - x <= norm2 (x, y).
Proof. unfold norm2. cbn [fst snd]. lia. Qed.

(** The distance from the Ethernet chip to the chip at position [d] of its board. *)
Lemma board_distance k w h e d : good_size k w h -> on_board d ->
  (wraps_x k = true -> 12 <= w) -> (wraps_y k = true -> 12 <= h) ->
  get_vector_length k w h e (red k w h (vadd d e)) =
  if wraps_x k && wraps_y k then Z.min (Z.max (fst d) (snd d)) (Z.max (w - fst d) (h - snd d))
  else Z.max (fst d) (snd d).
Proof.
  intros G D Wx Wy. destruct (length_min_lift k w h e (red k w h (vadd d e)) G) as [[v [L N]] M].
  rewrite <- N in *. clear N.
  assert (forall u, lifts k w h e (red k w h (vadd d e)) u <-> same_place k w h u d) as LS.
  { intros u. unfold lifts. assert (red k w h (red k w h (vadd d e)) = red k w h (vadd d e)) as ->.
    { apply red_canon, canon_red; auto. }
    split.
    - intros H. apply red_same in H; [|auto]. destruct H as [H1 H2]. unfold vadd in *. cbn [fst snd] in *.
      split; [destruct (wraps_x k)|destruct (wraps_y k)]; try lia.
      + replace (fst u - fst d) with (fst e + fst u - (fst d + fst e)) by lia. auto.
      + replace (snd u - snd d) with (snd e + snd u - (snd d + snd e)) by lia. auto.
    - intros [H1 H2]. apply same_red; [auto|]. unfold vadd. split; cbn [fst snd];
      [destruct (wraps_x k)|destruct (wraps_y k)]; try lia.
      + replace (fst e + fst u - (fst d + fst e)) with (fst u - fst d) by lia. auto.
      + replace (snd e + snd u - (snd d + snd e)) with (snd u - snd d) by lia. auto. }
  apply LS in L. destruct d as [dx dy], v as [vx vy].
  assert (norm2 (vx, vy) <= norm2 (dx, dy)) as U1.
  { apply M, LS. split; [destruct (wraps_x k)|destruct (wraps_y k)]; auto;
      rewrite Z.sub_diag; apply Z.divide_0_r. }
  assert (wraps_x k && wraps_y k = true -> norm2 (vx, vy) <= norm2 (dx - w, dy - h)) as U2.
  { intros X. apply andb_prop in X as [X Y]. apply M, LS. unfold same_place. rewrite X, Y. cbn [fst snd].
    split; [exists (-1)|exists (-1)]; lia. }
  clear M LS. unfold on_board in D. cbn [fst snd] in D |- *.
  unfold same_place in L. cbn [fst snd] in L.
  assert (norm2 (dx, dy) = Z.max dx dy) as ND by (unfold norm2; cbn [fst snd]; lia).
  rewrite ND in U1. clear ND.
  assert (norm2 (vx, vy) = Z.max (Z.max (Z.abs vx) (Z.abs vy)) (Z.abs (vx - vy))) as NV by reflexivity.
  pose proof (norm2_bounds vx vy) as NB. set (N := norm2 (vx, vy)) in *. clearbody N.
  destruct (wraps_x k) eqn:KX, (wraps_y k) eqn:KY; cbn [andb] in *.
  - specialize (U2 eq_refl). specialize (Wx eq_refl). specialize (Wy eq_refl).
    assert (norm2 (dx - w, dy - h) = Z.max (w - dx) (h - dy)) as ND by (clear - D Wx Wy; unfold norm2; cbn [fst snd]; lia).
    rewrite ND in U2. clear ND.
    destruct L as [[a A] [b B]]. clear G KX KY.
    destruct (times_cases w a ltac:(lia)) as [HA|[HA|[HA|HA]]];
    destruct (times_cases h b ltac:(lia)) as [HB|[HB|[HB|HB]]];
    rewrite <- A in HA; rewrite <- B in HB; clear A B; clear a b; try (exfalso; clear NV U2; lia).
    + clear NB. assert (vx = dx - w) by lia. assert (vy = dy - h) by lia. subst vx vy.
      assert (N = Z.max (w - dx) (h - dy)) by (clear U1 U2; lia). clear NV. lia.
    + clear NB. assert (vx = dx) by lia. assert (vy = dy) by lia. subst vx vy.
      assert (N = Z.max dx dy) by (clear U1 U2; lia). clear NV. lia.
  - specialize (Wx eq_refl). destruct L as [[a A] B]. clear G KX KY U2 Wy.
    destruct (times_cases w a ltac:(lia)) as [HA|[HA|[HA|HA]]]; rewrite <- A in HA; clear A a;
      try (exfalso; clear NV; lia). clear NB. assert (vx = dx) by lia. subst. lia.
  - specialize (Wy eq_refl). destruct L as [A [b B]]. clear G KX KY U2 Wx.
    destruct (times_cases h b ltac:(lia)) as [HA|[HA|[HA|HA]]]; rewrite <- B in HA; clear B b;
      try (exfalso; clear NV; lia). clear NB. assert (vy = dy) by lia. subst. lia.
  - destruct L as [A B]. subst. lia.
Qed.

(** C72: with (lx, ly) the position of the chip on its board, the distance to its
    Ethernet chip is the larger of the two coordinates; only if the machine wraps in
    both dimensions it may be shorter the other way round. *)
Theorem C72_distance_to_ethernet :
  forall c V w h check m, v_id V = V5 \/ v_id V = V248 -> virtual_machine c V w h check = Ok m ->
  forall ch lx ly, In ch (chips m) -> m_local m ch = (lx, ly) ->
    on_board (lx, ly) /\
    get_vector_length (m_kind m) (m_width m) (m_height m) (c_eth_x ch, c_eth_y ch) (c_x ch, c_y ch) =
      match m_kind m with
      | FullWrap => Z.min (Z.max lx ly) (Z.max (m_width m - lx) (m_height m - ly))
      | _ => Z.max lx ly
      end.
Proof.
  intros c V w h check m Hv E ch lx ly Hc LO.
  apply virtual_built in E as (dch & dco & dl & B & _).
  pose proof (b_wf _ _ _ _ _ _ _ _ B) as W. pose proof (b_sup _ _ _ _ _ _ _ _ B) as S.
  assert (get_chip_at m (c_x ch) (c_y ch) = Some ch) as G by (apply get_chip_in; auto).
  destruct (proj1 (built_present B _ _) (ex_intro _ ch G)) as [(e & d & n & P) _].
  destruct (built_fields B _ _ ch e d n G P) as (_ & _ & F & _).
  destruct (layout_exists (v_id V) w h S) as [eths L].
  apply (place_spot B eths) in P as (He & Hd & Q); auto.
  assert (on_board d) as OB. { apply (board48 (v_id V)); auto. apply expected_in. eauto. }
  pose proof (good_supported _ _ _ S) as GS.
  assert (size48 w h) as SZ by (destruct Hv as [Hv|Hv]; rewrite Hv in S; exact S).
  assert ((wraps_x (machine_class (v_id V) w h) = true -> 12 <= w) /\
                    (wraps_y (machine_class (v_id V) w h) = true -> 12 <= h)) as [W12 H12].
  { destruct (class_should_wrap (v_id V) w h S) as [A1 A2]. rewrite A1, A2.
    pose proof (size48_pos w h SZ). unfold should_wrap.
    destruct Hv as [Hv|Hv]; rewrite Hv; split; intros [t T]; lia. }
  assert (m_local m ch = d) as LD.
  { unfold m_local. rewrite (b_kind _ _ _ _ _ _ _ _ B), (b_width _ _ _ _ _ _ _ _ B), (b_height _ _ _ _ _ _ _ _ B).
    destruct d as [dx dy]. subst e. unfold spot in Q.
    apply global_local; [auto| |rewrite global_red; symmetry; exact Q].
    unfold on_board in OB. cbn [fst snd] in OB. split; cbn [fst snd]; intros X; [apply W12 in X|apply H12 in X]; lia. }
  rewrite LD in LO. subst d. split; auto.
  rewrite (b_kind _ _ _ _ _ _ _ _ B), (b_width _ _ _ _ _ _ _ _ B), (b_height _ _ _ _ _ _ _ _ B).
  rewrite F, Q. unfold spot. rewrite board_distance by auto. cbn [fst snd].
  destruct (machine_class (v_id V) w h); reflexivity.
Qed.
Print Assumptions C72_distance_to_ethernet.

(** No chip is further than 7 hops from its Ethernet chip. *)
Theorem C72_at_most_seven :
  forall c V w h check m, virtual_machine c V w h check = Ok m ->
  forall ch, In ch (chips m) ->
    0 <= get_vector_length (m_kind m) (m_width m) (m_height m) (c_eth_x ch, c_eth_y ch) (c_x ch, c_y ch) <=
      match v_id V with V3 => 1 | V201 => 0 | _ => 7 end.
Proof.
  intros c V w h check m E ch Hc.
  assert (v_id V = V3 \/ v_id V = V201 \/ v_id V = V5 \/ v_id V = V248) as [Hv|[Hv|Hv]]
    by (destruct (v_id V); auto).
  1, 2: apply virtual_built in E as (dch & dco & dl & B & _);
    pose proof (b_wf _ _ _ _ _ _ _ _ B) as W; pose proof (b_sup _ _ _ _ _ _ _ _ B) as S;
    assert (get_chip_at m (c_x ch) (c_y ch) = Some ch) as G by (apply get_chip_in; auto);
    destruct (proj1 (built_present B _ _) (ex_intro _ ch G)) as [(e & d & n & P) _];
    destruct (built_fields B _ _ ch e d n G P) as (_ & _ & F & _);
    destruct (layout_exists (v_id V) w h S) as [eths L];
    apply (place_spot B eths) in P as (He & Hd & Q); auto;
    rewrite (b_kind _ _ _ _ _ _ _ _ B), (b_width _ _ _ _ _ _ _ _ B), (b_height _ _ _ _ _ _ _ _ B), F, Q;
    apply (lay_origin _ _ _ _ L) in He; rewrite Hv in *; cbn in He; subst e; destruct S as [-> ->];
    assert (In d (expected_xys (v_id V))) as Hd' by (apply expected_in; rewrite Hv; eauto);
    rewrite Hv in Hd'; vm_compute in Hd'.
  - destruct Hd' as [<-|[<-|[<-|[<-|[]]]]]; vm_compute; split; discriminate.
  - destruct Hd' as [<-|[]]; vm_compute; split; discriminate.
  - destruct (m_local m ch) as [lx ly] eqn:LO.
    destruct (C72_distance_to_ethernet c V w h check m Hv E ch lx ly Hc LO) as [OB D].
    split; [|destruct Hv as [-> | ->]].
    + rewrite D. unfold on_board in OB. cbn [fst snd] in OB.
      apply virtual_built in E as (dch & dco & dl & B & _). pose proof (b_sup _ _ _ _ _ _ _ _ B) as S.
      assert (size48 w h) as SZ by (destruct Hv as [Hv|Hv]; rewrite Hv in S; exact S).
      apply size48_pos in SZ. rewrite (b_width _ _ _ _ _ _ _ _ B), (b_height _ _ _ _ _ _ _ _ B).
      destruct (m_kind m); lia.
    + rewrite D. unfold on_board in OB. cbn [fst snd] in OB. destruct (m_kind m); lia.
    + rewrite D. unfold on_board in OB. cbn [fst snd] in OB. destruct (m_kind m); lia.
Qed.
Print Assumptions C72_at_most_seven.

(** It is not the nearest one, as the names say: for many chips the Ethernet chip of
    another board is nearer. *)
Theorem C72_nearest_refuted :
  exists c V m ch e, virtual_machine c V 16 16 true = Ok m /\ In ch (chips m) /\
    In e (ethernet_connected_chips m) /\
    get_vector_length (m_kind m) (m_width m) (m_height m) (c_x e, c_y e) (c_x ch, c_y ch) <
    get_vector_length (m_kind m) (m_width m) (m_height m) (c_eth_x ch, c_eth_y ch) (c_x ch, c_y ch) - 2.
Proof.
  set (c := mkConfig None None None None None None false None None None None None None true).
  set (V := mkVersion V5 18 100).
  assert (match virtual_machine c V 16 16 true with Err _ => False | Ok m =>
    match get_chip_at m 7 7, get_chip_at m 8 4 with
    | Some ch, Some e => existsb (fun x => xy_eqb (c_xy x) (7, 7)) (chips m) = true /\
        (c_eth_x ch, c_eth_y ch) = (0, 0) /\ c_xy ch = (7, 7) /\ c_xy e = (8, 4) /\ c_ip e <> None /\
        get_vector_length (m_kind m) (m_width m) (m_height m) (8, 4) (7, 7) = 4 /\
        get_vector_length (m_kind m) (m_width m) (m_height m) (0, 0) (7, 7) = 7
    | _, _ => False end end) as H.
  { vm_compute. repeat split; discriminate. }
  destruct (virtual_machine c V 16 16 true) as [m|] eqn:E; [|destruct H].
  apply virtual_built in E as X. destruct X as (dch & dco & dl & B & _).
  pose proof (b_wf _ _ _ _ _ _ _ _ B) as W.
  destruct (get_chip_at m 7 7) as [ch|] eqn:G1; [|destruct H].
  destruct (get_chip_at m 8 4) as [e|] eqn:G2; [|destruct H].
  destruct H as (_ & F & X1 & X2 & I & D1 & D2).
  apply get_chip_in in G1 as [H1 _]; auto. apply get_chip_in in G2 as [H2 _]; auto.
  exists c, V, m, ch, e. unfold c_xy in X1, X2. rewrite F, X1, X2, D1, D2.
  repeat split; auto; try lia.
  unfold ethernet_connected_chips. rewrite (wf_eth m W). apply filter_In. split; auto.
  unfold has_ip. destruct (c_ip e); [reflexivity|congruence].
Qed.
Print Assumptions C72_nearest_refuted.

Example C72_case :
  match virtual_machine (mkConfig None None None None None None false None (Some "3,3"%string) None None None None true)
    (mkVersion V5 18 100) 12 12 true with
  | Err _ => False
  | Ok m => match get_chip_at m 3 11 with
      | None => False
      | Some ch => (c_eth_x ch, c_eth_y ch) = (8, 4) /\ m_local m ch = (7, 7) /\ m_kind m = FullWrap /\
          get_vector_length FullWrap 12 12 (8, 4) (3, 11) = 5
      end
  end.
Proof. vm_compute. repeat split. Qed.
