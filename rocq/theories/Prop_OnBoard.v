(** C07 (end): the chips of the same board. *)
From Coq Require Import Lia ZifyBool Permutation.
From Verif Require Import Model_Py Model_Wrap Model_Version Model_Core Model_Machine Model_Str Model_Ignore Model_Virtual
  Spec_Hops Spec_Board Spec_Version Spec_Machine Spec_Boards Spec_Str Spec_Virtual
  Proof_Wrap Proof_Py Proof_Board Proof_Version Proof_Machine Proof_Report Proof_Str Proof_Virtual
  Proof_VirtualMachine Prop_Machine Prop_Repair.
Open Scope list_scope.
Open Scope Z_scope.

(** On any machine: get_existing_xys_on_board of a chip, on the machine or not, are
    the coordinates of its board where the machine has a chip. *)
Theorem C07_existing_on_board :
  forall v m, made v m -> forall ch p,
    In p (get_existing_xys_on_board m ch) <->
    (exists d, In d (local_xys m) /\ p = m_global m (fst d) (snd d) (c_eth_x ch) (c_eth_y ch)) /\
    is_chip_at m (fst p) (snd p) = true.
Proof.
  intros v m M ch p. unfold get_existing_xys_on_board.
  destruct (C07_existing_and_down_partition v m M (c_eth_x ch) (c_eth_y ch)) as (_ & E & _).
  destruct (C07_board_coordinates m (c_eth_x ch) (c_eth_y ch)) as [X _].
  rewrite E, X, in_map_iff. unfold is_chip_at, get_chip_at, dmem. split.
  - intros [(d & <- & Hd) [c G]]. split; [eauto|]. rewrite G. reflexivity.
  - intros [(d & Hd & ->) G]. split; [eauto|].
    match type of G with match ?o with _ => _ end = true => destruct o; [eauto|discriminate] end.
Qed.
Print Assumptions C07_existing_on_board.

(** On a virtual machine these are the chips with the same nearest Ethernet chip. *)
Theorem C07_chips_of_the_same_board :
  forall c V w h check m, virtual_machine c V w h check = Ok m ->
  forall ch, In ch (chips m) -> forall p,
    In p (get_existing_xys_on_board m ch) <->
    exists ch', get_chip_at m (fst p) (snd p) = Some ch' /\
      c_eth_x ch' = c_eth_x ch /\ c_eth_y ch' = c_eth_y ch.
Proof.
  intros c V w h check m E ch Hc p. destruct (C28_virtual_is_made c V w h check m E) as [M _].
  rewrite (C07_existing_on_board (v_id V) m M).
  apply virtual_built in E as (dch & dco & dl & B & _).
  pose proof (b_wf _ _ _ _ _ _ _ _ B) as W.
  destruct (layout_exists (v_id V) w h (b_sup _ _ _ _ _ _ _ _ B)) as [eths L].
  assert (get_chip_at m (c_x ch) (c_y ch) = Some ch) as G by (apply get_chip_in; auto).
  destruct (proj1 (built_present B _ _) (ex_intro _ ch G)) as [(e & d & n & P) _].
  destruct (built_fields B _ _ ch e d n G P) as (_ & _ & F & _).
  assert (forall d e, m_global m (fst d) (snd d) (fst e) (snd e) = spot (v_id V) w h d e) as SP.
  { intros [dx dy] [ex ey]. unfold m_global, spot.
    rewrite (b_kind _ _ _ _ _ _ _ _ B), (b_width _ _ _ _ _ _ _ _ B), (b_height _ _ _ _ _ _ _ _ B).
    apply global_red. }
  assert (local_xys m = expected_xys (v_id V)) as LX.
  { unfold local_xys, expected_xys. rewrite (b_ccm _ _ _ _ _ _ _ _ B). reflexivity. }
  rewrite LX. rewrite <- F in P.
  apply (place_spot B eths) in P as (He & Hd & _); auto.
  split.
  - intros [(d' & Hd' & ->) PR].
    pose proof (SP d' (c_eth_x ch, c_eth_y ch)) as Q. cbn [fst snd] in Q. rewrite Q in PR |- *. clear Q.
    set (q := spot (v_id V) w h d' (c_eth_x ch, c_eth_y ch)) in *.
    assert (exists ch', get_chip_at m (fst q) (snd q) = Some ch') as [ch' G'].
    { unfold is_chip_at, dmem in PR. unfold get_chip_at.
      destruct (dget xy_eqb (m_chips m) (fst q, snd q)); [eauto|discriminate]. }
    exists ch'. split; [exact G'|]. apply expected_in in Hd' as [n' Hd'].
    assert (place_of (v_id V) w h (fst q, snd q) (c_eth_x ch, c_eth_y ch) d' n') as P'.
    { apply (place_spot B eths); [exact L|]. split; [auto|]. split; [auto|]. symmetry. apply surjective_pairing. }
    destruct (built_fields B _ _ ch' _ d' n' G' P') as (_ & _ & F' & _). injection F' as -> ->. auto.
  - intros (ch' & G' & E1 & E2). split.
    + destruct (proj1 (built_present B _ _) (ex_intro _ ch' G')) as [(e' & d' & n' & P') _].
      destruct (built_fields B _ _ ch' _ d' n' G' P') as (_ & _ & F' & _). rewrite E1, E2 in F'. subst e'.
      apply (place_spot B eths) in P' as (_ & Hd' & Q); auto. exists d'. split; [apply expected_in; eauto|].
      pose proof (SP d' (c_eth_x ch, c_eth_y ch)) as Q'. cbn [fst snd] in Q'. rewrite Q', <- Q. apply surjective_pairing.
    + unfold is_chip_at, dmem. unfold get_chip_at in G'. rewrite G'. reflexivity.
Qed.
Print Assumptions C07_chips_of_the_same_board.

Example C07_on_board_case :
  match virtual_machine (mkConfig None None None None None None false None (Some "3,3"%string) None None None None true)
    (mkVersion V5 18 100) 12 12 true with
  | Ok m => match get_chip_at m 11 0 with
      | Some ch => (Nat.eqb (List.length (get_existing_xys_on_board m ch)) 48) && xy_eqb (c_eth_x ch, c_eth_y ch) (4, 8) &&
          match get_chip_at m 0 0 with
          | Some ch' => Nat.eqb (List.length (get_existing_xys_on_board m ch')) 47
          | None => false
          end
      | None => false
      end
  | Err _ => false
  end = true.
Proof. vm_compute. reflexivity. Qed.
