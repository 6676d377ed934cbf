(** C79: the exception of Machine.validate names the first chip that is wrong, and why. *)
From Coq Require Import Lia ZifyBool String Ascii.
From Verif Require Import Model_Py Model_Wrap Model_Version Model_Core Model_Machine Model_Str Model_Ignore
  Model_Virtual Model_Text Model_Summary Model_Repr Model_Invalid
  Spec_Hops Spec_Board Spec_Boards Spec_Version Spec_Machine Spec_Str Spec_Virtual Spec_Invalid
  Proof_Py Proof_Wrap Proof_Board Proof_Version Proof_Machine Proof_Str Proof_Virtual
  Proof_VirtualMachine Proof_Repr Prop_Machine Prop_Virtual Prop_Text.
Open Scope string_scope.
Open Scope list_scope.
Open Scope Z_scope.

(** ** The text of one chip *)

Lemma illegal_text v x y :
  illegal_ethernet_message v x y = match illegal_ethernet_text v x y with Some _ => true | None => false end.
Proof.
  destruct v; unfold illegal_ethernet_message, illegal_ethernet_text;
    [destruct (x =? 0), (y =? 0)|destruct (x mod 4 =? 0), ((x + y) mod 12 =? 0)
    |destruct (x =? 0), (y =? 0)|destruct (x mod 4 =? 0), ((x + y) mod 12 =? 0)]; reflexivity.
Qed.

Lemma illegal_why v m c t : has_address c -> illegal_ethernet_text v (c_x c) (c_y c) = Some t -> wrong v m c t.
Proof.
  intros A. unfold illegal_ethernet_text.
  assert (forall n d, 0 < d -> (n mod d =? 0) = false -> ~ (d | n)) as D.
  { intros n d P E N. apply Z.mod_divide in N; [|lia]. lia. }
  assert (forall a b : string, Some a = Some b -> a = b) as SI by congruence.
  destruct v.
  - destruct (_ || _) eqn:E; [|discriminate]. intros X. apply SI in X. subst t. apply w_eth_one; auto.
    intros [= X Y]. rewrite X, Y in E. discriminate E.
  - destruct (c_x c mod 4 =? 0) eqn:E; cbn [negb].
    + destruct ((c_x c + c_y c) mod 12 =? 0) eqn:F; cbn [negb]; [discriminate|].
      intros X. apply SI in X. subst t. apply w_eth_xy; auto. apply D; auto. lia.
    + intros X. apply SI in X. subst t. apply w_eth_x; auto. apply D; auto. lia.
  - destruct (_ || _) eqn:E; [|discriminate]. intros X. apply SI in X. subst t. apply w_eth_one; auto.
    intros [= X Y]. rewrite X, Y in E. discriminate E.
  - destruct (c_x c mod 4 =? 0) eqn:E; cbn [negb].
    + destruct ((c_x c + c_y c) mod 12 =? 0) eqn:F; cbn [negb]; [discriminate|].
      intros X. apply SI in X. subst t. apply w_eth_xy; auto. apply D; auto. lia.
    + intros X. apply SI in X. subst t. apply w_eth_x; auto. apply D; auto. lia.
Qed.

Lemma chip_text_ok v m c : validate_chip v m c = Ok tt <-> invalid_chip_text v m c = None.
Proof.
  unfold validate_chip, invalid_chip_text. rewrite illegal_text.
  destruct (illegal_ethernet_text v (c_x c) (c_y c));
    repeat match goal with |- context [if ?b then _ else _] => destruct b end; split; intros X; try discriminate X; reflexivity.
Qed.

Ltac words := unfold cat, xy_str; cbn [fold_right append fst snd]; unfold cat; cbn [fold_right append]; rewrite ?app_nil_s; reflexivity.

Lemma chip_text_why v m c t : invalid_chip_text v m c = Some t ->
  exists why, t = cat [m_where_is_chip m c; " "; why] /\ wrong v m c why.
Proof.
  assert (minimum_cores_expected v = fewest_cores v) as MC by (destruct v; reflexivity).
  assert (forall a b : string, Some a = Some b -> a = b) as SI by congruence.
  unfold invalid_chip_text. rewrite MC. generalize (m_where_is_chip m c) as wh. intros wh.
  destruct (Z.ltb_spec (c_x c) 0); [intros X; apply SI in X; subst t; eexists; split; [|apply w_neg_x; lia]; words|].
  destruct (Z.ltb_spec (c_y c) 0); [intros X; apply SI in X; subst t; eexists; split; [|apply w_neg_y; lia]; words|].
  destruct (Z.geb_spec (c_x c) (m_width m)); [intros X; apply SI in X; subst t; eexists; split; [|apply w_big_x; lia]; words|].
  destruct (Z.geb_spec (c_y c) (m_height m)); [intros X; apply SI in X; subst t; eexists; split; [|apply w_big_y; lia]; words|].
  destruct (Z.ltb_spec (n_processors c) (fewest_cores v)); [intros X; apply SI in X; subst t; eexists; split; [|apply w_cores; lia]; words|].
  destruct (ip_truthy (c_ip c)) eqn:T.
  - apply has_address_truthy in T. destruct (illegal_ethernet_text v (c_x c) (c_y c)) eqn:I; [|discriminate].
    intros X; apply SI in X; subst t. eexists; split; [words|]. apply illegal_why; auto.
  - assert (~ has_address c) as N by (rewrite <- has_address_truthy; congruence).
    destruct (is_chip_at m (c_eth_x c) (c_eth_y c)) eqn:K; cbn [negb].
    + pose proof (dmem_in xy_eqb xyeqb_eq (m_ccm m) (m_local m c)) as L2. cbn zeta.
      destruct (dmem xy_eqb (m_ccm m) (m_local m c)); cbn [negb]; [discriminate|].
      intros X; apply SI in X; subst t. destruct (m_local m c) as [lx ly] eqn:L.
      eexists; split; [|apply (w_local v m c lx ly); auto; unfold local_xys; intros Y; apply L2 in Y; discriminate Y].
      words.
    + intros X; apply SI in X; subst t. eexists; split; [|apply w_no_eth; auto]; [words|].
      unfold is_chip_at, dmem in K. unfold get_chip_at. destruct (dget xy_eqb (m_chips m) _); [discriminate K|reflexivity].
Qed.

Lemma wrong_not_well v m c why : wrong v m c why -> ~ chip_well_formed v m c.
Proof.
  intros W (X & Y & C & A & N). destruct W as [|?|?|?|?|H V E|H V D|H V D|H G|lx ly H L M]; try lia.
  - specialize (A H). destruct V as [->| ->]; destruct A as [A1 A2]; congruence.
  - specialize (A H). destruct V as [->| ->]; destruct A as [A1 A2]; tauto.
  - specialize (A H). destruct V as [->| ->]; destruct A as [A1 A2]; tauto.
  - destruct (N H) as [[e K] _]. congruence.
  - destruct (N H) as [_ K]. rewrite L in K. tauto.
Qed.

Lemma first_none f l : first_text f l = None <-> forall c, In c l -> f c = None.
Proof.
  induction l as [|a l IH]; cbn [first_text In]; [tauto|]. destruct (f a) eqn:E.
  - split; [discriminate|]. intros H. rewrite (H a) in E by auto. discriminate E.
  - rewrite IH. split; [|auto]. intros H c [<-|X]; auto.
Qed.

Lemma first_some f l t : first_text f l = Some t ->
  exists pre c post, l = pre ++ c :: post /\ (forall d, In d pre -> f d = None) /\ f c = Some t.
Proof.
  induction l as [|a l IH]; cbn [first_text]; [discriminate|]. destruct (f a) eqn:E.
  - intros X. exists [], a, l. split; auto. split; [intros d []|congruence].
  - intros X. destruct (IH X) as (pre & c & post & -> & P & F). exists (a :: pre), c, post.
    split; auto. split; auto. intros d [<-|H]; auto.
Qed.

Lemma text_none v m : validate v m = Ok tt <-> invalid_text v m = None.
Proof.
  unfold validate, invalid_text. destruct (m_boot m); [|split; intros X; discriminate X].
  destruct (_ && _); [split; intros X; discriminate X|].
  rewrite fold_res_unit_ok, first_none. split; intros H c K; apply chip_text_ok; auto.
Qed.

Lemma text_some v m t : wf m -> invalid_text v m = Some t ->
      (t = "no ethernet chip at 0, 0 found" /\
       ~ exists c a, get_chip_at m 0 0 = Some c /\ c_ip c = Some a) \/
      (t = cat ["A "; wrap_text (m_kind m); " machine of size "; dec (m_width m); ", "; dec (m_height m);
                " can not handle multiple ethernet chips"] /\
       supports_multiple_boards v = false /\ (1 < List.length (ethernet_connected_chips m))%nat) \/
      (exists before c after why,
         chips m = before ++ c :: after /\
         (forall b, In b before -> chip_well_formed v m b) /\
         ~ chip_well_formed v m c /\
         t = cat [m_where_is_chip m c; " "; why] /\ wrong v m c why).
Proof.
  intros M E.
  unfold invalid_text in E.
  assert (forall a b : string, Some a = Some b -> a = b) as SI by congruence.
  destruct (m_boot m) as [a|] eqn:B.
  2: { left. apply SI in E. subst t. split; auto. intros (c & a & G & I).
       apply get_chip_in in G as [H X]; auto.
       assert (m_boot m = Some a) as Y by (apply (wf_boot m M); eauto). congruence. }
  right. destruct (_ && _) eqn:MB.
  - left. apply SI in E. subst t. split; auto. apply andb_prop in MB as [M1 M2].
    unfold ethernet_connected_chips. destruct (supports_multiple_boards v); [discriminate M2|]. split; auto. lia.
  - right. apply first_some in E as (pre & c & post & L & P & F).
    apply chip_text_why in F as (why & T & W). exists pre, c, post, why.
    split; auto. split; [|split; [eapply wrong_not_well; eauto|auto]].
    intros b Hb. apply (validate_chip_spec v m b). apply chip_text_ok. auto.
Qed.

(** ** C79 *)

(** There is a text exactly if validate raises an exception.  The text is about chip
    (0, 0), about the number of boards, or about the first chip (in the order in which they
    were added) that is not well formed; it starts with where this chip is, and what
    it says of the chip is true. *)
Theorem C79_text_is_true :
  forall v m, made v m ->
    (invalid_text v m = None <-> validate v m = Ok tt) /\
    forall t, invalid_text v m = Some t ->
      (t = "no ethernet chip at 0, 0 found" /\
       ~ exists c a, get_chip_at m 0 0 = Some c /\ c_ip c = Some a) \/
      (t = cat ["A "; wrap_text (m_kind m); " machine of size "; dec (m_width m); ", "; dec (m_height m);
                " can not handle multiple ethernet chips"] /\
       supports_multiple_boards v = false /\ (1 < List.length (ethernet_connected_chips m))%nat) \/
      (exists before c after why,
         chips m = before ++ c :: after /\
         (forall b, In b before -> chip_well_formed v m b) /\
         ~ chip_well_formed v m c /\
         t = cat [m_where_is_chip m c; " "; why] /\ wrong v m c why).
Proof.
  intros v m M. apply made_wf in M. split; [symmetry; apply text_none|]. intros t E.
  apply text_some; auto.
Qed.
Print Assumptions C79_text_is_true.

(** Texts about different chips differ, and so do texts with different reasons. *)
Theorem C79_text_names_the_chip :
  forall v m, made v m -> forall c c' why why', In c (chips m) -> In c' (chips m) ->
    cat [m_where_is_chip m c; " "; why] = cat [m_where_is_chip m c'; " "; why'] -> c = c' /\ why = why'.
Proof.
  intros v m M c c' why why' H H' E. apply made_wf in M.
  assert (c = c') as ->.
  { apply (chip_unique m); auto. unfold m_where_is_chip in E.
    destruct (getitem m (0, 0)) as [b|].
    + destruct (m_local m c) as [lx ly], (m_local m c') as [lx' ly'].
      unfold cat in E. cbn [fold_right] in E. rewrite !app_assoc_s in E.
      cbn [append] in E. injection E as E. next E. injection E as E. next E.
      unfold c_xy. congruence.
    + unfold chip_str, cat in E. cbn [fold_right] in E. rewrite !app_assoc_s in E.
      cbn [append] in E. injection E as E. next E.
      injection E as E. next E. unfold c_xy. congruence. }
  split; auto. revert E. generalize (m_where_is_chip m c') as wh. intros wh E.
  unfold cat in E. cbn [fold_right] in E. rewrite !app_nil_s in E. apply app_inj_l in E. cbn [append] in E.
  injection E as E. auto.
Qed.
Print Assumptions C79_text_names_the_chip.

(** A virtual machine can only be rejected for what the configuration takes away: chip
    (0, 0), too many cores of a chip, or the Ethernet chip of a board with other chips left. *)
Theorem C79_virtual_machine :
  forall c V w h m, virtual_machine c V w h false = Ok m ->
    (virtual_machine c V w h true = Ok m <-> invalid_text (v_id V) m = None) /\
    forall t, invalid_text (v_id V) m = Some t ->
      (t = "no ethernet chip at 0, 0 found" /\ get_chip_at m 0 0 = None) \/
      (exists x y ch, get_chip_at m x y = Some ch /\ get_chip_at m 0 0 <> None /\
         ((t = cat [m_where_is_xy m x y; " has too few cores found "; dec (n_processors ch)] /\
           n_processors ch < fewest_cores (v_id V)) \/
          (t = cat [m_where_is_xy m x y; " has an invalid ethernet chip"] /\
           get_chip_at m (c_eth_x ch) (c_eth_y ch) = None))).
Proof.
  intros c V w h m E.
  apply virtual_built in E as (dch & dco & dl & B & _ & E & _).
  pose proof (b_wf _ _ _ _ _ _ _ _ B) as W.
  destruct (layout_exists (v_id V) w h (b_sup _ _ _ _ _ _ _ _ B)) as [eths L].
  split.
  { rewrite E. rewrite <- text_none. destruct (proj2 (validate_spec (v_id V) m W)) as [X|X]; rewrite X; cbn [bind];
      split; intros Y; try discriminate Y; reflexivity. }
  intros t T. destruct (text_some (v_id V) m t W T) as [[-> N]|[(_ & SM & LE)|X]].
  - left. split; auto. destruct (get_chip_at m 0 0) as [c0|] eqn:G0; auto. exfalso. apply N. exists c0.
    destruct (built_eth B _ _ _ G0) as [(I & _)|[_ N']]; [eauto|]. exfalso. apply N'.
    apply (lay_origin _ _ _ _ L). apply (lay_zero _ _ _ _ L).
  - exfalso.
    assert (forall ch, In ch (m_eth m) -> c_xy ch = (0, 0)) as Z0.
    { intros ch H. apply (built_eth_list B) in H as (x & y & G & O).
      apply get_chip_in in G as [_ G]; auto. rewrite G. destruct (v_id V); try discriminate SM; exact O. }
    unfold ethernet_connected_chips in LE.
    assert (forall a b, In a (m_eth m) -> In b (m_eth m) -> a = b) as U.
    { intros a b Ha Hb. pose proof (Z0 a Ha). pose proof (Z0 b Hb).
      apply (chip_unique m); auto; try congruence.
      - rewrite (wf_eth m W) in Ha. apply filter_In in Ha as [Ha _]. auto.
      - rewrite (wf_eth m W) in Hb. apply filter_In in Hb as [Hb _]. auto. }
    assert (NoDup (m_eth m)) as ND.
    { rewrite (wf_eth m W). apply NoDup_filter. pose proof (wf_nodup m W) as N. eapply NoDup_map_inv; eauto. }
    destruct (m_eth m) as [|a [|b l]]; [cbn in LE; lia|cbn in LE; lia|]. inversion ND as [|? ? NI _]; subst. apply NI. left.
    apply U; cbn; auto.
  - right. destruct X as (pre & ch & post & why & C & _ & _ & -> & WR).
    assert (In ch (chips m)) as Hc by (rewrite C; apply in_elt).
    assert (get_chip_at m (c_x ch) (c_y ch) = Some ch) as G by (apply get_chip_in; auto).
    exists (c_x ch), (c_y ch), ch. split; auto.
    assert (m_where_is_xy m (c_x ch) (c_y ch) = m_where_is_chip m ch) as WI
      by (unfold m_where_is_xy; rewrite G; reflexivity).
    split.
    { intros G0. unfold invalid_text in T. destruct (m_boot m) as [a|] eqn:BT.
      - apply (wf_boot m W) in BT as (c0 & H0 & X0 & _).
        assert (get_chip_at m 0 0 = Some c0) by (apply get_chip_in; auto). congruence.
      - revert T. unfold m_where_is_chip. unfold get_chip_at in G0. unfold getitem, dgetitem. rewrite G0.
        intros T. discriminate T. }
    rewrite WI. generalize (m_where_is_chip m ch) as wh. intros wh.
    pose proof (built_inside B _ _ _ G) as [I1 I2]. cbn [fst snd] in I1, I2.
    assert (has_address ch -> board_origin (v_id V) w h (c_x ch, c_y ch)) as HO.
    { intros (a & Ha & _). destruct (built_eth B _ _ _ G) as [(_ & O & _)|[N _]]; [auto|congruence]. }
    assert (has_address ch -> legal_ethernet (v_id V) (c_x ch) (c_y ch)) as HL.
    { intros H. apply HO in H. apply (lay_origin _ _ _ _ L) in H. apply (lay_legal _ _ _ _ L) in H. exact H. }
    destruct WR as [K|K|K|K|K|H VV D|H VV D|H VV D|H D|lx ly H LL D];
      try (rewrite ?(b_width _ _ _ _ _ _ _ _ B), ?(b_height _ _ _ _ _ _ _ _ B) in K; lia).
    + left. split; auto. words.
    + specialize (HL H). exfalso. destruct VV as [VV|VV]; rewrite VV in HL; destruct HL; congruence.
    + specialize (HL H). exfalso. destruct VV as [VV|VV]; rewrite VV in HL; destruct HL; tauto.
    + specialize (HL H). exfalso. destruct VV as [VV|VV]; rewrite VV in HL; destruct HL; tauto.
    + right. split; auto.
    + exfalso. apply D. rewrite <- LL.
      destruct (proj1 (built_present B _ _) (ex_intro _ ch G)) as [(e & d & n & P) _].
      rewrite (built_local B _ _ _ _ _ _ G P). unfold local_xys. rewrite (b_ccm _ _ _ _ _ _ _ _ B).
      apply expected_in. destruct P as (_ & Hd & _). eauto.
Qed.
Print Assumptions C79_virtual_machine.

(** Three virtual machines that are rejected. *)
Definition reject (dc dch : option string) : option (option string) :=
  match virtual_machine (mkConfig None None None None None None false dc dch None None None None false)
          (mkVersion V5 18 123469792) 12 12 false with
  | Ok m => Some (invalid_text V5 m)
  | Err _ => None
  end.
Example C79_case :
  reject None (Some "0,0") = Some (Some "no ethernet chip at 0, 0 found") /\
  reject None (Some "4,8") =
    Some (Some "global chip 4, 9 on 127.0.0.0 is chip 0, 1  has an invalid ethernet chip") /\
  reject (Some "5,9,1-17") None =
    Some (Some "global chip 5, 9 on 127.0.0.0 is chip 1, 1 on 127.0.4.8 has too few cores found 1") /\
  reject None None = Some None.
Proof. vm_compute. repeat split; reflexivity. Qed.

(** A machine made by hand: chips that do not belong to a board, and machines that cannot
    have two boards. *)
Definition by_hand (v : vid) (cs : list chip) : machine := fst (history v demo (map CallAddChip cs)).
Example C79_case_by_hand :
  invalid_text V5 (by_hand V5 [demo_chip 2 0 [] (Some "x")]) =
    Some "global chip 2, 0 on 10.0.0.1 is chip 2, 0 on 10.0.0.1 Only Chip with X divisible by 4 may be an Ethernet Chip" /\
  invalid_text V5 (by_hand V5 [demo_chip 6 1 [] None; demo_chip (-1) 0 [] None]) =
    Some "global chip 6, 1 on 10.0.0.1 is chip 6, 1 on 10.0.0.1 has an unexpected local xy of (6, 1)" /\
  invalid_text V5 (by_hand V5 [demo_chip (-1) 0 [] None; demo_chip 6 1 [] None]) =
    Some "global chip -1, 0 on 10.0.0.1 is chip -1, 0 on 10.0.0.1 has a negative x" /\
  invalid_text V3 (by_hand V3 [demo_chip 2 0 [] (Some "x")]) =
    Some "A NoWrap machine of size 8, 8 can not handle multiple ethernet chips".
Proof. vm_compute. repeat split; reflexivity. Qed.
