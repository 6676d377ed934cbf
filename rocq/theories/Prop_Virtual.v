(** C28, C29, C30: virtual machines. *)
From Coq Require Import Lia ZifyBool Permutation Sorted Znumtheory.
From Verif Require Import Model_Py Model_Wrap Model_Float Model_Geometry Model_Version Model_Core
  Model_Machine Model_Str Model_Ignore Model_Virtual
  Spec_Hops Spec_Board Spec_Version Spec_Machine Spec_Boards Spec_Str Spec_Virtual
  Proof_Wrap Proof_Py Proof_Board Proof_Version Proof_Machine Proof_Report Proof_Str Proof_Virtual
  Proof_VirtualMachine Proof_Faultfree Proof_Links Prop_Geometry.
Open Scope list_scope.
Open Scope Z_scope.

(** ** C28 *)

(** When virtual_machine without validation succeeds. *)
Theorem C28_when_created :
  forall c V w h,
    (exists m, virtual_machine c V w h false = Ok m) <->
    supported (v_id V) w h /\
    exists down_chips down_cores down_links,
      parse_chips (cfg_down_chips c) = Ok down_chips /\
      parse_cores (v_id V) (cfg_down_cores c) = Ok down_cores /\
      parse_links (cfg_down_links c) = Ok down_links /\
      forall i, In i down_cores -> ico_ip i = None -> -17 <= ico_p i.
Proof.
  intros c V w h. split.
  - intros [m E]. apply virtual_built in E as (dch & dco & dl & B & _ & _ & _ & K).
    split; [apply B|]. exists dch, dco, dl. destruct (b_read _ _ _ _ _ _ _ _ B) as (R1 & R2 & R3). auto.
  - intros (S & dch & dco & dl & R1 & R2 & R3 & K).
    destruct (virtual_cases c V w h) as [(m & _ & _ & _ & _ & E & _)|[_ X]]; [eauto|].
    exfalso. destruct (X S dch dco dl (conj R1 (conj R2 R3))) as (i & Hi & Ip & P).
    specialize (K i Hi Ip). lia.
Qed.
Print Assumptions C28_when_created.

(** The place of a chip belongs to one position of one board only. *)
Theorem C28_places_are_unique :
  forall v w h, supported v w h ->
  forall p e d n e' d' n',
    place_of v w h p e d n -> place_of v w h p e' d' n' -> e = e' /\ d = d' /\ n = n'.
Proof.
  intros v w h S p e d n e' d' n'.
  destruct (layout_exists v w h S) as [eths L].
  unfold place_of. rewrite <- !(lay_origin _ _ _ _ L), !lands_spot by auto.
  intros (O & H & P & _) (O' & H' & P' & _).
  destruct (lay_inj _ _ _ _ L e e' d d') as [<- <-]; auto; try congruence;
    try (apply expected_in; eauto).
  repeat split. pose proof (expected_nodup v) as N. unfold expected_xys in N.
  apply (in_dget xy_eqb xyeqb_eq) in H; auto. apply (in_dget xy_eqb xyeqb_eq) in H'; auto. congruence.
Qed.
Print Assumptions C28_places_are_unique.

(** Which chips there are: the places of the boards that are not down. *)
Theorem C28_chips :
  forall c V w h check m down_chips,
    virtual_machine c V w h check = Ok m ->
    parse_chips (cfg_down_chips c) = Ok down_chips ->
    m_width m = w /\ m_height m = h /\
    (wraps_x (m_kind m) = true <-> should_wrap (v_id V) w) /\
    (wraps_y (m_kind m) = true <-> should_wrap (v_id V) h) /\
    forall x y,
      is_chip_at m x y = true <->
      (exists e d n, place_of (v_id V) w h (x, y) e d n) /\
      ~ In (mkIgnoreChip x y None) down_chips.
Proof.
  intros c V w h b m dch0 E P. apply virtual_built in E as (dch & dco & dl & B & _).
  destruct (b_read _ _ _ _ _ _ _ _ B) as (R1 & R2 & R3).
  assert (dch0 = dch) as -> by congruence.
  pose proof (b_sup _ _ _ _ _ _ _ _ B) as S.
  split; [apply B|]. split; [apply B|]. rewrite (b_kind _ _ _ _ _ _ _ _ B).
  split; [apply class_should_wrap; auto|]. split; [apply class_should_wrap; auto|].
  intros x y. rewrite <- (built_present B x y). unfold is_chip_at, get_chip_at, dmem.
  destruct (dget xy_eqb (m_chips m) (x, y)); split; eauto; [discriminate|].
  intros [? ?]. discriminate.
Qed.
Print Assumptions C28_chips.

(** What each chip is like. *)
Theorem C28_chip :
  forall c V w h check m down_cores,
    virtual_machine c V w h check = Ok m ->
    parse_cores (v_id V) (cfg_down_cores c) = Ok down_cores ->
    forall x y chip e d n,
      get_chip_at m x y = Some chip -> place_of (v_id V) w h (x, y) e d n ->
      c_x chip = x /\ c_y chip = y /\ (c_eth_x chip, c_eth_y chip) = e /\
      (d = (0, 0) -> c_ip chip = Some ("127.0." ++ dec x ++ "." ++ dec y)%string /\ (x, y) = e /\
                     c_tags chip = [1; 2; 3; 4; 5; 6; 7]) /\
      (d <> (0, 0) -> c_ip chip = None /\ c_tags chip = []) /\
      c_scamp chip = [0] /\ StronglySorted Z.lt (c_placable chip) /\
      (forall p, In p (c_placable chip) <->
         1 <= p < Z.min n (max_cores_per_chip V) /\ ~ core_down down_cores x y p) /\
      c_sdram chip = max_sdram_per_chip V /\ c_parent chip = None /\
      r_entries (c_router chip) = n_router_entries (v_id V).
Proof.
  intros c V w h b m dco0 E P x y ch e d n G PL. apply virtual_built in E as (dch & dco & dl & B & _).
  destruct (b_read _ _ _ _ _ _ _ _ B) as (R1 & R2 & R3).
  assert (dco0 = dco) as -> by congruence.
  destruct (built_fields B x y ch e d n G PL) as (F1 & F2 & F3 & F4 & F5 & F6 & F7 & F8 & F9 & F10 & F11 & F12).
  repeat (split; [assumption|]). split; [|split].
  - intros ->. assert (xy_eqb (0, 0) (0, 0) = true) as X by (apply xyeqb_eq; auto).
    rewrite X in F4, F5, F6. auto.
  - intros N. assert (xy_eqb d (0, 0) = false) as X.
    { destruct (xy_eqb d (0, 0)) eqn:X; auto. apply xyeqb_eq in X. contradiction. }
    rewrite X in F4, F6. auto.
  - repeat (split; [assumption|]). auto.
Qed.
Print Assumptions C28_chip.

(** On machines of 48 chip boards the nearest Ethernet chip is the one that the
    triad geometry computes. *)
Theorem C28_ethernet_agrees_with_geometry :
  forall c V w h check m g,
    virtual_machine c V w h check = Ok m ->
    v_id V = V5 \/ v_id V = V248 -> get_spinn5_geometry = Ok g ->
    forall x y chip, get_chip_at m x y = Some chip ->
      get_ethernet_chip_coordinates g x y w h 0 0 = Ok (c_eth_x chip, c_eth_y chip).
Proof.
  intros c V w h b m g E Hv Hg x y ch G. apply virtual_built in E as (dch & dco & dl & B & _).
  rewrite g5_eq in Hg. apply Ok_inj in Hg. subst g.
  destruct (proj1 (built_present B x y) (ex_intro _ ch G)) as [(e & d & n & P) _].
  destruct (built_fields B x y ch e d n G P) as (_ & _ & F & _).
  rewrite F. clear F. destruct P as (O & Hd & La).
  pose proof (b_sup _ _ _ _ _ _ _ _ B) as S.
  assert (on_board d) as OB.
  { apply (board48 (v_id V) Hv). apply expected_in. eauto. }
  assert (triad_origin (0, 0) e /\ board_fits w h e) as [T BF]
    by (destruct Hv as [X|X]; rewrite X in O; exact O).
  assert (size48 w h) as S48 by (destruct Hv as [X|X]; rewrite X in S; exact S).
  pose proof (size48_pos w h S48) as [Pw Ph].
  pose proof La as ([I1 I2] & A1 & A2 & A3 & A4). cbn [fst snd] in I1, I2, A1, A2, A3, A4.
  assert (should_wrap (v_id V) w <-> (12 | w)) as SW by (destruct Hv as [X|X]; rewrite X; reflexivity).
  assert (should_wrap (v_id V) h <-> (12 | h)) as SH by (destruct Hv as [X|X]; rewrite X; reflexivity).
  rewrite SW in A1, A2. rewrite SH in A3, A4.
  destruct d as [dx dy], e as [ex ey]. cbn [fst snd] in *.
  destruct T as [T1 T2]. cbn [fst snd] in T1, T2. destruct T1 as [t1 T1], T2 as [t2 T2].
  destruct BF as ((B1 & B2) & _). cbn [fst snd] in B1, B2.
  assert (exists a, dx + ex - x = a * w /\ (a <> 0 -> (12 | w))) as (a & Ea & Wa).
  { destruct (Zdivide_dec 12 w) as [D|D].
    - destruct (A1 D) as [a Ha]. exists a. auto.
    - exists 0. split; [rewrite (A2 D); lia|lia]. }
  assert (exists a, dy + ey - y = a * h /\ (a <> 0 -> (12 | h))) as (a' & Ea' & Wa').
  { destruct (Zdivide_dec 12 h) as [D|D].
    - destruct (A3 D) as [k Ha]. exists k. auto.
    - exists 0. split; [rewrite (A4 D); lia|lia]. }
  assert (exists q, a * w = 12 * q) as [q Q].
  { destruct (Z.eq_dec a 0) as [->|N]; [exists 0; lia|]. destruct (Wa N) as [k ->]. exists (a * k). lia. }
  assert (exists q, a' * h = 12 * q) as [q' Q'].
  { destruct (Z.eq_dec a' 0) as [->|N]; [exists 0; lia|]. destruct (Wa' N) as [k ->]. exists (a' * k). lia. }
  assert (get_local_chip_coordinate g5 x y 0 0 = Ok (dx, dy)) as LC.
  { apply local_chip_spec. split; auto. split; cbn [fst snd].
    - exists (t1 - 3 * q). lia.
    - exists (t2 - q - q'). lia. }
  unfold get_ethernet_chip_coordinates. rewrite LC. cbn [bind].
  destruct (Z.eqb_spec w 0); [lia|]. destruct (Z.eqb_spec h 0); [lia|]. cbn [orb].
  f_equal. apply pair_eq.
  - replace (x - dx) with (ex + (- a) * w) by lia. rewrite Z.mod_add by lia. apply Z.mod_small. lia.
  - replace (y - dy) with (ey + (- a') * h) by lia. rewrite Z.mod_add by lia. apply Z.mod_small. lia.
Qed.
Print Assumptions C28_ethernet_agrees_with_geometry.

(** With validation: the extra conditions, and the exception otherwise. *)
Theorem C28_validated :
  forall c V w h m,
    virtual_machine c V w h false = Ok m ->
    (virtual_machine c V w h true = Ok m \/ virtual_machine c V w h true = Err MachineExc) /\
    (virtual_machine c V w h true = Ok m <->
       is_chip_at m 0 0 = true /\
       forall x y chip, get_chip_at m x y = Some chip ->
         fewest_cores (v_id V) <= n_processors chip /\
         is_chip_at m (c_eth_x chip) (c_eth_y chip) = true).
Proof.
  intros c V w h m E. apply virtual_built in E as (dch & dco & dl & B & _ & E & _).
  pose proof (built_valid B) as BV. rewrite E.
  assert (forall x y, is_chip_at m x y = true <-> exists e, get_chip_at m x y = Some e) as K.
  { intros x y. unfold is_chip_at, get_chip_at, dmem.
    destruct (dget xy_eqb (m_chips m) (x, y)); split; eauto; [discriminate|]. intros [? ?]; discriminate. }
  rewrite K. setoid_rewrite K. rewrite <- BV.
  destruct (proj2 (validate_spec (v_id V) m (b_wf _ _ _ _ _ _ _ _ B))) as [X|X]; rewrite X; cbn [bind];
    split; auto; split; intros; congruence.
Qed.
Print Assumptions C28_validated.

(** The SpiNNaker and FPGA links of a virtual machine are those of C24 and C25:
    the conditions of these theorems hold. *)
Theorem C28_spinnaker_and_fpga_links :
  forall c V w h check m,
    virtual_machine c V w h check = Ok m ->
    boards_apart (v_id V) m /\
    exists m1 m2, made_of_chips m1 /\ boards_apart (v_id V) m1 /\ chips m1 = chips m /\
      add_spinnaker_links (v_id V) m1 = Ok m2 /\ add_fpga_links (v_id V) m2 = Ok m.
Proof.
  intros c V w h b m E. apply virtual_built in E as (dch & dco & dl & B & _).
  pose proof (built_apart B) as A. split; auto.
  destruct (b_rest _ _ _ _ _ _ _ _ B) as (eths & uc & L & U & C & m1 & m2 & M & S & _ & E2 & E3 & _).
  exists m1, m2. split; auto. split; [|split; auto; symmetry; apply same_chips; auto].
  destruct S as (S1 & S2 & S3 & S4 & S5 & _). destruct A as (A1 & A2 & A3).
  unfold boards_apart, ethernet_connected_chips, m_xys in *.
  rewrite S1, S2, S3, S4, S5 in *. auto.
Qed.
Print Assumptions C28_spinnaker_and_fpga_links.

(** ** C29 *)
Theorem C29_links :
  forall c V w h check m down_links,
    virtual_machine c V w h check = Ok m ->
    parse_links (cfg_down_links c) = Ok down_links ->
    forall x y chip, get_chip_at m x y = Some chip ->
    forall l,
      (is_link (c_router chip) l = true <->
         0 <= l < 6 /\ ~ link_down (v_id V) down_links x y l /\
         exists dx dy, m_over m x y l = Ok (dx, dy) /\ is_chip_at m dx dy = true) /\
      (forall k, get_link (c_router chip) l = Some k ->
         l_source_x k = x /\ l_source_y k = y /\ l_source_link_id k = l /\
         m_over m x y l = Ok (l_destination_x k, l_destination_y k) /\
         is_chip_at m (l_destination_x k) (l_destination_y k) = true).
Proof.
  intros c V w h b m dl0 E P x y ch G l. apply virtual_built in E as (dch & dco & dl & B & _).
  destruct (b_read _ _ _ _ _ _ _ _ B) as (R1 & R2 & R3).
  assert (dl0 = dl) as -> by congruence.
  pose proof (fun k => built_link B x y ch l k G) as BL.
  assert (forall x y, is_chip_at m x y = true <-> exists e, get_chip_at m x y = Some e) as K.
  { intros a b'. unfold is_chip_at, get_chip_at, dmem.
    destruct (dget xy_eqb (m_chips m) (a, b')); split; eauto; [discriminate|]. intros [? ?]; discriminate. }
  setoid_rewrite K. split.
  - unfold is_link, dmem, get_link in *.
    destruct (dget Z.eqb (r_links (c_router ch)) l) as [k|]; split; auto; try discriminate.
    + intros _. destruct (proj1 (BL k) eq_refl) as (A & N & dx & dy & O & _ & C).
      split; auto. split; auto. exists dx, dy. auto.
    + intros (A & N & dx & dy & O & C).
      discriminate (proj2 (BL (mkLink x y l dx dy))
        (conj A (conj N (ex_intro _ dx (ex_intro _ dy (conj O (conj eq_refl C))))))).
  - intros k Hk. apply BL in Hk as (A & N & dx & dy & O & -> & C). cbn. auto.
Qed.
Print Assumptions C29_links.

(** The fixed list of links that a 4 chip board does not have is closed under
    reversal: 8 cases. *)
Lemma four_chip_reversal x y l q :
  ((x = 0 /\ (y = 0 \/ y = 1) /\ (l = 3 \/ l = 4)) \/ (x = 1 /\ (y = 0 \/ y = 1) /\ (l = 0 \/ l = 1))) ->
  xy_over_link FullWrap 2 2 x y l = Ok q ->
  ((fst q = 0 /\ (snd q = 0 \/ snd q = 1) /\ (opposite l = 3 \/ opposite l = 4)) \/
   (fst q = 1 /\ (snd q = 0 \/ snd q = 1) /\ (opposite l = 0 \/ opposite l = 1))).
Proof.
  intros [(-> & [-> | ->] & [-> | ->])|(-> & [-> | ->] & [-> | ->])] E;
    vm_compute in E; injection E as <-; vm_compute; auto 10.
Qed.

(** If the reverse of each down link is down too then no link is one way. *)
Theorem C29_no_one_way_links :
  forall c V w h check m down_links,
    virtual_machine c V w h check = Ok m ->
    parse_links (cfg_down_links c) = Ok down_links ->
    (forall x y l dx dy, In (mkIgnoreLink x y l None) down_links ->
       is_chip_at m x y = true -> 0 <= l < 6 -> m_over m x y l = Ok (dx, dy) ->
       In (mkIgnoreLink dx dy (opposite l) None) down_links) ->
    one_way_links m = [].
Proof.
  intros c V w h b m dl0 E P CL. apply virtual_built in E as (dch & dco & dl & B & _).
  destruct (b_read _ _ _ _ _ _ _ _ B) as (R1 & R2 & R3).
  assert (dl0 = dl) as -> by congruence.
  pose proof (b_wf _ _ _ _ _ _ _ _ B) as W.
  destruct (one_way_links m) as [|[[[x y] o] bk] rest] eqn:OW; auto. exfalso.
  assert (In (x, y, o, bk) (one_way_links m)) as H by (rewrite OW; left; auto).
  apply (one_way_spec m x y o bk W) in H as (ch & l & G & Ho & -> & GL & NL).
  apply (built_link B x y ch o l G) in GL as (_ & ND & dx & dy & O & -> & [ch' C]).
  cbn [l_destination_x l_destination_y] in NL.
  unfold is_link_at in NL. unfold get_chip_at in C. rewrite C in NL. fold (get_chip_at m dx dy) in C.
  pose proof (opposite_range o) as Hr. pose proof (opposite_invol o Ho) as [Hi _].
  assert (m_over m dx dy (opposite o) = Ok (x, y)) as O'.
  { pose proof (built_inside B x y ch G) as I.
    pose proof (inside_canonical (m_kind m) _ _ _ I) as CA.
    rewrite <- (b_width _ _ _ _ _ _ _ _ B), <- (b_height _ _ _ _ _ _ _ _ B) in CA.
    destruct (C03_opposite_returns (m_kind m) (m_width m) (m_height m) (x, y) o (start_good B) CA Ho)
      as (q & Q1 & _ & Q2). cbn [fst snd] in Q1. unfold m_over in O. rewrite O in Q1. apply Ok_inj in Q1.
    subst q. exact Q2. }
  assert (get_link (c_router ch') (opposite o) = Some (mkLink dx dy (opposite o) x y)) as GL.
  { apply (built_link B dx dy ch' (opposite o) _ C). split; auto. split.
    2: { exists x, y. split; auto. split; auto. exists ch. auto. }
    intros [D|[V3E D]].
    - apply ND. left. rewrite <- Hi. apply (CL dx dy (opposite o) x y D); auto.
      unfold is_chip_at, dmem. unfold get_chip_at in C. rewrite C. auto.
    - apply ND. right. split; auto. rewrite <- Hi.
      apply (four_chip_reversal dx dy (opposite o) (x, y)) in D; auto.
      pose proof (b_sup _ _ _ _ _ _ _ _ B) as S. rewrite V3E in S. destruct S as [-> ->].
      unfold m_over in O'. rewrite (b_kind _ _ _ _ _ _ _ _ B), (b_width _ _ _ _ _ _ _ _ B),
        (b_height _ _ _ _ _ _ _ _ B), V3E in O'. exact O'. }
  unfold get_link in GL. unfold is_link, dmem in NL. change ((o + 3) mod 6) with (opposite o) in NL.
  rewrite GL in NL. discriminate.
Qed.
Print Assumptions C29_no_one_way_links.

(** ** C30 *)

(** The number of cores of the chip at a position of a board: within the limit. *)
Definition board_cores (V : version) : Z :=
  zsum (map (fun dn => Z.min (snd dn) (max_cores_per_chip V)) (chip_core_map (v_id V))).

Lemma flat_map_sum {A} (f : A -> list chip) (g : chip -> Z) k l :
  (forall a, In a l -> zsum (map g (f a)) = k) ->
  zsum (map g (flat_map f l)) = k * Z.of_nat (List.length l).
Proof.
  induction l as [|a l IH]; intros H; cbn [flat_map]; [cbn; lia|].
  rewrite map_app, zsum_app, IH by (intros; apply H; cbn; auto).
  rewrite H by (left; auto). cbn [List.length]. lia.
Qed.

(** Without down chips and cores, if the limit on cores allows the minimum that
    a chip needs, the machine is valid, has all boards and all cores. *)
Theorem C30_valid_and_complete :
  forall c V w h,
    supported (v_id V) w h ->
    parse_chips (cfg_down_chips c) = Ok [] -> parse_cores (v_id V) (cfg_down_cores c) = Ok [] ->
    (exists l, parse_links (cfg_down_links c) = Ok l) ->
    fewest_cores (v_id V) <= max_cores_per_chip V ->
    exists m eths,
      virtual_machine c V w h true = Ok m /\ validate (v_id V) m = Ok tt /\
      get_potential_ethernet_chips (v_id V) w h = Ok eths /\
      Permutation (map c_xy (ethernet_connected_chips m)) eths /\
      n_chips m = n_chips_per_board (v_id V) * Z.of_nat (List.length eths) /\
      get_cores_count m = board_cores V * Z.of_nat (List.length eths).
Proof.
  intros c V w h S P1 P2 [dl0 P3] MC.
  destruct (virtual_cases c V w h) as [(m & dch & dco & dl & B & _ & E & _)|[_ X]].
  2: { exfalso. destruct (X S [] [] dl0) as (i & [] & _). repeat split; auto. }
  destruct (b_read _ _ _ _ _ _ _ _ B) as (R1 & R2 & R3).
  assert (dch = []) as -> by congruence. assert (dco = []) as -> by congruence.
  pose proof (b_wf _ _ _ _ _ _ _ _ B) as W.
  destruct (b_rest _ _ _ _ _ _ _ _ B) as (eths & uc & L & U & C & _).
  cbn in U. apply Ok_inj in U. subst uc.
  set (conf := conf_list _ _ _ _ _ _) in C.
  assert (forall dn, In dn (chip_core_map (v_id V)) -> fewest_cores (v_id V) <= snd dn) as CM.
  { assert (forall v, forallb (fun dn => fewest_cores v <=? snd dn) (chip_core_map v) = true) as K
      by (intros []; vm_compute; reflexivity).
    intros dn H. pose proof (K (v_id V)) as KV. rewrite forallb_forall in KV. specialize (KV dn H). lia. }
  assert (1 <= fewest_cores (v_id V)) as M1 by (destruct (v_id V); vm_compute; discriminate).
  assert (forall en, n_processors (vchip V (start (v_id V) w h) [] (virtual_unused_links dl w) eths conf en) =
    Z.max 1 (snd (snd en))) as NP.
  { intros [[x y] [e n]]. unfold n_processors. cbn [vchip new_chip c_scamp c_placable]. unfold vcores, down_of.
    cbn [dget fold_left List.length snd]. unfold zrange. rewrite map_length, seq_length. lia. }
  assert (validate (v_id V) m = Ok tt) as VA.
  { apply (built_valid B). split.
    - apply (built_present B). split; [|intros []].
      pose proof (zero_expected (v_id V)) as ZE. apply expected_in in ZE as [n ZE].
      exists (0, 0), (0, 0), n. apply (place_spot B eths); auto.
      pose proof (lay_zero _ _ _ _ L) as Z0. split; auto. split; auto.
      symmetry. apply (lay_self _ _ _ _ L). auto.
    - intros x y ch G.
      pose proof G as G'. apply (built_chip B) in G' as (eths' & uc' & e & d & n & L' & U' & P & _ & Ech).
      destruct (built_fields B x y ch e d n G P) as (_ & _ & F & _). split.
      + assert (eths' = eths) as ->.
        { pose proof (lay_eths _ _ _ _ L). pose proof (lay_eths _ _ _ _ L'). congruence. }
        cbn in U'. apply Ok_inj in U'. subst uc'. rewrite Ech.
        etransitivity; [|apply Z.eq_le_incl; symmetry; apply NP]. cbn [snd].
        destruct P as (_ & Hd & _). specialize (CM _ Hd). cbn [snd] in CM. lia.
      + apply (built_present B). split; [|intros []].
        apply (place_spot B eths) in P as (He & _ & _); auto.
        pose proof (zero_expected (v_id V)) as ZE. apply expected_in in ZE as [k ZE].
        exists e, (0, 0), k. rewrite F. apply (place_spot B eths); auto.
        split; auto. split; auto. symmetry. apply (lay_self _ _ _ _ L). auto. }
  exists m, eths. split; [rewrite E, VA; reflexivity|]. split; auto. split; [apply L|].
  assert (forall e, List.length (entries_of (v_id V) w h [] (max_cores_per_chip V) e) =
     List.length (chip_core_map (v_id V))) as EL.
  { intros e. unfold entries_of. generalize (chip_core_map (v_id V)) as l.
    induction l as [|a l IH]; [reflexivity|]. cbn [flat_map xymem existsb app List.length]. f_equal. exact IH. }
  split; [|split].
  - apply NoDup_Permutation.
    + unfold ethernet_connected_chips. rewrite (wf_eth m W). pose proof (wf_nodup m W) as N. revert N.
      generalize (chips m) as l. induction l as [|a l IH]; intros N; cbn; [constructor|].
      inversion N; subst. destruct (has_ip a); auto. cbn. constructor; auto.
      intros X. apply in_map_iff in X as (b & Eb & X). apply filter_In in X as [X _].
      apply H1. rewrite <- Eb. apply in_map. auto.
    + apply L.
    + intros [x y]. rewrite in_map_iff. split.
      * intros (ch & Ex & H). apply (built_eth_list B) in H as (x' & y' & G & O).
        apply get_chip_in in G as [_ Gx]; auto. rewrite Ex in Gx. injection Gx as -> ->.
        apply (lay_origin _ _ _ _ L). auto.
      * intros He.
        assert (exists ch, get_chip_at m x y = Some ch) as [ch G].
        { apply (built_present B). split; [|intros []].
          pose proof (zero_expected (v_id V)) as ZE. apply expected_in in ZE as [k ZE].
          exists (x, y), (0, 0), k. apply (place_spot B eths); auto.
          split; auto. split; auto. symmetry. apply (lay_self _ _ _ _ L). auto. }
        exists ch. split; [apply get_chip_in in G; tauto|]. apply (built_eth_list B).
        exists x, y. split; auto. apply (lay_origin _ _ _ _ L). auto.
  - unfold n_chips. rewrite (wf_chips m W), map_length, C, map_length.
    unfold n_chips_per_board, conf, conf_list. change (virtual_unused_chips []) with (@nil XY).
    rewrite (flat_map_const_length _ (List.length (chip_core_map (v_id V)))) by (intros; apply EL).
    rewrite Nat2Z.inj_mul. lia.
  - unfold get_cores_count. rewrite (wf_cores m W), C. unfold conf, conf_list. change (virtual_unused_chips []) with (@nil XY).
    fold conf. rewrite map_map. rewrite (map_ext _ (fun en => Z.max 1 (snd (snd en)))) by exact NP.
    clear - CM M1 MC. induction eths as [|e eths IH]; [cbn; lia|].
    cbn [flat_map]. rewrite map_app, zsum_app, IH. cbn [List.length].
    assert (zsum (map (fun en => Z.max 1 (snd (snd en))) (entries_of (v_id V) w h [] (max_cores_per_chip V) e))
      = board_cores V) as ->; [|lia].
    unfold entries_of, board_cores. clear IH. revert CM. generalize (chip_core_map (v_id V)) as l.
    induction l as [|a l IH]; intros CM; [reflexivity|].
    assert (fewest_cores (v_id V) <= snd a) as Ha by (apply CM; left; auto).
    specialize (IH (fun dn H => CM dn (or_intror H))).
    cbn [flat_map map]. change (xymem [] (spot (v_id V) w h (fst a) e)) with false. cbn iota.
    rewrite map_app, zsum_app. etransitivity; [apply f_equal; exact IH|].
    cbn [map snd zsum fold_right]. unfold zsum. cbn [fold_right]. lia.
Qed.
Print Assumptions C30_valid_and_complete.

(** Without any down items no link is one way and every chip of a board of more
    than one chip reaches, and is reached from, its board: the reports on which
    machine_repair acts are empty. *)
Theorem C30_nothing_to_report :
  forall c V w h check m,
    virtual_machine c V w h check = Ok m ->
    parse_chips (cfg_down_chips c) = Ok [] -> parse_links (cfg_down_links c) = Ok [] ->
    one_way_links m = [] /\
    (v_id V <> V201 ->
       unreachable_incoming_local_chips m = [] /\ unreachable_outgoing_local_chips m = [] /\
       unreachable_incoming_chips m = [] /\ unreachable_outgoing_chips m = []).
Proof.
  intros c V w h b m E P1 P3.
  split; [apply (C29_no_one_way_links c V w h b m [] E P3); intros x y l dx dy []|].
  intros NV. apply virtual_built in E as (dch & dco & dl & B & _).
  destruct (b_read _ _ _ _ _ _ _ _ B) as (R1 & R2 & R3).
  assert (dch = []) as -> by congruence. assert (dl = []) as -> by congruence.
  destruct (free_local B NV) as [F1 F2]. split; auto. split; auto.
  pose proof (b_wf _ _ _ _ _ _ _ _ B) as W.
  assert (forall l : list XY, (forall p, ~ In p l) -> l = []) as NIL.
  { intros [|p l] H; auto. exfalso. apply (H p). left. auto. }
  assert (forall x y, In (x, y) (chip_coordinates m) -> exists ch, get_chip_at m x y = Some ch) as KC.
  { intros x y H. unfold chip_coordinates in H. rewrite keys_xy in H by auto.
    apply in_map_iff in H as (ch & X & H). exists ch. apply get_chip_in; auto. }
  split; apply NIL; intros [x y] H.
  - apply (incoming_spec m (x, y) W) in H as [H X]. apply KC in H as [ch G].
    assert (~ In (x, y) (unreachable_incoming_local_chips m)) as N by (rewrite F2; intros []).
    apply N. apply (incoming_local_spec m (x, y) W). exists ch. split; auto.
    intros (l & q & n & Q & Gn & IL & _). apply X. exists l, q.
    apply get_chip_in in G as [_ EX]; auto. injection EX as EX EY.
    rewrite EX, EY in Q. split; auto. apply link_at_iff. unfold is_link_at. unfold get_chip_at in Gn. rewrite Gn. exact IL.
  - apply (outgoing_spec m (x, y) W) in H as [H X]. apply KC in H as [ch G].
    assert (~ In (x, y) (unreachable_outgoing_local_chips m)) as N by (rewrite F1; intros []).
    apply N. apply (outgoing_local_spec m (x, y) W). exists ch. split; auto.
    intros (l & q & n & [Q _] & IL & _). specialize (X l Q). cbn [fst snd] in X.
    unfold is_link_at in X. unfold get_chip_at in G. cbn [fst snd] in G. rewrite G in X. congruence.
Qed.
Print Assumptions C30_nothing_to_report.

(** A virtual machine of version 201 is a single chip, which the local reports
    call unreachable although nothing is wrong with it. *)
Theorem C30_single_chip_is_reported_refuted :
  forall c V check m,
    v_id V = V201 -> virtual_machine c V 1 1 check = Ok m ->
    parse_chips (cfg_down_chips c) = Ok [] ->
    unreachable_incoming_local_chips m = [(0, 0)] /\ unreachable_outgoing_local_chips m = [(0, 0)].
Proof.
  intros c V b m HV E P1. apply virtual_built in E as (dch & dco & dl & B & _).
  destruct (b_read _ _ _ _ _ _ _ _ B) as (R1 & R2 & R3).
  assert (dch = []) as -> by congruence.
  pose proof (b_wf _ _ _ _ _ _ _ _ B) as W.
  assert (exists ch, chips m = [ch] /\ c_xy ch = (0, 0)) as (ch & C & X).
  { destruct (b_rest _ _ _ _ _ _ _ _ B) as (eths & uc & L & U & C & _).
    pose proof (lay_eths _ _ _ _ L) as EE. rewrite HV in EE. cbn in EE. apply Ok_inj in EE. subst eths.
    rewrite HV in C. unfold conf_list in C. cbn [flat_map entries_of chip_core_map V201_CHIPS] in C.
    eexists. split; [exact C|]. apply vchip_xy. }
  assert (get_chip_at m 0 0 = Some ch) as G.
  { apply get_chip_in; auto. split; auto. rewrite C. left; auto. }
  assert (forall x y c', get_chip_at m x y = Some c' -> c' = ch /\ (x, y) = (0, 0)) as ONLY.
  { intros x y c' H. apply get_chip_in in H as [H EX]; auto. rewrite C in H. destruct H as [<-|[]].
    split; auto. congruence. }
  injection X as Xx Xy.
  split.
  - unfold unreachable_incoming_local_chips. rewrite C. cbn [filter].
    match goal with |- context [negb ?b] => assert (b = false) as -> end.
    { apply existsb_false. intros [o mv] H. unfold enumerate in H.
      destruct (dget xy_eqb (m_chips m) (c_x ch + fst mv, c_y ch + snd mv)) as [n|] eqn:Q; auto.
      apply (ONLY (c_x ch + fst mv) (c_y ch + snd mv)) in Q as [_ Q]. rewrite Xx, Xy in Q.
      cbn in H. destruct H as [H|[H|[H|[H|[H|[H|[]]]]]]]; injection H as <- <-; discriminate Q. }
    cbn. unfold c_xy. rewrite Xx, Xy. auto.
  - unfold unreachable_outgoing_local_chips. rewrite C. cbn [filter].
    match goal with |- context [negb ?b] => assert (b = false) as -> end.
    { apply existsb_false. intros [o mv] H.
      destruct (is_link (c_router ch) o); auto.
      destruct (dget xy_eqb (m_chips m) (c_x ch + fst mv, c_y ch + snd mv)) as [n|] eqn:Q; auto.
      apply (ONLY (c_x ch + fst mv) (c_y ch + snd mv)) in Q as [_ Q]. rewrite Xx, Xy in Q.
      cbn in H. destruct H as [H|[H|[H|[H|[H|[H|[]]]]]]]; injection H as <- <-; discriminate Q. }
    cbn. unfold c_xy. rewrite Xx, Xy. auto.
Qed.
Print Assumptions C30_single_chip_is_reported_refuted.

(** A machine with down items, for each of the theorems above. *)
Definition demo_cfg : config :=
  mkConfig None None None None None None false (Some "2,2,3:0,4,5-6"%string) (Some "1,1:5,5"%string)
    (Some "0,0,0:1,0,3"%string) None None None true.
Definition demo_version : version := mkVersion V5 18 100.

Example C28_case :
  exists m chip,
    virtual_machine demo_cfg demo_version 12 12 true = Ok m /\
    n_chips m = 142 /\ is_chip_at m 1 1 = false /\ is_chip_at m 5 5 = false /\
    get_chip_at m 0 4 = Some chip /\ c_ip chip = None /\ (c_eth_x chip, c_eth_y chip) = (8, 4) /\
    c_placable chip = [1; 2; 3; 4; 7; 8; 9; 10; 11; 12; 13; 14; 15; 16; 17] /\
    place_of V5 12 12 (0, 4) (8, 4) (4, 0) 18 /\
    map c_ip (ethernet_connected_chips m) =
      [Some "127.0.0.0"; Some "127.0.4.8"; Some "127.0.8.4"]%string.
Proof.
  eexists. eexists. split; [vm_compute; reflexivity|].
  split; [reflexivity|]. split; [reflexivity|]. split; [reflexivity|]. split; [vm_compute; reflexivity|].
  split; [reflexivity|]. split; [reflexivity|]. split; [reflexivity|]. split; [|reflexivity].
  split; [|split].
  - split; [split; [exists 2|exists 1]; reflexivity|].
    split; [vm_compute; intuition congruence|]. split; intros N; exfalso; apply N; exists 1; reflexivity.
  - vm_compute. auto 60.
  - split; [vm_compute; intuition congruence|]. cbn [fst snd]. repeat split; intros N.
    + exists 1. reflexivity.
    + exfalso. apply N. exists 1. reflexivity.
    + exists 0. reflexivity.
Qed.

Example C29_case :
  exists m chip, virtual_machine demo_cfg demo_version 12 12 true = Ok m /\
    get_chip_at m 0 0 = Some chip /\
    map (is_link (c_router chip)) [0; 1; 2; 3; 4; 5] = [false; false; true; true; true; true] /\
    get_link (c_router chip) 3 = Some (mkLink 0 0 3 11 0) /\ one_way_links m = [].
Proof.
  eexists. eexists. split; [vm_compute; reflexivity|]. split; [vm_compute; reflexivity|].
  repeat split; vm_compute; reflexivity.
Qed.

Example C30_case :
  let c := mkConfig None None None None None None false None None None None None None true in
  supported V5 20 16 /\ parse_chips (cfg_down_chips c) = Ok [] /\
  parse_cores V5 (cfg_down_cores c) = Ok [] /\ parse_links (cfg_down_links c) = Ok [] /\
  fewest_cores V5 <= max_cores_per_chip demo_version.
Proof.
  repeat split; try reflexivity.
  - right. repeat split; try lia; [exists 5|exists 4]; reflexivity.
  - vm_compute. discriminate.
Qed.
