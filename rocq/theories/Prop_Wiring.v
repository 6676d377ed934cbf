(** C24, C25 and C71: looking up SpiNNaker and FPGA links on virtual machines, and the
    wiring between the boards. *)
From Coq Require Import Lia.
From Verif Require Import Model_Py Model_Wrap Model_Version Model_Core Model_Machine Model_Str
  Model_Ignore Model_Factory Model_Virtual
  Spec_Hops Spec_Board Spec_Machine Spec_Router Spec_Version Spec_Virtual Spec_Wiring
  Proof_Wrap Proof_Concentric Proof_Py Proof_Board
  Proof_Machine Proof_Links Proof_Report Proof_Virtual Proof_VirtualMachine
  Prop_Machine.
Open Scope list_scope.
Open Scope Z_scope.

(** ** Machines with both kinds of links added *)
Lemma same_sym m m' : same_but_links m m' -> same_but_links m' m.
Proof. unfold same_but_links. intros H. repeat split; symmetry; apply H. Qed.

Lemma spin_present_same v m m' e id d : same_but_links m m' ->
  spin_present v m e id d -> spin_present v m' e id d.
Proof.
  intros S (lx & ly & l & gx & gy & c & a & A).
  exists lx, ly, l, gx, gy, c, a. unfold ethernet_connected_chips, m_global, get_chip_at in *.
  unfold same_but_links in S. destruct S as (S1 & S2 & S3 & S4 & S5 & S6 & S7 & S8 & S9 & S10 & S11 & S12).
  rewrite ?S1, ?S2, ?S3, ?S4, ?S5, ?S6, ?S7, ?S8, ?S9, ?S10, ?S11, ?S12. exact A.
Qed.

Lemma fpga_present_same v m m' e f fl d : same_but_links m m' ->
  fpga_present v m e f fl d -> fpga_present v m' e f fl d.
Proof.
  intros S (lx & ly & l & gx & gy & c & a & A).
  exists lx, ly, l, gx, gy, c, a. unfold ethernet_connected_chips, m_global, get_chip_at in *.
  unfold same_but_links in S. destruct S as (S1 & S2 & S3 & S4 & S5 & S6 & S7 & S8 & S9 & S10 & S11 & S12).
  rewrite ?S1, ?S2, ?S3, ?S4, ?S5, ?S6, ?S7, ?S8, ?S9, ?S10, ?S11, ?S12. exact A.
Qed.

Lemma apart_same v m m' : same_but_links m m' -> boards_apart v m -> boards_apart v m'.
Proof.
  intros S. unfold boards_apart, ethernet_connected_chips, m_xys in *.
  unfold same_but_links in S. destruct S as (S1 & S2 & S3 & S4 & S5 & S6 & S7 & S8 & S9 & S10 & S11 & S12).
  rewrite ?S1, ?S2, ?S3, ?S4, ?S5, ?S6, ?S7, ?S8, ?S9, ?S10, ?S11, ?S12. auto.
Qed.

Lemma built_lookups c V w h m dch dco dl : built c V w h m dch dco dl ->
  (forall k d, dget spin_key_eqb (m_spin m) k = Some d <->
    exists e id, spin_present (v_id V) m e id d /\
      (k = (Board (sl_addr d), id) \/ k = (AtXY (sl_x d, sl_y d), id))) /\
  (forall k d, dget fpga_key_eqb (m_fpga m) k = Some d <->
    exists e f fl, fpga_present (v_id V) m e f fl d /\
      (k = (Board (fl_addr d), f, fl) \/ k = (AtXY (fl_x d, fl_y d), f, fl) \/
       k = (AtXY (c_xy e), f, fl))).
Proof.
  intros B. pose proof (built_apart B) as A.
  pose proof (b_wf _ _ _ _ _ _ _ _ B) as W.
  destruct (b_rest _ _ _ _ _ _ _ _ B) as (eths & uc & _ & _ & _ & m1 & m2 & _ & S & _ & E1 & E2 & N1 & N2).
  pose proof (same_wf _ _ (same_sym _ _ S) W) as W1.
  destruct (add_spin_same (v_id V) m1 W1) as (m2' & E1' & S1).
  rewrite E1 in E1'. apply Ok_inj in E1'. subst m2'.
  pose proof (same_wf _ _ S1 W1) as W2.
  destruct (add_fpga_same (v_id V) m2 W2) as (m' & E2' & S2).
  rewrite E2 in E2'. apply Ok_inj in E2'. subst m'.
  pose proof (apart_same (v_id V) _ _ (same_sym _ _ S) A) as A1.
  pose proof (apart_same (v_id V) _ _ S1 A1) as A2.
  pose proof (spin_fold_pairs (v_id V) m1 _ _ _ (same_refl m1) E1) as [_ F1].
  pose proof (fpga_fold_pairs (v_id V) m2 _ _ _ (same_refl m2) E2) as [_ F2].
  split; intros k d.
  - rewrite F2, (spin_lookup (v_id V) m1 m2 N1 A1 E1 S1).
    split; intros (e & id & P & K); exists e, id; split; auto;
      (eapply spin_present_same; [|exact P]); auto using same_sym.
  - rewrite (fpga_lookup (v_id V) m2 m W2 ltac:(congruence) A2 E2 S2).
    split; intros (e & f & fl & P & K); exists e, f, fl; split; auto;
      (eapply fpga_present_same; [|exact P]); auto using same_sym.
Qed.

(** C24, C25: on a virtual machine, SpiNNaker links and FPGA links are found, by the
    address of their board or by coordinates, exactly when they are present. *)
Theorem C24_lookups_on_virtual_machines :
  forall c V w h check m, virtual_machine c V w h check = Ok m ->
    (forall id a d, get_spinnaker_link_with_id m id (Some a) None = Ok d <->
       exists e, c_ip e = Some a /\ spin_present (v_id V) m e id d) /\
    (forall id b p d, get_spinnaker_link_with_id m id b (Some p) = Ok d <->
       exists e, spin_present (v_id V) m e id d /\ (sl_x d, sl_y d) = p).
Proof.
  intros c V w h check m Q. apply virtual_built in Q as (dch & dco & dl & B & _).
  destruct (built_lookups _ _ _ _ _ _ _ _ B) as [L _]. split.
  - intros id a d. split.
    + cbn. unfold dgetitem. destruct (dget spin_key_eqb (m_spin m) (Board a, id)) as [d'|] eqn:G;
        [|discriminate]. intros X. apply Ok_inj in X. subst d'.
      apply L in G as (e & id' & P & [K|K]); [|discriminate].
      injection K as -> ->. exists e. split; auto. destruct P as (? & ? & ? & ? & ? & ? & ? & P).
      destruct P as (_ & I & _ & _ & _ & _ & _ & ->). exact I.
    + intros (e & I & P). cbn. unfold dgetitem.
      assert (dget spin_key_eqb (m_spin m) (Board a, id) = Some d) as ->; [|reflexivity].
      apply L. exists e, id. split; auto. left.
      destruct P as (? & ? & ? & ? & ? & ? & ? & P). destruct P as (_ & I' & _ & _ & _ & _ & _ & ->).
      cbn. congruence.
  - intros id b p d. split.
    + unfold get_spinnaker_link_with_id. destruct (contains m p) eqn:C; [|discriminate]. cbn.
      destruct (dget spin_key_eqb (m_spin m) (AtXY p, id)) as [d'|] eqn:G; [|discriminate].
      intros X. apply Ok_inj in X. subst d'. apply L in G as (e & id' & P & [K|K]); [discriminate|].
      injection K as -> ->. exists e. auto.
    + intros (e & P & <-). unfold get_spinnaker_link_with_id.
      assert (contains m (sl_x d, sl_y d) = true) as ->.
      { apply contains_some. destruct P as (? & ? & ? & ? & ? & ch & ? & P).
        destruct P as (_ & _ & _ & _ & _ & G & _ & ->). cbn in *. eauto. }
      cbn [negb]. assert (dget spin_key_eqb (m_spin m) (AtXY (sl_x d, sl_y d), id) = Some d) as ->;
        [|reflexivity]. apply L. exists e, id. auto.
Qed.
Print Assumptions C24_lookups_on_virtual_machines.

Theorem C25_lookups_on_virtual_machines :
  forall c V w h check m, virtual_machine c V w h check = Ok m ->
    (forall f fl a d, get_fpga_link_with_id m f fl (Some a) None = Ok d <->
       exists e, c_ip e = Some a /\ fpga_present (v_id V) m e f fl d) /\
    (forall f fl b p d, get_fpga_link_with_id m f fl b (Some p) = Ok d <->
       exists e, fpga_present (v_id V) m e f fl d /\ ((fl_x d, fl_y d) = p \/ c_xy e = p)).
Proof.
  intros c V w h check m Q. apply virtual_built in Q as (dch & dco & dl & B & _).
  destruct (built_lookups _ _ _ _ _ _ _ _ B) as [_ L].
  pose proof (b_wf _ _ _ _ _ _ _ _ B) as W. split.
  - intros f fl a d. split.
    + cbn. unfold dgetitem. destruct (dget fpga_key_eqb (m_fpga m) (Board a, f, fl)) as [d'|] eqn:G;
        [|discriminate]. intros X. apply Ok_inj in X. subst d'.
      apply L in G as (e & f' & fl' & P & [K|[K|K]]); [|discriminate|discriminate].
      injection K as -> -> ->. exists e. split; auto. destruct P as (? & ? & ? & ? & ? & ? & ? & P).
      destruct P as (_ & I & _ & _ & _ & ->). exact I.
    + intros (e & I & P). cbn. unfold dgetitem.
      assert (dget fpga_key_eqb (m_fpga m) (Board a, f, fl) = Some d) as ->; [|reflexivity].
      apply L. exists e, f, fl. split; auto. left.
      destruct P as (? & ? & ? & ? & ? & ? & ? & P). destruct P as (_ & I' & _ & _ & _ & ->).
      cbn. congruence.
  - intros f fl b p d. split.
    + unfold get_fpga_link_with_id. destruct (contains m p) eqn:C; [|discriminate]. cbn.
      destruct (dget fpga_key_eqb (m_fpga m) (AtXY p, f, fl)) as [d'|] eqn:G; [|discriminate].
      intros X. apply Ok_inj in X. subst d'.
      apply L in G as (e & f' & fl' & P & [K|[K|K]]); [discriminate| |];
      injection K as -> -> ->; exists e; auto.
    + intros (e & P & Q). unfold get_fpga_link_with_id.
      assert (contains m p = true) as ->.
      { apply contains_some. destruct P as (? & ? & ? & ? & ? & ch & ? & P).
        destruct P as (I1 & _ & _ & _ & G & ->). cbn in *. destruct Q as [<-|<-]; [eauto|].
        exists e. apply get_chip_in; auto. unfold ethernet_connected_chips in I1.
        rewrite (wf_eth m W) in I1. apply filter_In in I1. tauto. }
      cbn [negb]. assert (dget fpga_key_eqb (m_fpga m) (AtXY p, f, fl) = Some d) as ->;
        [|reflexivity]. apply L. exists e, f, fl. split; auto. destruct Q as [<-|<-]; auto.
Qed.
Print Assumptions C25_lookups_on_virtual_machines.

(** ** C71 *)
Lemma wiring_table : forallb (fun t => let '(x, y, l, f, n) := t in
    let q := vadd (x, y) (link_vec l) in
    let o := neighbour_board f n in
    let d := (fst q - fst o, snd q - snd o) in
    on_board_b d && negb (on_board_b q) &&
    existsb (fun t' => let '(x', y', l', f', n') := t' in
      (x' =? fst d) && (y' =? snd d) && (l' =? (l + 3) mod 6) &&
      (f' =? fst (facing f n)) && (n' =? snd (facing f n))) V5_FPGA_LINKS) V5_FPGA_LINKS = true.
Proof. vm_compute. reflexivity. Qed.

Lemma wiring_step x y l f n : In (x, y, l, f, n) (fpga_links V5) ->
  exists d, on_board d /\ vadd (x, y) (link_vec l) = vadd d (neighbour_board f n) /\
    ~ on_board (vadd (x, y) (link_vec l)) /\
    In (fst d, snd d, (l + 3) mod 6, fst (facing f n), snd (facing f n)) (fpga_links V5).
Proof.
  intros H. pose proof wiring_table as T. rewrite forallb_forall in T. specialize (T _ H).
  cbv beta iota zeta in T. apply andb_true_iff in T as [T1 T]. apply andb_true_iff in T1 as [T1 T2].
  apply existsb_exists in T as ([[[[x' y'] l'] f'] n'] & I & E).
  do 4 (apply andb_true_iff in E as [E ?]). rewrite !Z.eqb_eq in *. subst.
  eexists. split; [apply on_board_b_spec; exact T1|]. split; [|split].
  - unfold vadd at 2. cbn [fst snd]. destruct (vadd (x, y) (link_vec l)). cbn [fst snd].
    apply pair_eq; ring.
  - intros X. apply on_board_b_spec in X. rewrite X in T2. discriminate.
  - exact I.
Qed.

(** The other ends of the FPGA links of a board: link [n] of FPGA [f] leaves the board
    and goes to a position of the neighbouring board whose link in the opposite
    direction is the facing FPGA link. *)
Theorem C71_fpga_links_face_each_other :
  forall x y l f n, In (x, y, l, f, n) (fpga_links V5) ->
    triad_origin (0, 0) (neighbour_board f n) /\
    facing (fst (facing f n)) (snd (facing f n)) = (f, n) /\
    exists x' y', on_board (x', y') /\
      flat_neighbour x y l (x' + fst (neighbour_board f n), y' + snd (neighbour_board f n)) /\
      In (x', y', (l + 3) mod 6, fst (facing f n), snd (facing f n)) (fpga_links V5).
Proof.
  intros x y l f n H.
  destruct C25_fpga_links_are_the_board_edge as (E1 & E2 & _).
  assert (0 <= f < 3 /\ 0 <= n < 16) as [Hf Hn] by (apply E2; eauto).
  split; [|split].
  - unfold neighbour_board, triad_origin.
    assert (f = 0 \/ f = 1 \/ f = 2) as [-> |[-> | ->]] by lia; destruct (n <? 8); cbn [fst snd];
      split; apply Z.mod_divide; try lia; reflexivity.
  - unfold facing. cbn [fst snd].
    destruct (Z.ltb_spec n 8); destruct (Z.ltb_spec (15 - n) 8); try lia;
    assert (f = 0 \/ f = 1 \/ f = 2) as [-> |[-> | ->]] by lia; apply pair_eq; try reflexivity; lia.
  - destruct (wiring_step _ _ _ _ _ H) as ([x' y'] & A & B & C & D). exists x', y'.
    split; [exact A|]. split; [|exact D].
    destruct (proj1 (E1 x y l) (ex_intro _ f (ex_intro _ n H))) as (_ & q & [R Q] & _).
    split; [exact R|]. rewrite over_red by (auto; split; discriminate).
    unfold red. cbn [wraps_x wraps_y]. rewrite B. reflexivity.
Qed.
Print Assumptions C71_fpga_links_face_each_other.

Section Wired.
Context {c : config} {V : version} {w h : Z} {m : machine} {dch : list ignore_chip}
  {dco : list ignore_core} {dl : list ignore_link}.
Hypothesis Q : virtual_machine c V w h true = Ok m.
Hypothesis B : built c V w h m dch dco dl.
Hypothesis Hv : v_id V = V5.
Hypothesis Val : validate (v_id V) m = Ok tt.

Lemma wired_iff x y l f n a : wired m x y l f n a <->
  exists ch e d k, get_chip_at m x y = Some ch /\ place_of V5 w h (x, y) e d k /\
    In (fst d, snd d, l, f, n) (fpga_links V5) /\ a = virtual_ip (fst e) (snd e).
Proof using Q B Hv Val.
  destruct (proj1 (built_valid B) Val) as [_ Vc].
  pose proof (b_sup _ _ _ _ _ _ _ _ B) as S. pose proof (b_wf _ _ _ _ _ _ _ _ B) as W.
  destruct (layout_exists _ w h S) as [eths L].
  destruct (C25_lookups_on_virtual_machines _ _ _ _ _ _ Q) as [L1 L2]. unfold wired. rewrite L1, L2.
  pose proof (b_kind _ _ _ _ _ _ _ _ B) as Bk. pose proof (b_width _ _ _ _ _ _ _ _ B) as Bw.
  pose proof (b_height _ _ _ _ _ _ _ _ B) as Bh.
  pose proof (fun p e d n => place_spot B eths p e d n L) as PS. rewrite Hv in *.
  split.
  - intros [_ (e & Ia & lx & ly & l0 & gx & gy & ch & a0 & He & I & T & G & C & D)].
    injection D as -> -> -> ->.
    apply (built_eth_list B) in He as (ex & ey & Ge & O). rewrite Hv in O.
    pose proof Ge as G'. apply get_chip_in in G' as [_ E]; auto. injection E as Ex Ey.
    destruct (built_eth B _ _ _ Ge) as [(Ie & _)|[N _]]; [|congruence].
    assert (In (lx, ly) (expected_xys V5)) as X by (eapply fpga_links_on_board; exact T).
    apply expected_in in X as [k X].
    exists ch, (ex, ey), (lx, ly), k. split; [auto|]. split; [|split; [exact T|cbn [fst snd]; congruence]].
    apply PS. split; [apply (lay_origin _ _ _ _ L); auto|]. split; [auto|].
    rewrite m_global_red, Bk, Bw, Bh, Ex, Ey in G. unfold spot. symmetry. exact G.
  - intros (ch & [ex ey] & [lx ly] & k & G & P & T & ->). cbn [fst snd] in *.
    destruct (built_fields B _ _ ch (ex, ey) (lx, ly) k G) as (_ & _ & F & _); [rewrite Hv; auto|].
    injection F as F1 F2.
    destruct (Vc _ _ _ G) as (_ & e & Ge).
    rewrite F1, F2 in Ge. pose proof P as (O & _).
    assert (In e (ethernet_connected_chips m)) as He.
    { apply (built_eth_list B). exists ex, ey. rewrite Hv. auto. }
    destruct (built_eth B _ _ _ Ge) as [(Ie & _)|[_ N]]; [|rewrite Hv in N; tauto].
    pose proof Ge as G'. apply get_chip_in in G' as [_ E]; auto. injection E as Ex Ey.
    assert (fpga_present V5 m e f n (mkFpgaLink n f x y l (virtual_ip ex ey))) as FP.
    { exists lx, ly, l, x, y, ch, (virtual_ip ex ey). repeat (split; [auto; fail|]).
      split; [|auto]. rewrite m_global_red, Bk, Bw, Bh, Ex, Ey.
      apply PS in P as (_ & _ & P). symmetry. exact P. }
    split; exists e; auto.
Qed.

(** Where a link of the machine leads to. *)
Lemma link_leads x y ch l k e d n x' y' ch' e' d' n' :
  get_chip_at m x y = Some ch -> get_link (c_router ch) l = Some k ->
  x' = l_destination_x k -> y' = l_destination_y k -> get_chip_at m x' y' = Some ch' ->
  place_of V5 w h (x, y) e d n -> place_of V5 w h (x', y') e' d' n' ->
  0 <= l < 6 /\ on_board d /\ on_board d' /\ triad_origin (0, 0) e /\ triad_origin (0, 0) e' /\
  inside w h e /\ inside w h e' /\ size48 w h /\
  red (machine_class V5 w h) w h (vadd (vadd d (link_vec l)) e) =
  red (machine_class V5 w h) w h (vadd d' e').
Proof using B Hv.
  clear Q Val.
  intros G K -> -> G' P P'.
  pose proof (b_sup _ _ _ _ _ _ _ _ B) as S. destruct (layout_exists _ w h S) as [eths L].
  pose proof (b_kind _ _ _ _ _ _ _ _ B) as Bk. pose proof (b_width _ _ _ _ _ _ _ _ B) as Bw.
  pose proof (b_height _ _ _ _ _ _ _ _ B) as Bh. pose proof (start_good B) as SG.
  pose proof (fun p e d n => place_spot B eths p e d n L) as PS. rewrite Hv in *.
  destruct (proj1 (built_link B _ _ _ _ _ G) K) as (R & _ & dx & dy & E & -> & _).
  cbn [l_destination_x l_destination_y] in *.
  unfold m_over in E. rewrite over_red in E by auto. apply Ok_inj in E.
  pose proof P as (O & _). pose proof P' as (O' & _).
  destruct O as [T [I _]], O' as [T' [I' _]].
  apply PS in P as (_ & X & P). apply PS in P' as (_ & X' & P').
  assert (forall d n, In (d, n) (chip_core_map V5) -> on_board d) as OB.
  { intros d0 n0 H0. apply (board48 V5); auto. apply expected_in. eauto. }
  repeat (split; [eauto; fail|]).
  unfold spot in P, P'. rewrite <- P', <- E, P, Bk, Bw, Bh, red_add.
  f_equal. rewrite vadd_assoc. unfold vadd. cbn [fst snd]. apply pair_eq; ring.
Qed.
End Wired.

Lemma crossing w h e e' d d' d1 o : size48 w h ->
  triad_origin (0, 0) e -> triad_origin (0, 0) e' -> on_board d' -> on_board d1 ->
  triad_origin (0, 0) o -> d = vadd d1 o ->
  red (machine_class V5 w h) w h (vadd d e) = red (machine_class V5 w h) w h (vadd d' e') ->
  d1 = d' /\ red (machine_class V5 w h) w h (vadd o e) = red (machine_class V5 w h) w h e' /\
  (12 | fst o + fst e - fst e') /\ (12 | snd o + snd e - snd e').
Proof.
  intros S T T' D' D1 To -> E.
  assert (good_size (machine_class V5 w h) w h) as G by (apply (good_supported V5); exact S).
  pose proof (red_same _ _ _ _ _ G E) as SP.
  destruct (same_place_12 V5 w h _ _ (or_introl eq_refl) SP) as [M1 M2].
  destruct d1 as [a b], d' as [a' b'], e as [x y], e' as [x' y'], o as [u t].
  unfold triad_origin, vadd in *; cbn [fst snd] in *.
  destruct T as [[t1 T1] [t2 T2]], T' as [[t1' T1'] [t2' T2']], To as [[o1 To1] [o2 To2]].
  assert ((a, b) = (a', b')) as ED.
  { destruct M1 as [m1 M1], M2 as [m2 M2]. apply board_offset_unique; auto; cbn [fst snd].
    - exists (3 * m1 - o1 - t1 + t1'). lia.
    - exists (m1 + m2 - o2 - t2 + t2'). lia. }
  injection ED as -> ->. split; [auto|]. split; [|split].
  - apply same_red; auto. destruct SP as [S1 S2]. split; cbn [fst snd] in *.
    + destruct (wraps_x _); [|lia]. replace (u + x - x') with (a' + u + x - (a' + x')) by ring. auto.
    + destruct (wraps_y _); [|lia]. replace (t + y - y') with (b' + t + y - (b' + y')) by ring. auto.
  - replace (u + x - x') with (a' + u + x - (a' + x')) by ring. auto.
  - replace (t + y - y') with (b' + t + y - (b' + y')) by ring. auto.
Qed.

Lemma neighbour_not_zero x y l f n : In (x, y, l, f, n) (fpga_links V5) ->
  ~ ((12 | fst (neighbour_board f n)) /\ (12 | snd (neighbour_board f n))).
Proof.
  intros H. destruct C25_fpga_links_are_the_board_edge as (_ & E2 & _).
  assert (0 <= f < 3 /\ 0 <= n < 16) as [Hf Hn] by (apply E2; eauto).
  unfold neighbour_board.
  assert (f = 0 \/ f = 1 \/ f = 2) as [-> |[-> | ->]] by lia; destruct (n <? 8); cbn [fst snd];
    intros [[u U] [t T]]; lia.
Qed.

(** C71: on a valid SpiNN-5 virtual machine a link leads to another board exactly
    when it is one of the FPGA links of the board. *)
Theorem C71_links_between_boards_are_the_fpga_links :
  forall c V w h m, v_id V = V5 -> virtual_machine c V w h true = Ok m ->
  forall x y ch l k ch', get_chip_at m x y = Some ch -> get_link (c_router ch) l = Some k ->
    get_chip_at m (l_destination_x k) (l_destination_y k) = Some ch' ->
    ((c_eth_x ch', c_eth_y ch') <> (c_eth_x ch, c_eth_y ch) <->
     exists f n a, wired m x y l f n a).
Proof.
  intros c V w h m Hv Q x y ch l k ch' G K G'.
  destruct (virtual_built _ _ _ _ _ _ Q) as (dch & dco & dl & B & _ & _ & Val & _).
  specialize (Val eq_refl).
  destruct (proj1 (built_present B _ _) (ex_intro _ ch G)) as [(e & d & n & P) _].
  destruct (proj1 (built_present B _ _) (ex_intro _ ch' G')) as [(e' & d' & n' & P') _].
  destruct (built_fields B _ _ ch _ _ _ G P) as (_ & _ & F & _).
  destruct (built_fields B _ _ ch' _ _ _ G' P') as (_ & _ & F' & _). rewrite F, F'.
  rewrite Hv in P, P'.
  destruct (link_leads B Hv _ _ _ _ _ _ _ _ _ _ _ _ _ _ G K eq_refl eq_refl G' P P')
    as (R & D & D' & T & T' & I & I' & S & E).
  destruct C25_fpga_links_are_the_board_edge as (E1 & _).
  split.
  - intros NE. assert (exists f n, In (fst d, snd d, l, f, n) (fpga_links V5)) as (f & fn & X).
    { apply E1. destruct d as [a b]. split; [exact D|]. cbn [fst snd].
      exists (vadd (a, b) (link_vec l)). split.
      - split; [auto|]. rewrite over_red by (auto; split; discriminate). reflexivity.
      - intros OB. destruct (board_inj V5 w h e e' (vadd (a, b) (link_vec l)) d'); auto. }
    exists f, fn, (virtual_ip (fst e) (snd e)). apply (wired_iff Q B Hv Val).
    exists ch, e, d, n. auto.
  - intros (f & fn & a & Wd). apply (wired_iff Q B Hv Val) in Wd as (ch0 & e0 & d0 & n0 & G0 & P0 & X & _).
    assert (e0 = e /\ d0 = d) as [-> ->].
    { destruct (place_unique B (x, y) e0 d0 n0 e d n) as (? & ? & _); rewrite ?Hv; auto. }
    intros ->. destruct (C71_fpga_links_face_each_other _ _ _ _ _ X) as (To & _).
    apply (neighbour_not_zero _ _ _ _ _ X).
    apply wiring_step in X as (d1 & D1 & Y & _ & _).
    replace (fst d, snd d) with d in * by (destruct d; auto).
    destruct (crossing w h e e _ d' d1 _ S T T' D' D1 To Y E) as (_ & _ & M1 & M2).
    rewrite !Z.add_simpl_r in *. auto.
Qed.
Print Assumptions C71_links_between_boards_are_the_fpga_links.

(** C71: the link on the other side of an FPGA link is the facing link of the facing
    FPGA of the neighbouring board that the number of the link tells, and both boards
    report it under the address of their Ethernet chip. *)
Theorem C71_the_other_end :
  forall c V w h m, v_id V = V5 -> virtual_machine c V w h true = Ok m ->
  forall x y ch l k ch' f n a, get_chip_at m x y = Some ch -> get_link (c_router ch) l = Some k ->
    get_chip_at m (l_destination_x k) (l_destination_y k) = Some ch' ->
    wired m x y l f n a ->
    lands V5 w h (neighbour_board f n) (c_eth_x ch, c_eth_y ch) (c_eth_x ch', c_eth_y ch') /\
    (exists e, get_chip_at m (c_eth_x ch) (c_eth_y ch) = Some e /\ c_ip e = Some a) /\
    exists e' a', get_chip_at m (c_eth_x ch') (c_eth_y ch') = Some e' /\ c_ip e' = Some a' /\
      wired m (l_destination_x k) (l_destination_y k) ((l + 3) mod 6)
        (fst (facing f n)) (snd (facing f n)) a'.
Proof.
  intros c V w h m Hv Q x y ch l k ch' f fn a G K G' Wd.
  destruct (virtual_built _ _ _ _ _ _ Q) as (dch & dco & dl & B & _ & _ & Val & _).
  specialize (Val eq_refl).
  destruct (proj1 (built_present B _ _) (ex_intro _ ch G)) as [(e & d & n & P) _].
  destruct (proj1 (built_present B _ _) (ex_intro _ ch' G')) as [(e' & d' & n' & P') _].
  destruct (built_fields B _ _ ch _ _ _ G P) as (_ & _ & F & _).
  destruct (built_fields B _ _ ch' _ _ _ G' P') as (_ & _ & F' & _). rewrite F, F'.
  rewrite Hv in P, P'.
  destruct (link_leads B Hv _ _ _ _ _ _ _ _ _ _ _ _ _ _ G K eq_refl eq_refl G' P P')
    as (R & D & D' & T & T' & I & I' & S & E).
  apply (wired_iff Q B Hv Val) in Wd as (ch0 & e0 & d0 & n0 & G0 & P0 & X & A).
  assert (e0 = e /\ d0 = d) as [-> ->].
  { destruct (place_unique B (x, y) e0 d0 n0 e d n) as (? & ? & _); rewrite ?Hv; auto. }
  destruct (C71_fpga_links_face_each_other _ _ _ _ _ X) as (To & _).
  apply wiring_step in X as (d1 & D1 & Y & _ & X').
  replace (fst d, snd d) with d in * by (destruct d; auto).
  destruct (crossing w h e e' _ d' d1 _ S T T' D' D1 To Y E) as (-> & M & _).
  assert (forall x y ch e d n, get_chip_at m x y = Some ch -> place_of V5 w h (x, y) e d n ->
    exists ec, get_chip_at m (c_eth_x ch) (c_eth_y ch) = Some ec /\
      c_ip ec = Some (virtual_ip (fst e) (snd e))) as EC.
  { intros x0 y0 ch1 e1 d2 n1 G1 P1. apply (built_valid B) in Val as [_ Vc].
    destruct (Vc _ _ _ G1) as (_ & ec & Ge). exists ec. split; [exact Ge|].
    destruct (built_fields B _ _ ch1 e1 d2 n1 G1) as (_ & _ & F1 & _); [rewrite Hv; auto|].
    destruct e1 as [ex ey]. injection F1 as F1 F2. rewrite F1, F2 in Ge. cbn [fst snd].
    destruct (built_eth B _ _ _ Ge) as [(Ie & _)|[_ N]]; [auto|]. rewrite Hv in N.
    exfalso. apply N. apply P1. }
  split; [|split].
  - apply lands_spot; [exact S|]. split; [|exact I'].
    unfold spot. rewrite M. symmetry. apply red_canon. apply inside_canonical; auto.
  - subst a. apply (EC _ _ _ _ _ _ G P).
  - destruct (EC _ _ _ _ _ _ G' P') as (ec & Ge & Ie). exists ec, (virtual_ip (fst e') (snd e')).
    split; [exact Ge|]. split; [exact Ie|]. apply (wired_iff Q B Hv Val).
    exists ch', e', d', n'. auto.
Qed.
Print Assumptions C71_the_other_end.

(** On the smallest machine that wraps, link 0 of the chip at (7, 3) leads around the
    edge to another board. *)
Definition wiring_cfg : config :=
  mkConfig None None None None None None false None (Some "3,3"%string) None None None None true.
Definition wiring_version : version := mkVersion V5 18 100.

Lemma wiring_facts :
  match virtual_machine wiring_cfg wiring_version 12 12 true with
  | Err _ => False
  | Ok m =>
      match get_chip_at m 7 3, get_chip_at m 8 3 with
      | Some ch, Some ch' =>
          get_link (c_router ch) 0 = Some (mkLink 7 3 0 8 3) /\
          (c_eth_x ch, c_eth_y ch) = (0, 0) /\ (c_eth_x ch', c_eth_y ch') = (4, 8) /\
          wired m 7 3 0 0 0 "127.0.0.0" /\ wired m 8 3 3 1 15 "127.0.4.8" /\
          get_spinnaker_link_with_id m 0 (Some "127.0.4.8"%string) None = Err KeyError
      | _, _ => False
      end
  end.
Proof. vm_compute. repeat split. Qed.

Example C71_case :
  exists m ch ch', virtual_machine wiring_cfg wiring_version 12 12 true = Ok m /\
    get_chip_at m 7 3 = Some ch /\ get_chip_at m 8 3 = Some ch' /\
    get_link (c_router ch) 0 = Some (mkLink 7 3 0 8 3) /\
    (c_eth_x ch', c_eth_y ch') <> (c_eth_x ch, c_eth_y ch) /\
    wired m 7 3 0 0 0 "127.0.0.0" /\ wired m 8 3 3 1 15 "127.0.4.8".
Proof.
  pose proof wiring_facts as F.
  destruct (virtual_machine wiring_cfg wiring_version 12 12 true) as [m|e]; [|destruct F].
  destruct (get_chip_at m 7 3) as [ch|] eqn:G; [|destruct F].
  destruct (get_chip_at m 8 3) as [ch'|] eqn:G'; [|destruct F].
  exists m, ch, ch'. destruct F as (F1 & F2 & F3 & F4 & F5 & _). rewrite F2, F3.
  repeat (split; [auto; fail|]). split; [discriminate|]. auto.
Qed.

(** SpiNNaker links on a virtual machine: link 0 of the only board, at (0, 0). *)
Example C24_virtual_case :
  match virtual_machine wiring_cfg wiring_version 8 8 true with
  | Err _ => False
  | Ok m => get_spinnaker_link_with_id m 0 None (Some (0, 0)) = Ok (mkSpinLink 0 0 0 4 "127.0.0.0") /\
      get_fpga_link_with_id m 0 0 (Some "127.0.0.0"%string) None =
        Ok (mkFpgaLink 0 0 7 3 0 "127.0.0.0")
  end.
Proof. vm_compute. repeat split. Qed.
