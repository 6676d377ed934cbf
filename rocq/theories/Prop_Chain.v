(** C75: with recorded parents there is no bound on how often machine_repair calls itself. *)
From Coq Require Import String Lia ZifyBool Znumtheory.
From Verif Require Import Model_Py Model_Wrap Model_Float Model_Geometry Model_Version Model_Core
  Model_Machine Model_Str Model_Ignore Model_Factory Model_Virtual Model_Repair
  Spec_Hops Spec_Board Spec_Version Spec_Machine Spec_Router Spec_Boards Spec_Str Spec_Virtual Spec_Repair Spec_Walk Spec_Rounds Spec_Left
  Proof_Wrap Proof_Py Proof_Board Proof_Version Proof_Machine Proof_Report Proof_Str Proof_Virtual
  Proof_VirtualMachine Proof_Faultfree Proof_Links Proof_Repair Proof_RepairEnd Proof_RepairOff Proof_Walk
  Prop_Geometry Prop_Repair Prop_Back Prop_Rounds Prop_Left Prop_Returns.
Open Scope list_scope.
Open Scope Z_scope.

(** A row of chips (4, 9) to (12 k + 3, 9) over 2 k boards of a machine that does not
    wrap, each with its western neighbour as its parent; (3, 9) is not there.  Besides
    there are the Ethernet chips of these boards, each with its eastern neighbour, and
    the same at (0, 0). *)
Section Chain.
Variable k : Z.
Hypothesis K : 1 <= k.

Definition chain_ids (p : XY) : list Z :=
  let '(x, y) := p in
  if y =? 9 then (if x <? 12 * k + 3 then [0] else []) ++ (if 4 <? x then [3] else [])
  else if Z.even x then [0] else [3].

Definition chain_eth (p : XY) : XY :=
  let '(x, y) := p in
  if y =? 9 then
    let r := (x - 4) mod 12 in if r <? 6 then (x - r, 8) else (x - r + 4, 4)
  else if Z.even x then (x, y) else (x - 1, y).

Definition chain_chip (p : XY) : chip :=
  let '(x, y) := p in
  new_chip x y [0] (zrange 1 18)
    (mkRouter (map (fun l => (l, mkLink x y l (if l =? 0 then x + 1 else x - 1) y)) (chain_ids p)) 1023)
    1000 (fst (chain_eth p)) (snd (chain_eth p))
    (if negb (y =? 9) && Z.even x then Some "10.0.0.1"%string else None) None
    (if y =? 9 then Some 3 else None).

Definition chain_spots : list XY :=
  [(0, 0); (1, 0)] ++
  flat_map (fun i => [(12 * i + 4, 8); (12 * i + 5, 8); (12 * i + 8, 4); (12 * i + 9, 4)]) (zrange 0 k) ++
  map (fun x => (x, 9)) (zrange 4 (12 * k + 4)).

Definition chain_machine : machine :=
  fst (history V5 (new_machine NoWrap (12 * k + 4) 16 (chip_core_map V5) "Chain") (map CallAddChip (map chain_chip chain_spots))).

(** The chips left when the row starts with [a] *)
Definition pair_at (p : XY) : Prop :=
  let '(x, y) := p in
  (y = 0 /\ (x = 0 \/ x = 1)) \/
  (exists i, 0 <= i < k /\ (y = 8 /\ (x = 12 * i + 4 \/ x = 12 * i + 5) \/ y = 4 /\ (x = 12 * i + 8 \/ x = 12 * i + 9))).
Definition spot (a : Z) (p : XY) : Prop := pair_at p \/ (snd p = 9 /\ a <= fst p < 12 * k + 4).

Lemma spots_in p : In p chain_spots <-> spot 4 p.
Proof using.
  destruct p as [x y]. unfold chain_spots, spot, pair_at. rewrite !in_app_iff, in_flat_map, in_map_iff. cbn [fst snd]. split.
  - intros [[E|[E|[]]]|[(i & I & H)|(z & E & H)]].
    + injection E as <- <-. auto.
    + injection E as <- <-. auto.
    + apply in_zrange in I. left. right. exists i. split; auto.
      destruct H as [E|[E|[E|[E|[]]]]]; injection E as <- <-; auto 6.
    + injection E as <- <-. apply in_zrange in H. right. lia.
  - intros [[[-> [->| ->]]|(i & I & H)]|[-> H]].
    + left. left. auto.
    + left. right. left. auto.
    + right. left. exists i. split; [apply in_zrange; lia|].
      destruct H as [[-> [->| ->]]|[-> [->| ->]]]; cbn; auto 6.
    + right. right. exists x. split; auto. apply in_zrange. lia.
Qed.

Lemma chain_xy p : c_xy (chain_chip p) = p.
Proof using. destruct p. reflexivity. Qed.

Definition stage (a : Z) (m : machine) : Prop :=
  good m /\ m_kind m = NoWrap /\ m_width m = 12 * k + 4 /\ m_height m = 16 /\ m_ccm m = chip_core_map V5 /\
  4 <= a <= 12 * k + 4 /\
  forall ch, In ch (chips m) <-> exists p, spot a p /\ ch = chain_chip p.

Lemma chain_proper p : proper (chain_chip p).
Proof using.
  destruct p as [x y]. split; [split|].
  - cbn [chain_chip new_chip c_router r_links]. unfold router_links, dvalues. cbn [r_links]. rewrite !map_map. reflexivity.
  - cbn [chain_chip new_chip c_router]. unfold router_links, dvalues. cbn [r_links]. rewrite !map_map. cbn [snd l_source_link_id].
    rewrite map_id. unfold chain_ids.
    destruct (y =? 9), (x <? 12 * k + 3), (4 <? x), (Z.even x); cbn; repeat constructor; cbn; intuition discriminate.
  - cbn [chain_chip new_chip c_tags]. destruct (negb (y =? 9) && Z.even x); [apply oset_of_nodup|constructor].
Qed.

Lemma history_chips v l : forall m, wf m -> (forall ch, In ch (chips m) -> ch = chain_chip (c_xy ch)) ->
  let n := fst (history v m (map CallAddChip (map chain_chip l))) in
  wf n /\ m_kind n = m_kind m /\ m_width n = m_width m /\ m_height n = m_height m /\ m_ccm n = m_ccm m /\
  (forall ch, In ch (chips n) <-> In ch (chips m) \/ exists p, In p l /\ ch = chain_chip p).
Proof using.
  induction l as [|p l IH]; cbn [map history fst]; intros m W H.
  - split; [auto|]. repeat (split; [reflexivity|]). intros ch. split; [auto|intros [X|(p & [] & _)]; auto].
  - unfold exec. pose proof (add_chip_wf m (chain_chip p) W) as A.
    destruct (add_chip m (chain_chip p)) as [m1|e].
    + destruct A as (W1 & C1 & A1 & A2 & A3 & A4 & _).
      destruct (IH m1 W1) as (B0 & B1 & B2 & B3 & B4 & B5).
      { intros ch X. rewrite C1 in X. apply in_app_iff in X as [X|[<-|[]]]; auto. rewrite chain_xy. auto. }
      destruct (history v m1 (map CallAddChip (map chain_chip l))) as [n outs]. cbn [fst] in *.
      split; [auto|]. repeat (split; [congruence|]). intros ch. rewrite B5, C1, in_app_iff. cbn [In]. split.
      * intros [[X|[<-|[]]]|(q & Q & ->)]; eauto.
      * intros [X|(q & [->|Q] & ->)]; eauto.
    + destruct A as (-> & X). destruct (IH m W H) as (B0 & B1 & B2 & B3 & B4 & B5).
      destruct (history v m (map CallAddChip (map chain_chip l))) as [n outs]. cbn [fst] in *.
      split; [auto|]. repeat (split; [congruence|]). intros ch. rewrite B5. cbn [In]. split.
      * intros [Y|(q & Q & ->)]; eauto.
      * intros [Y|(q & [->|Q] & ->)]; eauto. left. apply in_map_iff in X as (c & E & X).
        rewrite chain_xy in E. rewrite <- E. rewrite <- (H c X). auto.
Qed.

Lemma chain_start : stage 4 chain_machine.
Proof using K.
  destruct (history_chips V5 chain_spots (new_machine NoWrap (12 * k + 4) 16 (chip_core_map V5) "Chain") (wf_new _ _ _ _ _))
    as (W & B1 & B2 & B3 & B4 & B5).
  { intros ch []. }
  fold chain_machine in *. unfold stage.
  assert (forall ch, In ch (chips chain_machine) <-> exists p, spot 4 p /\ ch = chain_chip p) as C.
  { intros ch. rewrite B5. split.
    - intros [[]|(p & H & ->)]. exists p. split; auto. apply spots_in. auto.
    - intros (p & H & ->). right. exists p. split; auto. apply spots_in. auto. }
  split; [split; [exact W|]|].
  - apply Forall_forall. intros ch H. apply C in H as (p & _ & ->). apply chain_proper.
  - rewrite B1, B2, B3, B4. repeat (split; [reflexivity|]). split; [lia|exact C].
Qed.

Lemma over_east x y : nw_xy_over_link x y 0 = Ok (x + 1, y).
Proof using. change (Ok (x + 1, y + 0) = Ok (x + 1, y)). rewrite Z.add_0_r. reflexivity. Qed.
Lemma over_west x y : nw_xy_over_link x y 3 = Ok (x - 1, y).
Proof using. change (Ok (x - 1, y + 0) = Ok (x - 1, y)). rewrite Z.add_0_r. reflexivity. Qed.

Section Stage.
Context {a : Z} {m : machine}.
Hypothesis S : stage a m.

Lemma stage_get x y ch : get_chip_at m x y = Some ch <-> spot a (x, y) /\ ch = chain_chip (x, y).
Proof using S.
  destruct S as ((W & _) & _ & _ & _ & _ & _ & C). rewrite get_chip_in by auto. rewrite C. split.
  - intros [(p & H & ->) E]. rewrite chain_xy in E. subst p. auto.
  - intros [H ->]. split; [eauto|apply chain_xy].
Qed.

Lemma stage_there x y : is_chip_at m x y = true <-> spot a (x, y).
Proof using S.
  rewrite chip_there. split.
  - intros [c G]. apply stage_get in G. tauto.
  - intros H. eexists. apply stage_get. eauto.
Qed.

Lemma stage_east x y : m_over m x y 0 = Ok (x + 1, y).
Proof using S.
  destruct S as (_ & MK & _). unfold m_over, xy_over_link. rewrite MK. apply over_east.
Qed.
Lemma stage_west x y : m_over m x y 3 = Ok (x - 1, y).
Proof using S.
  destruct S as (_ & MK & _). unfold m_over, xy_over_link. rewrite MK. apply over_west.
Qed.
End Stage.

Lemma flat_east x y : flat_neighbour x y 0 (x + 1, y).
Proof using. split; [lia|apply over_east]. Qed.
Lemma flat_west x y : flat_neighbour x y 3 (x - 1, y).
Proof using. split; [lia|apply over_west]. Qed.

Lemma chain_link x y l n : get_link (c_router (chain_chip (x, y))) l = Some n <->
  In l (chain_ids (x, y)) /\ n = mkLink x y l (if l =? 0 then x + 1 else x - 1) y.
Proof using.
  rewrite get_link_in by apply chain_proper. cbn [chain_chip new_chip c_router]. unfold router_links, dvalues. cbn [r_links].
  rewrite map_map. cbn [snd]. rewrite in_map_iff. split.
  - intros [(j & <- & H) E]. cbn in E. subst j. auto.
  - intros [H ->]. split; [exists l; auto|reflexivity].
Qed.

Lemma chain_is_link x y l : is_link (c_router (chain_chip (x, y))) l = true <-> In l (chain_ids (x, y)).
Proof using.
  rewrite is_link_get. split.
  - intros [n H]. apply chain_link in H. tauto.
  - intros H. eexists. apply chain_link. eauto.
Qed.

(** Link ids of the chips of the row and of the pairs *)
Lemma row_east x : In 0 (chain_ids (x, 9)) <-> x < 12 * k + 3.
Proof using. unfold chain_ids. change (9 =? 9) with true. cbv iota. destruct (Z.ltb_spec x (12 * k + 3)), (Z.ltb_spec 4 x); cbn [app In]; split; try lia; intros [A|B]; try lia; tauto || (destruct B; lia). Qed.
Lemma row_west x : In 3 (chain_ids (x, 9)) <-> 4 < x.
Proof using. unfold chain_ids. change (9 =? 9) with true. cbv iota. destruct (Z.ltb_spec x (12 * k + 3)), (Z.ltb_spec 4 x); cbn [app In]; split; try lia; intros [A|B]; try lia; tauto || (destruct B; lia). Qed.

Lemma pair_not_row x y : pair_at (x, y) -> y <> 9.
Proof using. intros [[-> _]|(i & _ & [[-> _]|[-> _]])]; lia. Qed.

Lemma pair_two x y : pair_at (x, y) -> (Z.even x = true /\ pair_at (x + 1, y) /\ Z.even (x + 1) = false) \/
  (Z.even x = false /\ pair_at (x - 1, y) /\ Z.even (x - 1) = true).
Proof using.
  assert (forall i c, Z.even (12 * i + c) = Z.even c) as E.
  { intros i c. rewrite Z.even_add, Z.even_mul. cbn. destruct (Z.even c); reflexivity. }
  intros [[-> [->| ->]]|(i & I & H)].
  - left. repeat split. left. lia.
  - right. repeat split. left. lia.
  - destruct H as [[-> [->| ->]]|[-> [->| ->]]].
    + left. rewrite E. split; auto. split; [right; exists i; lia|].
      replace (12 * i + 4 + 1) with (12 * i + 5) by lia. rewrite E. auto.
    + right. rewrite E. split; auto. split; [right; exists i; lia|].
      replace (12 * i + 5 - 1) with (12 * i + 4) by lia. rewrite E. auto.
    + left. rewrite E. split; auto. split; [right; exists i; lia|].
      replace (12 * i + 8 + 1) with (12 * i + 9) by lia. rewrite E. auto.
    + right. rewrite E. split; auto. split; [right; exists i; lia|].
      replace (12 * i + 9 - 1) with (12 * i + 8) by lia. rewrite E. auto.
Qed.

Lemma row_at x : 4 <= x < 12 * k + 4 -> exists i r, x = 12 * i + 4 + r /\ 0 <= i < k /\ 0 <= r < 12.
Proof using.
  intros H. exists ((x - 4) / 12), ((x - 4) mod 12).
  pose proof (Z.div_mod (x - 4) 12 ltac:(lia)). pose proof (Z.mod_pos_bound (x - 4) 12 ltac:(lia)). lia.
Qed.

Lemma row_eth i r : 0 <= r < 12 -> chain_eth (12 * i + 4 + r, 9) = if r <? 6 then (12 * i + 4, 8) else (12 * i + 8, 4).
Proof using.
  intros R. unfold chain_eth. change (9 =? 9) with true. cbv iota zeta.
  replace (12 * i + 4 + r - 4) with (r + i * 12) by lia. rewrite Z.mod_add, Z.mod_small by lia.
  destruct (r <? 6); f_equal; lia.
Qed.

Lemma pair_eth x y : y <> 9 -> chain_eth (x, y) = if Z.even x then (x, y) else (x - 1, y).
Proof using. intros H. unfold chain_eth. destruct (Z.eqb_spec y 9); [lia|]. auto. Qed.

Lemma pair_ids x y : y <> 9 -> chain_ids (x, y) = if Z.even x then [0] else [3].
Proof using. intros H. unfold chain_ids. destruct (Z.eqb_spec y 9); [lia|]. auto. Qed.

(** Each chip's Ethernet chip is there *)
Lemma eth_there a x y : 4 <= a -> spot a (x, y) -> pair_at (chain_eth (x, y)) /\ chain_eth (chain_eth (x, y)) = chain_eth (x, y).
Proof using.
  intros A [P|[Y X]].
  - pose proof (pair_not_row x y P) as N. rewrite pair_eth by auto.
    destruct (pair_two x y P) as [(E & _)|(E & Q & E')]; rewrite E.
    + rewrite pair_eth, E; auto.
    + rewrite pair_eth, E'; auto.
  - cbn [fst snd] in Y, X. subst y. destruct (row_at x) as (i & r & -> & I & R); [lia|]. rewrite row_eth by auto.
    destruct (Z.ltb_spec r 6).
    + split; [right; exists i; lia|]. rewrite pair_eth by lia. rewrite Z.even_add, Z.even_mul. reflexivity.
    + split; [right; exists i; lia|]. rewrite pair_eth by lia. rewrite Z.even_add, Z.even_mul. reflexivity.
Qed.

Lemma chain_eth_of x y : (c_eth_x (chain_chip (x, y)), c_eth_y (chain_chip (x, y))) = chain_eth (x, y).
Proof using. cbn [chain_chip new_chip c_eth_x c_eth_y]. destruct (chain_eth (x, y)); reflexivity. Qed.

Lemma chain_address x y : has_address (chain_chip (x, y)) <-> y <> 9 /\ Z.even x = true.
Proof using.
  unfold has_address. cbn [chain_chip new_chip c_ip]. destruct (Z.eqb_spec y 9); cbn [negb andb].
  - split; [intros (s & [=] & _)|tauto].
  - destruct (Z.even x).
    + split; [auto|]. intros _. eexists. split; [reflexivity|discriminate].
    + split; [intros (s & [=] & _)|intros [_ [=]]].
Qed.

Section Stage2.
Context {a : Z} {m : machine}.
Hypothesis S : stage a m.

Lemma stage_supported : supported V5 (m_width m) (m_height m).
Proof using S K.
  destruct S as (_ & _ & -> & -> & _). right. repeat split; try lia.
  all: try (exists (3 * k + 1); lia). all: try (exists 4; lia).
Qed.

Lemma stage_class : m_kind m = machine_class V5 (m_width m) (m_height m).
Proof using S.
  destruct S as (_ & -> & -> & -> & _). unfold machine_class. change (16 mod 12 =? 0) with false.
  replace (12 * k + 4) with (4 + k * 12) by lia. rewrite Z.mod_add by lia. reflexivity.
Qed.

Lemma stage_own : own_ethernet m.
Proof using S.
  intros ch H A. destruct S as (_ & _ & _ & _ & _ & _ & C). apply C in H as ([x y] & H & ->).
  rewrite chain_xy, chain_eth_of. apply chain_address in A as [A B]. rewrite pair_eth, B; auto.
Qed.

Lemma stage_messages : messages_work m.
Proof using S.
  pose proof S as (_ & _ & _ & _ & _ & A & C). intros ch H. apply C in H as ([x y] & H & ->).
  pose proof (eth_there a x y ltac:(lia) H) as [P _]. pose proof (chain_eth_of x y) as E. rewrite <- E in P. clear E. split.
  - apply (stage_there S). left. exact P.
  - cbn [chain_chip new_chip c_parent]. intros p. destruct (y =? 9); intros [= <-]; lia.
Qed.

Lemma stage_well : well_formed V5 m.
Proof using S K.
  pose proof S as ((W & _) & MK & MW & MH & CC & A & C). split; [|split].
  - exists (chain_chip (0, 0)), "10.0.0.1"%string. split; [|reflexivity]. apply (stage_get S). split; auto. left. left. auto.
  - intros [=].
  - intros ch H. apply C in H as ([x y] & H & ->).
    assert (0 <= x < 12 * k + 4 /\ 0 <= y < 16) as B.
    { destruct H as [[[-> [->| ->]]|(i & I & H)]|[Y X]]; cbn [fst snd] in *; lia. }
    unfold chip_well_formed. rewrite MW, MH. change (c_x (chain_chip (x, y))) with x. change (c_y (chain_chip (x, y))) with y.
    split; [lia|]. split; [lia|]. split; [discriminate|]. split.
    + intros AD. apply chain_address in AD as [N E]. destruct H as [[[-> [->| ->]]|(i & I & H)]|[Y _]]; try discriminate E.
      * split; apply Z.divide_0_r.
      * assert (forall c, Z.even (12 * i + c) = Z.even c) as EV.
        { intros c. rewrite Z.even_add, Z.even_mul. cbn. destruct (Z.even c); reflexivity. }
        destruct H as [[-> [->| ->]]|[-> [->| ->]]]; rewrite EV in E; try discriminate E.
        -- split; [exists (3 * i + 1)|exists (i + 1)]; lia.
        -- split; [exists (3 * i + 2)|exists (i + 1)]; lia.
      * cbn in Y. lia.
    + intros NA. split.
      * destruct (stage_messages (chain_chip (x, y))) as [T _]; [apply C; eauto|]. apply chip_there in T. exact T.
      * unfold local_xys, m_local. rewrite CC, MK. cbn [get_local_xy]. unfold nw_get_local_xy.
        change (c_x (chain_chip (x, y))) with x. change (c_y (chain_chip (x, y))) with y.
        pose proof (chain_eth_of x y) as E.
        assert (forall p q, (c_eth_x (chain_chip (x, y)), c_eth_y (chain_chip (x, y))) = (p, q) ->
          In (x - p, y - q) (dkeys (chip_core_map V5)) ->
          In (x - c_eth_x (chain_chip (x, y)), y - c_eth_y (chain_chip (x, y))) (dkeys (chip_core_map V5))) as G.
        { intros p q X. apply pair_equal_spec in X as [-> ->]. auto. }
        destruct H as [P|[Y X]].
        -- pose proof (pair_not_row x y P) as N. rewrite pair_eth in E by auto. destruct (Z.even x) eqn:EV.
           ++ exfalso. apply NA. apply chain_address. auto.
           ++ apply (G _ _ E). replace (x - (x - 1)) with 1 by lia. rewrite Z.sub_diag. vm_compute. tauto.
        -- cbn [fst snd] in Y, X. subst y. destruct (row_at x) as (i & r & -> & I & R); [lia|]. rewrite row_eth in E by auto.
           destruct (Z.ltb_spec r 6); apply (G _ _ E).
           ++ replace (12 * i + 4 + r - (12 * i + 4)) with r by lia.
              assert (r = 0 \/ r = 1 \/ r = 2 \/ r = 3 \/ r = 4 \/ r = 5) as D by lia.
              destruct D as [->|[->|[->|[->|[->| ->]]]]]; vm_compute; tauto.
           ++ replace (12 * i + 4 + r - (12 * i + 8)) with (r - 4) by lia.
              assert (r = 6 \/ r = 7 \/ r = 8 \/ r = 9 \/ r = 10 \/ r = 11) as D by lia.
              destruct D as [->|[->|[->|[->|[->| ->]]]]]; vm_compute; tauto.
Qed.

(** Every chip but the first of the row has a chip of its board beside it *)
Lemma stage_beside x y : spot a (x, y) -> (x, y) <> (a, 9) ->
  (In 0 (chain_ids (x, y)) /\ spot a (x + 1, y) /\ In 3 (chain_ids (x + 1, y)) /\ chain_eth (x + 1, y) = chain_eth (x, y)) \/
  (In 3 (chain_ids (x, y)) /\ spot a (x - 1, y) /\ In 0 (chain_ids (x - 1, y)) /\ chain_eth (x - 1, y) = chain_eth (x, y)).
Proof using S.
  pose proof S as (_ & _ & _ & _ & _ & A & _). intros [P|[Y X]] N.
  - pose proof (pair_not_row x y P) as NR. rewrite !pair_ids, !pair_eth by auto.
    destruct (pair_two x y P) as [(E & Q & E')|(E & Q & E')]; [left|right]; rewrite E, E'.
    + split; [left; auto|]. split; [left; auto|]. split; [left; auto|]. f_equal. lia.
    + split; [left; auto|]. split; [left; auto|]. split; [left; auto|]. reflexivity.
  - cbn [fst snd] in Y, X. subst y. assert (a < x) as L. { destruct (Z.eq_dec x a); [congruence|lia]. }
    destruct (row_at x) as (i & r & E & I & R); [lia|]. rewrite !row_east, !row_west.
    assert (r = 5 \/ r = 11 \/ (r <> 5 /\ r <> 11)) as [F|[F|[F1 F2]]] by lia.
    + right. split; [lia|]. split; [right; cbn [fst snd]; lia|]. split; [lia|].
      replace (x - 1) with (12 * i + 4 + 4) by lia. replace x with (12 * i + 4 + 5) by lia. rewrite !row_eth by lia. reflexivity.
    + right. split; [lia|]. split; [right; cbn [fst snd]; lia|]. split; [lia|].
      replace (x - 1) with (12 * i + 4 + 10) by lia. replace x with (12 * i + 4 + 11) by lia. rewrite !row_eth by lia. reflexivity.
    + left. assert (x < 12 * k + 3) by lia. split; [lia|]. split; [right; cbn [fst snd]; lia|]. split; [lia|].
      replace (x + 1) with (12 * i + 4 + (r + 1)) by lia. rewrite E. rewrite !row_eth by lia.
      destruct (Z.ltb_spec r 6), (Z.ltb_spec (r + 1) 6); auto; lia.
Qed.

Lemma stage_bad x y : In (x, y) (bad_chips m) <-> (x, y) = (a, 9) /\ a < 12 * k + 4.
Proof using S.
  pose proof S as ((W & _) & MK & MW & MH & CC & A & C). split.
  - intros B. pose proof (bad_in m _ W B) as (ch & H & E). rewrite <- E in B. apply bad_spec in B; auto.
    apply C in H as (p & H & ->). rewrite chain_xy in E. subst p.
    assert ((x, y) = (a, 9) \/ (x, y) <> (a, 9)) as [E|N].
    { destruct (Z.eq_dec x a), (Z.eq_dec y 9); subst; auto; right; congruence. }
    + split; auto. apply pair_equal_spec in E as [-> ->]. destruct H as [P|[_ X]]; [|cbn [fst snd] in X; lia].
      apply pair_not_row in P. lia.
    + exfalso. pose proof (stage_beside x y H N) as BE. destruct B as [B|[B|B]].
      * apply B. destruct BE as [(L & Q & L' & E)|(L & Q & L' & E)].
        -- exists 0, (x + 1, y), (chain_chip (x + 1, y)). split; [apply flat_east|]. split; [apply chain_is_link; auto|].
           split; [apply (stage_get S); auto|]. rewrite !chain_eth_of. auto.
        -- exists 3, (x - 1, y), (chain_chip (x - 1, y)). split; [apply flat_west|]. split; [apply chain_is_link; auto|].
           split; [apply (stage_get S); auto|]. rewrite !chain_eth_of. auto.
      * apply B. destruct BE as [(L & Q & L' & E)|(L & Q & L' & E)].
        -- exists 0, (x + 1, y), (chain_chip (x + 1, y)). split; [apply flat_east|]. 
           split; [apply (stage_get S); auto|]. split; [apply chain_is_link; auto|]. rewrite !chain_eth_of. auto.
        -- exists 3, (x - 1, y), (chain_chip (x - 1, y)). split; [apply flat_west|]. 
           split; [apply (stage_get S); auto|]. split; [apply chain_is_link; auto|]. rewrite !chain_eth_of. auto.
      * apply orphan_spec in B as (p & q & B1 & B2 & B3). cbn [chain_chip new_chip c_parent] in B1.
        destruct (Z.eqb_spec y 9); [|discriminate B1]. injection B1 as <-. subst y.
        change (m_over m x 9 3 = Ok q) in B2. rewrite (stage_west S) in B2. injection B2 as <-.
        cbn [fst snd] in B3. assert (is_chip_at m (x - 1) 9 = true) as T; [|rewrite T in B3; discriminate B3].
        apply (stage_there S). right. cbn [fst snd]. destruct H as [P|[_ X]]; [apply pair_not_row in P; lia|].
        cbn [fst snd] in X. assert (x <> a) by congruence. lia.
  - intros [E L]. apply pair_equal_spec in E as [-> ->].
    assert (In (chain_chip (a, 9)) (chips m)) as H. { apply C. exists (a, 9). split; auto. right. cbn [fst snd]. lia. }
    rewrite <- (chain_xy (a, 9)). apply bad_spec; auto. right. right. apply orphan_spec. exists 3, (a - 1, 9).
    split; [reflexivity|]. split; [apply (stage_west S)|]. cbn [fst snd]. apply not_true_iff_false. intros T.
    apply (stage_there S) in T as [P|[_ X]]; [apply pair_not_row in P; lia|cbn [fst snd] in X; lia].
Qed.

Lemma stage_links x y o b : In (x, y, o, b) (one_way_links m) -> (x, y) = (a, 9).
Proof using S.
  pose proof S as ((W & _) & MK & MW & MH & CC & A & C). intros H.
  apply one_way_spec in H as (ch & l & G & O & -> & L & N); auto. apply (stage_get S) in G as [G ->].
  apply chain_link in L as [L ->]. cbn [l_destination_x l_destination_y] in N. apply link_at_not in N.
  assert ((x, y) = (a, 9) \/ (x, y) <> (a, 9)) as [E|NE]; auto.
  { destruct (Z.eq_dec x a), (Z.eq_dec y 9); subst; auto; right; congruence. }
  exfalso. apply N. apply link_at_iff.
  assert (forall p q l', spot a (p, q) -> In l' (chain_ids (p, q)) -> is_link_at m p q l' = true) as AT.
  { intros p q l' Q I. apply link_at_iff. assert (exists k', get_link (c_router (chain_chip (p, q))) l' = Some k') as [k' GL].
    { eexists. apply chain_link. eauto. } exists (chain_chip (p, q)), k'. split; auto. apply (stage_get S). auto. }
  destruct G as [P|[Y X]].
  - pose proof (pair_not_row x y P) as NR. rewrite pair_ids in L by auto.
    destruct (pair_two x y P) as [(E & Q & E')|(E & Q & E')]; rewrite E in L; destruct L as [<-|[]].
    + apply (AT (x + 1) y 3); [left; exact Q|]. rewrite pair_ids, E' by auto. left. reflexivity.
    + apply (AT (x - 1) y 0); [left; exact Q|]. rewrite pair_ids, E' by auto. left. reflexivity.
  - cbn [fst snd] in Y, X. subst y. assert (a < x) as LT. { assert (x <> a) by congruence. lia. }
    assert (o = 0 \/ o = 3) as [->| ->].
    { unfold chain_ids in L. change (9 =? 9) with true in L. cbv iota in L. apply in_app_iff in L.
      destruct (x <? 12 * k + 3), (4 <? x), L as [L|L]; cbn [In] in L; tauto || (destruct L as [<-|[]]; auto). }
    + apply row_east in L. apply (AT (x + 1) 9 3); [right; cbn [fst snd]; lia|]. apply row_west. lia.
    + apply row_west in L. apply (AT (x - 1) 9 0); [right; cbn [fst snd]; lia|]. apply row_east. lia.
Qed.

Lemma stage_next removed : a < 12 * k + 4 ->
  exists n, repair_step true V5 m removed = Ok (Some n) /\ stage (a + 1) n.
Proof using S K.
  intros L. pose proof S as ((W & F) & MK & MW & MH & CC & A & C).
  assert (In (a, 9) (bad_chips m)) as BA by (apply stage_bad; auto).
  destruct (ignore_when V5 m (bad_chips m) (one_way_links m)) as [I _]; auto.
  1: split; auto. 1: apply stage_supported. 1: apply stage_class. 1: apply stage_own. 1: apply stage_well.
  destruct I as [_ I]. destruct I as [n IG].
  { assert (forall x y, pair_at (x, y) -> is_chip_at m x y = true /\ ~ In (x, y) (bad_chips m)) as P.
    { intros x y P. split; [apply (stage_there S); left; auto|]. intros B. apply stage_bad in B as [E _].
      apply pair_equal_spec in E as [-> ->]. apply pair_not_row in P. lia. }
    split; [apply P; left; auto|]. intros x y ch [T _] G. apply (stage_get S) in G as [G ->]. apply P.
    destruct (eth_there a x y ltac:(lia) G) as [Q _]. rewrite <- chain_eth_of in Q. exact Q. }
  assert (repair_step true V5 m removed = Ok (Some n)) as ST.
  { rewrite step_eq. rewrite (messages_checks m removed W stage_messages). cbn [bind negb andb].
    fold (round_links true m removed). rewrite on_links. rewrite IG.
    destruct (bad_chips m) as [|b0 bs]; [destruct BA|]. reflexivity. }
  exists n. split; auto.
  destruct (step_next _ _ _ _ _ W F ST) as (_ & _ & Wn & Fn & Cn & K1 & K2 & K3 & K4 & _).
  split; [split; auto|]. split; [rewrite K3, <- stage_class; auto|]. split; [congruence|]. split; [congruence|].
  split; [auto|]. split; [lia|]. intros ch. rewrite Cn, in_survivors, on_links. unfold round_chips. split.
  - intros (c0 & H & N & ->). apply C in H as ([x y] & H & ->). rewrite chain_xy in N.
    assert ((x, y) <> (a, 9)) as NE. { intros E. rewrite E in N. auto. }
    exists (x, y). split.
    + destruct H as [P|[Y X]]; [left; auto|right]. cbn [fst snd] in *. subst y. split; auto. assert (x <> a) by congruence. lia.
    + unfold reduce. destruct (touched (one_way_links m) (c_xy (chain_chip (x, y)))) eqn:T; auto.
      exfalso. rewrite chain_xy in T. apply touched_spec in T as (l & b & T). apply stage_links in T. auto.
  - intros ([x y] & H & ->). exists (chain_chip (x, y)).
    assert ((x, y) <> (a, 9)) as NE.
    { intros E. apply pair_equal_spec in E as [-> ->]. destruct H as [P|[_ X]]; [apply pair_not_row in P; lia|cbn [fst snd] in X; lia]. }
    split; [|split].
    + apply C. exists (x, y). split; auto. destruct H as [P|[Y X]]; [left; auto|right]. cbn [fst snd] in *. lia.
    + rewrite chain_xy. intros B. apply stage_bad in B as [B _]. auto.
    + unfold reduce. destruct (touched (one_way_links m) (c_xy (chain_chip (x, y)))) eqn:T; auto.
      exfalso. rewrite chain_xy in T. apply touched_spec in T as (l & b & T). apply stage_links in T. auto.
Qed.

Lemma stage_done removed : a = 12 * k + 4 -> repair_step true V5 m removed = Ok None.
Proof using S.
  intros L. pose proof S as ((W & F) & MK & MW & MH & CC & A & C).
  rewrite step_eq. rewrite (messages_checks m removed W stage_messages). cbn [bind negb andb].
  fold (round_links true m removed). rewrite on_links.
  assert (bad_chips m = []) as ->.
  { destruct (bad_chips m) as [|[x y] l] eqn:B; auto. exfalso.
    assert (In (x, y) (bad_chips m)) as X by (rewrite B; left; auto). apply stage_bad in X. lia. }
  assert (one_way_links m = []) as ->; [|reflexivity].
  destruct (one_way_links m) as [|[[[x y] o] b] l] eqn:B; auto. exfalso.
  assert (In (x, y, o, b) (one_way_links m)) as X by (rewrite B; left; auto).
  pose proof (stage_links _ _ _ _ X) as E. apply pair_equal_spec in E as [-> ->].
  apply one_way_spec in X as (ch & k' & G & _); auto. apply (stage_get S) in G as [[P|[_ Q]] _].
  - apply pair_not_row in P. lia.
  - cbn [fst snd] in Q. lia.
Qed.
End Stage2.

Lemma chain_calls j : forall a m removed, stage a m -> 12 * k + 4 - a = Z.of_nat j ->
  exists m', stage (12 * k + 4) m' /\ repair_calls true V5 m removed (j + 1) (Ok m').
Proof using K.
  induction j as [|j IH]; intros a m removed S E.
  - assert (a = 12 * k + 4) as X by lia. exists m. split; [rewrite <- X; exact S|]. apply calls_done. eapply stage_done; eauto.
  - destruct (stage_next S removed) as (n & ST & S'); [lia|].
    destruct (IH (a + 1) n [] S') as (m' & Sm & R); [lia|]. exists m'. split; auto. cbn [Nat.add]. eapply calls_again; eauto.
Qed.

End Chain.

(** C75.  With recorded parents any number of calls is reached: 12 k + 1 calls on a
    machine of width 12 k + 4. *)
Theorem C75_any_number_of_calls_with_parents :
  forall k, (1 <= k)%nat -> exists m m', made_machine V5 m /\ supported V5 (m_width m) (m_height m) /\
    m_kind m = machine_class V5 (m_width m) (m_height m) /\
    m_width m = 12 * Z.of_nat k + 4 /\ m_height m = 16 /\
    (forall ch, In ch (chips m) -> inside (m_width m) (m_height m) (c_xy ch)) /\ straight_links m /\
    validate V5 m = Ok tt /\
    repair_calls true V5 m [] (12 * k + 1) (Ok m').
Proof.
  intros k K. set (z := Z.of_nat k). assert (1 <= z) as Z1 by lia.
  pose proof (chain_start z Z1) as S. pose proof (stage_well z Z1 S) as WF.
  destruct (chain_calls z Z1 (12 * k) 4 (chain_machine z) [] S) as (m' & _ & R); [lia|].
  exists (chain_machine z), m'. pose proof S as ((W & F) & MK & MW & MH & CC & A & C).
  split; [split|].
  - unfold chain_machine, made. repeat eexists.
  - eapply Forall_impl; [|exact F]. apply proper_made_chip.
  - split; [apply (stage_supported z Z1 S)|]. split; [apply (stage_class z S)|]. split; [auto|]. split; [auto|].
    split; [|split; [|split; [apply validate_spec; auto|exact R]]].
    + intros ch H. destruct WF as (_ & _ & D). destruct (D ch H) as (D1 & D2 & _). split; [exact D1|exact D2].
    + intros ch l n H L. apply C in H as ([x y] & _ & ->). apply chain_link in L as [L ->].
      cbn [l_destination_x l_destination_y]. change (c_x (chain_chip z (x, y))) with x. change (c_y (chain_chip z (x, y))) with y.
      assert (l = 0 \/ l = 3) as [->| ->].
      { unfold chain_ids in L. destruct (y =? 9), (x <? 12 * z + 3), (4 <? x), (Z.even x); cbn in L; tauto || (intuition auto). }
      * split; [lia|]. apply (stage_east z S).
      * split; [lia|]. apply (stage_west z S).
Qed.
Print Assumptions C75_any_number_of_calls_with_parents.
