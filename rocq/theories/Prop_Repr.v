(** C53, C54: the texts of routing entries, links, routers, tags and core subsets. *)
From Coq Require Import Lia ZifyBool String Ascii.
From Verif Require Import Model_Py Model_Core Model_Str Model_Virtual Model_Text Model_Routing
  Model_Subsets Model_Repr Spec_Str Spec_Routing Proof_Py Proof_Str Proof_Virtual Proof_Routing
  Proof_Repr.
Open Scope string_scope.
Open Scope list_scope.
Open Scope Z_scope.

Ltac notnum := apply not_num; reflexivity.
Ltac next E := cbn [append] in E; apply dec_then in E; [|reflexivity|reflexivity];
  let X := fresh "X" in destruct E as (X & _ & E).

(** ** C53 *)

(** The text says which processors and links, and whether defaultable, and nothing else. *)
Theorem C53_entry_text :
  forall a b, made_entry a -> made_entry b ->
    (entry_repr a = entry_repr b <->
     same_members (processor_ids a) (processor_ids b) /\ same_members (link_ids a) (link_ids b) /\
     defaultable a = defaultable b).
Proof.
  intros a b A B. destruct (ids_nodup a A) as [PA LA]. destruct (ids_nodup b B) as [PB LB].
  rewrite <- (sorted_same _ _ PA PB), <- (sorted_same _ _ LA LB). unfold entry_repr, cat, defaultable.
  cbn [fold_right]. rewrite !app_nil_s. split.
  - cbn [append]. intros E. injection E as E. apply dec_list_inj in E; [|reflexivity|discriminate].
    destruct E as [X E]. injection E as E. apply dec_list_inj in E; [|reflexivity|discriminate].
    destruct E as [Y E]. split; [auto|split; [auto|]]. destruct (e_defaultable a), (e_defaultable b); auto; discriminate.
  - intros (-> & -> & ->). reflexivity.
Qed.
Print Assumptions C53_entry_text.

(** Entries are equal exactly if they have the same text, as long as the ids are ids of
    a router and the route has no other bits. *)
Theorem C53_equal_entries :
  forall a b, made_entry a -> made_entry b -> routable a -> routable b ->
    0 <= spinnaker_route a < 2 ^ 24 -> 0 <= spinnaker_route b < 2 ^ 24 ->
    (entry_repr a = entry_repr b <-> entry_eqb a b = true).
Proof.
  intros a b A B RA RB HA HB. rewrite (C53_entry_text a b A B), entry_eqb_iff.
  destruct (routable_bits a A RA) as [PA LA]. destruct (routable_bits b B RB) as [PB LB].
  unfold spinnaker_route, defaultable in *. split.
  - intros (P & L & D). split; auto. apply Z.bits_inj'. intros n Hn.
    destruct (Z.lt_ge_cases n 24) as [L24|G24].
    + apply Bool.eq_iff_eq_true. destruct (Z.lt_ge_cases n 6) as [L6|G6].
      * split; intros T.
        -- assert (In n (link_ids b)) as H by (apply L, LA; auto). apply LB in H. tauto.
        -- assert (In n (link_ids a)) as H by (apply L, LB; auto). apply LA in H. tauto.
      * replace n with (6 + (n - 6)) by lia. split; intros T.
        -- assert (In (n - 6) (processor_ids b)) as H by (apply P, PA; split; [lia|auto]).
           apply PB in H. tauto.
        -- assert (In (n - 6) (processor_ids a)) as H by (apply P, PB; split; [lia|auto]).
           apply PA in H. tauto.
    + assert (forall r, 0 <= r < 2 ^ 24 -> Z.testbit r n = false) as K.
      { intros r Hr. rewrite <- (Z.mod_small r (2 ^ 24)) by auto. apply Z.mod_pow2_bits_high. lia. }
      rewrite !K; auto.
  - intros [R D]. split; [|split; auto]; intros z; [rewrite PA, PB|rewrite LA, LB]; rewrite R; tauto.
Qed.
Print Assumptions C53_equal_entries.

(** Bits that name no link and no processor are not in the text: different entries. *)
Theorem C53_high_bits_refuted :
  exists a b, made_entry a /\ made_entry b /\ routable a /\ routable b /\
    entry_repr a = entry_repr b /\ entry_eqb a b = false.
Proof.
  exists (mkEntry false None None 0), (mkEntry false None None (2 ^ 24)).
  split; [apply (made_new None None None None None (Some 0)); reflexivity|].
  split; [apply (made_new None None None None None (Some (2 ^ 24))); reflexivity|].
  split; [apply none_routable; reflexivity|]. split; [apply none_routable; reflexivity|].
  split; vm_compute; reflexivity.
Qed.
Print Assumptions C53_high_bits_refuted.

(** The text of a multicast entry also says the key and the mask, whatever their sizes. *)
Theorem C53_multicast_text :
  forall a b, made_entry (mc_entry a) -> made_entry (mc_entry b) ->
    (mc_repr a = mc_repr b <->
     mc_key a = mc_key b /\ mc_mask a = mc_mask b /\
     same_members (mc_processor_ids a) (mc_processor_ids b) /\
     same_members (mc_link_ids a) (mc_link_ids b) /\ mc_defaultable a = mc_defaultable b).
Proof.
  intros a b A B. unfold mc_processor_ids, mc_link_ids, mc_defaultable.
  rewrite <- (C53_entry_text _ _ A B). unfold mc_repr, cat. cbn [fold_right]. rewrite !app_nil_s. split.
  - assert (~ (hex_char ":" \/ ":"%char = "-"%char)) as N.
    { intros [[X|X]|X]; [unfold digit_char in X; cbn in X; lia|cbn in X; lia|discriminate]. }
    cbn [append]. intros E. injection E as E. apply format_then in E; auto. destruct E as (X & _ & E).
    injection E as E. apply format_then in E; auto. destruct E as (Y & _ & E). auto.
  - intros (-> & -> & ->). reflexivity.
Qed.
Print Assumptions C53_multicast_text.

Example C53_case :
  exists e, new_entry (Some (ManyIds [4; 2; 4])) (Some (OneId 5)) None (Some 2) None None = Ok e /\
    made_entry e /\ routable e /\ 0 <= spinnaker_route e < 2 ^ 24 /\
    entry_repr e = "{2, 4}:{5}(defaultable)" /\
    mc_repr (mkMulticast 43981 (2 ^ 32 - 1) e) = "0x0000ABCD:0xFFFFFFFF:{2, 4}:{5}(defaultable)".
Proof.
  eexists. split; [vm_compute; reflexivity|].
  split; [apply (made_new (Some (ManyIds [4; 2; 4])) (Some (OneId 5)) None (Some 2) None None); vm_compute; reflexivity|].
  split; [split; cbn; lia|]. split; [vm_compute; split; [discriminate|reflexivity]|].
  split; vm_compute; reflexivity.
Qed.

(** ** C54 *)

(** A link's text is the link. *)
Theorem C54_link_text : forall a b, link_str a = link_str b <-> a = b.
Proof.
  intros [a1 a2 a3 a4 a5] [b1 b2 b3 b4 b5]. split; [|congruence].
  unfold link_str, cat. cbn [fold_right l_source_x l_source_y l_source_link_id l_destination_x l_destination_y].
  intros E. cbn [append] in E. injection E as E.
  next E. injection E as E. next E. injection E as E. next E. injection E as E. next E. injection E as E. next E.
  congruence.
Qed.
Print Assumptions C54_link_text.

Lemma link_then a b r s : (link_str a ++ r = link_str b ++ s)%string -> a = b /\ r = s.
Proof.
  destruct a as [a1 a2 a3 a4 a5], b as [b1 b2 b3 b4 b5].
  unfold link_str, cat. cbn [fold_right l_source_x l_source_y l_source_link_id l_destination_x l_destination_y].
  rewrite !app_assoc_s. intros E. cbn [append] in E. injection E as E.
  rewrite ?app_assoc_s in E. next E. injection E as E.
  rewrite ?app_assoc_s in E. next E. injection E as E.
  rewrite ?app_assoc_s in E. next E. injection E as E.
  rewrite ?app_assoc_s in E. next E. injection E as E.
  rewrite ?app_assoc_s in E. next E. split; congruence.
Qed.

(** A router's text gives the number of entries and the links in their order. *)
Theorem C54_router_text :
  forall a b, router_str a = router_str b <->
    r_entries a = r_entries b /\ router_links a = router_links b.
Proof.
  intros a b. unfold router_str, cat. cbn [fold_right]. rewrite !app_nil_s. split.
  - intros E. cbn [append] in E. injection E as E. next E. injection E as E.
    apply join_inj in E; [tauto| | |discriminate].
    + intros x y c d r s _ _ Y. apply link_then in Y as [-> Y]. injection Y as -> ->. auto.
    + intros x r s Y. unfold link_str, cat in Y. cbn in Y. discriminate.
  - intros [-> ->]. reflexivity.
Qed.
Print Assumptions C54_router_text.

(** Two spinnaker links that are not equal have the same text: the id is shown twice and
    the link of the chip not at all. *)
Theorem C54_spinnaker_link_text_refuted :
  exists a b, spin_link_str a = spin_link_str b /\ spin_link_eqb a b = false.
Proof. exists (mkSpinLink 0 0 0 4 "127.0.0.0"), (mkSpinLink 0 0 0 3 "127.0.0.0"). split; reflexivity. Qed.
Print Assumptions C54_spinnaker_link_text_refuted.

Theorem C54_spinnaker_link_text :
  forall a b, spin_link_str a = spin_link_str b <->
    sl_id a = sl_id b /\ sl_x a = sl_x b /\ sl_y a = sl_y b /\ sl_addr a = sl_addr b.
Proof.
  intros a b. unfold spin_link_str, cat. cbn [fold_right]. rewrite !app_nil_s. split.
  - intros E. cbn [append] in E. injection E as E. next E. injection E as E. next E. injection E as E. next E.
    injection E as E. next E. auto.
  - intros (-> & -> & -> & ->). reflexivity.
Qed.
Print Assumptions C54_spinnaker_link_text.

(** The text of a tag is the tag, if its addresses have no comma. *)
Theorem C54_iptag_text :
  forall a b,
    without "," (it_board a) -> without "," (it_board b) -> without "," (it_ip a) -> without "," (it_ip b) ->
    (iptag_repr a = iptag_repr b <-> a = b).
Proof.
  intros [a1 a2 a3 a4 a5 a6 a7 a8] [b1 b2 b3 b4 b5 b6 b7 b8]; cbn [it_board it_ip]. intros A B A' B'.
  split; [|congruence]. unfold iptag_repr, cat.
  cbn [fold_right it_board it_tag it_port it_ip it_strip it_traffic it_x it_y]. intros E.
  cbn [append] in E. injection E as E.
  apply (until (fun a => a <> ","%char)) in E; auto. destruct E as (-> & _ & E).
  injection E as E. next E. injection E as E. next E. injection E as E. next E. injection E as E. next E.
  injection E as E. apply (until (fun a => a <> ","%char)) in E; auto. destruct E as (-> & _ & E).
  injection E as E.
  assert (a5 = b5 /\ a6 = b6) as [-> ->].
  { assert (forall s t, (s ++ ")" = t ++ ")" -> s = t)%string) as K.
    { clear. intros s. induction s as [|x s IH]; intros [|y t] E; cbn in E; auto.
      - injection E as -> E. destruct t; discriminate.
      - injection E as -> E. destruct s; discriminate.
      - injection E as -> E. f_equal. auto. }
    destruct a5, b5; cbn in E; try discriminate; injection E as E; apply K in E; auto. }
  congruence.
Qed.
Print Assumptions C54_iptag_text.

Theorem C54_reverse_iptag_text :
  forall a b,
    (forall s, rt_board a = Some s -> without "," s /\ s <> "None") ->
    (forall s, rt_board b = Some s -> without "," s /\ s <> "None") ->
    (reverse_iptag_repr a = reverse_iptag_repr b <-> a = b).
Proof.
  intros [a1 a2 a3 a4 a5 a6 a7] [b1 b2 b3 b4 b5 b6 b7]; cbn [rt_board]. intros A B.
  split; [|congruence]. unfold reverse_iptag_repr, cat.
  cbn [fold_right rt_board rt_tag rt_port rt_x rt_y rt_p rt_sdp_port]. intros E.
  cbn [append] in E. injection E as E.
  assert (forall o, (forall s, o = Some s -> without "," s /\ s <> "None") -> without "," (opt_str o)) as K.
  { intros [s|] H; [apply H; auto|]. cbn. repeat split; discriminate. }
  apply (until (fun a => a <> ","%char)) in E; auto. destruct E as (X & _ & E).
  2: apply K; auto. 2: apply K; auto.
  assert (a1 = b1) as ->.
  { destruct a1 as [s|], b1 as [t|]; cbn in X; try congruence.
    - exfalso. apply (A s); auto.
    - exfalso. apply (B t); auto. }
  injection E as E. next E. injection E as E. next E. injection E as E. next E. injection E as E. next E.
  injection E as E. next E. injection E as E. next E. congruence.
Qed.
Print Assumptions C54_reverse_iptag_text.

(** The text of a collection of cores lists its chips in order, and no cores. *)
Theorem C54_core_subsets_text :
  forall a b : subsets, s_repr a = s_repr b <-> dkeys a = dkeys b.
Proof.
  intros a b. unfold s_repr.
  assert (forall l s, fold_left (fun o xy => (o ++ xy_str xy)%string) l s =
    (s ++ fold_right (fun xy o => (xy_str xy ++ o)%string) "" l)%string) as K.
  { induction l as [|x l IH]; intros s; cbn [fold_left fold_right]; [rewrite app_nil_s; reflexivity|].
    rewrite IH, app_assoc_s. reflexivity. }
  rewrite !K. cbn [append]. split; [|intros ->; reflexivity].
  generalize (dkeys b) as l'. generalize (dkeys a) as l. clear K. induction l as [|[x y] l IH]; intros [|[x' y'] l'] E;
    cbn [fold_right] in E; auto; try discriminate.
  unfold xy_str, cat in E. cbn [fold_right fst snd] in E. rewrite ?app_assoc_s in E.
  cbn [append] in E. injection E as E. rewrite ?app_assoc_s in E. next E. injection E as E.
  rewrite ?app_assoc_s in E. next E. apply IH in E. congruence.
Qed.
Print Assumptions C54_core_subsets_text.

Example C54_case :
  link_str (mkLink 0 1 2 (-3) 40) =
    "[Link: source_x=0, source_y=1, source_link_id=2, destination_x=-3, destination_y=40]" /\
  router_str (mkRouter [(2, mkLink 0 1 2 1 2)] 1023) =
    "[Router: available_entries=1023, links=[[Link: source_x=0, source_y=1, source_link_id=2, destination_x=1, destination_y=2]]]" /\
  spin_link_str (mkSpinLink 1 0 0 4 "127.0.0.0") = "id:1 x:0 y:0 link:1 127.0.0.0" /\
  iptag_repr (mkIPTag "127.0.0.1" 3 5 "localhost" true "DEFAULT" 1 2) =
    "IPTag(board_address=127.0.0.1, destination_x=1, destination_y=2, tag=3, port=5, ip_address=localhost, strip_sdp=True, traffic_identifier=DEFAULT)" /\
  reverse_iptag_repr (mkReverseIPTag None 3 5 0 1 2 1) =
    "ReverseIPTag(board_address=None, tag=3, port=5, destination_x=0, destination_y=1, destination_p=2, sdp_port=1)" /\
  s_repr [((0, 1), O); ((2, 0), 1%nat)] = "(0, 1)(2, 0)".
Proof. repeat split; vm_compute; reflexivity. Qed.
