(** C85: from the text of the configuration to the machine. *)
From Coq Require Import Lia.
From Verif Require Import Model_Py Model_Wrap Model_Version Model_Core Model_Machine Model_Str
  Model_Ignore Model_Virtual Spec_Version Spec_Boards Spec_Str Spec_Virtual Spec_Down
  Proof_Py Proof_Board Proof_Str Prop_Parse Prop_Virtual Prop_Again.
Open Scope list_scope.
Open Scope Z_scope.

Lemma chips_said t items : says_chips t items ->
  exists l, parse_chips t = Ok l /\ forall c, In c l <-> In c items.
Proof.
  destruct C45_down_chips as (P1 & P2 & P3 & _). intros [[[->|(s & -> & E)] ->]|(texts & N & F & ->)].
  - exists []. split; [exact P1|tauto].
  - exists []. split; [apply P2; exact E|tauto].
  - destruct (P3 texts items N F) as (l & H1 & _ & H2). exists l. auto.
Qed.

Lemma links_said t items : says_links t items ->
  exists l, parse_links t = Ok l /\ forall c, In c l <-> In c items.
Proof.
  destruct C45_down_links as (P1 & P2 & P3 & _). intros [[[->|(s & -> & E)] ->]|(texts & N & F & ->)].
  - exists []. split; [exact P1|tauto].
  - exists []. split; [apply P2; exact E|tauto].
  - destruct (P3 texts items N F) as (l & H1 & _ & H2). exists l. auto.
Qed.

Lemma cores_said v t items : says_cores v t items ->
  exists l, parse_cores v t = Ok l /\ forall c, In c l <-> In c items.
Proof.
  destruct (C45_down_cores v) as (P1 & P2 & P3 & _).
  intros [[[->|(s & -> & E)] ->]|(texts & groups & N & W & F & -> & ->)].
  - exists []. split; [exact P1|tauto].
  - exists []. split; [apply P2; exact E|tauto].
  - destruct (P3 texts groups N W F) as (l & H1 & _ & H2). exists l. split; [exact H1|].
    intros c. rewrite H2, in_concat. reflexivity.
Qed.

(** What is read is what the text says. *)
Lemma chips_read t l : parse_chips t = Ok l -> exists items, says_chips t items.
Proof.
  destruct t as [s|]; intros E; [|exists []; left; split; [left|]; auto].
  destruct (parse_backward ignore_chip_eqb ignore_chip_eqb_eq parse_single_chip chip_text
    chip_parse_text s l E) as [[X ->]|(texts & items & N & -> & F)].
  - exists []. left. split; [right; eauto|auto].
  - exists items. right. exists texts. auto.
Qed.

Lemma links_read t l : parse_links t = Ok l -> exists items, says_links t items.
Proof.
  destruct t as [s|]; intros E; [|exists []; left; split; [left|]; auto].
  destruct (parse_backward ignore_link_eqb ignore_link_eqb_eq parse_single_link link_text
    link_parse_text s l E) as [[X ->]|(texts & items & N & -> & F)].
  - exists []. left. split; [right; eauto|auto].
  - exists items. right. exists texts. auto.
Qed.

Lemma cores_read v t l : parse_cores v t = Ok l -> exists items, says_cores v t items.
Proof.
  destruct t as [s|]; intros E; [|exists []; left; split; [left|]; auto].
  unfold parse_cores, parse_items in E. destruct (String.eqb (lower s) "none") eqn:B.
  - apply String.eqb_eq in B. exists []. left. split; [right; eauto|auto].
  - apply parse_fold_inv in E as (ls & F); [|apply ignore_core_eqb_eq].
    destruct (split_join ":" s) as [J W]. exists (List.concat ls). right. exists (split_on ":" s), ls.
    split; [apply split_nonempty|]. split; [exact W|]. split; [|split; [f_equal; exact J|reflexivity]].
    clear J B. induction F as [|t i ts is H F IH]; [constructor|].
    inversion W; subst. constructor; auto. apply core_item_bwd; auto.
Qed.

(** A text says one thing, whichever way it is taken apart. *)
Theorem C85_one_meaning :
  forall v t,
    (forall a b, says_chips t a -> says_chips t b -> forall i, In i a <-> In i b) /\
    (forall a b, says_links t a -> says_links t b -> forall i, In i a <-> In i b) /\
    (forall a b, says_cores v t a -> says_cores v t b -> forall i, In i a <-> In i b).
Proof.
  intros v t. split; [|split]; intros a b A B i.
  - apply chips_said in A as (l & L1 & L2). apply chips_said in B as (l' & M1 & M2).
    assert (l' = l) as -> by congruence. rewrite <- L2, <- M2. tauto.
  - apply links_said in A as (l & L1 & L2). apply links_said in B as (l' & M1 & M2).
    assert (l' = l) as -> by congruence. rewrite <- L2, <- M2. tauto.
  - apply cores_said in A as (l & L1 & L2). apply cores_said in B as (l' & M1 & M2).
    assert (l' = l) as -> by congruence. rewrite <- L2, <- M2. tauto.
Qed.
Print Assumptions C85_one_meaning.

(** Without validation, a machine is made exactly if the size is supported and the three texts
    say something, with no physical core beyond 17 on chips named without an address. *)
Theorem C85_when_created :
  forall c V w h,
    (exists m, virtual_machine c V w h false = Ok m) <->
    supported (v_id V) w h /\
    exists chips cores links,
      says_chips (cfg_down_chips c) chips /\ says_cores (v_id V) (cfg_down_cores c) cores /\
      says_links (cfg_down_links c) links /\
      forall i, In i cores -> ico_ip i = None -> -17 <= ico_p i.
Proof.
  intros c V w h. rewrite C28_when_created. split.
  - intros (S & a & b & d & A & B & D & P). split; [exact S|].
    destruct (chips_read _ _ A) as [a' A']. destruct (cores_read _ _ _ B) as [b' B'].
    destruct (links_read _ _ D) as [d' D']. exists a', b', d'. repeat split; auto.
    destruct (cores_said _ _ _ B') as (l & L1 & L2). assert (l = b) as -> by congruence.
    intros i Hi. apply P. apply L2. exact Hi.
  - intros (S & a & b & d & A & B & D & P). split; [exact S|].
    apply chips_said in A as (a' & A1 & A2). apply cores_said in B as (b' & B1 & B2).
    apply links_said in D as (d' & D1 & D2). exists a', b', d'. repeat split; auto.
    intros i Hi. apply P. apply B2. exact Hi.
Qed.
Print Assumptions C85_when_created.

(** The machine has exactly what the boards have and the texts do not name. *)
Theorem C85_what_the_text_takes_away :
  forall c V w h check m chips cores links,
    virtual_machine c V w h check = Ok m ->
    says_chips (cfg_down_chips c) chips -> says_cores (v_id V) (cfg_down_cores c) cores ->
    says_links (cfg_down_links c) links ->
    (forall x y, is_chip_at m x y = true <->
       (exists e d n, place_of (v_id V) w h (x, y) e d n) /\ ~ In (mkIgnoreChip x y None) chips) /\
    (forall x y ch e d n, get_chip_at m x y = Some ch -> place_of (v_id V) w h (x, y) e d n ->
       forall p, In p (c_placable ch) <->
         1 <= p < Z.min n (max_cores_per_chip V) /\ ~ names_core cores x y p) /\
    (forall x y ch l, get_chip_at m x y = Some ch ->
       (is_link (c_router ch) l = true <->
        0 <= l < 6 /\ ~ link_down (v_id V) links x y l /\
        exists dx dy, m_over m x y l = Ok (dx, dy) /\ is_chip_at m dx dy = true)).
Proof.
  intros c V w h check m cs ks ls E A B D.
  apply chips_said in A as (a & A1 & A2). apply cores_said in B as (b & B1 & B2).
  apply links_said in D as (d & D1 & D2).
  split; [|split].
  - intros x y. destruct (C28_chips c V w h check m a E A1) as (_ & _ & _ & _ & H).
    rewrite H, A2. reflexivity.
  - intros x y ch e q n G P p.
    destruct (C28_chip c V w h check m b E B1 x y ch e q n G P) as (_ & _ & _ & _ & _ & _ & _ & H & _).
    rewrite H. apply and_iff_compat_l. apply not_iff_compat. unfold core_down, names_core.
    split; intros (i & H1 & H2 & H3 & H4 & H5); exists i; rewrite ?B2 in *; repeat split; auto;
      destruct (C46_virtual_core (ico_x i) (ico_y i) (ico_p i) (ico_ip i)) as (V1 & V2 & V3);
      assert (mkIgnoreCore (ico_x i) (ico_y i) (ico_p i) (ico_ip i) = i) as X by (destruct i; reflexivity);
      rewrite X in *.
    + destruct (Z_lt_le_dec 0 (ico_p i)) as [L|L]; [left; rewrite (V1 L) in H5; apply Ok_inj in H5; auto|].
      destruct (Z_lt_le_dec (ico_p i) (-17)) as [L'|L']; [rewrite (V3 L') in H5; discriminate H5|].
      right. rewrite (V2 (conj L' L)) in H5. apply Ok_inj in H5. split; [lia|]. symmetry. exact H5.
    + destruct H5 as [[L ->]|[L ->]]; [apply V1; exact L|apply V2; exact L].
  - intros x y ch l G. destruct (C29_links c V w h check m d E D1 x y ch G l) as [H _]. rewrite H.
    unfold link_down. rewrite D2. reflexivity.
Qed.
Print Assumptions C85_what_the_text_takes_away.

(** The texts of the configuration of C28's case: chips (1, 1) and (5, 5), core 3 of (2, 2) and
    cores 5 and 6 of (0, 4), link 0 of (0, 0) and link 3 of (1, 0). *)
Example C85_case :
  says_chips (cfg_down_chips demo_cfg) [mkIgnoreChip 1 1 None; mkIgnoreChip 5 5 None] /\
  says_cores V5 (cfg_down_cores demo_cfg)
    [mkIgnoreCore 2 2 3 None; mkIgnoreCore 0 4 5 None; mkIgnoreCore 0 4 6 None] /\
  says_links (cfg_down_links demo_cfg) [mkIgnoreLink 0 0 0 None; mkIgnoreLink 1 0 3 None] /\
  says_chips (Some "NONE"%string) [] /\
  names_core [mkIgnoreCore 0 0 (-10) None] 0 0 0 /\ ~ names_core [mkIgnoreCore 0 0 3 (Some "ip"%string)] 0 0 3 /\
  exists m ch, virtual_machine demo_cfg demo_version 12 12 true = Ok m /\
    is_chip_at m 5 5 = false /\ get_chip_at m 0 4 = Some ch /\ ~ In 6 (c_placable ch).
Proof.
  assert (forall n, int_text (dec n) n) as I by apply dec_int_text.
  assert (numeral "3" 3 /\ numeral "5" 5 /\ numeral "6" 6) as (N3 & N5 & N6).
  { repeat split; try discriminate; cbn; lia. }
  split; [|split; [|split; [|split; [|split; [|split]]]]].
  - right. exists ["1,1"; "5,5"]%string. split; [discriminate|]. split; [|reflexivity].
    constructor; [|constructor; [|constructor]]; [exists (dec 1), (dec 1)|exists (dec 5), (dec 5)]; repeat split; apply I.
  - right. exists ["2,2,3"; "0,4,5-6"]%string,
      [[mkIgnoreCore 2 2 3 None]; [mkIgnoreCore 0 4 5 None; mkIgnoreCore 0 4 6 None]].
    split; [discriminate|]. split; [repeat constructor; discriminate|]. split; [|split; reflexivity].
    constructor; [|constructor; [|constructor]].
    + exists "2"%string, "2"%string, "3"%string, [3], None. repeat split; try discriminate.
      * left. left. exists 3. split; [exact N3|reflexivity].
      * right. exists 2, 2. split; [apply (I 2)|]. split; [apply (I 2)|reflexivity].
    + exists "0"%string, "4"%string, "5-6"%string, [5; 6], None. repeat split; try discriminate.
      * left. right. right. exists "5"%string, "6"%string, 5, 6.
        split; [exact N5|]. split; [exact N6|]. split; reflexivity.
      * right. exists 0, 4. split; [apply (I 0)|]. split; [apply (I 4)|reflexivity].
  - right. exists ["0,0,0"; "1,0,3"]%string. split; [discriminate|]. split; [|reflexivity].
    constructor; [|constructor; [|constructor]]; [exists (dec 0), (dec 0), (dec 0)|exists (dec 1), (dec 0), (dec 3)]; repeat split; apply I.
  - left. split; [right; eexists; split; reflexivity|reflexivity].
  - eexists. split; [left; reflexivity|]. cbn. repeat split; auto. right. split; [lia|reflexivity].
  - intros (i & [<-|[]] & X & _). discriminate X.
  - eexists. eexists. split; [vm_compute; reflexivity|]. split; [reflexivity|].
    split; [vm_compute; reflexivity|]. cbn. intuition discriminate.
Qed.
