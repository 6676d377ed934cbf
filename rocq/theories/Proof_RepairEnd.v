From Coq Require Import Lia ZifyBool.
From Verif Require Import Model_Py Model_Wrap Model_Version Model_Core Model_Machine Model_Repair
  Spec_Hops Spec_Version Spec_Machine Spec_Router Spec_Repair
  Proof_Wrap Proof_Py Proof_Board Proof_Version Proof_Machine Proof_Report Proof_Repair.
Open Scope list_scope.
Open Scope Z_scope.

(** ** Being linked is decidable *)
Lemma over_six k w h x y l : 0 <= l < 6 -> exists q, xy_over_link k w h x y l = Ok q.
Proof.
  intros H. apply six in H. destruct k; unfold xy_over_link, nw_xy_over_link, hw_xy_over_link,
    vw_xy_over_link, fw_xy_over_link;
  decompose [or] H; subst l; eexists; reflexivity.
Qed.

Lemma six_dec (P : Z -> Prop) : (forall l, 0 <= l < 6 -> P l \/ ~ P l) ->
  (exists l, 0 <= l < 6 /\ P l) \/ ~ (exists l, 0 <= l < 6 /\ P l).
Proof.
  intros D.
  destruct (D 0) as [H|H0]; [lia|left; exists 0; split; [lia|auto]|].
  destruct (D 1) as [H|H1]; [lia|left; exists 1; split; [lia|auto]|].
  destruct (D 2) as [H|H2]; [lia|left; exists 2; split; [lia|auto]|].
  destruct (D 3) as [H|H3]; [lia|left; exists 3; split; [lia|auto]|].
  destruct (D 4) as [H|H4]; [lia|left; exists 4; split; [lia|auto]|].
  destruct (D 5) as [H|H5]; [lia|left; exists 5; split; [lia|auto]|].
  right. intros (l & R & H). apply six in R. decompose [or] R; subst l; auto.
Qed.

Lemma to_board_dec m c : linked_to_board flat_neighbour m c \/ ~ linked_to_board flat_neighbour m c.
Proof.
  destruct (six_dec (fun l => exists q n, flat_neighbour (c_x c) (c_y c) l q /\
    is_link (c_router c) l = true /\ get_chip_at m (fst q) (snd q) = Some n /\
    (c_eth_x n, c_eth_y n) = (c_eth_x c, c_eth_y c))) as [H|H].
  - intros l R. destruct (over_six NoWrap 0 0 (c_x c) (c_y c) l R) as [q Q].
    destruct (is_link (c_router c) l) eqn:I.
    2: { right. intros (? & ? & _ & X & _). congruence. }
    destruct (get_chip_at m (fst q) (snd q)) as [n|] eqn:G.
    2: { right. intros (q' & n & [_ X] & _ & Y & _). congruence. }
    destruct (xy_eqb (c_eth_x n, c_eth_y n) (c_eth_x c, c_eth_y c)) eqn:X.
    + apply xyeqb_eq in X. left. exists q, n. repeat split; auto; try lia.
    + right. intros (q' & n' & [_ Q'] & _ & Y & Z). assert (q' = q) by congruence. subst q'.
      assert (n' = n) by congruence. subst n'. apply xyeqb_eq in Z. congruence.
  - destruct H as (l & _ & q & n & H). left. exists l, q, n. auto.
  - right. intros (l & q & n & X). apply H. exists l. split; [apply X|eauto].
Qed.

Lemma from_board_dec m c : linked_from_board flat_neighbour m c \/ ~ linked_from_board flat_neighbour m c.
Proof.
  destruct (six_dec (fun l => exists q n, flat_neighbour (c_x c) (c_y c) l q /\
    get_chip_at m (fst q) (snd q) = Some n /\ is_link (c_router n) ((l + 3) mod 6) = true /\
    (c_eth_x n, c_eth_y n) = (c_eth_x c, c_eth_y c))) as [H|H].
  - intros l R. destruct (over_six NoWrap 0 0 (c_x c) (c_y c) l R) as [q Q].
    destruct (get_chip_at m (fst q) (snd q)) as [n|] eqn:G.
    2: { right. intros (q' & n & [_ X] & Y & _). congruence. }
    destruct (is_link (c_router n) ((l + 3) mod 6)) eqn:I.
    2: { right. intros (q' & n' & [_ X] & Y & Z & _). assert (q' = q) by congruence. subst q'. congruence. }
    destruct (xy_eqb (c_eth_x n, c_eth_y n) (c_eth_x c, c_eth_y c)) eqn:X.
    + apply xyeqb_eq in X. left. exists q, n. repeat split; auto; try lia.
    + right. intros (q' & n' & [_ Q'] & Y & _ & Z). assert (q' = q) by congruence. subst q'.
      assert (n' = n) by congruence. subst n'. apply xyeqb_eq in Z. congruence.
  - destruct H as (l & _ & q & n & H). left. exists l, q, n. auto.
  - right. intros (l & q & n & X). apply H. exists l. split; [apply X|eauto].
Qed.

(** ** Which chips are bad *)
Lemma orphan_spec m ch : orphan m ch = true <->
  exists p q, c_parent ch = Some p /\ m_over m (c_x ch) (c_y ch) p = Ok q /\
    is_chip_at m (fst q) (snd q) = false.
Proof.
  unfold orphan. destruct (c_parent ch) as [p|]; [|split; [discriminate|intros (? & ? & X & _); discriminate]].
  destruct (m_over m (c_x ch) (c_y ch) p) as [q|] eqn:E.
  - rewrite negb_true_iff. split; [intros H; exists p, q; auto|].
   intros (p' & q' & X & Y & Z). assert (p' = p) by congruence. subst p'.
      assert (q' = q) by congruence. subst q'. exact Z.
  - split; [discriminate|]. intros (p' & q' & X & Y & Z). assert (p' = p) by congruence. subst p'. congruence.
Qed.

Lemma bad_spec m ch : wf m -> In ch (chips m) ->
  (In (c_xy ch) (bad_chips m) <->
   ~ linked_to_board flat_neighbour m ch \/ ~ linked_from_board flat_neighbour m ch \/ orphan m ch = true).
Proof.
  intros W H. unfold bad_chips. rewrite !in_app_iff.
  assert (forall p, get_chip_at m (fst (c_xy ch)) (snd (c_xy ch)) = Some p -> p = ch) as U.
  { intros p G. apply get_chip_in in G as [G E]; auto. apply (chip_unique m); auto. }
  assert (get_chip_at m (fst (c_xy ch)) (snd (c_xy ch)) = Some ch) as G.
  { apply get_chip_in; auto. }
  split.
  - intros [X|[X|X]].
    + apply incoming_local_spec in X as (p & Gp & N); auto. apply U in Gp. subst p. auto.
    + apply outgoing_local_spec in X as (p & Gp & N); auto. apply U in Gp. subst p. auto.
    + apply in_map_iff in X as (c' & E & X). apply filter_In in X as [X O].
      assert (c' = ch) by (apply (chip_unique m); auto). subst c'. auto.
  - intros [X|[X|X]].
    + right; left. apply outgoing_local_spec; auto. eauto.
    + left. apply incoming_local_spec; auto. eauto.
    + right; right. apply in_map. apply filter_In. auto.
Qed.

Lemma nil_not_in {A} (l : list A) : l = [] <-> forall a, ~ In a l.
Proof.
  split; [intros ->; intros a []|]. destruct l as [|a l]; auto. intros H. exfalso. apply (H a). left; auto.
Qed.

Lemma one_way_in m ch l : wf m -> In ch (chips m) ->
  (one_way m ch l <-> In (c_x ch, c_y ch, l, (l + 3) mod 6) (one_way_links m)).
Proof.
  intros W H. rewrite one_way_spec by auto. unfold one_way. split.
  - intros (R & k & G & I). apply link_at_not in I. exists ch, k. repeat split; auto; try lia. apply get_chip_in; auto.
  - intros (c & k & G & R & _ & GL & I). apply get_chip_in in G as [G E]; auto.
    assert (c = ch) by (apply (chip_unique m); auto). subst c. apply link_at_not in I. split; auto. eauto.
Qed.

Lemma clean_reports m : wf m ->
  (forall ch p, In ch (chips m) -> c_parent ch = Some p -> exists q, m_over m (c_x ch) (c_y ch) p = Ok q) ->
  (clean m <-> bad_chips m = [] /\ one_way_links m = []).
Proof.
  intros W PO. split.
  - intros (C1 & C2 & C3). split.
    + apply nil_not_in. intros p H. pose proof (bad_in m p W H) as (ch & Hc & E). subst p.
      apply bad_spec in H; auto. destruct (C2 ch Hc) as [A B].
      destruct H as [X|[X|X]]; try tauto. apply orphan_spec in X as (p & q & X1 & X2 & X3).
      destruct (C3 ch p Hc X1) as (q' & Y1 & Y2). congruence.
    + apply nil_not_in. intros [[[x y] o] b] H. apply one_way_spec in H as (ch & k & G & R & -> & GL & I); auto.
      apply get_chip_in in G as [Hc E]; auto. apply link_at_not in I. apply I. exact (C1 ch o k Hc R GL).
  - intros [B O]. rewrite nil_not_in in B. split; [|split].
    + intros ch l k Hc R GL. apply link_at_iff. destruct (is_link_at m _ _ ((l + 3) mod 6)) eqn:I; auto. exfalso. apply link_at_not in I.
      assert (one_way m ch l) as X by (split; eauto). apply one_way_in in X; auto. rewrite O in X. destruct X.
    + intros ch Hc. pose proof (B (c_xy ch)) as N. rewrite bad_spec in N by auto.
      destruct (to_board_dec m ch); [|tauto]. destruct (from_board_dec m ch); [|tauto]. auto.
    + intros ch p Hc P. destruct (PO ch p Hc P) as [q Q]. exists q. split; auto.
      destruct (is_chip_at m (fst q) (snd q)) eqn:I; auto. exfalso. apply (B (c_xy ch)).
      apply bad_spec; auto. right; right. apply orphan_spec. eauto.
Qed.

Lemma checks_parents m removed : all_checks m removed = Ok tt ->
  forall ch p, In ch (chips m) -> c_parent ch = Some p -> exists q, m_over m (c_x ch) (c_y ch) p = Ok q.
Proof.
  unfold all_checks. intros H ch p Hc P.
  destruct (checks _ (unreachable_incoming_local_chips m)) as [[]|]; [cbn [bind] in H|discriminate].
  destruct (checks _ (unreachable_outgoing_local_chips m)) as [[]|]; [cbn [bind] in H|discriminate].
  destruct (checks _ (one_way_links m)) as [[]|]; [cbn [bind] in H|discriminate].
  rewrite checks_ok in H. specialize (H ch Hc). unfold check_parent in H. rewrite P in H.
  destruct (m_over m (c_x ch) (c_y ch) p) as [q|]; [eauto|discriminate].
Qed.

(** The original is returned exactly when nothing is wrong. *)
Lemma done_clean repair v m removed : wf m ->
  (repair_step repair v m removed = Ok None <-> clean m).
Proof.
  intros W. split.
  - intros E. pose proof E as E0. apply step_inv in E as (A & NB & [(_ & R1 & R2)|(n & X & _)]); [|discriminate].
    pose proof (checks_parents m removed A) as PO. apply clean_reports; auto.
    unfold round_chips, round_links in *. destruct repair.
    + split; auto. cbn [orb] in R2. rewrite <- R2. clear. induction (one_way_links m); cbn; congruence.
    + destruct (NB eq_refl) as [B X]. split; auto. cbn [orb] in R2.
      rewrite <- R2. revert X. generalize (one_way_links m). clear. intros l X.
      induction l as [|t l IH]; cbn; auto. rewrite X by (left; auto). f_equal. apply IH. intros; apply X; right; auto.
  - intros C.
    assert (forall ch p, In ch (chips m) -> c_parent ch = Some p ->
      exists q, m_over m (c_x ch) (c_y ch) p = Ok q) as PO.
    { intros ch p Hc P. destruct C as (_ & _ & C). destruct (C ch p Hc P) as (q & Q & _). eauto. }
    pose proof C as C0. apply clean_reports in C0 as [B O]; auto. rewrite step_eq.
    unfold bad_chips in B. apply app_eq_nil in B as [B1 B]. apply app_eq_nil in B as [B2 B3].
    unfold all_checks, bad_chips. rewrite B1, B2, O. cbn [bind].
    assert (checks (check_parent m) (chips m) = Ok tt) as ->.
    { apply checks_ok. intros ch Hc. unfold check_parent. destruct (c_parent ch) as [p|] eqn:P; auto.
      destruct C as (_ & _ & C). destruct (C ch p Hc P) as (q & Q & I). rewrite Q. cbn [bind]. rewrite I. auto. }
    cbn [bind app]. rewrite B3. cbn [isnil negb orb filter forallb]. destruct repair; reflexivity.
Qed.

Lemma repairs_inv (P : machine -> Prop) repair v :
  (forall m removed n, P m -> repair_step repair v m removed = Ok (Some n) -> P n) ->
  forall m removed r, repairs repair v m removed r -> P m ->
  match r with
  | Ok m' => P m' /\ exists removed', repair_step repair v m' removed' = Ok None
  | Err _ => True
  end.
Proof.
  intros S. induction 1 as [m removed e E|m removed E|m removed n r E R IH]; intros Pm; [exact I|eauto|].
  apply IH. eapply S; eauto.
Qed.

Definition good (m : machine) : Prop := wf m /\ Forall proper (chips m).

Lemma good_next repair v m removed n : good m -> repair_step repair v m removed = Ok (Some n) -> good n.
Proof. intros [W F] E. destruct (step_next _ _ _ _ _ W F E) as (_ & _ & Wn & Fn & _). split; auto. Qed.

Lemma made_good v m : made_machine v m -> good m.
Proof.
  intros [M F]. split; [eapply made_wf; eauto|]. eapply Forall_impl; [|exact F]. apply made_chip_proper.
Qed.

Lemma weight_chips m : wf m -> weight m = chips_and_links m.
Proof.
  intros W. unfold weight, chips_and_links, n_chips. rewrite (wf_chips m W), map_length.
  unfold zsum. induction (chips m) as [|a l IH]; cbn [map fold_right List.length]; lia.
Qed.

(** ** Reduced chips *)
Lemma chip_reduced_refl a : chip_reduced a a.
Proof. unfold chip_reduced. repeat split; auto. Qed.

Lemma chip_reduced_len a b : chip_reduced a b -> proper a -> proper b ->
  router_len (c_router b) <= router_len (c_router a).
Proof.
  intros (_ & _ & _ & _ & _ & _ & _ & _ & _ & _ & L & _) [Ra _] [Rb _].
  rewrite <- !links_length. apply inj_le.
  assert (incl (router_links (c_router b)) (router_links (c_router a))) as I.
  { intros k H. assert (get_link (c_router b) (l_source_link_id k) = Some k) as G by (apply get_link_in; auto).
    apply L in G. apply get_link_in in G; tauto. }
  apply NoDup_incl_length; auto. destruct Rb as [_ N]. apply NoDup_map_inv in N. auto.
Qed.

Lemma chip_reduced_trans a b c : proper a -> proper b -> proper c ->
  chip_reduced a b -> chip_reduced b c -> chip_reduced a c.
Proof.
  intros Pa Pb Pc H1 H2. pose proof (chip_reduced_len a b H1 Pa Pb) as L1.
  pose proof (chip_reduced_len b c H2 Pb Pc) as L2.
  unfold chip_reduced in *.
  destruct H1 as (A1 & A2 & A3 & A4 & A5 & A6 & A7 & A8 & A9 & A10 & A11 & A12).
  destruct H2 as (B1 & B2 & B3 & B4 & B5 & B6 & B7 & B8 & B9 & B10 & B11 & B12).
  do 10 (split; [congruence|]). split; [auto|].
  destruct A12 as [A|[A A']], B12 as [B|[B B']]; [left; congruence|right..]; split; try congruence; lia.
Qed.

Lemma reduce_reduced dl ch : proper ch ->
  (forall x y l b, In (x, y, l, b) dl -> (x, y) = c_xy ch -> exists k, get_link (c_router ch) l = Some k) ->
  chip_reduced ch (reduce dl ch).
Proof.
  intros P D. pose proof (fun l k => reduce_link dl ch l k P) as RL.
  pose proof (reduce_len dl ch P) as [_ LT]. unfold chip_reduced.
  assert ((forall l k, get_link (c_router (reduce dl ch)) l = Some k -> get_link (c_router ch) l = Some k)) as SUB.
  { intros l k H. apply RL in H. tauto. }
  destruct (touched dl (c_xy ch)) eqn:T.
  - destruct (c_xy ch) as [x y] eqn:X. pose proof T as T0. apply touched_spec in T0 as (l & b & H).
    destruct (D x y l b H eq_refl) as [k K].
    assert (gone dl (x, y) l = true) as G by (apply gone_spec; eauto).
    specialize (LT l k K G). unfold reduce in *. rewrite X, T in *. cbn.
    do 10 (split; [auto|]). split; [exact SUB|]. right. split; auto.
  - unfold reduce. rewrite T. repeat split; auto.
Qed.

Lemma subseq_refl {A} (l : list A) : subseq l l.
Proof. induction l; [constructor|apply subseq_keep; auto]. Qed.

Lemma subseq_trans {A} (a b c : list A) : subseq a b -> subseq b c -> subseq a c.
Proof.
  intros H1 H2. revert a H1. induction H2 as [|x l l' H IH|x l l' H IH]; intros a H1; auto.
  - apply subseq_skip. auto.
  - inversion H1; subst; [apply subseq_skip|apply subseq_keep]; auto.
Qed.

Lemma survivors_xy dc dl cs :
  map c_xy (survivors dc dl cs) = filter (fun p => negb (xymem dc p)) (map c_xy cs).
Proof.
  unfold survivors. rewrite map_map. rewrite (map_ext _ c_xy) by (intros; apply reduce_xy).
  induction cs as [|a l IH]; cbn; auto. destruct (xymem dc (c_xy a)); cbn; congruence.
Qed.

Lemma subseq_filter {A} (f : A -> bool) l : subseq (filter f l) l.
Proof. induction l as [|a l IH]; cbn; [constructor|]. destruct (f a); [apply subseq_keep|apply subseq_skip]; auto. Qed.

Lemma round_links_real repair m removed ch : wf m -> In ch (chips m) ->
  forall x y l b, In (x, y, l, b) (round_links repair m removed) -> (x, y) = c_xy ch ->
  exists k, get_link (c_router ch) l = Some k.
Proof.
  intros W Hc x y l b H E. unfold round_links in H. apply filter_In in H as [H _].
  apply one_way_spec in H as (c & k & G & _ & _ & GL & _); auto.
  apply get_chip_in in G as [G X]; auto. assert (c = ch) as -> by (apply (chip_unique m); auto; congruence). eauto.
Qed.

Definition part_of (m0 m : machine) : Prop :=
  m_width m = m_width m0 /\ m_height m = m_height m0 /\
  subseq (map c_xy (chips m)) (map c_xy (chips m0)) /\
  (forall ch, In ch (chips m) -> exists ch0, In ch0 (chips m0) /\ chip_reduced ch0 ch).

Lemma part_refl m : part_of m m.
Proof.
  split; auto. split; auto. split; [apply subseq_refl|]. intros ch H. exists ch. split; auto. apply chip_reduced_refl.
Qed.

Lemma part_next repair v m0 m removed n : good m0 -> good m -> part_of m0 m ->
  repair_step repair v m removed = Ok (Some n) -> part_of m0 n.
Proof.
  intros [W0 F0] [W F] (P1 & P2 & P3 & P4) E.
  destruct (step_next _ _ _ _ _ W F E) as (_ & _ & Wn & Fn & C & K1 & K2 & _).
  split; [congruence|]. split; [congruence|]. split.
  - rewrite C, survivors_xy. eapply subseq_trans; [apply subseq_filter|exact P3].
  - intros ch H. rewrite C in H. apply in_survivors in H as (c1 & H1 & _ & ->).
    destruct (P4 c1 H1) as (c0 & H0 & R). exists c0. split; auto.
    rewrite Forall_forall in F, F0. pose proof (F c1 H1).
    apply (chip_reduced_trans c0 c1); auto; [apply reduce_proper; auto|].
    apply reduce_reduced; auto. apply round_links_real; auto.
Qed.

(** ** Sound parts survive *)
Lemma survivor_get repair v m removed n x y ch : good m -> repair_step repair v m removed = Ok (Some n) ->
  get_chip_at m x y = Some ch -> ~ In (x, y) (round_chips repair m) ->
  get_chip_at n x y = Some (reduce (round_links repair m removed) ch).
Proof.
  intros [W F] E G N. destruct (step_next _ _ _ _ _ W F E) as (_ & _ & Wn & Fn & C & _).
  apply get_chip_in in G as [Hc X]; auto. apply get_chip_in; auto. split.
  - rewrite C. apply in_survivors. exists ch. rewrite X. auto.
  - rewrite reduce_xy. auto.
Qed.

Lemma reduce_fields dl ch : c_eth_x (reduce dl ch) = c_eth_x ch /\ c_eth_y (reduce dl ch) = c_eth_y ch /\
  (c_parent (reduce dl ch) = c_parent ch \/ c_parent (reduce dl ch) = None).
Proof. unfold reduce. destruct (touched dl (c_xy ch)); cbn; auto. Qed.

Lemma sound_not_bad m cs ls x y : wf m -> sound_part m cs ls -> cs (x, y) -> ~ In (x, y) (bad_chips m).
Proof.
  intros W S H B. destruct (sound_chips _ _ _ S x y H) as [ch G].
  pose proof G as G0. apply get_chip_in in G0 as [Hc X]; auto. rewrite <- X in B.
  injection X as Xx Xy. apply bad_spec in B; auto. destruct B as [B|[B|B]].
  - apply B. destruct (sound_out _ _ _ S x y ch H G) as (l & q & n & N & L & _ & Gn & E).
    exists l, q, n. rewrite Xx, Xy. split; auto. split; auto.
    destruct (sound_links _ _ _ S x y l L) as (_ & _ & c' & k & G' & GL & _).
    assert (c' = ch) as -> by congruence. apply is_link_get. eauto.
  - apply B. destruct (sound_in _ _ _ S x y ch H G) as (l & q & n & N & L & _ & Gn & E).
    exists l, q, n. rewrite Xx, Xy. split; auto. split; auto. split; auto.
    destruct (sound_links _ _ _ S _ _ _ L) as (_ & _ & c' & k & G' & GL & _).
    assert (c' = n) as -> by congruence. apply is_link_get. eauto.
  - apply orphan_spec in B as (p & q & P & Q & I).
    destruct (sound_parent _ _ _ S x y ch p H G P) as (q' & Q' & C').
    rewrite Xx, Xy in Q. assert (q' = q) as -> by congruence. destruct q as [qx qy].
    destruct (sound_chips _ _ _ S qx qy C') as [c' G']. unfold is_chip_at in I. unfold get_chip_at in G'.
    unfold dmem in I. cbn [fst snd] in I. rewrite G' in I. discriminate.
Qed.

Lemma sound_not_one_way m cs ls x y l b : wf m -> sound_part m cs ls -> ls x y l ->
  ~ In (x, y, l, b) (one_way_links m).
Proof.
  intros W S L H. apply one_way_spec in H as (ch & k & G & R & -> & GL & I); auto.
  destruct (sound_links _ _ _ S x y l L) as (_ & _ & c' & k' & G' & GL' & L').
  assert (c' = ch) as -> by congruence. assert (k' = k) as -> by congruence.
  destruct (sound_links _ _ _ S _ _ _ L') as (_ & _ & d & kd & Gd & GLd & _).
  unfold is_link_at in I. unfold get_chip_at in Gd. rewrite Gd in I.
  assert (is_link (c_router d) ((l + 3) mod 6) = true) by (apply is_link_get; eauto). congruence.
Qed.

Lemma sound_next repair v m removed n cs ls : good m ->
  m_kind m = machine_class v (m_width m) (m_height m) ->
  sound_part m cs ls -> repair_step repair v m removed = Ok (Some n) -> sound_part n cs ls.
Proof.
  intros GM K S E. pose proof GM as [W F].
  assert (forall x y ch, cs (x, y) -> get_chip_at m x y = Some ch ->
    get_chip_at n x y = Some (reduce (round_links repair m removed) ch)) as KEEP.
  { intros x y ch H G. eapply survivor_get; eauto. unfold round_chips. destruct repair; [|intros []].
    eapply sound_not_bad; eauto. }
  assert (forall x y ch, cs (x, y) -> get_chip_at n x y = Some ch ->
    exists c0, get_chip_at m x y = Some c0 /\ ch = reduce (round_links repair m removed) c0) as BACK.
  { intros x y ch H G. destruct (sound_chips _ _ _ S x y H) as [c0 G0]. exists c0. split; auto.
    pose proof (KEEP x y c0 H G0). congruence. }
  destruct (step_next _ _ _ _ _ W F E) as (_ & _ & _ & _ & _ & K1 & K2 & K3 & _).
  assert (forall x y p, m_over n x y p = m_over m x y p) as OV.
  { intros. unfold m_over. rewrite K1, K2, K3, K. reflexivity. }
  rewrite Forall_forall in F.
  split.
  - intros x y H. destruct (sound_chips _ _ _ S x y H) as [c0 G0]. eauto.
  - intros x y l L. destruct (sound_links _ _ _ S x y l L) as (Hc & R & ch & k & G & GL & L').
    split; auto. split; auto. exists (reduce (round_links repair m removed) ch), k. split; [auto|]. split; [|auto].
    pose proof G as G0. apply get_chip_in in G0 as [H0 X]; auto. apply reduce_link; [auto|]. split; auto. rewrite X.
    apply not_true_iff_false. intros Y. apply gone_spec in Y as [b Y]. unfold round_links in Y.
    apply filter_In in Y as [Y _]. exact (sound_not_one_way m cs ls x y l b W S L Y).
  - intros x y ch H G. destruct (BACK x y ch H G) as (c0 & G0 & ->).
    destruct (sound_out _ _ _ S x y c0 H G0) as (l & q & nb & N & L & Cq & Gn & EQ).
    destruct q as [qx qy]. cbn [fst snd] in *.
    exists l, (qx, qy), (reduce (round_links repair m removed) nb). cbn [fst snd].
    destruct (reduce_fields (round_links repair m removed) nb) as (-> & -> & _).
    destruct (reduce_fields (round_links repair m removed) c0) as (-> & -> & _).
    split; [exact N|]. split; [exact L|]. split; [exact Cq|]. split; [apply KEEP; auto|exact EQ].
  - intros x y ch H G. destruct (BACK x y ch H G) as (c0 & G0 & ->).
    destruct (sound_in _ _ _ S x y c0 H G0) as (l & q & nb & N & L & Cq & Gn & EQ).
    destruct q as [qx qy]. cbn [fst snd] in *.
    exists l, (qx, qy), (reduce (round_links repair m removed) nb). cbn [fst snd].
    destruct (reduce_fields (round_links repair m removed) nb) as (-> & -> & _).
    destruct (reduce_fields (round_links repair m removed) c0) as (-> & -> & _).
    split; [exact N|]. split; [exact L|]. split; [exact Cq|]. split; [apply KEEP; auto|exact EQ].
  - intros x y ch p H G P. destruct (BACK x y ch H G) as (c0 & G0 & ->). rewrite OV.
    destruct (reduce_fields (round_links repair m removed) c0) as (_ & _ & [Q|Q]); [|congruence].
    apply (sound_parent _ _ _ S x y c0); auto. congruence.
Qed.
