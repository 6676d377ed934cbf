(** A virtual machine depends on the sets of down items only, and less is left of
    it the more is down. *)
From Coq Require Import Lia ZifyBool Sorted.
From Verif Require Import Model_Py Model_Wrap Model_Float Model_Geometry Model_Version Model_Core
  Model_Machine Model_Str Model_Ignore Model_Virtual
  Spec_Hops Spec_Board Spec_Version Spec_Machine Spec_Boards Spec_Str Spec_Virtual Spec_Items
  Proof_Wrap Proof_Py Proof_Board Proof_Version Proof_Machine Proof_Report Proof_Str Proof_Virtual
  Proof_VirtualMachine.
Open Scope list_scope.
Open Scope Z_scope.

Lemma sorted_ext l : forall l', StronglySorted Z.lt l -> StronglySorted Z.lt l' -> same_members l l' -> l = l'.
Proof.
  induction l as [|a l IH]; intros [|b l'] S S' M; auto.
  - destruct (proj2 (M b)); left; auto.
  - destruct (proj1 (M a)); left; auto.
  - inversion S as [|? ? S1 F1]; inversion S' as [|? ? S2 F2]; subst.
    rewrite Forall_forall in F1, F2.
    assert (a = b) as <-.
    { destruct (proj1 (M a) (or_introl eq_refl)) as [E|E]; [congruence|].
      destruct (proj2 (M b) (or_introl eq_refl)) as [E'|E']; [congruence|].
      specialize (F2 _ E). specialize (F1 _ E'). lia. }
    f_equal. apply IH; auto. intros c. specialize (M c). cbn in M. split; intros H.
    + destruct (proj1 M (or_intror H)) as [->|H']; auto. specialize (F1 _ H). lia.
    + destruct (proj2 M (or_intror H)) as [->|H']; auto. specialize (F2 _ H). lia.
Qed.

Lemma zrange_sorted lo hi : StronglySorted Z.lt (zrange lo hi).
Proof.
  unfold zrange. generalize (Z.to_nat (hi - lo)). intros n. clear hi.
  cut (forall k, StronglySorted Z.lt (map (fun i => (lo + Z.of_nat i)%Z) (seq k n))); [auto|].
  induction n as [|n IH]; intros k; cbn; constructor; auto.
  apply Forall_forall. intros z H. apply in_map_iff in H as (i & <- & H). apply in_seq in H. lia.
Qed.

(** ** Texts *)
Section Texts.
Context {A : Type} (eqb : A -> A -> bool) (E : forall a b, eqb a b = true <-> a = b)
  (single : string -> res (list A)).

Lemma items_fold texts : forall acc,
  (forall l, fold_res (fun acc t => do items <- single t ; Ok (fold_left (set_add eqb) items acc)) texts acc = Ok l ->
    Forall (fun t => is_ok (single t) = true) texts /\
    forall x, In x l <-> In x acc \/ exists t items, In t texts /\ single t = Ok items /\ In x items) /\
  (Forall (fun t => is_ok (single t) = true) texts ->
    exists l, fold_res (fun acc t => do items <- single t ; Ok (fold_left (set_add eqb) items acc)) texts acc = Ok l).
Proof using E.
  induction texts as [|t ts IH]; intros acc; cbn [fold_res].
  - split; [|eauto]. intros l X. apply Ok_inj in X. subst. split; [constructor|].
    intros x. split; auto. intros [H|(t & i & [] & _)]; auto.
  - destruct (single t) as [items|e] eqn:St; cbn [bind].
    + destruct (IH (fold_left (set_add eqb) items acc)) as [I1 I2]. split.
      * intros l X. destruct (I1 l X) as [F M]. split; [constructor; auto; rewrite St; reflexivity|].
        intros x. rewrite M, (set_adds_in eqb E). split.
        -- intros [[H|H]|(t' & i & H & H' & H'')]; auto; [right; exists t, items|right; exists t', i]; cbn; auto.
        -- intros [H|(t' & i & [<-|H] & H' & H'')]; auto.
           ++ assert (i = items) as -> by congruence. auto.
           ++ right. eauto.
      * intros F. inversion F; subst. auto.
    + split; [discriminate|]. intros F. inversion F as [|? ? H]; subst. rewrite St in H. discriminate.
Qed.

Lemma same_items_parse a b l : same_items a b -> parse_items eqb single a = Ok l ->
  exists l', parse_items eqb single b = Ok l' /\ same_members l l'.
Proof using E.
  intros [->|(ts & ts' & N & N' & W & W' & -> & -> & L & L' & M)] P; [exists l; split; auto; intros x; tauto|].
  unfold parse_items in *.
  apply String.eqb_neq in L, L'. rewrite L in P. rewrite L'.
  unfold joined in *. rewrite split_concat in P by auto. rewrite split_concat by auto.
  destruct (items_fold ts []) as [I _], (items_fold ts' []) as [I' J'].
  destruct (I l P) as [F X].
  destruct J' as [l' P'].
  { rewrite Forall_forall in *. intros t Ht. apply F, M. auto. }
  exists l'. split; auto. destruct (I' l' P') as [_ X']. intros x. rewrite X, X'.
  split; intros [[]|(t & i & H & H')]; right; exists t, i; split; auto; apply M; auto.
Qed.
End Texts.

(** ** The same machine *)
Lemma bool_ext a b : (a = true <-> b = true) -> a = b.
Proof. destruct a, b; intros [H1 H2]; auto; try (symmetry; auto); auto. Qed.

Lemma xymem_same l l' p : same_members l l' -> xymem l p = xymem l' p.
Proof. intros M. apply bool_ext. rewrite !xymem_in. apply M. Qed.

Lemma link_mem_in l t : link_mem l t = true <-> In t l.
Proof.
  unfold link_mem. rewrite existsb_exists. split.
  - intros (x & H & E). apply qqq_eq in E. subst. auto.
  - intros H. exists t. split; auto. apply qqq_eq. auto.
Qed.

Lemma conf_same v w h u u' mx eths : same_members u u' -> conf_list v w h u mx eths = conf_list v w h u' mx eths.
Proof.
  intros M. unfold conf_list. induction eths as [|e eths IH]; cbn [flat_map]; auto. f_equal; auto.
  unfold entries_of. induction (chip_core_map v) as [|d l IH']; cbn [flat_map]; auto.
  rewrite (xymem_same u u' _ M). f_equal. auto.
Qed.

Lemma vchip_same V m uc uc' ul ul' eths conf en :
  (forall xy, same_members (down_of uc xy) (down_of uc' xy)) -> same_members ul ul' ->
  vchip V m uc ul eths conf en = vchip V m uc' ul' eths conf en.
Proof.
  intros MC ML. destruct en as [xy [e n]]. unfold vchip.
  assert (vcores uc xy n = vcores uc' xy n) as ->.
  { unfold vcores.
    destruct (remove_all (down_of uc xy) (zrange 1 n) (zrange_sorted 1 n)) as [S1 I1].
    destruct (remove_all (down_of uc' xy) (zrange 1 n) (zrange_sorted 1 n)) as [S2 I2].
    apply sorted_ext; auto. intros a. rewrite I1, I2, (MC xy a). tauto. }
  assert (vrouter V m ul conf xy = vrouter V m ul' conf xy) as ->; auto.
  unfold vrouter. do 2 f_equal. unfold vlinks_from.
  induction (zrange 0 6) as [|l ls IH]; cbn [flat_map]; auto. rewrite IH. f_equal.
  replace (link_mem ul' (fst xy, snd xy, l)) with (link_mem ul (fst xy, snd xy, l)); auto.
  apply bool_ext. rewrite !link_mem_in. apply ML.
Qed.

Lemma unused_same {A B} (f : A -> list B) l l' : same_members l l' -> same_members (flat_map f l) (flat_map f l').
Proof. intros M b. rewrite !in_flat_map. split; intros (a & H & K); exists a; split; auto; apply M; auto. Qed.

Lemma cores_same dco dco' uc : same_members dco dco' -> virtual_unused_cores dco = Ok uc ->
  exists uc', virtual_unused_cores dco' = Ok uc' /\ forall xy, same_members (down_of uc xy) (down_of uc' xy).
Proof.
  intros M U. destruct (unused_cores_spec dco) as [[_ X]|[G (d & X & S)]]; [congruence|].
  assert (d = uc) as -> by congruence.
  destruct (unused_cores_spec dco') as [[(i & Hi & I1 & I2) _]|[_ (uc' & X' & S')]].
  { apply M in Hi. specialize (G i Hi I1). lia. }
  exists uc'. split; auto. intros [x y] p. unfold down_of. rewrite S, S'. unfold core_down.
  split; intros (i & H & K); exists i; split; auto; apply M; auto.
Qed.

Lemma same_built c c' V w h b m dch dco dl dch' dco' dl' :
  virtual_machine c V w h b = Ok m ->
  cfg_read c (v_id V) dch dco dl -> cfg_read c' (v_id V) dch' dco' dl' ->
  same_members dch dch' -> same_members dco dco' -> same_members dl dl' ->
  virtual_machine c' V w h b = Ok m.
Proof.
  intros E (R1 & R2 & R3) (R1' & R2' & R3') M1 M2 M3.
  apply virtual_built in E as (dch0 & dco0 & dl0 & B & E0 & E1 & VV & G).
  destruct (b_read _ _ _ _ _ _ _ _ B) as (Q1 & Q2 & Q3).
  assert (dch0 = dch) as -> by congruence. assert (dco0 = dco) as -> by congruence.
  assert (dl0 = dl) as -> by congruence. clear Q1 Q2 Q3.
  destruct (virtual_cases c' V w h) as [(m' & a1 & a2 & a3 & B' & F0 & F1 & _)|[_ X]].
  2: { destruct (X (b_sup _ _ _ _ _ _ _ _ B) dch' dco' dl') as (i & Hi & I1 & I2); [split; auto|].
       apply M2 in Hi. specialize (G i Hi I1). lia. }
  destruct (b_read _ _ _ _ _ _ _ _ B') as (Q1 & Q2 & Q3).
  assert (a1 = dch') as -> by congruence. assert (a2 = dco') as -> by congruence.
  assert (a3 = dl') as -> by congruence. clear Q1 Q2 Q3.
  assert (m' = m) as ->.
  { destruct (b_rest _ _ _ _ _ _ _ _ B) as (eths & uc & L & U & _ & m1 & m2 & _ & _ & X1 & X2 & X3 & _).
    destruct (b_rest _ _ _ _ _ _ _ _ B') as (eths' & uc' & L' & U' & _ & m1' & m2' & _ & _ & X1' & X2' & X3' & _).
    assert (eths' = eths) as ->.
    { pose proof (lay_eths _ _ _ _ L) as Y. pose proof (lay_eths _ _ _ _ L') as Y'. congruence. }
    destruct (cores_same dco dco' uc M2 U) as (uc'' & U'' & MC).
    assert (uc'' = uc') as -> by congruence.
    assert (m1' = m1) as ->.
    { rewrite X1, X1'. do 3 f_equal.
      assert (same_members (virtual_unused_chips dch) (virtual_unused_chips dch')) as MU by (apply unused_same; auto).
      rewrite <- (conf_same _ _ _ _ _ _ _ MU). apply map_ext. intros en.
      symmetry. apply vchip_same; auto. intros t. unfold virtual_unused_links. rewrite !in_app_iff.
      pose proof (unused_same (fun l => match ili_ip l with None => [(ili_x l, ili_y l, ili_link l)]
        | Some _ => [] end) _ _ M3 t). tauto. }
    congruence. }
  destruct b; auto. rewrite F1, (VV eq_refl). reflexivity.
Qed.

(** ** Less is left *)
Lemma zsum_cons a l : zsum (a :: l) = a + zsum l.
Proof. reflexivity. Qed.

Lemma zsum_nil : zsum [] = 0.
Proof. reflexivity. Qed.

Lemma zsum_sub {A} (f : A -> Z) (l' l : list A) : (forall a, 0 <= f a) -> NoDup l' -> incl l' l ->
  zsum (map f l') <= zsum (map f l).
Proof.
  intros P. revert l. induction l' as [|a l' IH]; intros l N I; cbn [map]; rewrite ?zsum_cons, ?zsum_nil.
  - clear N I. induction l as [|a l IH]; cbn [map]; rewrite ?zsum_cons, ?zsum_nil; [lia|]. specialize (P a). lia.
  - inversion N as [|? ? NI N']; subst.
    destruct (in_split a l) as (l1 & l2 & ->); [apply I; left; auto|].
    assert (incl l' (l1 ++ l2)) as I'.
    { intros b Hb. assert (b <> a) by (intros ->; auto). assert (In b (l1 ++ a :: l2)) as X by (apply I; right; auto).
      apply in_app_iff in X as [X|[X|X]]; [apply in_or_app; auto|congruence|apply in_or_app; auto]. }
    specialize (IH _ N' I'). rewrite map_app in IH |- *. cbn [map]. rewrite zsum_app in IH |- *. rewrite ?zsum_cons. lia.
Qed.

Lemma keyed_sum m (g : chip -> Z) : wf m ->
  zsum (map g (chips m)) =
  zsum (map (fun p => match get_chip_at m (fst p) (snd p) with Some ch => g ch | None => 0 end)
    (map c_xy (chips m))).
Proof.
  intros W. f_equal. rewrite map_map. apply map_ext_in. intros ch H.
  assert (get_chip_at m (c_x ch) (c_y ch) = Some ch) as G by (apply get_chip_in; auto).
  cbn [fst snd c_xy]. rewrite G. reflexivity.
Qed.

Section Less.
Context {c c' : config} {V : version} {w h : Z} {m m' : machine} {dch dch' : list ignore_chip}
  {dco dco' : list ignore_core} {dl dl' : list ignore_link}.
Hypothesis B : built c V w h m dch dco dl.
Hypothesis B' : built c' V w h m' dch' dco' dl'.
Hypothesis I1 : incl dch dch'.
Hypothesis I2 : incl dco dco'.
Hypothesis I3 : incl dl dl'.

Lemma less_there x y ch' : get_chip_at m' x y = Some ch' -> exists ch, get_chip_at m x y = Some ch.
Proof using B B' I1.
  intros G. apply (built_present B). destruct (proj1 (built_present B' x y) (ex_intro _ ch' G)) as [P N].
  split; auto.
Qed.

Lemma less_chip x y ch' ch : get_chip_at m' x y = Some ch' -> get_chip_at m x y = Some ch -> chip_less ch ch'.
Proof using B B' I1 I2 I3.
  intros G' G. destruct (proj1 (built_present B' x y) (ex_intro _ ch' G')) as [(e & d & n & P) _].
  destruct (built_fields B' x y ch' e d n G' P) as (X1 & X2 & X3 & X4 & _ & X5 & X6 & _ & X7 & X8 & X9 & X10).
  destruct (built_fields B x y ch e d n G P) as (Y1 & Y2 & Y3 & Y4 & _ & Y5 & Y6 & _ & Y7 & Y8 & Y9 & Y10).
  rewrite <- X3 in Y3. injection Y3 as E1 E2.
  unfold chip_less. repeat (split; [congruence|]). split; [|repeat (split; [congruence|])].
  - intros p Hp. apply X7 in Hp as [R N]. apply Y7. split; auto. intros (i & Hi & K). apply N. exists i. split; auto.
  - intros l k K. apply (built_link B' _ _ _ _ _ G') in K as (Hl & N & dx & dy & O & -> & cd & Gd).
    apply (built_link B _ _ _ _ _ G). split; auto. split.
    + intros [H|H]; apply N; [left|right]; auto.
    + exists dx, dy. split.
      * unfold m_over in *. rewrite (b_kind _ _ _ _ _ _ _ _ B), (b_width _ _ _ _ _ _ _ _ B),
          (b_height _ _ _ _ _ _ _ _ B). rewrite (b_kind _ _ _ _ _ _ _ _ B'), (b_width _ _ _ _ _ _ _ _ B'),
          (b_height _ _ _ _ _ _ _ _ B') in O. exact O.
      * split; auto. apply (less_there dx dy cd Gd).
Qed.

Lemma less_keys : NoDup (map c_xy (chips m')) /\ incl (map c_xy (chips m')) (map c_xy (chips m)).
Proof using B B' I1.
  pose proof (b_wf _ _ _ _ _ _ _ _ B) as W. pose proof (b_wf _ _ _ _ _ _ _ _ B') as W'. split.
  - apply (wf_nodup m' W').
  - intros [x y] H. apply in_map_iff in H as (ch' & E & H).
    assert (get_chip_at m' x y = Some ch') as G' by (apply get_chip_in; auto).
    destruct (less_there x y ch' G') as [ch G]. apply get_chip_in in G as [G E']; auto.
    rewrite <- E'. apply in_map. exact G.
Qed.

Lemma less_sum (g : chip -> Z) : (forall ch, 0 <= g ch) -> (forall a b, chip_less a b -> In b (chips m') -> g b <= g a) ->
  zsum (map g (chips m')) <= zsum (map g (chips m)).
Proof using B B' I1 I2 I3.
  intros P L. pose proof (b_wf _ _ _ _ _ _ _ _ B) as W. pose proof (b_wf _ _ _ _ _ _ _ _ B') as W'.
  rewrite (keyed_sum m g W).
  etransitivity; [|apply (zsum_sub _ (map c_xy (chips m')))].
  - rewrite map_map. assert (forall l, incl l (chips m') -> zsum (map g l) <=
      zsum (map (fun x => match get_chip_at m (fst (c_xy x)) (snd (c_xy x)) with Some ch => g ch | None => 0 end) l)) as K.
    { induction l as [|ch' l IH]; intros I; cbn [map]; rewrite ?zsum_cons, ?zsum_nil; [lia|].
      assert (get_chip_at m' (c_x ch') (c_y ch') = Some ch') as G' by (apply get_chip_in; auto; split; auto; apply I; left; auto).
      destruct (less_there _ _ _ G') as [ch G]. cbn [c_xy fst snd]. rewrite G.
      pose proof (L ch ch' (less_chip _ _ _ _ G' G) (I _ (or_introl eq_refl))).
      assert (incl l (chips m')) as I' by (intros q Hq; apply I; right; auto). specialize (IH I'). cbn [c_xy fst snd] in IH. lia. }
    apply K. apply incl_refl.
  - intros p. destruct (get_chip_at m _ _); auto. lia.
  - apply less_keys.
  - apply less_keys.
Qed.
End Less.
