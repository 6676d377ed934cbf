(** C78: the text of the exception of machine_repair. *)
From Coq Require Import Lia ZifyBool String Ascii.
From Verif Require Import Model_Py Model_Wrap Model_Version Model_Core Model_Machine Model_Str Model_Ignore
  Model_Virtual Model_Text Model_Repr Model_Repair Model_Message
  Spec_Hops Spec_Board Spec_Version Spec_Machine Spec_Router Spec_Str Spec_Virtual Spec_Repair Spec_Message
  Proof_Wrap Proof_Py Proof_Concentric Proof_Board Proof_Version Proof_Machine Proof_Report Proof_Str Proof_Virtual
  Proof_VirtualMachine Proof_Repair Proof_RepairEnd Proof_RepairOff Proof_Repr
  Prop_Repair.
Open Scope string_scope.
Open Scope list_scope.
Open Scope Z_scope.

(** ** Loops *)
Lemma map_res_checks {A B} (f : A -> res B) l :
  (do _ <- map_res f l ; Ok tt) = checks (fun a => do _ <- f a ; Ok tt) l.
Proof.
  unfold checks. induction l as [|a l IH]; cbn [map_res fold_res]; auto.
  destruct (f a); cbn [bind]; auto. rewrite <- IH. destruct (map_res f l); reflexivity.
Qed.

Lemma checks_ext {A} (c d : A -> res unit) l : (forall a, c a = d a) -> checks c l = checks d l.
Proof. intros H. unfold checks. apply fold_res_ext. auto. Qed.

Lemma map_res_rel {A B D} (f : A -> res B) (R : B -> D -> Prop) (g : A -> D) l :
  (forall a b, In a l -> f a = Ok b -> R b (g a)) -> forall bs, map_res f l = Ok bs -> Forall2 R bs (map g l).
Proof.
  induction l as [|a l IH]; cbn [map_res map]; intros H bs E; [apply Ok_inj in E; subst; constructor|].
  destruct (f a) as [b|] eqn:F; cbn [bind] in E; [|discriminate].
  destruct (map_res f l) as [bs'|]; cbn [bind] in E; [|discriminate]. apply Ok_inj in E. subst.
  constructor; [apply H; auto; left; auto|]. apply IH; auto. intros; apply H; auto. right; auto.
Qed.

Lemma map_res_rels {A B D} (f : A -> res (list B)) (R : B -> D -> Prop) (g : A -> list D) l :
  (forall a b, In a l -> f a = Ok b -> Forall2 R b (g a)) -> forall bs, map_res f l = Ok bs ->
  Forall2 R (List.concat bs) (flat_map g l).
Proof.
  induction l as [|a l IH]; cbn [map_res flat_map]; intros H bs E; [apply Ok_inj in E; subst; constructor|].
  destruct (f a) as [b|] eqn:F; cbn [bind] in E; [|discriminate].
  destruct (map_res f l) as [bs'|]; cbn [bind] in E; [|discriminate]. apply Ok_inj in E. subst. cbn [List.concat].
  apply Forall2_app; [apply H; auto; left; auto|]. apply IH; auto. intros; apply H; auto. right; auto.
Qed.

(** The messages fail exactly when the reports of Model_Repair do. *)
Lemma messages_as_checks m removed : (do _ <- repair_messages m removed ; Ok tt) = all_checks m removed.
Proof.
  unfold repair_messages, all_checks.
  rewrite (checks_ext (check_chip m) (fun a => do _ <- cut_message "incoming" m a ; Ok tt)
    (unreachable_incoming_local_chips m)), <- map_res_checks.
  2: { intros a. unfold check_chip, check_eth, cut_message. destruct (getitem m a) as [ch|]; cbn [bind]; auto.
       destruct (getitem m (c_eth_x ch, c_eth_y ch)); reflexivity. }
  destruct (map_res (cut_message "incoming" m) _); cbn [bind]; auto.
  rewrite (checks_ext (check_chip m) (fun a => do _ <- cut_message "outgoing" m a ; Ok tt)
    (unreachable_outgoing_local_chips m)), <- map_res_checks.
  2: { intros a. unfold check_chip, check_eth, cut_message. destruct (getitem m a) as [ch|]; cbn [bind]; auto.
       destruct (getitem m (c_eth_x ch, c_eth_y ch)); reflexivity. }
  destruct (map_res (cut_message "outgoing" m) _); cbn [bind]; auto.
  rewrite (checks_ext (check_link m removed) (fun a => do _ <- link_messages m removed a ; Ok tt)), <- map_res_checks.
  2: { intros [[[x y] o] b]. unfold check_link, link_messages, uni_direction_message, uni_direction_error.
       destruct (m_over m x y o) as [q|]; cbn [bind]; auto. destruct (xymem removed q); auto.
       destruct (getitem m (x, y)) as [s|]; cbn [bind]; auto.
       destruct (getitem m (c_eth_x s, c_eth_y s)) as [e|]; cbn [bind]; auto.
       destruct (get_chip_at m (fst q) (snd q)) as [d|]; auto.
       destruct (getitem m (c_eth_x d, c_eth_y d)) as [e'|]; cbn [bind]; auto.
       destruct (m_local m s), (m_local m d), (address_eqb (c_ip e) (c_ip e')); reflexivity. }
  destruct (map_res (link_messages m removed) _); cbn [bind]; auto.
  rewrite (checks_ext (check_parent m) (fun a => do _ <- parent_messages m a ; Ok tt)), <- map_res_checks.
  2: { intros ch. unfold check_parent, parent_messages, check_eth. destruct (c_parent ch) as [p|]; auto.
       destruct (m_over m (c_x ch) (c_y ch) p) as [q|]; cbn [bind]; auto.
       destruct (is_chip_at m (fst q) (snd q)); auto.
       destruct (getitem m (c_eth_x ch, c_eth_y ch)); reflexivity. }
  destruct (map_res (parent_messages m) _); cbn [bind]; auto.
Qed.

(** ** The messages, one for each defect *)
Definition defects (m : machine) (removed : list XY) : list defect :=
  map (fun p => NoWayIn (fst p) (snd p)) (unreachable_incoming_local_chips m) ++
  map (fun p => NoWayOut (fst p) (snd p)) (unreachable_outgoing_local_chips m) ++
  flat_map (fun t => if expected_link m removed t then [] else
    let '(x, y, o, _) := t in [NoReverse x y o]) (one_way_links m) ++
  flat_map (fun ch => if orphan m ch then [NoParent (c_x ch) (c_y ch)] else []) (chips m).

Lemma getitem_ok m p ch : getitem m p = Ok ch -> get_chip_at m (fst p) (snd p) = Some ch.
Proof.
  unfold getitem, dgetitem, get_chip_at. destruct p as [x y]. cbn [fst snd].
  destruct (dget xy_eqb (m_chips m) (x, y)); [|discriminate]. intros E. apply Ok_inj in E. subst. auto.
Qed.

Lemma address_spec a b : address_eqb a b = true <-> a = b.
Proof.
  destruct a as [a|], b as [b|]; cbn [address_eqb]; rewrite ?String.eqb_eq; split; try congruence; auto.
Qed.

Lemma please_eq : report_this = please.
Proof. reflexivity. Qed.

Lemma messages_say m removed msgs : wf m -> repair_messages m removed = Ok msgs -> Forall2 (says m) msgs (defects m removed).
Proof.
  intros W E. unfold repair_messages in E.
  destruct (map_res (cut_message "incoming" m) _) as [a|] eqn:E1; cbn [bind] in E; [|discriminate].
  destruct (map_res (cut_message "outgoing" m) _) as [b|] eqn:E2; cbn [bind] in E; [|discriminate].
  destruct (map_res (link_messages m removed) _) as [c|] eqn:E3; cbn [bind] in E; [|discriminate].
  destruct (map_res (parent_messages m) _) as [d|] eqn:E4; cbn [bind] in E; [|discriminate].
  apply Ok_inj in E. subst msgs. unfold defects. apply Forall2_app; [|apply Forall2_app; [|apply Forall2_app]].
  - apply (map_res_rel _ _ _ _) with (2 := E1). intros p t _ F. unfold cut_message in F.
    destruct (getitem m p) as [ch|] eqn:G; cbn [bind] in F; [|discriminate].
    destruct (getitem m (c_eth_x ch, c_eth_y ch)) as [e|] eqn:Ge; cbn [bind] in F; [|discriminate]. apply Ok_inj in F. subst t.
    apply getitem_ok in G, Ge. destruct (m_local m ch) as [lx ly] eqn:L. rewrite please_eq.
    replace (cat _) with (cat ["Your machine has unreachable incoming chips at ("; dec lx; ", "; dec ly; ") on board ";
                 chip_str e; " which will cause algorithms to fail. "; please]).
    + eapply says_in; eauto.
    + unfold xy_str, cat. cbn [fold_right append fst snd]. repeat (progress (rewrite ?app_assoc_s; cbn [append])). reflexivity.
  - apply (map_res_rel _ _ _ _) with (2 := E2). intros p t _ F. unfold cut_message in F.
    destruct (getitem m p) as [ch|] eqn:G; cbn [bind] in F; [|discriminate].
    destruct (getitem m (c_eth_x ch, c_eth_y ch)) as [e|] eqn:Ge; cbn [bind] in F; [|discriminate]. apply Ok_inj in F. subst t.
    apply getitem_ok in G, Ge. destruct (m_local m ch) as [lx ly] eqn:L. rewrite please_eq.
    replace (cat _) with (cat ["Your machine has unreachable outgoing chips at ("; dec lx; ", "; dec ly; ") on board ";
                 chip_str e; " which will cause algorithms to fail. "; please]).
    + eapply says_out; eauto.
    + unfold xy_str, cat. cbn [fold_right append fst snd]. repeat (progress (rewrite ?app_assoc_s; cbn [append])). reflexivity.
  - apply (map_res_rels _ _ _ _) with (2 := E3). intros [[[x y] o] bk] t H F. unfold link_messages in F. unfold expected_link.
    apply one_way_spec in H as (ch0 & k & _ & R & -> & _); auto.
    destruct (m_over m x y o) as [q|] eqn:O; cbn [bind] in F; [|discriminate].
    destruct (xymem removed q); [apply Ok_inj in F; subst; constructor|].
    unfold uni_direction_error in F.
    destruct (getitem m (x, y)) as [s|] eqn:G; cbn [bind] in F; [|discriminate].
    destruct (getitem m (c_eth_x s, c_eth_y s)) as [e|] eqn:Ge; cbn [bind] in F; [|discriminate].
    apply getitem_ok in G, Ge. cbn [fst snd] in G, Ge. rewrite please_eq in F.
    destruct (get_chip_at m (fst q) (snd q)) as [d0|] eqn:Gd.
    2: { cbn [bind] in F. apply Ok_inj in F. subst t. constructor; [|constructor]. eapply says_dead; eauto. }
    destruct (getitem m (c_eth_x d0, c_eth_y d0)) as [e'|] eqn:Ge'; cbn [bind] in F; [|discriminate].
    apply getitem_ok in Ge'. cbn [fst snd] in Ge'.
    destruct (m_local m s) as [lx ly] eqn:L1, (m_local m d0) as [lx' ly'] eqn:L2.
    destruct (address_eqb (c_ip e) (c_ip e')) eqn:A; cbn [bind] in F; apply Ok_inj in F; subst t; (constructor; [|constructor]).
    + apply address_spec in A. eapply says_same_board; eauto.
    + eapply says_other_board; eauto. intros X. apply address_spec in X. congruence.
  - apply (map_res_rels _ _ _ _) with (2 := E4). intros ch t H F. unfold parent_messages in F. unfold orphan.
    destruct (c_parent ch) as [p|] eqn:P; [|apply Ok_inj in F; subst; constructor].
    destruct (m_over m (c_x ch) (c_y ch) p) as [q|] eqn:O; cbn [bind] in F; [|discriminate].
    destruct (is_chip_at m (fst q) (snd q)); cbn [negb]; [apply Ok_inj in F; subst; constructor|].
    destruct (getitem m (c_eth_x ch, c_eth_y ch)) as [e|] eqn:Ge; cbn [bind] in F; [|discriminate].
    apply Ok_inj in F. subst t. rewrite please_eq. apply getitem_ok in Ge. constructor; [|constructor].
    eapply says_parent; eauto. apply get_chip_in; auto.
Qed.

Lemma defects_in m removed d : wf m -> (forall ch p, In ch (chips m) -> c_parent ch = Some p -> 0 <= p < 6) ->
  (In d (defects m removed) <-> has_defect m removed d).
Proof.
  intros W PR. unfold defects. rewrite !in_app_iff, !in_map_iff, !in_flat_map. split.
  - intros [H|[H|[H|H]]].
    + destruct H as (p & <- & H). apply incoming_local_spec in H; auto.
    + destruct H as (p & <- & H). apply outgoing_local_spec in H; auto.
    + destruct H as ([[[x y] o] b] & H & I). apply one_way_spec in H as (ch & k & G & R & -> & L & N); auto.
      unfold expected_link in I. destruct (over_six (m_kind m) (m_width m) (m_height m) x y o R) as [q Q].
      fold (m_over m x y o) in Q. rewrite Q in I. destruct (xymem removed q) eqn:X; [destruct I|].
      destruct I as [<-|[]]. exists ch, q. split; auto. split.
      * split; auto. exists k. split; auto. apply link_at_not. auto.
      * split; auto. intros Y. apply xymem_in in Y. congruence.
    + destruct H as (ch & H & I). unfold orphan in I. destruct (c_parent ch) as [p|] eqn:P; [|destruct I].
      destruct (m_over m (c_x ch) (c_y ch) p) as [q|] eqn:O; [|destruct I].
      destruct (is_chip_at m (fst q) (snd q)) eqn:C; [destruct I|]. destruct I as [<-|[]].
      exists ch, p, q. split; auto. apply get_chip_in; auto.
  - destruct d as [x y|x y|x y l|x y]; intros H.
    + left. exists (x, y). split; auto. apply incoming_local_spec; auto.
    + right. left. exists (x, y). split; auto. apply outgoing_local_spec; auto.
    + right. right. left. destruct H as (ch & q & G & (R & k & L & N) & O & NI).
      exists (x, y, l, (l + 3) mod 6). split.
      * apply one_way_spec; auto. exists ch, k. split; auto. split; auto. split; auto. split; auto. apply link_at_not. auto.
      * unfold expected_link. rewrite O. destruct (xymem removed q) eqn:X; [|left; auto]. exfalso. apply NI, xymem_in; auto.
    + right. right. right. destruct H as (ch & p & q & G & P & O & C).
      apply get_chip_in in G as [H X]; auto. unfold c_xy in X. injection X as X1 X2. exists ch. split; auto.
      unfold orphan. rewrite P, X1, X2, O, C. left. auto.
Qed.

Lemma nodup_flat {A B} (f : A -> list B) l : NoDup l -> (forall a, In a l -> NoDup (f a)) ->
  (forall a a' b, In a l -> In a' l -> In b (f a) -> In b (f a') -> a = a') -> NoDup (flat_map f l).
Proof.
  intros N. induction N as [|a l NI N IH]; intros H1 H2; cbn [flat_map]; [constructor|].
  apply nodup_app.
  - apply H1. left; auto.
  - apply IH; [intros; apply H1; right; auto|]. intros; eapply H2; eauto; right; auto.
  - intros b I J. apply in_flat_map in J as (a' & Ha & J). assert (a = a') as <- by (eapply H2; eauto; cbn; auto). auto.
Qed.

Lemma defects_nodup m removed : wf m -> NoDup (defects m removed).
Proof.
  intros W. pose proof (wf_nodup m W) as N. pose proof (NoDup_map_inv _ _ N) as NC.
  assert (forall f, NoDup (map c_xy (filter f (chips m)))) as NF.
  { intros f. revert N. induction (chips m) as [|c l IH]; cbn [filter map]; auto. intros N. inversion N as [|? ? A B]; subst.
    destruct (f c); cbn [map]; [constructor; auto|apply IH; auto; eapply NoDup_map_inv; eauto].
    - intros I. apply A. apply in_map_iff in I as (c' & <- & I). apply filter_In in I as [I _]. apply in_map; auto.
    - apply IH; auto. eapply NoDup_map_inv; eauto. }
  unfold defects. apply nodup_app; [| |].
  - apply FinFun.Injective_map_NoDup; [|apply NF]. intros [a b] [c d] [= -> ->]; auto.
  - apply nodup_app.
    + apply FinFun.Injective_map_NoDup; [|apply NF]. intros [a b] [c d] [= -> ->]; auto.
    + apply nodup_app.
      * apply nodup_flat; [apply one_way_nodup; auto| |].
        -- intros [[[x y] o] b] _. destruct (expected_link _ _ _); repeat constructor; auto.
        -- intros [[[x y] o] b] [[[x' y'] o'] b'] d H H' I I'.
           destruct (expected_link m removed (x, y, o, b)); [destruct I|]. destruct (expected_link m removed (x', y', o', b')); [destruct I'|].
           destruct I as [<-|[]]. destruct I' as [I'|[]]. injection I' as -> -> ->.
           apply one_way_spec in H as (? & ? & _ & _ & -> & _); auto. apply one_way_spec in H' as (? & ? & _ & _ & -> & _); auto.
      * apply nodup_flat; auto.
        -- intros ch _. destruct (orphan m ch); repeat constructor; auto.
        -- intros a a' d H H' I I'. destruct (orphan m a); [|destruct I]. destruct (orphan m a'); [|destruct I'].
           destruct I as [<-|[]]. destruct I' as [I'|[]]. injection I' as X Y.
           apply (chip_unique m); auto. unfold c_xy. congruence.
      * intros d I J. apply in_flat_map in I as ([[[x y] o] b] & _ & I). apply in_flat_map in J as (ch & _ & J).
        destruct (expected_link _ _ _); [destruct I|]. destruct (orphan m ch); [|destruct J].
        destruct I as [<-|[]], J as [J|[]]. discriminate.
    + intros d I J. apply in_map_iff in I as (p & <- & _). rewrite in_app_iff, !in_flat_map in J.
      destruct J as [([[[x y] o] b] & _ & J)|(ch & _ & J)].
      * destruct (expected_link _ _ _); [destruct J|destruct J as [J|[]]; discriminate].
      * destruct (orphan m ch); [destruct J as [J|[]]; discriminate|destruct J].
  - intros d I J. apply in_map_iff in I as (p & <- & _). rewrite !in_app_iff, in_map_iff, !in_flat_map in J.
    destruct J as [(q & J & _)|[([[[x y] o] b] & _ & J)|(ch & _ & J)]]; [discriminate| |].
    + destruct (expected_link _ _ _); [destruct J|destruct J as [J|[]]; discriminate].
    + destruct (orphan m ch); [destruct J as [J|[]]; discriminate|destruct J].
Qed.

(** Each message goes with one defect of the machine, and each defect has one message. *)
Theorem C78_one_message_per_defect :
  forall v m removed, made v m -> messages_work m ->
    exists msgs ds, repair_messages m removed = Ok msgs /\ Forall2 (says m) msgs ds /\ NoDup ds /\
      (forall d, In d ds <-> has_defect m removed d) /\
      error_message false m removed = Ok (String.concat "" msgs).
Proof.
  intros v m removed M MW. apply made_wf in M as W. pose proof (messages_as_checks m removed) as C.
  rewrite messages_checks in C by auto. destruct (repair_messages m removed) as [msgs|] eqn:E; [|discriminate].
  exists msgs, (defects m removed). split; auto. split; [apply (messages_say m removed); auto|].
  split; [apply defects_nodup; auto|]. split.
  - intros d. apply defects_in; auto. intros ch p H P. apply (MW ch H). auto.
  - unfold error_message. rewrite E. cbn [bind]. f_equal. clear.
    assert (forall s, fold_left append msgs s = append s (String.concat "" msgs)) as X; [|apply (X "")].
    induction msgs as [|a [|b l] IH]; intros s; cbn [fold_left String.concat]; [rewrite app_nil_s; auto|auto|].
    cbn [fold_left] in IH. rewrite IH, app_assoc_s. reflexivity.
Qed.
Print Assumptions C78_one_message_per_defect.

Lemma says_nonempty m t d : says m t d -> t <> "".
Proof. intros S. destruct S; discriminate. Qed.

Lemma joined_nil msgs : String.concat "" msgs = "" -> Forall (fun t => t = "") msgs.
Proof.
  induction msgs as [|a [|b l] IH]; intros E; cbn [String.concat] in E; auto.
  apply app_empty in E as [-> E]. constructor; auto.
Qed.

Lemma no_defects m removed : defects m removed = [] -> bad_chips m = [] /\ forallb (expected_link m removed) (one_way_links m) = true.
Proof.
  unfold defects, bad_chips. intros E. apply app_eq_nil in E as [E1 E]. apply app_eq_nil in E as [E2 E].
  apply app_eq_nil in E as [E3 E4]. apply map_eq_nil in E1, E2. rewrite E1, E2. cbn [app]. split.
  - revert E4. induction (chips m) as [|c l IH]; cbn [flat_map filter map]; auto. destruct (orphan m c); [discriminate|auto].
  - revert E3. induction (one_way_links m) as [|[[[x y] o] b] l IH]; cbn [flat_map forallb]; auto.
    destruct (expected_link m removed (x, y, o, b)); [auto|discriminate].
Qed.

Lemma some_defects m removed : defects m removed <> [] ->
  negb (isnil (bad_chips m)) || negb (forallb (expected_link m removed) (one_way_links m)) = true.
Proof.
  intros H. destruct (isnil (bad_chips m)) eqn:B; [|auto]. destruct (forallb _ _) eqn:F; auto. exfalso. apply H.
  unfold bad_chips in B. unfold defects. destruct (unreachable_incoming_local_chips m); [|discriminate].
  destruct (unreachable_outgoing_local_chips m); [|discriminate]. cbn [app map] in *.
  assert (filter (orphan m) (chips m) = []) as O by (destruct (filter (orphan m) (chips m)); auto; discriminate).
  clear H B.
  assert (flat_map (fun ch => if orphan m ch then [NoParent (c_x ch) (c_y ch)] else []) (chips m) = []) as ->.
  { revert O. induction (chips m) as [|c l IH]; cbn [flat_map filter]; auto. destruct (orphan m c); [discriminate|auto]. }
  rewrite app_nil_r. revert F. induction (one_way_links m) as [|[[[x y] o] b] l IH]; cbn [flat_map forallb]; auto.
  destruct (expected_link m removed (x, y, o, b)); [auto|discriminate].
Qed.

(** With repair_machine off: machine_repair raises an exception with the text, if the
    text is not empty; if it is empty the option makes no difference. *)
Theorem C78_when_raised :
  forall v m removed, made v m ->
    (forall e, error_message false m removed = Err e -> repairs false v m removed (Err e)) /\
    (forall t, error_message false m removed = Ok t -> t <> "" -> repairs false v m removed (Err MachineExc)) /\
    (error_message false m removed = Ok "" -> repair_step false v m removed = repair_step true v m removed).
Proof.
  intros v m removed M. apply made_wf in M as W. unfold error_message.
  pose proof (messages_as_checks m removed) as C. destruct (repair_messages m removed) as [msgs|e0] eqn:E; cbn [bind] in *.
  2: { split; [|split; intros; discriminate]. intros e X. injection X as <-. apply repairs_raises. rewrite step_eq, <- C. reflexivity. }
  pose proof (messages_say m removed msgs W E) as F. split; [discriminate|].
  assert (fold_left append msgs "" = String.concat "" msgs) as J.
  { clear. assert (forall s, fold_left append msgs s = append s (String.concat "" msgs)) as X; [|apply (X "")].
    induction msgs as [|a [|b l] IH]; intros s; cbn [fold_left String.concat]; [rewrite app_nil_s; auto|auto|].
    cbn [fold_left] in IH. rewrite IH, app_assoc_s. reflexivity. }
  rewrite J. split.
  - intros t X NE. apply Ok_inj in X. subst t. apply repairs_raises. rewrite step_eq, <- C. cbn [bind negb andb].
    rewrite some_defects; auto. intros D. rewrite D in F. inversion F; subst. apply NE. reflexivity.
  - intros X. apply Ok_inj in X. apply joined_nil in X. assert (defects m removed = []) as D.
    { destruct F as [|t d ts ds S F]; auto. inversion X; subst. apply says_nonempty in S. contradiction. }
    apply no_defects in D as [D1 D2]. rewrite !step_eq, <- C. cbn [bind negb andb]. cbv zeta. rewrite D1, D2. cbn [isnil].
    assert (filter (fun t => false || expected_link m removed t) (one_way_links m) =
            filter (fun t => true || expected_link m removed t) (one_way_links m)) as ->; [|reflexivity].
    rewrite forallb_forall in D2. apply filter_ext_in. intros t H. rewrite (D2 t H). reflexivity.
Qed.
Print Assumptions C78_when_raised.

(** ** The messages tell the defects apart *)
Ltac next E := cbn [append] in E; apply dec_then in E; [|reflexivity|reflexivity];
  let X := fresh "X" in destruct E as (X & _ & E).

Lemma chip_then m a b r s : wf m -> In a (chips m) -> In b (chips m) ->
  (chip_str a ++ r = chip_str b ++ s)%string -> a = b /\ r = s.
Proof.
  intros W A B E. assert (a = b) as ->.
  { apply (chip_unique m); auto. unfold chip_str, cat in E. cbn [fold_right] in E. rewrite ?app_assoc_s in E. cbn [append] in E.
    injection E as E. repeat (progress (rewrite ?app_assoc_s in E; cbn [append] in E)). next E. injection E as E. next E. unfold c_xy. congruence. }
  split; auto. eapply app_inj_l; eauto.
Qed.

Lemma app_inj_r a : forall b r, (a ++ r = b ++ r)%string -> a = b.
Proof.
  assert (forall s t, String.length (s ++ t) = (String.length s + String.length t)%nat) as LA.
  { induction s as [|c s IH]; intros t; cbn; auto. }
  induction a as [|c a IH]; intros [|d b] r E; auto.
  - apply (f_equal String.length) in E. rewrite !LA in E. cbn in E. lia.
  - apply (f_equal String.length) in E. rewrite !LA in E. cbn in E. lia.
  - cbn [append] in E. injection E as -> E. f_equal. eapply IH; eauto.
Qed.

Lemma link_back l l' : 0 <= l < 6 -> 0 <= l' < 6 -> (l + 3) mod 6 = (l' + 3) mod 6 -> l = l'.
Proof. intros. Z.div_mod_to_equations. lia. Qed.

(** Two defects with the same message are the same, unless they are two chips of boards
    with the same address that miss the same parent. *)
Theorem C78_messages_differ :
  forall v m removed, made v m -> good_size (m_kind m) (m_width m) (m_height m) ->
    (forall ch, In ch (chips m) -> canonical (m_kind m) (m_width m) (m_height m) (c_x ch, c_y ch)) ->
    forall t d d', has_defect m removed d -> has_defect m removed d' -> says m t d -> says m t d' ->
    d = d' \/
    (exists x y x' y' a b e e' p p' q, d = NoParent x y /\ d' = NoParent x' y' /\
       get_chip_at m x y = Some a /\ get_chip_at m x' y' = Some b /\
       c_parent a = Some p /\ c_parent b = Some p' /\ m_over m x y p = Ok q /\ m_over m x' y' p' = Ok q /\
       board_of m a e /\ board_of m b e' /\ opt_str (c_ip e) = opt_str (c_ip e')).
Proof.
  intros v m removed M GS CA t d d' H H' S S'. apply made_wf in M as W.
  assert (forall x y ch, get_chip_at m x y = Some ch -> In ch (chips m) /\ c_x ch = x /\ c_y ch = y) as GI.
  { intros x y ch G. apply get_chip_in in G as [I X]; auto. unfold c_xy in X. injection X as X1 X2. auto. }
  assert (forall x y ch e x' y' ch' e' lx ly, get_chip_at m x y = Some ch -> board_of m ch e -> m_local m ch = (lx, ly) ->
    get_chip_at m x' y' = Some ch' -> board_of m ch' e' -> m_local m ch' = (lx, ly) -> e = e' -> x = x' /\ y = y') as PL.
  { intros x y ch e x' y' ch' e' lx ly G B L G' B' L' <-. apply GI in B as (_ & B1 & B2). apply GI in B' as (_ & B3 & B4).
    apply GI in G as (I & G1 & G2). apply GI in G' as (I' & G3 & G4).
    pose proof (local_global (m_kind m) (m_width m) (m_height m) (c_x ch) (c_y ch) (c_eth_x ch) (c_eth_y ch) lx ly GS (CA ch I) L) as X.
    pose proof (local_global (m_kind m) (m_width m) (m_height m) (c_x ch') (c_y ch') (c_eth_x ch') (c_eth_y ch') lx ly GS (CA ch' I') L') as Y.
    rewrite <- B1, <- B2 in X. rewrite <- B3, <- B4 in Y. rewrite X in Y. apply pair_equal_spec in Y. lia. }
  assert (forall x y l, has_defect m removed (NoReverse x y l) -> 0 <= l < 6) as LR.
  { intros x y l (ch & q & _ & (R & _) & _). exact R. }
  assert (forall n r s, (dec n ++ r)%string <> String "[" s) as NB.
  { intros n r s E. pose proof (dec_num n) as N. pose proof (dec_nonempty n) as NE. destruct (dec n) as [|c u]; [auto|].
    cbn [append] in E. injection E as -> _. destruct N as [N _]. apply num_b_spec in N. discriminate. }
  assert (forall a b r s, In a (chips m) -> In b (chips m) -> (chip_str a ++ r = chip_str b ++ s)%string -> a = b /\ r = s) as CT.
  { intros a b r s. apply chip_then; auto. }
  assert (forall a, exists u, chip_str a = String "[" u) as CB by (intros a; unfold chip_str, cat; cbn [fold_right append]; eauto).
  remember t as t' eqn:ET in S'. revert ET. destruct S as [x y ch e lx ly G B L|x y ch e lx ly G B L|x y l ch e q G B O N|
    x y l ch e q c2 e2 lx ly lx2 ly2 G B O G2 B2 L L2 A|x y l ch e q c2 e2 lx ly lx2 ly2 G B O G2 B2 L L2 A|x y ch e p q G B P O];
  destruct S' as [x' y' ch' e' lx' ly' G' B' L'|x' y' ch' e' lx' ly' G' B' L'|x' y' l' ch' e' q' G' B' O' N'|
    x' y' l' ch' e' q' c2' e2' lx' ly' lx2' ly2' G' B' O' G2' B2' L' L2' A'|x' y' l' ch' e' q' c2' e2' lx' ly' lx2' ly2' G' B' O' G2' B2' L' L2' A'|x' y' ch' e' p' q' G' B' P' O'];
  intros E; unfold cat in E; cbn [fold_right] in E; revert E CT CB; generalize chip_str; intros cs E CT CB;
    cbn [append] in E; try (discriminate E); injection E as E; next E; subst.
  - injection E as E. next E. subst. injection E as E. apply CT in E as [X _]; [|apply (GI _ _ _ B')|apply (GI _ _ _ B)].
    destruct (PL _ _ _ _ _ _ _ _ _ _ G B L G' B' L' (eq_sym X)) as [-> ->]. auto.
  - injection E as E. next E. subst. injection E as E. apply CT in E as [X _]; [|apply (GI _ _ _ B')|apply (GI _ _ _ B)].
    destruct (PL _ _ _ _ _ _ _ _ _ _ G B L G' B' L' (eq_sym X)) as [-> ->]. auto.
  - injection E as E. apply GI in G as (I & <- & <-). apply GI in G' as (I' & <- & <-). apply CT in E as [-> _]; auto.
  - exfalso. injection E as E. apply CT in E as [_ E]; [|apply (GI _ _ _ G2')|apply (GI _ _ _ G)]. cbn [append] in E. injection E as E.
    destruct (CB ch') as [u CU]. rewrite CU in E. cbn [append] in E. eapply NB. symmetry. exact E.
  - exfalso. injection E as E. apply CT in E as [_ E]; [|apply (GI _ _ _ G2')|apply (GI _ _ _ G)]. cbn [append] in E. injection E as E.
    destruct (CB ch') as [u CU]. rewrite CU in E. cbn [append] in E. eapply NB. symmetry. exact E.
  - exfalso. injection E as E. apply CT in E as [_ E]; [|apply (GI _ _ _ G')|apply (GI _ _ _ G2)]. cbn [append] in E. injection E as E.
    destruct (CB ch) as [u CU]. rewrite CU in E. cbn [append] in E. eapply NB. exact E.
  - apply LR in H, H'. apply link_back in X; auto. subst l'. injection E as E.
    apply CT in E as [_ E]; [|apply (GI _ _ _ G2')|apply (GI _ _ _ G2)]. cbn [append] in E. injection E as E.
    apply GI in G as (I & <- & <-). apply GI in G' as (I' & <- & <-). apply CT in E as [-> _]; auto.
  - apply LR in H, H'. apply link_back in X; auto. subst l'. injection E as E.
    apply CT in E as [_ E]; [|apply (GI _ _ _ G2')|apply (GI _ _ _ G2)]. cbn [append] in E. injection E as E.
    apply GI in G as (I & <- & <-). apply GI in G' as (I' & <- & <-). apply CT in E as [-> _]; auto.
  - exfalso. injection E as E. apply CT in E as [_ E]; [|apply (GI _ _ _ G')|apply (GI _ _ _ G2)]. cbn [append] in E. injection E as E.
    destruct (CB ch) as [u CU]. rewrite CU in E. cbn [append] in E. eapply NB. exact E.
  - apply LR in H, H'. apply link_back in X; auto. subst l'. injection E as E.
    apply CT in E as [_ E]; [|apply (GI _ _ _ G2')|apply (GI _ _ _ G2)]. cbn [append] in E. injection E as E.
    apply GI in G as (I & <- & <-). apply GI in G' as (I' & <- & <-). apply CT in E as [-> _]; auto.
  - apply LR in H, H'. apply link_back in X; auto. subst l'. injection E as E.
    apply CT in E as [_ E]; [|apply (GI _ _ _ G2')|apply (GI _ _ _ G2)]. cbn [append] in E. injection E as E.
    apply GI in G as (I & <- & <-). apply GI in G' as (I' & <- & <-). apply CT in E as [-> _]; auto.
  - right. next E. assert (q' = q) as -> by (destruct q, q'; cbn [fst snd] in *; congruence).
    injection E as E. apply app_inj_r in E. exists x, y, x', y', ch, ch', e, e', p, p', q. auto 15.
Qed.
Print Assumptions C78_messages_differ.

(** On a virtual machine the addresses tell the boards apart, so the text says "Both chips
    live on the same board" exactly if they do. *)
Theorem C78_addresses_tell_boards :
  forall c V w h check m, virtual_machine c V w h check = Ok m ->
  forall a b e e', In a (chips m) -> In b (chips m) -> board_of m a e -> board_of m b e' ->
    (c_ip e = c_ip e' <-> (c_eth_x a, c_eth_y a) = (c_eth_x b, c_eth_y b)).
Proof.
  intros c V w h check m E a b e e' A B BA BB. apply virtual_built in E as (dch & dco & dl & BT & _).
  pose proof (b_wf _ _ _ _ _ _ _ _ BT) as W.
  assert (forall ch e, In ch (chips m) -> board_of m ch e -> c_ip e = Some (virtual_ip (c_eth_x ch) (c_eth_y ch))) as IP.
  { intros ch e0 H G. assert (get_chip_at m (c_x ch) (c_y ch) = Some ch) as Gc by (apply get_chip_in; auto).
    destruct (proj1 (built_present BT (c_x ch) (c_y ch)) (ex_intro _ ch Gc)) as [(o & d & n & P) _].
    destruct (built_fields BT _ _ ch o d n Gc P) as (_ & _ & F & _).
    destruct (built_eth BT _ _ _ G) as [(I & _)|[_ N]]; [exact I|]. exfalso. apply N. rewrite F. apply P. }
  rewrite (IP a e A BA), (IP b e' B BB). split.
  - intros X. assert (virtual_ip (c_eth_x a) (c_eth_y a) = virtual_ip (c_eth_x b) (c_eth_y b)) as Y by congruence.
    apply virtual_ip_inj in Y as [-> ->]. auto.
  - intros X. apply pair_equal_spec in X as [-> ->]. auto.
Qed.
Print Assumptions C78_addresses_tell_boards.

(** The message about a parent names the class Chip in the place of the chip: two chips
    that miss the same parent have the same message. *)
Definition orphans_machine : machine := demo_machine
  [demo_chip 0 0 [0; 2] (Some "10.0.0.1"%string) None;
   demo_chip 1 0 [3] None (Some 2); demo_chip 0 1 [5] None (Some 0)].

Theorem C78_messages_about_parents_differ_refuted :
  exists m t, made V5 m /\ messages_work m /\
    has_defect m [] (NoParent 1 0) /\ has_defect m [] (NoParent 0 1) /\
    says m t (NoParent 1 0) /\ says m t (NoParent 0 1) /\ repair_messages m [] = Ok [t; t].
Proof.
  exists orphans_machine, (cat ["The source: <class 'spinn_machine.chip.Chip'> will fail to receive signals because its parent 1:1 in the signal tree has disappeared from the machine since it was booted. This occurred on board with ip address 10.0.0.1 "; please]).
  split; [unfold orphans_machine, demo_machine, made; repeat eexists|]. split; [|split; [|split; [|split; [|split]]]].
  - intros ch H. assert (exists a b c, chips orphans_machine = [a; b; c] /\
      is_chip_at orphans_machine (c_eth_x a) (c_eth_y a) = true /\ is_chip_at orphans_machine (c_eth_x b) (c_eth_y b) = true /\
      is_chip_at orphans_machine (c_eth_x c) (c_eth_y c) = true /\ c_parent a = None /\ c_parent b = Some 2 /\ c_parent c = Some 0)
      as (a & b & c & E & X1 & X2 & X3 & X4 & X5 & X6).
    { do 3 eexists. split; [vm_compute; reflexivity|]. repeat split; vm_compute; reflexivity. }
    rewrite E in H. destruct H as [<-|[<-|[<-|[]]]]; (split; [auto|]); intros p P; rewrite P in *; try discriminate;
      (assert (p = 2 \/ p = 0) as PP by (left + right; congruence); lia).
  - cbn [has_defect]. do 3 eexists. repeat split; vm_compute; reflexivity.
  - cbn [has_defect]. do 3 eexists. repeat split; vm_compute; reflexivity.
  - change (cat _) with (cat ["The source: <class 'spinn_machine.chip.Chip'> will fail to receive signals because its parent ";
                 dec (fst (1, 1)); ":"; dec (snd (1, 1));
                 " in the signal tree has disappeared from the machine since it was booted. This occurred on board with ip address ";
                 opt_str (Some "10.0.0.1"); " "; please]).
    eapply says_parent with (e := demo_chip 0 0 [0; 2] (Some "10.0.0.1") None); vm_compute; reflexivity.
  - change (cat _) with (cat ["The source: <class 'spinn_machine.chip.Chip'> will fail to receive signals because its parent ";
                 dec (fst (1, 1)); ":"; dec (snd (1, 1));
                 " in the signal tree has disappeared from the machine since it was booted. This occurred on board with ip address ";
                 opt_str (Some "10.0.0.1"); " "; please]).
    eapply says_parent with (e := demo_chip 0 0 [0; 2] (Some "10.0.0.1") None); vm_compute; reflexivity.
  - vm_compute. reflexivity.
Qed.
Print Assumptions C78_messages_about_parents_differ_refuted.

(** In the machine of C31_case chip (2, 1) has no link out and cannot be reached back
    from, and both are told; the link is not told if (2, 1) was removed. *)
Example C78_case :
  made V5 demo_broken /\ messages_work demo_broken /\
  good_size (m_kind demo_broken) (m_width demo_broken) (m_height demo_broken) /\
  (forall ch, In ch (chips demo_broken) ->
     canonical (m_kind demo_broken) (m_width demo_broken) (m_height demo_broken) (c_x ch, c_y ch)) /\
  repair_messages demo_broken [] = Ok [
    cat ["Your machine has unreachable outgoing chips at (2, 1) on board [Chip: x=0, y=0, ip_address=10.0.0.1 n_cores=18] which will cause algorithms to fail. "; please];
    cat ["Link 3 from [Chip: x=2, y=1, n_cores=18] to [Chip: x=1, y=1, n_cores=18] does not exist, but the opposite does. Both chips live on the same board under ip address 10.0.0.1 and are local chip ids 2:1 and 1:1. "; please]] /\
  (exists t, repair_messages demo_broken [(2, 1)] = Ok [t]) /\
  repairs false V5 demo_broken [] (Err MachineExc).
Proof.
  assert (made V5 demo_broken) as M by (unfold demo_broken, demo_machine, made; repeat eexists).
  split; auto. split; [|split; [|split; [|split; [|split]]]].
  - assert (forallb (fun ch => is_chip_at demo_broken (c_eth_x ch) (c_eth_y ch) &&
      match c_parent ch with Some p => (0 <=? p) && (p <? 6) | None => true end) (chips demo_broken) = true) as F by (vm_compute; reflexivity).
    intros ch H. rewrite forallb_forall in F. specialize (F ch H). apply andb_true_iff in F as [F1 F2]. split; auto.
    intros p P. rewrite P in F2. lia.
  - split; intros X; vm_compute in X; discriminate.
  - intros ch _. split; intros X; vm_compute in X; discriminate.
  - vm_compute. reflexivity.
  - eexists. vm_compute. reflexivity.
  - destruct (C78_when_raised V5 demo_broken [] M) as (_ & H & _). eapply H; [vm_compute; reflexivity|discriminate].
Qed.
