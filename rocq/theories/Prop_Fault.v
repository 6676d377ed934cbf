(** C92, C93: what the exceptions of lookups, of adding twice and of invalid values say. *)
From Coq Require Import Lia ZifyBool String Ascii.
From Verif Require Import Model_Py Model_Version Model_Core Model_Str Model_Virtual Model_Text Model_Machine
  Model_Routing Model_Repr Model_Fault Spec_Machine Spec_Routing Spec_Fault Proof_Py Proof_Str Proof_Machine Proof_Board
  Proof_Repr Prop_ReprExact Prop_Machine.
Open Scope string_scope.
Open Scope list_scope.
Open Scope Z_scope.

Definition unworded {A} (r : A + (exn * string)) : res A :=
  match r with inl a => Ok a | inr (e, _) => Err e end.
Definition unnamed {A} (r : A + raised) : res A :=
  match r with inl a => Ok a | inr x => Err (raised_class x) end.

Ltac words := cbn; rewrite ?app_assoc_s; cbn; rewrite ?app_assoc_s, ?app_nil_s; cbn; reflexivity.

(** ** C92 *)
Lemma contains_made v m p : made v m -> (contains m p = true <-> exists c, In c (chips m) /\ c_xy c = p).
Proof.
  intros M. pose proof (made_wf _ _ M) as W. unfold contains. rewrite (dmem_in xy_eqb xyeqb_eq), (keys_xy m W), in_map_iff.
  split; intros (c & A & B); exists c; auto.
Qed.

Lemma boot_meant v m given a : made v m ->
  ((match given with Some a => Some a | None => m_boot m end) = Some a <-> board_meant m given a).
Proof.
  intros M. pose proof (made_wf _ _ M) as W. unfold board_meant. destruct given as [b|].
  - split; [intros E; left; auto|]. intros [E|[E _]]; congruence.
  - rewrite (wf_boot m W). split.
    + intros (c & A & B & C). right. split; auto. exists c. apply pair_equal_spec in B as [B1 B2]. auto.
    + intros [E|(_ & c & A & B1 & B2 & C)]; [discriminate E|]. exists c. unfold c_xy. rewrite B1, B2. auto.
Qed.

(** The lookups are those of C24 and C25. *)
Theorem C92_same_lookups :
  (forall m id b p, unworded (snd (spinnaker_link_told m id b p)) = get_spinnaker_link_with_id m id b p) /\
  (forall m f l b p, unworded (snd (fpga_link_told m f l b p)) = get_fpga_link_with_id m f l b p).
Proof.
  split.
  - intros m id b [p|]; cbn.
    + destruct (contains m p); cbn; auto. destruct (dget spin_key_eqb (m_spin m) (AtXY p, id)); reflexivity.
    + destruct (match b with Some a => Some a | None => m_boot m end) as [a|]; auto. unfold dgetitem.
      destruct (dget spin_key_eqb (m_spin m) (Board a, id)); reflexivity.
  - intros m f l b [p|]; cbn.
    + destruct (contains m p); cbn; auto. destruct (dget fpga_key_eqb (m_fpga m) (AtXY p, f, l)); reflexivity.
    + destruct (match b with Some a => Some a | None => m_boot m end) as [a|]; auto. unfold dgetitem.
      destruct (dget fpga_key_eqb (m_fpga m) (Board a, f, l)); reflexivity.
Qed.
Print Assumptions C92_same_lookups.

(** A failed lookup says whether there is no such chip, no such link on the chip, or no such link on
    the board, which is that of the chip at 0, 0 if none is given.  A board address beside chip
    coordinates is warned about. *)
Theorem C92_lookup_texts :
  forall v m, made v m ->
    (forall id b p, fst (spinnaker_link_told m id b p) = true <-> b <> None /\ p <> None) /\
    (forall f l b p, fst (fpga_link_told m f l b p) = true <-> b <> None /\ p <> None) /\
    (forall id b x y t, snd (spinnaker_link_told m id b (Some (x, y))) = inr (KeyError, t) <->
       get_spinnaker_link_with_id m id b (Some (x, y)) = Err KeyError /\
       ((get_chip_at m x y = None /\ t = cat ["No chip ("; dec x; ", "; dec y; ") found!"]) \/
        (get_chip_at m x y <> None /\
         t = cat ["SpiNNaker link "; dec id; " not found on chip ("; dec x; ", "; dec y; ")"]))) /\
    (forall f l b x y t, snd (fpga_link_told m f l b (Some (x, y))) = inr (KeyError, t) <->
       get_fpga_link_with_id m f l b (Some (x, y)) = Err KeyError /\
       ((get_chip_at m x y = None /\ t = cat ["No chip ("; dec x; ", "; dec y; ") found!"]) \/
        (get_chip_at m x y <> None /\
         t = cat ["FPGA "; dec f; ", link "; dec l; " not found on chip ("; dec x; ", "; dec y; ")"]))) /\
    (forall id b t, snd (spinnaker_link_told m id b None) = inr (KeyError, t) <->
       get_spinnaker_link_with_id m id b None = Err KeyError /\
       exists a, board_meant m b a /\ t = cat ["SpiNNaker Link "; dec id; " does not exist on board "; a]) /\
    (forall f l b t, snd (fpga_link_told m f l b None) = inr (KeyError, t) <->
       get_fpga_link_with_id m f l b None = Err KeyError /\
       exists a, board_meant m b a /\ t = cat ["FPGA Link "; dec f; ":"; dec l; " does not exist on board "; a]).
Proof.
  intros v m M.
  assert (G : forall x y, contains m (x, y) = true <-> get_chip_at m x y <> None).
  { intros x y. unfold contains, get_chip_at, dmem. destruct (dget xy_eqb (m_chips m) (x, y)); split; congruence. }
  split; [|split; [|split; [|split; [|split]]]].
  - intros id [b|] [p|]; cbn; split; try discriminate; intros; try tauto; split; discriminate.
  - intros f l [b|] [p|]; cbn; split; try discriminate; intros; try tauto; split; discriminate.
  - intros id b x y t. cbn [spinnaker_link_told get_spinnaker_link_with_id snd]. specialize (G x y).
    destruct (contains m (x, y)); cbn [negb].
    + destruct (dget spin_key_eqb (m_spin m) (AtXY (x, y), id)).
      { split; [discriminate|intros [E _]; discriminate E]. }
      split.
      * intros H. apply (f_equal (fun r => match r with inr p => snd p | inl _ => t end)) in H. cbn [snd] in H.
        split; auto. right. split; [apply G; auto|]. rewrite <- H. words.
      * intros (_ & [[N _]|[_ ->]]); [exfalso; apply G; auto|]. words.
    + split.
      * intros H. apply (f_equal (fun r => match r with inr p => snd p | inl _ => t end)) in H. cbn [snd] in H.
        split; auto. left. split; [destruct (get_chip_at m x y); auto; discriminate (proj2 G ltac:(discriminate))|].
        rewrite <- H. words.
      * intros (_ & [[_ ->]|[N _]]); [|apply G in N; discriminate N]. words.
  - intros f l b x y t. cbn [fpga_link_told get_fpga_link_with_id snd]. specialize (G x y).
    destruct (contains m (x, y)); cbn [negb].
    + destruct (dget fpga_key_eqb (m_fpga m) (AtXY (x, y), f, l)).
      { split; [discriminate|intros [E _]; discriminate E]. }
      split.
      * intros H. apply (f_equal (fun r => match r with inr p => snd p | inl _ => t end)) in H. cbn [snd] in H.
        split; auto. right. split; [apply G; auto|]. rewrite <- H. words.
      * intros (_ & [[N _]|[_ ->]]); [exfalso; apply G; auto|]. words.
    + split.
      * intros H. apply (f_equal (fun r => match r with inr p => snd p | inl _ => t end)) in H. cbn [snd] in H.
        split; auto. left. split; [destruct (get_chip_at m x y); auto; discriminate (proj2 G ltac:(discriminate))|].
        rewrite <- H. words.
      * intros (_ & [[_ ->]|[N _]]); [|apply G in N; discriminate N]. words.
  - intros id b t. cbn [spinnaker_link_told get_spinnaker_link_with_id snd].
    pose proof (fun a => boot_meant v m b a M) as B.
    destruct (match b with Some a => Some a | None => m_boot m end) as [a|].
    + unfold dgetitem. destruct (dget spin_key_eqb (m_spin m) (Board a, id)).
      { split; [discriminate|intros [E _]; discriminate E]. }
      split.
      * intros H. split; auto. exists a. split; [apply B; auto|]. congruence.
      * intros (_ & a' & A & ->). apply B in A. congruence.
    + split; [discriminate|]. intros [E _]. discriminate E.
  - intros f l b t. cbn [fpga_link_told get_fpga_link_with_id snd].
    pose proof (fun a => boot_meant v m b a M) as B.
    destruct (match b with Some a => Some a | None => m_boot m end) as [a|].
    + unfold dgetitem. destruct (dget fpga_key_eqb (m_fpga m) (Board a, f, l)).
      { split; [discriminate|intros [E _]; discriminate E]. }
      split.
      * intros H. split; auto. exists a. split; [apply B; auto|]. congruence.
      * intros (_ & a' & A & ->). apply B in A. congruence.
    + split; [discriminate|]. intros [E _]. discriminate E.
Qed.
Print Assumptions C92_lookup_texts.

Example C92_case :
  made V5 demo /\
  spinnaker_link_told demo 7 (Some "10.0.0.9") (Some (5, -1)) = (true, inr (KeyError, "No chip (5, -1) found!")) /\
  spinnaker_link_told demo 7 None (Some (1, 0)) = (false, inr (KeyError, "SpiNNaker link 7 not found on chip (1, 0)")) /\
  spinnaker_link_told demo 7 None None = (false, inr (KeyError, "SpiNNaker Link 7 does not exist on board 10.0.0.1")) /\
  fpga_link_told demo 1 2 (Some "x") None = (false, inr (KeyError, "FPGA Link 1:2 does not exist on board x")) /\
  fpga_link_told demo 1 2 None (Some (1, 0)) = (false, inr (KeyError, "FPGA 1, link 2 not found on chip (1, 0)")).
Proof. split; [apply demo_made|]. repeat split; vm_compute; reflexivity. Qed.

(** ** C93 *)
Theorem C93_same_calls :
  (forall links n, unnamed (new_router_raises links n) = new_router links n) /\
  (forall r l, unnamed (add_link_raises r l) = router_add_link r l) /\
  (forall m c, unnamed (add_chip_raises m c) = add_chip m c) /\
  (forall m cs, (fst (add_chips_raises m cs), option_map raised_class (snd (add_chips_raises m cs))) = add_chips m cs) /\
  (forall k m e, unnamed (new_multicast_raises k m e) = new_multicast k m e) /\
  (forall a b, unnamed (mc_merge_raises a b) = mc_merge a b).
Proof.
  assert (L : forall r l, unnamed (add_link_raises r l) = router_add_link r l).
  { intros r l. unfold add_link_raises, router_add_link. destruct (dmem _ _ _); reflexivity. }
  assert (C : forall m c, unnamed (add_chip_raises m c) = add_chip m c).
  { intros m c. unfold add_chip_raises. destruct (add_chip m c) as [|[]]; reflexivity. }
  assert (N : forall k m e, unnamed (new_multicast_raises k m e) = new_multicast k m e).
  { intros k m e. unfold new_multicast_raises, new_multicast. destruct (negb _); reflexivity. }
  split; [|split; [auto|split; [auto|split; [|split; [auto|]]]]].
  - intros links n. unfold new_router_raises, new_router. generalize (mkRouter [] n) as r.
    induction links as [|l links IH]; intros r; cbn; auto. rewrite <- L.
    destruct (add_link_raises r l) as [r'|x]; cbn; auto.
  - intros m cs. revert m. induction cs as [|c cs IH]; intros m; cbn; auto. rewrite <- C.
    destruct (add_chip_raises m c) as [m'|x]; cbn; auto.
  - intros a b. unfold mc_merge_raises, mc_merge. destruct (negb (mc_key b =? mc_key a)); auto.
    destruct (negb (mc_mask b =? mc_mask a)); auto. destruct (entry_merge _ _); cbn; auto.
Qed.
Print Assumptions C93_same_calls.

(** A router with two links of one id: the first id that comes again is told. *)
Lemma links_raise ls : forall r x, NoDup (dkeys (r_links r)) ->
  (add_links_raise r ls = inr x <->
   exists i, first_again (dkeys (r_links r)) (map l_source_link_id ls) i /\ x = AlreadyExistsE "link" (dec i)).
Proof.
  induction ls as [|l ls IH]; intros r x N; cbn [add_links_raise map].
  - split; [discriminate|]. intros (i & (b & a & E & _) & _). destruct b; discriminate E.
  - unfold add_link_raises. destruct (dmem Z.eqb (r_links r) (l_source_link_id l)) eqn:D.
    + apply (dmem_in Z.eqb Z.eqb_eq) in D. split.
      * intros H. injection H as <-. eexists. split; [|reflexivity]. exists [], (map l_source_link_id ls).
        split; auto. split; [rewrite app_nil_r; auto|]. split; [constructor|intros ? []].
      * intros (i & (b & a & E & I & Nb & O) & ->). destruct b as [|j b]; cbn in E; injection E as E1 E2.
        -- rewrite E1. reflexivity.
        -- exfalso. apply (O j); [left; auto|]. rewrite <- E1. auto.
    + apply (dmem_false Z.eqb Z.eqb_eq) in D. cbn [r_links].
      rewrite IH by (cbn [r_links]; apply (dset_nodup Z.eqb Z.eqb_eq); auto). cbn [r_links].
      rewrite (dkeys_dset_new Z.eqb Z.eqb_eq) by auto. set (k := l_source_link_id l) in *. split.
      * intros (i & (b & a & E & I & Nb & O) & ->). exists i. split; auto. exists (k :: b), a. rewrite E.
        split; auto. split; [rewrite in_app_iff in I; rewrite !in_app_iff in *; cbn in *; tauto|]. split.
        -- constructor; auto. intros K. apply (O k K). rewrite in_app_iff; cbn; auto.
        -- intros j [<-|J]; auto. intros K. apply (O j J). rewrite in_app_iff. auto.
      * intros (i & (b & a & E & I & Nb & O) & ->). destruct b as [|j b]; cbn in E; injection E as E1 E2.
        -- exfalso. rewrite app_nil_r in I. apply D. rewrite E1. auto.
        -- subst j. inversion Nb as [|? ? N1 N2]; subst. exists i. split; auto. exists b, a. split; auto.
           split; [rewrite !in_app_iff in *; cbn in *; tauto|]. split; auto.
           intros j J K. rewrite in_app_iff in K. cbn in K. destruct K as [K|[<-|[]]]; auto.
           apply (O j); auto. right; auto.
Qed.

Theorem C93_repeated_link :
  forall links n x,
    exn_of (new_router_raises links n) = Some x <->
    exists i, first_again [] (map l_source_link_id links) i /\ x = AlreadyExistsE "link" (dec i).
Proof.
  intros links n x. rewrite <- (links_raise links (mkRouter [] n) x) by (cbn; constructor). unfold new_router_raises.
  destruct (add_links_raise (mkRouter [] n) links); cbn; split; congruence.
Qed.
Print Assumptions C93_repeated_link.

(** Adding chips: the first whose coordinates are taken is told, the chips before it are added. *)
Lemma chips_raise v cs : forall m x, made v m ->
  (snd (add_chips_raises m cs) = Some x <->
   exists a b, first_again (map c_xy (chips m)) (map c_xy cs) (a, b) /\
     x = AlreadyExistsE "chip" (cat [dec a; ", "; dec b])).
Proof.
  induction cs as [|c cs IH]; intros m x M; cbn [add_chips_raises map].
  - split; [discriminate|]. intros (a & b & (p & q & E & _) & _). destruct p; discriminate E.
  - pose proof (made_wf _ _ M) as W. pose proof (add_chip_wf m c W) as A. unfold add_chip_raises.
    destruct (dmem xy_eqb (m_chips m) (c_xy c)) eqn:D.
    + assert (E : add_chip m c = Err AlreadyExists) by (unfold add_chip; rewrite D; reflexivity).
      rewrite E. cbn [snd]. apply (dmem_in xy_eqb xyeqb_eq) in D. rewrite (keys_xy m W) in D. split.
      * intros H. injection H as <-. exists (c_x c), (c_y c). split; auto. exists [], (map c_xy cs).
        split; auto. split; [rewrite app_nil_r; auto|]. split; [constructor|intros ? []].
      * intros (a & b & (p & q & F & I & Nb & O) & ->). destruct p as [|j p]; cbn in F.
        -- injection F as <- <- _. reflexivity.
        -- injection F as F1 F2. exfalso. apply (O j); [left; auto|]. rewrite <- F1. auto.
    + assert (E : exists m', add_chip m c = Ok m').
      { unfold add_chip. rewrite D. destruct (c_ip c); eauto. }
      destruct E as (m' & E). rewrite E in A |- *. destruct A as (W' & C & _).
      assert (M' : made v m').
      { destruct M as (k & w & h & ccm & o & calls & ->). exists k, w, h, ccm, o, (calls ++ [CallAddChip c]).
        revert E. generalize (new_machine k w h ccm o) as m0. clear. induction calls as [|a calls IH]; intros m0 E; cbn in *.
        - rewrite E. reflexivity.
        - destruct (exec v m0 a) as [m1 e1]. specialize (IH m1). destruct (history v m1 calls) eqn:H1.
          destruct (history v m1 (calls ++ [CallAddChip c])). cbn in *. auto. }
      apply (dmem_false xy_eqb xyeqb_eq) in D. rewrite (keys_xy m W) in D.
      rewrite (IH m' x M'). rewrite C, map_app. cbn [map]. set (k := c_xy c) in *. split.
      * intros (a & b & (p & q & F & I & Nb & O) & ->). exists a, b. split; auto. exists (k :: p), q. rewrite F.
        split; auto. split; [rewrite !in_app_iff in *; cbn in *; tauto|]. split.
        -- constructor; auto. intros K. apply (O k K). rewrite in_app_iff; cbn; auto.
        -- intros j [<-|J]; auto. intros K. apply (O j J). rewrite in_app_iff. auto.
      * intros (a & b & (p & q & F & I & Nb & O) & ->). destruct p as [|j p]; cbn in F.
        -- exfalso. rewrite app_nil_r in I. apply D. replace k with (a, b); [auto|].
           apply (f_equal (fun l => hd (a, b) l)) in F. cbn in F. auto.
        -- injection F as F1 F2. subst j. inversion Nb as [|? ? N1 N2]; subst. exists a, b. split; auto. exists p, q. split; auto.
           split; [rewrite !in_app_iff in *; cbn in *; tauto|]. split; auto.
           intros j J K. rewrite in_app_iff in K. cbn in K. destruct K as [K|[<-|[]]]; auto.
           apply (O j); auto. right; auto.
Qed.

Theorem C93_repeated_chip :
  forall v m cs x, made v m ->
    (snd (add_chips_raises m cs) = Some x <->
     exists a b, first_again (map c_xy (chips m)) (map c_xy cs) (a, b) /\
       x = AlreadyExistsE "chip" (cat [dec a; ", "; dec b])).
Proof. intros v m cs x M. apply (chips_raise v). auto. Qed.
Print Assumptions C93_repeated_chip.

(** A key with a bit outside of the mask. *)
Theorem C93_key_outside_mask :
  forall key mask e x,
    exn_of (new_multicast_raises key mask e) = Some x <->
    (exists bit, 0 <= bit /\ Z.testbit key bit = true /\ Z.testbit mask bit = false) /\
    x = InvalidParameterE "key_mask_combo and mask" (cat [dec key; " and "; dec mask])
      "The key combo is changed when masked with the mask. This is determined to be an error in the tool chain. Please correct this and try again.".
Proof.
  intros key mask e x. unfold new_multicast_raises.
  assert (B : Z.land key mask <> key <-> exists bit, 0 <= bit /\ Z.testbit key bit = true /\ Z.testbit mask bit = false).
  { split.
    - intros N.
      assert (Q : Z.ldiff key mask <> 0).
      { intros Z0. apply N. apply Z.bits_inj'. intros n Hn. rewrite Z.land_spec.
        pose proof (f_equal (fun z => Z.testbit z n) Z0) as T. cbn beta in T. rewrite Z.ldiff_spec, Z.bits_0 in T.
        destruct (Z.testbit key n), (Z.testbit mask n); auto; discriminate T. }
      destruct (Z.lt_total (Z.ldiff key mask) 0) as [L|[L|L]]; [|contradiction|].
      + assert (K : key < 0 /\ 0 <= mask).
        { apply Z.ldiff_neg. auto. }
        destruct K as [K1 K2].
        exists (Z.max (Z.log2 (Z.pred (- key)) + 1) (Z.log2 mask + 1)).
        pose proof (Z.log2_nonneg mask). pose proof (Z.log2_nonneg (Z.pred (- key))).
        split; [lia|]. split.
        * apply Z.bits_above_log2_neg; [auto|lia].
        * apply Z.bits_above_log2; lia.
      + exists (Z.log2 (Z.ldiff key mask)). pose proof (Z.log2_nonneg (Z.ldiff key mask)). split; [lia|].
        pose proof (Z.bit_log2 _ L) as T. rewrite Z.ldiff_spec in T. apply andb_prop in T as [T1 T2].
        split; auto. destruct (Z.testbit mask _); auto.
    - intros (n & Hn & K & L) E. rewrite <- E in K. rewrite Z.land_spec, L, andb_false_r in K. discriminate K. }
  destruct (Z.eqb_spec (Z.land key mask) key) as [E|E]; cbn [negb exn_of].
  - split; [discriminate|]. intros [X _]. apply B in X. contradiction.
  - split.
    + intros H. split; [apply B; auto|]. congruence.
    + intros [_ ->]. reflexivity.
Qed.
Print Assumptions C93_key_outside_mask.

Lemma hex_lower n : 0 <= n -> hex_text (lower (hex n)) n.
Proof.
  intros H. exists (hex n). split; auto. unfold hex.
  destruct (hex_digits_numeral (Z.to_nat (Z.log2 n)) n "") as (s & E & N & L1 & L2).
  { split; auto. rewrite Z2Nat.id by apply Z.log2_nonneg. destruct (Z.eq_dec n 0) as [->|X]; [reflexivity|].
    apply Z.log2_spec. lia. }
  rewrite E, app_nil_s. split; auto.
Qed.

Lemma hex_text_of s n : 0 <= n -> hex_text s n -> s = lower (hex n).
Proof.
  intros H (u & -> & U). destruct (hex_lower n H) as (u' & E & U'). rewrite E. f_equal. eapply hex_in_text; eauto.
Qed.

(** Merging entries of other keys or masks: the key first.  The number of [other] is told and that of
    the entry itself; a minus comes before the 0x of the one and after that of the other. *)
Theorem C93_merge :
  forall a b x key_a mask_a key_b mask_b ea eb,
    value_of (new_multicast_raises key_a mask_a ea) = Some a ->
    value_of (new_multicast_raises key_b mask_b eb) = Some b ->
    (exn_of (mc_merge_raises a b) = Some x <->
     exists what here there digits_here digits_there,
       (what = "key" /\ key_a <> key_b /\ here = key_a /\ there = key_b \/
        what = "mask" /\ key_a = key_b /\ mask_a <> mask_b /\ here = mask_a /\ there = mask_b) /\
       hex_text digits_here (Z.abs here) /\ hex_text digits_there (Z.abs there) /\
       x = InvalidParameterE ("other." ++ what)
             (cat [if there <? 0 then "-0x" else "0x"; digits_there])
             (cat ["The "; what; " does not match 0x"; if here <? 0 then "-" else ""; digits_here])).
Proof.
  intros a b x ka ma kb mb ea eb A B.
  assert (KA : mc_key a = ka /\ mc_mask a = ma).
  { unfold new_multicast_raises in A. destruct (negb (Z.land ka ma =? ka)); [discriminate A|]. injection A as <-. auto. }
  assert (KB : mc_key b = kb /\ mc_mask b = mb).
  { unfold new_multicast_raises in B. destruct (negb (Z.land kb mb =? kb)); [discriminate B|]. injection B as <-. auto. }
  destruct KA as [Ka Ma], KB as [Kb Mb]. unfold mc_merge_raises. rewrite Ka, Ma, Kb, Mb.
  destruct (Z.eqb_spec kb ka) as [K|K]; cbn [negb].
  - destruct (Z.eqb_spec mb ma) as [Q|Q]; cbn [negb].
    + split.
      * assert (O : exists e, entry_merge (mc_entry a) (mc_entry b) = Ok e).
        { unfold entry_merge. destruct (entry_eqb _ _); [eauto|]. unfold new_entry. eauto. }
        destruct O as (e & ->). unfold new_multicast_raises in *. destruct (Z.land ka ma =? ka); cbn in *; [discriminate|discriminate A].
      * intros (w & h & t & dh & dt & [(_ & N & _)|(_ & _ & N & _)] & _); exfalso; congruence.
    + cbn [exn_of]. split.
      * intros H. injection H as <-. exists "mask", ma, mb, (lower (hex (Z.abs ma))), (lower (hex (Z.abs mb))).
        split; [right; repeat split; auto|]. split; [apply hex_lower; lia|]. split; [apply hex_lower; lia|].
        unfold py_hex, format_x; destruct (mb <? 0); words.
      * intros (w & h & t & dh & dt & [(_ & N & _)|(-> & _ & _ & -> & ->)] & D1 & D2 & ->); [exfalso; congruence|].
        apply hex_text_of in D1; [|lia]. apply hex_text_of in D2; [|lia]. subst dh dt.
        unfold py_hex, format_x; destruct (mb <? 0); words.
  - cbn [exn_of]. split.
    + intros H. injection H as <-. exists "key", ka, kb, (lower (hex (Z.abs ka))), (lower (hex (Z.abs kb))).
      split; [left; repeat split; auto|]. split; [apply hex_lower; lia|]. split; [apply hex_lower; lia|].
      unfold py_hex, format_x; destruct (kb <? 0); words.
    + intros (w & h & t & dh & dt & [(-> & _ & -> & ->)|(_ & N & _)] & D1 & D2 & ->); [|exfalso; congruence].
      apply hex_text_of in D1; [|lia]. apply hex_text_of in D2; [|lia]. subst dh dt.
      unfold py_hex, format_x; destruct (kb <? 0); words.
Qed.
Print Assumptions C93_merge.

(** The texts of these exceptions, str(x). *)
Ltac same_text :=
  unfold cat; cbn; rewrite ?app_assoc_s; try reflexivity; cbn; rewrite ?app_assoc_s, ?app_nil_s; try reflexivity;
  cbn; rewrite ?app_assoc_s, ?app_nil_s; reflexivity.
Theorem C93_texts :
  (forall links n x, exn_of (new_router_raises links n) = Some x ->
     exists i, first_again [] (map l_source_link_id links) i /\
       raised_text x = cat ["There can only be one link with a value of "; dec i]) /\
  (forall v m cs x, made v m -> snd (add_chips_raises m cs) = Some x ->
     exists a b, first_again (map c_xy (chips m)) (map c_xy cs) (a, b) /\
       raised_text x = cat ["There can only be one chip with a value of "; dec a; ", "; dec b]) /\
  (forall key mask e x, exn_of (new_multicast_raises key mask e) = Some x ->
     raised_text x = cat ["It is invalid to set key_mask_combo and mask to "; dec key; " and "; dec mask; ": The key combo is changed when masked with the mask. This is determined to be an error in the tool chain. Please correct this and try again."]) /\
  (forall a b x key_a mask_a key_b mask_b ea eb,
     value_of (new_multicast_raises key_a mask_a ea) = Some a ->
     value_of (new_multicast_raises key_b mask_b eb) = Some b ->
     exn_of (mc_merge_raises a b) = Some x ->
     exists what here there digits_here digits_there,
       (what = "key" /\ key_a <> key_b /\ here = key_a /\ there = key_b \/
        what = "mask" /\ key_a = key_b /\ mask_a <> mask_b /\ here = mask_a /\ there = mask_b) /\
       hex_text digits_here (Z.abs here) /\ hex_text digits_there (Z.abs there) /\
       raised_text x = cat ["It is invalid to set other."; what; " to "; if there <? 0 then "-0x" else "0x"; digits_there;
         ": The "; what; " does not match 0x"; if here <? 0 then "-" else ""; digits_here]).
Proof.
  split; [|split; [|split]].
  - intros links n x H. apply C93_repeated_link in H as (i & F & ->). exists i. split; [auto|]. same_text.
  - intros v m cs x M H. apply (C93_repeated_chip v m cs x M) in H as (a & b & F & ->). exists a, b. split; [auto|]. same_text.
  - intros key mask e x H. apply C93_key_outside_mask in H as (_ & ->). same_text.
  - intros a b x ka ma kb mb ea eb A B H.
    apply (C93_merge a b x ka ma kb mb ea eb A B) in H as (what & here & there & dh & dt & C & DH & DT & ->).
    exists what, here, there, dh, dt. split; [auto|]. split; [auto|]. split; [auto|]. same_text.
Qed.
Print Assumptions C93_texts.

Example C93_case :
  (* the links 1, 2, 1 of a router *)
  exn_of (new_router_raises [mkLink 0 0 1 1 1; mkLink 0 0 2 0 1; mkLink 0 0 1 2 2; mkLink 0 0 2 0 1] 1023) =
    Some (AlreadyExistsE "link" "1") /\
  first_again [] [1; 2; 1; 2] 1 /\
  raised_text (AlreadyExistsE "link" "1") = "There can only be one link with a value of 1" /\
  (* the chip of [demo] at 1, 0 again *)
  made V5 demo /\
  (exists c, get_chip_at demo 1 0 = Some c /\
     snd (add_chips_raises demo [c; c]) = Some (AlreadyExistsE "chip" "1, 0")) /\
  (* bit 1 of the key 6 is not in the mask 5 *)
  option_map raised_text (exn_of (new_multicast_raises 6 5 (mkEntry false None None 64))) =
    Some "It is invalid to set key_mask_combo and mask to 6 and 5: The key combo is changed when masked with the mask. This is determined to be an error in the tool chain. Please correct this and try again." /\
  (* other keys, other masks *)
  (let e := mkEntry false None None 64 in
   value_of (new_multicast_raises 171 4095 e) = Some (mkMulticast 171 4095 e) /\
   value_of (new_multicast_raises (-5) (-1) e) = Some (mkMulticast (-5) (-1) e) /\
   option_map raised_text (exn_of (mc_merge_raises (mkMulticast 171 4095 e) (mkMulticast (-5) (-1) e))) =
     Some "It is invalid to set other.key to -0x5: The key does not match 0xab" /\
   option_map raised_text (exn_of (mc_merge_raises (mkMulticast (-5) (-1) e) (mkMulticast (-5) (-5) e))) =
     Some "It is invalid to set other.mask to -0x5: The mask does not match 0x-1" /\
   hex_text "ab" 171).
Proof.
  split; [vm_compute; reflexivity|]. split.
  { exists [1; 2], [2]. split; auto. split; [cbn; auto|]. split; [|intros ? _ []].
    repeat constructor; cbn; intros K; repeat destruct K as [K|K]; try discriminate K; auto. }
  split; [reflexivity|]. split; [apply demo_made|]. split.
  { assert (H : match get_chip_at demo 1 0 with
                | Some c => snd (add_chips_raises demo [c; c]) = Some (AlreadyExistsE "chip" "1, 0")
                | None => False end) by (vm_compute; reflexivity).
    destruct (get_chip_at demo 1 0) as [c|]; [|destruct H]. eauto. }
  split; [vm_compute; reflexivity|]. repeat split; try (vm_compute; reflexivity).
  change "ab" with (lower (hex 171)). apply hex_lower. lia.
Qed.
