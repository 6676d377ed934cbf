From Coq Require Import Lia ZifyBool Permutation Sorted DecimalString DecimalZ.
From Verif Require Import Model_Py Model_Wrap Model_Float Model_Geometry Model_Version Model_Core
  Model_Machine Model_Str Model_Ignore Model_Virtual
  Spec_Hops Spec_Board Spec_Version Spec_Machine Spec_Str Spec_Virtual
  Proof_Wrap Proof_Py Proof_Board Proof_Version Proof_Machine Proof_Report Proof_Str.
Open Scope list_scope.
Open Scope Z_scope.

(** ** Addresses *)
Lemma dec_inj a b : dec a = dec b -> a = b.
Proof.
  unfold dec. intros E.
  assert (forall z, NilZero.int_of_string (NilZero.string_of_int (Z.to_int z)) = Some (Z.to_int z)) as K.
  { intros z. apply NilZero.isi; destruct z as [|p|p]; cbn; try discriminate;
    intros X; injection X as X; apply (DecimalPos.Unsigned.to_uint_nonnil p); auto. }
  pose proof (K a) as A. rewrite E, K in A. injection A as A.
  rewrite <- (DecimalZ.of_to a), <- (DecimalZ.of_to b). congruence.
Qed.

Lemma uint_digits u : every digit_char (NilEmpty.string_of_uint u).
Proof. induction u; cbn; auto; split; auto; unfold digit_char; vm_compute; lia. Qed.

Lemma dec_chars n : without "." (dec n).
Proof.
  assert (forall u, without "." (NilZero.string_of_uint u)) as K.
  { intros u. unfold NilZero.string_of_uint.
    assert (without "." (NilEmpty.string_of_uint u)) as E.
    { eapply every_impl; [|apply uint_digits]. intros c H ->. unfold digit_char in H. cbn in H. lia. }
    destruct u; auto. cbn. split; [discriminate|auto]. }
  unfold dec. destruct (Z.to_int n); cbn [NilZero.string_of_int]; auto.
  cbn. split; [discriminate|]. apply K.
Qed.

Lemma virtual_ip_inj x y x' y' : virtual_ip x y = virtual_ip x' y' -> x = x' /\ y = y'.
Proof.
  unfold virtual_ip. cbn [append]. intros E. injection E as E.
  apply (f_equal (split_on ".")) in E. rewrite !split_app in E by apply dec_chars.
  rewrite !split_without in E by apply dec_chars. injection E as E1 E2.
  split; apply dec_inj; auto.
Qed.

Lemma virtual_ip_nonempty x y : virtual_ip x y <> EmptyString.
Proof. discriminate. Qed.

(** ** Boards *)
Lemma xys_red ccm k w h ex ey :
  get_xys_by_ethernet ccm k w h ex ey = map (fun d => red k w h (vadd d (ex, ey))) (dkeys ccm).
Proof. destruct k; reflexivity. Qed.

Lemma xy_cores_red ccm k w h ex ey :
  get_xy_cores_by_ethernet ccm k w h ex ey =
  map (fun e => (red k w h (vadd (fst e) (ex, ey)), snd e)) ccm.
Proof. destruct k; reflexivity. Qed.

Definition spot (v : vid) (w h : Z) (d e : XY) : XY :=
  red (machine_class v w h) w h (vadd d e).

Lemma good_supported v w h : supported v w h -> good_size (machine_class v w h) w h.
Proof.
  intros S. destruct v.
  - destruct S as [-> ->]. split; cbn; lia.
  - apply good_size48; auto.
  - destruct S as [-> ->]. split; cbn; lia.
  - apply good_size48; auto.
Qed.

Lemma supported_pos v w h : supported v w h -> 0 < w /\ 0 < h.
Proof.
  intros S. destruct v.
  - destruct S. lia.
  - apply size48_pos in S. lia.
  - destruct S. lia.
  - apply size48_pos in S. lia.
Qed.

(** The facts about the boards of a machine that the rest uses. *)
Record layout (v : vid) (w h : Z) (eths : list XY) : Prop := mkLayout {
  lay_eths : get_potential_ethernet_chips v w h = Ok eths;
  lay_nodup : NoDup eths;
  lay_origin : forall e, In e eths <-> board_origin v w h e;
  lay_zero : In (0, 0) eths;
  lay_inside : forall e d, In e eths -> In d (expected_xys v) -> inside w h (spot v w h d e);
  lay_inj : forall e e' d d', In e eths -> In e' eths -> In d (expected_xys v) ->
     In d' (expected_xys v) -> spot v w h d e = spot v w h d' e' -> d = d' /\ e = e';
  lay_self : forall e, In e eths -> spot v w h (0, 0) e = e;
  lay_legal : forall e, In e eths -> legal_ethernet v (fst e) (snd e)
}.

Lemma zero_expected v : In (0, 0) (expected_xys v).
Proof. destruct v; vm_compute; auto. Qed.

Lemma layout48 v w h : v = V5 \/ v = V248 -> size48 w h -> exists eths, layout v w h eths.
Proof.
  intros Hv S. destruct (get_potential_ethernet_chips v w h) as [eths|e] eqn:E.
  2: { rewrite (potential_eq v w h Hv S) in E. discriminate. }
  pose proof (potential_spec' v w h eths Hv S E) as P.
  exists eths. split; auto.
  - apply (potential_nodup v w h); auto.
  - intros e. rewrite P. destruct Hv as [-> | ->]; reflexivity.
  - apply P. split.
    + split; cbn; [exists 0|exists 0]; lia.
    + apply size48_pos in S. unfold board_fits, inside. cbn. lia.
  - intros e d He Hd. apply P in He as [_ He]. apply (board48 v Hv) in Hd.
    apply fits_red_inside; auto.
  - intros e e' d d' He He' Hd Hd' X. apply P in He as [T [I _]]. apply P in He' as [T' [I' _]].
    apply (board48 v Hv) in Hd. apply (board48 v Hv) in Hd'.
    apply (board_inj v w h e e' d d'); auto.
  - intros e He. apply P in He as [_ [I _]]. unfold spot.
    replace (vadd (0, 0) e) with e by (destruct e; cbn; auto).
    apply red_canon. apply inside_canonical. auto.
  - intros e He. apply P in He as [[T1 T2] _]. cbn [fst snd] in T1, T2. rewrite Z.sub_0_r in T1; repeat rewrite Z.sub_0_r in T2.
    destruct Hv as [-> | ->]; cbn; auto.
Qed.

Lemma layout_exists v w h : supported v w h -> exists eths, layout v w h eths.
Proof.
  intros S. destruct v.
  - destruct S as [-> ->]. exists [(0, 0)]. split; cbn; auto.
    + repeat constructor. intros [].
    + intros e. split; [intros [<-|[]]; auto|intros ->; auto].
    + intros e d [<-|[]] Hd. vm_compute in Hd.
      destruct Hd as [<-|[<-|[<-|[<-|[]]]]]; vm_compute; intuition congruence.
    + intros e e' d d' [<-|[]] [<-|[]] Hd Hd'. vm_compute in Hd, Hd'.
      destruct Hd as [<-|[<-|[<-|[<-|[]]]]]; destruct Hd' as [<-|[<-|[<-|[<-|[]]]]];
        vm_compute; intros X; try discriminate; auto.
    + intros e [<-|[]]. reflexivity.
    + intros e [<-|[]]. auto.
  - apply layout48; auto.
  - destruct S as [-> ->]. exists [(0, 0)]. split; cbn; auto.
    + repeat constructor. intros [].
    + intros e. split; [intros [<-|[]]; auto|intros ->; auto].
    + intros e d [<-|[]] Hd. vm_compute in Hd.
      destruct Hd as [<-|[]]; vm_compute; intuition congruence.
    + intros e e' d d' [<-|[]] [<-|[]] Hd Hd'. vm_compute in Hd, Hd'.
      destruct Hd as [<-|[]]; destruct Hd' as [<-|[]]; auto.
    + intros e [<-|[]]. reflexivity.
    + intros e [<-|[]]. auto.
  - apply layout48; auto.
Qed.

Lemma lands_spot v w h d e p : supported v w h ->
  lands v w h d e p <-> p = spot v w h d e /\ inside w h p.
Proof.
  intros S. pose proof (class_should_wrap v w h S) as [Cx Cy].
  pose proof (supported_pos v w h S) as [Pw Ph].
  unfold lands, spot, red, inside. destruct p as [x y]. cbn [fst snd vadd].
  assert (forall b s n q z, 0 < n -> (b = true <-> s) -> 0 <= z < n ->
    ((s -> (n | q - z)) /\ (~ s -> z = q) <-> z = if b : bool then q mod n else q)) as K.
  { intros b s n q z Pn B Z1. destruct b.
    - assert s as Hs by (apply B; auto). split.
      + intros [H _]. destruct (H Hs) as [t Ht]. replace q with (z + t * n) by lia.
        rewrite Z.mod_add by lia. symmetry. apply Z.mod_small. lia.
      + intros ->. split; [|tauto]. intros _. exists (q / n). pose proof (Z.div_mod q n). lia.
    - assert (~ s) as Hs by (intros X; apply B in X; discriminate). split.
      + intros [_ H]. auto.
      + intros ->. split; [tauto|auto]. }
  split.
  - intros ([I1 I2] & A1 & A2 & B1 & B2). split; [|auto].
    apply pair_eq.
    + apply (K _ _ w (fst d + fst e) x Pw Cx); auto.
    + apply (K _ _ h (snd d + snd e) y Ph Cy); auto.
  - intros [E I]. split; auto. injection E as Ex Ey.
    apply (K _ _ w (fst d + fst e) x Pw Cx) in Ex; [|tauto].
    apply (K _ _ h (snd d + snd e) y Ph Cy) in Ey; tauto.
Qed.

(** ** The configured chips *)
Definition entries_of (v : vid) (w h : Z) (unused : list XY) (mx : Z) (e : XY)
  : dict XY (XY * Z) :=
  flat_map (fun dn => if xymem unused (spot v w h (fst dn) e) then []
                      else [(spot v w h (fst dn) e, (e, Z.min (snd dn) mx))]) (chip_core_map v).

Definition conf_list (v : vid) (w h : Z) (unused : list XY) (mx : Z) (eths : list XY)
  : dict XY (XY * Z) := flat_map (entries_of v w h unused mx) eths.

Lemma dkeys_app {K V} (a b : dict K V) : dkeys (a ++ b) = dkeys a ++ dkeys b.
Proof. apply map_app. Qed.

Lemma nodup_app_l {A} (a b : list A) : NoDup (a ++ b) -> NoDup a.
Proof. induction a as [|x a IH]; intros H; [constructor|]. inversion H; subst.
  constructor; auto. intros X. apply H2. apply in_or_app. auto. Qed.

Lemma nodup_app_notin {A} (a b : list A) x : NoDup (a ++ x :: b) -> ~ In x a.
Proof. intros H X. apply NoDup_remove_2 in H. apply H. apply in_or_app. auto. Qed.

Lemma cond_fill {A} (key : A -> XY) (val : A -> XY * Z) (skip : A -> bool) l :
  forall d, NoDup (dkeys (d ++ flat_map (fun a => if skip a then [] else [(key a, val a)]) l)) ->
  fold_left (fun d a => if skip a then d else dset xy_eqb d (key a) (val a)) l d =
  d ++ flat_map (fun a => if skip a then [] else [(key a, val a)]) l.
Proof.
  induction l as [|a l IH]; intros d N; cbn; [symmetry; apply app_nil_r|].
  cbn in N. destruct (skip a).
  - apply IH. exact N.
  - rewrite (dset_new xy_eqb xyeqb_eq).
    + rewrite IH; rewrite <- app_assoc; auto.
    + cbn in N. rewrite dkeys_app in N. cbn in N. apply nodup_app_notin in N. auto.
Qed.

Lemma conf_eq v w h unused mx eths o :
  NoDup (dkeys (conf_list v w h unused mx eths)) ->
  configured_chips (new_machine (machine_class v w h) w h (chip_core_map v) o) unused mx eths =
  conf_list v w h unused mx eths.
Proof.
  intros N. unfold configured_chips, conf_list in *.
  cut (forall d, NoDup (dkeys (d ++ flat_map (entries_of v w h unused mx) eths)) ->
    fold_left (configure_board (new_machine (machine_class v w h) w h (chip_core_map v) o) unused mx)
      eths d = d ++ flat_map (entries_of v w h unused mx) eths).
  { intros H. apply (H []). exact N. }
  clear N. induction eths as [|e eths IH]; intros d N; cbn [fold_left flat_map];
    [symmetry; apply app_nil_r|].
  cbn [flat_map] in N.
  assert (configure_board (new_machine (machine_class v w h) w h (chip_core_map v) o) unused mx d e
          = d ++ entries_of v w h unused mx e) as E.
  { unfold configure_board, m_xy_cores. cbn [m_ccm m_kind m_width m_height new_machine].
    rewrite xy_cores_red. unfold entries_of.
    set (f := fun (d0 : dict XY (XY * Z)) (e0 : XY * Z) =>
       let '(xy, n) := e0 in if xymem unused xy then d0 else dset xy_eqb d0 xy (e, Z.min n mx)).
    assert (forall l d, fold_left f (map (fun e0 => (red (machine_class v w h) w h
        (vadd (fst e0) (fst e, snd e)), snd e0)) l) d =
      fold_left (fun d a => if xymem unused (spot v w h (fst a) e) then d
        else dset xy_eqb d (spot v w h (fst a) e) (e, Z.min (snd a) mx)) l d) as F.
    { induction l as [|a l IHl]; intros d'; cbn [fold_left map]; [reflexivity|].
      etransitivity; [apply IHl|]. f_equal. }
    rewrite F.
    apply (cond_fill (fun a => spot v w h (fst a) e) (fun a => (e, Z.min (snd a) mx))
             (fun a => xymem unused (spot v w h (fst a) e))).
    rewrite app_assoc in N. rewrite dkeys_app in N. apply nodup_app_l in N. exact N. }
  rewrite E, IH by (rewrite <- app_assoc; exact N). rewrite <- app_assoc. reflexivity.
Qed.

Lemma in_conf v w h unused mx eths p e n :
  In (p, (e, n)) (conf_list v w h unused mx eths) <->
  In e eths /\ exists d k, In (d, k) (chip_core_map v) /\ p = spot v w h d e /\
    n = Z.min k mx /\ ~ In p unused.
Proof.
  unfold conf_list, entries_of. rewrite in_flat_map. split.
  - intros (e' & He & H). apply in_flat_map in H as ([d k] & Hd & H). cbn [fst snd] in H.
    destruct (xymem unused (spot v w h d e')) eqn:X; [destruct H|].
    destruct H as [H|[]]. injection H as <- <- <-. split; auto. exists d, k. repeat split; auto.
    intros Y. apply xymem_in in Y. congruence.
  - intros (He & d & k & Hd & -> & -> & N). exists e. split; auto. apply in_flat_map.
    exists (d, k). split; auto. cbn [fst snd].
    destruct (xymem unused (spot v w h d e)) eqn:X; [apply xymem_in in X; tauto|left; auto].
Qed.

Lemma expected_in v d : In d (expected_xys v) <-> exists k, In (d, k) (chip_core_map v).
Proof.
  unfold expected_xys, dkeys. rewrite in_map_iff. split.
  - intros ([d' k] & <- & H). eauto.
  - intros [k H]. exists (d, k). auto.
Qed.

Lemma conf_nodup v w h unused mx eths : layout v w h eths ->
  NoDup (dkeys (conf_list v w h unused mx eths)).
Proof.
  intros L.
  assert (forall e, dkeys (entries_of v w h unused mx e) =
    filter (fun p => negb (xymem unused p)) (map (fun d => spot v w h d e) (expected_xys v))) as K.
  { intros e. unfold entries_of, expected_xys. generalize (chip_core_map v) as l.
    induction l as [|[d k] l IH]; [reflexivity|].
    change (dkeys ((d, k) :: l)) with (d :: dkeys l). cbn [flat_map map filter fst snd].
    rewrite dkeys_app, IH.
    destruct (xymem unused (spot v w h d e)); reflexivity. }
  assert (forall l, dkeys (flat_map (entries_of v w h unused mx) l) =
    flat_map (fun e => filter (fun p => negb (xymem unused p))
      (map (fun d => spot v w h d e) (expected_xys v))) l) as F.
  { induction l as [|e l IH]; cbn [flat_map]; auto. rewrite dkeys_app, IH, K. auto. }
  unfold conf_list. rewrite F. apply nodup_flat_map.
  - apply L.
  - intros e He. apply NoDup_filter.
    assert (forall l, NoDup l -> (forall d, In d l -> In d (expected_xys v)) ->
      NoDup (map (fun d => spot v w h d e) l)) as M.
    { induction l as [|d l IH]; intros N S; [constructor|]. inversion N; subst. cbn. constructor.
      - intros X. apply in_map_iff in X as (d' & E & X).
        apply (lay_inj v w h eths L e e) in E as [-> _]; auto; apply S; cbn; auto.
      - apply IH; auto. intros; apply S; cbn; auto. }
    apply M; auto. apply expected_nodup.
  - intros e e' p He He' H H'. apply filter_In in H as [H _]. apply filter_In in H' as [H' _].
    apply in_map_iff in H as (d & Ed & Hd). apply in_map_iff in H' as (d' & Ed' & Hd').
    apply (lay_inj v w h eths L e e' d d'); auto. congruence.
Qed.

(** ** Links and routers *)
Definition vlinks_from (m : machine) (unused : list (Z * Z * Z)) (conf : dict XY (XY * Z)) (xy : XY)
  (ls : list Z) : list link :=
  flat_map (fun l =>
    let d := red (m_kind m) (m_width m) (m_height m) (vadd xy (link_vec l)) in
    if link_mem unused (fst xy, snd xy, l) then []
    else if dmem xy_eqb conf d then [mkLink (fst xy) (snd xy) l (fst d) (snd d)] else []) ls.

Lemma calculate_eq m unused conf xy : good_size (m_kind m) (m_width m) (m_height m) ->
  calculate_links m unused conf xy = Ok (vlinks_from m unused conf xy (zrange 0 6)).
Proof.
  intros G. unfold calculate_links, vlinks_from.
  assert (forall ls acc, Forall (fun l => 0 <= l < 6) ls ->
    fold_res (fun links l =>
    if link_mem unused (fst xy, snd xy, l) then Ok links
    else
      do d <- m_over m (fst xy) (snd xy) l ;
      if dmem xy_eqb conf d
      then Ok (links ++ [mkLink (fst xy) (snd xy) l (fst d) (snd d)])
      else Ok links) ls acc = Ok (acc ++ flat_map (fun l =>
    let d := red (m_kind m) (m_width m) (m_height m) (vadd xy (link_vec l)) in
    if link_mem unused (fst xy, snd xy, l) then []
    else if dmem xy_eqb conf d then [mkLink (fst xy) (snd xy) l (fst d) (snd d)] else []) ls)) as K.
  { induction ls as [|l ls IH]; intros acc F; cbn [fold_res flat_map].
    - rewrite app_nil_r. auto.
    - inversion F; subst. unfold m_over. rewrite over_red by auto.
      replace (vadd (fst xy, snd xy) (link_vec l)) with (vadd xy (link_vec l)) by (destruct xy; auto).
      destruct (link_mem unused (fst xy, snd xy, l)); cbn [bind app]; [apply IH; auto|].
      destruct (dmem xy_eqb conf _); cbn [bind]; rewrite IH by auto; cbn [app]; auto.
      rewrite <- app_assoc. auto. }
  rewrite K; [reflexivity|]. apply Forall_forall. intros l H. apply in_zrange in H. lia.
Qed.

Lemma router_eq links n : NoDup (map l_source_link_id links) ->
  new_router links n = Ok (mkRouter (map (fun l => (l_source_link_id l, l)) links) n).
Proof.
  intros N. unfold new_router.
  cut (forall d, NoDup (dkeys d ++ map l_source_link_id links) ->
    fold_res router_add_link links (mkRouter d n) =
    Ok (mkRouter (d ++ map (fun l => (l_source_link_id l, l)) links) n)).
  { intros H. apply (H []). exact N. }
  clear N. induction links as [|l links IH]; intros d N; cbn [fold_res map].
  - rewrite app_nil_r. auto.
  - cbn [map] in N. unfold router_add_link at 1. cbn [r_links r_entries].
    pose proof (nodup_app_notin _ _ _ N) as NI.
    assert (dmem Z.eqb d (l_source_link_id l) = false) as ->
      by (apply (dmem_false Z.eqb Z.eqb_eq); auto).
    cbn [bind]. rewrite (dset_new Z.eqb Z.eqb_eq) by auto.
    rewrite IH.
    + rewrite <- app_assoc. reflexivity.
    + unfold dkeys in *. rewrite map_app, <- app_assoc. exact N.
Qed.

Lemma vlinks_nodup m unused conf xy ls : NoDup ls ->
  NoDup (map l_source_link_id (vlinks_from m unused conf xy ls)) /\
  forall l, In l (vlinks_from m unused conf xy ls) -> In (l_source_link_id l) ls.
Proof.
  unfold vlinks_from. induction ls as [|l ls IH]; intros N; cbn [flat_map map].
  - split; [constructor|intros l []].
  - inversion N as [|? ? NI N']; subst. destruct (IH N') as [I1 I2].
    destruct (link_mem unused (fst xy, snd xy, l)); cbn [app map];
      [split; auto; intros k Hk; right; apply I2; exact Hk|].
    destruct (dmem xy_eqb conf _); cbn [app map].
    + split.
      * constructor; auto. intros X. apply NI. apply in_map_iff in X as (k & E & X).
        cbn [l_source_link_id] in E. rewrite <- E. apply I2. exact X.
      * intros k [<-|Hk]; [left; auto|right; apply I2; exact Hk].
    + split; auto; intros k Hk; right; apply I2; exact Hk.
Qed.

(** ** Cores *)
Lemma in_list_remove l x y : NoDup l -> In y (list_remove l x) <-> In y l /\ y <> x.
Proof.
  induction l as [|z l IH]; intros N; cbn; [tauto|]. inversion N; subst.
  destruct (Z.eqb_spec z x) as [->|E].
  - split; [intros H; split; auto; intros ->; tauto|intros [[->|H] X]; tauto].
  - cbn. rewrite IH by auto. split; [intros [->|[H X]]; auto|intros [[->|H] X]; auto].
Qed.

Lemma list_remove_sorted l x : StronglySorted Z.lt l -> StronglySorted Z.lt (list_remove l x).
Proof.
  induction l as [|z l IH]; intros S; cbn; auto. inversion S; subst.
  destruct (z =? x); auto. constructor; auto.
  apply Forall_forall. intros y Hy. rewrite Forall_forall in H2. apply H2.
  clear - Hy. revert Hy. induction l as [|a l IH]; cbn; auto. destruct (a =? x); auto.
  intros [->|H]; auto.
Qed.

Lemma sorted_nodup l : StronglySorted Z.lt l -> NoDup l.
Proof.
  induction 1; constructor; auto. intros X. rewrite Forall_forall in H0. specialize (H0 _ X). lia.
Qed.

Lemma remove_all down : forall l, StronglySorted Z.lt l ->
  let r := fold_left (fun cores p => if zmem cores p then list_remove cores p else cores) down l in
  StronglySorted Z.lt r /\ forall y, In y r <-> In y l /\ ~ In y down.
Proof.
  induction down as [|p down IH]; intros l S; cbn [fold_left].
  - split; auto. intros y. cbn. tauto.
  - destruct (zmem l p) eqn:M.
    + destruct (IH (list_remove l p) (list_remove_sorted l p S)) as [S' I].
      split; auto. intros y. rewrite I, in_list_remove by (apply sorted_nodup; auto). cbn. intuition.
    + destruct (IH l S) as [S' I]. split; auto. intros y. rewrite I. cbn.
      apply zmem_false in M. split; [intros [A B]; split; auto; intros [->|C]; auto|tauto].
Qed.

(** ** The down cores *)
Lemma zset_in s a x : In x (set_add Z.eqb s a) <-> In x s \/ x = a.
Proof. apply set_add_in. intros. apply Z.eqb_eq. Qed.

Lemma unused_cores_spec items :
  ((exists i, In i items /\ ico_ip i = None /\ ico_p i < -17) /\
     virtual_unused_cores items = Err KeyError) \/
  ((forall i, In i items -> ico_ip i = None -> -17 <= ico_p i) /\
   exists d, virtual_unused_cores items = Ok d /\
     forall x y p, In p (match dget xy_eqb d (x, y) with Some s => s | None => [] end) <->
       core_down items x y p).
Proof.
  assert (forall i, (ico_p i < -17 /\ virtual_p i = Err KeyError) \/
                    (-17 <= ico_p i /\ exists p, virtual_p i = Ok p)) as VP.
  { intros i. unfold virtual_p. destruct (Z.lt_ge_cases (ico_p i) (-17)) as [H|H].
    - left. split; auto. destruct (Z.gtb_spec (ico_p i) 0); [lia|].
      unfold dgetitem. destruct (dget Z.eqb TYPICAL_PHYSICAL_VIRTUAL_MAP (0 - ico_p i)) eqn:G; auto.
      apply (dget_in Z.eqb Z.eqb_eq) in G.
      unfold TYPICAL_PHYSICAL_VIRTUAL_MAP in G. cbn [In] in G. decompose [or] G; try contradiction;
      match goal with X : (_, _) = (_, _) |- _ => injection X; intros; lia end.
    - right. split; auto. destruct (Z.gtb_spec (ico_p i) 0); [eauto|].
      assert (In (ico_p i) (zrange (-17) 1)) as I by (apply in_zrange; lia).
      revert I. generalize (ico_p i). intros q I.
      vm_compute in I. decompose [or] I; try contradiction; subst q; eexists; reflexivity. }
  unfold virtual_unused_cores.
  set (f := fun (d : dict XY (list Z)) c => match ico_ip c with
    | None => do p <- virtual_p c ;
        let old := match dget xy_eqb d (ico_x c, ico_y c) with Some s => s | None => [] end in
        Ok (dset xy_eqb d (ico_x c, ico_y c) (set_add Z.eqb old p))
    | Some _ => Ok d end).
  assert (forall l d0,
   ((exists i, In i l /\ ico_ip i = None /\ ico_p i < -17) /\ fold_res f l d0 = Err KeyError) \/
   ((forall i, In i l -> ico_ip i = None -> -17 <= ico_p i) /\
   exists d, fold_res f l d0 = Ok d /\
     forall x y p, In p (match dget xy_eqb d (x, y) with Some s => s | None => [] end) <->
       In p (match dget xy_eqb d0 (x, y) with Some s => s | None => [] end) \/
       core_down l x y p)) as K.
  { induction l as [|i l IH]; intros d0; cbn [fold_res].
    - right. split; [intros i []|]. exists d0. split; auto. intros x y p. split; auto.
      intros [H|(i & [] & _)]; auto.
    - unfold f at 1 3. destruct (ico_ip i) as [a|] eqn:IP; cbn [bind].
      + destruct (IH d0) as [[(j & Hj & A & B) E]|[A (d & E & D)]].
        * left. split; auto. exists j. cbn. auto.
        * right. split; [intros j [<-|Hj]; auto; congruence|]. exists d. split; auto.
          intros x y p. rewrite D. unfold core_down. split.
          -- intros [H|(j & Hj & R)]; auto. right. exists j. cbn. auto.
          -- intros [H|(j & [<-|Hj] & R)]; auto; [destruct R; congruence|]. right. exists j. auto.
      + destruct (VP i) as [[B E]|[B [p0 E]]]; rewrite E; cbn [bind].
        * left. split; auto. exists i. cbn. auto.
        * set (d1 := dset xy_eqb d0 (ico_x i, ico_y i) _).
          destruct (IH d1) as [[(j & Hj & A & B') E']|[A (d & E' & D)]].
          -- left. split; auto. exists j. cbn. auto.
          -- right. split; [intros j [<-|Hj]; auto|]. exists d. split; auto.
             intros x y p. rewrite D. unfold d1. rewrite (dget_dset xy_eqb xyeqb_eq).
             destruct (xy_eqb (ico_x i, ico_y i) (x, y)) eqn:XY0.
             ++ apply xyeqb_eq in XY0. injection XY0 as <- <-. rewrite zset_in. unfold core_down. split.
                ** intros [[H| ->]|(j & Hj & R)]; auto.
                   --- right. exists i. cbn. auto 6.
                   --- right. exists j. cbn. tauto.
                ** intros [H|(j & [<-|Hj] & R)]; auto.
                   --- left. right. destruct R as (_ & _ & _ & R). congruence.
                   --- right. exists j. auto.
             ++ unfold core_down. split.
                ** intros [H|(j & Hj & R)]; auto. right. exists j. cbn. tauto.
                ** intros [H|(j & [<-|Hj] & R)]; auto; [|right; exists j; auto].
                   destruct R as (_ & R1 & R2 & _). subst.
                   assert (xy_eqb (ico_x i, ico_y i) (ico_x i, ico_y i) = true)
                     by (apply xyeqb_eq; auto). congruence. }
  destruct (K items []) as [H|[A (d & E & D)]]; auto. right. split; auto. exists d. split; auto.
  intros x y p. rewrite D. cbn. tauto.
Qed.
