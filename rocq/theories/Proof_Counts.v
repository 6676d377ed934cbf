(** Sums over the places of the boards of a virtual machine. *)
From Coq Require Import Lia Permutation Sorted.
From Verif Require Import Model_Py Model_Wrap Model_Version Model_Core Model_Machine Model_Str
  Model_Ignore Model_Factory Model_Virtual
  Spec_Hops Spec_Board Spec_Machine Spec_Router Spec_Version Spec_Virtual Spec_Wiring Spec_Counts
  Proof_Wrap Proof_Concentric Proof_Py Proof_Board Proof_Version
  Proof_Machine Proof_Links Proof_Report Proof_Repair Proof_Virtual Proof_VirtualMachine Proof_Items
  Prop_Machine Prop_Board Prop_Wiring Prop_Order.
Open Scope list_scope.
Open Scope Z_scope.

(** ** Lists *)
Lemma nodup_flat {A B} (f : A -> list B) l : NoDup l -> (forall a, In a l -> NoDup (f a)) ->
  (forall a b x, In a l -> In b l -> In x (f a) -> In x (f b) -> a = b) -> NoDup (flat_map f l).
Proof.
  induction l as [|a l IH]; intros N F D; cbn [flat_map]; [constructor|]. inversion N as [|? ? N1 N2]; subst.
  assert (forall x, In x (flat_map f l) -> ~ In x (f a)) as X.
  { intros x Hx Ha. apply in_flat_map in Hx as (b & Hb & Hx). apply N1.
    rewrite (D a b x); cbn; auto. }
  assert (NoDup (flat_map f l)) as IH' by (apply IH; [exact N2|intros; apply F; cbn; auto|intros; eapply D; cbn; eauto]).
  assert (NoDup (f a)) as Na by (apply F; cbn; auto).
  induction (f a) as [|x r IHr]; [exact IH'|]. inversion Na; subst. cbn. constructor.
  - intros H. apply in_app_or in H as [H|H]; [contradiction|]. apply (X x H). cbn. auto.
  - apply IHr; auto. intros y Hy Hr. apply (X y Hy). cbn. auto.
Qed.

Lemma zsum_flat {A B} (g : B -> Z) (f : A -> list B) l :
  zsum (map g (flat_map f l)) = zsum (map (fun a => zsum (map g (f a))) l).
Proof.
  induction l as [|a l IH]; [reflexivity|]. cbn [flat_map map]. rewrite map_app, zsum_app, zsum_cons, IH. reflexivity.
Qed.

Lemma zsum_ext {A} (f g : A -> Z) l : (forall a, In a l -> f a = g a) -> zsum (map f l) = zsum (map g l).
Proof. intros H. f_equal. apply map_ext_in. auto. Qed.

Lemma zsum_const {A} (f : A -> Z) k l : (forall a, In a l -> f a = k) -> zsum (map f l) = k * Z.of_nat (List.length l).
Proof.
  induction l as [|a l IH]; intros H; [cbn; lia|]. cbn [map List.length]. rewrite zsum_cons, IH, (H a) by (try (intros; apply H); cbn; auto). lia.
Qed.

Lemma zsum_len {A} (l : list A) : zsum (map (fun _ => 1) l) = Z.of_nat (List.length l).
Proof. rewrite (zsum_const _ 1); [lia|auto]. Qed.

Lemma zsum_filter {A} (f : A -> bool) l :
  zsum (map (fun a => if f a then 1 else 0) l) = Z.of_nat (List.length (filter f l)).
Proof.
  induction l as [|a l IH]; [reflexivity|]. cbn [map filter]. rewrite zsum_cons, IH. destruct (f a); cbn [List.length]; lia.
Qed.

Lemma zsum_linear {A} (f : A -> Z) a b l :
  zsum (map (fun x => a + b * f x) l) = a * Z.of_nat (List.length l) + b * zsum (map f l).
Proof.
  induction l as [|x l IH]; [cbn; lia|]. cbn [map List.length]. rewrite !zsum_cons, IH. lia.
Qed.

Lemma same_length {A} (l l' : list A) : NoDup l -> NoDup l' -> (forall a, In a l <-> In a l') ->
  List.length l = List.length l'.
Proof. intros. apply Permutation_length. apply NoDup_Permutation; auto. Qed.

(** ** The places *)
Definition places (v : vid) (w h : Z) (boards : list XY) : list XY :=
  flat_map (fun e => map (fun dn : XY * Z => spot v w h (fst dn) e) (chip_core_map v)) boards.

Lemma boards_layout v w h boards : supported v w h -> all_boards v w h boards ->
  exists eths, layout v w h eths /\ Permutation boards eths.
Proof.
  intros S [N I]. destruct (layout_exists v w h S) as [eths L]. exists eths. split; auto.
  apply NoDup_Permutation; auto; [apply L|]. intros e. rewrite I. symmetry. apply L.
Qed.

Lemma in_places v w h boards p : supported v w h -> all_boards v w h boards ->
  In p (places v w h boards) <-> exists e d n, place_of v w h p e d n.
Proof.
  intros S AB. destruct (boards_layout _ _ _ _ S AB) as (eths & L & PB). unfold places. rewrite in_flat_map. split.
  - intros (e & He & H). apply in_map_iff in H as ([d n] & <- & H). cbn [fst]. exists e, d, n.
    assert (In e eths) as He' by (eapply Permutation_in; eauto).
    split; [apply AB; auto|]. split; auto. apply lands_spot; auto. split; auto.
    apply L; auto. apply expected_in. eauto.
  - intros (e & d & n & O & H & La). exists e. split; [apply AB; auto|]. apply in_map_iff. exists (d, n). split; auto.
    cbn [fst]. apply lands_spot in La as [-> _]; auto.
Qed.

Lemma places_nodup v w h boards : supported v w h -> all_boards v w h boards -> NoDup (places v w h boards).
Proof.
  intros S AB. destruct (boards_layout _ _ _ _ S AB) as (eths & L & PB). unfold places.
  pose proof (fun e H => Permutation_in e PB H) as I.
  assert (forall d n, In (d, n) (chip_core_map v) -> In d (expected_xys v)) as X by (intros; apply expected_in; eauto).
  apply nodup_flat; [apply AB| |].
  - intros e He. pose proof (expected_nodup v) as N. unfold expected_xys, dkeys in *.
    assert (forall l, incl l (chip_core_map v) -> NoDup (map fst l) ->
      NoDup (map (fun dn : XY * Z => spot v w h (fst dn) e) l)) as K; [|apply K; [apply incl_refl|exact N]].
    clear N. induction l as [|[d n] l IH]; intros Il N; cbn [map]; [constructor|]. inversion N as [|? ? N1 N2]; subst.
    constructor; [|apply IH; auto; intros a Ha; apply Il; cbn; auto].
    intros H. apply in_map_iff in H as ([d' n'] & E & H). cbn [fst] in *. apply N1.
    destruct (lay_inj _ _ _ _ L e e d' d) as [<- _]; auto.
    + apply (X d' n'). apply Il. cbn; auto.
    + apply (X d n). apply Il. cbn; auto.
    + apply in_map_iff. exists (d', n'). auto.
  - intros e e' p He He' H H'. apply in_map_iff in H as ([d n] & E & H). apply in_map_iff in H' as ([d' n'] & E' & H').
    cbn [fst] in *. apply (lay_inj _ _ _ _ L e e' d d'); eauto. congruence.
Qed.

Lemma places_length v w h boards :
  Z.of_nat (List.length (places v w h boards)) = n_chips_per_board v * Z.of_nat (List.length boards).
Proof.
  unfold places. rewrite <- zsum_len, zsum_flat. rewrite (zsum_const _ (n_chips_per_board v)); [reflexivity|].
  intros e _. rewrite zsum_len, map_length. reflexivity.
Qed.

Section Counted.
Context {c : config} {V : version} {w h : Z} {m : machine} {dch : list ignore_chip}
  {dco : list ignore_core} {dl : list ignore_link}.
Hypothesis B : built c V w h m dch dco dl.
Let v := v_id V.

Lemma there p : In p (map c_xy (chips m)) <-> exists ch, get_chip_at m (fst p) (snd p) = Some ch.
Proof using B.
  pose proof (b_wf _ _ _ _ _ _ _ _ B) as W. split.
  - intros H. apply in_map_iff in H as (ch & <- & H). exists ch. apply get_chip_in; auto.
  - intros [ch G]. apply get_chip_in in G as [H X]; auto. apply in_map_iff. exists ch. split; auto.
    rewrite X. destruct p; reflexivity.
Qed.

Lemma chips_count boards missing : all_boards v w h boards ->
  missing_chips v w h (fun p => In (mkIgnoreChip (fst p) (snd p) None) dch) missing ->
  n_chips m + Z.of_nat (List.length missing) = n_chips_per_board v * Z.of_nat (List.length boards).
Proof using B.
  intros AB [NM IM]. pose proof (b_sup _ _ _ _ _ _ _ _ B) as S. pose proof (b_wf _ _ _ _ _ _ _ _ B) as W.
  rewrite <- (places_length v w h boards). unfold n_chips.
  rewrite <- (map_length snd (m_chips m)). change (map snd (m_chips m)) with (chips m).
  rewrite <- (map_length c_xy (chips m)). rewrite <- Nat2Z.inj_add, <- app_length. f_equal.
  apply same_length.
  - assert (forall p, In p missing -> ~ In p (map c_xy (chips m))) as D.
    { intros p H H'. apply IM in H as [D _]. apply there in H'. apply (built_present B) in H' as [_ H']. auto. }
    clear IM. assert (NoDup (map c_xy (chips m))) as NC by apply W.
    induction (map c_xy (chips m)) as [|p l IH]; [exact NM|]. inversion NC; subst. cbn. constructor.
    + intros H. apply in_app_or in H as [H|H]; [contradiction|]. apply (D p H). cbn. auto.
    + apply IH; auto. intros q Hq Hl. apply (D q Hq). cbn; auto.
  - apply places_nodup; auto.
  - intros p. rewrite in_app_iff, IM, there, (built_present B), in_places by auto.
    rewrite <- surjective_pairing. unfold v.
    assert (forall a b : ignore_chip, {a = b} + {a <> b}) as ED.
    { decide equality; try apply Z.eq_dec. decide equality. apply String.string_dec. }
    destruct (in_dec ED (mkIgnoreChip (fst p) (snd p) None) dch); tauto.
Qed.

(** Sums over the chips of a machine without dead chips. *)
Lemma sum_places boards (g : chip -> Z) (f : XY -> XY * Z -> Z) : dch = [] -> all_boards v w h boards ->
  (forall x y ch e d n, get_chip_at m x y = Some ch -> place_of v w h (x, y) e d n -> g ch = f e (d, n)) ->
  zsum (map g (chips m)) = zsum (map (fun e => zsum (map (f e) (chip_core_map v))) boards).
Proof using B.
  intros ND AB GF. pose proof (b_sup _ _ _ _ _ _ _ _ B) as S. pose proof (b_wf _ _ _ _ _ _ _ _ B) as W.
  destruct (boards_layout _ _ _ _ S AB) as (eths & L & PB).
  rewrite (keyed_sum m g W). rewrite (zsum_perm _ (map (fun p =>
     match get_chip_at m (fst p) (snd p) with Some ch => g ch | None => 0 end) (places v w h boards))).
  - unfold places. rewrite zsum_flat. apply zsum_ext. intros e He. rewrite map_map. apply zsum_ext.
    intros [d n] H. cbn [fst].
    assert (place_of v w h (spot v w h d e) e d n) as P.
    { apply (place_spot B eths); auto. split; auto. eapply Permutation_in; eauto. }
    destruct (spot v w h d e) as [x y] eqn:E. cbn [fst snd].
    destruct (proj2 (built_present B x y)) as [ch G]; [rewrite ND; split; eauto; tauto|].
    rewrite G. eapply GF; eauto.
  - apply Permutation_map. apply NoDup_Permutation; [apply W|apply places_nodup; auto|].
    intros p. rewrite there, (built_present B), in_places, ND by auto. rewrite <- surjective_pairing. unfold v. tauto.
Qed.

Lemma cores_count boards : dch = [] -> dco = [] -> all_boards v w h boards ->
  total_cores m = Z.of_nat (List.length boards) *
    zsum (map (fun dn => Z.max 1 (Z.min (snd dn) (max_cores_per_chip V))) (chip_core_map v)) /\
  total_available_user_cores m = total_cores m - n_chips m.
Proof using B.
  intros ND NC AB. unfold total_cores, total_available_user_cores.
  assert (forall x y ch e d n, get_chip_at m x y = Some ch -> place_of v w h (x, y) e d n ->
    n_processors ch = Z.max 1 (Z.min n (max_cores_per_chip V)) /\
    n_placable_processors ch = n_processors ch - 1) as K.
  { intros x y ch e d n G P.
    destruct (built_fields B _ _ ch e d n G P) as (_ & _ & _ & _ & _ & _ & F7 & F8 & F9 & _).
    assert (c_placable ch = zrange 1 (Z.min n (max_cores_per_chip V))) as PL.
    { apply sorted_ext; auto; [apply zrange_sorted|]. intros p. rewrite F9, in_zrange. split; [tauto|].
      intros H. split; auto. intros (i & I & _). rewrite NC in I. exact I. }
    unfold n_processors, n_placable_processors. rewrite F7, PL. unfold zrange. rewrite map_length, seq_length.
    cbn [List.length]. lia. }
  split.
  - rewrite (sum_places boards n_processors (fun _ dn => Z.max 1 (Z.min (snd dn) (max_cores_per_chip V)))); auto.
    + rewrite (zsum_const _ (zsum (map (fun dn : XY * Z => Z.max 1 (Z.min (snd dn) (max_cores_per_chip V))) (chip_core_map v)))); [lia|auto].
    + intros. cbn [snd]. eapply K; eauto.
  - unfold n_chips. rewrite <- (map_length snd (m_chips m)). change (map snd (m_chips m)) with (chips m).
    assert (forall ch, In ch (chips m) -> n_placable_processors ch = n_processors ch - 1) as K'.
    { intros ch H. pose proof (b_wf _ _ _ _ _ _ _ _ B) as W.
      assert (get_chip_at m (c_x ch) (c_y ch) = Some ch) as G by (apply get_chip_in; auto).
      destruct (proj1 (built_present B _ _) (ex_intro _ ch G)) as [(e & d & n & P) _]. eapply K; eauto. }
    revert K'. generalize (chips m). induction l as [|a l IH]; intros K'; [reflexivity|].
    cbn [map List.length]. rewrite !zsum_cons, IH, (K' a) by (try (intros; apply K'); cbn; auto). lia.
Qed.
End Counted.

(** ** The links *)
Definition beyond (d : XY) (l : Z) : option XY :=
  let q := vadd d (link_vec l) in
  if on_board_b q then None
  else find (fun s : XY => on_board_b (fst q - fst s, snd q - snd s)) sides.

Lemma beyond_table :
  forallb (fun d => forallb (fun l =>
    let q := vadd d (link_vec l) in
    match beyond d l with
    | None => on_board_b q
    | Some s => existsb (xy_eqb s) sides && on_board_b (fst q - fst s, snd q - snd s) && negb (on_board_b q)
    end) (zrange 0 6)) (expected_xys V5) = true.
Proof. vm_compute. reflexivity. Qed.

Lemma beyond_spec d l : on_board d -> 0 <= l < 6 ->
  match beyond d l with
  | None => on_board (vadd d (link_vec l))
  | Some s => In s sides /\ exists d1, on_board d1 /\ vadd d (link_vec l) = vadd d1 s
  end.
Proof.
  intros D R. pose proof beyond_table as T. rewrite forallb_forall in T.
  specialize (T d (proj2 (board48 V5 (or_introl eq_refl) d) D)). rewrite forallb_forall in T.
  specialize (T l (proj2 (in_zrange _ _ _) R)). cbv zeta in T. destruct (beyond d l) as [s|].
  - apply andb_true_iff in T as [T _]. apply andb_true_iff in T as [T1 T2]. split.
    + apply existsb_exists in T1 as (s' & H & E). apply xyeqb_eq in E. subst. auto.
    + eexists. split; [apply on_board_b_spec; exact T2|]. unfold vadd at 2. cbn [fst snd].
      rewrite !Z.sub_add. apply surjective_pairing.
  - apply on_board_b_spec. auto.
Qed.

Lemma beyond_count (v : vid) (f : XY -> bool) : v = V5 \/ v = V248 ->
  zsum (map (fun dn : XY * Z => zsum (map (fun l =>
    match beyond (fst dn) l with None => 1 | Some s => if f s then 1 else 0 end) (zrange 0 6))) (chip_core_map v)) =
  240 + 8 * zsum (map (fun s => if f s then 1 else 0) sides).
Proof.
  intros Hv.
  assert (forall g : XY -> Z,
    zsum (map (fun dn : XY * Z => zsum (map (fun l =>
      match beyond (fst dn) l with None => 1 | Some s => g s end) (zrange 0 6))) (chip_core_map v)) =
    240 + 8 * zsum (map g sides)) as K; [|apply K].
  intros g.
  assert (forall dn : XY * Z, zsum (map (fun l => match beyond (fst dn) l with None => 1 | Some s => g s end) (zrange 0 6)) =
    zsum (map (fun o => match o with None => 1 | Some s => g s end) (map (beyond (fst dn)) (zrange 0 6)))) as E
    by (intros; rewrite map_map; reflexivity).
  rewrite (map_ext _ _ E), <- zsum_flat.
  assert (flat_map (fun dn : XY * Z => map (beyond (fst dn)) (zrange 0 6)) (chip_core_map v) =
    flat_map (fun d => map (beyond d) (zrange 0 6)) (expected_xys V5)) as ->
    by (destruct Hv as [-> | ->]; vm_compute; reflexivity).
  match goal with |- zsum (map ?F ?L) = _ =>
    let L' := eval vm_compute in L in change L with L' end.
  unfold sides. cbn [map]. rewrite ?zsum_cons, ?zsum_nil.
  generalize (g (8, 4)) (g (4, 8)) (g (-4, 4)) (g (-8, -4)) (g (-4, -8)) (g (4, -4)). intros. lia.
Qed.

Section Linked.
Context {c : config} {V : version} {w h : Z} {m : machine} {dco : list ignore_core}.
Hypothesis B : built c V w h m [] dco [].
Hypothesis Hv : v_id V = V5 \/ v_id V = V248.
Hypothesis P : Forall proper (chips m).
Let v := v_id V.

Lemma class5 : machine_class (v_id V) w h = machine_class V5 w h.
Proof using Hv. clear B P. destruct Hv as [-> | ->]; reflexivity. Qed.

Lemma origin48 e : board_origin v w h e <-> triad_origin (0, 0) e /\ board_fits w h e.
Proof using Hv. clear B P. unfold v. destruct Hv as [-> | ->]; reflexivity. Qed.

Lemma sup48 : size48 w h.
Proof using B Hv. pose proof (b_sup _ _ _ _ _ _ _ _ B) as S. destruct Hv as [H|H]; rewrite H in S; exact S. Qed.

Definition beyond_there (boards : list XY) (e s : XY) : bool := xymem boards (spot v w h s e).

Lemma router_count x y ch : get_chip_at m x y = Some ch ->
  router_len (c_router ch) = zsum (map (fun l => 
    if is_chip_at m (fst (spot v w h (x, y) (link_vec l))) (snd (spot v w h (x, y) (link_vec l))) then 1 else 0) (zrange 0 6)).
Proof using B Hv P.
  intros G. pose proof (b_wf _ _ _ _ _ _ _ _ B) as W.
  assert (proper ch) as PC.
  { rewrite Forall_forall in P. apply P. apply get_chip_in in G as [G _]; auto. }
  destruct PC as [[R1 R2] _].
  rewrite zsum_filter, <- links_length, <- (map_length l_source_link_id). f_equal.
  apply same_length; auto.
  - apply NoDup_filter. apply sorted_nodup. apply zrange_sorted.
  - intros l. rewrite filter_In, in_zrange. unfold is_chip_at. 
    assert (In l (map l_source_link_id (router_links (c_router ch))) <-> exists k, get_link (c_router ch) l = Some k) as ->.
    { split.
      - intros H. apply in_map_iff in H as (k & <- & H). exists k. apply get_link_in; [split; auto|auto].
      - intros [k H]. apply get_link_in in H as [H <-]; [|split; auto]. apply in_map. auto. }
    assert (forall q, contains m q = true <-> exists ch', get_chip_at m (fst q) (snd q) = Some ch') as C.
    { intros q. unfold contains, get_chip_at, dmem. rewrite <- surjective_pairing.
      destruct (dget xy_eqb (m_chips m) q); split; eauto; [discriminate|intros [? ?]; discriminate]. }
    split.
    + intros [k K]. apply (built_link B _ _ ch l k G) in K as (R & _ & dx & dy & O & _ & ch' & G').
      split; auto. unfold m_over in O.
      rewrite (b_kind _ _ _ _ _ _ _ _ B), (b_width _ _ _ _ _ _ _ _ B), (b_height _ _ _ _ _ _ _ _ B) in O.
      rewrite over_red in O by (auto; apply good_supported; apply B). apply Ok_inj in O.
      unfold spot, v. rewrite O. cbn [fst snd]. apply C. eauto.
    + intros [R H]. apply C in H as [ch' G'].
      exists (mkLink x y l (fst (spot v w h (x, y) (link_vec l))) (snd (spot v w h (x, y) (link_vec l)))).
      apply (built_link B _ _ ch l _ G). split; auto. split.
      * intros [X|[X _]]; [exact X|]. destruct Hv; congruence.
      * do 2 eexists. split; [|split; [reflexivity|eexists; exact G']]. unfold m_over.
        rewrite (b_kind _ _ _ _ _ _ _ _ B), (b_width _ _ _ _ _ _ _ _ B), (b_height _ _ _ _ _ _ _ _ B).
        rewrite over_red by (auto; apply good_supported; apply B). rewrite <- surjective_pairing. reflexivity.
Qed.

Lemma step_there boards x y e d n l : all_boards v w h boards ->
  place_of v w h (x, y) e d n -> 0 <= l < 6 ->
  is_chip_at m (fst (spot v w h (x, y) (link_vec l))) (snd (spot v w h (x, y) (link_vec l))) =
  match beyond d l with None => true | Some s => beyond_there boards e s end.
Proof using B Hv.
  clear P. intros AB PL R. pose proof (b_sup _ _ _ _ _ _ _ _ B) as S. pose proof sup48 as S48.
  destruct (boards_layout _ _ _ _ S AB) as (eths & L & PB). pose proof (good_supported _ _ _ S) as G.
  pose proof (fun p e d n => place_spot B eths p e d n L) as PS.
  assert (forall d, on_board d <-> exists n, In (d, n) (chip_core_map v)) as OB.
  { intros d0. rewrite <- (board48 v Hv d0). apply expected_in. }
  pose proof (proj1 (PS _ _ _ _) PL) as (He & Hd & E).
  assert (on_board d) as D by (apply OB; eauto).
  assert (spot v w h (x, y) (link_vec l) = spot v w h (vadd d (link_vec l)) e) as ES.
  { unfold spot. rewrite E. unfold spot, v. rewrite red_add. f_equal. unfold vadd. cbn [fst snd]. apply pair_eq; ring. }
  rewrite ES. clear ES.
  assert (forall q, is_chip_at m (fst q) (snd q) = true <-> exists e d n, place_of v w h q e d n) as C.
  { intros [qx qy]. cbn [fst snd].
    pose proof (built_present B qx qy) as BP. unfold is_chip_at, contains, get_chip_at, dmem in *.
    fold v in BP. destruct (dget xy_eqb (m_chips m) (qx, qy)) as [ch|].
    - split; auto. intros _. apply BP. eauto.
    - split; [discriminate|]. intros H. destruct (proj2 BP) as [? X]; [split; [exact H|intros []]|discriminate]. }
  pose proof (beyond_spec d l D R) as BS. destruct (beyond d l) as [s|].
  - destruct BS as (Hs & d1 & D1 & E1). unfold beyond_there.
    assert (triad_origin (0, 0) s) as Ts.
    { clear -Hs. unfold sides in Hs. cbn in Hs.
      destruct Hs as [<-|[<-|[<-|[<-|[<-|[<-|[]]]]]]]; split; apply Z.mod_divide; try lia; reflexivity. }
    apply bool_ext. rewrite C. split.
    + intros (e' & d' & n' & PL'). apply PS in PL' as (He' & Hd' & E').
      assert (on_board d') as D' by (apply OB; eauto).
      destruct (proj1 (origin48 e) (proj1 (lay_origin _ _ _ _ L e) He)) as [T F].
      destruct (proj1 (origin48 e') (proj1 (lay_origin _ _ _ _ L e') He')) as [T' F'].
      unfold spot in E'. fold v in E'. unfold v in E'. rewrite class5 in E'.
      destruct (crossing w h e e' _ d' d1 s S48 T T' D' D1 Ts E1 E') as (-> & M & _).
      apply xymem_in. unfold spot, v. rewrite class5, M, <- class5.
      replace (red (machine_class (v_id V) w h) w h e') with (spot v w h (0, 0) e').
      2: { unfold spot, v. f_equal. destruct e'; reflexivity. }
      fold v. rewrite (lay_self v w h eths L e' He'). eapply Permutation_in; [apply Permutation_sym; exact PB|exact He'].
    + intros H. apply xymem_in in H. assert (In (spot v w h s e) eths) as He' by (eapply Permutation_in; eauto).
      destruct (proj1 (OB d1) D1) as [n1 H1]. exists (spot v w h s e), d1, n1. apply PS.
      split; auto. split; auto. rewrite E1. unfold spot.
      replace (vadd d1 (red (machine_class v w h) w h (vadd s e))) with (vadd (red (machine_class v w h) w h (vadd s e)) d1)
        by (unfold vadd; cbn [fst snd]; apply pair_eq; ring).
      rewrite red_add. f_equal. unfold vadd. cbn [fst snd]. apply pair_eq; ring.
  - apply C. destruct (proj1 (OB _) BS) as [n1 H1]. exists e, (vadd d (link_vec l)), n1. apply PS. auto.
Qed.

Lemma links_count boards : all_boards v w h boards ->
  get_links_count_doubled m =
  240 * Z.of_nat (List.length boards) +
  8 * zsum (map (fun e => zsum (map (fun s => if beyond_there boards e s then 1 else 0) sides)) boards).
Proof using B Hv P.
  intros AB. unfold get_links_count_doubled. rewrite (wf_links m (b_wf _ _ _ _ _ _ _ _ B)).
  rewrite (sum_places B boards _ (fun e dn => zsum (map (fun l =>
    match beyond (fst dn) l with None => 1 | Some s => if beyond_there boards e s then 1 else 0 end) (zrange 0 6)))); auto.
  - rewrite (zsum_ext _ (fun e => 240 + 8 * zsum (map (fun s => if beyond_there boards e s then 1 else 0) sides))).
    + apply zsum_linear.
    + intros e _. apply (beyond_count v (beyond_there boards e) Hv).
  - intros x y ch e d n G PL. rewrite (router_count x y ch G). cbn [fst]. apply zsum_ext.
    intros l R. apply in_zrange in R. rewrite (step_there boards x y e d n l AB PL R).
    destruct (beyond d l); reflexivity.
Qed.

Lemma joined_count boards joined : all_boards v w h boards -> joined_sides v w h joined ->
  zsum (map (fun e => zsum (map (fun s => if beyond_there boards e s then 1 else 0) sides)) boards) =
  Z.of_nat (List.length joined).
Proof using B Hv.
  clear P. intros AB [NJ IJ]. pose proof (b_sup _ _ _ _ _ _ _ _ B) as S.
  destruct (boards_layout _ _ _ _ S AB) as (eths & L & PB).
  rewrite (map_ext _ (fun e => zsum (map (fun _ => 1) (map (fun s : XY => (e, s)) (filter (beyond_there boards e) sides))))).
  2: { intros e. rewrite zsum_len, map_length. apply zsum_filter. }
  rewrite <- zsum_flat, zsum_len. f_equal. apply same_length; auto.
  - apply nodup_flat; [apply AB| |].
    + intros e _. apply FinFun.Injective_map_NoDup; [intros a b; congruence|]. apply NoDup_filter.
      unfold sides. repeat constructor; cbn; intuition discriminate.
    + intros a b [p q] _ _ H H'. apply in_map_iff in H as (? & E & _). apply in_map_iff in H' as (? & E' & _). congruence.
  - intros [e s]. rewrite IJ, in_flat_map. split.
    + intros (e' & He & H). apply in_map_iff in H as (s' & E & H). injection E as -> ->.
      apply filter_In in H as [Hs H]. apply xymem_in in H. split; [apply AB; auto|]. split; auto.
      exists (spot v w h s e). split; [apply AB; auto|]. apply lands_spot; auto. split; auto.
      apply AB in H. unfold v in H. apply origin48 in H. apply H.
    + intros (He & Hs & e' & He' & La). exists e. split; [apply AB; auto|].
      apply in_map. apply filter_In. split; auto. apply xymem_in. apply AB.
      apply lands_spot in La as [-> _]; auto.
Qed.
End Linked.
