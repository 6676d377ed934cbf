(** C80: what repair leaves is what a virtual machine with more down items has. *)
From Coq Require Import Lia ZifyBool String Ascii Decimal DecimalString DecimalZ.
From Verif Require Import Model_Py Model_Wrap Model_Float Model_Geometry Model_Version Model_Core
  Model_Machine Model_Str Model_Ignore Model_Virtual Model_Repair
  Spec_Hops Spec_Board Spec_Version Spec_Machine Spec_Boards Spec_Router Spec_Repair Spec_Str Spec_Virtual Spec_Items Spec_Again
  Proof_Wrap Proof_Py Proof_Board Proof_Version Proof_Machine Proof_Report Proof_Str Proof_Virtual
  Proof_VirtualMachine Proof_Items Proof_Repair Proof_RepairEnd Proof_RepairOff Proof_Repr Proof_Again
  Prop_Parse Prop_Repair Prop_Rounds.
Open Scope list_scope.
Open Scope Z_scope.

(** ** Decimal texts are texts of numbers *)
Lemma value_uint u : forall p, value_from (Zpos p) (NilEmpty.string_of_uint u) = Zpos (Pos.of_uint_acc u p).
Proof.
  induction u as [|u IH|u IH|u IH|u IH|u IH|u IH|u IH|u IH|u IH|u IH]; intros p; [reflexivity|..];
    cbn [NilEmpty.string_of_uint value_from Pos.of_uint_acc]; rewrite <- IH; f_equal;
    change (Z.of_nat (nat_of_ascii _)) with 48 ||
    change (Z.of_nat (nat_of_ascii _)) with 49 || change (Z.of_nat (nat_of_ascii _)) with 50 ||
    change (Z.of_nat (nat_of_ascii _)) with 51 || change (Z.of_nat (nat_of_ascii _)) with 52 ||
    change (Z.of_nat (nat_of_ascii _)) with 53 || change (Z.of_nat (nat_of_ascii _)) with 54 ||
    change (Z.of_nat (nat_of_ascii _)) with 55 || change (Z.of_nat (nat_of_ascii _)) with 56 ||
    change (Z.of_nat (nat_of_ascii _)) with 57; lia.
Qed.

Lemma value_uint0 u : value_from 0 (NilEmpty.string_of_uint u) = Z.of_uint u.
Proof.
  induction u as [|u IH|u IH|u IH|u IH|u IH|u IH|u IH|u IH|u IH|u IH]; [reflexivity|exact IH|..];
    cbn [NilEmpty.string_of_uint value_from]; unfold Z.of_uint; cbn [Pos.of_uint Z.of_N]; rewrite <- value_uint; f_equal.
Qed.

Lemma value_uintz u : value_from 0 (NilZero.string_of_uint u) = Z.of_uint u.
Proof. unfold NilZero.string_of_uint. destruct u; try apply value_uint0; reflexivity. Qed.

Lemma uintz_digits u : every digit_char (NilZero.string_of_uint u) /\ NilZero.string_of_uint u <> ""%string.
Proof.
  unfold NilZero.string_of_uint. destruct u; try (split; [apply uint_digits|discriminate]).
  split; [|discriminate]. cbn. unfold digit_char. cbn. split; [lia|exact I].
Qed.

Lemma app_nil_r_s s : (s ++ "")%string = s.
Proof. apply app_nil_s. Qed.

Lemma dec_int_text n : int_text (dec n) n.
Proof.
  pose proof (DecimalZ.of_to n) as OT. unfold dec. destruct (Z.to_int n) as [u|u]; cbn [NilZero.string_of_int].
  - destruct (uintz_digits u) as [D N]. exists ""%string, ""%string, (NilZero.string_of_uint u), (NilZero.string_of_uint u), ""%string.
    cbn [append every]. rewrite app_nil_r_s. repeat (split; [solve [auto]|]). split; [apply Group; auto|].
    left. split; auto. rewrite value_uintz. symmetry. exact OT.
  - destruct (uintz_digits u) as [D N]. exists ""%string, "-"%string, (NilZero.string_of_uint u), (NilZero.string_of_uint u), ""%string.
    cbn [append every]. rewrite app_nil_r_s. repeat (split; [solve [auto]|]). split; [apply Group; auto|].
    right. split; auto. rewrite value_uintz. symmetry. exact OT.
Qed.

(** ** The text that lists what is missing *)
Lemma in_all_xys m x y : In (x, y) (all_xys m) <-> 0 <= x < m_width m /\ 0 <= y < m_height m.
Proof.
  unfold all_xys. rewrite in_flat_map. split.
  - intros (a & Ha & H). apply in_map_iff in H as (b & E & Hb). injection E as -> ->.
    apply in_zrange in Ha, Hb. lia.
  - intros [X Y]. exists x. split; [apply in_zrange; lia|]. apply in_map. apply in_zrange. lia.
Qed.

Lemma forall2_map {A B C} (R : B -> C -> Prop) (f : A -> B) (g : A -> C) l :
  (forall a, R (f a) (g a)) -> Forall2 R (map f l) (map g l).
Proof. intros H. induction l; cbn; constructor; auto. Qed.

Lemma missing_lists c m : (forall ch, In ch (chips m) -> inside (m_width m) (m_height m) (c_xy ch)) -> wf m ->
  lists_missing (missing_cfg c m) m.
Proof.
  intros IN W.
  assert (forall x y, is_chip_at m x y = true -> 0 <= x < m_width m /\ 0 <= y < m_height m) as IC.
  { intros x y H. apply present_get in H as [ch H]. apply get_chip_in in H as [H E]; auto.
    specialize (IN ch H). rewrite E in IN. exact IN. }
  destruct C45_down_chips as (PC0 & _ & PC & _). destruct C45_down_links as (PL0 & _ & PL & _).
  assert (exists dch, parse_chips (items_text (missing_chips m)) = Ok dch /\
    forall i, In i dch <-> exists x y, i = mkIgnoreChip x y None /\ In (x, y) (all_xys m) /\ is_chip_at m x y = false) as (dch & P1 & H1).
  { unfold missing_chips. set (ps := filter _ _).
    assert (forall x y, In (x, y) ps <-> In (x, y) (all_xys m) /\ is_chip_at m x y = false) as IP.
    { intros x y. unfold ps. rewrite filter_In. cbn [fst snd]. rewrite negb_true_iff. tauto. }
    set (f := fun p : XY => (dec (fst p) ++ "," ++ dec (snd p))%string).
    assert (Forall2 chip_text (map f ps) (map (fun p => mkIgnoreChip (fst p) (snd p) None) ps)) as F2.
    { apply forall2_map. intros [x y]. exists (dec x), (dec y). cbn. repeat split; auto; apply dec_int_text. }
    match goal with |- context [items_text (map ?g ps)] => change (map g ps) with (map f ps) end.
    destruct (map f ps) as [|t ts] eqn:E.
    - exists []. split; [exact PC0|]. apply map_eq_nil in E. intros i. split; [intros H; destruct H|]. intros (x & y & _ & H).
      apply IP in H. rewrite E in H. destruct H.
    - cbn [items_text]. destruct (PC (t :: ts) _ ltac:(discriminate) F2) as (l & P & _ & M). exists l. split; auto.
      intros i. rewrite M, in_map_iff. split.
      + intros ([x y] & <- & H). exists x, y. split; auto. apply IP. auto.
      + intros (x & y & -> & H). exists (x, y). split; auto. apply IP. auto. }
  assert (exists dl, parse_links (items_text (missing_links m)) = Ok dl /\
    forall i, In i dl <-> exists x y l, i = mkIgnoreLink x y l None /\ In (x, y) (all_xys m) /\ is_chip_at m x y = true /\
      0 <= l < 6 /\ is_link_at m x y l = false) as (dl & P2 & H2).
  { unfold missing_links. set (ps := filter _ (flat_map _ _)).
    assert (forall x y l, In (x, y, l) ps <-> In (x, y) (all_xys m) /\ is_chip_at m x y = true /\ 0 <= l < 6 /\ is_link_at m x y l = false) as IP.
    { intros x y l. unfold ps. rewrite filter_In. cbn [fst snd]. rewrite negb_true_iff, in_flat_map. split.
      - intros [(p & H & K) N]. apply in_map_iff in K as (l' & E & K). injection E as -> ->. apply filter_In in H as [H H'].
        apply in_zrange in K. cbn [fst snd] in H'. repeat split; auto; lia.
      - intros (H & K & L & N). split; auto. exists (x, y). split; [apply filter_In; auto|]. apply in_map. apply in_zrange. lia. }
    set (f := fun t : Z * Z * Z => (dec (fst (fst t)) ++ "," ++ dec (snd (fst t)) ++ "," ++ dec (snd t))%string).
    assert (Forall2 link_text (map f ps) (map (fun t => mkIgnoreLink (fst (fst t)) (snd (fst t)) (snd t) None) ps)) as F2.
    { apply forall2_map. intros [[x y] l]. exists (dec x), (dec y), (dec l). cbn. repeat split; auto; apply dec_int_text. }
    match goal with |- context [items_text (map ?g ps)] => change (map g ps) with (map f ps) end.
    destruct (map f ps) as [|t ts] eqn:E.
    - exists []. split; [exact PL0|]. apply map_eq_nil in E. intros i. split; [intros H; destruct H|]. intros (x & y & l & _ & H).
      apply IP in H. rewrite E in H. destruct H.
    - cbn [items_text]. destruct (PL (t :: ts) _ ltac:(discriminate) F2) as (k & P & _ & M). exists k. split; auto.
      intros i. rewrite M, in_map_iff. split.
      + intros ([[x y] l] & <- & H). exists x, y, l. split; auto. apply IP. auto.
      + intros (x & y & l & -> & H). exists (x, y, l). split; auto. apply IP. auto. }
  exists dch, dl. split; [exact P1|]. split; [exact P2|]. split.
  - intros x y X Y. rewrite H1. split.
    + intros (x' & y' & E & _ & N). injection E as -> ->. exact N.
    + intros N. exists x, y. repeat split; auto. apply in_all_xys. auto.
  - intros x y l P L. rewrite H2. split.
    + intros (x' & y' & l' & E & _ & _ & _ & N). injection E as -> -> ->. exact N.
    + intros N. exists x, y, l. repeat split; auto; try lia. apply in_all_xys. auto.
Qed.

(** ** The same machine again *)
Lemma again c V w h check m dch dco dl m' pc pl o c' :
  built c V w h m dch dco dl -> (forall i, In i dco -> ico_ip i = None -> -17 <= ico_p i) ->
  wf m' -> m_width m' = w -> m_height m' = h -> cut_of m m' pc pl -> of_chips (v_id V) w h o (chips m') m' ->
  (forall x y l q, is_link_at m' x y l = true -> m_over m x y l = Ok q -> is_chip_at m' (fst q) (snd q) = true) ->
  (check = true -> validate (v_id V) m' = Ok tt) ->
  cfg_down_cores c' = cfg_down_cores c -> lists_missing c' m' ->
  virtual_machine c' V w h check = Ok (with_origin "Virtual" m').
Proof.
  intros B G W' EW EH C OC D VA EC (dch' & dl' & P1 & P2 & HC & HL). rewrite EW, EH in HC.
  destruct (b_read _ _ _ _ _ _ _ _ B) as (R1 & R2 & R3).
  assert (cfg_read c' (v_id V) dch' dco dl') as R' by (repeat split; auto; congruence).
  destruct (virtual_cases c' V w h) as [(m'' & a1 & a2 & a3 & B' & E1 & E2 & _)|[_ X]].
  2: { exfalso. destruct (X (b_sup _ _ _ _ _ _ _ _ B) _ _ _ R') as (i & Hi & I1 & I2). specialize (G i Hi I1). lia. }
  destruct (b_read _ _ _ _ _ _ _ _ B') as (Q1 & Q2 & Q3). destruct R' as (T1 & T2 & T3).
  assert (a1 = dch') as -> by congruence. assert (a2 = dco) as -> by congruence. assert (a3 = dl') as -> by congruence.
  clear Q1 Q2 Q3 T1 T2 T3.
  assert (m'' = with_origin "Virtual" m') as EM.
  { destruct (b_rest _ _ _ _ _ _ _ _ B) as (eths & uc & L & U & CM & _).
    destruct (b_rest _ _ _ _ _ _ _ _ B') as (eths' & uc' & L' & U' & CM' & m1 & m2 & _ & _ & X1 & X2 & X3 & _).
    assert (eths' = eths) as ->.
    { pose proof (lay_eths _ _ _ _ L). pose proof (lay_eths _ _ _ _ L'). congruence. }
    assert (uc' = uc) as -> by congruence.
    pose proof (chips_again B W' C D HC HL eths uc L CM) as CA. cbv zeta in CA, CM'.
    apply (of_chips_det (v_id V) w h "Virtual" (chips m')).
    - exists m2. rewrite CA. fold (start (v_id V) w h). rewrite <- X1. auto.
    - eapply of_chips_origin. exact OC. }
  subst m''. destruct check; auto. rewrite E2, origin_validate, VA by auto. reflexivity.
Qed.

Lemma cut_self m : Forall proper (chips m) -> (forall ch, In ch (chips m) -> c_parent ch = None) ->
  cut_of m m (fun _ => true) (fun _ _ => true).
Proof.
  intros F P. unfold cut_of. rewrite filter_all by auto. rewrite Forall_forall in F.
  symmetry. rewrite <- (map_id (chips m)) at 2. apply map_ext_in. intros ch H. apply cutc_id; auto.
Qed.

Lemma built_of_chips c V w h m dch dco dl : built c V w h m dch dco dl ->
  of_chips (v_id V) w h "Virtual" (chips m) m.
Proof.
  intros B. destruct (b_rest _ _ _ _ _ _ _ _ B) as (eths & uc & L & U & CM & m1 & m2 & _ & _ & X1 & X2 & X3 & _).
  exists m2. rewrite CM. fold (start (v_id V) w h). rewrite <- X1. auto.
Qed.

Lemma virtual_no_parent c V w h m dch dco dl : built c V w h m dch dco dl -> forall ch, In ch (chips m) -> c_parent ch = None.
Proof.
  intros B ch H. destruct (b_rest _ _ _ _ _ _ _ _ B) as (eths & uc & L & U & CM & _).
  rewrite CM in H. apply in_map_iff in H as ([xy [e n]] & <- & _). reflexivity.
Qed.

Lemma clean_dest c V w h m dch dco dl m' pc pl : built c V w h m dch dco dl -> good m -> good m' -> cut_of m m' pc pl -> clean m' ->
  forall x y l q, is_link_at m' x y l = true -> m_over m x y l = Ok q -> is_chip_at m' (fst q) (snd q) = true.
Proof.
  intros B GM [W' F'] C (CL & _) x y l q IL OV. pose proof (b_wf _ _ _ _ _ _ _ _ B) as W.
  unfold is_link_at in IL. destruct (dget xy_eqb (m_chips m') (x, y)) as [ch'|] eqn:E; [|discriminate IL].
  change (get_chip_at m' x y = Some ch') in E. apply is_link_get in IL as [k GK].
  pose proof E as E'. apply get_chip_in in E' as [Hc EX]; auto.
  unfold cut_of in C. pose proof Hc as Hc'. rewrite C in Hc'. apply in_map_iff in Hc' as (ch & EC & H). apply filter_In in H as [H _].
  assert (c_xy ch = (x, y)) as CX by (rewrite <- EX, <- EC; symmetry; apply cutc_xy).
  assert (get_chip_at m x y = Some ch) as G by (apply get_chip_in; auto).
  rewrite Forall_forall in F'. pose proof (F' ch' Hc) as [RO _].
  pose proof GK as GK'. apply get_link_in in GK' as [K1 K2]; auto. rewrite <- EC, cutc_links in K1. apply filter_In in K1 as [K1 _].
  assert (proper ch) as PR by exact (proj1 (Forall_forall _ _) (proj2 GM) ch H).
  assert (get_link (c_router ch) l = Some k) as GL by (apply get_link_in; [apply PR|auto]).
  apply (built_link B x y ch l k G) in GL as (L6 & _ & dx & dy & O & -> & _).
  assert (q = (dx, dy)) as -> by congruence.
  destruct (CL ch' l _ Hc L6 GK) as (ch2 & k2 & G2 & _). cbn [l_destination_x l_destination_y fst snd] in *.
  apply present_get. eauto.
Qed.

Lemma repaired_cut c V w h check m dch dco dl repair removed m' :
  virtual_machine c V w h check = Ok m -> built c V w h m dch dco dl ->
  repairs repair (v_id V) m removed (Ok m') ->
  good m' /\ m_width m' = w /\ m_height m' = h /\ (exists pc pl, cut_of m m' pc pl) /\
  exists o, of_chips (v_id V) w h o (chips m') m'.
Proof.
  intros E B R. pose proof (made_good _ _ (C28_virtual_is_made _ _ _ _ _ _ E)) as G.
  set (P := fun n => good n /\ m_width n = w /\ m_height n = h /\ (exists pc pl, cut_of m n pc pl) /\
    exists o, of_chips (v_id V) w h o (chips n) n).
  assert (P m) as P0.
  { split; auto. split; [apply (b_width _ _ _ _ _ _ _ _ B)|]. split; [apply (b_height _ _ _ _ _ _ _ _ B)|]. split.
    - exists (fun _ => true), (fun _ _ => true). apply cut_self; [apply G|]. eapply virtual_no_parent. exact B.
    - exists "Virtual"%string. eapply built_of_chips. exact B. }
  refine (proj1 (repairs_inv P repair (v_id V) _ m removed _ R P0)).
  intros n rem n' (Gn & Wn & Hn & (pc & pl & C) & _) S.
  pose proof (good_next _ _ _ _ _ Gn S) as Gn'. destruct (cut_next _ _ _ _ _ _ _ _ Gn C S) as (pc' & pl' & C').
  destruct Gn as [W F]. destruct (step_next _ _ _ _ _ W F S) as (_ & _ & _ & _ & _ & W1 & H1 & _).
  split; [auto|]. split; [congruence|]. split; [congruence|]. split; [eauto|].
  exists "Fixed"%string. apply step_inv in S as (_ & _ & [(X & _)|(n2 & X & _ & IG)]); [discriminate X|].
  injection X as <-. rewrite <- Wn, <- Hn. eapply ignore_of_chips; eauto.
Qed.

(** ** C80 *)

(** The machine that machine_repair leaves is the virtual machine of a cfg that
    lists all that is missing from it. *)
Theorem C80_repaired :
  forall c V w h check m repair removed m' c',
    virtual_machine c V w h check = Ok m ->
    repairs repair (v_id V) m removed (Ok m') ->
    cfg_down_cores c' = cfg_down_cores c -> lists_missing c' m' ->
    virtual_machine c' V w h check = Ok (with_origin "Virtual" m').
Proof.
  intros c V w h check m repair removed m' c' E R EC LM.
  pose proof (C28_virtual_is_made _ _ _ _ _ _ E) as M. pose proof (made_good _ _ M) as G.
  destruct (virtual_built _ _ _ _ _ _ E) as (dch & dco & dl & B & _ & _ & VA & GP).
  destruct (repaired_cut _ _ _ _ _ _ _ _ _ _ _ _ E B R) as (G' & EW & EH & (pc & pl & C) & (o & OC)).
  destruct (C32_result_is_clean _ _ _ _ _ M R) as [CL _].
  eapply again; eauto; [apply G'|eapply clean_dest; eauto|].
  intros CH. destruct (C33_new_machine _ _ _ _ _ M R) as [->|(_ & _ & X & _)]; auto.
Qed.
Print Assumptions C80_repaired.

(** The same for a virtual machine that was not repaired. *)
Theorem C80_unrepaired :
  forall c V w h check m c',
    virtual_machine c V w h check = Ok m ->
    cfg_down_cores c' = cfg_down_cores c -> lists_missing c' m ->
    virtual_machine c' V w h check = Ok m.
Proof.
  intros c V w h check m c' E EC LM.
  pose proof (C28_virtual_is_made _ _ _ _ _ _ E) as M. pose proof (made_good _ _ M) as G.
  destruct (virtual_built _ _ _ _ _ _ E) as (dch & dco & dl & B & _ & _ & VA & GP).
  assert (m = with_origin "Virtual" m) as EM.
  { unfold with_origin. pose proof (b_origin _ _ _ _ _ _ _ _ B) as X. rewrite <- X. destruct m; reflexivity. }
  rewrite EM at 1. eapply again; eauto.
  - apply G.
  - apply (b_width _ _ _ _ _ _ _ _ B).
  - apply (b_height _ _ _ _ _ _ _ _ B).
  - apply cut_self; [apply G|]. eapply virtual_no_parent. exact B.
  - eapply built_of_chips. exact B.
  - intros x y l [qx qy] IL O. unfold is_link_at in IL.
    destruct (dget xy_eqb (m_chips m) (x, y)) as [ch|] eqn:EG; [|discriminate IL].
    change (get_chip_at m x y = Some ch) in EG. apply is_link_get in IL as [k GK].
    apply (built_link B x y ch l k EG) in GK as (_ & _ & dx & dy & O' & _ & ch' & G2).
    rewrite O in O'. injection O' as -> ->. apply present_get. eauto.
Qed.
Print Assumptions C80_unrepaired.

(** There is such a cfg: the one with the texts of the missing chips and links. *)
Theorem C80_the_text :
  forall c V w h check m repair removed m',
    virtual_machine c V w h check = Ok m ->
    repairs repair (v_id V) m removed (Ok m') ->
    virtual_machine (missing_cfg c m') V w h check = Ok (with_origin "Virtual" m').
Proof.
  intros c V w h check m repair removed m' E R. eapply C80_repaired; eauto.
  pose proof (C28_virtual_is_made _ _ _ _ _ _ E) as M.
  destruct (virtual_built _ _ _ _ _ _ E) as (dch & dco & dl & B & _).
  destruct (repaired_cut _ _ _ _ _ _ _ _ _ _ _ _ E B R) as ([W' F'] & EW & EH & _).
  destruct (C33_only_removes _ _ _ _ _ M R) as (_ & _ & _ & OLD).
  apply missing_lists; auto. intros ch' H. destruct (OLD ch' H) as (ch & Hc & X & Y & _).
  unfold c_xy. rewrite X, Y, EW, EH. apply (built_inside B _ _ ch). apply get_chip_in; [apply (b_wf _ _ _ _ _ _ _ _ B)|].
  split; auto.
Qed.
Print Assumptions C80_the_text.

(** So machine_repair has nothing left to do on the virtual machine of the new cfg. *)
Theorem C80_nothing_left :
  forall c V w h check m repair removed m' c' repair' removed',
    virtual_machine c V w h check = Ok m ->
    repairs repair (v_id V) m removed (Ok m') ->
    cfg_down_cores c' = cfg_down_cores c -> lists_missing c' m' ->
    exists n, virtual_machine c' V w h check = Ok n /\
      repairs repair' (v_id V) n removed' (Ok n).
Proof.
  intros c V w h check m repair removed m' c' repair' removed' E R EC LM.
  pose proof (C80_repaired _ _ _ _ _ _ _ _ _ _ E R EC LM) as E'. exists (with_origin "Virtual" m'). split; [exact E'|].
  pose proof (C28_virtual_is_made _ _ _ _ _ _ E) as M. pose proof (C28_virtual_is_made _ _ _ _ _ _ E') as M'.
  apply C33_original_iff_clean; auto.
  destruct (C32_result_is_clean _ _ _ _ _ M R) as [CL _]. exact CL.
Qed.
Print Assumptions C80_nothing_left.

(** The machine of C75, which takes four calls to repair. *)
Example C80_case :
  exists m m', virtual_machine rounds_cfg rounds_version 12 12 true = Ok m /\
    repairs true (v_id rounds_version) m [] (Ok m') /\ m' <> m /\
    virtual_machine (missing_cfg rounds_cfg m') rounds_version 12 12 true = Ok (with_origin "Virtual" m').
Proof.
  destruct C75_case as (m & m' & E & R).
  assert (repairs true (v_id rounds_version) m [] (Ok m')) as R' by (apply C75_same_calls; eauto).
  exists m, m'. repeat (split; [solve [auto]|]). split; [|eapply C80_the_text; eauto].
  intros ->. pose proof (made_good _ _ (C28_virtual_is_made _ _ _ _ _ _ E)) as [W F].
  destruct (C32_result_is_clean _ _ _ _ _ (C28_virtual_is_made _ _ _ _ _ _ E) R') as [CL _].
  apply (done_clean true (v_id rounds_version) m []) in CL; auto.
  inversion R as [| |? ? n ? ? S R2]; subst. rewrite CL in S. discriminate S.
Qed.
