(** C97: virtual_machine tells the first thing that is wrong. *)
From Coq Require Import Lia String Ascii.
From Verif Require Import Model_Py Model_Wrap Model_Version Model_Core Model_Machine Model_Str Model_Ignore Model_Virtual
  Model_Text Model_Told Model_ItemText Model_Summary Model_Repr Model_Invalid Model_JsonTold Model_VirtualTold.
From Verif Require Import Spec_Version Spec_Boards Spec_Machine Spec_Told Spec_Str Spec_ItemText Spec_Virtual Spec_Invalid Spec_Down Spec_JsonTold
  Spec_VirtualTold.
From Verif Require Import Proof_Py Proof_Wrap Proof_Board Proof_Version Proof_Machine Proof_Str Proof_Virtual
  Proof_VirtualMachine Proof_Repr Prop_Machine Prop_Virtual Prop_Text Prop_Invalid Prop_Down Prop_Told Prop_ItemText Prop_JsonTold.
Open Scope string_scope.
Open Scope list_scope.
Open Scope Z_scope.

(** ** The ids of the cores *)
Lemma virtual_p_cases i :
  (ico_p i < -17 /\ virtual_p i = Err KeyError) \/ (-17 <= ico_p i /\ exists p, virtual_p i = Ok p).
Proof.
  destruct (unused_cores_spec [mkIgnoreCore (ico_x i) (ico_y i) (ico_p i) None]) as [[(j & [<-|[]] & _ & L) E]|[G (d & E & _)]];
    cbn [virtual_unused_cores fold_res ico_ip ico_p] in *; unfold virtual_unused_cores in E; cbn [fold_res ico_ip] in E;
    unfold virtual_p in *; cbn [ico_p] in *.
  - left. split; auto. destruct (if ico_p i >? 0 then _ else _) as [p|e]; cbn in E; [discriminate E|]. congruence.
  - right. split; [apply (G (mkIgnoreCore (ico_x i) (ico_y i) (ico_p i) None)); cbn; auto|].
    destruct (if ico_p i >? 0 then _ else _) as [p|e]; cbn in E; [eauto|discriminate E].
Qed.

Lemma ids_told_ok l : ids_told l = inl tt <-> forall i, In i l -> ico_ip i = None -> -17 <= ico_p i.
Proof.
  induction l as [|i l IH]; cbn [ids_told In]; [split; [intros _ i []|auto]|].
  destruct (ico_ip i) as [a|] eqn:A.
  - rewrite IH. split; [|auto]. intros H j [<-|J]; [congruence|auto].
  - unfold virtual_p_told. destruct (virtual_p_cases i) as [[L ->]|[L (p & ->)]]; cbn [abind].
    + split; [discriminate|]. intros H. specialize (H i (or_introl eq_refl) A). lia.
    + rewrite IH. split; [|auto]. intros H j [<-|J]; auto.
Qed.

Lemma ids_told_wrong l e t : ids_told l = inr (e, t) ->
  exists before i after, l = before ++ i :: after /\ (forall b, In b before -> ico_ip b = None -> -17 <= ico_p b) /\
    ico_ip i = None /\ ico_p i < -17 /\ e = KeyError /\ t = dec (- ico_p i).
Proof.
  induction l as [|i l IH]; cbn [ids_told]; [discriminate|].
  destruct (ico_ip i) as [a|] eqn:A.
  - intros E. destruct (IH E) as (b & j & r & -> & B & H). exists (i :: b), j, r. split; auto. split; auto.
    intros k [<-|K]; [congruence|auto].
  - unfold virtual_p_told. destruct (virtual_p_cases i) as [[L ->]|[L (p & ->)]]; cbn [abind].
    + intros E. exists [], i, l. split; auto. split; [intros b []|]. split; auto. split; auto.
      split; [congruence|]. replace (- ico_p i) with (0 - ico_p i) by lia. congruence.
    + intros E. destruct (IH E) as (b & j & r & -> & B & H). exists (i :: b), j, r. split; auto. split; auto.
      intros k [<-|K]; auto.
Qed.

Lemma ids_told_first i l : ico_ip i = None -> ico_p i < -17 -> ids_told (i :: l) = inr (KeyError, dec (- ico_p i)).
Proof.
  intros A L. cbn [ids_told]. rewrite A. unfold virtual_p_told.
  destruct (virtual_p_cases i) as [[_ ->]|[L' _]]; [|lia]. cbn [abind]. replace (- ico_p i) with (0 - ico_p i) by lia. reflexivity.
Qed.

Lemma ids_told_class l e t : ids_told l = inr (e, t) -> e = KeyError.
Proof. intros H. apply ids_told_wrong in H as (? & ? & ? & _ & _ & _ & _ & H & _). auto. Qed.

Lemma validate_class v m e : validate v m = Err e -> e = MachineExc.
Proof.
  unfold validate. destruct (m_boot m); [|congruence]. destruct (_ && _); [congruence|]. intros E.
  assert (forall l e, fold_res (fun _ c => validate_chip v m c) l tt = Err e -> e = MachineExc) as F; [|eapply F; eauto].
  clear. intros l. induction l as [|c l IH]; intros e; cbn [fold_res]; [discriminate|].
  destruct (validate_chip v m c) as [[]|e'] eqn:X; cbn [bind]; [apply IH|]. intros [= <-]. revert X. unfold validate_chip.
  repeat match goal with |- context [if ?b then _ else _] => destruct b end; congruence.
Qed.

(** ** The same function *)
Lemma verify_same v w h : unworded (snd (verify_size_told v (Some w) (Some h))) = verify_size v (Some w) (Some h).
Proof.
  destruct (verify_told v w h) as [(t & S & ->)|[S ->]]; cbn [snd unworded].
  - destruct (verify_raises v (Some w) (Some h)) as [K|K]; auto. apply verify_supported in K.
    exfalso. exact (proj2 (not_wrong v w h) K t S).
  - symmetry. apply verify_supported. apply not_wrong. exact S.
Qed.

Lemma iterates_seen v t seen l : iterates v t seen -> parse_cores v t = Ok l -> forall i, In i seen <-> In i l.
Proof.
  intros [_ I] P i. destruct (cores_read _ _ _ P) as [items S]. rewrite (I _ S).
  destruct (cores_said _ _ _ S) as (l' & P' & L). assert (l' = l) as -> by congruence. symmetry. apply L.
Qed.

(** The texts apart, it is the virtual_machine of C28 to C30 (that raises nothing when the
    machine was built but is not to be validated). *)
Theorem C97_same_machine : forall seen c V w h check, iterates (v_id V) (cfg_down_cores c) seen ->
  unworded (virtual_machine_told seen c V w h check) = virtual_machine c V w h check.
Proof.
  intros seen c V w h check I. destruct C91_same_parsers as (_ & PC & PR & PL).
  unfold virtual_machine_told, virtual_machine. cbv zeta.
  rewrite unworded_abind, verify_same. apply bind_ext; auto. intros _.
  rewrite unworded_abind, u_silent. apply bind_ext; auto. intros m0.
  rewrite unworded_abind, PC. apply bind_ext; auto. intros dch.
  rewrite unworded_abind, PR. destruct (parse_cores (v_id V) (cfg_down_cores c)) as [dco|err] eqn:P; [cbn [bind]|reflexivity].
  pose proof (iterates_seen _ _ _ _ I P) as S. rewrite unworded_abind.
  destruct (unused_cores_spec dco) as [[(i & J & A & L) UE]|[G (d & UE & _)]]; rewrite UE; cbn [bind].
  - destruct (ids_told seen) as [[]|[e t]] eqn:T.
    + rewrite ids_told_ok in T. specialize (T i (proj2 (S i) J) A). lia.
    + apply ids_told_class in T. subst e. reflexivity.
  - replace (ids_told seen) with (@inl unit (exn * string) tt) by (symmetry; apply ids_told_ok; intros i J; apply G, S; auto).
    cbn [unworded bind]. rewrite unworded_abind, PL. apply bind_ext; auto. intros dl.
    rewrite unworded_abind, u_silent, !bind_assoc. apply bind_ext; auto. intros eths.
    rewrite !bind_assoc. apply bind_ext; auto. intros m1.
    rewrite !bind_assoc. apply bind_ext; auto. intros m2. apply bind_ext; auto. intros m3.
    destruct check; [|reflexivity]. rewrite unworded_abind. apply bind_ext; [|reflexivity].
    unfold validate_told. destruct (invalid_text (v_id V) m3) eqn:T.
    + destruct (validate (v_id V) m3) as [[]|e] eqn:VV; [apply text_none in VV; congruence|].
      cbn. apply validate_class in VV. congruence.
    + apply text_none in T. rewrite T. reflexivity.
Qed.
Print Assumptions C97_same_machine.

(** ** The validation of a virtual machine *)
Section Built.
Variables (c : config) (V : version) (w h : Z) (m : machine).
Hypothesis (E : virtual_machine c V w h false = Ok m).
Let v := v_id V.

Definition chip_problem (ch : chip) : option string :=
  if n_processors ch <? fewest_cores v then
    Some (cat [m_where_is_xy m (c_x ch) (c_y ch); " has too few cores found "; dec (n_processors ch)])
  else match get_chip_at m (c_eth_x ch) (c_eth_y ch) with
       | None => Some (cat [m_where_is_xy m (c_x ch) (c_y ch); " has an invalid ethernet chip"])
       | Some _ => None
       end.

Lemma chip_problem_same ch : In ch (chips m) -> invalid_chip_text v m ch = chip_problem ch.
Proof using E.
  intros Hc. apply virtual_built in E as (dch & dco & dl & B & _ & _ & _).
  pose proof (b_wf _ _ _ _ _ _ _ _ B) as W.
  destruct (layout_exists (v_id V) w h (b_sup _ _ _ _ _ _ _ _ B)) as [eths L].
  assert (get_chip_at m (c_x ch) (c_y ch) = Some ch) as G by (apply get_chip_in; auto).
  assert (m_where_is_xy m (c_x ch) (c_y ch) = m_where_is_chip m ch) as WI by (unfold m_where_is_xy; rewrite G; reflexivity).
  assert (minimum_cores_expected v = fewest_cores v) as MC by (destruct v; reflexivity).
  unfold invalid_chip_text, chip_problem. rewrite WI, MC.
  pose proof (built_inside B _ _ _ G) as [I1 I2]. cbn [fst snd] in I1, I2.
  rewrite (b_width _ _ _ _ _ _ _ _ B), (b_height _ _ _ _ _ _ _ _ B).
  destruct (Z.ltb_spec (c_x ch) 0); [lia|]. destruct (Z.ltb_spec (c_y ch) 0); [lia|].
  destruct (Z.geb_spec (c_x ch) w); [lia|]. destruct (Z.geb_spec (c_y ch) h); [lia|].
  destruct (n_processors ch <? fewest_cores v); [reflexivity|].
  assert (is_chip_at m (c_eth_x ch) (c_eth_y ch) =
    match get_chip_at m (c_eth_x ch) (c_eth_y ch) with Some _ => true | None => false end) as IC.
  { unfold is_chip_at, dmem, get_chip_at. destruct (dget xy_eqb (m_chips m) _); reflexivity. }
  destruct (built_eth B _ _ _ G) as [(I & O & X)|[N O]].
  - assert (ip_truthy (c_ip ch) = true) as T.
    { apply has_address_truthy. exists (virtual_ip (c_x ch) (c_y ch)). split; auto. unfold virtual_ip. discriminate. }
    rewrite T. injection X as -> ->. rewrite G.
    apply (lay_origin _ _ _ _ L) in O. apply (lay_legal _ _ _ _ L) in O. apply legal_spec in O. cbn [fst snd] in O.
    rewrite illegal_text in O. fold v in O. destruct (illegal_ethernet_text v (c_x ch) (c_y ch)); [discriminate O|reflexivity].
  - rewrite N. cbn [ip_truthy]. rewrite IC. destruct (get_chip_at m (c_eth_x ch) (c_eth_y ch)) as [e|]; cbn [negb]; [|reflexivity].
    destruct (proj1 (built_present B _ _) (ex_intro _ ch G)) as [(e' & d & n & P) _].
    rewrite (built_local B _ _ _ _ _ _ G P). cbn zeta.
    assert (dmem xy_eqb (m_ccm m) d = true) as ->; [|reflexivity].
    apply (dmem_in xy_eqb xyeqb_eq). rewrite (b_ccm _ _ _ _ _ _ _ _ B). apply expected_in. destruct P as (_ & Hd & _). eauto.
Qed.

Lemma virtual_problem :
  invalid_text v m = match get_chip_at m 0 0 with
                     | None => Some "no ethernet chip at 0, 0 found"
                     | Some _ => first_text chip_problem (chips m)
                     end.
Proof using E.
  pose proof (virtual_built _ _ _ _ _ _ E) as (dch & dco & dl & B & _ & _ & _).
  pose proof (b_wf _ _ _ _ _ _ _ _ B) as W.
  destruct (layout_exists (v_id V) w h (b_sup _ _ _ _ _ _ _ _ B)) as [eths L].
  unfold invalid_text. destruct (m_boot m) as [a|] eqn:BT.
  - apply (wf_boot m W) in BT as (c0 & H0 & X0 & _).
    assert (get_chip_at m 0 0 = Some c0) as -> by (apply get_chip_in; auto).
    destruct (_ && _) eqn:MB.
    + exfalso. apply andb_prop in MB as [M1 M2].
      assert (forall ch, In ch (m_eth m) -> c_xy ch = (0, 0)) as Z0.
      { intros ch H. apply (built_eth_list B) in H as (x & y & G & O).
        apply get_chip_in in G as [_ G]; auto. rewrite G. subst v. destruct (v_id V); try discriminate M2; exact O. }
      assert (forall a b, In a (m_eth m) -> In b (m_eth m) -> a = b) as U.
      { intros a1 b Ha Hb. pose proof (Z0 a1 Ha). pose proof (Z0 b Hb).
        apply (chip_unique m); auto; try congruence.
        - rewrite (wf_eth m W) in Ha. apply filter_In in Ha as [Ha _]. auto.
        - rewrite (wf_eth m W) in Hb. apply filter_In in Hb as [Hb _]. auto. }
      assert (NoDup (m_eth m)) as ND.
      { rewrite (wf_eth m W). apply NoDup_filter. pose proof (wf_nodup m W) as N. eapply NoDup_map_inv; eauto. }
      destruct (m_eth m) as [|a1 [|b l]]; [discriminate M1|discriminate M1|]. inversion ND as [|? ? NI _]; subst. apply NI. left.
      apply U; cbn; auto.
    + assert (forall l, (forall ch, In ch l -> In ch (chips m)) -> first_text (invalid_chip_text v m) l = first_text chip_problem l) as F.
      { induction l as [|ch l IH]; intros S; cbn [first_text]; auto. rewrite chip_problem_same by (apply S; left; auto).
        destruct (chip_problem ch); auto. apply IH. intros d D. apply S. right. auto. }
      apply F. auto.
  - destruct (get_chip_at m 0 0) as [c0|] eqn:G0; [exfalso|reflexivity].
    destruct (built_eth B _ _ _ G0) as [(I & _)|[_ N']].
    + apply get_chip_in in G0 as [H X]; auto.
      assert (m_boot m = Some (virtual_ip 0 0)) as Y by (apply (wf_boot m W); eauto). congruence.
    + apply N'. apply (lay_origin _ _ _ _ L). apply (lay_zero _ _ _ _ L).
Qed.

Lemma problem_none ch : chip_problem ch = None <-> sound_chip V m ch.
Proof using.
  unfold chip_problem, sound_chip. fold v. destruct (Z.ltb_spec (n_processors ch) (fewest_cores v)).
  - split; [discriminate|lia].
  - destruct (get_chip_at m (c_eth_x ch) (c_eth_y ch)) as [e|].
    + split; eauto.
    + split; [discriminate|]. intros (_ & e & X). discriminate X.
Qed.

Lemma validate_reads : reads_all (validate_told v m) [no_root c V w h; unsound_chip c V w h].
Proof using E.
  intros e t. rewrite violated_cons. unfold validate_told. rewrite virtual_problem.
  assert (forall m', virtual_machine c V w h false = Ok m' -> m' = m) as U by (intros m' X; congruence).
  destruct (get_chip_at m 0 0) as [c0|] eqn:G0.
  - assert (forall e' t', ~ no_root c V w h e' t') as NR.
    { intros e' t' (m' & M & G & _). apply U in M. subst m'. congruence. }
    split.
    + intros X. right. split; auto. destruct (first_text chip_problem (chips m)) as [t'|] eqn:F; [|discriminate X].
      assert (e = MachineExc) as -> by congruence. assert (t' = t) as -> by congruence. clear X.
      apply violated_cons. left. apply first_some in F as (pre & ch & post & Q & P & F).
      exists m, pre, ch, post. split; auto. split; auto. split; [intros b Hb; apply problem_none; auto|]. split; auto.
      unfold chip_problem in F. fold v. destruct (Z.ltb_spec (n_processors ch) (fewest_cores v)).
      * left. split; auto. clear -F. congruence.
      * right. split; auto. destruct (get_chip_at m (c_eth_x ch) (c_eth_y ch)); [discriminate F|]. split; auto. clear -F. congruence.
    + intros [N|[_ X]]; [exfalso; eapply NR; eauto|]. apply violated_cons in X as [X|[_ X]]; [|destruct (violated_nil _ _ X)].
      destruct X as (m' & pre & ch & post & M & Q & P & -> & X). apply U in M. subst m'.
      assert (first_text chip_problem (chips m) = Some t) as ->; [|reflexivity].
      rewrite Q. assert (chip_problem ch = Some t) as C.
      { unfold chip_problem. fold v in X. destruct X as [[L ->]|(L & G & ->)].
        - destruct (Z.ltb_spec (n_processors ch) (fewest_cores v)); [reflexivity|lia].
        - destruct (Z.ltb_spec (n_processors ch) (fewest_cores v)); [lia|]. rewrite G. reflexivity. }
      clear Q. induction pre as [|b pre IH]; cbn [app first_text]; [rewrite C; reflexivity|].
      rewrite (proj2 (problem_none b)) by (apply P; left; auto). apply IH. intros d D. apply P. right. auto.
  - split.
    + intros X. left. exists m. split; auto. split; auto. split; congruence.
    + intros [(m' & _ & _ & -> & ->)|[N _]]; [reflexivity|]. exfalso.
      apply (N MachineExc "no ethernet chip at 0, 0 found"). exists m. auto.
Qed.
End Built.

(** ** What is wrong *)
Lemma chips_read_ text : reads (chips_told text) (bad_items text chip_fault).
Proof.
  intros e t. unfold bad_items. destruct text as [s|].
  - rewrite (proj1 C91_first_wrong_item). split; [eauto|]. intros (s' & [= <-] & F). auto.
  - split; [discriminate|]. intros (s & X & _). discriminate X.
Qed.
Lemma links_read_ text : reads (links_told text) (bad_items text link_fault).
Proof.
  intros e t. unfold bad_items. destruct text as [s|].
  - rewrite (proj1 (proj2 C91_first_wrong_item)). split; [eauto|]. intros (s' & [= <-] & F). auto.
  - split; [discriminate|]. intros (s & X & _). discriminate X.
Qed.
Lemma cores_read_ v text : reads (cores_told v text) (bad_items text (core_fault v)).
Proof.
  intros e t. unfold bad_items. destruct text as [s|].
  - rewrite (proj2 (proj2 C91_first_wrong_item)). split; [eauto|]. intros (s' & [= <-] & F). auto.
  - split; [discriminate|]. intros (s & X & _). discriminate X.
Qed.

Definition demands_seen (seen : list ignore_core) c V w h (check : bool) : list demand :=
  [bad_size V w h; bad_items (cfg_down_chips c) chip_fault; bad_items (cfg_down_cores c) (core_fault (v_id V));
   (fun e t => ids_told seen = inr (e, t)); bad_items (cfg_down_links c) link_fault] ++
  (if check then [no_root c V w h; unsound_chip c V w h] else []).

Lemma told_inl {A} (r : answer A) a : unworded r = Ok a -> r = inl a.
Proof. destruct r as [x|[e t]]; cbn; congruence. Qed.

Lemma virtual_seen seen c V w h check : iterates (v_id V) (cfg_down_cores c) seen ->
  reads_all (virtual_machine_told seen c V w h check) (demands_seen seen c V w h check).
Proof.
  intros I. pose proof (C97_same_machine seen c V w h false I) as SM. revert SM.
  unfold virtual_machine_told. cbv zeta. unfold demands_seen. cbn [app]. destruct C91_same_parsers as (_ & PC & PR & PL).
  intros SM. apply step.
  { intros e t. unfold bad_size. destruct (verify_told (v_id V) w h) as [(t' & S & ->)|[S ->]]; cbn [snd].
    - split; [intros X; split; [congruence|]; replace t with t' by congruence; auto|].
      intros [-> S']. replace t' with t; auto. eapply wrong_unique; eauto.
    - split; [discriminate|]. intros [_ X]. exfalso. eapply S; eauto. }
  intros [] VS. rewrite VS in SM. cbn [abind] in SM.
  assert (Sup : supported (v_id V) w h).
  { apply not_wrong. destruct (verify_told (v_id V) w h) as [(t' & S & X)|[S _]]; auto. rewrite X in VS. discriminate VS. }
  rewrite create_some in * by auto. cbn [silent abind] in *.
  apply step; [apply chips_read_|]. intros dch C1. rewrite C1 in SM. cbn [abind] in SM.
  apply step; [apply cores_read_|]. intros dco C2. rewrite C2 in SM. cbn [abind] in SM.
  apply step; [intros e t; reflexivity|]. intros [] C3. rewrite C3 in SM. cbn [abind] in SM.
  apply step; [apply links_read_|]. intros dl C4. rewrite C4 in SM. cbn [abind] in SM.
  assert (P2 : parse_cores (v_id V) (cfg_down_cores c) = Ok dco) by (rewrite <- PR, C2; reflexivity).
  assert (exists m, virtual_machine c V w h false = Ok m) as [m M].
  { apply C28_when_created. split; auto. exists dch, dco, dl. split; [rewrite <- PC, C1; reflexivity|]. split; [exact P2|].
    split; [rewrite <- PL, C4; reflexivity|]. intros i Hi. apply (proj1 (ids_told_ok seen) C3).
    apply (iterates_seen _ _ _ _ I P2). auto. }
  rewrite M in SM. apply told_inl, abind_inl in SM as (m3 & SX & SM). assert (m3 = m) as -> by congruence.
  rewrite SX. cbn [abind].
  destruct check; [|apply finish].
  apply (step_all _ _ [no_root c V w h; unsound_chip c V w h] []); [apply validate_reads; auto|intros; apply finish].
Qed.

(** The cores of the text are known when its items are all right. *)
Lemma cores_known v text : (forall e t, ~ bad_items text (core_fault v) e t) -> exists cores, says_cores v text cores.
Proof.
  intros N. destruct (cores_told v text) as [l|[e t]] eqn:C.
  - assert (parse_cores v text = Ok l) as P.
    { destruct C91_same_parsers as (_ & _ & PR & _). rewrite <- PR, C. reflexivity. }
    eapply cores_read; eauto.
  - exfalso. apply (N e t), cores_read_. auto.
Qed.

(** Whatever virtual_machine raises, in whatever order the set of down cores is gone through, its
    class and text describe the first thing that is wrong. *)
Theorem C97_first_problem : forall seen c V w h check, iterates (v_id V) (cfg_down_cores c) seen ->
  forall e t, virtual_machine_told seen c V w h check = inr (e, t) -> first_violated (virtual_demands c V w h check) e t.
Proof.
  intros seen c V w h check I e t H. apply virtual_seen in H; auto. revert H. unfold demands_seen, virtual_demands. cbn [app].
  rewrite !(violated_cons (bad_size _ _ _)), !(violated_cons (bad_items (cfg_down_chips c) _)),
    !(violated_cons (bad_items (cfg_down_cores c) _)).
  intros [X|[N1 [X|[N2 [X|[N3 X]]]]]]; [auto|auto|auto 9|]. right. split; auto. right. split; auto. right. split; auto.
  destruct (cores_known _ _ N3) as [cores S]. destruct I as [_ I]. specialize (I cores S).
  apply violated_cons in X. apply (proj2 (violated_cons (bad_core_id c V) _ _ _)). destruct X as [X|[N X]].
  - left. apply ids_told_wrong in X as (b & i & a & -> & _ & A & L & -> & ->). exists cores, i. split; auto.
    split; [apply I, in_elt|auto].
  - right. split; auto. intros e' t' (cores' & i & S' & J & A & L & -> & ->).
    destruct (ids_told seen) as [[]|[e1 t1]] eqn:T; [|exact (N e1 t1 eq_refl)].
    apply (proj1 (ids_told_ok seen)) with (i := i) in T; auto; [lia|]. apply I. apply (proj2 (proj2 (C85_one_meaning (v_id V) _)) _ _ S' S). auto.
Qed.
Print Assumptions C97_first_problem.

Lemma core_dec (a b : ignore_core) : {a = b} + {a <> b}.
Proof. decide equality; try apply Z.eq_dec. decide equality. apply string_dec. Defined.

Lemma some_order v text : exists seen, iterates v text seen.
Proof.
  destruct (cores_told v text) as [l|[e t]] eqn:C.
  - assert (parse_cores v text = Ok l) as P.
    { destruct C91_same_parsers as (_ & _ & PR & _). rewrite <- PR, C. reflexivity. }
    exists (nodup core_dec l). split; [apply NoDup_nodup|]. intros cores S i. rewrite nodup_In.
    destruct (cores_said _ _ _ S) as (l' & P' & L). assert (l' = l) as -> by congruence. apply L.
  - exists []. split; [constructor|]. intros cores S. destruct (cores_said _ _ _ S) as (l' & P' & L).
    destruct C91_same_parsers as (_ & _ & PR & _). rewrite <- PR, C in P'. discriminate P'.
Qed.

(** Conversely the first thing that is wrong is what is raised, when the set of down cores is gone
    through in some order (which matters for several ids beyond 17 only). *)
Theorem C97_is_told : forall c V w h check e t, first_violated (virtual_demands c V w h check) e t ->
  exists seen, iterates (v_id V) (cfg_down_cores c) seen /\ virtual_machine_told seen c V w h check = inr (e, t).
Proof.
  intros c V w h check e t. destruct (some_order (v_id V) (cfg_down_cores c)) as [seen I].
  assert (forall seen', iterates (v_id V) (cfg_down_cores c) seen' -> first_violated (demands_seen seen' c V w h check) e t ->
    exists seen, iterates (v_id V) (cfg_down_cores c) seen /\ virtual_machine_told seen c V w h check = inr (e, t)) as K.
  { intros s' I' F. exists s'. split; auto. apply virtual_seen; auto. }
  unfold virtual_demands, demands_seen in *. cbn [app] in *.
  rewrite (violated_cons (bad_size _ _ _)), (violated_cons (bad_items (cfg_down_chips c) _)),
    (violated_cons (bad_items (cfg_down_cores c) _)).
  intros [X|[N1 [X|[N2 [X|[N3 X]]]]]].
  - apply (K seen I). rewrite violated_cons. auto.
  - apply (K seen I). rewrite 2 violated_cons. auto.
  - apply (K seen I). rewrite 3 violated_cons. auto 8.
  - rewrite violated_cons in X. destruct X as [X|[N X]].
    + destruct X as (cores & i & S & J & A & L & -> & ->).
      apply (K (i :: remove core_dec i seen)).
      * destruct I as [ND I]. split.
        { constructor; [apply remove_In|]. clear -ND. induction ND as [|a l NI ND IH]; cbn [remove]; [constructor|].
          destruct (core_dec i a); auto. constructor; auto. intros X. apply in_remove in X as [X _]. auto. }
        intros cores' S' k. rewrite <- (I cores' S' k). cbn [In]. split.
        { intros [<-|X]; [apply (I cores S); auto|apply in_remove in X; tauto]. }
        intros X. destruct (core_dec i k) as [|NE]; [auto|]. right. apply in_in_remove; auto.
      * rewrite 4 violated_cons. right. split; auto. right. split; auto. right. split; auto. left. apply ids_told_first; auto.
    + apply (K seen I). rewrite 4 violated_cons. right. split; auto. right. split; auto. right. split; auto. right. split; auto.
      intros e' t' T. apply ids_told_wrong in T as (b & i & a & Q & _ & A & L & -> & ->).
      destruct (cores_known _ _ N3) as [cores S]. apply (N KeyError (dec (- ico_p i))). exists cores, i. split; auto.
      split; [apply (proj2 I cores S); rewrite Q; apply in_elt|auto].
Qed.
Print Assumptions C97_is_told.

(** A machine is returned exactly if nothing is wrong. *)
Theorem C97_nothing_wrong : forall c V w h check,
  (exists m, virtual_machine c V w h check = Ok m) <->
  (forall d e t, In d (virtual_demands c V w h check) -> ~ d e t).
Proof.
  intros c V w h check. rewrite <- none_violated. destruct (some_order (v_id V) (cfg_down_cores c)) as [seen I]. split.
  - intros (m & M) e t X. apply C97_is_told in X as (s' & I' & X). rewrite <- (C97_same_machine s'), X in M by auto. discriminate M.
  - intros N. rewrite <- (C97_same_machine seen) by auto.
    destruct (virtual_machine_told seen c V w h check) as [m|[e t]] eqn:X; [exists m; reflexivity|].
    exfalso. apply (N e t). eapply C97_first_problem; eauto.
Qed.
Print Assumptions C97_nothing_wrong.

(** With no id beyond 17, or one core with such an id, nothing depends on the order: what is raised is
    determined by the configuration. *)
Theorem C97_one_answer : forall seen seen' c V w h check,
  iterates (v_id V) (cfg_down_cores c) seen -> iterates (v_id V) (cfg_down_cores c) seen' ->
  (forall i j, In i seen -> In j seen -> ico_ip i = None -> ico_ip j = None -> ico_p i < -17 -> ico_p j < -17 -> ico_p i = ico_p j) ->
  virtual_machine_told seen c V w h check = virtual_machine_told seen' c V w h check.
Proof.
  intros seen seen' c V w h check I I' U.
  destruct (cores_told (v_id V) (cfg_down_cores c)) as [l|[e t]] eqn:C.
  2:{ unfold virtual_machine_told. cbv zeta. rewrite C. reflexivity. }
  assert (parse_cores (v_id V) (cfg_down_cores c) = Ok l) as P.
  { destruct C91_same_parsers as (_ & _ & PR & _). rewrite <- PR, C. reflexivity. }
  assert (ids_told seen = ids_told seen') as Q; [|unfold virtual_machine_told; rewrite Q; reflexivity].
  assert (S : forall i, In i seen <-> In i seen').
  { intros i. rewrite (iterates_seen _ _ _ _ I P), (iterates_seen _ _ _ _ I' P). tauto. }
  destruct (ids_told seen) as [[]|[e t]] eqn:A; destruct (ids_told seen') as [[]|[e' t']] eqn:B; auto.
  - apply ids_told_wrong in B as (b & i & r & -> & _ & D & L & _).
    apply (proj1 (ids_told_ok seen)) with (i := i) in A; [lia|apply S, in_elt|auto].
  - apply ids_told_wrong in A as (b & i & r & -> & _ & D & L & _).
    apply (proj1 (ids_told_ok seen')) with (i := i) in B; [lia|apply S, in_elt|auto].
  - apply ids_told_wrong in A as (b & i & r & -> & _ & D & L & -> & ->).
    apply ids_told_wrong in B as (b' & i' & r' & -> & _ & D' & L' & -> & ->).
    rewrite (U i i'); auto; [apply in_elt|apply S, in_elt].
Qed.
Print Assumptions C97_one_answer.

(** A version 5 machine of three boards; [dc] down cores, [dch] down chips, [dl] down links, [n] cores *)
Definition ask (dc dch dl : option string) (n w : Z) (seen : list ignore_core) : option (exn * string) :=
  match virtual_machine_told seen (mkConfig None None None None None None false dc dch dl None None None false)
          (mkVersion V5 n 123469792) w 12 true with
  | inl _ => None
  | inr p => Some p
  end.

Example C97_case :
  (** nothing is wrong *)
  ask None (Some "1,1:2,2") None 18 12 [] = None /\
  (** the size comes before the items, down chips before down cores, and these before down links *)
  ask (Some "a") (Some "b") (Some "c") 18 13 [] = Some (MachineExc, "width=13 must be a multiple of 12 or a multiple of 12 plus 4") /\
  ask (Some "a") (Some "1,1:b") (Some "c") 18 12 [] = Some (ValueError, "Unexpected downed_chip: b") /\
  ask (Some "a") (Some "1,1") (Some "c") 18 12 [] = Some (ValueError, "Unexpected downed_core: a") /\
  ask (Some "1,1,-18:2,2,-20") None (Some "c") 18 12 [mkIgnoreCore 1 1 (-18) None; mkIgnoreCore 2 2 (-20) None] = Some (KeyError, "18") /\
  ask (Some "1,1,-18:2,2,-20") None (Some "c") 18 12 [mkIgnoreCore 2 2 (-20) None; mkIgnoreCore 1 1 (-18) None] = Some (KeyError, "20") /\
  ask None None (Some "c") 18 12 [] = Some (ValueError, "Unexpected downed_link: c") /\
  (** what validate finds *)
  ask None (Some "0,0") None 18 12 [] = Some (MachineExc, "no ethernet chip at 0, 0 found") /\
  ask None (Some "8,4") None 18 12 [] =
    Some (MachineExc, "global chip 8, 5 on 127.0.0.0 is chip 0, 1  has an invalid ethernet chip") /\
  ask None (Some "8,4") None 3 12 [] =
    Some (MachineExc, "global chip 0, 0 on 127.0.0.0 is chip 0, 0 on 127.0.0.0 has too few cores found 3").
Proof.
  repeat (split; [vm_compute; reflexivity|]). vm_compute; reflexivity.
Qed.

(** Both orders of that set are ways to go through it. *)
Example C97_orders :
  iterates V5 (Some "1,1,-18:2,2,-20") [mkIgnoreCore 1 1 (-18) None; mkIgnoreCore 2 2 (-20) None] /\
  iterates V5 (Some "1,1,-18:2,2,-20") [mkIgnoreCore 2 2 (-20) None; mkIgnoreCore 1 1 (-18) None].
Proof.
  assert (forall seen, NoDup seen -> (forall i, In i seen <-> In i [mkIgnoreCore 1 1 (-18) None; mkIgnoreCore 2 2 (-20) None]) ->
    iterates V5 (Some "1,1,-18:2,2,-20") seen) as K.
  { intros seen N S. split; auto. intros cores C i. rewrite S. destruct (cores_said _ _ _ C) as (l & P & L). rewrite <- (L i).
    vm_compute in P. injection P as <-. reflexivity. }
  split; apply K.
  - constructor; [|constructor; [intros []|constructor]]. intros [X|[]]. discriminate X.
  - reflexivity.
  - constructor; [|constructor; [intros []|constructor]]. intros [X|[]]. discriminate X.
  - intros i. cbn. tauto.
Qed.
