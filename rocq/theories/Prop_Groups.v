(** C103: groups of versions that a program changes. *)
From Coq Require Import Lia.
From Verif Require Import Model_Py Model_Version Model_Str Model_Factory Model_Groups Spec_Board Spec_Version
  Spec_Factory Spec_Groups Proof_Py Proof_Factory Prop_Factory.
Open Scope list_scope.
Open Scope Z_scope.

Lemma set_nth_nth {A} (f : A -> A) l : forall i j, nth_error (set_nth l i f) j =
  if Nat.eqb i j then option_map f (nth_error l j) else nth_error l j.
Proof.
  induction l as [|a l IH]; intros [|i] [|j]; cbn; try reflexivity; [destruct (Nat.eqb i j); reflexivity|apply IH].
Qed.
Lemma set_nth_length {A} (f : A -> A) l : forall i, List.length (set_nth l i f) = List.length l.
Proof. induction l as [|a l IH]; intros [|i]; cbn; auto. Qed.

Lemma run_snoc evs e : group_run (evs ++ [e]) = group_step (group_run evs) e.
Proof. unfold group_run. apply fold_left_app. Qed.

Lemma five evs : List.length (group_run evs) = 5%nat.
Proof.
  induction evs as [|e evs IH] using rev_ind; [reflexivity|]. rewrite run_snoc.
  destruct e; cbn [group_step]; rewrite ?set_nth_length; exact IH.
Qed.

Lemma last_kept evs i l e : list_last_put evs i l -> (forall l', e <> ChangeOptions i l') -> list_last_put (evs ++ [e]) i l.
Proof.
  intros [(b & r & E & N)|(N & X)] D.
  - left. exists b, (r ++ [e]). split; [rewrite E, <- app_assoc; reflexivity|]. intros l' I.
    apply in_app_iff in I as [I|[I|[]]]; [exact (N l' I)|exact (D l' I)].
  - right. split; [|exact X]. intros l' I. apply in_app_iff in I as [I|[I|[]]]; [exact (N l' I)|exact (D l' I)].
Qed.
Lemma text_kept evs i s e : text_last_set evs i s -> (forall s', e <> SetText i s') -> text_last_set (evs ++ [e]) i s.
Proof.
  intros [(b & r & E & N)|(N & X)] D.
  - left. exists b, (r ++ [e]). split; [rewrite E, <- app_assoc; reflexivity|]. intros l' I.
    apply in_app_iff in I as [I|[I|[]]]; [exact (N l' I)|exact (D l' I)].
  - right. split; [|exact X]. intros l' I. apply in_app_iff in I as [I|[I|[]]]; [exact (N l' I)|exact (D l' I)].
Qed.

(** C103.  After any history every member has the list last put into it and the text last set:
    a change to one never changes another, though two of them have the same versions. *)
Theorem C103_own_lists :
  forall evs i, (i < 5)%nat -> exists s l,
    nth_error (group_run evs) i = Some (s, l) /\ text_last_set evs i s /\ list_last_put evs i l.
Proof.
  intros evs i L. induction evs as [|e evs IH] using rev_ind.
  - destruct i as [|[|[|[|[|i]]]]]; [..|lia];
    (eexists; eexists; split; [reflexivity|]; split; (right; split; [intros ? []|];
      eexists; eexists; split; [reflexivity|]; try reflexivity; apply shorten_loosely; vm_compute; reflexivity)).
  - destruct IH as (s & l & E & T & O). rewrite run_snoc. destruct e as [j l'|j s'|c minor]; cbn [group_step].
    + rewrite set_nth_nth. destruct (Nat.eqb_spec j i) as [->|N].
      * rewrite E. exists s, l'. split; [reflexivity|]. split; [apply text_kept; [exact T|discriminate]|].
        left. exists evs, []. split; [reflexivity|]. intros ? [].
      * exists s, l. split; [exact E|]. split; [apply text_kept; [exact T|discriminate]|]. apply last_kept; [exact O|congruence].
    + rewrite set_nth_nth. destruct (Nat.eqb_spec j i) as [->|N].
      * rewrite E. exists s', l. split; [reflexivity|]. split; [|apply last_kept; [exact O|discriminate]].
        left. exists evs, []. split; [reflexivity|]. intros ? [].
      * exists s, l. split; [exact E|]. split; [apply text_kept; [exact T|congruence]|apply last_kept; [exact O|discriminate]].
    + exists s, l. split; [exact E|]. split; [apply text_kept; [exact T|discriminate]|apply last_kept; [exact O|discriminate]].
Qed.
Print Assumptions C103_own_lists.

(** A name of a group stands for the first member whose text, as it is now, is the same but for
    case, blanks, - and _; for none of them it raises. *)
Theorem C103_names :
  forall evs s,
    (forall l, options_now (group_run evs) s = Ok l <->
       exists i text, nth_error (group_run evs) i = Some (text, l) /\ loosely s text /\
         forall j t' l', (j < i)%nat -> nth_error (group_run evs) j = Some (t', l') -> ~ loosely s t') /\
    (forall e, options_now (group_run evs) s = Err e <->
       e = MachineExc /\ forall i text l, nth_error (group_run evs) i = Some (text, l) -> ~ loosely s text).
Proof.
  intros evs s. unfold options_now. generalize (group_run evs) as g. intros g.
  assert (forall m : string * list Z, String.eqb (shorten s) (shorten (fst m)) = true <-> loosely s (fst m)) as K.
  { intros m. rewrite String.eqb_eq. apply shorten_loosely. }
  induction g as [|[t l0] g [IH1 IH2]]; cbn [find].
  - split; intros x; split; try discriminate.
    + intros ([|i] & t & E & _); discriminate E.
    + intros H. injection H as <-. split; [reflexivity|]. intros [|i] t l E; discriminate E.
    + intros [-> _]. reflexivity.
  - destruct (String.eqb (shorten s) (shorten (fst (t, l0)))) eqn:E.
    + apply K in E. cbn [fst snd] in *. split.
      * intros l. split.
        -- intros H. injection H as <-. exists 0%nat, t. split; [reflexivity|]. split; [exact E|]. intros j t' l' H. lia.
        -- intros ([|i] & t' & H & S & N); [cbn in H; congruence|]. exfalso. apply (N 0%nat t l0); [lia|reflexivity|exact E].
      * intros e. split; [discriminate|]. intros [_ N]. exfalso. apply (N 0%nat t l0); [reflexivity|exact E].
    + assert (~ loosely s t) as NS by (intros H; apply (K (t, l0)) in H; congruence). split.
      * intros l. rewrite IH1. split.
        -- intros (i & t' & H & S & N). exists (Datatypes.S i), t'. split; [exact H|]. split; [exact S|]. intros [|j] t2 l2 L H2; [|apply (N j t2 l2); [lia|exact H2]].
           cbn in H2. injection H2 as <- <-. exact NS.
        -- intros ([|i] & t' & H & S & N); [cbn in H; injection H as <- <-; contradiction|]. exists i, t'. split; [exact H|]. split; [exact S|].
           intros j t2 l2 L H2. apply (N (Datatypes.S j) t2 l2); [lia|exact H2].
      * intros e. rewrite IH2. split.
        -- intros [-> N]. split; [reflexivity|]. intros [|i] t' l' H; [cbn in H; injection H as <- <-; exact NS|exact (N i t' l' H)].
        -- intros [-> N]. split; [reflexivity|]. intros i t' l' H. exact (N (Datatypes.S i) t' l' H).
Qed.
Print Assumptions C103_names.

(** version_factory with a group gives what it would give with the version number that the
    group has at the place of the Python version, modulo the length of the list as it is now. *)
Theorem C103_group_is_a_version :
  forall evs c minor s l, let g := group_run evs in
    cfg_version c = None -> cfg_versions c = Some s -> options_now g s = Ok l ->
    (l <> [] -> exists n, nth_error l (Z.to_nat (minor mod Z.of_nat (List.length l))) = Some n /\
       version_factory_now g c minor = version_factory (with_version c n) minor) /\
    (l = [] -> version_factory_now g c minor = Err ZeroDivision).
Proof.
  intros evs c minor s l g V S O.
  assert (get_cfg_version_now g c minor = if Z.of_nat (List.length l) =? 0 then Err ZeroDivision else
    do v <- py_index l (minor mod Z.of_nat (List.length l)) ; Ok (Some v)) as G.
  { unfold get_cfg_version_now. rewrite S, V, O. reflexivity. }
  split.
  - intros NE. assert (0 < Z.of_nat (List.length l)) as P by (destruct l; [congruence|cbn; lia]).
    pose proof (Z.mod_pos_bound minor _ P) as B. set (k := minor mod Z.of_nat (List.length l)) in *.
    destruct (nth_error l (Z.to_nat k)) as [n|] eqn:N; [|apply nth_error_None in N; lia].
    exists n. split; [reflexivity|].
    assert (Z.of_nat (List.length l) =? 0 = false) as Z0 by lia. rewrite Z0 in G.
    assert (py_index l k = Ok n) as PI.
    { unfold py_index. assert (k <? 0 = false) as -> by lia. assert (Z.of_nat (List.length l) <=? k = false) as -> by lia.
      cbn [orb]. assert (k <? 0 = false) as -> by lia. cbn [orb]. rewrite N. reflexivity. }
    rewrite PI in G. cbn [bind] in G. unfold version_factory_now, version_factory. rewrite G. destruct c; reflexivity.
  - intros ->. cbn in G. unfold version_factory_now. rewrite G. reflexivity.
Qed.
Print Assumptions C103_group_is_a_version.

(** All that version_factory can do with a group after any history: it returns the version that
    agrees with the number picked from the current list and with the other settings; else it
    raises, and a ZeroDivisionError only for an emptied list. *)
Theorem C103_all_outcomes :
  forall evs c minor s, let g := group_run evs in
    cfg_version c = None -> cfg_versions c = Some s ->
    (forall V, version_factory_now g c minor = Ok V <->
       exists l n, options_now g s = Ok l /\ nth_error l (Z.to_nat (minor mod Z.of_nat (List.length l))) = Some n /\
         consistent (with_version c n) minor (v_id V) /\ new_version c (v_id V) = Ok V /\
         ~ (v_id V = V248 /\ cfg_width c <> None)) /\
    (forall e, version_factory_now g c minor = Err e ->
       e = MachineExc \/ (e = ZeroDivision /\ options_now g s = Ok [])).
Proof.
  intros evs c minor s g V S.
  assert (forall n v, new_version (with_version c n) v = new_version c v) as NV.
  { intros n v. destruct c, v; reflexivity. }
  assert (forall e, options_now g s = Err e -> version_factory_now g c minor = Err e) as B.
  { intros e E. unfold version_factory_now, get_cfg_version_now. rewrite S, V, E. reflexivity. }
  destruct (options_now g s) as [l|e] eqn:O.
  - destruct (C103_group_is_a_version evs c minor s l V S O) as [P Z0]. fold g in P, Z0.
    destruct l as [|a l].
    + rewrite (Z0 eq_refl). split.
      * intros W. split; [discriminate|]. intros (l' & n & E & N & _). injection E as <-.
        destruct (Z.to_nat _) in N; discriminate N.
      * intros e [= <-]. right. auto.
    + destruct P as (n & N & E); [discriminate|]. rewrite E. split.
      * intros W. rewrite C18_returned_version, NV. change (cfg_width (with_version c n)) with (cfg_width c). split.
        -- intros H. exists (a :: l), n. auto.
        -- intros (l' & n' & E' & N' & H). injection E' as <-. congruence.
      * intros e H. left. exact (C18_otherwise_raises _ _ _ H).
  - rewrite (B e eq_refl). split.
    + intros W. split; [discriminate|]. intros (l' & n & E & _). discriminate E.
    + intros e' [= <-]. left. apply (C103_names evs s) in O. tauto.
Qed.
Print Assumptions C103_all_outcomes.

(** As long as nothing is done to the members, and always when the cfg has no group,
    version_factory is what it is for a fresh program, however often it has run. *)
Theorem C103_repeatable :
  forall evs c minor, left_alone evs \/ cfg_versions c = None ->
    version_factory_now (group_run evs) c minor = version_factory c minor.
Proof.
  intros evs c minor [L|N].
  - assert (group_run evs = groups_at_import) as ->; [|reflexivity].
    induction evs as [|e evs IH] using rev_ind; [reflexivity|]. rewrite run_snoc.
    destruct (L e) as (c' & m & ->); [apply in_app_iff; cbn; auto|]. cbn [group_step]. apply IH.
    intros e I. apply L, in_app_iff. auto.
  - unfold version_factory_now, version_factory, get_cfg_version_now, get_cfg_version. rewrite N. reflexivity.
Qed.
Print Assumptions C103_repeatable.

(** The options are not read only, as a comment in the code has it: a program that appends to
    the list it was given changes what version_factory makes of the same cfg. *)
Theorem C103_read_only_refuted :
  exists l c minor, options_of groups_at_import 4 = Some [5] /\ l = [5] ++ [248] /\
    version_factory_now (group_run []) c minor <> version_factory_now (group_run [ChangeOptions 4 l]) c minor /\
    (exists v, version_factory_now (group_run [ChangeOptions 4 l]) c minor = Ok v).
Proof.
  exists [5; 248], (mkConfig None (Some "With FPGAs"%string) None None None None false None None None None None None false), 11.
  split; [reflexivity|]. split; [reflexivity|]. split; [vm_compute; discriminate|]. vm_compute. eauto.
Qed.
Print Assumptions C103_read_only_refuted.

(** Not vacuous: the list of the last group is changed, then a run; the others stay.  A group
    whose list has been emptied. *)
Example C103_case :
  let c := mkConfig None (Some "b-i_G"%string) None None None None false None None None None None None false in
  let evs := [ChangeOptions 3 [3]; RunFactory c 11; SetText 4 "fpga"; ChangeOptions 2 []] in
  options_now (group_run evs) "Eight By EIGTH" = Ok [3] /\ options_now (group_run evs) "FPGA" = Ok [5] /\
  options_now (group_run evs) "with fpgas" = Err MachineExc /\
  version_factory_now (group_run evs) c 11 = Err ZeroDivision /\
  version_factory_now (group_run [ChangeOptions 3 [3]]) c 11 = version_factory (with_version c 248) 11 /\
  version_factory_now (group_run [ChangeOptions 3 [3]]) c 11 = new_version c V248.
Proof. vm_compute. auto 10. Qed.
