(** C50 and C52, exactly: which version and which map are known after any history, and what
    the calls that use them answer. *)
From Coq Require Import Lia String.
From Verif Require Import Model_Py Model_Version Model_Core Model_Machine Model_Factory Model_Virtual Model_Text
  Model_View Spec_View Proof_View Prop_View.
Open Scope list_scope.
Open Scope Z_scope.

Lemma quads_true v : dict_true (quads_maps (v_id v)) = has_quads v.
Proof. unfold has_quads. destruct (v_id v); reflexivity. Qed.

Lemma version_after_snoc tr t : version_after (tr ++ [t]) =
    if forgets_all (op_of t) then None
    else match version_after tr with
         | Some v => Some v
         | None =>
             if reads_version (op_of t) then
               match version_factory (e_config (env_of t)) (e_minor (env_of t)) with Ok v => Some v | Err _ => None end
             else None
         end.
Proof. unfold version_after. rewrite fold_left_app. reflexivity. Qed.

Lemma map_after_snoc tr t : map_after (tr ++ [t]) =
    match op_of t, res_of t with
    | SetVtoP m, Ok _ => Some m
    | _, _ => if resets (op_of t) then None else map_after tr
    end.
Proof. unfold map_after. rewrite fold_left_app. reflexivity. Qed.

Definition held (tr : trace) (d : data) : Prop :=
  d_version d = version_after tr /\ d_v_to_p d = map_after tr /\
  d_quad_map d = match d_version d with Some v => quads_maps (v_id v) | None => None end.

Lemma read_version e d d' r :
  d_quad_map d = (match d_version d with Some v => quads_maps (v_id v) | None => None end) ->
  get_machine_version e d = (d', r) ->
  d_version d' = match d_version d with
                 | Some v => Some v
                 | None => match version_factory (e_config e) (e_minor e) with Ok v => Some v | Err _ => None end
                 end /\
  d_quad_map d' = (match d_version d' with Some v => quads_maps (v_id v) | None => None end).
Proof.
  unfold get_machine_version. intros Q. destruct (d_version d) as [v|] eqn:V.
  - intros [= <- <-]. rewrite V. auto.
  - destruct (version_factory _ _) as [v|x].
    + cbn. destruct (_ && _); intros [= <- <-]; auto.
    + intros [= <- <-]. rewrite V. auto.
Qed.

Lemma held_step pre d t d' : held pre d -> mstep d t d' -> held (pre ++ [t]) d'.
Proof.
  intros (V & M & Q) H. unfold held. rewrite version_after_snoc, map_after_snoc, <- V, <- M. clear V M.
  destruct t as [[e o] r]. unfold mstep in H. cbn [op_of env_of res_of fst snd] in *.
  destruct H as [H|[A ->]].
  - destruct o; cbn [plain_step] in H; try discriminate H;
    try (match type of H with Some (?a, ?b) = Some (?c, ?e) => assert (a = c) as <- by congruence; assert (b = e) as <- by congruence; clear H end;
         cbn; split; [reflexivity || (destruct (d_version d); reflexivity)|]; split; [reflexivity|auto]; fail).
    + destruct (get_machine_version e d) as [d1 r1] eqn:E.
      assert (d1 = d') as -> by congruence. destruct (read_version _ _ _ _ Q E) as [A B].
      destruct (version_cases _ _ _ _ E) as (_ & _ & _ & _ & _ & C). cbn. destruct (d_version d); auto.
    + destruct (set_v_to_p_map d map) as [d1 r1] eqn:E.
      assert (d1 = d') as -> by congruence. assert (r = vmap (fun _ => VNone) r1) as -> by congruence.
      apply vtop_cases in E as (_ & _ & _ & _ & _ & A & B & C). rewrite A, B. cbn.
      split; [destruct (d_version d); reflexivity|]. split; [|auto].
      destruct C as [((u & ->) & _ & C & _)|[-> C]]; cbn; auto.
    + destruct (get_physical_quad e d p) as [d1 r1] eqn:E.
      assert (d1 = d') as -> by congruence.
      destruct (quad_cases _ _ _ _ _ E) as (_ & _ & _ & _ & _ & C). cbn.
      unfold get_physical_quad in E. destruct (d_quad_map d) as [q|] eqn:DQ.
      * assert (d = d') as <- by congruence. destruct (d_version d) eqn:DV; [|discriminate Q].
        rewrite DQ. auto.
      * destruct (get_machine_version e d) as [d2 r2] eqn:G.
        destruct (read_version e d d2 r2) as [A B]; [congruence|exact G|].
        assert (d2 = d') as ->. { destruct r2; [destruct (d_quad_map d2)|]; congruence. }
        destruct (d_version d); auto.
    + destruct m; match type of H with Some (?a, ?b) = Some (?c, ?e) => assert (a = c) as <- by congruence; assert (b = e) as <- by congruence; clear H end;
      cbn; destruct (d_version d) eqn:DV; auto.
    + destruct g; match type of H with Some (?a, ?b) = Some (?c, ?e) => assert (a = c) as <- by congruence; assert (b = e) as <- by congruence; clear H end;
      cbn; destruct (d_version d) eqn:DV; auto.
  - destruct o; try discriminate A; unfold touch; destruct (e_user_mode e); cbn; destruct (d_version d) eqn:DV; auto.
Qed.

Lemma reach_held tr d : reach tr d -> held tr d.
Proof.
  intros H. apply runs_micro in H. apply (micro_ind held held_step _ _ _ H []). repeat split.
Qed.

(** The exact answer of get_machine_version after any history. *)
Theorem C52_exact :
  forall tr d e tr' d' r, reach tr d -> call e d GetMachineVersion tr' d' r ->
  r = match version_after tr with
      | Some v => Ok (VVersion v)
      | None =>
          match version_factory (e_config e) (e_minor e) with
          | Err x => Err x
          | Ok v => match map_after tr with
                    | Some (_ :: _) => if has_quads v then Err MachineExc else Ok (VVersion v)
                    | _ => Ok (VVersion v)
                    end
          end
      end.
Proof.
  intros tr d e tr' d' r R H. destruct (reach_held _ _ R) as (V & M & Q).
  apply call_plain in H as [_ H]; [|reflexivity]. cbn in H. unfold get_machine_version in H.
  rewrite <- V, <- M. destruct (d_version d) as [v|]; [cbn in H; congruence|].
  destruct (version_factory _ _) as [v|x]; [|cbn in H; congruence]. cbn [d_quad_map d_v_to_p] in H. rewrite quads_true in H.
  destruct (d_v_to_p d) as [[|a m]|]; cbn [dict_true] in H; rewrite ?Bool.andb_false_r, ?Bool.andb_true_r in H; [cbn in H; congruence| |cbn in H; congruence].
  destruct (has_quads v); cbn in H; congruence.
Qed.
Print Assumptions C52_exact.

(** When set_v_to_p_map works: no map since the last reset, and no version with quads known. *)
Theorem C50_when_set :
  forall tr d e m tr' d' r, reach tr d -> call e d (SetVtoP m) tr' d' r ->
  r = match version_after tr, map_after tr with
      | Some v, None => if has_quads v then Err MachineExc else Ok VNone
      | None, None => Ok VNone
      | _, Some _ => Err MachineExc
      end.
Proof.
  intros tr d e m tr' d' r R H. destruct (reach_held _ _ R) as (V & M & Q).
  apply call_plain in H as [_ H]; [|reflexivity]. cbn in H. unfold set_v_to_p_map in H.
  rewrite <- V, <- M. rewrite Q in H. destruct (d_version d) as [v|].
  - rewrite quads_true in H. destruct (has_quads v), (d_v_to_p d); cbn in H; congruence.
  - cbn [dict_true] in H. destruct (d_v_to_p d); cbn in H; congruence.
Qed.
Print Assumptions C50_when_set.

(** get_physical_core_id after any history; a negative core counts from the end. *)
Theorem C50_core_id_exact :
  forall tr d e xy p tr' d' r, reach tr d -> call e d (GetPhysicalCoreId xy p) tr' d' r ->
  match map_after tr with
  | None => r = Err DataNotAvailable
  | Some m =>
      match dget xy_eqb m xy with
      | None => r = Err KeyError
      | Some l =>
          let n := Z.of_nat (List.length l) in
          (exists before b after, l = before ++ b :: after /\ r = Ok (VInt b) /\
             (p = Z.of_nat (List.length before) \/ p = Z.of_nat (List.length before) - n)) \/
          (r = Err IndexError /\ (p < - n \/ n <= p))
      end
  end.
Proof.
  intros tr d e xy p tr' d' r R H. destruct (reach_held _ _ R) as (V & M & Q).
  apply call_plain in H as [_ H]; [|reflexivity]. cbn in H. rewrite <- M. unfold get_physical_core_id in H.
  destruct (d_v_to_p d) as [m|]; [|cbn in H; congruence]. unfold dgetitem in H.
  destruct (dget xy_eqb m xy) as [l|]; [|cbn in H; congruence]. cbn [bind] in H. cbv zeta.
  set (n := Z.of_nat (List.length l)).
  assert (IN : forall j, 0 <= j < n -> exists before b after, l = before ++ b :: after /\
     nth_error l (Z.to_nat j) = Some b /\ j = Z.of_nat (List.length before)).
  { intros j J. destruct (nth_error l (Z.to_nat j)) as [b|] eqn:E.
    - pose proof (nth_error_split _ _ E) as (b1 & a1 & -> & L). exists b1, b, a1. repeat split; auto. lia.
    - apply nth_error_None in E. unfold n in J. lia. }
  unfold py_index in H. fold n in H.
  assert (forall j, 0 <= j < n -> (j = p \/ j = p + n) -> Some (d, vmap VInt (match nth_error l (Z.to_nat j) with Some a => Ok a | None => Err IndexError end)) = Some (d', r) ->
    exists before b after, l = before ++ b :: after /\ r = Ok (VInt b) /\
             (p = Z.of_nat (List.length before) \/ p = Z.of_nat (List.length before) - n)) as K.
  { intros j J JP E. destruct (IN j J) as (b1 & b & a1 & L & N & J2). rewrite N in E. cbn in E.
    exists b1, b, a1. split; [exact L|]. split; [congruence|]. lia. }
  destruct (p <? 0) eqn:P0; [apply Z.ltb_lt in P0|apply Z.ltb_ge in P0].
  - destruct ((p + n <? 0) || (n <=? p + n)) eqn:B.
    + right. cbn in H. split; [congruence|]. apply Bool.orb_true_iff in B as [B|B]; [apply Z.ltb_lt in B|apply Z.leb_le in B]; lia.
    + left. apply Bool.orb_false_iff in B as [B1 B2]. apply Z.ltb_ge in B1. apply Z.leb_gt in B2.
      apply (K (p + n)); [lia|lia|exact H].
  - destruct ((p <? 0) || (n <=? p)) eqn:B.
    + right. cbn in H. split; [congruence|]. apply Bool.orb_true_iff in B as [B|B]; [apply Z.ltb_lt in B|apply Z.leb_le in B]; lia.
    + left. apply Bool.orb_false_iff in B as [B1 B2]. apply Z.ltb_ge in B1. apply Z.leb_gt in B2.
      apply (K p); [lia|lia|exact H].
Qed.
Print Assumptions C50_core_id_exact.

(** get_physical_string is the text of the physical id when a map is held, else of the quad
    when a version with quads is known, and empty in all other cases; it never raises, never
    reads the version and changes nothing. *)
Theorem C50_physical_string :
  forall tr d e xy p tr' d' r, reach tr d -> call e d (GetPhysicalString xy p) tr' d' r ->
  d' = d /\
  exists s, r = Ok (VStr s) /\
  match map_after tr, version_after tr with
  | Some _, _ =>
      forall t1 d1 r1, call e d (GetPhysicalCoreId xy p) t1 d1 r1 ->
      (exists n, r1 = Ok (VInt n) /\ s = cat [" (ph: "; dec n; ")"]%string) \/
      (exists x, r1 = Err x) /\ s = EmptyString
  | None, Some _ =>
      forall t1 d1 r1, call e d (GetPhysicalQuad p) t1 d1 r1 ->
      (exists x y q, r1 = Ok (VQuad (x, y, q)) /\ s = cat [" (qpe:"; dec x; ", "; dec y; ", "; dec q; ")"]%string) \/
      (exists x, r1 = Err x) /\ s = EmptyString
  | None, None => s = EmptyString
  end.
Proof.
  intros tr d e xy p tr' d' r R H. destruct (reach_held _ _ R) as (V & M & Q).
  apply call_plain in H as [_ H]; [|reflexivity]. cbn in H.
  split; [congruence|]. exists (get_physical_string d xy p). split; [congruence|]. clear H tr' d' r.
  rewrite <- V, <- M. unfold get_physical_string. destruct (d_v_to_p d) as [m|] eqn:DM.
  - intros t1 d1 r1 C. apply call_plain in C as [_ C]; [|reflexivity]. cbn in C.
    destruct (get_physical_core_id d xy p) as [n|x]; cbn in C; [left; exists n|right]; split; try congruence.
    exists x. congruence.
  - destruct (d_version d) as [v|] eqn:DV; [|rewrite Q; reflexivity].
    intros t1 d1 r1 C. apply call_plain in C as [_ C]; [|reflexivity]. cbn in C. unfold get_physical_quad in C.
    destruct (d_quad_map d) as [q|] eqn:DQ.
    + destruct (dgetitem Z.eqb q p) as [[[x y] k]|x]; cbn in C.
      * left. exists x, y, k. split; [congruence|reflexivity].
      * right. split; [exists x; congruence|reflexivity].
    + right. split; [|reflexivity].
      destruct (get_machine_version e d) as [d2 r2] eqn:G. destruct (read_version e d d2 r2) as [A B]; [rewrite DQ, DV; exact Q|exact G|].
      rewrite DV in A. rewrite A in B. rewrite <- Q in B. destruct r2 as [v2|x2]; rewrite ?B in C; cbn in C; [exists DataNotAvailable|exists x2]; congruence.
Qed.
Print Assumptions C50_physical_string.

(** After the clash was reported once both maps are held and every later call works: the
    claim that the two are exclusive is false without the condition on the history. *)
Theorem C50_always_exclusive_refuted :
  ~ (forall tr d e xy p tr1 d1 n e' p' tr2 d2 q, reach tr d ->
       call e d (GetPhysicalCoreId xy p) tr1 d1 (Ok n) -> call e' d (GetPhysicalQuad p') tr2 d2 (Ok q) -> False).
Proof.
  intros H. destruct C50_exclusive_refuted as (tr & d & R & _ & (d1 & tr1 & n & C1) & (d2 & tr2 & q & C2)).
  exact (H _ _ _ _ _ _ _ _ _ _ _ _ _ R C1 C2).
Qed.
Print Assumptions C50_always_exclusive_refuted.

(** The two histories: a map set and used, and a version with quads read first. *)
Example C50_case_map :
  option_map (fun x => (map (fun t => res_of t) (fst x)))
    (exec_all data_new [(demo_env 5, SetVtoP [((0, 0), [0; 5])]); (demo_env 5, GetPhysicalString (0, 0) 1);
       (demo_env 5, GetPhysicalString (0, 0) 2); (demo_env 5, HardReset); (demo_env 5, GetPhysicalString (0, 0) 1);
       (demo_env 5, SetVtoP [])]) =
  Some [Ok VNone; Ok (VStr " (ph: 5)"); Ok (VStr ""); Ok VNone; Ok (VStr ""); Ok VNone].
Proof. vm_compute. reflexivity. Qed.
Example C50_case_quads :
  option_map (fun x => (map (fun t => res_of t) (fst x)))
    (exec_all data_new [(demo_env 248, GetPhysicalString (0, 0) 1); (demo_env 248, GetPhysicalQuad 1);
       (demo_env 248, GetPhysicalString (0, 0) 1); (demo_env 248, SetVtoP []); (demo_env 248, HardReset);
       (demo_env 5, SetVtoP []); (demo_env 5, GetPhysicalString (0, 0) 200)]) =
  Some [Ok (VStr ""); Ok (VQuad (7, 6, 0)); Ok (VStr " (qpe:7, 6, 0)"); Err MachineExc; Ok VNone; Err MachineExc;
        Ok (VStr "")].
Proof. vm_compute. reflexivity. Qed.
