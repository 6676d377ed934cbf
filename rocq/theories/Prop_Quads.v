(** C16 (continued) and C70: where the cores of a Spin2 chip are. *)
From Coq Require Import Lia ZifyBool.
From Verif Require Import Model_Py Model_Version Model_Str Model_Virtual Model_Text Model_Mesh
  Proof_Wrap Proof_Py Proof_Board Proof_Version Prop_Version.
Open Scope list_scope.
Open Scope Z_scope.

(** ** C16 *)

(** The quads of a Spin2 chip: 7 columns and 6 rows, numbered from 1, with two holes
    of two quads each; each has four cores.  Core 0 is none of them: it has the made
    up coordinates (0, 0, 0). *)
Definition is_quad (qx qy : Z) : Prop :=
  1 <= qx <= 7 /\ 1 <= qy <= 6 /\ ~ ((qx = 4 \/ qx = 7) /\ (qy = 3 \/ qy = 4)).

Lemma quad_ids_check :
  forallb (fun qx => forallb (fun qy =>
    if negb (((qx =? 4) || (qx =? 7)) && ((qy =? 3) || (qy =? 4))) then
      match dget qqq_eqb reverse_quad_map (qx, qy, 0) with
      | Some id => (id mod 4 =? 1) && forallb (fun qp => match dget qqq_eqb reverse_quad_map (qx, qy, qp) with
                                     | Some i => i =? id + qp | None => false end) (zrange 0 4)
      | None => false
      end
    else true) (zrange 1 7)) (zrange 1 8) = true.
Proof. vm_compute. reflexivity. Qed.

Lemma quad_coords_check :
  forallb (fun e => let '(qx, qy, qp) := fst e in
    (qqq_eqb (qx, qy, qp) (0, 0, 0)) ||
    ((1 <=? qx) && (qx <=? 7) && (1 <=? qy) && (qy <=? 6) && (0 <=? qp) && (qp <=? 3) &&
     negb (((qx =? 4) || (qx =? 7)) && ((qy =? 3) || (qy =? 4))))) reverse_quad_map = true.
Proof. vm_compute. reflexivity. Qed.

(** Exactly these coordinates have an id, and the four cores of a quad have ids in a
    row, the first one 1 more than a multiple of 4. *)
Theorem C16_quads_on_the_mesh :
  forall v, v = V201 \/ v = V248 ->
    (forall qx qy qp,
      (exists id, qx_qy_qp_to_id v qx qy qp = Ok id) <->
      (qx, qy, qp) = (0, 0, 0) \/ (is_quad qx qy /\ 0 <= qp <= 3)) /\
    qx_qy_qp_to_id v 0 0 0 = Ok 0 /\
    (forall qx qy, is_quad qx qy ->
      exists id, id mod 4 = 1 /\
        forall qp, 0 <= qp <= 3 -> qx_qy_qp_to_id v qx qy qp = Ok (id + qp)).
Proof.
  intros v Hv.
  assert (forall x y p, qx_qy_qp_to_id v x y p = dgetitem qqq_eqb reverse_quad_map (x, y, p)) as E
    by (destruct Hv as [->| ->]; reflexivity).
  assert (forall qx qy, is_quad qx qy -> exists id, id mod 4 = 1 /\
        forall qp, 0 <= qp <= 3 -> qx_qy_qp_to_id v qx qy qp = Ok (id + qp)) as Q.
  { intros qx qy (H1 & H2 & H3). pose proof quad_ids_check as F. rewrite forallb_forall in F.
    specialize (F qx (proj2 (in_zrange 1 8 qx) ltac:(lia))). rewrite forallb_forall in F.
    specialize (F qy (proj2 (in_zrange 1 7 qy) ltac:(lia))).
    assert (negb (((qx =? 4) || (qx =? 7)) && ((qy =? 3) || (qy =? 4))) = true) as N by lia. rewrite N in F.
    destruct (dget qqq_eqb reverse_quad_map (qx, qy, 0)) as [id|]; [|discriminate].
    apply andb_true_iff in F as [F1 F2]. exists id. split; [lia|]. intros qp Hp. rewrite forallb_forall in F2.
    specialize (F2 qp (proj2 (in_zrange 0 4 qp) ltac:(lia))). rewrite E. unfold dgetitem.
    destruct (dget qqq_eqb reverse_quad_map (qx, qy, qp)) as [i|]; [|discriminate].
    apply Z.eqb_eq in F2. congruence. }
  split; [|split; [rewrite E; reflexivity|exact Q]].
  intros qx qy qp. split.
  - intros [id H]. rewrite E in H. unfold dgetitem in H.
    destruct (dget qqq_eqb reverse_quad_map (qx, qy, qp)) as [i|] eqn:G; [|discriminate].
    apply (dget_in qqq_eqb qqq_eq) in G. pose proof quad_coords_check as F. rewrite forallb_forall in F.
    specialize (F _ G). cbn [fst] in F. apply orb_true_iff in F as [F|F]; [left; apply qqq_eq; auto|].
    right. unfold is_quad. lia.
  - intros [[= -> -> ->]|[H1 H2]]; [exists 0; rewrite E; reflexivity|].
    destruct (Q qx qy H1) as (id & _ & H). exists (id + qp). auto.
Qed.
Print Assumptions C16_quads_on_the_mesh.

Example C16_mesh_case :
  is_quad 7 6 /\ is_quad 4 2 /\ ~ is_quad 4 3 /\ ~ is_quad 0 0 /\
  qx_qy_qp_to_id V201 7 6 3 = Ok 4 /\ qx_qy_qp_to_id V201 4 3 0 = Err KeyError.
Proof. unfold is_quad. repeat split; try lia; vm_compute; reflexivity. Qed.

(** ** C70 *)

(** A line of the file of the manufacturer. *)
Definition mesh_text (id x y p : Z) : string :=
  cat ["core_id: "; dec id; " => QPE ("; dec x; ","; dec y; ") PE "; dec p]%string.

Definition comment (line : string) : Prop := exists rest, line = String "#" rest.

Definition starts_hash (line : string) : bool :=
  match line with String a _ => Ascii.eqb a "#" | EmptyString => false end.

Lemma mesh_has_all :
  forallb (fun e => let '(x, y, p) := snd e in
    (fst e =? 0) || existsb (String.eqb (mesh_text (fst e) x y p)) (file_lines vec2mesh_txt)) QUAD_MAP = true.
Proof. vm_compute. reflexivity. Qed.

Lemma mesh_all_known :
  forallb (fun line => starts_hash line ||
    existsb (fun e => let '(x, y, p) := snd e in (1 <=? fst e) && String.eqb line (mesh_text (fst e) x y p) &&
      match dget Z.eqb QUAD_MAP (fst e) with Some q => qqq_eqb q (x, y, p) | None => false end) QUAD_MAP)
    (file_lines vec2mesh_txt) = true.
Proof. vm_compute. reflexivity. Qed.

(** The ids of the cores 1 to 152 are those of the file: each has its line, and each
    line that is not a comment is the line of a core. *)
Theorem C70_ids_of_the_file :
  forall v, v = V201 \/ v = V248 ->
    (forall id x y p, id_to_qx_qy_qp v id = Ok (x, y, p) -> id <> 0 ->
       In (mesh_text id x y p) (file_lines vec2mesh_txt)) /\
    (forall line, In line (file_lines vec2mesh_txt) -> comment line \/
       exists id x y p, 1 <= id /\ line = mesh_text id x y p /\ id_to_qx_qy_qp v id = Ok (x, y, p)).
Proof.
  intros v Hv.
  assert (forall id, id_to_qx_qy_qp v id = dgetitem Z.eqb QUAD_MAP id) as E
    by (destruct Hv as [->| ->]; reflexivity).
  split.
  - intros id x y p H N. rewrite E in H. unfold dgetitem in H.
    destruct (dget Z.eqb QUAD_MAP id) as [q|] eqn:G; [|discriminate]. apply Ok_inj in H. subst q.
    apply (dget_in Z.eqb Z.eqb_eq) in G. pose proof mesh_has_all as F. rewrite forallb_forall in F.
    specialize (F _ G). cbn [fst snd] in F. apply orb_true_iff in F as [F|F]; [lia|].
    apply existsb_exists in F as (l & Hl & Q). apply String.eqb_eq in Q. subst l. exact Hl.
  - intros line H. pose proof mesh_all_known as F. rewrite forallb_forall in F. specialize (F _ H).
    apply orb_true_iff in F as [C|K].
    + left. destruct line as [|a r]; [discriminate|]. apply Ascii.eqb_eq in C. subst a. exists r. reflexivity.
    + right. apply existsb_exists in K as ([id [[x y] p]] & _ & K). cbn [fst snd] in K.
      apply andb_true_iff in K as [K K3]. apply andb_true_iff in K as [K1 K2].
      destruct (dget Z.eqb QUAD_MAP id) as [q|] eqn:G; [|discriminate]. apply qqq_eq in K3. subst q.
      apply String.eqb_eq in K2. exists id, x, y, p. split; [lia|]. split; [exact K2|].
      rewrite E. unfold dgetitem. rewrite G. reflexivity.
Qed.
Print Assumptions C70_ids_of_the_file.

Lemma without_zero (l : dict Z (Z * Z * Z)) id q :
  dget Z.eqb (filter (fun e => negb (fst e =? 0)) l) id = Some q <->
  id <> 0 /\ dgetitem Z.eqb l id = Ok q.
Proof.
  assert (dget Z.eqb (filter (fun e => negb (fst e =? 0)) l) id =
          if id =? 0 then None else dget Z.eqb l id) as ->.
  { induction l as [|[k w] l IH]; [destruct (id =? 0); reflexivity|]. cbn [filter fst].
    destruct (k =? 0) eqn:K; cbn [negb dget].
    - rewrite IH. destruct (id =? 0) eqn:I; [reflexivity|]. destruct (k =? id) eqn:X; [lia|reflexivity].
    - destruct (k =? id) eqn:X; [|exact IH]. destruct (id =? 0) eqn:I; [lia|reflexivity]. }
  unfold dgetitem. destruct (id =? 0) eqn:I; destruct (dget Z.eqb l id); split; try discriminate.
  all: try (intros [? ?]; lia).
  - intros [= <-]. split; [lia|reflexivity].
  - intros [_ H]. apply Ok_inj in H. congruence.
  - intros [_ H]. discriminate.
Qed.

Lemma script_prints : read_mesh vec2mesh_txt = Ok (filter (fun e => negb (fst e =? 0)) QUAD_MAP).
Proof. vm_compute. reflexivity. Qed.

(** The script reads the file without an exception, and what it prints is the table
    of the versions but for core 0. *)
Theorem C70_script_prints_the_table :
  exists d, read_mesh vec2mesh_txt = Ok d /\
  forall v, v = V201 \/ v = V248 -> forall id q,
    dget Z.eqb d id = Some q <-> id <> 0 /\ id_to_qx_qy_qp v id = Ok q.
Proof.
  exists (filter (fun e => negb (fst e =? 0)) QUAD_MAP). split; [exact script_prints|]. intros v Hv id q.
  replace (id_to_qx_qy_qp v id) with (dgetitem Z.eqb QUAD_MAP id) by (destruct Hv as [->| ->]; reflexivity).
  apply without_zero.
Qed.
Print Assumptions C70_script_prints_the_table.

Example C70_case :
  id_to_qx_qy_qp V248 152 = Ok (5, 3, 3) /\ mesh_text 152 5 3 3 = "core_id: 152 => QPE (5,3) PE 3"%string /\
  List.length (file_lines vec2mesh_txt) = 165%nat.
Proof. vm_compute. auto. Qed.
