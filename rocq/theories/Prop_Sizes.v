(** C13, C14: sizes for a number of chips, of cores, or a minimal size *)
From Coq Require Import Lia ZifyBool Permutation.
From Verif Require Import Model_Py Model_Wrap Model_Float Model_Geometry Model_Version Model_Core
  Model_Machine Model_Str Model_Ignore Model_Virtual
  Spec_Hops Spec_Board Spec_Version Spec_Machine Spec_Boards Spec_Virtual
  Proof_Wrap Proof_Py Proof_Float Proof_Board Proof_Version Proof_Machine Proof_Virtual
  Proof_VirtualMachine Prop_Version Prop_Virtual.
Open Scope list_scope.
Open Scope Z_scope.

(** The cores that are left for users: those that are not scamp, without the
    monitors; an Ethernet chip has [eth] of these, another chip [all]. *)
Definition user_cores (eth all : Z) (m : machine) : Z :=
  zsum (map (fun ch => n_placable_processors ch - (if has_ip ch then eth else all)) (chips m)).

(** No down items in the cfg, and no limit on cores below what the boards have. *)
Definition fault_free (c : config) (V : version) : Prop :=
  parse_chips (cfg_down_chips c) = Ok [] /\ parse_cores (v_id V) (cfg_down_cores c) = Ok [] /\
  (exists l, parse_links (cfg_down_links c) = Ok l).
Definition no_core_limit (V : version) : Prop :=
  forall d n, In (d, n) (chip_core_map (v_id V)) -> n <= max_cores_per_chip V.

Lemma no_limit_min V : no_core_limit V -> fewest_cores (v_id V) <= max_cores_per_chip V.
Proof.
  intros N. destruct (v_id V) eqn:E; unfold no_core_limit in N; rewrite E in N.
  - specialize (N (0, 0) 18 (or_introl eq_refl)). cbn. lia.
  - specialize (N (0, 0) 18 (or_introl eq_refl)). cbn. lia.
  - specialize (N (0, 0) 153 (or_introl eq_refl)). cbn. lia.
  - specialize (N (0, 0) 153 (or_introl eq_refl)). cbn. lia.
Qed.

(** A version object without a cfg limit on cores has none. *)
Lemma new_version_no_limit c v V : new_version c v = Ok V -> cfg_max_machine_core c = None ->
  v_id V = v /\ no_core_limit V.
Proof.
  unfold new_version. intros E N.
  destruct (verify_config_width_height c v); [|discriminate]. cbn [bind] in E. apply Ok_inj in E. subst V.
  split; auto. unfold no_core_limit. cbn [v_id max_cores_per_chip]. unfold set_max_cores_per_chip. rewrite N.
  intros d n H.
  assert (forall v, forallb (fun dn => snd dn <=? default_max_cores v) (chip_core_map v) = true) as K
    by (intros []; vm_compute; reflexivity).
  specialize (K v). rewrite forallb_forall in K. specialize (K _ H). cbn in K. lia.
Qed.

Lemma board_cores_full V : no_core_limit V -> board_cores V = zsum (dvalues (chip_core_map (v_id V))).
Proof.
  intros N. unfold board_cores, dvalues. f_equal. apply map_ext_in. intros [d n] H. cbn [snd].
  specialize (N d n H). lia.
Qed.

Lemma per_board_pos v : 0 < n_chips_per_board v.
Proof. destruct v; reflexivity. Qed.

Lemma floor_up n k : 0 < k -> exists b, py_floordiv (- n) k = Ok (- b) /\ (b - 1) * k < n <= b * k.
Proof.
  intros K. exists (cdiv n k). unfold py_floordiv. destruct (Z.eqb_spec k 0); [lia|]. split.
  - f_equal. unfold cdiv. lia.
  - apply cdiv_spec; auto.
Qed.

(** Which numbers of boards can be had. *)
Definition boards_possible (v : vid) (n : Z) : Prop :=
  match v with V3 | V201 => n = 1 | V5 | V248 => n <= 3 * 2 ^ 52 end.

Lemma boards_enough v n : boards_possible v n ->
  exists w h l, size_from_n_boards v n = Ok (w, h) /\ supported v w h /\
    get_potential_ethernet_chips v w h = Ok l /\ n <= Z.of_nat (List.length l).
Proof.
  intros P. destruct v; cbn in P.
  - subst n. exists 2, 2, [(0, 0)]. repeat split; try (cbn; lia).
  - apply C12_enough_boards; auto.
  - subst n. exists 1, 1, [(0, 0)]. repeat split; try (cbn; lia).
  - apply C12_enough_boards; auto.
Qed.

(** ** C13 *)

(** n chips are at most k boards, and k boards can be had: the machine has at least
    n chips. *)
Theorem C13_enough_chips :
  forall c v V n k, new_version c v = Ok V -> cfg_max_machine_core c = None -> fault_free c V ->
    n <= k * n_chips_per_board v -> boards_possible v k -> (v = V3 \/ v = V201 -> 0 < n) ->
    exists m, virtual_machine_by_chips c V n true = Ok m /\ n <= n_chips m.
Proof.
  intros c v V n k NV NM (F1 & F2 & F3) HN BP Pos.
  destruct (new_version_no_limit c v V NV NM) as [EV NL]. subst v.
  destruct (floor_up n (n_chips_per_board (v_id V)) (per_board_pos _)) as (b & FD & B1 & B2).
  pose proof (per_board_pos (v_id V)) as PB.
  assert (b <= k) as BK by nia.
  assert (boards_possible (v_id V) b) as BPb.
  { destruct (v_id V); cbn in *; try lia.
    - specialize (Pos ltac:(auto)). cbn in *. nia.
    - specialize (Pos ltac:(auto)). cbn in *. nia. }
  destruct (boards_enough _ _ BPb) as (w & h & l & E & S & P & L).
  destruct (C30_valid_and_complete c V w h S F1 F2 F3 (no_limit_min V NL)) as (m & eths & VM & _ & PE & _ & NC & _).
  exists m. unfold virtual_machine_by_chips, size_from_n_chips. rewrite FD. cbn [bind].
  rewrite Z.opp_involutive, E. cbn [bind]. split; auto.
  rewrite NC. replace eths with l by congruence. nia.
Qed.
Print Assumptions C13_enough_chips.

Lemma user_sum eth all m : wf m -> (forall ch, In ch (chips m) -> c_scamp ch = [0]) ->
  user_cores eth all m = get_cores_count m - n_chips m - all * (n_chips m - Z.of_nat (List.length (m_eth m)))
    - eth * Z.of_nat (List.length (m_eth m)).
Proof.
  intros W S. unfold user_cores, get_cores_count, n_chips. rewrite (wf_cores m W), (wf_eth m W).
  rewrite (wf_chips m W), map_length. revert S. generalize (chips m). clear.
  induction l as [|ch l IH]; intros S; [cbn; lia|].
  unfold zsum in *. cbn [map fold_right List.length filter].
  rewrite IH by (intros; apply S; right; auto).
  assert (n_processors ch = 1 + n_placable_processors ch) as NP.
  { unfold n_processors, n_placable_processors. rewrite (S ch) by (left; auto). cbn [List.length]. lia. }
  rewrite NP. destruct (has_ip ch); cbn [List.length]; lia.
Qed.

(** n user cores are at most k boards' worth: the machine has at least n of them. *)
Theorem C13_enough_cores :
  forall c v V eth all n k, new_version c v = Ok V -> cfg_max_machine_core c = None -> fault_free c V ->
    0 <= eth -> 0 <= all ->
    let per_board := zsum (dvalues (chip_core_map v)) - eth - (all + 1) * n_chips_per_board v in
    0 < per_board -> n <= k * per_board -> boards_possible v k -> (v = V3 \/ v = V201 -> 0 < n) ->
    exists m, virtual_machine_by_cores c V eth all n true = Ok m /\ n <= user_cores eth all m.
Proof.
  intros c v V eth all n k NV NM (F1 & F2 & F3) He Ha per_board PB HN BP Pos.
  destruct (new_version_no_limit c v V NV NM) as [EV NL]. subst v.
  destruct (floor_up n per_board PB) as (b & FD & B1 & B2).
  assert (b <= k) as BK by nia.
  assert (boards_possible (v_id V) b) as BPb.
  { clearbody per_board. destruct (v_id V); cbn in BP, Pos |- *; try lia.
    - specialize (Pos ltac:(auto)). nia.
    - specialize (Pos ltac:(auto)). nia. }
  destruct (boards_enough _ _ BPb) as (w & h & l & E & S & P & L).
  destruct (C30_valid_and_complete c V w h S F1 F2 F3 (no_limit_min V NL))
    as (m & eths & VM & _ & PE & PM & NC & CC).
  exists m. unfold virtual_machine_by_cores, size_from_n_cores. cbv zeta.
  change (n_scamp_cores (v_id V)) with 1. fold per_board. rewrite FD. cbn [bind].
  rewrite Z.opp_involutive, E. cbn [bind]. split; auto.
  assert (eths = l) as -> by congruence.
  apply virtual_built in VM as (dch & dco & dl & B & _).
  pose proof (b_wf _ _ _ _ _ _ _ _ B) as W.
  rewrite user_sum; auto.
  - rewrite CC, NC, board_cores_full by auto.
    assert (List.length (m_eth m) = List.length l) as ->.
    { apply Permutation_length in PM. rewrite map_length in PM. exact PM. }
    unfold per_board in *. pose proof (per_board_pos (v_id V)). 
    set (T := zsum (dvalues (chip_core_map (v_id V)))) in *. set (N := n_chips_per_board (v_id V)) in *.
    set (q := Z.of_nat (List.length l)) in *. nia.
  - intros ch Hc. assert (get_chip_at m (c_x ch) (c_y ch) = Some ch) as G by (apply get_chip_in; auto).
    destruct (proj1 (built_present B _ _) (ex_intro _ ch G)) as [(e & d & n0 & PL) _].
    destruct (built_fields B _ _ ch e d n0 G PL) as (_ & _ & _ & _ & _ & _ & X & _). exact X.
Qed.
Print Assumptions C13_enough_cores.

(** n boards can be had: the machine has at least n boards. *)
Theorem C13_enough_boards :
  forall c V n, fault_free c V -> fewest_cores (v_id V) <= max_cores_per_chip V -> boards_possible (v_id V) n ->
    exists m, virtual_machine_by_boards c V n true = Ok m /\
      size_from_n_boards (v_id V) n = Ok (m_width m, m_height m) /\
      n <= Z.of_nat (List.length (ethernet_connected_chips m)).
Proof.
  intros c V n (F1 & F2 & F3) ML BP. destruct (boards_enough _ _ BP) as (w & h & l & E & S & P & L).
  destruct (C30_valid_and_complete c V w h S F1 F2 F3 ML) as (m & eths & VM & _ & PE & PM & _).
  exists m. unfold virtual_machine_by_boards. rewrite E. cbn [bind]. split; [exact VM|].
  apply Permutation_length in PM. rewrite map_length in PM. rewrite PM.
  assert (eths = l) as -> by congruence. split; [|exact L].
  apply virtual_built in VM as (dch & dco & dl & B & _).
  rewrite (b_width _ _ _ _ _ _ _ _ B), (b_height _ _ _ _ _ _ _ _ B). reflexivity.
Qed.
Print Assumptions C13_enough_boards.

(** The number of boards asked for is the least that has n chips, or n user cores;
    whatever the result is, machine or exception. *)
Theorem C13_fewest_boards :
  forall c V check n k,
    ((k - 1) * n_chips_per_board (v_id V) < n <= k * n_chips_per_board (v_id V) ->
       virtual_machine_by_chips c V n check = virtual_machine_by_boards c V k check) /\
    (forall eth all,
       let per_board := zsum (dvalues (chip_core_map (v_id V))) - eth - (all + 1) * n_chips_per_board (v_id V) in
       0 < per_board -> (k - 1) * per_board < n <= k * per_board ->
       virtual_machine_by_cores c V eth all n check = virtual_machine_by_boards c V k check).
Proof.
  intros c V check n k.
  assert (forall p, 0 < p -> (k - 1) * p < n <= k * p -> py_floordiv (- n) p = Ok (- k)) as FD.
  { intros p P H. destruct (floor_up n p P) as (b & F & B). replace k with b by nia. exact F. }
  split.
  - intros H. unfold virtual_machine_by_chips, virtual_machine_by_boards, size_from_n_chips.
    rewrite (FD _ (per_board_pos _) H). cbn [bind]. rewrite Z.opp_involutive. reflexivity.
  - intros eth all p P H. unfold virtual_machine_by_cores, virtual_machine_by_boards, size_from_n_cores. cbv zeta.
    change (n_scamp_cores (v_id V)) with 1. fold p. rewrite (FD _ P H). cbn [bind]. rewrite Z.opp_involutive. reflexivity.
Qed.
Print Assumptions C13_fewest_boards.

(** The cfg limit on cores is not taken into account: 500 user cores asked for, with
    at most 5 cores on a chip, gives one board with 192 of them. *)
Definition small_cfg : config :=
  mkConfig None None None None None (Some 5) false None None None None None None true.
Theorem C13_core_limit_ignored_refuted :
  exists V m, new_version small_cfg V5 = Ok V /\ fault_free small_cfg V /\
    virtual_machine_by_cores small_cfg V 0 0 500 true = Ok m /\ user_cores 0 0 m = 192.
Proof.
  eexists. eexists. split; [vm_compute; reflexivity|]. split; [|split; [vm_compute; reflexivity|vm_compute; reflexivity]].
  split; [reflexivity|]. split; [reflexivity|]. eexists. reflexivity.
Qed.
Print Assumptions C13_core_limit_ignored_refuted.

(** With more monitors than a board has cores, every request for cores "fits" on
    a single board. *)
Theorem C13_too_many_monitors_refuted :
  forall v eth all n, v = V5 \/ v = V248 -> 0 < n ->
    zsum (dvalues (chip_core_map v)) - eth - (all + 1) * n_chips_per_board v < 0 ->
    size_from_n_cores v eth all n = Ok (8, 8).
Proof.
  intros v eth all n Hv Hn P. unfold size_from_n_cores. cbv zeta. change (n_scamp_cores v) with 1.
  set (k := _ - _ - _) in *. clearbody k. unfold py_floordiv. destruct (Z.eqb_spec k 0); [lia|]. cbn [bind].
  assert (0 <= (- n) / k) as D.
  { replace ((- n) / k) with (n / (- k)); [apply Z.div_pos; lia|].
    rewrite <- (Z.div_opp_opp n (- k)) by lia. f_equal. lia. }
  destruct Hv as [->| ->]; cbn [size_from_n_boards]; destruct (Z.leb_spec (- (- n / k)) 1); auto; lia.
Qed.
Print Assumptions C13_too_many_monitors_refuted.

(** 5 boards are enough for 3500 user cores with 2 monitors on each chip and 3 more
    on Ethernet chips; the request gives 2 x 1 triads of boards. *)
Example C13_case :
  let c := mkConfig None None None None None None false None None None None None None true in
  exists V, new_version c V5 = Ok V /\ cfg_max_machine_core c = None /\ fault_free c V /\
    boards_possible V5 5 /\
    zsum (dvalues (chip_core_map V5)) - 3 - (2 + 1) * n_chips_per_board V5 = 709 /\ 3500 <= 5 * 709 /\
    size_from_n_cores V5 3 2 3500 = Ok (28, 16) /\ size_from_n_chips V5 200 = Ok (28, 16).
Proof.
  eexists. split; [vm_compute; reflexivity|]. split; [reflexivity|]. split.
  { split; [reflexivity|]. split; [reflexivity|]. eexists. reflexivity. }
  split; [cbn; lia|]. split; [reflexivity|]. split; [lia|]. split; vm_compute; reflexivity.
Qed.

(** ** C14 *)

(** The computed size is accepted, covers the request, and is the least such size
    in whole boards in both dimensions. *)
Theorem C14_covers_the_request :
  forall v w h, v = V5 \/ v = V248 -> 1 <= w < 2 ^ 53 -> 1 <= h < 2 ^ 53 ->
    exists w' h', min_size v w h = Ok (w', h') /\ supported v w' h' /\ w <= w' /\ h <= h' /\
      (8 | w') /\ (8 | h') /\
      forall a b, supported v a b -> (8 | a) -> (8 | b) -> w <= a -> h <= b -> w' <= a /\ h' <= b.
Proof.
  intros v w h Hv Hw Hh.
  assert (forall x, 1 <= x < 2 ^ 53 -> exists f k, py_truediv x 8 = Ok f /\ f_ceil f = Ok k /\
    (k - 1) * 8 < x <= k * 8) as CE.
  { intros x Hx. destruct (div_ceil x 8) as (f & A & B); try lia. exists f, (cdiv x 8). split; auto. split; auto.
    apply cdiv_spec; auto. lia. }
  set (w1 := if (w <=? 8) && (h >? 8) then 8 * 2 else w).
  set (h1 := if (h <=? 8) && (w1 >? 8) then 8 * 2 else h).
  assert (1 <= w1 < 2 ^ 53) as Hw1 by (unfold w1; destruct ((w <=? 8) && (h >? 8)); lia).
  assert (1 <= h1 < 2 ^ 53) as Hh1 by (unfold h1; destruct ((h <=? 8) && (w1 >? 8)); lia).
  destruct (CE w1 Hw1) as (fw & kw & W1 & W2 & W3). destruct (CE h1 Hh1) as (fh & kh & H1 & H2 & H3).
  assert (board_shape v = (8, 8)) as BS by (destruct Hv as [->| ->]; reflexivity).
  assert (min_size v w h = Ok (8 * kw, 8 * kh)) as E.
  { unfold min_size. rewrite BS. fold w1. cbv zeta. fold h1. rewrite W1. cbn [bind]. rewrite W2. cbn [bind].
    rewrite H1. cbn [bind]. rewrite H2. reflexivity. }
  assert (forall a b, supported v a b <-> size48 a b) as SU by (intros; destruct Hv as [->| ->]; reflexivity).
  exists (8 * kw), (8 * kh). split; auto. rewrite SU. unfold size48.
  assert (w <= w1 /\ h <= h1 /\ (w1 <= 8 <-> h1 <= 8) /\ (w1 = w \/ (w1 = 16 /\ w <= 8 /\ 8 < h)) /\
    (h1 = h \/ (h1 = 16 /\ h <= 8 /\ 8 < w))) as (A1 & A2 & A3 & A4 & A5).
  { unfold h1, w1. destruct (Z.leb_spec w 8), (Z.gtb_spec h 8); cbn [andb];
    destruct (Z.leb_spec h 8); cbn [andb]; 
    repeat match goal with |- context [?a >? ?b] => destruct (Z.gtb_spec a b) end; lia. }
  split.
  { destruct (Z_le_gt_dec w1 8); [left|right]; repeat split; try lia; try (exists (2 * kw); lia); try (exists (2 * kh); lia). }
  split; [lia|]. split; [lia|]. split; [exists kw; lia|]. split; [exists kh; lia|].
  intros a b S [ka Ka] [kb Kb] Wa Hb. rewrite SU in S. unfold size48 in S. subst a b. lia.
Qed.
Print Assumptions C14_covers_the_request.

(** Hence a machine can be made, and on the other versions exactly for requests
    within the one board. *)
Theorem C14_machine :
  forall c V w h, fault_free c V -> fewest_cores (v_id V) <= max_cores_per_chip V ->
    1 <= w < 2 ^ 53 -> 1 <= h < 2 ^ 53 ->
    match v_id V with
    | V5 | V248 => True
    | V3 => w <= 2 /\ h <= 2
    | V201 => w <= 1 /\ h <= 1
    end <->
    exists m, virtual_machine_by_min_size c V w h true = Ok m /\ w <= m_width m /\ h <= m_height m.
Proof.
  intros c V w h (F1 & F2 & F3) ML Hw Hh.
  assert (forall w' h', min_size (v_id V) w h = Ok (w', h') -> supported (v_id V) w' h' -> w <= w' -> h <= h' ->
    exists m, virtual_machine_by_min_size c V w h true = Ok m /\ w <= m_width m /\ h <= m_height m) as YES.
  { intros w' h' E S A B. destruct (C30_valid_and_complete c V w' h' S F1 F2 F3 ML) as (m & _ & VM & _).
    exists m. unfold virtual_machine_by_min_size. rewrite E. cbn [bind]. split; auto.
    apply virtual_built in VM as (dch & dco & dl & BU & _). rewrite (b_width _ _ _ _ _ _ _ _ BU), (b_height _ _ _ _ _ _ _ _ BU). auto. }
  assert (forall m, virtual_machine_by_min_size c V w h true = Ok m -> supported (v_id V) (m_width m) (m_height m)) as SUP.
  { intros m. unfold virtual_machine_by_min_size. destruct (min_size (v_id V) w h) as [[w' h']|]; [|discriminate].
    cbn [bind]. intros VM. apply virtual_built in VM as (dch & dco & dl & BU & _).
    rewrite (b_width _ _ _ _ _ _ _ _ BU), (b_height _ _ _ _ _ _ _ _ BU). apply BU. }
  split.
  - intros P. destruct (v_id V) eqn:EV.
    + assert (exists w0 h0, (w = 1 \/ w = 2) /\ (h = 1 \/ h = 2) /\ w0 = w /\ h0 = h) as (w0 & h0 & Q1 & Q2 & _)
        by (exists w, h; lia).
      apply (YES 2 2); try lia; [|cbn; auto].
      destruct Q1 as [-> | ->], Q2 as [-> | ->]; vm_compute; reflexivity.
    + destruct (C14_covers_the_request V5 w h) as (w' & h' & E & S & A & B & _); eauto.
    + apply (YES 1 1); try lia; [|cbn; auto].
      replace w with 1 by lia. replace h with 1 by lia. vm_compute. reflexivity.
    + destruct (C14_covers_the_request V248 w h) as (w' & h' & E & S & A & B & _); eauto.
  - intros (m & VM & A & B). pose proof (SUP m VM) as S. destruct (v_id V); cbn in S; auto; lia.
Qed.
Print Assumptions C14_machine.

(** Beyond 2^53 the division rounds and the size can be too small. *)
Theorem C14_rounding_refuted :
  min_size V5 (2 ^ 53 + 1) (2 ^ 53 + 1) = Ok (2 ^ 53, 2 ^ 53).
Proof. vm_compute. reflexivity. Qed.
Print Assumptions C14_rounding_refuted.

Example C14_case : min_size V5 3 9 = Ok (16, 16) /\ min_size V5 8 8 = Ok (8, 8) /\ min_size V248 17 1 = Ok (24, 16).
Proof. vm_compute. auto. Qed.
