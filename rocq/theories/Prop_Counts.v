(** C73: how many chips, cores and links a virtual machine has. *)
From Coq Require Import Lia Permutation Sorted.
From Verif Require Import Model_Py Model_Wrap Model_Version Model_Core Model_Machine Model_Str
  Model_Ignore Model_Factory Model_Virtual
  Spec_Hops Spec_Board Spec_Machine Spec_Router Spec_Version Spec_Virtual Spec_Wiring Spec_Repair Spec_Counts
  Proof_Wrap Proof_Concentric Proof_Py Proof_Board Proof_Version
  Proof_Machine Proof_Links Proof_Report Proof_Repair Proof_RepairEnd Proof_Virtual Proof_VirtualMachine Proof_Items
  Prop_Machine Prop_Board Prop_Virtual Prop_Repair Prop_Wiring Prop_Order Proof_Counts.
Open Scope list_scope.
Open Scope Z_scope.

(** The boards have [n_chips_per_board] chips each, and what is missing of them are
    the down chips, counted once each; down chips elsewhere do not count. *)
Theorem C73_chips :
  forall c V w h check m down_chips boards missing,
    virtual_machine c V w h check = Ok m ->
    parse_chips (cfg_down_chips c) = Ok down_chips ->
    all_boards (v_id V) w h boards ->
    missing_chips (v_id V) w h (fun p => In (mkIgnoreChip (fst p) (snd p) None) down_chips) missing ->
    n_chips m + Z.of_nat (List.length missing) = n_chips_per_board (v_id V) * Z.of_nat (List.length boards).
Proof.
  intros c V w h b m dch0 boards missing E PC AB MC. apply virtual_built in E as (dch & dco & dl & B & _).
  destruct (b_read _ _ _ _ _ _ _ _ B) as (R1 & R2 & R3). assert (dch0 = dch) as -> by congruence.
  apply (chips_count B boards missing AB MC).
Qed.
Print Assumptions C73_chips.

(** Without down chips and cores each chip has the cores of its position, at most the
    limit and at least the monitor; all but the monitors are for users. *)
Theorem C73_cores :
  forall c V w h check m boards,
    virtual_machine c V w h check = Ok m ->
    parse_chips (cfg_down_chips c) = Ok [] -> parse_cores (v_id V) (cfg_down_cores c) = Ok [] ->
    all_boards (v_id V) w h boards ->
    total_cores m = Z.of_nat (List.length boards) *
      zsum (map (fun cores => Z.max 1 (Z.min cores (max_cores_per_chip V))) (dvalues (chip_core_map (v_id V)))) /\
    total_available_user_cores m = total_cores m - n_chips m.
Proof.
  intros c V w h b m boards E PC PO AB. apply virtual_built in E as (dch & dco & dl & B & _).
  destruct (b_read _ _ _ _ _ _ _ _ B) as (R1 & R2 & R3).
  assert (dch = []) as -> by congruence. assert (dco = []) as -> by congruence.
  unfold dvalues. rewrite map_map. apply (cores_count B boards eq_refl eq_refl AB).
Qed.
Print Assumptions C73_cores.

(** Without down chips and links a 48 chip board has 120 links of its own, and 8 more
    to each board at its sides. *)
Theorem C73_links :
  forall c V w h check m boards joined,
    v_id V = V5 \/ v_id V = V248 ->
    virtual_machine c V w h check = Ok m ->
    parse_chips (cfg_down_chips c) = Ok [] -> parse_links (cfg_down_links c) = Ok [] ->
    all_boards (v_id V) w h boards -> joined_sides (v_id V) w h joined ->
    get_links_count_doubled m = 2 * 120 * Z.of_nat (List.length boards) + 8 * Z.of_nat (List.length joined).
Proof.
  intros c V w h b m boards joined Hv E PC PL AB JS.
  pose proof (C28_virtual_is_made _ _ _ _ _ _ E) as MM. destruct (made_good _ _ MM) as [_ F].
  apply virtual_built in E as (dch & dco & dl & B & _).
  destruct (b_read _ _ _ _ _ _ _ _ B) as (R1 & R2 & R3).
  assert (dch = []) as -> by congruence. assert (dl = []) as -> by congruence.
  rewrite (links_count B Hv F boards AB), (joined_count B Hv boards joined AB JS). reflexivity.
Qed.
Print Assumptions C73_links.

(** A machine that wraps both ways is full: every place has a chip, every chip its six
    links, every board its six neighbours. *)
Theorem C73_all_around :
  forall c V w h check m boards joined,
    v_id V = V5 \/ v_id V = V248 -> (12 | w) -> (12 | h) ->
    virtual_machine c V w h check = Ok m ->
    parse_chips (cfg_down_chips c) = Ok [] -> parse_links (cfg_down_links c) = Ok [] ->
    all_boards (v_id V) w h boards -> joined_sides (v_id V) w h joined ->
    n_chips m = w * h /\ 48 * Z.of_nat (List.length boards) = w * h /\
    get_links_count_doubled m = 2 * 3 * w * h /\
    Z.of_nat (List.length joined) = 6 * Z.of_nat (List.length boards).
Proof.
  intros c V w h b m boards joined Hv Dw Dh E PC PL AB JS.
  pose proof (C73_links _ _ _ _ _ _ _ _ Hv E PC PL AB JS) as LC.
  assert (supported (v_id V) w h) as S by (apply virtual_built in E as (? & ? & ? & B & _); apply B).
  assert (size48 w h) as S48 by (destruct Hv as [H|H]; rewrite H in S; exact S).
  assert (missing_chips (v_id V) w h (fun p => In (mkIgnoreChip (fst p) (snd p) None) []) []) as MC.
  { split; [constructor|]. intros p. cbn. tauto. }
  pose proof (C73_chips _ _ _ _ _ _ _ _ _ E PC AB MC) as CC. cbn [List.length] in CC.
  assert (n_chips_per_board (v_id V) = 48) as N48 by (destruct Hv as [-> | ->]; reflexivity).
  assert (forall e, board_origin (v_id V) w h e <-> triad_origin (0, 0) e /\ board_fits w h e) as BO
    by (intros; destruct Hv as [-> | ->]; reflexivity).
  pose proof (size48_pos w h S48) as [Pw Ph].
  assert (48 * Z.of_nat (List.length boards) = w * h) as BW.
  { rewrite <- N48, <- (places_length (v_id V) w h boards).
    rewrite (same_length _ (flat_map (fun y => map (fun x => (x, y)) (zrange 0 w)) (zrange 0 h))).
    - rewrite <- zsum_len, zsum_flat, (zsum_const _ w).
      + unfold zrange. rewrite map_length, seq_length. rewrite Z2Nat.id by lia. lia.
      + intros y _. rewrite zsum_len, map_length. unfold zrange. rewrite map_length, seq_length. rewrite Z2Nat.id; lia.
    - apply places_nodup; auto.
    - apply nodup_flat.
      + apply sorted_nodup, zrange_sorted.
      + intros y _. apply FinFun.Injective_map_NoDup; [intros a a'; congruence|]. apply sorted_nodup, zrange_sorted.
      + intros a a' p _ _ H H'. apply in_map_iff in H as (? & <- & _). apply in_map_iff in H' as (? & E' & _). congruence.
    - intros p. rewrite in_places by auto. split.
      + intros (e & d & n & _ & _ & [Ix Iy] & _). apply in_flat_map. exists (snd p). split; [apply in_zrange; lia|].
        apply in_map_iff. exists (fst p). split; [symmetry; apply surjective_pairing|]. apply in_zrange; lia.
      + intros H. apply in_flat_map in H as (y & Hy & H). apply in_map_iff in H as (x & <- & Hx).
        apply in_zrange in Hx, Hy.
        destruct (layout_exists _ w h S) as [eths L].
        destruct (C10_boards_tile (v_id V) Hv w h S48 eths (lay_eths _ _ _ _ L)) as (_ & _ & T).
        destruct (T Dw Dh (x, y)) as (e & He & H); [split; cbn; lia|].
        apply (in_xys (v_id V) w h _ _ (x, y) Hv) in H as (d & D & H).
        apply (board48 (v_id V) Hv) in D. apply expected_in in D as [n D]. exists e, d, n.
        split; [apply L; auto|]. split; auto. apply lands_spot; auto. split; [|split; cbn; lia].
        rewrite H. unfold spot. destruct e; reflexivity. }
  assert (Z.of_nat (List.length joined) = 6 * Z.of_nat (List.length boards)) as JB.
  { rewrite (same_length joined (flat_map (fun e => map (fun s : XY => (e, s)) sides) boards)).
    - rewrite <- zsum_len, zsum_flat, (zsum_const _ 6); [reflexivity|]. intros. reflexivity.
    - apply JS.
    - apply nodup_flat; [apply AB| |].
      + intros e _. apply FinFun.Injective_map_NoDup; [intros a a'; congruence|].
        unfold sides. repeat constructor; cbn; intuition discriminate.
      + intros a a' [p q] _ _ H H'. apply in_map_iff in H as (? & X & _). apply in_map_iff in H' as (? & X' & _). congruence.
    - intros [e s]. destruct JS as [_ JS]. rewrite JS, in_flat_map. split.
      + intros (He & Hs & _). exists e. split; [apply AB; auto|]. apply in_map. auto.
      + intros (e' & He & H). apply in_map_iff in H as (s' & X & Hs). injection X as -> ->.
        apply AB in He. split; auto. split; auto. apply BO in He as [[T1 T2] ((I1 & I2) & _)].
        assert ((4 | fst s) /\ (12 | fst s + snd s)) as [U1 U2].
        { clear -Hs. unfold sides in Hs. cbn in Hs.
          destruct Hs as [<-|[<-|[<-|[<-|[<-|[<-|[]]]]]]]; split; apply Z.mod_divide; try lia; reflexivity. }
        exists (spot (v_id V) w h s e).
        assert (inside w h (spot (v_id V) w h s e) /\ (12 | fst (spot (v_id V) w h s e) - (fst s + fst e)) /\
          (12 | snd (spot (v_id V) w h s e) - (snd s + snd e))) as (I & M1 & M2).
        { unfold spot, red. destruct (class_wraps (v_id V) w h Hv) as [Wx Wy].
          assert (w mod 12 = 0 /\ h mod 12 = 0) as [W1 W2] by (split; apply Z.mod_divide; auto; lia).
          rewrite Wx, Wy, W1, W2. cbn [Z.eqb fst snd vadd]. split; [|split].
          - split; cbn [fst snd]; apply Z.mod_pos_bound; lia.
          - destruct Dw as [k ->]. exists (- (k * ((fst s + fst e) / (k * 12)))).
            pose proof (Z.div_mod (fst s + fst e) (k * 12)). lia.
          - destruct Dh as [k ->]. exists (- (k * ((snd s + snd e) / (k * 12)))).
            pose proof (Z.div_mod (snd s + snd e) (k * 12)). lia. }
        split; [|apply lands_spot; auto]. apply BO. split.
        * destruct M1 as [m1 M1], M2 as [m2 M2], T1 as [t1 T1], T2 as [t2 T2], U1 as [u1 U1], U2 as [u2 U2].
          cbn [fst snd] in *. split; cbn [fst snd]; [exists (3 * m1 + t1 + u1)|exists (m1 + m2 + t2 + u2)]; lia.
        * split; auto. tauto. }
  rewrite N48 in CC. lia.
Qed.
Print Assumptions C73_all_around.
(** ** How many boards *)
Definition extra (n : Z) : Z := if n mod 12 =? 8 then 1 else 0.
Definition board_row (w j : Z) : list XY :=
  map (fun i => (12 * i + (- (4 * j)) mod 12, 4 * j)) (zrange 0 (w / 12 + if j mod 3 =? 0 then extra w else 0)).
Definition board_rows (w h : Z) : list XY :=
  flat_map (board_row w) (zrange 0 (3 * (h / 12) + extra h)).

Lemma zrange_len lo hi : Z.of_nat (List.length (zrange lo hi)) = Z.max 0 (hi - lo).
Proof. unfold zrange. rewrite map_length, seq_length. lia. Qed.

Lemma zrange_snoc n : 0 <= n -> zrange 0 (n + 1) = zrange 0 n ++ [n].
Proof.
  intros H. apply sorted_ext; [apply zrange_sorted| |].
  - pose proof (zrange_sorted 0 n) as S. assert (Forall (fun x => x < n) (zrange 0 n)) as F.
    { apply Forall_forall. intros x X. apply in_zrange in X. lia. }
    induction (zrange 0 n) as [|a l IH]; cbn; [repeat constructor|]. inversion S; inversion F; subst.
    constructor; [auto|]. apply Forall_app. auto.
  - intros x. rewrite in_app_iff, !in_zrange. cbn. lia.
Qed.

Lemma rows_sum a d b : 0 <= b ->
  zsum (map (fun j => a + if j mod 3 =? 0 then d else 0) (zrange 0 (3 * b))) = 3 * a * b + d * b.
Proof.
  intros H. pattern b. apply natlike_ind; [change (zrange 0 (3 * 0)) with (@nil Z); cbn [map]; rewrite zsum_nil; lia| |exact H]. clear b H. intros b H IH.
  replace (3 * Z.succ b) with (3 * b + 1 + 1 + 1) by lia. rewrite !zrange_snoc by lia.
  rewrite !map_app, !zsum_app, IH. cbn [map]. rewrite !zsum_cons, !zsum_nil.
  assert ((3 * b) mod 3 = 0 /\ (3 * b + 1) mod 3 = 1 /\ (3 * b + 1 + 1) mod 3 = 2) as (-> & -> & ->).
  { split; [|split]; symmetry; [apply (Z.mod_unique_pos _ _ b)|apply (Z.mod_unique_pos _ _ b)|apply (Z.mod_unique_pos _ _ b)]; lia. }
  cbn [Z.eqb]. lia.
Qed.

Lemma extra_cases n : (4 | n) -> exists q, (n = 12 * q /\ n / 12 = q /\ extra n = 0) \/
  (n = 12 * q + 4 /\ n / 12 = q /\ extra n = 0) \/ (n = 12 * q + 8 /\ n / 12 = q /\ extra n = 1).
Proof.
  intros [k ->]. exists (k / 3). unfold extra.
  pose proof (Z.div_mod k 3 ltac:(lia)). pose proof (Z.mod_pos_bound k 3 ltac:(lia)).
  assert (forall r, 0 <= r < 3 -> k mod 3 = r -> (k * 4) / 12 = k / 3 /\ (k * 4) mod 12 = 4 * r) as K.
  { intros r R E. split; symmetry.
    - apply (Z.div_unique_pos _ _ _ (4 * r)); lia.
    - apply (Z.mod_unique_pos _ _ (k / 3)); lia. }
  assert (k mod 3 = 0 \/ k mod 3 = 1 \/ k mod 3 = 2) as [E|[E|E]] by lia; (edestruct K as [K1 K2]; [|exact E|]; [lia|]); rewrite K1, K2.
  - left. split; [lia|auto].
  - right. left. split; [lia|auto].
  - right. right. split; [lia|auto].
Qed.

Lemma in_rows w h p : size48 w h -> In p (board_rows w h) <-> triad_origin (0, 0) p /\ board_fits w h p.
Proof.
  intros S. assert ((4 | w) /\ (4 | h) /\ 8 <= w /\ 8 <= h) as (D1 & D2 & Pw & Ph).
  { destruct S as [[-> ->]|(? & ? & ? & ?)]; [repeat split; try lia; exists 2; reflexivity|repeat split; auto; lia]. }
  unfold board_rows. rewrite in_flat_map. unfold board_row, triad_origin, board_fits, inside.
  destruct p as [x y]. cbn [fst snd]. rewrite !Z.sub_0_r.
  assert (forall j, exists s, j = 3 * (j / 3) + s /\ ((s = 0 /\ (j mod 3 =? 0) = true /\ (- (4 * j)) mod 12 = 0) \/
    (s = 1 /\ (j mod 3 =? 0) = false /\ (- (4 * j)) mod 12 = 8) \/ (s = 2 /\ (j mod 3 =? 0) = false /\ (- (4 * j)) mod 12 = 4))) as JC.
  { intros j. exists (j mod 3). pose proof (Z.div_mod j 3 ltac:(lia)) as DM. pose proof (Z.mod_pos_bound j 3 ltac:(lia)).
    split; [lia|]. assert (j mod 3 = 0 \/ j mod 3 = 1 \/ j mod 3 = 2) as [E|[E|E]] by lia; rewrite E.
    - left. repeat split. symmetry. apply (Z.mod_unique_pos _ _ (- (j / 3))); lia.
    - right. left. repeat split. symmetry. apply (Z.mod_unique_pos _ _ (- (j / 3) - 1)); lia.
    - right. right. repeat split. symmetry. apply (Z.mod_unique_pos _ _ (- (j / 3) - 1)); lia. }
  assert ((exists j, In j (zrange 0 (3 * (h / 12) + extra h)) /\
     In (x, y) (map (fun i => (12 * i + (- (4 * j)) mod 12, 4 * j)) (zrange 0 (w / 12 + (if j mod 3 =? 0 then extra w else 0))))) <->
    exists j i, 0 <= j < 3 * (h / 12) + extra h /\ 0 <= i < w / 12 + (if j mod 3 =? 0 then extra w else 0) /\
      x = 12 * i + (- (4 * j)) mod 12 /\ y = 4 * j) as ->.
  { split.
    - intros (j & Hj & H). apply in_map_iff in H as (i & E & Hi). apply in_zrange in Hj, Hi. injection E as <- <-.
      exists j, i. repeat split; lia.
    - intros (j & i & Hj & Hi & -> & ->). exists j. split; [apply in_zrange; lia|]. apply in_map_iff.
      exists i. split; [reflexivity|apply in_zrange; lia]. }
  destruct (extra_cases w D1) as [a Ca], (extra_cases h D2) as [b Cb].
  split.
  - intros (j & i & Hj & Hi & Ex & Ey). destruct (JC j) as (s & Ej & Cj).
    assert (exists k, x = 4 * k) as [k Ek].
    { destruct Cj as [(_ & _ & M)|[(_ & _ & M)|(_ & _ & M)]]; rewrite M in Ex;
        [exists (3 * i)|exists (3 * i + 2)|exists (3 * i + 1)]; lia. }
    split; [split; [exists k; lia|]|].
    + destruct Cj as [(-> & _ & M)|[(-> & _ & M)|(-> & _ & M)]]; rewrite M in Ex;
        [exists (i + j / 3)|exists (i + j / 3 + 1)|exists (i + j / 3 + 1)]; lia.
    + destruct Ca as [(Ew & Qw & Xw)|[(Ew & Qw & Xw)|(Ew & Qw & Xw)]];
      destruct Cb as [(Eh & Qh & Xh)|[(Eh & Qh & Xh)|(Eh & Qh & Xh)]];
      destruct Cj as [(-> & Mj & M)|[(-> & Mj & M)|(-> & Mj & M)]];
      rewrite Qw, ?Xw, Mj in Hi; rewrite Qh, Xh in Hj; rewrite M in Ex; (split; [lia|]); split; intros ND; try lia;
      (exfalso; apply ND; first [exists a; lia|exists b; lia]).
  - intros [[[k Ek] [t Et]] [[Ix Iy] [Fx Fy]]]. destruct (JC (3 * t - k)) as (s & Ej & Cj).
    set (j := 3 * t - k) in *.
    assert (y = 4 * j) as Ey by (unfold j; lia).
    assert (exists i, x = 12 * i + (- (4 * j)) mod 12) as [i Ei].
    { destruct Cj as [(-> & _ & ->)|[(-> & _ & ->)|(-> & _ & ->)]]; 
        [exists (t - j / 3)|exists (t - j / 3 - 1)|exists (t - j / 3 - 1)]; lia. }
    exists j, i. clearbody j. 
    assert (0 <= j < 3 * (h / 12) + extra h) as Hj.
    { destruct Cb as [(Eh & -> & ->)|[(Eh & -> & ->)|(Eh & -> & ->)]]; [lia| |];
        (assert (y + 8 <= h) by (apply Fy; intros [z Z]; lia); lia). }
    assert (0 <= i < w / 12 + (if j mod 3 =? 0 then extra w else 0)) as Hi.
    { destruct Ca as [(Ew & -> & ->)|[(Ew & -> & ->)|(Ew & -> & ->)]];
      destruct Cj as [(-> & -> & M)|[(-> & -> & M)|(-> & -> & M)]]; rewrite M in Ei; try lia;
        (assert (x + 8 <= w) by (apply Fx; intros [z Z]; lia); lia). }
    auto.
Qed.

Lemma rows_nodup w h : NoDup (board_rows w h).
Proof.
  apply nodup_flat; [apply sorted_nodup, zrange_sorted| |].
  - intros j _. apply FinFun.Injective_map_NoDup; [intros i i' E; apply (f_equal fst) in E; cbn [fst] in E; lia|]. apply sorted_nodup, zrange_sorted.
  - intros j j' p _ _ H H'. apply in_map_iff in H as (i & <- & _). apply in_map_iff in H' as (i' & E & _).
    apply (f_equal snd) in E. cbn [snd] in E. lia.
Qed.

(** Counted by whole twelves, and one more in a dimension with 8 chips left. *)
Theorem C73_boards :
  forall v w h boards, v = V5 \/ v = V248 -> supported v w h -> all_boards v w h boards ->
    let a := w / 12 in let b := h / 12 in
    let wider := if w mod 12 =? 8 then 1 else 0 in
    let higher := if h mod 12 =? 8 then 1 else 0 in
    Z.of_nat (List.length boards) = 3 * a * b + a * higher + b * wider + wider * higher.
Proof.
  intros v w h boards Hv S [N I]. cbv zeta. fold (extra w) (extra h).
  assert (size48 w h) as S48 by (destruct Hv as [-> | ->]; exact S).
  pose proof (size48_pos w h S48) as [Pw Ph].
  rewrite (same_length boards (board_rows w h)); [|auto|apply rows_nodup|].
  2: { intros e. rewrite I, in_rows by auto. destruct Hv as [-> | ->]; reflexivity. }
  assert (0 <= w / 12 /\ 0 <= h / 12) as [A B] by (split; apply Z.div_pos; lia).
  assert (forall n, extra n = 0 \/ extra n = 1) as X by (intros n; unfold extra; destruct (n mod 12 =? 8); auto).
  rewrite <- zsum_len. unfold board_rows. rewrite zsum_flat.
  rewrite (zsum_ext _ (fun j => w / 12 + if j mod 3 =? 0 then extra w else 0)).
  2: { intros j _. rewrite zsum_len. unfold board_row. rewrite map_length, zrange_len.
       destruct (X w), (j mod 3 =? 0); lia. }
  destruct (X h) as [-> | ->].
  - rewrite Z.add_0_r, rows_sum by auto. lia.
  - rewrite zrange_snoc, map_app, zsum_app, rows_sum by lia. cbn [map]. rewrite zsum_cons, zsum_nil.
    assert ((3 * (h / 12)) mod 3 = 0) as -> by (symmetry; apply (Z.mod_unique_pos _ _ (h / 12)); lia).
    cbn [Z.eqb]. lia.
Qed.
Print Assumptions C73_boards.

Section Small.
Context {c : config} {V : version} {w h : Z} {m : machine} {dco : list ignore_core}.
Hypothesis B : built c V w h m [] dco [].
Hypothesis P : Forall proper (chips m).

Lemma len_of_ids x y ch ids : get_chip_at m x y = Some ch -> NoDup ids ->
  (forall l, In l ids <-> 0 <= l < 6 /\ ~ link_down (v_id V) [] x y l /\
     exists dx dy, m_over m x y l = Ok (dx, dy) /\ exists ch', get_chip_at m dx dy = Some ch') ->
  router_len (c_router ch) = Z.of_nat (List.length ids).
Proof using B P.
  intros G N I. pose proof (b_wf _ _ _ _ _ _ _ _ B) as W.
  assert (proper ch) as PC.
  { rewrite Forall_forall in P. apply P. apply get_chip_in in G as [G _]; auto. }
  destruct PC as [[R1 R2] _].
  rewrite <- links_length, <- (map_length l_source_link_id). f_equal. apply same_length; auto.
  intros l. rewrite I. split.
  - intros H. apply in_map_iff in H as (k & <- & H).
    assert (get_link (c_router ch) (l_source_link_id k) = Some k) as K by (apply get_link_in; [split; auto|auto]).
    apply (built_link B _ _ ch _ _ G) in K as (A1 & A2 & dx & dy & O & _ & X). eauto 6.
  - intros (A1 & A2 & dx & dy & O & X).
    assert (get_link (c_router ch) l = Some (mkLink x y l dx dy)) as K by (apply (built_link B _ _ ch l _ G); eauto 8).
    apply get_link_in in K as [K <-]; [|split; auto]. apply in_map. auto.
Qed.
End Small.

(** The 4 chip board has no links over its left and right edge; the single chip none. *)
Theorem C73_small_boards :
  forall c V w h check m,
    virtual_machine c V w h check = Ok m ->
    parse_chips (cfg_down_chips c) = Ok [] -> parse_links (cfg_down_links c) = Ok [] ->
    (v_id V = V3 -> n_chips m = 4 /\ get_links_count_doubled m = 2 * 8) /\
    (v_id V = V201 -> n_chips m = 1 /\ get_links_count_doubled m = 0).
Proof.
  intros c V w h b m E PC PL.
  pose proof (C28_virtual_is_made _ _ _ _ _ _ E) as MM. destruct (made_good _ _ MM) as [_ F].
  assert (missing_chips (v_id V) w h (fun p => In (mkIgnoreChip (fst p) (snd p) None) []) []) as MC.
  { split; [constructor|]. intros p. cbn. tauto. }
  assert (v_id V = V3 \/ v_id V = V201 -> all_boards (v_id V) w h [(0, 0)]) as AB.
  { intros Hv. split; [repeat constructor; auto|]. intros e. destruct Hv as [-> | ->]; cbn; intuition. }
  pose proof (fun H => C73_chips _ _ _ _ _ _ _ _ _ E PC (AB H) MC) as CC. cbn [List.length] in CC.
  apply virtual_built in E as (dch & dco & dl & B & _).
  destruct (b_read _ _ _ _ _ _ _ _ B) as (R1 & R2 & R3).
  assert (dch = []) as -> by congruence. assert (dl = []) as -> by congruence.
  pose proof (b_sup _ _ _ _ _ _ _ _ B) as S.
  unfold get_links_count_doubled. rewrite (wf_links m (b_wf _ _ _ _ _ _ _ _ B)).
  pose proof (b_kind _ _ _ _ _ _ _ _ B) as Bk. pose proof (b_width _ _ _ _ _ _ _ _ B) as Bw.
  pose proof (b_height _ _ _ _ _ _ _ _ B) as Bh. pose proof (built_present B) as BP.
  destruct (layout_exists _ w h S) as [eths L]. pose proof (fun p e d n => place_spot B eths p e d n L) as PS.
  pose proof (@len_of_ids c V w h m dco B F) as LI.
  pose proof (fun boards g f => sum_places B boards g f eq_refl) as SP.
  split; intros Hv; rewrite Hv in *.
  - specialize (CC (or_introl eq_refl)). specialize (AB (or_introl eq_refl)). destruct S as [-> ->].
    split; [change (n_chips_per_board V3) with 4 in CC; lia|].
    assert (forall x y, (exists ch, get_chip_at m x y = Some ch) <-> 0 <= x < 2 /\ 0 <= y < 2) as TH.
    { intros x y. rewrite BP. split.
      - intros [(e & d & n & _ & _ & [I1 I2] & _) _]. cbn [fst snd] in *. auto.
      - intros [X Y]. split; [|intros []].
        assert (In ((x, y), 18) (chip_core_map V3)) as I.
        { assert ((x = 0 \/ x = 1) /\ (y = 0 \/ y = 1)) as [[-> | ->] [-> | ->]] by lia; vm_compute; auto. }
        exists (0, 0), (x, y), 18. split; [reflexivity|]. split; [exact I|].
        apply lands_spot; [split; reflexivity|]. split; [|split; cbn; lia].
        assert ((x = 0 \/ x = 1) /\ (y = 0 \/ y = 1)) as [[-> | ->] [-> | ->]] by lia; reflexivity. }
    rewrite (SP [(0, 0)] _ (fun _ _ => 4)); [reflexivity|exact AB|].
    intros x y ch e d n G _. destruct (proj1 (TH x y) (ex_intro _ ch G)) as [X Y].
    rewrite (LI x y ch (if x =? 0 then [0; 1; 2; 5] else [2; 3; 4; 5]) G).
    + destruct (x =? 0); reflexivity.
    + destruct (x =? 0); repeat constructor; cbn; intuition discriminate.
    + intros l.
      assert (In l (if x =? 0 then [0; 1; 2; 5] else [2; 3; 4; 5]) <-> 0 <= l < 6 /\ ~ link_down V3 [] x y l) as ->.
      { unfold link_down. destruct (Z.eqb_spec x 0) as [-> |NX]; cbn; split; intros H; intuition lia. }
      split; [|intros (A1 & A2 & _); auto]. intros [A1 A2]. split; [auto|]. split; [auto|].
      unfold m_over. rewrite Bk, Bw, Bh. rewrite over_red by (auto; apply (good_supported V3); split; reflexivity).
      do 2 eexists. split; [rewrite (surjective_pairing (red _ _ _ _)); reflexivity|]. apply TH.
      unfold red. cbn [machine_class wraps_x wraps_y fst snd]. split; apply Z.mod_pos_bound; lia.
  - specialize (CC (or_intror eq_refl)). specialize (AB (or_intror eq_refl)). destruct S as [-> ->].
    split; [change (n_chips_per_board V201) with 1 in CC; lia|].
    assert (forall x y, (exists ch, get_chip_at m x y = Some ch) -> x = 0 /\ y = 0) as TH.
    { intros x y H. apply BP in H as [(e & d & n & _ & _ & [I1 I2] & _) _]. cbn [fst snd] in *. lia. }
    rewrite (SP [(0, 0)] _ (fun _ _ => 0)); [reflexivity|exact AB|].
    intros x y ch e d n G _. destruct (TH x y (ex_intro _ ch G)) as [-> ->].
    rewrite (LI 0 0 ch [] G); [reflexivity|constructor|].
    intros l. split; [intros []|]. intros (R & _ & dx & dy & O & X). apply TH in X as [-> ->].
    unfold m_over in O. rewrite Bk, Bw, Bh in O.
    rewrite over_red in O by (auto; apply (good_supported V201); split; reflexivity).
    destruct (link_cases l R) as [->|[->|[->|[->|[->| ->]]]]]; discriminate.
Qed.
Print Assumptions C73_small_boards.

(** ** Cases *)
Definition counts_version : version := mkVersion V5 18 100.
Definition counts_cfg (down : option string) : config :=
  mkConfig None None None None None None false None down None None None None true.

Lemma counts_boards : all_boards V5 16 16 (board_rows 16 16).
Proof.
  split; [apply rows_nodup|]. intros e. apply in_rows. right. repeat split; try lia; exists 4; reflexivity.
Qed.

(** Three boards, side by side in a triangle. *)
Example C73_case :
  board_rows 16 16 = [(0, 0); (8, 4); (4, 8)] /\ all_boards V5 16 16 [(0, 0); (8, 4); (4, 8)] /\
  joined_sides V5 16 16 [((0, 0), (8, 4)); ((0, 0), (4, 8)); ((8, 4), (-8, -4)); ((8, 4), (-4, 4));
                         ((4, 8), (-4, -8)); ((4, 8), (4, -4))] /\
  match virtual_machine (counts_cfg None) counts_version 16 16 true with
  | Ok m => n_chips m = 144 /\ total_cores m = 2568 /\ get_links_count_doubled m = 2 * 384
  | Err _ => False
  end.
Proof.
  pose proof counts_boards as AB. change (board_rows 16 16) with [(0, 0); (8, 4); (4, 8)] in *.
  split; [reflexivity|]. split; [exact AB|]. split; [|vm_compute; repeat split].
  split; [repeat constructor; cbn; intuition discriminate|].
  assert (supported V5 16 16) as S by (right; repeat split; try lia; exists 4; reflexivity).
  intros e s. split.
  - intros H.
    assert (In e [(0, 0); (8, 4); (4, 8)] /\ In s sides /\ In (spot V5 16 16 s e) [(0, 0); (8, 4); (4, 8)] /\
      inside 16 16 (spot V5 16 16 s e)) as (H1 & H2 & H3 & H4).
    { cbn [In] in H. destruct H as [H|[H|[H|[H|[H|[H|[]]]]]]]; injection H as <- <-; vm_compute; intuition congruence. }
    split; [apply AB; auto|]. split; auto. exists (spot V5 16 16 s e). split; [apply AB; auto|]. apply lands_spot; auto.
  - intros (He & Hs & e' & He' & La). apply AB in He, He'. apply lands_spot in La as [-> _]; auto.
    assert (existsb (fun es => xy_eqb (fst es) e && xy_eqb (snd es) s)
      [((0, 0), (8, 4)); ((0, 0), (4, 8)); ((8, 4), (-8, -4)); ((8, 4), (-4, 4)); ((4, 8), (-4, -8)); ((4, 8), (4, -4))] = true) as X.
    { unfold sides in Hs. cbn [In] in He, Hs.
      destruct He as [<-|[<-|[<-|[]]]]; destruct Hs as [<-|[<-|[<-|[<-|[<-|[<-|[]]]]]]]; try reflexivity;
        exfalso; vm_compute in He'; intuition discriminate. }
    apply existsb_exists in X as ([e1 s1] & I & X). cbn [fst snd] in X. apply andb_true_iff in X as [X1 X2].
    apply xyeqb_eq in X1, X2. subst. exact I.
Qed.

(** One of the two down chips is on a board; it is given twice. *)
Example C73_missing_case :
  missing_chips V5 16 16 (fun p => In (mkIgnoreChip (fst p) (snd p) None) [mkIgnoreChip 1 1 None; mkIgnoreChip 0 7 None]) [(1, 1)] /\
  match virtual_machine (counts_cfg (Some "1,1:0,7:1,1"%string)) counts_version 16 16 true with
  | Ok m => n_chips m = 143
  | Err _ => False
  end.
Proof.
  split; [|vm_compute; reflexivity]. split; [repeat constructor; auto|].
  assert (supported V5 16 16) as S by (right; repeat split; try lia; exists 4; reflexivity).
  intros p. rewrite <- (in_places V5 16 16 _ p S counts_boards). split.
  - intros [<-|[]]. split; [left; reflexivity|]. apply xymem_in. vm_compute. reflexivity.
  - intros [[D|[D|[]]] H]; injection D as D1 D2; apply xymem_in in H;
      destruct p as [px py]; cbn [fst snd] in D1, D2; subst px py; [left; reflexivity|vm_compute in H; discriminate].
Qed.
