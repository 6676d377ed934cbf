(** C55, C56: where a chip is, and the summary of a machine. *)
From Coq Require Import Lia ZifyBool String Ascii.
From Verif Require Import Model_Py Model_Wrap Model_Version Model_Core Model_Machine Model_Str Model_Ignore
  Model_Virtual Model_Text Model_Summary
  Spec_Hops Spec_Board Spec_Version Spec_Machine Spec_Str Spec_Virtual Spec_Summary
  Proof_Py Proof_Wrap Proof_Board Proof_Version Proof_Machine Proof_Str Proof_Virtual
  Proof_VirtualMachine Proof_Repr Proof_Summary.
Open Scope string_scope.
Open Scope list_scope.
Open Scope Z_scope.

Ltac next E := cbn [append] in E; apply dec_then in E; [|reflexivity|reflexivity];
  let X := fresh "X" in destruct E as (X & _ & E).

(** ** C55 *)

(** The text for the coordinates of a machine with a chip (0, 0).  The local coordinates
    in it lead back to the chip. *)
Theorem C55_where_is :
  forall v m, made v m -> good_size (m_kind m) (m_width m) (m_height m) ->
  forall x y boot, get_chip_at m 0 0 = Some boot ->
    (get_chip_at m x y = None -> m_where_is_xy m x y = cat ["No chip "; dec x; ", "; dec y; " found"]) /\
    (forall c, get_chip_at m x y = Some c -> canonical (m_kind m) (m_width m) (m_height m) (x, y) ->
     exists lx ly,
       m_global m lx ly (c_eth_x c) (c_eth_y c) = (x, y) /\
       m_where_is_xy m x y = m_where_is_chip m c /\
       m_where_is_xy m x y =
         cat ["global chip "; dec x; ", "; dec y; " on "; opt_str (c_ip boot);
              " is chip "; dec lx; ", "; dec ly; " ";
              match get_chip_at m (c_eth_x c) (c_eth_y c) with
              | Some e => cat ["on "; opt_str (c_ip e)]
              | None => ""
              end]).
Proof.
  intros v m M G x y boot B. apply made_wf in M. split.
  - intros E. unfold m_where_is_xy. rewrite E. reflexivity.
  - intros c E C. pose proof (proj1 (get_chip_in m x y c M) E) as [_ XY]. unfold c_xy in XY. injection XY as <- <-.
    destruct (m_local m c) as [lx ly] eqn:L. exists lx, ly. split.
    + unfold m_global. apply local_global; auto.
    + unfold m_where_is_xy. rewrite E. split; [reflexivity|]. unfold m_where_is_chip.
      unfold getitem, dgetitem. unfold get_chip_at in B. rewrite B. rewrite L.
      unfold get_chip_at. destruct (dget xy_eqb (m_chips m) (c_eth_x c, c_eth_y c)); reflexivity.
Qed.
Print Assumptions C55_where_is.

(** Without a chip (0, 0) the text of the chip is returned: there is no exception. *)
Theorem C55_no_boot_chip :
  forall m c, get_chip_at m 0 0 = None -> m_where_is_chip m c =
    cat ["[Chip: x="; dec (c_x c); ", y="; dec (c_y c); ", ";
         match c_ip c with
         | None | Some "" => ""
         | Some address => cat ["ip_address="; address; " "]
         end;
         "n_cores="; dec (Z.of_nat (List.length (c_scamp c ++ c_placable c))); "]"].
Proof.
  intros m c B. unfold m_where_is_chip, getitem, dgetitem. unfold get_chip_at in B. rewrite B.
  unfold chip_str, n_processors. rewrite app_length, Nat2Z.inj_add.
  destruct (c_ip c) as [[|a s]|]; reflexivity.
Qed.
Print Assumptions C55_no_boot_chip.

(** The answers for different coordinates are different. *)
Theorem C55_answers_differ :
  forall v m, made v m -> forall x y x' y',
    m_where_is_xy m x y = m_where_is_xy m x' y' -> (x, y) = (x', y').
Proof.
  intros v m M x y x' y' E. apply made_wf in M. unfold m_where_is_xy, m_where_is_chip in E.
  destruct (get_chip_at m x y) as [c|] eqn:C, (get_chip_at m x' y') as [c'|] eqn:C'.
  - apply get_chip_in in C as [_ C]; auto. apply get_chip_in in C' as [_ C']; auto.
    unfold c_xy in C, C'. injection C as <- <-. injection C' as <- <-.
    destruct (getitem m (0, 0)) as [b|].
    + destruct (m_local m c) as [lx ly], (m_local m c') as [lx' ly'].
      unfold cat in E. cbn [fold_right] in E. cbn [append] in E. injection E as E. next E. injection E as E. next E.
      congruence.
    + unfold chip_str, cat in E. cbn [fold_right] in E. cbn [append] in E. injection E as E. next E.
      injection E as E. next E. congruence.
  - destruct (getitem m (0, 0)) as [b|]; [destruct (m_local m c)|]; cbn in E; discriminate.
  - destruct (getitem m (0, 0)) as [b|]; [destruct (m_local m c')|]; cbn in E; discriminate.
  - unfold cat in E. cbn [fold_right] in E. cbn [append] in E. injection E as E. next E. injection E as E. next E.
    congruence.
Qed.
Print Assumptions C55_answers_differ.

(** On a virtual machine the text names the position on the board and the address of the
    board, when the Ethernet chip of the board and chip (0, 0) are not down. *)
Theorem C55_virtual_machine :
  forall c V w h check m, virtual_machine c V w h check = Ok m ->
  forall x y e d n,
    is_chip_at m 0 0 = true -> is_chip_at m x y = true ->
    place_of (v_id V) w h (x, y) e d n -> is_chip_at m (fst e) (snd e) = true ->
    m_where_is_xy m x y =
      cat ["global chip "; dec x; ", "; dec y; " on 127.0.0.0 is chip "; dec (fst d); ", "; dec (snd d);
           " on 127.0."; dec (fst e); "."; dec (snd e)].
Proof.
  intros c V w h b m E x y e d n P0 P PL PE. apply virtual_built in E as (dch & dco & dl & B & _).
  pose proof (b_wf _ _ _ _ _ _ _ _ B) as W. pose proof (b_sup _ _ _ _ _ _ _ _ B) as S.
  assert (forall x y, is_chip_at m x y = true -> exists e, get_chip_at m x y = Some e) as K.
  { intros a b'. unfold is_chip_at, get_chip_at, dmem. destruct (dget xy_eqb (m_chips m) (a, b')); eauto. discriminate. }
  apply K in P0 as [c0 G0]. apply K in P as [cc G]. apply K in PE as [ce GE].
  destruct (layout_exists _ _ _ S) as [eths L].
  assert (forall p, board_origin (v_id V) w h p -> exists n0, place_of (v_id V) w h p p (0, 0) n0) as Self.
  { intros p Hp. destruct (proj1 (expected_in (v_id V) (0, 0)) (zero_expected _)) as [n0 N0]. exists n0.
    split; auto. split; auto. apply lands_spot; auto. apply (lay_origin _ _ _ _ L) in Hp.
    pose proof (lay_self _ _ _ _ L p Hp) as Q. split; [auto|].
    rewrite <- Q. apply (lay_inside _ _ _ _ L); auto using zero_expected. }
  assert (board_origin (v_id V) w h (0, 0)) as O0 by (apply (lay_origin _ _ _ _ L), (lay_zero _ _ _ _ L)).
  destruct (built_fields B x y cc e d n G PL) as (F1 & F2 & F3 & _).
  destruct PL as (O & Hd & La). destruct (Self _ O0) as [k0 S0]. destruct (Self _ O) as [ke Se].
  assert (c_ip c0 = Some "127.0.0.0") as I0.
  { destruct (built_fields B 0 0 c0 (0, 0) (0, 0) k0 G0 S0) as (_ & _ & _ & I & _). exact I. }
  destruct e as [ex ey], d as [dx dy]. cbn [fst snd] in *.
  assert (c_ip ce = Some (virtual_ip ex ey)) as Ie.
  { destruct (built_fields B ex ey ce (ex, ey) (0, 0) ke GE Se) as (_ & _ & _ & I & _). exact I. }
  assert (0 <= dx < w /\ 0 <= dy < h) as D.
  { destruct (v_id V); cbn [supported chip_core_map] in S, Hd.
    - destruct S as [-> ->]. cbn in Hd. destruct Hd as [Hd|[Hd|[Hd|[Hd|[]]]]]; injection Hd as <- <- <-; lia.
    - assert (8 <= w /\ 8 <= h) by (destruct S as [[-> ->]|S]; lia).
      assert (on_board (dx, dy)) as [? [? ?]]
        by (apply (board48 V5 (or_introl eq_refl)), expected_in; eauto). cbn [fst snd] in *. lia.
    - destruct S as [-> ->]. cbn in Hd. destruct Hd as [Hd|[]]. injection Hd as <- <- <-. lia.
    - assert (8 <= w /\ 8 <= h) by (destruct S as [[-> ->]|S]; lia).
      assert (on_board (dx, dy)) as [? [? ?]]
        by (apply (board48 V248 (or_intror eq_refl)), expected_in; eauto). cbn [fst snd] in *. lia. }
  assert (m_local m cc = (dx, dy)) as LO.
  { unfold m_local. injection F3 as -> ->. rewrite F1, F2.
    rewrite (b_kind _ _ _ _ _ _ _ _ B), (b_width _ _ _ _ _ _ _ _ B), (b_height _ _ _ _ _ _ _ _ B).
    apply global_local; [apply good_supported; auto|split; cbn [fst snd]; intros; lia|].
    rewrite global_red. apply (lands_spot _ _ _ _ _ _ S) in La as [La _]. symmetry. exact La. }
  unfold m_where_is_xy. rewrite G. unfold m_where_is_chip, getitem, dgetitem. injection F3 as E1 E2.
  rewrite E1, E2. unfold get_chip_at in G0, GE. rewrite G0, GE, LO, I0, Ie, F1, F2.
  unfold virtual_ip, opt_str, cat. cbn [fold_right append]. rewrite ?app_nil_s. reflexivity.
Qed.
Print Assumptions C55_virtual_machine.

Definition example_cfg : config :=
  mkConfig None None None None None None false None (Some "0,1:4,8"%string) None None None None false.
Definition example_machine : res machine :=
  virtual_machine example_cfg (mkVersion V5 18 123469792) 12 12 false.

Example C55_case :
  match example_machine with
  | Ok m => m_where_is_xy m 3 3 = "global chip 3, 3 on 127.0.0.0 is chip 3, 3 on 127.0.0.0" /\
            m_where_is_xy m 3 11 = "global chip 3, 11 on 127.0.0.0 is chip 7, 7 on 127.0.8.4" /\
            m_where_is_xy m 5 9 = "global chip 5, 9 on 127.0.0.0 is chip 1, 1 " /\
            m_where_is_xy m 0 1 = "No chip 0, 1 found" /\
            is_chip_at m 0 0 = true /\ is_chip_at m 3 11 = true /\ is_chip_at m 8 4 = true
  | Err _ => False
  end.
Proof. vm_compute. repeat split; reflexivity. Qed.

(** ** C56 *)

(** With the same origin, the text of a machine says its size, wraps and number of chips. *)
Theorem C56_machine_text :
  forall a b, m_origin a = m_origin b ->
    (machine_str a = machine_str b <->
     m_kind a = m_kind b /\ m_width a = m_width b /\ m_height a = m_height b /\ n_chips a = n_chips b).
Proof.
  intros a b O. unfold machine_str, cat. cbn [fold_right]. rewrite O. split.
  - intros E. cbn [append] in E. injection E as E. apply app_inj_l in E.
    assert (m_kind a = m_kind b) as K
      by (destruct (m_kind a), (m_kind b); auto; cbn in E; discriminate).
    rewrite K in E. apply app_inj_l in E. cbn [append] in E. injection E as E.
    next E. injection E as E. next E. injection E as E. next E. auto.
  - intros (-> & -> & -> & ->). reflexivity.
Qed.
Print Assumptions C56_machine_text.

Lemma half_text n : cat [dec (n / 2); if Z.even n then ".0" else ".5"] = half_str n.
Proof. unfold half_str. rewrite Zmod_even. destruct (Z.even n); reflexivity. Qed.

(** The class in the text says in which dimensions the machine wraps. *)
Theorem C56_class_in_the_text :
  forall v m, supported v (m_width m) (m_height m) ->
    m_kind m = machine_class v (m_width m) (m_height m) ->
    exists name rest, machine_str m = cat ["["; m_origin m; name; "Machine: "; rest] /\
      (name = "Wrapped" <-> should_wrap v (m_width m) /\ should_wrap v (m_height m)) /\
      (name = "HorWrap" <-> should_wrap v (m_width m) /\ ~ should_wrap v (m_height m)) /\
      (name = "VerWrap" <-> ~ should_wrap v (m_width m) /\ should_wrap v (m_height m)) /\
      (name = "NoWrap" <-> ~ should_wrap v (m_width m) /\ ~ should_wrap v (m_height m)).
Proof.
  intros v m S K. destruct (class_should_wrap v _ _ S) as [A B]. rewrite <- K in A, B.
  exists (wrap_text (m_kind m)), (cat ["width="; dec (m_width m);
       ", height="; dec (m_height m); ", n_chips="; dec (n_chips m); "]"]). split.
  - unfold machine_str, cat. cbn [fold_right append]. rewrite !app_nil_s. reflexivity.
  - rewrite <- A, <- B. destruct (m_kind m); cbn; repeat split; try tauto; try discriminate; intros [? ?]; exfalso; auto; discriminate.
Qed.
Print Assumptions C56_class_in_the_text.

(** The summary gives the numbers of chips, cores and links and the ranges over the chips;
    what is unusual is logged. *)
Theorem C56_summary :
  forall V v m, made v m ->
  forall boot s1 s2 r1 r2 c1 c2 l1 l2,
    get_chip_at m 0 0 = Some boot ->
    least m c_sdram s1 -> greatest m c_sdram s2 ->
    least m (fun c => r_entries (c_router c)) r1 -> greatest m (fun c => r_entries (c_router c)) r2 ->
    least m n_processors c1 -> greatest m n_processors c2 ->
    least m (fun c => router_len (c_router c)) l1 -> greatest m (fun c => router_len (c_router c)) l2 ->
    summary_string V m = Ok
      (cat ["Machine on "; opt_str (c_ip boot); " with "; dec (Z.of_nat (List.length (chips m)));
            " Chips, "; dec (zsum (map n_processors (chips m))); " cores and ";
            (let links := zsum (map (fun c => router_len (c_router c)) (chips m)) in
             cat [dec (links / 2); if Z.even links then ".0" else ".5"]); " links. Chips have ";
            (if s1 =? s2 then cat ["sdram of "; dec s1; " bytes"]
             else cat ["sdram of between "; dec s1; " and "; dec s2; " bytes"]); ", ";
            (if r1 =? r2 then cat ["router table of size "; dec r1]
             else cat ["router table sizes between "; dec r1; " and "; dec r2]); ", ";
            (if c1 =? c2 then cat [" "; dec c1; " cores"]
             else cat ["between "; dec c1; " and "; dec c2; " cores"]); " and ";
            (if l1 =? l2 then cat [" "; dec l1; " links.."]
             else cat ["between "; dec l1; " and "; dec l2; " links."])],
       (if s1 =? s2 then (if s1 =? max_sdram_per_chip V then [] else [UnexpectedSdram]) else [MixedSdram]) ++
       (if r1 =? r2 then (if r1 =? n_router_entries (v_id V) then [] else [UnexpectedRouters])
        else [MixedRouters])).
Proof.
  intros V v m M boot s1 s2 r1 r2 c1 c2 l1 l2 B S1 S2 R1 R2 C1 C2 L1 L2.
  pose proof (made_wf v m M) as W. destruct (made_keyed v m M) as (K1 & K2 & K3 & K4 & N1 & N2 & N3 & N4).
  unfold summary_string.
  destruct (spread_spec m c_sdram _ s1 s2 "sdram of " "sdram of between " " and " " bytes" " bytes" K4 N4 S1 S2)
    as (-> & _ & Sa & Sb).
  destruct (spread_spec m (fun c => r_entries (c_router c)) _ r1 r2 "router table of size "
    "router table sizes between " " and " "" "" K3 N3 R1 R2) as (-> & _ & Ra & Rb).
  destruct (spread_spec m n_processors _ c1 c2 " " "between " " and " " cores" " cores" K1 N1 C1 C2) as (-> & _).
  destruct (spread_spec m (fun c => router_len (c_router c)) _ l1 l2 " " "between " " and " " links" " links."
    K2 N2 L1 L2) as (-> & _).
  cbn [bind]. unfold boot_chip, dgetitem. unfold get_chip_at in B. rewrite B. cbn [bind]. f_equal. f_equal.
  - unfold get_cores_count, get_links_count_doubled. rewrite (wf_cores m W), (wf_links m W).
    replace (n_chips m) with (Z.of_nat (List.length (chips m)))
      by (unfold n_chips, chips, dvalues; rewrite map_length; reflexivity).
    cbv zeta. rewrite half_text.
    unfold cat. cbn [fold_right].
    destruct (s1 =? s2), (r1 =? r2), (c1 =? c2), (l1 =? l2); cbn [append]; do 8 (rewrite ?app_assoc_s; cbn [append]);
      rewrite ?app_nil_s; reflexivity.
  - assert (exists x y l, s1 <> s2 -> zsorted (dkeys (m_sdram_counter m)) = x :: y :: l) as (x & y & l & Sb').
    { destruct (Z.eq_dec s1 s2) as [Q|Q]; [exists 0, 0, []; contradiction|].
      destruct (Sb Q) as (x & y & l & Q'). exists x, y, l. auto. }
    assert (exists x y l, r1 <> r2 -> zsorted (dkeys (m_entries_counter m)) = x :: y :: l) as (x' & y' & l' & Rb').
    { destruct (Z.eq_dec r1 r2) as [Q|Q]; [exists 0, 0, []; contradiction|].
      destruct (Rb Q) as (p & q & t & Q'). exists p, q, t. auto. }
    rewrite (weird_spec _ s1 s2 x y l) by auto. rewrite (weird_spec _ r1 r2 x' y' l') by auto. reflexivity.
Qed.
Print Assumptions C56_summary.

(** Without chips there is an IndexError; with chips but none at (0, 0) a KeyError (and not the
    AttributeError of the documentation).  Otherwise there is a summary. *)
Theorem C56_summary_raises :
  forall V v m, made v m ->
    (summary_string V m = Err IndexError <-> chips m = []) /\
    (summary_string V m = Err KeyError <-> chips m <> [] /\ get_chip_at m 0 0 = None) /\
    (forall x, summary_string V m = Err x -> x = IndexError \/ x = KeyError).
Proof.
  intros V v m M. pose proof (made_wf v m M) as W.
  destruct (chips m) as [|c0 cs] eqn:E.
  - destruct (made_keyed v m M) as (K1 & K2 & K3 & K4 & _).
    assert (dkeys (m_sdram_counter m) = []) as S.
    { destruct (dkeys (m_sdram_counter m)) as [|a l]; auto. exfalso.
      destruct (proj1 (K4 a) (or_introl eq_refl)) as (c & Hc & _). rewrite E in Hc. destruct Hc. }
    unfold summary_string. rewrite S. cbn. split; [tauto|]. split; [split; [discriminate|tauto]|].
    intros x X. injection X as <-. auto.
  - assert (forall f : chip -> Z, exists a b, least m f a /\ greatest m f b) as LG.
    { intros f. unfold least, greatest. rewrite E. clear. revert c0. induction cs as [|c1 cs IH]; intros c0.
      - exists (f c0), (f c0). split; (split; [exists c0; cbn; auto|intros c [<-|[]]; lia]).
      - destruct (IH c1) as (a & b & [(x & Hx & <-) La] & [(y & Hy & <-) Lb]). exists (Z.min (f c0) (f x)), (Z.max (f c0) (f y)).
        split; (split; [|intros c [<-|Hc]; [lia|]]).
        + destruct (Z.min_spec (f c0) (f x)) as [[_ ->]|[_ ->]]; [exists c0; cbn; auto|exists x; split; [right; auto|auto]].
        + specialize (La c Hc). lia.
        + destruct (Z.max_spec (f c0) (f y)) as [[_ ->]|[_ ->]]; [exists y; split; [right; auto|auto]|exists c0; cbn; auto].
        + specialize (Lb c Hc). lia. }
    destruct (LG c_sdram) as (s1 & s2 & S1 & S2).
    destruct (LG (fun c => r_entries (c_router c))) as (r1 & r2 & R1 & R2).
    destruct (LG n_processors) as (c1 & c2 & C1 & C2).
    destruct (LG (fun c => router_len (c_router c))) as (l1 & l2 & L1 & L2).
    destruct (get_chip_at m 0 0) as [boot|] eqn:B.
    + rewrite (C56_summary V v m M boot s1 s2 r1 r2 c1 c2 l1 l2) by auto.
      split; [split; discriminate|]. split; [split; [discriminate|intros [_ X]; discriminate]|discriminate].
    + assert (summary_string V m = Err KeyError) as ->.
      { destruct (made_keyed v m M) as (K1 & K2 & K3 & K4 & N1 & N2 & N3 & N4). unfold summary_string.
        destruct (spread_spec m c_sdram _ s1 s2 "sdram of " "sdram of between " " and " " bytes" " bytes" K4 N4 S1 S2)
          as (-> & _).
        destruct (spread_spec m (fun c => r_entries (c_router c)) _ r1 r2 "router table of size "
          "router table sizes between " " and " "" "" K3 N3 R1 R2) as (-> & _).
        destruct (spread_spec m n_processors _ c1 c2 " " "between " " and " " cores" " cores" K1 N1 C1 C2) as (-> & _).
        destruct (spread_spec m (fun c => router_len (c_router c)) _ l1 l2 " " "between " " and " " links" " links."
          K2 N2 L1 L2) as (-> & _).
        cbn [bind]. unfold boot_chip, dgetitem. unfold get_chip_at in B. rewrite B. reflexivity. }
      split; [split; discriminate|]. split; [split; [intros _; split; [discriminate|auto]|auto]|].
      intros x X. injection X as <-. auto.
Qed.
Print Assumptions C56_summary_raises.

Definition example_chip (x y sdram entries : Z) (ip : option string) (cores : list Z) : chip :=
  mkChip x y [0] cores (mkRouter [(0, mkLink x y 0 (x + 1) y)] entries) sdram 0 0 ip [] None.
Definition example_made : machine :=
  fst (history V5 (new_machine NoWrap 8 8 V5_CHIPS "made")
    (map CallAddChip [example_chip 0 0 100 1023 (Some "10.0.0.1") [1; 2]; example_chip 1 0 90 1023 None [1; 2; 3]])).

Example C56_case :
  made V5 example_made /\
  machine_str example_made = "[madeNoWrapMachine: width=8, height=8, n_chips=2]" /\
  summary_string (mkVersion V5 18 123469792) example_made =
    Ok ("Machine on 10.0.0.1 with 2 Chips, 7 cores and 1.0 links. Chips have sdram of between 90 and 100 bytes, router table of size 1023, between 3 and 4 cores and  1 links..", [MixedSdram]) /\
  least example_made c_sdram 90 /\ greatest example_made n_processors 4 /\
  match example_machine with
  | Ok m => summary_string (mkVersion V5 18 123469792) m =
        Ok ("Machine on 127.0.0.0 with 142 Chips, 2532 cores and 420.0 links. Chips have sdram of 123469792 bytes, router table of size 1023, between 17 and 18 cores and between 5 and 6 links.", [])
  | Err _ => False
  end.
Proof.
  split; [do 6 eexists; reflexivity|]. split; [vm_compute; reflexivity|]. split; [vm_compute; reflexivity|].
  split; [|split; [|vm_compute; reflexivity]].
  - split; [exists (example_chip 1 0 90 1023 None [1; 2; 3]); split; [right; left; reflexivity|reflexivity]|].
    intros c [<-|[<-|[]]]; vm_compute; discriminate.
  - split; [exists (example_chip 1 0 90 1023 None [1; 2; 3]); split; [right; left; reflexivity|reflexivity]|].
    intros c [<-|[<-|[]]]; vm_compute; discriminate.
Qed.
