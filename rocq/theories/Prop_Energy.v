(** C57, C58: the energy estimates. *)
From Coq Require Import Reals Lra Lia ZArith.
From Verif Require Import Model_Py Model_Wrap Model_Float Model_Version Model_Energy Spec_Energy
  Proof_Py Proof_Double Proof_Energy.
From Flocq Require Import Core.Core.
Open Scope R_scope.

(** C57.  The idle energy is the idle power times the time, to within one part in
    10 ^ 14, for all counts and times that are not astronomical. *)
Theorem C57_idle_energy :
  forall v t frames boards chips,
    v = V3 \/ v = V5 -> time_ok t -> small frames -> small boards -> small chips ->
    (v = V3 -> frames = 0 /\ boards <= 1)%Z ->
    exists e, get_idle_energy v t frames boards chips = Ok e /\ usable e /\
      Rabs (value e - idle_watts v frames boards chips * value t) <=
        / 10 ^ 14 * (idle_watts v frames boards chips * value t).
Proof.
  intros v t frames boards chips V [U R] F B C V3ok. destruct (time_near t U R) as [N W].
  assert (exists e, get_idle_energy v t frames boards chips = Ok e /\
    near 5 e (idle_watts v frames boards chips * value t)) as (e & E & NE).
  { destruct V as [-> | ->].
    - destruct (v3_idle_near t frames boards chips) as (e & E & NE & _); auto.
      exists e. split; auto. apply (near_weaken 4); auto. apply few_50. lia.
    - destruct (v5_idle_near t frames boards chips) as (e & E & NE & _); auto. exists e. auto. }
  exists e. split; auto. split; [apply (near_usable _ _ _ NE)|]. pose proof (near_error _ _ _ NE) as X.
  destruct NE as (_ & _ & _ & RR & _). apply range_nonneg in RR.
  apply Rle_trans with (1 := X). apply Rmult_le_compat_r; auto. cbn. lra.
Qed.
Print Assumptions C57_idle_energy.

(** When it raises: a 4 chip board has no frames and there is only one; the
    SpiNNaker 2 versions have no estimate; nothing else. *)
Theorem C57_raises :
  (forall t frames boards chips,
     get_idle_energy V3 t frames boards chips = Err MachineExc <-> (frames <> 0 \/ 1 < boards)%Z) /\
  (forall v t frames boards chips, v = V3 \/ v = V5 -> small frames -> small boards -> small chips ->
     (v = V3 -> frames = 0 /\ boards <= 1)%Z ->
     exists e, get_idle_energy v t frames boards chips = Ok e) /\
  (forall v t frames boards chips, v = V201 \/ v = V248 ->
     get_idle_energy v t frames boards chips = Err NotImplementedErr).
Proof.
  split; [|split].
  - intros t frames boards chips. cbn [get_idle_energy]. unfold v3_idle_energy. rewrite Z.gtb_ltb.
    destruct (frames =? 0)%Z eqn:F; cbn [negb]; [apply Z.eqb_eq in F|apply Z.eqb_neq in F; split; auto].
    destruct (1 <? boards)%Z eqn:B; [apply Z.ltb_lt in B|apply Z.ltb_ge in B]; [split; auto|].
    split; [|intros [X|X]; [congruence|lia]].
    destruct (boards =? 0)%Z; [|discriminate]. unfold int_mul. destruct (f_finite (f_of_Z chips)); discriminate.
  - intros v t frames boards chips [-> | ->] F B C V; cbn [get_idle_energy].
    + destruct V as [-> B1]; auto. unfold v3_idle_energy. cbn [Z.eqb negb].
      rewrite Z.gtb_ltb, (proj2 (Z.ltb_ge 1 boards)) by lia. unfold small in *.
      destruct (boards =? 0)%Z; eauto. rewrite int_mul_ok by lia. cbn [bind]. eauto.
    + rewrite v5_idle_split by auto. eauto.
  - intros v t frames boards chips [-> | ->]; reflexivity.
Qed.
Print Assumptions C57_raises.

(** More time, frames, boards or chips never means less energy: the floats are in
    order, not only the exact values. *)
Theorem C57_more_is_more :
  forall v t t' frames frames' boards boards' chips chips' e e',
    usable t -> usable t' -> f_le t t' ->
    (0 <= frames <= frames')%Z -> small frames' -> (0 <= boards <= boards')%Z -> small boards' ->
    (0 <= chips <= chips')%Z -> small chips' -> (boards = 0 <-> boards' = 0)%Z ->
    get_idle_energy v t frames boards chips = Ok e ->
    get_idle_energy v t' frames' boards' chips' = Ok e' -> f_le e e'.
Proof.
  intros v t t' frames frames' boards boards' chips chips' e e' T T' L F F' B B' C C' Z E E'.
  apply le_usable in L; auto. unfold small in *. apply below_le.
  destruct v; cbn [get_idle_energy] in *; try discriminate.
  - apply (v3_idle_mono t t' T T' L frames frames' boards boards' chips chips'); auto; lia.
  - destruct (v5_idle_mono t t' T T' L frames frames' boards boards' chips chips') as (x & x' & X & X' & Y);
      auto; try lia. rewrite X in E. rewrite X' in E'. apply oki in E. apply oki in E'. subst. exact Y.
Qed.
Print Assumptions C57_more_is_more.

(** A day of a 24 board machine with one frame: 26.84 * 24 + 117 W, about 65.8 MJ. *)
Example C57_case :
  time_ok (f_of_Z 86400) /\
  (do e <- get_idle_energy V5 (f_of_Z 86400) 1 24 1152 ; f_ceil e) = Ok 65764224%Z /\
  (do e <- get_idle_energy V3 (f_of_Z 86400) 0 1 4 ; f_ceil e) = Ok 307584%Z.
Proof.
  split; [|split; vm_compute; reflexivity].
  replace (f_of_Z 86400) with (S754_finite false 5937362789990400 (-36)) by (vm_compute; reflexivity).
  assert (value (S754_finite false 5937362789990400 (-36)) = 86400) as E by (unfold value, BinarySingleNaN.SF2R, F2R; cbn; lra).
  split; [split; [reflexivity|split; [reflexivity|rewrite E; lra]]|]. right. rewrite E.
  assert (100000 <= 10 ^ 200) as H.
  { replace 100000 with (10 ^ 5) by (cbn; lra). apply Rle_pow; [lra|lia]. }
  split; [|lra]. apply Rle_trans with (/ 100000); [|lra]. apply Rinv_le; lra.
Qed.

(** C58.  The active energy is the power of the frames and of the idle machine times
    the time, plus the energy of every packet, plus 0.034 J for every active second;
    the rounding grows with the number of entries. *)
Theorem C58_active_energy :
  forall v t frames boards chips times packets joules,
    v = V3 \/ v = V5 -> time_ok t -> small frames -> small boards -> small chips ->
    (v = V3 -> frames = 0 /\ boards <= 1)%Z ->
    Forall (fun c => time_ok (fst (snd c))) times ->
    Forall (fun nk => small (snd nk)) (counted packets) ->
    packets_joules (counted packets) joules ->
    (Z.of_nat (List.length times) <= 10 ^ 9)%Z -> (Z.of_nat (List.length (counted packets)) <= 10 ^ 9)%Z ->
    let exact := (frame_watts v frames + idle_watts v frames boards chips) * value t
                 + joules + cores_joules times in
    exists e, get_active_energy v t frames boards chips times packets = Ok e /\ usable e /\
      Rabs (value e - exact) <=
        INR (12 + List.length times + List.length (counted packets)) * / 10 ^ 15 * exact.
Proof.
  intros v t frames boards chips times packets joules V [U R] F B C V3ok TT PS PJ LT LP exact.
  destruct (time_near t U R) as [N W].
  destruct (router_near packets joules PJ PS) as (r & RE & RN & RW); [lia|].
  destruct (core_near times TT) as [CN CW]; [lia|].
  assert (forall base b, near 10 base b -> within (-760) 900 b ->
    exists e, Ok (f_add (f_add base r) (core_active_energy times)) = Ok e /\
      near (12 + List.length times + List.length (counted packets)) e (b + joules + cores_joules times)) as FIN.
  { intros base b BN BW. eexists. split; [reflexivity|].
    assert (within (-760) (900 + 1) (b + joules)) as W1.
    { apply within_add; auto. apply (within_wider _ _ _ _ _ RW); lia. }
    assert (within (-760) (901 + 1) (b + joules + cores_joules times)) as W2.
    { apply within_add; auto. apply (within_wider _ _ _ _ _ CW); lia. }
    replace (12 + List.length times + List.length (counted packets))%nat with
      (S (11 + List.length times + List.length (counted packets))) by lia.
    apply add_near.
    - apply (near_weaken (S (10 + List.length (counted packets)))); [lia|apply few_many; lia|].
      apply add_near.
      + apply (near_weaken 10); auto; [lia|apply few_many; lia].
      + apply (near_weaken (4 + List.length (counted packets))); auto; [lia|apply few_many; lia].
      + apply few_many; lia.
      + apply (within_range _ _ _ W1); lia.
    - apply (near_weaken (2 + List.length times)); auto; [lia|apply few_many; lia].
    - apply few_many; lia.
    - apply (within_range _ _ _ W2); lia. }
  assert (exists e, get_active_energy v t frames boards chips times packets = Ok e /\
    near (12 + List.length times + List.length (counted packets)) e exact) as (e & E & NE).
  { destruct V as [-> | ->]; cbn [get_active_energy].
    - destruct (v3_idle_near t frames boards chips) as (i & IE & IN & IW); auto.
      rewrite IE. cbn [bind]. rewrite RE. cbn [bind]. unfold exact, frame_watts. rewrite Rplus_0_l. apply FIN.
      + apply (near_weaken 4); auto; [lia|apply few_50; lia].
      + apply (within_wider _ _ _ _ _ IW); lia.
    - destruct (v5_idle_near t frames boards chips) as (i & IE & IN & IW); auto.
      assert (exists c, (if negb (frames =? 0)%Z
         then do w <- int_mul frames WATTS_PER_FRAME_ACTIVE_COST_OVERHEAD; Ok (f_mul w t)
         else Ok (S754_zero false)) = Ok c /\ near 9 c (frame_watts V5 frames * value t) /\
         within (-760) 830 (frame_watts V5 frames * value t)) as (c & -> & CCN & CCW).
      { unfold small in F. destruct (frames =? 0)%Z eqn:F0; cbn [negb].
        - apply Z.eqb_eq in F0. subst frames. eexists. split; [reflexivity|].
          unfold frame_watts. rewrite !Rmult_0_l. split; [apply zero_near; lia|left; auto].
        - rewrite int_mul_ok by lia. cbn [bind]. eexists. split; [reflexivity|]. unfold frame_watts.
          apply (term_near 6); auto using near_frame; try lia. wconst. }
      cbn [bind]. rewrite IE. cbn [bind]. rewrite RE. cbn [bind]. unfold exact. rewrite Rmult_plus_distr_r.
      assert (within (-760) (831 + 1) (frame_watts V5 frames * value t + idle_watts V5 frames boards chips * value t)) as WW.
      { apply within_add; auto. apply (within_wider _ _ _ _ _ CCW); lia. }
      apply FIN.
      + apply add_near; auto; [|apply few_50; lia|apply (within_range _ _ _ WW); lia].
        apply (near_weaken 5); auto. apply few_50. lia.
      + apply (within_wider _ _ _ _ _ WW); lia. }
  exists e. split; auto. split; [apply (near_usable _ _ _ NE)|]. apply near_error. auto.
Qed.
Print Assumptions C58_active_energy.

Lemma cost_mono l l' : Forall2 (fun a b : string * Z => fst a = fst b /\ (0 <= snd a <= snd b)%Z /\ small (snd b)) l l' ->
  forall fs fs', map_res cost_item l = Ok fs -> map_res cost_item l' = Ok fs' -> Forall2 below fs fs'.
Proof.
  induction 1 as [|[n k] [n' k'] l l' (N & K & S) F IH]; intros fs fs'; cbn [map_res].
  - intros X X'. apply oki in X. apply oki in X'. subst. constructor.
  - cbn [fst snd] in *. subst n'. unfold cost_item at 1 3. cbn [fst snd]. unfold small in S.
    unfold dgetitem. destruct (dget String.eqb COST_PER_PACKET_TYPE n) as [c|] eqn:G; [|discriminate].
    cbn [bind]. rewrite !int_mul_ok by lia. cbn [bind].
    destruct (map_res cost_item l) as [gs|]; [|discriminate]. destruct (map_res cost_item l') as [gs'|]; [|discriminate].
    cbn [bind]. intros X X'. apply oki in X. apply oki in X'. subst. constructor; auto.
    assert (usable c) as C.
    { apply (dget_some_in String.eqb String.eqb_eq) in G. unfold COST_PER_PACKET_TYPE in G. cbn [In] in G.
      pose proof (near_usable _ _ _ near_packet) as U1. pose proof (near_usable _ _ _ near_payload) as U2.
      destruct G as [G|[G|[G|[G|[G|[G|[G|[G|[G|[]]]]]]]]]]; apply (f_equal snd) in G; cbn [snd] in G; rewrite <- G; assumption. }
    destruct (of_Z_mono k k' K) as (A & B & L); [lia|]. apply mul_mono; auto. lra.
Qed.

Lemma router_mono packets packets' r r' : no_fewer_packets packets packets' ->
  router_active_energy packets = Ok r -> router_active_energy packets' = Ok r' -> below r r'.
Proof.
  intros F E E'. unfold router_active_energy in E, E'. fold cost_item in E, E'.
  change (map_res _ (flat_map snd packets)) with (map_res cost_item (flat_map snd packets)) in E.
  change (map_res _ (flat_map snd packets')) with (map_res cost_item (flat_map snd packets')) in E'.
  destruct (map_res cost_item (flat_map snd packets)) as [fs|] eqn:X; [|discriminate].
  destruct (map_res cost_item (flat_map snd packets')) as [fs'|] eqn:X'; [|discriminate].
  cbn [bind] in E, E'. apply oki in E. apply oki in E'. subst. apply sum_mono. apply (cost_mono _ _ F); auto.
Qed.

Lemma core_mono times times' : no_less_time times times' ->
  below (core_active_energy times) (core_active_energy times').
Proof.
  intros F. apply sum_mono. induction F as [|c c' l l' (A & B & L) F IH]; cbn [map]; constructor; auto.
  apply le_usable in L; auto. pose proof (near_usable _ _ _ near_core). apply mul_mono; auto. lra.
Qed.

Lemma self_packets packets : Forall (fun nk => small (snd nk)) (counted packets) -> no_fewer_packets packets packets.
Proof.
  unfold no_fewer_packets. induction 1 as [|x l X F IH]; constructor; auto. unfold small in X. split; auto. split; [lia|auto].
Qed.
Lemma self_time times : Forall (fun c => usable (fst (snd c))) times -> no_less_time times times.
Proof.
  unfold no_less_time. induction 1 as [|x l X F IH]; constructor; auto. split; auto. split; auto. apply le_usable; auto. lra.
Qed.

Definition v5_container (t : spec_float) (frames : Z) : spec_float :=
  if (frames =? 0)%Z then S754_zero false
  else f_mul (f_mul (f_of_Z frames) WATTS_PER_FRAME_ACTIVE_COST_OVERHEAD) t.

Lemma active_split v t frames boards chips times packets : v = V3 \/ v = V5 -> small frames ->
  get_active_energy v t frames boards chips times packets =
  do idle <- get_idle_energy v t frames boards chips ;
  do router <- router_active_energy packets ;
  Ok (f_add (f_add (match v with V3 => idle | _ => f_add (v5_container t frames) idle end) router)
            (core_active_energy times)).
Proof.
  unfold small. intros [-> | ->] F; cbn [get_active_energy get_idle_energy]; auto.
  unfold v5_container. destruct (frames =? 0)%Z; cbn [negb bind]; auto. rewrite int_mul_ok by lia. reflexivity.
Qed.

Lemma container_mono t t' frames frames' : usable t -> usable t' -> value t <= value t' ->
  (0 <= frames <= frames')%Z -> (frames' <= 2 ^ 60)%Z ->
  below (v5_container t frames) (v5_container t' frames').
Proof.
  intros T T' L F F'. unfold v5_container.
  assert (forall n, (0 <= n <= 2 ^ 60)%Z -> nonneg (f_mul (f_mul (f_of_Z n) WATTS_PER_FRAME_ACTIVE_COST_OVERHEAD) t')) as K.
  { intros n Hn. apply (term_mono 6 _ (37163558 / 1000000) n n t' t'); auto using near_frame; try lia; [wconst|lra]. }
  destruct (frames =? 0)%Z eqn:E; [apply Z.eqb_eq in E|apply Z.eqb_neq in E].
  - destruct zero_below as [N _]. destruct (frames' =? 0)%Z; [apply zero_below|]. split; auto. split; [apply K; lia|].
    destruct (K frames') as [_ [-> | [P Q]]]; [lia|exact I|]. rewrite (ext_value _ P). exact Q.
  - rewrite (proj2 (Z.eqb_neq frames' 0)) by lia.
    apply (term_mono 6 _ (37163558 / 1000000)); auto using near_frame; try lia. wconst.
Qed.

Lemma idle_mono v t t' frames frames' boards boards' chips chips' e e' :
  usable t -> usable t' -> f_le t t' ->
  (0 <= frames <= frames')%Z -> small frames' -> (0 <= boards <= boards')%Z -> small boards' ->
  (0 <= chips <= chips')%Z -> small chips' -> (boards = 0 <-> boards' = 0)%Z ->
  get_idle_energy v t frames boards chips = Ok e ->
  get_idle_energy v t' frames' boards' chips' = Ok e' -> below e e'.
Proof.
  intros T T' L F F' B B' C C' Z E E'.
  apply le_usable in L; auto. unfold small in *.
  destruct v; cbn [get_idle_energy] in *; try discriminate.
  - apply (v3_idle_mono t t' T T' L frames frames' boards boards' chips chips'); auto; lia.
  - destruct (v5_idle_mono t t' T T' L frames frames' boards boards' chips chips') as (x & x' & X & X' & Y);
      auto; try lia. rewrite X in E. rewrite X' in E'. apply oki in E. apply oki in E'. subst. exact Y.
Qed.

(** The running energy is never below the idle energy. *)
Theorem C58_at_least_idle :
  forall v t frames boards chips times packets e i,
    usable t -> small frames -> small boards -> small chips ->
    Forall (fun c => usable (fst (snd c))) times ->
    Forall (fun nk => small (snd nk)) (counted packets) ->
    get_active_energy v t frames boards chips times packets = Ok e ->
    get_idle_energy v t frames boards chips = Ok i -> f_le i e.
Proof.
  intros v t frames boards chips times packets e i T F B C TT PS E I.
  assert (v = V3 \/ v = V5) as V by (destruct v; auto; discriminate).
  rewrite active_split, I in E by auto. cbn [bind] in E.
  destruct (router_active_energy packets) as [r|] eqn:R; [|discriminate]. cbn [bind] in E. apply oki in E. subst e.
  destruct (router_mono _ _ r r (self_packets _ PS) R R) as [RN _].
  destruct (core_mono _ _ (self_time _ TT)) as [CN _].
  assert (f_le t t) as LT by (apply le_usable; auto; lra). unfold small in *.
  destruct (idle_mono v t t frames frames boards boards chips chips i i) as [IN _]; auto; unfold small; try lia; try tauto.
  destruct (container_mono t t frames frames) as [KN _]; auto; try lia; try lra.
  apply below_le.
  set (b := match v with V3 => i | _ => f_add (v5_container t frames) i end).
  assert (nonneg b /\ ext_le (ext i) (ext b)) as [BN BL].
  { unfold b. destruct V as [-> | ->]; [split; auto; apply ext_le_refl|].
    split; [apply add_nonneg; auto|apply add_up_r; auto]. }
  destruct (add_nonneg b r BN RN) as [N1 _]. destruct (add_nonneg _ _ N1 CN) as [N2 _].
  split; auto. split; auto. apply (ext_le_trans _ _ _ BL).
  apply (ext_le_trans _ (ext (f_add b r))); apply add_up; auto.
Qed.
Print Assumptions C58_at_least_idle.

(** More time, frames, boards, chips, packets or active seconds never means less. *)
Theorem C58_more_is_more :
  forall v t t' frames frames' boards boards' chips chips' times times' packets packets' e e',
    usable t -> usable t' -> f_le t t' ->
    (0 <= frames <= frames')%Z -> small frames' -> (0 <= boards <= boards')%Z -> small boards' ->
    (0 <= chips <= chips')%Z -> small chips' -> (boards = 0 <-> boards' = 0)%Z ->
    no_less_time times times' -> no_fewer_packets packets packets' ->
    get_active_energy v t frames boards chips times packets = Ok e ->
    get_active_energy v t' frames' boards' chips' times' packets' = Ok e' -> f_le e e'.
Proof.
  intros v t t' frames frames' boards boards' chips chips' times times' packets packets' e e'
    T T' L F F' B B' C C' Z NT NP E E'. apply below_le.
  assert (v = V3 \/ v = V5) as V by (destruct v; auto; discriminate).
  rewrite active_split in E, E' by (unfold small in *; auto; lia).
  destruct (get_idle_energy v t frames boards chips) as [i|] eqn:I; [|discriminate].
  destruct (get_idle_energy v t' frames' boards' chips') as [i'|] eqn:I'; [|discriminate]. cbn [bind] in E, E'.
  destruct (router_active_energy packets) as [r|] eqn:R; [|discriminate].
  destruct (router_active_energy packets') as [r'|] eqn:R'; [|discriminate]. cbn [bind] in E, E'.
  apply oki in E. apply oki in E'. subst e e'.
  destruct (router_mono _ _ r r' NP R R') as (R1 & R2 & R3). destruct (core_mono _ _ NT) as (C1 & C2 & C3).
  destruct (idle_mono v t t' frames frames' boards boards' chips chips' i i') as (I1 & I2 & I3); auto.
  assert (below (match v with V3 => i | _ => f_add (v5_container t frames) i end)
                (match v with V3 => i' | _ => f_add (v5_container t' frames') i' end)) as (B1 & B2 & B3).
  { destruct V as [-> | ->]; [split; auto|]. apply le_usable in L; auto.
    destruct (container_mono t t' frames frames') as (K1 & K2 & K3); auto; [unfold small in F'; lia|].
    apply add_mono; auto. }
  destruct (add_mono _ _ _ _ B1 B2 R1 R2 B3 R3) as (X1 & X2 & X3). apply add_mono; auto.
Qed.
Print Assumptions C58_more_is_more.

(** A packet type that the routers do not report is an error, and the reported ones are not. *)
Theorem C58_unknown_packets :
  forall v t frames boards chips times packets,
    v = V3 \/ v = V5 -> small frames -> small boards -> small chips ->
    (v = V3 -> frames = 0 /\ boards <= 1)%Z ->
    Forall (fun nk => small (snd nk)) (counted packets) ->
    exists types, get_router_report_packet_types v = Ok types /\
      (forall n, In n types <-> exists j, packet_joules n j) /\
      (get_active_energy v t frames boards chips times packets = Err KeyError <->
       exists nk, In nk (counted packets) /\ ~ In (fst nk) types) /\
      ((forall nk, In nk (counted packets) -> In (fst nk) types) ->
       exists e, get_active_energy v t frames boards chips times packets = Ok e).
Proof.
  intros v t frames boards chips times packets V F B C V3ok PS.
  exists (dkeys COST_PER_PACKET_TYPE). split; [destruct V as [-> | ->]; reflexivity|].
  assert (forall n, In n (dkeys COST_PER_PACKET_TYPE) <-> exists j, packet_joules n j) as K.
  { intros n. split.
    - intros [<-|[<-|[<-|[<-|[<-|[<-|[<-|[<-|[<-|[]]]]]]]]]];
        first [eexists; apply plain; cbn; tauto|eexists; apply with_payload; cbn; tauto].
    - intros [j [m H|m H]]; [destruct H as [<-|[<-|[<-|[<-|[<-|[]]]]]]|destruct H as [<-|[<-|[<-|[<-|[]]]]]]; cbn; tauto. }
  split; [exact K|].
  destruct (proj1 (proj2 C57_raises) v t frames boards chips V F B C V3ok) as [i I].
  rewrite (active_split v t frames boards chips times packets V F), I. cbn [bind].
  assert ((exists r, router_active_energy packets = Ok r) /\
          (forall nk, In nk (counted packets) -> In (fst nk) (dkeys COST_PER_PACKET_TYPE)) \/
          router_active_energy packets = Err KeyError /\
          exists nk, In nk (counted packets) /\ ~ In (fst nk) (dkeys COST_PER_PACKET_TYPE)) as D.
  { unfold router_active_energy, counted in *.
    change (map_res _ (flat_map snd packets)) with (map_res cost_item (flat_map snd packets)).
    assert ((exists fs, map_res cost_item (flat_map snd packets) = Ok fs) /\
          (forall nk, In nk (flat_map snd packets) -> In (fst nk) (dkeys COST_PER_PACKET_TYPE)) \/
          map_res cost_item (flat_map snd packets) = Err KeyError /\
          exists nk, In nk (flat_map snd packets) /\ ~ In (fst nk) (dkeys COST_PER_PACKET_TYPE)) as D.
    { induction PS as [|[n k] l S PS IH]; cbn [map_res].
      - left. split; eauto. intros nk [].
      - unfold cost_item at 1 3. cbn [fst snd] in *. unfold dgetitem.
        destruct (dget String.eqb COST_PER_PACKET_TYPE n) as [c|] eqn:G; cbn [bind].
        + assert (In n (dkeys COST_PER_PACKET_TYPE)) as IN.
          { clear - G. unfold dget, COST_PER_PACKET_TYPE in G. cbn [dkeys map fst COST_PER_PACKET_TYPE].
            repeat match type of G with
            | (if String.eqb ?a ?b then _ else _) = _ =>
                destruct (String.eqb_spec a b); [subst; cbn; tauto|]
            end. discriminate. }
          unfold small in S. rewrite int_mul_ok by lia. cbn [bind].
          destruct IH as [[[fs ->] A]|[-> (nk & N1 & N2)]]; cbn [bind].
          * left. split; eauto. intros nk [<-|H]; auto.
          * right. split; auto. exists nk. split; auto. right. auto.
        + right. split; auto. exists (n, k). split; [left; auto|]. cbn [fst]. intros H.
          destruct H as [<-|[<-|[<-|[<-|[<-|[<-|[<-|[<-|[<-|[]]]]]]]]]]; discriminate. }
    destruct D as [[[fs ->] A]|[-> A]]; [left|right]; cbn [bind]; eauto. }
  destruct D as [[[r ->] A]|[-> (nk & N1 & N2)]]; cbn [bind].
  - split; [|eauto]. split; [discriminate|]. intros (nk & N1 & N2). destruct (N2 (A _ N1)).
  - split; [split; eauto|]. intros H. destruct (N2 (H _ N1)).
Qed.
Print Assumptions C58_unknown_packets.

(** The number of cores recorded for a chip counts for nothing: only its seconds do. *)
Theorem C58_only_seconds_count :
  forall v t frames boards chips times times' packets,
    map (fun c => fst (snd c)) times = map (fun c => fst (snd c)) times' ->
    get_active_energy v t frames boards chips times packets =
    get_active_energy v t frames boards chips times' packets.
Proof.
  intros v t frames boards chips times times' packets E.
  assert (core_active_energy times = core_active_energy times') as X.
  { unfold core_active_energy. f_equal.
    rewrite <- (map_map (fun c : XY * (spec_float * Z) => fst (snd c)) (fun f => f_mul f WATTS_PER_CORE_ACTIVE_OVERHEAD) times).
    rewrite <- (map_map (fun c : XY * (spec_float * Z) => fst (snd c)) (fun f => f_mul f WATTS_PER_CORE_ACTIVE_OVERHEAD) times').
    rewrite E. reflexivity. }
  unfold get_active_energy. rewrite X. reflexivity.
Qed.
Print Assumptions C58_only_seconds_count.

(** SpiNNaker 2 has no estimates. *)
Theorem C58_spinnaker2 :
  forall v t frames boards chips times packets, v = V201 \/ v = V248 ->
    get_active_energy v t frames boards chips times packets = Err NotImplementedErr /\
    get_router_report_packet_types v = Err NotImplementedErr.
Proof. intros v t frames boards chips times packets [-> | ->]; split; reflexivity. Qed.
Print Assumptions C58_spinnaker2.

(** An hour on one boxed board: 3600 * (26.84 + 5.04 + 37.163558) J, two chips active for
    half an hour each and three billion packets. *)
Example C58_case :
  let times := [((0, 0), (f_of_Z 1800, 17)); ((1, 0), (f_of_Z 1800, 17))]%Z in
  let packets := [((0, 0), [("Local_Multicast_Packets", 2000000000); ("External_P2P_Packets", 1000000000)])]%string%Z in
  (do e <- get_active_energy V5 (f_of_Z 3600) 1 1 48 times packets ; f_ceil e) = Ok 248684%Z /\
  packets_joules (counted packets) (IZR 2000000000 * (40 * (25 / 1000000000000)) +
    (IZR 1000000000 * (72 * (25 / 1000000000000)) + 0)) /\
  get_active_energy V5 (f_of_Z 3600) 1 1 48 times [((0, 0), [("Lost", 1)])]%string%Z = Err KeyError.
Proof.
  split; [vm_compute; reflexivity|]. split; [|vm_compute; reflexivity].
  cbn. constructor; [constructor; cbn; tauto|]. constructor; [constructor; cbn; tauto|]. constructor.
Qed.
