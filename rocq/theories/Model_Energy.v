(** The energy estimates of the versions.  Floats are IEEE doubles, bit exact
    ([Model_Float]).  Times are floats, the counts are ints (the annotated
    types); [sum] adds from left to right starting with 0, as CPython does up to
    3.11 (later releases compensate the rounding of [sum] over floats). *)
From Verif Require Import Model_Py Model_Wrap Model_Float Model_Geometry Model_Version.
Open Scope Z_scope.

Definition f_mul := SFmul prec emax.

(** A decimal literal [n / d] in the source: the nearest double. *)
Definition f_lit (n d : Z) : spec_float := SFdiv prec emax (Z_to_exact n) (Z_to_exact d).

(** [n * f] for an int and a float: the int is converted first, which raises
    OverflowError if it is too large for a double. *)
Definition int_mul (n : Z) (f : spec_float) : res spec_float :=
  let g := f_of_Z n in if f_finite g then Ok (f_mul g f) else Err OverflowErr.

(** [sum(l)] over floats *)
Definition f_sum (l : list spec_float) : spec_float := fold_left f_add l (S754_zero false).

(** version/version_spin1.py:34 WATTS_PER_IDLE_CHIP *)
Definition WATTS_PER_IDLE_CHIP := f_lit 35 100.
(** version/version_spin1.py:39 WATTS_PER_CORE_ACTIVE_OVERHEAD *)
Definition WATTS_PER_CORE_ACTIVE_OVERHEAD := f_lit 34 1000.
(** version/version_spin1.py:44 JOULES_PER_ROUTER_BIT *)
Definition JOULES_PER_ROUTER_BIT := f_lit 25 1000000000000.
(** version/version_spin1.py:49 JOULES_PER_PACKET *)
Definition JOULES_PER_PACKET := f_mul JOULES_PER_ROUTER_BIT (f_of_Z 40).
(** version/version_spin1.py:52 JOULES_PER_PACKET_WITH_PAYLOAD *)
Definition JOULES_PER_PACKET_WITH_PAYLOAD := f_mul JOULES_PER_ROUTER_BIT (f_of_Z 72).

(** version/version_spin1.py:55-65 COST_PER_PACKET_TYPE *)
Definition COST_PER_PACKET_TYPE : dict string spec_float :=
  [ ("Local_Multicast_Packets"%string, JOULES_PER_PACKET);
    ("External_Multicast_Packets"%string, JOULES_PER_PACKET);
    ("Reinjected"%string, JOULES_PER_PACKET);
    ("Local_P2P_Packets"%string, JOULES_PER_PACKET_WITH_PAYLOAD);
    ("External_P2P_Packets"%string, JOULES_PER_PACKET_WITH_PAYLOAD);
    ("Local_NN_Packets"%string, JOULES_PER_PACKET);
    ("External_NN_Packets"%string, JOULES_PER_PACKET);
    ("Local_FR_Packets"%string, JOULES_PER_PACKET_WITH_PAYLOAD);
    ("External_FR_Packets"%string, JOULES_PER_PACKET_WITH_PAYLOAD) ].

(** version/abstract_version.py:34 RouterPackets *)
Definition router_packets : Type := dict XY (dict string Z).
(** version/abstract_version.py:36 ChipActiveTime *)
Definition chip_active_time : Type := dict XY (spec_float * Z).

(** version/version_spin1.py:114-116 get_router_report_packet_types,
    version/version_spin2.py:146-149 get_router_report_packet_types *)
Definition get_router_report_packet_types (v : vid) : res (list string) :=
  match v with
  | V3 | V5 => Ok (dkeys COST_PER_PACKET_TYPE)
  | V201 | V248 => Err NotImplementedErr
  end.

(** version/version_spin1.py:118-123 _get_router_active_energy *)
Definition router_active_energy (packets : router_packets) : res spec_float :=
  do l <- map_res (fun nv : string * Z =>
            do cost <- dgetitem String.eqb COST_PER_PACKET_TYPE (fst nv) ;
            int_mul (snd nv) cost)
          (flat_map snd packets) ;
  Ok (f_sum l).

(** version/version_spin1.py:125-131 _get_core_active_energy *)
Definition core_active_energy (times : chip_active_time) : spec_float :=
  f_sum (map (fun tn : XY * (spec_float * Z) =>
                f_mul (fst (snd tn)) WATTS_PER_CORE_ACTIVE_OVERHEAD) times).

(** version/version_3.py:37 WATTS_FOR_4_CHIP_BOARD_IDLE_COST *)
Definition WATTS_FOR_4_CHIP_BOARD_IDLE_COST := f_lit 356 100.

(** version/version_3.py:94-108 get_idle_energy *)
Definition v3_idle_energy (time_s : spec_float) (n_frames n_boards n_chips : Z) : res spec_float :=
  if negb (n_frames =? 0) then Err MachineExc
  else if n_boards >? 1 then Err MachineExc
  else if n_boards =? 0 then
    do w <- int_mul n_chips WATTS_PER_IDLE_CHIP ; Ok (f_mul w time_s)
  else Ok (f_mul WATTS_FOR_4_CHIP_BOARD_IDLE_COST time_s).

(** version/version_5.py:47 WATTS_FOR_FRAME_IDLE_COST (an int) *)
Definition WATTS_FOR_FRAME_IDLE_COST : Z := 117.
(** version/version_5.py:52 WATTS_PER_FRAME_ACTIVE_COST_OVERHEAD *)
Definition WATTS_PER_FRAME_ACTIVE_COST_OVERHEAD := f_sub (f_lit 154163558 1000000) (f_of_Z 117).
(** version/version_5.py:59 WATTS_FOR_48_CHIP_BOX_COST_OVERHEAD *)
Definition WATTS_FOR_48_CHIP_BOX_COST_OVERHEAD := f_lit 504 100.
(** version/version_5.py:64 WATTS_FOR_48_CHIP_BOARD_IDLE_COST *)
Definition WATTS_FOR_48_CHIP_BOARD_IDLE_COST := f_lit 2684 100.

(** version/version_5.py:110-130 get_idle_energy *)
Definition v5_idle_energy (time_s : spec_float) (n_frames n_boards n_chips : Z) : res spec_float :=
  do energy <-
    (if n_boards =? 0 then
       do w <- int_mul n_chips WATTS_PER_IDLE_CHIP ; Ok (f_mul w time_s)
     else
       do w <- int_mul n_boards WATTS_FOR_48_CHIP_BOARD_IDLE_COST ; Ok (f_mul w time_s)) ;
  if negb (n_frames =? 0) then
    if n_boards >? 1 then
      do f <- int_mul (n_frames * WATTS_FOR_FRAME_IDLE_COST) time_s ; Ok (f_add energy f)
    else if n_boards =? 1 then
      do w <- int_mul n_frames WATTS_FOR_48_CHIP_BOX_COST_OVERHEAD ;
      Ok (f_add energy (f_mul w time_s))
    else Ok energy
  else Ok energy.

(** version/version_3.py:94-108, version/version_5.py:110-130,
    version/version_spin2.py:131-136 get_idle_energy *)
Definition get_idle_energy (v : vid) (time_s : spec_float) (n_frames n_boards n_chips : Z) : res spec_float :=
  match v with
  | V3 => v3_idle_energy time_s n_frames n_boards n_chips
  | V5 => v5_idle_energy time_s n_frames n_boards n_chips
  | V201 | V248 => Err NotImplementedErr
  end.

(** version/version_3.py:110-118, version/version_5.py:132-145,
    version/version_spin2.py:138-144 get_active_energy *)
Definition get_active_energy (v : vid) (time_s : spec_float) (n_frames n_boards n_chips : Z)
    (times : chip_active_time) (packets : router_packets) : res spec_float :=
  match v with
  | V3 =>
      do idle <- v3_idle_energy time_s n_frames n_boards n_chips ;
      do router <- router_active_energy packets ;
      Ok (f_add (f_add idle router) (core_active_energy times))
  | V5 =>
      do container <-
        (if negb (n_frames =? 0) then
           do w <- int_mul n_frames WATTS_PER_FRAME_ACTIVE_COST_OVERHEAD ; Ok (f_mul w time_s)
         else Ok (S754_zero false)) ;
      do idle <- v5_idle_energy time_s n_frames n_boards n_chips ;
      do router <- router_active_energy packets ;
      Ok (f_add (f_add (f_add container idle) router) (core_active_energy times))
  | V201 | V248 => Err NotImplementedErr
  end.
