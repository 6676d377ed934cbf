(** What the energy functions should say, over the real numbers: power times
    time plus the energy of every packet and of every active second.  The
    figures are the documented decimal ones. *)
From Coq Require Import Reals List String ZArith.
From Verif Require Import Model_Py Model_Float Model_Version.
From Flocq Require Import Core.Core IEEE754.BinarySingleNaN.
Import ListNotations.
Open Scope R_scope.

(** A Python float is a valid double; the real number that a finite one stands for. *)
Definition is_float (f : spec_float) : Prop := valid_binary 53 1024 f = true.
Definition value (f : spec_float) : R := SF2R radix2 f.

(** A finite float that is not below zero (it may be -0.0). *)
Definition usable (f : spec_float) : Prop :=
  is_float f /\ f_finite f = true /\ 0 <= value f.

(** Counts and times for which no float overflows or underflows. *)
Definition small (n : Z) : Prop := (0 <= n <= 2 ^ 60)%Z.
Definition time_ok (t : spec_float) : Prop :=
  usable t /\ (value t = 0 \/ / 10 ^ 200 <= value t <= 10 ^ 200).

(** Python's [a <= b] on floats. *)
Definition f_le (a b : spec_float) : Prop := SFleb a b = true.

Fixpoint rsum (l : list R) : R := match l with [] => 0 | x :: l => x + rsum l end.

(** Idle power.  A 4 chip board: 3.56 W, or 0.35 W for each chip if the board is
    discounted.  48 chip boards: 26.84 W each, or 0.35 W for each chip; with
    frames, 117 W for each frame of several boards, 5.04 W for the box of one. *)
Definition idle_watts (v : vid) (frames boards chips : Z) : R :=
  match v with
  | V3 => if Z.eqb boards 0 then IZR chips * (35 / 100) else 356 / 100
  | _ =>
      (if Z.eqb boards 0 then IZR chips * (35 / 100) else IZR boards * (2684 / 100)) +
      (if Z.eqb boards 1 then IZR frames * (504 / 100)
       else if Z.ltb 1 boards then IZR frames * 117 else 0)
  end.

(** Extra power of the frames when running (154.163558 W - 117 W). *)
Definition frame_watts (v : vid) (frames : Z) : R :=
  match v with V3 => 0 | _ => IZR frames * (37163558 / 1000000) end.

(** 25 pJ for each bit: a packet has 40 bits, with a payload 72. *)
Inductive packet_joules : string -> R -> Prop :=
| plain n : In n ["Local_Multicast_Packets"; "External_Multicast_Packets"; "Reinjected";
                  "Local_NN_Packets"; "External_NN_Packets"]%string ->
    packet_joules n (40 * (25 / 1000000000000))
| with_payload n : In n ["Local_P2P_Packets"; "External_P2P_Packets";
                         "Local_FR_Packets"; "External_FR_Packets"]%string ->
    packet_joules n (72 * (25 / 1000000000000)).

(** The packets counted, whatever router counted them. *)
Definition counted (packets : dict XY (dict string Z)) : list (string * Z) := flat_map snd packets.

Inductive packets_joules : list (string * Z) -> R -> Prop :=
| no_packets : packets_joules [] 0
| more_packets n k j l e : packet_joules n j -> packets_joules l e ->
    packets_joules ((n, k) :: l) (IZR k * j + e).

(** 0.034 W while active: the recorded seconds of every chip. *)
Definition active_seconds (times : dict XY (spec_float * Z)) : R :=
  rsum (map (fun c => value (fst (snd c))) times).
Definition cores_joules (times : dict XY (spec_float * Z)) : R := active_seconds times * (34 / 1000).

(** [times] and [times'] are of the same chips, the second with no less time each. *)
Definition no_less_time (times times' : dict XY (spec_float * Z)) : Prop :=
  Forall2 (fun c c' => usable (fst (snd c)) /\ usable (fst (snd c')) /\ f_le (fst (snd c)) (fst (snd c'))) times times'.
(** The same types in the same order, the second with no fewer packets of each. *)
Definition no_fewer_packets (packets packets' : dict XY (dict string Z)) : Prop :=
  Forall2 (fun a b : string * Z => fst a = fst b /\ (0 <= snd a <= snd b)%Z /\ small (snd b))
    (counted packets) (counted packets').
