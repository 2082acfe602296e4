(** * What a receiver may rely on: the content of a PDU after encoding and decoding *)
From Coq Require Import ZArith List Reals.
From Verif Require Import Base CdisBase DisCommon DisWarfare DisEntity DisEmission DisRadio DisIff SpecFloatValue.
Import ListNotations. Open Scope R_scope.

(** the same relation between the three components *)
Definition each (P : Z -> Z -> Prop) (v w : VectorF32) : Prop := P (v_1 v) (v_1 w) /\ P (v_2 v) (v_2 w) /\ P (v_3 v) (v_3 w).
(** a velocity in metres per second: within 0.1011, saturated at 3276.7 *)
Definition speed_kept : VectorF32 -> VectorF32 -> Prop := each (carried 0.1011 (-3276.8) 3276.7).
(** an acceleration up to 819 metres per second squared *)
Definition acceleration_kept : VectorF32 -> VectorF32 -> Prop := each (arrives 0.1011 (-819) 819).
(** rates of turn up to 50 radians per second: within 0.0279, about 1.6 degrees per second *)
Definition turning_kept : VectorF32 -> VectorF32 -> Prop := each (arrives 0.0279 (-50) 50).
(** the three angles, within 0.00078 radians (less than a twentieth of a degree) *)
Definition orientation_kept (o o' : Orientation) : Prop :=
  same_angle 0.00078 (or_psi o) (or_psi o') /\ same_angle 0.00078 (or_theta o) (or_theta o') /\ same_angle 0.00078 (or_phi o) (or_phi o').
Definition all_finite (v : VectorF32) : Prop := f32_finite (v_1 v) /\ f32_finite (v_2 v) /\ f32_finite (v_3 v).
Definition near_metres (v : VectorF32) : Prop := forall b, In b [v_1 v; v_2 v; v_3 v] -> -32768 <= f32_value b <= 32767.
(** entity coordinates: when every component is within 32767 m each arrives to the centimetre but saturates at 327.67 m;
    when one is beyond, each arrives to the metre and saturates at 32767 m *)
Definition coordinates_kept (v w : VectorF32) : Prop :=
  all_finite v -> (near_metres v -> each (carried 0.0102 (-327.68) 327.67) v w) /\ (~ near_metres v -> each (carried 1 (-32768) 32767) v w).
(** [b'] is received for [b] between 0 and [hi]: within [abs] or within the [rel]-th part, whichever is more *)
Definition scaled_arrives (abs rel hi : R) (b b' : Z) : Prop :=
  f32_finite b -> 0 <= f32_value b <= hi -> f32_finite b' /\ within (Rmax abs (rel * f32_value b)) (f32_value b') (f32_value b).
(** hertz and metres, up to 13.1 thousand million: within 1.1 or one part in twelve thousand *)
Definition frequency_kept : Z -> Z -> Prop := scaled_arrives 1.1 0.000082 13100000000.
(** explosive force, up to 32.7 million: within 1.1 or one part in 3000 *)
Definition force_kept : Z -> Z -> Prop := scaled_arrives 1.1 0.000316 32700000.
(** articulation parameters up to 16383: to the whole number *)
Definition parameter_kept : Z -> Z -> Prop := arrives 1.1 (-16383) 16383.
(** pulse width, up to 16.3 million *)
Definition pulse_kept : Z -> Z -> Prop := scaled_arrives 1.1 0.000627 16300000.
(** beam angles to 0.1235 radians (7 degrees); the sweep position to a twentieth of a percent *)
Definition beam_kept (b b' : BeamData) : Prop :=
  let angle := arrives 0.1235 (-100) 100 in
  angle (bd_azc b) (bd_azc b') /\ angle (bd_azs b) (bd_azs b') /\ angle (bd_elc b) (bd_elc b') /\ angle (bd_els b) (bd_els b') /\
  arrives 0.05 0 100 (bd_sync b) (bd_sync b').
(** truncated to a whole number below [hi] *)
Definition whole_kept (hi : R) : Z -> Z -> Prop := arrives 1 0 hi.
(** a transmitter's frequency in whole hertz: exact below 16.7 MHz, within four millionths up to 1.67 THz *)
Definition hertz_kept (f f' : Z) : Prop :=
  ((0 <= f <= 16777215)%Z -> f' = f) /\ ((16777215 < f <= 1670000000000)%Z -> Rabs (IZR f' - IZR f) <= 0.000004 * IZR f).
(** a mass in kilograms: to the gram up to 65.535 kg, to the kilogram beyond *)
Definition mass_kept (b b' : Z) : Prop := arrives 0.0011 0 65.535 b b' /\ arrives 1 0 4294967040 b b'.
(** the antenna pattern: angles up to half a turn to 0.00078; the field components to whole numbers *)
Definition pattern_kept (p p' : BeamAntennaPattern) : Prop :=
  let angle := arrives 0.00078 (-3.1416) 3.1416 in let d := bap_direction p in let d' := bap_direction p' in
  angle (or_psi d) (or_psi d') /\ angle (or_theta d) (or_theta d') /\ angle (or_phi d) (or_phi d') /\
  angle (bap_azimuth p) (bap_azimuth p') /\ angle (bap_elevation p) (bap_elevation p') /\ bap_reference p' = bap_reference p /\
  carried 1 (-32768) 32767 (bap_ez p) (bap_ez p') /\ carried 1 (-32768) 32767 (bap_ex p) (bap_ex p') /\ angle (bap_phase p) (bap_phase p').
(** parameters of an emitter beam *)
Definition emission_kept (d d' : FundamentalParameterData) : Prop :=
  frequency_kept (fp_frequency d) (fp_frequency d') /\ frequency_kept (fp_range d) (fp_range d') /\ whole_kept 255 (fp_power d) (fp_power d') /\
  whole_kept 65535 (fp_prf d) (fp_prf d') /\ pulse_kept (fp_width d) (fp_width d').
(** parameters of an IFF beam *)
Definition interrogation_kept (p p' : IffParameter) : Prop :=
  whole_kept 255 (ip_erp p) (ip_erp p') /\ frequency_kept (ip_frequency p) (ip_frequency p') /\ whole_kept 1023 (ip_pgrf p) (ip_pgrf p') /\
  whole_kept 1023 (ip_pulse_width p) (ip_pulse_width p') /\ whole_kept 1023 (ip_burst p) (ip_burst p') /\
  ip_modes p' = ip_modes p /\ ip_s1 p' = ip_s1 p /\ ip_s2 p' = ip_s2 p /\ ip_s3 p' = ip_s3 p.
(** what the writer [w] puts on the wire the parser [p] reads back, whatever follows, as something of which [P] holds *)
Definition over_wire {A} (w : BW) (p : bitparser A) (P : A -> Prop) : Prop :=
  exists bs, w = WOk bs tt /\ forall rest, exists c, p (bs ++ rest) = POk rest c /\ P c.
