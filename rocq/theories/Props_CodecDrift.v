(** * Properties: CodecDrift

    Theorems only: each is closed by the lemma of the same name in L_CodecDrift.v. *)
From Coq Require Import ZArith List Lia Bool String Ascii SpecFloat Reals Lra.
From Verif Require Import Base CdisBase DisCommon DisHeader DisLists DisSimman DisLogistics DisWarfare DisEntity DisEmission DisRadio DisIff
  CdisRecords CdisBodies1 CdisBodies2 CdisIff CdisPdu CdisCodec1 CdisCodec2 CdisCodec3 SpecFloatValue SpecContent FloatReal FloatBits L_CodecNum L_CodecPrec L_CodecDrift.
Import ListNotations. Open Scope Z_scope.

(** C49. Translating a velocity to C-DIS and back a second time changes nothing: every velocity, even one with infinite or undefined components. *)
Theorem cdis_velocity_stable : forall v, let hop v := dec_velocity (enc_velocity v) in hop (hop v) = hop v.
Proof. exact cdis_velocity_stable_pf. Qed.
Print Assumptions cdis_velocity_stable.

(** C49. The same of accelerations. *)
Theorem cdis_acceleration_stable : forall v, let hop v := dec_acceleration (enc_acceleration v) in hop (hop v) = hop v.
Proof. exact cdis_acceleration_stable_pf. Qed.
Print Assumptions cdis_acceleration_stable.

(** C49. The same of beams. *)
Theorem cdis_beam_stable : forall b, let hop b := dec_beam (enc_beam b) in hop (hop b) = hop b.
Proof. exact cdis_beam_stable_pf. Qed.
Print Assumptions cdis_beam_stable.

(** C49. The frequency of a transmitter below 16777216 Hz: however often it is translated it stays what it was. *)
Theorem cdis_hertz_stable : forall f n, 0 <= f <= 16777215 -> Nat.iter n (fun f => dec_tx_frequency (enc_tx_frequency f)) f = f.
Proof. exact cdis_hertz_stable_pf. Qed.
Print Assumptions cdis_hertz_stable.

(** C49. Orientation angles do drift: each translation truncates, so they can change again when they are translated a second time (one radian, for instance). *)
Theorem cdis_orientation_stable_refuted : exists o, let hop o := dec_orientation (enc_orientation o) in f32_finite (or_psi o) /\ hop (hop o) <> hop o.
Proof. exact cdis_orientation_stable_refuted_pf. Qed.
Print Assumptions cdis_orientation_stable_refuted.

(** C49. So do rates of turn ... *)
Theorem cdis_turning_stable_refuted : exists v, let hop v := dec_angular (enc_angular v) in all_finite v /\ hop (hop v) <> hop v.
Proof. exact cdis_turning_stable_refuted_pf. Qed.
Print Assumptions cdis_turning_stable_refuted.

(** C49. ... and entity coordinates. *)
Theorem cdis_coordinates_stable_refuted : exists v, let hop v := dec_ecv (fst (enc_ecv v)) (snd (enc_ecv v)) in all_finite v /\ hop (hop v) <> hop v.
Proof. exact cdis_coordinates_stable_refuted_pf. Qed.
Print Assumptions cdis_coordinates_stable_refuted.

(** C49. Yet the drift is bounded: after any number n of translations an angle is within n times 0.00078 rad of the first one, up to whole turns. *)
Theorem cdis_orientation_drift : forall n b, f32_finite b -> let b' := Nat.iter n (fun b => dec_angle (enc_angle b)) b in
  f32_finite b' /\ exists k : Z, within (INR n * 0.00078) (f32_value b') (f32_value b + IZR k * turn).
Proof. exact cdis_orientation_drift_pf. Qed.
Print Assumptions cdis_orientation_drift.
