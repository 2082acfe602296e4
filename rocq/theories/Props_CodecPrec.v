(** * Properties: CodecPrec

    Theorems only: each is closed by the lemma of the same name in L_CodecPrec.v. *)
From Coq Require Import ZArith List Lia Bool String Ascii SpecFloat Reals Lra.
From Verif Require Import Base CdisBase DisCommon DisHeader DisLists DisSimman DisLogistics DisWarfare DisEntity DisEmission DisRadio DisIff
  CdisRecords CdisBodies1 CdisBodies2 CdisIff CdisPdu CdisCodec1 CdisCodec2 CdisCodec3 SpecFloatValue SpecContent FloatReal FloatBits L_CodecNum L_CodecPrec.
Import ListNotations. Open Scope Z_scope.

(** C48. A velocity sent over C-DIS arrives, component by component, within 0.1011 m/s of the one sent or, beyond the range of the
 wire, of the nearest end of the range (-3276.8 to 3276.7 m/s): for every vector whatever, and in both arithmetic modes. *)
Theorem cdis_velocity_precision : forall m v, over_wire (w_clvel m (enc_velocity v)) p_clvel (fun c => speed_kept v (dec_velocity c)).
Proof. exact cdis_velocity_precision_pf. Qed.
Print Assumptions cdis_velocity_precision.

(** C48. An acceleration arrives within 0.1011 m/s^2, for components up to 819 m/s^2. *)
Theorem cdis_acceleration_precision : forall m v, all_finite v -> (forall b, In b [v_1 v; v_2 v; v_3 v] -> (-819 <= f32_value b <= 819)%R) ->
  over_wire (w_clacc m (enc_acceleration v)) p_clacc (fun c => acceleration_kept v (dec_acceleration c)).
Proof. exact cdis_acceleration_precision_pf. Qed.
Print Assumptions cdis_acceleration_precision.

(** C48. Orientation angles arrive within 0.00078 rad (0.045 degrees) of the angle sent, up to whole turns, for every finite angle. *)
Theorem cdis_orientation_precision : forall m o, f32_finite (or_psi o) -> f32_finite (or_theta o) -> f32_finite (or_phi o) ->
  over_wire (w_corient m (enc_orientation o)) p_corient (fun c => orientation_kept o (dec_orientation c)).
Proof. exact cdis_orientation_precision_pf. Qed.
Print Assumptions cdis_orientation_precision.

(** C48. (The unit is sent as one bit.) Entity coordinates: when every component is within 32767 m they arrive to the centimetre, but saturated at 327.67 m; when some component is
 beyond, to the metre and saturated at 32767 m. *)
Theorem cdis_coordinates_precision : forall m v, (snd (enc_ecv v) = 0 \/ snd (enc_ecv v) = 1)%Z /\
  over_wire (w_cecv m (fst (enc_ecv v))) p_cecv (fun c => coordinates_kept v (dec_ecv c (snd (enc_ecv v)))).
Proof. exact cdis_coordinates_precision_pf. Qed.
Print Assumptions cdis_coordinates_precision.

(** C48. Rates of turn up to 50 rad/s arrive within 0.0279 rad/s. *)
Theorem cdis_turning_precision : forall m v, all_finite v -> (forall b, In b [v_1 v; v_2 v; v_3 v] -> (-50 <= f32_value b <= 50)%R) ->
  over_wire (w_cavel m (enc_angular v)) p_cavel (fun c => turning_kept v (dec_angular c)).
Proof. exact cdis_turning_precision_pf. Qed.
Print Assumptions cdis_turning_precision.

(** C48. Frequencies (and ranges) of emitters, up to 13.1 GHz, arrive within one part in twelve thousand, or 1.1 Hz. *)
Theorem cdis_frequency_precision : forall m b, f32_finite b -> (0 <= f32_value b <= 13100000000)%R -> over_wire (w_cff m (enc_cff b)) p_cff (fun c => frequency_kept b (dec_cff c)).
Proof. exact cdis_frequency_precision_pf. Qed.
Print Assumptions cdis_frequency_precision.

(** C48. The frequency of a transmitter, in whole hertz, arrives exactly below 16777216 Hz and within four millionths up to 1.67 THz. *)
Theorem cdis_hertz_precision : forall m f, 0 <= f <= 1670000000000 -> over_wire (w_ctf m (enc_tx_frequency f)) p_ctf (fun c => hertz_kept f (dec_tx_frequency c)).
Proof. exact cdis_hertz_precision_pf. Qed.
Print Assumptions cdis_hertz_precision.

(** C48. The bandwidth of a transmitter, like the frequencies. *)
Theorem cdis_bandwidth_precision : forall m b, f32_finite b -> (0 <= f32_value b <= 13100000000)%R -> over_wire (w_ctb m (enc_tx_bandwidth b)) p_ctb (fun c => frequency_kept b (dec_tx_bandwidth c)).
Proof. exact cdis_bandwidth_precision_pf. Qed.
Print Assumptions cdis_bandwidth_precision.

(** C48. Explosive force, up to 32.7 million, arrives within one part in 3000, or 1.1. *)
Theorem cdis_force_precision : forall m b, f32_finite b -> (0 <= f32_value b <= 32700000)%R -> over_wire (w_cforce m (enc_force b)) p_cforce (fun c => force_kept b (dec_force c)).
Proof. exact cdis_force_precision_pf. Qed.
Print Assumptions cdis_force_precision.

(** C48. Articulation parameter values up to 16383, of either sign, arrive truncated to the whole number. *)
Theorem cdis_parameter_precision : forall m b, f32_finite b -> (-16383 <= f32_value b <= 16383)%R -> over_wire (w_cpv m (enc_cpv b)) p_cpv (fun c => parameter_kept b (dec_cpv c)).
Proof. exact cdis_parameter_precision_pf. Qed.
Print Assumptions cdis_parameter_precision.

(** C48. The parameters of an emitter beam: frequency and range as above; power to the watt up to 255; pulse repetition frequency to the hertz up to 65535; pulse
 width, up to 16.3 million, within one part in 1600 or 1.1. *)
Theorem cdis_emission_precision : forall m d,
  f32_finite (fp_frequency d) -> (0 <= f32_value (fp_frequency d) <= 13100000000)%R -> f32_finite (fp_range d) -> (0 <= f32_value (fp_range d) <= 13100000000)%R ->
  f32_finite (fp_width d) -> (0 <= f32_value (fp_width d) <= 16300000)%R ->
  over_wire (w_cfp m (enc_fp d)) p_cfp (fun c => emission_kept d (dec_fp c)).
Proof. exact cdis_emission_precision_pf. Qed.
Print Assumptions cdis_emission_precision.

(** C48. The parameters of an IFF beam: frequency as above; power to the watt up to 255; the pulse fields to the whole number up to 1023; the others exactly. *)
Theorem cdis_interrogation_precision : forall m p, f32_finite (ip_frequency p) -> (0 <= f32_value (ip_frequency p) <= 13100000000)%R ->
  (forall b, In b [ip_pgrf p; ip_pulse_width p; ip_burst p] -> f32_finite b /\ (0 <= f32_value b <= 1023)%R) ->
  0 <= ip_modes p < 8 -> u8 (ip_s1 p) -> u8 (ip_s2 p) -> u8 (ip_s3 p) ->
  over_wire (w_cip m (enc_ip p)) p_cip (fun c => interrogation_kept p (dec_ip c)).
Proof. exact cdis_interrogation_precision_pf. Qed.
Print Assumptions cdis_interrogation_precision.

(** C48. The antenna pattern of a transmitter: the angles, up to half a turn, within 0.00078 rad; the field components to the whole number, saturated; the
 reference system exactly. *)
Theorem cdis_pattern_precision : forall m p,
  (forall b, In b [or_psi (bap_direction p); or_theta (bap_direction p); or_phi (bap_direction p); bap_azimuth p; bap_elevation p; bap_phase p] -> f32_finite b /\ (-3.1416 <= f32_value b <= 3.1416)%R) ->
  0 <= bap_reference p < 4 -> over_wire (w_cbap m (enc_bap p)) p_cbap (fun c => pattern_kept p (dec_bap c)).
Proof. exact cdis_pattern_precision_pf. Qed.
Print Assumptions cdis_pattern_precision.

(** C48. (The unit is sent as one bit.) A mass, up to 4294967040 kg, arrives to the gram up to 65.535 kg and to the kilogram beyond. *)
Theorem cdis_mass_precision : forall b, (snd (enc_mass b) = 0 \/ snd (enc_mass b) = 1)%Z /\
  over_wire (w_uvint32 (fst (enc_mass b))) p_uvint32 (fun z => mass_kept b (dec_mass z (snd (enc_mass b)))).
Proof. exact cdis_mass_precision_pf. Qed.
Print Assumptions cdis_mass_precision.

(** C48. Of a beam the centre of the azimuth arrives within 0.1235 rad (7 degrees: the scale is 13/pi where (2^12 - 1)/pi was meant) and the sweep position within
 0.05 percent. The sweep of the azimuth and both elevation angles are lost: cdis_beam_refuted. *)
Theorem cdis_beam_precision : forall m b, f32_finite (bd_azc b) -> (-100 <= f32_value (bd_azc b) <= 100)%R ->
  (forall a, In a [bd_azs b; bd_elc b; bd_els b] -> f32_finite a /\ (-100 <= f32_value a <= 100)%R) -> f32_finite (bd_sync b) -> (0 <= f32_value (bd_sync b) <= 100)%R ->
  over_wire (w_cbeam_data m (enc_beam b)) p_cbeam_data
    (fun c => arrives 0.1235 (-100) 100 (bd_azc b) (bd_azc (dec_beam c)) /\ arrives 0.05 0 100 (bd_sync b) (bd_sync (dec_beam c))).
Proof. exact cdis_beam_precision_pf. Qed.
Print Assumptions cdis_beam_precision.

(** C48. The natural claim without the limits is false. An acceleration of 1000 m/s^2 arrives as 180.8: 10000 decimetres do not fit the 14 bits. *)
Theorem cdis_acceleration_refuted : forall m, f32_value 1148846080 = 1000%R /\ (f32_value 1127533773 < 181)%R /\
  over_wire (w_clacc m (enc_acceleration (MkVectorF32 1148846080 0 0))) p_clacc (fun c => v_1 (dec_acceleration c) = 1127533773).
Proof. exact cdis_acceleration_refuted_pf. Qed.
Print Assumptions cdis_acceleration_refuted.

(** C48. An entity coordinate of 400 m arrives as 327.67. *)
Theorem cdis_coordinates_refuted : forall m, f32_value 1137180672 = 400%R /\ (f32_value 1134810563 < 328)%R /\
  over_wire (w_cecv m (fst (enc_ecv (MkVectorF32 1137180672 0 0)))) p_cecv (fun c => v_1 (dec_ecv c (snd (enc_ecv (MkVectorF32 1137180672 0 0)))) = 1134810563).
Proof. exact cdis_coordinates_refuted_pf. Qed.
Print Assumptions cdis_coordinates_refuted.

(** C48. A frequency of 16 GHz arrives as 2.8928 GHz: the largest exponent used is the number of bits of the exponent plus one, and the mantissa overflows its 17 bits. *)
Theorem cdis_frequency_refuted : forall m, f32_value 1349413672 = 16000000000%R /\ (f32_value 1328311456 < 2900000000)%R /\
  over_wire (w_cff m (enc_cff 1349413672)) p_cff (fun c => dec_cff c = 1328311456).
Proof. exact cdis_frequency_refuted_pf. Qed.
Print Assumptions cdis_frequency_refuted.

(** C48. An explosive force of 50 million arrives as less than 5001: the exponent 4 does not fit three bits with a sign. *)
Theorem cdis_force_refuted : forall m, f32_value 1279179808 = 50000000%R /\ (f32_value 1167867904 < 5001)%R /\
  over_wire (w_cforce m (enc_force 1279179808)) p_cforce (fun c => dec_force c = 1167867904).
Proof. exact cdis_force_refuted_pf. Qed.
Print Assumptions cdis_force_refuted.

(** C48. An articulation parameter of 20000 arrives as 3616: the mantissa 20000 does not fit fifteen bits with a sign. *)
Theorem cdis_parameter_refuted : forall m, f32_value 1184645120 = 20000%R /\ f32_value 1164050432 = 3616%R /\
  over_wire (w_cpv m (enc_cpv 1184645120)) p_cpv (fun c => dec_cpv c = 1164050432).
Proof. exact cdis_parameter_refuted_pf. Qed.
Print Assumptions cdis_parameter_refuted.

(** C48. A sweep of one radian of a beam pointing ahead arrives as zero: the azimuth centre is written four times. *)
Theorem cdis_beam_refuted : forall m, f32_value 1065353216 = 1%R /\
  over_wire (w_cbeam_data m (enc_beam (MkBeamData 0 1065353216 0 0 0))) p_cbeam_data (fun c => bd_azs (dec_beam c) = 0).
Proof. exact cdis_beam_refuted_pf. Qed.
Print Assumptions cdis_beam_refuted.

(** C48. An effective radiated power of 300 W arrives as zero, neither kept nor saturated. *)
Theorem cdis_power_refuted : forall m, f32_value 1133903872 = 300%R /\
  over_wire (w_cfp m (enc_fp (MkFPD 0 0 1133903872 0 0))) p_cfp (fun c => fp_power (dec_fp c) = 0).
Proof. exact cdis_power_refuted_pf. Qed.
Print Assumptions cdis_power_refuted.

(** C48. An IFF pulse width of 2000 arrives as 976: ten bits are written. *)
Theorem cdis_pulse_refuted : forall m, f32_value 1157234688 = 2000%R /\ f32_value 1148452864 = 976%R /\
  over_wire (w_cip m (enc_ip (MkIffParameter 0 0 0 1157234688 0 0 0 0 0))) p_cip (fun c => ip_pulse_width (dec_ip c) = 1148452864).
Proof. exact cdis_pulse_refuted_pf. Qed.
Print Assumptions cdis_pulse_refuted.

Example ex_precision : all_finite (MkVectorF32 1123477881 3267887104 0) /\ enc_velocity (MkVectorF32 1123477881 3267887104 0) = MkCLinearVelocity 1234 (-1000) 0.
Proof. repeat split; vm_compute; try discriminate; congruence. Qed.

Example ex_frequency : f32_finite 1326777081 /\ (0 <= f32_value 1326777081 <= 13100000000)%R /\ enc_cff 1326777081 = MkCFrequencyFloat 25000 5.
Proof. split; [split; vm_compute; [split; congruence|discriminate]|]. split; [split; value|vm_compute; reflexivity]. Qed.

Example ex_orientation : f32_finite 1078523331 /\ f32_finite 3226013658 /\ enc_orientation (MkOrientation 1078523331 3226013658 1092616192) = MkCOrientation 4092 (-4094) (-3345).
Proof. repeat split; vm_compute; try discriminate; congruence. Qed.
