(** * Numbers through the C-DIS codec and over the wire (lemmas and properties) *)
From Coq Require Import ZArith List Lia Bool SpecFloat Reals Lra Psatz.
From Flocq Require Import Core BinarySingleNaN.
From Verif Require Import Base CdisBase DisCommon DisHeader DisLists DisSimman DisLogistics DisWarfare DisEntity DisEmission DisRadio DisIff
  CdisRecords CdisBodies1 CdisBodies2 CdisIff CdisPdu CdisCodec1 CdisCodec2 CdisCodec3 SpecFloatValue SpecContent FloatReal FloatBits L_CodecNum.
Import ListNotations. Open Scope Z_scope.

Lemma brt_wire {A} (w : BW) (p : bitparser A) x L (P : A -> Prop) : BRT w p x L -> P x -> over_wire w p P.
Proof. intros (bs & W & _ & R) H. exists bs. split; [exact W|]. intros rest. exists x. split; [apply R|exact H]. Qed.
Lemma cast_range lo hi f : lo <= 0 <= hi -> lo <= sf_cast lo hi f <= hi.
Proof. intros H. destruct f as [s|s| |s p e]; cbn [sf_cast]; try destruct s; lia. Qed.
Lemma i16_cast_range f pos : -32768 <= f32_to_i16 f pos <= 32767.
Proof.
  unfold f32_to_i16, sf_from. destruct f as [s|s| |s p e]; try destruct pos; try lia;
  destruct (Z.leb_spec (-32768) (sf_trunc s p e)), (Z.leb_spec (sf_trunc s p e) 32767); cbn [andb]; lia.
Qed.
(** the whole number sent is near the scaled number *)
Lemma sent_near_gen conv e f c (lim : Z) : converts conv e -> (0 <= e <= 1)%R -> ok24 f -> ok24 c -> (0 <= SF2R radix2 c <= 10000)%R -> (Rabs (SF2R radix2 f) * SF2R radix2 c <= IZR lim)%R -> 0 <= lim <= 32000 ->
  - (lim + 1) <= conv (-32768) 32767 (sfmul f c) <= lim + 1.
Proof.
  intros CV E O C P L B.
  destruct (scaled conv e f c (-32768) 32767 CV E O C ltac:(lia) ltac:(lia)) as [_ N].
  set (z := conv _ _ _) in *. assert (LR : (0 <= IZR lim <= 32000)%R) by (split; apply IZR_le; lia).
  assert (A : (Rabs (SF2R radix2 f * SF2R radix2 c) <= IZR lim)%R) by (rewrite Rabs_mult, (Rabs_right (SF2R radix2 c)) by lra; exact L). apply Rabs_le_inv in A.
  rewrite clip_id in N by lra. apply Rabs_le_inv in N.
  assert (z < lim + 2) by (apply lt_IZR; rewrite plus_IZR; lra). assert (- (lim + 2) < z) by (apply lt_IZR; rewrite opp_IZR, plus_IZR; lra). lia.
Qed.
Lemma sent_near b c (lim : Z) : f32_finite b -> ok24 c -> (0 <= SF2R radix2 c <= 10000)%R -> (Rabs (f32_value b) * SF2R radix2 c <= IZR lim)%R -> 0 <= lim <= 32000 ->
  - (lim + 1) <= sf_cast (-32768) 32767 (sfmul (sf_of_bits b) c) <= lim + 1.
Proof.
  intros F C P L B. destruct (of_bits_fin b F) as [O V]. apply (sent_near_gen sf_cast 1); auto using cast_converts; [lra|]. now rewrite V.
Qed.

(*@C48 A velocity sent over C-DIS arrives, component by component, within 0.1011 m/s of the one sent or, beyond the range of the
 wire, of the nearest end of the range (-3276.8 to 3276.7 m/s): for every vector whatever, and in both arithmetic modes. *)
Lemma cdis_velocity_precision_pf : forall m v, over_wire (w_clvel m (enc_velocity v)) p_clvel (fun c => speed_kept v (dec_velocity c)).
Proof.
  intros m v. eapply brt_wire; [apply BRT_clvel|].
  - unfold fits_CLinearVelocity, enc_velocity, sb. cbn [CLinearVelocity_x CLinearVelocity_y CLinearVelocity_z]. unfold to_decimeters, f32_as_i16.
    repeat match goal with |- context [sf_cast (-32768) 32767 ?f] => let H := fresh in pose proof (cast_range (-32768) 32767 f ltac:(lia)) as H; generalize dependent (sf_cast (-32768) 32767 f); intros end; lia.
  - split; [|split]; apply decimeters.
Qed.
(*@C48 An acceleration arrives within 0.1011 m/s^2, for components up to 819 m/s^2. *)
Lemma cdis_acceleration_precision_pf : forall m v, all_finite v -> (forall b, In b [v_1 v; v_2 v; v_3 v] -> (-819 <= f32_value b <= 819)%R) ->
  over_wire (w_clacc m (enc_acceleration v)) p_clacc (fun c => acceleration_kept v (dec_acceleration c)).
Proof.
  intros m v (F1 & F2 & F3) H. assert (K : forall b, f32_finite b -> (-819 <= f32_value b <= 819)%R -> -8192 <= to_decimeters b < 8192 /\ arrives 0.1011 (-819) 819 b (from_decimeters (to_decimeters b))).
  { intros b F R. destruct ten_ok as [T TV]. split.
    - pose proof (sent_near b (fz 10) 8190 F T ltac:(lra)) as S. unfold to_decimeters, f32_as_i16.
      assert (- (8190 + 1) <= sf_cast (-32768) 32767 (sfmul (sf_of_bits b) (fz 10)) <= 8190 + 1); [|lia]. apply S; [|lia].
      rewrite TV. assert (Rabs (f32_value b) <= 819)%R by (apply Rabs_le; lra). lra.
    - intros _ _. destruct (decimeters b F) as [A B]. split; [exact A|]. now rewrite clip_id in B by lra. }
  destruct (K _ F1) as [A1 B1]; [apply H; cbn; auto|]. destruct (K _ F2) as [A2 B2]; [apply H; cbn; auto|]. destruct (K _ F3) as [A3 B3]; [apply H; cbn; auto|].
  eapply brt_wire; [apply BRT_clacc|]; [|split; [|split]; assumption].
  unfold fits_CLinearAcceleration, enc_acceleration, sb. cbn [CLinearAcceleration_x CLinearAcceleration_y CLinearAcceleration_z]. lia.
Qed.
(*@C48 Orientation angles arrive within 0.00078 rad (0.045 degrees) of the angle sent, up to whole turns, for every finite angle. *)
Lemma cdis_orientation_precision_pf : forall m o, f32_finite (or_psi o) -> f32_finite (or_theta o) -> f32_finite (or_phi o) ->
  over_wire (w_corient m (enc_orientation o)) p_corient (fun c => orientation_kept o (dec_orientation c)).
Proof.
  intros m o F1 F2 F3. pose proof (proj2 (angle _) F1). pose proof (proj2 (angle _) F2). pose proof (proj2 (angle _) F3).
  eapply brt_wire; [apply BRT_corient|]; [|split; [|split]; apply angle].
  unfold fits_COrientation, enc_orientation, sb. cbn [COrientation_psi COrientation_theta COrientation_phi]. lia.
Qed.
(*@C48 (The unit is sent as one bit.) Entity coordinates: when every component is within 32767 m they arrive to the centimetre, but saturated at 327.67 m; when some component is
 beyond, to the metre and saturated at 32767 m. *)
Lemma cdis_coordinates_precision_pf : forall m v, (snd (enc_ecv v) = 0 \/ snd (enc_ecv v) = 1)%Z /\
  over_wire (w_cecv m (fst (enc_ecv v))) p_cecv (fun c => coordinates_kept v (dec_ecv c (snd (enc_ecv v)))).
Proof.
  intros m v. split; [unfold enc_ecv; destruct (_ || _)%bool; [now right|now left]|]. eapply brt_wire; [apply BRT_cecv|].
  - unfold fits_CEntityCoordinateVector, enc_ecv, sb. destruct (_ || _)%bool; cbn [fst CEntityCoordinateVector_x CEntityCoordinateVector_y CEntityCoordinateVector_z];
    unfold enc_component; repeat match goal with |- context [f32_to_i16 ?f ?p] => let H := fresh in pose proof (i16_cast_range f p) as H; generalize dependent (f32_to_i16 f p); intros end; lia.
  - intros (F1 & F2 & F3). exact (coordinates v F1 F2 F3).
Qed.
(*@C48 Rates of turn up to 50 rad/s arrive within 0.0279 rad/s. *)
Lemma cdis_turning_precision_pf : forall m v, all_finite v -> (forall b, In b [v_1 v; v_2 v; v_3 v] -> (-50 <= f32_value b <= 50)%R) ->
  over_wire (w_cavel m (enc_angular v)) p_cavel (fun c => turning_kept v (dec_angular c)).
Proof.
  intros m v (F1 & F2 & F3) H. assert (K : forall b, f32_finite b -> (-50 <= f32_value b <= 50)%R -> -2048 <= enc_rate b < 2048).
  { intros b F R. destruct degrees_ok as [D DV], angular_ok as [A AV]. destruct (of_bits_fin b F) as [O V].
    assert (Rabs (f32_value b) <= 50)%R by (apply Rabs_le; lra). assert (M : (Rabs (SF2R radix2 (sf_of_bits b) * SF2R radix2 degrees_per_radian) <= 2865)%R).
    { rewrite V, Rabs_mult, (Rabs_right (SF2R radix2 degrees_per_radian)) by lra. assert (0 <= Rabs (f32_value b))%R by apply Rabs_pos. nra. }
    destruct (mul_near (sf_of_bits b) degrees_per_radian O D) as [PO PN]; [unfold huge; lra|]. unfold enc_rate, f32_as_i16. set (p := sfmul (sf_of_bits b) degrees_per_radian) in *.
    assert (PA : (Rabs (SF2R radix2 p) <= 2866)%R).
    { assert (W : (Rabs (SF2R radix2 p - SF2R radix2 (sf_of_bits b) * SF2R radix2 degrees_per_radian) <= 1)%R) by (unfold ulp24, tiny in PN; lra). apply Rabs_le_inv in W. apply Rabs_le_inv in M. apply Rabs_le. lra. }
    assert (- (1826 + 1) <= sf_cast (-32768) 32767 (sfmul p angular_scale) <= 1826 + 1); [|lia].
    apply (sent_near_gen sf_cast 1); auto using cast_converts; try lra; try lia. assert (0 <= Rabs (SF2R radix2 p))%R by apply Rabs_pos. nra. }
  pose proof (K _ F1 (H (v_1 v) ltac:(cbn; auto))). pose proof (K _ F2 (H (v_2 v) ltac:(cbn; auto))). pose proof (K _ F3 (H (v_3 v) ltac:(cbn; auto))).
  eapply brt_wire; [apply BRT_cavel|]; [|split; [|split]; apply rate].
  unfold fits_CAngularVelocity, enc_angular, sb. cbn [CAngularVelocity_x CAngularVelocity_y CAngularVelocity_z]. lia.
Qed.
(*@C48 Frequencies (and ranges) of emitters, up to 13.1 GHz, arrive within one part in twelve thousand, or 1.1 Hz. *)
Lemma cdis_frequency_precision_pf : forall m b, f32_finite b -> (0 <= f32_value b <= 13100000000)%R -> over_wire (w_cff m (enc_cff b)) p_cff (fun c => frequency_kept b (dec_cff c)).
Proof. intros m b F R. destruct (cff_kept b F R) as [A B]. eapply brt_wire; [apply BRT_cff, A|exact B]. Qed.
(*@C48 The frequency of a transmitter, in whole hertz, arrives exactly below 16777216 Hz and within four millionths up to 1.67 THz. *)
Lemma cdis_hertz_precision_pf : forall m f, 0 <= f <= 1670000000000 -> over_wire (w_ctf m (enc_tx_frequency f)) p_ctf (fun c => hertz_kept f (dec_tx_frequency c)).
Proof. intros m f H. eapply brt_wire; [apply BRT_ctf, hertz_fits, H|apply hertz]. Qed.
(*@C48 The bandwidth of a transmitter, like the frequencies. *)
Lemma cdis_bandwidth_precision_pf : forall m b, f32_finite b -> (0 <= f32_value b <= 13100000000)%R -> over_wire (w_ctb m (enc_tx_bandwidth b)) p_ctb (fun c => frequency_kept b (dec_tx_bandwidth c)).
Proof. intros m b F R. destruct (bandwidth_kept b F R) as [A B]. eapply brt_wire; [apply BRT_ctb, A|exact B]. Qed.
(*@C48 Explosive force, up to 32.7 million, arrives within one part in 3000, or 1.1. *)
Lemma cdis_force_precision_pf : forall m b, f32_finite b -> (0 <= f32_value b <= 32700000)%R -> over_wire (w_cforce m (enc_force b)) p_cforce (fun c => force_kept b (dec_force c)).
Proof. intros m b F R. destruct (force_is_kept b F R) as [A B]. eapply brt_wire; [apply BRT_cforce, A|exact B]. Qed.
(*@C48 Articulation parameter values up to 16383, of either sign, arrive truncated to the whole number. *)
Lemma cdis_parameter_precision_pf : forall m b, f32_finite b -> (-16383 <= f32_value b <= 16383)%R -> over_wire (w_cpv m (enc_cpv b)) p_cpv (fun c => parameter_kept b (dec_cpv c)).
Proof. intros m b F R. destruct (parameter_is_kept b F R) as [A B]. eapply brt_wire; [apply BRT_cpv, A|exact B]. Qed.
Lemma uint_range hi b : 0 <= hi -> 0 <= f32_to_uint hi b <= hi.
Proof.
  intros H. unfold f32_to_uint, sf_from. destruct (sf_of_bits b) as [s|s| |s p e]; cbn [unopt]; try lia.
  destruct (Z.leb_spec 0 (sf_trunc s p e)), (Z.leb_spec (sf_trunc s p e) hi); cbn [andb unopt]; lia.
Qed.
Lemma uint_small lim hi b : 0 <= lim <= hi -> f32_finite b -> (0 <= f32_value b <= IZR lim)%R -> 0 <= f32_to_uint hi b <= lim.
Proof.
  intros H F R. destruct (of_bits_fin b F) as [O V]. unfold f32_to_uint. assert (IZR lim <= IZR hi)%R by (apply IZR_le; lia).
  rewrite (from_ok 0 hi _ O) by (try lia; rewrite V; lra). cbn [unopt]. rewrite V.
  split; [apply Z.le_trans with (Ztrunc (IZR 0)); [now rewrite Ztrunc_IZR|apply Ztrunc_le; lra]|apply Z.le_trans with (Ztrunc (IZR lim)); [apply Ztrunc_le; lra|now rewrite Ztrunc_IZR]].
Qed.
(*@C48 The parameters of an emitter beam: frequency and range as above; power to the watt up to 255; pulse repetition frequency to the hertz up to 65535; pulse
 width, up to 16.3 million, within one part in 1600 or 1.1. *)
Lemma cdis_emission_precision_pf : forall m d,
  f32_finite (fp_frequency d) -> (0 <= f32_value (fp_frequency d) <= 13100000000)%R -> f32_finite (fp_range d) -> (0 <= f32_value (fp_range d) <= 13100000000)%R ->
  f32_finite (fp_width d) -> (0 <= f32_value (fp_width d) <= 16300000)%R ->
  over_wire (w_cfp m (enc_fp d)) p_cfp (fun c => emission_kept d (dec_fp c)).
Proof.
  intros m d F1 R1 F2 R2 F3 R3. destruct (cff_kept _ F1 R1) as [A1 B1], (cff_kept _ F2 R2) as [A2 B2], (pulse_is_kept _ F3 R3) as [A3 B3].
  pose proof (uint_range 255 (fp_power d) ltac:(lia)). pose proof (uint_range 65535 (fp_prf d) ltac:(lia)).
  eapply brt_wire; [apply BRT_cfp|].
  - unfold fits_CFundamentalParameter, enc_fp. cbn [CFundamentalParameter_frequency CFundamentalParameter_range CFundamentalParameter_erp CFundamentalParameter_prf CFundamentalParameter_pulse].
    repeat split; try apply A1; try apply A2; try apply A3; unfold ub in *; lia.
  - unfold emission_kept, enc_fp, dec_fp. cbn [CFundamentalParameter_frequency CFundamentalParameter_range CFundamentalParameter_erp CFundamentalParameter_prf CFundamentalParameter_pulse fp_frequency fp_range fp_power fp_prf fp_width].
    split; [exact B1|]. split; [exact B2|]. split; [apply (whole 0 255); lia|]. split; [apply (whole 0 65535); lia|exact B3].
Qed.
(*@C48 The parameters of an IFF beam: frequency as above; power to the watt up to 255; the pulse fields to the whole number up to 1023; the others exactly. *)
Lemma cdis_interrogation_precision_pf : forall m p, f32_finite (ip_frequency p) -> (0 <= f32_value (ip_frequency p) <= 13100000000)%R ->
  (forall b, In b [ip_pgrf p; ip_pulse_width p; ip_burst p] -> f32_finite b /\ (0 <= f32_value b <= 1023)%R) ->
  0 <= ip_modes p < 8 -> u8 (ip_s1 p) -> u8 (ip_s2 p) -> u8 (ip_s3 p) ->
  over_wire (w_cip m (enc_ip p)) p_cip (fun c => interrogation_kept p (dec_ip c)).
Proof.
  intros m p F1 R1 H HM H1 H2 H3. destruct (cff_kept _ F1 R1) as [A1 B1]. pose proof (uint_range 255 (ip_erp p) ltac:(lia)).
  destruct (H (ip_pgrf p) ltac:(cbn; auto)) as [G1 G1'], (H (ip_pulse_width p) ltac:(cbn; auto)) as [G2 G2'], (H (ip_burst p) ltac:(cbn; auto)) as [G3 G3'].
  pose proof (uint_small 1023 65535 _ ltac:(lia) G1 G1'). pose proof (uint_small 1023 65535 _ ltac:(lia) G2 G2'). pose proof (uint_small 1023 65535 _ ltac:(lia) G3 G3').
  assert (W : forall b, arrives 1 0 1023 b (f32_of_int (f32_to_uint 65535 b))) by (intros b F R; apply (whole 0 65535); [lia|lia|exact F|lra]).
  eapply brt_wire; [apply BRT_cip|].
  - unfold fits_CIffParameter, enc_ip, ub, u8 in *. cbn [cip_erp cip_frequency cip_pgrf cip_pulse cip_burst cip_modes cip_s1 cip_s2 cip_s3]. split; [lia|]. split; [exact A1|]. lia.
  - unfold interrogation_kept, enc_ip, dec_ip.
    cbn [cip_erp cip_frequency cip_pgrf cip_pulse cip_burst cip_modes cip_s1 cip_s2 cip_s3 ip_erp ip_frequency ip_pgrf ip_pulse_width ip_burst ip_modes ip_s1 ip_s2 ip_s3].
    split; [apply (whole 0 255); lia|]. split; [exact B1|]. repeat split; apply W; assumption.
Qed.
(*@C48 The antenna pattern of a transmitter: the angles, up to half a turn, within 0.00078 rad; the field components to the whole number, saturated; the
 reference system exactly. *)
Lemma cdis_pattern_precision_pf : forall m p,
  (forall b, In b [or_psi (bap_direction p); or_theta (bap_direction p); or_phi (bap_direction p); bap_azimuth p; bap_elevation p; bap_phase p] -> f32_finite b /\ (-3.1416 <= f32_value b <= 3.1416)%R) ->
  0 <= bap_reference p < 4 -> over_wire (w_cbap m (enc_bap p)) p_cbap (fun c => pattern_kept p (dec_bap c)).
Proof.
  intros m p H HR. assert (K : forall b, f32_finite b /\ (-3.1416 <= f32_value b <= 3.1416)%R -> -4096 <= f32_as_i16 (sfmul (sf_of_bits b) orientation_scale) < 4096).
  { intros b [F R]. destruct orientation_ok as [T TV]. assert (Rabs (f32_value b) <= 3.1416)%R by (apply Rabs_le; lra).
    assert (TV' : (SF2R radix2 orientation_scale <= 1303.48)%R) by (clear; match goal with |- context [SF2R radix2 ?c] => let v := eval vm_compute in c in change c with v end; cbn [SF2R]; unfold F2R; cbn; lra).
    assert (0 <= Rabs (f32_value b))%R by apply Rabs_pos. unfold f32_as_i16. destruct (of_bits_fin b F) as [O V].
    destruct (mul_near (sf_of_bits b) orientation_scale O T) as [G N].
    { rewrite V, Rabs_mult, (Rabs_right (SF2R radix2 orientation_scale)) by lra. unfold huge. nra. }
    rewrite (cast_fin 24 128 _ (-32768) 32767 ltac:(lia) G). set (y := SF2R radix2 (sfmul (sf_of_bits b) orientation_scale)) in *.
    assert (M : (Rabs (f32_value b * SF2R radix2 orientation_scale) <= 4095.02)%R) by (rewrite Rabs_mult, (Rabs_right (SF2R radix2 orientation_scale)) by lra; nra).
    rewrite V in N. assert (N' : (Rabs (y - f32_value b * SF2R radix2 orientation_scale) <= 0.01)%R) by (unfold ulp24, tiny in N; lra).
    apply Rabs_le_inv in N'. apply Rabs_le_inv in M.
    assert (-4096 < Ztrunc y < 4096); [|lia]. split; apply lt_IZR; destruct (Rle_dec 0 y) as [Y|Y].
    - rewrite Ztrunc_floor by exact Y. pose proof (Zfloor_ub y). lra.
    - rewrite Ztrunc_ceil by lra. pose proof (Zceil_ub y). lra.
    - rewrite Ztrunc_floor by exact Y. pose proof (Zfloor_lb y). lra.
    - rewrite Ztrunc_ceil by lra. pose proof (Zceil_lb y). lra. }
  pose proof (K _ (H (or_psi (bap_direction p)) ltac:(cbn; tauto))). pose proof (K _ (H (or_theta (bap_direction p)) ltac:(cbn; tauto))).
  pose proof (K _ (H (or_phi (bap_direction p)) ltac:(cbn; tauto))). pose proof (K _ (H (bap_azimuth p) ltac:(cbn; tauto))).
  pose proof (K _ (H (bap_elevation p) ltac:(cbn; tauto))). pose proof (K _ (H (bap_phase p) ltac:(cbn; tauto))).
  pose proof (cast_range (-32768) 32767 (sf_of_bits (bap_ez p)) ltac:(lia)) as EZ. pose proof (cast_range (-32768) 32767 (sf_of_bits (bap_ex p)) ltac:(lia)) as EX.
  fold (f32_as_i16 (sf_of_bits (bap_ez p))) in EZ. fold (f32_as_i16 (sf_of_bits (bap_ex p))) in EX.
  eapply brt_wire; [apply BRT_cbap|].
  - unfold fits_CBeamAntennaPattern, enc_bap, ub, sb.
    cbn [CBeamAntennaPattern_psi CBeamAntennaPattern_theta CBeamAntennaPattern_phi CBeamAntennaPattern_az CBeamAntennaPattern_el CBeamAntennaPattern_ref CBeamAntennaPattern_e_z CBeamAntennaPattern_e_x CBeamAntennaPattern_phase]. lia.
  - unfold pattern_kept, enc_bap, dec_bap.
    cbn [CBeamAntennaPattern_psi CBeamAntennaPattern_theta CBeamAntennaPattern_phi CBeamAntennaPattern_az CBeamAntennaPattern_el CBeamAntennaPattern_ref CBeamAntennaPattern_e_z CBeamAntennaPattern_e_x CBeamAntennaPattern_phase bap_direction or_psi or_theta or_phi bap_azimuth bap_elevation bap_reference bap_ez bap_ex bap_phase].
    do 5 (split; [apply plain_angle|]). split; [reflexivity|]. do 2 (split; [apply field_is_kept|]). apply plain_angle.
Qed.
Lemma u32_from f : ub 32 (unopt 4294967295 (sf_from 0 4294967295 f)).
Proof.
  unfold sf_from, ub. destruct f as [s|s| |s p e]; cbn [unopt]; try lia.
  destruct (Z.leb_spec 0 (sf_trunc s p e)), (Z.leb_spec (sf_trunc s p e) 4294967295); cbn [andb unopt]; lia.
Qed.
(*@C48 (The unit is sent as one bit.) A mass, up to 4294967040 kg, arrives to the gram up to 65.535 kg and to the kilogram beyond. *)
Lemma cdis_mass_precision_pf : forall b, (snd (enc_mass b) = 0 \/ snd (enc_mass b) = 1)%Z /\
  over_wire (w_uvint32 (fst (enc_mass b))) p_uvint32 (fun z => mass_kept b (dec_mass z (snd (enc_mass b)))).
Proof.
  intros b. split; [unfold enc_mass; destruct SFleb; [now left|now right]|]. eapply brt_wire; [apply BRT_uvint32|apply mass_is_kept]. unfold enc_mass. destruct SFleb; cbn [fst]; apply u32_from.
Qed.
(*@C48 Of a beam the centre of the azimuth arrives within 0.1235 rad (7 degrees: the scale is 13/pi where (2^12 - 1)/pi was meant) and the sweep position within
 0.05 percent. The sweep of the azimuth and both elevation angles are lost: cdis_beam_refuted. *)
Lemma cdis_beam_precision_pf : forall m b, f32_finite (bd_azc b) -> (-100 <= f32_value (bd_azc b) <= 100)%R ->
  (forall a, In a [bd_azs b; bd_elc b; bd_els b] -> f32_finite a /\ (-100 <= f32_value a <= 100)%R) -> f32_finite (bd_sync b) -> (0 <= f32_value (bd_sync b) <= 100)%R ->
  over_wire (w_cbeam_data m (enc_beam b)) p_cbeam_data
    (fun c => arrives 0.1235 (-100) 100 (bd_azc b) (bd_azc (dec_beam c)) /\ arrives 0.05 0 100 (bd_sync b) (bd_sync (dec_beam c))).
Proof.
  intros m b F R H FS RS.
  assert (K : forall a, f32_finite a -> (-100 <= f32_value a <= 100)%R -> -4096 <= enc_beam_angle a < 4096).
  { intros a Fa Ra. destruct beam_ok as [T TV]. destruct (of_bits_fin a Fa) as [O V]. unfold enc_beam_angle. assert (Rabs (f32_value a) <= 100)%R by (apply Rabs_le; lra).
    assert (- (414 + 1) <= sf_round_cast (-32768) 32767 (sfmul (sf_of_bits a) beam_scale) <= 414 + 1); [|lia].
    apply (sent_near_gen sf_round_cast (/ 2)); auto using round_converts; try lra; try lia. rewrite V. assert (0 <= Rabs (f32_value a))%R by apply Rabs_pos. nra. }
  assert (SY : 0 <= sf_round_cast 0 65535 (sfmul (sf_of_bits (bd_sync b)) sync_scale) < 1024).
  { destruct (of_bits_fin (bd_sync b) FS) as [O V]. assert (T : ok24 sync_scale) by apply sync_ok. assert (TV : (10.22 <= SF2R radix2 sync_scale <= 10.2301)%R).
    { clear. match goal with |- context [SF2R radix2 ?c] => let v := eval vm_compute in c in change c with v end; cbn [SF2R]; unfold F2R; cbn; lra. }
    destruct (scaled sf_round_cast (/ 2) (sf_of_bits (bd_sync b)) sync_scale 0 65535 round_converts ltac:(lra) O T ltac:(lia) ltac:(lia)) as [Z1 Z2].
    rewrite V, clip_id in Z2 by nra. split; [lia|]. apply lt_IZR. apply Rabs_le_inv in Z2. nra. }
  destruct (H (bd_azs b) ltac:(cbn; auto)) as [F2 R2], (H (bd_elc b) ltac:(cbn; auto)) as [F3 R3], (H (bd_els b) ltac:(cbn; auto)) as [F4 R4].
  pose proof (K _ F R). pose proof (K _ F2 R2). pose proof (K _ F3 R3). pose proof (K _ F4 R4).
  eapply brt_wire; [apply BRT_cbeam_data|].
  - unfold fits_CBeamData, enc_beam, ub, sb. cbn [cbd_az_center cbd_az_sweep cbd_el_center cbd_el_sweep cbd_sync]. lia.
  - unfold img_cbeam_data, enc_beam, dec_beam. cbn [cbd_az_center cbd_sync bd_azc bd_sync]. split; [apply beam_angle|apply sync_percent].
Qed.
Lemma over_by {A} (w w' : BW) (p : bitparser A) c L (P : A -> Prop) : w = w' -> BRT w' p c L -> P c -> over_wire w p P.
Proof. intros ->. apply brt_wire. Qed.
Ltac bounds := repeat split; vm_compute; try reflexivity; try discriminate.
Ltac wired W B c := apply (over_by _ (W c) _ c (zlen (match W c with WOk bs _ => bs | _ => [] end))); [vm_compute; reflexivity|exact (B ltac:(bounds))|vm_compute; reflexivity].
Ltac value := match goal with |- context [f32_value ?b] =>
  unfold f32_value; let s := eval vm_compute in (2 ^ 31 <=? b) in change (2 ^ 31 <=? b) with s; let e := eval vm_compute in (f32_exponent b) in change (f32_exponent b) with e;
  let f := eval vm_compute in (f32_fraction b) in change (f32_fraction b) with f;
  let g := eval vm_compute in (2 ^ 23 + f) in change (2 ^ 23 + f) with g; let z := eval vm_compute in (e =? 0) in change (e =? 0) with z; cbv iota;
  let k := eval vm_compute in (e - 150) in change (e - 150) with k; cbv beta iota delta [powerRZ]; match goal with |- context [Pos.to_nat ?p] => let n := eval vm_compute in (Pos.to_nat p) in change (Pos.to_nat p) with n | _ => idtac end; cbn [pow]; lra end.
(*@C48 The natural claim without the limits is false. An acceleration of 1000 m/s^2 arrives as 180.8: 10000 decimetres do not fit the 14 bits. *)
Lemma cdis_acceleration_refuted_pf : forall m, f32_value 1148846080 = 1000%R /\ (f32_value 1127533773 < 181)%R /\
  over_wire (w_clacc m (enc_acceleration (MkVectorF32 1148846080 0 0))) p_clacc (fun c => v_1 (dec_acceleration c) = 1127533773).
Proof. intros m. split; [value|]. split; [value|]. destruct m; [wired (w_clacc Checked) (BRT_clacc Checked (MkCLinearAcceleration 1808 0 0)) (MkCLinearAcceleration 1808 0 0)|wired (w_clacc Wrapping) (BRT_clacc Wrapping (MkCLinearAcceleration 1808 0 0)) (MkCLinearAcceleration 1808 0 0)]. Qed.
(*@C48 An entity coordinate of 400 m arrives as 327.67. *)
Lemma cdis_coordinates_refuted_pf : forall m, f32_value 1137180672 = 400%R /\ (f32_value 1134810563 < 328)%R /\
  over_wire (w_cecv m (fst (enc_ecv (MkVectorF32 1137180672 0 0)))) p_cecv (fun c => v_1 (dec_ecv c (snd (enc_ecv (MkVectorF32 1137180672 0 0)))) = 1134810563).
Proof. intros m. split; [value|]. split; [value|]. destruct m; [wired (w_cecv Checked) (BRT_cecv Checked (MkCEntityCoordinateVector 32767 0 0)) (MkCEntityCoordinateVector 32767 0 0)|wired (w_cecv Wrapping) (BRT_cecv Wrapping (MkCEntityCoordinateVector 32767 0 0)) (MkCEntityCoordinateVector 32767 0 0)]. Qed.
(*@C48 A frequency of 16 GHz arrives as 2.8928 GHz: the largest exponent used is the number of bits of the exponent plus one, and the mantissa overflows its 17 bits. *)
Lemma cdis_frequency_refuted_pf : forall m, f32_value 1349413672 = 16000000000%R /\ (f32_value 1328311456 < 2900000000)%R /\
  over_wire (w_cff m (enc_cff 1349413672)) p_cff (fun c => dec_cff c = 1328311456).
Proof. intros m. split; [value|]. split; [value|]. destruct m; [wired (w_cff Checked) (BRT_cff Checked (MkCFrequencyFloat 28928 5)) (MkCFrequencyFloat 28928 5)|wired (w_cff Wrapping) (BRT_cff Wrapping (MkCFrequencyFloat 28928 5)) (MkCFrequencyFloat 28928 5)]. Qed.
(*@C48 An explosive force of 50 million arrives as less than 5001: the exponent 4 does not fit three bits with a sign. *)
Lemma cdis_force_refuted_pf : forall m, f32_value 1279179808 = 50000000%R /\ (f32_value 1167867904 < 5001)%R /\
  over_wire (w_cforce m (enc_force 1279179808)) p_cforce (fun c => dec_force c = 1167867904).
Proof. intros m. split; [value|]. split; [value|]. destruct m; [wired (w_cforce Checked) (BRT_cforce Checked (MkCForceFloat 5000 0)) (MkCForceFloat 5000 0)|wired (w_cforce Wrapping) (BRT_cforce Wrapping (MkCForceFloat 5000 0)) (MkCForceFloat 5000 0)]. Qed.
(*@C48 An articulation parameter of 20000 arrives as 3616: the mantissa 20000 does not fit fifteen bits with a sign. *)
Lemma cdis_parameter_refuted_pf : forall m, f32_value 1184645120 = 20000%R /\ f32_value 1164050432 = 3616%R /\
  over_wire (w_cpv m (enc_cpv 1184645120)) p_cpv (fun c => dec_cpv c = 1164050432).
Proof. intros m. split; [value|]. split; [value|]. destruct m; [wired (w_cpv Checked) (BRT_cpv Checked (MkCParameterValue 3616 0 None)) (MkCParameterValue 3616 0 None)|wired (w_cpv Wrapping) (BRT_cpv Wrapping (MkCParameterValue 3616 0 None)) (MkCParameterValue 3616 0 None)]. Qed.
(*@C48 A sweep of one radian of a beam pointing ahead arrives as zero: the azimuth centre is written four times. *)
Lemma cdis_beam_refuted_pf : forall m, f32_value 1065353216 = 1%R /\
  over_wire (w_cbeam_data m (enc_beam (MkBeamData 0 1065353216 0 0 0))) p_cbeam_data (fun c => bd_azs (dec_beam c) = 0).
Proof. intros m. split; [value|]. destruct m; [wired (w_cbeam_data Checked) (BRT_cbeam_data Checked (MkCBeamData 0 0 0 0 0)) (MkCBeamData 0 0 0 0 0)|wired (w_cbeam_data Wrapping) (BRT_cbeam_data Wrapping (MkCBeamData 0 0 0 0 0)) (MkCBeamData 0 0 0 0 0)]. Qed.
(*@C48 An effective radiated power of 300 W arrives as zero, neither kept nor saturated. *)
Lemma cdis_power_refuted_pf : forall m, f32_value 1133903872 = 300%R /\
  over_wire (w_cfp m (enc_fp (MkFPD 0 0 1133903872 0 0))) p_cfp (fun c => fp_power (dec_fp c) = 0).
Proof. intros m. split; [value|]. destruct m; [wired (w_cfp Checked) (BRT_cfp Checked (MkCFundamentalParameter (MkCFrequencyFloat 0 0) (MkCFrequencyFloat 0 0) 0 0 (MkCPulseWidth 0 0))) (MkCFundamentalParameter (MkCFrequencyFloat 0 0) (MkCFrequencyFloat 0 0) 0 0 (MkCPulseWidth 0 0))|wired (w_cfp Wrapping) (BRT_cfp Wrapping (MkCFundamentalParameter (MkCFrequencyFloat 0 0) (MkCFrequencyFloat 0 0) 0 0 (MkCPulseWidth 0 0))) (MkCFundamentalParameter (MkCFrequencyFloat 0 0) (MkCFrequencyFloat 0 0) 0 0 (MkCPulseWidth 0 0))]. Qed.
(*@C48 An IFF pulse width of 2000 arrives as 976: ten bits are written. *)
Lemma cdis_pulse_refuted_pf : forall m, f32_value 1157234688 = 2000%R /\ f32_value 1148452864 = 976%R /\
  over_wire (w_cip m (enc_ip (MkIffParameter 0 0 0 1157234688 0 0 0 0 0))) p_cip (fun c => ip_pulse_width (dec_ip c) = 1148452864).
Proof. intros m. split; [value|]. split; [value|]. destruct m; [wired (w_cip Checked) (BRT_cip Checked (MkCIffParameter 0 (MkCFrequencyFloat 0 0) 0 976 0 0 0 0 0)) (MkCIffParameter 0 (MkCFrequencyFloat 0 0) 0 976 0 0 0 0 0)|wired (w_cip Wrapping) (BRT_cip Wrapping (MkCIffParameter 0 (MkCFrequencyFloat 0 0) 0 976 0 0 0 0 0)) (MkCIffParameter 0 (MkCFrequencyFloat 0 0) 0 976 0 0 0 0 0)]. Qed.
(*@ex*)
Example ex_precision : all_finite (MkVectorF32 1123477881 3267887104 0) /\ enc_velocity (MkVectorF32 1123477881 3267887104 0) = MkCLinearVelocity 1234 (-1000) 0.
Proof. repeat split; vm_compute; try discriminate; congruence. Qed.
(*@ex*)
Example ex_frequency : f32_finite 1326777081 /\ (0 <= f32_value 1326777081 <= 13100000000)%R /\ enc_cff 1326777081 = MkCFrequencyFloat 25000 5.
Proof. split; [split; vm_compute; [split; congruence|discriminate]|]. split; [split; value|vm_compute; reflexivity]. Qed.
(*@ex*)
Example ex_orientation : f32_finite 1078523331 /\ f32_finite 3226013658 /\ enc_orientation (MkOrientation 1078523331 3226013658 1092616192) = MkCOrientation 4092 (-4094) (-3345).
Proof. repeat split; vm_compute; try discriminate; congruence. Qed.
