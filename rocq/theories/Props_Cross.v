(** * Properties: Cross

    Theorems only: each is closed by the lemma of the same name in L_Cross.v. *)
From Coq Require Import ZArith List Lia Bool String Ascii SpecFloat Reals Lra.
From Verif Require Import Base CdisBase DisCommon DisHeader DisLists DisSimman DisLogistics DisWarfare DisEntity DisEmission DisRadio DisIff DisPdu DisPacket
  CdisRecords CdisBodies1 CdisBodies2 CdisIff CdisPdu CdisCodec1 CdisCodec2 CdisCodec3 SpecFloatValue SpecContent SpecBody SpecCross SpecCdisPdu SpecCodec SpecGateway
  Utf8 L_Codec L_CodecPrec L_CodecContent L_CodecSim L_Gateway CrossFits L_Cross.
Import ListNotations. Open Scope Z_scope.

(** C52. A PDU that C-DIS has room for is never lost: whatever the encoder has seen before it gives a C-DIS PDU, its bits are read back, whatever follows them, as one C-DIS PDU, and
 a decoder (in release mode), whatever it has seen before, makes a DIS PDU of that. *)
Theorem cdis_wire_delivers : forall m g oe od now est dst p, narrow_pdu g p ->
  exists c r est' q p' r' dst', encode g oe now est p = Some (c, r, est') /\ on_the_wire m c q /\ decode Wrapping g od dst q = WOk [] (p', r', dst').
Proof. exact cdis_wire_delivers_pf. Qed.
Print Assumptions cdis_wire_delivers.

(** C52. The exercise identifier and the PDU type arrive as they were. *)
Theorem cdis_wire_header : forall m g oe od p c p', narrow_pdu g p -> crosses m g oe od p c p' ->
  h_exercise (pdu_header p') = h_exercise (pdu_header p) /\ h_type (pdu_header p') = h_type (pdu_header p).
Proof. exact cdis_wire_header_pf. Qed.
Print Assumptions cdis_wire_header.

(** C52. A Collision arrives as the codec alone would have it. *)
Theorem cdis_collision_crosses : forall m g oe od p c p' x, narrow_pdu g p -> crosses m g oe od p c p' -> pdu_body p = BCollision x ->
  exists y, pdu_body p' = BCollision y /\ collision_kept x y.
Proof. exact cdis_collision_crosses_pf. Qed.
Print Assumptions cdis_collision_crosses.

(** C52. A Fire: everything but the location as the codec alone would have it; of the location the altitude, the latitude shrunk to a seventeenth and the longitude to a ninth. *)
Theorem cdis_fire_crosses : forall m g oe od p c p' x, narrow_pdu g p -> crosses m g oe od p c p' -> pdu_body p = BFire x ->
  exists y, pdu_body p' = BFire y /\ fire_kept_at (place_shrunk g) x y.
Proof. exact cdis_fire_crosses_pf. Qed.
Print Assumptions cdis_fire_crosses.

(** C52. A Detonation, in the same way. *)
Theorem cdis_detonation_crosses : forall m g oe od p c p' x, narrow_pdu g p -> crosses m g oe od p c p' -> pdu_body p = BDetonation x ->
  exists y, pdu_body p' = BDetonation y /\ detonation_kept_at (place_shrunk g) x y.
Proof. exact cdis_detonation_crosses_pf. Qed.
Print Assumptions cdis_detonation_crosses.

(** C52. A Receiver arrives as the codec alone would have it. *)
Theorem cdis_receiver_crosses : forall m g oe od p c p' x, narrow_pdu g p -> crosses m g oe od p c p' -> pdu_body p = BReceiver x ->
  exists y, pdu_body p' = BReceiver y /\ receiver_kept x y.
Proof. exact cdis_receiver_crosses_pf. Qed.
Print Assumptions cdis_receiver_crosses.

(** C52. A Signal arrives as the codec alone would have it. *)
Theorem cdis_signal_crosses : forall m g oe od p c p' x, narrow_pdu g p -> crosses m g oe od p c p' -> pdu_body p = BSignal x ->
  exists y, pdu_body p' = BSignal y /\ signal_kept x y.
Proof. exact cdis_signal_crosses_pf. Qed.
Print Assumptions cdis_signal_crosses.

(** C52. An Entity State, in every update: what a partial update carries, as the codec alone would have it. *)
Theorem cdis_entity_state_crosses : forall m g oe od p c p' x, narrow_pdu g p -> crosses m g oe od p c p' -> pdu_body p = BEntityState x ->
  exists y, pdu_body p' = BEntityState y /\ movement_kept (o_complete oe) x y.
Proof. exact cdis_entity_state_crosses_pf. Qed.
Print Assumptions cdis_entity_state_crosses.

(** C52. ... and in a full update: the marking, the type, force, orientation and appearance, and the shrunk location. *)
Theorem cdis_entity_state_full_crosses : forall m g oe od p c p' x, narrow_pdu g p -> crosses m g oe od p c p' -> pdu_body p = BEntityState x -> full_update (cp_body c) ->
  exists y, pdu_body p' = BEntityState y /\ identity_kept_at (place_shrunk g) x y /\ mk_string (EntityState_marking y) = mk_string (EntityState_marking x).
Proof. exact cdis_entity_state_full_crosses_pf. Qed.
Print Assumptions cdis_entity_state_full_crosses.

(** C52. A Designator, in every update ... *)
Theorem cdis_designator_crosses : forall m g oe od p c p' x, narrow_pdu g p -> crosses m g oe od p c p' -> pdu_body p = BDesignator x ->
  exists y, pdu_body p' = BDesignator y /\ aim_kept x y.
Proof. exact cdis_designator_crosses_pf. Qed.
Print Assumptions cdis_designator_crosses.

(** C52. ... and in a full update. *)
Theorem cdis_designator_full_crosses : forall m g oe od p c p' x, narrow_pdu g p -> crosses m g oe od p c p' -> pdu_body p = BDesignator x -> full_update (cp_body c) ->
  exists y, pdu_body p' = BDesignator y /\ laser_kept_at (place_shrunk g) x y.
Proof. exact cdis_designator_full_crosses_pf. Qed.
Print Assumptions cdis_designator_full_crosses.

(** C52. A Transmitter, in every update ... *)
Theorem cdis_transmitter_crosses : forall m g oe od p c p' x, narrow_pdu g p -> crosses m g oe od p c p' -> pdu_body p = BTransmitter x ->
  exists y, pdu_body p' = BTransmitter y /\ transmission_kept x y.
Proof. exact cdis_transmitter_crosses_pf. Qed.
Print Assumptions cdis_transmitter_crosses.

(** C52. ... and in a full update. *)
Theorem cdis_transmitter_full_crosses : forall m g oe od p c p' x, narrow_pdu g p -> crosses m g oe od p c p' -> pdu_body p = BTransmitter x -> full_update (cp_body c) ->
  exists y, pdu_body p' = BTransmitter y /\ radio_kept_at (place_shrunk g) x y.
Proof. exact cdis_transmitter_full_crosses_pf. Qed.
Print Assumptions cdis_transmitter_full_crosses.

Example crossing_example : Forall (fun b => narrow_pdu plain_geo (on_its_way b) /\ exists c p', crosses Wrapping plain_geo new_full_update new_partial_update (on_its_way b) c p') crossing.
Proof.
  pose proof crossing_wf as W. pose proof crossing_narrow as N. rewrite Forall_forall in *. intros b I. pose proof (narrow_way b (W b I) (N b I)) as K. split; [exact K|].
  destruct (cdis_wire_delivers_pf Wrapping plain_geo new_full_update new_partial_update 0 enc_state_new dec_state_new _ K) as (c & r & e & q & p' & r' & d & E & O & D). exists c, p', 0, enc_state_new, dec_state_new, r, e, q, r', d. auto.
Qed.

(** C52. A Fire with a quantity but no rate of fire is not carried: C-DIS has one flag for both, the writer writes the quantity anyway, and the reader takes it for the following field. *)
Theorem cdis_fire_crosses_refuted : narrow_pdu plain_geo (on_its_way (sent_fire 2)) /\
  exists c r st', encode plain_geo new_full_update 0 enc_state_new (on_its_way (sent_fire 0)) = Some (c, r, st') /\ forall m, ~ exists q, on_the_wire m c q.
Proof. exact cdis_fire_crosses_refuted_pf. Qed.
Print Assumptions cdis_fire_crosses_refuted.

(** C52. A Designator whose dead reckoning algorithm has no acceleration (2, for example) is not carried, for the same reason. *)
Theorem cdis_designator_crosses_refuted : narrow_pdu plain_geo (on_its_way (sent_spot 4)) /\
  exists c r st', encode plain_geo new_full_update 0 enc_state_new (on_its_way (sent_spot 2)) = Some (c, r, st') /\ forall m, ~ exists q, on_the_wire m c q.
Proof. exact cdis_designator_crosses_refuted_pf. Qed.
Print Assumptions cdis_designator_crosses_refuted.

(** C52. A Transmitter without variable transmitter parameters is not carried: the reader expects their number. *)
Theorem cdis_transmitter_crosses_refuted : narrow_pdu plain_geo (on_its_way (sent_radio [MkVTP 7 [1; 2; 3]])) /\
  exists c r st', encode plain_geo new_full_update 0 enc_state_new (on_its_way (sent_radio [])) = Some (c, r, st') /\ forall m, ~ exists q, on_the_wire m c q.
Proof. exact cdis_transmitter_crosses_refuted_pf. Qed.
Print Assumptions cdis_transmitter_crosses_refuted.

(** C52. No place but one on the equator and on the first meridian arrives where it was: the latitude the decoder uses is off by at least 94 hundredths of the latitude sent,
 and the longitude by 88 hundredths of the longitude. *)
Theorem cdis_place_crosses_refuted : forall m g oe od p c p' x lat lon alt, narrow_pdu g p -> crosses m g oe od p c p' -> pdu_body p = BFire x ->
  to_lla g (loc_x (Fire_location_in_world x)) (loc_y (Fire_location_in_world x)) (loc_z (Fire_location_in_world x)) = (lat, lon, alt) ->
  exists y lat' lon' alt', pdu_body p' = BFire y /\
    to_ecef g lat' lon' alt' = (loc_x (Fire_location_in_world y), loc_y (Fire_location_in_world y), loc_z (Fire_location_in_world y)) /\
    (0.94 * Rabs (f64_value lat) - 0.000000001 <= Rabs (f64_value lat' - f64_value lat))%R /\ (0.88 * Rabs (f64_value lon) - 0.000000001 <= Rabs (f64_value lon' - f64_value lon))%R.
Proof. exact cdis_place_crosses_refuted_pf. Qed.
Print Assumptions cdis_place_crosses_refuted.
