(** * Properties: CodecContent

    Theorems only: each is closed by the lemma of the same name in L_CodecContent.v. *)
From Coq Require Import ZArith List Lia Bool String Ascii SpecFloat Reals Lra.
From Verif Require Import Base CdisBase DisCommon DisHeader DisLists DisSimman DisLogistics DisWarfare DisEntity DisEmission DisRadio DisIff DisPdu DisPacket
  CdisRecords CdisBodies1 CdisBodies2 CdisIff CdisPdu CdisCodec1 CdisCodec2 CdisCodec3 SpecFloatValue SpecContent SpecBody SpecCodec FloatReal FloatBits FloatBits64 L_Codec L_CodecNum L_CodecPrec L_CodecDrift L_CodecContent.
Import ListNotations. Open Scope Z_scope.

(** C47. A Collision: the entities, the event and the kind of collision arrive as they were sent; velocity, mass and location to the precision of C-DIS. *)
Theorem cdis_collision_content : forall m g oe od p c p' x, translated m g oe od p c p' -> pdu_body p = BCollision x ->
  exists y, pdu_body p' = BCollision y /\ collision_kept x y.
Proof. exact cdis_collision_content_pf. Qed.
Print Assumptions cdis_collision_content.

(** C47. A Fire: everything exactly but the location, the velocity and the range, which keep the precision of C-DIS; and the descriptor of the munition
 when the entity type says that it is a munition (or an expendable). *)
Theorem cdis_fire_content : forall m g oe od p c p' x, translated m g oe od p c p' -> pdu_body p = BFire x -> wf_DescriptorRecord (Fire_descriptor x) ->
  exists y, pdu_body p' = BFire y /\ fire_kept g x y.
Proof. exact cdis_fire_content_pf. Qed.
Print Assumptions cdis_fire_content.

(** C47. A Detonation: in the same way, with the explosion's material and force when the entity type is neither a munition nor an expendable, the result, the
 location relative to the target, and every variable parameter. *)
Theorem cdis_detonation_content : forall m g oe od p c p' x, translated m g oe od p c p' -> pdu_body p = BDetonation x -> wf_DescriptorRecord (Detonation_descriptor x) ->
  exists y, pdu_body p' = BDetonation y /\ detonation_kept g x y.
Proof. exact cdis_detonation_content_pf. Qed.
Print Assumptions cdis_detonation_content.

(** C47. The descriptor of a munition whose entity type is not of the munition kind is lost: the warhead, for instance, arrives as 0. *)
Theorem cdis_fire_descriptor_refuted : exists m g oe od p c p' x y, translated m g oe od p c p' /\ pdu_body p = BFire x /\ wf_DescriptorRecord (Fire_descriptor x) /\ pdu_body p' = BFire y /\
  match Fire_descriptor x, Fire_descriptor y with DMunition _ a, DMunition _ b => md_warhead b <> md_warhead a | _, _ => False end.
Proof. exact cdis_fire_descriptor_refuted_pf. Qed.
Print Assumptions cdis_fire_descriptor_refuted.

(** C47. A Receiver. *)
Theorem cdis_receiver_content : forall m g oe od p c p' x, translated m g oe od p c p' -> pdu_body p = BReceiver x ->
  exists y, pdu_body p' = BReceiver y /\ receiver_kept x y.
Proof. exact cdis_receiver_content_pf. Qed.
Print Assumptions cdis_receiver_content.

(** C47. A Signal: the data, and the encoding scheme of encoded audio with its rate and number of samples. For the other schemes rate and number of samples are lost: they arrive as zero. *)
Theorem cdis_signal_content : forall m g oe od p c p' x, translated m g oe od p c p' -> pdu_body p = BSignal x ->
  exists y, pdu_body p' = BSignal y /\ signal_kept x y.
Proof. exact cdis_signal_content_pf. Qed.
Print Assumptions cdis_signal_content.

(** C47. An Entity State, in every update, full or partial, whatever the encoder and the decoder have seen before: the entity, its alternative type, the dead reckoning
 algorithm with those of the velocity, acceleration and rotation that the algorithm uses, its other parameters, the capabilities (when the encoder is set to completeness) and
 every variable parameter. *)
Theorem cdis_entity_state_movement : forall m g oe od p c p' x, translated m g oe od p c p' -> pdu_body p = BEntityState x ->
  exists y, pdu_body p' = BEntityState y /\ movement_kept (o_complete oe) x y.
Proof. exact cdis_entity_state_movement_pf. Qed.
Print Assumptions cdis_entity_state_movement.

(** C47. An Entity State in a full update: also the force, the type, the location, the orientation and the appearance. *)
Theorem cdis_entity_state_identity : forall m g oe od p c p' x, translated m g oe od p c p' -> pdu_body p = BEntityState x -> full_update (cp_body c) ->
  exists y, pdu_body p' = BEntityState y /\ identity_kept g x y.
Proof. exact cdis_entity_state_identity_pf. Qed.
Print Assumptions cdis_entity_state_identity.

(** C47. The marking in a full update: a text of up to 11 octets arrives as it was. *)
Theorem cdis_marking_content : forall m g oe od p c p' x s, translated m g oe od p c p' -> pdu_body p = BEntityState x -> full_update (cp_body c) ->
  text s (mk_string (EntityState_marking x)) -> zlen (mk_string (EntityState_marking x)) <= 11 ->
  exists y, pdu_body p' = BEntityState y /\ mk_string (EntityState_marking y) = mk_string (EntityState_marking x).
Proof. exact cdis_marking_content_pf. Qed.
Print Assumptions cdis_marking_content.

(** C47. A Designator, in every update, full or partial, whatever the encoder and the decoder have seen before: both entities, the spot with respect to the
 designated entity, the dead reckoning algorithm and the acceleration it uses. *)
Theorem cdis_designator_aim : forall m g oe od p c p' x, translated m g oe od p c p' -> pdu_body p = BDesignator x ->
  exists y, pdu_body p' = BDesignator y /\ aim_kept x y.
Proof. exact cdis_designator_aim_pf. Qed.
Print Assumptions cdis_designator_aim.

(** C47. A Designator in a full update: also the system, the code, the power, the wavelength and the place of the spot. *)
Theorem cdis_designator_laser : forall m g oe od p c p' x, translated m g oe od p c p' -> pdu_body p = BDesignator x -> full_update (cp_body c) ->
  exists y, pdu_body p' = BDesignator y /\ laser_kept g x y.
Proof. exact cdis_designator_laser_pf. Qed.
Print Assumptions cdis_designator_laser.

(** C47. A Transmitter, in every update, full or partial, whatever the encoder and the decoder have seen before: the radio, its state and input, the cryptographic system
 and key (15 bits), the modulation parameters, the antenna pattern and the variable transmitter parameters. *)
Theorem cdis_transmitter_transmission : forall m g oe od p c p' x, translated m g oe od p c p' -> pdu_body p = BTransmitter x ->
  exists y, pdu_body p' = BTransmitter y /\ transmission_kept x y.
Proof. exact cdis_transmitter_transmission_pf. Qed.
Print Assumptions cdis_transmitter_transmission.

(** C47. A Transmitter in a full update: also the radio type, both antenna locations, the frequency, the bandwidth, the power and the modulation. *)
Theorem cdis_transmitter_radio : forall m g oe od p c p' x, translated m g oe od p c p' -> pdu_body p = BTransmitter x -> full_update (cp_body c) ->
  exists y, pdu_body p' = BTransmitter y /\ radio_kept g x y.
Proof. exact cdis_transmitter_radio_pf. Qed.
Print Assumptions cdis_transmitter_radio.

(** C47. An IFF PDU, in every update, full or partial, whatever the encoder and the decoder have seen before: the emitting entity, the event, the antenna location, the designator and
 specific information, the status, data fields and layers of the operational data, and each of the layers 2 to 5 (without the navigation source of a mode 5 transponder). *)
Theorem cdis_iff_content : forall m g oe od p c p' x, translated m g oe od p c p' -> pdu_body p = BIff x ->
  exists y, pdu_body p' = BIff y /\ iff_kept x y.
Proof. exact cdis_iff_content_pf. Qed.
Print Assumptions cdis_iff_content.

(** C47. An Electromagnetic Emission in a full update, with at most 256 different parameter sets, beam shapes and target simulations: every system and every beam of it in
 order, with its parameters, shape, status, jamming technique and up to 15 targets each; more targets are replaced by the high density mark. *)
Theorem cdis_emission_content : forall m g oe od p c p' x, translated m g oe od p c p' -> pdu_body p = BElectromagneticEmission x -> full_update (cp_body c) -> countable x ->
  exists y, pdu_body p' = BElectromagneticEmission y /\ emissions_kept x y.
Proof. exact cdis_emission_content_pf. Qed.
Print Assumptions cdis_emission_content.

(** C47. Of the six parameters of an IFF's operational data none arrives where it was: the decoder puts the sixth in the place of the first and zero in the others. *)
Theorem cdis_iff_parameters_refuted : forall m g oe od p c p' x, translated m g oe od p c p' -> pdu_body p = BIff x ->
  exists y, pdu_body p' = BIff y /\ fo_p1 (Iff_data y) = fo_p6 (Iff_data x) /\
    fo_p2 (Iff_data y) = 0 /\ fo_p3 (Iff_data y) = 0 /\ fo_p4 (Iff_data y) = 0 /\ fo_p5 (Iff_data y) = 0 /\ fo_p6 (Iff_data y) = 0.
Proof. exact cdis_iff_parameters_refuted_pf. Qed.
Print Assumptions cdis_iff_parameters_refuted.

(** C47. The navigation source of a mode 5 transponder never arrives. *)
Theorem cdis_iff_navigation_refuted : forall m g oe od p c p' x l t, translated m g oe od p c p' -> pdu_body p = BIff x -> Iff_layer_3 x = Some l -> l3_basic l = M5Transponder t ->
  exists y l' t', pdu_body p' = BIff y /\ Iff_layer_3 y = Some l' /\ l3_basic l' = M5Transponder t' /\ m5t_nav t' = 0.
Proof. exact cdis_iff_navigation_refuted_pf. Qed.
Print Assumptions cdis_iff_navigation_refuted.

(** C47. An IFF PDU in a full update: also the system identification. *)
Theorem cdis_iff_system : forall m g oe od p c p' x, translated m g oe od p c p' -> pdu_body p = BIff x -> full_update (cp_body c) ->
  exists y, pdu_body p' = BIff y /\ Iff_system_id y = Iff_system_id x.
Proof. exact cdis_iff_system_pf. Qed.
Print Assumptions cdis_iff_system.

(** C47. With the static dead reckoning algorithm 0 ("other") the velocity and the other parameters are not sent: they arrive as zero. *)
Theorem cdis_other_algorithm_refuted : forall m g oe od p c p' x, translated m g oe od p c p' -> pdu_body p = BEntityState x -> dr_algorithm (EntityState_dr x) = 0 ->
  exists y, pdu_body p' = BEntityState y /\ EntityState_velocity y = MkVectorF32 0 0 0 /\ dr_other (EntityState_dr y) = DrNone (repeat 0 15).
Proof. exact cdis_other_algorithm_refuted_pf. Qed.
Print Assumptions cdis_other_algorithm_refuted.

(** C47. The capabilities are not sent by an encoder that is not set to completeness: they arrive as none. *)
Theorem cdis_capabilities_refuted : forall m g oe od p c p' x, translated m g oe od p c p' -> pdu_body p = BEntityState x -> o_complete oe = false ->
  exists y, pdu_body p' = BEntityState y /\ ec_word (EntityState_capabilities y) = 0.
Proof. exact cdis_capabilities_refuted_pf. Qed.
Print Assumptions cdis_capabilities_refuted.

Example translated_example : Forall (fun b => exists c p', translated Wrapping plain_geo new_full_update new_partial_update (ex_dis b) c p') sent_bodies.
Proof. unfold sent_bodies. repeat (apply Forall_cons; [apply translated_by; vm_compute; reflexivity|]). apply Forall_nil. Qed.

Example translated_full_example : exists c p', translated Wrapping plain_geo new_full_update new_partial_update (ex_dis (BElectromagneticEmission sent_ee)) c p' /\ full_update (cp_body c) /\ countable sent_ee.
Proof.
  destruct (encode plain_geo new_full_update 0 enc_state_new (ex_dis (BElectromagneticEmission sent_ee))) as [[[c r] e]|] eqn:E; [|exfalso; vm_compute in E; discriminate E].
  assert (F : full_update (cp_body c)). { unfold encode in E. cbn [enc_body pdu_body ex_dis] in E. injection E as <- _ _. split; [reflexivity|]. constructor; [apply enc_esys_full|constructor]. }
  destruct (decode Wrapping plain_geo new_partial_update dec_state_new c) as [[|] [[p' r'] d]|] eqn:D.
  - exists c, p'. split; [exists 0, enc_state_new, dec_state_new, r, e, r', d; auto|]. split; [exact F|].
    assert (B : forall b, beam_in sent_ee b -> b = nth 0 (es_beams (nth 0 (EE_systems sent_ee) (MkEmitterSystem 0 0 0 zero_vec []))) (MkBeam 0 0 zero_fpd zero_bd 0 0 0 (MkJamming 0 0 0 0) []) \/
      b = nth 1 (es_beams (nth 0 (EE_systems sent_ee) (MkEmitterSystem 0 0 0 zero_vec []))) (MkBeam 0 0 zero_fpd zero_bd 0 0 0 (MkJamming 0 0 0 0) [])).
    { intros b (s & [<-|[]] & [<-|[<-|[]]]); auto. }
    split; [|split].
    + eexists [_; _]. split; [vm_compute; discriminate|]. intros a (b & H & ->). destruct (B b H) as [-> | ->]; [left; reflexivity|right; left; reflexivity].
    + eexists [_; _]. split; [vm_compute; discriminate|]. intros a (b & H & ->). destruct (B b H) as [-> | ->]; [left; reflexivity|right; left; reflexivity].
    + exists [MkSimulationAddress 7 8]. split; [vm_compute; discriminate|]. intros a (b & t & H & T & ->). destruct (B b H) as [-> | ->]; [destruct T as [<-|[]]; left; reflexivity|destruct T].
  - exfalso. assert (Q : works new_full_update new_partial_update (ex_dis (BElectromagneticEmission sent_ee)) = true) by (vm_compute; reflexivity). unfold works in Q. rewrite E, D in Q. discriminate Q.
  - exfalso. assert (Q : works new_full_update new_partial_update (ex_dis (BElectromagneticEmission sent_ee)) = true) by (vm_compute; reflexivity). unfold works in Q. rewrite E, D in Q. discriminate Q.
Qed.
