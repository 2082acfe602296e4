(** * Builders (C58) *)
From Coq Require Import ZArith List Bool Lia.
From Verif Require Import Base DisCommon IffWords DisHeader DisLists DisSimman DisLogistics DisWarfare DisEntity DisEmission DisRadio DisIff DisPdu DisPacket BuilderCalls Builders SpecBuilders.
Import ListNotations. Open Scope Z_scope.

Lemma latest_ok {S C V} (step : S -> C -> S) (get : S -> V) (about : C -> option V) :
  (forall x c, get (step x c) = match about c with Some v => v | None => get x end) ->
  forall calls start, get (fold_left step calls start) = latest about calls (get start).
Proof.
  intros H calls. induction calls as [|c r IH] using rev_ind; intros start; [reflexivity|].
  rewrite fold_left_app. cbn [fold_left]. rewrite H, IH. unfold latest. rewrite rev_app_distr. cbn [rev app find]. destruct (about c) eqn:E; [rewrite E|]; reflexivity.
Qed.
Lemma gathered_ok {S C V} (step : S -> C -> S) (get : S -> list V) (about : C -> option (Change V)) :
  (forall x c, get (step x c) = match about c with Some (Becomes l) => l | Some (More l) => get x ++ l | None => get x end) ->
  forall calls start, get (fold_left step calls start) = gathered about calls (get start).
Proof. intros H calls. induction calls as [|c r IH]; intros start; [reflexivity|]. cbn [fold_left gathered]. rewrite IH, H. reflexivity. Qed.
Lemma flags_word a f r p : flags_capabilities a f r p = MkCapabilities ALand (bit a 31 + bit f 30 + bit r 29 + bit p 28).
Proof. destruct a, f, r, p; reflexivity. Qed.
Ltac built := intros start calls; repeat match goal with |- _ /\ _ => split end;
  first [apply latest_ok|apply gathered_ok]; intros ? c; destruct c; first [reflexivity|apply flags_word].
Ltac complete start x := destruct start, x; cbn in *; subst;
  repeat match goal with |- context [match ?o with _ => _ end] => is_var o; destruct o end; reflexivity.

Lemma ArticulatedPart_built start calls : ArticulatedPart_given start calls (fold_left ArticulatedPart_do calls start).
Proof. unfold ArticulatedPart_given. revert start calls. built. Qed.
Lemma AttachedPart_built start calls : AttachedPart_given start calls (fold_left AttachedPart_do calls start).
Proof. unfold AttachedPart_given. revert start calls. built. Qed.
Lemma BeamData_built start calls : BeamData_given start calls (fold_left BeamData_do calls start).
Proof. unfold BeamData_given. revert start calls. built. Qed.
Lemma EntityAssociation_built start calls : EntityAssociation_given start calls (fold_left EntityAssociation_do calls start).
Proof. unfold EntityAssociation_given. revert start calls. built. Qed.
Lemma EntityType_built start calls : EntityType_given start calls (fold_left EntityType_do calls start).
Proof. unfold EntityType_given. revert start calls. built. Qed.
Lemma EntityTypeParameter_built start calls : EntityTypeParameter_given start calls (fold_left EntityTypeParameter_do calls start).
Proof. unfold EntityTypeParameter_given. revert start calls. built. Qed.
Lemma Location_built start calls : Location_given start calls (fold_left Location_do calls start).
Proof. unfold Location_given. revert start calls. built. Qed.
Lemma MunitionDescriptor_built start calls : MunitionDescriptor_given start calls (fold_left MunitionDescriptor_do calls start).
Proof. unfold MunitionDescriptor_given. revert start calls. built. Qed.
Lemma Orientation_built start calls : Orientation_given start calls (fold_left Orientation_do calls start).
Proof. unfold Orientation_given. revert start calls. built. Qed.
Lemma SeparationParameter_built start calls : SeparationParameter_given start calls (fold_left SeparationParameter_do calls start).
Proof. unfold SeparationParameter_given. revert start calls. built. Qed.
Lemma SupplyQuantity_built start calls : SupplyQuantity_given start calls (fold_left SupplyQuantity_do calls start).
Proof. unfold SupplyQuantity_given. revert start calls. built. Qed.
Lemma VectorF32_built start calls : VectorF32_given start calls (fold_left VectorF32_do calls start).
Proof. unfold VectorF32_given. revert start calls. built. Qed.
Lemma APA_built start calls : APA_given start calls (fold_left APA_do calls start).
Proof. unfold APA_given. revert start calls. built. Qed.
Lemma AcousticEmitterSystem_built start calls : AcousticEmitterSystem_given start calls (fold_left AcousticEmitterSystem_do calls start).
Proof. unfold AcousticEmitterSystem_given. revert start calls. built. Qed.
Lemma Beam_built start calls : Beam_given start calls (fold_left Beam_do calls start).
Proof. unfold Beam_given. revert start calls. built. Qed.
Lemma ElectromagneticEmission_built start calls : ElectromagneticEmission_given start calls (fold_left ElectromagneticEmission_do calls start).
Proof. unfold ElectromagneticEmission_given. revert start calls. built. Qed.
Lemma EmitterSystem_built start calls : EmitterSystem_given start calls (fold_left EmitterSystem_do calls start).
Proof. unfold EmitterSystem_given. revert start calls. built. Qed.
Lemma FundamentalParameterData_built start calls : FundamentalParameterData_given start calls (fold_left FundamentalParameterData_do calls start).
Proof. unfold FundamentalParameterData_given. revert start calls. built. Qed.
Lemma JammingTechnique_built start calls : JammingTechnique_given start calls (fold_left JammingTechnique_do calls start).
Proof. unfold JammingTechnique_given. revert start calls. built. Qed.
Lemma PropulsionPlant_built start calls : PropulsionPlant_given start calls (fold_left PropulsionPlant_do calls start).
Proof. unfold PropulsionPlant_given. revert start calls. built. Qed.
Lemma Shaft_built start calls : Shaft_given start calls (fold_left Shaft_do calls start).
Proof. unfold Shaft_given. revert start calls. built. Qed.
Lemma TrackJam_built start calls : TrackJam_given start calls (fold_left TrackJam_do calls start).
Proof. unfold TrackJam_given. revert start calls. built. Qed.
Lemma UABeam_built start calls : UABeam_given start calls (fold_left UABeam_do calls start).
Proof. unfold UABeam_given. revert start calls. built. Qed.
Lemma UAEmitterSystem_built start calls : UAEmitterSystem_given start calls (fold_left UAEmitterSystem_do calls start).
Proof. unfold UAEmitterSystem_given. revert start calls. built. Qed.
Lemma UAFundamental_built start calls : UAFundamental_given start calls (fold_left UAFundamental_do calls start).
Proof. unfold UAFundamental_given. revert start calls. built. Qed.
Lemma UnderwaterAcoustic_built start calls : UnderwaterAcoustic_given start calls (fold_left UnderwaterAcoustic_do calls start).
Proof. unfold UnderwaterAcoustic_given. revert start calls. built. Qed.
Lemma AggregateState_built start calls : AggregateState_given start calls (fold_left AggregateState_do calls start).
Proof. unfold AggregateState_given. revert start calls. built. Qed.
Lemma AggregateType_built start calls : AggregateType_given start calls (fold_left AggregateType_do calls start).
Proof. unfold AggregateType_given. revert start calls. built. Qed.
Lemma DrParameters_built start calls : DrParameters_given start calls (fold_left DrParameters_do calls start).
Proof. unfold DrParameters_given. revert start calls. built. Qed.
Lemma EntityState_built start calls : EntityState_given start calls (fold_left EntityState_do calls start).
Proof. unfold EntityState_given. revert start calls. built. Qed.
Lemma SilentAggregate_built start calls : SilentAggregate_given start calls (fold_left SilentAggregate_do calls start).
Proof. unfold SilentAggregate_given. revert start calls. built. Qed.
Lemma SilentEntity_built start calls : SilentEntity_given start calls (fold_left SilentEntity_do calls start).
Proof. unfold SilentEntity_given. revert start calls. built. Qed.
Lemma PduStatus_built start calls : PduStatus_given start calls (fold_left PduStatus_do calls start).
Proof. unfold PduStatus_given. revert start calls. built. Qed.
Lemma FundOpData_built start calls : FundOpData_given start calls (fold_left FundOpData_do calls start).
Proof. unfold FundOpData_given. revert start calls. built. Qed.
Lemma Iff_built start calls : Iff_given start calls (fold_left Iff_do calls start).
Proof. unfold Iff_given. revert start calls. built. Qed.
Lemma IffDataRecord_built start calls : IffDataRecord_given start calls (fold_left IffDataRecord_do calls start).
Proof. unfold IffDataRecord_given. revert start calls. built. Qed.
Lemma IffParameter_built start calls : IffParameter_given start calls (fold_left IffParameter_do calls start).
Proof. unfold IffParameter_given. revert start calls. built. Qed.
Lemma IffLayer2_built start calls : IffLayer2_given start calls (fold_left IffLayer2_do calls start).
Proof. unfold IffLayer2_given. revert start calls. built. Qed.
Lemma IffLayer3_built start calls : IffLayer3_given start calls (fold_left IffLayer3_do calls start).
Proof. unfold IffLayer3_given. revert start calls. built. Qed.
Lemma IffLayer4_built start calls : IffLayer4_given start calls (fold_left IffLayer4_do calls start).
Proof. unfold IffLayer4_given. revert start calls. built. Qed.
Lemma IffLayer5_built start calls : IffLayer5_given start calls (fold_left IffLayer5_do calls start).
Proof. unfold IffLayer5_given. revert start calls. built. Qed.
Lemma LayerHeader_built start calls : LayerHeader_given start calls (fold_left LayerHeader_do calls start).
Proof. unfold LayerHeader_given. revert start calls. built. Qed.
Lemma Mode5Interrogator_built start calls : Mode5Interrogator_given start calls (fold_left Mode5Interrogator_do calls start).
Proof. unfold Mode5Interrogator_given. revert start calls. built. Qed.
Lemma Mode5Transponder_built start calls : Mode5Transponder_given start calls (fold_left Mode5Transponder_do calls start).
Proof. unfold Mode5Transponder_given. revert start calls. built. Qed.
Lemma ModeSInterrogator_built start calls : ModeSInterrogator_given start calls (fold_left ModeSInterrogator_do calls start).
Proof. unfold ModeSInterrogator_given. revert start calls. built. Qed.
Lemma ModeSTransponder_built start calls : ModeSTransponder_given start calls (fold_left ModeSTransponder_do calls start).
Proof. unfold ModeSTransponder_given. revert start calls. built. Qed.
Lemma SystemId_built start calls : SystemId_given start calls (fold_left SystemId_do calls start).
Proof. unfold SystemId_given. revert start calls. built. Qed.
Lemma NamedLocationId_built start calls : NamedLocationId_given start calls (fold_left NamedLocationId_do calls start).
Proof. unfold NamedLocationId_given. revert start calls. built. Qed.
Lemma Relationship_built start calls : Relationship_given start calls (fold_left Relationship_do calls start).
Proof. unfold Relationship_given. revert start calls. built. Qed.
Lemma Collision_built start calls : Collision_given start calls (fold_left Collision_do calls start).
Proof. unfold Collision_given. revert start calls. built. Qed.
Lemma CollisionElastic_built start calls : CollisionElastic_given start calls (fold_left CollisionElastic_do calls start).
Proof. unfold CollisionElastic_given. revert start calls. built. Qed.
Lemma Designator_built start calls : Designator_given start calls (fold_left Designator_do calls start).
Proof. unfold Designator_given. revert start calls. built. Qed.
Lemma IsPartOf_built start calls : IsPartOf_given start calls (fold_left IsPartOf_do calls start).
Proof. unfold IsPartOf_given. revert start calls. built. Qed.
Lemma Receiver_built start calls : Receiver_given start calls (fold_left Receiver_do calls start).
Proof. unfold Receiver_given. revert start calls. built. Qed.
Lemma RepairComplete_built start calls : RepairComplete_given start calls (fold_left RepairComplete_do calls start).
Proof. unfold RepairComplete_given. revert start calls. built. Qed.
Lemma RepairResponse_built start calls : RepairResponse_given start calls (fold_left RepairResponse_do calls start).
Proof. unfold RepairResponse_given. revert start calls. built. Qed.
Lemma ResupplyCancel_built start calls : ResupplyCancel_given start calls (fold_left ResupplyCancel_do calls start).
Proof. unfold ResupplyCancel_given. revert start calls. built. Qed.
Lemma ResupplyOffer_built start calls : ResupplyOffer_given start calls (fold_left ResupplyOffer_do calls start).
Proof. unfold ResupplyOffer_given. revert start calls. built. Qed.
Lemma ResupplyReceived_built start calls : ResupplyReceived_given start calls (fold_left ResupplyReceived_do calls start).
Proof. unfold ResupplyReceived_given. revert start calls. built. Qed.
Lemma ServiceRequest_built start calls : ServiceRequest_given start calls (fold_left ServiceRequest_do calls start).
Proof. unfold ServiceRequest_given. revert start calls. built. Qed.
Lemma TransferOwnership_built start calls : TransferOwnership_given start calls (fold_left TransferOwnership_do calls start).
Proof. unfold TransferOwnership_given. revert start calls. built. Qed.
Lemma BeamAntennaPattern_built start calls : BeamAntennaPattern_given start calls (fold_left BeamAntennaPattern_do calls start).
Proof. unfold BeamAntennaPattern_given. revert start calls. built. Qed.
Lemma IsGroupOf_built start calls : IsGroupOf_given start calls (fold_left IsGroupOf_do calls start).
Proof. unfold IsGroupOf_given. revert start calls. built. Qed.
Lemma ModulationType_built start calls : ModulationType_given start calls (fold_left ModulationType_do calls start).
Proof. unfold ModulationType_given. revert start calls. built. Qed.
Lemma SpreadSpectrum_built start calls : SpreadSpectrum_given start calls (fold_left SpreadSpectrum_do calls start).
Proof. unfold SpreadSpectrum_given. revert start calls. built. Qed.
Lemma Transmitter_built start calls : Transmitter_given start calls (fold_left Transmitter_do calls start).
Proof. unfold Transmitter_given. revert start calls. built. Qed.
Lemma VTP_built start calls : VTP_given start calls (fold_left VTP_do calls start).
Proof. unfold VTP_given. revert start calls. built. Qed.
Lemma Acknowledge_built start calls : Acknowledge_given start calls (fold_left Acknowledge_do calls start).
Proof. unfold Acknowledge_given. revert start calls. built. Qed.
Lemma AcknowledgeR_built start calls : AcknowledgeR_given start calls (fold_left AcknowledgeR_do calls start).
Proof. unfold AcknowledgeR_given. revert start calls. built. Qed.
Lemma ActionRequest_built start calls : ActionRequest_given start calls (fold_left ActionRequest_do calls start).
Proof. unfold ActionRequest_given. revert start calls. built. Qed.
Lemma ActionRequestR_built start calls : ActionRequestR_given start calls (fold_left ActionRequestR_do calls start).
Proof. unfold ActionRequestR_given. revert start calls. built. Qed.
Lemma ActionResponse_built start calls : ActionResponse_given start calls (fold_left ActionResponse_do calls start).
Proof. unfold ActionResponse_given. revert start calls. built. Qed.
Lemma ActionResponseR_built start calls : ActionResponseR_given start calls (fold_left ActionResponseR_do calls start).
Proof. unfold ActionResponseR_given. revert start calls. built. Qed.
Lemma Comment_built start calls : Comment_given start calls (fold_left Comment_do calls start).
Proof. unfold Comment_given. revert start calls. built. Qed.
Lemma CommentR_built start calls : CommentR_given start calls (fold_left CommentR_do calls start).
Proof. unfold CommentR_given. revert start calls. built. Qed.
Lemma CreateEntity_built start calls : CreateEntity_given start calls (fold_left CreateEntity_do calls start).
Proof. unfold CreateEntity_given. revert start calls. built. Qed.
Lemma CreateEntityR_built start calls : CreateEntityR_given start calls (fold_left CreateEntityR_do calls start).
Proof. unfold CreateEntityR_given. revert start calls. built. Qed.
Lemma Data_built start calls : Data_given start calls (fold_left Data_do calls start).
Proof. unfold Data_given. revert start calls. built. Qed.
Lemma DataQuery_built start calls : DataQuery_given start calls (fold_left DataQuery_do calls start).
Proof. unfold DataQuery_given. revert start calls. built. Qed.
Lemma DataQueryR_built start calls : DataQueryR_given start calls (fold_left DataQueryR_do calls start).
Proof. unfold DataQueryR_given. revert start calls. built. Qed.
Lemma DataR_built start calls : DataR_given start calls (fold_left DataR_do calls start).
Proof. unfold DataR_given. revert start calls. built. Qed.
Lemma EventReport_built start calls : EventReport_given start calls (fold_left EventReport_do calls start).
Proof. unfold EventReport_given. revert start calls. built. Qed.
Lemma EventReportR_built start calls : EventReportR_given start calls (fold_left EventReportR_do calls start).
Proof. unfold EventReportR_given. revert start calls. built. Qed.
Lemma RecordQueryR_built start calls : RecordQueryR_given start calls (fold_left RecordQueryR_do calls start).
Proof. unfold RecordQueryR_given. revert start calls. built. Qed.
Lemma RecordR_built start calls : RecordR_given start calls (fold_left RecordR_do calls start).
Proof. unfold RecordR_given. revert start calls. built. Qed.
Lemma RemoveEntity_built start calls : RemoveEntity_given start calls (fold_left RemoveEntity_do calls start).
Proof. unfold RemoveEntity_given. revert start calls. built. Qed.
Lemma RemoveEntityR_built start calls : RemoveEntityR_given start calls (fold_left RemoveEntityR_do calls start).
Proof. unfold RemoveEntityR_given. revert start calls. built. Qed.
Lemma SetData_built start calls : SetData_given start calls (fold_left SetData_do calls start).
Proof. unfold SetData_given. revert start calls. built. Qed.
Lemma SetDataR_built start calls : SetDataR_given start calls (fold_left SetDataR_do calls start).
Proof. unfold SetDataR_given. revert start calls. built. Qed.
Lemma SetRecordR_built start calls : SetRecordR_given start calls (fold_left SetRecordR_do calls start).
Proof. unfold SetRecordR_given. revert start calls. built. Qed.
Lemma StartResume_built start calls : StartResume_given start calls (fold_left StartResume_do calls start).
Proof. unfold StartResume_given. revert start calls. built. Qed.
Lemma StartResumeR_built start calls : StartResumeR_given start calls (fold_left StartResumeR_do calls start).
Proof. unfold StartResumeR_given. revert start calls. built. Qed.
Lemma StopFreeze_built start calls : StopFreeze_given start calls (fold_left StopFreeze_do calls start).
Proof. unfold StopFreeze_given. revert start calls. built. Qed.
Lemma StopFreezeR_built start calls : StopFreezeR_given start calls (fold_left StopFreezeR_do calls start).
Proof. unfold StopFreezeR_given. revert start calls. built. Qed.
Lemma Attribute_built start calls : Attribute_given start calls (fold_left Attribute_do calls start).
Proof. unfold Attribute_given. revert start calls. built. Qed.
Lemma AttributeRecord_built start calls : AttributeRecord_given start calls (fold_left AttributeRecord_do calls start).
Proof. unfold AttributeRecord_given. revert start calls. built. Qed.
Lemma AttributeRecordSet_built start calls : AttributeRecordSet_given start calls (fold_left AttributeRecordSet_do calls start).
Proof. unfold AttributeRecordSet_given. revert start calls. built. Qed.
Lemma Detonation_built start calls : Detonation_given start calls (fold_left Detonation_do calls start).
Proof. unfold Detonation_given. revert start calls. built. Qed.
Lemma EntityStateUpdate_built start calls : EntityStateUpdate_given start calls (fold_left EntityStateUpdate_do calls start).
Proof. unfold EntityStateUpdate_given. revert start calls. built. Qed.
Lemma Fire_built start calls : Fire_given start calls (fold_left Fire_do calls start).
Proof. unfold Fire_given. revert start calls. built. Qed.
Lemma Other_built start calls : Other_given start calls (fold_left Other_do calls start).
Proof. unfold Other_given. revert start calls. built. Qed.
Lemma PropulsionSystemData_built start calls : PropulsionSystemData_given start calls (fold_left PropulsionSystemData_do calls start).
Proof. unfold PropulsionSystemData_given. revert start calls. built. Qed.
Lemma Sees_built start calls : Sees_given start calls (fold_left Sees_do calls start).
Proof. unfold Sees_given. revert start calls. built. Qed.
Lemma Signal_built start calls : Signal_given start calls (fold_left Signal_do calls start).
Proof. unfold Signal_given. revert start calls. built. Qed.
Lemma VectoringNozzleSystemData_built start calls : VectoringNozzleSystemData_given start calls (fold_left VectoringNozzleSystemData_do calls start).
Proof. unfold VectoringNozzleSystemData_given. revert start calls. built. Qed.
Lemma ChangeOptions_built start calls : ChangeOptions_given start calls (fold_left ChangeOptions_do calls start).
Proof. unfold ChangeOptions_given. revert start calls. built. Qed.
Lemma DapSource_built start calls : DapSource_given start calls (fold_left DapSource_do calls start).
Proof. unfold DapSource_given. revert start calls. built. Qed.
Lemma EnhancedMode1Code_built start calls : EnhancedMode1Code_given start calls (fold_left EnhancedMode1Code_do calls start).
Proof. unfold EnhancedMode1Code_given. revert start calls. built. Qed.
Lemma InformationLayers_built start calls : InformationLayers_given start calls (fold_left InformationLayers_do calls start).
Proof. unfold InformationLayers_given. revert start calls. built. Qed.
Lemma Mode5InterrogatorStatus_built start calls : Mode5InterrogatorStatus_given start calls (fold_left Mode5InterrogatorStatus_do calls start).
Proof. unfold Mode5InterrogatorStatus_given. revert start calls. built. Qed.
Lemma MessageFormats_built start calls : MessageFormats_given start calls (fold_left MessageFormats_do calls start).
Proof. unfold MessageFormats_given. revert start calls. built. Qed.
Lemma Mode5TransponderStatus_built start calls : Mode5TransponderStatus_given start calls (fold_left Mode5TransponderStatus_do calls start).
Proof. unfold Mode5TransponderStatus_given. revert start calls. built. Qed.
Lemma SupplementalData_built start calls : SupplementalData_given start calls (fold_left SupplementalData_do calls start).
Proof. unfold SupplementalData_given. revert start calls. built. Qed.
Lemma ModeSAltitude_built start calls : ModeSAltitude_given start calls (fold_left ModeSAltitude_do calls start).
Proof. unfold ModeSAltitude_given. revert start calls. built. Qed.
Lemma ModeSInterrogatorStatus_built start calls : ModeSInterrogatorStatus_given start calls (fold_left ModeSInterrogatorStatus_do calls start).
Proof. unfold ModeSInterrogatorStatus_given. revert start calls. built. Qed.
Lemma ModeSLevels_built start calls : ModeSLevels_given start calls (fold_left ModeSLevels_do calls start).
Proof. unfold ModeSLevels_given. revert start calls. built. Qed.
Lemma ModeSTransponderStatus_built start calls : ModeSTransponderStatus_given start calls (fold_left ModeSTransponderStatus_do calls start).
Proof. unfold ModeSTransponderStatus_given. revert start calls. built. Qed.
Lemma SystemStatus_built start calls : SystemStatus_given start calls (fold_left SystemStatus_do calls start).
Proof. unfold SystemStatus_given. revert start calls. built. Qed.
(*@C58
 Builders of the records that several PDUs share: after any calls in any order, starting from anything, every member has the value of the last call that names it (or what was
 added since), or its value at the start when no call names it. *)
Lemma builders_records_pf : (forall start calls, ArticulatedPart_given start calls (fold_left ArticulatedPart_do calls start)) /\
  (forall start calls, AttachedPart_given start calls (fold_left AttachedPart_do calls start)) /\
  (forall start calls, BeamData_given start calls (fold_left BeamData_do calls start)) /\
  (forall start calls, EntityAssociation_given start calls (fold_left EntityAssociation_do calls start)) /\
  (forall start calls, EntityType_given start calls (fold_left EntityType_do calls start)) /\
  (forall start calls, EntityTypeParameter_given start calls (fold_left EntityTypeParameter_do calls start)) /\
  (forall start calls, Location_given start calls (fold_left Location_do calls start)) /\
  (forall start calls, MunitionDescriptor_given start calls (fold_left MunitionDescriptor_do calls start)) /\
  (forall start calls, Orientation_given start calls (fold_left Orientation_do calls start)) /\
  (forall start calls, SeparationParameter_given start calls (fold_left SeparationParameter_do calls start)) /\
  (forall start calls, SupplyQuantity_given start calls (fold_left SupplyQuantity_do calls start)) /\
  (forall start calls, VectorF32_given start calls (fold_left VectorF32_do calls start)).
Proof. repeat match goal with |- _ /\ _ => split end; [exact ArticulatedPart_built | exact AttachedPart_built | exact BeamData_built | exact EntityAssociation_built | exact EntityType_built | exact EntityTypeParameter_built | exact Location_built | exact MunitionDescriptor_built | exact Orientation_built | exact SeparationParameter_built | exact SupplyQuantity_built | exact VectorF32_built]. Qed.
(*@C58
 Builders of the PDU status record: after any calls in any order, starting from anything, every member has the value of the last call that names it (or what was
 added since), or its value at the start when no call names it. *)
Lemma builders_status_pf : (forall start calls, PduStatus_given start calls (fold_left PduStatus_do calls start)).
Proof. repeat match goal with |- _ /\ _ => split end; [exact PduStatus_built]. Qed.
(*@C58
 Builders of lists of datums and records: after any calls in any order, starting from anything, every member has the value of the last call that names it (or what was
 added since), or its value at the start when no call names it. *)
Lemma builders_lists_pf : (forall start calls, NamedLocationId_given start calls (fold_left NamedLocationId_do calls start)) /\
  (forall start calls, Relationship_given start calls (fold_left Relationship_do calls start)).
Proof. repeat match goal with |- _ /\ _ => split end; [exact NamedLocationId_built | exact Relationship_built]. Qed.
(*@C58
 Builders of simulation management PDUs: after any calls in any order, starting from anything, every member has the value of the last call that names it (or what was
 added since), or its value at the start when no call names it. *)
Lemma builders_simman_pf : (forall start calls, Acknowledge_given start calls (fold_left Acknowledge_do calls start)) /\
  (forall start calls, AcknowledgeR_given start calls (fold_left AcknowledgeR_do calls start)) /\
  (forall start calls, ActionRequest_given start calls (fold_left ActionRequest_do calls start)) /\
  (forall start calls, ActionRequestR_given start calls (fold_left ActionRequestR_do calls start)) /\
  (forall start calls, ActionResponse_given start calls (fold_left ActionResponse_do calls start)) /\
  (forall start calls, ActionResponseR_given start calls (fold_left ActionResponseR_do calls start)) /\
  (forall start calls, Comment_given start calls (fold_left Comment_do calls start)) /\
  (forall start calls, CommentR_given start calls (fold_left CommentR_do calls start)) /\
  (forall start calls, CreateEntity_given start calls (fold_left CreateEntity_do calls start)) /\
  (forall start calls, CreateEntityR_given start calls (fold_left CreateEntityR_do calls start)) /\
  (forall start calls, Data_given start calls (fold_left Data_do calls start)) /\
  (forall start calls, DataQuery_given start calls (fold_left DataQuery_do calls start)) /\
  (forall start calls, DataQueryR_given start calls (fold_left DataQueryR_do calls start)) /\
  (forall start calls, DataR_given start calls (fold_left DataR_do calls start)) /\
  (forall start calls, EventReport_given start calls (fold_left EventReport_do calls start)) /\
  (forall start calls, EventReportR_given start calls (fold_left EventReportR_do calls start)) /\
  (forall start calls, RecordQueryR_given start calls (fold_left RecordQueryR_do calls start)) /\
  (forall start calls, RecordR_given start calls (fold_left RecordR_do calls start)) /\
  (forall start calls, RemoveEntity_given start calls (fold_left RemoveEntity_do calls start)) /\
  (forall start calls, RemoveEntityR_given start calls (fold_left RemoveEntityR_do calls start)) /\
  (forall start calls, SetData_given start calls (fold_left SetData_do calls start)) /\
  (forall start calls, SetDataR_given start calls (fold_left SetDataR_do calls start)) /\
  (forall start calls, SetRecordR_given start calls (fold_left SetRecordR_do calls start)) /\
  (forall start calls, StartResume_given start calls (fold_left StartResume_do calls start)) /\
  (forall start calls, StartResumeR_given start calls (fold_left StartResumeR_do calls start)) /\
  (forall start calls, StopFreeze_given start calls (fold_left StopFreeze_do calls start)) /\
  (forall start calls, StopFreezeR_given start calls (fold_left StopFreezeR_do calls start)).
Proof. repeat match goal with |- _ /\ _ => split end; [exact Acknowledge_built | exact AcknowledgeR_built | exact ActionRequest_built | exact ActionRequestR_built | exact ActionResponse_built | exact ActionResponseR_built | exact Comment_built | exact CommentR_built | exact CreateEntity_built | exact CreateEntityR_built | exact Data_built | exact DataQuery_built | exact DataQueryR_built | exact DataR_built | exact EventReport_built | exact EventReportR_built | exact RecordQueryR_built | exact RecordR_built | exact RemoveEntity_built | exact RemoveEntityR_built | exact SetData_built | exact SetDataR_built | exact SetRecordR_built | exact StartResume_built | exact StartResumeR_built | exact StopFreeze_built | exact StopFreezeR_built]. Qed.
(*@C58
 Builders of logistics PDUs: after any calls in any order, starting from anything, every member has the value of the last call that names it (or what was
 added since), or its value at the start when no call names it. *)
Lemma builders_logistics_pf : (forall start calls, Collision_given start calls (fold_left Collision_do calls start)) /\
  (forall start calls, CollisionElastic_given start calls (fold_left CollisionElastic_do calls start)) /\
  (forall start calls, Designator_given start calls (fold_left Designator_do calls start)) /\
  (forall start calls, IsPartOf_given start calls (fold_left IsPartOf_do calls start)) /\
  (forall start calls, Receiver_given start calls (fold_left Receiver_do calls start)) /\
  (forall start calls, RepairComplete_given start calls (fold_left RepairComplete_do calls start)) /\
  (forall start calls, RepairResponse_given start calls (fold_left RepairResponse_do calls start)) /\
  (forall start calls, ResupplyCancel_given start calls (fold_left ResupplyCancel_do calls start)) /\
  (forall start calls, ResupplyOffer_given start calls (fold_left ResupplyOffer_do calls start)) /\
  (forall start calls, ResupplyReceived_given start calls (fold_left ResupplyReceived_do calls start)) /\
  (forall start calls, ServiceRequest_given start calls (fold_left ServiceRequest_do calls start)) /\
  (forall start calls, TransferOwnership_given start calls (fold_left TransferOwnership_do calls start)).
Proof. repeat match goal with |- _ /\ _ => split end; [exact Collision_built | exact CollisionElastic_built | exact Designator_built | exact IsPartOf_built | exact Receiver_built | exact RepairComplete_built | exact RepairResponse_built | exact ResupplyCancel_built | exact ResupplyOffer_built | exact ResupplyReceived_built | exact ServiceRequest_built | exact TransferOwnership_built]. Qed.
(*@C58
 Builders of warfare PDUs: after any calls in any order, starting from anything, every member has the value of the last call that names it (or what was
 added since), or its value at the start when no call names it. *)
Lemma builders_warfare_pf : (forall start calls, Attribute_given start calls (fold_left Attribute_do calls start)) /\
  (forall start calls, AttributeRecord_given start calls (fold_left AttributeRecord_do calls start)) /\
  (forall start calls, AttributeRecordSet_given start calls (fold_left AttributeRecordSet_do calls start)) /\
  (forall start calls, Detonation_given start calls (fold_left Detonation_do calls start)) /\
  (forall start calls, EntityStateUpdate_given start calls (fold_left EntityStateUpdate_do calls start)) /\
  (forall start calls, Fire_given start calls (fold_left Fire_do calls start)) /\
  (forall start calls, Other_given start calls (fold_left Other_do calls start)) /\
  (forall start calls, PropulsionSystemData_given start calls (fold_left PropulsionSystemData_do calls start)) /\
  (forall start calls, Sees_given start calls (fold_left Sees_do calls start)) /\
  (forall start calls, Signal_given start calls (fold_left Signal_do calls start)) /\
  (forall start calls, VectoringNozzleSystemData_given start calls (fold_left VectoringNozzleSystemData_do calls start)).
Proof. repeat match goal with |- _ /\ _ => split end; [exact Attribute_built | exact AttributeRecord_built | exact AttributeRecordSet_built | exact Detonation_built | exact EntityStateUpdate_built | exact Fire_built | exact Other_built | exact PropulsionSystemData_built | exact Sees_built | exact Signal_built | exact VectoringNozzleSystemData_built]. Qed.
(*@C58
 Builders of entity information PDUs and their records: after any calls in any order, starting from anything, every member has the value of the last call that names it (or what was
 added since), or its value at the start when no call names it. *)
Lemma builders_entity_pf : (forall start calls, AggregateState_given start calls (fold_left AggregateState_do calls start)) /\
  (forall start calls, AggregateType_given start calls (fold_left AggregateType_do calls start)) /\
  (forall start calls, DrParameters_given start calls (fold_left DrParameters_do calls start)) /\
  (forall start calls, EntityState_given start calls (fold_left EntityState_do calls start)) /\
  (forall start calls, SilentAggregate_given start calls (fold_left SilentAggregate_do calls start)) /\
  (forall start calls, SilentEntity_given start calls (fold_left SilentEntity_do calls start)).
Proof. repeat match goal with |- _ /\ _ => split end; [exact AggregateState_built | exact AggregateType_built | exact DrParameters_built | exact EntityState_built | exact SilentAggregate_built | exact SilentEntity_built]. Qed.
(*@C58
 Builders of emission PDUs and their records: after any calls in any order, starting from anything, every member has the value of the last call that names it (or what was
 added since), or its value at the start when no call names it. *)
Lemma builders_emission_pf : (forall start calls, APA_given start calls (fold_left APA_do calls start)) /\
  (forall start calls, AcousticEmitterSystem_given start calls (fold_left AcousticEmitterSystem_do calls start)) /\
  (forall start calls, Beam_given start calls (fold_left Beam_do calls start)) /\
  (forall start calls, ElectromagneticEmission_given start calls (fold_left ElectromagneticEmission_do calls start)) /\
  (forall start calls, EmitterSystem_given start calls (fold_left EmitterSystem_do calls start)) /\
  (forall start calls, FundamentalParameterData_given start calls (fold_left FundamentalParameterData_do calls start)) /\
  (forall start calls, JammingTechnique_given start calls (fold_left JammingTechnique_do calls start)) /\
  (forall start calls, PropulsionPlant_given start calls (fold_left PropulsionPlant_do calls start)) /\
  (forall start calls, Shaft_given start calls (fold_left Shaft_do calls start)) /\
  (forall start calls, TrackJam_given start calls (fold_left TrackJam_do calls start)) /\
  (forall start calls, UABeam_given start calls (fold_left UABeam_do calls start)) /\
  (forall start calls, UAEmitterSystem_given start calls (fold_left UAEmitterSystem_do calls start)) /\
  (forall start calls, UAFundamental_given start calls (fold_left UAFundamental_do calls start)) /\
  (forall start calls, UnderwaterAcoustic_given start calls (fold_left UnderwaterAcoustic_do calls start)).
Proof. repeat match goal with |- _ /\ _ => split end; [exact APA_built | exact AcousticEmitterSystem_built | exact Beam_built | exact ElectromagneticEmission_built | exact EmitterSystem_built | exact FundamentalParameterData_built | exact JammingTechnique_built | exact PropulsionPlant_built | exact Shaft_built | exact TrackJam_built | exact UABeam_built | exact UAEmitterSystem_built | exact UAFundamental_built | exact UnderwaterAcoustic_built]. Qed.
(*@C58
 Builders of radio PDUs and their records: after any calls in any order, starting from anything, every member has the value of the last call that names it (or what was
 added since), or its value at the start when no call names it. *)
Lemma builders_radio_pf : (forall start calls, BeamAntennaPattern_given start calls (fold_left BeamAntennaPattern_do calls start)) /\
  (forall start calls, IsGroupOf_given start calls (fold_left IsGroupOf_do calls start)) /\
  (forall start calls, ModulationType_given start calls (fold_left ModulationType_do calls start)) /\
  (forall start calls, SpreadSpectrum_given start calls (fold_left SpreadSpectrum_do calls start)) /\
  (forall start calls, Transmitter_given start calls (fold_left Transmitter_do calls start)) /\
  (forall start calls, VTP_given start calls (fold_left VTP_do calls start)).
Proof. repeat match goal with |- _ /\ _ => split end; [exact BeamAntennaPattern_built | exact IsGroupOf_built | exact ModulationType_built | exact SpreadSpectrum_built | exact Transmitter_built | exact VTP_built]. Qed.
(*@C58
 Builders of IFF and its layers: after any calls in any order, starting from anything, every member has the value of the last call that names it (or what was
 added since), or its value at the start when no call names it. *)
Lemma builders_iff_pf : (forall start calls, FundOpData_given start calls (fold_left FundOpData_do calls start)) /\
  (forall start calls, Iff_given start calls (fold_left Iff_do calls start)) /\
  (forall start calls, IffDataRecord_given start calls (fold_left IffDataRecord_do calls start)) /\
  (forall start calls, IffParameter_given start calls (fold_left IffParameter_do calls start)) /\
  (forall start calls, IffLayer2_given start calls (fold_left IffLayer2_do calls start)) /\
  (forall start calls, IffLayer3_given start calls (fold_left IffLayer3_do calls start)) /\
  (forall start calls, IffLayer4_given start calls (fold_left IffLayer4_do calls start)) /\
  (forall start calls, IffLayer5_given start calls (fold_left IffLayer5_do calls start)) /\
  (forall start calls, LayerHeader_given start calls (fold_left LayerHeader_do calls start)) /\
  (forall start calls, Mode5Interrogator_given start calls (fold_left Mode5Interrogator_do calls start)) /\
  (forall start calls, Mode5Transponder_given start calls (fold_left Mode5Transponder_do calls start)) /\
  (forall start calls, ModeSInterrogator_given start calls (fold_left ModeSInterrogator_do calls start)) /\
  (forall start calls, ModeSTransponder_given start calls (fold_left ModeSTransponder_do calls start)) /\
  (forall start calls, SystemId_given start calls (fold_left SystemId_do calls start)).
Proof. repeat match goal with |- _ /\ _ => split end; [exact FundOpData_built | exact Iff_built | exact IffDataRecord_built | exact IffParameter_built | exact IffLayer2_built | exact IffLayer3_built | exact IffLayer4_built | exact IffLayer5_built | exact LayerHeader_built | exact Mode5Interrogator_built | exact Mode5Transponder_built | exact ModeSInterrogator_built | exact ModeSTransponder_built | exact SystemId_built]. Qed.
(*@C58
 Builders of the status records of IFF, flag by flag: after any calls in any order, starting from anything, every member has the value of the last call that names it (or what was
 added since), or its value at the start when no call names it. *)
Lemma builders_iff_words_pf : (forall start calls, ChangeOptions_given start calls (fold_left ChangeOptions_do calls start)) /\
  (forall start calls, DapSource_given start calls (fold_left DapSource_do calls start)) /\
  (forall start calls, EnhancedMode1Code_given start calls (fold_left EnhancedMode1Code_do calls start)) /\
  (forall start calls, InformationLayers_given start calls (fold_left InformationLayers_do calls start)) /\
  (forall start calls, Mode5InterrogatorStatus_given start calls (fold_left Mode5InterrogatorStatus_do calls start)) /\
  (forall start calls, MessageFormats_given start calls (fold_left MessageFormats_do calls start)) /\
  (forall start calls, Mode5TransponderStatus_given start calls (fold_left Mode5TransponderStatus_do calls start)) /\
  (forall start calls, SupplementalData_given start calls (fold_left SupplementalData_do calls start)) /\
  (forall start calls, ModeSAltitude_given start calls (fold_left ModeSAltitude_do calls start)) /\
  (forall start calls, ModeSInterrogatorStatus_given start calls (fold_left ModeSInterrogatorStatus_do calls start)) /\
  (forall start calls, ModeSLevels_given start calls (fold_left ModeSLevels_do calls start)) /\
  (forall start calls, ModeSTransponderStatus_given start calls (fold_left ModeSTransponderStatus_do calls start)) /\
  (forall start calls, SystemStatus_given start calls (fold_left SystemStatus_do calls start)).
Proof. repeat match goal with |- _ /\ _ => split end; [exact ChangeOptions_built | exact DapSource_built | exact EnhancedMode1Code_built | exact InformationLayers_built | exact Mode5InterrogatorStatus_built | exact MessageFormats_built | exact Mode5TransponderStatus_built | exact SupplementalData_built | exact ModeSAltitude_built | exact ModeSInterrogatorStatus_built | exact ModeSLevels_built | exact ModeSTransponderStatus_built | exact SystemStatus_built]. Qed.
Lemma ArticulatedPart_complete start x : exists calls, fold_left ArticulatedPart_do calls start = x.
Proof. intros. exists ([ArticulatedPart_with_change_indicator (ap_change x)] ++ [ArticulatedPart_with_attachment_id (ap_attachment x)] ++ [ArticulatedPart_with_type_metric (ap_metric x)] ++ [ArticulatedPart_with_type_class (ap_class x)] ++ [ArticulatedPart_with_parameter_value (ap_value x)]). complete start x. Qed.
Lemma AttachedPart_complete start x : exists calls, fold_left AttachedPart_do calls start = x.
Proof. intros. exists ([AttachedPart_with_detached_indicator (at_detached x)] ++ [AttachedPart_with_attachment_id (at_attachment x)] ++ [AttachedPart_with_parameter_type (at_parameter x)] ++ [AttachedPart_with_attached_part_type (at_type x)]). complete start x. Qed.
Lemma BeamData_complete start x : exists calls, fold_left BeamData_do calls start = x.
Proof. intros. exists ([BeamData_with_azimuth_center (bd_azc x)] ++ [BeamData_with_azimuth_sweep (bd_azs x)] ++ [BeamData_with_elevation_center (bd_elc x)] ++ [BeamData_with_elevation_sweep (bd_els x)] ++ [BeamData_with_sweep_sync (bd_sync x)]). complete start x. Qed.
Lemma EntityAssociation_complete start x : exists calls, fold_left EntityAssociation_do calls start = x.
Proof. intros. exists ([EntityAssociation_with_change_indicator (ea_change x)] ++ [EntityAssociation_with_association_status (ea_status x)] ++ [EntityAssociation_with_association_type (ea_type x)] ++ [EntityAssociation_with_entity_id (ea_entity x)] ++ [EntityAssociation_with_own_station_location (ea_station x)] ++ [EntityAssociation_with_physical_connection_type (ea_connection x)] ++ [EntityAssociation_with_group_member_type (ea_member x)] ++ [EntityAssociation_with_group_number (ea_group x)]). complete start x. Qed.
Lemma EntityType_complete start x : exists calls, fold_left EntityType_do calls start = x.
Proof. intros. exists ([EntityType_with_kind (et_kind x)] ++ [EntityType_with_domain (et_domain x)] ++ [EntityType_with_country (et_country x)] ++ [EntityType_with_category (et_category x)] ++ [EntityType_with_subcategory (et_subcategory x)] ++ [EntityType_with_specific (et_specific x)] ++ [EntityType_with_extra (et_extra x)]). complete start x. Qed.
Lemma EntityTypeParameter_complete start x : exists calls, fold_left EntityTypeParameter_do calls start = x.
Proof. intros. exists ([EntityTypeParameter_with_change_indicator (etp_change x)] ++ [EntityTypeParameter_with_entity_type (etp_type x)]). complete start x. Qed.
Lemma Location_complete start x : exists calls, fold_left Location_do calls start = x.
Proof. intros. exists ([Location_with_x (loc_x x)] ++ [Location_with_y (loc_y x)] ++ [Location_with_z (loc_z x)]). complete start x. Qed.
Lemma MunitionDescriptor_complete start x : exists calls, fold_left MunitionDescriptor_do calls start = x.
Proof. intros. exists ([MunitionDescriptor_with_warhead (md_warhead x)] ++ [MunitionDescriptor_with_fuse (md_fuse x)] ++ [MunitionDescriptor_with_quantity (md_quantity x)] ++ [MunitionDescriptor_with_rate (md_rate x)]). complete start x. Qed.
Lemma Orientation_complete start x : exists calls, fold_left Orientation_do calls start = x.
Proof. intros. exists ([Orientation_with_psi (or_psi x)] ++ [Orientation_with_theta (or_theta x)] ++ [Orientation_with_phi (or_phi x)]). complete start x. Qed.
Lemma SeparationParameter_complete start x : exists calls, fold_left SeparationParameter_do calls start = x.
Proof. intros. exists ([SeparationParameter_with_reason (se_reason x)] ++ [SeparationParameter_with_pre_entity_indicator (se_pre x)] ++ [SeparationParameter_with_parent_entity_id (se_parent x)] ++ [SeparationParameter_with_station_name (se_station x)] ++ [SeparationParameter_with_station_number (DisCommon.se_number x)]). complete start x. Qed.
Lemma SupplyQuantity_complete start x : exists calls, fold_left SupplyQuantity_do calls start = x.
Proof. intros. exists ([SupplyQuantity_with_supply_type (sq_type x)] ++ [SupplyQuantity_with_quantity (sq_quantity x)]). complete start x. Qed.
Lemma VectorF32_complete start x : exists calls, fold_left VectorF32_do calls start = x.
Proof. intros. exists ([VectorF32_with_first (v_1 x)] ++ [VectorF32_with_second (v_2 x)] ++ [VectorF32_with_third (v_3 x)]). complete start x. Qed.
Lemma APA_complete start x : exists calls, fold_left APA_do calls start = x.
Proof. intros. exists ([APA_with_parameter (apa_parameter x)] ++ [APA_with_status (apa_status x)] ++ [APA_with_value (apa_value x)]). complete start x. Qed.
Lemma AcousticEmitterSystem_complete start x : exists calls, fold_left AcousticEmitterSystem_do calls start = x.
Proof. intros. exists ([AcousticEmitterSystem_with_acoustic_system_name (aes_name x)] ++ [AcousticEmitterSystem_with_function (aes_function x)] ++ [AcousticEmitterSystem_with_acoustic_id_number (aes_id x)]). complete start x. Qed.
Lemma Beam_complete start x : be_tracks start = [] -> exists calls, fold_left Beam_do calls start = x.
Proof. intros. exists ([Beam_with_number (be_number x)] ++ [Beam_with_parameter_index (be_index x)] ++ [Beam_with_parameter_data (be_parameters x)] ++ [Beam_with_beam_data (be_data x)] ++ [Beam_with_beam_function (be_function x)] ++ [Beam_with_high_density_track_jam (be_high_density x)] ++ [Beam_with_beam_status (be_status x)] ++ [Beam_with_jamming_technique (be_technique x)] ++ [Beam_with_track_jams (be_tracks x)]). complete start x. Qed.
Lemma ElectromagneticEmission_complete start x : EE_systems start = [] -> exists calls, fold_left ElectromagneticEmission_do calls start = x.
Proof. intros. exists ([ElectromagneticEmission_with_emitting_entity_id (EE_emitting_entity_id x)] ++ [ElectromagneticEmission_with_event_id (EE_event_id x)] ++ [ElectromagneticEmission_with_state_update_indicator (EE_state_update x)] ++ [ElectromagneticEmission_with_emitter_systems (EE_systems x)]). complete start x. Qed.
Lemma EmitterSystem_complete start x : es_beams start = [] -> exists calls, fold_left EmitterSystem_do calls start = x.
Proof. intros. exists ([EmitterSystem_with_name (es_name x)] ++ [EmitterSystem_with_function (es_function x)] ++ [EmitterSystem_with_number (es_number x)] ++ [EmitterSystem_with_location (es_location x)] ++ [EmitterSystem_with_beams (es_beams x)]). complete start x. Qed.
Lemma FundamentalParameterData_complete start x : exists calls, fold_left FundamentalParameterData_do calls start = x.
Proof. intros. exists ([FundamentalParameterData_with_frequency (fp_frequency x)] ++ [FundamentalParameterData_with_frequency_range (fp_range x)] ++ [FundamentalParameterData_with_effective_power (fp_power x)] ++ [FundamentalParameterData_with_pulse_repetition_frequency (fp_prf x)] ++ [FundamentalParameterData_with_pulse_width (fp_width x)]). complete start x. Qed.
Lemma JammingTechnique_complete start x : exists calls, fold_left JammingTechnique_do calls start = x.
Proof. intros. exists ([JammingTechnique_with_kind (jt_kind x)] ++ [JammingTechnique_with_category (jt_category x)] ++ [JammingTechnique_with_subcategory (jt_subcategory x)] ++ [JammingTechnique_with_specific (jt_specific x)]). complete start x. Qed.
Lemma PropulsionPlant_complete start x : exists calls, fold_left PropulsionPlant_do calls start = x.
Proof. intros. exists ([PropulsionPlant_with_configuration (pp_configuration x)] ++ [PropulsionPlant_with_hull_mounted_masker (pp_masker x)]). complete start x. Qed.
Lemma Shaft_complete start x : exists calls, fold_left Shaft_do calls start = x.
Proof. intros. exists ([Shaft_with_current_rpm (sh_current x)] ++ [Shaft_with_ordered_rpm (sh_ordered x)] ++ [Shaft_with_rpm_rate_of_change (sh_rate x)]). complete start x. Qed.
Lemma TrackJam_complete start x : exists calls, fold_left TrackJam_do calls start = x.
Proof. intros. exists ([TrackJam_with_entity_id (tj_entity x)] ++ [TrackJam_with_emitter (tj_emitter x)] ++ [TrackJam_with_beam (tj_beam x)]). complete start x. Qed.
Lemma UABeam_complete start x : exists calls, fold_left UABeam_do calls start = x.
Proof. intros. exists ([UABeam_with_beam_data_length (uab_length x)] ++ [UABeam_with_beam_id_number (uab_id x)] ++ [UABeam_with_fundamental_parameters (uab_data x)]). complete start x. Qed.
Lemma UAEmitterSystem_complete start x : exists calls, fold_left UAEmitterSystem_do calls start = x.
Proof. intros. exists ([UAEmitterSystem_with_acoustic_emitter_system (uas_system x)] ++ [UAEmitterSystem_with_location (uas_location x)] ++ [UAEmitterSystem_with_beams (uas_beams x)]). complete start x. Qed.
Lemma UAFundamental_complete start x : exists calls, fold_left UAFundamental_do calls start = x.
Proof. intros. exists ([UAFundamental_with_active_emission_parameter_index (uaf_index x)] ++ [UAFundamental_with_scan_pattern (uaf_scan x)] ++ [UAFundamental_with_beam_center_azimuth (uaf_azc x)] ++ [UAFundamental_with_azimuthal_beamwidth (uaf_azw x)] ++ [UAFundamental_with_beam_center_depression_elevation (uaf_dec x)] ++ [UAFundamental_with_depression_elevation_beamwidth (uaf_dew x)]). complete start x. Qed.
Lemma UnderwaterAcoustic_complete start x : exists calls, fold_left UnderwaterAcoustic_do calls start = x.
Proof. intros. exists ([UnderwaterAcoustic_with_emitting_entity_id (UA_emitting_entity_id x)] ++ [UnderwaterAcoustic_with_event_id (UA_event_id x)] ++ [UnderwaterAcoustic_with_state_change_update_indicator (UA_state_change x)] ++ [UnderwaterAcoustic_with_passive_parameter_index (UA_passive_index x)] ++ [UnderwaterAcoustic_with_propulsion_plant_configuration (UA_propulsion x)] ++ [UnderwaterAcoustic_with_shafts (UA_shafts x)] ++ [UnderwaterAcoustic_with_apas (UA_apas x)] ++ [UnderwaterAcoustic_with_emitter_systems (UA_systems x)]). complete start x. Qed.
Lemma AggregateState_complete start x : exists calls, fold_left AggregateState_do calls start = x.
Proof. intros. exists ([AggregateState_with_aggregate_id (AggregateState_aggregate_id x)] ++ [AggregateState_with_force_id (AggregateState_force_id x)] ++ [AggregateState_with_aggregate_state (AggregateState_aggregate_state x)] ++ [AggregateState_with_aggregate_type (AggregateState_aggregate_type x)] ++ [AggregateState_with_formation (AggregateState_formation x)] ++ [AggregateState_with_aggregate_marking (AggregateState_marking x)] ++ [AggregateState_with_dimensions (AggregateState_dimensions x)] ++ [AggregateState_with_orientation (AggregateState_orientation x)] ++ [AggregateState_with_center_of_mass (AggregateState_center_of_mass x)] ++ [AggregateState_with_velocity (AggregateState_velocity x)] ++ [AggregateState_with_aggregates (AggregateState_aggregates x)] ++ [AggregateState_with_entities (AggregateState_entities x)] ++ [AggregateState_with_silent_aggregate_systems (AggregateState_silent_aggregates x)] ++ [AggregateState_with_silent_entity_systems (AggregateState_silent_entities x)] ++ [AggregateState_with_variable_datums (AggregateState_variable_datums x)]). complete start x. Qed.
Lemma AggregateType_complete start x : exists calls, fold_left AggregateType_do calls start = x.
Proof. intros. exists ([AggregateType_with_aggregate_kind (ag_kind x)] ++ [AggregateType_with_domain (ag_domain x)] ++ [AggregateType_with_country (ag_country x)] ++ [AggregateType_with_category (ag_category x)] ++ [AggregateType_with_subcategory (ag_subcategory x)] ++ [AggregateType_with_specific (ag_specific x)] ++ [AggregateType_with_extra (ag_extra x)]). complete start x. Qed.
Lemma DrParameters_complete start x : exists calls, fold_left DrParameters_do calls start = x.
Proof. intros. exists ([DrParameters_with_algorithm (dr_algorithm x)] ++ [DrParameters_with_parameters (dr_other x)] ++ [DrParameters_with_linear_acceleration (dr_acceleration x)] ++ [DrParameters_with_angular_velocity (dr_velocity x)]). complete start x. Qed.
Lemma EntityState_complete start x : exists calls, fold_left EntityState_do calls start = x.
Proof. intros. exists ([EntityState_with_entity_id (EntityState_entity_id x)] ++ [EntityState_with_force_id (EntityState_force_id x)] ++ [EntityState_with_entity_type (EntityState_entity_type x)] ++ [EntityState_with_alternative_entity_type (EntityState_alternative_entity_type x)] ++ [EntityState_with_velocity (EntityState_velocity x)] ++ [EntityState_with_location (EntityState_location x)] ++ [EntityState_with_orientation (EntityState_orientation x)] ++ [EntityState_with_appearance (EntityState_appearance x)] ++ [EntityState_with_dead_reckoning_parameters (EntityState_dr x)] ++ [EntityState_with_marking (EntityState_marking x)] ++ [EntityState_with_capabilities (EntityState_capabilities x)] ++ [EntityState_with_variable_parameters (EntityState_variable_parameters x)]). complete start x. Qed.
Lemma SilentAggregate_complete start x : exists calls, fold_left SilentAggregate_do calls start = x.
Proof. intros. exists ([SilentAggregate_with_number_of_aggregates (sa_number x)] ++ [SilentAggregate_with_aggregate_type (sa_type x)]). complete start x. Qed.
Lemma SilentEntity_complete start x : exists calls, fold_left SilentEntity_do calls start = x.
Proof. intros. exists ([SilentEntity_with_number_of_entities (DisEntity.se_number x)] ++ [SilentEntity_with_entity_type (se_type x)] ++ [SilentEntity_with_appearances (se_appearances x)]). complete start x. Qed.
Lemma PduStatus_complete start x : st_tei start = None -> st_lvc start = None -> st_cei start = None -> st_fti start = None -> st_dti start = None -> st_rai start = None -> st_iai start = None -> st_ism start = None -> st_aii start = None -> exists calls, fold_left PduStatus_do calls start = x.
Proof. intros. exists ((match st_tei x with Some v => [PduStatus_with_transferred_entity_indicator v] | None => [] end) ++ (match st_lvc x with Some v => [PduStatus_with_lvc_indicator v] | None => [] end) ++ (match st_cei x with Some v => [PduStatus_with_coupled_extension_indicator v] | None => [] end) ++ (match st_fti x with Some v => [PduStatus_with_fire_type_indicator v] | None => [] end) ++ (match st_dti x with Some v => [PduStatus_with_detonation_type_indicator v] | None => [] end) ++ (match st_rai x with Some v => [PduStatus_with_radio_attached_indicator v] | None => [] end) ++ (match st_iai x with Some v => [PduStatus_with_intercom_attached_indicator v] | None => [] end) ++ (match st_ism x with Some v => [PduStatus_with_iff_simulation_mode v] | None => [] end) ++ (match st_aii x with Some v => [PduStatus_with_active_interrogation_indicator v] | None => [] end)). complete start x. Qed.
Lemma FundOpData_complete start x : exists calls, fold_left FundOpData_do calls start = x.
Proof. intros. exists ([FundOpData_with_system_status (fo_status x)] ++ [FundOpData_with_data_field_1 (fo_field1 x)] ++ [FundOpData_with_information_layers (fo_layers x)] ++ [FundOpData_with_data_field_2 (fo_field2 x)] ++ [FundOpData_with_parameter_1 (fo_p1 x)] ++ [FundOpData_with_parameter_2 (fo_p2 x)] ++ [FundOpData_with_parameter_3 (fo_p3 x)] ++ [FundOpData_with_parameter_4 (fo_p4 x)] ++ [FundOpData_with_parameter_5 (fo_p5 x)] ++ [FundOpData_with_parameter_6 (fo_p6 x)]). complete start x. Qed.
Lemma Iff_complete start x : Iff_layer_2 start = None -> Iff_layer_3 start = None -> Iff_layer_4 start = None -> Iff_layer_5 start = None -> exists calls, fold_left Iff_do calls start = x.
Proof. intros. exists ([Iff_with_emitting_entity_id (Iff_emitting_entity_id x)] ++ [Iff_with_event_id (Iff_event_id x)] ++ [Iff_with_relative_antenna_location (Iff_antenna x)] ++ [Iff_with_system_id (Iff_system_id x)] ++ [Iff_with_system_designator (Iff_designator x)] ++ [Iff_with_system_specific_data (Iff_specific x)] ++ [Iff_with_fundamental_operational_data (Iff_data x)] ++ (match Iff_layer_2 x with Some v => [Iff_with_layer_2 v] | None => [] end) ++ (match Iff_layer_3 x with Some v => [Iff_with_layer_3 v] | None => [] end) ++ (match Iff_layer_4 x with Some v => [Iff_with_layer_4 v] | None => [] end) ++ (match Iff_layer_5 x with Some v => [Iff_with_layer_5 v] | None => [] end)). complete start x. Qed.
Lemma IffDataRecord_complete start x : exists calls, fold_left IffDataRecord_do calls start = x.
Proof. intros. exists ([IffDataRecord_with_record_type (idr_type x)] ++ [IffDataRecord_with_record_specific_field (idr_fields x)]). complete start x. Qed.
Lemma IffParameter_complete start x : exists calls, fold_left IffParameter_do calls start = x.
Proof. intros. exists ([IffParameter_with_erp (ip_erp x)] ++ [IffParameter_with_frequency (ip_frequency x)] ++ [IffParameter_with_pgrf (ip_pgrf x)] ++ [IffParameter_with_pulse_width (ip_pulse_width x)] ++ [IffParameter_with_burst_length (ip_burst x)] ++ [IffParameter_with_applicable_modes (ip_modes x)] ++ [IffParameter_with_system_specific_data (ip_s1 x) (ip_s2 x) (ip_s3 x)]). complete start x. Qed.
Lemma IffLayer2_complete start x : exists calls, fold_left IffLayer2_do calls start = x.
Proof. intros. exists ([IffLayer2_with_header (l2_header x)] ++ [IffLayer2_with_beam_data (l2_beam x)] ++ [IffLayer2_with_operational_parameter_1 (l2_op1 x)] ++ [IffLayer2_with_operational_parameter_2 (l2_op2 x)] ++ [IffLayer2_with_iff_fundamental_parameters (l2_params x)]). complete start x. Qed.
Lemma IffLayer3_complete start x : exists calls, fold_left IffLayer3_do calls start = x.
Proof. intros. exists ([IffLayer3_with_header (l3_header x)] ++ [IffLayer3_with_reporting_simulation (l3_sim x)] ++ [IffLayer3_with_mode_5_basic_data (l3_basic x)] ++ [IffLayer3_with_iff_data_specification (l3_records x)]). complete start x. Qed.
Lemma IffLayer4_complete start x : exists calls, fold_left IffLayer4_do calls start = x.
Proof. intros. exists ([IffLayer4_with_header (l4_header x)] ++ [IffLayer4_with_reporting_simulation (l4_sim x)] ++ [IffLayer4_with_mode_s_basic_data (l4_basic x)] ++ [IffLayer4_with_iff_data_specification (l4_records x)]). complete start x. Qed.
Lemma IffLayer5_complete start x : exists calls, fold_left IffLayer5_do calls start = x.
Proof. intros. exists ([IffLayer5_with_header (l5_header x)] ++ [IffLayer5_with_reporting_simulation (l5_sim x)] ++ [IffLayer5_with_applicable_layers (l5_layers x)] ++ [IffLayer5_with_data_category (l5_category x)] ++ [IffLayer5_with_iff_data_specification (l5_records x)]). complete start x. Qed.
Lemma LayerHeader_complete start x : exists calls, fold_left LayerHeader_do calls start = x.
Proof. intros. exists ([LayerHeader_with_layer_number (lh_number x)] ++ [LayerHeader_with_layer_specific_information (lh_specific x)] ++ [LayerHeader_with_length (lh_length x)]). complete start x. Qed.
Lemma Mode5Interrogator_complete start x : exists calls, fold_left Mode5Interrogator_do calls start = x.
Proof. intros. exists ([Mode5Interrogator_with_status (m5i_status x)] ++ [Mode5Interrogator_with_mode_5_message_formats_present (m5i_formats x)] ++ [Mode5Interrogator_with_interrogated_entity_id (m5i_entity x)]). complete start x. Qed.
Lemma Mode5Transponder_complete start x : exists calls, fold_left Mode5Transponder_do calls start = x.
Proof. intros. exists ([Mode5Transponder_with_status (m5t_status x)] ++ [Mode5Transponder_with_pin (m5t_pin x)] ++ [Mode5Transponder_with_mode_5_message_formats_present (m5t_formats x)] ++ [Mode5Transponder_with_enhanced_mode_1 (m5t_mode1 x)] ++ [Mode5Transponder_with_national_origin (m5t_origin x)] ++ [Mode5Transponder_with_supplemental_data (m5t_supplemental x)] ++ [Mode5Transponder_with_navigation_source (m5t_nav x)] ++ [Mode5Transponder_with_figure_of_merit (m5t_merit x)]). complete start x. Qed.
Lemma ModeSInterrogator_complete start x : exists calls, fold_left ModeSInterrogator_do calls start = x.
Proof. intros. exists ([ModeSInterrogator_with_mode_s_interrogator_status (msi_status x)] ++ [ModeSInterrogator_with_mode_s_levels_present (msi_levels x)]). complete start x. Qed.
Lemma ModeSTransponder_complete start x : exists calls, fold_left ModeSTransponder_do calls start = x.
Proof. intros. exists ([ModeSTransponder_with_status (mst_status x)] ++ [ModeSTransponder_with_levels_present (mst_levels x)] ++ [ModeSTransponder_with_aircraft_present_domain (mst_domain x)] ++ [ModeSTransponder_with_aircraft_identification (mst_id x)] ++ [ModeSTransponder_with_aircraft_address (mst_address x)] ++ [ModeSTransponder_with_aircraft_identification_type (mst_idtype x)] ++ [ModeSTransponder_with_dap_source (mst_dap x)] ++ [ModeSTransponder_with_altitude (mst_altitude x)] ++ [ModeSTransponder_with_capability_report (mst_capability x)]). complete start x. Qed.
Lemma SystemId_complete start x : exists calls, fold_left SystemId_do calls start = x.
Proof. intros. exists ([SystemId_with_system_type (si_type x)] ++ [SystemId_with_system_name (si_name x)] ++ [SystemId_with_system_mode (si_mode x)] ++ [SystemId_with_change_options (si_change x)]). complete start x. Qed.
Lemma NamedLocationId_complete start x : exists calls, fold_left NamedLocationId_do calls start = x.
Proof. intros. exists ([NamedLocationId_with_station_name (nl_name x)] ++ [NamedLocationId_with_station_number (nl_number x)]). complete start x. Qed.
Lemma Relationship_complete start x : exists calls, fold_left Relationship_do calls start = x.
Proof. intros. exists ([Relationship_with_nature (re_nature x)] ++ [Relationship_with_position (re_position x)]). complete start x. Qed.
Lemma Collision_complete start x : exists calls, fold_left Collision_do calls start = x.
Proof. intros. exists ([Collision_with_issuing_entity_id (Collision_issuing_entity_id x)] ++ [Collision_with_colliding_entity_id (Collision_colliding_entity_id x)] ++ [Collision_with_event_id (Collision_event_id x)] ++ [Collision_with_collision_type (Collision_collision_type x)] ++ [Collision_with_velocity (Collision_velocity x)] ++ [Collision_with_mass (Collision_mass x)] ++ [Collision_with_location (Collision_location x)]). complete start x. Qed.
Lemma CollisionElastic_complete start x : exists calls, fold_left CollisionElastic_do calls start = x.
Proof. intros. exists ([CollisionElastic_with_issuing_entity_id (CollisionElastic_issuing_entity_id x)] ++ [CollisionElastic_with_colliding_entity_id (CollisionElastic_colliding_entity_id x)] ++ [CollisionElastic_with_event_id (CollisionElastic_event_id x)] ++ [CollisionElastic_with_velocity (CollisionElastic_velocity x)] ++ [CollisionElastic_with_mass (CollisionElastic_mass x)] ++ [CollisionElastic_with_location (CollisionElastic_location x)] ++ [CollisionElastic_with_intermediate_result_xx (CollisionElastic_intermediate_result_xx x)] ++ [CollisionElastic_with_intermediate_result_xy (CollisionElastic_intermediate_result_xy x)] ++ [CollisionElastic_with_intermediate_result_xz (CollisionElastic_intermediate_result_xz x)] ++ [CollisionElastic_with_intermediate_result_yy (CollisionElastic_intermediate_result_yy x)] ++ [CollisionElastic_with_intermediate_result_yz (CollisionElastic_intermediate_result_yz x)] ++ [CollisionElastic_with_intermediate_result_zz (CollisionElastic_intermediate_result_zz x)] ++ [CollisionElastic_with_unit_surface_normal (CollisionElastic_unit_surface_normal x)] ++ [CollisionElastic_with_coefficient_of_restitution (CollisionElastic_coefficient_of_restitution x)]). complete start x. Qed.
Lemma Designator_complete start x : exists calls, fold_left Designator_do calls start = x.
Proof. intros. exists ([Designator_with_designating_entity_id (Designator_designating_entity_id x)] ++ [Designator_with_system_name (Designator_system_name x)] ++ [Designator_with_designated_entity_id (Designator_designated_entity_id x)] ++ [Designator_with_code (Designator_code x)] ++ [Designator_with_power (Designator_power x)] ++ [Designator_with_wavelength (Designator_wavelength x)] ++ [Designator_with_spot_wrt_designated_entity (Designator_spot_wrt_designated_entity x)] ++ [Designator_with_spot_location (Designator_spot_location x)] ++ [Designator_with_dead_reckoning_algorithm (Designator_dead_reckoning_algorithm x)] ++ [Designator_with_linear_acceleration (Designator_linear_acceleration x)]). complete start x. Qed.
Lemma IsPartOf_complete start x : exists calls, fold_left IsPartOf_do calls start = x.
Proof. intros. exists ([IsPartOf_with_originating_simulation_id (IsPartOf_originating_simulation_id x)] ++ [IsPartOf_with_receiving_entity_id (IsPartOf_receiving_entity_id x)] ++ [IsPartOf_with_relationship (IsPartOf_relationship x)] ++ [IsPartOf_with_part_location (IsPartOf_part_location x)] ++ [IsPartOf_with_named_location_id (IsPartOf_named_location_id x)]). complete start x. Qed.
Lemma Receiver_complete start x : exists calls, fold_left Receiver_do calls start = x.
Proof. intros. exists ([Receiver_with_radio_reference_id (Receiver_radio_reference_id x)] ++ [Receiver_with_radio_number (Receiver_radio_number x)] ++ [Receiver_with_receiver_state (Receiver_receiver_state x)] ++ [Receiver_with_received_power (Receiver_received_power x)] ++ [Receiver_with_transmitter_radio_reference_id (Receiver_transmitter_radio_reference_id x)] ++ [Receiver_with_transmitter_radio_number (Receiver_transmitter_radio_number x)]). complete start x. Qed.
Lemma RepairComplete_complete start x : exists calls, fold_left RepairComplete_do calls start = x.
Proof. intros. exists ([RepairComplete_with_receiving_id (RepairComplete_receiving_id x)] ++ [RepairComplete_with_repairing_id (RepairComplete_repairing_id x)] ++ [RepairComplete_with_repair (RepairComplete_repair x)]). complete start x. Qed.
Lemma RepairResponse_complete start x : exists calls, fold_left RepairResponse_do calls start = x.
Proof. intros. exists ([RepairResponse_with_receiving_id (RepairResponse_receiving_id x)] ++ [RepairResponse_with_repairing_id (RepairResponse_repairing_id x)] ++ [RepairResponse_with_repair_result (RepairResponse_repair_result x)]). complete start x. Qed.
Lemma ResupplyCancel_complete start x : exists calls, fold_left ResupplyCancel_do calls start = x.
Proof. intros. exists ([ResupplyCancel_with_requesting_id (ResupplyCancel_requesting_id x)] ++ [ResupplyCancel_with_servicing_id (ResupplyCancel_servicing_id x)]). complete start x. Qed.
Lemma ResupplyOffer_complete start x : exists calls, fold_left ResupplyOffer_do calls start = x.
Proof. intros. exists ([ResupplyOffer_with_requesting_id (ResupplyOffer_requesting_id x)] ++ [ResupplyOffer_with_servicing_id (ResupplyOffer_servicing_id x)] ++ [ResupplyOffer_with_supplies (ResupplyOffer_supplies x)]). complete start x. Qed.
Lemma ResupplyReceived_complete start x : exists calls, fold_left ResupplyReceived_do calls start = x.
Proof. intros. exists ([ResupplyReceived_with_requesting_id (ResupplyReceived_requesting_id x)] ++ [ResupplyReceived_with_servicing_id (ResupplyReceived_servicing_id x)] ++ [ResupplyReceived_with_supplies (ResupplyReceived_supplies x)]). complete start x. Qed.
Lemma ServiceRequest_complete start x : exists calls, fold_left ServiceRequest_do calls start = x.
Proof. intros. exists ([ServiceRequest_with_requesting_id (ServiceRequest_requesting_id x)] ++ [ServiceRequest_with_servicing_id (ServiceRequest_servicing_id x)] ++ [ServiceRequest_with_service_type_requested (ServiceRequest_service_type_requested x)] ++ [ServiceRequest_with_supplies (ServiceRequest_supplies x)]). complete start x. Qed.
Lemma TransferOwnership_complete start x : exists calls, fold_left TransferOwnership_do calls start = x.
Proof. intros. exists ([TransferOwnership_with_originating_id (TransferOwnership_originating_id x)] ++ [TransferOwnership_with_receiving_id (TransferOwnership_receiving_id x)] ++ [TransferOwnership_with_request_id (TransferOwnership_request_id x)] ++ [TransferOwnership_with_required_reliability_service (TransferOwnership_required_reliability_service x)] ++ [TransferOwnership_with_transfer_type (TransferOwnership_transfer_type x)] ++ [TransferOwnership_with_transfer_entity_id (TransferOwnership_transfer_entity_id x)] ++ [TransferOwnership_with_record_specification (TransferOwnership_record_specification x)]). complete start x. Qed.
Lemma BeamAntennaPattern_complete start x : exists calls, fold_left BeamAntennaPattern_do calls start = x.
Proof. intros. exists ([BeamAntennaPattern_with_beam_direction (bap_direction x)] ++ [BeamAntennaPattern_with_azimuth_beamwidth (bap_azimuth x)] ++ [BeamAntennaPattern_with_elevation_beamwidth (bap_elevation x)] ++ [BeamAntennaPattern_with_reference_system (bap_reference x)] ++ [BeamAntennaPattern_with_e_z (bap_ez x)] ++ [BeamAntennaPattern_with_e_x (bap_ex x)] ++ [BeamAntennaPattern_with_phase (bap_phase x)]). complete start x. Qed.
Lemma IsGroupOf_complete start x : exists calls, fold_left IsGroupOf_do calls start = x.
Proof. intros. exists ([IsGroupOf_with_group_id (IsGroupOf_group_id x)] ++ [IsGroupOf_with_grouped_entity_category (IsGroupOf_category x)] ++ [IsGroupOf_with_group_reference_point (IsGroupOf_latitude x) (IsGroupOf_longitude x)] ++ [IsGroupOf_with_descriptions (IsGroupOf_descriptions x)]). complete start x. Qed.
Lemma ModulationType_complete start x : exists calls, fold_left ModulationType_do calls start = x.
Proof. intros. exists ([ModulationType_with_spread_spectrum (mt_spread x)] ++ [ModulationType_with_major_modulation (mt_major x)] ++ [ModulationType_with_radio_system (mt_system x)]). complete start x. Qed.
Lemma SpreadSpectrum_complete start x : ss_hopping start = false -> ss_noise start = false -> ss_time start = false -> exists calls, fold_left SpreadSpectrum_do calls start = x.
Proof. intros. exists ((if ss_hopping x then [SpreadSpectrum_with_frequency_hopping] else []) ++ (if ss_noise x then [SpreadSpectrum_with_pseudo_noise] else []) ++ (if ss_time x then [SpreadSpectrum_with_time_hopping] else [])). complete start x. Qed.
Lemma Transmitter_complete start x : Transmitter_modulation_parameters start = None -> Transmitter_antenna_pattern start = None -> exists calls, fold_left Transmitter_do calls start = x.
Proof. intros. exists ([Transmitter_with_radio_reference_id (Transmitter_radio_reference_id x)] ++ [Transmitter_with_radio_number (Transmitter_radio_number x)] ++ [Transmitter_with_radio_type (Transmitter_radio_type x)] ++ [Transmitter_with_transmit_state (Transmitter_transmit_state x)] ++ [Transmitter_with_input_source (Transmitter_input_source x)] ++ [Transmitter_with_antenna_location (Transmitter_antenna_location x)] ++ [Transmitter_with_relative_antenna_location (Transmitter_relative_antenna_location x)] ++ [Transmitter_with_antenna_pattern_type (Transmitter_antenna_pattern_type x)] ++ [Transmitter_with_frequency (Transmitter_frequency x)] ++ [Transmitter_with_transmit_frequency_bandwidth (Transmitter_bandwidth x)] ++ [Transmitter_with_power (Transmitter_power x)] ++ [Transmitter_with_modulation_type (Transmitter_modulation_type x)] ++ [Transmitter_with_crypto_system (Transmitter_crypto_system x)] ++ [Transmitter_with_crypto_key_id (Transmitter_crypto_key_id x)] ++ (match Transmitter_modulation_parameters x with Some v => [Transmitter_with_modulation_parameters v] | None => [] end) ++ (match Transmitter_antenna_pattern x with Some v => [Transmitter_with_antenna_pattern v] | None => [] end) ++ [Transmitter_with_variable_transmitter_parameters (Transmitter_vtps x)]). complete start x. Qed.
Lemma VTP_complete start x : exists calls, fold_left VTP_do calls start = x.
Proof. intros. exists ([VTP_with_record_type (vtp_type x)] ++ [VTP_with_fields (vtp_fields x)]). complete start x. Qed.
Lemma Acknowledge_complete start x : exists calls, fold_left Acknowledge_do calls start = x.
Proof. intros. exists ([Acknowledge_with_origination_id (Acknowledge_originating_id x)] ++ [Acknowledge_with_receiving_id (Acknowledge_receiving_id x)] ++ [Acknowledge_with_acknowledge_flag (Acknowledge_acknowledge_flag x)] ++ [Acknowledge_with_response_flag (Acknowledge_response_flag x)] ++ [Acknowledge_with_request_id (Acknowledge_request_id x)]). complete start x. Qed.
Lemma AcknowledgeR_complete start x : exists calls, fold_left AcknowledgeR_do calls start = x.
Proof. intros. exists ([AcknowledgeR_with_origination_id (AcknowledgeR_originating_id x)] ++ [AcknowledgeR_with_receiving_id (AcknowledgeR_receiving_id x)] ++ [AcknowledgeR_with_acknowledge_flag (AcknowledgeR_acknowledge_flag x)] ++ [AcknowledgeR_with_response_flag (AcknowledgeR_response_flag x)] ++ [AcknowledgeR_with_request_id (AcknowledgeR_request_id x)]). complete start x. Qed.
Lemma ActionRequest_complete start x : exists calls, fold_left ActionRequest_do calls start = x.
Proof. intros. exists ([ActionRequest_with_origination_id (ActionRequest_originating_id x)] ++ [ActionRequest_with_receiving_id (ActionRequest_receiving_id x)] ++ [ActionRequest_with_request_id (ActionRequest_request_id x)] ++ [ActionRequest_with_action_id (ActionRequest_action_id x)] ++ [ActionRequest_with_fixed_datums (ActionRequest_fixed_datum_records x)] ++ [ActionRequest_with_variable_datums (ActionRequest_variable_datum_records x)]). complete start x. Qed.
Lemma ActionRequestR_complete start x : exists calls, fold_left ActionRequestR_do calls start = x.
Proof. intros. exists ([ActionRequestR_with_origination_id (ActionRequestR_originating_id x)] ++ [ActionRequestR_with_receiving_id (ActionRequestR_receiving_id x)] ++ [ActionRequestR_with_required_reliability_service (ActionRequestR_required_reliability_service x)] ++ [ActionRequestR_with_request_id (ActionRequestR_request_id x)] ++ [ActionRequestR_with_action_id (ActionRequestR_action_id x)] ++ [ActionRequestR_with_fixed_datums (ActionRequestR_fixed_datum_records x)] ++ [ActionRequestR_with_variable_datums (ActionRequestR_variable_datum_records x)]). complete start x. Qed.
Lemma ActionResponse_complete start x : exists calls, fold_left ActionResponse_do calls start = x.
Proof. intros. exists ([ActionResponse_with_origination_id (ActionResponse_originating_id x)] ++ [ActionResponse_with_receiving_id (ActionResponse_receiving_id x)] ++ [ActionResponse_with_request_id (ActionResponse_request_id x)] ++ [ActionResponse_with_request_status (ActionResponse_request_status x)] ++ [ActionResponse_with_fixed_datums (ActionResponse_fixed_datum_records x)] ++ [ActionResponse_with_variable_datums (ActionResponse_variable_datum_records x)]). complete start x. Qed.
Lemma ActionResponseR_complete start x : exists calls, fold_left ActionResponseR_do calls start = x.
Proof. intros. exists ([ActionResponseR_with_origination_id (ActionResponseR_originating_id x)] ++ [ActionResponseR_with_receiving_id (ActionResponseR_receiving_id x)] ++ [ActionResponseR_with_request_id (ActionResponseR_request_id x)] ++ [ActionResponseR_with_request_status (ActionResponseR_request_status x)] ++ [ActionResponseR_with_fixed_datums (ActionResponseR_fixed_datum_records x)] ++ [ActionResponseR_with_variable_datums (ActionResponseR_variable_datum_records x)]). complete start x. Qed.
Lemma Comment_complete start x : exists calls, fold_left Comment_do calls start = x.
Proof. intros. exists ([Comment_with_origination_id (Comment_originating_id x)] ++ [Comment_with_receiving_id (Comment_receiving_id x)] ++ [Comment_with_variable_datums (Comment_variable_datum_records x)]). complete start x. Qed.
Lemma CommentR_complete start x : exists calls, fold_left CommentR_do calls start = x.
Proof. intros. exists ([CommentR_with_origination_id (CommentR_originating_id x)] ++ [CommentR_with_receiving_id (CommentR_receiving_id x)] ++ [CommentR_with_variable_datums (CommentR_variable_datum_records x)]). complete start x. Qed.
Lemma CreateEntity_complete start x : exists calls, fold_left CreateEntity_do calls start = x.
Proof. intros. exists ([CreateEntity_with_origination_id (CreateEntity_originating_id x)] ++ [CreateEntity_with_receiving_id (CreateEntity_receiving_id x)] ++ [CreateEntity_with_request_id (CreateEntity_request_id x)]). complete start x. Qed.
Lemma CreateEntityR_complete start x : exists calls, fold_left CreateEntityR_do calls start = x.
Proof. intros. exists ([CreateEntityR_with_origination_id (CreateEntityR_originating_id x)] ++ [CreateEntityR_with_receiving_id (CreateEntityR_receiving_id x)] ++ [CreateEntityR_with_required_reliability_service (CreateEntityR_required_reliability_service x)] ++ [CreateEntityR_with_request_id (CreateEntityR_request_id x)]). complete start x. Qed.
Lemma Data_complete start x : exists calls, fold_left Data_do calls start = x.
Proof. intros. exists ([Data_with_origination_id (Data_originating_id x)] ++ [Data_with_receiving_id (Data_receiving_id x)] ++ [Data_with_request_id (Data_request_id x)] ++ [Data_with_fixed_datums (Data_fixed_datum_records x)] ++ [Data_with_variable_datums (Data_variable_datum_records x)]). complete start x. Qed.
Lemma DataQuery_complete start x : exists calls, fold_left DataQuery_do calls start = x.
Proof. intros. exists ([DataQuery_with_origination_id (DataQuery_originating_id x)] ++ [DataQuery_with_receiving_id (DataQuery_receiving_id x)] ++ [DataQuery_with_request_id (DataQuery_request_id x)] ++ [DataQuery_with_time_interval (DataQuery_time_interval x)] ++ [DataQuery_with_fixed_datums (DataQuery_fixed_datum_records x)] ++ [DataQuery_with_variable_datums (DataQuery_variable_datum_records x)]). complete start x. Qed.
Lemma DataQueryR_complete start x : exists calls, fold_left DataQueryR_do calls start = x.
Proof. intros. exists ([DataQueryR_with_origination_id (DataQueryR_originating_id x)] ++ [DataQueryR_with_receiving_id (DataQueryR_receiving_id x)] ++ [DataQueryR_with_required_reliability_service (DataQueryR_required_reliability_service x)] ++ [DataQueryR_with_request_id (DataQueryR_request_id x)] ++ [DataQueryR_with_time_interval (DataQueryR_time_interval x)] ++ [DataQueryR_with_fixed_datums (DataQueryR_fixed_datum_records x)] ++ [DataQueryR_with_variable_datums (DataQueryR_variable_datum_records x)]). complete start x. Qed.
Lemma DataR_complete start x : exists calls, fold_left DataR_do calls start = x.
Proof. intros. exists ([DataR_with_origination_id (DataR_originating_id x)] ++ [DataR_with_receiving_id (DataR_receiving_id x)] ++ [DataR_with_request_id (DataR_request_id x)] ++ [DataR_with_required_reliability_service (DataR_required_reliability_service x)] ++ [DataR_with_fixed_datums (DataR_fixed_datum_records x)] ++ [DataR_with_variable_datums (DataR_variable_datum_records x)]). complete start x. Qed.
Lemma EventReport_complete start x : exists calls, fold_left EventReport_do calls start = x.
Proof. intros. exists ([EventReport_with_origination_id (EventReport_originating_id x)] ++ [EventReport_with_receiving_id (EventReport_receiving_id x)] ++ [EventReport_with_event_type (EventReport_event_type x)] ++ [EventReport_with_fixed_datums (EventReport_fixed_datum_records x)] ++ [EventReport_with_variable_datums (EventReport_variable_datum_records x)]). complete start x. Qed.
Lemma EventReportR_complete start x : exists calls, fold_left EventReportR_do calls start = x.
Proof. intros. exists ([EventReportR_with_origination_id (EventReportR_originating_id x)] ++ [EventReportR_with_receiving_id (EventReportR_receiving_id x)] ++ [EventReportR_with_event_type (EventReportR_event_type x)] ++ [EventReportR_with_fixed_datums (EventReportR_fixed_datum_records x)] ++ [EventReportR_with_variable_datums (EventReportR_variable_datum_records x)]). complete start x. Qed.
Lemma RecordQueryR_complete start x : exists calls, fold_left RecordQueryR_do calls start = x.
Proof. intros. exists ([RecordQueryR_with_origination_id (RecordQueryR_originating_id x)] ++ [RecordQueryR_with_receiving_id (RecordQueryR_receiving_id x)] ++ [RecordQueryR_with_request_id (RecordQueryR_request_id x)] ++ [RecordQueryR_with_required_reliability_service (RecordQueryR_required_reliability_service x)] ++ [RecordQueryR_with_event_type (RecordQueryR_event_type x)] ++ [RecordQueryR_with_time (RecordQueryR_time x)] ++ [RecordQueryR_with_record_query_specification (RecordQueryR_record_query_specification x)]). complete start x. Qed.
Lemma RecordR_complete start x : exists calls, fold_left RecordR_do calls start = x.
Proof. intros. exists ([RecordR_with_origination_id (RecordR_originating_id x)] ++ [RecordR_with_receiving_id (RecordR_receiving_id x)] ++ [RecordR_with_request_id (RecordR_request_id x)] ++ [RecordR_with_required_reliability_service (RecordR_required_reliability_service x)] ++ [RecordR_with_event_type (RecordR_event_type x)] ++ [RecordR_with_response_serial_number (RecordR_response_serial_number x)] ++ [RecordR_with_record_specification (RecordR_record_specification x)]). complete start x. Qed.
Lemma RemoveEntity_complete start x : exists calls, fold_left RemoveEntity_do calls start = x.
Proof. intros. exists ([RemoveEntity_with_origination_id (RemoveEntity_originating_id x)] ++ [RemoveEntity_with_receiving_id (RemoveEntity_receiving_id x)] ++ [RemoveEntity_with_request_id (RemoveEntity_request_id x)]). complete start x. Qed.
Lemma RemoveEntityR_complete start x : exists calls, fold_left RemoveEntityR_do calls start = x.
Proof. intros. exists ([RemoveEntityR_with_origination_id (RemoveEntityR_originating_id x)] ++ [RemoveEntityR_with_receiving_id (RemoveEntityR_receiving_id x)] ++ [RemoveEntityR_with_required_reliability_service (RemoveEntityR_required_reliability_service x)] ++ [RemoveEntityR_with_request_id (RemoveEntityR_request_id x)]). complete start x. Qed.
Lemma SetData_complete start x : exists calls, fold_left SetData_do calls start = x.
Proof. intros. exists ([SetData_with_origination_id (SetData_originating_id x)] ++ [SetData_with_receiving_id (SetData_receiving_id x)] ++ [SetData_with_request_id (SetData_request_id x)] ++ [SetData_with_fixed_datums (SetData_fixed_datum_records x)] ++ [SetData_with_variable_datums (SetData_variable_datum_records x)]). complete start x. Qed.
Lemma SetDataR_complete start x : exists calls, fold_left SetDataR_do calls start = x.
Proof. intros. exists ([SetDataR_with_origination_id (SetDataR_originating_id x)] ++ [SetDataR_with_receiving_id (SetDataR_receiving_id x)] ++ [SetDataR_with_required_reliability_service (SetDataR_required_reliability_service x)] ++ [SetDataR_with_request_id (SetDataR_request_id x)] ++ [SetDataR_with_fixed_datums (SetDataR_fixed_datum_records x)] ++ [SetDataR_with_variable_datums (SetDataR_variable_datum_records x)]). complete start x. Qed.
Lemma SetRecordR_complete start x : exists calls, fold_left SetRecordR_do calls start = x.
Proof. intros. exists ([SetRecordR_with_origination_id (SetRecordR_originating_id x)] ++ [SetRecordR_with_receiving_id (SetRecordR_receiving_id x)] ++ [SetRecordR_with_request_id (SetRecordR_request_id x)] ++ [SetRecordR_with_required_reliability_service (SetRecordR_required_reliability_service x)] ++ [SetRecordR_with_record_specification (SetRecordR_record_specification x)]). complete start x. Qed.
Lemma StartResume_complete start x : exists calls, fold_left StartResume_do calls start = x.
Proof. intros. exists ([StartResume_with_origination_id (StartResume_originating_id x)] ++ [StartResume_with_receiving_id (StartResume_receiving_id x)] ++ [StartResume_with_real_world_time (StartResume_real_world_time x)] ++ [StartResume_with_simulation_time (StartResume_simulation_time x)] ++ [StartResume_with_request_id (StartResume_request_id x)]). complete start x. Qed.
Lemma StartResumeR_complete start x : exists calls, fold_left StartResumeR_do calls start = x.
Proof. intros. exists ([StartResumeR_with_origination_id (StartResumeR_originating_id x)] ++ [StartResumeR_with_receiving_id (StartResumeR_receiving_id x)] ++ [StartResumeR_with_real_world_time (StartResumeR_real_world_time x)] ++ [StartResumeR_with_simulation_time (StartResumeR_simulation_time x)] ++ [StartResumeR_with_required_reliability_service (StartResumeR_required_reliability_service x)] ++ [StartResumeR_with_request_id (StartResumeR_request_id x)]). complete start x. Qed.
Lemma StopFreeze_complete start x : exists calls, fold_left StopFreeze_do calls start = x.
Proof. intros. exists ([StopFreeze_with_origination_id (StopFreeze_originating_id x)] ++ [StopFreeze_with_receiving_id (StopFreeze_receiving_id x)] ++ [StopFreeze_with_real_world_time (StopFreeze_real_world_time x)] ++ [StopFreeze_with_reason (StopFreeze_reason x)] ++ [StopFreeze_with_frozen_behavior (StopFreeze_frozen_behavior x)] ++ [StopFreeze_with_request_id (StopFreeze_request_id x)]). complete start x. Qed.
Lemma StopFreezeR_complete start x : exists calls, fold_left StopFreezeR_do calls start = x.
Proof. intros. exists ([StopFreezeR_with_origination_id (StopFreezeR_originating_id x)] ++ [StopFreezeR_with_receiving_id (StopFreezeR_receiving_id x)] ++ [StopFreezeR_with_real_world_time (StopFreezeR_real_world_time x)] ++ [StopFreezeR_with_reason (StopFreezeR_reason x)] ++ [StopFreezeR_with_frozen_behavior (StopFreezeR_frozen_behavior x)] ++ [StopFreezeR_with_required_reliability_service (StopFreezeR_required_reliability_service x)] ++ [StopFreezeR_with_request_id (StopFreezeR_request_id x)]). complete start x. Qed.
Lemma Attribute_complete start x : exists calls, fold_left Attribute_do calls start = x.
Proof. intros. exists ([Attribute_with_originating_simulation_address (Attribute_address x)] ++ [Attribute_with_record_pdu_type (Attribute_pdu_type x)] ++ [Attribute_with_record_protocol_version (Attribute_version x)] ++ [Attribute_with_master_attribute_record_type (Attribute_master_type x)] ++ [Attribute_with_action_code (Attribute_action_code x)] ++ [Attribute_with_attribute_record_sets (Attribute_sets x)]). complete start x. Qed.
Lemma AttributeRecord_complete start x : exists calls, fold_left AttributeRecord_do calls start = x.
Proof. intros. exists ([AttributeRecord_with_record_type (ar_type x)] ++ [AttributeRecord_with_specific_fields (ar_fields x)]). complete start x. Qed.
Lemma AttributeRecordSet_complete start x : exists calls, fold_left AttributeRecordSet_do calls start = x.
Proof. intros. exists ([AttributeRecordSet_with_entity_id (as_entity_id x)] ++ [AttributeRecordSet_with_attribute_records (as_records x)]). complete start x. Qed.
Lemma Detonation_complete start x : exists calls, fold_left Detonation_do calls start = x.
Proof. intros. exists ([Detonation_with_source_entity_id (Detonation_source_entity_id x)] ++ [Detonation_with_target_entity_id (Detonation_target_entity_id x)] ++ [Detonation_with_exploding_entity_id (Detonation_exploding_entity_id x)] ++ [Detonation_with_event_id (Detonation_event_id x)] ++ [Detonation_with_velocity (Detonation_velocity x)] ++ [Detonation_with_world_location (Detonation_world_location x)] ++ [Detonation_with_descriptor (Detonation_descriptor x)] ++ [Detonation_with_entity_location (Detonation_entity_location x)] ++ [Detonation_with_detonation_result (Detonation_result x)] ++ [Detonation_with_variable_parameters (Detonation_variable_parameters x)]). complete start x. Qed.
Lemma EntityStateUpdate_complete start x : exists calls, fold_left EntityStateUpdate_do calls start = x.
Proof. intros. exists ([EntityStateUpdate_with_entity_id (EntityStateUpdate_entity_id x)] ++ [EntityStateUpdate_with_velocity (EntityStateUpdate_velocity x)] ++ [EntityStateUpdate_with_location (EntityStateUpdate_location x)] ++ [EntityStateUpdate_with_orientation (EntityStateUpdate_orientation x)] ++ [EntityStateUpdate_with_appearance (EntityStateUpdate_appearance x)] ++ [EntityStateUpdate_with_variable_parameters (EntityStateUpdate_variable_parameters x)]). complete start x. Qed.
Lemma Fire_complete start x : exists calls, fold_left Fire_do calls start = x.
Proof. intros. exists ([Fire_with_firing_entity_id (Fire_firing_entity_id x)] ++ [Fire_with_target_entity_id (Fire_target_entity_id x)] ++ [Fire_with_entity_id (Fire_entity_id x)] ++ [Fire_with_event_id (Fire_event_id x)] ++ [Fire_with_fire_mission_index (Fire_fire_mission_index x)] ++ [Fire_with_location_in_world (Fire_location_in_world x)] ++ [Fire_with_descriptor (Fire_descriptor x)] ++ [Fire_with_velocity (Fire_velocity x)] ++ [Fire_with_range (Fire_range x)]). complete start x. Qed.
Lemma Other_complete start x : exists calls, fold_left Other_do calls start = x.
Proof. intros. exists ([Other_with_origin (Other_originating x)] ++ [Other_with_receiver (Other_receiving x)] ++ [Other_with_body (Other_body x)]). complete start x. Qed.
Lemma PropulsionSystemData_complete start x : exists calls, fold_left PropulsionSystemData_do calls start = x.
Proof. intros. exists ([PropulsionSystemData_with_power_setting (ps_power x)] ++ [PropulsionSystemData_with_engine_rpm (ps_rpm x)]). complete start x. Qed.
Lemma Sees_complete start x : exists calls, fold_left Sees_do calls start = x.
Proof. intros. exists ([Sees_with_originating_entity_id (Sees_originating_entity_id x)] ++ [Sees_with_infrared_signature_representation_index (Sees_infrared x)] ++ [Sees_with_acoustic_signature_representation_index (Sees_acoustic x)] ++ [Sees_with_radar_cross_section_representation_index (Sees_radar x)] ++ [Sees_with_propulsion_systems (Sees_propulsion_systems x)] ++ [Sees_with_vectoring_nozzle_systems (Sees_vectoring_nozzle_systems x)]). complete start x. Qed.
Lemma Signal_complete start x : exists calls, fold_left Signal_do calls start = x.
Proof. intros. exists ([Signal_with_radio_reference_id (Signal_radio_reference_id x)] ++ [Signal_with_radio_number (Signal_radio_number x)] ++ [Signal_with_encoding_scheme (Signal_encoding_scheme x)] ++ [Signal_with_tdl_type (Signal_tdl_type x)] ++ [Signal_with_sample_rate (Signal_sample_rate x)] ++ [Signal_with_samples (Signal_samples x)] ++ [Signal_with_data (Signal_data x)]). complete start x. Qed.
Lemma VectoringNozzleSystemData_complete start x : exists calls, fold_left VectoringNozzleSystemData_do calls start = x.
Proof. intros. exists ([VectoringNozzleSystemData_with_horizontal_deflection_angle (vn_horizontal x)] ++ [VectoringNozzleSystemData_with_vertical_deflection_angle (vn_vertical x)]). complete start x. Qed.
Lemma ChangeOptions_complete start x : co_change start = false -> co_specific_1 start = false -> co_specific_2 start = false -> co_heartbeat start = false -> co_transponder start = false -> co_simulation start = false -> co_interactive start = false -> co_test start = false -> exists calls, fold_left ChangeOptions_do calls start = x.
Proof. intros. exists ((if co_change x then [ChangeOptions_set_change_indicator] else []) ++ (if co_specific_1 x then [ChangeOptions_set_system_specific_field_1] else []) ++ (if co_specific_2 x then [ChangeOptions_set_system_specific_field_2] else []) ++ (if co_heartbeat x then [ChangeOptions_set_heartbeat_indicator] else []) ++ (if co_transponder x then [ChangeOptions_set_transponder_interrogator_indicator] else []) ++ (if co_simulation x then [ChangeOptions_set_simulation_mode] else []) ++ (if co_interactive x then [ChangeOptions_set_interactive_capable] else []) ++ (if co_test x then [ChangeOptions_set_test_mode] else [])). complete start x. Qed.
Lemma DapSource_complete start x : exists calls, fold_left DapSource_do calls start = x.
Proof. intros. exists ([DapSource_with_indicated_air_speed (da_indicated x)] ++ [DapSource_with_mach_number (da_mach x)] ++ [DapSource_with_ground_speed (da_ground x)] ++ [DapSource_with_magnetic_heading (da_heading x)] ++ [DapSource_with_track_angle_rate (da_track_rate x)] ++ [DapSource_with_true_track_angle (da_track_angle x)] ++ [DapSource_with_true_airspeed (da_true_airspeed x)] ++ [DapSource_with_vertical_rate (da_vertical x)]). complete start x. Qed.
Lemma EnhancedMode1Code_complete start x : exists calls, fold_left EnhancedMode1Code_do calls start = x.
Proof. intros. exists ([EnhancedMode1Code_with_code_element_1_d (em_element_1 x)] ++ [EnhancedMode1Code_with_code_element_2_c (em_element_2 x)] ++ [EnhancedMode1Code_with_code_element_3_b (em_element_3 x)] ++ [EnhancedMode1Code_with_code_element_4_a (em_element_4 x)] ++ [EnhancedMode1Code_with_on_off_status (em_on_off x)] ++ [EnhancedMode1Code_with_damage_status (em_damage x)] ++ [EnhancedMode1Code_with_malfunction_status (em_malfunction x)]). complete start x. Qed.
Lemma InformationLayers_complete start x : exists calls, fold_left InformationLayers_do calls start = x.
Proof. intros. exists ([InformationLayers_with_layer_1 (il_layer_1 x)] ++ [InformationLayers_with_layer_2 (il_layer_2 x)] ++ [InformationLayers_with_layer_3 (il_layer_3 x)] ++ [InformationLayers_with_layer_4 (il_layer_4 x)] ++ [InformationLayers_with_layer_5 (il_layer_5 x)] ++ [InformationLayers_with_layer_6 (il_layer_6 x)] ++ [InformationLayers_with_layer_7 (il_layer_7 x)]). complete start x. Qed.
Lemma Mode5InterrogatorStatus_complete start x : exists calls, fold_left Mode5InterrogatorStatus_do calls start = x.
Proof. intros. exists ([Mode5InterrogatorStatus_with_iff_mission (is_mission x)] ++ [Mode5InterrogatorStatus_with_mode_5_message_formats_status (is_formats_status x)] ++ [Mode5InterrogatorStatus_with_on_off_status (is_on_off x)] ++ [Mode5InterrogatorStatus_with_damage_status (is_damage x)] ++ [Mode5InterrogatorStatus_with_malfunction_status (is_malfunction x)]). complete start x. Qed.
Lemma MessageFormats_complete start x : exists calls, fold_left MessageFormats_do calls start = x.
Proof. intros. exists ([MessageFormats_with_message_format_0 (mf_0 x)] ++ [MessageFormats_with_message_format_1 (mf_1 x)] ++ [MessageFormats_with_message_format_2 (mf_2 x)] ++ [MessageFormats_with_message_format_3 (mf_3 x)] ++ [MessageFormats_with_message_format_4 (mf_4 x)] ++ [MessageFormats_with_message_format_5 (mf_5 x)] ++ [MessageFormats_with_message_format_6 (mf_6 x)] ++ [MessageFormats_with_message_format_7 (mf_7 x)] ++ [MessageFormats_with_message_format_8 (mf_8 x)] ++ [MessageFormats_with_message_format_9 (mf_9 x)] ++ [MessageFormats_with_message_format_10 (mf_10 x)] ++ [MessageFormats_with_message_format_11 (mf_11 x)] ++ [MessageFormats_with_message_format_12 (mf_12 x)] ++ [MessageFormats_with_message_format_13 (mf_13 x)] ++ [MessageFormats_with_message_format_14 (mf_14 x)] ++ [MessageFormats_with_message_format_15 (mf_15 x)] ++ [MessageFormats_with_message_format_16 (mf_16 x)] ++ [MessageFormats_with_message_format_17 (mf_17 x)] ++ [MessageFormats_with_message_format_18 (mf_18 x)] ++ [MessageFormats_with_message_format_19 (mf_19 x)] ++ [MessageFormats_with_message_format_20 (mf_20 x)] ++ [MessageFormats_with_message_format_21 (mf_21 x)] ++ [MessageFormats_with_message_format_22 (mf_22 x)] ++ [MessageFormats_with_message_format_23 (mf_23 x)] ++ [MessageFormats_with_message_format_24 (mf_24 x)] ++ [MessageFormats_with_message_format_25 (mf_25 x)] ++ [MessageFormats_with_message_format_26 (mf_26 x)] ++ [MessageFormats_with_message_format_27 (mf_27 x)] ++ [MessageFormats_with_message_format_28 (mf_28 x)] ++ [MessageFormats_with_message_format_29 (mf_29 x)] ++ [MessageFormats_with_message_format_30 (mf_30 x)] ++ [MessageFormats_with_message_format_31 (mf_31 x)]). complete start x. Qed.
Lemma Mode5TransponderStatus_complete start x : exists calls, fold_left Mode5TransponderStatus_do calls start = x.
Proof. intros. exists ([Mode5TransponderStatus_with_mode_5_reply (ts_reply x)] ++ [Mode5TransponderStatus_with_line_test (ts_line_test x)] ++ [Mode5TransponderStatus_with_antenna_selection (ts_antenna x)] ++ [Mode5TransponderStatus_with_crypto_control (ts_crypto x)] ++ [Mode5TransponderStatus_with_lat_lon_alt_source (ts_lat_lon_alt x)] ++ [Mode5TransponderStatus_with_location_errors (ts_location_errors x)] ++ [Mode5TransponderStatus_with_platform_type (ts_platform x)] ++ [Mode5TransponderStatus_with_mode_5_level_selection (ts_level x)] ++ [Mode5TransponderStatus_with_on_off_status (ts_on_off x)] ++ [Mode5TransponderStatus_with_damage_status (ts_damage x)] ++ [Mode5TransponderStatus_with_malfunction_status (ts_malfunction x)]). complete start x. Qed.
Lemma SupplementalData_complete start x : exists calls, fold_left SupplementalData_do calls start = x.
Proof. intros. exists ([SupplementalData_with_squitter_on_off_status (sd_squitter x)] ++ [SupplementalData_with_level_2_squitter_status (sd_level_2 x)] ++ [SupplementalData_with_iff_mission (sd_mission x)]). complete start x. Qed.
Lemma ModeSAltitude_complete start x : exists calls, fold_left ModeSAltitude_do calls start = x.
Proof. intros. exists ([ModeSAltitude_with_altitude (al_altitude x)] ++ [ModeSAltitude_with_resolution (al_resolution x)]). complete start x. Qed.
Lemma ModeSInterrogatorStatus_complete start x : exists calls, fold_left ModeSInterrogatorStatus_do calls start = x.
Proof. intros. exists ([ModeSInterrogatorStatus_with_on_off_status (ss_on_off x)] ++ [ModeSInterrogatorStatus_with_transmit_state (ss_transmit x)] ++ [ModeSInterrogatorStatus_with_damage_status (ss_damage x)] ++ [ModeSInterrogatorStatus_with_malfunction_status (ss_malfunction x)]). complete start x. Qed.
Lemma ModeSLevels_complete start x : exists calls, fold_left ModeSLevels_do calls start = x.
Proof. intros. exists ([ModeSLevels_with_level_1 (lv_1 x)] ++ [ModeSLevels_with_level_2_els (lv_2_els x)] ++ [ModeSLevels_with_level_2_ehs (lv_2_ehs x)] ++ [ModeSLevels_with_level_3 (lv_3 x)] ++ [ModeSLevels_with_level_4 (lv_4 x)]). complete start x. Qed.
Lemma ModeSTransponderStatus_complete start x : exists calls, fold_left ModeSTransponderStatus_do calls start = x.
Proof. intros. exists ([ModeSTransponderStatus_with_squitter_status (st_squitter x)] ++ [ModeSTransponderStatus_with_squitter_type (st_type x)] ++ [ModeSTransponderStatus_with_squitter_record_source (st_source x)] ++ [ModeSTransponderStatus_with_airborne_position_report_indicator (st_airborne_position x)] ++ [ModeSTransponderStatus_with_airborne_velocity_report_indicator (st_airborne_velocity x)] ++ [ModeSTransponderStatus_with_surface_position_report_indicator (st_surface_position x)] ++ [ModeSTransponderStatus_with_identification_report_indicator (st_identification x)] ++ [ModeSTransponderStatus_with_event_driven_report_indicator (st_event_driven x)] ++ [ModeSTransponderStatus_with_on_off_status (st_on_off x)] ++ [ModeSTransponderStatus_with_damage_status (st_damage x)] ++ [ModeSTransponderStatus_with_malfunction_status (st_malfunction x)]). complete start x. Qed.
Lemma SystemStatus_complete start x : exists calls, fold_left SystemStatus_do calls start = x.
Proof. intros. exists ([SystemStatus_with_system_on_off_status (sy_on_off x)] ++ [SystemStatus_with_parameter_1_capable (sy_parameter_1 x)] ++ [SystemStatus_with_parameter_2_capable (sy_parameter_2 x)] ++ [SystemStatus_with_parameter_3_capable (sy_parameter_3 x)] ++ [SystemStatus_with_parameter_4_capable (sy_parameter_4 x)] ++ [SystemStatus_with_parameter_5_capable (sy_parameter_5 x)] ++ [SystemStatus_with_parameter_6_capable (sy_parameter_6 x)] ++ [SystemStatus_with_operational_status (sy_operational x)]). complete start x. Qed.
(*@C58
 Builders of the records that several PDUs share: nothing is out of their reach. From any start, some calls build any given value, whatever its members. *)
Lemma builders_records_reach_all_pf : (forall start x, exists calls, fold_left ArticulatedPart_do calls start = x) /\
  (forall start x, exists calls, fold_left AttachedPart_do calls start = x) /\
  (forall start x, exists calls, fold_left BeamData_do calls start = x) /\
  (forall start x, exists calls, fold_left EntityAssociation_do calls start = x) /\
  (forall start x, exists calls, fold_left EntityType_do calls start = x) /\
  (forall start x, exists calls, fold_left EntityTypeParameter_do calls start = x) /\
  (forall start x, exists calls, fold_left Location_do calls start = x) /\
  (forall start x, exists calls, fold_left MunitionDescriptor_do calls start = x) /\
  (forall start x, exists calls, fold_left Orientation_do calls start = x) /\
  (forall start x, exists calls, fold_left SeparationParameter_do calls start = x) /\
  (forall start x, exists calls, fold_left SupplyQuantity_do calls start = x) /\
  (forall start x, exists calls, fold_left VectorF32_do calls start = x).
Proof. repeat match goal with |- _ /\ _ => split end; [exact ArticulatedPart_complete | exact AttachedPart_complete | exact BeamData_complete | exact EntityAssociation_complete | exact EntityType_complete | exact EntityTypeParameter_complete | exact Location_complete | exact MunitionDescriptor_complete | exact Orientation_complete | exact SeparationParameter_complete | exact SupplyQuantity_complete | exact VectorF32_complete]. Qed.
(*@C58
 Builders of the PDU status record: nothing is out of their reach. From any start, some calls build any given value, whatever its members. A list that can only be added to must start empty, an optional member that can only be given must start absent. *)
Lemma builders_status_reach_all_pf : (forall start x, st_tei start = None -> st_lvc start = None -> st_cei start = None -> st_fti start = None -> st_dti start = None -> st_rai start = None -> st_iai start = None -> st_ism start = None -> st_aii start = None -> exists calls, fold_left PduStatus_do calls start = x).
Proof. repeat match goal with |- _ /\ _ => split end; [exact PduStatus_complete]. Qed.
(*@C58
 Builders of lists of datums and records: nothing is out of their reach. From any start, some calls build any given value, whatever its members. *)
Lemma builders_lists_reach_all_pf : (forall start x, exists calls, fold_left NamedLocationId_do calls start = x) /\
  (forall start x, exists calls, fold_left Relationship_do calls start = x).
Proof. repeat match goal with |- _ /\ _ => split end; [exact NamedLocationId_complete | exact Relationship_complete]. Qed.
(*@C58
 Builders of simulation management PDUs: nothing is out of their reach. From any start, some calls build any given value, whatever its members. *)
Lemma builders_simman_reach_all_pf : (forall start x, exists calls, fold_left Acknowledge_do calls start = x) /\
  (forall start x, exists calls, fold_left AcknowledgeR_do calls start = x) /\
  (forall start x, exists calls, fold_left ActionRequest_do calls start = x) /\
  (forall start x, exists calls, fold_left ActionRequestR_do calls start = x) /\
  (forall start x, exists calls, fold_left ActionResponse_do calls start = x) /\
  (forall start x, exists calls, fold_left ActionResponseR_do calls start = x) /\
  (forall start x, exists calls, fold_left Comment_do calls start = x) /\
  (forall start x, exists calls, fold_left CommentR_do calls start = x) /\
  (forall start x, exists calls, fold_left CreateEntity_do calls start = x) /\
  (forall start x, exists calls, fold_left CreateEntityR_do calls start = x) /\
  (forall start x, exists calls, fold_left Data_do calls start = x) /\
  (forall start x, exists calls, fold_left DataQuery_do calls start = x) /\
  (forall start x, exists calls, fold_left DataQueryR_do calls start = x) /\
  (forall start x, exists calls, fold_left DataR_do calls start = x) /\
  (forall start x, exists calls, fold_left EventReport_do calls start = x) /\
  (forall start x, exists calls, fold_left EventReportR_do calls start = x) /\
  (forall start x, exists calls, fold_left RecordQueryR_do calls start = x) /\
  (forall start x, exists calls, fold_left RecordR_do calls start = x) /\
  (forall start x, exists calls, fold_left RemoveEntity_do calls start = x) /\
  (forall start x, exists calls, fold_left RemoveEntityR_do calls start = x) /\
  (forall start x, exists calls, fold_left SetData_do calls start = x) /\
  (forall start x, exists calls, fold_left SetDataR_do calls start = x) /\
  (forall start x, exists calls, fold_left SetRecordR_do calls start = x) /\
  (forall start x, exists calls, fold_left StartResume_do calls start = x) /\
  (forall start x, exists calls, fold_left StartResumeR_do calls start = x) /\
  (forall start x, exists calls, fold_left StopFreeze_do calls start = x) /\
  (forall start x, exists calls, fold_left StopFreezeR_do calls start = x).
Proof. repeat match goal with |- _ /\ _ => split end; [exact Acknowledge_complete | exact AcknowledgeR_complete | exact ActionRequest_complete | exact ActionRequestR_complete | exact ActionResponse_complete | exact ActionResponseR_complete | exact Comment_complete | exact CommentR_complete | exact CreateEntity_complete | exact CreateEntityR_complete | exact Data_complete | exact DataQuery_complete | exact DataQueryR_complete | exact DataR_complete | exact EventReport_complete | exact EventReportR_complete | exact RecordQueryR_complete | exact RecordR_complete | exact RemoveEntity_complete | exact RemoveEntityR_complete | exact SetData_complete | exact SetDataR_complete | exact SetRecordR_complete | exact StartResume_complete | exact StartResumeR_complete | exact StopFreeze_complete | exact StopFreezeR_complete]. Qed.
(*@C58
 Builders of logistics PDUs: nothing is out of their reach. From any start, some calls build any given value, whatever its members. *)
Lemma builders_logistics_reach_all_pf : (forall start x, exists calls, fold_left Collision_do calls start = x) /\
  (forall start x, exists calls, fold_left CollisionElastic_do calls start = x) /\
  (forall start x, exists calls, fold_left Designator_do calls start = x) /\
  (forall start x, exists calls, fold_left IsPartOf_do calls start = x) /\
  (forall start x, exists calls, fold_left Receiver_do calls start = x) /\
  (forall start x, exists calls, fold_left RepairComplete_do calls start = x) /\
  (forall start x, exists calls, fold_left RepairResponse_do calls start = x) /\
  (forall start x, exists calls, fold_left ResupplyCancel_do calls start = x) /\
  (forall start x, exists calls, fold_left ResupplyOffer_do calls start = x) /\
  (forall start x, exists calls, fold_left ResupplyReceived_do calls start = x) /\
  (forall start x, exists calls, fold_left ServiceRequest_do calls start = x) /\
  (forall start x, exists calls, fold_left TransferOwnership_do calls start = x).
Proof. repeat match goal with |- _ /\ _ => split end; [exact Collision_complete | exact CollisionElastic_complete | exact Designator_complete | exact IsPartOf_complete | exact Receiver_complete | exact RepairComplete_complete | exact RepairResponse_complete | exact ResupplyCancel_complete | exact ResupplyOffer_complete | exact ResupplyReceived_complete | exact ServiceRequest_complete | exact TransferOwnership_complete]. Qed.
(*@C58
 Builders of warfare PDUs: nothing is out of their reach. From any start, some calls build any given value, whatever its members. *)
Lemma builders_warfare_reach_all_pf : (forall start x, exists calls, fold_left Attribute_do calls start = x) /\
  (forall start x, exists calls, fold_left AttributeRecord_do calls start = x) /\
  (forall start x, exists calls, fold_left AttributeRecordSet_do calls start = x) /\
  (forall start x, exists calls, fold_left Detonation_do calls start = x) /\
  (forall start x, exists calls, fold_left EntityStateUpdate_do calls start = x) /\
  (forall start x, exists calls, fold_left Fire_do calls start = x) /\
  (forall start x, exists calls, fold_left Other_do calls start = x) /\
  (forall start x, exists calls, fold_left PropulsionSystemData_do calls start = x) /\
  (forall start x, exists calls, fold_left Sees_do calls start = x) /\
  (forall start x, exists calls, fold_left Signal_do calls start = x) /\
  (forall start x, exists calls, fold_left VectoringNozzleSystemData_do calls start = x).
Proof. repeat match goal with |- _ /\ _ => split end; [exact Attribute_complete | exact AttributeRecord_complete | exact AttributeRecordSet_complete | exact Detonation_complete | exact EntityStateUpdate_complete | exact Fire_complete | exact Other_complete | exact PropulsionSystemData_complete | exact Sees_complete | exact Signal_complete | exact VectoringNozzleSystemData_complete]. Qed.
(*@C58
 Builders of entity information PDUs and their records: nothing is out of their reach. From any start, some calls build any given value, whatever its members. *)
Lemma builders_entity_reach_all_pf : (forall start x, exists calls, fold_left AggregateState_do calls start = x) /\
  (forall start x, exists calls, fold_left AggregateType_do calls start = x) /\
  (forall start x, exists calls, fold_left DrParameters_do calls start = x) /\
  (forall start x, exists calls, fold_left EntityState_do calls start = x) /\
  (forall start x, exists calls, fold_left SilentAggregate_do calls start = x) /\
  (forall start x, exists calls, fold_left SilentEntity_do calls start = x).
Proof. repeat match goal with |- _ /\ _ => split end; [exact AggregateState_complete | exact AggregateType_complete | exact DrParameters_complete | exact EntityState_complete | exact SilentAggregate_complete | exact SilentEntity_complete]. Qed.
(*@C58
 Builders of emission PDUs and their records: nothing is out of their reach. From any start, some calls build any given value, whatever its members. A list that can only be added to must start empty, an optional member that can only be given must start absent. *)
Lemma builders_emission_reach_all_pf : (forall start x, exists calls, fold_left APA_do calls start = x) /\
  (forall start x, exists calls, fold_left AcousticEmitterSystem_do calls start = x) /\
  (forall start x, be_tracks start = [] -> exists calls, fold_left Beam_do calls start = x) /\
  (forall start x, EE_systems start = [] -> exists calls, fold_left ElectromagneticEmission_do calls start = x) /\
  (forall start x, es_beams start = [] -> exists calls, fold_left EmitterSystem_do calls start = x) /\
  (forall start x, exists calls, fold_left FundamentalParameterData_do calls start = x) /\
  (forall start x, exists calls, fold_left JammingTechnique_do calls start = x) /\
  (forall start x, exists calls, fold_left PropulsionPlant_do calls start = x) /\
  (forall start x, exists calls, fold_left Shaft_do calls start = x) /\
  (forall start x, exists calls, fold_left TrackJam_do calls start = x) /\
  (forall start x, exists calls, fold_left UABeam_do calls start = x) /\
  (forall start x, exists calls, fold_left UAEmitterSystem_do calls start = x) /\
  (forall start x, exists calls, fold_left UAFundamental_do calls start = x) /\
  (forall start x, exists calls, fold_left UnderwaterAcoustic_do calls start = x).
Proof. repeat match goal with |- _ /\ _ => split end; [exact APA_complete | exact AcousticEmitterSystem_complete | exact Beam_complete | exact ElectromagneticEmission_complete | exact EmitterSystem_complete | exact FundamentalParameterData_complete | exact JammingTechnique_complete | exact PropulsionPlant_complete | exact Shaft_complete | exact TrackJam_complete | exact UABeam_complete | exact UAEmitterSystem_complete | exact UAFundamental_complete | exact UnderwaterAcoustic_complete]. Qed.
(*@C58
 Builders of radio PDUs and their records: nothing is out of their reach. From any start, some calls build any given value, whatever its members. A list that can only be added to must start empty, an optional member that can only be given must start absent. *)
Lemma builders_radio_reach_all_pf : (forall start x, exists calls, fold_left BeamAntennaPattern_do calls start = x) /\
  (forall start x, exists calls, fold_left IsGroupOf_do calls start = x) /\
  (forall start x, exists calls, fold_left ModulationType_do calls start = x) /\
  (forall start x, ss_hopping start = false -> ss_noise start = false -> ss_time start = false -> exists calls, fold_left SpreadSpectrum_do calls start = x) /\
  (forall start x, Transmitter_modulation_parameters start = None -> Transmitter_antenna_pattern start = None -> exists calls, fold_left Transmitter_do calls start = x) /\
  (forall start x, exists calls, fold_left VTP_do calls start = x).
Proof. repeat match goal with |- _ /\ _ => split end; [exact BeamAntennaPattern_complete | exact IsGroupOf_complete | exact ModulationType_complete | exact SpreadSpectrum_complete | exact Transmitter_complete | exact VTP_complete]. Qed.
(*@C58
 Builders of IFF and its layers: nothing is out of their reach. From any start, some calls build any given value, whatever its members. A list that can only be added to must start empty, an optional member that can only be given must start absent. *)
Lemma builders_iff_reach_all_pf : (forall start x, exists calls, fold_left FundOpData_do calls start = x) /\
  (forall start x, Iff_layer_2 start = None -> Iff_layer_3 start = None -> Iff_layer_4 start = None -> Iff_layer_5 start = None -> exists calls, fold_left Iff_do calls start = x) /\
  (forall start x, exists calls, fold_left IffDataRecord_do calls start = x) /\
  (forall start x, exists calls, fold_left IffParameter_do calls start = x) /\
  (forall start x, exists calls, fold_left IffLayer2_do calls start = x) /\
  (forall start x, exists calls, fold_left IffLayer3_do calls start = x) /\
  (forall start x, exists calls, fold_left IffLayer4_do calls start = x) /\
  (forall start x, exists calls, fold_left IffLayer5_do calls start = x) /\
  (forall start x, exists calls, fold_left LayerHeader_do calls start = x) /\
  (forall start x, exists calls, fold_left Mode5Interrogator_do calls start = x) /\
  (forall start x, exists calls, fold_left Mode5Transponder_do calls start = x) /\
  (forall start x, exists calls, fold_left ModeSInterrogator_do calls start = x) /\
  (forall start x, exists calls, fold_left ModeSTransponder_do calls start = x) /\
  (forall start x, exists calls, fold_left SystemId_do calls start = x).
Proof. repeat match goal with |- _ /\ _ => split end; [exact FundOpData_complete | exact Iff_complete | exact IffDataRecord_complete | exact IffParameter_complete | exact IffLayer2_complete | exact IffLayer3_complete | exact IffLayer4_complete | exact IffLayer5_complete | exact LayerHeader_complete | exact Mode5Interrogator_complete | exact Mode5Transponder_complete | exact ModeSInterrogator_complete | exact ModeSTransponder_complete | exact SystemId_complete]. Qed.
(*@C58
 Builders of the status records of IFF, flag by flag: nothing is out of their reach. From any start, some calls build any given value, whatever its members. A list that can only be added to must start empty, an optional member that can only be given must start absent. *)
Lemma builders_iff_words_reach_all_pf : (forall start x, co_change start = false -> co_specific_1 start = false -> co_specific_2 start = false -> co_heartbeat start = false -> co_transponder start = false -> co_simulation start = false -> co_interactive start = false -> co_test start = false -> exists calls, fold_left ChangeOptions_do calls start = x) /\
  (forall start x, exists calls, fold_left DapSource_do calls start = x) /\
  (forall start x, exists calls, fold_left EnhancedMode1Code_do calls start = x) /\
  (forall start x, exists calls, fold_left InformationLayers_do calls start = x) /\
  (forall start x, exists calls, fold_left Mode5InterrogatorStatus_do calls start = x) /\
  (forall start x, exists calls, fold_left MessageFormats_do calls start = x) /\
  (forall start x, exists calls, fold_left Mode5TransponderStatus_do calls start = x) /\
  (forall start x, exists calls, fold_left SupplementalData_do calls start = x) /\
  (forall start x, exists calls, fold_left ModeSAltitude_do calls start = x) /\
  (forall start x, exists calls, fold_left ModeSInterrogatorStatus_do calls start = x) /\
  (forall start x, exists calls, fold_left ModeSLevels_do calls start = x) /\
  (forall start x, exists calls, fold_left ModeSTransponderStatus_do calls start = x) /\
  (forall start x, exists calls, fold_left SystemStatus_do calls start = x).
Proof. repeat match goal with |- _ /\ _ => split end; [exact ChangeOptions_complete | exact DapSource_complete | exact EnhancedMode1Code_complete | exact InformationLayers_complete | exact Mode5InterrogatorStatus_complete | exact MessageFormats_complete | exact Mode5TransponderStatus_complete | exact SupplementalData_complete | exact ModeSAltitude_complete | exact ModeSInterrogatorStatus_complete | exact ModeSLevels_complete | exact ModeSTransponderStatus_complete | exact SystemStatus_complete]. Qed.
Lemma RecordSet_built start calls : RecordSet_given start calls (fold_left RecordSet_do calls start).
Proof. unfold RecordSet_given. revert start calls. built. Qed.
Lemma uniform_kept n calls : 0 <= n < 65536 -> Forall (fun c => Forall (fun r => zlen r = n) (records_in c)) calls ->
  forall x, (rs_records x <> [] -> rs_length_bytes x = n) -> Forall (fun r => zlen r = n) (rs_records x) -> uniform (fold_left RecordSet_do calls x).
Proof.
  intros N G. induction G as [|c r Hc _ IH]; intros x L F.
  - cbn [fold_left]. unfold uniform. destruct (rs_records x) as [|a l] eqn:E; [constructor|]. rewrite L by discriminate. exact F.
  - cbn [fold_left]. apply IH; destruct c as [v|v|v|v]; cbn [RecordSet_do rs_records rs_length_bytes records_in] in *; try assumption.
    + intros _. inversion Hc; subst. apply Z.mod_small. exact N.
    + intros Nv. destruct v as [|a l]; [congruence|]. inversion Hc; subst. apply Z.mod_small. exact N.
    + apply Forall_app. split; assumption.
Qed.
(*@C58
 Record sets: after any calls, the identifier and serial number are those given last, and the records are those given last and the ones added since. *)
Lemma builders_record_set_pf : forall start calls, RecordSet_given start calls (fold_left RecordSet_do calls start).
Proof. exact RecordSet_built. Qed.
(*@C58
 Record sets: a set made from the empty one by any calls, in which every record given has one and the same length below 65536, says that length of all its
 records. *)
Lemma builders_record_set_uniform_pf : forall start calls n, rs_records start = [] -> 0 <= n < 65536 ->
  (forall c r, In c calls -> In r (records_in c) -> zlen r = n) -> uniform (fold_left RecordSet_do calls start).
Proof.
  intros start calls n E N G. apply uniform_kept with (n := n); [exact N| |rewrite E; congruence|rewrite E; constructor].
  apply Forall_forall. intros c Hc. apply Forall_forall. intros r Hr. exact (G c r Hc Hr).
Qed.
(*@C58
 Refutation: nothing keeps the records of a set alike. Adding two records of different lengths to any set gives one whose stated length is wrong for the first
 (with [as u16] it is wrong even for a single record of 65536 octets or more). *)
Lemma builders_record_set_refuted_pf : forall start a b, zlen a <> zlen b \/ 65536 <= zlen a ->
  ~ uniform (fold_left RecordSet_do [RecordSet_with_record a; RecordSet_with_record b] start).
Proof.
  intros start a b H U. unfold uniform in U. cbn [fold_left RecordSet_do rs_records rs_length_bytes] in U. rewrite <- app_assoc in U. apply Forall_app in U. destruct U as [_ U].
  cbn [app] in U. inversion U as [|? ? A U']; subst. inversion U' as [|? ? B _]; subst. assert (0 <= zlen b mod 65536 < 65536) by (apply Z.mod_pos_bound; lia). lia.
Qed.
Lemma PduHeader_run_total m calls : (forall n, In (PduHeader_with_length n) calls -> n <= 65523) ->
  forall start, exists x, PduHeader_run m calls start = Some x /\ x = fold_left (fun x c => match PduHeader_do m x c with Some y => y | None => x end) calls start.
Proof.
  intros H. induction calls as [|c r IH]; intros start; [eexists; split; reflexivity|]. cbn [PduHeader_run fold_left].
  assert (R : forall n, In (PduHeader_with_length n) r -> n <= 65523) by (intros n Hn; apply H; right; exact Hn).
  destruct c as [v|v|v|v]; cbn [PduHeader_do]; try apply (IH R).
  assert (v <= 65523) by (apply H; left; reflexivity). destruct (12 + v <? 65536) eqn:E; [apply (IH R)|apply Z.ltb_ge in E; lia].
Qed.
(*@C58
 Headers: any calls, in a debug or release build, whose body lengths are at most 65523, change only what they name: the type with its protocol family, the
 time stamp, the length (the body's and twelve for the header) and the status; version, exercise and padding stay. *)
Lemma builders_header_pf : forall m start calls, (forall n, In (PduHeader_with_length n) calls -> n <= 65523) ->
  exists x, PduHeader_run m calls start = Some x /\ PduHeader_given start calls x.
Proof.
  intros m start calls H. destruct (PduHeader_run_total m calls H start) as (x & R & ->). exists (fold_left (fun x c => match PduHeader_do m x c with Some y => y | None => x end) calls start).
  split; [exact R|]. clear R. unfold PduHeader_given.
  assert (K : forall {V} (get : PduHeader -> V) about, (forall x c, In c calls -> get (match PduHeader_do m x c with Some y => y | None => x end) = match about c with Some v => v | None => get x end) ->
    get (fold_left (fun x c => match PduHeader_do m x c with Some y => y | None => x end) calls start) = latest about calls (get start)).
  { clear H. intros V get about. revert start. induction calls as [|c r IH] using rev_ind; intros start Hs; [reflexivity|].
    rewrite fold_left_app. cbn [fold_left]. rewrite (Hs _ c) by (apply in_or_app; right; left; reflexivity). unfold latest. rewrite rev_app_distr. cbn [rev app find].
    destruct (about c) eqn:E; [rewrite E; reflexivity|]. apply IH. intros x c' I. apply Hs. apply in_or_app. left. exact I. }
  assert (N : forall {V} (get : PduHeader -> V), (forall x c, In c calls -> get (match PduHeader_do m x c with Some y => y | None => x end) = get x) ->
    get (fold_left (fun x c => match PduHeader_do m x c with Some y => y | None => x end) calls start) = get start).
  { intros V get Hs. rewrite (K V get (fun _ => None) Hs). unfold latest.
    assert (Q : forall l : list PduHeader_call, find (fun _ => false) l = None) by (induction l; auto). rewrite Q. reflexivity. }
  assert (U : forall x n, In (PduHeader_with_length n) calls -> PduHeader_do m x (PduHeader_with_length n) = Some (MkPduHeader (h_version x) (h_exercise x) (h_type x) (h_family x) (h_time x) (12 + n) (h_status x) (h_padding x))).
  { intros x n I. specialize (H n I). cbn [PduHeader_do]. destruct (12 + n <? 65536) eqn:E; [reflexivity|apply Z.ltb_ge in E; lia]. }
  repeat match goal with |- _ /\ _ => split end; first [apply N|apply K]; intros x [v|v|v|v] I; first [rewrite (U x v I); reflexivity|reflexivity].
Qed.
(*@C58
 Refutation: a body length above 65523 (with its header beyond what 16 bits hold) panics in a debug build, and in a release build gives a length that is
 smaller than the header. *)
Lemma builders_header_length_refuted_pf : forall start n, 65523 < n < 65536 ->
  PduHeader_run Checked [PduHeader_with_length n] start = None /\
  exists x, PduHeader_run Wrapping [PduHeader_with_length n] start = Some x /\ h_length x = n - 65524 /\ h_length x < 12.
Proof.
  intros start n H. cbn [PduHeader_run PduHeader_do]. destruct (12 + n <? 65536) eqn:E; [apply Z.ltb_lt in E; lia|]. split; [reflexivity|]. eexists. split; [reflexivity|]. cbn [h_length].
  replace (12 + n) with ((n - 65524) + 1 * 65536) by lia. rewrite Z.mod_add, Z.mod_small by lia. lia.
Qed.
(*@C58
 Refutation: the builder's capability flags are always those of a land platform, so an entity state of any other kind built with them does not come back from a
 version 7 round trip as it was: no version 7 parser makes land platform capabilities for it. *)
Lemma builders_capabilities_refuted_pf : forall start calls a f r p kind domain, kind <> 0 -> appearance_kind kind domain <> ALand ->
  let x := fold_left EntityState_do (calls ++ [EntityState_with_capabilities_flags a f r p]) start in
  forall w, EntityState_capabilities x <> capabilities_from_bytes w kind domain.
Proof.
  intros start calls a f r p kind domain K N x w. unfold x. rewrite fold_left_app. cbn [fold_left EntityState_do EntityState_capabilities]. rewrite flags_word. unfold capabilities_from_bytes.
  destruct (kind =? 0) eqn:E; [apply Z.eqb_eq in E; contradiction|]. intros Q. injection Q as Q1 _. congruence.
Qed.
(*@ex*)
(** A fire PDU built by four calls, one of them repeated, and the members nobody named. *)
Example builders_example : forall start, let x := fold_left Fire_do [Fire_with_range 7; Fire_with_event_id (MkEventId (MkSimulationAddress 1 2) 3); Fire_with_range 9; Fire_with_expendable_descriptor (MkEntityType 2 0 0 0 0 0 0)] start in
  Fire_range x = 9 /\ Fire_event_id x = MkEventId (MkSimulationAddress 1 2) 3 /\ Fire_descriptor x = DExpendable (MkEntityType 2 0 0 0 0 0 0) /\ Fire_velocity x = Fire_velocity start.
Proof. intros start. repeat split. Qed.
(*@ex*)
Example builders_refuted_example : 65523 < 65530 < 65536 /\ appearance_kind 1 2 <> ALand /\ zlen [1; 2] <> zlen [3].
Proof. repeat split; discriminate. Qed.

