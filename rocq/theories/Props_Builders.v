(** * Properties: Builders

    Theorems only: each is closed by the lemma of the same name in L_Builders.v. *)
From Coq Require Import ZArith List Lia Bool String Ascii.
From Verif Require Import Base DisCommon IffWords DisHeader DisLists DisSimman DisLogistics DisWarfare DisEntity DisEmission DisRadio DisIff DisPdu DisPacket BuilderCalls Builders SpecBuilders L_Builders.
Import ListNotations. Open Scope Z_scope.

(** C58. Builders of the records that several PDUs share: after any calls in any order, starting from anything, every member has the value of the last call that names it (or what was
 added since), or its value at the start when no call names it. *)
Theorem builders_records : (forall start calls, ArticulatedPart_given start calls (fold_left ArticulatedPart_do calls start)) /\
  (forall start calls, AttachedPart_given start calls (fold_left AttachedPart_do calls start)) /\
  (forall start calls, BeamData_given start calls (fold_left BeamData_do calls start)) /\
  (forall start calls, EntityAssociation_given start calls (fold_left EntityAssociation_do calls start)) /\
  (forall start calls, EntityType_given start calls (fold_left EntityType_do calls start)) /\
  (forall start calls, EntityTypeParameter_given start calls (fold_left EntityTypeParameter_do calls start)) /\
  (forall start calls, Location_given start calls (fold_left Location_do calls start)) /\
  (forall start calls, MunitionDescriptor_given start calls (fold_left MunitionDescriptor_do calls start)) /\
  (forall start calls, Orientation_given start calls (fold_left Orientation_do calls start)) /\
  (forall start calls, SeparationParameter_given start calls (fold_left SeparationParameter_do calls start)) /\
  (forall start calls, SupplyQuantity_given start calls (fold_left SupplyQuantity_do calls start)) /\
  (forall start calls, VectorF32_given start calls (fold_left VectorF32_do calls start)).
Proof. exact builders_records_pf. Qed.
Print Assumptions builders_records.

(** C58. Builders of the PDU status record: after any calls in any order, starting from anything, every member has the value of the last call that names it (or what was
 added since), or its value at the start when no call names it. *)
Theorem builders_status : (forall start calls, PduStatus_given start calls (fold_left PduStatus_do calls start)).
Proof. exact builders_status_pf. Qed.
Print Assumptions builders_status.

(** C58. Builders of lists of datums and records: after any calls in any order, starting from anything, every member has the value of the last call that names it (or what was
 added since), or its value at the start when no call names it. *)
Theorem builders_lists : (forall start calls, NamedLocationId_given start calls (fold_left NamedLocationId_do calls start)) /\
  (forall start calls, Relationship_given start calls (fold_left Relationship_do calls start)).
Proof. exact builders_lists_pf. Qed.
Print Assumptions builders_lists.

(** C58. Builders of simulation management PDUs: after any calls in any order, starting from anything, every member has the value of the last call that names it (or what was
 added since), or its value at the start when no call names it. *)
Theorem builders_simman : (forall start calls, Acknowledge_given start calls (fold_left Acknowledge_do calls start)) /\
  (forall start calls, AcknowledgeR_given start calls (fold_left AcknowledgeR_do calls start)) /\
  (forall start calls, ActionRequest_given start calls (fold_left ActionRequest_do calls start)) /\
  (forall start calls, ActionRequestR_given start calls (fold_left ActionRequestR_do calls start)) /\
  (forall start calls, ActionResponse_given start calls (fold_left ActionResponse_do calls start)) /\
  (forall start calls, ActionResponseR_given start calls (fold_left ActionResponseR_do calls start)) /\
  (forall start calls, Comment_given start calls (fold_left Comment_do calls start)) /\
  (forall start calls, CommentR_given start calls (fold_left CommentR_do calls start)) /\
  (forall start calls, CreateEntity_given start calls (fold_left CreateEntity_do calls start)) /\
  (forall start calls, CreateEntityR_given start calls (fold_left CreateEntityR_do calls start)) /\
  (forall start calls, Data_given start calls (fold_left Data_do calls start)) /\
  (forall start calls, DataQuery_given start calls (fold_left DataQuery_do calls start)) /\
  (forall start calls, DataQueryR_given start calls (fold_left DataQueryR_do calls start)) /\
  (forall start calls, DataR_given start calls (fold_left DataR_do calls start)) /\
  (forall start calls, EventReport_given start calls (fold_left EventReport_do calls start)) /\
  (forall start calls, EventReportR_given start calls (fold_left EventReportR_do calls start)) /\
  (forall start calls, RecordQueryR_given start calls (fold_left RecordQueryR_do calls start)) /\
  (forall start calls, RecordR_given start calls (fold_left RecordR_do calls start)) /\
  (forall start calls, RemoveEntity_given start calls (fold_left RemoveEntity_do calls start)) /\
  (forall start calls, RemoveEntityR_given start calls (fold_left RemoveEntityR_do calls start)) /\
  (forall start calls, SetData_given start calls (fold_left SetData_do calls start)) /\
  (forall start calls, SetDataR_given start calls (fold_left SetDataR_do calls start)) /\
  (forall start calls, SetRecordR_given start calls (fold_left SetRecordR_do calls start)) /\
  (forall start calls, StartResume_given start calls (fold_left StartResume_do calls start)) /\
  (forall start calls, StartResumeR_given start calls (fold_left StartResumeR_do calls start)) /\
  (forall start calls, StopFreeze_given start calls (fold_left StopFreeze_do calls start)) /\
  (forall start calls, StopFreezeR_given start calls (fold_left StopFreezeR_do calls start)).
Proof. exact builders_simman_pf. Qed.
Print Assumptions builders_simman.

(** C58. Builders of logistics PDUs: after any calls in any order, starting from anything, every member has the value of the last call that names it (or what was
 added since), or its value at the start when no call names it. *)
Theorem builders_logistics : (forall start calls, Collision_given start calls (fold_left Collision_do calls start)) /\
  (forall start calls, CollisionElastic_given start calls (fold_left CollisionElastic_do calls start)) /\
  (forall start calls, Designator_given start calls (fold_left Designator_do calls start)) /\
  (forall start calls, IsPartOf_given start calls (fold_left IsPartOf_do calls start)) /\
  (forall start calls, Receiver_given start calls (fold_left Receiver_do calls start)) /\
  (forall start calls, RepairComplete_given start calls (fold_left RepairComplete_do calls start)) /\
  (forall start calls, RepairResponse_given start calls (fold_left RepairResponse_do calls start)) /\
  (forall start calls, ResupplyCancel_given start calls (fold_left ResupplyCancel_do calls start)) /\
  (forall start calls, ResupplyOffer_given start calls (fold_left ResupplyOffer_do calls start)) /\
  (forall start calls, ResupplyReceived_given start calls (fold_left ResupplyReceived_do calls start)) /\
  (forall start calls, ServiceRequest_given start calls (fold_left ServiceRequest_do calls start)) /\
  (forall start calls, TransferOwnership_given start calls (fold_left TransferOwnership_do calls start)).
Proof. exact builders_logistics_pf. Qed.
Print Assumptions builders_logistics.

(** C58. Builders of warfare PDUs: after any calls in any order, starting from anything, every member has the value of the last call that names it (or what was
 added since), or its value at the start when no call names it. *)
Theorem builders_warfare : (forall start calls, Attribute_given start calls (fold_left Attribute_do calls start)) /\
  (forall start calls, AttributeRecord_given start calls (fold_left AttributeRecord_do calls start)) /\
  (forall start calls, AttributeRecordSet_given start calls (fold_left AttributeRecordSet_do calls start)) /\
  (forall start calls, Detonation_given start calls (fold_left Detonation_do calls start)) /\
  (forall start calls, EntityStateUpdate_given start calls (fold_left EntityStateUpdate_do calls start)) /\
  (forall start calls, Fire_given start calls (fold_left Fire_do calls start)) /\
  (forall start calls, Other_given start calls (fold_left Other_do calls start)) /\
  (forall start calls, PropulsionSystemData_given start calls (fold_left PropulsionSystemData_do calls start)) /\
  (forall start calls, Sees_given start calls (fold_left Sees_do calls start)) /\
  (forall start calls, Signal_given start calls (fold_left Signal_do calls start)) /\
  (forall start calls, VectoringNozzleSystemData_given start calls (fold_left VectoringNozzleSystemData_do calls start)).
Proof. exact builders_warfare_pf. Qed.
Print Assumptions builders_warfare.

(** C58. Builders of entity information PDUs and their records: after any calls in any order, starting from anything, every member has the value of the last call that names it (or what was
 added since), or its value at the start when no call names it. *)
Theorem builders_entity : (forall start calls, AggregateState_given start calls (fold_left AggregateState_do calls start)) /\
  (forall start calls, AggregateType_given start calls (fold_left AggregateType_do calls start)) /\
  (forall start calls, DrParameters_given start calls (fold_left DrParameters_do calls start)) /\
  (forall start calls, EntityState_given start calls (fold_left EntityState_do calls start)) /\
  (forall start calls, SilentAggregate_given start calls (fold_left SilentAggregate_do calls start)) /\
  (forall start calls, SilentEntity_given start calls (fold_left SilentEntity_do calls start)).
Proof. exact builders_entity_pf. Qed.
Print Assumptions builders_entity.

(** C58. Builders of emission PDUs and their records: after any calls in any order, starting from anything, every member has the value of the last call that names it (or what was
 added since), or its value at the start when no call names it. *)
Theorem builders_emission : (forall start calls, APA_given start calls (fold_left APA_do calls start)) /\
  (forall start calls, AcousticEmitterSystem_given start calls (fold_left AcousticEmitterSystem_do calls start)) /\
  (forall start calls, Beam_given start calls (fold_left Beam_do calls start)) /\
  (forall start calls, ElectromagneticEmission_given start calls (fold_left ElectromagneticEmission_do calls start)) /\
  (forall start calls, EmitterSystem_given start calls (fold_left EmitterSystem_do calls start)) /\
  (forall start calls, FundamentalParameterData_given start calls (fold_left FundamentalParameterData_do calls start)) /\
  (forall start calls, JammingTechnique_given start calls (fold_left JammingTechnique_do calls start)) /\
  (forall start calls, PropulsionPlant_given start calls (fold_left PropulsionPlant_do calls start)) /\
  (forall start calls, Shaft_given start calls (fold_left Shaft_do calls start)) /\
  (forall start calls, TrackJam_given start calls (fold_left TrackJam_do calls start)) /\
  (forall start calls, UABeam_given start calls (fold_left UABeam_do calls start)) /\
  (forall start calls, UAEmitterSystem_given start calls (fold_left UAEmitterSystem_do calls start)) /\
  (forall start calls, UAFundamental_given start calls (fold_left UAFundamental_do calls start)) /\
  (forall start calls, UnderwaterAcoustic_given start calls (fold_left UnderwaterAcoustic_do calls start)).
Proof. exact builders_emission_pf. Qed.
Print Assumptions builders_emission.

(** C58. Builders of radio PDUs and their records: after any calls in any order, starting from anything, every member has the value of the last call that names it (or what was
 added since), or its value at the start when no call names it. *)
Theorem builders_radio : (forall start calls, BeamAntennaPattern_given start calls (fold_left BeamAntennaPattern_do calls start)) /\
  (forall start calls, IsGroupOf_given start calls (fold_left IsGroupOf_do calls start)) /\
  (forall start calls, ModulationType_given start calls (fold_left ModulationType_do calls start)) /\
  (forall start calls, SpreadSpectrum_given start calls (fold_left SpreadSpectrum_do calls start)) /\
  (forall start calls, Transmitter_given start calls (fold_left Transmitter_do calls start)) /\
  (forall start calls, VTP_given start calls (fold_left VTP_do calls start)).
Proof. exact builders_radio_pf. Qed.
Print Assumptions builders_radio.

(** C58. Builders of IFF and its layers: after any calls in any order, starting from anything, every member has the value of the last call that names it (or what was
 added since), or its value at the start when no call names it. *)
Theorem builders_iff : (forall start calls, FundOpData_given start calls (fold_left FundOpData_do calls start)) /\
  (forall start calls, Iff_given start calls (fold_left Iff_do calls start)) /\
  (forall start calls, IffDataRecord_given start calls (fold_left IffDataRecord_do calls start)) /\
  (forall start calls, IffParameter_given start calls (fold_left IffParameter_do calls start)) /\
  (forall start calls, IffLayer2_given start calls (fold_left IffLayer2_do calls start)) /\
  (forall start calls, IffLayer3_given start calls (fold_left IffLayer3_do calls start)) /\
  (forall start calls, IffLayer4_given start calls (fold_left IffLayer4_do calls start)) /\
  (forall start calls, IffLayer5_given start calls (fold_left IffLayer5_do calls start)) /\
  (forall start calls, LayerHeader_given start calls (fold_left LayerHeader_do calls start)) /\
  (forall start calls, Mode5Interrogator_given start calls (fold_left Mode5Interrogator_do calls start)) /\
  (forall start calls, Mode5Transponder_given start calls (fold_left Mode5Transponder_do calls start)) /\
  (forall start calls, ModeSInterrogator_given start calls (fold_left ModeSInterrogator_do calls start)) /\
  (forall start calls, ModeSTransponder_given start calls (fold_left ModeSTransponder_do calls start)) /\
  (forall start calls, SystemId_given start calls (fold_left SystemId_do calls start)).
Proof. exact builders_iff_pf. Qed.
Print Assumptions builders_iff.

(** C58. Builders of the status records of IFF, flag by flag: after any calls in any order, starting from anything, every member has the value of the last call that names it (or what was
 added since), or its value at the start when no call names it. *)
Theorem builders_iff_words : (forall start calls, ChangeOptions_given start calls (fold_left ChangeOptions_do calls start)) /\
  (forall start calls, DapSource_given start calls (fold_left DapSource_do calls start)) /\
  (forall start calls, EnhancedMode1Code_given start calls (fold_left EnhancedMode1Code_do calls start)) /\
  (forall start calls, InformationLayers_given start calls (fold_left InformationLayers_do calls start)) /\
  (forall start calls, Mode5InterrogatorStatus_given start calls (fold_left Mode5InterrogatorStatus_do calls start)) /\
  (forall start calls, MessageFormats_given start calls (fold_left MessageFormats_do calls start)) /\
  (forall start calls, Mode5TransponderStatus_given start calls (fold_left Mode5TransponderStatus_do calls start)) /\
  (forall start calls, SupplementalData_given start calls (fold_left SupplementalData_do calls start)) /\
  (forall start calls, ModeSAltitude_given start calls (fold_left ModeSAltitude_do calls start)) /\
  (forall start calls, ModeSInterrogatorStatus_given start calls (fold_left ModeSInterrogatorStatus_do calls start)) /\
  (forall start calls, ModeSLevels_given start calls (fold_left ModeSLevels_do calls start)) /\
  (forall start calls, ModeSTransponderStatus_given start calls (fold_left ModeSTransponderStatus_do calls start)) /\
  (forall start calls, SystemStatus_given start calls (fold_left SystemStatus_do calls start)).
Proof. exact builders_iff_words_pf. Qed.
Print Assumptions builders_iff_words.

(** C58. Builders of the records that several PDUs share: nothing is out of their reach. From any start, some calls build any given value, whatever its members. *)
Theorem builders_records_reach_all : (forall start x, exists calls, fold_left ArticulatedPart_do calls start = x) /\
  (forall start x, exists calls, fold_left AttachedPart_do calls start = x) /\
  (forall start x, exists calls, fold_left BeamData_do calls start = x) /\
  (forall start x, exists calls, fold_left EntityAssociation_do calls start = x) /\
  (forall start x, exists calls, fold_left EntityType_do calls start = x) /\
  (forall start x, exists calls, fold_left EntityTypeParameter_do calls start = x) /\
  (forall start x, exists calls, fold_left Location_do calls start = x) /\
  (forall start x, exists calls, fold_left MunitionDescriptor_do calls start = x) /\
  (forall start x, exists calls, fold_left Orientation_do calls start = x) /\
  (forall start x, exists calls, fold_left SeparationParameter_do calls start = x) /\
  (forall start x, exists calls, fold_left SupplyQuantity_do calls start = x) /\
  (forall start x, exists calls, fold_left VectorF32_do calls start = x).
Proof. exact builders_records_reach_all_pf. Qed.
Print Assumptions builders_records_reach_all.

(** C58. Builders of the PDU status record: nothing is out of their reach. From any start, some calls build any given value, whatever its members. A list that can only be added to must start empty, an optional member that can only be given must start absent. *)
Theorem builders_status_reach_all : (forall start x, st_tei start = None -> st_lvc start = None -> st_cei start = None -> st_fti start = None -> st_dti start = None -> st_rai start = None -> st_iai start = None -> st_ism start = None -> st_aii start = None -> exists calls, fold_left PduStatus_do calls start = x).
Proof. exact builders_status_reach_all_pf. Qed.
Print Assumptions builders_status_reach_all.

(** C58. Builders of lists of datums and records: nothing is out of their reach. From any start, some calls build any given value, whatever its members. *)
Theorem builders_lists_reach_all : (forall start x, exists calls, fold_left NamedLocationId_do calls start = x) /\
  (forall start x, exists calls, fold_left Relationship_do calls start = x).
Proof. exact builders_lists_reach_all_pf. Qed.
Print Assumptions builders_lists_reach_all.

(** C58. Builders of simulation management PDUs: nothing is out of their reach. From any start, some calls build any given value, whatever its members. *)
Theorem builders_simman_reach_all : (forall start x, exists calls, fold_left Acknowledge_do calls start = x) /\
  (forall start x, exists calls, fold_left AcknowledgeR_do calls start = x) /\
  (forall start x, exists calls, fold_left ActionRequest_do calls start = x) /\
  (forall start x, exists calls, fold_left ActionRequestR_do calls start = x) /\
  (forall start x, exists calls, fold_left ActionResponse_do calls start = x) /\
  (forall start x, exists calls, fold_left ActionResponseR_do calls start = x) /\
  (forall start x, exists calls, fold_left Comment_do calls start = x) /\
  (forall start x, exists calls, fold_left CommentR_do calls start = x) /\
  (forall start x, exists calls, fold_left CreateEntity_do calls start = x) /\
  (forall start x, exists calls, fold_left CreateEntityR_do calls start = x) /\
  (forall start x, exists calls, fold_left Data_do calls start = x) /\
  (forall start x, exists calls, fold_left DataQuery_do calls start = x) /\
  (forall start x, exists calls, fold_left DataQueryR_do calls start = x) /\
  (forall start x, exists calls, fold_left DataR_do calls start = x) /\
  (forall start x, exists calls, fold_left EventReport_do calls start = x) /\
  (forall start x, exists calls, fold_left EventReportR_do calls start = x) /\
  (forall start x, exists calls, fold_left RecordQueryR_do calls start = x) /\
  (forall start x, exists calls, fold_left RecordR_do calls start = x) /\
  (forall start x, exists calls, fold_left RemoveEntity_do calls start = x) /\
  (forall start x, exists calls, fold_left RemoveEntityR_do calls start = x) /\
  (forall start x, exists calls, fold_left SetData_do calls start = x) /\
  (forall start x, exists calls, fold_left SetDataR_do calls start = x) /\
  (forall start x, exists calls, fold_left SetRecordR_do calls start = x) /\
  (forall start x, exists calls, fold_left StartResume_do calls start = x) /\
  (forall start x, exists calls, fold_left StartResumeR_do calls start = x) /\
  (forall start x, exists calls, fold_left StopFreeze_do calls start = x) /\
  (forall start x, exists calls, fold_left StopFreezeR_do calls start = x).
Proof. exact builders_simman_reach_all_pf. Qed.
Print Assumptions builders_simman_reach_all.

(** C58. Builders of logistics PDUs: nothing is out of their reach. From any start, some calls build any given value, whatever its members. *)
Theorem builders_logistics_reach_all : (forall start x, exists calls, fold_left Collision_do calls start = x) /\
  (forall start x, exists calls, fold_left CollisionElastic_do calls start = x) /\
  (forall start x, exists calls, fold_left Designator_do calls start = x) /\
  (forall start x, exists calls, fold_left IsPartOf_do calls start = x) /\
  (forall start x, exists calls, fold_left Receiver_do calls start = x) /\
  (forall start x, exists calls, fold_left RepairComplete_do calls start = x) /\
  (forall start x, exists calls, fold_left RepairResponse_do calls start = x) /\
  (forall start x, exists calls, fold_left ResupplyCancel_do calls start = x) /\
  (forall start x, exists calls, fold_left ResupplyOffer_do calls start = x) /\
  (forall start x, exists calls, fold_left ResupplyReceived_do calls start = x) /\
  (forall start x, exists calls, fold_left ServiceRequest_do calls start = x) /\
  (forall start x, exists calls, fold_left TransferOwnership_do calls start = x).
Proof. exact builders_logistics_reach_all_pf. Qed.
Print Assumptions builders_logistics_reach_all.

(** C58. Builders of warfare PDUs: nothing is out of their reach. From any start, some calls build any given value, whatever its members. *)
Theorem builders_warfare_reach_all : (forall start x, exists calls, fold_left Attribute_do calls start = x) /\
  (forall start x, exists calls, fold_left AttributeRecord_do calls start = x) /\
  (forall start x, exists calls, fold_left AttributeRecordSet_do calls start = x) /\
  (forall start x, exists calls, fold_left Detonation_do calls start = x) /\
  (forall start x, exists calls, fold_left EntityStateUpdate_do calls start = x) /\
  (forall start x, exists calls, fold_left Fire_do calls start = x) /\
  (forall start x, exists calls, fold_left Other_do calls start = x) /\
  (forall start x, exists calls, fold_left PropulsionSystemData_do calls start = x) /\
  (forall start x, exists calls, fold_left Sees_do calls start = x) /\
  (forall start x, exists calls, fold_left Signal_do calls start = x) /\
  (forall start x, exists calls, fold_left VectoringNozzleSystemData_do calls start = x).
Proof. exact builders_warfare_reach_all_pf. Qed.
Print Assumptions builders_warfare_reach_all.

(** C58. Builders of entity information PDUs and their records: nothing is out of their reach. From any start, some calls build any given value, whatever its members. *)
Theorem builders_entity_reach_all : (forall start x, exists calls, fold_left AggregateState_do calls start = x) /\
  (forall start x, exists calls, fold_left AggregateType_do calls start = x) /\
  (forall start x, exists calls, fold_left DrParameters_do calls start = x) /\
  (forall start x, exists calls, fold_left EntityState_do calls start = x) /\
  (forall start x, exists calls, fold_left SilentAggregate_do calls start = x) /\
  (forall start x, exists calls, fold_left SilentEntity_do calls start = x).
Proof. exact builders_entity_reach_all_pf. Qed.
Print Assumptions builders_entity_reach_all.

(** C58. Builders of emission PDUs and their records: nothing is out of their reach. From any start, some calls build any given value, whatever its members. A list that can only be added to must start empty, an optional member that can only be given must start absent. *)
Theorem builders_emission_reach_all : (forall start x, exists calls, fold_left APA_do calls start = x) /\
  (forall start x, exists calls, fold_left AcousticEmitterSystem_do calls start = x) /\
  (forall start x, be_tracks start = [] -> exists calls, fold_left Beam_do calls start = x) /\
  (forall start x, EE_systems start = [] -> exists calls, fold_left ElectromagneticEmission_do calls start = x) /\
  (forall start x, es_beams start = [] -> exists calls, fold_left EmitterSystem_do calls start = x) /\
  (forall start x, exists calls, fold_left FundamentalParameterData_do calls start = x) /\
  (forall start x, exists calls, fold_left JammingTechnique_do calls start = x) /\
  (forall start x, exists calls, fold_left PropulsionPlant_do calls start = x) /\
  (forall start x, exists calls, fold_left Shaft_do calls start = x) /\
  (forall start x, exists calls, fold_left TrackJam_do calls start = x) /\
  (forall start x, exists calls, fold_left UABeam_do calls start = x) /\
  (forall start x, exists calls, fold_left UAEmitterSystem_do calls start = x) /\
  (forall start x, exists calls, fold_left UAFundamental_do calls start = x) /\
  (forall start x, exists calls, fold_left UnderwaterAcoustic_do calls start = x).
Proof. exact builders_emission_reach_all_pf. Qed.
Print Assumptions builders_emission_reach_all.

(** C58. Builders of radio PDUs and their records: nothing is out of their reach. From any start, some calls build any given value, whatever its members. A list that can only be added to must start empty, an optional member that can only be given must start absent. *)
Theorem builders_radio_reach_all : (forall start x, exists calls, fold_left BeamAntennaPattern_do calls start = x) /\
  (forall start x, exists calls, fold_left IsGroupOf_do calls start = x) /\
  (forall start x, exists calls, fold_left ModulationType_do calls start = x) /\
  (forall start x, ss_hopping start = false -> ss_noise start = false -> ss_time start = false -> exists calls, fold_left SpreadSpectrum_do calls start = x) /\
  (forall start x, Transmitter_modulation_parameters start = None -> Transmitter_antenna_pattern start = None -> exists calls, fold_left Transmitter_do calls start = x) /\
  (forall start x, exists calls, fold_left VTP_do calls start = x).
Proof. exact builders_radio_reach_all_pf. Qed.
Print Assumptions builders_radio_reach_all.

(** C58. Builders of IFF and its layers: nothing is out of their reach. From any start, some calls build any given value, whatever its members. A list that can only be added to must start empty, an optional member that can only be given must start absent. *)
Theorem builders_iff_reach_all : (forall start x, exists calls, fold_left FundOpData_do calls start = x) /\
  (forall start x, Iff_layer_2 start = None -> Iff_layer_3 start = None -> Iff_layer_4 start = None -> Iff_layer_5 start = None -> exists calls, fold_left Iff_do calls start = x) /\
  (forall start x, exists calls, fold_left IffDataRecord_do calls start = x) /\
  (forall start x, exists calls, fold_left IffParameter_do calls start = x) /\
  (forall start x, exists calls, fold_left IffLayer2_do calls start = x) /\
  (forall start x, exists calls, fold_left IffLayer3_do calls start = x) /\
  (forall start x, exists calls, fold_left IffLayer4_do calls start = x) /\
  (forall start x, exists calls, fold_left IffLayer5_do calls start = x) /\
  (forall start x, exists calls, fold_left LayerHeader_do calls start = x) /\
  (forall start x, exists calls, fold_left Mode5Interrogator_do calls start = x) /\
  (forall start x, exists calls, fold_left Mode5Transponder_do calls start = x) /\
  (forall start x, exists calls, fold_left ModeSInterrogator_do calls start = x) /\
  (forall start x, exists calls, fold_left ModeSTransponder_do calls start = x) /\
  (forall start x, exists calls, fold_left SystemId_do calls start = x).
Proof. exact builders_iff_reach_all_pf. Qed.
Print Assumptions builders_iff_reach_all.

(** C58. Builders of the status records of IFF, flag by flag: nothing is out of their reach. From any start, some calls build any given value, whatever its members. A list that can only be added to must start empty, an optional member that can only be given must start absent. *)
Theorem builders_iff_words_reach_all : (forall start x, co_change start = false -> co_specific_1 start = false -> co_specific_2 start = false -> co_heartbeat start = false -> co_transponder start = false -> co_simulation start = false -> co_interactive start = false -> co_test start = false -> exists calls, fold_left ChangeOptions_do calls start = x) /\
  (forall start x, exists calls, fold_left DapSource_do calls start = x) /\
  (forall start x, exists calls, fold_left EnhancedMode1Code_do calls start = x) /\
  (forall start x, exists calls, fold_left InformationLayers_do calls start = x) /\
  (forall start x, exists calls, fold_left Mode5InterrogatorStatus_do calls start = x) /\
  (forall start x, exists calls, fold_left MessageFormats_do calls start = x) /\
  (forall start x, exists calls, fold_left Mode5TransponderStatus_do calls start = x) /\
  (forall start x, exists calls, fold_left SupplementalData_do calls start = x) /\
  (forall start x, exists calls, fold_left ModeSAltitude_do calls start = x) /\
  (forall start x, exists calls, fold_left ModeSInterrogatorStatus_do calls start = x) /\
  (forall start x, exists calls, fold_left ModeSLevels_do calls start = x) /\
  (forall start x, exists calls, fold_left ModeSTransponderStatus_do calls start = x) /\
  (forall start x, exists calls, fold_left SystemStatus_do calls start = x).
Proof. exact builders_iff_words_reach_all_pf. Qed.
Print Assumptions builders_iff_words_reach_all.

(** C58. Record sets: after any calls, the identifier and serial number are those given last, and the records are those given last and the ones added since. *)
Theorem builders_record_set : forall start calls, RecordSet_given start calls (fold_left RecordSet_do calls start).
Proof. exact builders_record_set_pf. Qed.
Print Assumptions builders_record_set.

(** C58. Record sets: a set made from the empty one by any calls, in which every record given has one and the same length below 65536, says that length of all its
 records. *)
Theorem builders_record_set_uniform : forall start calls n, rs_records start = [] -> 0 <= n < 65536 ->
  (forall c r, In c calls -> In r (records_in c) -> zlen r = n) -> uniform (fold_left RecordSet_do calls start).
Proof. exact builders_record_set_uniform_pf. Qed.
Print Assumptions builders_record_set_uniform.

(** C58. Refutation: nothing keeps the records of a set alike. Adding two records of different lengths to any set gives one whose stated length is wrong for the first
 (with [as u16] it is wrong even for a single record of 65536 octets or more). *)
Theorem builders_record_set_refuted : forall start a b, zlen a <> zlen b \/ 65536 <= zlen a ->
  ~ uniform (fold_left RecordSet_do [RecordSet_with_record a; RecordSet_with_record b] start).
Proof. exact builders_record_set_refuted_pf. Qed.
Print Assumptions builders_record_set_refuted.

(** C58. Headers: any calls, in a debug or release build, whose body lengths are at most 65523, change only what they name: the type with its protocol family, the
 time stamp, the length (the body's and twelve for the header) and the status; version, exercise and padding stay. *)
Theorem builders_header : forall m start calls, (forall n, In (PduHeader_with_length n) calls -> n <= 65523) ->
  exists x, PduHeader_run m calls start = Some x /\ PduHeader_given start calls x.
Proof. exact builders_header_pf. Qed.
Print Assumptions builders_header.

(** C58. Refutation: a body length above 65523 (with its header beyond what 16 bits hold) panics in a debug build, and in a release build gives a length that is
 smaller than the header. *)
Theorem builders_header_length_refuted : forall start n, 65523 < n < 65536 ->
  PduHeader_run Checked [PduHeader_with_length n] start = None /\
  exists x, PduHeader_run Wrapping [PduHeader_with_length n] start = Some x /\ h_length x = n - 65524 /\ h_length x < 12.
Proof. exact builders_header_length_refuted_pf. Qed.
Print Assumptions builders_header_length_refuted.

(** C58. Refutation: the builder's capability flags are always those of a land platform, so an entity state of any other kind built with them does not come back from a
 version 7 round trip as it was: no version 7 parser makes land platform capabilities for it. *)
Theorem builders_capabilities_refuted : forall start calls a f r p kind domain, kind <> 0 -> appearance_kind kind domain <> ALand ->
  let x := fold_left EntityState_do (calls ++ [EntityState_with_capabilities_flags a f r p]) start in
  forall w, EntityState_capabilities x <> capabilities_from_bytes w kind domain.
Proof. exact builders_capabilities_refuted_pf. Qed.
Print Assumptions builders_capabilities_refuted.

(** A fire PDU built by four calls, one of them repeated, and the members nobody named. *)
Example builders_example : forall start, let x := fold_left Fire_do [Fire_with_range 7; Fire_with_event_id (MkEventId (MkSimulationAddress 1 2) 3); Fire_with_range 9; Fire_with_expendable_descriptor (MkEntityType 2 0 0 0 0 0 0)] start in
  Fire_range x = 9 /\ Fire_event_id x = MkEventId (MkSimulationAddress 1 2) 3 /\ Fire_descriptor x = DExpendable (MkEntityType 2 0 0 0 0 0 0) /\ Fire_velocity x = Fire_velocity start.
Proof. intros start. repeat split. Qed.

Example builders_refuted_example : 65523 < 65530 < 65536 /\ appearance_kind 1 2 <> ALand /\ zlen [1; 2] <> zlen [3].
Proof. repeat split; discriminate. Qed.
