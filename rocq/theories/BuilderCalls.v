(** * The builders' methods, as calls (dis-rs: the builder.rs files, and the with_ methods of the records)

    One constructor for each method, with its arguments: what a user can ask of a builder. An argument given as an enumeration is its raw
    value, and one given as a packed record of flags (IFF status words) its word, as in the structures themselves; the builders of those records, flag by flag, are here too. *)
From Coq Require Import ZArith List Bool.
From Verif Require Import Base DisCommon IffWords DisHeader DisLists DisSimman DisLogistics DisWarfare DisEntity DisEmission DisRadio DisIff DisPdu DisPacket.
Import ListNotations. Open Scope Z_scope.

(* dis-rs/src/common/model.rs *)
Inductive ArticulatedPart_call :=
| ArticulatedPart_with_change_indicator (v : Z)
| ArticulatedPart_with_attachment_id (v : Z)
| ArticulatedPart_with_type_metric (v : Z)
| ArticulatedPart_with_type_class (v : Z)
| ArticulatedPart_with_parameter_value (v : Z).
(* dis-rs/src/common/model.rs *)
Inductive AttachedPart_call :=
| AttachedPart_with_detached_indicator (v : Z)
| AttachedPart_with_attachment_id (v : Z)
| AttachedPart_with_parameter_type (v : Z)
| AttachedPart_with_attached_part_type (v : EntityType).
(* dis-rs/src/common/model.rs *)
Inductive BeamData_call :=
| BeamData_with_azimuth_center (v : Z)
| BeamData_with_azimuth_sweep (v : Z)
| BeamData_with_elevation_center (v : Z)
| BeamData_with_elevation_sweep (v : Z)
| BeamData_with_sweep_sync (v : Z).
(* dis-rs/src/common/model.rs *)
Inductive EntityAssociation_call :=
| EntityAssociation_with_change_indicator (v : Z)
| EntityAssociation_with_association_status (v : Z)
| EntityAssociation_with_association_type (v : Z)
| EntityAssociation_with_entity_id (v : EntityId)
| EntityAssociation_with_own_station_location (v : Z)
| EntityAssociation_with_physical_connection_type (v : Z)
| EntityAssociation_with_group_member_type (v : Z)
| EntityAssociation_with_group_number (v : Z).
(* dis-rs/src/common/model.rs *)
Inductive EntityType_call :=
| EntityType_with_kind (v : Z)
| EntityType_with_domain (v : Z)
| EntityType_with_country (v : Z)
| EntityType_with_category (v : Z)
| EntityType_with_subcategory (v : Z)
| EntityType_with_specific (v : Z)
| EntityType_with_extra (v : Z).
(* dis-rs/src/common/model.rs *)
Inductive EntityTypeParameter_call :=
| EntityTypeParameter_with_change_indicator (v : Z)
| EntityTypeParameter_with_entity_type (v : EntityType).
(* dis-rs/src/common/model.rs *)
Inductive Location_call :=
| Location_with_x (v : Z)
| Location_with_y (v : Z)
| Location_with_z (v : Z).
(* dis-rs/src/common/model.rs *)
Inductive MunitionDescriptor_call :=
| MunitionDescriptor_with_warhead (v : Z)
| MunitionDescriptor_with_fuse (v : Z)
| MunitionDescriptor_with_quantity (v : Z)
| MunitionDescriptor_with_rate (v : Z).
(* dis-rs/src/common/model.rs *)
Inductive Orientation_call :=
| Orientation_with_psi (v : Z)
| Orientation_with_theta (v : Z)
| Orientation_with_phi (v : Z).
(* dis-rs/src/common/model.rs *)
Inductive SeparationParameter_call :=
| SeparationParameter_with_reason (v : Z)
| SeparationParameter_with_pre_entity_indicator (v : Z)
| SeparationParameter_with_parent_entity_id (v : EntityId)
| SeparationParameter_with_station_name (v : Z)
| SeparationParameter_with_station_number (v : Z).
(* dis-rs/src/common/model.rs *)
Inductive SupplyQuantity_call :=
| SupplyQuantity_with_supply_type (v : EntityType)
| SupplyQuantity_with_quantity (v : Z).
(* dis-rs/src/common/model.rs *)
Inductive VectorF32_call :=
| VectorF32_with_first (v : Z)
| VectorF32_with_second (v : Z)
| VectorF32_with_third (v : Z).
(* dis-rs/src/common/underwater_acoustic/model.rs *)
Inductive APA_call :=
| APA_with_parameter (v : Z)
| APA_with_status (v : Z)
| APA_with_value (v : Z).
(* dis-rs/src/common/underwater_acoustic/model.rs *)
Inductive AcousticEmitterSystem_call :=
| AcousticEmitterSystem_with_acoustic_system_name (v : Z)
| AcousticEmitterSystem_with_function (v : Z)
| AcousticEmitterSystem_with_acoustic_id_number (v : Z).
(* dis-rs/src/common/electromagnetic_emission/model.rs *)
Inductive Beam_call :=
| Beam_with_number (v : Z)
| Beam_with_parameter_index (v : Z)
| Beam_with_parameter_data (v : FundamentalParameterData)
| Beam_with_beam_data (v : BeamData)
| Beam_with_beam_function (v : Z)
| Beam_with_high_density_track_jam (v : Z)
| Beam_with_beam_status (v : Z)
| Beam_with_jamming_technique (v : JammingTechnique)
| Beam_with_track_jams (v : list TrackJam)
| Beam_with_track_jam (v : TrackJam).
(* dis-rs/src/common/electromagnetic_emission/builder.rs *)
Inductive ElectromagneticEmission_call :=
| ElectromagneticEmission_with_emitting_entity_id (v : EntityId)
| ElectromagneticEmission_with_event_id (v : EventId)
| ElectromagneticEmission_with_state_update_indicator (v : Z)
| ElectromagneticEmission_with_emitter_systems (v : list EmitterSystem)
| ElectromagneticEmission_with_emitter_system (v : EmitterSystem).
(* dis-rs/src/common/electromagnetic_emission/model.rs *)
Inductive EmitterSystem_call :=
| EmitterSystem_with_name (v : Z)
| EmitterSystem_with_function (v : Z)
| EmitterSystem_with_number (v : Z)
| EmitterSystem_with_location (v : VectorF32)
| EmitterSystem_with_beams (v : list Beam)
| EmitterSystem_with_beam (v : Beam).
(* dis-rs/src/common/electromagnetic_emission/model.rs *)
Inductive FundamentalParameterData_call :=
| FundamentalParameterData_with_frequency (v : Z)
| FundamentalParameterData_with_frequency_range (v : Z)
| FundamentalParameterData_with_effective_power (v : Z)
| FundamentalParameterData_with_pulse_repetition_frequency (v : Z)
| FundamentalParameterData_with_pulse_width (v : Z).
(* dis-rs/src/common/electromagnetic_emission/model.rs *)
Inductive JammingTechnique_call :=
| JammingTechnique_with_kind (v : Z)
| JammingTechnique_with_category (v : Z)
| JammingTechnique_with_subcategory (v : Z)
| JammingTechnique_with_specific (v : Z).
(* dis-rs/src/common/underwater_acoustic/model.rs *)
Inductive PropulsionPlant_call :=
| PropulsionPlant_with_configuration (v : Z)
| PropulsionPlant_with_hull_mounted_masker (v : bool).
(* dis-rs/src/common/underwater_acoustic/model.rs *)
Inductive Shaft_call :=
| Shaft_with_current_rpm (v : Z)
| Shaft_with_ordered_rpm (v : Z)
| Shaft_with_rpm_rate_of_change (v : Z).
(* dis-rs/src/common/electromagnetic_emission/model.rs *)
Inductive TrackJam_call :=
| TrackJam_with_entity_id (v : EntityId)
| TrackJam_with_emitter (v : Z)
| TrackJam_with_beam (v : Z).
(* dis-rs/src/common/underwater_acoustic/model.rs *)
Inductive UABeam_call :=
| UABeam_with_beam_data_length (v : Z)
| UABeam_with_beam_id_number (v : Z)
| UABeam_with_fundamental_parameters (v : UAFundamental).
(* dis-rs/src/common/underwater_acoustic/model.rs *)
Inductive UAEmitterSystem_call :=
| UAEmitterSystem_with_acoustic_emitter_system (v : AcousticEmitterSystem)
| UAEmitterSystem_with_location (v : VectorF32)
| UAEmitterSystem_with_beam (v : UABeam)
| UAEmitterSystem_with_beams (v : list UABeam).
(* dis-rs/src/common/underwater_acoustic/model.rs *)
Inductive UAFundamental_call :=
| UAFundamental_with_active_emission_parameter_index (v : Z)
| UAFundamental_with_scan_pattern (v : Z)
| UAFundamental_with_beam_center_azimuth (v : Z)
| UAFundamental_with_azimuthal_beamwidth (v : Z)
| UAFundamental_with_beam_center_depression_elevation (v : Z)
| UAFundamental_with_depression_elevation_beamwidth (v : Z).
(* dis-rs/src/common/underwater_acoustic/builder.rs *)
Inductive UnderwaterAcoustic_call :=
| UnderwaterAcoustic_with_emitting_entity_id (v : EntityId)
| UnderwaterAcoustic_with_event_id (v : EventId)
| UnderwaterAcoustic_with_state_change_update_indicator (v : Z)
| UnderwaterAcoustic_with_passive_parameter_index (v : Z)
| UnderwaterAcoustic_with_propulsion_plant_configuration (v : PropulsionPlant)
| UnderwaterAcoustic_with_shaft (v : Shaft)
| UnderwaterAcoustic_with_shafts (v : list Shaft)
| UnderwaterAcoustic_with_apa (v : APA)
| UnderwaterAcoustic_with_apas (v : list APA)
| UnderwaterAcoustic_with_emitter_system (v : UAEmitterSystem)
| UnderwaterAcoustic_with_emitter_systems (v : list UAEmitterSystem).
(* dis-rs/src/common/aggregate_state/builder.rs *)
Inductive AggregateState_call :=
| AggregateState_with_aggregate_id (v : EntityId)
| AggregateState_with_force_id (v : Z)
| AggregateState_with_aggregate_state (v : Z)
| AggregateState_with_aggregate_type (v : AggregateType)
| AggregateState_with_formation (v : Z)
| AggregateState_with_aggregate_marking (v : Marking)
| AggregateState_with_dimensions (v : VectorF32)
| AggregateState_with_orientation (v : Orientation)
| AggregateState_with_center_of_mass (v : Location)
| AggregateState_with_velocity (v : VectorF32)
| AggregateState_with_aggregate (v : EntityId)
| AggregateState_with_aggregates (v : list EntityId)
| AggregateState_with_entity (v : EntityId)
| AggregateState_with_entities (v : list EntityId)
| AggregateState_with_silent_aggregate_system (v : SilentAggregate)
| AggregateState_with_silent_aggregate_systems (v : list SilentAggregate)
| AggregateState_with_silent_entity_system (v : SilentEntity)
| AggregateState_with_silent_entity_systems (v : list SilentEntity)
| AggregateState_with_variable_datum (v : VariableDatum)
| AggregateState_with_variable_datums (v : list VariableDatum).
(* dis-rs/src/common/aggregate_state/model.rs *)
Inductive AggregateType_call :=
| AggregateType_with_aggregate_kind (v : Z)
| AggregateType_with_domain (v : Z)
| AggregateType_with_country (v : Z)
| AggregateType_with_category (v : Z)
| AggregateType_with_subcategory (v : Z)
| AggregateType_with_specific (v : Z)
| AggregateType_with_extra (v : Z).
(* dis-rs/src/common/entity_state/model.rs *)
Inductive DrParameters_call :=
| DrParameters_with_algorithm (v : Z)
| DrParameters_with_parameters (v : DrOtherParameters)
| DrParameters_with_linear_acceleration (v : VectorF32)
| DrParameters_with_angular_velocity (v : VectorF32).
(* dis-rs/src/common/entity_state/builder.rs *)
Inductive EntityState_call :=
| EntityState_with_entity_id (v : EntityId)
| EntityState_with_entity_type (v : EntityType)
| EntityState_with_force_id (v : Z)
| EntityState_with_alternative_entity_type (v : EntityType)
| EntityState_with_velocity (v : VectorF32)
| EntityState_with_location (v : Location)
| EntityState_with_orientation (v : Orientation)
| EntityState_with_appearance (v : EntityAppearance)
| EntityState_with_dead_reckoning_parameters (v : DrParameters)
| EntityState_with_marking (v : Marking)
| EntityState_with_capabilities (v : EntityCapabilities)
| EntityState_with_capabilities_flags (v1 : bool) (v2 : bool) (v3 : bool) (v4 : bool)
| EntityState_with_variable_parameter (v : VariableParameter)
| EntityState_with_variable_parameters (v : list VariableParameter).
(* dis-rs/src/common/aggregate_state/model.rs *)
Inductive SilentAggregate_call :=
| SilentAggregate_with_number_of_aggregates (v : Z)
| SilentAggregate_with_aggregate_type (v : AggregateType).
(* dis-rs/src/common/aggregate_state/model.rs *)
Inductive SilentEntity_call :=
| SilentEntity_with_number_of_entities (v : Z)
| SilentEntity_with_entity_type (v : EntityType)
| SilentEntity_with_appearance (v : EntityAppearance)
| SilentEntity_with_appearances (v : list EntityAppearance).
(* dis-rs/src/v7/model.rs *)
Inductive PduStatus_call :=
| PduStatus_with_transferred_entity_indicator (v : Z)
| PduStatus_with_lvc_indicator (v : Z)
| PduStatus_with_coupled_extension_indicator (v : Z)
| PduStatus_with_fire_type_indicator (v : Z)
| PduStatus_with_detonation_type_indicator (v : Z)
| PduStatus_with_radio_attached_indicator (v : Z)
| PduStatus_with_intercom_attached_indicator (v : Z)
| PduStatus_with_iff_simulation_mode (v : Z)
| PduStatus_with_active_interrogation_indicator (v : Z).
(* dis-rs/src/common/iff/builder.rs *)
Inductive FundOpData_call :=
| FundOpData_with_system_status (v : Z)
| FundOpData_with_data_field_1 (v : Z)
| FundOpData_with_information_layers (v : Z)
| FundOpData_with_data_field_2 (v : Z)
| FundOpData_with_parameter_1 (v : Z)
| FundOpData_with_parameter_2 (v : Z)
| FundOpData_with_parameter_3 (v : Z)
| FundOpData_with_parameter_4 (v : Z)
| FundOpData_with_parameter_5 (v : Z)
| FundOpData_with_parameter_6 (v : Z).
(* dis-rs/src/common/iff/builder.rs *)
Inductive Iff_call :=
| Iff_with_emitting_entity_id (v : EntityId)
| Iff_with_event_id (v : EventId)
| Iff_with_relative_antenna_location (v : VectorF32)
| Iff_with_system_id (v : SystemId)
| Iff_with_system_designator (v : Z)
| Iff_with_system_specific_data (v : Z)
| Iff_with_fundamental_operational_data (v : FundOpData)
| Iff_with_layer_2 (v : IffLayer2)
| Iff_with_layer_3 (v : IffLayer3)
| Iff_with_layer_4 (v : IffLayer4)
| Iff_with_layer_5 (v : IffLayer5).
(* dis-rs/src/common/iff/builder.rs *)
Inductive IffDataRecord_call :=
| IffDataRecord_with_record_type (v : Z)
| IffDataRecord_with_record_specific_field (v : list Z).
(* dis-rs/src/common/iff/builder.rs *)
Inductive IffParameter_call :=
| IffParameter_with_erp (v : Z)
| IffParameter_with_frequency (v : Z)
| IffParameter_with_pgrf (v : Z)
| IffParameter_with_pulse_width (v : Z)
| IffParameter_with_burst_length (v : Z)
| IffParameter_with_applicable_modes (v : Z)
| IffParameter_with_system_specific_data (v1 : Z) (v2 : Z) (v3 : Z).
(* dis-rs/src/common/iff/builder.rs *)
Inductive IffLayer2_call :=
| IffLayer2_with_header (v : LayerHeader)
| IffLayer2_with_beam_data (v : BeamData)
| IffLayer2_with_operational_parameter_1 (v : Z)
| IffLayer2_with_operational_parameter_2 (v : Z)
| IffLayer2_with_iff_fundamental_parameter (v : IffParameter)
| IffLayer2_with_iff_fundamental_parameters (v : list IffParameter).
(* dis-rs/src/common/iff/builder.rs *)
Inductive IffLayer3_call :=
| IffLayer3_with_header (v : LayerHeader)
| IffLayer3_with_reporting_simulation (v : SimulationAddress)
| IffLayer3_with_mode_5_basic_data (v : Mode5BasicData)
| IffLayer3_with_iff_data_specification (v : list IffDataRecord).
(* dis-rs/src/common/iff/builder.rs *)
Inductive IffLayer4_call :=
| IffLayer4_with_header (v : LayerHeader)
| IffLayer4_with_reporting_simulation (v : SimulationAddress)
| IffLayer4_with_mode_s_basic_data (v : ModeSBasicData)
| IffLayer4_with_iff_data_specification (v : list IffDataRecord).
(* dis-rs/src/common/iff/builder.rs *)
Inductive IffLayer5_call :=
| IffLayer5_with_header (v : LayerHeader)
| IffLayer5_with_reporting_simulation (v : SimulationAddress)
| IffLayer5_with_applicable_layers (v : Z)
| IffLayer5_with_data_category (v : Z)
| IffLayer5_with_iff_data_specification (v : list IffDataRecord).
(* dis-rs/src/common/iff/builder.rs *)
Inductive LayerHeader_call :=
| LayerHeader_with_layer_number (v : Z)
| LayerHeader_with_layer_specific_information (v : Z)
| LayerHeader_with_length (v : Z).
(* dis-rs/src/common/iff/builder.rs *)
Inductive Mode5Interrogator_call :=
| Mode5Interrogator_with_status (v : Z)
| Mode5Interrogator_with_mode_5_message_formats_present (v : Z)
| Mode5Interrogator_with_interrogated_entity_id (v : EntityId).
(* dis-rs/src/common/iff/builder.rs *)
Inductive Mode5Transponder_call :=
| Mode5Transponder_with_status (v : Z)
| Mode5Transponder_with_pin (v : Z)
| Mode5Transponder_with_mode_5_message_formats_present (v : Z)
| Mode5Transponder_with_enhanced_mode_1 (v : Z)
| Mode5Transponder_with_national_origin (v : Z)
| Mode5Transponder_with_supplemental_data (v : Z)
| Mode5Transponder_with_navigation_source (v : Z)
| Mode5Transponder_with_figure_of_merit (v : Z).
(* dis-rs/src/common/iff/builder.rs *)
Inductive ModeSInterrogator_call :=
| ModeSInterrogator_with_mode_s_interrogator_status (v : Z)
| ModeSInterrogator_with_mode_s_levels_present (v : Z).
(* dis-rs/src/common/iff/builder.rs *)
Inductive ModeSTransponder_call :=
| ModeSTransponder_with_status (v : Z)
| ModeSTransponder_with_levels_present (v : Z)
| ModeSTransponder_with_aircraft_present_domain (v : Z)
| ModeSTransponder_with_aircraft_identification (v : list Z)
| ModeSTransponder_with_aircraft_address (v : Z)
| ModeSTransponder_with_aircraft_identification_type (v : Z)
| ModeSTransponder_with_dap_source (v : Z)
| ModeSTransponder_with_altitude (v : Z)
| ModeSTransponder_with_capability_report (v : Z).
(* dis-rs/src/common/iff/builder.rs *)
Inductive SystemId_call :=
| SystemId_with_system_type (v : Z)
| SystemId_with_system_name (v : Z)
| SystemId_with_system_mode (v : Z)
| SystemId_with_change_options (v : Z).
(* dis-rs/src/common/is_part_of/model.rs *)
Inductive NamedLocationId_call :=
| NamedLocationId_with_station_name (v : Z)
| NamedLocationId_with_station_number (v : Z).
(* dis-rs/src/common/is_part_of/model.rs *)
Inductive Relationship_call :=
| Relationship_with_nature (v : Z)
| Relationship_with_position (v : Z).
(* dis-rs/src/common/collision/builder.rs *)
Inductive Collision_call :=
| Collision_with_issuing_entity_id (v : EntityId)
| Collision_with_colliding_entity_id (v : EntityId)
| Collision_with_event_id (v : EventId)
| Collision_with_collision_type (v : Z)
| Collision_with_velocity (v : VectorF32)
| Collision_with_mass (v : Z)
| Collision_with_location (v : VectorF32).
(* dis-rs/src/common/collision_elastic/builder.rs *)
Inductive CollisionElastic_call :=
| CollisionElastic_with_issuing_entity_id (v : EntityId)
| CollisionElastic_with_colliding_entity_id (v : EntityId)
| CollisionElastic_with_event_id (v : EventId)
| CollisionElastic_with_velocity (v : VectorF32)
| CollisionElastic_with_mass (v : Z)
| CollisionElastic_with_location (v : VectorF32)
| CollisionElastic_with_intermediate_result_xx (v : Z)
| CollisionElastic_with_intermediate_result_xy (v : Z)
| CollisionElastic_with_intermediate_result_xz (v : Z)
| CollisionElastic_with_intermediate_result_yy (v : Z)
| CollisionElastic_with_intermediate_result_yz (v : Z)
| CollisionElastic_with_intermediate_result_zz (v : Z)
| CollisionElastic_with_unit_surface_normal (v : VectorF32)
| CollisionElastic_with_coefficient_of_restitution (v : Z).
(* dis-rs/src/common/designator/builder.rs *)
Inductive Designator_call :=
| Designator_with_designating_entity_id (v : EntityId)
| Designator_with_system_name (v : Z)
| Designator_with_designated_entity_id (v : EntityId)
| Designator_with_code (v : Z)
| Designator_with_power (v : Z)
| Designator_with_wavelength (v : Z)
| Designator_with_spot_wrt_designated_entity (v : VectorF32)
| Designator_with_spot_location (v : Location)
| Designator_with_dead_reckoning_algorithm (v : Z)
| Designator_with_linear_acceleration (v : VectorF32).
(* dis-rs/src/common/is_part_of/builder.rs *)
Inductive IsPartOf_call :=
| IsPartOf_with_originating_simulation_id (v : EntityId)
| IsPartOf_with_receiving_entity_id (v : EntityId)
| IsPartOf_with_relationship (v : Relationship)
| IsPartOf_with_part_location (v : VectorF32)
| IsPartOf_with_named_location_id (v : NamedLocationId).
(* dis-rs/src/common/receiver/builder.rs *)
Inductive Receiver_call :=
| Receiver_with_radio_reference_id (v : EntityId)
| Receiver_with_radio_number (v : Z)
| Receiver_with_receiver_state (v : Z)
| Receiver_with_received_power (v : Z)
| Receiver_with_transmitter_radio_reference_id (v : EntityId)
| Receiver_with_transmitter_radio_number (v : Z).
(* dis-rs/src/common/repair_complete/builder.rs *)
Inductive RepairComplete_call :=
| RepairComplete_with_receiving_id (v : EntityId)
| RepairComplete_with_repairing_id (v : EntityId)
| RepairComplete_with_repair (v : Z).
(* dis-rs/src/common/repair_response/builder.rs *)
Inductive RepairResponse_call :=
| RepairResponse_with_receiving_id (v : EntityId)
| RepairResponse_with_repairing_id (v : EntityId)
| RepairResponse_with_repair_result (v : Z).
(* dis-rs/src/common/resupply_cancel/builder.rs *)
Inductive ResupplyCancel_call :=
| ResupplyCancel_with_requesting_id (v : EntityId)
| ResupplyCancel_with_servicing_id (v : EntityId).
(* dis-rs/src/common/resupply_offer/builder.rs *)
Inductive ResupplyOffer_call :=
| ResupplyOffer_with_requesting_id (v : EntityId)
| ResupplyOffer_with_servicing_id (v : EntityId)
| ResupplyOffer_with_supply (v : SupplyQuantity)
| ResupplyOffer_with_supplies (v : list SupplyQuantity).
(* dis-rs/src/common/resupply_received/builder.rs *)
Inductive ResupplyReceived_call :=
| ResupplyReceived_with_requesting_id (v : EntityId)
| ResupplyReceived_with_servicing_id (v : EntityId)
| ResupplyReceived_with_supply (v : SupplyQuantity)
| ResupplyReceived_with_supplies (v : list SupplyQuantity).
(* dis-rs/src/common/service_request/builder.rs *)
Inductive ServiceRequest_call :=
| ServiceRequest_with_requesting_id (v : EntityId)
| ServiceRequest_with_servicing_id (v : EntityId)
| ServiceRequest_with_service_type_requested (v : Z)
| ServiceRequest_with_supply (v : SupplyQuantity)
| ServiceRequest_with_supplies (v : list SupplyQuantity).
(* dis-rs/src/common/transfer_ownership/builder.rs *)
Inductive TransferOwnership_call :=
| TransferOwnership_with_originating_id (v : EntityId)
| TransferOwnership_with_receiving_id (v : EntityId)
| TransferOwnership_with_request_id (v : Z)
| TransferOwnership_with_required_reliability_service (v : Z)
| TransferOwnership_with_transfer_type (v : Z)
| TransferOwnership_with_transfer_entity_id (v : EntityId)
| TransferOwnership_with_record_specification (v : list RecordSet).
(* dis-rs/src/common/transmitter/model.rs *)
Inductive BeamAntennaPattern_call :=
| BeamAntennaPattern_with_beam_direction (v : Orientation)
| BeamAntennaPattern_with_azimuth_beamwidth (v : Z)
| BeamAntennaPattern_with_elevation_beamwidth (v : Z)
| BeamAntennaPattern_with_reference_system (v : Z)
| BeamAntennaPattern_with_e_z (v : Z)
| BeamAntennaPattern_with_e_x (v : Z)
| BeamAntennaPattern_with_phase (v : Z).
(* dis-rs/src/common/is_group_of/builder.rs *)
Inductive IsGroupOf_call :=
| IsGroupOf_with_group_id (v : EntityId)
| IsGroupOf_with_grouped_entity_category (v : Z)
| IsGroupOf_with_group_reference_point (v1 : Z) (v2 : Z)
| IsGroupOf_with_description (v : GroupEntityDescription)
| IsGroupOf_with_descriptions (v : list GroupEntityDescription).
(* dis-rs/src/common/transmitter/model.rs *)
Inductive ModulationType_call :=
| ModulationType_with_spread_spectrum (v : SpreadSpectrum)
| ModulationType_with_major_modulation (v : MajorModulation)
| ModulationType_with_radio_system (v : Z).
(* dis-rs/src/common/transmitter/model.rs *)
Inductive SpreadSpectrum_call :=
| SpreadSpectrum_with_frequency_hopping
| SpreadSpectrum_with_pseudo_noise
| SpreadSpectrum_with_time_hopping.
(* dis-rs/src/common/transmitter/builder.rs *)
Inductive Transmitter_call :=
| Transmitter_with_radio_reference_id (v : EntityId)
| Transmitter_with_radio_number (v : Z)
| Transmitter_with_radio_type (v : EntityType)
| Transmitter_with_transmit_state (v : Z)
| Transmitter_with_input_source (v : Z)
| Transmitter_with_antenna_location (v : Location)
| Transmitter_with_relative_antenna_location (v : VectorF32)
| Transmitter_with_antenna_pattern_type (v : Z)
| Transmitter_with_frequency (v : Z)
| Transmitter_with_transmit_frequency_bandwidth (v : Z)
| Transmitter_with_power (v : Z)
| Transmitter_with_modulation_type (v : ModulationType)
| Transmitter_with_crypto_system (v : Z)
| Transmitter_with_crypto_key_id (v : CryptoKeyId)
| Transmitter_with_modulation_parameters (v : (list Z))
| Transmitter_with_antenna_pattern (v : BeamAntennaPattern)
| Transmitter_with_variable_transmitter_parameters (v : list VTP)
| Transmitter_with_variable_transmitter_parameter (v : VTP).
(* dis-rs/src/common/transmitter/model.rs *)
Inductive VTP_call :=
| VTP_with_record_type (v : Z)
| VTP_with_fields (v : list Z).
(* dis-rs/src/common/acknowledge/builder.rs *)
Inductive Acknowledge_call :=
| Acknowledge_with_origination_id (v : EntityId)
| Acknowledge_with_receiving_id (v : EntityId)
| Acknowledge_with_acknowledge_flag (v : Z)
| Acknowledge_with_response_flag (v : Z)
| Acknowledge_with_request_id (v : Z).
(* dis-rs/src/common/acknowledge_r/builder.rs *)
Inductive AcknowledgeR_call :=
| AcknowledgeR_with_origination_id (v : EntityId)
| AcknowledgeR_with_receiving_id (v : EntityId)
| AcknowledgeR_with_acknowledge_flag (v : Z)
| AcknowledgeR_with_response_flag (v : Z)
| AcknowledgeR_with_request_id (v : Z).
(* dis-rs/src/common/action_request/builder.rs *)
Inductive ActionRequest_call :=
| ActionRequest_with_origination_id (v : EntityId)
| ActionRequest_with_receiving_id (v : EntityId)
| ActionRequest_with_request_id (v : Z)
| ActionRequest_with_action_id (v : Z)
| ActionRequest_with_fixed_datums (v : list FixedDatum)
| ActionRequest_with_variable_datums (v : list VariableDatum).
(* dis-rs/src/common/action_request_r/builder.rs *)
Inductive ActionRequestR_call :=
| ActionRequestR_with_origination_id (v : EntityId)
| ActionRequestR_with_receiving_id (v : EntityId)
| ActionRequestR_with_required_reliability_service (v : Z)
| ActionRequestR_with_request_id (v : Z)
| ActionRequestR_with_action_id (v : Z)
| ActionRequestR_with_fixed_datums (v : list FixedDatum)
| ActionRequestR_with_variable_datums (v : list VariableDatum).
(* dis-rs/src/common/action_response/builder.rs *)
Inductive ActionResponse_call :=
| ActionResponse_with_origination_id (v : EntityId)
| ActionResponse_with_receiving_id (v : EntityId)
| ActionResponse_with_request_id (v : Z)
| ActionResponse_with_request_status (v : Z)
| ActionResponse_with_fixed_datums (v : list FixedDatum)
| ActionResponse_with_variable_datums (v : list VariableDatum).
(* dis-rs/src/common/action_response_r/builder.rs *)
Inductive ActionResponseR_call :=
| ActionResponseR_with_origination_id (v : EntityId)
| ActionResponseR_with_receiving_id (v : EntityId)
| ActionResponseR_with_request_id (v : Z)
| ActionResponseR_with_request_status (v : Z)
| ActionResponseR_with_fixed_datums (v : list FixedDatum)
| ActionResponseR_with_variable_datums (v : list VariableDatum).
(* dis-rs/src/common/comment/builder.rs *)
Inductive Comment_call :=
| Comment_with_origination_id (v : EntityId)
| Comment_with_receiving_id (v : EntityId)
| Comment_with_variable_datums (v : list VariableDatum).
(* dis-rs/src/common/comment_r/builder.rs *)
Inductive CommentR_call :=
| CommentR_with_origination_id (v : EntityId)
| CommentR_with_receiving_id (v : EntityId)
| CommentR_with_variable_datums (v : list VariableDatum).
(* dis-rs/src/common/create_entity/builder.rs *)
Inductive CreateEntity_call :=
| CreateEntity_with_origination_id (v : EntityId)
| CreateEntity_with_receiving_id (v : EntityId)
| CreateEntity_with_request_id (v : Z).
(* dis-rs/src/common/create_entity_r/builder.rs *)
Inductive CreateEntityR_call :=
| CreateEntityR_with_origination_id (v : EntityId)
| CreateEntityR_with_receiving_id (v : EntityId)
| CreateEntityR_with_required_reliability_service (v : Z)
| CreateEntityR_with_request_id (v : Z).
(* dis-rs/src/common/data/builder.rs *)
Inductive Data_call :=
| Data_with_origination_id (v : EntityId)
| Data_with_receiving_id (v : EntityId)
| Data_with_request_id (v : Z)
| Data_with_fixed_datums (v : list FixedDatum)
| Data_with_variable_datums (v : list VariableDatum).
(* dis-rs/src/common/data_query/builder.rs *)
Inductive DataQuery_call :=
| DataQuery_with_origination_id (v : EntityId)
| DataQuery_with_receiving_id (v : EntityId)
| DataQuery_with_request_id (v : Z)
| DataQuery_with_time_interval (v : Z)
| DataQuery_with_fixed_datums (v : list Z)
| DataQuery_with_variable_datums (v : list Z).
(* dis-rs/src/common/data_query_r/builder.rs *)
Inductive DataQueryR_call :=
| DataQueryR_with_origination_id (v : EntityId)
| DataQueryR_with_receiving_id (v : EntityId)
| DataQueryR_with_required_reliability_service (v : Z)
| DataQueryR_with_request_id (v : Z)
| DataQueryR_with_time_interval (v : Z)
| DataQueryR_with_fixed_datums (v : list Z)
| DataQueryR_with_variable_datums (v : list Z).
(* dis-rs/src/common/data_r/builder.rs *)
Inductive DataR_call :=
| DataR_with_origination_id (v : EntityId)
| DataR_with_receiving_id (v : EntityId)
| DataR_with_request_id (v : Z)
| DataR_with_required_reliability_service (v : Z)
| DataR_with_fixed_datums (v : list FixedDatum)
| DataR_with_variable_datums (v : list VariableDatum).
(* dis-rs/src/common/event_report/builder.rs *)
Inductive EventReport_call :=
| EventReport_with_origination_id (v : EntityId)
| EventReport_with_receiving_id (v : EntityId)
| EventReport_with_event_type (v : Z)
| EventReport_with_fixed_datums (v : list FixedDatum)
| EventReport_with_variable_datums (v : list VariableDatum).
(* dis-rs/src/common/event_report_r/builder.rs *)
Inductive EventReportR_call :=
| EventReportR_with_origination_id (v : EntityId)
| EventReportR_with_receiving_id (v : EntityId)
| EventReportR_with_event_type (v : Z)
| EventReportR_with_fixed_datums (v : list FixedDatum)
| EventReportR_with_variable_datums (v : list VariableDatum).
(* dis-rs/src/common/record_query_r/builder.rs *)
Inductive RecordQueryR_call :=
| RecordQueryR_with_origination_id (v : EntityId)
| RecordQueryR_with_receiving_id (v : EntityId)
| RecordQueryR_with_request_id (v : Z)
| RecordQueryR_with_required_reliability_service (v : Z)
| RecordQueryR_with_event_type (v : Z)
| RecordQueryR_with_time (v : Z)
| RecordQueryR_with_record_query_specification (v : list Z).
(* dis-rs/src/common/record_r/builder.rs *)
Inductive RecordR_call :=
| RecordR_with_origination_id (v : EntityId)
| RecordR_with_receiving_id (v : EntityId)
| RecordR_with_request_id (v : Z)
| RecordR_with_required_reliability_service (v : Z)
| RecordR_with_event_type (v : Z)
| RecordR_with_response_serial_number (v : Z)
| RecordR_with_record_specification (v : list RecordSet).
(* dis-rs/src/common/remove_entity/builder.rs *)
Inductive RemoveEntity_call :=
| RemoveEntity_with_origination_id (v : EntityId)
| RemoveEntity_with_receiving_id (v : EntityId)
| RemoveEntity_with_request_id (v : Z).
(* dis-rs/src/common/remove_entity_r/builder.rs *)
Inductive RemoveEntityR_call :=
| RemoveEntityR_with_origination_id (v : EntityId)
| RemoveEntityR_with_receiving_id (v : EntityId)
| RemoveEntityR_with_required_reliability_service (v : Z)
| RemoveEntityR_with_request_id (v : Z).
(* dis-rs/src/common/set_data/builder.rs *)
Inductive SetData_call :=
| SetData_with_origination_id (v : EntityId)
| SetData_with_receiving_id (v : EntityId)
| SetData_with_request_id (v : Z)
| SetData_with_fixed_datums (v : list FixedDatum)
| SetData_with_variable_datums (v : list VariableDatum).
(* dis-rs/src/common/set_data_r/builder.rs *)
Inductive SetDataR_call :=
| SetDataR_with_origination_id (v : EntityId)
| SetDataR_with_receiving_id (v : EntityId)
| SetDataR_with_required_reliability_service (v : Z)
| SetDataR_with_request_id (v : Z)
| SetDataR_with_fixed_datums (v : list FixedDatum)
| SetDataR_with_variable_datums (v : list VariableDatum).
(* dis-rs/src/common/set_record_r/builder.rs *)
Inductive SetRecordR_call :=
| SetRecordR_with_origination_id (v : EntityId)
| SetRecordR_with_receiving_id (v : EntityId)
| SetRecordR_with_request_id (v : Z)
| SetRecordR_with_required_reliability_service (v : Z)
| SetRecordR_with_record_specification (v : list RecordSet).
(* dis-rs/src/common/start_resume/builder.rs *)
Inductive StartResume_call :=
| StartResume_with_origination_id (v : EntityId)
| StartResume_with_receiving_id (v : EntityId)
| StartResume_with_real_world_time (v : ClockTime)
| StartResume_with_simulation_time (v : ClockTime)
| StartResume_with_request_id (v : Z).
(* dis-rs/src/common/start_resume_r/builder.rs *)
Inductive StartResumeR_call :=
| StartResumeR_with_origination_id (v : EntityId)
| StartResumeR_with_receiving_id (v : EntityId)
| StartResumeR_with_real_world_time (v : ClockTime)
| StartResumeR_with_simulation_time (v : ClockTime)
| StartResumeR_with_required_reliability_service (v : Z)
| StartResumeR_with_request_id (v : Z).
(* dis-rs/src/common/stop_freeze/builder.rs *)
Inductive StopFreeze_call :=
| StopFreeze_with_origination_id (v : EntityId)
| StopFreeze_with_receiving_id (v : EntityId)
| StopFreeze_with_real_world_time (v : ClockTime)
| StopFreeze_with_reason (v : Z)
| StopFreeze_with_frozen_behavior (v : Z)
| StopFreeze_with_request_id (v : Z).
(* dis-rs/src/common/stop_freeze_r/builder.rs *)
Inductive StopFreezeR_call :=
| StopFreezeR_with_origination_id (v : EntityId)
| StopFreezeR_with_receiving_id (v : EntityId)
| StopFreezeR_with_real_world_time (v : ClockTime)
| StopFreezeR_with_reason (v : Z)
| StopFreezeR_with_frozen_behavior (v : Z)
| StopFreezeR_with_required_reliability_service (v : Z)
| StopFreezeR_with_request_id (v : Z).
(* dis-rs/src/common/attribute/builder.rs *)
Inductive Attribute_call :=
| Attribute_with_originating_simulation_address (v : SimulationAddress)
| Attribute_with_record_pdu_type (v : Z)
| Attribute_with_record_protocol_version (v : Z)
| Attribute_with_master_attribute_record_type (v : Z)
| Attribute_with_action_code (v : Z)
| Attribute_with_attribute_record_set (v : AttributeRecordSet)
| Attribute_with_attribute_record_sets (v : list AttributeRecordSet).
(* dis-rs/src/common/attribute/model.rs *)
Inductive AttributeRecord_call :=
| AttributeRecord_with_record_type (v : Z)
| AttributeRecord_with_specific_fields (v : list Z).
(* dis-rs/src/common/attribute/model.rs *)
Inductive AttributeRecordSet_call :=
| AttributeRecordSet_with_entity_id (v : EntityId)
| AttributeRecordSet_with_attribute_records (v : list AttributeRecord)
| AttributeRecordSet_with_attribute_record (v : AttributeRecord).
(* dis-rs/src/common/detonation/builder.rs *)
Inductive Detonation_call :=
| Detonation_with_source_entity_id (v : EntityId)
| Detonation_with_target_entity_id (v : EntityId)
| Detonation_with_exploding_entity_id (v : EntityId)
| Detonation_with_event_id (v : EventId)
| Detonation_with_velocity (v : VectorF32)
| Detonation_with_world_location (v : Location)
| Detonation_with_descriptor (v : DescriptorRecord)
| Detonation_with_munition_descriptor (v1 : EntityType) (v2 : MunitionDescriptor)
| Detonation_with_expendable_descriptor (v1 : EntityType)
| Detonation_with_explosion_descriptor (v1 : EntityType) (v2 : Z) (v3 : Z)
| Detonation_with_entity_location (v : VectorF32)
| Detonation_with_detonation_result (v : Z)
| Detonation_with_variable_parameter (v : VariableParameter)
| Detonation_with_variable_parameters (v : list VariableParameter).
(* dis-rs/src/common/entity_state_update/builder.rs *)
Inductive EntityStateUpdate_call :=
| EntityStateUpdate_with_entity_id (v : EntityId)
| EntityStateUpdate_with_velocity (v : VectorF32)
| EntityStateUpdate_with_location (v : Location)
| EntityStateUpdate_with_orientation (v : Orientation)
| EntityStateUpdate_with_appearance (v : EntityAppearance)
| EntityStateUpdate_with_variable_parameter (v : VariableParameter)
| EntityStateUpdate_with_variable_parameters (v : list VariableParameter).
(* dis-rs/src/common/fire/builder.rs *)
Inductive Fire_call :=
| Fire_with_firing_entity_id (v : EntityId)
| Fire_with_target_entity_id (v : EntityId)
| Fire_with_entity_id (v : EntityId)
| Fire_with_event_id (v : EventId)
| Fire_with_fire_mission_index (v : Z)
| Fire_with_location_in_world (v : Location)
| Fire_with_descriptor (v : DescriptorRecord)
| Fire_with_munition_descriptor (v1 : EntityType) (v2 : MunitionDescriptor)
| Fire_with_expendable_descriptor (v1 : EntityType)
| Fire_with_velocity (v : VectorF32)
| Fire_with_range (v : Z).
(* dis-rs/src/common/other/builder.rs *)
Inductive Other_call :=
| Other_with_origin (v : option EntityId)
| Other_with_receiver (v : option EntityId)
| Other_with_body (v : list Z).
(* dis-rs/src/common/sees/model.rs *)
Inductive PropulsionSystemData_call :=
| PropulsionSystemData_with_power_setting (v : Z)
| PropulsionSystemData_with_engine_rpm (v : Z).
(* dis-rs/src/common/sees/builder.rs *)
Inductive Sees_call :=
| Sees_with_originating_entity_id (v : EntityId)
| Sees_with_infrared_signature_representation_index (v : Z)
| Sees_with_acoustic_signature_representation_index (v : Z)
| Sees_with_radar_cross_section_representation_index (v : Z)
| Sees_with_propulsion_system (v : PropulsionSystemData)
| Sees_with_propulsion_systems (v : list PropulsionSystemData)
| Sees_with_vectoring_nozzle_system (v : VectoringNozzleSystemData)
| Sees_with_vectoring_nozzle_systems (v : list VectoringNozzleSystemData).
(* dis-rs/src/common/signal/builder.rs *)
Inductive Signal_call :=
| Signal_with_radio_reference_id (v : EntityId)
| Signal_with_radio_number (v : Z)
| Signal_with_encoding_scheme (v : EncodingScheme)
| Signal_with_tdl_type (v : Z)
| Signal_with_sample_rate (v : Z)
| Signal_with_samples (v : Z)
| Signal_with_data (v : list Z).
(* dis-rs/src/common/sees/model.rs *)
Inductive VectoringNozzleSystemData_call :=
| VectoringNozzleSystemData_with_horizontal_deflection_angle (v : Z)
| VectoringNozzleSystemData_with_vertical_deflection_angle (v : Z).
(* dis-rs/src/common/iff/builder.rs *)
Inductive ChangeOptions_call :=
| ChangeOptions_set_change_indicator
| ChangeOptions_set_system_specific_field_1
| ChangeOptions_set_system_specific_field_2
| ChangeOptions_set_heartbeat_indicator
| ChangeOptions_set_transponder_interrogator_indicator
| ChangeOptions_set_simulation_mode
| ChangeOptions_set_interactive_capable
| ChangeOptions_set_test_mode.
(* dis-rs/src/common/iff/builder.rs *)
Inductive DapSource_call :=
| DapSource_with_indicated_air_speed (v : DapValue)
| DapSource_with_mach_number (v : DapValue)
| DapSource_with_ground_speed (v : DapValue)
| DapSource_with_magnetic_heading (v : DapValue)
| DapSource_with_track_angle_rate (v : DapValue)
| DapSource_with_true_track_angle (v : DapValue)
| DapSource_with_true_airspeed (v : DapValue)
| DapSource_with_vertical_rate (v : DapValue).
(* dis-rs/src/common/iff/builder.rs *)
Inductive EnhancedMode1Code_call :=
| EnhancedMode1Code_with_code_element_1_d (v : Z)
| EnhancedMode1Code_with_code_element_2_c (v : Z)
| EnhancedMode1Code_with_code_element_3_b (v : Z)
| EnhancedMode1Code_with_code_element_4_a (v : Z)
| EnhancedMode1Code_with_on_off_status (v : OnOffStatus)
| EnhancedMode1Code_with_damage_status (v : DamageStatus)
| EnhancedMode1Code_with_malfunction_status (v : MalfunctionStatus).
(* dis-rs/src/common/iff/builder.rs *)
Inductive InformationLayers_call :=
| InformationLayers_with_layer_1 (v : LayersPresence)
| InformationLayers_with_layer_2 (v : LayersPresence)
| InformationLayers_with_layer_3 (v : LayersPresence)
| InformationLayers_with_layer_4 (v : LayersPresence)
| InformationLayers_with_layer_5 (v : LayersPresence)
| InformationLayers_with_layer_6 (v : LayersPresence)
| InformationLayers_with_layer_7 (v : LayersPresence).
(* dis-rs/src/common/iff/builder.rs *)
Inductive Mode5InterrogatorStatus_call :=
| Mode5InterrogatorStatus_with_iff_mission (v : Z)
| Mode5InterrogatorStatus_with_mode_5_message_formats_status (v : Z)
| Mode5InterrogatorStatus_with_on_off_status (v : OnOffStatus)
| Mode5InterrogatorStatus_with_damage_status (v : DamageStatus)
| Mode5InterrogatorStatus_with_malfunction_status (v : MalfunctionStatus).
(* dis-rs/src/common/iff/builder.rs *)
Inductive MessageFormats_call :=
| MessageFormats_with_message_format_0 (v : IffPresence)
| MessageFormats_with_message_format_1 (v : IffPresence)
| MessageFormats_with_message_format_2 (v : IffPresence)
| MessageFormats_with_message_format_3 (v : IffPresence)
| MessageFormats_with_message_format_4 (v : IffPresence)
| MessageFormats_with_message_format_5 (v : IffPresence)
| MessageFormats_with_message_format_6 (v : IffPresence)
| MessageFormats_with_message_format_7 (v : IffPresence)
| MessageFormats_with_message_format_8 (v : IffPresence)
| MessageFormats_with_message_format_9 (v : IffPresence)
| MessageFormats_with_message_format_10 (v : IffPresence)
| MessageFormats_with_message_format_11 (v : IffPresence)
| MessageFormats_with_message_format_12 (v : IffPresence)
| MessageFormats_with_message_format_13 (v : IffPresence)
| MessageFormats_with_message_format_14 (v : IffPresence)
| MessageFormats_with_message_format_15 (v : IffPresence)
| MessageFormats_with_message_format_16 (v : IffPresence)
| MessageFormats_with_message_format_17 (v : IffPresence)
| MessageFormats_with_message_format_18 (v : IffPresence)
| MessageFormats_with_message_format_19 (v : IffPresence)
| MessageFormats_with_message_format_20 (v : IffPresence)
| MessageFormats_with_message_format_21 (v : IffPresence)
| MessageFormats_with_message_format_22 (v : IffPresence)
| MessageFormats_with_message_format_23 (v : IffPresence)
| MessageFormats_with_message_format_24 (v : IffPresence)
| MessageFormats_with_message_format_25 (v : IffPresence)
| MessageFormats_with_message_format_26 (v : IffPresence)
| MessageFormats_with_message_format_27 (v : IffPresence)
| MessageFormats_with_message_format_28 (v : IffPresence)
| MessageFormats_with_message_format_29 (v : IffPresence)
| MessageFormats_with_message_format_30 (v : IffPresence)
| MessageFormats_with_message_format_31 (v : IffPresence).
(* dis-rs/src/common/iff/builder.rs *)
Inductive Mode5TransponderStatus_call :=
| Mode5TransponderStatus_with_mode_5_reply (v : Z)
| Mode5TransponderStatus_with_line_test (v : EnabledStatus)
| Mode5TransponderStatus_with_antenna_selection (v : Z)
| Mode5TransponderStatus_with_crypto_control (v : IffPresence)
| Mode5TransponderStatus_with_lat_lon_alt_source (v : LatLonAltSource)
| Mode5TransponderStatus_with_location_errors (v : Z)
| Mode5TransponderStatus_with_platform_type (v : Z)
| Mode5TransponderStatus_with_mode_5_level_selection (v : Z)
| Mode5TransponderStatus_with_on_off_status (v : OnOffStatus)
| Mode5TransponderStatus_with_damage_status (v : DamageStatus)
| Mode5TransponderStatus_with_malfunction_status (v : MalfunctionStatus).
(* dis-rs/src/common/iff/builder.rs *)
Inductive SupplementalData_call :=
| SupplementalData_with_squitter_on_off_status (v : SquitterStatus)
| SupplementalData_with_level_2_squitter_status (v : Z)
| SupplementalData_with_iff_mission (v : Z).
(* dis-rs/src/common/iff/builder.rs *)
Inductive ModeSAltitude_call :=
| ModeSAltitude_with_altitude (v : Z)
| ModeSAltitude_with_resolution (v : Z).
(* dis-rs/src/common/iff/builder.rs *)
Inductive ModeSInterrogatorStatus_call :=
| ModeSInterrogatorStatus_with_on_off_status (v : OnOffStatus)
| ModeSInterrogatorStatus_with_transmit_state (v : Z)
| ModeSInterrogatorStatus_with_damage_status (v : DamageStatus)
| ModeSInterrogatorStatus_with_malfunction_status (v : MalfunctionStatus).
(* dis-rs/src/common/iff/builder.rs *)
Inductive ModeSLevels_call :=
| ModeSLevels_with_level_1 (v : IffPresence)
| ModeSLevels_with_level_2_els (v : IffPresence)
| ModeSLevels_with_level_2_ehs (v : IffPresence)
| ModeSLevels_with_level_3 (v : IffPresence)
| ModeSLevels_with_level_4 (v : IffPresence).
(* dis-rs/src/common/iff/builder.rs *)
Inductive ModeSTransponderStatus_call :=
| ModeSTransponderStatus_with_squitter_status (v : SquitterStatus)
| ModeSTransponderStatus_with_squitter_type (v : Z)
| ModeSTransponderStatus_with_squitter_record_source (v : Z)
| ModeSTransponderStatus_with_airborne_position_report_indicator (v : IffPresence)
| ModeSTransponderStatus_with_airborne_velocity_report_indicator (v : IffPresence)
| ModeSTransponderStatus_with_surface_position_report_indicator (v : IffPresence)
| ModeSTransponderStatus_with_identification_report_indicator (v : IffPresence)
| ModeSTransponderStatus_with_event_driven_report_indicator (v : IffPresence)
| ModeSTransponderStatus_with_on_off_status (v : OnOffStatus)
| ModeSTransponderStatus_with_damage_status (v : DamageStatus)
| ModeSTransponderStatus_with_malfunction_status (v : MalfunctionStatus).
(* dis-rs/src/common/iff/builder.rs *)
Inductive SystemStatus_call :=
| SystemStatus_with_system_on_off_status (v : OnOffStatus)
| SystemStatus_with_parameter_1_capable (v : ParameterCapable)
| SystemStatus_with_parameter_2_capable (v : ParameterCapable)
| SystemStatus_with_parameter_3_capable (v : ParameterCapable)
| SystemStatus_with_parameter_4_capable (v : ParameterCapable)
| SystemStatus_with_parameter_5_capable (v : ParameterCapable)
| SystemStatus_with_parameter_6_capable (v : ParameterCapable)
| SystemStatus_with_operational_status (v : OperationalStatus).
(* dis-rs/src/common/model.rs:1599-1627 *)
Inductive RecordSet_call :=
| RecordSet_with_record_id (v : Z)
| RecordSet_with_record_serial_number (v : Z)
| RecordSet_with_record (v : list Z)
| RecordSet_with_records (v : list (list Z)).
(* dis-rs/src/common/model.rs:135-155 *)
Inductive PduHeader_call :=
| PduHeader_with_pdu_type (v : Z)
| PduHeader_with_time_stamp (v : Z)
| PduHeader_with_length (body_length : Z)
| PduHeader_with_pdu_status (v : PduStatus).
