(** * Default values of the PDU bodies

    `X::default()` for the types behind the variants of PduBody: what `X::builder()` starts from (builder.rs of each PDU: `new` is
    `XBuilder(X::default())`) and what an untouched builder builds. Derived Default gives every member its own default: numbers 0,
    flags false, lists empty, options None; generated enumerations and bit fields are what 0 stands for (build.rs:939-945, 973);
    SimulationAddress, EntityId, EventId common/model.rs:648-740 (all zero: NO_SITE, NO_APPLIC, NO_ENTITY); DescriptorRecord
    common/model.rs:1015-1021 (a munition); EntityAppearance, EntityMarking, DrOtherParameters entity_state/model.rs:89-93, 170-177, 233-237;
    EncodingScheme signal/model.rs:72-76; ModulationType, SpreadSpectrum, CryptoKeyId transmitter/model.rs:80-200; the records of
    IFF layer 1 iff/model.rs:370-412, 1497-1555 (Off, Capable, Operational, NotPresentApplicable: all zero bits).
    The default of EntityCapabilities depends on the generated enumeration (UID 55), whose table is not in the repository, so
    it is a parameter. Other and the bodies without payload have no builder. *)
From Coq Require Import ZArith List Bool.
From Verif Require Import Base DisCommon IffWords DisHeader DisLists DisSimman DisLogistics DisWarfare DisEntity DisEmission DisRadio DisIff DisPdu DisPacket.
Import ListNotations. Open Scope Z_scope.

(** EntityState, common/entity_state/model.rs:21 *)
Definition default_EntityState (caps : EntityCapabilities) : EntityState :=
  {| EntityState_entity_id := {| ei_addr := {| sa_site := 0; sa_app := 0 |}; ei_id := 0 |}; EntityState_force_id := 0;
  EntityState_entity_type := {| et_kind := 0; et_domain := 0; et_country := 0; et_category := 0; et_subcategory := 0; et_specific
  := 0; et_extra := 0 |}; EntityState_alternative_entity_type := {| et_kind := 0; et_domain := 0; et_country := 0; et_category :=
  0; et_subcategory := 0; et_specific := 0; et_extra := 0 |}; EntityState_velocity := {| v_1 := 0; v_2 := 0; v_3 := 0 |};
  EntityState_location := {| loc_x := 0; loc_y := 0; loc_z := 0 |}; EntityState_orientation := {| or_psi := 0; or_theta := 0;
  or_phi := 0 |}; EntityState_appearance := {| ea_kind := AUnspecified; ea_word := 0 |}; EntityState_dr := {| dr_algorithm := 0;
  dr_other := DrNone [0; 0; 0; 0; 0; 0; 0; 0; 0; 0; 0; 0; 0; 0; 0]; dr_acceleration := {| v_1 := 0; v_2 := 0; v_3 := 0 |};
  dr_velocity := {| v_1 := 0; v_2 := 0; v_3 := 0 |} |}; EntityState_marking := {| mk_charset := 1; mk_string := [77; 97; 114; 107;
  105; 110; 103] |}; EntityState_capabilities := caps; EntityState_variable_parameters := [] |}.

(** Fire, common/fire/model.rs:12 *)
Definition default_Fire : Fire :=
  {| Fire_firing_entity_id := {| ei_addr := {| sa_site := 0; sa_app := 0 |}; ei_id := 0 |}; Fire_target_entity_id := {| ei_addr :=
  {| sa_site := 0; sa_app := 0 |}; ei_id := 0 |}; Fire_entity_id := {| ei_addr := {| sa_site := 0; sa_app := 0 |}; ei_id := 0 |};
  Fire_event_id := {| ev_addr := {| sa_site := 0; sa_app := 0 |}; ev_id := 0 |}; Fire_fire_mission_index := 0;
  Fire_location_in_world := {| loc_x := 0; loc_y := 0; loc_z := 0 |}; Fire_descriptor := DMunition {| et_kind := 0; et_domain :=
  0; et_country := 0; et_category := 0; et_subcategory := 0; et_specific := 0; et_extra := 0 |} {| md_warhead := 0; md_fuse := 0;
  md_quantity := 0; md_rate := 0 |}; Fire_velocity := {| v_1 := 0; v_2 := 0; v_3 := 0 |}; Fire_range := 0 |}.

(** Detonation, common/detonation/model.rs:10 *)
Definition default_Detonation : Detonation :=
  {| Detonation_source_entity_id := {| ei_addr := {| sa_site := 0; sa_app := 0 |}; ei_id := 0 |}; Detonation_target_entity_id :=
  {| ei_addr := {| sa_site := 0; sa_app := 0 |}; ei_id := 0 |}; Detonation_exploding_entity_id := {| ei_addr := {| sa_site := 0;
  sa_app := 0 |}; ei_id := 0 |}; Detonation_event_id := {| ev_addr := {| sa_site := 0; sa_app := 0 |}; ev_id := 0 |};
  Detonation_velocity := {| v_1 := 0; v_2 := 0; v_3 := 0 |}; Detonation_world_location := {| loc_x := 0; loc_y := 0; loc_z := 0
  |}; Detonation_descriptor := DMunition {| et_kind := 0; et_domain := 0; et_country := 0; et_category := 0; et_subcategory := 0;
  et_specific := 0; et_extra := 0 |} {| md_warhead := 0; md_fuse := 0; md_quantity := 0; md_rate := 0 |};
  Detonation_entity_location := {| v_1 := 0; v_2 := 0; v_3 := 0 |}; Detonation_result := 0; Detonation_variable_parameters := []
  |}.

(** Collision, common/collision/model.rs:9 *)
Definition default_Collision : Collision :=
  {| Collision_issuing_entity_id := {| ei_addr := {| sa_site := 0; sa_app := 0 |}; ei_id := 0 |}; Collision_colliding_entity_id :=
  {| ei_addr := {| sa_site := 0; sa_app := 0 |}; ei_id := 0 |}; Collision_event_id := {| ev_addr := {| sa_site := 0; sa_app := 0
  |}; ev_id := 0 |}; Collision_collision_type := 0; Collision_velocity := {| v_1 := 0; v_2 := 0; v_3 := 0 |}; Collision_mass := 0;
  Collision_location := {| v_1 := 0; v_2 := 0; v_3 := 0 |} |}.

(** ServiceRequest, common/service_request/model.rs:12 *)
Definition default_ServiceRequest : ServiceRequest :=
  {| ServiceRequest_requesting_id := {| ei_addr := {| sa_site := 0; sa_app := 0 |}; ei_id := 0 |}; ServiceRequest_servicing_id :=
  {| ei_addr := {| sa_site := 0; sa_app := 0 |}; ei_id := 0 |}; ServiceRequest_service_type_requested := 0;
  ServiceRequest_supplies := [] |}.

(** ResupplyOffer, common/resupply_offer/model.rs:13 *)
Definition default_ResupplyOffer : ResupplyOffer :=
  {| ResupplyOffer_requesting_id := {| ei_addr := {| sa_site := 0; sa_app := 0 |}; ei_id := 0 |}; ResupplyOffer_servicing_id := {|
  ei_addr := {| sa_site := 0; sa_app := 0 |}; ei_id := 0 |}; ResupplyOffer_supplies := [] |}.

(** ResupplyReceived, common/resupply_received/model.rs:13 *)
Definition default_ResupplyReceived : ResupplyReceived :=
  {| ResupplyReceived_requesting_id := {| ei_addr := {| sa_site := 0; sa_app := 0 |}; ei_id := 0 |}; ResupplyReceived_servicing_id
  := {| ei_addr := {| sa_site := 0; sa_app := 0 |}; ei_id := 0 |}; ResupplyReceived_supplies := [] |}.

(** ResupplyCancel, common/resupply_cancel/model.rs:12 *)
Definition default_ResupplyCancel : ResupplyCancel :=
  {| ResupplyCancel_requesting_id := {| ei_addr := {| sa_site := 0; sa_app := 0 |}; ei_id := 0 |}; ResupplyCancel_servicing_id :=
  {| ei_addr := {| sa_site := 0; sa_app := 0 |}; ei_id := 0 |} |}.

(** RepairComplete, common/repair_complete/model.rs:12 *)
Definition default_RepairComplete : RepairComplete :=
  {| RepairComplete_receiving_id := {| ei_addr := {| sa_site := 0; sa_app := 0 |}; ei_id := 0 |}; RepairComplete_repairing_id :=
  {| ei_addr := {| sa_site := 0; sa_app := 0 |}; ei_id := 0 |}; RepairComplete_repair := 0 |}.

(** RepairResponse, common/repair_response/model.rs:12 *)
Definition default_RepairResponse : RepairResponse :=
  {| RepairResponse_receiving_id := {| ei_addr := {| sa_site := 0; sa_app := 0 |}; ei_id := 0 |}; RepairResponse_repairing_id :=
  {| ei_addr := {| sa_site := 0; sa_app := 0 |}; ei_id := 0 |}; RepairResponse_repair_result := 0 |}.

(** CreateEntity, common/create_entity/model.rs:12 *)
Definition default_CreateEntity : CreateEntity :=
  {| CreateEntity_originating_id := {| ei_addr := {| sa_site := 0; sa_app := 0 |}; ei_id := 0 |}; CreateEntity_receiving_id := {|
  ei_addr := {| sa_site := 0; sa_app := 0 |}; ei_id := 0 |}; CreateEntity_request_id := 0 |}.

(** RemoveEntity, common/remove_entity/model.rs:12 *)
Definition default_RemoveEntity : RemoveEntity :=
  {| RemoveEntity_originating_id := {| ei_addr := {| sa_site := 0; sa_app := 0 |}; ei_id := 0 |}; RemoveEntity_receiving_id := {|
  ei_addr := {| sa_site := 0; sa_app := 0 |}; ei_id := 0 |}; RemoveEntity_request_id := 0 |}.

(** StartResume, common/start_resume/model.rs:12 *)
Definition default_StartResume : StartResume :=
  {| StartResume_originating_id := {| ei_addr := {| sa_site := 0; sa_app := 0 |}; ei_id := 0 |}; StartResume_receiving_id := {|
  ei_addr := {| sa_site := 0; sa_app := 0 |}; ei_id := 0 |}; StartResume_real_world_time := {| ct_hour := 0; ct_past := 0 |};
  StartResume_simulation_time := {| ct_hour := 0; ct_past := 0 |}; StartResume_request_id := 0 |}.

(** StopFreeze, common/stop_freeze/model.rs:12 *)
Definition default_StopFreeze : StopFreeze :=
  {| StopFreeze_originating_id := {| ei_addr := {| sa_site := 0; sa_app := 0 |}; ei_id := 0 |}; StopFreeze_receiving_id := {|
  ei_addr := {| sa_site := 0; sa_app := 0 |}; ei_id := 0 |}; StopFreeze_real_world_time := {| ct_hour := 0; ct_past := 0 |};
  StopFreeze_reason := 0; StopFreeze_frozen_behavior := 0; StopFreeze_request_id := 0 |}.

(** Acknowledge, common/acknowledge/model.rs:12 *)
Definition default_Acknowledge : Acknowledge :=
  {| Acknowledge_originating_id := {| ei_addr := {| sa_site := 0; sa_app := 0 |}; ei_id := 0 |}; Acknowledge_receiving_id := {|
  ei_addr := {| sa_site := 0; sa_app := 0 |}; ei_id := 0 |}; Acknowledge_acknowledge_flag := 0; Acknowledge_response_flag := 0;
  Acknowledge_request_id := 0 |}.

(** ActionRequest, common/action_request/model.rs:14 *)
Definition default_ActionRequest : ActionRequest :=
  {| ActionRequest_originating_id := {| ei_addr := {| sa_site := 0; sa_app := 0 |}; ei_id := 0 |}; ActionRequest_receiving_id :=
  {| ei_addr := {| sa_site := 0; sa_app := 0 |}; ei_id := 0 |}; ActionRequest_request_id := 0; ActionRequest_action_id := 0;
  ActionRequest_fixed_datum_records := []; ActionRequest_variable_datum_records := [] |}.

(** ActionResponse, common/action_response/model.rs:11 *)
Definition default_ActionResponse : ActionResponse :=
  {| ActionResponse_originating_id := {| ei_addr := {| sa_site := 0; sa_app := 0 |}; ei_id := 0 |}; ActionResponse_receiving_id :=
  {| ei_addr := {| sa_site := 0; sa_app := 0 |}; ei_id := 0 |}; ActionResponse_request_id := 0; ActionResponse_request_status :=
  0; ActionResponse_fixed_datum_records := []; ActionResponse_variable_datum_records := [] |}.

(** DataQuery, common/data_query/model.rs:10 *)
Definition default_DataQuery : DataQuery :=
  {| DataQuery_originating_id := {| ei_addr := {| sa_site := 0; sa_app := 0 |}; ei_id := 0 |}; DataQuery_receiving_id := {|
  ei_addr := {| sa_site := 0; sa_app := 0 |}; ei_id := 0 |}; DataQuery_request_id := 0; DataQuery_time_interval := 0;
  DataQuery_fixed_datum_records := []; DataQuery_variable_datum_records := [] |}.

(** SetData, common/set_data/model.rs:13 *)
Definition default_SetData : SetData :=
  {| SetData_originating_id := {| ei_addr := {| sa_site := 0; sa_app := 0 |}; ei_id := 0 |}; SetData_receiving_id := {| ei_addr :=
  {| sa_site := 0; sa_app := 0 |}; ei_id := 0 |}; SetData_request_id := 0; SetData_fixed_datum_records := [];
  SetData_variable_datum_records := [] |}.

(** Data, common/data/model.rs:10 *)
Definition default_Data : Data :=
  {| Data_originating_id := {| ei_addr := {| sa_site := 0; sa_app := 0 |}; ei_id := 0 |}; Data_receiving_id := {| ei_addr := {|
  sa_site := 0; sa_app := 0 |}; ei_id := 0 |}; Data_request_id := 0; Data_fixed_datum_records := []; Data_variable_datum_records
  := [] |}.

(** EventReport, common/event_report/model.rs:16 *)
Definition default_EventReport : EventReport :=
  {| EventReport_originating_id := {| ei_addr := {| sa_site := 0; sa_app := 0 |}; ei_id := 0 |}; EventReport_receiving_id := {|
  ei_addr := {| sa_site := 0; sa_app := 0 |}; ei_id := 0 |}; EventReport_event_type := 0; EventReport_fixed_datum_records := [];
  EventReport_variable_datum_records := [] |}.

(** Comment, common/comment/model.rs:13 *)
Definition default_Comment : Comment :=
  {| Comment_originating_id := {| ei_addr := {| sa_site := 0; sa_app := 0 |}; ei_id := 0 |}; Comment_receiving_id := {| ei_addr :=
  {| sa_site := 0; sa_app := 0 |}; ei_id := 0 |}; Comment_variable_datum_records := [] |}.

(** ElectromagneticEmission, common/electromagnetic_emission/model.rs:15 *)
Definition default_ElectromagneticEmission : ElectromagneticEmission :=
  {| EE_emitting_entity_id := {| ei_addr := {| sa_site := 0; sa_app := 0 |}; ei_id := 0 |}; EE_event_id := {| ev_addr := {|
  sa_site := 0; sa_app := 0 |}; ev_id := 0 |}; EE_state_update := 0; EE_systems := [] |}.

(** Designator, common/designator/model.rs:13 *)
Definition default_Designator : Designator :=
  {| Designator_designating_entity_id := {| ei_addr := {| sa_site := 0; sa_app := 0 |}; ei_id := 0 |}; Designator_system_name :=
  0; Designator_designated_entity_id := {| ei_addr := {| sa_site := 0; sa_app := 0 |}; ei_id := 0 |}; Designator_code := 0;
  Designator_power := 0; Designator_wavelength := 0; Designator_spot_wrt_designated_entity := {| v_1 := 0; v_2 := 0; v_3 := 0 |};
  Designator_spot_location := {| loc_x := 0; loc_y := 0; loc_z := 0 |}; Designator_dead_reckoning_algorithm := 0;
  Designator_linear_acceleration := {| v_1 := 0; v_2 := 0; v_3 := 0 |} |}.

(** Transmitter, common/transmitter/model.rs:12 *)
Definition default_Transmitter : Transmitter :=
  {| Transmitter_radio_reference_id := {| ei_addr := {| sa_site := 0; sa_app := 0 |}; ei_id := 0 |}; Transmitter_radio_number :=
  0; Transmitter_radio_type := {| et_kind := 0; et_domain := 0; et_country := 0; et_category := 0; et_subcategory := 0;
  et_specific := 0; et_extra := 0 |}; Transmitter_transmit_state := 0; Transmitter_input_source := 0; Transmitter_antenna_location
  := {| loc_x := 0; loc_y := 0; loc_z := 0 |}; Transmitter_relative_antenna_location := {| v_1 := 0; v_2 := 0; v_3 := 0 |};
  Transmitter_antenna_pattern_type := 0; Transmitter_frequency := 0; Transmitter_bandwidth := 0; Transmitter_power := 0;
  Transmitter_modulation_type := {| mt_spread := {| ss_hopping := false; ss_noise := false; ss_time := false |}; mt_major :=
  MMNoStatement; mt_system := 0 |}; Transmitter_crypto_system := 0; Transmitter_crypto_key_id := {| ck_key := 0; ck_diphase :=
  false |}; Transmitter_modulation_parameters := None; Transmitter_antenna_pattern := None; Transmitter_vtps := [] |}.

(** Signal, common/signal/model.rs:13 *)
Definition default_Signal : Signal :=
  {| Signal_radio_reference_id := {| ei_addr := {| sa_site := 0; sa_app := 0 |}; ei_id := 0 |}; Signal_radio_number := 0;
  Signal_encoding_scheme := EsEncodedAudio 0 0; Signal_tdl_type := 0; Signal_sample_rate := 0; Signal_samples := 0; Signal_data :=
  [] |}.

(** Receiver, common/receiver/model.rs:9 *)
Definition default_Receiver : Receiver :=
  {| Receiver_radio_reference_id := {| ei_addr := {| sa_site := 0; sa_app := 0 |}; ei_id := 0 |}; Receiver_radio_number := 0;
  Receiver_receiver_state := 0; Receiver_received_power := 0; Receiver_transmitter_radio_reference_id := {| ei_addr := {| sa_site
  := 0; sa_app := 0 |}; ei_id := 0 |}; Receiver_transmitter_radio_number := 0 |}.

(** Iff, common/iff/model.rs:16 *)
Definition default_Iff : Iff :=
  {| Iff_emitting_entity_id := {| ei_addr := {| sa_site := 0; sa_app := 0 |}; ei_id := 0 |}; Iff_event_id := {| ev_addr := {|
  sa_site := 0; sa_app := 0 |}; ev_id := 0 |}; Iff_antenna := {| v_1 := 0; v_2 := 0; v_3 := 0 |}; Iff_system_id := {| si_type :=
  0; si_name := 0; si_mode := 0; si_change := 0 |}; Iff_designator := 0; Iff_specific := 0; Iff_data := {| fo_status := 0;
  fo_field1 := 0; fo_layers := 0; fo_field2 := 0; fo_p1 := 0; fo_p2 := 0; fo_p3 := 0; fo_p4 := 0; fo_p5 := 0; fo_p6 := 0 |};
  Iff_layer_2 := None; Iff_layer_3 := None; Iff_layer_4 := None; Iff_layer_5 := None |}.

(** UnderwaterAcoustic, common/underwater_acoustic/model.rs:13 *)
Definition default_UnderwaterAcoustic : UnderwaterAcoustic :=
  {| UA_emitting_entity_id := {| ei_addr := {| sa_site := 0; sa_app := 0 |}; ei_id := 0 |}; UA_event_id := {| ev_addr := {|
  sa_site := 0; sa_app := 0 |}; ev_id := 0 |}; UA_state_change := 0; UA_passive_index := 0; UA_propulsion := {| pp_configuration
  := 0; pp_masker := false |}; UA_shafts := []; UA_apas := []; UA_systems := [] |}.

(** Sees, common/sees/model.rs:13 *)
Definition default_Sees : Sees :=
  {| Sees_originating_entity_id := {| ei_addr := {| sa_site := 0; sa_app := 0 |}; ei_id := 0 |}; Sees_infrared := 0; Sees_acoustic
  := 0; Sees_radar := 0; Sees_propulsion_systems := []; Sees_vectoring_nozzle_systems := [] |}.

(** AggregateState, common/aggregate_state/model.rs:17 *)
Definition default_AggregateState : AggregateState :=
  {| AggregateState_aggregate_id := {| ei_addr := {| sa_site := 0; sa_app := 0 |}; ei_id := 0 |}; AggregateState_force_id := 0;
  AggregateState_aggregate_state := 0; AggregateState_aggregate_type := {| ag_kind := 0; ag_domain := 0; ag_country := 0;
  ag_category := 0; ag_subcategory := 0; ag_specific := 0; ag_extra := 0 |}; AggregateState_formation := 0; AggregateState_marking
  := {| mk_charset := 0; mk_string := [] |}; AggregateState_dimensions := {| v_1 := 0; v_2 := 0; v_3 := 0 |};
  AggregateState_orientation := {| or_psi := 0; or_theta := 0; or_phi := 0 |}; AggregateState_center_of_mass := {| loc_x := 0;
  loc_y := 0; loc_z := 0 |}; AggregateState_velocity := {| v_1 := 0; v_2 := 0; v_3 := 0 |}; AggregateState_aggregates := [];
  AggregateState_entities := []; AggregateState_silent_aggregates := []; AggregateState_silent_entities := [];
  AggregateState_variable_datums := [] |}.

(** IsGroupOf, common/is_group_of/model.rs:17 *)
Definition default_IsGroupOf : IsGroupOf :=
  {| IsGroupOf_group_id := {| ei_addr := {| sa_site := 0; sa_app := 0 |}; ei_id := 0 |}; IsGroupOf_category := 0;
  IsGroupOf_latitude := 0; IsGroupOf_longitude := 0; IsGroupOf_descriptions := [] |}.

(** TransferOwnership, common/transfer_ownership/model.rs:13 *)
Definition default_TransferOwnership : TransferOwnership :=
  {| TransferOwnership_originating_id := {| ei_addr := {| sa_site := 0; sa_app := 0 |}; ei_id := 0 |};
  TransferOwnership_receiving_id := {| ei_addr := {| sa_site := 0; sa_app := 0 |}; ei_id := 0 |}; TransferOwnership_request_id :=
  0; TransferOwnership_required_reliability_service := 0; TransferOwnership_transfer_type := 0;
  TransferOwnership_transfer_entity_id := {| ei_addr := {| sa_site := 0; sa_app := 0 |}; ei_id := 0 |};
  TransferOwnership_record_specification := [] |}.

(** IsPartOf, common/is_part_of/model.rs:12 *)
Definition default_IsPartOf : IsPartOf :=
  {| IsPartOf_originating_simulation_id := {| ei_addr := {| sa_site := 0; sa_app := 0 |}; ei_id := 0 |};
  IsPartOf_receiving_entity_id := {| ei_addr := {| sa_site := 0; sa_app := 0 |}; ei_id := 0 |}; IsPartOf_relationship := {|
  re_nature := 0; re_position := 0 |}; IsPartOf_part_location := {| v_1 := 0; v_2 := 0; v_3 := 0 |}; IsPartOf_named_location_id :=
  {| nl_name := 0; nl_number := 0 |} |}.

(** CreateEntityR, common/create_entity_r/model.rs:12 *)
Definition default_CreateEntityR : CreateEntityR :=
  {| CreateEntityR_originating_id := {| ei_addr := {| sa_site := 0; sa_app := 0 |}; ei_id := 0 |}; CreateEntityR_receiving_id :=
  {| ei_addr := {| sa_site := 0; sa_app := 0 |}; ei_id := 0 |}; CreateEntityR_required_reliability_service := 0;
  CreateEntityR_request_id := 0 |}.

(** RemoveEntityR, common/remove_entity_r/model.rs:12 *)
Definition default_RemoveEntityR : RemoveEntityR :=
  {| RemoveEntityR_originating_id := {| ei_addr := {| sa_site := 0; sa_app := 0 |}; ei_id := 0 |}; RemoveEntityR_receiving_id :=
  {| ei_addr := {| sa_site := 0; sa_app := 0 |}; ei_id := 0 |}; RemoveEntityR_required_reliability_service := 0;
  RemoveEntityR_request_id := 0 |}.

(** StartResumeR, common/start_resume_r/model.rs:12 *)
Definition default_StartResumeR : StartResumeR :=
  {| StartResumeR_originating_id := {| ei_addr := {| sa_site := 0; sa_app := 0 |}; ei_id := 0 |}; StartResumeR_receiving_id := {|
  ei_addr := {| sa_site := 0; sa_app := 0 |}; ei_id := 0 |}; StartResumeR_real_world_time := {| ct_hour := 0; ct_past := 0 |};
  StartResumeR_simulation_time := {| ct_hour := 0; ct_past := 0 |}; StartResumeR_required_reliability_service := 0;
  StartResumeR_request_id := 0 |}.

(** StopFreezeR, common/stop_freeze_r/model.rs:12 *)
Definition default_StopFreezeR : StopFreezeR :=
  {| StopFreezeR_originating_id := {| ei_addr := {| sa_site := 0; sa_app := 0 |}; ei_id := 0 |}; StopFreezeR_receiving_id := {|
  ei_addr := {| sa_site := 0; sa_app := 0 |}; ei_id := 0 |}; StopFreezeR_real_world_time := {| ct_hour := 0; ct_past := 0 |};
  StopFreezeR_reason := 0; StopFreezeR_frozen_behavior := 0; StopFreezeR_required_reliability_service := 0; StopFreezeR_request_id
  := 0 |}.

(** AcknowledgeR, common/acknowledge_r/model.rs:12 *)
Definition default_AcknowledgeR : AcknowledgeR :=
  {| AcknowledgeR_originating_id := {| ei_addr := {| sa_site := 0; sa_app := 0 |}; ei_id := 0 |}; AcknowledgeR_receiving_id := {|
  ei_addr := {| sa_site := 0; sa_app := 0 |}; ei_id := 0 |}; AcknowledgeR_acknowledge_flag := 0; AcknowledgeR_response_flag := 0;
  AcknowledgeR_request_id := 0 |}.

(** ActionRequestR, common/action_request_r/model.rs:14 *)
Definition default_ActionRequestR : ActionRequestR :=
  {| ActionRequestR_originating_id := {| ei_addr := {| sa_site := 0; sa_app := 0 |}; ei_id := 0 |}; ActionRequestR_receiving_id :=
  {| ei_addr := {| sa_site := 0; sa_app := 0 |}; ei_id := 0 |}; ActionRequestR_required_reliability_service := 0;
  ActionRequestR_request_id := 0; ActionRequestR_action_id := 0; ActionRequestR_fixed_datum_records := [];
  ActionRequestR_variable_datum_records := [] |}.

(** ActionResponseR, common/action_response_r/model.rs:14 *)
Definition default_ActionResponseR : ActionResponseR :=
  {| ActionResponseR_originating_id := {| ei_addr := {| sa_site := 0; sa_app := 0 |}; ei_id := 0 |}; ActionResponseR_receiving_id
  := {| ei_addr := {| sa_site := 0; sa_app := 0 |}; ei_id := 0 |}; ActionResponseR_request_id := 0; ActionResponseR_request_status
  := 0; ActionResponseR_fixed_datum_records := []; ActionResponseR_variable_datum_records := [] |}.

(** DataQueryR, common/data_query_r/model.rs:13 *)
Definition default_DataQueryR : DataQueryR :=
  {| DataQueryR_originating_id := {| ei_addr := {| sa_site := 0; sa_app := 0 |}; ei_id := 0 |}; DataQueryR_receiving_id := {|
  ei_addr := {| sa_site := 0; sa_app := 0 |}; ei_id := 0 |}; DataQueryR_required_reliability_service := 0; DataQueryR_request_id
  := 0; DataQueryR_time_interval := 0; DataQueryR_fixed_datum_records := []; DataQueryR_variable_datum_records := [] |}.

(** SetDataR, common/set_data_r/model.rs:13 *)
Definition default_SetDataR : SetDataR :=
  {| SetDataR_originating_id := {| ei_addr := {| sa_site := 0; sa_app := 0 |}; ei_id := 0 |}; SetDataR_receiving_id := {| ei_addr
  := {| sa_site := 0; sa_app := 0 |}; ei_id := 0 |}; SetDataR_required_reliability_service := 0; SetDataR_request_id := 0;
  SetDataR_fixed_datum_records := []; SetDataR_variable_datum_records := [] |}.

(** DataR, common/data_r/model.rs:13 *)
Definition default_DataR : DataR :=
  {| DataR_originating_id := {| ei_addr := {| sa_site := 0; sa_app := 0 |}; ei_id := 0 |}; DataR_receiving_id := {| ei_addr := {|
  sa_site := 0; sa_app := 0 |}; ei_id := 0 |}; DataR_request_id := 0; DataR_required_reliability_service := 0;
  DataR_fixed_datum_records := []; DataR_variable_datum_records := [] |}.

(** EventReportR, common/event_report_r/model.rs:14 *)
Definition default_EventReportR : EventReportR :=
  {| EventReportR_originating_id := {| ei_addr := {| sa_site := 0; sa_app := 0 |}; ei_id := 0 |}; EventReportR_receiving_id := {|
  ei_addr := {| sa_site := 0; sa_app := 0 |}; ei_id := 0 |}; EventReportR_event_type := 0; EventReportR_fixed_datum_records := [];
  EventReportR_variable_datum_records := [] |}.

(** CommentR, common/comment_r/model.rs:13 *)
Definition default_CommentR : CommentR :=
  {| CommentR_originating_id := {| ei_addr := {| sa_site := 0; sa_app := 0 |}; ei_id := 0 |}; CommentR_receiving_id := {| ei_addr
  := {| sa_site := 0; sa_app := 0 |}; ei_id := 0 |}; CommentR_variable_datum_records := [] |}.

(** RecordR, common/record_r/model.rs:14 *)
Definition default_RecordR : RecordR :=
  {| RecordR_originating_id := {| ei_addr := {| sa_site := 0; sa_app := 0 |}; ei_id := 0 |}; RecordR_receiving_id := {| ei_addr :=
  {| sa_site := 0; sa_app := 0 |}; ei_id := 0 |}; RecordR_request_id := 0; RecordR_required_reliability_service := 0;
  RecordR_event_type := 0; RecordR_response_serial_number := 0; RecordR_record_specification := [] |}.

(** SetRecordR, common/set_record_r/model.rs:14 *)
Definition default_SetRecordR : SetRecordR :=
  {| SetRecordR_originating_id := {| ei_addr := {| sa_site := 0; sa_app := 0 |}; ei_id := 0 |}; SetRecordR_receiving_id := {|
  ei_addr := {| sa_site := 0; sa_app := 0 |}; ei_id := 0 |}; SetRecordR_request_id := 0; SetRecordR_required_reliability_service
  := 0; SetRecordR_record_specification := [] |}.

(** RecordQueryR, common/record_query_r/model.rs:14 *)
Definition default_RecordQueryR : RecordQueryR :=
  {| RecordQueryR_originating_id := {| ei_addr := {| sa_site := 0; sa_app := 0 |}; ei_id := 0 |}; RecordQueryR_receiving_id := {|
  ei_addr := {| sa_site := 0; sa_app := 0 |}; ei_id := 0 |}; RecordQueryR_request_id := 0;
  RecordQueryR_required_reliability_service := 0; RecordQueryR_event_type := 0; RecordQueryR_time := 0;
  RecordQueryR_record_query_specification := [] |}.

(** CollisionElastic, common/collision_elastic/model.rs:12 *)
Definition default_CollisionElastic : CollisionElastic :=
  {| CollisionElastic_issuing_entity_id := {| ei_addr := {| sa_site := 0; sa_app := 0 |}; ei_id := 0 |};
  CollisionElastic_colliding_entity_id := {| ei_addr := {| sa_site := 0; sa_app := 0 |}; ei_id := 0 |}; CollisionElastic_event_id
  := {| ev_addr := {| sa_site := 0; sa_app := 0 |}; ev_id := 0 |}; CollisionElastic_velocity := {| v_1 := 0; v_2 := 0; v_3 := 0
  |}; CollisionElastic_mass := 0; CollisionElastic_location := {| v_1 := 0; v_2 := 0; v_3 := 0 |};
  CollisionElastic_intermediate_result_xx := 0; CollisionElastic_intermediate_result_xy := 0;
  CollisionElastic_intermediate_result_xz := 0; CollisionElastic_intermediate_result_yy := 0;
  CollisionElastic_intermediate_result_yz := 0; CollisionElastic_intermediate_result_zz := 0; CollisionElastic_unit_surface_normal
  := {| v_1 := 0; v_2 := 0; v_3 := 0 |}; CollisionElastic_coefficient_of_restitution := 0 |}.

(** EntityStateUpdate, common/entity_state_update/model.rs:14 *)
Definition default_EntityStateUpdate : EntityStateUpdate :=
  {| EntityStateUpdate_entity_id := {| ei_addr := {| sa_site := 0; sa_app := 0 |}; ei_id := 0 |}; EntityStateUpdate_velocity := {|
  v_1 := 0; v_2 := 0; v_3 := 0 |}; EntityStateUpdate_location := {| loc_x := 0; loc_y := 0; loc_z := 0 |};
  EntityStateUpdate_orientation := {| or_psi := 0; or_theta := 0; or_phi := 0 |}; EntityStateUpdate_appearance := {| ea_kind :=
  AUnspecified; ea_word := 0 |}; EntityStateUpdate_variable_parameters := [] |}.

(** Attribute, common/attribute/model.rs:14 *)
Definition default_Attribute : Attribute :=
  {| Attribute_address := {| sa_site := 0; sa_app := 0 |}; Attribute_pdu_type := 0; Attribute_version := 0; Attribute_master_type
  := 0; Attribute_action_code := 0; Attribute_sets := [] |}.

(** The bodies that untouched builders give. *)
Definition default_bodies (caps : EntityCapabilities) : list PduBody :=
  [BEntityState (default_EntityState caps);
   BFire default_Fire;
   BDetonation default_Detonation;
   BCollision default_Collision;
   BServiceRequest default_ServiceRequest;
   BResupplyOffer default_ResupplyOffer;
   BResupplyReceived default_ResupplyReceived;
   BResupplyCancel default_ResupplyCancel;
   BRepairComplete default_RepairComplete;
   BRepairResponse default_RepairResponse;
   BCreateEntity default_CreateEntity;
   BRemoveEntity default_RemoveEntity;
   BStartResume default_StartResume;
   BStopFreeze default_StopFreeze;
   BAcknowledge default_Acknowledge;
   BActionRequest default_ActionRequest;
   BActionResponse default_ActionResponse;
   BDataQuery default_DataQuery;
   BSetData default_SetData;
   BData default_Data;
   BEventReport default_EventReport;
   BComment default_Comment;
   BElectromagneticEmission default_ElectromagneticEmission;
   BDesignator default_Designator;
   BTransmitter default_Transmitter;
   BSignal default_Signal;
   BReceiver default_Receiver;
   BIff default_Iff;
   BUnderwaterAcoustic default_UnderwaterAcoustic;
   BSees default_Sees;
   BAggregateState default_AggregateState;
   BIsGroupOf default_IsGroupOf;
   BTransferOwnership default_TransferOwnership;
   BIsPartOf default_IsPartOf;
   BCreateEntityR default_CreateEntityR;
   BRemoveEntityR default_RemoveEntityR;
   BStartResumeR default_StartResumeR;
   BStopFreezeR default_StopFreezeR;
   BAcknowledgeR default_AcknowledgeR;
   BActionRequestR default_ActionRequestR;
   BActionResponseR default_ActionResponseR;
   BDataQueryR default_DataQueryR;
   BSetDataR default_SetDataR;
   BDataR default_DataR;
   BEventReportR default_EventReportR;
   BCommentR default_CommentR;
   BRecordR default_RecordR;
   BSetRecordR default_SetRecordR;
   BRecordQueryR default_RecordQueryR;
   BCollisionElastic default_CollisionElastic;
   BEntityStateUpdate default_EntityStateUpdate;
   BAttribute default_Attribute].
