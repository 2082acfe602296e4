(** * What the builders' methods do (dis-rs: the builder.rs files, and the with_ methods of the records)

    Each method takes the structure under construction and gives the changed one; [Vec::push] and [Vec::append] add at the end. [X::builder()]
    starts from [X::default()] and [x.into_builder()] from [x]; [build] gives what has been made. Here the start is a parameter. *)
From Coq Require Import ZArith List Bool.
From Verif Require Import Base DisCommon IffWords DisHeader DisLists DisSimman DisLogistics DisWarfare DisEntity DisEmission DisRadio DisIff DisPdu DisPacket BuilderCalls.
Import ListNotations. Open Scope Z_scope.

(* common/entity_state/compatibility.rs:138-151 (From<v6 EntityCapabilities>): the capabilities of a land platform with these four flags, whose word is
   written as v6/entity_state/writer.rs:5-11 does *)
Definition flags_capabilities (ammunition fuel recovery repair : bool) : EntityCapabilities :=
  MkCapabilities ALand (Z.lor (Z.lor (Z.shiftl (Z.b2z ammunition) 31) (Z.shiftl (Z.b2z fuel) 30)) (Z.lor (Z.shiftl (Z.b2z recovery) 29) (Z.shiftl (Z.b2z repair) 28))).
(** the methods of ArticulatedPart, dis-rs/src/common/model.rs: lines 1319, 1324, 1329, 1334, 1339; the structure is dis-rs/src/common/model.rs:1310 *)
Definition ArticulatedPart_do (x : ArticulatedPart) (c : ArticulatedPart_call) : ArticulatedPart :=
  match c with
  | ArticulatedPart_with_change_indicator v => MkArticulatedPart v (ap_attachment x) (ap_metric x) (ap_class x) (ap_value x)
  | ArticulatedPart_with_attachment_id v => MkArticulatedPart (ap_change x) v (ap_metric x) (ap_class x) (ap_value x)
  | ArticulatedPart_with_type_metric v => MkArticulatedPart (ap_change x) (ap_attachment x) v (ap_class x) (ap_value x)
  | ArticulatedPart_with_type_class v => MkArticulatedPart (ap_change x) (ap_attachment x) (ap_metric x) v (ap_value x)
  | ArticulatedPart_with_parameter_value v => MkArticulatedPart (ap_change x) (ap_attachment x) (ap_metric x) (ap_class x) v
  end.
(** the methods of AttachedPart, dis-rs/src/common/model.rs: lines 1359, 1364, 1369, 1374; the structure is dis-rs/src/common/model.rs:1351 *)
Definition AttachedPart_do (x : AttachedPart) (c : AttachedPart_call) : AttachedPart :=
  match c with
  | AttachedPart_with_detached_indicator v => MkAttachedPart v (at_attachment x) (at_parameter x) (at_type x)
  | AttachedPart_with_attachment_id v => MkAttachedPart (at_detached x) v (at_parameter x) (at_type x)
  | AttachedPart_with_parameter_type v => MkAttachedPart (at_detached x) (at_attachment x) v (at_type x)
  | AttachedPart_with_attached_part_type v => MkAttachedPart (at_detached x) (at_attachment x) (at_parameter x) v
  end.
(** the methods of BeamData, dis-rs/src/common/model.rs: lines 1522, 1527, 1532, 1537, 1542; the structure is dis-rs/src/common/model.rs:1509 *)
Definition BeamData_do (x : BeamData) (c : BeamData_call) : BeamData :=
  match c with
  | BeamData_with_azimuth_center v => MkBeamData v (bd_azs x) (bd_elc x) (bd_els x) (bd_sync x)
  | BeamData_with_azimuth_sweep v => MkBeamData (bd_azc x) v (bd_elc x) (bd_els x) (bd_sync x)
  | BeamData_with_elevation_center v => MkBeamData (bd_azc x) (bd_azs x) v (bd_els x) (bd_sync x)
  | BeamData_with_elevation_sweep v => MkBeamData (bd_azc x) (bd_azs x) (bd_elc x) v (bd_sync x)
  | BeamData_with_sweep_sync v => MkBeamData (bd_azc x) (bd_azs x) (bd_elc x) (bd_els x) v
  end.
(** the methods of EntityAssociationParameter, dis-rs/src/common/model.rs: lines 1462, 1467, 1472, 1477, 1482, 1487, 1492, 1497; the structure is dis-rs/src/common/model.rs:1450 *)
Definition EntityAssociation_do (x : EntityAssociation) (c : EntityAssociation_call) : EntityAssociation :=
  match c with
  | EntityAssociation_with_change_indicator v => MkEntityAssociation v (ea_status x) (ea_type x) (ea_entity x) (ea_station x) (ea_connection x) (ea_member x) (ea_group x)
  | EntityAssociation_with_association_status v => MkEntityAssociation (ea_change x) v (ea_type x) (ea_entity x) (ea_station x) (ea_connection x) (ea_member x) (ea_group x)
  | EntityAssociation_with_association_type v => MkEntityAssociation (ea_change x) (ea_status x) v (ea_entity x) (ea_station x) (ea_connection x) (ea_member x) (ea_group x)
  | EntityAssociation_with_entity_id v => MkEntityAssociation (ea_change x) (ea_status x) (ea_type x) v (ea_station x) (ea_connection x) (ea_member x) (ea_group x)
  | EntityAssociation_with_own_station_location v => MkEntityAssociation (ea_change x) (ea_status x) (ea_type x) (ea_entity x) v (ea_connection x) (ea_member x) (ea_group x)
  | EntityAssociation_with_physical_connection_type v => MkEntityAssociation (ea_change x) (ea_status x) (ea_type x) (ea_entity x) (ea_station x) v (ea_member x) (ea_group x)
  | EntityAssociation_with_group_member_type v => MkEntityAssociation (ea_change x) (ea_status x) (ea_type x) (ea_entity x) (ea_station x) (ea_connection x) v (ea_group x)
  | EntityAssociation_with_group_number v => MkEntityAssociation (ea_change x) (ea_status x) (ea_type x) (ea_entity x) (ea_station x) (ea_connection x) (ea_member x) v
  end.
(** the methods of EntityType, dis-rs/src/common/model.rs: lines 856, 861, 866, 871, 876, 881, 886; the structure is dis-rs/src/common/model.rs:845 *)
Definition EntityType_do (x : EntityType) (c : EntityType_call) : EntityType :=
  match c with
  | EntityType_with_kind v => MkEntityType v (et_domain x) (et_country x) (et_category x) (et_subcategory x) (et_specific x) (et_extra x)
  | EntityType_with_domain v => MkEntityType (et_kind x) v (et_country x) (et_category x) (et_subcategory x) (et_specific x) (et_extra x)
  | EntityType_with_country v => MkEntityType (et_kind x) (et_domain x) v (et_category x) (et_subcategory x) (et_specific x) (et_extra x)
  | EntityType_with_category v => MkEntityType (et_kind x) (et_domain x) (et_country x) v (et_subcategory x) (et_specific x) (et_extra x)
  | EntityType_with_subcategory v => MkEntityType (et_kind x) (et_domain x) (et_country x) (et_category x) v (et_specific x) (et_extra x)
  | EntityType_with_specific v => MkEntityType (et_kind x) (et_domain x) (et_country x) (et_category x) (et_subcategory x) v (et_extra x)
  | EntityType_with_extra v => MkEntityType (et_kind x) (et_domain x) (et_country x) (et_category x) (et_subcategory x) (et_specific x) v
  end.
(** the methods of EntityTypeParameter, dis-rs/src/common/model.rs: lines 1433, 1438; the structure is dis-rs/src/common/model.rs:1427 *)
Definition EntityTypeParameter_do (x : EntityTypeParameter) (c : EntityTypeParameter_call) : EntityTypeParameter :=
  match c with
  | EntityTypeParameter_with_change_indicator v => MkEntityTypeParameter v (etp_type x)
  | EntityTypeParameter_with_entity_type v => MkEntityTypeParameter (etp_change x) v
  end.
(** the methods of Location, dis-rs/src/common/model.rs: lines 793, 798, 803; the structure is dis-rs/src/common/model.rs:778 *)
Definition Location_do (x : Location) (c : Location_call) : Location :=
  match c with
  | Location_with_x v => MkLocation v (loc_y x) (loc_z x)
  | Location_with_y v => MkLocation (loc_x x) v (loc_z x)
  | Location_with_z v => MkLocation (loc_x x) (loc_y x) v
  end.
(** the methods of MunitionDescriptor, dis-rs/src/common/model.rs: lines 1033, 1038, 1043, 1048; the structure is dis-rs/src/common/model.rs:1025 *)
Definition MunitionDescriptor_do (x : MunitionDescriptor) (c : MunitionDescriptor_call) : MunitionDescriptor :=
  match c with
  | MunitionDescriptor_with_warhead v => MkMunitionDescriptor v (md_fuse x) (md_quantity x) (md_rate x)
  | MunitionDescriptor_with_fuse v => MkMunitionDescriptor (md_warhead x) v (md_quantity x) (md_rate x)
  | MunitionDescriptor_with_quantity v => MkMunitionDescriptor (md_warhead x) (md_fuse x) v (md_rate x)
  | MunitionDescriptor_with_rate v => MkMunitionDescriptor (md_warhead x) (md_fuse x) (md_quantity x) v
  end.
(** the methods of Orientation, dis-rs/src/common/model.rs: lines 827, 832, 837; the structure is dis-rs/src/common/model.rs:812 *)
Definition Orientation_do (x : Orientation) (c : Orientation_call) : Orientation :=
  match c with
  | Orientation_with_psi v => MkOrientation v (or_theta x) (or_phi x)
  | Orientation_with_theta v => MkOrientation (or_psi x) v (or_phi x)
  | Orientation_with_phi v => MkOrientation (or_psi x) (or_theta x) v
  end.
(** the methods of SeparationParameter, dis-rs/src/common/model.rs: lines 1395, 1400, 1405, 1410, 1415; the structure is dis-rs/src/common/model.rs:1386 *)
Definition SeparationParameter_do (x : SeparationParameter) (c : SeparationParameter_call) : SeparationParameter :=
  match c with
  | SeparationParameter_with_reason v => MkSeparation v (se_pre x) (se_parent x) (se_station x) (DisCommon.se_number x)
  | SeparationParameter_with_pre_entity_indicator v => MkSeparation (se_reason x) v (se_parent x) (se_station x) (DisCommon.se_number x)
  | SeparationParameter_with_parent_entity_id v => MkSeparation (se_reason x) (se_pre x) v (se_station x) (DisCommon.se_number x)
  | SeparationParameter_with_station_name v => MkSeparation (se_reason x) (se_pre x) (se_parent x) v (DisCommon.se_number x)
  | SeparationParameter_with_station_number v => MkSeparation (se_reason x) (se_pre x) (se_parent x) (se_station x) v
  end.
(** the methods of SupplyQuantity, dis-rs/src/common/model.rs: lines 1558, 1563; the structure is dis-rs/src/common/model.rs:1552 *)
Definition SupplyQuantity_do (x : SupplyQuantity) (c : SupplyQuantity_call) : SupplyQuantity :=
  match c with
  | SupplyQuantity_with_supply_type v => MkSupplyQuantity v (sq_quantity x)
  | SupplyQuantity_with_quantity v => MkSupplyQuantity (sq_type x) v
  end.
(** the methods of VectorF32, dis-rs/src/common/model.rs: lines 759, 764, 769; the structure is dis-rs/src/common/model.rs:744 *)
Definition VectorF32_do (x : VectorF32) (c : VectorF32_call) : VectorF32 :=
  match c with
  | VectorF32_with_first v => MkVectorF32 v (v_2 x) (v_3 x)
  | VectorF32_with_second v => MkVectorF32 (v_1 x) v (v_3 x)
  | VectorF32_with_third v => MkVectorF32 (v_1 x) (v_2 x) v
  end.
(** the methods of APA, dis-rs/src/common/underwater_acoustic/model.rs: lines 126, 131, 135; the structure is dis-rs/src/common/underwater_acoustic/model.rs:119 *)
Definition APA_do (x : APA) (c : APA_call) : APA :=
  match c with
  | APA_with_parameter v => MkAPA v (apa_status x) (apa_value x)
  | APA_with_status v => MkAPA (apa_parameter x) v (apa_value x)
  | APA_with_value v => MkAPA (apa_parameter x) (apa_status x) v
  end.
(** the methods of AcousticEmitterSystem, dis-rs/src/common/underwater_acoustic/model.rs: lines 189, 194, 199; the structure is dis-rs/src/common/underwater_acoustic/model.rs:182 *)
Definition AcousticEmitterSystem_do (x : AcousticEmitterSystem) (c : AcousticEmitterSystem_call) : AcousticEmitterSystem :=
  match c with
  | AcousticEmitterSystem_with_acoustic_system_name v => MkAES v (aes_function x) (aes_id x)
  | AcousticEmitterSystem_with_function v => MkAES (aes_name x) v (aes_id x)
  | AcousticEmitterSystem_with_acoustic_id_number v => MkAES (aes_name x) (aes_function x) v
  end.
(** the methods of Beam, dis-rs/src/common/electromagnetic_emission/model.rs: lines 159, 164, 169, 174, 179, 184, 189, 194, 199, 204; the structure is dis-rs/src/common/electromagnetic_emission/model.rs:132 *)
Definition Beam_do (x : Beam) (c : Beam_call) : Beam :=
  match c with
  | Beam_with_number v => MkBeam v (be_index x) (be_parameters x) (be_data x) (be_function x) (be_high_density x) (be_status x) (be_technique x) (be_tracks x)
  | Beam_with_parameter_index v => MkBeam (be_number x) v (be_parameters x) (be_data x) (be_function x) (be_high_density x) (be_status x) (be_technique x) (be_tracks x)
  | Beam_with_parameter_data v => MkBeam (be_number x) (be_index x) v (be_data x) (be_function x) (be_high_density x) (be_status x) (be_technique x) (be_tracks x)
  | Beam_with_beam_data v => MkBeam (be_number x) (be_index x) (be_parameters x) v (be_function x) (be_high_density x) (be_status x) (be_technique x) (be_tracks x)
  | Beam_with_beam_function v => MkBeam (be_number x) (be_index x) (be_parameters x) (be_data x) v (be_high_density x) (be_status x) (be_technique x) (be_tracks x)
  | Beam_with_high_density_track_jam v => MkBeam (be_number x) (be_index x) (be_parameters x) (be_data x) (be_function x) v (be_status x) (be_technique x) (be_tracks x)
  | Beam_with_beam_status v => MkBeam (be_number x) (be_index x) (be_parameters x) (be_data x) (be_function x) (be_high_density x) v (be_technique x) (be_tracks x)
  | Beam_with_jamming_technique v => MkBeam (be_number x) (be_index x) (be_parameters x) (be_data x) (be_function x) (be_high_density x) (be_status x) v (be_tracks x)
  | Beam_with_track_jams v => MkBeam (be_number x) (be_index x) (be_parameters x) (be_data x) (be_function x) (be_high_density x) (be_status x) (be_technique x) (be_tracks x ++ v)
  | Beam_with_track_jam v => MkBeam (be_number x) (be_index x) (be_parameters x) (be_data x) (be_function x) (be_high_density x) (be_status x) (be_technique x) (be_tracks x ++ [v])
  end.
(** the methods of ElectromagneticEmissionBuilder, dis-rs/src/common/electromagnetic_emission/builder.rs: lines 20, 25, 30, 35, 40; the structure is dis-rs/src/common/electromagnetic_emission/model.rs:15 *)
Definition ElectromagneticEmission_do (x : ElectromagneticEmission) (c : ElectromagneticEmission_call) : ElectromagneticEmission :=
  match c with
  | ElectromagneticEmission_with_emitting_entity_id v => MkEE v (EE_event_id x) (EE_state_update x) (EE_systems x)
  | ElectromagneticEmission_with_event_id v => MkEE (EE_emitting_entity_id x) v (EE_state_update x) (EE_systems x)
  | ElectromagneticEmission_with_state_update_indicator v => MkEE (EE_emitting_entity_id x) (EE_event_id x) v (EE_systems x)
  | ElectromagneticEmission_with_emitter_systems v => MkEE (EE_emitting_entity_id x) (EE_event_id x) (EE_state_update x) (EE_systems x ++ v)
  | ElectromagneticEmission_with_emitter_system v => MkEE (EE_emitting_entity_id x) (EE_event_id x) (EE_state_update x) (EE_systems x ++ [v])
  end.
(** the methods of EmitterSystem, dis-rs/src/common/electromagnetic_emission/model.rs: lines 93, 98, 103, 108, 113, 118; the structure is dis-rs/src/common/electromagnetic_emission/model.rs:68 *)
Definition EmitterSystem_do (x : EmitterSystem) (c : EmitterSystem_call) : EmitterSystem :=
  match c with
  | EmitterSystem_with_name v => MkEmitterSystem v (es_function x) (es_number x) (es_location x) (es_beams x)
  | EmitterSystem_with_function v => MkEmitterSystem (es_name x) v (es_number x) (es_location x) (es_beams x)
  | EmitterSystem_with_number v => MkEmitterSystem (es_name x) (es_function x) v (es_location x) (es_beams x)
  | EmitterSystem_with_location v => MkEmitterSystem (es_name x) (es_function x) (es_number x) v (es_beams x)
  | EmitterSystem_with_beams v => MkEmitterSystem (es_name x) (es_function x) (es_number x) (es_location x) (es_beams x ++ v)
  | EmitterSystem_with_beam v => MkEmitterSystem (es_name x) (es_function x) (es_number x) (es_location x) (es_beams x ++ [v])
  end.
(** the methods of FundamentalParameterData, dis-rs/src/common/electromagnetic_emission/model.rs: lines 235, 240, 245, 250, 255; the structure is dis-rs/src/common/electromagnetic_emission/model.rs:216 *)
Definition FundamentalParameterData_do (x : FundamentalParameterData) (c : FundamentalParameterData_call) : FundamentalParameterData :=
  match c with
  | FundamentalParameterData_with_frequency v => MkFPD v (fp_range x) (fp_power x) (fp_prf x) (fp_width x)
  | FundamentalParameterData_with_frequency_range v => MkFPD (fp_frequency x) v (fp_power x) (fp_prf x) (fp_width x)
  | FundamentalParameterData_with_effective_power v => MkFPD (fp_frequency x) (fp_range x) v (fp_prf x) (fp_width x)
  | FundamentalParameterData_with_pulse_repetition_frequency v => MkFPD (fp_frequency x) (fp_range x) (fp_power x) v (fp_width x)
  | FundamentalParameterData_with_pulse_width v => MkFPD (fp_frequency x) (fp_range x) (fp_power x) (fp_prf x) v
  end.
(** the methods of JammingTechnique, dis-rs/src/common/electromagnetic_emission/model.rs: lines 280, 285, 290, 295; the structure is dis-rs/src/common/electromagnetic_emission/model.rs:263 *)
Definition JammingTechnique_do (x : JammingTechnique) (c : JammingTechnique_call) : JammingTechnique :=
  match c with
  | JammingTechnique_with_kind v => MkJamming v (jt_category x) (jt_subcategory x) (jt_specific x)
  | JammingTechnique_with_category v => MkJamming (jt_kind x) v (jt_subcategory x) (jt_specific x)
  | JammingTechnique_with_subcategory v => MkJamming (jt_kind x) (jt_category x) v (jt_specific x)
  | JammingTechnique_with_specific v => MkJamming (jt_kind x) (jt_category x) (jt_subcategory x) v
  end.
(** the methods of PropulsionPlantConfiguration, dis-rs/src/common/underwater_acoustic/model.rs: lines 69, 74; the structure is dis-rs/src/common/underwater_acoustic/model.rs:63 *)
Definition PropulsionPlant_do (x : PropulsionPlant) (c : PropulsionPlant_call) : PropulsionPlant :=
  match c with
  | PropulsionPlant_with_configuration v => MkPropulsionPlant v (pp_masker x)
  | PropulsionPlant_with_hull_mounted_masker v => MkPropulsionPlant (pp_configuration x) v
  end.
(** the methods of Shaft, dis-rs/src/common/underwater_acoustic/model.rs: lines 95, 100, 105; the structure is dis-rs/src/common/underwater_acoustic/model.rs:88 *)
Definition Shaft_do (x : Shaft) (c : Shaft_call) : Shaft :=
  match c with
  | Shaft_with_current_rpm v => MkShaft v (sh_ordered x) (sh_rate x)
  | Shaft_with_ordered_rpm v => MkShaft (sh_current x) v (sh_rate x)
  | Shaft_with_rpm_rate_of_change v => MkShaft (sh_current x) (sh_ordered x) v
  end.
(** the methods of TrackJam, dis-rs/src/common/electromagnetic_emission/model.rs: lines 318, 323, 328; the structure is dis-rs/src/common/electromagnetic_emission/model.rs:303 *)
Definition TrackJam_do (x : TrackJam) (c : TrackJam_call) : TrackJam :=
  match c with
  | TrackJam_with_entity_id v => MkTrackJam v (tj_emitter x) (tj_beam x)
  | TrackJam_with_emitter v => MkTrackJam (tj_entity x) v (tj_beam x)
  | TrackJam_with_beam v => MkTrackJam (tj_entity x) (tj_emitter x) v
  end.
(** the methods of UABeam, dis-rs/src/common/underwater_acoustic/model.rs: lines 220, 225, 230; the structure is dis-rs/src/common/underwater_acoustic/model.rs:213 *)
Definition UABeam_do (x : UABeam) (c : UABeam_call) : UABeam :=
  match c with
  | UABeam_with_beam_data_length v => MkUABeam v (uab_id x) (uab_data x)
  | UABeam_with_beam_id_number v => MkUABeam (uab_length x) v (uab_data x)
  | UABeam_with_fundamental_parameters v => MkUABeam (uab_length x) (uab_id x) v
  end.
(** the methods of UAEmitterSystem, dis-rs/src/common/underwater_acoustic/model.rs: lines 154, 159, 164, 169; the structure is dis-rs/src/common/underwater_acoustic/model.rs:147 *)
Definition UAEmitterSystem_do (x : UAEmitterSystem) (c : UAEmitterSystem_call) : UAEmitterSystem :=
  match c with
  | UAEmitterSystem_with_acoustic_emitter_system v => MkUASystem v (uas_location x) (uas_beams x)
  | UAEmitterSystem_with_location v => MkUASystem (uas_system x) v (uas_beams x)
  | UAEmitterSystem_with_beam v => MkUASystem (uas_system x) (uas_location x) (uas_beams x ++ [v])
  | UAEmitterSystem_with_beams v => MkUASystem (uas_system x) (uas_location x) v
  end.
(** the methods of UAFundamentalParameterData, dis-rs/src/common/underwater_acoustic/model.rs: lines 252, 257, 262, 267, 272, 277; the structure is dis-rs/src/common/underwater_acoustic/model.rs:242 *)
Definition UAFundamental_do (x : UAFundamental) (c : UAFundamental_call) : UAFundamental :=
  match c with
  | UAFundamental_with_active_emission_parameter_index v => MkUAFundamental v (uaf_scan x) (uaf_azc x) (uaf_azw x) (uaf_dec x) (uaf_dew x)
  | UAFundamental_with_scan_pattern v => MkUAFundamental (uaf_index x) v (uaf_azc x) (uaf_azw x) (uaf_dec x) (uaf_dew x)
  | UAFundamental_with_beam_center_azimuth v => MkUAFundamental (uaf_index x) (uaf_scan x) v (uaf_azw x) (uaf_dec x) (uaf_dew x)
  | UAFundamental_with_azimuthal_beamwidth v => MkUAFundamental (uaf_index x) (uaf_scan x) (uaf_azc x) v (uaf_dec x) (uaf_dew x)
  | UAFundamental_with_beam_center_depression_elevation v => MkUAFundamental (uaf_index x) (uaf_scan x) (uaf_azc x) (uaf_azw x) v (uaf_dew x)
  | UAFundamental_with_depression_elevation_beamwidth v => MkUAFundamental (uaf_index x) (uaf_scan x) (uaf_azc x) (uaf_azw x) (uaf_dec x) v
  end.
(** the methods of UnderwaterAcousticBuilder, dis-rs/src/common/underwater_acoustic/builder.rs: lines 20, 25, 30, 35, 40, 45, 50, 55, 60, 65, 70; the structure is dis-rs/src/common/underwater_acoustic/model.rs:13 *)
Definition UnderwaterAcoustic_do (x : UnderwaterAcoustic) (c : UnderwaterAcoustic_call) : UnderwaterAcoustic :=
  match c with
  | UnderwaterAcoustic_with_emitting_entity_id v => MkUA v (UA_event_id x) (UA_state_change x) (UA_passive_index x) (UA_propulsion x) (UA_shafts x) (UA_apas x) (UA_systems x)
  | UnderwaterAcoustic_with_event_id v => MkUA (UA_emitting_entity_id x) v (UA_state_change x) (UA_passive_index x) (UA_propulsion x) (UA_shafts x) (UA_apas x) (UA_systems x)
  | UnderwaterAcoustic_with_state_change_update_indicator v => MkUA (UA_emitting_entity_id x) (UA_event_id x) v (UA_passive_index x) (UA_propulsion x) (UA_shafts x) (UA_apas x) (UA_systems x)
  | UnderwaterAcoustic_with_passive_parameter_index v => MkUA (UA_emitting_entity_id x) (UA_event_id x) (UA_state_change x) v (UA_propulsion x) (UA_shafts x) (UA_apas x) (UA_systems x)
  | UnderwaterAcoustic_with_propulsion_plant_configuration v => MkUA (UA_emitting_entity_id x) (UA_event_id x) (UA_state_change x) (UA_passive_index x) v (UA_shafts x) (UA_apas x) (UA_systems x)
  | UnderwaterAcoustic_with_shaft v => MkUA (UA_emitting_entity_id x) (UA_event_id x) (UA_state_change x) (UA_passive_index x) (UA_propulsion x) (UA_shafts x ++ [v]) (UA_apas x) (UA_systems x)
  | UnderwaterAcoustic_with_shafts v => MkUA (UA_emitting_entity_id x) (UA_event_id x) (UA_state_change x) (UA_passive_index x) (UA_propulsion x) v (UA_apas x) (UA_systems x)
  | UnderwaterAcoustic_with_apa v => MkUA (UA_emitting_entity_id x) (UA_event_id x) (UA_state_change x) (UA_passive_index x) (UA_propulsion x) (UA_shafts x) (UA_apas x ++ [v]) (UA_systems x)
  | UnderwaterAcoustic_with_apas v => MkUA (UA_emitting_entity_id x) (UA_event_id x) (UA_state_change x) (UA_passive_index x) (UA_propulsion x) (UA_shafts x) v (UA_systems x)
  | UnderwaterAcoustic_with_emitter_system v => MkUA (UA_emitting_entity_id x) (UA_event_id x) (UA_state_change x) (UA_passive_index x) (UA_propulsion x) (UA_shafts x) (UA_apas x) (UA_systems x ++ [v])
  | UnderwaterAcoustic_with_emitter_systems v => MkUA (UA_emitting_entity_id x) (UA_event_id x) (UA_state_change x) (UA_passive_index x) (UA_propulsion x) (UA_shafts x) (UA_apas x) v
  end.
(** the methods of AggregateStateBuilder, dis-rs/src/common/aggregate_state/builder.rs: lines 20, 25, 30, 35, 40, 45, 50, 55, 60, 65, 70, 75, 80, 85, 90, 95, 100, 105, 110, 115; the structure is dis-rs/src/common/aggregate_state/model.rs:17 *)
Definition AggregateState_do (x : AggregateState) (c : AggregateState_call) : AggregateState :=
  match c with
  | AggregateState_with_aggregate_id v => MkAggregateState v (AggregateState_force_id x) (AggregateState_aggregate_state x) (AggregateState_aggregate_type x) (AggregateState_formation x) (AggregateState_marking x) (AggregateState_dimensions x) (AggregateState_orientation x) (AggregateState_center_of_mass x) (AggregateState_velocity x) (AggregateState_aggregates x) (AggregateState_entities x) (AggregateState_silent_aggregates x) (AggregateState_silent_entities x) (AggregateState_variable_datums x)
  | AggregateState_with_force_id v => MkAggregateState (AggregateState_aggregate_id x) v (AggregateState_aggregate_state x) (AggregateState_aggregate_type x) (AggregateState_formation x) (AggregateState_marking x) (AggregateState_dimensions x) (AggregateState_orientation x) (AggregateState_center_of_mass x) (AggregateState_velocity x) (AggregateState_aggregates x) (AggregateState_entities x) (AggregateState_silent_aggregates x) (AggregateState_silent_entities x) (AggregateState_variable_datums x)
  | AggregateState_with_aggregate_state v => MkAggregateState (AggregateState_aggregate_id x) (AggregateState_force_id x) v (AggregateState_aggregate_type x) (AggregateState_formation x) (AggregateState_marking x) (AggregateState_dimensions x) (AggregateState_orientation x) (AggregateState_center_of_mass x) (AggregateState_velocity x) (AggregateState_aggregates x) (AggregateState_entities x) (AggregateState_silent_aggregates x) (AggregateState_silent_entities x) (AggregateState_variable_datums x)
  | AggregateState_with_aggregate_type v => MkAggregateState (AggregateState_aggregate_id x) (AggregateState_force_id x) (AggregateState_aggregate_state x) v (AggregateState_formation x) (AggregateState_marking x) (AggregateState_dimensions x) (AggregateState_orientation x) (AggregateState_center_of_mass x) (AggregateState_velocity x) (AggregateState_aggregates x) (AggregateState_entities x) (AggregateState_silent_aggregates x) (AggregateState_silent_entities x) (AggregateState_variable_datums x)
  | AggregateState_with_formation v => MkAggregateState (AggregateState_aggregate_id x) (AggregateState_force_id x) (AggregateState_aggregate_state x) (AggregateState_aggregate_type x) v (AggregateState_marking x) (AggregateState_dimensions x) (AggregateState_orientation x) (AggregateState_center_of_mass x) (AggregateState_velocity x) (AggregateState_aggregates x) (AggregateState_entities x) (AggregateState_silent_aggregates x) (AggregateState_silent_entities x) (AggregateState_variable_datums x)
  | AggregateState_with_aggregate_marking v => MkAggregateState (AggregateState_aggregate_id x) (AggregateState_force_id x) (AggregateState_aggregate_state x) (AggregateState_aggregate_type x) (AggregateState_formation x) v (AggregateState_dimensions x) (AggregateState_orientation x) (AggregateState_center_of_mass x) (AggregateState_velocity x) (AggregateState_aggregates x) (AggregateState_entities x) (AggregateState_silent_aggregates x) (AggregateState_silent_entities x) (AggregateState_variable_datums x)
  | AggregateState_with_dimensions v => MkAggregateState (AggregateState_aggregate_id x) (AggregateState_force_id x) (AggregateState_aggregate_state x) (AggregateState_aggregate_type x) (AggregateState_formation x) (AggregateState_marking x) v (AggregateState_orientation x) (AggregateState_center_of_mass x) (AggregateState_velocity x) (AggregateState_aggregates x) (AggregateState_entities x) (AggregateState_silent_aggregates x) (AggregateState_silent_entities x) (AggregateState_variable_datums x)
  | AggregateState_with_orientation v => MkAggregateState (AggregateState_aggregate_id x) (AggregateState_force_id x) (AggregateState_aggregate_state x) (AggregateState_aggregate_type x) (AggregateState_formation x) (AggregateState_marking x) (AggregateState_dimensions x) v (AggregateState_center_of_mass x) (AggregateState_velocity x) (AggregateState_aggregates x) (AggregateState_entities x) (AggregateState_silent_aggregates x) (AggregateState_silent_entities x) (AggregateState_variable_datums x)
  | AggregateState_with_center_of_mass v => MkAggregateState (AggregateState_aggregate_id x) (AggregateState_force_id x) (AggregateState_aggregate_state x) (AggregateState_aggregate_type x) (AggregateState_formation x) (AggregateState_marking x) (AggregateState_dimensions x) (AggregateState_orientation x) v (AggregateState_velocity x) (AggregateState_aggregates x) (AggregateState_entities x) (AggregateState_silent_aggregates x) (AggregateState_silent_entities x) (AggregateState_variable_datums x)
  | AggregateState_with_velocity v => MkAggregateState (AggregateState_aggregate_id x) (AggregateState_force_id x) (AggregateState_aggregate_state x) (AggregateState_aggregate_type x) (AggregateState_formation x) (AggregateState_marking x) (AggregateState_dimensions x) (AggregateState_orientation x) (AggregateState_center_of_mass x) v (AggregateState_aggregates x) (AggregateState_entities x) (AggregateState_silent_aggregates x) (AggregateState_silent_entities x) (AggregateState_variable_datums x)
  | AggregateState_with_aggregate v => MkAggregateState (AggregateState_aggregate_id x) (AggregateState_force_id x) (AggregateState_aggregate_state x) (AggregateState_aggregate_type x) (AggregateState_formation x) (AggregateState_marking x) (AggregateState_dimensions x) (AggregateState_orientation x) (AggregateState_center_of_mass x) (AggregateState_velocity x) (AggregateState_aggregates x ++ [v]) (AggregateState_entities x) (AggregateState_silent_aggregates x) (AggregateState_silent_entities x) (AggregateState_variable_datums x)
  | AggregateState_with_aggregates v => MkAggregateState (AggregateState_aggregate_id x) (AggregateState_force_id x) (AggregateState_aggregate_state x) (AggregateState_aggregate_type x) (AggregateState_formation x) (AggregateState_marking x) (AggregateState_dimensions x) (AggregateState_orientation x) (AggregateState_center_of_mass x) (AggregateState_velocity x) v (AggregateState_entities x) (AggregateState_silent_aggregates x) (AggregateState_silent_entities x) (AggregateState_variable_datums x)
  | AggregateState_with_entity v => MkAggregateState (AggregateState_aggregate_id x) (AggregateState_force_id x) (AggregateState_aggregate_state x) (AggregateState_aggregate_type x) (AggregateState_formation x) (AggregateState_marking x) (AggregateState_dimensions x) (AggregateState_orientation x) (AggregateState_center_of_mass x) (AggregateState_velocity x) (AggregateState_aggregates x) (AggregateState_entities x ++ [v]) (AggregateState_silent_aggregates x) (AggregateState_silent_entities x) (AggregateState_variable_datums x)
  | AggregateState_with_entities v => MkAggregateState (AggregateState_aggregate_id x) (AggregateState_force_id x) (AggregateState_aggregate_state x) (AggregateState_aggregate_type x) (AggregateState_formation x) (AggregateState_marking x) (AggregateState_dimensions x) (AggregateState_orientation x) (AggregateState_center_of_mass x) (AggregateState_velocity x) (AggregateState_aggregates x) v (AggregateState_silent_aggregates x) (AggregateState_silent_entities x) (AggregateState_variable_datums x)
  | AggregateState_with_silent_aggregate_system v => MkAggregateState (AggregateState_aggregate_id x) (AggregateState_force_id x) (AggregateState_aggregate_state x) (AggregateState_aggregate_type x) (AggregateState_formation x) (AggregateState_marking x) (AggregateState_dimensions x) (AggregateState_orientation x) (AggregateState_center_of_mass x) (AggregateState_velocity x) (AggregateState_aggregates x) (AggregateState_entities x) (AggregateState_silent_aggregates x ++ [v]) (AggregateState_silent_entities x) (AggregateState_variable_datums x)
  | AggregateState_with_silent_aggregate_systems v => MkAggregateState (AggregateState_aggregate_id x) (AggregateState_force_id x) (AggregateState_aggregate_state x) (AggregateState_aggregate_type x) (AggregateState_formation x) (AggregateState_marking x) (AggregateState_dimensions x) (AggregateState_orientation x) (AggregateState_center_of_mass x) (AggregateState_velocity x) (AggregateState_aggregates x) (AggregateState_entities x) v (AggregateState_silent_entities x) (AggregateState_variable_datums x)
  | AggregateState_with_silent_entity_system v => MkAggregateState (AggregateState_aggregate_id x) (AggregateState_force_id x) (AggregateState_aggregate_state x) (AggregateState_aggregate_type x) (AggregateState_formation x) (AggregateState_marking x) (AggregateState_dimensions x) (AggregateState_orientation x) (AggregateState_center_of_mass x) (AggregateState_velocity x) (AggregateState_aggregates x) (AggregateState_entities x) (AggregateState_silent_aggregates x) (AggregateState_silent_entities x ++ [v]) (AggregateState_variable_datums x)
  | AggregateState_with_silent_entity_systems v => MkAggregateState (AggregateState_aggregate_id x) (AggregateState_force_id x) (AggregateState_aggregate_state x) (AggregateState_aggregate_type x) (AggregateState_formation x) (AggregateState_marking x) (AggregateState_dimensions x) (AggregateState_orientation x) (AggregateState_center_of_mass x) (AggregateState_velocity x) (AggregateState_aggregates x) (AggregateState_entities x) (AggregateState_silent_aggregates x) v (AggregateState_variable_datums x)
  | AggregateState_with_variable_datum v => MkAggregateState (AggregateState_aggregate_id x) (AggregateState_force_id x) (AggregateState_aggregate_state x) (AggregateState_aggregate_type x) (AggregateState_formation x) (AggregateState_marking x) (AggregateState_dimensions x) (AggregateState_orientation x) (AggregateState_center_of_mass x) (AggregateState_velocity x) (AggregateState_aggregates x) (AggregateState_entities x) (AggregateState_silent_aggregates x) (AggregateState_silent_entities x) (AggregateState_variable_datums x ++ [v])
  | AggregateState_with_variable_datums v => MkAggregateState (AggregateState_aggregate_id x) (AggregateState_force_id x) (AggregateState_aggregate_state x) (AggregateState_aggregate_type x) (AggregateState_formation x) (AggregateState_marking x) (AggregateState_dimensions x) (AggregateState_orientation x) (AggregateState_center_of_mass x) (AggregateState_velocity x) (AggregateState_aggregates x) (AggregateState_entities x) (AggregateState_silent_aggregates x) (AggregateState_silent_entities x) v
  end.
(** the methods of AggregateType, dis-rs/src/common/aggregate_state/model.rs: lines 158, 163, 168, 173, 178, 183, 188; the structure is dis-rs/src/common/aggregate_state/model.rs:147 *)
Definition AggregateType_do (x : AggregateType) (c : AggregateType_call) : AggregateType :=
  match c with
  | AggregateType_with_aggregate_kind v => MkAggregateType v (ag_domain x) (ag_country x) (ag_category x) (ag_subcategory x) (ag_specific x) (ag_extra x)
  | AggregateType_with_domain v => MkAggregateType (ag_kind x) v (ag_country x) (ag_category x) (ag_subcategory x) (ag_specific x) (ag_extra x)
  | AggregateType_with_country v => MkAggregateType (ag_kind x) (ag_domain x) v (ag_category x) (ag_subcategory x) (ag_specific x) (ag_extra x)
  | AggregateType_with_category v => MkAggregateType (ag_kind x) (ag_domain x) (ag_country x) v (ag_subcategory x) (ag_specific x) (ag_extra x)
  | AggregateType_with_subcategory v => MkAggregateType (ag_kind x) (ag_domain x) (ag_country x) (ag_category x) v (ag_specific x) (ag_extra x)
  | AggregateType_with_specific v => MkAggregateType (ag_kind x) (ag_domain x) (ag_country x) (ag_category x) (ag_subcategory x) v (ag_extra x)
  | AggregateType_with_extra v => MkAggregateType (ag_kind x) (ag_domain x) (ag_country x) (ag_category x) (ag_subcategory x) (ag_specific x) v
  end.
(** the methods of DrParameters, dis-rs/src/common/entity_state/model.rs: lines 204, 209, 214, 219; the structure is dis-rs/src/common/entity_state/model.rs:196 *)
Definition DrParameters_do (x : DrParameters) (c : DrParameters_call) : DrParameters :=
  match c with
  | DrParameters_with_algorithm v => MkDr v (dr_other x) (dr_acceleration x) (dr_velocity x)
  | DrParameters_with_parameters v => MkDr (dr_algorithm x) v (dr_acceleration x) (dr_velocity x)
  | DrParameters_with_linear_acceleration v => MkDr (dr_algorithm x) (dr_other x) v (dr_velocity x)
  | DrParameters_with_angular_velocity v => MkDr (dr_algorithm x) (dr_other x) (dr_acceleration x) v
  end.
(** the methods of EntityStateBuilder, dis-rs/src/common/entity_state/builder.rs: lines 20, 25, 30, 35, 40, 45, 50, 55, 60, 65, 70, 75, 91, 96; the structure is dis-rs/src/common/entity_state/model.rs:21 *)
Definition EntityState_do (x : EntityState) (c : EntityState_call) : EntityState :=
  match c with
  | EntityState_with_entity_id v => MkEntityState v (EntityState_force_id x) (EntityState_entity_type x) (EntityState_alternative_entity_type x) (EntityState_velocity x) (EntityState_location x) (EntityState_orientation x) (EntityState_appearance x) (EntityState_dr x) (EntityState_marking x) (EntityState_capabilities x) (EntityState_variable_parameters x)
  | EntityState_with_entity_type v => MkEntityState (EntityState_entity_id x) (EntityState_force_id x) v (EntityState_alternative_entity_type x) (EntityState_velocity x) (EntityState_location x) (EntityState_orientation x) (EntityState_appearance x) (EntityState_dr x) (EntityState_marking x) (EntityState_capabilities x) (EntityState_variable_parameters x)
  | EntityState_with_force_id v => MkEntityState (EntityState_entity_id x) v (EntityState_entity_type x) (EntityState_alternative_entity_type x) (EntityState_velocity x) (EntityState_location x) (EntityState_orientation x) (EntityState_appearance x) (EntityState_dr x) (EntityState_marking x) (EntityState_capabilities x) (EntityState_variable_parameters x)
  | EntityState_with_alternative_entity_type v => MkEntityState (EntityState_entity_id x) (EntityState_force_id x) (EntityState_entity_type x) v (EntityState_velocity x) (EntityState_location x) (EntityState_orientation x) (EntityState_appearance x) (EntityState_dr x) (EntityState_marking x) (EntityState_capabilities x) (EntityState_variable_parameters x)
  | EntityState_with_velocity v => MkEntityState (EntityState_entity_id x) (EntityState_force_id x) (EntityState_entity_type x) (EntityState_alternative_entity_type x) v (EntityState_location x) (EntityState_orientation x) (EntityState_appearance x) (EntityState_dr x) (EntityState_marking x) (EntityState_capabilities x) (EntityState_variable_parameters x)
  | EntityState_with_location v => MkEntityState (EntityState_entity_id x) (EntityState_force_id x) (EntityState_entity_type x) (EntityState_alternative_entity_type x) (EntityState_velocity x) v (EntityState_orientation x) (EntityState_appearance x) (EntityState_dr x) (EntityState_marking x) (EntityState_capabilities x) (EntityState_variable_parameters x)
  | EntityState_with_orientation v => MkEntityState (EntityState_entity_id x) (EntityState_force_id x) (EntityState_entity_type x) (EntityState_alternative_entity_type x) (EntityState_velocity x) (EntityState_location x) v (EntityState_appearance x) (EntityState_dr x) (EntityState_marking x) (EntityState_capabilities x) (EntityState_variable_parameters x)
  | EntityState_with_appearance v => MkEntityState (EntityState_entity_id x) (EntityState_force_id x) (EntityState_entity_type x) (EntityState_alternative_entity_type x) (EntityState_velocity x) (EntityState_location x) (EntityState_orientation x) v (EntityState_dr x) (EntityState_marking x) (EntityState_capabilities x) (EntityState_variable_parameters x)
  | EntityState_with_dead_reckoning_parameters v => MkEntityState (EntityState_entity_id x) (EntityState_force_id x) (EntityState_entity_type x) (EntityState_alternative_entity_type x) (EntityState_velocity x) (EntityState_location x) (EntityState_orientation x) (EntityState_appearance x) v (EntityState_marking x) (EntityState_capabilities x) (EntityState_variable_parameters x)
  | EntityState_with_marking v => MkEntityState (EntityState_entity_id x) (EntityState_force_id x) (EntityState_entity_type x) (EntityState_alternative_entity_type x) (EntityState_velocity x) (EntityState_location x) (EntityState_orientation x) (EntityState_appearance x) (EntityState_dr x) v (EntityState_capabilities x) (EntityState_variable_parameters x)
  | EntityState_with_capabilities v => MkEntityState (EntityState_entity_id x) (EntityState_force_id x) (EntityState_entity_type x) (EntityState_alternative_entity_type x) (EntityState_velocity x) (EntityState_location x) (EntityState_orientation x) (EntityState_appearance x) (EntityState_dr x) (EntityState_marking x) v (EntityState_variable_parameters x)
  | EntityState_with_capabilities_flags v1 v2 v3 v4 => MkEntityState (EntityState_entity_id x) (EntityState_force_id x) (EntityState_entity_type x) (EntityState_alternative_entity_type x) (EntityState_velocity x) (EntityState_location x) (EntityState_orientation x) (EntityState_appearance x) (EntityState_dr x) (EntityState_marking x) (flags_capabilities v1 v2 v3 v4) (EntityState_variable_parameters x)
  | EntityState_with_variable_parameter v => MkEntityState (EntityState_entity_id x) (EntityState_force_id x) (EntityState_entity_type x) (EntityState_alternative_entity_type x) (EntityState_velocity x) (EntityState_location x) (EntityState_orientation x) (EntityState_appearance x) (EntityState_dr x) (EntityState_marking x) (EntityState_capabilities x) (EntityState_variable_parameters x ++ [v])
  | EntityState_with_variable_parameters v => MkEntityState (EntityState_entity_id x) (EntityState_force_id x) (EntityState_entity_type x) (EntityState_alternative_entity_type x) (EntityState_velocity x) (EntityState_location x) (EntityState_orientation x) (EntityState_appearance x) (EntityState_dr x) (EntityState_marking x) (EntityState_capabilities x) v
  end.
(** the methods of SilentAggregateSystem, dis-rs/src/common/aggregate_state/model.rs: lines 293, 298; the structure is dis-rs/src/common/aggregate_state/model.rs:287 *)
Definition SilentAggregate_do (x : SilentAggregate) (c : SilentAggregate_call) : SilentAggregate :=
  match c with
  | SilentAggregate_with_number_of_aggregates v => MkSilentAggregate v (sa_type x)
  | SilentAggregate_with_aggregate_type v => MkSilentAggregate (sa_number x) v
  end.
(** the methods of SilentEntitySystem, dis-rs/src/common/aggregate_state/model.rs: lines 317, 322, 327, 332; the structure is dis-rs/src/common/aggregate_state/model.rs:310 *)
Definition SilentEntity_do (x : SilentEntity) (c : SilentEntity_call) : SilentEntity :=
  match c with
  | SilentEntity_with_number_of_entities v => MkSilentEntity v (se_type x) (se_appearances x)
  | SilentEntity_with_entity_type v => MkSilentEntity (DisEntity.se_number x) v (se_appearances x)
  | SilentEntity_with_appearance v => MkSilentEntity (DisEntity.se_number x) (se_type x) (se_appearances x ++ [v])
  | SilentEntity_with_appearances v => MkSilentEntity (DisEntity.se_number x) (se_type x) v
  end.
(** the methods of PduStatus, dis-rs/src/v7/model.rs: lines 37, 42, 47, 52, 57, 62, 67, 72, 77; the structure is dis-rs/src/v7/model.rs:7 *)
Definition PduStatus_do (x : PduStatus) (c : PduStatus_call) : PduStatus :=
  match c with
  | PduStatus_with_transferred_entity_indicator v => MkPduStatus (Some v) (st_lvc x) (st_cei x) (st_fti x) (st_dti x) (st_rai x) (st_iai x) (st_ism x) (st_aii x)
  | PduStatus_with_lvc_indicator v => MkPduStatus (st_tei x) (Some v) (st_cei x) (st_fti x) (st_dti x) (st_rai x) (st_iai x) (st_ism x) (st_aii x)
  | PduStatus_with_coupled_extension_indicator v => MkPduStatus (st_tei x) (st_lvc x) (Some v) (st_fti x) (st_dti x) (st_rai x) (st_iai x) (st_ism x) (st_aii x)
  | PduStatus_with_fire_type_indicator v => MkPduStatus (st_tei x) (st_lvc x) (st_cei x) (Some v) (st_dti x) (st_rai x) (st_iai x) (st_ism x) (st_aii x)
  | PduStatus_with_detonation_type_indicator v => MkPduStatus (st_tei x) (st_lvc x) (st_cei x) (st_fti x) (Some v) (st_rai x) (st_iai x) (st_ism x) (st_aii x)
  | PduStatus_with_radio_attached_indicator v => MkPduStatus (st_tei x) (st_lvc x) (st_cei x) (st_fti x) (st_dti x) (Some v) (st_iai x) (st_ism x) (st_aii x)
  | PduStatus_with_intercom_attached_indicator v => MkPduStatus (st_tei x) (st_lvc x) (st_cei x) (st_fti x) (st_dti x) (st_rai x) (Some v) (st_ism x) (st_aii x)
  | PduStatus_with_iff_simulation_mode v => MkPduStatus (st_tei x) (st_lvc x) (st_cei x) (st_fti x) (st_dti x) (st_rai x) (st_iai x) (Some v) (st_aii x)
  | PduStatus_with_active_interrogation_indicator v => MkPduStatus (st_tei x) (st_lvc x) (st_cei x) (st_fti x) (st_dti x) (st_rai x) (st_iai x) (st_ism x) (Some v)
  end.
(** the methods of FundamentalOperationalDataBuilder, dis-rs/src/common/iff/builder.rs: lines 278, 283, 288, 293, 298, 303, 308, 313, 318, 323; the structure is dis-rs/src/common/iff/model.rs:371 *)
Definition FundOpData_do (x : FundOpData) (c : FundOpData_call) : FundOpData :=
  match c with
  | FundOpData_with_system_status v => MkFundOpData v (fo_field1 x) (fo_layers x) (fo_field2 x) (fo_p1 x) (fo_p2 x) (fo_p3 x) (fo_p4 x) (fo_p5 x) (fo_p6 x)
  | FundOpData_with_data_field_1 v => MkFundOpData (fo_status x) v (fo_layers x) (fo_field2 x) (fo_p1 x) (fo_p2 x) (fo_p3 x) (fo_p4 x) (fo_p5 x) (fo_p6 x)
  | FundOpData_with_information_layers v => MkFundOpData (fo_status x) (fo_field1 x) v (fo_field2 x) (fo_p1 x) (fo_p2 x) (fo_p3 x) (fo_p4 x) (fo_p5 x) (fo_p6 x)
  | FundOpData_with_data_field_2 v => MkFundOpData (fo_status x) (fo_field1 x) (fo_layers x) v (fo_p1 x) (fo_p2 x) (fo_p3 x) (fo_p4 x) (fo_p5 x) (fo_p6 x)
  | FundOpData_with_parameter_1 v => MkFundOpData (fo_status x) (fo_field1 x) (fo_layers x) (fo_field2 x) v (fo_p2 x) (fo_p3 x) (fo_p4 x) (fo_p5 x) (fo_p6 x)
  | FundOpData_with_parameter_2 v => MkFundOpData (fo_status x) (fo_field1 x) (fo_layers x) (fo_field2 x) (fo_p1 x) v (fo_p3 x) (fo_p4 x) (fo_p5 x) (fo_p6 x)
  | FundOpData_with_parameter_3 v => MkFundOpData (fo_status x) (fo_field1 x) (fo_layers x) (fo_field2 x) (fo_p1 x) (fo_p2 x) v (fo_p4 x) (fo_p5 x) (fo_p6 x)
  | FundOpData_with_parameter_4 v => MkFundOpData (fo_status x) (fo_field1 x) (fo_layers x) (fo_field2 x) (fo_p1 x) (fo_p2 x) (fo_p3 x) v (fo_p5 x) (fo_p6 x)
  | FundOpData_with_parameter_5 v => MkFundOpData (fo_status x) (fo_field1 x) (fo_layers x) (fo_field2 x) (fo_p1 x) (fo_p2 x) (fo_p3 x) (fo_p4 x) v (fo_p6 x)
  | FundOpData_with_parameter_6 v => MkFundOpData (fo_status x) (fo_field1 x) (fo_layers x) (fo_field2 x) (fo_p1 x) (fo_p2 x) (fo_p3 x) (fo_p4 x) (fo_p5 x) v
  end.
(** the methods of IffBuilder, dis-rs/src/common/iff/builder.rs: lines 20, 25, 30, 35, 40, 45, 50, 55, 60, 65, 70; the structure is dis-rs/src/common/iff/model.rs:16 *)
Definition Iff_do (x : Iff) (c : Iff_call) : Iff :=
  match c with
  | Iff_with_emitting_entity_id v => MkIff v (Iff_event_id x) (Iff_antenna x) (Iff_system_id x) (Iff_designator x) (Iff_specific x) (Iff_data x) (Iff_layer_2 x) (Iff_layer_3 x) (Iff_layer_4 x) (Iff_layer_5 x)
  | Iff_with_event_id v => MkIff (Iff_emitting_entity_id x) v (Iff_antenna x) (Iff_system_id x) (Iff_designator x) (Iff_specific x) (Iff_data x) (Iff_layer_2 x) (Iff_layer_3 x) (Iff_layer_4 x) (Iff_layer_5 x)
  | Iff_with_relative_antenna_location v => MkIff (Iff_emitting_entity_id x) (Iff_event_id x) v (Iff_system_id x) (Iff_designator x) (Iff_specific x) (Iff_data x) (Iff_layer_2 x) (Iff_layer_3 x) (Iff_layer_4 x) (Iff_layer_5 x)
  | Iff_with_system_id v => MkIff (Iff_emitting_entity_id x) (Iff_event_id x) (Iff_antenna x) v (Iff_designator x) (Iff_specific x) (Iff_data x) (Iff_layer_2 x) (Iff_layer_3 x) (Iff_layer_4 x) (Iff_layer_5 x)
  | Iff_with_system_designator v => MkIff (Iff_emitting_entity_id x) (Iff_event_id x) (Iff_antenna x) (Iff_system_id x) v (Iff_specific x) (Iff_data x) (Iff_layer_2 x) (Iff_layer_3 x) (Iff_layer_4 x) (Iff_layer_5 x)
  | Iff_with_system_specific_data v => MkIff (Iff_emitting_entity_id x) (Iff_event_id x) (Iff_antenna x) (Iff_system_id x) (Iff_designator x) v (Iff_data x) (Iff_layer_2 x) (Iff_layer_3 x) (Iff_layer_4 x) (Iff_layer_5 x)
  | Iff_with_fundamental_operational_data v => MkIff (Iff_emitting_entity_id x) (Iff_event_id x) (Iff_antenna x) (Iff_system_id x) (Iff_designator x) (Iff_specific x) v (Iff_layer_2 x) (Iff_layer_3 x) (Iff_layer_4 x) (Iff_layer_5 x)
  | Iff_with_layer_2 v => MkIff (Iff_emitting_entity_id x) (Iff_event_id x) (Iff_antenna x) (Iff_system_id x) (Iff_designator x) (Iff_specific x) (Iff_data x) (Some v) (Iff_layer_3 x) (Iff_layer_4 x) (Iff_layer_5 x)
  | Iff_with_layer_3 v => MkIff (Iff_emitting_entity_id x) (Iff_event_id x) (Iff_antenna x) (Iff_system_id x) (Iff_designator x) (Iff_specific x) (Iff_data x) (Iff_layer_2 x) (Some v) (Iff_layer_4 x) (Iff_layer_5 x)
  | Iff_with_layer_4 v => MkIff (Iff_emitting_entity_id x) (Iff_event_id x) (Iff_antenna x) (Iff_system_id x) (Iff_designator x) (Iff_specific x) (Iff_data x) (Iff_layer_2 x) (Iff_layer_3 x) (Some v) (Iff_layer_5 x)
  | Iff_with_layer_5 v => MkIff (Iff_emitting_entity_id x) (Iff_event_id x) (Iff_antenna x) (Iff_system_id x) (Iff_designator x) (Iff_specific x) (Iff_data x) (Iff_layer_2 x) (Iff_layer_3 x) (Iff_layer_4 x) (Some v)
  end.
(** the methods of IffDataRecordBuilder, dis-rs/src/common/iff/builder.rs: lines 340, 345; the structure is dis-rs/src/common/iff/model.rs:419 *)
Definition IffDataRecord_do (x : IffDataRecord) (c : IffDataRecord_call) : IffDataRecord :=
  match c with
  | IffDataRecord_with_record_type v => MkIffDataRecord v (idr_fields x)
  | IffDataRecord_with_record_specific_field v => MkIffDataRecord (idr_type x) v
  end.
(** the methods of IffFundamentalParameterDataBuilder, dis-rs/src/common/iff/builder.rs: lines 431, 436, 441, 446, 451, 456, 461; the structure is dis-rs/src/common/iff/model.rs:521 *)
Definition IffParameter_do (x : IffParameter) (c : IffParameter_call) : IffParameter :=
  match c with
  | IffParameter_with_erp v => MkIffParameter v (ip_frequency x) (ip_pgrf x) (ip_pulse_width x) (ip_burst x) (ip_modes x) (ip_s1 x) (ip_s2 x) (ip_s3 x)
  | IffParameter_with_frequency v => MkIffParameter (ip_erp x) v (ip_pgrf x) (ip_pulse_width x) (ip_burst x) (ip_modes x) (ip_s1 x) (ip_s2 x) (ip_s3 x)
  | IffParameter_with_pgrf v => MkIffParameter (ip_erp x) (ip_frequency x) v (ip_pulse_width x) (ip_burst x) (ip_modes x) (ip_s1 x) (ip_s2 x) (ip_s3 x)
  | IffParameter_with_pulse_width v => MkIffParameter (ip_erp x) (ip_frequency x) (ip_pgrf x) v (ip_burst x) (ip_modes x) (ip_s1 x) (ip_s2 x) (ip_s3 x)
  | IffParameter_with_burst_length v => MkIffParameter (ip_erp x) (ip_frequency x) (ip_pgrf x) (ip_pulse_width x) v (ip_modes x) (ip_s1 x) (ip_s2 x) (ip_s3 x)
  | IffParameter_with_applicable_modes v => MkIffParameter (ip_erp x) (ip_frequency x) (ip_pgrf x) (ip_pulse_width x) (ip_burst x) v (ip_s1 x) (ip_s2 x) (ip_s3 x)
  | IffParameter_with_system_specific_data v1 v2 v3 => MkIffParameter (ip_erp x) (ip_frequency x) (ip_pgrf x) (ip_pulse_width x) (ip_burst x) (ip_modes x) v1 v2 v3
  end.
(** the methods of IffLayer2Builder, dis-rs/src/common/iff/builder.rs: lines 83, 88, 93, 98, 103, 108; the structure is dis-rs/src/common/iff/model.rs:82 *)
Definition IffLayer2_do (x : IffLayer2) (c : IffLayer2_call) : IffLayer2 :=
  match c with
  | IffLayer2_with_header v => MkIffLayer2 v (l2_beam x) (l2_op1 x) (l2_op2 x) (l2_params x)
  | IffLayer2_with_beam_data v => MkIffLayer2 (l2_header x) v (l2_op1 x) (l2_op2 x) (l2_params x)
  | IffLayer2_with_operational_parameter_1 v => MkIffLayer2 (l2_header x) (l2_beam x) v (l2_op2 x) (l2_params x)
  | IffLayer2_with_operational_parameter_2 v => MkIffLayer2 (l2_header x) (l2_beam x) (l2_op1 x) v (l2_params x)
  | IffLayer2_with_iff_fundamental_parameter v => MkIffLayer2 (l2_header x) (l2_beam x) (l2_op1 x) (l2_op2 x) (l2_params x ++ [v])
  | IffLayer2_with_iff_fundamental_parameters v => MkIffLayer2 (l2_header x) (l2_beam x) (l2_op1 x) (l2_op2 x) v
  end.
(** the methods of IffLayer3Builder, dis-rs/src/common/iff/builder.rs: lines 125, 130, 135, 140; the structure is dis-rs/src/common/iff/model.rs:124 *)
Definition IffLayer3_do (x : IffLayer3) (c : IffLayer3_call) : IffLayer3 :=
  match c with
  | IffLayer3_with_header v => MkIffLayer3 v (l3_sim x) (l3_basic x) (l3_records x)
  | IffLayer3_with_reporting_simulation v => MkIffLayer3 (l3_header x) v (l3_basic x) (l3_records x)
  | IffLayer3_with_mode_5_basic_data v => MkIffLayer3 (l3_header x) (l3_sim x) v (l3_records x)
  | IffLayer3_with_iff_data_specification v => MkIffLayer3 (l3_header x) (l3_sim x) (l3_basic x) v
  end.
(** the methods of IffLayer4Builder, dis-rs/src/common/iff/builder.rs: lines 157, 162, 167, 172; the structure is dis-rs/src/common/iff/model.rs:184 *)
Definition IffLayer4_do (x : IffLayer4) (c : IffLayer4_call) : IffLayer4 :=
  match c with
  | IffLayer4_with_header v => MkIffLayer4 v (l4_sim x) (l4_basic x) (l4_records x)
  | IffLayer4_with_reporting_simulation v => MkIffLayer4 (l4_header x) v (l4_basic x) (l4_records x)
  | IffLayer4_with_mode_s_basic_data v => MkIffLayer4 (l4_header x) (l4_sim x) v (l4_records x)
  | IffLayer4_with_iff_data_specification v => MkIffLayer4 (l4_header x) (l4_sim x) (l4_basic x) v
  end.
(** the methods of IffLayer5Builder, dis-rs/src/common/iff/builder.rs: lines 189, 194, 199, 204, 209; the structure is dis-rs/src/common/iff/model.rs:244 *)
Definition IffLayer5_do (x : IffLayer5) (c : IffLayer5_call) : IffLayer5 :=
  match c with
  | IffLayer5_with_header v => MkIffLayer5 v (l5_sim x) (l5_layers x) (l5_category x) (l5_records x)
  | IffLayer5_with_reporting_simulation v => MkIffLayer5 (l5_header x) v (l5_layers x) (l5_category x) (l5_records x)
  | IffLayer5_with_applicable_layers v => MkIffLayer5 (l5_header x) (l5_sim x) v (l5_category x) (l5_records x)
  | IffLayer5_with_data_category v => MkIffLayer5 (l5_header x) (l5_sim x) (l5_layers x) v (l5_records x)
  | IffLayer5_with_iff_data_specification v => MkIffLayer5 (l5_header x) (l5_sim x) (l5_layers x) (l5_category x) v
  end.
(** the methods of LayerHeaderBuilder, dis-rs/src/common/iff/builder.rs: lines 478, 483, 488; the structure is dis-rs/src/common/iff/model.rs:539 *)
Definition LayerHeader_do (x : LayerHeader) (c : LayerHeader_call) : LayerHeader :=
  match c with
  | LayerHeader_with_layer_number v => MkLayerHeader v (lh_specific x) (lh_length x)
  | LayerHeader_with_layer_specific_information v => MkLayerHeader (lh_number x) v (lh_length x)
  | LayerHeader_with_length v => MkLayerHeader (lh_number x) (lh_specific x) v
  end.
(** the methods of Mode5InterrogatorBasicDataBuilder, dis-rs/src/common/iff/builder.rs: lines 663, 668, 673; the structure is dis-rs/src/common/iff/model.rs:747 *)
Definition Mode5Interrogator_do (x : Mode5Interrogator) (c : Mode5Interrogator_call) : Mode5Interrogator :=
  match c with
  | Mode5Interrogator_with_status v => MkM5I v (m5i_formats x) (m5i_entity x)
  | Mode5Interrogator_with_mode_5_message_formats_present v => MkM5I (m5i_status x) v (m5i_entity x)
  | Mode5Interrogator_with_interrogated_entity_id v => MkM5I (m5i_status x) (m5i_formats x) v
  end.
(** the methods of Mode5TransponderBasicDataBuilder, dis-rs/src/common/iff/builder.rs: lines 899, 904, 909, 914, 919, 924, 929, 934; the structure is dis-rs/src/common/iff/model.rs:987 *)
Definition Mode5Transponder_do (x : Mode5Transponder) (c : Mode5Transponder_call) : Mode5Transponder :=
  match c with
  | Mode5Transponder_with_status v => MkM5T v (m5t_pin x) (m5t_formats x) (m5t_mode1 x) (m5t_origin x) (m5t_supplemental x) (m5t_nav x) (m5t_merit x)
  | Mode5Transponder_with_pin v => MkM5T (m5t_status x) v (m5t_formats x) (m5t_mode1 x) (m5t_origin x) (m5t_supplemental x) (m5t_nav x) (m5t_merit x)
  | Mode5Transponder_with_mode_5_message_formats_present v => MkM5T (m5t_status x) (m5t_pin x) v (m5t_mode1 x) (m5t_origin x) (m5t_supplemental x) (m5t_nav x) (m5t_merit x)
  | Mode5Transponder_with_enhanced_mode_1 v => MkM5T (m5t_status x) (m5t_pin x) (m5t_formats x) v (m5t_origin x) (m5t_supplemental x) (m5t_nav x) (m5t_merit x)
  | Mode5Transponder_with_national_origin v => MkM5T (m5t_status x) (m5t_pin x) (m5t_formats x) (m5t_mode1 x) v (m5t_supplemental x) (m5t_nav x) (m5t_merit x)
  | Mode5Transponder_with_supplemental_data v => MkM5T (m5t_status x) (m5t_pin x) (m5t_formats x) (m5t_mode1 x) (m5t_origin x) v (m5t_nav x) (m5t_merit x)
  | Mode5Transponder_with_navigation_source v => MkM5T (m5t_status x) (m5t_pin x) (m5t_formats x) (m5t_mode1 x) (m5t_origin x) (m5t_supplemental x) v (m5t_merit x)
  | Mode5Transponder_with_figure_of_merit v => MkM5T (m5t_status x) (m5t_pin x) (m5t_formats x) (m5t_mode1 x) (m5t_origin x) (m5t_supplemental x) (m5t_nav x) v
  end.
(** the methods of ModeSInterrogatorBasicDataBuilder, dis-rs/src/common/iff/builder.rs: lines 1067, 1072; the structure is dis-rs/src/common/iff/model.rs:1238 *)
Definition ModeSInterrogator_do (x : ModeSInterrogator) (c : ModeSInterrogator_call) : ModeSInterrogator :=
  match c with
  | ModeSInterrogator_with_mode_s_interrogator_status v => MkMSI v (msi_levels x)
  | ModeSInterrogator_with_mode_s_levels_present v => MkMSI (msi_status x) v
  end.
(** the methods of ModeSTransponderBasicDataBuilder, dis-rs/src/common/iff/builder.rs: lines 1158, 1163, 1168, 1173, 1178, 1183, 1188, 1193, 1198; the structure is dis-rs/src/common/iff/model.rs:1367 *)
Definition ModeSTransponder_do (x : ModeSTransponder) (c : ModeSTransponder_call) : ModeSTransponder :=
  match c with
  | ModeSTransponder_with_status v => MkMST v (mst_levels x) (mst_domain x) (mst_id x) (mst_address x) (mst_idtype x) (mst_dap x) (mst_altitude x) (mst_capability x)
  | ModeSTransponder_with_levels_present v => MkMST (mst_status x) v (mst_domain x) (mst_id x) (mst_address x) (mst_idtype x) (mst_dap x) (mst_altitude x) (mst_capability x)
  | ModeSTransponder_with_aircraft_present_domain v => MkMST (mst_status x) (mst_levels x) v (mst_id x) (mst_address x) (mst_idtype x) (mst_dap x) (mst_altitude x) (mst_capability x)
  | ModeSTransponder_with_aircraft_identification v => MkMST (mst_status x) (mst_levels x) (mst_domain x) v (mst_address x) (mst_idtype x) (mst_dap x) (mst_altitude x) (mst_capability x)
  | ModeSTransponder_with_aircraft_address v => MkMST (mst_status x) (mst_levels x) (mst_domain x) (mst_id x) v (mst_idtype x) (mst_dap x) (mst_altitude x) (mst_capability x)
  | ModeSTransponder_with_aircraft_identification_type v => MkMST (mst_status x) (mst_levels x) (mst_domain x) (mst_id x) (mst_address x) v (mst_dap x) (mst_altitude x) (mst_capability x)
  | ModeSTransponder_with_dap_source v => MkMST (mst_status x) (mst_levels x) (mst_domain x) (mst_id x) (mst_address x) (mst_idtype x) v (mst_altitude x) (mst_capability x)
  | ModeSTransponder_with_altitude v => MkMST (mst_status x) (mst_levels x) (mst_domain x) (mst_id x) (mst_address x) (mst_idtype x) (mst_dap x) v (mst_capability x)
  | ModeSTransponder_with_capability_report v => MkMST (mst_status x) (mst_levels x) (mst_domain x) (mst_id x) (mst_address x) (mst_idtype x) (mst_dap x) (mst_altitude x) v
  end.
(** the methods of SystemIdBuilder, dis-rs/src/common/iff/builder.rs: lines 532, 537, 542, 547; the structure is dis-rs/src/common/iff/model.rs:575 *)
Definition SystemId_do (x : SystemId) (c : SystemId_call) : SystemId :=
  match c with
  | SystemId_with_system_type v => MkSystemId v (si_name x) (si_mode x) (si_change x)
  | SystemId_with_system_name v => MkSystemId (si_type x) v (si_mode x) (si_change x)
  | SystemId_with_system_mode v => MkSystemId (si_type x) (si_name x) v (si_change x)
  | SystemId_with_change_options v => MkSystemId (si_type x) (si_name x) (si_mode x) v
  end.
(** the methods of NamedLocationId, dis-rs/src/common/is_part_of/model.rs: lines 81, 86; the structure is dis-rs/src/common/is_part_of/model.rs:75 *)
Definition NamedLocationId_do (x : NamedLocationId) (c : NamedLocationId_call) : NamedLocationId :=
  match c with
  | NamedLocationId_with_station_name v => MkNamedLocationId v (nl_number x)
  | NamedLocationId_with_station_number v => MkNamedLocationId (nl_name x) v
  end.
(** the methods of Relationship, dis-rs/src/common/is_part_of/model.rs: lines 62, 67; the structure is dis-rs/src/common/is_part_of/model.rs:56 *)
Definition Relationship_do (x : Relationship) (c : Relationship_call) : Relationship :=
  match c with
  | Relationship_with_nature v => MkRelationship v (re_position x)
  | Relationship_with_position v => MkRelationship (re_nature x) v
  end.
(** the methods of CollisionBuilder, dis-rs/src/common/collision/builder.rs: lines 20, 25, 30, 35, 40, 45, 50; the structure is dis-rs/src/common/collision/model.rs:9 *)
Definition Collision_do (x : Collision) (c : Collision_call) : Collision :=
  match c with
  | Collision_with_issuing_entity_id v => MkCollision v (Collision_colliding_entity_id x) (Collision_event_id x) (Collision_collision_type x) (Collision_velocity x) (Collision_mass x) (Collision_location x)
  | Collision_with_colliding_entity_id v => MkCollision (Collision_issuing_entity_id x) v (Collision_event_id x) (Collision_collision_type x) (Collision_velocity x) (Collision_mass x) (Collision_location x)
  | Collision_with_event_id v => MkCollision (Collision_issuing_entity_id x) (Collision_colliding_entity_id x) v (Collision_collision_type x) (Collision_velocity x) (Collision_mass x) (Collision_location x)
  | Collision_with_collision_type v => MkCollision (Collision_issuing_entity_id x) (Collision_colliding_entity_id x) (Collision_event_id x) v (Collision_velocity x) (Collision_mass x) (Collision_location x)
  | Collision_with_velocity v => MkCollision (Collision_issuing_entity_id x) (Collision_colliding_entity_id x) (Collision_event_id x) (Collision_collision_type x) v (Collision_mass x) (Collision_location x)
  | Collision_with_mass v => MkCollision (Collision_issuing_entity_id x) (Collision_colliding_entity_id x) (Collision_event_id x) (Collision_collision_type x) (Collision_velocity x) v (Collision_location x)
  | Collision_with_location v => MkCollision (Collision_issuing_entity_id x) (Collision_colliding_entity_id x) (Collision_event_id x) (Collision_collision_type x) (Collision_velocity x) (Collision_mass x) v
  end.
(** the methods of CollisionElasticBuilder, dis-rs/src/common/collision_elastic/builder.rs: lines 19, 24, 29, 34, 39, 44, 49, 54, 59, 64, 69, 74, 79, 84; the structure is dis-rs/src/common/collision_elastic/model.rs:12 *)
Definition CollisionElastic_do (x : CollisionElastic) (c : CollisionElastic_call) : CollisionElastic :=
  match c with
  | CollisionElastic_with_issuing_entity_id v => MkCollisionElastic v (CollisionElastic_colliding_entity_id x) (CollisionElastic_event_id x) (CollisionElastic_velocity x) (CollisionElastic_mass x) (CollisionElastic_location x) (CollisionElastic_intermediate_result_xx x) (CollisionElastic_intermediate_result_xy x) (CollisionElastic_intermediate_result_xz x) (CollisionElastic_intermediate_result_yy x) (CollisionElastic_intermediate_result_yz x) (CollisionElastic_intermediate_result_zz x) (CollisionElastic_unit_surface_normal x) (CollisionElastic_coefficient_of_restitution x)
  | CollisionElastic_with_colliding_entity_id v => MkCollisionElastic (CollisionElastic_issuing_entity_id x) v (CollisionElastic_event_id x) (CollisionElastic_velocity x) (CollisionElastic_mass x) (CollisionElastic_location x) (CollisionElastic_intermediate_result_xx x) (CollisionElastic_intermediate_result_xy x) (CollisionElastic_intermediate_result_xz x) (CollisionElastic_intermediate_result_yy x) (CollisionElastic_intermediate_result_yz x) (CollisionElastic_intermediate_result_zz x) (CollisionElastic_unit_surface_normal x) (CollisionElastic_coefficient_of_restitution x)
  | CollisionElastic_with_event_id v => MkCollisionElastic (CollisionElastic_issuing_entity_id x) (CollisionElastic_colliding_entity_id x) v (CollisionElastic_velocity x) (CollisionElastic_mass x) (CollisionElastic_location x) (CollisionElastic_intermediate_result_xx x) (CollisionElastic_intermediate_result_xy x) (CollisionElastic_intermediate_result_xz x) (CollisionElastic_intermediate_result_yy x) (CollisionElastic_intermediate_result_yz x) (CollisionElastic_intermediate_result_zz x) (CollisionElastic_unit_surface_normal x) (CollisionElastic_coefficient_of_restitution x)
  | CollisionElastic_with_velocity v => MkCollisionElastic (CollisionElastic_issuing_entity_id x) (CollisionElastic_colliding_entity_id x) (CollisionElastic_event_id x) v (CollisionElastic_mass x) (CollisionElastic_location x) (CollisionElastic_intermediate_result_xx x) (CollisionElastic_intermediate_result_xy x) (CollisionElastic_intermediate_result_xz x) (CollisionElastic_intermediate_result_yy x) (CollisionElastic_intermediate_result_yz x) (CollisionElastic_intermediate_result_zz x) (CollisionElastic_unit_surface_normal x) (CollisionElastic_coefficient_of_restitution x)
  | CollisionElastic_with_mass v => MkCollisionElastic (CollisionElastic_issuing_entity_id x) (CollisionElastic_colliding_entity_id x) (CollisionElastic_event_id x) (CollisionElastic_velocity x) v (CollisionElastic_location x) (CollisionElastic_intermediate_result_xx x) (CollisionElastic_intermediate_result_xy x) (CollisionElastic_intermediate_result_xz x) (CollisionElastic_intermediate_result_yy x) (CollisionElastic_intermediate_result_yz x) (CollisionElastic_intermediate_result_zz x) (CollisionElastic_unit_surface_normal x) (CollisionElastic_coefficient_of_restitution x)
  | CollisionElastic_with_location v => MkCollisionElastic (CollisionElastic_issuing_entity_id x) (CollisionElastic_colliding_entity_id x) (CollisionElastic_event_id x) (CollisionElastic_velocity x) (CollisionElastic_mass x) v (CollisionElastic_intermediate_result_xx x) (CollisionElastic_intermediate_result_xy x) (CollisionElastic_intermediate_result_xz x) (CollisionElastic_intermediate_result_yy x) (CollisionElastic_intermediate_result_yz x) (CollisionElastic_intermediate_result_zz x) (CollisionElastic_unit_surface_normal x) (CollisionElastic_coefficient_of_restitution x)
  | CollisionElastic_with_intermediate_result_xx v => MkCollisionElastic (CollisionElastic_issuing_entity_id x) (CollisionElastic_colliding_entity_id x) (CollisionElastic_event_id x) (CollisionElastic_velocity x) (CollisionElastic_mass x) (CollisionElastic_location x) v (CollisionElastic_intermediate_result_xy x) (CollisionElastic_intermediate_result_xz x) (CollisionElastic_intermediate_result_yy x) (CollisionElastic_intermediate_result_yz x) (CollisionElastic_intermediate_result_zz x) (CollisionElastic_unit_surface_normal x) (CollisionElastic_coefficient_of_restitution x)
  | CollisionElastic_with_intermediate_result_xy v => MkCollisionElastic (CollisionElastic_issuing_entity_id x) (CollisionElastic_colliding_entity_id x) (CollisionElastic_event_id x) (CollisionElastic_velocity x) (CollisionElastic_mass x) (CollisionElastic_location x) (CollisionElastic_intermediate_result_xx x) v (CollisionElastic_intermediate_result_xz x) (CollisionElastic_intermediate_result_yy x) (CollisionElastic_intermediate_result_yz x) (CollisionElastic_intermediate_result_zz x) (CollisionElastic_unit_surface_normal x) (CollisionElastic_coefficient_of_restitution x)
  | CollisionElastic_with_intermediate_result_xz v => MkCollisionElastic (CollisionElastic_issuing_entity_id x) (CollisionElastic_colliding_entity_id x) (CollisionElastic_event_id x) (CollisionElastic_velocity x) (CollisionElastic_mass x) (CollisionElastic_location x) (CollisionElastic_intermediate_result_xx x) (CollisionElastic_intermediate_result_xy x) v (CollisionElastic_intermediate_result_yy x) (CollisionElastic_intermediate_result_yz x) (CollisionElastic_intermediate_result_zz x) (CollisionElastic_unit_surface_normal x) (CollisionElastic_coefficient_of_restitution x)
  | CollisionElastic_with_intermediate_result_yy v => MkCollisionElastic (CollisionElastic_issuing_entity_id x) (CollisionElastic_colliding_entity_id x) (CollisionElastic_event_id x) (CollisionElastic_velocity x) (CollisionElastic_mass x) (CollisionElastic_location x) (CollisionElastic_intermediate_result_xx x) (CollisionElastic_intermediate_result_xy x) (CollisionElastic_intermediate_result_xz x) v (CollisionElastic_intermediate_result_yz x) (CollisionElastic_intermediate_result_zz x) (CollisionElastic_unit_surface_normal x) (CollisionElastic_coefficient_of_restitution x)
  | CollisionElastic_with_intermediate_result_yz v => MkCollisionElastic (CollisionElastic_issuing_entity_id x) (CollisionElastic_colliding_entity_id x) (CollisionElastic_event_id x) (CollisionElastic_velocity x) (CollisionElastic_mass x) (CollisionElastic_location x) (CollisionElastic_intermediate_result_xx x) (CollisionElastic_intermediate_result_xy x) (CollisionElastic_intermediate_result_xz x) (CollisionElastic_intermediate_result_yy x) v (CollisionElastic_intermediate_result_zz x) (CollisionElastic_unit_surface_normal x) (CollisionElastic_coefficient_of_restitution x)
  | CollisionElastic_with_intermediate_result_zz v => MkCollisionElastic (CollisionElastic_issuing_entity_id x) (CollisionElastic_colliding_entity_id x) (CollisionElastic_event_id x) (CollisionElastic_velocity x) (CollisionElastic_mass x) (CollisionElastic_location x) (CollisionElastic_intermediate_result_xx x) (CollisionElastic_intermediate_result_xy x) (CollisionElastic_intermediate_result_xz x) (CollisionElastic_intermediate_result_yy x) (CollisionElastic_intermediate_result_yz x) v (CollisionElastic_unit_surface_normal x) (CollisionElastic_coefficient_of_restitution x)
  | CollisionElastic_with_unit_surface_normal v => MkCollisionElastic (CollisionElastic_issuing_entity_id x) (CollisionElastic_colliding_entity_id x) (CollisionElastic_event_id x) (CollisionElastic_velocity x) (CollisionElastic_mass x) (CollisionElastic_location x) (CollisionElastic_intermediate_result_xx x) (CollisionElastic_intermediate_result_xy x) (CollisionElastic_intermediate_result_xz x) (CollisionElastic_intermediate_result_yy x) (CollisionElastic_intermediate_result_yz x) (CollisionElastic_intermediate_result_zz x) v (CollisionElastic_coefficient_of_restitution x)
  | CollisionElastic_with_coefficient_of_restitution v => MkCollisionElastic (CollisionElastic_issuing_entity_id x) (CollisionElastic_colliding_entity_id x) (CollisionElastic_event_id x) (CollisionElastic_velocity x) (CollisionElastic_mass x) (CollisionElastic_location x) (CollisionElastic_intermediate_result_xx x) (CollisionElastic_intermediate_result_xy x) (CollisionElastic_intermediate_result_xz x) (CollisionElastic_intermediate_result_yy x) (CollisionElastic_intermediate_result_yz x) (CollisionElastic_intermediate_result_zz x) (CollisionElastic_unit_surface_normal x) v
  end.
(** the methods of DesignatorBuilder, dis-rs/src/common/designator/builder.rs: lines 20, 25, 30, 35, 40, 45, 50, 55, 60, 65; the structure is dis-rs/src/common/designator/model.rs:13 *)
Definition Designator_do (x : Designator) (c : Designator_call) : Designator :=
  match c with
  | Designator_with_designating_entity_id v => MkDesignator v (Designator_system_name x) (Designator_designated_entity_id x) (Designator_code x) (Designator_power x) (Designator_wavelength x) (Designator_spot_wrt_designated_entity x) (Designator_spot_location x) (Designator_dead_reckoning_algorithm x) (Designator_linear_acceleration x)
  | Designator_with_system_name v => MkDesignator (Designator_designating_entity_id x) v (Designator_designated_entity_id x) (Designator_code x) (Designator_power x) (Designator_wavelength x) (Designator_spot_wrt_designated_entity x) (Designator_spot_location x) (Designator_dead_reckoning_algorithm x) (Designator_linear_acceleration x)
  | Designator_with_designated_entity_id v => MkDesignator (Designator_designating_entity_id x) (Designator_system_name x) v (Designator_code x) (Designator_power x) (Designator_wavelength x) (Designator_spot_wrt_designated_entity x) (Designator_spot_location x) (Designator_dead_reckoning_algorithm x) (Designator_linear_acceleration x)
  | Designator_with_code v => MkDesignator (Designator_designating_entity_id x) (Designator_system_name x) (Designator_designated_entity_id x) v (Designator_power x) (Designator_wavelength x) (Designator_spot_wrt_designated_entity x) (Designator_spot_location x) (Designator_dead_reckoning_algorithm x) (Designator_linear_acceleration x)
  | Designator_with_power v => MkDesignator (Designator_designating_entity_id x) (Designator_system_name x) (Designator_designated_entity_id x) (Designator_code x) v (Designator_wavelength x) (Designator_spot_wrt_designated_entity x) (Designator_spot_location x) (Designator_dead_reckoning_algorithm x) (Designator_linear_acceleration x)
  | Designator_with_wavelength v => MkDesignator (Designator_designating_entity_id x) (Designator_system_name x) (Designator_designated_entity_id x) (Designator_code x) (Designator_power x) v (Designator_spot_wrt_designated_entity x) (Designator_spot_location x) (Designator_dead_reckoning_algorithm x) (Designator_linear_acceleration x)
  | Designator_with_spot_wrt_designated_entity v => MkDesignator (Designator_designating_entity_id x) (Designator_system_name x) (Designator_designated_entity_id x) (Designator_code x) (Designator_power x) (Designator_wavelength x) v (Designator_spot_location x) (Designator_dead_reckoning_algorithm x) (Designator_linear_acceleration x)
  | Designator_with_spot_location v => MkDesignator (Designator_designating_entity_id x) (Designator_system_name x) (Designator_designated_entity_id x) (Designator_code x) (Designator_power x) (Designator_wavelength x) (Designator_spot_wrt_designated_entity x) v (Designator_dead_reckoning_algorithm x) (Designator_linear_acceleration x)
  | Designator_with_dead_reckoning_algorithm v => MkDesignator (Designator_designating_entity_id x) (Designator_system_name x) (Designator_designated_entity_id x) (Designator_code x) (Designator_power x) (Designator_wavelength x) (Designator_spot_wrt_designated_entity x) (Designator_spot_location x) v (Designator_linear_acceleration x)
  | Designator_with_linear_acceleration v => MkDesignator (Designator_designating_entity_id x) (Designator_system_name x) (Designator_designated_entity_id x) (Designator_code x) (Designator_power x) (Designator_wavelength x) (Designator_spot_wrt_designated_entity x) (Designator_spot_location x) (Designator_dead_reckoning_algorithm x) v
  end.
(** the methods of IsPartOfBuilder, dis-rs/src/common/is_part_of/builder.rs: lines 19, 24, 29, 34, 39; the structure is dis-rs/src/common/is_part_of/model.rs:12 *)
Definition IsPartOf_do (x : IsPartOf) (c : IsPartOf_call) : IsPartOf :=
  match c with
  | IsPartOf_with_originating_simulation_id v => MkIsPartOf v (IsPartOf_receiving_entity_id x) (IsPartOf_relationship x) (IsPartOf_part_location x) (IsPartOf_named_location_id x)
  | IsPartOf_with_receiving_entity_id v => MkIsPartOf (IsPartOf_originating_simulation_id x) v (IsPartOf_relationship x) (IsPartOf_part_location x) (IsPartOf_named_location_id x)
  | IsPartOf_with_relationship v => MkIsPartOf (IsPartOf_originating_simulation_id x) (IsPartOf_receiving_entity_id x) v (IsPartOf_part_location x) (IsPartOf_named_location_id x)
  | IsPartOf_with_part_location v => MkIsPartOf (IsPartOf_originating_simulation_id x) (IsPartOf_receiving_entity_id x) (IsPartOf_relationship x) v (IsPartOf_named_location_id x)
  | IsPartOf_with_named_location_id v => MkIsPartOf (IsPartOf_originating_simulation_id x) (IsPartOf_receiving_entity_id x) (IsPartOf_relationship x) (IsPartOf_part_location x) v
  end.
(** the methods of ReceiverBuilder, dis-rs/src/common/receiver/builder.rs: lines 20, 25, 30, 35, 40, 45; the structure is dis-rs/src/common/receiver/model.rs:9 *)
Definition Receiver_do (x : Receiver) (c : Receiver_call) : Receiver :=
  match c with
  | Receiver_with_radio_reference_id v => MkReceiver v (Receiver_radio_number x) (Receiver_receiver_state x) (Receiver_received_power x) (Receiver_transmitter_radio_reference_id x) (Receiver_transmitter_radio_number x)
  | Receiver_with_radio_number v => MkReceiver (Receiver_radio_reference_id x) v (Receiver_receiver_state x) (Receiver_received_power x) (Receiver_transmitter_radio_reference_id x) (Receiver_transmitter_radio_number x)
  | Receiver_with_receiver_state v => MkReceiver (Receiver_radio_reference_id x) (Receiver_radio_number x) v (Receiver_received_power x) (Receiver_transmitter_radio_reference_id x) (Receiver_transmitter_radio_number x)
  | Receiver_with_received_power v => MkReceiver (Receiver_radio_reference_id x) (Receiver_radio_number x) (Receiver_receiver_state x) v (Receiver_transmitter_radio_reference_id x) (Receiver_transmitter_radio_number x)
  | Receiver_with_transmitter_radio_reference_id v => MkReceiver (Receiver_radio_reference_id x) (Receiver_radio_number x) (Receiver_receiver_state x) (Receiver_received_power x) v (Receiver_transmitter_radio_number x)
  | Receiver_with_transmitter_radio_number v => MkReceiver (Receiver_radio_reference_id x) (Receiver_radio_number x) (Receiver_receiver_state x) (Receiver_received_power x) (Receiver_transmitter_radio_reference_id x) v
  end.
(** the methods of RepairCompleteBuilder, dis-rs/src/common/repair_complete/builder.rs: lines 20, 25, 30; the structure is dis-rs/src/common/repair_complete/model.rs:12 *)
Definition RepairComplete_do (x : RepairComplete) (c : RepairComplete_call) : RepairComplete :=
  match c with
  | RepairComplete_with_receiving_id v => MkRepairComplete v (RepairComplete_repairing_id x) (RepairComplete_repair x)
  | RepairComplete_with_repairing_id v => MkRepairComplete (RepairComplete_receiving_id x) v (RepairComplete_repair x)
  | RepairComplete_with_repair v => MkRepairComplete (RepairComplete_receiving_id x) (RepairComplete_repairing_id x) v
  end.
(** the methods of RepairResponseBuilder, dis-rs/src/common/repair_response/builder.rs: lines 20, 25, 30; the structure is dis-rs/src/common/repair_response/model.rs:12 *)
Definition RepairResponse_do (x : RepairResponse) (c : RepairResponse_call) : RepairResponse :=
  match c with
  | RepairResponse_with_receiving_id v => MkRepairResponse v (RepairResponse_repairing_id x) (RepairResponse_repair_result x)
  | RepairResponse_with_repairing_id v => MkRepairResponse (RepairResponse_receiving_id x) v (RepairResponse_repair_result x)
  | RepairResponse_with_repair_result v => MkRepairResponse (RepairResponse_receiving_id x) (RepairResponse_repairing_id x) v
  end.
(** the methods of ResupplyCancelBuilder, dis-rs/src/common/resupply_cancel/builder.rs: lines 19, 24; the structure is dis-rs/src/common/resupply_cancel/model.rs:12 *)
Definition ResupplyCancel_do (x : ResupplyCancel) (c : ResupplyCancel_call) : ResupplyCancel :=
  match c with
  | ResupplyCancel_with_requesting_id v => MkResupplyCancel v (ResupplyCancel_servicing_id x)
  | ResupplyCancel_with_servicing_id v => MkResupplyCancel (ResupplyCancel_requesting_id x) v
  end.
(** the methods of ResupplyOfferBuilder, dis-rs/src/common/resupply_offer/builder.rs: lines 20, 25, 30, 35; the structure is dis-rs/src/common/resupply_offer/model.rs:13 *)
Definition ResupplyOffer_do (x : ResupplyOffer) (c : ResupplyOffer_call) : ResupplyOffer :=
  match c with
  | ResupplyOffer_with_requesting_id v => MkResupplyOffer v (ResupplyOffer_servicing_id x) (ResupplyOffer_supplies x)
  | ResupplyOffer_with_servicing_id v => MkResupplyOffer (ResupplyOffer_requesting_id x) v (ResupplyOffer_supplies x)
  | ResupplyOffer_with_supply v => MkResupplyOffer (ResupplyOffer_requesting_id x) (ResupplyOffer_servicing_id x) (ResupplyOffer_supplies x ++ [v])
  | ResupplyOffer_with_supplies v => MkResupplyOffer (ResupplyOffer_requesting_id x) (ResupplyOffer_servicing_id x) v
  end.
(** the methods of ResupplyReceivedBuilder, dis-rs/src/common/resupply_received/builder.rs: lines 20, 25, 30, 35; the structure is dis-rs/src/common/resupply_received/model.rs:13 *)
Definition ResupplyReceived_do (x : ResupplyReceived) (c : ResupplyReceived_call) : ResupplyReceived :=
  match c with
  | ResupplyReceived_with_requesting_id v => MkResupplyReceived v (ResupplyReceived_servicing_id x) (ResupplyReceived_supplies x)
  | ResupplyReceived_with_servicing_id v => MkResupplyReceived (ResupplyReceived_requesting_id x) v (ResupplyReceived_supplies x)
  | ResupplyReceived_with_supply v => MkResupplyReceived (ResupplyReceived_requesting_id x) (ResupplyReceived_servicing_id x) (ResupplyReceived_supplies x ++ [v])
  | ResupplyReceived_with_supplies v => MkResupplyReceived (ResupplyReceived_requesting_id x) (ResupplyReceived_servicing_id x) v
  end.
(** the methods of ServiceRequestBuilder, dis-rs/src/common/service_request/builder.rs: lines 21, 26, 31, 36, 41; the structure is dis-rs/src/common/service_request/model.rs:12 *)
Definition ServiceRequest_do (x : ServiceRequest) (c : ServiceRequest_call) : ServiceRequest :=
  match c with
  | ServiceRequest_with_requesting_id v => MkServiceRequest v (ServiceRequest_servicing_id x) (ServiceRequest_service_type_requested x) (ServiceRequest_supplies x)
  | ServiceRequest_with_servicing_id v => MkServiceRequest (ServiceRequest_requesting_id x) v (ServiceRequest_service_type_requested x) (ServiceRequest_supplies x)
  | ServiceRequest_with_service_type_requested v => MkServiceRequest (ServiceRequest_requesting_id x) (ServiceRequest_servicing_id x) v (ServiceRequest_supplies x)
  | ServiceRequest_with_supply v => MkServiceRequest (ServiceRequest_requesting_id x) (ServiceRequest_servicing_id x) (ServiceRequest_service_type_requested x) (ServiceRequest_supplies x ++ [v])
  | ServiceRequest_with_supplies v => MkServiceRequest (ServiceRequest_requesting_id x) (ServiceRequest_servicing_id x) (ServiceRequest_service_type_requested x) v
  end.
(** the methods of TransferOwnershipBuilder, dis-rs/src/common/transfer_ownership/builder.rs: lines 20, 25, 30, 35, 40, 45, 50; the structure is dis-rs/src/common/transfer_ownership/model.rs:13 *)
Definition TransferOwnership_do (x : TransferOwnership) (c : TransferOwnership_call) : TransferOwnership :=
  match c with
  | TransferOwnership_with_originating_id v => MkTransferOwnership v (TransferOwnership_receiving_id x) (TransferOwnership_request_id x) (TransferOwnership_required_reliability_service x) (TransferOwnership_transfer_type x) (TransferOwnership_transfer_entity_id x) (TransferOwnership_record_specification x)
  | TransferOwnership_with_receiving_id v => MkTransferOwnership (TransferOwnership_originating_id x) v (TransferOwnership_request_id x) (TransferOwnership_required_reliability_service x) (TransferOwnership_transfer_type x) (TransferOwnership_transfer_entity_id x) (TransferOwnership_record_specification x)
  | TransferOwnership_with_request_id v => MkTransferOwnership (TransferOwnership_originating_id x) (TransferOwnership_receiving_id x) v (TransferOwnership_required_reliability_service x) (TransferOwnership_transfer_type x) (TransferOwnership_transfer_entity_id x) (TransferOwnership_record_specification x)
  | TransferOwnership_with_required_reliability_service v => MkTransferOwnership (TransferOwnership_originating_id x) (TransferOwnership_receiving_id x) (TransferOwnership_request_id x) v (TransferOwnership_transfer_type x) (TransferOwnership_transfer_entity_id x) (TransferOwnership_record_specification x)
  | TransferOwnership_with_transfer_type v => MkTransferOwnership (TransferOwnership_originating_id x) (TransferOwnership_receiving_id x) (TransferOwnership_request_id x) (TransferOwnership_required_reliability_service x) v (TransferOwnership_transfer_entity_id x) (TransferOwnership_record_specification x)
  | TransferOwnership_with_transfer_entity_id v => MkTransferOwnership (TransferOwnership_originating_id x) (TransferOwnership_receiving_id x) (TransferOwnership_request_id x) (TransferOwnership_required_reliability_service x) (TransferOwnership_transfer_type x) v (TransferOwnership_record_specification x)
  | TransferOwnership_with_record_specification v => MkTransferOwnership (TransferOwnership_originating_id x) (TransferOwnership_receiving_id x) (TransferOwnership_request_id x) (TransferOwnership_required_reliability_service x) (TransferOwnership_transfer_type x) (TransferOwnership_transfer_entity_id x) v
  end.
(** the methods of BeamAntennaPattern, dis-rs/src/common/transmitter/model.rs: lines 276, 281, 286, 291, 296, 301, 306; the structure is dis-rs/src/common/transmitter/model.rs:247 *)
Definition BeamAntennaPattern_do (x : BeamAntennaPattern) (c : BeamAntennaPattern_call) : BeamAntennaPattern :=
  match c with
  | BeamAntennaPattern_with_beam_direction v => MkBAP v (bap_azimuth x) (bap_elevation x) (bap_reference x) (bap_ez x) (bap_ex x) (bap_phase x)
  | BeamAntennaPattern_with_azimuth_beamwidth v => MkBAP (bap_direction x) v (bap_elevation x) (bap_reference x) (bap_ez x) (bap_ex x) (bap_phase x)
  | BeamAntennaPattern_with_elevation_beamwidth v => MkBAP (bap_direction x) (bap_azimuth x) v (bap_reference x) (bap_ez x) (bap_ex x) (bap_phase x)
  | BeamAntennaPattern_with_reference_system v => MkBAP (bap_direction x) (bap_azimuth x) (bap_elevation x) v (bap_ez x) (bap_ex x) (bap_phase x)
  | BeamAntennaPattern_with_e_z v => MkBAP (bap_direction x) (bap_azimuth x) (bap_elevation x) (bap_reference x) v (bap_ex x) (bap_phase x)
  | BeamAntennaPattern_with_e_x v => MkBAP (bap_direction x) (bap_azimuth x) (bap_elevation x) (bap_reference x) (bap_ez x) v (bap_phase x)
  | BeamAntennaPattern_with_phase v => MkBAP (bap_direction x) (bap_azimuth x) (bap_elevation x) (bap_reference x) (bap_ez x) (bap_ex x) v
  end.
(** the methods of IsGroupOfBuilder, dis-rs/src/common/is_group_of/builder.rs: lines 20, 25, 30, 35, 40; the structure is dis-rs/src/common/is_group_of/model.rs:17 *)
Definition IsGroupOf_do (x : IsGroupOf) (c : IsGroupOf_call) : IsGroupOf :=
  match c with
  | IsGroupOf_with_group_id v => MkIsGroupOf v (IsGroupOf_category x) (IsGroupOf_latitude x) (IsGroupOf_longitude x) (IsGroupOf_descriptions x)
  | IsGroupOf_with_grouped_entity_category v => MkIsGroupOf (IsGroupOf_group_id x) v (IsGroupOf_latitude x) (IsGroupOf_longitude x) (IsGroupOf_descriptions x)
  | IsGroupOf_with_group_reference_point v1 v2 => MkIsGroupOf (IsGroupOf_group_id x) (IsGroupOf_category x) v1 v2 (IsGroupOf_descriptions x)
  | IsGroupOf_with_description v => MkIsGroupOf (IsGroupOf_group_id x) (IsGroupOf_category x) (IsGroupOf_latitude x) (IsGroupOf_longitude x) (IsGroupOf_descriptions x ++ [v])
  | IsGroupOf_with_descriptions v => MkIsGroupOf (IsGroupOf_group_id x) (IsGroupOf_category x) (IsGroupOf_latitude x) (IsGroupOf_longitude x) v
  end.
(** the methods of ModulationType, dis-rs/src/common/transmitter/model.rs: lines 95, 100, 105; the structure is dis-rs/src/common/transmitter/model.rs:74 *)
Definition ModulationType_do (x : ModulationType) (c : ModulationType_call) : ModulationType :=
  match c with
  | ModulationType_with_spread_spectrum v => MkModulationType v (mt_major x) (mt_system x)
  | ModulationType_with_major_modulation v => MkModulationType (mt_spread x) v (mt_system x)
  | ModulationType_with_radio_system v => MkModulationType (mt_spread x) (mt_major x) v
  end.
(** the methods of SpreadSpectrum, dis-rs/src/common/transmitter/model.rs: lines 141, 146, 151; the structure is dis-rs/src/common/transmitter/model.rs:112 *)
Definition SpreadSpectrum_do (x : SpreadSpectrum) (c : SpreadSpectrum_call) : SpreadSpectrum :=
  match c with
  | SpreadSpectrum_with_frequency_hopping => MkSpread true (ss_noise x) (ss_time x)
  | SpreadSpectrum_with_pseudo_noise => MkSpread (ss_hopping x) true (ss_time x)
  | SpreadSpectrum_with_time_hopping => MkSpread (ss_hopping x) (ss_noise x) true
  end.
(** the methods of TransmitterBuilder, dis-rs/src/common/transmitter/builder.rs: lines 20, 25, 30, 35, 40, 45, 50, 55, 60, 65, 69, 74, 79, 84, 88, 93, 98, 103; the structure is dis-rs/src/common/transmitter/model.rs:12 *)
Definition Transmitter_do (x : Transmitter) (c : Transmitter_call) : Transmitter :=
  match c with
  | Transmitter_with_radio_reference_id v => MkTransmitter v (Transmitter_radio_number x) (Transmitter_radio_type x) (Transmitter_transmit_state x) (Transmitter_input_source x) (Transmitter_antenna_location x) (Transmitter_relative_antenna_location x) (Transmitter_antenna_pattern_type x) (Transmitter_frequency x) (Transmitter_bandwidth x) (Transmitter_power x) (Transmitter_modulation_type x) (Transmitter_crypto_system x) (Transmitter_crypto_key_id x) (Transmitter_modulation_parameters x) (Transmitter_antenna_pattern x) (Transmitter_vtps x)
  | Transmitter_with_radio_number v => MkTransmitter (Transmitter_radio_reference_id x) v (Transmitter_radio_type x) (Transmitter_transmit_state x) (Transmitter_input_source x) (Transmitter_antenna_location x) (Transmitter_relative_antenna_location x) (Transmitter_antenna_pattern_type x) (Transmitter_frequency x) (Transmitter_bandwidth x) (Transmitter_power x) (Transmitter_modulation_type x) (Transmitter_crypto_system x) (Transmitter_crypto_key_id x) (Transmitter_modulation_parameters x) (Transmitter_antenna_pattern x) (Transmitter_vtps x)
  | Transmitter_with_radio_type v => MkTransmitter (Transmitter_radio_reference_id x) (Transmitter_radio_number x) v (Transmitter_transmit_state x) (Transmitter_input_source x) (Transmitter_antenna_location x) (Transmitter_relative_antenna_location x) (Transmitter_antenna_pattern_type x) (Transmitter_frequency x) (Transmitter_bandwidth x) (Transmitter_power x) (Transmitter_modulation_type x) (Transmitter_crypto_system x) (Transmitter_crypto_key_id x) (Transmitter_modulation_parameters x) (Transmitter_antenna_pattern x) (Transmitter_vtps x)
  | Transmitter_with_transmit_state v => MkTransmitter (Transmitter_radio_reference_id x) (Transmitter_radio_number x) (Transmitter_radio_type x) v (Transmitter_input_source x) (Transmitter_antenna_location x) (Transmitter_relative_antenna_location x) (Transmitter_antenna_pattern_type x) (Transmitter_frequency x) (Transmitter_bandwidth x) (Transmitter_power x) (Transmitter_modulation_type x) (Transmitter_crypto_system x) (Transmitter_crypto_key_id x) (Transmitter_modulation_parameters x) (Transmitter_antenna_pattern x) (Transmitter_vtps x)
  | Transmitter_with_input_source v => MkTransmitter (Transmitter_radio_reference_id x) (Transmitter_radio_number x) (Transmitter_radio_type x) (Transmitter_transmit_state x) v (Transmitter_antenna_location x) (Transmitter_relative_antenna_location x) (Transmitter_antenna_pattern_type x) (Transmitter_frequency x) (Transmitter_bandwidth x) (Transmitter_power x) (Transmitter_modulation_type x) (Transmitter_crypto_system x) (Transmitter_crypto_key_id x) (Transmitter_modulation_parameters x) (Transmitter_antenna_pattern x) (Transmitter_vtps x)
  | Transmitter_with_antenna_location v => MkTransmitter (Transmitter_radio_reference_id x) (Transmitter_radio_number x) (Transmitter_radio_type x) (Transmitter_transmit_state x) (Transmitter_input_source x) v (Transmitter_relative_antenna_location x) (Transmitter_antenna_pattern_type x) (Transmitter_frequency x) (Transmitter_bandwidth x) (Transmitter_power x) (Transmitter_modulation_type x) (Transmitter_crypto_system x) (Transmitter_crypto_key_id x) (Transmitter_modulation_parameters x) (Transmitter_antenna_pattern x) (Transmitter_vtps x)
  | Transmitter_with_relative_antenna_location v => MkTransmitter (Transmitter_radio_reference_id x) (Transmitter_radio_number x) (Transmitter_radio_type x) (Transmitter_transmit_state x) (Transmitter_input_source x) (Transmitter_antenna_location x) v (Transmitter_antenna_pattern_type x) (Transmitter_frequency x) (Transmitter_bandwidth x) (Transmitter_power x) (Transmitter_modulation_type x) (Transmitter_crypto_system x) (Transmitter_crypto_key_id x) (Transmitter_modulation_parameters x) (Transmitter_antenna_pattern x) (Transmitter_vtps x)
  | Transmitter_with_antenna_pattern_type v => MkTransmitter (Transmitter_radio_reference_id x) (Transmitter_radio_number x) (Transmitter_radio_type x) (Transmitter_transmit_state x) (Transmitter_input_source x) (Transmitter_antenna_location x) (Transmitter_relative_antenna_location x) v (Transmitter_frequency x) (Transmitter_bandwidth x) (Transmitter_power x) (Transmitter_modulation_type x) (Transmitter_crypto_system x) (Transmitter_crypto_key_id x) (Transmitter_modulation_parameters x) (Transmitter_antenna_pattern x) (Transmitter_vtps x)
  | Transmitter_with_frequency v => MkTransmitter (Transmitter_radio_reference_id x) (Transmitter_radio_number x) (Transmitter_radio_type x) (Transmitter_transmit_state x) (Transmitter_input_source x) (Transmitter_antenna_location x) (Transmitter_relative_antenna_location x) (Transmitter_antenna_pattern_type x) v (Transmitter_bandwidth x) (Transmitter_power x) (Transmitter_modulation_type x) (Transmitter_crypto_system x) (Transmitter_crypto_key_id x) (Transmitter_modulation_parameters x) (Transmitter_antenna_pattern x) (Transmitter_vtps x)
  | Transmitter_with_transmit_frequency_bandwidth v => MkTransmitter (Transmitter_radio_reference_id x) (Transmitter_radio_number x) (Transmitter_radio_type x) (Transmitter_transmit_state x) (Transmitter_input_source x) (Transmitter_antenna_location x) (Transmitter_relative_antenna_location x) (Transmitter_antenna_pattern_type x) (Transmitter_frequency x) v (Transmitter_power x) (Transmitter_modulation_type x) (Transmitter_crypto_system x) (Transmitter_crypto_key_id x) (Transmitter_modulation_parameters x) (Transmitter_antenna_pattern x) (Transmitter_vtps x)
  | Transmitter_with_power v => MkTransmitter (Transmitter_radio_reference_id x) (Transmitter_radio_number x) (Transmitter_radio_type x) (Transmitter_transmit_state x) (Transmitter_input_source x) (Transmitter_antenna_location x) (Transmitter_relative_antenna_location x) (Transmitter_antenna_pattern_type x) (Transmitter_frequency x) (Transmitter_bandwidth x) v (Transmitter_modulation_type x) (Transmitter_crypto_system x) (Transmitter_crypto_key_id x) (Transmitter_modulation_parameters x) (Transmitter_antenna_pattern x) (Transmitter_vtps x)
  | Transmitter_with_modulation_type v => MkTransmitter (Transmitter_radio_reference_id x) (Transmitter_radio_number x) (Transmitter_radio_type x) (Transmitter_transmit_state x) (Transmitter_input_source x) (Transmitter_antenna_location x) (Transmitter_relative_antenna_location x) (Transmitter_antenna_pattern_type x) (Transmitter_frequency x) (Transmitter_bandwidth x) (Transmitter_power x) v (Transmitter_crypto_system x) (Transmitter_crypto_key_id x) (Transmitter_modulation_parameters x) (Transmitter_antenna_pattern x) (Transmitter_vtps x)
  | Transmitter_with_crypto_system v => MkTransmitter (Transmitter_radio_reference_id x) (Transmitter_radio_number x) (Transmitter_radio_type x) (Transmitter_transmit_state x) (Transmitter_input_source x) (Transmitter_antenna_location x) (Transmitter_relative_antenna_location x) (Transmitter_antenna_pattern_type x) (Transmitter_frequency x) (Transmitter_bandwidth x) (Transmitter_power x) (Transmitter_modulation_type x) v (Transmitter_crypto_key_id x) (Transmitter_modulation_parameters x) (Transmitter_antenna_pattern x) (Transmitter_vtps x)
  | Transmitter_with_crypto_key_id v => MkTransmitter (Transmitter_radio_reference_id x) (Transmitter_radio_number x) (Transmitter_radio_type x) (Transmitter_transmit_state x) (Transmitter_input_source x) (Transmitter_antenna_location x) (Transmitter_relative_antenna_location x) (Transmitter_antenna_pattern_type x) (Transmitter_frequency x) (Transmitter_bandwidth x) (Transmitter_power x) (Transmitter_modulation_type x) (Transmitter_crypto_system x) v (Transmitter_modulation_parameters x) (Transmitter_antenna_pattern x) (Transmitter_vtps x)
  | Transmitter_with_modulation_parameters v => MkTransmitter (Transmitter_radio_reference_id x) (Transmitter_radio_number x) (Transmitter_radio_type x) (Transmitter_transmit_state x) (Transmitter_input_source x) (Transmitter_antenna_location x) (Transmitter_relative_antenna_location x) (Transmitter_antenna_pattern_type x) (Transmitter_frequency x) (Transmitter_bandwidth x) (Transmitter_power x) (Transmitter_modulation_type x) (Transmitter_crypto_system x) (Transmitter_crypto_key_id x) (Some v) (Transmitter_antenna_pattern x) (Transmitter_vtps x)
  | Transmitter_with_antenna_pattern v => MkTransmitter (Transmitter_radio_reference_id x) (Transmitter_radio_number x) (Transmitter_radio_type x) (Transmitter_transmit_state x) (Transmitter_input_source x) (Transmitter_antenna_location x) (Transmitter_relative_antenna_location x) (Transmitter_antenna_pattern_type x) (Transmitter_frequency x) (Transmitter_bandwidth x) (Transmitter_power x) (Transmitter_modulation_type x) (Transmitter_crypto_system x) (Transmitter_crypto_key_id x) (Transmitter_modulation_parameters x) (Some v) (Transmitter_vtps x)
  | Transmitter_with_variable_transmitter_parameters v => MkTransmitter (Transmitter_radio_reference_id x) (Transmitter_radio_number x) (Transmitter_radio_type x) (Transmitter_transmit_state x) (Transmitter_input_source x) (Transmitter_antenna_location x) (Transmitter_relative_antenna_location x) (Transmitter_antenna_pattern_type x) (Transmitter_frequency x) (Transmitter_bandwidth x) (Transmitter_power x) (Transmitter_modulation_type x) (Transmitter_crypto_system x) (Transmitter_crypto_key_id x) (Transmitter_modulation_parameters x) (Transmitter_antenna_pattern x) v
  | Transmitter_with_variable_transmitter_parameter v => MkTransmitter (Transmitter_radio_reference_id x) (Transmitter_radio_number x) (Transmitter_radio_type x) (Transmitter_transmit_state x) (Transmitter_input_source x) (Transmitter_antenna_location x) (Transmitter_relative_antenna_location x) (Transmitter_antenna_pattern_type x) (Transmitter_frequency x) (Transmitter_bandwidth x) (Transmitter_power x) (Transmitter_modulation_type x) (Transmitter_crypto_system x) (Transmitter_crypto_key_id x) (Transmitter_modulation_parameters x) (Transmitter_antenna_pattern x) (Transmitter_vtps x ++ [v])
  end.
(** the methods of VariableTransmitterParameter, dis-rs/src/common/transmitter/model.rs: lines 332, 337; the structure is dis-rs/src/common/transmitter/model.rs:313 *)
Definition VTP_do (x : VTP) (c : VTP_call) : VTP :=
  match c with
  | VTP_with_record_type v => MkVTP v (vtp_fields x)
  | VTP_with_fields v => MkVTP (vtp_type x) v
  end.
(** the methods of AcknowledgeBuilder, dis-rs/src/common/acknowledge/builder.rs: lines 20, 25, 30, 35, 40; the structure is dis-rs/src/common/acknowledge/model.rs:12 *)
Definition Acknowledge_do (x : Acknowledge) (c : Acknowledge_call) : Acknowledge :=
  match c with
  | Acknowledge_with_origination_id v => MkAcknowledge v (Acknowledge_receiving_id x) (Acknowledge_acknowledge_flag x) (Acknowledge_response_flag x) (Acknowledge_request_id x)
  | Acknowledge_with_receiving_id v => MkAcknowledge (Acknowledge_originating_id x) v (Acknowledge_acknowledge_flag x) (Acknowledge_response_flag x) (Acknowledge_request_id x)
  | Acknowledge_with_acknowledge_flag v => MkAcknowledge (Acknowledge_originating_id x) (Acknowledge_receiving_id x) v (Acknowledge_response_flag x) (Acknowledge_request_id x)
  | Acknowledge_with_response_flag v => MkAcknowledge (Acknowledge_originating_id x) (Acknowledge_receiving_id x) (Acknowledge_acknowledge_flag x) v (Acknowledge_request_id x)
  | Acknowledge_with_request_id v => MkAcknowledge (Acknowledge_originating_id x) (Acknowledge_receiving_id x) (Acknowledge_acknowledge_flag x) (Acknowledge_response_flag x) v
  end.
(** the methods of AcknowledgeRBuilder, dis-rs/src/common/acknowledge_r/builder.rs: lines 20, 25, 30, 35, 40; the structure is dis-rs/src/common/acknowledge_r/model.rs:12 *)
Definition AcknowledgeR_do (x : AcknowledgeR) (c : AcknowledgeR_call) : AcknowledgeR :=
  match c with
  | AcknowledgeR_with_origination_id v => MkAcknowledgeR v (AcknowledgeR_receiving_id x) (AcknowledgeR_acknowledge_flag x) (AcknowledgeR_response_flag x) (AcknowledgeR_request_id x)
  | AcknowledgeR_with_receiving_id v => MkAcknowledgeR (AcknowledgeR_originating_id x) v (AcknowledgeR_acknowledge_flag x) (AcknowledgeR_response_flag x) (AcknowledgeR_request_id x)
  | AcknowledgeR_with_acknowledge_flag v => MkAcknowledgeR (AcknowledgeR_originating_id x) (AcknowledgeR_receiving_id x) v (AcknowledgeR_response_flag x) (AcknowledgeR_request_id x)
  | AcknowledgeR_with_response_flag v => MkAcknowledgeR (AcknowledgeR_originating_id x) (AcknowledgeR_receiving_id x) (AcknowledgeR_acknowledge_flag x) v (AcknowledgeR_request_id x)
  | AcknowledgeR_with_request_id v => MkAcknowledgeR (AcknowledgeR_originating_id x) (AcknowledgeR_receiving_id x) (AcknowledgeR_acknowledge_flag x) (AcknowledgeR_response_flag x) v
  end.
(** the methods of ActionRequestBuilder, dis-rs/src/common/action_request/builder.rs: lines 20, 25, 30, 35, 40, 45; the structure is dis-rs/src/common/action_request/model.rs:14 *)
Definition ActionRequest_do (x : ActionRequest) (c : ActionRequest_call) : ActionRequest :=
  match c with
  | ActionRequest_with_origination_id v => MkActionRequest v (ActionRequest_receiving_id x) (ActionRequest_request_id x) (ActionRequest_action_id x) (ActionRequest_fixed_datum_records x) (ActionRequest_variable_datum_records x)
  | ActionRequest_with_receiving_id v => MkActionRequest (ActionRequest_originating_id x) v (ActionRequest_request_id x) (ActionRequest_action_id x) (ActionRequest_fixed_datum_records x) (ActionRequest_variable_datum_records x)
  | ActionRequest_with_request_id v => MkActionRequest (ActionRequest_originating_id x) (ActionRequest_receiving_id x) v (ActionRequest_action_id x) (ActionRequest_fixed_datum_records x) (ActionRequest_variable_datum_records x)
  | ActionRequest_with_action_id v => MkActionRequest (ActionRequest_originating_id x) (ActionRequest_receiving_id x) (ActionRequest_request_id x) v (ActionRequest_fixed_datum_records x) (ActionRequest_variable_datum_records x)
  | ActionRequest_with_fixed_datums v => MkActionRequest (ActionRequest_originating_id x) (ActionRequest_receiving_id x) (ActionRequest_request_id x) (ActionRequest_action_id x) v (ActionRequest_variable_datum_records x)
  | ActionRequest_with_variable_datums v => MkActionRequest (ActionRequest_originating_id x) (ActionRequest_receiving_id x) (ActionRequest_request_id x) (ActionRequest_action_id x) (ActionRequest_fixed_datum_records x) v
  end.
(** the methods of ActionRequestRBuilder, dis-rs/src/common/action_request_r/builder.rs: lines 20, 25, 30, 35, 40, 45, 50; the structure is dis-rs/src/common/action_request_r/model.rs:14 *)
Definition ActionRequestR_do (x : ActionRequestR) (c : ActionRequestR_call) : ActionRequestR :=
  match c with
  | ActionRequestR_with_origination_id v => MkActionRequestR v (ActionRequestR_receiving_id x) (ActionRequestR_required_reliability_service x) (ActionRequestR_request_id x) (ActionRequestR_action_id x) (ActionRequestR_fixed_datum_records x) (ActionRequestR_variable_datum_records x)
  | ActionRequestR_with_receiving_id v => MkActionRequestR (ActionRequestR_originating_id x) v (ActionRequestR_required_reliability_service x) (ActionRequestR_request_id x) (ActionRequestR_action_id x) (ActionRequestR_fixed_datum_records x) (ActionRequestR_variable_datum_records x)
  | ActionRequestR_with_required_reliability_service v => MkActionRequestR (ActionRequestR_originating_id x) (ActionRequestR_receiving_id x) v (ActionRequestR_request_id x) (ActionRequestR_action_id x) (ActionRequestR_fixed_datum_records x) (ActionRequestR_variable_datum_records x)
  | ActionRequestR_with_request_id v => MkActionRequestR (ActionRequestR_originating_id x) (ActionRequestR_receiving_id x) (ActionRequestR_required_reliability_service x) v (ActionRequestR_action_id x) (ActionRequestR_fixed_datum_records x) (ActionRequestR_variable_datum_records x)
  | ActionRequestR_with_action_id v => MkActionRequestR (ActionRequestR_originating_id x) (ActionRequestR_receiving_id x) (ActionRequestR_required_reliability_service x) (ActionRequestR_request_id x) v (ActionRequestR_fixed_datum_records x) (ActionRequestR_variable_datum_records x)
  | ActionRequestR_with_fixed_datums v => MkActionRequestR (ActionRequestR_originating_id x) (ActionRequestR_receiving_id x) (ActionRequestR_required_reliability_service x) (ActionRequestR_request_id x) (ActionRequestR_action_id x) v (ActionRequestR_variable_datum_records x)
  | ActionRequestR_with_variable_datums v => MkActionRequestR (ActionRequestR_originating_id x) (ActionRequestR_receiving_id x) (ActionRequestR_required_reliability_service x) (ActionRequestR_request_id x) (ActionRequestR_action_id x) (ActionRequestR_fixed_datum_records x) v
  end.
(** the methods of ActionResponseBuilder, dis-rs/src/common/action_response/builder.rs: lines 20, 25, 30, 35, 40, 45; the structure is dis-rs/src/common/action_response/model.rs:11 *)
Definition ActionResponse_do (x : ActionResponse) (c : ActionResponse_call) : ActionResponse :=
  match c with
  | ActionResponse_with_origination_id v => MkActionResponse v (ActionResponse_receiving_id x) (ActionResponse_request_id x) (ActionResponse_request_status x) (ActionResponse_fixed_datum_records x) (ActionResponse_variable_datum_records x)
  | ActionResponse_with_receiving_id v => MkActionResponse (ActionResponse_originating_id x) v (ActionResponse_request_id x) (ActionResponse_request_status x) (ActionResponse_fixed_datum_records x) (ActionResponse_variable_datum_records x)
  | ActionResponse_with_request_id v => MkActionResponse (ActionResponse_originating_id x) (ActionResponse_receiving_id x) v (ActionResponse_request_status x) (ActionResponse_fixed_datum_records x) (ActionResponse_variable_datum_records x)
  | ActionResponse_with_request_status v => MkActionResponse (ActionResponse_originating_id x) (ActionResponse_receiving_id x) (ActionResponse_request_id x) v (ActionResponse_fixed_datum_records x) (ActionResponse_variable_datum_records x)
  | ActionResponse_with_fixed_datums v => MkActionResponse (ActionResponse_originating_id x) (ActionResponse_receiving_id x) (ActionResponse_request_id x) (ActionResponse_request_status x) v (ActionResponse_variable_datum_records x)
  | ActionResponse_with_variable_datums v => MkActionResponse (ActionResponse_originating_id x) (ActionResponse_receiving_id x) (ActionResponse_request_id x) (ActionResponse_request_status x) (ActionResponse_fixed_datum_records x) v
  end.
(** the methods of ActionResponseRBuilder, dis-rs/src/common/action_response_r/builder.rs: lines 20, 25, 30, 35, 40, 45; the structure is dis-rs/src/common/action_response_r/model.rs:14 *)
Definition ActionResponseR_do (x : ActionResponseR) (c : ActionResponseR_call) : ActionResponseR :=
  match c with
  | ActionResponseR_with_origination_id v => MkActionResponseR v (ActionResponseR_receiving_id x) (ActionResponseR_request_id x) (ActionResponseR_request_status x) (ActionResponseR_fixed_datum_records x) (ActionResponseR_variable_datum_records x)
  | ActionResponseR_with_receiving_id v => MkActionResponseR (ActionResponseR_originating_id x) v (ActionResponseR_request_id x) (ActionResponseR_request_status x) (ActionResponseR_fixed_datum_records x) (ActionResponseR_variable_datum_records x)
  | ActionResponseR_with_request_id v => MkActionResponseR (ActionResponseR_originating_id x) (ActionResponseR_receiving_id x) v (ActionResponseR_request_status x) (ActionResponseR_fixed_datum_records x) (ActionResponseR_variable_datum_records x)
  | ActionResponseR_with_request_status v => MkActionResponseR (ActionResponseR_originating_id x) (ActionResponseR_receiving_id x) (ActionResponseR_request_id x) v (ActionResponseR_fixed_datum_records x) (ActionResponseR_variable_datum_records x)
  | ActionResponseR_with_fixed_datums v => MkActionResponseR (ActionResponseR_originating_id x) (ActionResponseR_receiving_id x) (ActionResponseR_request_id x) (ActionResponseR_request_status x) v (ActionResponseR_variable_datum_records x)
  | ActionResponseR_with_variable_datums v => MkActionResponseR (ActionResponseR_originating_id x) (ActionResponseR_receiving_id x) (ActionResponseR_request_id x) (ActionResponseR_request_status x) (ActionResponseR_fixed_datum_records x) v
  end.
(** the methods of CommentBuilder, dis-rs/src/common/comment/builder.rs: lines 19, 24, 29; the structure is dis-rs/src/common/comment/model.rs:13 *)
Definition Comment_do (x : Comment) (c : Comment_call) : Comment :=
  match c with
  | Comment_with_origination_id v => MkComment v (Comment_receiving_id x) (Comment_variable_datum_records x)
  | Comment_with_receiving_id v => MkComment (Comment_originating_id x) v (Comment_variable_datum_records x)
  | Comment_with_variable_datums v => MkComment (Comment_originating_id x) (Comment_receiving_id x) v
  end.
(** the methods of CommentRBuilder, dis-rs/src/common/comment_r/builder.rs: lines 19, 24, 29; the structure is dis-rs/src/common/comment_r/model.rs:13 *)
Definition CommentR_do (x : CommentR) (c : CommentR_call) : CommentR :=
  match c with
  | CommentR_with_origination_id v => MkCommentR v (CommentR_receiving_id x) (CommentR_variable_datum_records x)
  | CommentR_with_receiving_id v => MkCommentR (CommentR_originating_id x) v (CommentR_variable_datum_records x)
  | CommentR_with_variable_datums v => MkCommentR (CommentR_originating_id x) (CommentR_receiving_id x) v
  end.
(** the methods of CreateEntityBuilder, dis-rs/src/common/create_entity/builder.rs: lines 20, 25, 30; the structure is dis-rs/src/common/create_entity/model.rs:12 *)
Definition CreateEntity_do (x : CreateEntity) (c : CreateEntity_call) : CreateEntity :=
  match c with
  | CreateEntity_with_origination_id v => MkCreateEntity v (CreateEntity_receiving_id x) (CreateEntity_request_id x)
  | CreateEntity_with_receiving_id v => MkCreateEntity (CreateEntity_originating_id x) v (CreateEntity_request_id x)
  | CreateEntity_with_request_id v => MkCreateEntity (CreateEntity_originating_id x) (CreateEntity_receiving_id x) v
  end.
(** the methods of CreateEntityRBuilder, dis-rs/src/common/create_entity_r/builder.rs: lines 21, 26, 31, 36; the structure is dis-rs/src/common/create_entity_r/model.rs:12 *)
Definition CreateEntityR_do (x : CreateEntityR) (c : CreateEntityR_call) : CreateEntityR :=
  match c with
  | CreateEntityR_with_origination_id v => MkCreateEntityR v (CreateEntityR_receiving_id x) (CreateEntityR_required_reliability_service x) (CreateEntityR_request_id x)
  | CreateEntityR_with_receiving_id v => MkCreateEntityR (CreateEntityR_originating_id x) v (CreateEntityR_required_reliability_service x) (CreateEntityR_request_id x)
  | CreateEntityR_with_required_reliability_service v => MkCreateEntityR (CreateEntityR_originating_id x) (CreateEntityR_receiving_id x) v (CreateEntityR_request_id x)
  | CreateEntityR_with_request_id v => MkCreateEntityR (CreateEntityR_originating_id x) (CreateEntityR_receiving_id x) (CreateEntityR_required_reliability_service x) v
  end.
(** the methods of DataBuilder, dis-rs/src/common/data/builder.rs: lines 19, 24, 29, 34, 39; the structure is dis-rs/src/common/data/model.rs:10 *)
Definition Data_do (x : Data) (c : Data_call) : Data :=
  match c with
  | Data_with_origination_id v => MkData v (Data_receiving_id x) (Data_request_id x) (Data_fixed_datum_records x) (Data_variable_datum_records x)
  | Data_with_receiving_id v => MkData (Data_originating_id x) v (Data_request_id x) (Data_fixed_datum_records x) (Data_variable_datum_records x)
  | Data_with_request_id v => MkData (Data_originating_id x) (Data_receiving_id x) v (Data_fixed_datum_records x) (Data_variable_datum_records x)
  | Data_with_fixed_datums v => MkData (Data_originating_id x) (Data_receiving_id x) (Data_request_id x) v (Data_variable_datum_records x)
  | Data_with_variable_datums v => MkData (Data_originating_id x) (Data_receiving_id x) (Data_request_id x) (Data_fixed_datum_records x) v
  end.
(** the methods of DataQueryBuilder, dis-rs/src/common/data_query/builder.rs: lines 20, 25, 30, 35, 40, 45; the structure is dis-rs/src/common/data_query/model.rs:10 *)
Definition DataQuery_do (x : DataQuery) (c : DataQuery_call) : DataQuery :=
  match c with
  | DataQuery_with_origination_id v => MkDataQuery v (DataQuery_receiving_id x) (DataQuery_request_id x) (DataQuery_time_interval x) (DataQuery_fixed_datum_records x) (DataQuery_variable_datum_records x)
  | DataQuery_with_receiving_id v => MkDataQuery (DataQuery_originating_id x) v (DataQuery_request_id x) (DataQuery_time_interval x) (DataQuery_fixed_datum_records x) (DataQuery_variable_datum_records x)
  | DataQuery_with_request_id v => MkDataQuery (DataQuery_originating_id x) (DataQuery_receiving_id x) v (DataQuery_time_interval x) (DataQuery_fixed_datum_records x) (DataQuery_variable_datum_records x)
  | DataQuery_with_time_interval v => MkDataQuery (DataQuery_originating_id x) (DataQuery_receiving_id x) (DataQuery_request_id x) v (DataQuery_fixed_datum_records x) (DataQuery_variable_datum_records x)
  | DataQuery_with_fixed_datums v => MkDataQuery (DataQuery_originating_id x) (DataQuery_receiving_id x) (DataQuery_request_id x) (DataQuery_time_interval x) v (DataQuery_variable_datum_records x)
  | DataQuery_with_variable_datums v => MkDataQuery (DataQuery_originating_id x) (DataQuery_receiving_id x) (DataQuery_request_id x) (DataQuery_time_interval x) (DataQuery_fixed_datum_records x) v
  end.
(** the methods of DataQueryRBuilder, dis-rs/src/common/data_query_r/builder.rs: lines 20, 25, 30, 35, 40, 45, 50; the structure is dis-rs/src/common/data_query_r/model.rs:13 *)
Definition DataQueryR_do (x : DataQueryR) (c : DataQueryR_call) : DataQueryR :=
  match c with
  | DataQueryR_with_origination_id v => MkDataQueryR v (DataQueryR_receiving_id x) (DataQueryR_required_reliability_service x) (DataQueryR_request_id x) (DataQueryR_time_interval x) (DataQueryR_fixed_datum_records x) (DataQueryR_variable_datum_records x)
  | DataQueryR_with_receiving_id v => MkDataQueryR (DataQueryR_originating_id x) v (DataQueryR_required_reliability_service x) (DataQueryR_request_id x) (DataQueryR_time_interval x) (DataQueryR_fixed_datum_records x) (DataQueryR_variable_datum_records x)
  | DataQueryR_with_required_reliability_service v => MkDataQueryR (DataQueryR_originating_id x) (DataQueryR_receiving_id x) v (DataQueryR_request_id x) (DataQueryR_time_interval x) (DataQueryR_fixed_datum_records x) (DataQueryR_variable_datum_records x)
  | DataQueryR_with_request_id v => MkDataQueryR (DataQueryR_originating_id x) (DataQueryR_receiving_id x) (DataQueryR_required_reliability_service x) v (DataQueryR_time_interval x) (DataQueryR_fixed_datum_records x) (DataQueryR_variable_datum_records x)
  | DataQueryR_with_time_interval v => MkDataQueryR (DataQueryR_originating_id x) (DataQueryR_receiving_id x) (DataQueryR_required_reliability_service x) (DataQueryR_request_id x) v (DataQueryR_fixed_datum_records x) (DataQueryR_variable_datum_records x)
  | DataQueryR_with_fixed_datums v => MkDataQueryR (DataQueryR_originating_id x) (DataQueryR_receiving_id x) (DataQueryR_required_reliability_service x) (DataQueryR_request_id x) (DataQueryR_time_interval x) v (DataQueryR_variable_datum_records x)
  | DataQueryR_with_variable_datums v => MkDataQueryR (DataQueryR_originating_id x) (DataQueryR_receiving_id x) (DataQueryR_required_reliability_service x) (DataQueryR_request_id x) (DataQueryR_time_interval x) (DataQueryR_fixed_datum_records x) v
  end.
(** the methods of DataRBuilder, dis-rs/src/common/data_r/builder.rs: lines 20, 25, 30, 35, 40, 45; the structure is dis-rs/src/common/data_r/model.rs:13 *)
Definition DataR_do (x : DataR) (c : DataR_call) : DataR :=
  match c with
  | DataR_with_origination_id v => MkDataR v (DataR_receiving_id x) (DataR_request_id x) (DataR_required_reliability_service x) (DataR_fixed_datum_records x) (DataR_variable_datum_records x)
  | DataR_with_receiving_id v => MkDataR (DataR_originating_id x) v (DataR_request_id x) (DataR_required_reliability_service x) (DataR_fixed_datum_records x) (DataR_variable_datum_records x)
  | DataR_with_request_id v => MkDataR (DataR_originating_id x) (DataR_receiving_id x) v (DataR_required_reliability_service x) (DataR_fixed_datum_records x) (DataR_variable_datum_records x)
  | DataR_with_required_reliability_service v => MkDataR (DataR_originating_id x) (DataR_receiving_id x) (DataR_request_id x) v (DataR_fixed_datum_records x) (DataR_variable_datum_records x)
  | DataR_with_fixed_datums v => MkDataR (DataR_originating_id x) (DataR_receiving_id x) (DataR_request_id x) (DataR_required_reliability_service x) v (DataR_variable_datum_records x)
  | DataR_with_variable_datums v => MkDataR (DataR_originating_id x) (DataR_receiving_id x) (DataR_request_id x) (DataR_required_reliability_service x) (DataR_fixed_datum_records x) v
  end.
(** the methods of EventReportBuilder, dis-rs/src/common/event_report/builder.rs: lines 20, 25, 30, 35, 40; the structure is dis-rs/src/common/event_report/model.rs:16 *)
Definition EventReport_do (x : EventReport) (c : EventReport_call) : EventReport :=
  match c with
  | EventReport_with_origination_id v => MkEventReport v (EventReport_receiving_id x) (EventReport_event_type x) (EventReport_fixed_datum_records x) (EventReport_variable_datum_records x)
  | EventReport_with_receiving_id v => MkEventReport (EventReport_originating_id x) v (EventReport_event_type x) (EventReport_fixed_datum_records x) (EventReport_variable_datum_records x)
  | EventReport_with_event_type v => MkEventReport (EventReport_originating_id x) (EventReport_receiving_id x) v (EventReport_fixed_datum_records x) (EventReport_variable_datum_records x)
  | EventReport_with_fixed_datums v => MkEventReport (EventReport_originating_id x) (EventReport_receiving_id x) (EventReport_event_type x) v (EventReport_variable_datum_records x)
  | EventReport_with_variable_datums v => MkEventReport (EventReport_originating_id x) (EventReport_receiving_id x) (EventReport_event_type x) (EventReport_fixed_datum_records x) v
  end.
(** the methods of EventReportRBuilder, dis-rs/src/common/event_report_r/builder.rs: lines 20, 25, 30, 35, 40; the structure is dis-rs/src/common/event_report_r/model.rs:14 *)
Definition EventReportR_do (x : EventReportR) (c : EventReportR_call) : EventReportR :=
  match c with
  | EventReportR_with_origination_id v => MkEventReportR v (EventReportR_receiving_id x) (EventReportR_event_type x) (EventReportR_fixed_datum_records x) (EventReportR_variable_datum_records x)
  | EventReportR_with_receiving_id v => MkEventReportR (EventReportR_originating_id x) v (EventReportR_event_type x) (EventReportR_fixed_datum_records x) (EventReportR_variable_datum_records x)
  | EventReportR_with_event_type v => MkEventReportR (EventReportR_originating_id x) (EventReportR_receiving_id x) v (EventReportR_fixed_datum_records x) (EventReportR_variable_datum_records x)
  | EventReportR_with_fixed_datums v => MkEventReportR (EventReportR_originating_id x) (EventReportR_receiving_id x) (EventReportR_event_type x) v (EventReportR_variable_datum_records x)
  | EventReportR_with_variable_datums v => MkEventReportR (EventReportR_originating_id x) (EventReportR_receiving_id x) (EventReportR_event_type x) (EventReportR_fixed_datum_records x) v
  end.
(** the methods of RecordQueryRBuilder, dis-rs/src/common/record_query_r/builder.rs: lines 21, 26, 31, 36, 41, 46, 51; the structure is dis-rs/src/common/record_query_r/model.rs:14 *)
Definition RecordQueryR_do (x : RecordQueryR) (c : RecordQueryR_call) : RecordQueryR :=
  match c with
  | RecordQueryR_with_origination_id v => MkRecordQueryR v (RecordQueryR_receiving_id x) (RecordQueryR_request_id x) (RecordQueryR_required_reliability_service x) (RecordQueryR_event_type x) (RecordQueryR_time x) (RecordQueryR_record_query_specification x)
  | RecordQueryR_with_receiving_id v => MkRecordQueryR (RecordQueryR_originating_id x) v (RecordQueryR_request_id x) (RecordQueryR_required_reliability_service x) (RecordQueryR_event_type x) (RecordQueryR_time x) (RecordQueryR_record_query_specification x)
  | RecordQueryR_with_request_id v => MkRecordQueryR (RecordQueryR_originating_id x) (RecordQueryR_receiving_id x) v (RecordQueryR_required_reliability_service x) (RecordQueryR_event_type x) (RecordQueryR_time x) (RecordQueryR_record_query_specification x)
  | RecordQueryR_with_required_reliability_service v => MkRecordQueryR (RecordQueryR_originating_id x) (RecordQueryR_receiving_id x) (RecordQueryR_request_id x) v (RecordQueryR_event_type x) (RecordQueryR_time x) (RecordQueryR_record_query_specification x)
  | RecordQueryR_with_event_type v => MkRecordQueryR (RecordQueryR_originating_id x) (RecordQueryR_receiving_id x) (RecordQueryR_request_id x) (RecordQueryR_required_reliability_service x) v (RecordQueryR_time x) (RecordQueryR_record_query_specification x)
  | RecordQueryR_with_time v => MkRecordQueryR (RecordQueryR_originating_id x) (RecordQueryR_receiving_id x) (RecordQueryR_request_id x) (RecordQueryR_required_reliability_service x) (RecordQueryR_event_type x) v (RecordQueryR_record_query_specification x)
  | RecordQueryR_with_record_query_specification v => MkRecordQueryR (RecordQueryR_originating_id x) (RecordQueryR_receiving_id x) (RecordQueryR_request_id x) (RecordQueryR_required_reliability_service x) (RecordQueryR_event_type x) (RecordQueryR_time x) v
  end.
(** the methods of RecordRBuilder, dis-rs/src/common/record_r/builder.rs: lines 20, 25, 30, 35, 40, 45, 50; the structure is dis-rs/src/common/record_r/model.rs:14 *)
Definition RecordR_do (x : RecordR) (c : RecordR_call) : RecordR :=
  match c with
  | RecordR_with_origination_id v => MkRecordR v (RecordR_receiving_id x) (RecordR_request_id x) (RecordR_required_reliability_service x) (RecordR_event_type x) (RecordR_response_serial_number x) (RecordR_record_specification x)
  | RecordR_with_receiving_id v => MkRecordR (RecordR_originating_id x) v (RecordR_request_id x) (RecordR_required_reliability_service x) (RecordR_event_type x) (RecordR_response_serial_number x) (RecordR_record_specification x)
  | RecordR_with_request_id v => MkRecordR (RecordR_originating_id x) (RecordR_receiving_id x) v (RecordR_required_reliability_service x) (RecordR_event_type x) (RecordR_response_serial_number x) (RecordR_record_specification x)
  | RecordR_with_required_reliability_service v => MkRecordR (RecordR_originating_id x) (RecordR_receiving_id x) (RecordR_request_id x) v (RecordR_event_type x) (RecordR_response_serial_number x) (RecordR_record_specification x)
  | RecordR_with_event_type v => MkRecordR (RecordR_originating_id x) (RecordR_receiving_id x) (RecordR_request_id x) (RecordR_required_reliability_service x) v (RecordR_response_serial_number x) (RecordR_record_specification x)
  | RecordR_with_response_serial_number v => MkRecordR (RecordR_originating_id x) (RecordR_receiving_id x) (RecordR_request_id x) (RecordR_required_reliability_service x) (RecordR_event_type x) v (RecordR_record_specification x)
  | RecordR_with_record_specification v => MkRecordR (RecordR_originating_id x) (RecordR_receiving_id x) (RecordR_request_id x) (RecordR_required_reliability_service x) (RecordR_event_type x) (RecordR_response_serial_number x) v
  end.
(** the methods of RemoveEntityBuilder, dis-rs/src/common/remove_entity/builder.rs: lines 19, 24, 29; the structure is dis-rs/src/common/remove_entity/model.rs:12 *)
Definition RemoveEntity_do (x : RemoveEntity) (c : RemoveEntity_call) : RemoveEntity :=
  match c with
  | RemoveEntity_with_origination_id v => MkRemoveEntity v (RemoveEntity_receiving_id x) (RemoveEntity_request_id x)
  | RemoveEntity_with_receiving_id v => MkRemoveEntity (RemoveEntity_originating_id x) v (RemoveEntity_request_id x)
  | RemoveEntity_with_request_id v => MkRemoveEntity (RemoveEntity_originating_id x) (RemoveEntity_receiving_id x) v
  end.
(** the methods of RemoveEntityRBuilder, dis-rs/src/common/remove_entity_r/builder.rs: lines 20, 25, 30, 35; the structure is dis-rs/src/common/remove_entity_r/model.rs:12 *)
Definition RemoveEntityR_do (x : RemoveEntityR) (c : RemoveEntityR_call) : RemoveEntityR :=
  match c with
  | RemoveEntityR_with_origination_id v => MkRemoveEntityR v (RemoveEntityR_receiving_id x) (RemoveEntityR_required_reliability_service x) (RemoveEntityR_request_id x)
  | RemoveEntityR_with_receiving_id v => MkRemoveEntityR (RemoveEntityR_originating_id x) v (RemoveEntityR_required_reliability_service x) (RemoveEntityR_request_id x)
  | RemoveEntityR_with_required_reliability_service v => MkRemoveEntityR (RemoveEntityR_originating_id x) (RemoveEntityR_receiving_id x) v (RemoveEntityR_request_id x)
  | RemoveEntityR_with_request_id v => MkRemoveEntityR (RemoveEntityR_originating_id x) (RemoveEntityR_receiving_id x) (RemoveEntityR_required_reliability_service x) v
  end.
(** the methods of SetDataBuilder, dis-rs/src/common/set_data/builder.rs: lines 19, 24, 29, 34, 39; the structure is dis-rs/src/common/set_data/model.rs:13 *)
Definition SetData_do (x : SetData) (c : SetData_call) : SetData :=
  match c with
  | SetData_with_origination_id v => MkSetData v (SetData_receiving_id x) (SetData_request_id x) (SetData_fixed_datum_records x) (SetData_variable_datum_records x)
  | SetData_with_receiving_id v => MkSetData (SetData_originating_id x) v (SetData_request_id x) (SetData_fixed_datum_records x) (SetData_variable_datum_records x)
  | SetData_with_request_id v => MkSetData (SetData_originating_id x) (SetData_receiving_id x) v (SetData_fixed_datum_records x) (SetData_variable_datum_records x)
  | SetData_with_fixed_datums v => MkSetData (SetData_originating_id x) (SetData_receiving_id x) (SetData_request_id x) v (SetData_variable_datum_records x)
  | SetData_with_variable_datums v => MkSetData (SetData_originating_id x) (SetData_receiving_id x) (SetData_request_id x) (SetData_fixed_datum_records x) v
  end.
(** the methods of SetDataRBuilder, dis-rs/src/common/set_data_r/builder.rs: lines 20, 25, 30, 35, 40, 45; the structure is dis-rs/src/common/set_data_r/model.rs:13 *)
Definition SetDataR_do (x : SetDataR) (c : SetDataR_call) : SetDataR :=
  match c with
  | SetDataR_with_origination_id v => MkSetDataR v (SetDataR_receiving_id x) (SetDataR_required_reliability_service x) (SetDataR_request_id x) (SetDataR_fixed_datum_records x) (SetDataR_variable_datum_records x)
  | SetDataR_with_receiving_id v => MkSetDataR (SetDataR_originating_id x) v (SetDataR_required_reliability_service x) (SetDataR_request_id x) (SetDataR_fixed_datum_records x) (SetDataR_variable_datum_records x)
  | SetDataR_with_required_reliability_service v => MkSetDataR (SetDataR_originating_id x) (SetDataR_receiving_id x) v (SetDataR_request_id x) (SetDataR_fixed_datum_records x) (SetDataR_variable_datum_records x)
  | SetDataR_with_request_id v => MkSetDataR (SetDataR_originating_id x) (SetDataR_receiving_id x) (SetDataR_required_reliability_service x) v (SetDataR_fixed_datum_records x) (SetDataR_variable_datum_records x)
  | SetDataR_with_fixed_datums v => MkSetDataR (SetDataR_originating_id x) (SetDataR_receiving_id x) (SetDataR_required_reliability_service x) (SetDataR_request_id x) v (SetDataR_variable_datum_records x)
  | SetDataR_with_variable_datums v => MkSetDataR (SetDataR_originating_id x) (SetDataR_receiving_id x) (SetDataR_required_reliability_service x) (SetDataR_request_id x) (SetDataR_fixed_datum_records x) v
  end.
(** the methods of SetRecordRBuilder, dis-rs/src/common/set_record_r/builder.rs: lines 21, 26, 31, 36, 41; the structure is dis-rs/src/common/set_record_r/model.rs:14 *)
Definition SetRecordR_do (x : SetRecordR) (c : SetRecordR_call) : SetRecordR :=
  match c with
  | SetRecordR_with_origination_id v => MkSetRecordR v (SetRecordR_receiving_id x) (SetRecordR_request_id x) (SetRecordR_required_reliability_service x) (SetRecordR_record_specification x)
  | SetRecordR_with_receiving_id v => MkSetRecordR (SetRecordR_originating_id x) v (SetRecordR_request_id x) (SetRecordR_required_reliability_service x) (SetRecordR_record_specification x)
  | SetRecordR_with_request_id v => MkSetRecordR (SetRecordR_originating_id x) (SetRecordR_receiving_id x) v (SetRecordR_required_reliability_service x) (SetRecordR_record_specification x)
  | SetRecordR_with_required_reliability_service v => MkSetRecordR (SetRecordR_originating_id x) (SetRecordR_receiving_id x) (SetRecordR_request_id x) v (SetRecordR_record_specification x)
  | SetRecordR_with_record_specification v => MkSetRecordR (SetRecordR_originating_id x) (SetRecordR_receiving_id x) (SetRecordR_request_id x) (SetRecordR_required_reliability_service x) v
  end.
(** the methods of StartResumeBuilder, dis-rs/src/common/start_resume/builder.rs: lines 19, 24, 29, 34, 39; the structure is dis-rs/src/common/start_resume/model.rs:12 *)
Definition StartResume_do (x : StartResume) (c : StartResume_call) : StartResume :=
  match c with
  | StartResume_with_origination_id v => MkStartResume v (StartResume_receiving_id x) (StartResume_real_world_time x) (StartResume_simulation_time x) (StartResume_request_id x)
  | StartResume_with_receiving_id v => MkStartResume (StartResume_originating_id x) v (StartResume_real_world_time x) (StartResume_simulation_time x) (StartResume_request_id x)
  | StartResume_with_real_world_time v => MkStartResume (StartResume_originating_id x) (StartResume_receiving_id x) v (StartResume_simulation_time x) (StartResume_request_id x)
  | StartResume_with_simulation_time v => MkStartResume (StartResume_originating_id x) (StartResume_receiving_id x) (StartResume_real_world_time x) v (StartResume_request_id x)
  | StartResume_with_request_id v => MkStartResume (StartResume_originating_id x) (StartResume_receiving_id x) (StartResume_real_world_time x) (StartResume_simulation_time x) v
  end.
(** the methods of StartResumeRBuilder, dis-rs/src/common/start_resume_r/builder.rs: lines 20, 25, 30, 35, 40, 45; the structure is dis-rs/src/common/start_resume_r/model.rs:12 *)
Definition StartResumeR_do (x : StartResumeR) (c : StartResumeR_call) : StartResumeR :=
  match c with
  | StartResumeR_with_origination_id v => MkStartResumeR v (StartResumeR_receiving_id x) (StartResumeR_real_world_time x) (StartResumeR_simulation_time x) (StartResumeR_required_reliability_service x) (StartResumeR_request_id x)
  | StartResumeR_with_receiving_id v => MkStartResumeR (StartResumeR_originating_id x) v (StartResumeR_real_world_time x) (StartResumeR_simulation_time x) (StartResumeR_required_reliability_service x) (StartResumeR_request_id x)
  | StartResumeR_with_real_world_time v => MkStartResumeR (StartResumeR_originating_id x) (StartResumeR_receiving_id x) v (StartResumeR_simulation_time x) (StartResumeR_required_reliability_service x) (StartResumeR_request_id x)
  | StartResumeR_with_simulation_time v => MkStartResumeR (StartResumeR_originating_id x) (StartResumeR_receiving_id x) (StartResumeR_real_world_time x) v (StartResumeR_required_reliability_service x) (StartResumeR_request_id x)
  | StartResumeR_with_required_reliability_service v => MkStartResumeR (StartResumeR_originating_id x) (StartResumeR_receiving_id x) (StartResumeR_real_world_time x) (StartResumeR_simulation_time x) v (StartResumeR_request_id x)
  | StartResumeR_with_request_id v => MkStartResumeR (StartResumeR_originating_id x) (StartResumeR_receiving_id x) (StartResumeR_real_world_time x) (StartResumeR_simulation_time x) (StartResumeR_required_reliability_service x) v
  end.
(** the methods of StopFreezeBuilder, dis-rs/src/common/stop_freeze/builder.rs: lines 20, 25, 30, 35, 40, 45; the structure is dis-rs/src/common/stop_freeze/model.rs:12 *)
Definition StopFreeze_do (x : StopFreeze) (c : StopFreeze_call) : StopFreeze :=
  match c with
  | StopFreeze_with_origination_id v => MkStopFreeze v (StopFreeze_receiving_id x) (StopFreeze_real_world_time x) (StopFreeze_reason x) (StopFreeze_frozen_behavior x) (StopFreeze_request_id x)
  | StopFreeze_with_receiving_id v => MkStopFreeze (StopFreeze_originating_id x) v (StopFreeze_real_world_time x) (StopFreeze_reason x) (StopFreeze_frozen_behavior x) (StopFreeze_request_id x)
  | StopFreeze_with_real_world_time v => MkStopFreeze (StopFreeze_originating_id x) (StopFreeze_receiving_id x) v (StopFreeze_reason x) (StopFreeze_frozen_behavior x) (StopFreeze_request_id x)
  | StopFreeze_with_reason v => MkStopFreeze (StopFreeze_originating_id x) (StopFreeze_receiving_id x) (StopFreeze_real_world_time x) v (StopFreeze_frozen_behavior x) (StopFreeze_request_id x)
  | StopFreeze_with_frozen_behavior v => MkStopFreeze (StopFreeze_originating_id x) (StopFreeze_receiving_id x) (StopFreeze_real_world_time x) (StopFreeze_reason x) v (StopFreeze_request_id x)
  | StopFreeze_with_request_id v => MkStopFreeze (StopFreeze_originating_id x) (StopFreeze_receiving_id x) (StopFreeze_real_world_time x) (StopFreeze_reason x) (StopFreeze_frozen_behavior x) v
  end.
(** the methods of StopFreezeRBuilder, dis-rs/src/common/stop_freeze_r/builder.rs: lines 20, 25, 30, 35, 40, 45, 50; the structure is dis-rs/src/common/stop_freeze_r/model.rs:12 *)
Definition StopFreezeR_do (x : StopFreezeR) (c : StopFreezeR_call) : StopFreezeR :=
  match c with
  | StopFreezeR_with_origination_id v => MkStopFreezeR v (StopFreezeR_receiving_id x) (StopFreezeR_real_world_time x) (StopFreezeR_reason x) (StopFreezeR_frozen_behavior x) (StopFreezeR_required_reliability_service x) (StopFreezeR_request_id x)
  | StopFreezeR_with_receiving_id v => MkStopFreezeR (StopFreezeR_originating_id x) v (StopFreezeR_real_world_time x) (StopFreezeR_reason x) (StopFreezeR_frozen_behavior x) (StopFreezeR_required_reliability_service x) (StopFreezeR_request_id x)
  | StopFreezeR_with_real_world_time v => MkStopFreezeR (StopFreezeR_originating_id x) (StopFreezeR_receiving_id x) v (StopFreezeR_reason x) (StopFreezeR_frozen_behavior x) (StopFreezeR_required_reliability_service x) (StopFreezeR_request_id x)
  | StopFreezeR_with_reason v => MkStopFreezeR (StopFreezeR_originating_id x) (StopFreezeR_receiving_id x) (StopFreezeR_real_world_time x) v (StopFreezeR_frozen_behavior x) (StopFreezeR_required_reliability_service x) (StopFreezeR_request_id x)
  | StopFreezeR_with_frozen_behavior v => MkStopFreezeR (StopFreezeR_originating_id x) (StopFreezeR_receiving_id x) (StopFreezeR_real_world_time x) (StopFreezeR_reason x) v (StopFreezeR_required_reliability_service x) (StopFreezeR_request_id x)
  | StopFreezeR_with_required_reliability_service v => MkStopFreezeR (StopFreezeR_originating_id x) (StopFreezeR_receiving_id x) (StopFreezeR_real_world_time x) (StopFreezeR_reason x) (StopFreezeR_frozen_behavior x) v (StopFreezeR_request_id x)
  | StopFreezeR_with_request_id v => MkStopFreezeR (StopFreezeR_originating_id x) (StopFreezeR_receiving_id x) (StopFreezeR_real_world_time x) (StopFreezeR_reason x) (StopFreezeR_frozen_behavior x) (StopFreezeR_required_reliability_service x) v
  end.
(** the methods of AttributeBuilder, dis-rs/src/common/attribute/builder.rs: lines 20, 25, 30, 35, 40, 45, 50; the structure is dis-rs/src/common/attribute/model.rs:14 *)
Definition Attribute_do (x : Attribute) (c : Attribute_call) : Attribute :=
  match c with
  | Attribute_with_originating_simulation_address v => MkAttribute v (Attribute_pdu_type x) (Attribute_version x) (Attribute_master_type x) (Attribute_action_code x) (Attribute_sets x)
  | Attribute_with_record_pdu_type v => MkAttribute (Attribute_address x) v (Attribute_version x) (Attribute_master_type x) (Attribute_action_code x) (Attribute_sets x)
  | Attribute_with_record_protocol_version v => MkAttribute (Attribute_address x) (Attribute_pdu_type x) v (Attribute_master_type x) (Attribute_action_code x) (Attribute_sets x)
  | Attribute_with_master_attribute_record_type v => MkAttribute (Attribute_address x) (Attribute_pdu_type x) (Attribute_version x) v (Attribute_action_code x) (Attribute_sets x)
  | Attribute_with_action_code v => MkAttribute (Attribute_address x) (Attribute_pdu_type x) (Attribute_version x) (Attribute_master_type x) v (Attribute_sets x)
  | Attribute_with_attribute_record_set v => MkAttribute (Attribute_address x) (Attribute_pdu_type x) (Attribute_version x) (Attribute_master_type x) (Attribute_action_code x) (Attribute_sets x ++ [v])
  | Attribute_with_attribute_record_sets v => MkAttribute (Attribute_address x) (Attribute_pdu_type x) (Attribute_version x) (Attribute_master_type x) (Attribute_action_code x) v
  end.
(** the methods of AttributeRecord, dis-rs/src/common/attribute/model.rs: lines 120, 125; the structure is dis-rs/src/common/attribute/model.rs:101 *)
Definition AttributeRecord_do (x : AttributeRecord) (c : AttributeRecord_call) : AttributeRecord :=
  match c with
  | AttributeRecord_with_record_type v => MkAttributeRecord v (ar_fields x)
  | AttributeRecord_with_specific_fields v => MkAttributeRecord (ar_type x) v
  end.
(** the methods of AttributeRecordSet, dis-rs/src/common/attribute/model.rs: lines 83, 88, 93; the structure is dis-rs/src/common/attribute/model.rs:64 *)
Definition AttributeRecordSet_do (x : AttributeRecordSet) (c : AttributeRecordSet_call) : AttributeRecordSet :=
  match c with
  | AttributeRecordSet_with_entity_id v => MkAttributeRecordSet v (as_records x)
  | AttributeRecordSet_with_attribute_records v => MkAttributeRecordSet (as_entity_id x) v
  | AttributeRecordSet_with_attribute_record v => MkAttributeRecordSet (as_entity_id x) (as_records x ++ [v])
  end.
(** the methods of DetonationBuilder, dis-rs/src/common/detonation/builder.rs: lines 20, 25, 30, 35, 40, 45, 50, 55, 60, 65, 73, 78, 83, 88; the structure is dis-rs/src/common/detonation/model.rs:10 *)
Definition Detonation_do (x : Detonation) (c : Detonation_call) : Detonation :=
  match c with
  | Detonation_with_source_entity_id v => MkDetonation v (Detonation_target_entity_id x) (Detonation_exploding_entity_id x) (Detonation_event_id x) (Detonation_velocity x) (Detonation_world_location x) (Detonation_descriptor x) (Detonation_entity_location x) (Detonation_result x) (Detonation_variable_parameters x)
  | Detonation_with_target_entity_id v => MkDetonation (Detonation_source_entity_id x) v (Detonation_exploding_entity_id x) (Detonation_event_id x) (Detonation_velocity x) (Detonation_world_location x) (Detonation_descriptor x) (Detonation_entity_location x) (Detonation_result x) (Detonation_variable_parameters x)
  | Detonation_with_exploding_entity_id v => MkDetonation (Detonation_source_entity_id x) (Detonation_target_entity_id x) v (Detonation_event_id x) (Detonation_velocity x) (Detonation_world_location x) (Detonation_descriptor x) (Detonation_entity_location x) (Detonation_result x) (Detonation_variable_parameters x)
  | Detonation_with_event_id v => MkDetonation (Detonation_source_entity_id x) (Detonation_target_entity_id x) (Detonation_exploding_entity_id x) v (Detonation_velocity x) (Detonation_world_location x) (Detonation_descriptor x) (Detonation_entity_location x) (Detonation_result x) (Detonation_variable_parameters x)
  | Detonation_with_velocity v => MkDetonation (Detonation_source_entity_id x) (Detonation_target_entity_id x) (Detonation_exploding_entity_id x) (Detonation_event_id x) v (Detonation_world_location x) (Detonation_descriptor x) (Detonation_entity_location x) (Detonation_result x) (Detonation_variable_parameters x)
  | Detonation_with_world_location v => MkDetonation (Detonation_source_entity_id x) (Detonation_target_entity_id x) (Detonation_exploding_entity_id x) (Detonation_event_id x) (Detonation_velocity x) v (Detonation_descriptor x) (Detonation_entity_location x) (Detonation_result x) (Detonation_variable_parameters x)
  | Detonation_with_descriptor v => MkDetonation (Detonation_source_entity_id x) (Detonation_target_entity_id x) (Detonation_exploding_entity_id x) (Detonation_event_id x) (Detonation_velocity x) (Detonation_world_location x) v (Detonation_entity_location x) (Detonation_result x) (Detonation_variable_parameters x)
  | Detonation_with_munition_descriptor v1 v2 => MkDetonation (Detonation_source_entity_id x) (Detonation_target_entity_id x) (Detonation_exploding_entity_id x) (Detonation_event_id x) (Detonation_velocity x) (Detonation_world_location x) (DMunition v1 v2) (Detonation_entity_location x) (Detonation_result x) (Detonation_variable_parameters x)
  | Detonation_with_expendable_descriptor v1 => MkDetonation (Detonation_source_entity_id x) (Detonation_target_entity_id x) (Detonation_exploding_entity_id x) (Detonation_event_id x) (Detonation_velocity x) (Detonation_world_location x) (DExpendable v1) (Detonation_entity_location x) (Detonation_result x) (Detonation_variable_parameters x)
  | Detonation_with_explosion_descriptor v1 v2 v3 => MkDetonation (Detonation_source_entity_id x) (Detonation_target_entity_id x) (Detonation_exploding_entity_id x) (Detonation_event_id x) (Detonation_velocity x) (Detonation_world_location x) (DExplosion v1 v2 v3) (Detonation_entity_location x) (Detonation_result x) (Detonation_variable_parameters x)
  | Detonation_with_entity_location v => MkDetonation (Detonation_source_entity_id x) (Detonation_target_entity_id x) (Detonation_exploding_entity_id x) (Detonation_event_id x) (Detonation_velocity x) (Detonation_world_location x) (Detonation_descriptor x) v (Detonation_result x) (Detonation_variable_parameters x)
  | Detonation_with_detonation_result v => MkDetonation (Detonation_source_entity_id x) (Detonation_target_entity_id x) (Detonation_exploding_entity_id x) (Detonation_event_id x) (Detonation_velocity x) (Detonation_world_location x) (Detonation_descriptor x) (Detonation_entity_location x) v (Detonation_variable_parameters x)
  | Detonation_with_variable_parameter v => MkDetonation (Detonation_source_entity_id x) (Detonation_target_entity_id x) (Detonation_exploding_entity_id x) (Detonation_event_id x) (Detonation_velocity x) (Detonation_world_location x) (Detonation_descriptor x) (Detonation_entity_location x) (Detonation_result x) (Detonation_variable_parameters x ++ [v])
  | Detonation_with_variable_parameters v => MkDetonation (Detonation_source_entity_id x) (Detonation_target_entity_id x) (Detonation_exploding_entity_id x) (Detonation_event_id x) (Detonation_velocity x) (Detonation_world_location x) (Detonation_descriptor x) (Detonation_entity_location x) (Detonation_result x) v
  end.
(** the methods of EntityStateUpdateBuilder, dis-rs/src/common/entity_state_update/builder.rs: lines 20, 25, 30, 35, 40, 45, 50; the structure is dis-rs/src/common/entity_state_update/model.rs:14 *)
Definition EntityStateUpdate_do (x : EntityStateUpdate) (c : EntityStateUpdate_call) : EntityStateUpdate :=
  match c with
  | EntityStateUpdate_with_entity_id v => MkEntityStateUpdate v (EntityStateUpdate_velocity x) (EntityStateUpdate_location x) (EntityStateUpdate_orientation x) (EntityStateUpdate_appearance x) (EntityStateUpdate_variable_parameters x)
  | EntityStateUpdate_with_velocity v => MkEntityStateUpdate (EntityStateUpdate_entity_id x) v (EntityStateUpdate_location x) (EntityStateUpdate_orientation x) (EntityStateUpdate_appearance x) (EntityStateUpdate_variable_parameters x)
  | EntityStateUpdate_with_location v => MkEntityStateUpdate (EntityStateUpdate_entity_id x) (EntityStateUpdate_velocity x) v (EntityStateUpdate_orientation x) (EntityStateUpdate_appearance x) (EntityStateUpdate_variable_parameters x)
  | EntityStateUpdate_with_orientation v => MkEntityStateUpdate (EntityStateUpdate_entity_id x) (EntityStateUpdate_velocity x) (EntityStateUpdate_location x) v (EntityStateUpdate_appearance x) (EntityStateUpdate_variable_parameters x)
  | EntityStateUpdate_with_appearance v => MkEntityStateUpdate (EntityStateUpdate_entity_id x) (EntityStateUpdate_velocity x) (EntityStateUpdate_location x) (EntityStateUpdate_orientation x) v (EntityStateUpdate_variable_parameters x)
  | EntityStateUpdate_with_variable_parameter v => MkEntityStateUpdate (EntityStateUpdate_entity_id x) (EntityStateUpdate_velocity x) (EntityStateUpdate_location x) (EntityStateUpdate_orientation x) (EntityStateUpdate_appearance x) (EntityStateUpdate_variable_parameters x ++ [v])
  | EntityStateUpdate_with_variable_parameters v => MkEntityStateUpdate (EntityStateUpdate_entity_id x) (EntityStateUpdate_velocity x) (EntityStateUpdate_location x) (EntityStateUpdate_orientation x) (EntityStateUpdate_appearance x) v
  end.
(** the methods of FireBuilder, dis-rs/src/common/fire/builder.rs: lines 19, 24, 29, 34, 39, 44, 49, 54, 59, 64, 69; the structure is dis-rs/src/common/fire/model.rs:12 *)
Definition Fire_do (x : Fire) (c : Fire_call) : Fire :=
  match c with
  | Fire_with_firing_entity_id v => MkFire v (Fire_target_entity_id x) (Fire_entity_id x) (Fire_event_id x) (Fire_fire_mission_index x) (Fire_location_in_world x) (Fire_descriptor x) (Fire_velocity x) (Fire_range x)
  | Fire_with_target_entity_id v => MkFire (Fire_firing_entity_id x) v (Fire_entity_id x) (Fire_event_id x) (Fire_fire_mission_index x) (Fire_location_in_world x) (Fire_descriptor x) (Fire_velocity x) (Fire_range x)
  | Fire_with_entity_id v => MkFire (Fire_firing_entity_id x) (Fire_target_entity_id x) v (Fire_event_id x) (Fire_fire_mission_index x) (Fire_location_in_world x) (Fire_descriptor x) (Fire_velocity x) (Fire_range x)
  | Fire_with_event_id v => MkFire (Fire_firing_entity_id x) (Fire_target_entity_id x) (Fire_entity_id x) v (Fire_fire_mission_index x) (Fire_location_in_world x) (Fire_descriptor x) (Fire_velocity x) (Fire_range x)
  | Fire_with_fire_mission_index v => MkFire (Fire_firing_entity_id x) (Fire_target_entity_id x) (Fire_entity_id x) (Fire_event_id x) v (Fire_location_in_world x) (Fire_descriptor x) (Fire_velocity x) (Fire_range x)
  | Fire_with_location_in_world v => MkFire (Fire_firing_entity_id x) (Fire_target_entity_id x) (Fire_entity_id x) (Fire_event_id x) (Fire_fire_mission_index x) v (Fire_descriptor x) (Fire_velocity x) (Fire_range x)
  | Fire_with_descriptor v => MkFire (Fire_firing_entity_id x) (Fire_target_entity_id x) (Fire_entity_id x) (Fire_event_id x) (Fire_fire_mission_index x) (Fire_location_in_world x) v (Fire_velocity x) (Fire_range x)
  | Fire_with_munition_descriptor v1 v2 => MkFire (Fire_firing_entity_id x) (Fire_target_entity_id x) (Fire_entity_id x) (Fire_event_id x) (Fire_fire_mission_index x) (Fire_location_in_world x) (DMunition v1 v2) (Fire_velocity x) (Fire_range x)
  | Fire_with_expendable_descriptor v1 => MkFire (Fire_firing_entity_id x) (Fire_target_entity_id x) (Fire_entity_id x) (Fire_event_id x) (Fire_fire_mission_index x) (Fire_location_in_world x) (DExpendable v1) (Fire_velocity x) (Fire_range x)
  | Fire_with_velocity v => MkFire (Fire_firing_entity_id x) (Fire_target_entity_id x) (Fire_entity_id x) (Fire_event_id x) (Fire_fire_mission_index x) (Fire_location_in_world x) (Fire_descriptor x) v (Fire_range x)
  | Fire_with_range v => MkFire (Fire_firing_entity_id x) (Fire_target_entity_id x) (Fire_entity_id x) (Fire_event_id x) (Fire_fire_mission_index x) (Fire_location_in_world x) (Fire_descriptor x) (Fire_velocity x) v
  end.
(** the methods of OtherBuilder, dis-rs/src/common/other/builder.rs: lines 19, 24, 29; the structure is dis-rs/src/common/other/model.rs:14 *)
Definition Other_do (x : Other) (c : Other_call) : Other :=
  match c with
  | Other_with_origin v => MkOther v (Other_receiving x) (Other_body x)
  | Other_with_receiver v => MkOther (Other_originating x) v (Other_body x)
  | Other_with_body v => MkOther (Other_originating x) (Other_receiving x) v
  end.
(** the methods of PropulsionSystemData, dis-rs/src/common/sees/model.rs: lines 66, 71; the structure is dis-rs/src/common/sees/model.rs:60 *)
Definition PropulsionSystemData_do (x : PropulsionSystemData) (c : PropulsionSystemData_call) : PropulsionSystemData :=
  match c with
  | PropulsionSystemData_with_power_setting v => MkPropulsion v (ps_rpm x)
  | PropulsionSystemData_with_engine_rpm v => MkPropulsion (ps_power x) v
  end.
(** the methods of SeesBuilder, dis-rs/src/common/sees/builder.rs: lines 19, 24, 29, 34, 39, 44, 49, 54; the structure is dis-rs/src/common/sees/model.rs:13 *)
Definition Sees_do (x : Sees) (c : Sees_call) : Sees :=
  match c with
  | Sees_with_originating_entity_id v => MkSees v (Sees_infrared x) (Sees_acoustic x) (Sees_radar x) (Sees_propulsion_systems x) (Sees_vectoring_nozzle_systems x)
  | Sees_with_infrared_signature_representation_index v => MkSees (Sees_originating_entity_id x) v (Sees_acoustic x) (Sees_radar x) (Sees_propulsion_systems x) (Sees_vectoring_nozzle_systems x)
  | Sees_with_acoustic_signature_representation_index v => MkSees (Sees_originating_entity_id x) (Sees_infrared x) v (Sees_radar x) (Sees_propulsion_systems x) (Sees_vectoring_nozzle_systems x)
  | Sees_with_radar_cross_section_representation_index v => MkSees (Sees_originating_entity_id x) (Sees_infrared x) (Sees_acoustic x) v (Sees_propulsion_systems x) (Sees_vectoring_nozzle_systems x)
  | Sees_with_propulsion_system v => MkSees (Sees_originating_entity_id x) (Sees_infrared x) (Sees_acoustic x) (Sees_radar x) (Sees_propulsion_systems x ++ [v]) (Sees_vectoring_nozzle_systems x)
  | Sees_with_propulsion_systems v => MkSees (Sees_originating_entity_id x) (Sees_infrared x) (Sees_acoustic x) (Sees_radar x) v (Sees_vectoring_nozzle_systems x)
  | Sees_with_vectoring_nozzle_system v => MkSees (Sees_originating_entity_id x) (Sees_infrared x) (Sees_acoustic x) (Sees_radar x) (Sees_propulsion_systems x) (Sees_vectoring_nozzle_systems x ++ [v])
  | Sees_with_vectoring_nozzle_systems v => MkSees (Sees_originating_entity_id x) (Sees_infrared x) (Sees_acoustic x) (Sees_radar x) (Sees_propulsion_systems x) v
  end.
(** the methods of SignalBuilder, dis-rs/src/common/signal/builder.rs: lines 20, 25, 30, 35, 40, 45, 50; the structure is dis-rs/src/common/signal/model.rs:13 *)
Definition Signal_do (x : Signal) (c : Signal_call) : Signal :=
  match c with
  | Signal_with_radio_reference_id v => MkSignal v (Signal_radio_number x) (Signal_encoding_scheme x) (Signal_tdl_type x) (Signal_sample_rate x) (Signal_samples x) (Signal_data x)
  | Signal_with_radio_number v => MkSignal (Signal_radio_reference_id x) v (Signal_encoding_scheme x) (Signal_tdl_type x) (Signal_sample_rate x) (Signal_samples x) (Signal_data x)
  | Signal_with_encoding_scheme v => MkSignal (Signal_radio_reference_id x) (Signal_radio_number x) v (Signal_tdl_type x) (Signal_sample_rate x) (Signal_samples x) (Signal_data x)
  | Signal_with_tdl_type v => MkSignal (Signal_radio_reference_id x) (Signal_radio_number x) (Signal_encoding_scheme x) v (Signal_sample_rate x) (Signal_samples x) (Signal_data x)
  | Signal_with_sample_rate v => MkSignal (Signal_radio_reference_id x) (Signal_radio_number x) (Signal_encoding_scheme x) (Signal_tdl_type x) v (Signal_samples x) (Signal_data x)
  | Signal_with_samples v => MkSignal (Signal_radio_reference_id x) (Signal_radio_number x) (Signal_encoding_scheme x) (Signal_tdl_type x) (Signal_sample_rate x) v (Signal_data x)
  | Signal_with_data v => MkSignal (Signal_radio_reference_id x) (Signal_radio_number x) (Signal_encoding_scheme x) (Signal_tdl_type x) (Signal_sample_rate x) (Signal_samples x) v
  end.
(** the methods of VectoringNozzleSystemData, dis-rs/src/common/sees/model.rs: lines 85, 90; the structure is dis-rs/src/common/sees/model.rs:79 *)
Definition VectoringNozzleSystemData_do (x : VectoringNozzleSystemData) (c : VectoringNozzleSystemData_call) : VectoringNozzleSystemData :=
  match c with
  | VectoringNozzleSystemData_with_horizontal_deflection_angle v => MkNozzle v (vn_vertical x)
  | VectoringNozzleSystemData_with_vertical_deflection_angle v => MkNozzle (vn_horizontal x) v
  end.
(** the methods of ChangeOptionsRecordBuilder, dis-rs/src/common/iff/builder.rs: lines 226, 231, 236, 241, 246, 251, 256, 261; the structure is dis-rs/src/common/iff/model.rs:282 *)
Definition ChangeOptions_do (x : ChangeOptions) (c : ChangeOptions_call) : ChangeOptions :=
  match c with
  | ChangeOptions_set_change_indicator => MkChangeOptions true (co_specific_1 x) (co_specific_2 x) (co_heartbeat x) (co_transponder x) (co_simulation x) (co_interactive x) (co_test x)
  | ChangeOptions_set_system_specific_field_1 => MkChangeOptions (co_change x) true (co_specific_2 x) (co_heartbeat x) (co_transponder x) (co_simulation x) (co_interactive x) (co_test x)
  | ChangeOptions_set_system_specific_field_2 => MkChangeOptions (co_change x) (co_specific_1 x) true (co_heartbeat x) (co_transponder x) (co_simulation x) (co_interactive x) (co_test x)
  | ChangeOptions_set_heartbeat_indicator => MkChangeOptions (co_change x) (co_specific_1 x) (co_specific_2 x) true (co_transponder x) (co_simulation x) (co_interactive x) (co_test x)
  | ChangeOptions_set_transponder_interrogator_indicator => MkChangeOptions (co_change x) (co_specific_1 x) (co_specific_2 x) (co_heartbeat x) true (co_simulation x) (co_interactive x) (co_test x)
  | ChangeOptions_set_simulation_mode => MkChangeOptions (co_change x) (co_specific_1 x) (co_specific_2 x) (co_heartbeat x) (co_transponder x) true (co_interactive x) (co_test x)
  | ChangeOptions_set_interactive_capable => MkChangeOptions (co_change x) (co_specific_1 x) (co_specific_2 x) (co_heartbeat x) (co_transponder x) (co_simulation x) true (co_test x)
  | ChangeOptions_set_test_mode => MkChangeOptions (co_change x) (co_specific_1 x) (co_specific_2 x) (co_heartbeat x) (co_transponder x) (co_simulation x) (co_interactive x) true
  end.
(** the methods of DapSourceBuilder, dis-rs/src/common/iff/builder.rs: lines 564, 569, 574, 579, 584, 589, 594, 599; the structure is dis-rs/src/common/iff/model.rs:595 *)
Definition DapSource_do (x : DapSource) (c : DapSource_call) : DapSource :=
  match c with
  | DapSource_with_indicated_air_speed v => MkDapSource v (da_mach x) (da_ground x) (da_heading x) (da_track_rate x) (da_track_angle x) (da_true_airspeed x) (da_vertical x)
  | DapSource_with_mach_number v => MkDapSource (da_indicated x) v (da_ground x) (da_heading x) (da_track_rate x) (da_track_angle x) (da_true_airspeed x) (da_vertical x)
  | DapSource_with_ground_speed v => MkDapSource (da_indicated x) (da_mach x) v (da_heading x) (da_track_rate x) (da_track_angle x) (da_true_airspeed x) (da_vertical x)
  | DapSource_with_magnetic_heading v => MkDapSource (da_indicated x) (da_mach x) (da_ground x) v (da_track_rate x) (da_track_angle x) (da_true_airspeed x) (da_vertical x)
  | DapSource_with_track_angle_rate v => MkDapSource (da_indicated x) (da_mach x) (da_ground x) (da_heading x) v (da_track_angle x) (da_true_airspeed x) (da_vertical x)
  | DapSource_with_true_track_angle v => MkDapSource (da_indicated x) (da_mach x) (da_ground x) (da_heading x) (da_track_rate x) v (da_true_airspeed x) (da_vertical x)
  | DapSource_with_true_airspeed v => MkDapSource (da_indicated x) (da_mach x) (da_ground x) (da_heading x) (da_track_rate x) (da_track_angle x) v (da_vertical x)
  | DapSource_with_vertical_rate v => MkDapSource (da_indicated x) (da_mach x) (da_ground x) (da_heading x) (da_track_rate x) (da_track_angle x) (da_true_airspeed x) v
  end.
(** the methods of EnhancedMode1CodeBuilder, dis-rs/src/common/iff/builder.rs: lines 616, 621, 626, 631, 636, 641, 646; the structure is dis-rs/src/common/iff/model.rs:672 *)
Definition EnhancedMode1Code_do (x : EnhancedMode1Code) (c : EnhancedMode1Code_call) : EnhancedMode1Code :=
  match c with
  | EnhancedMode1Code_with_code_element_1_d v => MkEnhancedMode1Code v (em_element_2 x) (em_element_3 x) (em_element_4 x) (em_on_off x) (em_damage x) (em_malfunction x)
  | EnhancedMode1Code_with_code_element_2_c v => MkEnhancedMode1Code (em_element_1 x) v (em_element_3 x) (em_element_4 x) (em_on_off x) (em_damage x) (em_malfunction x)
  | EnhancedMode1Code_with_code_element_3_b v => MkEnhancedMode1Code (em_element_1 x) (em_element_2 x) v (em_element_4 x) (em_on_off x) (em_damage x) (em_malfunction x)
  | EnhancedMode1Code_with_code_element_4_a v => MkEnhancedMode1Code (em_element_1 x) (em_element_2 x) (em_element_3 x) v (em_on_off x) (em_damage x) (em_malfunction x)
  | EnhancedMode1Code_with_on_off_status v => MkEnhancedMode1Code (em_element_1 x) (em_element_2 x) (em_element_3 x) (em_element_4 x) v (em_damage x) (em_malfunction x)
  | EnhancedMode1Code_with_damage_status v => MkEnhancedMode1Code (em_element_1 x) (em_element_2 x) (em_element_3 x) (em_element_4 x) (em_on_off x) v (em_malfunction x)
  | EnhancedMode1Code_with_malfunction_status v => MkEnhancedMode1Code (em_element_1 x) (em_element_2 x) (em_element_3 x) (em_element_4 x) (em_on_off x) (em_damage x) v
  end.
(** the methods of InformationLayersBuilder, dis-rs/src/common/iff/builder.rs: lines 384, 389, 394, 399, 404, 409, 414; the structure is dis-rs/src/common/iff/model.rs:467 *)
Definition InformationLayers_do (x : InformationLayers) (c : InformationLayers_call) : InformationLayers :=
  match c with
  | InformationLayers_with_layer_1 v => MkInformationLayers v (il_layer_2 x) (il_layer_3 x) (il_layer_4 x) (il_layer_5 x) (il_layer_6 x) (il_layer_7 x)
  | InformationLayers_with_layer_2 v => MkInformationLayers (il_layer_1 x) v (il_layer_3 x) (il_layer_4 x) (il_layer_5 x) (il_layer_6 x) (il_layer_7 x)
  | InformationLayers_with_layer_3 v => MkInformationLayers (il_layer_1 x) (il_layer_2 x) v (il_layer_4 x) (il_layer_5 x) (il_layer_6 x) (il_layer_7 x)
  | InformationLayers_with_layer_4 v => MkInformationLayers (il_layer_1 x) (il_layer_2 x) (il_layer_3 x) v (il_layer_5 x) (il_layer_6 x) (il_layer_7 x)
  | InformationLayers_with_layer_5 v => MkInformationLayers (il_layer_1 x) (il_layer_2 x) (il_layer_3 x) (il_layer_4 x) v (il_layer_6 x) (il_layer_7 x)
  | InformationLayers_with_layer_6 v => MkInformationLayers (il_layer_1 x) (il_layer_2 x) (il_layer_3 x) (il_layer_4 x) (il_layer_5 x) v (il_layer_7 x)
  | InformationLayers_with_layer_7 v => MkInformationLayers (il_layer_1 x) (il_layer_2 x) (il_layer_3 x) (il_layer_4 x) (il_layer_5 x) (il_layer_6 x) v
  end.
(** the methods of Mode5InterrogatorStatusBuilder, dis-rs/src/common/iff/builder.rs: lines 690, 695, 700, 705, 710; the structure is dis-rs/src/common/iff/model.rs:765 *)
Definition Mode5InterrogatorStatus_do (x : Mode5InterrogatorStatus) (c : Mode5InterrogatorStatus_call) : Mode5InterrogatorStatus :=
  match c with
  | Mode5InterrogatorStatus_with_iff_mission v => MkMode5InterrogatorStatus v (is_formats_status x) (is_on_off x) (is_damage x) (is_malfunction x)
  | Mode5InterrogatorStatus_with_mode_5_message_formats_status v => MkMode5InterrogatorStatus (is_mission x) v (is_on_off x) (is_damage x) (is_malfunction x)
  | Mode5InterrogatorStatus_with_on_off_status v => MkMode5InterrogatorStatus (is_mission x) (is_formats_status x) v (is_damage x) (is_malfunction x)
  | Mode5InterrogatorStatus_with_damage_status v => MkMode5InterrogatorStatus (is_mission x) (is_formats_status x) (is_on_off x) v (is_malfunction x)
  | Mode5InterrogatorStatus_with_malfunction_status v => MkMode5InterrogatorStatus (is_mission x) (is_formats_status x) (is_on_off x) (is_damage x) v
  end.
(** the methods of Mode5MessageFormatsBuilder, dis-rs/src/common/iff/builder.rs: lines 727, 732, 737, 742, 747, 752, 757, 762, 767, 772, 777, 782, 787, 792, 797, 802, 807, 812, 817, 822, 827, 832, 837, 842, 847, 852, 857, 862, 867, 872, 877, 882; the structure is dis-rs/src/common/iff/model.rs:823 *)
Definition MessageFormats_do (x : MessageFormats) (c : MessageFormats_call) : MessageFormats :=
  match c with
  | MessageFormats_with_message_format_0 v => MkMessageFormats v (mf_1 x) (mf_2 x) (mf_3 x) (mf_4 x) (mf_5 x) (mf_6 x) (mf_7 x) (mf_8 x) (mf_9 x) (mf_10 x) (mf_11 x) (mf_12 x) (mf_13 x) (mf_14 x) (mf_15 x) (mf_16 x) (mf_17 x) (mf_18 x) (mf_19 x) (mf_20 x) (mf_21 x) (mf_22 x) (mf_23 x) (mf_24 x) (mf_25 x) (mf_26 x) (mf_27 x) (mf_28 x) (mf_29 x) (mf_30 x) (mf_31 x)
  | MessageFormats_with_message_format_1 v => MkMessageFormats (mf_0 x) v (mf_2 x) (mf_3 x) (mf_4 x) (mf_5 x) (mf_6 x) (mf_7 x) (mf_8 x) (mf_9 x) (mf_10 x) (mf_11 x) (mf_12 x) (mf_13 x) (mf_14 x) (mf_15 x) (mf_16 x) (mf_17 x) (mf_18 x) (mf_19 x) (mf_20 x) (mf_21 x) (mf_22 x) (mf_23 x) (mf_24 x) (mf_25 x) (mf_26 x) (mf_27 x) (mf_28 x) (mf_29 x) (mf_30 x) (mf_31 x)
  | MessageFormats_with_message_format_2 v => MkMessageFormats (mf_0 x) (mf_1 x) v (mf_3 x) (mf_4 x) (mf_5 x) (mf_6 x) (mf_7 x) (mf_8 x) (mf_9 x) (mf_10 x) (mf_11 x) (mf_12 x) (mf_13 x) (mf_14 x) (mf_15 x) (mf_16 x) (mf_17 x) (mf_18 x) (mf_19 x) (mf_20 x) (mf_21 x) (mf_22 x) (mf_23 x) (mf_24 x) (mf_25 x) (mf_26 x) (mf_27 x) (mf_28 x) (mf_29 x) (mf_30 x) (mf_31 x)
  | MessageFormats_with_message_format_3 v => MkMessageFormats (mf_0 x) (mf_1 x) (mf_2 x) v (mf_4 x) (mf_5 x) (mf_6 x) (mf_7 x) (mf_8 x) (mf_9 x) (mf_10 x) (mf_11 x) (mf_12 x) (mf_13 x) (mf_14 x) (mf_15 x) (mf_16 x) (mf_17 x) (mf_18 x) (mf_19 x) (mf_20 x) (mf_21 x) (mf_22 x) (mf_23 x) (mf_24 x) (mf_25 x) (mf_26 x) (mf_27 x) (mf_28 x) (mf_29 x) (mf_30 x) (mf_31 x)
  | MessageFormats_with_message_format_4 v => MkMessageFormats (mf_0 x) (mf_1 x) (mf_2 x) (mf_3 x) v (mf_5 x) (mf_6 x) (mf_7 x) (mf_8 x) (mf_9 x) (mf_10 x) (mf_11 x) (mf_12 x) (mf_13 x) (mf_14 x) (mf_15 x) (mf_16 x) (mf_17 x) (mf_18 x) (mf_19 x) (mf_20 x) (mf_21 x) (mf_22 x) (mf_23 x) (mf_24 x) (mf_25 x) (mf_26 x) (mf_27 x) (mf_28 x) (mf_29 x) (mf_30 x) (mf_31 x)
  | MessageFormats_with_message_format_5 v => MkMessageFormats (mf_0 x) (mf_1 x) (mf_2 x) (mf_3 x) (mf_4 x) v (mf_6 x) (mf_7 x) (mf_8 x) (mf_9 x) (mf_10 x) (mf_11 x) (mf_12 x) (mf_13 x) (mf_14 x) (mf_15 x) (mf_16 x) (mf_17 x) (mf_18 x) (mf_19 x) (mf_20 x) (mf_21 x) (mf_22 x) (mf_23 x) (mf_24 x) (mf_25 x) (mf_26 x) (mf_27 x) (mf_28 x) (mf_29 x) (mf_30 x) (mf_31 x)
  | MessageFormats_with_message_format_6 v => MkMessageFormats (mf_0 x) (mf_1 x) (mf_2 x) (mf_3 x) (mf_4 x) (mf_5 x) v (mf_7 x) (mf_8 x) (mf_9 x) (mf_10 x) (mf_11 x) (mf_12 x) (mf_13 x) (mf_14 x) (mf_15 x) (mf_16 x) (mf_17 x) (mf_18 x) (mf_19 x) (mf_20 x) (mf_21 x) (mf_22 x) (mf_23 x) (mf_24 x) (mf_25 x) (mf_26 x) (mf_27 x) (mf_28 x) (mf_29 x) (mf_30 x) (mf_31 x)
  | MessageFormats_with_message_format_7 v => MkMessageFormats (mf_0 x) (mf_1 x) (mf_2 x) (mf_3 x) (mf_4 x) (mf_5 x) (mf_6 x) v (mf_8 x) (mf_9 x) (mf_10 x) (mf_11 x) (mf_12 x) (mf_13 x) (mf_14 x) (mf_15 x) (mf_16 x) (mf_17 x) (mf_18 x) (mf_19 x) (mf_20 x) (mf_21 x) (mf_22 x) (mf_23 x) (mf_24 x) (mf_25 x) (mf_26 x) (mf_27 x) (mf_28 x) (mf_29 x) (mf_30 x) (mf_31 x)
  | MessageFormats_with_message_format_8 v => MkMessageFormats (mf_0 x) (mf_1 x) (mf_2 x) (mf_3 x) (mf_4 x) (mf_5 x) (mf_6 x) (mf_7 x) v (mf_9 x) (mf_10 x) (mf_11 x) (mf_12 x) (mf_13 x) (mf_14 x) (mf_15 x) (mf_16 x) (mf_17 x) (mf_18 x) (mf_19 x) (mf_20 x) (mf_21 x) (mf_22 x) (mf_23 x) (mf_24 x) (mf_25 x) (mf_26 x) (mf_27 x) (mf_28 x) (mf_29 x) (mf_30 x) (mf_31 x)
  | MessageFormats_with_message_format_9 v => MkMessageFormats (mf_0 x) (mf_1 x) (mf_2 x) (mf_3 x) (mf_4 x) (mf_5 x) (mf_6 x) (mf_7 x) (mf_8 x) v (mf_10 x) (mf_11 x) (mf_12 x) (mf_13 x) (mf_14 x) (mf_15 x) (mf_16 x) (mf_17 x) (mf_18 x) (mf_19 x) (mf_20 x) (mf_21 x) (mf_22 x) (mf_23 x) (mf_24 x) (mf_25 x) (mf_26 x) (mf_27 x) (mf_28 x) (mf_29 x) (mf_30 x) (mf_31 x)
  | MessageFormats_with_message_format_10 v => MkMessageFormats (mf_0 x) (mf_1 x) (mf_2 x) (mf_3 x) (mf_4 x) (mf_5 x) (mf_6 x) (mf_7 x) (mf_8 x) (mf_9 x) v (mf_11 x) (mf_12 x) (mf_13 x) (mf_14 x) (mf_15 x) (mf_16 x) (mf_17 x) (mf_18 x) (mf_19 x) (mf_20 x) (mf_21 x) (mf_22 x) (mf_23 x) (mf_24 x) (mf_25 x) (mf_26 x) (mf_27 x) (mf_28 x) (mf_29 x) (mf_30 x) (mf_31 x)
  | MessageFormats_with_message_format_11 v => MkMessageFormats (mf_0 x) (mf_1 x) (mf_2 x) (mf_3 x) (mf_4 x) (mf_5 x) (mf_6 x) (mf_7 x) (mf_8 x) (mf_9 x) (mf_10 x) v (mf_12 x) (mf_13 x) (mf_14 x) (mf_15 x) (mf_16 x) (mf_17 x) (mf_18 x) (mf_19 x) (mf_20 x) (mf_21 x) (mf_22 x) (mf_23 x) (mf_24 x) (mf_25 x) (mf_26 x) (mf_27 x) (mf_28 x) (mf_29 x) (mf_30 x) (mf_31 x)
  | MessageFormats_with_message_format_12 v => MkMessageFormats (mf_0 x) (mf_1 x) (mf_2 x) (mf_3 x) (mf_4 x) (mf_5 x) (mf_6 x) (mf_7 x) (mf_8 x) (mf_9 x) (mf_10 x) (mf_11 x) v (mf_13 x) (mf_14 x) (mf_15 x) (mf_16 x) (mf_17 x) (mf_18 x) (mf_19 x) (mf_20 x) (mf_21 x) (mf_22 x) (mf_23 x) (mf_24 x) (mf_25 x) (mf_26 x) (mf_27 x) (mf_28 x) (mf_29 x) (mf_30 x) (mf_31 x)
  | MessageFormats_with_message_format_13 v => MkMessageFormats (mf_0 x) (mf_1 x) (mf_2 x) (mf_3 x) (mf_4 x) (mf_5 x) (mf_6 x) (mf_7 x) (mf_8 x) (mf_9 x) (mf_10 x) (mf_11 x) (mf_12 x) v (mf_14 x) (mf_15 x) (mf_16 x) (mf_17 x) (mf_18 x) (mf_19 x) (mf_20 x) (mf_21 x) (mf_22 x) (mf_23 x) (mf_24 x) (mf_25 x) (mf_26 x) (mf_27 x) (mf_28 x) (mf_29 x) (mf_30 x) (mf_31 x)
  | MessageFormats_with_message_format_14 v => MkMessageFormats (mf_0 x) (mf_1 x) (mf_2 x) (mf_3 x) (mf_4 x) (mf_5 x) (mf_6 x) (mf_7 x) (mf_8 x) (mf_9 x) (mf_10 x) (mf_11 x) (mf_12 x) (mf_13 x) v (mf_15 x) (mf_16 x) (mf_17 x) (mf_18 x) (mf_19 x) (mf_20 x) (mf_21 x) (mf_22 x) (mf_23 x) (mf_24 x) (mf_25 x) (mf_26 x) (mf_27 x) (mf_28 x) (mf_29 x) (mf_30 x) (mf_31 x)
  | MessageFormats_with_message_format_15 v => MkMessageFormats (mf_0 x) (mf_1 x) (mf_2 x) (mf_3 x) (mf_4 x) (mf_5 x) (mf_6 x) (mf_7 x) (mf_8 x) (mf_9 x) (mf_10 x) (mf_11 x) (mf_12 x) (mf_13 x) (mf_14 x) v (mf_16 x) (mf_17 x) (mf_18 x) (mf_19 x) (mf_20 x) (mf_21 x) (mf_22 x) (mf_23 x) (mf_24 x) (mf_25 x) (mf_26 x) (mf_27 x) (mf_28 x) (mf_29 x) (mf_30 x) (mf_31 x)
  | MessageFormats_with_message_format_16 v => MkMessageFormats (mf_0 x) (mf_1 x) (mf_2 x) (mf_3 x) (mf_4 x) (mf_5 x) (mf_6 x) (mf_7 x) (mf_8 x) (mf_9 x) (mf_10 x) (mf_11 x) (mf_12 x) (mf_13 x) (mf_14 x) (mf_15 x) v (mf_17 x) (mf_18 x) (mf_19 x) (mf_20 x) (mf_21 x) (mf_22 x) (mf_23 x) (mf_24 x) (mf_25 x) (mf_26 x) (mf_27 x) (mf_28 x) (mf_29 x) (mf_30 x) (mf_31 x)
  | MessageFormats_with_message_format_17 v => MkMessageFormats (mf_0 x) (mf_1 x) (mf_2 x) (mf_3 x) (mf_4 x) (mf_5 x) (mf_6 x) (mf_7 x) (mf_8 x) (mf_9 x) (mf_10 x) (mf_11 x) (mf_12 x) (mf_13 x) (mf_14 x) (mf_15 x) (mf_16 x) v (mf_18 x) (mf_19 x) (mf_20 x) (mf_21 x) (mf_22 x) (mf_23 x) (mf_24 x) (mf_25 x) (mf_26 x) (mf_27 x) (mf_28 x) (mf_29 x) (mf_30 x) (mf_31 x)
  | MessageFormats_with_message_format_18 v => MkMessageFormats (mf_0 x) (mf_1 x) (mf_2 x) (mf_3 x) (mf_4 x) (mf_5 x) (mf_6 x) (mf_7 x) (mf_8 x) (mf_9 x) (mf_10 x) (mf_11 x) (mf_12 x) (mf_13 x) (mf_14 x) (mf_15 x) (mf_16 x) (mf_17 x) v (mf_19 x) (mf_20 x) (mf_21 x) (mf_22 x) (mf_23 x) (mf_24 x) (mf_25 x) (mf_26 x) (mf_27 x) (mf_28 x) (mf_29 x) (mf_30 x) (mf_31 x)
  | MessageFormats_with_message_format_19 v => MkMessageFormats (mf_0 x) (mf_1 x) (mf_2 x) (mf_3 x) (mf_4 x) (mf_5 x) (mf_6 x) (mf_7 x) (mf_8 x) (mf_9 x) (mf_10 x) (mf_11 x) (mf_12 x) (mf_13 x) (mf_14 x) (mf_15 x) (mf_16 x) (mf_17 x) (mf_18 x) v (mf_20 x) (mf_21 x) (mf_22 x) (mf_23 x) (mf_24 x) (mf_25 x) (mf_26 x) (mf_27 x) (mf_28 x) (mf_29 x) (mf_30 x) (mf_31 x)
  | MessageFormats_with_message_format_20 v => MkMessageFormats (mf_0 x) (mf_1 x) (mf_2 x) (mf_3 x) (mf_4 x) (mf_5 x) (mf_6 x) (mf_7 x) (mf_8 x) (mf_9 x) (mf_10 x) (mf_11 x) (mf_12 x) (mf_13 x) (mf_14 x) (mf_15 x) (mf_16 x) (mf_17 x) (mf_18 x) (mf_19 x) v (mf_21 x) (mf_22 x) (mf_23 x) (mf_24 x) (mf_25 x) (mf_26 x) (mf_27 x) (mf_28 x) (mf_29 x) (mf_30 x) (mf_31 x)
  | MessageFormats_with_message_format_21 v => MkMessageFormats (mf_0 x) (mf_1 x) (mf_2 x) (mf_3 x) (mf_4 x) (mf_5 x) (mf_6 x) (mf_7 x) (mf_8 x) (mf_9 x) (mf_10 x) (mf_11 x) (mf_12 x) (mf_13 x) (mf_14 x) (mf_15 x) (mf_16 x) (mf_17 x) (mf_18 x) (mf_19 x) (mf_20 x) v (mf_22 x) (mf_23 x) (mf_24 x) (mf_25 x) (mf_26 x) (mf_27 x) (mf_28 x) (mf_29 x) (mf_30 x) (mf_31 x)
  | MessageFormats_with_message_format_22 v => MkMessageFormats (mf_0 x) (mf_1 x) (mf_2 x) (mf_3 x) (mf_4 x) (mf_5 x) (mf_6 x) (mf_7 x) (mf_8 x) (mf_9 x) (mf_10 x) (mf_11 x) (mf_12 x) (mf_13 x) (mf_14 x) (mf_15 x) (mf_16 x) (mf_17 x) (mf_18 x) (mf_19 x) (mf_20 x) (mf_21 x) v (mf_23 x) (mf_24 x) (mf_25 x) (mf_26 x) (mf_27 x) (mf_28 x) (mf_29 x) (mf_30 x) (mf_31 x)
  | MessageFormats_with_message_format_23 v => MkMessageFormats (mf_0 x) (mf_1 x) (mf_2 x) (mf_3 x) (mf_4 x) (mf_5 x) (mf_6 x) (mf_7 x) (mf_8 x) (mf_9 x) (mf_10 x) (mf_11 x) (mf_12 x) (mf_13 x) (mf_14 x) (mf_15 x) (mf_16 x) (mf_17 x) (mf_18 x) (mf_19 x) (mf_20 x) (mf_21 x) (mf_22 x) v (mf_24 x) (mf_25 x) (mf_26 x) (mf_27 x) (mf_28 x) (mf_29 x) (mf_30 x) (mf_31 x)
  | MessageFormats_with_message_format_24 v => MkMessageFormats (mf_0 x) (mf_1 x) (mf_2 x) (mf_3 x) (mf_4 x) (mf_5 x) (mf_6 x) (mf_7 x) (mf_8 x) (mf_9 x) (mf_10 x) (mf_11 x) (mf_12 x) (mf_13 x) (mf_14 x) (mf_15 x) (mf_16 x) (mf_17 x) (mf_18 x) (mf_19 x) (mf_20 x) (mf_21 x) (mf_22 x) (mf_23 x) v (mf_25 x) (mf_26 x) (mf_27 x) (mf_28 x) (mf_29 x) (mf_30 x) (mf_31 x)
  | MessageFormats_with_message_format_25 v => MkMessageFormats (mf_0 x) (mf_1 x) (mf_2 x) (mf_3 x) (mf_4 x) (mf_5 x) (mf_6 x) (mf_7 x) (mf_8 x) (mf_9 x) (mf_10 x) (mf_11 x) (mf_12 x) (mf_13 x) (mf_14 x) (mf_15 x) (mf_16 x) (mf_17 x) (mf_18 x) (mf_19 x) (mf_20 x) (mf_21 x) (mf_22 x) (mf_23 x) (mf_24 x) v (mf_26 x) (mf_27 x) (mf_28 x) (mf_29 x) (mf_30 x) (mf_31 x)
  | MessageFormats_with_message_format_26 v => MkMessageFormats (mf_0 x) (mf_1 x) (mf_2 x) (mf_3 x) (mf_4 x) (mf_5 x) (mf_6 x) (mf_7 x) (mf_8 x) (mf_9 x) (mf_10 x) (mf_11 x) (mf_12 x) (mf_13 x) (mf_14 x) (mf_15 x) (mf_16 x) (mf_17 x) (mf_18 x) (mf_19 x) (mf_20 x) (mf_21 x) (mf_22 x) (mf_23 x) (mf_24 x) (mf_25 x) v (mf_27 x) (mf_28 x) (mf_29 x) (mf_30 x) (mf_31 x)
  | MessageFormats_with_message_format_27 v => MkMessageFormats (mf_0 x) (mf_1 x) (mf_2 x) (mf_3 x) (mf_4 x) (mf_5 x) (mf_6 x) (mf_7 x) (mf_8 x) (mf_9 x) (mf_10 x) (mf_11 x) (mf_12 x) (mf_13 x) (mf_14 x) (mf_15 x) (mf_16 x) (mf_17 x) (mf_18 x) (mf_19 x) (mf_20 x) (mf_21 x) (mf_22 x) (mf_23 x) (mf_24 x) (mf_25 x) (mf_26 x) v (mf_28 x) (mf_29 x) (mf_30 x) (mf_31 x)
  | MessageFormats_with_message_format_28 v => MkMessageFormats (mf_0 x) (mf_1 x) (mf_2 x) (mf_3 x) (mf_4 x) (mf_5 x) (mf_6 x) (mf_7 x) (mf_8 x) (mf_9 x) (mf_10 x) (mf_11 x) (mf_12 x) (mf_13 x) (mf_14 x) (mf_15 x) (mf_16 x) (mf_17 x) (mf_18 x) (mf_19 x) (mf_20 x) (mf_21 x) (mf_22 x) (mf_23 x) (mf_24 x) (mf_25 x) (mf_26 x) (mf_27 x) v (mf_29 x) (mf_30 x) (mf_31 x)
  | MessageFormats_with_message_format_29 v => MkMessageFormats (mf_0 x) (mf_1 x) (mf_2 x) (mf_3 x) (mf_4 x) (mf_5 x) (mf_6 x) (mf_7 x) (mf_8 x) (mf_9 x) (mf_10 x) (mf_11 x) (mf_12 x) (mf_13 x) (mf_14 x) (mf_15 x) (mf_16 x) (mf_17 x) (mf_18 x) (mf_19 x) (mf_20 x) (mf_21 x) (mf_22 x) (mf_23 x) (mf_24 x) (mf_25 x) (mf_26 x) (mf_27 x) (mf_28 x) v (mf_30 x) (mf_31 x)
  | MessageFormats_with_message_format_30 v => MkMessageFormats (mf_0 x) (mf_1 x) (mf_2 x) (mf_3 x) (mf_4 x) (mf_5 x) (mf_6 x) (mf_7 x) (mf_8 x) (mf_9 x) (mf_10 x) (mf_11 x) (mf_12 x) (mf_13 x) (mf_14 x) (mf_15 x) (mf_16 x) (mf_17 x) (mf_18 x) (mf_19 x) (mf_20 x) (mf_21 x) (mf_22 x) (mf_23 x) (mf_24 x) (mf_25 x) (mf_26 x) (mf_27 x) (mf_28 x) (mf_29 x) v (mf_31 x)
  | MessageFormats_with_message_format_31 v => MkMessageFormats (mf_0 x) (mf_1 x) (mf_2 x) (mf_3 x) (mf_4 x) (mf_5 x) (mf_6 x) (mf_7 x) (mf_8 x) (mf_9 x) (mf_10 x) (mf_11 x) (mf_12 x) (mf_13 x) (mf_14 x) (mf_15 x) (mf_16 x) (mf_17 x) (mf_18 x) (mf_19 x) (mf_20 x) (mf_21 x) (mf_22 x) (mf_23 x) (mf_24 x) (mf_25 x) (mf_26 x) (mf_27 x) (mf_28 x) (mf_29 x) (mf_30 x) v
  end.
(** the methods of Mode5TransponderStatusBuilder, dis-rs/src/common/iff/builder.rs: lines 978, 983, 988, 993, 998, 1003, 1008, 1013, 1018, 1023, 1028; the structure is dis-rs/src/common/iff/model.rs:1096 *)
Definition Mode5TransponderStatus_do (x : Mode5TransponderStatus) (c : Mode5TransponderStatus_call) : Mode5TransponderStatus :=
  match c with
  | Mode5TransponderStatus_with_mode_5_reply v => MkMode5TransponderStatus v (ts_line_test x) (ts_antenna x) (ts_crypto x) (ts_lat_lon_alt x) (ts_location_errors x) (ts_platform x) (ts_level x) (ts_on_off x) (ts_damage x) (ts_malfunction x)
  | Mode5TransponderStatus_with_line_test v => MkMode5TransponderStatus (ts_reply x) v (ts_antenna x) (ts_crypto x) (ts_lat_lon_alt x) (ts_location_errors x) (ts_platform x) (ts_level x) (ts_on_off x) (ts_damage x) (ts_malfunction x)
  | Mode5TransponderStatus_with_antenna_selection v => MkMode5TransponderStatus (ts_reply x) (ts_line_test x) v (ts_crypto x) (ts_lat_lon_alt x) (ts_location_errors x) (ts_platform x) (ts_level x) (ts_on_off x) (ts_damage x) (ts_malfunction x)
  | Mode5TransponderStatus_with_crypto_control v => MkMode5TransponderStatus (ts_reply x) (ts_line_test x) (ts_antenna x) v (ts_lat_lon_alt x) (ts_location_errors x) (ts_platform x) (ts_level x) (ts_on_off x) (ts_damage x) (ts_malfunction x)
  | Mode5TransponderStatus_with_lat_lon_alt_source v => MkMode5TransponderStatus (ts_reply x) (ts_line_test x) (ts_antenna x) (ts_crypto x) v (ts_location_errors x) (ts_platform x) (ts_level x) (ts_on_off x) (ts_damage x) (ts_malfunction x)
  | Mode5TransponderStatus_with_location_errors v => MkMode5TransponderStatus (ts_reply x) (ts_line_test x) (ts_antenna x) (ts_crypto x) (ts_lat_lon_alt x) v (ts_platform x) (ts_level x) (ts_on_off x) (ts_damage x) (ts_malfunction x)
  | Mode5TransponderStatus_with_platform_type v => MkMode5TransponderStatus (ts_reply x) (ts_line_test x) (ts_antenna x) (ts_crypto x) (ts_lat_lon_alt x) (ts_location_errors x) v (ts_level x) (ts_on_off x) (ts_damage x) (ts_malfunction x)
  | Mode5TransponderStatus_with_mode_5_level_selection v => MkMode5TransponderStatus (ts_reply x) (ts_line_test x) (ts_antenna x) (ts_crypto x) (ts_lat_lon_alt x) (ts_location_errors x) (ts_platform x) v (ts_on_off x) (ts_damage x) (ts_malfunction x)
  | Mode5TransponderStatus_with_on_off_status v => MkMode5TransponderStatus (ts_reply x) (ts_line_test x) (ts_antenna x) (ts_crypto x) (ts_lat_lon_alt x) (ts_location_errors x) (ts_platform x) (ts_level x) v (ts_damage x) (ts_malfunction x)
  | Mode5TransponderStatus_with_damage_status v => MkMode5TransponderStatus (ts_reply x) (ts_line_test x) (ts_antenna x) (ts_crypto x) (ts_lat_lon_alt x) (ts_location_errors x) (ts_platform x) (ts_level x) (ts_on_off x) v (ts_malfunction x)
  | Mode5TransponderStatus_with_malfunction_status v => MkMode5TransponderStatus (ts_reply x) (ts_line_test x) (ts_antenna x) (ts_crypto x) (ts_lat_lon_alt x) (ts_location_errors x) (ts_platform x) (ts_level x) (ts_on_off x) (ts_damage x) v
  end.
(** the methods of Mode5TransponderSupplementalDataBuilder, dis-rs/src/common/iff/builder.rs: lines 951, 956, 961; the structure is dis-rs/src/common/iff/model.rs:1051 *)
Definition SupplementalData_do (x : SupplementalData) (c : SupplementalData_call) : SupplementalData :=
  match c with
  | SupplementalData_with_squitter_on_off_status v => MkSupplementalData v (sd_level_2 x) (sd_mission x)
  | SupplementalData_with_level_2_squitter_status v => MkSupplementalData (sd_squitter x) v (sd_mission x)
  | SupplementalData_with_iff_mission v => MkSupplementalData (sd_squitter x) (sd_level_2 x) v
  end.
(** the methods of ModeSAltitudeBuilder, dis-rs/src/common/iff/builder.rs: lines 1045, 1050; the structure is dis-rs/src/common/iff/model.rs:1197 *)
Definition ModeSAltitude_do (x : ModeSAltitude) (c : ModeSAltitude_call) : ModeSAltitude :=
  match c with
  | ModeSAltitude_with_altitude v => MkModeSAltitude v (al_resolution x)
  | ModeSAltitude_with_resolution v => MkModeSAltitude (al_altitude x) v
  end.
(** the methods of ModeSInterrogatorStatusBuilder, dis-rs/src/common/iff/builder.rs: lines 1089, 1094, 1099, 1104; the structure is dis-rs/src/common/iff/model.rs:1255 *)
Definition ModeSInterrogatorStatus_do (x : ModeSInterrogatorStatus) (c : ModeSInterrogatorStatus_call) : ModeSInterrogatorStatus :=
  match c with
  | ModeSInterrogatorStatus_with_on_off_status v => MkModeSInterrogatorStatus v (ss_transmit x) (ss_damage x) (ss_malfunction x)
  | ModeSInterrogatorStatus_with_transmit_state v => MkModeSInterrogatorStatus (ss_on_off x) v (ss_damage x) (ss_malfunction x)
  | ModeSInterrogatorStatus_with_damage_status v => MkModeSInterrogatorStatus (ss_on_off x) (ss_transmit x) v (ss_malfunction x)
  | ModeSInterrogatorStatus_with_malfunction_status v => MkModeSInterrogatorStatus (ss_on_off x) (ss_transmit x) (ss_damage x) v
  end.
(** the methods of ModeSLevelsPresentBuilder, dis-rs/src/common/iff/builder.rs: lines 1121, 1126, 1131, 1136, 1141; the structure is dis-rs/src/common/iff/model.rs:1305 *)
Definition ModeSLevels_do (x : ModeSLevels) (c : ModeSLevels_call) : ModeSLevels :=
  match c with
  | ModeSLevels_with_level_1 v => MkModeSLevels v (lv_2_els x) (lv_2_ehs x) (lv_3 x) (lv_4 x)
  | ModeSLevels_with_level_2_els v => MkModeSLevels (lv_1 x) v (lv_2_ehs x) (lv_3 x) (lv_4 x)
  | ModeSLevels_with_level_2_ehs v => MkModeSLevels (lv_1 x) (lv_2_els x) v (lv_3 x) (lv_4 x)
  | ModeSLevels_with_level_3 v => MkModeSLevels (lv_1 x) (lv_2_els x) (lv_2_ehs x) v (lv_4 x)
  | ModeSLevels_with_level_4 v => MkModeSLevels (lv_1 x) (lv_2_els x) (lv_2_ehs x) (lv_3 x) v
  end.
(** the methods of ModeSTransponderStatusBuilder, dis-rs/src/common/iff/builder.rs: lines 1215, 1220, 1225, 1230, 1235, 1240, 1245, 1250, 1255, 1260, 1265; the structure is dis-rs/src/common/iff/model.rs:1391 *)
Definition ModeSTransponderStatus_do (x : ModeSTransponderStatus) (c : ModeSTransponderStatus_call) : ModeSTransponderStatus :=
  match c with
  | ModeSTransponderStatus_with_squitter_status v => MkModeSTransponderStatus v (st_type x) (st_source x) (st_airborne_position x) (st_airborne_velocity x) (st_surface_position x) (st_identification x) (st_event_driven x) (st_on_off x) (st_damage x) (st_malfunction x)
  | ModeSTransponderStatus_with_squitter_type v => MkModeSTransponderStatus (st_squitter x) v (st_source x) (st_airborne_position x) (st_airborne_velocity x) (st_surface_position x) (st_identification x) (st_event_driven x) (st_on_off x) (st_damage x) (st_malfunction x)
  | ModeSTransponderStatus_with_squitter_record_source v => MkModeSTransponderStatus (st_squitter x) (st_type x) v (st_airborne_position x) (st_airborne_velocity x) (st_surface_position x) (st_identification x) (st_event_driven x) (st_on_off x) (st_damage x) (st_malfunction x)
  | ModeSTransponderStatus_with_airborne_position_report_indicator v => MkModeSTransponderStatus (st_squitter x) (st_type x) (st_source x) v (st_airborne_velocity x) (st_surface_position x) (st_identification x) (st_event_driven x) (st_on_off x) (st_damage x) (st_malfunction x)
  | ModeSTransponderStatus_with_airborne_velocity_report_indicator v => MkModeSTransponderStatus (st_squitter x) (st_type x) (st_source x) (st_airborne_position x) v (st_surface_position x) (st_identification x) (st_event_driven x) (st_on_off x) (st_damage x) (st_malfunction x)
  | ModeSTransponderStatus_with_surface_position_report_indicator v => MkModeSTransponderStatus (st_squitter x) (st_type x) (st_source x) (st_airborne_position x) (st_airborne_velocity x) v (st_identification x) (st_event_driven x) (st_on_off x) (st_damage x) (st_malfunction x)
  | ModeSTransponderStatus_with_identification_report_indicator v => MkModeSTransponderStatus (st_squitter x) (st_type x) (st_source x) (st_airborne_position x) (st_airborne_velocity x) (st_surface_position x) v (st_event_driven x) (st_on_off x) (st_damage x) (st_malfunction x)
  | ModeSTransponderStatus_with_event_driven_report_indicator v => MkModeSTransponderStatus (st_squitter x) (st_type x) (st_source x) (st_airborne_position x) (st_airborne_velocity x) (st_surface_position x) (st_identification x) v (st_on_off x) (st_damage x) (st_malfunction x)
  | ModeSTransponderStatus_with_on_off_status v => MkModeSTransponderStatus (st_squitter x) (st_type x) (st_source x) (st_airborne_position x) (st_airborne_velocity x) (st_surface_position x) (st_identification x) (st_event_driven x) v (st_damage x) (st_malfunction x)
  | ModeSTransponderStatus_with_damage_status v => MkModeSTransponderStatus (st_squitter x) (st_type x) (st_source x) (st_airborne_position x) (st_airborne_velocity x) (st_surface_position x) (st_identification x) (st_event_driven x) (st_on_off x) v (st_malfunction x)
  | ModeSTransponderStatus_with_malfunction_status v => MkModeSTransponderStatus (st_squitter x) (st_type x) (st_source x) (st_airborne_position x) (st_airborne_velocity x) (st_surface_position x) (st_identification x) (st_event_driven x) (st_on_off x) (st_damage x) v
  end.
(** the methods of SystemStatusBuilder, dis-rs/src/common/iff/builder.rs: lines 1282, 1287, 1292, 1297, 1302, 1307, 1312, 1317; the structure is dis-rs/src/common/iff/model.rs:1497 *)
Definition SystemStatus_do (x : SystemStatus) (c : SystemStatus_call) : SystemStatus :=
  match c with
  | SystemStatus_with_system_on_off_status v => MkSystemStatus v (sy_parameter_1 x) (sy_parameter_2 x) (sy_parameter_3 x) (sy_parameter_4 x) (sy_parameter_5 x) (sy_parameter_6 x) (sy_operational x)
  | SystemStatus_with_parameter_1_capable v => MkSystemStatus (sy_on_off x) v (sy_parameter_2 x) (sy_parameter_3 x) (sy_parameter_4 x) (sy_parameter_5 x) (sy_parameter_6 x) (sy_operational x)
  | SystemStatus_with_parameter_2_capable v => MkSystemStatus (sy_on_off x) (sy_parameter_1 x) v (sy_parameter_3 x) (sy_parameter_4 x) (sy_parameter_5 x) (sy_parameter_6 x) (sy_operational x)
  | SystemStatus_with_parameter_3_capable v => MkSystemStatus (sy_on_off x) (sy_parameter_1 x) (sy_parameter_2 x) v (sy_parameter_4 x) (sy_parameter_5 x) (sy_parameter_6 x) (sy_operational x)
  | SystemStatus_with_parameter_4_capable v => MkSystemStatus (sy_on_off x) (sy_parameter_1 x) (sy_parameter_2 x) (sy_parameter_3 x) v (sy_parameter_5 x) (sy_parameter_6 x) (sy_operational x)
  | SystemStatus_with_parameter_5_capable v => MkSystemStatus (sy_on_off x) (sy_parameter_1 x) (sy_parameter_2 x) (sy_parameter_3 x) (sy_parameter_4 x) v (sy_parameter_6 x) (sy_operational x)
  | SystemStatus_with_parameter_6_capable v => MkSystemStatus (sy_on_off x) (sy_parameter_1 x) (sy_parameter_2 x) (sy_parameter_3 x) (sy_parameter_4 x) (sy_parameter_5 x) v (sy_operational x)
  | SystemStatus_with_operational_status v => MkSystemStatus (sy_on_off x) (sy_parameter_1 x) (sy_parameter_2 x) (sy_parameter_3 x) (sy_parameter_4 x) (sy_parameter_5 x) (sy_parameter_6 x) v
  end.
(** dis-rs/src/common/model.rs:1599-1627: the length of the set is that of the record added last, or of the first of a list of records; [as u16] truncates *)
Definition RecordSet_do (x : RecordSet) (c : RecordSet_call) : RecordSet :=
  match c with
  | RecordSet_with_record_id v => MkRecordSet v (rs_serial x) (rs_length_bytes x) (rs_records x)
  | RecordSet_with_record_serial_number v => MkRecordSet (rs_id x) v (rs_length_bytes x) (rs_records x)
  | RecordSet_with_record v => MkRecordSet (rs_id x) (rs_serial x) (zlen v mod 65536) (rs_records x ++ [v])
  | RecordSet_with_records v => MkRecordSet (rs_id x) (rs_serial x) (match v with r :: _ => zlen r mod 65536 | [] => 0 end) v
  end.
(** dis-rs/src/common/model.rs:135-155; [None] is a panic: an addition that overflows does so in a debug build *)
Definition PduHeader_do (m : mode) (x : PduHeader) (c : PduHeader_call) : option PduHeader :=
  match c with
  | PduHeader_with_pdu_type v => Some (MkPduHeader (h_version x) (h_exercise x) v (family_of v) (h_time x) (h_length x) (h_status x) (h_padding x))
  | PduHeader_with_time_stamp v => Some (MkPduHeader (h_version x) (h_exercise x) (h_type x) (h_family x) v (h_length x) (h_status x) (h_padding x))
  | PduHeader_with_length v =>
      let l := 12 + v in
      let set l := Some (MkPduHeader (h_version x) (h_exercise x) (h_type x) (h_family x) (h_time x) l (h_status x) (h_padding x)) in
      if l <? 65536 then set l else match m with Checked => None | Wrapping => set (l mod 65536) end
  | PduHeader_with_pdu_status v => Some (MkPduHeader (h_version x) (h_exercise x) (h_type x) (h_family x) (h_time x) (h_length x) (Some v) (h_padding x))
  end.
Fixpoint PduHeader_run (m : mode) (calls : list PduHeader_call) (x : PduHeader) : option PduHeader :=
  match calls with
  | [] => Some x
  | c :: r => match PduHeader_do m x c with Some x' => PduHeader_run m r x' | None => None end
  end.
