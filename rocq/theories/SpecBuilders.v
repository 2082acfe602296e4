(** * What a builder should build, from the names of its methods

    Written from the names: a method that names a member gives that member. Nothing here refers to what the methods do. *)
From Coq Require Import ZArith List Bool.
From Verif Require Import Base DisCommon IffWords DisHeader DisLists DisSimman DisLogistics DisWarfare DisEntity DisEmission DisRadio DisIff DisPdu DisPacket BuilderCalls.
Import ListNotations. Open Scope Z_scope.

(** the value that the last call about a member gives it, or the one it had *)
Definition latest {C V} (about : C -> option V) (calls : list C) (start : V) : V :=
  match find (fun c => match about c with Some _ => true | None => false end) (rev calls) with
  | Some c => match about c with Some v => v | None => start end
  | None => start
  end.
(** what a call says about a list: it is this, or there is more *)
Inductive Change (V : Type) := Becomes (l : list V) | More (l : list V).
Arguments Becomes {V}. Arguments More {V}.
(** the list after the calls: the last list it was said to be, and everything added since, in order *)
Fixpoint gathered {C V} (about : C -> option (Change V)) (calls : list C) (start : list V) : list V :=
  match calls with
  | [] => start
  | c :: r => gathered about r (match about c with Some (Becomes l) => l | Some (More l) => start ++ l | None => start end)
  end.
Definition bit (b : bool) (n : Z) : Z := if b then 2 ^ n else 0.
Definition ArticulatedPart_given (start : ArticulatedPart) (calls : list ArticulatedPart_call) (x : ArticulatedPart) : Prop :=
  ap_change x = latest (fun c => match c with ArticulatedPart_with_change_indicator v => Some v | _ => None end) calls (ap_change start) /\
  ap_attachment x = latest (fun c => match c with ArticulatedPart_with_attachment_id v => Some v | _ => None end) calls (ap_attachment start) /\
  ap_metric x = latest (fun c => match c with ArticulatedPart_with_type_metric v => Some v | _ => None end) calls (ap_metric start) /\
  ap_class x = latest (fun c => match c with ArticulatedPart_with_type_class v => Some v | _ => None end) calls (ap_class start) /\
  ap_value x = latest (fun c => match c with ArticulatedPart_with_parameter_value v => Some v | _ => None end) calls (ap_value start).
Definition AttachedPart_given (start : AttachedPart) (calls : list AttachedPart_call) (x : AttachedPart) : Prop :=
  at_detached x = latest (fun c => match c with AttachedPart_with_detached_indicator v => Some v | _ => None end) calls (at_detached start) /\
  at_attachment x = latest (fun c => match c with AttachedPart_with_attachment_id v => Some v | _ => None end) calls (at_attachment start) /\
  at_parameter x = latest (fun c => match c with AttachedPart_with_parameter_type v => Some v | _ => None end) calls (at_parameter start) /\
  at_type x = latest (fun c => match c with AttachedPart_with_attached_part_type v => Some v | _ => None end) calls (at_type start).
Definition BeamData_given (start : BeamData) (calls : list BeamData_call) (x : BeamData) : Prop :=
  bd_azc x = latest (fun c => match c with BeamData_with_azimuth_center v => Some v | _ => None end) calls (bd_azc start) /\
  bd_azs x = latest (fun c => match c with BeamData_with_azimuth_sweep v => Some v | _ => None end) calls (bd_azs start) /\
  bd_elc x = latest (fun c => match c with BeamData_with_elevation_center v => Some v | _ => None end) calls (bd_elc start) /\
  bd_els x = latest (fun c => match c with BeamData_with_elevation_sweep v => Some v | _ => None end) calls (bd_els start) /\
  bd_sync x = latest (fun c => match c with BeamData_with_sweep_sync v => Some v | _ => None end) calls (bd_sync start).
Definition EntityAssociation_given (start : EntityAssociation) (calls : list EntityAssociation_call) (x : EntityAssociation) : Prop :=
  ea_change x = latest (fun c => match c with EntityAssociation_with_change_indicator v => Some v | _ => None end) calls (ea_change start) /\
  ea_status x = latest (fun c => match c with EntityAssociation_with_association_status v => Some v | _ => None end) calls (ea_status start) /\
  ea_type x = latest (fun c => match c with EntityAssociation_with_association_type v => Some v | _ => None end) calls (ea_type start) /\
  ea_entity x = latest (fun c => match c with EntityAssociation_with_entity_id v => Some v | _ => None end) calls (ea_entity start) /\
  ea_station x = latest (fun c => match c with EntityAssociation_with_own_station_location v => Some v | _ => None end) calls (ea_station start) /\
  ea_connection x = latest (fun c => match c with EntityAssociation_with_physical_connection_type v => Some v | _ => None end) calls (ea_connection start) /\
  ea_member x = latest (fun c => match c with EntityAssociation_with_group_member_type v => Some v | _ => None end) calls (ea_member start) /\
  ea_group x = latest (fun c => match c with EntityAssociation_with_group_number v => Some v | _ => None end) calls (ea_group start).
Definition EntityType_given (start : EntityType) (calls : list EntityType_call) (x : EntityType) : Prop :=
  et_kind x = latest (fun c => match c with EntityType_with_kind v => Some v | _ => None end) calls (et_kind start) /\
  et_domain x = latest (fun c => match c with EntityType_with_domain v => Some v | _ => None end) calls (et_domain start) /\
  et_country x = latest (fun c => match c with EntityType_with_country v => Some v | _ => None end) calls (et_country start) /\
  et_category x = latest (fun c => match c with EntityType_with_category v => Some v | _ => None end) calls (et_category start) /\
  et_subcategory x = latest (fun c => match c with EntityType_with_subcategory v => Some v | _ => None end) calls (et_subcategory start) /\
  et_specific x = latest (fun c => match c with EntityType_with_specific v => Some v | _ => None end) calls (et_specific start) /\
  et_extra x = latest (fun c => match c with EntityType_with_extra v => Some v | _ => None end) calls (et_extra start).
Definition EntityTypeParameter_given (start : EntityTypeParameter) (calls : list EntityTypeParameter_call) (x : EntityTypeParameter) : Prop :=
  etp_change x = latest (fun c => match c with EntityTypeParameter_with_change_indicator v => Some v | _ => None end) calls (etp_change start) /\
  etp_type x = latest (fun c => match c with EntityTypeParameter_with_entity_type v => Some v | _ => None end) calls (etp_type start).
Definition Location_given (start : Location) (calls : list Location_call) (x : Location) : Prop :=
  loc_x x = latest (fun c => match c with Location_with_x v => Some v | _ => None end) calls (loc_x start) /\
  loc_y x = latest (fun c => match c with Location_with_y v => Some v | _ => None end) calls (loc_y start) /\
  loc_z x = latest (fun c => match c with Location_with_z v => Some v | _ => None end) calls (loc_z start).
Definition MunitionDescriptor_given (start : MunitionDescriptor) (calls : list MunitionDescriptor_call) (x : MunitionDescriptor) : Prop :=
  md_warhead x = latest (fun c => match c with MunitionDescriptor_with_warhead v => Some v | _ => None end) calls (md_warhead start) /\
  md_fuse x = latest (fun c => match c with MunitionDescriptor_with_fuse v => Some v | _ => None end) calls (md_fuse start) /\
  md_quantity x = latest (fun c => match c with MunitionDescriptor_with_quantity v => Some v | _ => None end) calls (md_quantity start) /\
  md_rate x = latest (fun c => match c with MunitionDescriptor_with_rate v => Some v | _ => None end) calls (md_rate start).
Definition Orientation_given (start : Orientation) (calls : list Orientation_call) (x : Orientation) : Prop :=
  or_psi x = latest (fun c => match c with Orientation_with_psi v => Some v | _ => None end) calls (or_psi start) /\
  or_theta x = latest (fun c => match c with Orientation_with_theta v => Some v | _ => None end) calls (or_theta start) /\
  or_phi x = latest (fun c => match c with Orientation_with_phi v => Some v | _ => None end) calls (or_phi start).
Definition SeparationParameter_given (start : SeparationParameter) (calls : list SeparationParameter_call) (x : SeparationParameter) : Prop :=
  se_reason x = latest (fun c => match c with SeparationParameter_with_reason v => Some v | _ => None end) calls (se_reason start) /\
  se_pre x = latest (fun c => match c with SeparationParameter_with_pre_entity_indicator v => Some v | _ => None end) calls (se_pre start) /\
  se_parent x = latest (fun c => match c with SeparationParameter_with_parent_entity_id v => Some v | _ => None end) calls (se_parent start) /\
  se_station x = latest (fun c => match c with SeparationParameter_with_station_name v => Some v | _ => None end) calls (se_station start) /\
  DisCommon.se_number x = latest (fun c => match c with SeparationParameter_with_station_number v => Some v | _ => None end) calls (DisCommon.se_number start).
Definition SupplyQuantity_given (start : SupplyQuantity) (calls : list SupplyQuantity_call) (x : SupplyQuantity) : Prop :=
  sq_type x = latest (fun c => match c with SupplyQuantity_with_supply_type v => Some v | _ => None end) calls (sq_type start) /\
  sq_quantity x = latest (fun c => match c with SupplyQuantity_with_quantity v => Some v | _ => None end) calls (sq_quantity start).
Definition VectorF32_given (start : VectorF32) (calls : list VectorF32_call) (x : VectorF32) : Prop :=
  v_1 x = latest (fun c => match c with VectorF32_with_first v => Some v | _ => None end) calls (v_1 start) /\
  v_2 x = latest (fun c => match c with VectorF32_with_second v => Some v | _ => None end) calls (v_2 start) /\
  v_3 x = latest (fun c => match c with VectorF32_with_third v => Some v | _ => None end) calls (v_3 start).
Definition APA_given (start : APA) (calls : list APA_call) (x : APA) : Prop :=
  apa_parameter x = latest (fun c => match c with APA_with_parameter v => Some v | _ => None end) calls (apa_parameter start) /\
  apa_status x = latest (fun c => match c with APA_with_status v => Some v | _ => None end) calls (apa_status start) /\
  apa_value x = latest (fun c => match c with APA_with_value v => Some v | _ => None end) calls (apa_value start).
Definition AcousticEmitterSystem_given (start : AcousticEmitterSystem) (calls : list AcousticEmitterSystem_call) (x : AcousticEmitterSystem) : Prop :=
  aes_name x = latest (fun c => match c with AcousticEmitterSystem_with_acoustic_system_name v => Some v | _ => None end) calls (aes_name start) /\
  aes_function x = latest (fun c => match c with AcousticEmitterSystem_with_function v => Some v | _ => None end) calls (aes_function start) /\
  aes_id x = latest (fun c => match c with AcousticEmitterSystem_with_acoustic_id_number v => Some v | _ => None end) calls (aes_id start).
Definition Beam_given (start : Beam) (calls : list Beam_call) (x : Beam) : Prop :=
  be_number x = latest (fun c => match c with Beam_with_number v => Some v | _ => None end) calls (be_number start) /\
  be_index x = latest (fun c => match c with Beam_with_parameter_index v => Some v | _ => None end) calls (be_index start) /\
  be_parameters x = latest (fun c => match c with Beam_with_parameter_data v => Some v | _ => None end) calls (be_parameters start) /\
  be_data x = latest (fun c => match c with Beam_with_beam_data v => Some v | _ => None end) calls (be_data start) /\
  be_function x = latest (fun c => match c with Beam_with_beam_function v => Some v | _ => None end) calls (be_function start) /\
  be_high_density x = latest (fun c => match c with Beam_with_high_density_track_jam v => Some v | _ => None end) calls (be_high_density start) /\
  be_status x = latest (fun c => match c with Beam_with_beam_status v => Some v | _ => None end) calls (be_status start) /\
  be_technique x = latest (fun c => match c with Beam_with_jamming_technique v => Some v | _ => None end) calls (be_technique start) /\
  be_tracks x = gathered (fun c => match c with Beam_with_track_jams v => Some (More v) | Beam_with_track_jam v => Some (More [v]) | _ => None end) calls (be_tracks start).
Definition ElectromagneticEmission_given (start : ElectromagneticEmission) (calls : list ElectromagneticEmission_call) (x : ElectromagneticEmission) : Prop :=
  EE_emitting_entity_id x = latest (fun c => match c with ElectromagneticEmission_with_emitting_entity_id v => Some v | _ => None end) calls (EE_emitting_entity_id start) /\
  EE_event_id x = latest (fun c => match c with ElectromagneticEmission_with_event_id v => Some v | _ => None end) calls (EE_event_id start) /\
  EE_state_update x = latest (fun c => match c with ElectromagneticEmission_with_state_update_indicator v => Some v | _ => None end) calls (EE_state_update start) /\
  EE_systems x = gathered (fun c => match c with ElectromagneticEmission_with_emitter_systems v => Some (More v) | ElectromagneticEmission_with_emitter_system v => Some (More [v]) | _ => None end) calls (EE_systems start).
Definition EmitterSystem_given (start : EmitterSystem) (calls : list EmitterSystem_call) (x : EmitterSystem) : Prop :=
  es_name x = latest (fun c => match c with EmitterSystem_with_name v => Some v | _ => None end) calls (es_name start) /\
  es_function x = latest (fun c => match c with EmitterSystem_with_function v => Some v | _ => None end) calls (es_function start) /\
  es_number x = latest (fun c => match c with EmitterSystem_with_number v => Some v | _ => None end) calls (es_number start) /\
  es_location x = latest (fun c => match c with EmitterSystem_with_location v => Some v | _ => None end) calls (es_location start) /\
  es_beams x = gathered (fun c => match c with EmitterSystem_with_beams v => Some (More v) | EmitterSystem_with_beam v => Some (More [v]) | _ => None end) calls (es_beams start).
Definition FundamentalParameterData_given (start : FundamentalParameterData) (calls : list FundamentalParameterData_call) (x : FundamentalParameterData) : Prop :=
  fp_frequency x = latest (fun c => match c with FundamentalParameterData_with_frequency v => Some v | _ => None end) calls (fp_frequency start) /\
  fp_range x = latest (fun c => match c with FundamentalParameterData_with_frequency_range v => Some v | _ => None end) calls (fp_range start) /\
  fp_power x = latest (fun c => match c with FundamentalParameterData_with_effective_power v => Some v | _ => None end) calls (fp_power start) /\
  fp_prf x = latest (fun c => match c with FundamentalParameterData_with_pulse_repetition_frequency v => Some v | _ => None end) calls (fp_prf start) /\
  fp_width x = latest (fun c => match c with FundamentalParameterData_with_pulse_width v => Some v | _ => None end) calls (fp_width start).
Definition JammingTechnique_given (start : JammingTechnique) (calls : list JammingTechnique_call) (x : JammingTechnique) : Prop :=
  jt_kind x = latest (fun c => match c with JammingTechnique_with_kind v => Some v | _ => None end) calls (jt_kind start) /\
  jt_category x = latest (fun c => match c with JammingTechnique_with_category v => Some v | _ => None end) calls (jt_category start) /\
  jt_subcategory x = latest (fun c => match c with JammingTechnique_with_subcategory v => Some v | _ => None end) calls (jt_subcategory start) /\
  jt_specific x = latest (fun c => match c with JammingTechnique_with_specific v => Some v | _ => None end) calls (jt_specific start).
Definition PropulsionPlant_given (start : PropulsionPlant) (calls : list PropulsionPlant_call) (x : PropulsionPlant) : Prop :=
  pp_configuration x = latest (fun c => match c with PropulsionPlant_with_configuration v => Some v | _ => None end) calls (pp_configuration start) /\
  pp_masker x = latest (fun c => match c with PropulsionPlant_with_hull_mounted_masker v => Some v | _ => None end) calls (pp_masker start).
Definition Shaft_given (start : Shaft) (calls : list Shaft_call) (x : Shaft) : Prop :=
  sh_current x = latest (fun c => match c with Shaft_with_current_rpm v => Some v | _ => None end) calls (sh_current start) /\
  sh_ordered x = latest (fun c => match c with Shaft_with_ordered_rpm v => Some v | _ => None end) calls (sh_ordered start) /\
  sh_rate x = latest (fun c => match c with Shaft_with_rpm_rate_of_change v => Some v | _ => None end) calls (sh_rate start).
Definition TrackJam_given (start : TrackJam) (calls : list TrackJam_call) (x : TrackJam) : Prop :=
  tj_entity x = latest (fun c => match c with TrackJam_with_entity_id v => Some v | _ => None end) calls (tj_entity start) /\
  tj_emitter x = latest (fun c => match c with TrackJam_with_emitter v => Some v | _ => None end) calls (tj_emitter start) /\
  tj_beam x = latest (fun c => match c with TrackJam_with_beam v => Some v | _ => None end) calls (tj_beam start).
Definition UABeam_given (start : UABeam) (calls : list UABeam_call) (x : UABeam) : Prop :=
  uab_length x = latest (fun c => match c with UABeam_with_beam_data_length v => Some v | _ => None end) calls (uab_length start) /\
  uab_id x = latest (fun c => match c with UABeam_with_beam_id_number v => Some v | _ => None end) calls (uab_id start) /\
  uab_data x = latest (fun c => match c with UABeam_with_fundamental_parameters v => Some v | _ => None end) calls (uab_data start).
Definition UAEmitterSystem_given (start : UAEmitterSystem) (calls : list UAEmitterSystem_call) (x : UAEmitterSystem) : Prop :=
  uas_system x = latest (fun c => match c with UAEmitterSystem_with_acoustic_emitter_system v => Some v | _ => None end) calls (uas_system start) /\
  uas_location x = latest (fun c => match c with UAEmitterSystem_with_location v => Some v | _ => None end) calls (uas_location start) /\
  uas_beams x = gathered (fun c => match c with UAEmitterSystem_with_beam v => Some (More [v]) | UAEmitterSystem_with_beams v => Some (Becomes v) | _ => None end) calls (uas_beams start).
Definition UAFundamental_given (start : UAFundamental) (calls : list UAFundamental_call) (x : UAFundamental) : Prop :=
  uaf_index x = latest (fun c => match c with UAFundamental_with_active_emission_parameter_index v => Some v | _ => None end) calls (uaf_index start) /\
  uaf_scan x = latest (fun c => match c with UAFundamental_with_scan_pattern v => Some v | _ => None end) calls (uaf_scan start) /\
  uaf_azc x = latest (fun c => match c with UAFundamental_with_beam_center_azimuth v => Some v | _ => None end) calls (uaf_azc start) /\
  uaf_azw x = latest (fun c => match c with UAFundamental_with_azimuthal_beamwidth v => Some v | _ => None end) calls (uaf_azw start) /\
  uaf_dec x = latest (fun c => match c with UAFundamental_with_beam_center_depression_elevation v => Some v | _ => None end) calls (uaf_dec start) /\
  uaf_dew x = latest (fun c => match c with UAFundamental_with_depression_elevation_beamwidth v => Some v | _ => None end) calls (uaf_dew start).
Definition UnderwaterAcoustic_given (start : UnderwaterAcoustic) (calls : list UnderwaterAcoustic_call) (x : UnderwaterAcoustic) : Prop :=
  UA_emitting_entity_id x = latest (fun c => match c with UnderwaterAcoustic_with_emitting_entity_id v => Some v | _ => None end) calls (UA_emitting_entity_id start) /\
  UA_event_id x = latest (fun c => match c with UnderwaterAcoustic_with_event_id v => Some v | _ => None end) calls (UA_event_id start) /\
  UA_state_change x = latest (fun c => match c with UnderwaterAcoustic_with_state_change_update_indicator v => Some v | _ => None end) calls (UA_state_change start) /\
  UA_passive_index x = latest (fun c => match c with UnderwaterAcoustic_with_passive_parameter_index v => Some v | _ => None end) calls (UA_passive_index start) /\
  UA_propulsion x = latest (fun c => match c with UnderwaterAcoustic_with_propulsion_plant_configuration v => Some v | _ => None end) calls (UA_propulsion start) /\
  UA_shafts x = gathered (fun c => match c with UnderwaterAcoustic_with_shaft v => Some (More [v]) | UnderwaterAcoustic_with_shafts v => Some (Becomes v) | _ => None end) calls (UA_shafts start) /\
  UA_apas x = gathered (fun c => match c with UnderwaterAcoustic_with_apa v => Some (More [v]) | UnderwaterAcoustic_with_apas v => Some (Becomes v) | _ => None end) calls (UA_apas start) /\
  UA_systems x = gathered (fun c => match c with UnderwaterAcoustic_with_emitter_system v => Some (More [v]) | UnderwaterAcoustic_with_emitter_systems v => Some (Becomes v) | _ => None end) calls (UA_systems start).
Definition AggregateState_given (start : AggregateState) (calls : list AggregateState_call) (x : AggregateState) : Prop :=
  AggregateState_aggregate_id x = latest (fun c => match c with AggregateState_with_aggregate_id v => Some v | _ => None end) calls (AggregateState_aggregate_id start) /\
  AggregateState_force_id x = latest (fun c => match c with AggregateState_with_force_id v => Some v | _ => None end) calls (AggregateState_force_id start) /\
  AggregateState_aggregate_state x = latest (fun c => match c with AggregateState_with_aggregate_state v => Some v | _ => None end) calls (AggregateState_aggregate_state start) /\
  AggregateState_aggregate_type x = latest (fun c => match c with AggregateState_with_aggregate_type v => Some v | _ => None end) calls (AggregateState_aggregate_type start) /\
  AggregateState_formation x = latest (fun c => match c with AggregateState_with_formation v => Some v | _ => None end) calls (AggregateState_formation start) /\
  AggregateState_marking x = latest (fun c => match c with AggregateState_with_aggregate_marking v => Some v | _ => None end) calls (AggregateState_marking start) /\
  AggregateState_dimensions x = latest (fun c => match c with AggregateState_with_dimensions v => Some v | _ => None end) calls (AggregateState_dimensions start) /\
  AggregateState_orientation x = latest (fun c => match c with AggregateState_with_orientation v => Some v | _ => None end) calls (AggregateState_orientation start) /\
  AggregateState_center_of_mass x = latest (fun c => match c with AggregateState_with_center_of_mass v => Some v | _ => None end) calls (AggregateState_center_of_mass start) /\
  AggregateState_velocity x = latest (fun c => match c with AggregateState_with_velocity v => Some v | _ => None end) calls (AggregateState_velocity start) /\
  AggregateState_aggregates x = gathered (fun c => match c with AggregateState_with_aggregate v => Some (More [v]) | AggregateState_with_aggregates v => Some (Becomes v) | _ => None end) calls (AggregateState_aggregates start) /\
  AggregateState_entities x = gathered (fun c => match c with AggregateState_with_entity v => Some (More [v]) | AggregateState_with_entities v => Some (Becomes v) | _ => None end) calls (AggregateState_entities start) /\
  AggregateState_silent_aggregates x = gathered (fun c => match c with AggregateState_with_silent_aggregate_system v => Some (More [v]) | AggregateState_with_silent_aggregate_systems v => Some (Becomes v) | _ => None end) calls (AggregateState_silent_aggregates start) /\
  AggregateState_silent_entities x = gathered (fun c => match c with AggregateState_with_silent_entity_system v => Some (More [v]) | AggregateState_with_silent_entity_systems v => Some (Becomes v) | _ => None end) calls (AggregateState_silent_entities start) /\
  AggregateState_variable_datums x = gathered (fun c => match c with AggregateState_with_variable_datum v => Some (More [v]) | AggregateState_with_variable_datums v => Some (Becomes v) | _ => None end) calls (AggregateState_variable_datums start).
Definition AggregateType_given (start : AggregateType) (calls : list AggregateType_call) (x : AggregateType) : Prop :=
  ag_kind x = latest (fun c => match c with AggregateType_with_aggregate_kind v => Some v | _ => None end) calls (ag_kind start) /\
  ag_domain x = latest (fun c => match c with AggregateType_with_domain v => Some v | _ => None end) calls (ag_domain start) /\
  ag_country x = latest (fun c => match c with AggregateType_with_country v => Some v | _ => None end) calls (ag_country start) /\
  ag_category x = latest (fun c => match c with AggregateType_with_category v => Some v | _ => None end) calls (ag_category start) /\
  ag_subcategory x = latest (fun c => match c with AggregateType_with_subcategory v => Some v | _ => None end) calls (ag_subcategory start) /\
  ag_specific x = latest (fun c => match c with AggregateType_with_specific v => Some v | _ => None end) calls (ag_specific start) /\
  ag_extra x = latest (fun c => match c with AggregateType_with_extra v => Some v | _ => None end) calls (ag_extra start).
Definition DrParameters_given (start : DrParameters) (calls : list DrParameters_call) (x : DrParameters) : Prop :=
  dr_algorithm x = latest (fun c => match c with DrParameters_with_algorithm v => Some v | _ => None end) calls (dr_algorithm start) /\
  dr_other x = latest (fun c => match c with DrParameters_with_parameters v => Some v | _ => None end) calls (dr_other start) /\
  dr_acceleration x = latest (fun c => match c with DrParameters_with_linear_acceleration v => Some v | _ => None end) calls (dr_acceleration start) /\
  dr_velocity x = latest (fun c => match c with DrParameters_with_angular_velocity v => Some v | _ => None end) calls (dr_velocity start).
Definition EntityState_given (start : EntityState) (calls : list EntityState_call) (x : EntityState) : Prop :=
  EntityState_entity_id x = latest (fun c => match c with EntityState_with_entity_id v => Some v | _ => None end) calls (EntityState_entity_id start) /\
  EntityState_force_id x = latest (fun c => match c with EntityState_with_force_id v => Some v | _ => None end) calls (EntityState_force_id start) /\
  EntityState_entity_type x = latest (fun c => match c with EntityState_with_entity_type v => Some v | _ => None end) calls (EntityState_entity_type start) /\
  EntityState_alternative_entity_type x = latest (fun c => match c with EntityState_with_alternative_entity_type v => Some v | _ => None end) calls (EntityState_alternative_entity_type start) /\
  EntityState_velocity x = latest (fun c => match c with EntityState_with_velocity v => Some v | _ => None end) calls (EntityState_velocity start) /\
  EntityState_location x = latest (fun c => match c with EntityState_with_location v => Some v | _ => None end) calls (EntityState_location start) /\
  EntityState_orientation x = latest (fun c => match c with EntityState_with_orientation v => Some v | _ => None end) calls (EntityState_orientation start) /\
  EntityState_appearance x = latest (fun c => match c with EntityState_with_appearance v => Some v | _ => None end) calls (EntityState_appearance start) /\
  EntityState_dr x = latest (fun c => match c with EntityState_with_dead_reckoning_parameters v => Some v | _ => None end) calls (EntityState_dr start) /\
  EntityState_marking x = latest (fun c => match c with EntityState_with_marking v => Some v | _ => None end) calls (EntityState_marking start) /\
  EntityState_capabilities x = latest (fun c => match c with EntityState_with_capabilities v => Some v | EntityState_with_capabilities_flags v1 v2 v3 v4 => Some (MkCapabilities ALand (bit v1 31 + bit v2 30 + bit v3 29 + bit v4 28)) | _ => None end) calls (EntityState_capabilities start) /\
  EntityState_variable_parameters x = gathered (fun c => match c with EntityState_with_variable_parameter v => Some (More [v]) | EntityState_with_variable_parameters v => Some (Becomes v) | _ => None end) calls (EntityState_variable_parameters start).
Definition SilentAggregate_given (start : SilentAggregate) (calls : list SilentAggregate_call) (x : SilentAggregate) : Prop :=
  sa_number x = latest (fun c => match c with SilentAggregate_with_number_of_aggregates v => Some v | _ => None end) calls (sa_number start) /\
  sa_type x = latest (fun c => match c with SilentAggregate_with_aggregate_type v => Some v | _ => None end) calls (sa_type start).
Definition SilentEntity_given (start : SilentEntity) (calls : list SilentEntity_call) (x : SilentEntity) : Prop :=
  DisEntity.se_number x = latest (fun c => match c with SilentEntity_with_number_of_entities v => Some v | _ => None end) calls (DisEntity.se_number start) /\
  se_type x = latest (fun c => match c with SilentEntity_with_entity_type v => Some v | _ => None end) calls (se_type start) /\
  se_appearances x = gathered (fun c => match c with SilentEntity_with_appearance v => Some (More [v]) | SilentEntity_with_appearances v => Some (Becomes v) | _ => None end) calls (se_appearances start).
Definition PduStatus_given (start : PduStatus) (calls : list PduStatus_call) (x : PduStatus) : Prop :=
  st_tei x = latest (fun c => match c with PduStatus_with_transferred_entity_indicator v => Some (Some v) | _ => None end) calls (st_tei start) /\
  st_lvc x = latest (fun c => match c with PduStatus_with_lvc_indicator v => Some (Some v) | _ => None end) calls (st_lvc start) /\
  st_cei x = latest (fun c => match c with PduStatus_with_coupled_extension_indicator v => Some (Some v) | _ => None end) calls (st_cei start) /\
  st_fti x = latest (fun c => match c with PduStatus_with_fire_type_indicator v => Some (Some v) | _ => None end) calls (st_fti start) /\
  st_dti x = latest (fun c => match c with PduStatus_with_detonation_type_indicator v => Some (Some v) | _ => None end) calls (st_dti start) /\
  st_rai x = latest (fun c => match c with PduStatus_with_radio_attached_indicator v => Some (Some v) | _ => None end) calls (st_rai start) /\
  st_iai x = latest (fun c => match c with PduStatus_with_intercom_attached_indicator v => Some (Some v) | _ => None end) calls (st_iai start) /\
  st_ism x = latest (fun c => match c with PduStatus_with_iff_simulation_mode v => Some (Some v) | _ => None end) calls (st_ism start) /\
  st_aii x = latest (fun c => match c with PduStatus_with_active_interrogation_indicator v => Some (Some v) | _ => None end) calls (st_aii start).
Definition FundOpData_given (start : FundOpData) (calls : list FundOpData_call) (x : FundOpData) : Prop :=
  fo_status x = latest (fun c => match c with FundOpData_with_system_status v => Some v | _ => None end) calls (fo_status start) /\
  fo_field1 x = latest (fun c => match c with FundOpData_with_data_field_1 v => Some v | _ => None end) calls (fo_field1 start) /\
  fo_layers x = latest (fun c => match c with FundOpData_with_information_layers v => Some v | _ => None end) calls (fo_layers start) /\
  fo_field2 x = latest (fun c => match c with FundOpData_with_data_field_2 v => Some v | _ => None end) calls (fo_field2 start) /\
  fo_p1 x = latest (fun c => match c with FundOpData_with_parameter_1 v => Some v | _ => None end) calls (fo_p1 start) /\
  fo_p2 x = latest (fun c => match c with FundOpData_with_parameter_2 v => Some v | _ => None end) calls (fo_p2 start) /\
  fo_p3 x = latest (fun c => match c with FundOpData_with_parameter_3 v => Some v | _ => None end) calls (fo_p3 start) /\
  fo_p4 x = latest (fun c => match c with FundOpData_with_parameter_4 v => Some v | _ => None end) calls (fo_p4 start) /\
  fo_p5 x = latest (fun c => match c with FundOpData_with_parameter_5 v => Some v | _ => None end) calls (fo_p5 start) /\
  fo_p6 x = latest (fun c => match c with FundOpData_with_parameter_6 v => Some v | _ => None end) calls (fo_p6 start).
Definition Iff_given (start : Iff) (calls : list Iff_call) (x : Iff) : Prop :=
  Iff_emitting_entity_id x = latest (fun c => match c with Iff_with_emitting_entity_id v => Some v | _ => None end) calls (Iff_emitting_entity_id start) /\
  Iff_event_id x = latest (fun c => match c with Iff_with_event_id v => Some v | _ => None end) calls (Iff_event_id start) /\
  Iff_antenna x = latest (fun c => match c with Iff_with_relative_antenna_location v => Some v | _ => None end) calls (Iff_antenna start) /\
  Iff_system_id x = latest (fun c => match c with Iff_with_system_id v => Some v | _ => None end) calls (Iff_system_id start) /\
  Iff_designator x = latest (fun c => match c with Iff_with_system_designator v => Some v | _ => None end) calls (Iff_designator start) /\
  Iff_specific x = latest (fun c => match c with Iff_with_system_specific_data v => Some v | _ => None end) calls (Iff_specific start) /\
  Iff_data x = latest (fun c => match c with Iff_with_fundamental_operational_data v => Some v | _ => None end) calls (Iff_data start) /\
  Iff_layer_2 x = latest (fun c => match c with Iff_with_layer_2 v => Some (Some v) | _ => None end) calls (Iff_layer_2 start) /\
  Iff_layer_3 x = latest (fun c => match c with Iff_with_layer_3 v => Some (Some v) | _ => None end) calls (Iff_layer_3 start) /\
  Iff_layer_4 x = latest (fun c => match c with Iff_with_layer_4 v => Some (Some v) | _ => None end) calls (Iff_layer_4 start) /\
  Iff_layer_5 x = latest (fun c => match c with Iff_with_layer_5 v => Some (Some v) | _ => None end) calls (Iff_layer_5 start).
Definition IffDataRecord_given (start : IffDataRecord) (calls : list IffDataRecord_call) (x : IffDataRecord) : Prop :=
  idr_type x = latest (fun c => match c with IffDataRecord_with_record_type v => Some v | _ => None end) calls (idr_type start) /\
  idr_fields x = latest (fun c => match c with IffDataRecord_with_record_specific_field v => Some v | _ => None end) calls (idr_fields start).
Definition IffParameter_given (start : IffParameter) (calls : list IffParameter_call) (x : IffParameter) : Prop :=
  ip_erp x = latest (fun c => match c with IffParameter_with_erp v => Some v | _ => None end) calls (ip_erp start) /\
  ip_frequency x = latest (fun c => match c with IffParameter_with_frequency v => Some v | _ => None end) calls (ip_frequency start) /\
  ip_pgrf x = latest (fun c => match c with IffParameter_with_pgrf v => Some v | _ => None end) calls (ip_pgrf start) /\
  ip_pulse_width x = latest (fun c => match c with IffParameter_with_pulse_width v => Some v | _ => None end) calls (ip_pulse_width start) /\
  ip_burst x = latest (fun c => match c with IffParameter_with_burst_length v => Some v | _ => None end) calls (ip_burst start) /\
  ip_modes x = latest (fun c => match c with IffParameter_with_applicable_modes v => Some v | _ => None end) calls (ip_modes start) /\
  ip_s1 x = latest (fun c => match c with IffParameter_with_system_specific_data v1 _ _ => Some v1 | _ => None end) calls (ip_s1 start) /\
  ip_s2 x = latest (fun c => match c with IffParameter_with_system_specific_data _ v2 _ => Some v2 | _ => None end) calls (ip_s2 start) /\
  ip_s3 x = latest (fun c => match c with IffParameter_with_system_specific_data _ _ v3 => Some v3 | _ => None end) calls (ip_s3 start).
Definition IffLayer2_given (start : IffLayer2) (calls : list IffLayer2_call) (x : IffLayer2) : Prop :=
  l2_header x = latest (fun c => match c with IffLayer2_with_header v => Some v | _ => None end) calls (l2_header start) /\
  l2_beam x = latest (fun c => match c with IffLayer2_with_beam_data v => Some v | _ => None end) calls (l2_beam start) /\
  l2_op1 x = latest (fun c => match c with IffLayer2_with_operational_parameter_1 v => Some v | _ => None end) calls (l2_op1 start) /\
  l2_op2 x = latest (fun c => match c with IffLayer2_with_operational_parameter_2 v => Some v | _ => None end) calls (l2_op2 start) /\
  l2_params x = gathered (fun c => match c with IffLayer2_with_iff_fundamental_parameter v => Some (More [v]) | IffLayer2_with_iff_fundamental_parameters v => Some (Becomes v) | _ => None end) calls (l2_params start).
Definition IffLayer3_given (start : IffLayer3) (calls : list IffLayer3_call) (x : IffLayer3) : Prop :=
  l3_header x = latest (fun c => match c with IffLayer3_with_header v => Some v | _ => None end) calls (l3_header start) /\
  l3_sim x = latest (fun c => match c with IffLayer3_with_reporting_simulation v => Some v | _ => None end) calls (l3_sim start) /\
  l3_basic x = latest (fun c => match c with IffLayer3_with_mode_5_basic_data v => Some v | _ => None end) calls (l3_basic start) /\
  l3_records x = latest (fun c => match c with IffLayer3_with_iff_data_specification v => Some v | _ => None end) calls (l3_records start).
Definition IffLayer4_given (start : IffLayer4) (calls : list IffLayer4_call) (x : IffLayer4) : Prop :=
  l4_header x = latest (fun c => match c with IffLayer4_with_header v => Some v | _ => None end) calls (l4_header start) /\
  l4_sim x = latest (fun c => match c with IffLayer4_with_reporting_simulation v => Some v | _ => None end) calls (l4_sim start) /\
  l4_basic x = latest (fun c => match c with IffLayer4_with_mode_s_basic_data v => Some v | _ => None end) calls (l4_basic start) /\
  l4_records x = latest (fun c => match c with IffLayer4_with_iff_data_specification v => Some v | _ => None end) calls (l4_records start).
Definition IffLayer5_given (start : IffLayer5) (calls : list IffLayer5_call) (x : IffLayer5) : Prop :=
  l5_header x = latest (fun c => match c with IffLayer5_with_header v => Some v | _ => None end) calls (l5_header start) /\
  l5_sim x = latest (fun c => match c with IffLayer5_with_reporting_simulation v => Some v | _ => None end) calls (l5_sim start) /\
  l5_layers x = latest (fun c => match c with IffLayer5_with_applicable_layers v => Some v | _ => None end) calls (l5_layers start) /\
  l5_category x = latest (fun c => match c with IffLayer5_with_data_category v => Some v | _ => None end) calls (l5_category start) /\
  l5_records x = latest (fun c => match c with IffLayer5_with_iff_data_specification v => Some v | _ => None end) calls (l5_records start).
Definition LayerHeader_given (start : LayerHeader) (calls : list LayerHeader_call) (x : LayerHeader) : Prop :=
  lh_number x = latest (fun c => match c with LayerHeader_with_layer_number v => Some v | _ => None end) calls (lh_number start) /\
  lh_specific x = latest (fun c => match c with LayerHeader_with_layer_specific_information v => Some v | _ => None end) calls (lh_specific start) /\
  lh_length x = latest (fun c => match c with LayerHeader_with_length v => Some v | _ => None end) calls (lh_length start).
Definition Mode5Interrogator_given (start : Mode5Interrogator) (calls : list Mode5Interrogator_call) (x : Mode5Interrogator) : Prop :=
  m5i_status x = latest (fun c => match c with Mode5Interrogator_with_status v => Some v | _ => None end) calls (m5i_status start) /\
  m5i_formats x = latest (fun c => match c with Mode5Interrogator_with_mode_5_message_formats_present v => Some v | _ => None end) calls (m5i_formats start) /\
  m5i_entity x = latest (fun c => match c with Mode5Interrogator_with_interrogated_entity_id v => Some v | _ => None end) calls (m5i_entity start).
Definition Mode5Transponder_given (start : Mode5Transponder) (calls : list Mode5Transponder_call) (x : Mode5Transponder) : Prop :=
  m5t_status x = latest (fun c => match c with Mode5Transponder_with_status v => Some v | _ => None end) calls (m5t_status start) /\
  m5t_pin x = latest (fun c => match c with Mode5Transponder_with_pin v => Some v | _ => None end) calls (m5t_pin start) /\
  m5t_formats x = latest (fun c => match c with Mode5Transponder_with_mode_5_message_formats_present v => Some v | _ => None end) calls (m5t_formats start) /\
  m5t_mode1 x = latest (fun c => match c with Mode5Transponder_with_enhanced_mode_1 v => Some v | _ => None end) calls (m5t_mode1 start) /\
  m5t_origin x = latest (fun c => match c with Mode5Transponder_with_national_origin v => Some v | _ => None end) calls (m5t_origin start) /\
  m5t_supplemental x = latest (fun c => match c with Mode5Transponder_with_supplemental_data v => Some v | _ => None end) calls (m5t_supplemental start) /\
  m5t_nav x = latest (fun c => match c with Mode5Transponder_with_navigation_source v => Some v | _ => None end) calls (m5t_nav start) /\
  m5t_merit x = latest (fun c => match c with Mode5Transponder_with_figure_of_merit v => Some v | _ => None end) calls (m5t_merit start).
Definition ModeSInterrogator_given (start : ModeSInterrogator) (calls : list ModeSInterrogator_call) (x : ModeSInterrogator) : Prop :=
  msi_status x = latest (fun c => match c with ModeSInterrogator_with_mode_s_interrogator_status v => Some v | _ => None end) calls (msi_status start) /\
  msi_levels x = latest (fun c => match c with ModeSInterrogator_with_mode_s_levels_present v => Some v | _ => None end) calls (msi_levels start).
Definition ModeSTransponder_given (start : ModeSTransponder) (calls : list ModeSTransponder_call) (x : ModeSTransponder) : Prop :=
  mst_status x = latest (fun c => match c with ModeSTransponder_with_status v => Some v | _ => None end) calls (mst_status start) /\
  mst_levels x = latest (fun c => match c with ModeSTransponder_with_levels_present v => Some v | _ => None end) calls (mst_levels start) /\
  mst_domain x = latest (fun c => match c with ModeSTransponder_with_aircraft_present_domain v => Some v | _ => None end) calls (mst_domain start) /\
  mst_id x = latest (fun c => match c with ModeSTransponder_with_aircraft_identification v => Some v | _ => None end) calls (mst_id start) /\
  mst_address x = latest (fun c => match c with ModeSTransponder_with_aircraft_address v => Some v | _ => None end) calls (mst_address start) /\
  mst_idtype x = latest (fun c => match c with ModeSTransponder_with_aircraft_identification_type v => Some v | _ => None end) calls (mst_idtype start) /\
  mst_dap x = latest (fun c => match c with ModeSTransponder_with_dap_source v => Some v | _ => None end) calls (mst_dap start) /\
  mst_altitude x = latest (fun c => match c with ModeSTransponder_with_altitude v => Some v | _ => None end) calls (mst_altitude start) /\
  mst_capability x = latest (fun c => match c with ModeSTransponder_with_capability_report v => Some v | _ => None end) calls (mst_capability start).
Definition SystemId_given (start : SystemId) (calls : list SystemId_call) (x : SystemId) : Prop :=
  si_type x = latest (fun c => match c with SystemId_with_system_type v => Some v | _ => None end) calls (si_type start) /\
  si_name x = latest (fun c => match c with SystemId_with_system_name v => Some v | _ => None end) calls (si_name start) /\
  si_mode x = latest (fun c => match c with SystemId_with_system_mode v => Some v | _ => None end) calls (si_mode start) /\
  si_change x = latest (fun c => match c with SystemId_with_change_options v => Some v | _ => None end) calls (si_change start).
Definition NamedLocationId_given (start : NamedLocationId) (calls : list NamedLocationId_call) (x : NamedLocationId) : Prop :=
  nl_name x = latest (fun c => match c with NamedLocationId_with_station_name v => Some v | _ => None end) calls (nl_name start) /\
  nl_number x = latest (fun c => match c with NamedLocationId_with_station_number v => Some v | _ => None end) calls (nl_number start).
Definition Relationship_given (start : Relationship) (calls : list Relationship_call) (x : Relationship) : Prop :=
  re_nature x = latest (fun c => match c with Relationship_with_nature v => Some v | _ => None end) calls (re_nature start) /\
  re_position x = latest (fun c => match c with Relationship_with_position v => Some v | _ => None end) calls (re_position start).
Definition Collision_given (start : Collision) (calls : list Collision_call) (x : Collision) : Prop :=
  Collision_issuing_entity_id x = latest (fun c => match c with Collision_with_issuing_entity_id v => Some v | _ => None end) calls (Collision_issuing_entity_id start) /\
  Collision_colliding_entity_id x = latest (fun c => match c with Collision_with_colliding_entity_id v => Some v | _ => None end) calls (Collision_colliding_entity_id start) /\
  Collision_event_id x = latest (fun c => match c with Collision_with_event_id v => Some v | _ => None end) calls (Collision_event_id start) /\
  Collision_collision_type x = latest (fun c => match c with Collision_with_collision_type v => Some v | _ => None end) calls (Collision_collision_type start) /\
  Collision_velocity x = latest (fun c => match c with Collision_with_velocity v => Some v | _ => None end) calls (Collision_velocity start) /\
  Collision_mass x = latest (fun c => match c with Collision_with_mass v => Some v | _ => None end) calls (Collision_mass start) /\
  Collision_location x = latest (fun c => match c with Collision_with_location v => Some v | _ => None end) calls (Collision_location start).
Definition CollisionElastic_given (start : CollisionElastic) (calls : list CollisionElastic_call) (x : CollisionElastic) : Prop :=
  CollisionElastic_issuing_entity_id x = latest (fun c => match c with CollisionElastic_with_issuing_entity_id v => Some v | _ => None end) calls (CollisionElastic_issuing_entity_id start) /\
  CollisionElastic_colliding_entity_id x = latest (fun c => match c with CollisionElastic_with_colliding_entity_id v => Some v | _ => None end) calls (CollisionElastic_colliding_entity_id start) /\
  CollisionElastic_event_id x = latest (fun c => match c with CollisionElastic_with_event_id v => Some v | _ => None end) calls (CollisionElastic_event_id start) /\
  CollisionElastic_velocity x = latest (fun c => match c with CollisionElastic_with_velocity v => Some v | _ => None end) calls (CollisionElastic_velocity start) /\
  CollisionElastic_mass x = latest (fun c => match c with CollisionElastic_with_mass v => Some v | _ => None end) calls (CollisionElastic_mass start) /\
  CollisionElastic_location x = latest (fun c => match c with CollisionElastic_with_location v => Some v | _ => None end) calls (CollisionElastic_location start) /\
  CollisionElastic_intermediate_result_xx x = latest (fun c => match c with CollisionElastic_with_intermediate_result_xx v => Some v | _ => None end) calls (CollisionElastic_intermediate_result_xx start) /\
  CollisionElastic_intermediate_result_xy x = latest (fun c => match c with CollisionElastic_with_intermediate_result_xy v => Some v | _ => None end) calls (CollisionElastic_intermediate_result_xy start) /\
  CollisionElastic_intermediate_result_xz x = latest (fun c => match c with CollisionElastic_with_intermediate_result_xz v => Some v | _ => None end) calls (CollisionElastic_intermediate_result_xz start) /\
  CollisionElastic_intermediate_result_yy x = latest (fun c => match c with CollisionElastic_with_intermediate_result_yy v => Some v | _ => None end) calls (CollisionElastic_intermediate_result_yy start) /\
  CollisionElastic_intermediate_result_yz x = latest (fun c => match c with CollisionElastic_with_intermediate_result_yz v => Some v | _ => None end) calls (CollisionElastic_intermediate_result_yz start) /\
  CollisionElastic_intermediate_result_zz x = latest (fun c => match c with CollisionElastic_with_intermediate_result_zz v => Some v | _ => None end) calls (CollisionElastic_intermediate_result_zz start) /\
  CollisionElastic_unit_surface_normal x = latest (fun c => match c with CollisionElastic_with_unit_surface_normal v => Some v | _ => None end) calls (CollisionElastic_unit_surface_normal start) /\
  CollisionElastic_coefficient_of_restitution x = latest (fun c => match c with CollisionElastic_with_coefficient_of_restitution v => Some v | _ => None end) calls (CollisionElastic_coefficient_of_restitution start).
Definition Designator_given (start : Designator) (calls : list Designator_call) (x : Designator) : Prop :=
  Designator_designating_entity_id x = latest (fun c => match c with Designator_with_designating_entity_id v => Some v | _ => None end) calls (Designator_designating_entity_id start) /\
  Designator_system_name x = latest (fun c => match c with Designator_with_system_name v => Some v | _ => None end) calls (Designator_system_name start) /\
  Designator_designated_entity_id x = latest (fun c => match c with Designator_with_designated_entity_id v => Some v | _ => None end) calls (Designator_designated_entity_id start) /\
  Designator_code x = latest (fun c => match c with Designator_with_code v => Some v | _ => None end) calls (Designator_code start) /\
  Designator_power x = latest (fun c => match c with Designator_with_power v => Some v | _ => None end) calls (Designator_power start) /\
  Designator_wavelength x = latest (fun c => match c with Designator_with_wavelength v => Some v | _ => None end) calls (Designator_wavelength start) /\
  Designator_spot_wrt_designated_entity x = latest (fun c => match c with Designator_with_spot_wrt_designated_entity v => Some v | _ => None end) calls (Designator_spot_wrt_designated_entity start) /\
  Designator_spot_location x = latest (fun c => match c with Designator_with_spot_location v => Some v | _ => None end) calls (Designator_spot_location start) /\
  Designator_dead_reckoning_algorithm x = latest (fun c => match c with Designator_with_dead_reckoning_algorithm v => Some v | _ => None end) calls (Designator_dead_reckoning_algorithm start) /\
  Designator_linear_acceleration x = latest (fun c => match c with Designator_with_linear_acceleration v => Some v | _ => None end) calls (Designator_linear_acceleration start).
Definition IsPartOf_given (start : IsPartOf) (calls : list IsPartOf_call) (x : IsPartOf) : Prop :=
  IsPartOf_originating_simulation_id x = latest (fun c => match c with IsPartOf_with_originating_simulation_id v => Some v | _ => None end) calls (IsPartOf_originating_simulation_id start) /\
  IsPartOf_receiving_entity_id x = latest (fun c => match c with IsPartOf_with_receiving_entity_id v => Some v | _ => None end) calls (IsPartOf_receiving_entity_id start) /\
  IsPartOf_relationship x = latest (fun c => match c with IsPartOf_with_relationship v => Some v | _ => None end) calls (IsPartOf_relationship start) /\
  IsPartOf_part_location x = latest (fun c => match c with IsPartOf_with_part_location v => Some v | _ => None end) calls (IsPartOf_part_location start) /\
  IsPartOf_named_location_id x = latest (fun c => match c with IsPartOf_with_named_location_id v => Some v | _ => None end) calls (IsPartOf_named_location_id start).
Definition Receiver_given (start : Receiver) (calls : list Receiver_call) (x : Receiver) : Prop :=
  Receiver_radio_reference_id x = latest (fun c => match c with Receiver_with_radio_reference_id v => Some v | _ => None end) calls (Receiver_radio_reference_id start) /\
  Receiver_radio_number x = latest (fun c => match c with Receiver_with_radio_number v => Some v | _ => None end) calls (Receiver_radio_number start) /\
  Receiver_receiver_state x = latest (fun c => match c with Receiver_with_receiver_state v => Some v | _ => None end) calls (Receiver_receiver_state start) /\
  Receiver_received_power x = latest (fun c => match c with Receiver_with_received_power v => Some v | _ => None end) calls (Receiver_received_power start) /\
  Receiver_transmitter_radio_reference_id x = latest (fun c => match c with Receiver_with_transmitter_radio_reference_id v => Some v | _ => None end) calls (Receiver_transmitter_radio_reference_id start) /\
  Receiver_transmitter_radio_number x = latest (fun c => match c with Receiver_with_transmitter_radio_number v => Some v | _ => None end) calls (Receiver_transmitter_radio_number start).
Definition RepairComplete_given (start : RepairComplete) (calls : list RepairComplete_call) (x : RepairComplete) : Prop :=
  RepairComplete_receiving_id x = latest (fun c => match c with RepairComplete_with_receiving_id v => Some v | _ => None end) calls (RepairComplete_receiving_id start) /\
  RepairComplete_repairing_id x = latest (fun c => match c with RepairComplete_with_repairing_id v => Some v | _ => None end) calls (RepairComplete_repairing_id start) /\
  RepairComplete_repair x = latest (fun c => match c with RepairComplete_with_repair v => Some v | _ => None end) calls (RepairComplete_repair start).
Definition RepairResponse_given (start : RepairResponse) (calls : list RepairResponse_call) (x : RepairResponse) : Prop :=
  RepairResponse_receiving_id x = latest (fun c => match c with RepairResponse_with_receiving_id v => Some v | _ => None end) calls (RepairResponse_receiving_id start) /\
  RepairResponse_repairing_id x = latest (fun c => match c with RepairResponse_with_repairing_id v => Some v | _ => None end) calls (RepairResponse_repairing_id start) /\
  RepairResponse_repair_result x = latest (fun c => match c with RepairResponse_with_repair_result v => Some v | _ => None end) calls (RepairResponse_repair_result start).
Definition ResupplyCancel_given (start : ResupplyCancel) (calls : list ResupplyCancel_call) (x : ResupplyCancel) : Prop :=
  ResupplyCancel_requesting_id x = latest (fun c => match c with ResupplyCancel_with_requesting_id v => Some v | _ => None end) calls (ResupplyCancel_requesting_id start) /\
  ResupplyCancel_servicing_id x = latest (fun c => match c with ResupplyCancel_with_servicing_id v => Some v | _ => None end) calls (ResupplyCancel_servicing_id start).
Definition ResupplyOffer_given (start : ResupplyOffer) (calls : list ResupplyOffer_call) (x : ResupplyOffer) : Prop :=
  ResupplyOffer_requesting_id x = latest (fun c => match c with ResupplyOffer_with_requesting_id v => Some v | _ => None end) calls (ResupplyOffer_requesting_id start) /\
  ResupplyOffer_servicing_id x = latest (fun c => match c with ResupplyOffer_with_servicing_id v => Some v | _ => None end) calls (ResupplyOffer_servicing_id start) /\
  ResupplyOffer_supplies x = gathered (fun c => match c with ResupplyOffer_with_supply v => Some (More [v]) | ResupplyOffer_with_supplies v => Some (Becomes v) | _ => None end) calls (ResupplyOffer_supplies start).
Definition ResupplyReceived_given (start : ResupplyReceived) (calls : list ResupplyReceived_call) (x : ResupplyReceived) : Prop :=
  ResupplyReceived_requesting_id x = latest (fun c => match c with ResupplyReceived_with_requesting_id v => Some v | _ => None end) calls (ResupplyReceived_requesting_id start) /\
  ResupplyReceived_servicing_id x = latest (fun c => match c with ResupplyReceived_with_servicing_id v => Some v | _ => None end) calls (ResupplyReceived_servicing_id start) /\
  ResupplyReceived_supplies x = gathered (fun c => match c with ResupplyReceived_with_supply v => Some (More [v]) | ResupplyReceived_with_supplies v => Some (Becomes v) | _ => None end) calls (ResupplyReceived_supplies start).
Definition ServiceRequest_given (start : ServiceRequest) (calls : list ServiceRequest_call) (x : ServiceRequest) : Prop :=
  ServiceRequest_requesting_id x = latest (fun c => match c with ServiceRequest_with_requesting_id v => Some v | _ => None end) calls (ServiceRequest_requesting_id start) /\
  ServiceRequest_servicing_id x = latest (fun c => match c with ServiceRequest_with_servicing_id v => Some v | _ => None end) calls (ServiceRequest_servicing_id start) /\
  ServiceRequest_service_type_requested x = latest (fun c => match c with ServiceRequest_with_service_type_requested v => Some v | _ => None end) calls (ServiceRequest_service_type_requested start) /\
  ServiceRequest_supplies x = gathered (fun c => match c with ServiceRequest_with_supply v => Some (More [v]) | ServiceRequest_with_supplies v => Some (Becomes v) | _ => None end) calls (ServiceRequest_supplies start).
Definition TransferOwnership_given (start : TransferOwnership) (calls : list TransferOwnership_call) (x : TransferOwnership) : Prop :=
  TransferOwnership_originating_id x = latest (fun c => match c with TransferOwnership_with_originating_id v => Some v | _ => None end) calls (TransferOwnership_originating_id start) /\
  TransferOwnership_receiving_id x = latest (fun c => match c with TransferOwnership_with_receiving_id v => Some v | _ => None end) calls (TransferOwnership_receiving_id start) /\
  TransferOwnership_request_id x = latest (fun c => match c with TransferOwnership_with_request_id v => Some v | _ => None end) calls (TransferOwnership_request_id start) /\
  TransferOwnership_required_reliability_service x = latest (fun c => match c with TransferOwnership_with_required_reliability_service v => Some v | _ => None end) calls (TransferOwnership_required_reliability_service start) /\
  TransferOwnership_transfer_type x = latest (fun c => match c with TransferOwnership_with_transfer_type v => Some v | _ => None end) calls (TransferOwnership_transfer_type start) /\
  TransferOwnership_transfer_entity_id x = latest (fun c => match c with TransferOwnership_with_transfer_entity_id v => Some v | _ => None end) calls (TransferOwnership_transfer_entity_id start) /\
  TransferOwnership_record_specification x = latest (fun c => match c with TransferOwnership_with_record_specification v => Some v | _ => None end) calls (TransferOwnership_record_specification start).
Definition BeamAntennaPattern_given (start : BeamAntennaPattern) (calls : list BeamAntennaPattern_call) (x : BeamAntennaPattern) : Prop :=
  bap_direction x = latest (fun c => match c with BeamAntennaPattern_with_beam_direction v => Some v | _ => None end) calls (bap_direction start) /\
  bap_azimuth x = latest (fun c => match c with BeamAntennaPattern_with_azimuth_beamwidth v => Some v | _ => None end) calls (bap_azimuth start) /\
  bap_elevation x = latest (fun c => match c with BeamAntennaPattern_with_elevation_beamwidth v => Some v | _ => None end) calls (bap_elevation start) /\
  bap_reference x = latest (fun c => match c with BeamAntennaPattern_with_reference_system v => Some v | _ => None end) calls (bap_reference start) /\
  bap_ez x = latest (fun c => match c with BeamAntennaPattern_with_e_z v => Some v | _ => None end) calls (bap_ez start) /\
  bap_ex x = latest (fun c => match c with BeamAntennaPattern_with_e_x v => Some v | _ => None end) calls (bap_ex start) /\
  bap_phase x = latest (fun c => match c with BeamAntennaPattern_with_phase v => Some v | _ => None end) calls (bap_phase start).
Definition IsGroupOf_given (start : IsGroupOf) (calls : list IsGroupOf_call) (x : IsGroupOf) : Prop :=
  IsGroupOf_group_id x = latest (fun c => match c with IsGroupOf_with_group_id v => Some v | _ => None end) calls (IsGroupOf_group_id start) /\
  IsGroupOf_category x = latest (fun c => match c with IsGroupOf_with_grouped_entity_category v => Some v | _ => None end) calls (IsGroupOf_category start) /\
  IsGroupOf_latitude x = latest (fun c => match c with IsGroupOf_with_group_reference_point v1 _ => Some v1 | _ => None end) calls (IsGroupOf_latitude start) /\
  IsGroupOf_longitude x = latest (fun c => match c with IsGroupOf_with_group_reference_point _ v2 => Some v2 | _ => None end) calls (IsGroupOf_longitude start) /\
  IsGroupOf_descriptions x = gathered (fun c => match c with IsGroupOf_with_description v => Some (More [v]) | IsGroupOf_with_descriptions v => Some (Becomes v) | _ => None end) calls (IsGroupOf_descriptions start).
Definition ModulationType_given (start : ModulationType) (calls : list ModulationType_call) (x : ModulationType) : Prop :=
  mt_spread x = latest (fun c => match c with ModulationType_with_spread_spectrum v => Some v | _ => None end) calls (mt_spread start) /\
  mt_major x = latest (fun c => match c with ModulationType_with_major_modulation v => Some v | _ => None end) calls (mt_major start) /\
  mt_system x = latest (fun c => match c with ModulationType_with_radio_system v => Some v | _ => None end) calls (mt_system start).
Definition SpreadSpectrum_given (start : SpreadSpectrum) (calls : list SpreadSpectrum_call) (x : SpreadSpectrum) : Prop :=
  ss_hopping x = latest (fun c => match c with SpreadSpectrum_with_frequency_hopping => Some true | _ => None end) calls (ss_hopping start) /\
  ss_noise x = latest (fun c => match c with SpreadSpectrum_with_pseudo_noise => Some true | _ => None end) calls (ss_noise start) /\
  ss_time x = latest (fun c => match c with SpreadSpectrum_with_time_hopping => Some true | _ => None end) calls (ss_time start).
Definition Transmitter_given (start : Transmitter) (calls : list Transmitter_call) (x : Transmitter) : Prop :=
  Transmitter_radio_reference_id x = latest (fun c => match c with Transmitter_with_radio_reference_id v => Some v | _ => None end) calls (Transmitter_radio_reference_id start) /\
  Transmitter_radio_number x = latest (fun c => match c with Transmitter_with_radio_number v => Some v | _ => None end) calls (Transmitter_radio_number start) /\
  Transmitter_radio_type x = latest (fun c => match c with Transmitter_with_radio_type v => Some v | _ => None end) calls (Transmitter_radio_type start) /\
  Transmitter_transmit_state x = latest (fun c => match c with Transmitter_with_transmit_state v => Some v | _ => None end) calls (Transmitter_transmit_state start) /\
  Transmitter_input_source x = latest (fun c => match c with Transmitter_with_input_source v => Some v | _ => None end) calls (Transmitter_input_source start) /\
  Transmitter_antenna_location x = latest (fun c => match c with Transmitter_with_antenna_location v => Some v | _ => None end) calls (Transmitter_antenna_location start) /\
  Transmitter_relative_antenna_location x = latest (fun c => match c with Transmitter_with_relative_antenna_location v => Some v | _ => None end) calls (Transmitter_relative_antenna_location start) /\
  Transmitter_antenna_pattern_type x = latest (fun c => match c with Transmitter_with_antenna_pattern_type v => Some v | _ => None end) calls (Transmitter_antenna_pattern_type start) /\
  Transmitter_frequency x = latest (fun c => match c with Transmitter_with_frequency v => Some v | _ => None end) calls (Transmitter_frequency start) /\
  Transmitter_bandwidth x = latest (fun c => match c with Transmitter_with_transmit_frequency_bandwidth v => Some v | _ => None end) calls (Transmitter_bandwidth start) /\
  Transmitter_power x = latest (fun c => match c with Transmitter_with_power v => Some v | _ => None end) calls (Transmitter_power start) /\
  Transmitter_modulation_type x = latest (fun c => match c with Transmitter_with_modulation_type v => Some v | _ => None end) calls (Transmitter_modulation_type start) /\
  Transmitter_crypto_system x = latest (fun c => match c with Transmitter_with_crypto_system v => Some v | _ => None end) calls (Transmitter_crypto_system start) /\
  Transmitter_crypto_key_id x = latest (fun c => match c with Transmitter_with_crypto_key_id v => Some v | _ => None end) calls (Transmitter_crypto_key_id start) /\
  Transmitter_modulation_parameters x = latest (fun c => match c with Transmitter_with_modulation_parameters v => Some (Some v) | _ => None end) calls (Transmitter_modulation_parameters start) /\
  Transmitter_antenna_pattern x = latest (fun c => match c with Transmitter_with_antenna_pattern v => Some (Some v) | _ => None end) calls (Transmitter_antenna_pattern start) /\
  Transmitter_vtps x = gathered (fun c => match c with Transmitter_with_variable_transmitter_parameters v => Some (Becomes v) | Transmitter_with_variable_transmitter_parameter v => Some (More [v]) | _ => None end) calls (Transmitter_vtps start).
Definition VTP_given (start : VTP) (calls : list VTP_call) (x : VTP) : Prop :=
  vtp_type x = latest (fun c => match c with VTP_with_record_type v => Some v | _ => None end) calls (vtp_type start) /\
  vtp_fields x = latest (fun c => match c with VTP_with_fields v => Some v | _ => None end) calls (vtp_fields start).
Definition Acknowledge_given (start : Acknowledge) (calls : list Acknowledge_call) (x : Acknowledge) : Prop :=
  Acknowledge_originating_id x = latest (fun c => match c with Acknowledge_with_origination_id v => Some v | _ => None end) calls (Acknowledge_originating_id start) /\
  Acknowledge_receiving_id x = latest (fun c => match c with Acknowledge_with_receiving_id v => Some v | _ => None end) calls (Acknowledge_receiving_id start) /\
  Acknowledge_acknowledge_flag x = latest (fun c => match c with Acknowledge_with_acknowledge_flag v => Some v | _ => None end) calls (Acknowledge_acknowledge_flag start) /\
  Acknowledge_response_flag x = latest (fun c => match c with Acknowledge_with_response_flag v => Some v | _ => None end) calls (Acknowledge_response_flag start) /\
  Acknowledge_request_id x = latest (fun c => match c with Acknowledge_with_request_id v => Some v | _ => None end) calls (Acknowledge_request_id start).
Definition AcknowledgeR_given (start : AcknowledgeR) (calls : list AcknowledgeR_call) (x : AcknowledgeR) : Prop :=
  AcknowledgeR_originating_id x = latest (fun c => match c with AcknowledgeR_with_origination_id v => Some v | _ => None end) calls (AcknowledgeR_originating_id start) /\
  AcknowledgeR_receiving_id x = latest (fun c => match c with AcknowledgeR_with_receiving_id v => Some v | _ => None end) calls (AcknowledgeR_receiving_id start) /\
  AcknowledgeR_acknowledge_flag x = latest (fun c => match c with AcknowledgeR_with_acknowledge_flag v => Some v | _ => None end) calls (AcknowledgeR_acknowledge_flag start) /\
  AcknowledgeR_response_flag x = latest (fun c => match c with AcknowledgeR_with_response_flag v => Some v | _ => None end) calls (AcknowledgeR_response_flag start) /\
  AcknowledgeR_request_id x = latest (fun c => match c with AcknowledgeR_with_request_id v => Some v | _ => None end) calls (AcknowledgeR_request_id start).
Definition ActionRequest_given (start : ActionRequest) (calls : list ActionRequest_call) (x : ActionRequest) : Prop :=
  ActionRequest_originating_id x = latest (fun c => match c with ActionRequest_with_origination_id v => Some v | _ => None end) calls (ActionRequest_originating_id start) /\
  ActionRequest_receiving_id x = latest (fun c => match c with ActionRequest_with_receiving_id v => Some v | _ => None end) calls (ActionRequest_receiving_id start) /\
  ActionRequest_request_id x = latest (fun c => match c with ActionRequest_with_request_id v => Some v | _ => None end) calls (ActionRequest_request_id start) /\
  ActionRequest_action_id x = latest (fun c => match c with ActionRequest_with_action_id v => Some v | _ => None end) calls (ActionRequest_action_id start) /\
  ActionRequest_fixed_datum_records x = latest (fun c => match c with ActionRequest_with_fixed_datums v => Some v | _ => None end) calls (ActionRequest_fixed_datum_records start) /\
  ActionRequest_variable_datum_records x = latest (fun c => match c with ActionRequest_with_variable_datums v => Some v | _ => None end) calls (ActionRequest_variable_datum_records start).
Definition ActionRequestR_given (start : ActionRequestR) (calls : list ActionRequestR_call) (x : ActionRequestR) : Prop :=
  ActionRequestR_originating_id x = latest (fun c => match c with ActionRequestR_with_origination_id v => Some v | _ => None end) calls (ActionRequestR_originating_id start) /\
  ActionRequestR_receiving_id x = latest (fun c => match c with ActionRequestR_with_receiving_id v => Some v | _ => None end) calls (ActionRequestR_receiving_id start) /\
  ActionRequestR_required_reliability_service x = latest (fun c => match c with ActionRequestR_with_required_reliability_service v => Some v | _ => None end) calls (ActionRequestR_required_reliability_service start) /\
  ActionRequestR_request_id x = latest (fun c => match c with ActionRequestR_with_request_id v => Some v | _ => None end) calls (ActionRequestR_request_id start) /\
  ActionRequestR_action_id x = latest (fun c => match c with ActionRequestR_with_action_id v => Some v | _ => None end) calls (ActionRequestR_action_id start) /\
  ActionRequestR_fixed_datum_records x = latest (fun c => match c with ActionRequestR_with_fixed_datums v => Some v | _ => None end) calls (ActionRequestR_fixed_datum_records start) /\
  ActionRequestR_variable_datum_records x = latest (fun c => match c with ActionRequestR_with_variable_datums v => Some v | _ => None end) calls (ActionRequestR_variable_datum_records start).
Definition ActionResponse_given (start : ActionResponse) (calls : list ActionResponse_call) (x : ActionResponse) : Prop :=
  ActionResponse_originating_id x = latest (fun c => match c with ActionResponse_with_origination_id v => Some v | _ => None end) calls (ActionResponse_originating_id start) /\
  ActionResponse_receiving_id x = latest (fun c => match c with ActionResponse_with_receiving_id v => Some v | _ => None end) calls (ActionResponse_receiving_id start) /\
  ActionResponse_request_id x = latest (fun c => match c with ActionResponse_with_request_id v => Some v | _ => None end) calls (ActionResponse_request_id start) /\
  ActionResponse_request_status x = latest (fun c => match c with ActionResponse_with_request_status v => Some v | _ => None end) calls (ActionResponse_request_status start) /\
  ActionResponse_fixed_datum_records x = latest (fun c => match c with ActionResponse_with_fixed_datums v => Some v | _ => None end) calls (ActionResponse_fixed_datum_records start) /\
  ActionResponse_variable_datum_records x = latest (fun c => match c with ActionResponse_with_variable_datums v => Some v | _ => None end) calls (ActionResponse_variable_datum_records start).
Definition ActionResponseR_given (start : ActionResponseR) (calls : list ActionResponseR_call) (x : ActionResponseR) : Prop :=
  ActionResponseR_originating_id x = latest (fun c => match c with ActionResponseR_with_origination_id v => Some v | _ => None end) calls (ActionResponseR_originating_id start) /\
  ActionResponseR_receiving_id x = latest (fun c => match c with ActionResponseR_with_receiving_id v => Some v | _ => None end) calls (ActionResponseR_receiving_id start) /\
  ActionResponseR_request_id x = latest (fun c => match c with ActionResponseR_with_request_id v => Some v | _ => None end) calls (ActionResponseR_request_id start) /\
  ActionResponseR_request_status x = latest (fun c => match c with ActionResponseR_with_request_status v => Some v | _ => None end) calls (ActionResponseR_request_status start) /\
  ActionResponseR_fixed_datum_records x = latest (fun c => match c with ActionResponseR_with_fixed_datums v => Some v | _ => None end) calls (ActionResponseR_fixed_datum_records start) /\
  ActionResponseR_variable_datum_records x = latest (fun c => match c with ActionResponseR_with_variable_datums v => Some v | _ => None end) calls (ActionResponseR_variable_datum_records start).
Definition Comment_given (start : Comment) (calls : list Comment_call) (x : Comment) : Prop :=
  Comment_originating_id x = latest (fun c => match c with Comment_with_origination_id v => Some v | _ => None end) calls (Comment_originating_id start) /\
  Comment_receiving_id x = latest (fun c => match c with Comment_with_receiving_id v => Some v | _ => None end) calls (Comment_receiving_id start) /\
  Comment_variable_datum_records x = latest (fun c => match c with Comment_with_variable_datums v => Some v | _ => None end) calls (Comment_variable_datum_records start).
Definition CommentR_given (start : CommentR) (calls : list CommentR_call) (x : CommentR) : Prop :=
  CommentR_originating_id x = latest (fun c => match c with CommentR_with_origination_id v => Some v | _ => None end) calls (CommentR_originating_id start) /\
  CommentR_receiving_id x = latest (fun c => match c with CommentR_with_receiving_id v => Some v | _ => None end) calls (CommentR_receiving_id start) /\
  CommentR_variable_datum_records x = latest (fun c => match c with CommentR_with_variable_datums v => Some v | _ => None end) calls (CommentR_variable_datum_records start).
Definition CreateEntity_given (start : CreateEntity) (calls : list CreateEntity_call) (x : CreateEntity) : Prop :=
  CreateEntity_originating_id x = latest (fun c => match c with CreateEntity_with_origination_id v => Some v | _ => None end) calls (CreateEntity_originating_id start) /\
  CreateEntity_receiving_id x = latest (fun c => match c with CreateEntity_with_receiving_id v => Some v | _ => None end) calls (CreateEntity_receiving_id start) /\
  CreateEntity_request_id x = latest (fun c => match c with CreateEntity_with_request_id v => Some v | _ => None end) calls (CreateEntity_request_id start).
Definition CreateEntityR_given (start : CreateEntityR) (calls : list CreateEntityR_call) (x : CreateEntityR) : Prop :=
  CreateEntityR_originating_id x = latest (fun c => match c with CreateEntityR_with_origination_id v => Some v | _ => None end) calls (CreateEntityR_originating_id start) /\
  CreateEntityR_receiving_id x = latest (fun c => match c with CreateEntityR_with_receiving_id v => Some v | _ => None end) calls (CreateEntityR_receiving_id start) /\
  CreateEntityR_required_reliability_service x = latest (fun c => match c with CreateEntityR_with_required_reliability_service v => Some v | _ => None end) calls (CreateEntityR_required_reliability_service start) /\
  CreateEntityR_request_id x = latest (fun c => match c with CreateEntityR_with_request_id v => Some v | _ => None end) calls (CreateEntityR_request_id start).
Definition Data_given (start : Data) (calls : list Data_call) (x : Data) : Prop :=
  Data_originating_id x = latest (fun c => match c with Data_with_origination_id v => Some v | _ => None end) calls (Data_originating_id start) /\
  Data_receiving_id x = latest (fun c => match c with Data_with_receiving_id v => Some v | _ => None end) calls (Data_receiving_id start) /\
  Data_request_id x = latest (fun c => match c with Data_with_request_id v => Some v | _ => None end) calls (Data_request_id start) /\
  Data_fixed_datum_records x = latest (fun c => match c with Data_with_fixed_datums v => Some v | _ => None end) calls (Data_fixed_datum_records start) /\
  Data_variable_datum_records x = latest (fun c => match c with Data_with_variable_datums v => Some v | _ => None end) calls (Data_variable_datum_records start).
Definition DataQuery_given (start : DataQuery) (calls : list DataQuery_call) (x : DataQuery) : Prop :=
  DataQuery_originating_id x = latest (fun c => match c with DataQuery_with_origination_id v => Some v | _ => None end) calls (DataQuery_originating_id start) /\
  DataQuery_receiving_id x = latest (fun c => match c with DataQuery_with_receiving_id v => Some v | _ => None end) calls (DataQuery_receiving_id start) /\
  DataQuery_request_id x = latest (fun c => match c with DataQuery_with_request_id v => Some v | _ => None end) calls (DataQuery_request_id start) /\
  DataQuery_time_interval x = latest (fun c => match c with DataQuery_with_time_interval v => Some v | _ => None end) calls (DataQuery_time_interval start) /\
  DataQuery_fixed_datum_records x = latest (fun c => match c with DataQuery_with_fixed_datums v => Some v | _ => None end) calls (DataQuery_fixed_datum_records start) /\
  DataQuery_variable_datum_records x = latest (fun c => match c with DataQuery_with_variable_datums v => Some v | _ => None end) calls (DataQuery_variable_datum_records start).
Definition DataQueryR_given (start : DataQueryR) (calls : list DataQueryR_call) (x : DataQueryR) : Prop :=
  DataQueryR_originating_id x = latest (fun c => match c with DataQueryR_with_origination_id v => Some v | _ => None end) calls (DataQueryR_originating_id start) /\
  DataQueryR_receiving_id x = latest (fun c => match c with DataQueryR_with_receiving_id v => Some v | _ => None end) calls (DataQueryR_receiving_id start) /\
  DataQueryR_required_reliability_service x = latest (fun c => match c with DataQueryR_with_required_reliability_service v => Some v | _ => None end) calls (DataQueryR_required_reliability_service start) /\
  DataQueryR_request_id x = latest (fun c => match c with DataQueryR_with_request_id v => Some v | _ => None end) calls (DataQueryR_request_id start) /\
  DataQueryR_time_interval x = latest (fun c => match c with DataQueryR_with_time_interval v => Some v | _ => None end) calls (DataQueryR_time_interval start) /\
  DataQueryR_fixed_datum_records x = latest (fun c => match c with DataQueryR_with_fixed_datums v => Some v | _ => None end) calls (DataQueryR_fixed_datum_records start) /\
  DataQueryR_variable_datum_records x = latest (fun c => match c with DataQueryR_with_variable_datums v => Some v | _ => None end) calls (DataQueryR_variable_datum_records start).
Definition DataR_given (start : DataR) (calls : list DataR_call) (x : DataR) : Prop :=
  DataR_originating_id x = latest (fun c => match c with DataR_with_origination_id v => Some v | _ => None end) calls (DataR_originating_id start) /\
  DataR_receiving_id x = latest (fun c => match c with DataR_with_receiving_id v => Some v | _ => None end) calls (DataR_receiving_id start) /\
  DataR_request_id x = latest (fun c => match c with DataR_with_request_id v => Some v | _ => None end) calls (DataR_request_id start) /\
  DataR_required_reliability_service x = latest (fun c => match c with DataR_with_required_reliability_service v => Some v | _ => None end) calls (DataR_required_reliability_service start) /\
  DataR_fixed_datum_records x = latest (fun c => match c with DataR_with_fixed_datums v => Some v | _ => None end) calls (DataR_fixed_datum_records start) /\
  DataR_variable_datum_records x = latest (fun c => match c with DataR_with_variable_datums v => Some v | _ => None end) calls (DataR_variable_datum_records start).
Definition EventReport_given (start : EventReport) (calls : list EventReport_call) (x : EventReport) : Prop :=
  EventReport_originating_id x = latest (fun c => match c with EventReport_with_origination_id v => Some v | _ => None end) calls (EventReport_originating_id start) /\
  EventReport_receiving_id x = latest (fun c => match c with EventReport_with_receiving_id v => Some v | _ => None end) calls (EventReport_receiving_id start) /\
  EventReport_event_type x = latest (fun c => match c with EventReport_with_event_type v => Some v | _ => None end) calls (EventReport_event_type start) /\
  EventReport_fixed_datum_records x = latest (fun c => match c with EventReport_with_fixed_datums v => Some v | _ => None end) calls (EventReport_fixed_datum_records start) /\
  EventReport_variable_datum_records x = latest (fun c => match c with EventReport_with_variable_datums v => Some v | _ => None end) calls (EventReport_variable_datum_records start).
Definition EventReportR_given (start : EventReportR) (calls : list EventReportR_call) (x : EventReportR) : Prop :=
  EventReportR_originating_id x = latest (fun c => match c with EventReportR_with_origination_id v => Some v | _ => None end) calls (EventReportR_originating_id start) /\
  EventReportR_receiving_id x = latest (fun c => match c with EventReportR_with_receiving_id v => Some v | _ => None end) calls (EventReportR_receiving_id start) /\
  EventReportR_event_type x = latest (fun c => match c with EventReportR_with_event_type v => Some v | _ => None end) calls (EventReportR_event_type start) /\
  EventReportR_fixed_datum_records x = latest (fun c => match c with EventReportR_with_fixed_datums v => Some v | _ => None end) calls (EventReportR_fixed_datum_records start) /\
  EventReportR_variable_datum_records x = latest (fun c => match c with EventReportR_with_variable_datums v => Some v | _ => None end) calls (EventReportR_variable_datum_records start).
Definition RecordQueryR_given (start : RecordQueryR) (calls : list RecordQueryR_call) (x : RecordQueryR) : Prop :=
  RecordQueryR_originating_id x = latest (fun c => match c with RecordQueryR_with_origination_id v => Some v | _ => None end) calls (RecordQueryR_originating_id start) /\
  RecordQueryR_receiving_id x = latest (fun c => match c with RecordQueryR_with_receiving_id v => Some v | _ => None end) calls (RecordQueryR_receiving_id start) /\
  RecordQueryR_request_id x = latest (fun c => match c with RecordQueryR_with_request_id v => Some v | _ => None end) calls (RecordQueryR_request_id start) /\
  RecordQueryR_required_reliability_service x = latest (fun c => match c with RecordQueryR_with_required_reliability_service v => Some v | _ => None end) calls (RecordQueryR_required_reliability_service start) /\
  RecordQueryR_event_type x = latest (fun c => match c with RecordQueryR_with_event_type v => Some v | _ => None end) calls (RecordQueryR_event_type start) /\
  RecordQueryR_time x = latest (fun c => match c with RecordQueryR_with_time v => Some v | _ => None end) calls (RecordQueryR_time start) /\
  RecordQueryR_record_query_specification x = latest (fun c => match c with RecordQueryR_with_record_query_specification v => Some v | _ => None end) calls (RecordQueryR_record_query_specification start).
Definition RecordR_given (start : RecordR) (calls : list RecordR_call) (x : RecordR) : Prop :=
  RecordR_originating_id x = latest (fun c => match c with RecordR_with_origination_id v => Some v | _ => None end) calls (RecordR_originating_id start) /\
  RecordR_receiving_id x = latest (fun c => match c with RecordR_with_receiving_id v => Some v | _ => None end) calls (RecordR_receiving_id start) /\
  RecordR_request_id x = latest (fun c => match c with RecordR_with_request_id v => Some v | _ => None end) calls (RecordR_request_id start) /\
  RecordR_required_reliability_service x = latest (fun c => match c with RecordR_with_required_reliability_service v => Some v | _ => None end) calls (RecordR_required_reliability_service start) /\
  RecordR_event_type x = latest (fun c => match c with RecordR_with_event_type v => Some v | _ => None end) calls (RecordR_event_type start) /\
  RecordR_response_serial_number x = latest (fun c => match c with RecordR_with_response_serial_number v => Some v | _ => None end) calls (RecordR_response_serial_number start) /\
  RecordR_record_specification x = latest (fun c => match c with RecordR_with_record_specification v => Some v | _ => None end) calls (RecordR_record_specification start).
Definition RemoveEntity_given (start : RemoveEntity) (calls : list RemoveEntity_call) (x : RemoveEntity) : Prop :=
  RemoveEntity_originating_id x = latest (fun c => match c with RemoveEntity_with_origination_id v => Some v | _ => None end) calls (RemoveEntity_originating_id start) /\
  RemoveEntity_receiving_id x = latest (fun c => match c with RemoveEntity_with_receiving_id v => Some v | _ => None end) calls (RemoveEntity_receiving_id start) /\
  RemoveEntity_request_id x = latest (fun c => match c with RemoveEntity_with_request_id v => Some v | _ => None end) calls (RemoveEntity_request_id start).
Definition RemoveEntityR_given (start : RemoveEntityR) (calls : list RemoveEntityR_call) (x : RemoveEntityR) : Prop :=
  RemoveEntityR_originating_id x = latest (fun c => match c with RemoveEntityR_with_origination_id v => Some v | _ => None end) calls (RemoveEntityR_originating_id start) /\
  RemoveEntityR_receiving_id x = latest (fun c => match c with RemoveEntityR_with_receiving_id v => Some v | _ => None end) calls (RemoveEntityR_receiving_id start) /\
  RemoveEntityR_required_reliability_service x = latest (fun c => match c with RemoveEntityR_with_required_reliability_service v => Some v | _ => None end) calls (RemoveEntityR_required_reliability_service start) /\
  RemoveEntityR_request_id x = latest (fun c => match c with RemoveEntityR_with_request_id v => Some v | _ => None end) calls (RemoveEntityR_request_id start).
Definition SetData_given (start : SetData) (calls : list SetData_call) (x : SetData) : Prop :=
  SetData_originating_id x = latest (fun c => match c with SetData_with_origination_id v => Some v | _ => None end) calls (SetData_originating_id start) /\
  SetData_receiving_id x = latest (fun c => match c with SetData_with_receiving_id v => Some v | _ => None end) calls (SetData_receiving_id start) /\
  SetData_request_id x = latest (fun c => match c with SetData_with_request_id v => Some v | _ => None end) calls (SetData_request_id start) /\
  SetData_fixed_datum_records x = latest (fun c => match c with SetData_with_fixed_datums v => Some v | _ => None end) calls (SetData_fixed_datum_records start) /\
  SetData_variable_datum_records x = latest (fun c => match c with SetData_with_variable_datums v => Some v | _ => None end) calls (SetData_variable_datum_records start).
Definition SetDataR_given (start : SetDataR) (calls : list SetDataR_call) (x : SetDataR) : Prop :=
  SetDataR_originating_id x = latest (fun c => match c with SetDataR_with_origination_id v => Some v | _ => None end) calls (SetDataR_originating_id start) /\
  SetDataR_receiving_id x = latest (fun c => match c with SetDataR_with_receiving_id v => Some v | _ => None end) calls (SetDataR_receiving_id start) /\
  SetDataR_required_reliability_service x = latest (fun c => match c with SetDataR_with_required_reliability_service v => Some v | _ => None end) calls (SetDataR_required_reliability_service start) /\
  SetDataR_request_id x = latest (fun c => match c with SetDataR_with_request_id v => Some v | _ => None end) calls (SetDataR_request_id start) /\
  SetDataR_fixed_datum_records x = latest (fun c => match c with SetDataR_with_fixed_datums v => Some v | _ => None end) calls (SetDataR_fixed_datum_records start) /\
  SetDataR_variable_datum_records x = latest (fun c => match c with SetDataR_with_variable_datums v => Some v | _ => None end) calls (SetDataR_variable_datum_records start).
Definition SetRecordR_given (start : SetRecordR) (calls : list SetRecordR_call) (x : SetRecordR) : Prop :=
  SetRecordR_originating_id x = latest (fun c => match c with SetRecordR_with_origination_id v => Some v | _ => None end) calls (SetRecordR_originating_id start) /\
  SetRecordR_receiving_id x = latest (fun c => match c with SetRecordR_with_receiving_id v => Some v | _ => None end) calls (SetRecordR_receiving_id start) /\
  SetRecordR_request_id x = latest (fun c => match c with SetRecordR_with_request_id v => Some v | _ => None end) calls (SetRecordR_request_id start) /\
  SetRecordR_required_reliability_service x = latest (fun c => match c with SetRecordR_with_required_reliability_service v => Some v | _ => None end) calls (SetRecordR_required_reliability_service start) /\
  SetRecordR_record_specification x = latest (fun c => match c with SetRecordR_with_record_specification v => Some v | _ => None end) calls (SetRecordR_record_specification start).
Definition StartResume_given (start : StartResume) (calls : list StartResume_call) (x : StartResume) : Prop :=
  StartResume_originating_id x = latest (fun c => match c with StartResume_with_origination_id v => Some v | _ => None end) calls (StartResume_originating_id start) /\
  StartResume_receiving_id x = latest (fun c => match c with StartResume_with_receiving_id v => Some v | _ => None end) calls (StartResume_receiving_id start) /\
  StartResume_real_world_time x = latest (fun c => match c with StartResume_with_real_world_time v => Some v | _ => None end) calls (StartResume_real_world_time start) /\
  StartResume_simulation_time x = latest (fun c => match c with StartResume_with_simulation_time v => Some v | _ => None end) calls (StartResume_simulation_time start) /\
  StartResume_request_id x = latest (fun c => match c with StartResume_with_request_id v => Some v | _ => None end) calls (StartResume_request_id start).
Definition StartResumeR_given (start : StartResumeR) (calls : list StartResumeR_call) (x : StartResumeR) : Prop :=
  StartResumeR_originating_id x = latest (fun c => match c with StartResumeR_with_origination_id v => Some v | _ => None end) calls (StartResumeR_originating_id start) /\
  StartResumeR_receiving_id x = latest (fun c => match c with StartResumeR_with_receiving_id v => Some v | _ => None end) calls (StartResumeR_receiving_id start) /\
  StartResumeR_real_world_time x = latest (fun c => match c with StartResumeR_with_real_world_time v => Some v | _ => None end) calls (StartResumeR_real_world_time start) /\
  StartResumeR_simulation_time x = latest (fun c => match c with StartResumeR_with_simulation_time v => Some v | _ => None end) calls (StartResumeR_simulation_time start) /\
  StartResumeR_required_reliability_service x = latest (fun c => match c with StartResumeR_with_required_reliability_service v => Some v | _ => None end) calls (StartResumeR_required_reliability_service start) /\
  StartResumeR_request_id x = latest (fun c => match c with StartResumeR_with_request_id v => Some v | _ => None end) calls (StartResumeR_request_id start).
Definition StopFreeze_given (start : StopFreeze) (calls : list StopFreeze_call) (x : StopFreeze) : Prop :=
  StopFreeze_originating_id x = latest (fun c => match c with StopFreeze_with_origination_id v => Some v | _ => None end) calls (StopFreeze_originating_id start) /\
  StopFreeze_receiving_id x = latest (fun c => match c with StopFreeze_with_receiving_id v => Some v | _ => None end) calls (StopFreeze_receiving_id start) /\
  StopFreeze_real_world_time x = latest (fun c => match c with StopFreeze_with_real_world_time v => Some v | _ => None end) calls (StopFreeze_real_world_time start) /\
  StopFreeze_reason x = latest (fun c => match c with StopFreeze_with_reason v => Some v | _ => None end) calls (StopFreeze_reason start) /\
  StopFreeze_frozen_behavior x = latest (fun c => match c with StopFreeze_with_frozen_behavior v => Some v | _ => None end) calls (StopFreeze_frozen_behavior start) /\
  StopFreeze_request_id x = latest (fun c => match c with StopFreeze_with_request_id v => Some v | _ => None end) calls (StopFreeze_request_id start).
Definition StopFreezeR_given (start : StopFreezeR) (calls : list StopFreezeR_call) (x : StopFreezeR) : Prop :=
  StopFreezeR_originating_id x = latest (fun c => match c with StopFreezeR_with_origination_id v => Some v | _ => None end) calls (StopFreezeR_originating_id start) /\
  StopFreezeR_receiving_id x = latest (fun c => match c with StopFreezeR_with_receiving_id v => Some v | _ => None end) calls (StopFreezeR_receiving_id start) /\
  StopFreezeR_real_world_time x = latest (fun c => match c with StopFreezeR_with_real_world_time v => Some v | _ => None end) calls (StopFreezeR_real_world_time start) /\
  StopFreezeR_reason x = latest (fun c => match c with StopFreezeR_with_reason v => Some v | _ => None end) calls (StopFreezeR_reason start) /\
  StopFreezeR_frozen_behavior x = latest (fun c => match c with StopFreezeR_with_frozen_behavior v => Some v | _ => None end) calls (StopFreezeR_frozen_behavior start) /\
  StopFreezeR_required_reliability_service x = latest (fun c => match c with StopFreezeR_with_required_reliability_service v => Some v | _ => None end) calls (StopFreezeR_required_reliability_service start) /\
  StopFreezeR_request_id x = latest (fun c => match c with StopFreezeR_with_request_id v => Some v | _ => None end) calls (StopFreezeR_request_id start).
Definition Attribute_given (start : Attribute) (calls : list Attribute_call) (x : Attribute) : Prop :=
  Attribute_address x = latest (fun c => match c with Attribute_with_originating_simulation_address v => Some v | _ => None end) calls (Attribute_address start) /\
  Attribute_pdu_type x = latest (fun c => match c with Attribute_with_record_pdu_type v => Some v | _ => None end) calls (Attribute_pdu_type start) /\
  Attribute_version x = latest (fun c => match c with Attribute_with_record_protocol_version v => Some v | _ => None end) calls (Attribute_version start) /\
  Attribute_master_type x = latest (fun c => match c with Attribute_with_master_attribute_record_type v => Some v | _ => None end) calls (Attribute_master_type start) /\
  Attribute_action_code x = latest (fun c => match c with Attribute_with_action_code v => Some v | _ => None end) calls (Attribute_action_code start) /\
  Attribute_sets x = gathered (fun c => match c with Attribute_with_attribute_record_set v => Some (More [v]) | Attribute_with_attribute_record_sets v => Some (Becomes v) | _ => None end) calls (Attribute_sets start).
Definition AttributeRecord_given (start : AttributeRecord) (calls : list AttributeRecord_call) (x : AttributeRecord) : Prop :=
  ar_type x = latest (fun c => match c with AttributeRecord_with_record_type v => Some v | _ => None end) calls (ar_type start) /\
  ar_fields x = latest (fun c => match c with AttributeRecord_with_specific_fields v => Some v | _ => None end) calls (ar_fields start).
Definition AttributeRecordSet_given (start : AttributeRecordSet) (calls : list AttributeRecordSet_call) (x : AttributeRecordSet) : Prop :=
  as_entity_id x = latest (fun c => match c with AttributeRecordSet_with_entity_id v => Some v | _ => None end) calls (as_entity_id start) /\
  as_records x = gathered (fun c => match c with AttributeRecordSet_with_attribute_records v => Some (Becomes v) | AttributeRecordSet_with_attribute_record v => Some (More [v]) | _ => None end) calls (as_records start).
Definition Detonation_given (start : Detonation) (calls : list Detonation_call) (x : Detonation) : Prop :=
  Detonation_source_entity_id x = latest (fun c => match c with Detonation_with_source_entity_id v => Some v | _ => None end) calls (Detonation_source_entity_id start) /\
  Detonation_target_entity_id x = latest (fun c => match c with Detonation_with_target_entity_id v => Some v | _ => None end) calls (Detonation_target_entity_id start) /\
  Detonation_exploding_entity_id x = latest (fun c => match c with Detonation_with_exploding_entity_id v => Some v | _ => None end) calls (Detonation_exploding_entity_id start) /\
  Detonation_event_id x = latest (fun c => match c with Detonation_with_event_id v => Some v | _ => None end) calls (Detonation_event_id start) /\
  Detonation_velocity x = latest (fun c => match c with Detonation_with_velocity v => Some v | _ => None end) calls (Detonation_velocity start) /\
  Detonation_world_location x = latest (fun c => match c with Detonation_with_world_location v => Some v | _ => None end) calls (Detonation_world_location start) /\
  Detonation_descriptor x = latest (fun c => match c with Detonation_with_descriptor v => Some v | Detonation_with_munition_descriptor v1 v2 => Some (DMunition v1 v2) | Detonation_with_expendable_descriptor v1 => Some (DExpendable v1) | Detonation_with_explosion_descriptor v1 v2 v3 => Some (DExplosion v1 v2 v3) | _ => None end) calls (Detonation_descriptor start) /\
  Detonation_entity_location x = latest (fun c => match c with Detonation_with_entity_location v => Some v | _ => None end) calls (Detonation_entity_location start) /\
  Detonation_result x = latest (fun c => match c with Detonation_with_detonation_result v => Some v | _ => None end) calls (Detonation_result start) /\
  Detonation_variable_parameters x = gathered (fun c => match c with Detonation_with_variable_parameter v => Some (More [v]) | Detonation_with_variable_parameters v => Some (Becomes v) | _ => None end) calls (Detonation_variable_parameters start).
Definition EntityStateUpdate_given (start : EntityStateUpdate) (calls : list EntityStateUpdate_call) (x : EntityStateUpdate) : Prop :=
  EntityStateUpdate_entity_id x = latest (fun c => match c with EntityStateUpdate_with_entity_id v => Some v | _ => None end) calls (EntityStateUpdate_entity_id start) /\
  EntityStateUpdate_velocity x = latest (fun c => match c with EntityStateUpdate_with_velocity v => Some v | _ => None end) calls (EntityStateUpdate_velocity start) /\
  EntityStateUpdate_location x = latest (fun c => match c with EntityStateUpdate_with_location v => Some v | _ => None end) calls (EntityStateUpdate_location start) /\
  EntityStateUpdate_orientation x = latest (fun c => match c with EntityStateUpdate_with_orientation v => Some v | _ => None end) calls (EntityStateUpdate_orientation start) /\
  EntityStateUpdate_appearance x = latest (fun c => match c with EntityStateUpdate_with_appearance v => Some v | _ => None end) calls (EntityStateUpdate_appearance start) /\
  EntityStateUpdate_variable_parameters x = gathered (fun c => match c with EntityStateUpdate_with_variable_parameter v => Some (More [v]) | EntityStateUpdate_with_variable_parameters v => Some (Becomes v) | _ => None end) calls (EntityStateUpdate_variable_parameters start).
Definition Fire_given (start : Fire) (calls : list Fire_call) (x : Fire) : Prop :=
  Fire_firing_entity_id x = latest (fun c => match c with Fire_with_firing_entity_id v => Some v | _ => None end) calls (Fire_firing_entity_id start) /\
  Fire_target_entity_id x = latest (fun c => match c with Fire_with_target_entity_id v => Some v | _ => None end) calls (Fire_target_entity_id start) /\
  Fire_entity_id x = latest (fun c => match c with Fire_with_entity_id v => Some v | _ => None end) calls (Fire_entity_id start) /\
  Fire_event_id x = latest (fun c => match c with Fire_with_event_id v => Some v | _ => None end) calls (Fire_event_id start) /\
  Fire_fire_mission_index x = latest (fun c => match c with Fire_with_fire_mission_index v => Some v | _ => None end) calls (Fire_fire_mission_index start) /\
  Fire_location_in_world x = latest (fun c => match c with Fire_with_location_in_world v => Some v | _ => None end) calls (Fire_location_in_world start) /\
  Fire_descriptor x = latest (fun c => match c with Fire_with_descriptor v => Some v | Fire_with_munition_descriptor v1 v2 => Some (DMunition v1 v2) | Fire_with_expendable_descriptor v1 => Some (DExpendable v1) | _ => None end) calls (Fire_descriptor start) /\
  Fire_velocity x = latest (fun c => match c with Fire_with_velocity v => Some v | _ => None end) calls (Fire_velocity start) /\
  Fire_range x = latest (fun c => match c with Fire_with_range v => Some v | _ => None end) calls (Fire_range start).
Definition Other_given (start : Other) (calls : list Other_call) (x : Other) : Prop :=
  Other_originating x = latest (fun c => match c with Other_with_origin v => Some v | _ => None end) calls (Other_originating start) /\
  Other_receiving x = latest (fun c => match c with Other_with_receiver v => Some v | _ => None end) calls (Other_receiving start) /\
  Other_body x = latest (fun c => match c with Other_with_body v => Some v | _ => None end) calls (Other_body start).
Definition PropulsionSystemData_given (start : PropulsionSystemData) (calls : list PropulsionSystemData_call) (x : PropulsionSystemData) : Prop :=
  ps_power x = latest (fun c => match c with PropulsionSystemData_with_power_setting v => Some v | _ => None end) calls (ps_power start) /\
  ps_rpm x = latest (fun c => match c with PropulsionSystemData_with_engine_rpm v => Some v | _ => None end) calls (ps_rpm start).
Definition Sees_given (start : Sees) (calls : list Sees_call) (x : Sees) : Prop :=
  Sees_originating_entity_id x = latest (fun c => match c with Sees_with_originating_entity_id v => Some v | _ => None end) calls (Sees_originating_entity_id start) /\
  Sees_infrared x = latest (fun c => match c with Sees_with_infrared_signature_representation_index v => Some v | _ => None end) calls (Sees_infrared start) /\
  Sees_acoustic x = latest (fun c => match c with Sees_with_acoustic_signature_representation_index v => Some v | _ => None end) calls (Sees_acoustic start) /\
  Sees_radar x = latest (fun c => match c with Sees_with_radar_cross_section_representation_index v => Some v | _ => None end) calls (Sees_radar start) /\
  Sees_propulsion_systems x = gathered (fun c => match c with Sees_with_propulsion_system v => Some (More [v]) | Sees_with_propulsion_systems v => Some (Becomes v) | _ => None end) calls (Sees_propulsion_systems start) /\
  Sees_vectoring_nozzle_systems x = gathered (fun c => match c with Sees_with_vectoring_nozzle_system v => Some (More [v]) | Sees_with_vectoring_nozzle_systems v => Some (Becomes v) | _ => None end) calls (Sees_vectoring_nozzle_systems start).
Definition Signal_given (start : Signal) (calls : list Signal_call) (x : Signal) : Prop :=
  Signal_radio_reference_id x = latest (fun c => match c with Signal_with_radio_reference_id v => Some v | _ => None end) calls (Signal_radio_reference_id start) /\
  Signal_radio_number x = latest (fun c => match c with Signal_with_radio_number v => Some v | _ => None end) calls (Signal_radio_number start) /\
  Signal_encoding_scheme x = latest (fun c => match c with Signal_with_encoding_scheme v => Some v | _ => None end) calls (Signal_encoding_scheme start) /\
  Signal_tdl_type x = latest (fun c => match c with Signal_with_tdl_type v => Some v | _ => None end) calls (Signal_tdl_type start) /\
  Signal_sample_rate x = latest (fun c => match c with Signal_with_sample_rate v => Some v | _ => None end) calls (Signal_sample_rate start) /\
  Signal_samples x = latest (fun c => match c with Signal_with_samples v => Some v | _ => None end) calls (Signal_samples start) /\
  Signal_data x = latest (fun c => match c with Signal_with_data v => Some v | _ => None end) calls (Signal_data start).
Definition VectoringNozzleSystemData_given (start : VectoringNozzleSystemData) (calls : list VectoringNozzleSystemData_call) (x : VectoringNozzleSystemData) : Prop :=
  vn_horizontal x = latest (fun c => match c with VectoringNozzleSystemData_with_horizontal_deflection_angle v => Some v | _ => None end) calls (vn_horizontal start) /\
  vn_vertical x = latest (fun c => match c with VectoringNozzleSystemData_with_vertical_deflection_angle v => Some v | _ => None end) calls (vn_vertical start).
Definition ChangeOptions_given (start : ChangeOptions) (calls : list ChangeOptions_call) (x : ChangeOptions) : Prop :=
  co_change x = latest (fun c => match c with ChangeOptions_set_change_indicator => Some true | _ => None end) calls (co_change start) /\
  co_specific_1 x = latest (fun c => match c with ChangeOptions_set_system_specific_field_1 => Some true | _ => None end) calls (co_specific_1 start) /\
  co_specific_2 x = latest (fun c => match c with ChangeOptions_set_system_specific_field_2 => Some true | _ => None end) calls (co_specific_2 start) /\
  co_heartbeat x = latest (fun c => match c with ChangeOptions_set_heartbeat_indicator => Some true | _ => None end) calls (co_heartbeat start) /\
  co_transponder x = latest (fun c => match c with ChangeOptions_set_transponder_interrogator_indicator => Some true | _ => None end) calls (co_transponder start) /\
  co_simulation x = latest (fun c => match c with ChangeOptions_set_simulation_mode => Some true | _ => None end) calls (co_simulation start) /\
  co_interactive x = latest (fun c => match c with ChangeOptions_set_interactive_capable => Some true | _ => None end) calls (co_interactive start) /\
  co_test x = latest (fun c => match c with ChangeOptions_set_test_mode => Some true | _ => None end) calls (co_test start).
Definition DapSource_given (start : DapSource) (calls : list DapSource_call) (x : DapSource) : Prop :=
  da_indicated x = latest (fun c => match c with DapSource_with_indicated_air_speed v => Some v | _ => None end) calls (da_indicated start) /\
  da_mach x = latest (fun c => match c with DapSource_with_mach_number v => Some v | _ => None end) calls (da_mach start) /\
  da_ground x = latest (fun c => match c with DapSource_with_ground_speed v => Some v | _ => None end) calls (da_ground start) /\
  da_heading x = latest (fun c => match c with DapSource_with_magnetic_heading v => Some v | _ => None end) calls (da_heading start) /\
  da_track_rate x = latest (fun c => match c with DapSource_with_track_angle_rate v => Some v | _ => None end) calls (da_track_rate start) /\
  da_track_angle x = latest (fun c => match c with DapSource_with_true_track_angle v => Some v | _ => None end) calls (da_track_angle start) /\
  da_true_airspeed x = latest (fun c => match c with DapSource_with_true_airspeed v => Some v | _ => None end) calls (da_true_airspeed start) /\
  da_vertical x = latest (fun c => match c with DapSource_with_vertical_rate v => Some v | _ => None end) calls (da_vertical start).
Definition EnhancedMode1Code_given (start : EnhancedMode1Code) (calls : list EnhancedMode1Code_call) (x : EnhancedMode1Code) : Prop :=
  em_element_1 x = latest (fun c => match c with EnhancedMode1Code_with_code_element_1_d v => Some v | _ => None end) calls (em_element_1 start) /\
  em_element_2 x = latest (fun c => match c with EnhancedMode1Code_with_code_element_2_c v => Some v | _ => None end) calls (em_element_2 start) /\
  em_element_3 x = latest (fun c => match c with EnhancedMode1Code_with_code_element_3_b v => Some v | _ => None end) calls (em_element_3 start) /\
  em_element_4 x = latest (fun c => match c with EnhancedMode1Code_with_code_element_4_a v => Some v | _ => None end) calls (em_element_4 start) /\
  em_on_off x = latest (fun c => match c with EnhancedMode1Code_with_on_off_status v => Some v | _ => None end) calls (em_on_off start) /\
  em_damage x = latest (fun c => match c with EnhancedMode1Code_with_damage_status v => Some v | _ => None end) calls (em_damage start) /\
  em_malfunction x = latest (fun c => match c with EnhancedMode1Code_with_malfunction_status v => Some v | _ => None end) calls (em_malfunction start).
Definition InformationLayers_given (start : InformationLayers) (calls : list InformationLayers_call) (x : InformationLayers) : Prop :=
  il_layer_1 x = latest (fun c => match c with InformationLayers_with_layer_1 v => Some v | _ => None end) calls (il_layer_1 start) /\
  il_layer_2 x = latest (fun c => match c with InformationLayers_with_layer_2 v => Some v | _ => None end) calls (il_layer_2 start) /\
  il_layer_3 x = latest (fun c => match c with InformationLayers_with_layer_3 v => Some v | _ => None end) calls (il_layer_3 start) /\
  il_layer_4 x = latest (fun c => match c with InformationLayers_with_layer_4 v => Some v | _ => None end) calls (il_layer_4 start) /\
  il_layer_5 x = latest (fun c => match c with InformationLayers_with_layer_5 v => Some v | _ => None end) calls (il_layer_5 start) /\
  il_layer_6 x = latest (fun c => match c with InformationLayers_with_layer_6 v => Some v | _ => None end) calls (il_layer_6 start) /\
  il_layer_7 x = latest (fun c => match c with InformationLayers_with_layer_7 v => Some v | _ => None end) calls (il_layer_7 start).
Definition Mode5InterrogatorStatus_given (start : Mode5InterrogatorStatus) (calls : list Mode5InterrogatorStatus_call) (x : Mode5InterrogatorStatus) : Prop :=
  is_mission x = latest (fun c => match c with Mode5InterrogatorStatus_with_iff_mission v => Some v | _ => None end) calls (is_mission start) /\
  is_formats_status x = latest (fun c => match c with Mode5InterrogatorStatus_with_mode_5_message_formats_status v => Some v | _ => None end) calls (is_formats_status start) /\
  is_on_off x = latest (fun c => match c with Mode5InterrogatorStatus_with_on_off_status v => Some v | _ => None end) calls (is_on_off start) /\
  is_damage x = latest (fun c => match c with Mode5InterrogatorStatus_with_damage_status v => Some v | _ => None end) calls (is_damage start) /\
  is_malfunction x = latest (fun c => match c with Mode5InterrogatorStatus_with_malfunction_status v => Some v | _ => None end) calls (is_malfunction start).
Definition MessageFormats_given (start : MessageFormats) (calls : list MessageFormats_call) (x : MessageFormats) : Prop :=
  mf_0 x = latest (fun c => match c with MessageFormats_with_message_format_0 v => Some v | _ => None end) calls (mf_0 start) /\
  mf_1 x = latest (fun c => match c with MessageFormats_with_message_format_1 v => Some v | _ => None end) calls (mf_1 start) /\
  mf_2 x = latest (fun c => match c with MessageFormats_with_message_format_2 v => Some v | _ => None end) calls (mf_2 start) /\
  mf_3 x = latest (fun c => match c with MessageFormats_with_message_format_3 v => Some v | _ => None end) calls (mf_3 start) /\
  mf_4 x = latest (fun c => match c with MessageFormats_with_message_format_4 v => Some v | _ => None end) calls (mf_4 start) /\
  mf_5 x = latest (fun c => match c with MessageFormats_with_message_format_5 v => Some v | _ => None end) calls (mf_5 start) /\
  mf_6 x = latest (fun c => match c with MessageFormats_with_message_format_6 v => Some v | _ => None end) calls (mf_6 start) /\
  mf_7 x = latest (fun c => match c with MessageFormats_with_message_format_7 v => Some v | _ => None end) calls (mf_7 start) /\
  mf_8 x = latest (fun c => match c with MessageFormats_with_message_format_8 v => Some v | _ => None end) calls (mf_8 start) /\
  mf_9 x = latest (fun c => match c with MessageFormats_with_message_format_9 v => Some v | _ => None end) calls (mf_9 start) /\
  mf_10 x = latest (fun c => match c with MessageFormats_with_message_format_10 v => Some v | _ => None end) calls (mf_10 start) /\
  mf_11 x = latest (fun c => match c with MessageFormats_with_message_format_11 v => Some v | _ => None end) calls (mf_11 start) /\
  mf_12 x = latest (fun c => match c with MessageFormats_with_message_format_12 v => Some v | _ => None end) calls (mf_12 start) /\
  mf_13 x = latest (fun c => match c with MessageFormats_with_message_format_13 v => Some v | _ => None end) calls (mf_13 start) /\
  mf_14 x = latest (fun c => match c with MessageFormats_with_message_format_14 v => Some v | _ => None end) calls (mf_14 start) /\
  mf_15 x = latest (fun c => match c with MessageFormats_with_message_format_15 v => Some v | _ => None end) calls (mf_15 start) /\
  mf_16 x = latest (fun c => match c with MessageFormats_with_message_format_16 v => Some v | _ => None end) calls (mf_16 start) /\
  mf_17 x = latest (fun c => match c with MessageFormats_with_message_format_17 v => Some v | _ => None end) calls (mf_17 start) /\
  mf_18 x = latest (fun c => match c with MessageFormats_with_message_format_18 v => Some v | _ => None end) calls (mf_18 start) /\
  mf_19 x = latest (fun c => match c with MessageFormats_with_message_format_19 v => Some v | _ => None end) calls (mf_19 start) /\
  mf_20 x = latest (fun c => match c with MessageFormats_with_message_format_20 v => Some v | _ => None end) calls (mf_20 start) /\
  mf_21 x = latest (fun c => match c with MessageFormats_with_message_format_21 v => Some v | _ => None end) calls (mf_21 start) /\
  mf_22 x = latest (fun c => match c with MessageFormats_with_message_format_22 v => Some v | _ => None end) calls (mf_22 start) /\
  mf_23 x = latest (fun c => match c with MessageFormats_with_message_format_23 v => Some v | _ => None end) calls (mf_23 start) /\
  mf_24 x = latest (fun c => match c with MessageFormats_with_message_format_24 v => Some v | _ => None end) calls (mf_24 start) /\
  mf_25 x = latest (fun c => match c with MessageFormats_with_message_format_25 v => Some v | _ => None end) calls (mf_25 start) /\
  mf_26 x = latest (fun c => match c with MessageFormats_with_message_format_26 v => Some v | _ => None end) calls (mf_26 start) /\
  mf_27 x = latest (fun c => match c with MessageFormats_with_message_format_27 v => Some v | _ => None end) calls (mf_27 start) /\
  mf_28 x = latest (fun c => match c with MessageFormats_with_message_format_28 v => Some v | _ => None end) calls (mf_28 start) /\
  mf_29 x = latest (fun c => match c with MessageFormats_with_message_format_29 v => Some v | _ => None end) calls (mf_29 start) /\
  mf_30 x = latest (fun c => match c with MessageFormats_with_message_format_30 v => Some v | _ => None end) calls (mf_30 start) /\
  mf_31 x = latest (fun c => match c with MessageFormats_with_message_format_31 v => Some v | _ => None end) calls (mf_31 start).
Definition Mode5TransponderStatus_given (start : Mode5TransponderStatus) (calls : list Mode5TransponderStatus_call) (x : Mode5TransponderStatus) : Prop :=
  ts_reply x = latest (fun c => match c with Mode5TransponderStatus_with_mode_5_reply v => Some v | _ => None end) calls (ts_reply start) /\
  ts_line_test x = latest (fun c => match c with Mode5TransponderStatus_with_line_test v => Some v | _ => None end) calls (ts_line_test start) /\
  ts_antenna x = latest (fun c => match c with Mode5TransponderStatus_with_antenna_selection v => Some v | _ => None end) calls (ts_antenna start) /\
  ts_crypto x = latest (fun c => match c with Mode5TransponderStatus_with_crypto_control v => Some v | _ => None end) calls (ts_crypto start) /\
  ts_lat_lon_alt x = latest (fun c => match c with Mode5TransponderStatus_with_lat_lon_alt_source v => Some v | _ => None end) calls (ts_lat_lon_alt start) /\
  ts_location_errors x = latest (fun c => match c with Mode5TransponderStatus_with_location_errors v => Some v | _ => None end) calls (ts_location_errors start) /\
  ts_platform x = latest (fun c => match c with Mode5TransponderStatus_with_platform_type v => Some v | _ => None end) calls (ts_platform start) /\
  ts_level x = latest (fun c => match c with Mode5TransponderStatus_with_mode_5_level_selection v => Some v | _ => None end) calls (ts_level start) /\
  ts_on_off x = latest (fun c => match c with Mode5TransponderStatus_with_on_off_status v => Some v | _ => None end) calls (ts_on_off start) /\
  ts_damage x = latest (fun c => match c with Mode5TransponderStatus_with_damage_status v => Some v | _ => None end) calls (ts_damage start) /\
  ts_malfunction x = latest (fun c => match c with Mode5TransponderStatus_with_malfunction_status v => Some v | _ => None end) calls (ts_malfunction start).
Definition SupplementalData_given (start : SupplementalData) (calls : list SupplementalData_call) (x : SupplementalData) : Prop :=
  sd_squitter x = latest (fun c => match c with SupplementalData_with_squitter_on_off_status v => Some v | _ => None end) calls (sd_squitter start) /\
  sd_level_2 x = latest (fun c => match c with SupplementalData_with_level_2_squitter_status v => Some v | _ => None end) calls (sd_level_2 start) /\
  sd_mission x = latest (fun c => match c with SupplementalData_with_iff_mission v => Some v | _ => None end) calls (sd_mission start).
Definition ModeSAltitude_given (start : ModeSAltitude) (calls : list ModeSAltitude_call) (x : ModeSAltitude) : Prop :=
  al_altitude x = latest (fun c => match c with ModeSAltitude_with_altitude v => Some v | _ => None end) calls (al_altitude start) /\
  al_resolution x = latest (fun c => match c with ModeSAltitude_with_resolution v => Some v | _ => None end) calls (al_resolution start).
Definition ModeSInterrogatorStatus_given (start : ModeSInterrogatorStatus) (calls : list ModeSInterrogatorStatus_call) (x : ModeSInterrogatorStatus) : Prop :=
  ss_on_off x = latest (fun c => match c with ModeSInterrogatorStatus_with_on_off_status v => Some v | _ => None end) calls (ss_on_off start) /\
  ss_transmit x = latest (fun c => match c with ModeSInterrogatorStatus_with_transmit_state v => Some v | _ => None end) calls (ss_transmit start) /\
  ss_damage x = latest (fun c => match c with ModeSInterrogatorStatus_with_damage_status v => Some v | _ => None end) calls (ss_damage start) /\
  ss_malfunction x = latest (fun c => match c with ModeSInterrogatorStatus_with_malfunction_status v => Some v | _ => None end) calls (ss_malfunction start).
Definition ModeSLevels_given (start : ModeSLevels) (calls : list ModeSLevels_call) (x : ModeSLevels) : Prop :=
  lv_1 x = latest (fun c => match c with ModeSLevels_with_level_1 v => Some v | _ => None end) calls (lv_1 start) /\
  lv_2_els x = latest (fun c => match c with ModeSLevels_with_level_2_els v => Some v | _ => None end) calls (lv_2_els start) /\
  lv_2_ehs x = latest (fun c => match c with ModeSLevels_with_level_2_ehs v => Some v | _ => None end) calls (lv_2_ehs start) /\
  lv_3 x = latest (fun c => match c with ModeSLevels_with_level_3 v => Some v | _ => None end) calls (lv_3 start) /\
  lv_4 x = latest (fun c => match c with ModeSLevels_with_level_4 v => Some v | _ => None end) calls (lv_4 start).
Definition ModeSTransponderStatus_given (start : ModeSTransponderStatus) (calls : list ModeSTransponderStatus_call) (x : ModeSTransponderStatus) : Prop :=
  st_squitter x = latest (fun c => match c with ModeSTransponderStatus_with_squitter_status v => Some v | _ => None end) calls (st_squitter start) /\
  st_type x = latest (fun c => match c with ModeSTransponderStatus_with_squitter_type v => Some v | _ => None end) calls (st_type start) /\
  st_source x = latest (fun c => match c with ModeSTransponderStatus_with_squitter_record_source v => Some v | _ => None end) calls (st_source start) /\
  st_airborne_position x = latest (fun c => match c with ModeSTransponderStatus_with_airborne_position_report_indicator v => Some v | _ => None end) calls (st_airborne_position start) /\
  st_airborne_velocity x = latest (fun c => match c with ModeSTransponderStatus_with_airborne_velocity_report_indicator v => Some v | _ => None end) calls (st_airborne_velocity start) /\
  st_surface_position x = latest (fun c => match c with ModeSTransponderStatus_with_surface_position_report_indicator v => Some v | _ => None end) calls (st_surface_position start) /\
  st_identification x = latest (fun c => match c with ModeSTransponderStatus_with_identification_report_indicator v => Some v | _ => None end) calls (st_identification start) /\
  st_event_driven x = latest (fun c => match c with ModeSTransponderStatus_with_event_driven_report_indicator v => Some v | _ => None end) calls (st_event_driven start) /\
  st_on_off x = latest (fun c => match c with ModeSTransponderStatus_with_on_off_status v => Some v | _ => None end) calls (st_on_off start) /\
  st_damage x = latest (fun c => match c with ModeSTransponderStatus_with_damage_status v => Some v | _ => None end) calls (st_damage start) /\
  st_malfunction x = latest (fun c => match c with ModeSTransponderStatus_with_malfunction_status v => Some v | _ => None end) calls (st_malfunction start).
Definition SystemStatus_given (start : SystemStatus) (calls : list SystemStatus_call) (x : SystemStatus) : Prop :=
  sy_on_off x = latest (fun c => match c with SystemStatus_with_system_on_off_status v => Some v | _ => None end) calls (sy_on_off start) /\
  sy_parameter_1 x = latest (fun c => match c with SystemStatus_with_parameter_1_capable v => Some v | _ => None end) calls (sy_parameter_1 start) /\
  sy_parameter_2 x = latest (fun c => match c with SystemStatus_with_parameter_2_capable v => Some v | _ => None end) calls (sy_parameter_2 start) /\
  sy_parameter_3 x = latest (fun c => match c with SystemStatus_with_parameter_3_capable v => Some v | _ => None end) calls (sy_parameter_3 start) /\
  sy_parameter_4 x = latest (fun c => match c with SystemStatus_with_parameter_4_capable v => Some v | _ => None end) calls (sy_parameter_4 start) /\
  sy_parameter_5 x = latest (fun c => match c with SystemStatus_with_parameter_5_capable v => Some v | _ => None end) calls (sy_parameter_5 start) /\
  sy_parameter_6 x = latest (fun c => match c with SystemStatus_with_parameter_6_capable v => Some v | _ => None end) calls (sy_parameter_6 start) /\
  sy_operational x = latest (fun c => match c with SystemStatus_with_operational_status v => Some v | _ => None end) calls (sy_operational start).
(** ** Record sets: the records of a set should all have the length that the set says *)
Definition RecordSet_given (start : RecordSet) (calls : list RecordSet_call) (x : RecordSet) : Prop :=
  rs_id x = latest (fun c => match c with RecordSet_with_record_id v => Some v | _ => None end) calls (rs_id start) /\
  rs_serial x = latest (fun c => match c with RecordSet_with_record_serial_number v => Some v | _ => None end) calls (rs_serial start) /\
  rs_records x = gathered (fun c => match c with RecordSet_with_record v => Some (More [v]) | RecordSet_with_records v => Some (Becomes v) | _ => None end) calls (rs_records start).
Definition records_in (c : RecordSet_call) : list (list Z) := match c with RecordSet_with_record v => [v] | RecordSet_with_records v => v | _ => [] end.
Definition uniform (x : RecordSet) : Prop := Forall (fun r => zlen r = rs_length_bytes x) (rs_records x).
(** ** Headers: the protocol family follows the PDU type (the family of a type is that of C08: IEEE 1278.1 table), the length counts the header *)
Definition PduHeader_given (start : PduHeader) (calls : list PduHeader_call) (x : PduHeader) : Prop :=
  h_version x = h_version start /\ h_exercise x = h_exercise start /\ h_padding x = h_padding start /\
  h_type x = latest (fun c => match c with PduHeader_with_pdu_type v => Some v | _ => None end) calls (h_type start) /\
  h_family x = latest (fun c => match c with PduHeader_with_pdu_type v => Some (family_of v) | _ => None end) calls (h_family start) /\
  h_time x = latest (fun c => match c with PduHeader_with_time_stamp v => Some v | _ => None end) calls (h_time start) /\
  h_length x = latest (fun c => match c with PduHeader_with_length v => Some (12 + v) | _ => None end) calls (h_length start) /\
  h_status x = latest (fun c => match c with PduHeader_with_pdu_status v => Some (Some v) | _ => None end) calls (h_status start).
