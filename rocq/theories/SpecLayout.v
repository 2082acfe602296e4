(** * Specification: where the fields of a DIS PDU lie on the wire

    The tables of IEEE 1278.1-2012 clause 7 (and 6 for the records), written down field by field: an integer (or the
    bit pattern of a float) in a number of octets, most significant first; padding; raw octets; text. The order and the widths
    are the standard's; the fields are named after the library's types. The order of single bits inside a packed octet or
    word is not specified here (those words are the library's own encodings). *)
From Coq Require Import ZArith List.
From Verif Require Import Base Utf8 DisCommon DisLists DisHeader DisSimman DisLogistics DisWarfare DisEntity DisEmission DisRadio DisIff DisPdu DisPacket.
Import ListNotations. Open Scope Z_scope.

(** ** Items of a layout *)
Inductive item :=
| Field (octets : nat) (sent : Z) (accepted : Z -> Prop)   (* a number: the one a writer puts, and those a reader may find *)
| Block (sent : list Z) (accepted : list Z -> Prop).       (* octets: those a writer puts, and those a reader may find *)
Definition Int (n : nat) (v : Z) : item := Field n v (fun w => w = v mod 256 ^ Z.of_nat n).
Definition Pad (n : nat) : item := Field n 0 (fun _ => True).
Definition Ignored (n : nat) (v : Z) : item := Field n v (fun _ => True).   (* lengths a reader need not look at *)
Definition Raw (l : list Z) : item := Block l (fun os => os = l).
Definition Fill (k : Z) : item := Block (repeat 0 (Z.to_nat k)) (fun os => zlen os = k).
(** [n] octets of text: padded with spaces by the library; read up to the last alphanumeric character *)
Definition Text (n : Z) (s : list Z) : item := Block (s ++ repeat 32 (Z.to_nat (n - zlen s))) (fun os => zlen os = n /\ sanitize_marking os = s).

Definition sent (x : item) : list Z := match x with Field n v _ => be n v | Block l _ => l end.
(** the octets a layout is sent as *)
Definition octets (l : list item) : list Z := concat (map sent l).
(** the octets a layout may be read from: one piece for each item *)
Definition accepts (x : item) (os : list Z) : Prop := match x with
  | Field n _ P => length os = n /\ P (be_val os)
  | Block _ P => P os end.
Definition shows (l : list item) (os : list Z) : Prop := exists pieces, os = concat pieces /\ Forall2 accepts l pieces.

(** ** Records (clause 6) *)
Definition L_address (a : SimulationAddress) := [Int 2 (sa_site a); Int 2 (sa_app a)].
Definition L_entity (e : EntityId) := L_address (ei_addr e) ++ [Int 2 (ei_id e)].
Definition L_event (e : EventId) := L_address (ev_addr e) ++ [Int 2 (ev_id e)].
Definition L_vector (v : VectorF32) := [Int 4 (v_1 v); Int 4 (v_2 v); Int 4 (v_3 v)].
Definition L_world (l : Location) := [Int 8 (loc_x l); Int 8 (loc_y l); Int 8 (loc_z l)].
Definition L_angles (o : Orientation) := [Int 4 (or_psi o); Int 4 (or_theta o); Int 4 (or_phi o)].
Definition L_type (t : EntityType) :=
  [Int 1 (et_kind t); Int 1 (et_domain t); Int 2 (et_country t); Int 1 (et_category t); Int 1 (et_subcategory t); Int 1 (et_specific t); Int 1 (et_extra t)].
Definition L_descriptor (d : DescriptorRecord) := match d with
  | DMunition t m => L_type t ++ [Int 2 (md_warhead m); Int 2 (md_fuse m); Int 2 (md_quantity m); Int 2 (md_rate m)]
  | DExpendable t => L_type t ++ [Pad 8]
  | DExplosion t material force => L_type t ++ [Int 2 material; Pad 2; Int 4 force] end.
Definition L_clock (c : ClockTime) := [Int 4 (ct_hour c); Int 4 (ct_past c)].
Definition L_fixed (d : FixedDatum) := [Int 4 (fd_id d); Int 4 (fd_value d)].
(** length in bits; filled up to a multiple of 64 bits *)
Definition L_variable (d : VariableDatum) := let n := zlen (vd_value d) in
  [Int 4 (vd_id d); Field 4 (8 * n) (fun bits => bits / 8 = n); Raw (vd_value d); Fill ((- n) mod 8)].
Definition L_datums (f : list FixedDatum) (v : list VariableDatum) :=
  [Int 4 (zlen f); Int 4 (zlen v)] ++ flat_map L_fixed f ++ flat_map L_variable v.
Definition L_ids (f v : list Z) := [Int 4 (zlen f); Int 4 (zlen v)] ++ map (Int 4) f ++ map (Int 4) v.
Definition L_parameter (v : VariableParameter) := match v with
  | VPArticulated x => [Int 1 0; Int 1 (ap_change x); Int 2 (ap_attachment x); Int 4 (ap_class x + ap_metric x); Int 4 (ap_value x); Pad 4]
  | VPAttached x => [Int 1 1; Int 1 (at_detached x); Int 2 (at_attachment x); Int 4 (at_parameter x)] ++ L_type (at_type x)
  | VPSeparation x => [Int 1 2; Int 1 (se_reason x); Int 1 (se_pre x); Pad 1] ++ L_entity (se_parent x) ++ [Pad 2; Int 2 (se_station x); Int 2 (DisCommon.se_number x)]
  | VPEntityType x => [Int 1 3; Int 1 (etp_change x)] ++ L_type (etp_type x) ++ [Pad 2; Pad 4]
  | VPEntityAssociation x => [Int 1 4; Int 1 (ea_change x); Int 1 (ea_status x); Int 1 (ea_type x)] ++ L_entity (ea_entity x) ++
      [Int 2 (ea_station x); Int 1 (ea_connection x); Int 1 (ea_member x); Int 2 (ea_group x)]
  | VPUnspecified t b => [Int 1 t; Raw b] end.
Definition L_beam_data (b : BeamData) := [Int 4 (bd_azc b); Int 4 (bd_azs b); Int 4 (bd_elc b); Int 4 (bd_els b); Int 4 (bd_sync b)].
Definition L_supply (s : SupplyQuantity) := L_type (sq_type s) ++ [Int 4 (sq_quantity s)].
(** record length in bits, number of records, the records, filled up to a multiple of 64 bits *)
Definition L_record_set (r : RecordSet) :=
  [Int 4 (rs_id r); Int 4 (rs_serial r); Pad 4; Field 2 (8 * rs_length_bytes r) (fun bits => rs_records r <> [] -> (bits + 7) / 8 = rs_length_bytes r);
   Int 2 (zlen (rs_records r))] ++ map Raw (rs_records r) ++ [Fill ((- zlen (concat (rs_records r))) mod 8)].
Definition L_records (l : list RecordSet) := [Int 4 (zlen l)] ++ flat_map L_record_set l.

(** ** Bodies (clause 7) *)
Definition L_pair (a b : EntityId) := L_entity a ++ L_entity b.
(** in version 6 only the first four bits are in use *)
Definition capabilities_word (version kind word read : Z) : Prop :=
  if version =? 7 then kind <> 0 -> read = word else read / 268435456 * 268435456 = word.
Definition L_entity_state (version : Z) (x : EntityState) :=
  L_entity (EntityState_entity_id x) ++ [Int 1 (EntityState_force_id x); Int 1 (zlen (EntityState_variable_parameters x))] ++
  L_type (EntityState_entity_type x) ++ L_type (EntityState_alternative_entity_type x) ++ L_vector (EntityState_velocity x) ++
  L_world (EntityState_location x) ++ L_angles (EntityState_orientation x) ++ [Int 4 (ea_word (EntityState_appearance x))] ++
  [Int 1 (dr_algorithm (EntityState_dr x))] ++
  (match dr_other (EntityState_dr x) with
   | DrNone b => [Raw b]
   | DrEuler yaw pitch roll => [Ignored 1 1; Pad 2; Int 4 yaw; Int 4 pitch; Int 4 roll]
   | DrQuaternion u0 u1 u2 u3 => [Ignored 1 2; Int 2 u0; Int 4 u1; Int 4 u2; Int 4 u3] end) ++
  L_vector (dr_acceleration (EntityState_dr x)) ++ L_vector (dr_velocity (EntityState_dr x)) ++
  [Int 1 (mk_charset (EntityState_marking x)); Text 11 (mk_string (EntityState_marking x));
   Field 4 (ec_word (EntityState_capabilities x)) (capabilities_word version (et_kind (EntityState_entity_type x)) (ec_word (EntityState_capabilities x)))] ++
  flat_map L_parameter (EntityState_variable_parameters x).
Definition L_fire (x : Fire) :=
  L_pair (Fire_firing_entity_id x) (Fire_target_entity_id x) ++ L_entity (Fire_entity_id x) ++ L_event (Fire_event_id x) ++
  [Int 4 (Fire_fire_mission_index x)] ++ L_world (Fire_location_in_world x) ++ L_descriptor (Fire_descriptor x) ++
  L_vector (Fire_velocity x) ++ [Int 4 (Fire_range x)].
Definition L_detonation (x : Detonation) :=
  L_pair (Detonation_source_entity_id x) (Detonation_target_entity_id x) ++ L_entity (Detonation_exploding_entity_id x) ++ L_event (Detonation_event_id x) ++
  L_vector (Detonation_velocity x) ++ L_world (Detonation_world_location x) ++ L_descriptor (Detonation_descriptor x) ++ L_vector (Detonation_entity_location x) ++
  [Int 1 (Detonation_result x); Int 1 (zlen (Detonation_variable_parameters x)); Pad 2] ++ flat_map L_parameter (Detonation_variable_parameters x).
Definition L_collision (x : Collision) :=
  L_pair (Collision_issuing_entity_id x) (Collision_colliding_entity_id x) ++ L_event (Collision_event_id x) ++ [Int 1 (Collision_collision_type x); Pad 1] ++
  L_vector (Collision_velocity x) ++ [Int 4 (Collision_mass x)] ++ L_vector (Collision_location x).
Definition L_collision_elastic (x : CollisionElastic) :=
  L_pair (CollisionElastic_issuing_entity_id x) (CollisionElastic_colliding_entity_id x) ++ L_event (CollisionElastic_event_id x) ++ [Pad 2] ++
  L_vector (CollisionElastic_velocity x) ++ [Int 4 (CollisionElastic_mass x)] ++ L_vector (CollisionElastic_location x) ++
  [Int 4 (CollisionElastic_intermediate_result_xx x); Int 4 (CollisionElastic_intermediate_result_xy x); Int 4 (CollisionElastic_intermediate_result_xz x);
   Int 4 (CollisionElastic_intermediate_result_yy x); Int 4 (CollisionElastic_intermediate_result_yz x); Int 4 (CollisionElastic_intermediate_result_zz x)] ++
  L_vector (CollisionElastic_unit_surface_normal x) ++ [Int 4 (CollisionElastic_coefficient_of_restitution x)].
Definition L_entity_state_update (x : EntityStateUpdate) :=
  L_entity (EntityStateUpdate_entity_id x) ++ [Pad 1; Int 1 (zlen (EntityStateUpdate_variable_parameters x))] ++ L_vector (EntityStateUpdate_velocity x) ++
  L_world (EntityStateUpdate_location x) ++ L_angles (EntityStateUpdate_orientation x) ++ [Int 4 (ea_word (EntityStateUpdate_appearance x))] ++
  flat_map L_parameter (EntityStateUpdate_variable_parameters x).
Definition L_attribute_record (r : AttributeRecord) := let n := 6 + zlen (ar_fields r) in
  [Int 4 (ar_type r); Int 2 (n + (- n) mod 8); Raw (ar_fields r); Fill ((- n) mod 8)].
Definition L_attribute (x : Attribute) :=
  L_address (Attribute_address x) ++ [Pad 4; Pad 2; Int 1 (Attribute_pdu_type x); Int 1 (Attribute_version x); Int 4 (Attribute_master_type x);
    Int 1 (Attribute_action_code x); Pad 1; Int 2 (zlen (Attribute_sets x))] ++
  flat_map (fun s => L_entity (as_entity_id s) ++ [Int 2 (zlen (as_records s))] ++ flat_map L_attribute_record (as_records s)) (Attribute_sets x).
(** logistics *)
Definition L_service_request (x : ServiceRequest) := L_pair (ServiceRequest_requesting_id x) (ServiceRequest_servicing_id x) ++
  [Int 1 (ServiceRequest_service_type_requested x); Int 1 (zlen (ServiceRequest_supplies x)); Pad 2] ++ flat_map L_supply (ServiceRequest_supplies x).
Definition L_resupply_offer (x : ResupplyOffer) := L_pair (ResupplyOffer_requesting_id x) (ResupplyOffer_servicing_id x) ++
  [Int 1 (zlen (ResupplyOffer_supplies x)); Pad 1; Pad 2] ++ flat_map L_supply (ResupplyOffer_supplies x).
Definition L_resupply_received (x : ResupplyReceived) := L_pair (ResupplyReceived_requesting_id x) (ResupplyReceived_servicing_id x) ++
  [Int 1 (zlen (ResupplyReceived_supplies x)); Pad 1; Pad 2] ++ flat_map L_supply (ResupplyReceived_supplies x).
Definition L_resupply_cancel (x : ResupplyCancel) := L_pair (ResupplyCancel_requesting_id x) (ResupplyCancel_servicing_id x).
Definition L_repair_complete (x : RepairComplete) := L_pair (RepairComplete_receiving_id x) (RepairComplete_repairing_id x) ++ [Int 2 (RepairComplete_repair x); Pad 2].
Definition L_repair_response (x : RepairResponse) := L_pair (RepairResponse_receiving_id x) (RepairResponse_repairing_id x) ++ [Int 1 (RepairResponse_repair_result x); Pad 1; Pad 2].
(** simulation management *)
Definition L_create_entity (x : CreateEntity) := L_pair (CreateEntity_originating_id x) (CreateEntity_receiving_id x) ++ [Int 4 (CreateEntity_request_id x)].
Definition L_remove_entity (x : RemoveEntity) := L_pair (RemoveEntity_originating_id x) (RemoveEntity_receiving_id x) ++ [Int 4 (RemoveEntity_request_id x)].
Definition L_start_resume (x : StartResume) := L_pair (StartResume_originating_id x) (StartResume_receiving_id x) ++
  L_clock (StartResume_real_world_time x) ++ L_clock (StartResume_simulation_time x) ++ [Int 4 (StartResume_request_id x)].
Definition L_stop_freeze (x : StopFreeze) := L_pair (StopFreeze_originating_id x) (StopFreeze_receiving_id x) ++
  L_clock (StopFreeze_real_world_time x) ++ [Int 1 (StopFreeze_reason x); Int 1 (StopFreeze_frozen_behavior x); Pad 2; Int 4 (StopFreeze_request_id x)].
Definition L_acknowledge (x : Acknowledge) := L_pair (Acknowledge_originating_id x) (Acknowledge_receiving_id x) ++
  [Int 2 (Acknowledge_acknowledge_flag x); Int 2 (Acknowledge_response_flag x); Int 4 (Acknowledge_request_id x)].
Definition L_action_request (x : ActionRequest) := L_pair (ActionRequest_originating_id x) (ActionRequest_receiving_id x) ++
  [Int 4 (ActionRequest_request_id x); Int 4 (ActionRequest_action_id x)] ++ L_datums (ActionRequest_fixed_datum_records x) (ActionRequest_variable_datum_records x).
Definition L_action_response (x : ActionResponse) := L_pair (ActionResponse_originating_id x) (ActionResponse_receiving_id x) ++
  [Int 4 (ActionResponse_request_id x); Int 4 (ActionResponse_request_status x)] ++ L_datums (ActionResponse_fixed_datum_records x) (ActionResponse_variable_datum_records x).
Definition L_data_query (x : DataQuery) := L_pair (DataQuery_originating_id x) (DataQuery_receiving_id x) ++
  [Int 4 (DataQuery_request_id x); Int 4 (DataQuery_time_interval x)] ++ L_ids (DataQuery_fixed_datum_records x) (DataQuery_variable_datum_records x).
Definition L_set_data (x : SetData) := L_pair (SetData_originating_id x) (SetData_receiving_id x) ++
  [Int 4 (SetData_request_id x); Pad 4] ++ L_datums (SetData_fixed_datum_records x) (SetData_variable_datum_records x).
Definition L_data (x : Data) := L_pair (Data_originating_id x) (Data_receiving_id x) ++
  [Int 4 (Data_request_id x); Pad 4] ++ L_datums (Data_fixed_datum_records x) (Data_variable_datum_records x).
Definition L_event_report (x : EventReport) := L_pair (EventReport_originating_id x) (EventReport_receiving_id x) ++
  [Int 4 (EventReport_event_type x); Pad 4] ++ L_datums (EventReport_fixed_datum_records x) (EventReport_variable_datum_records x).
(** the two record counts; a comment has no fixed datum records, and the library skips those it receives *)
Definition Only_variable (n : Z) : item := Block (be 4 0 ++ be 4 n)
  (fun os => exists fixed variable skipped, os = fixed ++ variable ++ skipped /\ accepts (Pad 4) fixed /\ accepts (Int 4 n) variable /\
     zlen skipped = 8 * be_val fixed).
Definition L_comment (x : Comment) := L_pair (Comment_originating_id x) (Comment_receiving_id x) ++
  [Only_variable (zlen (Comment_variable_datum_records x))] ++ flat_map L_variable (Comment_variable_datum_records x).
(** simulation management with reliability *)
Definition L_create_entity_r (x : CreateEntityR) := L_pair (CreateEntityR_originating_id x) (CreateEntityR_receiving_id x) ++
  [Int 1 (CreateEntityR_required_reliability_service x); Pad 1; Pad 2; Int 4 (CreateEntityR_request_id x)].
Definition L_remove_entity_r (x : RemoveEntityR) := L_pair (RemoveEntityR_originating_id x) (RemoveEntityR_receiving_id x) ++
  [Int 1 (RemoveEntityR_required_reliability_service x); Pad 1; Pad 2; Int 4 (RemoveEntityR_request_id x)].
Definition L_start_resume_r (x : StartResumeR) := L_pair (StartResumeR_originating_id x) (StartResumeR_receiving_id x) ++
  L_clock (StartResumeR_real_world_time x) ++ L_clock (StartResumeR_simulation_time x) ++
  [Int 1 (StartResumeR_required_reliability_service x); Pad 1; Pad 2; Int 4 (StartResumeR_request_id x)].
Definition L_stop_freeze_r (x : StopFreezeR) := L_pair (StopFreezeR_originating_id x) (StopFreezeR_receiving_id x) ++
  L_clock (StopFreezeR_real_world_time x) ++
  [Int 1 (StopFreezeR_reason x); Int 1 (StopFreezeR_frozen_behavior x); Int 1 (StopFreezeR_required_reliability_service x); Pad 1; Int 4 (StopFreezeR_request_id x)].
Definition L_acknowledge_r (x : AcknowledgeR) := L_pair (AcknowledgeR_originating_id x) (AcknowledgeR_receiving_id x) ++
  [Int 2 (AcknowledgeR_acknowledge_flag x); Int 2 (AcknowledgeR_response_flag x); Int 4 (AcknowledgeR_request_id x)].
Definition L_action_request_r (x : ActionRequestR) := L_pair (ActionRequestR_originating_id x) (ActionRequestR_receiving_id x) ++
  [Int 1 (ActionRequestR_required_reliability_service x); Pad 1; Pad 2; Int 4 (ActionRequestR_request_id x); Int 4 (ActionRequestR_action_id x); Pad 4] ++
  L_datums (ActionRequestR_fixed_datum_records x) (ActionRequestR_variable_datum_records x).
Definition L_action_response_r (x : ActionResponseR) := L_pair (ActionResponseR_originating_id x) (ActionResponseR_receiving_id x) ++
  [Int 4 (ActionResponseR_request_id x); Int 4 (ActionResponseR_request_status x)] ++ L_datums (ActionResponseR_fixed_datum_records x) (ActionResponseR_variable_datum_records x).
Definition L_data_query_r (x : DataQueryR) := L_pair (DataQueryR_originating_id x) (DataQueryR_receiving_id x) ++
  [Int 1 (DataQueryR_required_reliability_service x); Pad 1; Pad 2; Int 4 (DataQueryR_request_id x); Int 4 (DataQueryR_time_interval x)] ++
  L_ids (DataQueryR_fixed_datum_records x) (DataQueryR_variable_datum_records x).
Definition L_set_data_r (x : SetDataR) := L_pair (SetDataR_originating_id x) (SetDataR_receiving_id x) ++
  [Int 1 (SetDataR_required_reliability_service x); Pad 1; Pad 2; Int 4 (SetDataR_request_id x)] ++ L_datums (SetDataR_fixed_datum_records x) (SetDataR_variable_datum_records x).
Definition L_data_r (x : DataR) := L_pair (DataR_originating_id x) (DataR_receiving_id x) ++
  [Int 4 (DataR_request_id x); Int 1 (DataR_required_reliability_service x); Pad 1; Pad 2] ++ L_datums (DataR_fixed_datum_records x) (DataR_variable_datum_records x).
Definition L_event_report_r (x : EventReportR) := L_pair (EventReportR_originating_id x) (EventReportR_receiving_id x) ++
  [Int 4 (EventReportR_event_type x); Pad 4] ++ L_datums (EventReportR_fixed_datum_records x) (EventReportR_variable_datum_records x).
Definition L_comment_r (x : CommentR) := L_pair (CommentR_originating_id x) (CommentR_receiving_id x) ++
  [Only_variable (zlen (CommentR_variable_datum_records x))] ++ flat_map L_variable (CommentR_variable_datum_records x).
Definition L_record_r (x : RecordR) := L_pair (RecordR_originating_id x) (RecordR_receiving_id x) ++
  [Int 4 (RecordR_request_id x); Int 1 (RecordR_required_reliability_service x); Pad 1; Int 2 (RecordR_event_type x); Int 4 (RecordR_response_serial_number x)] ++
  L_records (RecordR_record_specification x).
Definition L_set_record_r (x : SetRecordR) := L_pair (SetRecordR_originating_id x) (SetRecordR_receiving_id x) ++
  [Int 4 (SetRecordR_request_id x); Int 1 (SetRecordR_required_reliability_service x); Pad 1; Pad 2; Pad 4] ++ L_records (SetRecordR_record_specification x).
Definition L_record_query_r (x : RecordQueryR) := L_pair (RecordQueryR_originating_id x) (RecordQueryR_receiving_id x) ++
  [Int 4 (RecordQueryR_request_id x); Int 1 (RecordQueryR_required_reliability_service x); Pad 1; Int 2 (RecordQueryR_event_type x); Int 4 (RecordQueryR_time x);
   Int 4 (zlen (RecordQueryR_record_query_specification x))] ++ map (Int 4) (RecordQueryR_record_query_specification x).
(** distributed emission regeneration *)
Definition L_track (t : TrackJam) := L_entity (tj_entity t) ++ [Int 1 (tj_emitter t); Int 1 (tj_beam t)].
Definition beam_octets (b : Beam) : Z := 52 + 8 * zlen (be_tracks b).
(** data lengths in 32-bit words; zero when there are more than 255 *)
Definition words (n : Z) : Z := if n / 4 <=? 255 then n / 4 else 0.
Definition L_beam (b : Beam) :=
  [Ignored 1 (words (beam_octets b)); Int 1 (be_number b); Int 2 (be_index b); Int 4 (fp_frequency (be_parameters b)); Int 4 (fp_range (be_parameters b));
   Int 4 (fp_power (be_parameters b)); Int 4 (fp_prf (be_parameters b)); Int 4 (fp_width (be_parameters b))] ++ L_beam_data (be_data b) ++
  [Int 1 (be_function b); Int 1 (zlen (be_tracks b)); Int 1 (be_high_density b); Int 1 (be_status b);
   Int 1 (jt_kind (be_technique b)); Int 1 (jt_category (be_technique b)); Int 1 (jt_subcategory (be_technique b)); Int 1 (jt_specific (be_technique b))] ++
  flat_map L_track (be_tracks b).
Definition L_emitter (s : EmitterSystem) :=
  [Ignored 1 (words (20 + zsum (map beam_octets (es_beams s)))); Int 1 (zlen (es_beams s)); Pad 2; Int 2 (es_name s); Int 1 (es_function s); Int 1 (es_number s)] ++
  L_vector (es_location s) ++ flat_map L_beam (es_beams s).
Definition L_emission (x : ElectromagneticEmission) :=
  L_entity (EE_emitting_entity_id x) ++ L_event (EE_event_id x) ++ [Int 1 (EE_state_update x); Int 1 (zlen (EE_systems x)); Pad 2] ++ flat_map L_emitter (EE_systems x).
Definition L_designator (x : Designator) :=
  L_entity (Designator_designating_entity_id x) ++ [Int 2 (Designator_system_name x)] ++ L_entity (Designator_designated_entity_id x) ++
  [Int 2 (Designator_code x); Int 4 (Designator_power x); Int 4 (Designator_wavelength x)] ++ L_vector (Designator_spot_wrt_designated_entity x) ++
  L_world (Designator_spot_location x) ++ [Int 1 (Designator_dead_reckoning_algorithm x); Pad 1; Pad 2] ++ L_vector (Designator_linear_acceleration x).
Definition L_ua_beam (b : UABeam) := let f := uab_data b in
  [Int 1 (uab_length b); Int 1 (uab_id b); Pad 2; Int 2 (uaf_index f); Int 2 (uaf_scan f); Int 4 (uaf_azc f); Int 4 (uaf_azw f); Int 4 (uaf_dec f); Int 4 (uaf_dew f)].
Definition L_ua_system (s : UAEmitterSystem) :=
  [Ignored 1 (words (20 + 24 * zlen (uas_beams s))); Int 1 (zlen (uas_beams s)); Pad 2; Int 2 (aes_name (uas_system s)); Int 1 (aes_function (uas_system s)); Int 1 (aes_id (uas_system s))] ++
  L_vector (uas_location s) ++ flat_map L_ua_beam (uas_beams s).
Definition L_shaft (s : Shaft) := [Int 2 (sh_current s); Int 2 (sh_ordered s); Int 4 (sh_rate s)].
Definition L_apa (a : APA) := [Int 2 (4 * apa_parameter a + apa_status a); Int 2 (apa_value a)].
Definition L_underwater_acoustic (x : UnderwaterAcoustic) :=
  L_entity (UA_emitting_entity_id x) ++ L_event (UA_event_id x) ++ [Int 1 (UA_state_change x); Pad 1; Int 2 (UA_passive_index x);
    Int 1 (2 * pp_configuration (UA_propulsion x) + if pp_masker (UA_propulsion x) then 1 else 0);
    Int 1 (zlen (UA_shafts x)); Int 1 (zlen (UA_apas x)); Int 1 (zlen (UA_systems x))] ++
  flat_map L_shaft (UA_shafts x) ++ flat_map L_apa (UA_apas x) ++ flat_map L_ua_system (UA_systems x).
Definition L_sees (x : Sees) :=
  L_entity (Sees_originating_entity_id x) ++ [Int 2 (Sees_infrared x); Int 2 (Sees_acoustic x); Int 2 (Sees_radar x);
    Int 2 (zlen (Sees_propulsion_systems x)); Int 2 (zlen (Sees_vectoring_nozzle_systems x))] ++
  flat_map (fun s => [Int 4 (ps_power s); Int 4 (ps_rpm s)]) (Sees_propulsion_systems x) ++
  flat_map (fun s => [Int 4 (vn_horizontal s); Int 4 (vn_vertical s)]) (Sees_vectoring_nozzle_systems x).
(** radio communications *)
Definition L_scheme (s : EncodingScheme) : item := match s with
  | EsEncodedAudio class ty => Int 2 (16384 * class + ty)
  | EsRawBinary class number => Int 2 (16384 * class + number)
  | EsAppSpecific class _ | EsDatabaseIndex class _ _ _ | EsUnspecified class => Field 2 (16384 * class) (fun w => w / 16384 = class) end.
Definition L_signal (x : Signal) := let n := zlen (Signal_data x) in
  L_entity (Signal_radio_reference_id x) ++ [Int 2 (Signal_radio_number x); L_scheme (Signal_encoding_scheme x); Int 2 (Signal_tdl_type x);
    Int 4 (Signal_sample_rate x); Field 2 (8 * n) (fun bits => bits / 8 = n); Int 2 (Signal_samples x); Raw (Signal_data x); Fill ((- n) mod 4)].
Definition L_receiver (x : Receiver) :=
  L_entity (Receiver_radio_reference_id x) ++ [Int 2 (Receiver_radio_number x); Int 2 (Receiver_receiver_state x); Pad 2; Int 4 (Receiver_received_power x)] ++
  L_entity (Receiver_transmitter_radio_reference_id x) ++ [Int 2 (Receiver_transmitter_radio_number x)].
Definition L_modulation (t : ModulationType) :=
  [Field 2 ((if ss_hopping (mt_spread t) then 32768 else 0) + (if ss_noise (mt_spread t) then 16384 else 0) + if ss_time (mt_spread t) then 8192 else 0)
     (fun w => Z.testbit w 15 = ss_hopping (mt_spread t) /\ Z.testbit w 14 = ss_noise (mt_spread t) /\ Z.testbit w 13 = ss_time (mt_spread t))] ++
  (match mt_major t with
   | MMNoStatement => [Int 2 0; Ignored 2 0]
   | MMDetail major detail => [Int 2 major; Int 2 detail]
   | MMUnspecified detail => [Field 2 9 (fun major => 8 < major); Int 2 detail] end) ++ [Int 2 (mt_system t)].
Definition L_pattern (b : BeamAntennaPattern) :=
  L_angles (bap_direction b) ++ [Int 4 (bap_azimuth b); Int 4 (bap_elevation b); Int 1 (bap_reference b); Pad 1; Pad 2; Int 4 (bap_ez b); Int 4 (bap_ex b); Int 4 (bap_phase b); Pad 4].
Definition L_vtp (v : VTP) := let n := 6 + zlen (vtp_fields v) in
  [Int 4 (vtp_type v); Int 2 (n + (- n) mod 8); Raw (vtp_fields v); Fill ((- n) mod 8)].
(** variable transmitter parameters came with version 7; the count was padding before *)
Definition L_transmitter (version : Z) (x : Transmitter) :=
  let parameters := match Transmitter_modulation_parameters x with Some l => l | None => [] end in
  let pattern := match Transmitter_antenna_pattern x with Some b => L_pattern b | None => [] end in
  L_entity (Transmitter_radio_reference_id x) ++ [Int 2 (Transmitter_radio_number x)] ++ L_type (Transmitter_radio_type x) ++
  [Int 1 (Transmitter_transmit_state x); Int 1 (Transmitter_input_source x);
   Field 2 (zlen (Transmitter_vtps x)) (fun n => version = 7 -> n = zlen (Transmitter_vtps x))] ++
  L_world (Transmitter_antenna_location x) ++ L_vector (Transmitter_relative_antenna_location x) ++ [Int 2 (Transmitter_antenna_pattern_type x);
    Field 2 (match Transmitter_antenna_pattern x with Some _ => 40 | None => 0 end) (fun n => Transmitter_antenna_pattern x = None <-> n = 0);
    Int 8 (Transmitter_frequency x); Int 4 (Transmitter_bandwidth x); Int 4 (Transmitter_power x)] ++ L_modulation (Transmitter_modulation_type x) ++
  [Int 2 (Transmitter_crypto_system x); Int 2 (2 * ck_key (Transmitter_crypto_key_id x) + if ck_diphase (Transmitter_crypto_key_id x) then 1 else 0);
   Int 1 (zlen parameters); Pad 1; Pad 2; Raw parameters] ++ pattern ++ flat_map L_vtp (Transmitter_vtps x).
(** entity management *)
Definition L_aggregate_type (t : AggregateType) :=
  [Int 1 (ag_kind t); Int 1 (ag_domain t); Int 2 (ag_country t); Int 1 (ag_category t); Int 1 (ag_subcategory t); Int 1 (ag_specific t); Int 1 (ag_extra t)].
Definition L_silent_aggregate (s : SilentAggregate) := [Int 2 (sa_number s); Pad 2] ++ L_aggregate_type (sa_type s).
Definition L_silent_entity (s : SilentEntity) := [Int 2 (se_number s); Int 2 (zlen (se_appearances s))] ++ L_type (se_type s) ++ map (fun a => Int 4 (ea_word a)) (se_appearances s).
Definition L_aggregate_state (x : AggregateState) :=
  L_entity (AggregateState_aggregate_id x) ++ [Int 1 (AggregateState_force_id x); Int 1 (AggregateState_aggregate_state x)] ++
  L_aggregate_type (AggregateState_aggregate_type x) ++ [Int 4 (AggregateState_formation x); Int 1 (mk_charset (AggregateState_marking x)); Text 31 (mk_string (AggregateState_marking x))] ++
  L_vector (AggregateState_dimensions x) ++ L_angles (AggregateState_orientation x) ++ L_world (AggregateState_center_of_mass x) ++ L_vector (AggregateState_velocity x) ++
  [Int 2 (zlen (AggregateState_aggregates x)); Int 2 (zlen (AggregateState_entities x)); Int 2 (zlen (AggregateState_silent_aggregates x)); Int 2 (zlen (AggregateState_silent_entities x))] ++
  flat_map L_entity (AggregateState_aggregates x) ++ flat_map L_entity (AggregateState_entities x) ++
  [Fill ((- (6 * (zlen (AggregateState_aggregates x) + zlen (AggregateState_entities x)))) mod 4)] ++
  flat_map L_silent_aggregate (AggregateState_silent_aggregates x) ++ flat_map L_silent_entity (AggregateState_silent_entities x) ++
  [Int 4 (zlen (AggregateState_variable_datums x))] ++ flat_map L_variable (AggregateState_variable_datums x).
Definition L_ged_base (b : GEDBase) :=
  [Int 2 (gb_id b); Int 2 (gb_x b); Int 2 (gb_y b); Int 2 (gb_z b); Int 4 (ea_word (gb_appearance b)); Int 1 (gb_psi b); Int 1 (gb_theta b); Int 1 (gb_phi b)].
Definition L_ged_ground (r : GEDGround) := L_ged_base (gg_base r) ++ [Int 1 (gg_speed r); Int 1 (gg_1 r); Int 1 (gg_2 r); Int 1 (gg_3 r); Int 1 (gg_4 r)].
Definition L_ged_air (r : GEDAir) := L_ged_base (ga_base r) ++ [Int 1 (ga_fuel r); Int 1 (ga_horizontal r); Int 1 (ga_vertical r); Int 2 (ga_speed r)].
Definition L_quad (q : Quad) := [Int 1 (q_1 q); Int 1 (q_2 q); Int 1 (q_3 q); Int 1 (q_4 q)].
Definition L_ged (g : GroupEntityDescription) := match g with
  | GUndefined => []
  | GVehicle r | GSoldier r => L_ged_ground r
  | GVehicleE r q | GSoldierE r q => L_ged_ground r ++ L_quad q
  | GRotor r t => L_ged_air r ++ L_quad t
  | GRotorE r t q => L_ged_air r ++ L_quad t ++ L_quad q
  | GFixed r => L_ged_air r
  | GFixedE r q => L_ged_air r ++ L_quad q
  | GLogistics b speed => L_ged_base b ++ [Int 2 speed] end.
Definition L_is_group_of (x : IsGroupOf) :=
  L_entity (IsGroupOf_group_id x) ++ [Int 1 (IsGroupOf_category x); Int 1 (zlen (IsGroupOf_descriptions x)); Pad 4; Int 8 (IsGroupOf_latitude x); Int 8 (IsGroupOf_longitude x)] ++
  flat_map L_ged (IsGroupOf_descriptions x).
Definition L_transfer_ownership (x : TransferOwnership) := L_pair (TransferOwnership_originating_id x) (TransferOwnership_receiving_id x) ++
  [Int 4 (TransferOwnership_request_id x); Int 1 (TransferOwnership_required_reliability_service x); Int 1 (TransferOwnership_transfer_type x)] ++
  L_entity (TransferOwnership_transfer_entity_id x) ++ L_records (TransferOwnership_record_specification x).
(** the library has no field for the entity type of the part *)
Definition L_is_part_of (x : IsPartOf) := L_pair (IsPartOf_originating_simulation_id x) (IsPartOf_receiving_entity_id x) ++
  [Int 2 (re_nature (IsPartOf_relationship x)); Int 2 (re_position (IsPartOf_relationship x))] ++ L_vector (IsPartOf_part_location x) ++
  [Int 2 (nl_name (IsPartOf_named_location_id x)); Int 2 (nl_number (IsPartOf_named_location_id x)); Pad 8].
(** IFF *)
Definition L_layer_header (h : LayerHeader) := [Int 1 (lh_number h); Int 1 (lh_specific h); Int 2 (lh_length h)].
(** a word of flags; what is sent need not use all bits, what is read is reduced to those in use *)
Definition Flags (n : nat) (mask force w : Z) : item := Field n w (fun v => bits_of mask force v = w).
Definition L_iff_record (r : IffDataRecord) := let n := 6 + zlen (idr_fields r) in
  [Int 4 (idr_type r); Int 2 (n + (- n) mod 4); Raw (idr_fields r); Fill ((- n) mod 4)].
Definition L_iff_records (l : list IffDataRecord) := [Int 2 (zlen l)] ++ flat_map L_iff_record l.
Definition L_iff_parameter (p : IffParameter) :=
  [Int 4 (ip_erp p); Int 4 (ip_frequency p); Int 4 (ip_pgrf p); Int 4 (ip_pulse_width p); Int 4 (ip_burst p); Int 1 (ip_modes p); Int 1 (ip_s1 p); Int 1 (ip_s2 p); Int 1 (ip_s3 p)].
Definition L_layer_2 (l : IffLayer2) := L_layer_header (l2_header l) ++ L_beam_data (l2_beam l) ++ [Int 1 (l2_op1 l); Int 1 (l2_op2 l); Int 2 (zlen (l2_params l))] ++
  flat_map L_iff_parameter (l2_params l).
Definition L_mode_5 (b : Mode5BasicData) := match b with
  | M5Interrogator x => [Flags 1 m_m5i_status 0 (m5i_status x); Pad 1; Pad 2; Int 4 (m5i_formats x)] ++ L_entity (m5i_entity x) ++ [Pad 2]
  | M5Transponder x => [Flags 2 m_m5t_status 0 (m5t_status x); Int 2 (m5t_pin x); Int 4 (m5t_formats x); Flags 2 m_mode1 0 (m5t_mode1 x); Int 2 (m5t_origin x);
      Flags 1 m_supplemental 0 (m5t_supplemental x); Int 1 (m5t_nav x); Int 1 (m5t_merit x); Pad 1] end.
Definition L_layer_3 (l : IffLayer3) := L_layer_header (l3_header l) ++ L_address (l3_sim l) ++ L_mode_5 (l3_basic l) ++ [Pad 2] ++ L_iff_records (l3_records l).
(** the basic data have 24 octets *)
Definition L_mode_s (b : ModeSBasicData) := match b with
  | MSInterrogator x => [Flags 1 m_msi_status 4 (msi_status x); Pad 1; Flags 1 m_levels 4 (msi_levels x); Fill 21]
  | MSTransponder x => [Flags 2 m_mst_status 0 (mst_status x); Flags 1 m_levels 4 (mst_levels x); Int 1 (mst_domain x); Text 8 (mst_id x); Int 4 (mst_address x);
      Int 1 (mst_idtype x); Flags 1 m_dap 8 (mst_dap x); Flags 2 m_altitude 0 (mst_altitude x); Int 1 (mst_capability x); Pad 1; Pad 2] end.
Definition L_layer_4 (l : IffLayer4) := L_layer_header (l4_header l) ++ L_address (l4_sim l) ++ L_mode_s (l4_basic l) ++ [Pad 2] ++ L_iff_records (l4_records l).
Definition L_layer_5 (l : IffLayer5) := L_layer_header (l5_header l) ++ L_address (l5_sim l) ++ [Pad 2; Flags 1 m_layers 0 (l5_layers l); Int 1 (l5_category l); Pad 2] ++
  L_iff_records (l5_records l).
Definition L_optional {A} (L : A -> list item) (o : option A) : list item := match o with Some a => L a | None => [] end.
Definition L_iff (x : Iff) := let f := Iff_data x in
  L_entity (Iff_emitting_entity_id x) ++ L_event (Iff_event_id x) ++ L_vector (Iff_antenna x) ++
  [Int 2 (si_type (Iff_system_id x)); Int 2 (si_name (Iff_system_id x)); Int 1 (si_mode (Iff_system_id x)); Int 1 (si_change (Iff_system_id x));
   Int 1 (Iff_designator x); Int 1 (Iff_specific x);
   Int 1 (fo_status f); Int 1 (fo_field1 f); Flags 1 m_layers 0 (fo_layers f); Int 1 (fo_field2 f);
   Int 2 (fo_p1 f); Int 2 (fo_p2 f); Int 2 (fo_p3 f); Int 2 (fo_p4 f); Int 2 (fo_p5 f); Int 2 (fo_p6 f)] ++
  L_optional L_layer_2 (Iff_layer_2 x) ++ L_optional L_layer_3 (Iff_layer_3 x) ++ L_optional L_layer_4 (Iff_layer_4 x) ++ L_optional L_layer_5 (Iff_layer_5 x).

(** ** Header and PDU *)
Definition L_header (h : PduHeader) :=
  [Int 1 (h_version h); Int 1 (h_exercise h); Int 1 (h_type h); Int 1 (h_family h); Int 4 (h_time h); Int 2 (h_length h)] ++
  (match h_status h with
   | Some s => [Field 1 (write_status (h_type h) s) (fun b => parse_status (h_type h) b = s); Pad 1]
   | None => [Pad 2] end).
Definition L_body (version : Z) (b : PduBody) : list item := match b with
  | BOther x => [Raw (Other_body x)]
  | BEntityState x => L_entity_state version x | BFire x => L_fire x | BDetonation x => L_detonation x | BCollision x => L_collision x
  | BServiceRequest x => L_service_request x | BResupplyOffer x => L_resupply_offer x | BResupplyReceived x => L_resupply_received x
  | BResupplyCancel x => L_resupply_cancel x | BRepairComplete x => L_repair_complete x | BRepairResponse x => L_repair_response x
  | BCreateEntity x => L_create_entity x | BRemoveEntity x => L_remove_entity x | BStartResume x => L_start_resume x | BStopFreeze x => L_stop_freeze x
  | BAcknowledge x => L_acknowledge x | BActionRequest x => L_action_request x | BActionResponse x => L_action_response x | BDataQuery x => L_data_query x
  | BSetData x => L_set_data x | BData x => L_data x | BEventReport x => L_event_report x | BComment x => L_comment x
  | BElectromagneticEmission x => L_emission x | BDesignator x => L_designator x | BTransmitter x => L_transmitter version x | BSignal x => L_signal x
  | BReceiver x => L_receiver x | BIff x => L_iff x | BUnderwaterAcoustic x => L_underwater_acoustic x | BSees x => L_sees x
  | BAggregateState x => L_aggregate_state x | BIsGroupOf x => L_is_group_of x | BTransferOwnership x => L_transfer_ownership x | BIsPartOf x => L_is_part_of x
  | BCreateEntityR x => L_create_entity_r x | BRemoveEntityR x => L_remove_entity_r x | BStartResumeR x => L_start_resume_r x | BStopFreezeR x => L_stop_freeze_r x
  | BAcknowledgeR x => L_acknowledge_r x | BActionRequestR x => L_action_request_r x | BActionResponseR x => L_action_response_r x
  | BDataQueryR x => L_data_query_r x | BSetDataR x => L_set_data_r x | BDataR x => L_data_r x | BEventReportR x => L_event_report_r x | BCommentR x => L_comment_r x
  | BRecordR x => L_record_r x | BSetRecordR x => L_set_record_r x | BRecordQueryR x => L_record_query_r x
  | BCollisionElastic x => L_collision_elastic x | BEntityStateUpdate x => L_entity_state_update x | BAttribute x => L_attribute x
  | BUnit _ => [] end.
Definition L_pdu (p : Pdu) : list item := L_header (pdu_header p) ++ L_body (h_version (pdu_header p)) (pdu_body p).

(** ** Where the library's writer follows the tables, and where its reader does *)
Definition whole_words (l : list VariableDatum) : Prop := Forall (fun d => zlen (vd_value d) mod 8 = 0) l.
(** version 6 has four flags, of which supplies have two *)
Definition version6_flags (c : EntityCapabilities) : Prop := match ec_kind c with
  | ALand | AAir | ASurface | ASubsurface | ASpace | ALifeForms => ec_word c mod 268435456 = 0
  | ASupply => ec_word c mod 1073741824 = 0
  | _ => ec_word c = 0 end.
Definition standard_body (version : Z) (b : PduBody) : Prop := match b with
  | BEntityState x => let c := EntityState_capabilities x in
      version = 7 \/ ec_word c = 0 \/ (version = 6 /\ version6_flags c)
  | BIsPartOf _ => False
  | BRecordR _ => False
  | BUnderwaterAcoustic x => UA_systems x = [] /\ Forall (fun a => apa_parameter a = 0 /\ apa_status a = 0) (UA_apas x)
  | BIff x => match Iff_layer_4 x with Some l => match l4_basic l with MSTransponder _ => False | MSInterrogator _ => True end | None => True end
  | BElectromagneticEmission x => Forall (fun s => 20 + zsum (map beam_octets (es_beams s)) <= 1020) (EE_systems x)
  | BSignal x => match Signal_encoding_scheme x with EsEncodedAudio _ n | EsRawBinary _ n => 0 <= n < 16384 | _ => True end
  | BActionRequest x => whole_words (ActionRequest_variable_datum_records x) | BActionResponse x => whole_words (ActionResponse_variable_datum_records x)
  | BSetData x => whole_words (SetData_variable_datum_records x) | BData x => whole_words (Data_variable_datum_records x)
  | BEventReport x => whole_words (EventReport_variable_datum_records x) | BComment x => whole_words (Comment_variable_datum_records x)
  | BActionRequestR x => whole_words (ActionRequestR_variable_datum_records x) | BActionResponseR x => whole_words (ActionResponseR_variable_datum_records x)
  | BSetDataR x => whole_words (SetDataR_variable_datum_records x) | BDataR x => whole_words (DataR_variable_datum_records x)
  | BEventReportR x => whole_words (EventReportR_variable_datum_records x) | BCommentR x => whole_words (CommentR_variable_datum_records x)
  | BAggregateState x => whole_words (AggregateState_variable_datums x)
  | _ => True end.
Definition standard_pdu (p : Pdu) : Prop := let h := pdu_header p in
  (h_version h = 7 \/ h_status h = None) /\ standard_body (h_version h) (pdu_body p).
Definition no_separation (l : list VariableParameter) : Prop := Forall (fun v => match v with VPSeparation _ => False | _ => True end) l.
Definition reads_body (b : PduBody) : Prop := match b with
  | BIsPartOf _ => False
  | BRecordR _ => False
  | BEntityState x => no_separation (EntityState_variable_parameters x)
  | BEntityStateUpdate x => no_separation (EntityStateUpdate_variable_parameters x)
  | BDetonation x => no_separation (Detonation_variable_parameters x) /\ match Detonation_descriptor x with DExplosion _ _ _ => False | _ => True end
  | BSignal x => zlen (Signal_data x) mod 4 = 0
  | BAttribute x => Forall (fun s => Forall (fun r => (6 + zlen (ar_fields r)) mod 8 = 0) (as_records s)) (Attribute_sets x)
  | BTransmitter x => Forall (fun v => (6 + zlen (vtp_fields v)) mod 8 = 0) (Transmitter_vtps x)
  | BIff x =>
      let records := Forall (fun r => (6 + zlen (idr_fields r)) mod 4 = 0) in
      let known := is_transponder (si_type (Iff_system_id x)) = true \/ is_interrogator (si_type (Iff_system_id x)) = true in
      match Iff_layer_3 x with Some l => known /\ records (l3_records l) | None => True end /\
      match Iff_layer_4 x with Some l => match l4_basic l with MSTransponder _ => False | MSInterrogator _ => records (l4_records l) end | None => True end /\
      match Iff_layer_5 x with Some l => records (l5_records l) | None => True end
  | _ => True end.
