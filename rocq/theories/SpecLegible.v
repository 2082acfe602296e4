(** * Specification: the PDUs whose wire table can be read back

    What a receiver needs besides the table: counts and lengths that fit the fields they are sent in; parts whose kind is
    not sent but follows from another field (the kind of an appearance from the entity type, the variant of the dead
    reckoning parameters from the algorithm, the layers of an IFF PDU from its flags); flag words in the form in which the
    library keeps them. The fields in which the library's reader deviates from the standard are those of [reads_body]. *)
From Coq Require Import ZArith List.
From Verif Require Import Base Utf8 DisCommon DisLists DisHeader DisSimman DisLogistics DisWarfare DisEntity DisEmission DisRadio DisIff DisPdu DisPacket SpecLayout.
Import ListNotations. Open Scope Z_scope.

Definition few8 {A} (l : list A) : Prop := zlen l < 256.
Definition few16 {A} (l : list A) : Prop := zlen l < 65536.
Definition few32 {A} (l : list A) : Prop := zlen l < 4294967296.
Definition datum_legible (d : VariableDatum) : Prop := 8 * zlen (vd_value d) < 4294967296.
Definition datums_legible (f : list FixedDatum) (v : list VariableDatum) : Prop := few32 f /\ few32 v /\ Forall datum_legible v.
Definition parameter_legible (v : VariableParameter) : Prop := match v with
  | VPArticulated x => ap_metric x < 32 /\ ap_class x mod 32 = 0      (* class and metric share a number *)
  | VPUnspecified t _ => 4 < t
  | VPSeparation _ => False
  | _ => True end.
Definition parameters_legible (l : list VariableParameter) : Prop := few8 l /\ Forall parameter_legible l.
(** records of one length, which is that of the set; no more than 65535 octets in all *)
Definition record_set_legible (r : RecordSet) : Prop :=
  Forall (fun x => zlen x = rs_length_bytes r) (rs_records r) /\ (rs_records r = [] -> rs_length_bytes r = 0) /\
  zlen (rs_records r) < 65536 /\ zlen (rs_records r) * rs_length_bytes r < 65536.
Definition records_legible (l : list RecordSet) : Prop := few32 l /\ Forall record_set_legible l.
Definition appearance_of (t : EntityType) (a : EntityAppearance) : Prop := ea_kind a = appearance_kind (et_kind t) (et_domain t).
Definition capabilities_of (version : Z) (t : EntityType) (c : EntityCapabilities) : Prop :=
  if version =? 7 then if et_kind t =? 0 then c = MkCapabilities AUnspecified 0 else ec_kind c = appearance_kind (et_kind t) (et_domain t)
  else ec_kind c = ALand.
Definition reckoning_of (algorithm : Z) (d : DrOtherParameters) : Prop := match d with
  | DrNone _ => dr_is_euler algorithm = false /\ dr_is_quaternion algorithm = false
  | DrEuler _ _ _ => dr_is_euler algorithm = true
  | DrQuaternion _ _ _ _ => dr_is_euler algorithm = false /\ dr_is_quaternion algorithm = true end.
Definition descriptor_fire (indicator : Z) (d : DescriptorRecord) : Prop := match d with
  | DMunition _ _ => indicator = 0 | DExpendable _ => indicator <> 0 | DExplosion _ _ _ => False end.
Definition descriptor_detonation (indicator : Z) (d : DescriptorRecord) : Prop := match d with
  | DMunition _ _ => indicator = 0 | DExpendable _ => indicator <> 0 /\ indicator <> 2 | DExplosion _ _ _ => False end.
(** the numbers at the start of the data of an application-specific or database signal *)
Definition scheme_legible (data : list Z) (s : EncodingScheme) : Prop := match s with
  | EsEncodedAudio c n => c = 0 /\ n < 16384
  | EsRawBinary c n => c = 1 /\ n < 16384
  | EsAppSpecific c u => c = 2 /\ exists rest, data = be 4 u ++ rest
  | EsDatabaseIndex c i o d => c = 3 /\ exists rest, data = be 4 i ++ be 4 o ++ be 4 d ++ rest
  | EsUnspecified _ => False end.
Definition whole (unit : Z) (fields : list Z) : Prop := (6 + zlen fields) mod unit = 0 /\ 6 + zlen fields < 65536.
Definition transmitter_legible (version : Z) (x : Transmitter) : Prop :=
  ck_key (Transmitter_crypto_key_id x) < 32768 /\ few16 (Transmitter_vtps x) /\ (version = 7 \/ Transmitter_vtps x = []) /\
  match Transmitter_modulation_parameters x with Some l => 0 < zlen l < 256 | None => True end /\
  Forall (fun v => whole 8 (vtp_fields v)) (Transmitter_vtps x).
Definition silent_entity_legible (s : SilentEntity) : Prop := few16 (se_appearances s) /\ Forall (appearance_of (se_type s)) (se_appearances s).
Definition aggregate_legible (x : AggregateState) : Prop :=
  few16 (AggregateState_silent_aggregates x) /\ few16 (AggregateState_silent_entities x) /\ few32 (AggregateState_variable_datums x) /\
  6 * (zlen (AggregateState_aggregates x) + zlen (AggregateState_entities x)) < 65400 /\
  Forall silent_entity_legible (AggregateState_silent_entities x) /\ Forall datum_legible (AggregateState_variable_datums x).
Definition acoustic_legible (x : UnderwaterAcoustic) : Prop :=
  pp_configuration (UA_propulsion x) < 128 /\ few8 (UA_shafts x) /\ few8 (UA_apas x) /\ few8 (UA_systems x) /\
  Forall (fun a => apa_parameter a < 16384 /\ apa_status a < 4) (UA_apas x) /\ Forall (fun s => few8 (uas_beams s)) (UA_systems x).
Definition emission_legible (x : ElectromagneticEmission) : Prop :=
  few8 (EE_systems x) /\ Forall (fun s => few8 (es_beams s) /\ Forall (fun b => few8 (be_tracks b)) (es_beams s)) (EE_systems x).
Definition iff_records_legible (l : list IffDataRecord) : Prop := few16 l /\ Forall (fun r => whole 4 (idr_fields r)) l.
(** flag words as the library keeps them: unused bits cleared *)
Definition kept (mask force w : Z) : Prop := bits_of mask force w = w.
Definition mode_5_legible (system : Z) (b : Mode5BasicData) : Prop := match b with
  | M5Transponder _ => is_transponder system = true
  | M5Interrogator _ => is_interrogator system = true end.
Definition mode_s_legible (system : Z) (b : ModeSBasicData) : Prop := match b with
  | MSTransponder _ => False
  | MSInterrogator _ => is_interrogator system = true end.
Definition present {A} (flags bit : Z) (o : option A) : Prop := Z.testbit flags bit = match o with Some _ => true | None => false end.
Definition in_layer {A} (P : A -> Prop) (o : option A) : Prop := match o with Some a => P a | None => True end.
Definition iff_legible (x : Iff) : Prop :=
  let flags := fo_layers (Iff_data x) in let system := si_type (Iff_system_id x) in
  present flags 5 (Iff_layer_2 x) /\ present flags 4 (Iff_layer_3 x) /\ present flags 3 (Iff_layer_4 x) /\ present flags 2 (Iff_layer_5 x) /\
  in_layer (fun l => few16 (l2_params l)) (Iff_layer_2 x) /\
  in_layer (fun l => mode_5_legible system (l3_basic l) /\ iff_records_legible (l3_records l)) (Iff_layer_3 x) /\
  in_layer (fun l => mode_s_legible system (l4_basic l) /\ iff_records_legible (l4_records l)) (Iff_layer_4 x) /\
  in_layer (fun l => iff_records_legible (l5_records l)) (Iff_layer_5 x).
Definition attribute_legible (x : Attribute) : Prop := few16 (Attribute_sets x) /\
  Forall (fun s => few16 (as_records s) /\ Forall (fun r => whole 8 (ar_fields r)) (as_records s)) (Attribute_sets x).
(** a PDU of a type without a parser of its own: the octets after the header, from which the sender (and the receiver) are read *)
Definition other_legible (h : PduHeader) (x : Other) : Prop :=
  other_type (h_type h) /\ Z.max 12 (h_length h) = 12 + zlen (Other_body x) /\
  if other_peeks_one (h_type h) then Other_receiving x = None /\ exists e r, Other_originating x = Some e /\ p_entity_id (Other_body x) = POk r e
  else if other_peeks_two (h_type h) then exists e f r r', Other_originating x = Some e /\ Other_receiving x = Some f /\
    p_entity_id (Other_body x) = POk r e /\ p_entity_id r = POk r' f
  else Other_originating x = None /\ Other_receiving x = None.
Definition body_legible (h : PduHeader) (b : PduBody) : Prop := match b with
  | BOther x => other_legible h x
  | BUnit _ | BIsPartOf _ | BRecordR _ | BActionResponseR _ => False     (* the last is read as an action response *)
  | BActionResponse x => h_type h = 17 \/ h_type h = 57
  | _ => h_type h = body_type b end /\
  match b with
  | BEntityState x => parameters_legible (EntityState_variable_parameters x) /\ appearance_of (EntityState_entity_type x) (EntityState_appearance x) /\
      reckoning_of (dr_algorithm (EntityState_dr x)) (dr_other (EntityState_dr x)) /\
      capabilities_of (h_version h) (EntityState_entity_type x) (EntityState_capabilities x)
  | BEntityStateUpdate x => parameters_legible (EntityStateUpdate_variable_parameters x) /\ ea_kind (EntityStateUpdate_appearance x) = appearance_kind 0 0
  | BFire x => descriptor_fire (fire_indicator h) (Fire_descriptor x)
  | BDetonation x => descriptor_detonation (detonation_indicator h) (Detonation_descriptor x) /\ parameters_legible (Detonation_variable_parameters x)
  | BServiceRequest x => few8 (ServiceRequest_supplies x) | BResupplyOffer x => few8 (ResupplyOffer_supplies x) | BResupplyReceived x => few8 (ResupplyReceived_supplies x)
  | BActionRequest x => datums_legible (ActionRequest_fixed_datum_records x) (ActionRequest_variable_datum_records x)
  | BActionResponse x => datums_legible (ActionResponse_fixed_datum_records x) (ActionResponse_variable_datum_records x)
  | BSetData x => datums_legible (SetData_fixed_datum_records x) (SetData_variable_datum_records x)
  | BData x => datums_legible (Data_fixed_datum_records x) (Data_variable_datum_records x)
  | BEventReport x => datums_legible (EventReport_fixed_datum_records x) (EventReport_variable_datum_records x)
  | BComment x => datums_legible [] (Comment_variable_datum_records x)
  | BActionRequestR x => datums_legible (ActionRequestR_fixed_datum_records x) (ActionRequestR_variable_datum_records x)
  | BSetDataR x => datums_legible (SetDataR_fixed_datum_records x) (SetDataR_variable_datum_records x)
  | BDataR x => datums_legible (DataR_fixed_datum_records x) (DataR_variable_datum_records x)
  | BEventReportR x => datums_legible (EventReportR_fixed_datum_records x) (EventReportR_variable_datum_records x)
  | BCommentR x => datums_legible [] (CommentR_variable_datum_records x)
  | BDataQuery x => few32 (DataQuery_fixed_datum_records x) /\ few32 (DataQuery_variable_datum_records x)
  | BDataQueryR x => few32 (DataQueryR_fixed_datum_records x) /\ few32 (DataQueryR_variable_datum_records x)
  | BTransferOwnership x => records_legible (TransferOwnership_record_specification x)
  | BSetRecordR x => records_legible (SetRecordR_record_specification x)
  | BRecordQueryR x => few32 (RecordQueryR_record_query_specification x)
  | BElectromagneticEmission x => emission_legible x | BUnderwaterAcoustic x => acoustic_legible x
  | BSees x => few16 (Sees_propulsion_systems x) /\ few16 (Sees_vectoring_nozzle_systems x)
  | BTransmitter x => transmitter_legible (h_version h) x
  | BSignal x => zlen (Signal_data x) mod 4 = 0 /\ zlen (Signal_data x) < 8192 /\ scheme_legible (Signal_data x) (Signal_encoding_scheme x)
  | BIff x => iff_legible x
  | BAggregateState x => aggregate_legible x
  | BIsGroupOf x => few8 (IsGroupOf_descriptions x) /\ Forall (ged_ok (IsGroupOf_category x)) (IsGroupOf_descriptions x)
  | BAttribute x => attribute_legible x
  | _ => True end.
(** versions 1 to 6 have no status in the header *)
Definition legible (p : Pdu) : Prop := let h := pdu_header p in
  (h_status h = None <-> 1 <= h_version h <= 6) /\ body_legible h (pdu_body p).
(** the same PDU but for the padding of the header, which the library keeps *)
Definition same_but_padding (p q : Pdu) : Prop := let h := pdu_header p in
  pdu_body q = pdu_body p /\
  pdu_header q = MkPduHeader (h_version h) (h_exercise h) (h_type h) (h_family h) (h_time h) (h_length h) (h_status h) (h_padding (pdu_header q)).
