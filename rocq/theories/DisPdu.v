(** * PDU bodies, PDUs, serialisation, finalisation and packet parsing

    Models dis-rs/src/common/model.rs:68-551 (Pdu, PduBody, BodyInfo and Interaction
    dispatch), dis-rs/src/common/writer.rs:33-130 (Pdu::serialize),
    dis-rs/src/common/parser.rs:70-141 and 192-275 (packet, PDU and body parsing),
    dis-rs/src/common/mod.rs:60-140 (parse, parse_v6, parse_v7).
    Generated from the dispatch tables of the source by a script, then checked in. *)
From Coq Require Import ZArith List Lia Bool.
From Verif Require Import Base DisCommon DisLists DisHeader DisSimman DisLogistics DisWarfare DisEntity DisEmission DisRadio DisIff.
Import ListNotations. Open Scope Z_scope.

(** PduBody, common/model.rs:158-233.  The variants without a payload (the PDU types the
    library knows but does not implement) are [BUnit ty]. *)
Inductive PduBody :=
| BOther (x : Other)
| BEntityState (x : EntityState)
| BFire (x : Fire)
| BDetonation (x : Detonation)
| BCollision (x : Collision)
| BServiceRequest (x : ServiceRequest)
| BResupplyOffer (x : ResupplyOffer)
| BResupplyReceived (x : ResupplyReceived)
| BResupplyCancel (x : ResupplyCancel)
| BRepairComplete (x : RepairComplete)
| BRepairResponse (x : RepairResponse)
| BCreateEntity (x : CreateEntity)
| BRemoveEntity (x : RemoveEntity)
| BStartResume (x : StartResume)
| BStopFreeze (x : StopFreeze)
| BAcknowledge (x : Acknowledge)
| BActionRequest (x : ActionRequest)
| BActionResponse (x : ActionResponse)
| BDataQuery (x : DataQuery)
| BSetData (x : SetData)
| BData (x : Data)
| BEventReport (x : EventReport)
| BComment (x : Comment)
| BElectromagneticEmission (x : ElectromagneticEmission)
| BDesignator (x : Designator)
| BTransmitter (x : Transmitter)
| BSignal (x : Signal)
| BReceiver (x : Receiver)
| BIff (x : Iff)
| BUnderwaterAcoustic (x : UnderwaterAcoustic)
| BSees (x : Sees)
| BAggregateState (x : AggregateState)
| BIsGroupOf (x : IsGroupOf)
| BTransferOwnership (x : TransferOwnership)
| BIsPartOf (x : IsPartOf)
| BCreateEntityR (x : CreateEntityR)
| BRemoveEntityR (x : RemoveEntityR)
| BStartResumeR (x : StartResumeR)
| BStopFreezeR (x : StopFreezeR)
| BAcknowledgeR (x : AcknowledgeR)
| BActionRequestR (x : ActionRequestR)
| BActionResponseR (x : ActionResponseR)
| BDataQueryR (x : DataQueryR)
| BSetDataR (x : SetDataR)
| BDataR (x : DataR)
| BEventReportR (x : EventReportR)
| BCommentR (x : CommentR)
| BRecordR (x : RecordR)
| BSetRecordR (x : SetRecordR)
| BRecordQueryR (x : RecordQueryR)
| BCollisionElastic (x : CollisionElastic)
| BEntityStateUpdate (x : EntityStateUpdate)
| BAttribute (x : Attribute)
| BUnit (ty : Z).

(** The PDU types that have a variant but no payload (common/model.rs:158-233): 31, 32, 37-50, 68-71. *)
Definition unit_types : list Z := [31; 32; 37; 38; 39; 40; 41; 42; 43; 44; 45; 46; 47; 48; 49; 50; 68; 69; 70; 71].

(** BodyInfo::body_type, common/model.rs:314-391 and each PDU's model.rs *)
Definition body_type (b : PduBody) : Z :=
  match b with
  | BOther _ => 0
  | BEntityState _ => 1
  | BFire _ => 2
  | BDetonation _ => 3
  | BCollision _ => 4
  | BServiceRequest _ => 5
  | BResupplyOffer _ => 6
  | BResupplyReceived _ => 7
  | BResupplyCancel _ => 8
  | BRepairComplete _ => 9
  | BRepairResponse _ => 10
  | BCreateEntity _ => 11
  | BRemoveEntity _ => 12
  | BStartResume _ => 13
  | BStopFreeze _ => 14
  | BAcknowledge _ => 15
  | BActionRequest _ => 16
  | BActionResponse _ => 17
  | BDataQuery _ => 18
  | BSetData _ => 19
  | BData _ => 20
  | BEventReport _ => 21
  | BComment _ => 22
  | BElectromagneticEmission _ => 23
  | BDesignator _ => 24
  | BTransmitter _ => 25
  | BSignal _ => 26
  | BReceiver _ => 27
  | BIff _ => 28
  | BUnderwaterAcoustic _ => 29
  | BSees _ => 30
  | BAggregateState _ => 33
  | BIsGroupOf _ => 34
  | BTransferOwnership _ => 35
  | BIsPartOf _ => 36
  | BCreateEntityR _ => 51
  | BRemoveEntityR _ => 52
  | BStartResumeR _ => 53
  | BStopFreezeR _ => 54
  | BAcknowledgeR _ => 55
  | BActionRequestR _ => 56
  | BActionResponseR _ => 57
  | BDataQueryR _ => 58
  | BSetDataR _ => 59
  | BDataR _ => 60
  | BEventReportR _ => 61
  | BCommentR _ => 62
  | BRecordR _ => 63
  | BSetRecordR _ => 64
  | BRecordQueryR _ => 65
  | BCollisionElastic _ => 66
  | BEntityStateUpdate _ => 67
  | BAttribute _ => 72
  | BUnit ty => ty
  end.

(** BodyInfo::body_length, common/model.rs:235-313 and each PDU's model.rs *)
Definition body_length (m : mode) (b : PduBody) : W Z :=
  match b with
  | BOther x => len_other m x
  | BEntityState x => len_entity_state m x
  | BFire x => len_fire m x
  | BDetonation x => len_detonation m x
  | BCollision x => len_collision m x
  | BServiceRequest x => len_service_request m x
  | BResupplyOffer x => len_resupply_offer m x
  | BResupplyReceived x => len_resupply_received m x
  | BResupplyCancel x => len_resupply_cancel m x
  | BRepairComplete x => len_repair_complete m x
  | BRepairResponse x => len_repair_response m x
  | BCreateEntity x => len_create_entity m x
  | BRemoveEntity x => len_remove_entity m x
  | BStartResume x => len_start_resume m x
  | BStopFreeze x => len_stop_freeze m x
  | BAcknowledge x => len_acknowledge m x
  | BActionRequest x => len_action_request m x
  | BActionResponse x => len_action_response m x
  | BDataQuery x => len_data_query m x
  | BSetData x => len_set_data m x
  | BData x => len_data m x
  | BEventReport x => len_event_report m x
  | BComment x => len_comment m x
  | BElectromagneticEmission x => len_emission m x
  | BDesignator x => len_designator m x
  | BTransmitter x => len_transmitter m x
  | BSignal x => len_signal m x
  | BReceiver x => len_receiver m x
  | BIff x => len_iff m x
  | BUnderwaterAcoustic x => len_underwater_acoustic m x
  | BSees x => len_sees m x
  | BAggregateState x => len_aggregate_state m x
  | BIsGroupOf x => len_is_group_of m x
  | BTransferOwnership x => len_transfer_ownership m x
  | BIsPartOf x => len_is_part_of m x
  | BCreateEntityR x => len_create_entity_r m x
  | BRemoveEntityR x => len_remove_entity_r m x
  | BStartResumeR x => len_start_resume_r m x
  | BStopFreezeR x => len_stop_freeze_r m x
  | BAcknowledgeR x => len_acknowledge_r m x
  | BActionRequestR x => len_action_request_r m x
  | BActionResponseR x => len_action_response_r m x
  | BDataQueryR x => len_data_query_r m x
  | BSetDataR x => len_set_data_r m x
  | BDataR x => len_data_r m x
  | BEventReportR x => len_event_report_r m x
  | BCommentR x => len_comment_r m x
  | BRecordR x => len_record_r m x
  | BSetRecordR x => len_set_record_r m x
  | BRecordQueryR x => len_record_query_r m x
  | BCollisionElastic x => len_collision_elastic m x
  | BEntityStateUpdate x => len_entity_state_update m x
  | BAttribute x => len_attribute m x
  | BUnit _ => wret 0
  end.

(** the match in Pdu::serialize, common/writer.rs:43-125 *)
Definition w_body (m : mode) (version : Z) (b : PduBody) : W Z :=
  match b with
  | BOther x => w_other m x
  | BEntityState x => w_entity_state m (supported_version version) x
  | BFire x => w_fire m x
  | BDetonation x => w_detonation m x
  | BCollision x => w_collision m x
  | BServiceRequest x => w_service_request m x
  | BResupplyOffer x => w_resupply_offer m x
  | BResupplyReceived x => w_resupply_received m x
  | BResupplyCancel x => w_resupply_cancel m x
  | BRepairComplete x => w_repair_complete m x
  | BRepairResponse x => w_repair_response m x
  | BCreateEntity x => w_create_entity m x
  | BRemoveEntity x => w_remove_entity m x
  | BStartResume x => w_start_resume m x
  | BStopFreeze x => w_stop_freeze m x
  | BAcknowledge x => w_acknowledge m x
  | BActionRequest x => w_action_request m x
  | BActionResponse x => w_action_response m x
  | BDataQuery x => w_data_query m x
  | BSetData x => w_set_data m x
  | BData x => w_data m x
  | BEventReport x => w_event_report m x
  | BComment x => w_comment m x
  | BElectromagneticEmission x => w_emission m x
  | BDesignator x => w_designator m x
  | BTransmitter x => w_transmitter m x
  | BSignal x => w_signal m x
  | BReceiver x => w_receiver m x
  | BIff x => w_iff m x
  | BUnderwaterAcoustic x => w_underwater_acoustic m x
  | BSees x => w_sees m x
  | BAggregateState x => w_aggregate_state m x
  | BIsGroupOf x => w_is_group_of m x
  | BTransferOwnership x => w_transfer_ownership m x
  | BIsPartOf x => w_is_part_of m x
  | BCreateEntityR x => w_create_entity_r m x
  | BRemoveEntityR x => w_remove_entity_r m x
  | BStartResumeR x => w_start_resume_r m x
  | BStopFreezeR x => w_stop_freeze_r m x
  | BAcknowledgeR x => w_acknowledge_r m x
  | BActionRequestR x => w_action_request_r m x
  | BActionResponseR x => w_action_response_r m x
  | BDataQueryR x => w_data_query_r m x
  | BSetDataR x => w_set_data_r m x
  | BDataR x => w_data_r m x
  | BEventReportR x => w_event_report_r m x
  | BCommentR x => w_comment_r m x
  | BRecordR x => w_record_r m x
  | BSetRecordR x => w_set_record_r m x
  | BRecordQueryR x => w_record_query_r m x
  | BCollisionElastic x => w_collision_elastic m x
  | BEntityStateUpdate x => w_entity_state_update m x
  | BAttribute x => w_attribute m x
  | BUnit _ => wret 0
  end.

(** Interaction for PduBody, common/model.rs:393-551 *)
Definition orig_body (b : PduBody) : option EntityId :=
  match b with
  | BOther x => orig_other x
  | BEntityState x => orig_entity_state x
  | BFire x => orig_fire x
  | BDetonation x => orig_detonation x
  | BCollision x => orig_collision x
  | BServiceRequest x => orig_service_request x
  | BResupplyOffer x => orig_resupply_offer x
  | BResupplyReceived x => orig_resupply_received x
  | BResupplyCancel x => orig_resupply_cancel x
  | BRepairComplete x => orig_repair_complete x
  | BRepairResponse x => orig_repair_response x
  | BCreateEntity x => orig_create_entity x
  | BRemoveEntity x => orig_remove_entity x
  | BStartResume x => orig_start_resume x
  | BStopFreeze x => orig_stop_freeze x
  | BAcknowledge x => orig_acknowledge x
  | BActionRequest x => orig_action_request x
  | BActionResponse x => orig_action_response x
  | BDataQuery x => orig_data_query x
  | BSetData x => orig_set_data x
  | BData x => orig_data x
  | BEventReport x => orig_event_report x
  | BComment x => orig_comment x
  | BElectromagneticEmission x => orig_emission x
  | BDesignator x => orig_designator x
  | BTransmitter x => orig_transmitter x
  | BSignal x => orig_signal x
  | BReceiver x => orig_receiver x
  | BIff x => orig_iff x
  | BUnderwaterAcoustic x => orig_underwater_acoustic x
  | BSees x => orig_sees x
  | BAggregateState x => orig_aggregate_state x
  | BIsGroupOf x => orig_is_group_of x
  | BTransferOwnership x => orig_transfer_ownership x
  | BIsPartOf x => orig_is_part_of x
  | BCreateEntityR x => orig_create_entity_r x
  | BRemoveEntityR x => orig_remove_entity_r x
  | BStartResumeR x => orig_start_resume_r x
  | BStopFreezeR x => orig_stop_freeze_r x
  | BAcknowledgeR x => orig_acknowledge_r x
  | BActionRequestR x => orig_action_request_r x
  | BActionResponseR x => orig_action_response_r x
  | BDataQueryR x => orig_data_query_r x
  | BSetDataR x => orig_set_data_r x
  | BDataR x => orig_data_r x
  | BEventReportR x => orig_event_report_r x
  | BCommentR x => orig_comment_r x
  | BRecordR x => orig_record_r x
  | BSetRecordR x => orig_set_record_r x
  | BRecordQueryR x => orig_record_query_r x
  | BCollisionElastic x => orig_collision_elastic x
  | BEntityStateUpdate x => orig_entity_state_update x
  | BAttribute x => orig_attribute x
  | BUnit _ => None
  end.
Definition recv_body (b : PduBody) : option EntityId :=
  match b with
  | BOther x => recv_other x
  | BEntityState x => recv_entity_state x
  | BFire x => recv_fire x
  | BDetonation x => recv_detonation x
  | BCollision x => recv_collision x
  | BServiceRequest x => recv_service_request x
  | BResupplyOffer x => recv_resupply_offer x
  | BResupplyReceived x => recv_resupply_received x
  | BResupplyCancel x => recv_resupply_cancel x
  | BRepairComplete x => recv_repair_complete x
  | BRepairResponse x => recv_repair_response x
  | BCreateEntity x => recv_create_entity x
  | BRemoveEntity x => recv_remove_entity x
  | BStartResume x => recv_start_resume x
  | BStopFreeze x => recv_stop_freeze x
  | BAcknowledge x => recv_acknowledge x
  | BActionRequest x => recv_action_request x
  | BActionResponse x => recv_action_response x
  | BDataQuery x => recv_data_query x
  | BSetData x => recv_set_data x
  | BData x => recv_data x
  | BEventReport x => recv_event_report x
  | BComment x => recv_comment x
  | BElectromagneticEmission x => recv_emission x
  | BDesignator x => recv_designator x
  | BTransmitter x => recv_transmitter x
  | BSignal x => recv_signal x
  | BReceiver x => recv_receiver x
  | BIff x => recv_iff x
  | BUnderwaterAcoustic x => recv_underwater_acoustic x
  | BSees x => recv_sees x
  | BAggregateState x => recv_aggregate_state x
  | BIsGroupOf x => recv_is_group_of x
  | BTransferOwnership x => recv_transfer_ownership x
  | BIsPartOf x => recv_is_part_of x
  | BCreateEntityR x => recv_create_entity_r x
  | BRemoveEntityR x => recv_remove_entity_r x
  | BStartResumeR x => recv_start_resume_r x
  | BStopFreezeR x => recv_stop_freeze_r x
  | BAcknowledgeR x => recv_acknowledge_r x
  | BActionRequestR x => recv_action_request_r x
  | BActionResponseR x => recv_action_response_r x
  | BDataQueryR x => recv_data_query_r x
  | BSetDataR x => recv_set_data_r x
  | BDataR x => recv_data_r x
  | BEventReportR x => recv_event_report_r x
  | BCommentR x => recv_comment_r x
  | BRecordR x => recv_record_r x
  | BSetRecordR x => recv_set_record_r x
  | BRecordQueryR x => recv_record_query_r x
  | BCollisionElastic x => recv_collision_elastic x
  | BEntityStateUpdate x => recv_entity_state_update x
  | BAttribute x => recv_attribute x
  | BUnit _ => None
  end.

(** the fire / detonation type indicator the body parsers read from the header
    (fire/parser.rs:15-16, detonation/parser.rs:12-13): the indicator of the status,
    or Munition (0) when there is no status or no indicator in it *)
Definition status_of (h : PduHeader) : PduStatus :=
  match h_status h with Some s => s | None => default_status end.
Definition fire_indicator (h : PduHeader) : Z :=
  match st_fti (status_of h) with Some v => v | None => 0 end.
Definition detonation_indicator (h : PduHeader) : Z :=
  match st_dti (status_of h) with Some v => v | None => 0 end.

(** apply a constructor to the result of a parser *)
Definition pmap {A B} (f : A -> B) (p : bparser A) : bparser B := (x <- p;; pret (f x))%parse.

(** pdu_body, common/parser.rs:192-275; [action_response_r_body] yields an
    ActionResponse body (action_response_r/parser.rs) *)
Definition p_body (m : mode) (h : PduHeader) : bparser PduBody :=
  let ty := h_type h in
  if ty =? 1 then pmap BEntityState (p_entity_state_body (h_version h)) else
  if ty =? 2 then pmap BFire (p_fire_body (fire_indicator h)) else
  if ty =? 3 then pmap BDetonation (p_detonation_body (detonation_indicator h)) else
  if ty =? 4 then pmap BCollision p_collision_body else
  if ty =? 5 then pmap BServiceRequest p_service_request_body else
  if ty =? 6 then pmap BResupplyOffer p_resupply_offer_body else
  if ty =? 7 then pmap BResupplyReceived p_resupply_received_body else
  if ty =? 8 then pmap BResupplyCancel p_resupply_cancel_body else
  if ty =? 9 then pmap BRepairComplete p_repair_complete_body else
  if ty =? 10 then pmap BRepairResponse p_repair_response_body else
  if ty =? 11 then pmap BCreateEntity p_create_entity_body else
  if ty =? 12 then pmap BRemoveEntity p_remove_entity_body else
  if ty =? 13 then pmap BStartResume p_start_resume_body else
  if ty =? 14 then pmap BStopFreeze p_stop_freeze_body else
  if ty =? 15 then pmap BAcknowledge p_acknowledge_body else
  if ty =? 16 then pmap BActionRequest p_action_request_body else
  if ty =? 17 then pmap BActionResponse p_action_response_body else
  if ty =? 18 then pmap BDataQuery p_data_query_body else
  if ty =? 19 then pmap BSetData p_set_data_body else
  if ty =? 20 then pmap BData p_data_body else
  if ty =? 21 then pmap BEventReport p_event_report_body else
  if ty =? 22 then pmap BComment p_comment_body else
  if ty =? 23 then pmap BElectromagneticEmission p_emission_body else
  if ty =? 24 then pmap BDesignator p_designator_body else
  if ty =? 25 then pmap BTransmitter (p_transmitter_body m (h_version h)) else
  if ty =? 26 then pmap BSignal p_signal_body else
  if ty =? 27 then pmap BReceiver p_receiver_body else
  if ty =? 28 then pmap BIff p_iff_body else
  if ty =? 29 then pmap BUnderwaterAcoustic p_underwater_acoustic_body else
  if ty =? 30 then pmap BSees p_sees_body else
  if ty =? 33 then pmap BAggregateState (p_aggregate_state_body m) else
  if ty =? 34 then pmap BIsGroupOf p_is_group_of_body else
  if ty =? 35 then pmap BTransferOwnership (p_transfer_ownership_body m) else
  if ty =? 36 then pmap BIsPartOf p_is_part_of_body else
  if ty =? 51 then pmap BCreateEntityR p_create_entity_r_body else
  if ty =? 52 then pmap BRemoveEntityR p_remove_entity_r_body else
  if ty =? 53 then pmap BStartResumeR p_start_resume_r_body else
  if ty =? 54 then pmap BStopFreezeR p_stop_freeze_r_body else
  if ty =? 55 then pmap BAcknowledgeR p_acknowledge_r_body else
  if ty =? 56 then pmap BActionRequestR p_action_request_r_body else
  if ty =? 57 then pmap BActionResponse p_action_response_r_body else
  if ty =? 58 then pmap BDataQueryR p_data_query_r_body else
  if ty =? 59 then pmap BSetDataR p_set_data_r_body else
  if ty =? 60 then pmap BDataR p_data_r_body else
  if ty =? 61 then pmap BEventReportR p_event_report_r_body else
  if ty =? 62 then pmap BCommentR p_comment_r_body else
  if ty =? 63 then pmap BRecordR (p_record_r_body m) else
  if ty =? 64 then pmap BSetRecordR (p_set_record_r_body m) else
  if ty =? 65 then pmap BRecordQueryR p_record_query_r_body else
  if ty =? 66 then pmap BCollisionElastic p_collision_elastic_body else
  if ty =? 67 then pmap BEntityStateUpdate p_entity_state_update_body else
  if ty =? 72 then pmap BAttribute p_attribute_body else
  pmap BOther (p_other_body ty (h_length h)).

(** ** Specification side: octets on the wire, and where the code deviates *)
Definition size_body (b : PduBody) : Z :=
  match b with
  | BOther x => size_other x
  | BEntityState x => size_entity_state x
  | BFire x => size_fire x
  | BDetonation x => size_detonation x
  | BCollision x => size_collision x
  | BServiceRequest x => size_service_request x
  | BResupplyOffer x => size_resupply_offer x
  | BResupplyReceived x => size_resupply_received x
  | BResupplyCancel x => size_resupply_cancel x
  | BRepairComplete x => size_repair_complete x
  | BRepairResponse x => size_repair_response x
  | BCreateEntity x => size_create_entity x
  | BRemoveEntity x => size_remove_entity x
  | BStartResume x => size_start_resume x
  | BStopFreeze x => size_stop_freeze x
  | BAcknowledge x => size_acknowledge x
  | BActionRequest x => size_action_request x
  | BActionResponse x => size_action_response x
  | BDataQuery x => size_data_query x
  | BSetData x => size_set_data x
  | BData x => size_data x
  | BEventReport x => size_event_report x
  | BComment x => size_comment x
  | BElectromagneticEmission x => size_emission x
  | BDesignator x => size_designator x
  | BTransmitter x => size_transmitter x
  | BSignal x => size_signal x
  | BReceiver x => size_receiver x
  | BIff x => size_iff x
  | BUnderwaterAcoustic x => size_underwater_acoustic x
  | BSees x => size_sees x
  | BAggregateState x => size_aggregate_state x
  | BIsGroupOf x => size_is_group_of x
  | BTransferOwnership x => size_transfer_ownership x
  | BIsPartOf x => size_is_part_of x
  | BCreateEntityR x => size_create_entity_r x
  | BRemoveEntityR x => size_remove_entity_r x
  | BStartResumeR x => size_start_resume_r x
  | BStopFreezeR x => size_stop_freeze_r x
  | BAcknowledgeR x => size_acknowledge_r x
  | BActionRequestR x => size_action_request_r x
  | BActionResponseR x => size_action_response_r x
  | BDataQueryR x => size_data_query_r x
  | BSetDataR x => size_set_data_r x
  | BDataR x => size_data_r x
  | BEventReportR x => size_event_report_r x
  | BCommentR x => size_comment_r x
  | BRecordR x => size_record_r x
  | BSetRecordR x => size_set_record_r x
  | BRecordQueryR x => size_record_query_r x
  | BCollisionElastic x => size_collision_elastic x
  | BEntityStateUpdate x => size_entity_state_update x
  | BAttribute x => size_attribute x
  | BUnit _ => 0
  end.

(** What [serialize_pdu] returns minus the octets it writes (0 unless listed). *)
Definition returned_excess (b : PduBody) : Z :=
  match b with
  | BEntityState _ => 44
  | BTransmitter _ => 12
  | BIsGroupOf _ => -8
  | BTransferOwnership _ => -2
  | BRecordR _ => -2
  | BIff x => deficit_iff x
  | BAggregateState x => - 2 * zlen (AggregateState_silent_entities x)
  | _ => 0
  end.

(** What [body_length] claims minus the octets the body takes (0 unless listed). *)
Definition claimed_excess (b : PduBody) : Z :=
  match b with
  | BFire _ => -56
  | BDetonation _ | BCollision _ | BServiceRequest _ | BResupplyOffer _ | BResupplyReceived _ | BResupplyCancel _ => 12
  | BIsPartOf _ => 8
  | BRecordR _ => -2
  | BIff x => 12 + deficit_iff x
  | BAggregateState x => - 2 * zlen (AggregateState_silent_entities x)
  | _ => 0
  end.

Definition wf_body (b : PduBody) : Prop :=
  match b with
  | BOther x => wf_Other x
  | BEntityState x => wf_EntityState x
  | BFire x => wf_Fire x
  | BDetonation x => wf_Detonation x
  | BCollision x => wf_Collision x
  | BServiceRequest x => wf_ServiceRequest x
  | BResupplyOffer x => wf_ResupplyOffer x
  | BResupplyReceived x => wf_ResupplyReceived x
  | BResupplyCancel x => wf_ResupplyCancel x
  | BRepairComplete x => wf_RepairComplete x
  | BRepairResponse x => wf_RepairResponse x
  | BCreateEntity x => wf_CreateEntity x
  | BRemoveEntity x => wf_RemoveEntity x
  | BStartResume x => wf_StartResume x
  | BStopFreeze x => wf_StopFreeze x
  | BAcknowledge x => wf_Acknowledge x
  | BActionRequest x => wf_ActionRequest x
  | BActionResponse x => wf_ActionResponse x
  | BDataQuery x => wf_DataQuery x
  | BSetData x => wf_SetData x
  | BData x => wf_Data x
  | BEventReport x => wf_EventReport x
  | BComment x => wf_Comment x
  | BElectromagneticEmission x => wf_EE x
  | BDesignator x => wf_Designator x
  | BTransmitter x => wf_Transmitter x
  | BSignal x => wf_Signal x
  | BReceiver x => wf_Receiver x
  | BIff x => wf_Iff x
  | BUnderwaterAcoustic x => wf_UA x
  | BSees x => wf_Sees x
  | BAggregateState x => wf_AggregateState x
  | BIsGroupOf x => wf_IsGroupOf x
  | BTransferOwnership x => wf_TransferOwnership x
  | BIsPartOf x => wf_IsPartOf x
  | BCreateEntityR x => wf_CreateEntityR x
  | BRemoveEntityR x => wf_RemoveEntityR x
  | BStartResumeR x => wf_StartResumeR x
  | BStopFreezeR x => wf_StopFreezeR x
  | BAcknowledgeR x => wf_AcknowledgeR x
  | BActionRequestR x => wf_ActionRequestR x
  | BActionResponseR x => wf_ActionResponseR x
  | BDataQueryR x => wf_DataQueryR x
  | BSetDataR x => wf_SetDataR x
  | BDataR x => wf_DataR x
  | BEventReportR x => wf_EventReportR x
  | BCommentR x => wf_CommentR x
  | BRecordR x => wf_RecordR x
  | BSetRecordR x => wf_SetRecordR x
  | BRecordQueryR x => wf_RecordQueryR x
  | BCollisionElastic x => wf_CollisionElastic x
  | BEntityStateUpdate x => wf_EntityStateUpdate x
  | BAttribute x => wf_Attribute x
  | BUnit ty => In ty unit_types
  end.

(** The types whose body is parsed as Other. *)
Definition implemented_types : list Z :=
  [1; 2; 3; 4; 5; 6; 7; 8; 9; 10; 11; 12; 13; 14; 15; 16; 17; 18; 19; 20; 21; 22; 23; 24; 25; 26; 27; 28; 29; 30; 33; 34; 35; 36; 51; 52; 53; 54; 55; 56; 57; 58; 59; 60; 61; 62; 63; 64; 65; 66; 67; 72].
Definition other_type (ty : Z) : Prop := ~ In ty implemented_types.

(** Bodies that survive serialisation and parsing under a given header. *)
Definition fits_body (h : PduHeader) (b : PduBody) : Prop :=
  match b with
  | BOther x => other_type (h_type h) /\ Z.max 12 (h_length h) = 12 + size_other x /\ fits_other (h_type h) x   (* a length under 12 counts as 12 *)
  | BActionResponseR _ => False
  | BUnit _ => False
  | BEntityState x => h_type h = 1 /\ fits_entity_state (h_version h) x
  | BFire x => h_type h = 2 /\ fits_fire (fire_indicator h) x
  | BDetonation x => h_type h = 3 /\ fits_detonation (detonation_indicator h) x
  | BCollision x => h_type h = 4 /\ fits_collision x
  | BServiceRequest x => h_type h = 5 /\ fits_service_request x
  | BResupplyOffer x => h_type h = 6 /\ fits_resupply_offer x
  | BResupplyReceived x => h_type h = 7 /\ fits_resupply_received x
  | BResupplyCancel x => h_type h = 8 /\ fits_resupply_cancel x
  | BRepairComplete x => h_type h = 9 /\ fits_repair_complete x
  | BRepairResponse x => h_type h = 10 /\ fits_repair_response x
  | BCreateEntity x => h_type h = 11 /\ fits_create_entity x
  | BRemoveEntity x => h_type h = 12 /\ fits_remove_entity x
  | BStartResume x => h_type h = 13 /\ fits_start_resume x
  | BStopFreeze x => h_type h = 14 /\ fits_stop_freeze x
  | BAcknowledge x => h_type h = 15 /\ fits_acknowledge x
  | BActionRequest x => h_type h = 16 /\ fits_action_request x
  | BActionResponse x => (h_type h = 17 \/ h_type h = 57) /\ fits_action_response x   (* type 57 is parsed to an action response *)
  | BDataQuery x => h_type h = 18 /\ fits_data_query x
  | BSetData x => h_type h = 19 /\ fits_set_data x
  | BData x => h_type h = 20 /\ fits_data x
  | BEventReport x => h_type h = 21 /\ fits_event_report x
  | BComment x => h_type h = 22 /\ fits_comment x
  | BElectromagneticEmission x => h_type h = 23 /\ fits_emission x
  | BDesignator x => h_type h = 24 /\ fits_designator x
  | BTransmitter x => h_type h = 25 /\ fits_transmitter (h_version h) x
  | BSignal x => h_type h = 26 /\ fits_signal x
  | BReceiver x => h_type h = 27 /\ fits_receiver x
  | BIff x => h_type h = 28 /\ fits_iff x
  | BUnderwaterAcoustic x => h_type h = 29 /\ fits_underwater_acoustic x
  | BSees x => h_type h = 30 /\ fits_sees x
  | BAggregateState x => h_type h = 33 /\ fits_aggregate_state x
  | BIsGroupOf x => h_type h = 34 /\ fits_is_group_of x
  | BTransferOwnership x => h_type h = 35 /\ fits_transfer_ownership x
  | BIsPartOf x => h_type h = 36 /\ fits_is_part_of x
  | BCreateEntityR x => h_type h = 51 /\ fits_create_entity_r x
  | BRemoveEntityR x => h_type h = 52 /\ fits_remove_entity_r x
  | BStartResumeR x => h_type h = 53 /\ fits_start_resume_r x
  | BStopFreezeR x => h_type h = 54 /\ fits_stop_freeze_r x
  | BAcknowledgeR x => h_type h = 55 /\ fits_acknowledge_r x
  | BActionRequestR x => h_type h = 56 /\ fits_action_request_r x
  | BDataQueryR x => h_type h = 58 /\ fits_data_query_r x
  | BSetDataR x => h_type h = 59 /\ fits_set_data_r x
  | BDataR x => h_type h = 60 /\ fits_data_r x
  | BEventReportR x => h_type h = 61 /\ fits_event_report_r x
  | BCommentR x => h_type h = 62 /\ fits_comment_r x
  | BRecordR x => h_type h = 63 /\ fits_record_r x
  | BSetRecordR x => h_type h = 64 /\ fits_set_record_r x
  | BRecordQueryR x => h_type h = 65 /\ fits_record_query_r x
  | BCollisionElastic x => h_type h = 66 /\ fits_collision_elastic x
  | BEntityStateUpdate x => h_type h = 67 /\ fits_entity_state_update x
  | BAttribute x => h_type h = 72 /\ fits_attribute x
  end.

Lemma RT_pmap {A B R} (f : A -> B) (w : W R) (p : bparser A) x r L : RT w p x r L -> RT w (pmap f p) (f x) r L.
Proof.
  intros (bs & Hw & Hl & Hp). exists bs. repeat split; auto. intros rest. unfold pmap, pbind. rewrite Hp. reflexivity.
Qed.
Lemma Ext_pmap {A B} (f : A -> B) (p : bparser A) : Ext p -> Ext (pmap f p).
Proof. intros. unfold pmap. ext. Qed.
Lemma Safe_pmap {A B} (f : A -> B) (p : bparser A) P (Q : B -> Prop) : SafeP p P -> (forall x, P x -> Q (f x)) -> SafeP (pmap f p) Q.
Proof. intros. unfold pmap. eapply Safe_bind; [eassumption|]. intros. apply Safe_ret. auto. Qed.

Lemma p_body_other m h : other_type (h_type h) -> p_body m h = pmap BOther (p_other_body (h_type h) (h_length h)).
Proof.
  intros H. assert (N : forall k, In k implemented_types -> (h_type h =? k) = false) by (intros k Hk; apply Z.eqb_neq; intros <-; contradiction).
  unfold p_body. cbv zeta. unfold implemented_types in N.
  repeat match goal with |- context [h_type h =? ?k] => rewrite (N k) by (repeat first [left; reflexivity | right]) end.
  reflexivity.
Qed.

Local Ltac body_case := intros; match goal with
  | |- RT _ (p_body ?m ?h) _ _ _ => unfold p_body; cbv zeta;
     match goal with H : h_type h = ?t |- _ => rewrite H end; cbn [Z.eqb Pos.eqb];
     eapply RT_conv; [apply RT_pmap|reflexivity| |reflexivity] end.

Lemma RT_body m h b : wf_body b -> fits_body h b ->
  RT (w_body m (h_version h) b) (p_body m h) b (size_body b + returned_excess b) (size_body b).
Proof.
  destruct b; cbn [wf_body fits_body w_body size_body returned_excess]; intros Hw Hf; try contradiction.
  - destruct Hf as (Ho & Hl & Hf). rewrite p_body_other by assumption.
    replace (p_other_body (h_type h) (h_length h)) with (p_other_body (h_type h) (12 + size_other x)) by (rewrite <- Hl; unfold p_other_body; replace (Z.max 0 (Z.max 12 (h_length h) - 12)) with (Z.max 0 (h_length h - 12)) by lia; reflexivity).
    eapply RT_conv; [apply RT_pmap; apply RT_other; assumption|reflexivity|lia|reflexivity].
  - destruct Hf as [Ht Hf]. body_case; [apply (RT_entity_state m (h_version h) _ Hw Hf)|lia].
  - destruct Hf as [Ht Hf]. body_case; [apply (RT_fire m _ _ Hw Hf)|lia].
  - destruct Hf as [Ht Hf]. body_case; [apply (RT_detonation m _ _ Hw Hf)|lia].
  - destruct Hf as [Ht Hf]. body_case; [apply (RT_collision m _ Hw Hf)|lia].
  - destruct Hf as [Ht Hf]. body_case; [apply (RT_service_request m _ Hw Hf)|lia].
  - destruct Hf as [Ht Hf]. body_case; [apply (RT_resupply_offer m _ Hw Hf)|lia].
  - destruct Hf as [Ht Hf]. body_case; [apply (RT_resupply_received m _ Hw Hf)|lia].
  - destruct Hf as [Ht Hf]. body_case; [apply (RT_resupply_cancel m _ Hw Hf)|lia].
  - destruct Hf as [Ht Hf]. body_case; [apply (RT_repair_complete m _ Hw Hf)|lia].
  - destruct Hf as [Ht Hf]. body_case; [apply (RT_repair_response m _ Hw Hf)|lia].
  - destruct Hf as [Ht Hf]. body_case; [apply (RT_create_entity m _ Hw Hf)|lia].
  - destruct Hf as [Ht Hf]. body_case; [apply (RT_remove_entity m _ Hw Hf)|lia].
  - destruct Hf as [Ht Hf]. body_case; [apply (RT_start_resume m _ Hw Hf)|lia].
  - destruct Hf as [Ht Hf]. body_case; [apply (RT_stop_freeze m _ Hw Hf)|lia].
  - destruct Hf as [Ht Hf]. body_case; [apply (RT_acknowledge m _ Hw Hf)|lia].
  - destruct Hf as [Ht Hf]. body_case; [apply (RT_action_request m _ Hw Hf)|lia].
  - destruct Hf as [[Ht|Ht] Hf]; (body_case; [apply (RT_action_response m _ Hw Hf)|lia]).
  - destruct Hf as [Ht Hf]. body_case; [apply (RT_data_query m _ Hw Hf)|lia].
  - destruct Hf as [Ht Hf]. body_case; [apply (RT_set_data m _ Hw Hf)|lia].
  - destruct Hf as [Ht Hf]. body_case; [apply (RT_data m _ Hw Hf)|lia].
  - destruct Hf as [Ht Hf]. body_case; [apply (RT_event_report m _ Hw Hf)|lia].
  - destruct Hf as [Ht Hf]. body_case; [apply (RT_comment m _ Hw Hf)|lia].
  - destruct Hf as [Ht Hf]. body_case; [apply (RT_emission m _ Hw Hf)|lia].
  - destruct Hf as [Ht Hf]. body_case; [apply (RT_designator m _ Hw Hf)|lia].
  - destruct Hf as [Ht Hf]. body_case; [apply (RT_transmitter m _ _ Hw Hf)|lia].
  - destruct Hf as [Ht Hf]. body_case; [apply (RT_signal m _ Hw Hf)|lia].
  - destruct Hf as [Ht Hf]. body_case; [apply (RT_receiver m _ Hw Hf)|lia].
  - destruct Hf as [Ht Hf]. body_case; [apply (RT_iff m _ Hw Hf)|lia].
  - destruct Hf as [Ht Hf]. body_case; [apply (RT_underwater_acoustic m _ Hw Hf)|lia].
  - destruct Hf as [Ht Hf]. body_case; [apply (RT_sees m _ Hw Hf)|lia].
  - destruct Hf as [Ht Hf]. body_case; [apply (RT_aggregate_state m _ Hw Hf)|lia].
  - destruct Hf as [Ht Hf]. body_case; [apply (RT_is_group_of m _ Hw Hf)|lia].
  - destruct Hf as [Ht Hf]. body_case; [apply (RT_transfer_ownership m _ Hw Hf)|lia].
  - destruct Hf as [Ht Hf]. body_case; [apply (RT_is_part_of m _ Hw Hf)|lia].
  - destruct Hf as [Ht Hf]. body_case; [apply (RT_create_entity_r m _ Hw Hf)|lia].
  - destruct Hf as [Ht Hf]. body_case; [apply (RT_remove_entity_r m _ Hw Hf)|lia].
  - destruct Hf as [Ht Hf]. body_case; [apply (RT_start_resume_r m _ Hw Hf)|lia].
  - destruct Hf as [Ht Hf]. body_case; [apply (RT_stop_freeze_r m _ Hw Hf)|lia].
  - destruct Hf as [Ht Hf]. body_case; [apply (RT_acknowledge_r m _ Hw Hf)|lia].
  - destruct Hf as [Ht Hf]. body_case; [apply (RT_action_request_r m _ Hw Hf)|lia].
  - destruct Hf as [Ht Hf]. body_case; [apply (RT_data_query_r m _ Hw Hf)|lia].
  - destruct Hf as [Ht Hf]. body_case; [apply (RT_set_data_r m _ Hw Hf)|lia].
  - destruct Hf as [Ht Hf]. body_case; [apply (RT_data_r m _ Hw Hf)|lia].
  - destruct Hf as [Ht Hf]. body_case; [apply (RT_event_report_r m _ Hw Hf)|lia].
  - destruct Hf as [Ht Hf]. body_case; [apply (RT_comment_r m _ Hw Hf)|lia].
  - destruct Hf as [Ht Hf]. body_case; [apply (RT_record_r m _ Hw Hf)|lia].
  - destruct Hf as [Ht Hf]. body_case; [apply (RT_set_record_r m _ Hw Hf)|lia].
  - destruct Hf as [Ht Hf]. body_case; [apply (RT_record_query_r m _ Hw Hf)|lia].
  - destruct Hf as [Ht Hf]. body_case; [apply (RT_collision_elastic m _ Hw Hf)|lia].
  - destruct Hf as [Ht Hf]. body_case; [apply (RT_entity_state_update m _ Hw Hf)|lia].
  - destruct Hf as [Ht Hf]. body_case; [apply (RT_attribute m _ Hw Hf)|lia].
Qed.

Lemma Ext_body m h : Ext (p_body m h).
Proof.
  unfold p_body. cbv zeta.
  destruct (h_type h =? 1); [apply Ext_pmap; apply Ext_entity_state|].
  destruct (h_type h =? 2); [apply Ext_pmap; apply Ext_fire|].
  destruct (h_type h =? 3); [apply Ext_pmap; apply Ext_detonation|].
  destruct (h_type h =? 4); [apply Ext_pmap; apply Ext_collision|].
  destruct (h_type h =? 5); [apply Ext_pmap; apply Ext_service_request|].
  destruct (h_type h =? 6); [apply Ext_pmap; apply Ext_resupply_offer|].
  destruct (h_type h =? 7); [apply Ext_pmap; apply Ext_resupply_received|].
  destruct (h_type h =? 8); [apply Ext_pmap; apply Ext_resupply_cancel|].
  destruct (h_type h =? 9); [apply Ext_pmap; apply Ext_repair_complete|].
  destruct (h_type h =? 10); [apply Ext_pmap; apply Ext_repair_response|].
  destruct (h_type h =? 11); [apply Ext_pmap; apply Ext_create_entity|].
  destruct (h_type h =? 12); [apply Ext_pmap; apply Ext_remove_entity|].
  destruct (h_type h =? 13); [apply Ext_pmap; apply Ext_start_resume|].
  destruct (h_type h =? 14); [apply Ext_pmap; apply Ext_stop_freeze|].
  destruct (h_type h =? 15); [apply Ext_pmap; apply Ext_acknowledge|].
  destruct (h_type h =? 16); [apply Ext_pmap; apply Ext_action_request|].
  destruct (h_type h =? 17); [apply Ext_pmap; apply Ext_action_response|].
  destruct (h_type h =? 18); [apply Ext_pmap; apply Ext_data_query|].
  destruct (h_type h =? 19); [apply Ext_pmap; apply Ext_set_data|].
  destruct (h_type h =? 20); [apply Ext_pmap; apply Ext_data|].
  destruct (h_type h =? 21); [apply Ext_pmap; apply Ext_event_report|].
  destruct (h_type h =? 22); [apply Ext_pmap; apply Ext_comment|].
  destruct (h_type h =? 23); [apply Ext_pmap; apply Ext_emission|].
  destruct (h_type h =? 24); [apply Ext_pmap; apply Ext_designator|].
  destruct (h_type h =? 25); [apply Ext_pmap; apply Ext_transmitter|].
  destruct (h_type h =? 26); [apply Ext_pmap; apply Ext_signal|].
  destruct (h_type h =? 27); [apply Ext_pmap; apply Ext_receiver|].
  destruct (h_type h =? 28); [apply Ext_pmap; apply Ext_iff|].
  destruct (h_type h =? 29); [apply Ext_pmap; apply Ext_underwater_acoustic|].
  destruct (h_type h =? 30); [apply Ext_pmap; apply Ext_sees|].
  destruct (h_type h =? 33); [apply Ext_pmap; apply Ext_aggregate_state|].
  destruct (h_type h =? 34); [apply Ext_pmap; apply Ext_is_group_of|].
  destruct (h_type h =? 35); [apply Ext_pmap; apply Ext_transfer_ownership|].
  destruct (h_type h =? 36); [apply Ext_pmap; apply Ext_is_part_of|].
  destruct (h_type h =? 51); [apply Ext_pmap; apply Ext_create_entity_r|].
  destruct (h_type h =? 52); [apply Ext_pmap; apply Ext_remove_entity_r|].
  destruct (h_type h =? 53); [apply Ext_pmap; apply Ext_start_resume_r|].
  destruct (h_type h =? 54); [apply Ext_pmap; apply Ext_stop_freeze_r|].
  destruct (h_type h =? 55); [apply Ext_pmap; apply Ext_acknowledge_r|].
  destruct (h_type h =? 56); [apply Ext_pmap; apply Ext_action_request_r|].
  destruct (h_type h =? 57); [apply Ext_pmap; apply Ext_action_response_r|].
  destruct (h_type h =? 58); [apply Ext_pmap; apply Ext_data_query_r|].
  destruct (h_type h =? 59); [apply Ext_pmap; apply Ext_set_data_r|].
  destruct (h_type h =? 60); [apply Ext_pmap; apply Ext_data_r|].
  destruct (h_type h =? 61); [apply Ext_pmap; apply Ext_event_report_r|].
  destruct (h_type h =? 62); [apply Ext_pmap; apply Ext_comment_r|].
  destruct (h_type h =? 63); [apply Ext_pmap; apply Ext_record_r|].
  destruct (h_type h =? 64); [apply Ext_pmap; apply Ext_set_record_r|].
  destruct (h_type h =? 65); [apply Ext_pmap; apply Ext_record_query_r|].
  destruct (h_type h =? 66); [apply Ext_pmap; apply Ext_collision_elastic|].
  destruct (h_type h =? 67); [apply Ext_pmap; apply Ext_entity_state_update|].
  destruct (h_type h =? 72); [apply Ext_pmap; apply Ext_attribute|].
  apply Ext_pmap; apply Ext_other.
Qed.
Global Hint Resolve Ext_body : ext.

Lemma body_length_ok m h b : wf_body b -> fits_body h b ->
  body_length m b = WOk [] (size_body b + claimed_excess b).
Proof.
  destruct b; cbn [wf_body fits_body body_length size_body claimed_excess]; intros Hw Hf; try contradiction.
  - destruct Hf as (Ho & Hl & Hf). rewrite len_other_ok; [f_equal; lia|]. unfold fits_other in Hf. intuition lia.
  - destruct Hf as [Ht Hf]. erewrite len_entity_state_ok; [f_equal; lia|..]; try eassumption; try (unfold fits_entity_state in Hf; intuition lia).
  - destruct Hf as [Ht Hf]. erewrite len_fire_ok; [f_equal; lia|..]; try eassumption; try (unfold fits_fire in Hf; intuition lia).
  - destruct Hf as [Ht Hf]. erewrite len_detonation_ok; [f_equal; lia|..]; try eassumption; try (unfold fits_detonation in Hf; intuition lia).
  - destruct Hf as [Ht Hf]. erewrite len_collision_ok; [f_equal; lia|..]; try eassumption; try (unfold fits_collision in Hf; intuition lia).
  - destruct Hf as [Ht Hf]. erewrite len_service_request_ok; [f_equal; lia|..]; try eassumption; try (unfold fits_service_request in Hf; intuition lia).
  - destruct Hf as [Ht Hf]. erewrite len_resupply_offer_ok; [f_equal; lia|..]; try eassumption; try (unfold fits_resupply_offer in Hf; intuition lia).
  - destruct Hf as [Ht Hf]. erewrite len_resupply_received_ok; [f_equal; lia|..]; try eassumption; try (unfold fits_resupply_received in Hf; intuition lia).
  - destruct Hf as [Ht Hf]. erewrite len_resupply_cancel_ok; [f_equal; lia|..]; try eassumption; try (unfold fits_resupply_cancel in Hf; intuition lia).
  - destruct Hf as [Ht Hf]. erewrite len_repair_complete_ok; [f_equal; lia|..]; try eassumption; try (unfold fits_repair_complete in Hf; intuition lia).
  - destruct Hf as [Ht Hf]. erewrite len_repair_response_ok; [f_equal; lia|..]; try eassumption; try (unfold fits_repair_response in Hf; intuition lia).
  - destruct Hf as [Ht Hf]. erewrite len_create_entity_ok; [f_equal; lia|..]; try eassumption; try (unfold fits_create_entity in Hf; intuition lia).
  - destruct Hf as [Ht Hf]. erewrite len_remove_entity_ok; [f_equal; lia|..]; try eassumption; try (unfold fits_remove_entity in Hf; intuition lia).
  - destruct Hf as [Ht Hf]. erewrite len_start_resume_ok; [f_equal; lia|..]; try eassumption; try (unfold fits_start_resume in Hf; intuition lia).
  - destruct Hf as [Ht Hf]. erewrite len_stop_freeze_ok; [f_equal; lia|..]; try eassumption; try (unfold fits_stop_freeze in Hf; intuition lia).
  - destruct Hf as [Ht Hf]. erewrite len_acknowledge_ok; [f_equal; lia|..]; try eassumption; try (unfold fits_acknowledge in Hf; intuition lia).
  - destruct Hf as [Ht Hf]. erewrite len_action_request_ok; [f_equal; lia|..]; try eassumption; try (unfold fits_action_request in Hf; intuition lia).
  - destruct Hf as [Ht Hf]. erewrite len_action_response_ok; [f_equal; lia|..]; try eassumption; try (unfold fits_action_response in Hf; intuition lia).
  - destruct Hf as [Ht Hf]. erewrite len_data_query_ok; [f_equal; lia|..]; try eassumption; try (unfold fits_data_query in Hf; intuition lia).
  - destruct Hf as [Ht Hf]. erewrite len_set_data_ok; [f_equal; lia|..]; try eassumption; try (unfold fits_set_data in Hf; intuition lia).
  - destruct Hf as [Ht Hf]. erewrite len_data_ok; [f_equal; lia|..]; try eassumption; try (unfold fits_data in Hf; intuition lia).
  - destruct Hf as [Ht Hf]. erewrite len_event_report_ok; [f_equal; lia|..]; try eassumption; try (unfold fits_event_report in Hf; intuition lia).
  - destruct Hf as [Ht Hf]. erewrite len_comment_ok; [f_equal; lia|..]; try eassumption; try (unfold fits_comment in Hf; intuition lia).
  - destruct Hf as [Ht Hf]. erewrite len_emission_ok; [f_equal; lia|..]; try eassumption; try (unfold fits_emission in Hf; intuition lia).
  - destruct Hf as [Ht Hf]. erewrite len_designator_ok; [f_equal; lia|..]; try eassumption; try (unfold fits_designator in Hf; intuition lia).
  - destruct Hf as [Ht Hf]. erewrite len_transmitter_ok; [f_equal; lia|..]; try eassumption; try (unfold fits_transmitter in Hf; intuition lia).
  - destruct Hf as [Ht Hf]. erewrite len_signal_ok; [f_equal; lia|..]; try eassumption; try (unfold fits_signal in Hf; intuition lia).
  - destruct Hf as [Ht Hf]. erewrite len_receiver_ok; [f_equal; lia|..]; try eassumption; try (unfold fits_receiver in Hf; intuition lia).
  - destruct Hf as [Ht Hf]. erewrite len_iff_ok; [f_equal; lia|..]; try eassumption; try (unfold fits_iff in Hf; intuition lia).
  - destruct Hf as [Ht Hf]. erewrite len_underwater_acoustic_ok; [f_equal; lia|..]; try eassumption; try (unfold fits_underwater_acoustic in Hf; intuition lia).
  - destruct Hf as [Ht Hf]. erewrite len_sees_ok; [f_equal; lia|..]; try eassumption; try (unfold fits_sees in Hf; intuition lia).
  - destruct Hf as [Ht Hf]. erewrite len_aggregate_state_ok; [f_equal; lia|..]; try eassumption; try (unfold fits_aggregate_state in Hf; intuition lia).
  - destruct Hf as [Ht Hf]. erewrite len_is_group_of_ok; [f_equal; lia|..]; try eassumption; try (unfold fits_is_group_of in Hf; intuition lia).
  - destruct Hf as [Ht Hf]. erewrite len_transfer_ownership_ok; [f_equal; lia|..]; try eassumption; try (unfold fits_transfer_ownership in Hf; intuition lia).
  - destruct Hf as [Ht Hf]. erewrite len_is_part_of_ok; [f_equal; lia|..]; try eassumption; try (unfold fits_is_part_of in Hf; intuition lia).
  - destruct Hf as [Ht Hf]. erewrite len_create_entity_r_ok; [f_equal; lia|..]; try eassumption; try (unfold fits_create_entity_r in Hf; intuition lia).
  - destruct Hf as [Ht Hf]. erewrite len_remove_entity_r_ok; [f_equal; lia|..]; try eassumption; try (unfold fits_remove_entity_r in Hf; intuition lia).
  - destruct Hf as [Ht Hf]. erewrite len_start_resume_r_ok; [f_equal; lia|..]; try eassumption; try (unfold fits_start_resume_r in Hf; intuition lia).
  - destruct Hf as [Ht Hf]. erewrite len_stop_freeze_r_ok; [f_equal; lia|..]; try eassumption; try (unfold fits_stop_freeze_r in Hf; intuition lia).
  - destruct Hf as [Ht Hf]. erewrite len_acknowledge_r_ok; [f_equal; lia|..]; try eassumption; try (unfold fits_acknowledge_r in Hf; intuition lia).
  - destruct Hf as [Ht Hf]. erewrite len_action_request_r_ok; [f_equal; lia|..]; try eassumption; try (unfold fits_action_request_r in Hf; intuition lia).
  - destruct Hf as [Ht Hf]. erewrite len_data_query_r_ok; [f_equal; lia|..]; try eassumption; try (unfold fits_data_query_r in Hf; intuition lia).
  - destruct Hf as [Ht Hf]. erewrite len_set_data_r_ok; [f_equal; lia|..]; try eassumption; try (unfold fits_set_data_r in Hf; intuition lia).
  - destruct Hf as [Ht Hf]. erewrite len_data_r_ok; [f_equal; lia|..]; try eassumption; try (unfold fits_data_r in Hf; intuition lia).
  - destruct Hf as [Ht Hf]. erewrite len_event_report_r_ok; [f_equal; lia|..]; try eassumption; try (unfold fits_event_report_r in Hf; intuition lia).
  - destruct Hf as [Ht Hf]. erewrite len_comment_r_ok; [f_equal; lia|..]; try eassumption; try (unfold fits_comment_r in Hf; intuition lia).
  - destruct Hf as [Ht Hf]. erewrite len_record_r_ok; [f_equal; lia|..]; try eassumption; try (unfold fits_record_r in Hf; intuition lia).
  - destruct Hf as [Ht Hf]. erewrite len_set_record_r_ok; [f_equal; lia|..]; try eassumption; try (unfold fits_set_record_r in Hf; intuition lia).
  - destruct Hf as [Ht Hf]. erewrite len_record_query_r_ok; [f_equal; lia|..]; try eassumption; try (unfold fits_record_query_r in Hf; intuition lia).
  - destruct Hf as [Ht Hf]. erewrite len_collision_elastic_ok; [f_equal; lia|..]; try eassumption; try (unfold fits_collision_elastic in Hf; intuition lia).
  - destruct Hf as [Ht Hf]. erewrite len_entity_state_update_ok; [f_equal; lia|..]; try eassumption; try (unfold fits_entity_state_update in Hf; intuition lia).
  - destruct Hf as [Ht Hf]. erewrite len_attribute_ok; [f_equal; lia|..]; try eassumption; try (unfold fits_attribute in Hf; intuition lia).
Qed.

(** In release builds (wrapping arithmetic) no body parser but the one of Signal can panic. *)
Lemma Safe_body h : u8 (h_type h) -> u16 (h_length h) -> h_type h <> 26 -> Safe (p_body Wrapping h).
Proof.
  intros Hu Hlen H26. unfold p_body. cbv zeta.
  destruct (h_type h =? 1); [eapply Safe_pmap; [apply Safe_entity_state|auto]|].
  destruct (h_type h =? 2); [eapply Safe_pmap; [apply Safe_fire|auto]|].
  destruct (h_type h =? 3); [eapply Safe_pmap; [apply Safe_detonation|auto]|].
  destruct (h_type h =? 4); [eapply Safe_pmap; [apply Safe_collision|auto]|].
  destruct (h_type h =? 5); [eapply Safe_pmap; [apply Safe_service_request|auto]|].
  destruct (h_type h =? 6); [eapply Safe_pmap; [apply Safe_resupply_offer|auto]|].
  destruct (h_type h =? 7); [eapply Safe_pmap; [apply Safe_resupply_received|auto]|].
  destruct (h_type h =? 8); [eapply Safe_pmap; [apply Safe_resupply_cancel|auto]|].
  destruct (h_type h =? 9); [eapply Safe_pmap; [apply Safe_repair_complete|auto]|].
  destruct (h_type h =? 10); [eapply Safe_pmap; [apply Safe_repair_response|auto]|].
  destruct (h_type h =? 11); [eapply Safe_pmap; [apply Safe_create_entity|auto]|].
  destruct (h_type h =? 12); [eapply Safe_pmap; [apply Safe_remove_entity|auto]|].
  destruct (h_type h =? 13); [eapply Safe_pmap; [apply Safe_start_resume|auto]|].
  destruct (h_type h =? 14); [eapply Safe_pmap; [apply Safe_stop_freeze|auto]|].
  destruct (h_type h =? 15); [eapply Safe_pmap; [apply Safe_acknowledge|auto]|].
  destruct (h_type h =? 16); [eapply Safe_pmap; [apply Safe_action_request|auto]|].
  destruct (h_type h =? 17); [eapply Safe_pmap; [apply Safe_action_response|auto]|].
  destruct (h_type h =? 18); [eapply Safe_pmap; [apply Safe_data_query|auto]|].
  destruct (h_type h =? 19); [eapply Safe_pmap; [apply Safe_set_data|auto]|].
  destruct (h_type h =? 20); [eapply Safe_pmap; [apply Safe_data|auto]|].
  destruct (h_type h =? 21); [eapply Safe_pmap; [apply Safe_event_report|auto]|].
  destruct (h_type h =? 22); [eapply Safe_pmap; [apply Safe_comment|auto]|].
  destruct (h_type h =? 23); [eapply Safe_pmap; [apply Safe_emission|auto]|].
  destruct (h_type h =? 24); [eapply Safe_pmap; [apply Safe_designator|auto]|].
  destruct (h_type h =? 25); [eapply Safe_pmap; [apply Safe_transmitter|auto]|].
  destruct (Z.eqb_spec (h_type h) 26); [contradiction|].
  destruct (h_type h =? 27); [eapply Safe_pmap; [apply Safe_receiver|auto]|].
  destruct (h_type h =? 28); [eapply Safe_pmap; [apply Safe_iff|auto]|].
  destruct (h_type h =? 29); [eapply Safe_pmap; [apply Safe_underwater_acoustic|auto]|].
  destruct (h_type h =? 30); [eapply Safe_pmap; [apply Safe_sees|auto]|].
  destruct (h_type h =? 33); [eapply Safe_pmap; [apply Safe_aggregate_state|auto]|].
  destruct (h_type h =? 34); [eapply Safe_pmap; [apply Safe_is_group_of|auto]|].
  destruct (h_type h =? 35); [eapply Safe_pmap; [apply Safe_transfer_ownership|auto]|].
  destruct (h_type h =? 36); [eapply Safe_pmap; [apply Safe_is_part_of|auto]|].
  destruct (h_type h =? 51); [eapply Safe_pmap; [apply Safe_create_entity_r|auto]|].
  destruct (h_type h =? 52); [eapply Safe_pmap; [apply Safe_remove_entity_r|auto]|].
  destruct (h_type h =? 53); [eapply Safe_pmap; [apply Safe_start_resume_r|auto]|].
  destruct (h_type h =? 54); [eapply Safe_pmap; [apply Safe_stop_freeze_r|auto]|].
  destruct (h_type h =? 55); [eapply Safe_pmap; [apply Safe_acknowledge_r|auto]|].
  destruct (h_type h =? 56); [eapply Safe_pmap; [apply Safe_action_request_r|auto]|].
  destruct (h_type h =? 57); [eapply Safe_pmap; [apply Safe_action_response_r|auto]|].
  destruct (h_type h =? 58); [eapply Safe_pmap; [apply Safe_data_query_r|auto]|].
  destruct (h_type h =? 59); [eapply Safe_pmap; [apply Safe_set_data_r|auto]|].
  destruct (h_type h =? 60); [eapply Safe_pmap; [apply Safe_data_r|auto]|].
  destruct (h_type h =? 61); [eapply Safe_pmap; [apply Safe_event_report_r|auto]|].
  destruct (h_type h =? 62); [eapply Safe_pmap; [apply Safe_comment_r|auto]|].
  destruct (h_type h =? 63); [eapply Safe_pmap; [apply Safe_record_r|auto]|].
  destruct (h_type h =? 64); [eapply Safe_pmap; [apply Safe_set_record_r|auto]|].
  destruct (h_type h =? 65); [eapply Safe_pmap; [apply Safe_record_query_r|auto]|].
  destruct (h_type h =? 66); [eapply Safe_pmap; [apply Safe_collision_elastic|auto]|].
  destruct (h_type h =? 67); [eapply Safe_pmap; [apply Safe_entity_state_update|auto]|].
  destruct (h_type h =? 72); [eapply Safe_pmap; [apply Safe_attribute|auto]|].
  eapply Safe_pmap; [apply Safe_other|auto]; assumption.
Qed.

(** In any build, only the parsers that compute with received lengths, and the one of Signal, can panic. *)
Definition arithmetic_types : list Z := [25; 26; 33; 35; 63; 64].
Lemma Safe_body_any m h : u8 (h_type h) -> u16 (h_length h) -> ~ In (h_type h) arithmetic_types -> Safe (p_body m h).
Proof.
  intros Hu Hlen Hn. unfold p_body. cbv zeta. unfold arithmetic_types in Hn. cbn [In] in Hn.
  destruct (h_type h =? 1); [eapply Safe_pmap; [apply Safe_entity_state|auto]|].
  destruct (h_type h =? 2); [eapply Safe_pmap; [apply Safe_fire|auto]|].
  destruct (h_type h =? 3); [eapply Safe_pmap; [apply Safe_detonation|auto]|].
  destruct (h_type h =? 4); [eapply Safe_pmap; [apply Safe_collision|auto]|].
  destruct (h_type h =? 5); [eapply Safe_pmap; [apply Safe_service_request|auto]|].
  destruct (h_type h =? 6); [eapply Safe_pmap; [apply Safe_resupply_offer|auto]|].
  destruct (h_type h =? 7); [eapply Safe_pmap; [apply Safe_resupply_received|auto]|].
  destruct (h_type h =? 8); [eapply Safe_pmap; [apply Safe_resupply_cancel|auto]|].
  destruct (h_type h =? 9); [eapply Safe_pmap; [apply Safe_repair_complete|auto]|].
  destruct (h_type h =? 10); [eapply Safe_pmap; [apply Safe_repair_response|auto]|].
  destruct (h_type h =? 11); [eapply Safe_pmap; [apply Safe_create_entity|auto]|].
  destruct (h_type h =? 12); [eapply Safe_pmap; [apply Safe_remove_entity|auto]|].
  destruct (h_type h =? 13); [eapply Safe_pmap; [apply Safe_start_resume|auto]|].
  destruct (h_type h =? 14); [eapply Safe_pmap; [apply Safe_stop_freeze|auto]|].
  destruct (h_type h =? 15); [eapply Safe_pmap; [apply Safe_acknowledge|auto]|].
  destruct (h_type h =? 16); [eapply Safe_pmap; [apply Safe_action_request|auto]|].
  destruct (h_type h =? 17); [eapply Safe_pmap; [apply Safe_action_response|auto]|].
  destruct (h_type h =? 18); [eapply Safe_pmap; [apply Safe_data_query|auto]|].
  destruct (h_type h =? 19); [eapply Safe_pmap; [apply Safe_set_data|auto]|].
  destruct (h_type h =? 20); [eapply Safe_pmap; [apply Safe_data|auto]|].
  destruct (h_type h =? 21); [eapply Safe_pmap; [apply Safe_event_report|auto]|].
  destruct (h_type h =? 22); [eapply Safe_pmap; [apply Safe_comment|auto]|].
  destruct (h_type h =? 23); [eapply Safe_pmap; [apply Safe_emission|auto]|].
  destruct (h_type h =? 24); [eapply Safe_pmap; [apply Safe_designator|auto]|].
  destruct (Z.eqb_spec (h_type h) 25); [exfalso; intuition congruence|].
  destruct (Z.eqb_spec (h_type h) 26); [exfalso; intuition congruence|].
  destruct (h_type h =? 27); [eapply Safe_pmap; [apply Safe_receiver|auto]|].
  destruct (h_type h =? 28); [eapply Safe_pmap; [apply Safe_iff|auto]|].
  destruct (h_type h =? 29); [eapply Safe_pmap; [apply Safe_underwater_acoustic|auto]|].
  destruct (h_type h =? 30); [eapply Safe_pmap; [apply Safe_sees|auto]|].
  destruct (Z.eqb_spec (h_type h) 33); [exfalso; intuition congruence|].
  destruct (h_type h =? 34); [eapply Safe_pmap; [apply Safe_is_group_of|auto]|].
  destruct (Z.eqb_spec (h_type h) 35); [exfalso; intuition congruence|].
  destruct (h_type h =? 36); [eapply Safe_pmap; [apply Safe_is_part_of|auto]|].
  destruct (h_type h =? 51); [eapply Safe_pmap; [apply Safe_create_entity_r|auto]|].
  destruct (h_type h =? 52); [eapply Safe_pmap; [apply Safe_remove_entity_r|auto]|].
  destruct (h_type h =? 53); [eapply Safe_pmap; [apply Safe_start_resume_r|auto]|].
  destruct (h_type h =? 54); [eapply Safe_pmap; [apply Safe_stop_freeze_r|auto]|].
  destruct (h_type h =? 55); [eapply Safe_pmap; [apply Safe_acknowledge_r|auto]|].
  destruct (h_type h =? 56); [eapply Safe_pmap; [apply Safe_action_request_r|auto]|].
  destruct (h_type h =? 57); [eapply Safe_pmap; [apply Safe_action_response_r|auto]|].
  destruct (h_type h =? 58); [eapply Safe_pmap; [apply Safe_data_query_r|auto]|].
  destruct (h_type h =? 59); [eapply Safe_pmap; [apply Safe_set_data_r|auto]|].
  destruct (h_type h =? 60); [eapply Safe_pmap; [apply Safe_data_r|auto]|].
  destruct (h_type h =? 61); [eapply Safe_pmap; [apply Safe_event_report_r|auto]|].
  destruct (h_type h =? 62); [eapply Safe_pmap; [apply Safe_comment_r|auto]|].
  destruct (Z.eqb_spec (h_type h) 63); [exfalso; intuition congruence|].
  destruct (Z.eqb_spec (h_type h) 64); [exfalso; intuition congruence|].
  destruct (h_type h =? 65); [eapply Safe_pmap; [apply Safe_record_query_r|auto]|].
  destruct (h_type h =? 66); [eapply Safe_pmap; [apply Safe_collision_elastic|auto]|].
  destruct (h_type h =? 67); [eapply Safe_pmap; [apply Safe_entity_state_update|auto]|].
  destruct (h_type h =? 72); [eapply Safe_pmap; [apply Safe_attribute|auto]|].
  eapply Safe_pmap; [apply Safe_other|auto]; assumption.
Qed.
