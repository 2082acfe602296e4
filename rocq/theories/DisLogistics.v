(** Logistics, collision, receiver, designator and entity management PDUs: model, parser, writer, body length.
    Sources: /repo/dis-rs/src/common/<pdu>/{model,parser,writer,builder}.rs.
    Conventions as in DisCommon: enum fields hold the raw integer, floats their bit pattern.
    [size_*] is the number of octets the layout occupies, [fits_*] the representability conditions. *)
From Verif Require Import Base DisCommon DisLists.

(** ** ServiceRequest *)
(* common/service_request/model.rs:12-17 *)
Record ServiceRequest := MkServiceRequest {
  ServiceRequest_requesting_id : EntityId;
  ServiceRequest_servicing_id : EntityId;
  ServiceRequest_service_type_requested : Z;
  ServiceRequest_supplies : list SupplyQuantity }.
Definition wf_ServiceRequest (x : ServiceRequest) : Prop :=
  wf_EntityId (ServiceRequest_requesting_id x) /\
  wf_EntityId (ServiceRequest_servicing_id x) /\
  u8 (ServiceRequest_service_type_requested x) /\
  Forall wf_SupplyQuantity (ServiceRequest_supplies x).
(* common/service_request/parser.rs:9-26 *) (* service_request_body *)
Definition p_service_request_body : bparser ServiceRequest :=
  (requesting_id <- p_entity_id;;
   servicing_id <- p_entity_id;;
   service_type_requested <- be_u8;;
   nr_of_supplies <- be_u8;;
   _ <- be_u16;;
   supplies <- count p_supply_quantity nr_of_supplies;;
   pret (MkServiceRequest requesting_id servicing_id service_type_requested supplies))%parse.
(* common/service_request/writer.rs:5-16 *)
Definition w_service_request (m : mode) (x : ServiceRequest) : W Z :=
  (requesting_id_bytes <- w_entity_id (ServiceRequest_requesting_id x);;
   servicing_id_bytes <- w_entity_id (ServiceRequest_servicing_id x);;
   put_u8 (ServiceRequest_service_type_requested x);;
   put_u8 (zlen (ServiceRequest_supplies x) mod 256);;
   put_u16 0;;
   supply_quantity_bytes <- wmap_sum m w_supply_quantity (ServiceRequest_supplies x);;
   add16 m (requesting_id_bytes + servicing_id_bytes + 4) supply_quantity_bytes)%write.
(* common/service_request/model.rs:34-36 *) (* body_length *)
Definition len_service_request (m : mode) (x : ServiceRequest) : W Z :=
  (a0 <- mul16 m (zlen (ServiceRequest_supplies x) mod 65536) 12;;
   add16 m 28 a0)%write.
(** octets of the body as laid out by the writer (specification) *)
Definition size_service_request (x : ServiceRequest) : Z := 16 + 12 * zlen (ServiceRequest_supplies x).
Definition fits_service_request (x : ServiceRequest) : Prop := size_service_request x < 65524 /\ zlen (ServiceRequest_supplies x) < 256.
(* common/service_request/model.rs:43-51 *) (* Interaction *)
Definition orig_service_request (x : ServiceRequest) : option EntityId := Some (ServiceRequest_requesting_id x).
Definition recv_service_request (x : ServiceRequest) : option EntityId := Some (ServiceRequest_servicing_id x).
Lemma RT_service_request m x : wf_ServiceRequest x -> fits_service_request x -> RT (w_service_request m x) p_service_request_body x (size_service_request x) (size_service_request x).
Proof. destruct x; unfold wf_ServiceRequest, fits_service_request, size_service_request, w_service_request, p_service_request_body; cbn [ServiceRequest_requesting_id ServiceRequest_servicing_id ServiceRequest_service_type_requested ServiceRequest_supplies]; intros; wfd. pdu_rt. Qed.
Lemma Ext_service_request : Ext p_service_request_body. Proof. unfold p_service_request_body; ext. Qed.
Lemma Safe_service_request : Safe p_service_request_body. Proof. unfold p_service_request_body; safe. Qed.
Lemma len_service_request_ok m x : wf_ServiceRequest x -> fits_service_request x -> len_service_request m x = WOk [] (size_service_request x + 12).
Proof. destruct x; unfold wf_ServiceRequest, fits_service_request, size_service_request, len_service_request; cbn [ServiceRequest_requesting_id ServiceRequest_servicing_id ServiceRequest_service_type_requested ServiceRequest_supplies]; intros; wfd. pdu_len. Qed.
Global Hint Resolve RT_service_request : rt. Global Hint Resolve Ext_service_request : ext. Global Hint Resolve Safe_service_request : safe.

(** ** ResupplyOffer *)
(* common/resupply_offer/model.rs:13-17 *)
Record ResupplyOffer := MkResupplyOffer {
  ResupplyOffer_requesting_id : EntityId;
  ResupplyOffer_servicing_id : EntityId;
  ResupplyOffer_supplies : list SupplyQuantity }.
Definition wf_ResupplyOffer (x : ResupplyOffer) : Prop :=
  wf_EntityId (ResupplyOffer_requesting_id x) /\
  wf_EntityId (ResupplyOffer_servicing_id x) /\
  Forall wf_SupplyQuantity (ResupplyOffer_supplies x).
(* common/resupply_offer/parser.rs:8-23 *) (* resupply_offer_body *)
Definition p_resupply_offer_body : bparser ResupplyOffer :=
  (requesting_id <- p_entity_id;;
   servicing_id <- p_entity_id;;
   nr_of_supplies <- be_u8;;
   _ <- be_u8;;
   _ <- be_u16;;
   supplies <- count p_supply_quantity nr_of_supplies;;
   pret (MkResupplyOffer requesting_id servicing_id supplies))%parse.
(* common/resupply_offer/writer.rs:5-16 *)
Definition w_resupply_offer (m : mode) (x : ResupplyOffer) : W Z :=
  (requesting_id_bytes <- w_entity_id (ResupplyOffer_requesting_id x);;
   servicing_id_bytes <- w_entity_id (ResupplyOffer_servicing_id x);;
   put_u8 (zlen (ResupplyOffer_supplies x) mod 256);;
   put_u8 0;;
   put_u16 0;;
   supply_quantity_bytes <- wmap_sum m w_supply_quantity (ResupplyOffer_supplies x);;
   add16 m (requesting_id_bytes + servicing_id_bytes + 4) supply_quantity_bytes)%write.
(* common/resupply_offer/model.rs:34-36 *) (* body_length *)
Definition len_resupply_offer (m : mode) (x : ResupplyOffer) : W Z :=
  (a0 <- mul16 m (zlen (ResupplyOffer_supplies x) mod 65536) 12;;
   add16 m 28 a0)%write.
(** octets of the body as laid out by the writer (specification) *)
Definition size_resupply_offer (x : ResupplyOffer) : Z := 16 + 12 * zlen (ResupplyOffer_supplies x).
Definition fits_resupply_offer (x : ResupplyOffer) : Prop := size_resupply_offer x < 65524 /\ zlen (ResupplyOffer_supplies x) < 256.
(* common/resupply_offer/model.rs:43-51 *) (* Interaction *)
Definition orig_resupply_offer (x : ResupplyOffer) : option EntityId := Some (ResupplyOffer_requesting_id x).
Definition recv_resupply_offer (x : ResupplyOffer) : option EntityId := Some (ResupplyOffer_servicing_id x).
Lemma RT_resupply_offer m x : wf_ResupplyOffer x -> fits_resupply_offer x -> RT (w_resupply_offer m x) p_resupply_offer_body x (size_resupply_offer x) (size_resupply_offer x).
Proof. destruct x; unfold wf_ResupplyOffer, fits_resupply_offer, size_resupply_offer, w_resupply_offer, p_resupply_offer_body; cbn [ResupplyOffer_requesting_id ResupplyOffer_servicing_id ResupplyOffer_supplies]; intros; wfd. pdu_rt. Qed.
Lemma Ext_resupply_offer : Ext p_resupply_offer_body. Proof. unfold p_resupply_offer_body; ext. Qed.
Lemma Safe_resupply_offer : Safe p_resupply_offer_body. Proof. unfold p_resupply_offer_body; safe. Qed.
Lemma len_resupply_offer_ok m x : wf_ResupplyOffer x -> fits_resupply_offer x -> len_resupply_offer m x = WOk [] (size_resupply_offer x + 12).
Proof. destruct x; unfold wf_ResupplyOffer, fits_resupply_offer, size_resupply_offer, len_resupply_offer; cbn [ResupplyOffer_requesting_id ResupplyOffer_servicing_id ResupplyOffer_supplies]; intros; wfd. pdu_len. Qed.
Global Hint Resolve RT_resupply_offer : rt. Global Hint Resolve Ext_resupply_offer : ext. Global Hint Resolve Safe_resupply_offer : safe.

(** ** ResupplyReceived *)
(* common/resupply_received/model.rs:13-17 *)
Record ResupplyReceived := MkResupplyReceived {
  ResupplyReceived_requesting_id : EntityId;
  ResupplyReceived_servicing_id : EntityId;
  ResupplyReceived_supplies : list SupplyQuantity }.
Definition wf_ResupplyReceived (x : ResupplyReceived) : Prop :=
  wf_EntityId (ResupplyReceived_requesting_id x) /\
  wf_EntityId (ResupplyReceived_servicing_id x) /\
  Forall wf_SupplyQuantity (ResupplyReceived_supplies x).
(* common/resupply_received/parser.rs:8-23 *) (* resupply_received_body *)
Definition p_resupply_received_body : bparser ResupplyReceived :=
  (requesting_id <- p_entity_id;;
   servicing_id <- p_entity_id;;
   nr_of_supplies <- be_u8;;
   _ <- be_u8;;
   _ <- be_u16;;
   supplies <- count p_supply_quantity nr_of_supplies;;
   pret (MkResupplyReceived requesting_id servicing_id supplies))%parse.
(* common/resupply_received/writer.rs:5-16 *)
Definition w_resupply_received (m : mode) (x : ResupplyReceived) : W Z :=
  (requesting_id_bytes <- w_entity_id (ResupplyReceived_requesting_id x);;
   servicing_id_bytes <- w_entity_id (ResupplyReceived_servicing_id x);;
   put_u8 (zlen (ResupplyReceived_supplies x) mod 256);;
   put_u8 0;;
   put_u16 0;;
   supply_quantity_bytes <- wmap_sum m w_supply_quantity (ResupplyReceived_supplies x);;
   add16 m (requesting_id_bytes + servicing_id_bytes + 4) supply_quantity_bytes)%write.
(* common/resupply_received/model.rs:34-36 *) (* body_length *)
Definition len_resupply_received (m : mode) (x : ResupplyReceived) : W Z :=
  (a0 <- mul16 m (zlen (ResupplyReceived_supplies x) mod 65536) 12;;
   add16 m 28 a0)%write.
(** octets of the body as laid out by the writer (specification) *)
Definition size_resupply_received (x : ResupplyReceived) : Z := 16 + 12 * zlen (ResupplyReceived_supplies x).
Definition fits_resupply_received (x : ResupplyReceived) : Prop := size_resupply_received x < 65524 /\ zlen (ResupplyReceived_supplies x) < 256.
(* common/resupply_received/model.rs:43-51 *) (* Interaction *)
Definition orig_resupply_received (x : ResupplyReceived) : option EntityId := Some (ResupplyReceived_requesting_id x).
Definition recv_resupply_received (x : ResupplyReceived) : option EntityId := Some (ResupplyReceived_servicing_id x).
Lemma RT_resupply_received m x : wf_ResupplyReceived x -> fits_resupply_received x -> RT (w_resupply_received m x) p_resupply_received_body x (size_resupply_received x) (size_resupply_received x).
Proof. destruct x; unfold wf_ResupplyReceived, fits_resupply_received, size_resupply_received, w_resupply_received, p_resupply_received_body; cbn [ResupplyReceived_requesting_id ResupplyReceived_servicing_id ResupplyReceived_supplies]; intros; wfd. pdu_rt. Qed.
Lemma Ext_resupply_received : Ext p_resupply_received_body. Proof. unfold p_resupply_received_body; ext. Qed.
Lemma Safe_resupply_received : Safe p_resupply_received_body. Proof. unfold p_resupply_received_body; safe. Qed.
Lemma len_resupply_received_ok m x : wf_ResupplyReceived x -> fits_resupply_received x -> len_resupply_received m x = WOk [] (size_resupply_received x + 12).
Proof. destruct x; unfold wf_ResupplyReceived, fits_resupply_received, size_resupply_received, len_resupply_received; cbn [ResupplyReceived_requesting_id ResupplyReceived_servicing_id ResupplyReceived_supplies]; intros; wfd. pdu_len. Qed.
Global Hint Resolve RT_resupply_received : rt. Global Hint Resolve Ext_resupply_received : ext. Global Hint Resolve Safe_resupply_received : safe.

(** ** ResupplyCancel *)
(* common/resupply_cancel/model.rs:12-15 *)
Record ResupplyCancel := MkResupplyCancel {
  ResupplyCancel_requesting_id : EntityId;
  ResupplyCancel_servicing_id : EntityId }.
Definition wf_ResupplyCancel (x : ResupplyCancel) : Prop :=
  wf_EntityId (ResupplyCancel_requesting_id x) /\
  wf_EntityId (ResupplyCancel_servicing_id x).
(* common/resupply_cancel/parser.rs:6-16 *) (* resupply_cancel_body *)
Definition p_resupply_cancel_body : bparser ResupplyCancel :=
  (requesting_id <- p_entity_id;;
   servicing_id <- p_entity_id;;
   pret (MkResupplyCancel requesting_id servicing_id))%parse.
(* common/resupply_cancel/writer.rs:5-12 *)
Definition w_resupply_cancel (m : mode) (x : ResupplyCancel) : W Z :=
  (requesting_id_bytes <- w_entity_id (ResupplyCancel_requesting_id x);;
   servicing_id_bytes <- w_entity_id (ResupplyCancel_servicing_id x);;
   wret (requesting_id_bytes + servicing_id_bytes))%write.
(* common/resupply_cancel/model.rs:32-34 *) (* body_length *)
Definition len_resupply_cancel (m : mode) (x : ResupplyCancel) : W Z :=
  (wret 24)%write.
(** octets of the body as laid out by the writer (specification) *)
Definition size_resupply_cancel (x : ResupplyCancel) : Z := 12.
Definition fits_resupply_cancel (x : ResupplyCancel) : Prop := True.
(* common/resupply_cancel/model.rs:41-49 *) (* Interaction *)
Definition orig_resupply_cancel (x : ResupplyCancel) : option EntityId := Some (ResupplyCancel_requesting_id x).
Definition recv_resupply_cancel (x : ResupplyCancel) : option EntityId := Some (ResupplyCancel_servicing_id x).
Lemma RT_resupply_cancel m x : wf_ResupplyCancel x -> fits_resupply_cancel x -> RT (w_resupply_cancel m x) p_resupply_cancel_body x (size_resupply_cancel x) (size_resupply_cancel x).
Proof. destruct x; unfold wf_ResupplyCancel, fits_resupply_cancel, size_resupply_cancel, w_resupply_cancel, p_resupply_cancel_body; cbn [ResupplyCancel_requesting_id ResupplyCancel_servicing_id]; intros; wfd. pdu_rt. Qed.
Lemma Ext_resupply_cancel : Ext p_resupply_cancel_body. Proof. unfold p_resupply_cancel_body; ext. Qed.
Lemma Safe_resupply_cancel : Safe p_resupply_cancel_body. Proof. unfold p_resupply_cancel_body; safe. Qed.
Lemma len_resupply_cancel_ok m x : wf_ResupplyCancel x -> fits_resupply_cancel x -> len_resupply_cancel m x = WOk [] (size_resupply_cancel x + 12).
Proof. destruct x; unfold wf_ResupplyCancel, fits_resupply_cancel, size_resupply_cancel, len_resupply_cancel; cbn [ResupplyCancel_requesting_id ResupplyCancel_servicing_id]; intros; wfd. pdu_len. Qed.
Global Hint Resolve RT_resupply_cancel : rt. Global Hint Resolve Ext_resupply_cancel : ext. Global Hint Resolve Safe_resupply_cancel : safe.

(** ** RepairComplete *)
(* common/repair_complete/model.rs:12-16 *)
Record RepairComplete := MkRepairComplete {
  RepairComplete_receiving_id : EntityId;
  RepairComplete_repairing_id : EntityId;
  RepairComplete_repair : Z }.
Definition wf_RepairComplete (x : RepairComplete) : Prop :=
  wf_EntityId (RepairComplete_receiving_id x) /\
  wf_EntityId (RepairComplete_repairing_id x) /\
  u16 (RepairComplete_repair x).
(* common/repair_complete/parser.rs:8-22 *) (* repair_complete_body *)
Definition p_repair_complete_body : bparser RepairComplete :=
  (receiving_id <- p_entity_id;;
   repairing_id <- p_entity_id;;
   repair <- be_u16;;
   _ <- be_u16;;
   pret (MkRepairComplete receiving_id repairing_id repair))%parse.
(* common/repair_complete/writer.rs:5-14 *)
Definition w_repair_complete (m : mode) (x : RepairComplete) : W Z :=
  (receiving_id_bytes <- w_entity_id (RepairComplete_receiving_id x);;
   repairing_id_bytes <- w_entity_id (RepairComplete_repairing_id x);;
   put_u16 (RepairComplete_repair x);;
   put_u16 0;;
   wret (receiving_id_bytes + repairing_id_bytes + 4))%write.
(* common/repair_complete/model.rs:33-35 *) (* body_length *)
Definition len_repair_complete (m : mode) (x : RepairComplete) : W Z :=
  (wret 16)%write.
(** octets of the body as laid out by the writer (specification) *)
Definition size_repair_complete (x : RepairComplete) : Z := 16.
Definition fits_repair_complete (x : RepairComplete) : Prop := True.
(* common/repair_complete/model.rs:42-50 *) (* Interaction *)
Definition orig_repair_complete (x : RepairComplete) : option EntityId := Some (RepairComplete_repairing_id x).
Definition recv_repair_complete (x : RepairComplete) : option EntityId := Some (RepairComplete_receiving_id x).
Lemma RT_repair_complete m x : wf_RepairComplete x -> fits_repair_complete x -> RT (w_repair_complete m x) p_repair_complete_body x (size_repair_complete x) (size_repair_complete x).
Proof. destruct x; unfold wf_RepairComplete, fits_repair_complete, size_repair_complete, w_repair_complete, p_repair_complete_body; cbn [RepairComplete_receiving_id RepairComplete_repairing_id RepairComplete_repair]; intros; wfd. pdu_rt. Qed.
Lemma Ext_repair_complete : Ext p_repair_complete_body. Proof. unfold p_repair_complete_body; ext. Qed.
Lemma Safe_repair_complete : Safe p_repair_complete_body. Proof. unfold p_repair_complete_body; safe. Qed.
Lemma len_repair_complete_ok m x : wf_RepairComplete x -> fits_repair_complete x -> len_repair_complete m x = WOk [] (size_repair_complete x).
Proof. destruct x; unfold wf_RepairComplete, fits_repair_complete, size_repair_complete, len_repair_complete; cbn [RepairComplete_receiving_id RepairComplete_repairing_id RepairComplete_repair]; intros; wfd. pdu_len. Qed.
Global Hint Resolve RT_repair_complete : rt. Global Hint Resolve Ext_repair_complete : ext. Global Hint Resolve Safe_repair_complete : safe.

(** ** RepairResponse *)
(* common/repair_response/model.rs:12-16 *)
Record RepairResponse := MkRepairResponse {
  RepairResponse_receiving_id : EntityId;
  RepairResponse_repairing_id : EntityId;
  RepairResponse_repair_result : Z }.
Definition wf_RepairResponse (x : RepairResponse) : Prop :=
  wf_EntityId (RepairResponse_receiving_id x) /\
  wf_EntityId (RepairResponse_repairing_id x) /\
  u8 (RepairResponse_repair_result x).
(* common/repair_response/parser.rs:8-23 *) (* repair_response_body *)
Definition p_repair_response_body : bparser RepairResponse :=
  (receiving_id <- p_entity_id;;
   repairing_id <- p_entity_id;;
   repair_result <- be_u8;;
   _ <- be_u8;;
   _ <- be_u16;;
   pret (MkRepairResponse receiving_id repairing_id repair_result))%parse.
(* common/repair_response/writer.rs:5-15 *)
Definition w_repair_response (m : mode) (x : RepairResponse) : W Z :=
  (receiving_id_bytes <- w_entity_id (RepairResponse_receiving_id x);;
   repairing_id_bytes <- w_entity_id (RepairResponse_repairing_id x);;
   put_u8 (RepairResponse_repair_result x);;
   put_u8 0;;
   put_u16 0;;
   wret (receiving_id_bytes + repairing_id_bytes + 4))%write.
(* common/repair_response/model.rs:33-35 *) (* body_length *)
Definition len_repair_response (m : mode) (x : RepairResponse) : W Z :=
  (wret 16)%write.
(** octets of the body as laid out by the writer (specification) *)
Definition size_repair_response (x : RepairResponse) : Z := 16.
Definition fits_repair_response (x : RepairResponse) : Prop := True.
(* common/repair_response/model.rs:42-50 *) (* Interaction *)
Definition orig_repair_response (x : RepairResponse) : option EntityId := Some (RepairResponse_repairing_id x).
Definition recv_repair_response (x : RepairResponse) : option EntityId := Some (RepairResponse_receiving_id x).
Lemma RT_repair_response m x : wf_RepairResponse x -> fits_repair_response x -> RT (w_repair_response m x) p_repair_response_body x (size_repair_response x) (size_repair_response x).
Proof. destruct x; unfold wf_RepairResponse, fits_repair_response, size_repair_response, w_repair_response, p_repair_response_body; cbn [RepairResponse_receiving_id RepairResponse_repairing_id RepairResponse_repair_result]; intros; wfd. pdu_rt. Qed.
Lemma Ext_repair_response : Ext p_repair_response_body. Proof. unfold p_repair_response_body; ext. Qed.
Lemma Safe_repair_response : Safe p_repair_response_body. Proof. unfold p_repair_response_body; safe. Qed.
Lemma len_repair_response_ok m x : wf_RepairResponse x -> fits_repair_response x -> len_repair_response m x = WOk [] (size_repair_response x).
Proof. destruct x; unfold wf_RepairResponse, fits_repair_response, size_repair_response, len_repair_response; cbn [RepairResponse_receiving_id RepairResponse_repairing_id RepairResponse_repair_result]; intros; wfd. pdu_len. Qed.
Global Hint Resolve RT_repair_response : rt. Global Hint Resolve Ext_repair_response : ext. Global Hint Resolve Safe_repair_response : safe.

(** ** Collision *)
(* common/collision/model.rs:9-17 *)
Record Collision := MkCollision {
  Collision_issuing_entity_id : EntityId;
  Collision_colliding_entity_id : EntityId;
  Collision_event_id : EventId;
  Collision_collision_type : Z;
  Collision_velocity : VectorF32;
  Collision_mass : Z;
  Collision_location : VectorF32 }.
Definition wf_Collision (x : Collision) : Prop :=
  wf_EntityId (Collision_issuing_entity_id x) /\
  wf_EntityId (Collision_colliding_entity_id x) /\
  wf_EventId (Collision_event_id x) /\
  u8 (Collision_collision_type x) /\
  wf_VectorF32 (Collision_velocity x) /\
  u32 (Collision_mass x) /\
  wf_VectorF32 (Collision_location x).
(* common/collision/parser.rs:8-30 *) (* collision_body *)
Definition p_collision_body : bparser Collision :=
  (issuing_entity_id <- p_entity_id;;
   colliding_entity_id <- p_entity_id;;
   event_id <- p_event_id;;
   collision_type <- be_u8;;
   _ <- be_u8;;
   velocity <- p_vec3_f32;;
   mass <- be_f32;;
   location <- p_vec3_f32;;
   pret (MkCollision issuing_entity_id colliding_entity_id event_id collision_type velocity mass location))%parse.
(* common/collision/writer.rs:5-20 *)
Definition w_collision (m : mode) (x : Collision) : W Z :=
  (issuing_id_bytes <- w_entity_id (Collision_issuing_entity_id x);;
   colliding_id_bytes <- w_entity_id (Collision_colliding_entity_id x);;
   event_id_bytes <- w_event_id (Collision_event_id x);;
   put_u8 (Collision_collision_type x);;
   put_u8 0;;
   velocity_bytes <- w_vector_f32 (Collision_velocity x);;
   put_f32 (Collision_mass x);;
   location_bytes <- w_vector_f32 (Collision_location x);;
   wret (issuing_id_bytes + colliding_id_bytes + event_id_bytes + 2 + velocity_bytes + 4 + location_bytes))%write.
(* common/collision/model.rs:34-36 *) (* body_length *)
Definition len_collision (m : mode) (x : Collision) : W Z :=
  (wret 60)%write.
(** octets of the body as laid out by the writer (specification) *)
Definition size_collision (x : Collision) : Z := 48.
Definition fits_collision (x : Collision) : Prop := True.
(* common/collision/model.rs:43-51 *) (* Interaction *)
Definition orig_collision (x : Collision) : option EntityId := Some (Collision_issuing_entity_id x).
Definition recv_collision (x : Collision) : option EntityId := Some (Collision_colliding_entity_id x).
Lemma RT_collision m x : wf_Collision x -> fits_collision x -> RT (w_collision m x) p_collision_body x (size_collision x) (size_collision x).
Proof. destruct x; unfold wf_Collision, fits_collision, size_collision, w_collision, p_collision_body; cbn [Collision_issuing_entity_id Collision_colliding_entity_id Collision_event_id Collision_collision_type Collision_velocity Collision_mass Collision_location]; intros; wfd. pdu_rt. Qed.
Lemma Ext_collision : Ext p_collision_body. Proof. unfold p_collision_body; ext. Qed.
Lemma Safe_collision : Safe p_collision_body. Proof. unfold p_collision_body; safe. Qed.
Lemma len_collision_ok m x : wf_Collision x -> fits_collision x -> len_collision m x = WOk [] (size_collision x + 12).
Proof. destruct x; unfold wf_Collision, fits_collision, size_collision, len_collision; cbn [Collision_issuing_entity_id Collision_colliding_entity_id Collision_event_id Collision_collision_type Collision_velocity Collision_mass Collision_location]; intros; wfd. pdu_len. Qed.
Global Hint Resolve RT_collision : rt. Global Hint Resolve Ext_collision : ext. Global Hint Resolve Safe_collision : safe.

(** ** CollisionElastic *)
(* common/collision_elastic/model.rs:12-27 *)
Record CollisionElastic := MkCollisionElastic {
  CollisionElastic_issuing_entity_id : EntityId;
  CollisionElastic_colliding_entity_id : EntityId;
  CollisionElastic_event_id : EventId;
  CollisionElastic_velocity : VectorF32;
  CollisionElastic_mass : Z;
  CollisionElastic_location : VectorF32;
  CollisionElastic_intermediate_result_xx : Z;
  CollisionElastic_intermediate_result_xy : Z;
  CollisionElastic_intermediate_result_xz : Z;
  CollisionElastic_intermediate_result_yy : Z;
  CollisionElastic_intermediate_result_yz : Z;
  CollisionElastic_intermediate_result_zz : Z;
  CollisionElastic_unit_surface_normal : VectorF32;
  CollisionElastic_coefficient_of_restitution : Z }.
Definition wf_CollisionElastic (x : CollisionElastic) : Prop :=
  wf_EntityId (CollisionElastic_issuing_entity_id x) /\
  wf_EntityId (CollisionElastic_colliding_entity_id x) /\
  wf_EventId (CollisionElastic_event_id x) /\
  wf_VectorF32 (CollisionElastic_velocity x) /\
  u32 (CollisionElastic_mass x) /\
  wf_VectorF32 (CollisionElastic_location x) /\
  u32 (CollisionElastic_intermediate_result_xx x) /\
  u32 (CollisionElastic_intermediate_result_xy x) /\
  u32 (CollisionElastic_intermediate_result_xz x) /\
  u32 (CollisionElastic_intermediate_result_yy x) /\
  u32 (CollisionElastic_intermediate_result_yz x) /\
  u32 (CollisionElastic_intermediate_result_zz x) /\
  wf_VectorF32 (CollisionElastic_unit_surface_normal x) /\
  u32 (CollisionElastic_coefficient_of_restitution x).
(* common/collision_elastic/parser.rs:7-42 *) (* collision_elastic_body *)
Definition p_collision_elastic_body : bparser CollisionElastic :=
  (issuing_entity_id <- p_entity_id;;
   colliding_entity_id <- p_entity_id;;
   event_id <- p_event_id;;
   _ <- be_u16;;
   velocity <- p_vec3_f32;;
   mass <- be_f32;;
   location <- p_vec3_f32;;
   intermediate_result_xx <- be_f32;;
   intermediate_result_xy <- be_f32;;
   intermediate_result_xz <- be_f32;;
   intermediate_result_yy <- be_f32;;
   intermediate_result_yz <- be_f32;;
   intermediate_result_zz <- be_f32;;
   unit_surface_normal <- p_vec3_f32;;
   coefficient_of_restitution <- be_f32;;
   pret (MkCollisionElastic issuing_entity_id colliding_entity_id event_id velocity mass location intermediate_result_xx intermediate_result_xy intermediate_result_xz intermediate_result_yy intermediate_result_yz intermediate_result_zz unit_surface_normal coefficient_of_restitution))%parse.
(* common/collision_elastic/writer.rs:5-29 *)
Definition w_collision_elastic (m : mode) (x : CollisionElastic) : W Z :=
  (issuing_id_bytes <- w_entity_id (CollisionElastic_issuing_entity_id x);;
   colliding_id_bytes <- w_entity_id (CollisionElastic_colliding_entity_id x);;
   event_id_bytes <- w_event_id (CollisionElastic_event_id x);;
   put_u16 0;;
   velocity_bytes <- w_vector_f32 (CollisionElastic_velocity x);;
   put_f32 (CollisionElastic_mass x);;
   location_bytes <- w_vector_f32 (CollisionElastic_location x);;
   put_f32 (CollisionElastic_intermediate_result_xx x);;
   put_f32 (CollisionElastic_intermediate_result_xy x);;
   put_f32 (CollisionElastic_intermediate_result_xz x);;
   put_f32 (CollisionElastic_intermediate_result_yy x);;
   put_f32 (CollisionElastic_intermediate_result_yz x);;
   put_f32 (CollisionElastic_intermediate_result_zz x);;
   unit_surface_normal_bytes <- w_vector_f32 (CollisionElastic_unit_surface_normal x);;
   put_f32 (CollisionElastic_coefficient_of_restitution x);;
   wret (issuing_id_bytes + colliding_id_bytes + event_id_bytes + 2 + velocity_bytes + 4 + location_bytes + 6 * 4 + unit_surface_normal_bytes + 4))%write.
(* common/collision_elastic/model.rs:44-46 *) (* body_length *)
Definition len_collision_elastic (m : mode) (x : CollisionElastic) : W Z :=
  (wret 88)%write.
(** octets of the body as laid out by the writer (specification) *)
Definition size_collision_elastic (x : CollisionElastic) : Z := 88.
Definition fits_collision_elastic (x : CollisionElastic) : Prop := True.
(* common/collision_elastic/model.rs:53-61 *) (* Interaction *)
Definition orig_collision_elastic (x : CollisionElastic) : option EntityId := Some (CollisionElastic_issuing_entity_id x).
Definition recv_collision_elastic (x : CollisionElastic) : option EntityId := Some (CollisionElastic_colliding_entity_id x).
Lemma RT_collision_elastic m x : wf_CollisionElastic x -> fits_collision_elastic x -> RT (w_collision_elastic m x) p_collision_elastic_body x (size_collision_elastic x) (size_collision_elastic x).
Proof. destruct x; unfold wf_CollisionElastic, fits_collision_elastic, size_collision_elastic, w_collision_elastic, p_collision_elastic_body; cbn [CollisionElastic_issuing_entity_id CollisionElastic_colliding_entity_id CollisionElastic_event_id CollisionElastic_velocity CollisionElastic_mass CollisionElastic_location CollisionElastic_intermediate_result_xx CollisionElastic_intermediate_result_xy CollisionElastic_intermediate_result_xz CollisionElastic_intermediate_result_yy CollisionElastic_intermediate_result_yz CollisionElastic_intermediate_result_zz CollisionElastic_unit_surface_normal CollisionElastic_coefficient_of_restitution]; intros; wfd. pdu_rt. Qed.
Lemma Ext_collision_elastic : Ext p_collision_elastic_body. Proof. unfold p_collision_elastic_body; ext. Qed.
Lemma Safe_collision_elastic : Safe p_collision_elastic_body. Proof. unfold p_collision_elastic_body; safe. Qed.
Lemma len_collision_elastic_ok m x : wf_CollisionElastic x -> fits_collision_elastic x -> len_collision_elastic m x = WOk [] (size_collision_elastic x).
Proof. destruct x; unfold wf_CollisionElastic, fits_collision_elastic, size_collision_elastic, len_collision_elastic; cbn [CollisionElastic_issuing_entity_id CollisionElastic_colliding_entity_id CollisionElastic_event_id CollisionElastic_velocity CollisionElastic_mass CollisionElastic_location CollisionElastic_intermediate_result_xx CollisionElastic_intermediate_result_xy CollisionElastic_intermediate_result_xz CollisionElastic_intermediate_result_yy CollisionElastic_intermediate_result_yz CollisionElastic_intermediate_result_zz CollisionElastic_unit_surface_normal CollisionElastic_coefficient_of_restitution]; intros; wfd. pdu_len. Qed.
Global Hint Resolve RT_collision_elastic : rt. Global Hint Resolve Ext_collision_elastic : ext. Global Hint Resolve Safe_collision_elastic : safe.

(** ** Receiver *)
(* common/receiver/model.rs:9-16 *)
Record Receiver := MkReceiver {
  Receiver_radio_reference_id : EntityId;
  Receiver_radio_number : Z;
  Receiver_receiver_state : Z;
  Receiver_received_power : Z;
  Receiver_transmitter_radio_reference_id : EntityId;
  Receiver_transmitter_radio_number : Z }.
Definition wf_Receiver (x : Receiver) : Prop :=
  wf_EntityId (Receiver_radio_reference_id x) /\
  u16 (Receiver_radio_number x) /\
  u16 (Receiver_receiver_state x) /\
  u32 (Receiver_received_power x) /\
  wf_EntityId (Receiver_transmitter_radio_reference_id x) /\
  u16 (Receiver_transmitter_radio_number x).
(* common/receiver/parser.rs:8-28 *) (* receiver_body *)
Definition p_receiver_body : bparser Receiver :=
  (radio_reference_id <- p_entity_id;;
   radio_number <- be_u16;;
   receiver_state <- be_u16;;
   _ <- be_u16;;
   received_power <- be_f32;;
   transmitter_radio_reference_id <- p_entity_id;;
   transmitter_radio_number <- be_u16;;
   pret (MkReceiver radio_reference_id radio_number receiver_state received_power transmitter_radio_reference_id transmitter_radio_number))%parse.
(* common/receiver/writer.rs:5-17 *)
Definition w_receiver (m : mode) (x : Receiver) : W Z :=
  (rx_ref_id_bytes <- w_entity_id (Receiver_radio_reference_id x);;
   put_u16 (Receiver_radio_number x);;
   put_u16 (Receiver_receiver_state x);;
   put_u16 0;;
   put_f32 (Receiver_received_power x);;
   tx_ref_id_bytes <- w_entity_id (Receiver_transmitter_radio_reference_id x);;
   put_u16 (Receiver_transmitter_radio_number x);;
   wret (12 + rx_ref_id_bytes + tx_ref_id_bytes))%write.
(* common/receiver/model.rs:33-35 *) (* body_length *)
Definition len_receiver (m : mode) (x : Receiver) : W Z :=
  (wret 24)%write.
(** octets of the body as laid out by the writer (specification) *)
Definition size_receiver (x : Receiver) : Z := 24.
Definition fits_receiver (x : Receiver) : Prop := True.
(* common/receiver/model.rs:42-50 *) (* Interaction *)
Definition orig_receiver (x : Receiver) : option EntityId := Some (Receiver_transmitter_radio_reference_id x).
Definition recv_receiver (x : Receiver) : option EntityId := Some (Receiver_radio_reference_id x).
Lemma RT_receiver m x : wf_Receiver x -> fits_receiver x -> RT (w_receiver m x) p_receiver_body x (size_receiver x) (size_receiver x).
Proof. destruct x; unfold wf_Receiver, fits_receiver, size_receiver, w_receiver, p_receiver_body; cbn [Receiver_radio_reference_id Receiver_radio_number Receiver_receiver_state Receiver_received_power Receiver_transmitter_radio_reference_id Receiver_transmitter_radio_number]; intros; wfd. pdu_rt. Qed.
Lemma Ext_receiver : Ext p_receiver_body. Proof. unfold p_receiver_body; ext. Qed.
Lemma Safe_receiver : Safe p_receiver_body. Proof. unfold p_receiver_body; safe. Qed.
Lemma len_receiver_ok m x : wf_Receiver x -> fits_receiver x -> len_receiver m x = WOk [] (size_receiver x).
Proof. destruct x; unfold wf_Receiver, fits_receiver, size_receiver, len_receiver; cbn [Receiver_radio_reference_id Receiver_radio_number Receiver_receiver_state Receiver_received_power Receiver_transmitter_radio_reference_id Receiver_transmitter_radio_number]; intros; wfd. pdu_len. Qed.
Global Hint Resolve RT_receiver : rt. Global Hint Resolve Ext_receiver : ext. Global Hint Resolve Safe_receiver : safe.

(** ** Designator *)
(* common/designator/model.rs:13-24 *)
Record Designator := MkDesignator {
  Designator_designating_entity_id : EntityId;
  Designator_system_name : Z;
  Designator_designated_entity_id : EntityId;
  Designator_code : Z;
  Designator_power : Z;
  Designator_wavelength : Z;
  Designator_spot_wrt_designated_entity : VectorF32;
  Designator_spot_location : Location;
  Designator_dead_reckoning_algorithm : Z;
  Designator_linear_acceleration : VectorF32 }.
Definition wf_Designator (x : Designator) : Prop :=
  wf_EntityId (Designator_designating_entity_id x) /\
  u16 (Designator_system_name x) /\
  wf_EntityId (Designator_designated_entity_id x) /\
  u16 (Designator_code x) /\
  u32 (Designator_power x) /\
  u32 (Designator_wavelength x) /\
  wf_VectorF32 (Designator_spot_wrt_designated_entity x) /\
  wf_Location (Designator_spot_location x) /\
  u8 (Designator_dead_reckoning_algorithm x) /\
  wf_VectorF32 (Designator_linear_acceleration x).
(* common/designator/parser.rs:8-39 *) (* designator_body *)
Definition p_designator_body : bparser Designator :=
  (designating_entity_id <- p_entity_id;;
   system_name <- be_u16;;
   designated_entity_id <- p_entity_id;;
   code <- be_u16;;
   power <- be_f32;;
   wavelength <- be_f32;;
   spot_wrt_designated_entity <- p_vec3_f32;;
   spot_location <- p_location;;
   dead_reckoning_algorithm <- be_u8;;
   _ <- be_u8;;
   _ <- be_u16;;
   linear_acceleration <- p_vec3_f32;;
   pret (MkDesignator designating_entity_id system_name designated_entity_id code power wavelength spot_wrt_designated_entity spot_location dead_reckoning_algorithm linear_acceleration))%parse.
(* common/designator/writer.rs:5-25 *)
Definition w_designator (m : mode) (x : Designator) : W Z :=
  (designating_id_bytes <- w_entity_id (Designator_designating_entity_id x);;
   put_u16 (Designator_system_name x);;
   designated_id_bytes <- w_entity_id (Designator_designated_entity_id x);;
   put_u16 (Designator_code x);;
   put_f32 (Designator_power x);;
   put_f32 (Designator_wavelength x);;
   spot_wrt_bytes <- w_vector_f32 (Designator_spot_wrt_designated_entity x);;
   spot_location_bytes <- w_location (Designator_spot_location x);;
   put_u8 (Designator_dead_reckoning_algorithm x);;
   put_u8 0;;
   put_u16 0;;
   linear_acceleration_bytes <- w_vector_f32 (Designator_linear_acceleration x);;
   wret (designating_id_bytes + 2 + designated_id_bytes + 10 + spot_wrt_bytes + spot_location_bytes + 4 + linear_acceleration_bytes))%write.
(* common/designator/model.rs:41-43 *) (* body_length *)
Definition len_designator (m : mode) (x : Designator) : W Z :=
  (wret 76)%write.
(** octets of the body as laid out by the writer (specification) *)
Definition size_designator (x : Designator) : Z := 76.
Definition fits_designator (x : Designator) : Prop := True.
(* common/designator/model.rs:50-58 *) (* Interaction *)
Definition orig_designator (x : Designator) : option EntityId := Some (Designator_designating_entity_id x).
Definition recv_designator (x : Designator) : option EntityId := Some (Designator_designated_entity_id x).
Lemma RT_designator m x : wf_Designator x -> fits_designator x -> RT (w_designator m x) p_designator_body x (size_designator x) (size_designator x).
Proof. destruct x; unfold wf_Designator, fits_designator, size_designator, w_designator, p_designator_body; cbn [Designator_designating_entity_id Designator_system_name Designator_designated_entity_id Designator_code Designator_power Designator_wavelength Designator_spot_wrt_designated_entity Designator_spot_location Designator_dead_reckoning_algorithm Designator_linear_acceleration]; intros; wfd. pdu_rt. Qed.
Lemma Ext_designator : Ext p_designator_body. Proof. unfold p_designator_body; ext. Qed.
Lemma Safe_designator : Safe p_designator_body. Proof. unfold p_designator_body; safe. Qed.
Lemma len_designator_ok m x : wf_Designator x -> fits_designator x -> len_designator m x = WOk [] (size_designator x).
Proof. destruct x; unfold wf_Designator, fits_designator, size_designator, len_designator; cbn [Designator_designating_entity_id Designator_system_name Designator_designated_entity_id Designator_code Designator_power Designator_wavelength Designator_spot_wrt_designated_entity Designator_spot_location Designator_dead_reckoning_algorithm Designator_linear_acceleration]; intros; wfd. pdu_len. Qed.
Global Hint Resolve RT_designator : rt. Global Hint Resolve Ext_designator : ext. Global Hint Resolve Safe_designator : safe.

(** ** IsPartOf *)
(* common/is_part_of/model.rs:12-18 *)
Record IsPartOf := MkIsPartOf {
  IsPartOf_originating_simulation_id : EntityId;
  IsPartOf_receiving_entity_id : EntityId;
  IsPartOf_relationship : Relationship;
  IsPartOf_part_location : VectorF32;
  IsPartOf_named_location_id : NamedLocationId }.
Definition wf_IsPartOf (x : IsPartOf) : Prop :=
  wf_EntityId (IsPartOf_originating_simulation_id x) /\
  wf_EntityId (IsPartOf_receiving_entity_id x) /\
  wf_Relationship (IsPartOf_relationship x) /\
  wf_VectorF32 (IsPartOf_part_location x) /\
  wf_NamedLocationId (IsPartOf_named_location_id x).
(* common/is_part_of/parser.rs:8-23 *) (* is_part_of_body *)
Definition p_is_part_of_body : bparser IsPartOf :=
  (originating_sim_id <- p_entity_id;;
   receiving_entity_id <- p_entity_id;;
   relationship <- p_relationship;;
   part_location <- p_vec3_f32;;
   named_location_id <- p_named_location_id;;
   pret (MkIsPartOf originating_sim_id receiving_entity_id relationship part_location named_location_id))%parse.
(* common/is_part_of/writer.rs:5-15 *)
Definition w_is_part_of (m : mode) (x : IsPartOf) : W Z :=
  (originating_bytes <- w_entity_id (IsPartOf_originating_simulation_id x);;
   receiving_bytes <- w_entity_id (IsPartOf_receiving_entity_id x);;
   relationship_bytes <- w_relationship (IsPartOf_relationship x);;
   part_location_bytes <- w_vector_f32 (IsPartOf_part_location x);;
   named_location_bytes <- w_named_location (IsPartOf_named_location_id x);;
   wret (originating_bytes + receiving_bytes + relationship_bytes + part_location_bytes + named_location_bytes))%write.
(* common/is_part_of/model.rs:35-37 *) (* body_length *)
Definition len_is_part_of (m : mode) (x : IsPartOf) : W Z :=
  (wret 40)%write.
(** octets of the body as laid out by the writer (specification) *)
Definition size_is_part_of (x : IsPartOf) : Z := 32.
Definition fits_is_part_of (x : IsPartOf) : Prop := True.
(* common/is_part_of/model.rs:44-52 *) (* Interaction *)
Definition orig_is_part_of (x : IsPartOf) : option EntityId := Some (IsPartOf_originating_simulation_id x).
Definition recv_is_part_of (x : IsPartOf) : option EntityId := Some (IsPartOf_receiving_entity_id x).
Lemma RT_is_part_of m x : wf_IsPartOf x -> fits_is_part_of x -> RT (w_is_part_of m x) p_is_part_of_body x (size_is_part_of x) (size_is_part_of x).
Proof. destruct x; unfold wf_IsPartOf, fits_is_part_of, size_is_part_of, w_is_part_of, p_is_part_of_body; cbn [IsPartOf_originating_simulation_id IsPartOf_receiving_entity_id IsPartOf_relationship IsPartOf_part_location IsPartOf_named_location_id]; intros; wfd. pdu_rt. Qed.
Lemma Ext_is_part_of : Ext p_is_part_of_body. Proof. unfold p_is_part_of_body; ext. Qed.
Lemma Safe_is_part_of : Safe p_is_part_of_body. Proof. unfold p_is_part_of_body; safe. Qed.
Lemma len_is_part_of_ok m x : wf_IsPartOf x -> fits_is_part_of x -> len_is_part_of m x = WOk [] (size_is_part_of x + 8).
Proof. destruct x; unfold wf_IsPartOf, fits_is_part_of, size_is_part_of, len_is_part_of; cbn [IsPartOf_originating_simulation_id IsPartOf_receiving_entity_id IsPartOf_relationship IsPartOf_part_location IsPartOf_named_location_id]; intros; wfd. pdu_len. Qed.
Global Hint Resolve RT_is_part_of : rt. Global Hint Resolve Ext_is_part_of : ext. Global Hint Resolve Safe_is_part_of : safe.

(** ** TransferOwnership *)
(* common/transfer_ownership/model.rs:13-21 *)
Record TransferOwnership := MkTransferOwnership {
  TransferOwnership_originating_id : EntityId;
  TransferOwnership_receiving_id : EntityId;
  TransferOwnership_request_id : Z;
  TransferOwnership_required_reliability_service : Z;
  TransferOwnership_transfer_type : Z;
  TransferOwnership_transfer_entity_id : EntityId;
  TransferOwnership_record_specification : list RecordSet }.
Definition wf_TransferOwnership (x : TransferOwnership) : Prop :=
  wf_EntityId (TransferOwnership_originating_id x) /\
  wf_EntityId (TransferOwnership_receiving_id x) /\
  u32 (TransferOwnership_request_id x) /\
  u8 (TransferOwnership_required_reliability_service x) /\
  u8 (TransferOwnership_transfer_type x) /\
  wf_EntityId (TransferOwnership_transfer_entity_id x) /\
  Forall wf_RecordSet (TransferOwnership_record_specification x).
(* common/transfer_ownership/parser.rs:8-29 *) (* transfer_ownership_body *)
Definition p_transfer_ownership_body (m : mode) : bparser TransferOwnership :=
  (originating_id <- p_entity_id;;
   receiving_id <- p_entity_id;;
   request_id <- be_u32;;
   required_reliability <- be_u8;;
   transfer_type <- be_u8;;
   transfer_entity_id <- p_entity_id;;
   record_specification <- (p_record_specification m);;
   pret (MkTransferOwnership originating_id receiving_id request_id required_reliability transfer_type transfer_entity_id record_specification))%parse.
(* common/transfer_ownership/writer.rs:5-17 *)
Definition w_transfer_ownership (m : mode) (x : TransferOwnership) : W Z :=
  (originating_bytes <- w_entity_id (TransferOwnership_originating_id x);;
   receiving_bytes <- w_entity_id (TransferOwnership_receiving_id x);;
   put_u32 (TransferOwnership_request_id x);;
   put_u8 (TransferOwnership_required_reliability_service x);;
   put_u8 (TransferOwnership_transfer_type x);;
   transfer_bytes <- w_entity_id (TransferOwnership_transfer_entity_id x);;
   record_spec_bytes <- w_record_specification m (TransferOwnership_record_specification x);;
   add16 m (originating_bytes + receiving_bytes + 4 + transfer_bytes) record_spec_bytes)%write.
(* common/transfer_ownership/model.rs:38-49 *) (* body_length *)
Definition len_transfer_ownership (m : mode) (x : TransferOwnership) : W Z :=
  (a0 <- len_record_sets m (TransferOwnership_record_specification x);;
   add16 m 28 a0)%write.
(** octets of the body as laid out by the writer (specification) *)
Definition size_transfer_ownership (x : TransferOwnership) : Z := 24 + recspec_size (TransferOwnership_record_specification x).
Definition fits_transfer_ownership (x : TransferOwnership) : Prop := size_transfer_ownership x < 65524 /\ Forall rs_ok (TransferOwnership_record_specification x).
(* common/transfer_ownership/model.rs:56-64 *) (* Interaction *)
Definition orig_transfer_ownership (x : TransferOwnership) : option EntityId := Some (TransferOwnership_originating_id x).
Definition recv_transfer_ownership (x : TransferOwnership) : option EntityId := Some (TransferOwnership_receiving_id x).
Lemma RT_transfer_ownership m x : wf_TransferOwnership x -> fits_transfer_ownership x -> RT (w_transfer_ownership m x) (p_transfer_ownership_body m) x (size_transfer_ownership x - 2) (size_transfer_ownership x).
Proof. destruct x; unfold wf_TransferOwnership, fits_transfer_ownership, size_transfer_ownership, w_transfer_ownership, p_transfer_ownership_body; cbn [TransferOwnership_originating_id TransferOwnership_receiving_id TransferOwnership_request_id TransferOwnership_required_reliability_service TransferOwnership_transfer_type TransferOwnership_transfer_entity_id TransferOwnership_record_specification]; intros; wfd. pdu_rt. Qed.
Lemma Ext_transfer_ownership m : Ext (p_transfer_ownership_body m). Proof. unfold p_transfer_ownership_body; ext. Qed.
Lemma Safe_transfer_ownership : Safe (p_transfer_ownership_body Wrapping). Proof. unfold p_transfer_ownership_body; safe. Qed.
Lemma len_transfer_ownership_ok m x : wf_TransferOwnership x -> fits_transfer_ownership x -> len_transfer_ownership m x = WOk [] (size_transfer_ownership x).
Proof. destruct x; unfold wf_TransferOwnership, fits_transfer_ownership, size_transfer_ownership, len_transfer_ownership; cbn [TransferOwnership_originating_id TransferOwnership_receiving_id TransferOwnership_request_id TransferOwnership_required_reliability_service TransferOwnership_transfer_type TransferOwnership_transfer_entity_id TransferOwnership_record_specification]; intros; wfd. pdu_len. Qed.
Global Hint Resolve RT_transfer_ownership : rt. Global Hint Resolve Ext_transfer_ownership : ext. Global Hint Resolve Safe_transfer_ownership : safe.

