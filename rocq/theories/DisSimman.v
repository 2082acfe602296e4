(** Simulation management PDUs (reliable and unreliable): model, parser, writer, body length.
    Sources: /repo/dis-rs/src/common/<pdu>/{model,parser,writer,builder}.rs.
    Conventions as in DisCommon: enum fields hold the raw integer, floats their bit pattern.
    [size_*] is the number of octets the layout occupies, [fits_*] the representability conditions. *)
From Verif Require Import Base DisCommon DisLists.

(** ** Acknowledge *)
(* common/acknowledge/model.rs:12-18 *)
Record Acknowledge := MkAcknowledge {
  Acknowledge_originating_id : EntityId;
  Acknowledge_receiving_id : EntityId;
  Acknowledge_acknowledge_flag : Z;
  Acknowledge_response_flag : Z;
  Acknowledge_request_id : Z }.
Definition wf_Acknowledge (x : Acknowledge) : Prop :=
  wf_EntityId (Acknowledge_originating_id x) /\
  wf_EntityId (Acknowledge_receiving_id x) /\
  u16 (Acknowledge_acknowledge_flag x) /\
  u16 (Acknowledge_response_flag x) /\
  u32 (Acknowledge_request_id x).
(* common/acknowledge/parser.rs:8-27 *) (* acknowledge_body *)
Definition p_acknowledge_body : bparser Acknowledge :=
  (originating_id <- p_entity_id;;
   receiving_id <- p_entity_id;;
   acknowledge_flag <- be_u16;;
   response_flag <- be_u16;;
   request_id <- be_u32;;
   pret (MkAcknowledge originating_id receiving_id acknowledge_flag response_flag request_id))%parse.
(* common/acknowledge/writer.rs:5-15 *)
Definition w_acknowledge (m : mode) (x : Acknowledge) : W Z :=
  (originating_id_bytes <- w_entity_id (Acknowledge_originating_id x);;
   receiving_id_bytes <- w_entity_id (Acknowledge_receiving_id x);;
   put_u16 (Acknowledge_acknowledge_flag x);;
   put_u16 (Acknowledge_response_flag x);;
   put_u32 (Acknowledge_request_id x);;
   wret (originating_id_bytes + receiving_id_bytes + 2 + 2 + 4))%write.
(* common/acknowledge/model.rs:35-37 *) (* body_length *)
Definition len_acknowledge (m : mode) (x : Acknowledge) : W Z :=
  (wret 20)%write.
(** octets of the body as laid out by the writer (specification) *)
Definition size_acknowledge (x : Acknowledge) : Z := 20.
Definition fits_acknowledge (x : Acknowledge) : Prop := True.
(* common/acknowledge/model.rs:44-52 *) (* Interaction *)
Definition orig_acknowledge (x : Acknowledge) : option EntityId := Some (Acknowledge_originating_id x).
Definition recv_acknowledge (x : Acknowledge) : option EntityId := Some (Acknowledge_receiving_id x).
Lemma RT_acknowledge m x : wf_Acknowledge x -> fits_acknowledge x -> RT (w_acknowledge m x) p_acknowledge_body x (size_acknowledge x) (size_acknowledge x).
Proof. destruct x; unfold wf_Acknowledge, fits_acknowledge, size_acknowledge, w_acknowledge, p_acknowledge_body; cbn [Acknowledge_originating_id Acknowledge_receiving_id Acknowledge_acknowledge_flag Acknowledge_response_flag Acknowledge_request_id]; intros; wfd. pdu_rt. Qed.
Lemma Ext_acknowledge : Ext p_acknowledge_body. Proof. unfold p_acknowledge_body; ext. Qed.
Lemma Safe_acknowledge : Safe p_acknowledge_body. Proof. unfold p_acknowledge_body; safe. Qed.
Lemma len_acknowledge_ok m x : wf_Acknowledge x -> fits_acknowledge x -> len_acknowledge m x = WOk [] (size_acknowledge x).
Proof. destruct x; unfold wf_Acknowledge, fits_acknowledge, size_acknowledge, len_acknowledge; cbn [Acknowledge_originating_id Acknowledge_receiving_id Acknowledge_acknowledge_flag Acknowledge_response_flag Acknowledge_request_id]; intros; wfd. pdu_len. Qed.
Global Hint Resolve RT_acknowledge : rt. Global Hint Resolve Ext_acknowledge : ext. Global Hint Resolve Safe_acknowledge : safe.

(** ** AcknowledgeR *)
(* common/acknowledge_r/model.rs:12-18 *)
Record AcknowledgeR := MkAcknowledgeR {
  AcknowledgeR_originating_id : EntityId;
  AcknowledgeR_receiving_id : EntityId;
  AcknowledgeR_acknowledge_flag : Z;
  AcknowledgeR_response_flag : Z;
  AcknowledgeR_request_id : Z }.
Definition wf_AcknowledgeR (x : AcknowledgeR) : Prop :=
  wf_EntityId (AcknowledgeR_originating_id x) /\
  wf_EntityId (AcknowledgeR_receiving_id x) /\
  u16 (AcknowledgeR_acknowledge_flag x) /\
  u16 (AcknowledgeR_response_flag x) /\
  u32 (AcknowledgeR_request_id x).
(* common/acknowledge_r/parser.rs:8-27 *) (* acknowledge_r_body *)
Definition p_acknowledge_r_body : bparser AcknowledgeR :=
  (originating_id <- p_entity_id;;
   receiving_id <- p_entity_id;;
   acknowledge_flag <- be_u16;;
   response_flag <- be_u16;;
   request_id <- be_u32;;
   pret (MkAcknowledgeR originating_id receiving_id acknowledge_flag response_flag request_id))%parse.
(* common/acknowledge_r/writer.rs:5-15 *)
Definition w_acknowledge_r (m : mode) (x : AcknowledgeR) : W Z :=
  (originating_id_bytes <- w_entity_id (AcknowledgeR_originating_id x);;
   receiving_id_bytes <- w_entity_id (AcknowledgeR_receiving_id x);;
   put_u16 (AcknowledgeR_acknowledge_flag x);;
   put_u16 (AcknowledgeR_response_flag x);;
   put_u32 (AcknowledgeR_request_id x);;
   wret (originating_id_bytes + receiving_id_bytes + 2 + 2 + 4))%write.
(* common/acknowledge_r/model.rs:35-37 *) (* body_length *)
Definition len_acknowledge_r (m : mode) (x : AcknowledgeR) : W Z :=
  (wret 20)%write.
(** octets of the body as laid out by the writer (specification) *)
Definition size_acknowledge_r (x : AcknowledgeR) : Z := 20.
Definition fits_acknowledge_r (x : AcknowledgeR) : Prop := True.
(* common/acknowledge_r/model.rs:44-52 *) (* Interaction *)
Definition orig_acknowledge_r (x : AcknowledgeR) : option EntityId := Some (AcknowledgeR_originating_id x).
Definition recv_acknowledge_r (x : AcknowledgeR) : option EntityId := Some (AcknowledgeR_receiving_id x).
Lemma RT_acknowledge_r m x : wf_AcknowledgeR x -> fits_acknowledge_r x -> RT (w_acknowledge_r m x) p_acknowledge_r_body x (size_acknowledge_r x) (size_acknowledge_r x).
Proof. destruct x; unfold wf_AcknowledgeR, fits_acknowledge_r, size_acknowledge_r, w_acknowledge_r, p_acknowledge_r_body; cbn [AcknowledgeR_originating_id AcknowledgeR_receiving_id AcknowledgeR_acknowledge_flag AcknowledgeR_response_flag AcknowledgeR_request_id]; intros; wfd. pdu_rt. Qed.
Lemma Ext_acknowledge_r : Ext p_acknowledge_r_body. Proof. unfold p_acknowledge_r_body; ext. Qed.
Lemma Safe_acknowledge_r : Safe p_acknowledge_r_body. Proof. unfold p_acknowledge_r_body; safe. Qed.
Lemma len_acknowledge_r_ok m x : wf_AcknowledgeR x -> fits_acknowledge_r x -> len_acknowledge_r m x = WOk [] (size_acknowledge_r x).
Proof. destruct x; unfold wf_AcknowledgeR, fits_acknowledge_r, size_acknowledge_r, len_acknowledge_r; cbn [AcknowledgeR_originating_id AcknowledgeR_receiving_id AcknowledgeR_acknowledge_flag AcknowledgeR_response_flag AcknowledgeR_request_id]; intros; wfd. pdu_len. Qed.
Global Hint Resolve RT_acknowledge_r : rt. Global Hint Resolve Ext_acknowledge_r : ext. Global Hint Resolve Safe_acknowledge_r : safe.

(** ** CreateEntity *)
(* common/create_entity/model.rs:12-16 *)
Record CreateEntity := MkCreateEntity {
  CreateEntity_originating_id : EntityId;
  CreateEntity_receiving_id : EntityId;
  CreateEntity_request_id : Z }.
Definition wf_CreateEntity (x : CreateEntity) : Prop :=
  wf_EntityId (CreateEntity_originating_id x) /\
  wf_EntityId (CreateEntity_receiving_id x) /\
  u32 (CreateEntity_request_id x).
(* common/create_entity/parser.rs:7-19 *) (* create_entity_body *)
Definition p_create_entity_body : bparser CreateEntity :=
  (originating_id <- p_entity_id;;
   receiving_id <- p_entity_id;;
   request_id <- be_u32;;
   pret (MkCreateEntity originating_id receiving_id request_id))%parse.
(* common/create_entity/writer.rs:5-13 *)
Definition w_create_entity (m : mode) (x : CreateEntity) : W Z :=
  (originating_id_bytes <- w_entity_id (CreateEntity_originating_id x);;
   receiving_id_bytes <- w_entity_id (CreateEntity_receiving_id x);;
   put_u32 (CreateEntity_request_id x);;
   wret (originating_id_bytes + receiving_id_bytes + 4))%write.
(* common/create_entity/model.rs:33-35 *) (* body_length *)
Definition len_create_entity (m : mode) (x : CreateEntity) : W Z :=
  (wret 16)%write.
(** octets of the body as laid out by the writer (specification) *)
Definition size_create_entity (x : CreateEntity) : Z := 16.
Definition fits_create_entity (x : CreateEntity) : Prop := True.
(* common/create_entity/model.rs:42-50 *) (* Interaction *)
Definition orig_create_entity (x : CreateEntity) : option EntityId := Some (CreateEntity_originating_id x).
Definition recv_create_entity (x : CreateEntity) : option EntityId := Some (CreateEntity_receiving_id x).
Lemma RT_create_entity m x : wf_CreateEntity x -> fits_create_entity x -> RT (w_create_entity m x) p_create_entity_body x (size_create_entity x) (size_create_entity x).
Proof. destruct x; unfold wf_CreateEntity, fits_create_entity, size_create_entity, w_create_entity, p_create_entity_body; cbn [CreateEntity_originating_id CreateEntity_receiving_id CreateEntity_request_id]; intros; wfd. pdu_rt. Qed.
Lemma Ext_create_entity : Ext p_create_entity_body. Proof. unfold p_create_entity_body; ext. Qed.
Lemma Safe_create_entity : Safe p_create_entity_body. Proof. unfold p_create_entity_body; safe. Qed.
Lemma len_create_entity_ok m x : wf_CreateEntity x -> fits_create_entity x -> len_create_entity m x = WOk [] (size_create_entity x).
Proof. destruct x; unfold wf_CreateEntity, fits_create_entity, size_create_entity, len_create_entity; cbn [CreateEntity_originating_id CreateEntity_receiving_id CreateEntity_request_id]; intros; wfd. pdu_len. Qed.
Global Hint Resolve RT_create_entity : rt. Global Hint Resolve Ext_create_entity : ext. Global Hint Resolve Safe_create_entity : safe.

(** ** CreateEntityR *)
(* common/create_entity_r/model.rs:12-17 *)
Record CreateEntityR := MkCreateEntityR {
  CreateEntityR_originating_id : EntityId;
  CreateEntityR_receiving_id : EntityId;
  CreateEntityR_required_reliability_service : Z;
  CreateEntityR_request_id : Z }.
Definition wf_CreateEntityR (x : CreateEntityR) : Prop :=
  wf_EntityId (CreateEntityR_originating_id x) /\
  wf_EntityId (CreateEntityR_receiving_id x) /\
  u8 (CreateEntityR_required_reliability_service x) /\
  u32 (CreateEntityR_request_id x).
(* common/create_entity_r/parser.rs:8-25 *) (* create_entity_r_body *)
Definition p_create_entity_r_body : bparser CreateEntityR :=
  (originating_id <- p_entity_id;;
   receiving_id <- p_entity_id;;
   required_reliability_service <- be_u8;;
   _ <- be_u8;;
   _ <- be_u16;;
   request_id <- be_u32;;
   pret (MkCreateEntityR originating_id receiving_id required_reliability_service request_id))%parse.
(* common/create_entity_r/writer.rs:5-16 *)
Definition w_create_entity_r (m : mode) (x : CreateEntityR) : W Z :=
  (originating_id_bytes <- w_entity_id (CreateEntityR_originating_id x);;
   receiving_id_bytes <- w_entity_id (CreateEntityR_receiving_id x);;
   put_u8 (CreateEntityR_required_reliability_service x);;
   put_u8 0;;
   put_u16 0;;
   put_u32 (CreateEntityR_request_id x);;
   wret (originating_id_bytes + receiving_id_bytes + 8))%write.
(* common/create_entity_r/model.rs:34-36 *) (* body_length *)
Definition len_create_entity_r (m : mode) (x : CreateEntityR) : W Z :=
  (wret 20)%write.
(** octets of the body as laid out by the writer (specification) *)
Definition size_create_entity_r (x : CreateEntityR) : Z := 20.
Definition fits_create_entity_r (x : CreateEntityR) : Prop := True.
(* common/create_entity_r/model.rs:43-51 *) (* Interaction *)
Definition orig_create_entity_r (x : CreateEntityR) : option EntityId := Some (CreateEntityR_originating_id x).
Definition recv_create_entity_r (x : CreateEntityR) : option EntityId := Some (CreateEntityR_receiving_id x).
Lemma RT_create_entity_r m x : wf_CreateEntityR x -> fits_create_entity_r x -> RT (w_create_entity_r m x) p_create_entity_r_body x (size_create_entity_r x) (size_create_entity_r x).
Proof. destruct x; unfold wf_CreateEntityR, fits_create_entity_r, size_create_entity_r, w_create_entity_r, p_create_entity_r_body; cbn [CreateEntityR_originating_id CreateEntityR_receiving_id CreateEntityR_required_reliability_service CreateEntityR_request_id]; intros; wfd. pdu_rt. Qed.
Lemma Ext_create_entity_r : Ext p_create_entity_r_body. Proof. unfold p_create_entity_r_body; ext. Qed.
Lemma Safe_create_entity_r : Safe p_create_entity_r_body. Proof. unfold p_create_entity_r_body; safe. Qed.
Lemma len_create_entity_r_ok m x : wf_CreateEntityR x -> fits_create_entity_r x -> len_create_entity_r m x = WOk [] (size_create_entity_r x).
Proof. destruct x; unfold wf_CreateEntityR, fits_create_entity_r, size_create_entity_r, len_create_entity_r; cbn [CreateEntityR_originating_id CreateEntityR_receiving_id CreateEntityR_required_reliability_service CreateEntityR_request_id]; intros; wfd. pdu_len. Qed.
Global Hint Resolve RT_create_entity_r : rt. Global Hint Resolve Ext_create_entity_r : ext. Global Hint Resolve Safe_create_entity_r : safe.

(** ** RemoveEntity *)
(* common/remove_entity/model.rs:12-16 *)
Record RemoveEntity := MkRemoveEntity {
  RemoveEntity_originating_id : EntityId;
  RemoveEntity_receiving_id : EntityId;
  RemoveEntity_request_id : Z }.
Definition wf_RemoveEntity (x : RemoveEntity) : Prop :=
  wf_EntityId (RemoveEntity_originating_id x) /\
  wf_EntityId (RemoveEntity_receiving_id x) /\
  u32 (RemoveEntity_request_id x).
(* common/remove_entity/parser.rs:7-19 *) (* remove_entity_body *)
Definition p_remove_entity_body : bparser RemoveEntity :=
  (originating_id <- p_entity_id;;
   receiving_id <- p_entity_id;;
   request_id <- be_u32;;
   pret (MkRemoveEntity originating_id receiving_id request_id))%parse.
(* common/remove_entity/writer.rs:5-13 *)
Definition w_remove_entity (m : mode) (x : RemoveEntity) : W Z :=
  (originating_id_bytes <- w_entity_id (RemoveEntity_originating_id x);;
   receiving_id_bytes <- w_entity_id (RemoveEntity_receiving_id x);;
   put_u32 (RemoveEntity_request_id x);;
   wret (originating_id_bytes + receiving_id_bytes + 4))%write.
(* common/remove_entity/model.rs:33-35 *) (* body_length *)
Definition len_remove_entity (m : mode) (x : RemoveEntity) : W Z :=
  (wret 16)%write.
(** octets of the body as laid out by the writer (specification) *)
Definition size_remove_entity (x : RemoveEntity) : Z := 16.
Definition fits_remove_entity (x : RemoveEntity) : Prop := True.
(* common/remove_entity/model.rs:42-50 *) (* Interaction *)
Definition orig_remove_entity (x : RemoveEntity) : option EntityId := Some (RemoveEntity_originating_id x).
Definition recv_remove_entity (x : RemoveEntity) : option EntityId := Some (RemoveEntity_receiving_id x).
Lemma RT_remove_entity m x : wf_RemoveEntity x -> fits_remove_entity x -> RT (w_remove_entity m x) p_remove_entity_body x (size_remove_entity x) (size_remove_entity x).
Proof. destruct x; unfold wf_RemoveEntity, fits_remove_entity, size_remove_entity, w_remove_entity, p_remove_entity_body; cbn [RemoveEntity_originating_id RemoveEntity_receiving_id RemoveEntity_request_id]; intros; wfd. pdu_rt. Qed.
Lemma Ext_remove_entity : Ext p_remove_entity_body. Proof. unfold p_remove_entity_body; ext. Qed.
Lemma Safe_remove_entity : Safe p_remove_entity_body. Proof. unfold p_remove_entity_body; safe. Qed.
Lemma len_remove_entity_ok m x : wf_RemoveEntity x -> fits_remove_entity x -> len_remove_entity m x = WOk [] (size_remove_entity x).
Proof. destruct x; unfold wf_RemoveEntity, fits_remove_entity, size_remove_entity, len_remove_entity; cbn [RemoveEntity_originating_id RemoveEntity_receiving_id RemoveEntity_request_id]; intros; wfd. pdu_len. Qed.
Global Hint Resolve RT_remove_entity : rt. Global Hint Resolve Ext_remove_entity : ext. Global Hint Resolve Safe_remove_entity : safe.

(** ** RemoveEntityR *)
(* common/remove_entity_r/model.rs:12-17 *)
Record RemoveEntityR := MkRemoveEntityR {
  RemoveEntityR_originating_id : EntityId;
  RemoveEntityR_receiving_id : EntityId;
  RemoveEntityR_required_reliability_service : Z;
  RemoveEntityR_request_id : Z }.
Definition wf_RemoveEntityR (x : RemoveEntityR) : Prop :=
  wf_EntityId (RemoveEntityR_originating_id x) /\
  wf_EntityId (RemoveEntityR_receiving_id x) /\
  u8 (RemoveEntityR_required_reliability_service x) /\
  u32 (RemoveEntityR_request_id x).
(* common/remove_entity_r/parser.rs:8-25 *) (* remove_entity_r_body *)
Definition p_remove_entity_r_body : bparser RemoveEntityR :=
  (originating_id <- p_entity_id;;
   receiving_id <- p_entity_id;;
   required_reliability_service <- be_u8;;
   _ <- be_u8;;
   _ <- be_u16;;
   request_id <- be_u32;;
   pret (MkRemoveEntityR originating_id receiving_id required_reliability_service request_id))%parse.
(* common/remove_entity_r/writer.rs:5-16 *)
Definition w_remove_entity_r (m : mode) (x : RemoveEntityR) : W Z :=
  (originating_id_bytes <- w_entity_id (RemoveEntityR_originating_id x);;
   receiving_id_bytes <- w_entity_id (RemoveEntityR_receiving_id x);;
   put_u8 (RemoveEntityR_required_reliability_service x);;
   put_u8 0;;
   put_u16 0;;
   put_u32 (RemoveEntityR_request_id x);;
   wret (originating_id_bytes + receiving_id_bytes + 8))%write.
(* common/remove_entity_r/model.rs:34-36 *) (* body_length *)
Definition len_remove_entity_r (m : mode) (x : RemoveEntityR) : W Z :=
  (wret 20)%write.
(** octets of the body as laid out by the writer (specification) *)
Definition size_remove_entity_r (x : RemoveEntityR) : Z := 20.
Definition fits_remove_entity_r (x : RemoveEntityR) : Prop := True.
(* common/remove_entity_r/model.rs:43-51 *) (* Interaction *)
Definition orig_remove_entity_r (x : RemoveEntityR) : option EntityId := Some (RemoveEntityR_originating_id x).
Definition recv_remove_entity_r (x : RemoveEntityR) : option EntityId := Some (RemoveEntityR_receiving_id x).
Lemma RT_remove_entity_r m x : wf_RemoveEntityR x -> fits_remove_entity_r x -> RT (w_remove_entity_r m x) p_remove_entity_r_body x (size_remove_entity_r x) (size_remove_entity_r x).
Proof. destruct x; unfold wf_RemoveEntityR, fits_remove_entity_r, size_remove_entity_r, w_remove_entity_r, p_remove_entity_r_body; cbn [RemoveEntityR_originating_id RemoveEntityR_receiving_id RemoveEntityR_required_reliability_service RemoveEntityR_request_id]; intros; wfd. pdu_rt. Qed.
Lemma Ext_remove_entity_r : Ext p_remove_entity_r_body. Proof. unfold p_remove_entity_r_body; ext. Qed.
Lemma Safe_remove_entity_r : Safe p_remove_entity_r_body. Proof. unfold p_remove_entity_r_body; safe. Qed.
Lemma len_remove_entity_r_ok m x : wf_RemoveEntityR x -> fits_remove_entity_r x -> len_remove_entity_r m x = WOk [] (size_remove_entity_r x).
Proof. destruct x; unfold wf_RemoveEntityR, fits_remove_entity_r, size_remove_entity_r, len_remove_entity_r; cbn [RemoveEntityR_originating_id RemoveEntityR_receiving_id RemoveEntityR_required_reliability_service RemoveEntityR_request_id]; intros; wfd. pdu_len. Qed.
Global Hint Resolve RT_remove_entity_r : rt. Global Hint Resolve Ext_remove_entity_r : ext. Global Hint Resolve Safe_remove_entity_r : safe.

(** ** StartResume *)
(* common/start_resume/model.rs:12-18 *)
Record StartResume := MkStartResume {
  StartResume_originating_id : EntityId;
  StartResume_receiving_id : EntityId;
  StartResume_real_world_time : ClockTime;
  StartResume_simulation_time : ClockTime;
  StartResume_request_id : Z }.
Definition wf_StartResume (x : StartResume) : Prop :=
  wf_EntityId (StartResume_originating_id x) /\
  wf_EntityId (StartResume_receiving_id x) /\
  wf_ClockTime (StartResume_real_world_time x) /\
  wf_ClockTime (StartResume_simulation_time x) /\
  u32 (StartResume_request_id x).
(* common/start_resume/parser.rs:7-23 *) (* start_resume_body *)
Definition p_start_resume_body : bparser StartResume :=
  (originating_id <- p_entity_id;;
   receiving_id <- p_entity_id;;
   real_world_time <- p_clock_time;;
   simulation_time <- p_clock_time;;
   request_id <- be_u32;;
   pret (MkStartResume originating_id receiving_id real_world_time simulation_time request_id))%parse.
(* common/start_resume/writer.rs:5-15 *)
Definition w_start_resume (m : mode) (x : StartResume) : W Z :=
  (originating_id_bytes <- w_entity_id (StartResume_originating_id x);;
   receiving_id_bytes <- w_entity_id (StartResume_receiving_id x);;
   real_world_bytes <- w_clock_time (StartResume_real_world_time x);;
   sim_time_bytes <- w_clock_time (StartResume_simulation_time x);;
   put_u32 (StartResume_request_id x);;
   wret (originating_id_bytes + receiving_id_bytes + real_world_bytes + sim_time_bytes + 4))%write.
(* common/start_resume/model.rs:35-37 *) (* body_length *)
Definition len_start_resume (m : mode) (x : StartResume) : W Z :=
  (wret 32)%write.
(** octets of the body as laid out by the writer (specification) *)
Definition size_start_resume (x : StartResume) : Z := 32.
Definition fits_start_resume (x : StartResume) : Prop := True.
(* common/start_resume/model.rs:44-52 *) (* Interaction *)
Definition orig_start_resume (x : StartResume) : option EntityId := Some (StartResume_originating_id x).
Definition recv_start_resume (x : StartResume) : option EntityId := Some (StartResume_receiving_id x).
Lemma RT_start_resume m x : wf_StartResume x -> fits_start_resume x -> RT (w_start_resume m x) p_start_resume_body x (size_start_resume x) (size_start_resume x).
Proof. destruct x; unfold wf_StartResume, fits_start_resume, size_start_resume, w_start_resume, p_start_resume_body; cbn [StartResume_originating_id StartResume_receiving_id StartResume_real_world_time StartResume_simulation_time StartResume_request_id]; intros; wfd. pdu_rt. Qed.
Lemma Ext_start_resume : Ext p_start_resume_body. Proof. unfold p_start_resume_body; ext. Qed.
Lemma Safe_start_resume : Safe p_start_resume_body. Proof. unfold p_start_resume_body; safe. Qed.
Lemma len_start_resume_ok m x : wf_StartResume x -> fits_start_resume x -> len_start_resume m x = WOk [] (size_start_resume x).
Proof. destruct x; unfold wf_StartResume, fits_start_resume, size_start_resume, len_start_resume; cbn [StartResume_originating_id StartResume_receiving_id StartResume_real_world_time StartResume_simulation_time StartResume_request_id]; intros; wfd. pdu_len. Qed.
Global Hint Resolve RT_start_resume : rt. Global Hint Resolve Ext_start_resume : ext. Global Hint Resolve Safe_start_resume : safe.

(** ** StartResumeR *)
(* common/start_resume_r/model.rs:12-19 *)
Record StartResumeR := MkStartResumeR {
  StartResumeR_originating_id : EntityId;
  StartResumeR_receiving_id : EntityId;
  StartResumeR_real_world_time : ClockTime;
  StartResumeR_simulation_time : ClockTime;
  StartResumeR_required_reliability_service : Z;
  StartResumeR_request_id : Z }.
Definition wf_StartResumeR (x : StartResumeR) : Prop :=
  wf_EntityId (StartResumeR_originating_id x) /\
  wf_EntityId (StartResumeR_receiving_id x) /\
  wf_ClockTime (StartResumeR_real_world_time x) /\
  wf_ClockTime (StartResumeR_simulation_time x) /\
  u8 (StartResumeR_required_reliability_service x) /\
  u32 (StartResumeR_request_id x).
(* common/start_resume_r/parser.rs:8-29 *) (* start_resume_r_body *)
Definition p_start_resume_r_body : bparser StartResumeR :=
  (originating_id <- p_entity_id;;
   receiving_id <- p_entity_id;;
   real_world_time <- p_clock_time;;
   simulation_time <- p_clock_time;;
   required_reliability_service <- be_u8;;
   _ <- be_u8;;
   _ <- be_u16;;
   request_id <- be_u32;;
   pret (MkStartResumeR originating_id receiving_id real_world_time simulation_time required_reliability_service request_id))%parse.
(* common/start_resume_r/writer.rs:5-18 *)
Definition w_start_resume_r (m : mode) (x : StartResumeR) : W Z :=
  (originating_id_bytes <- w_entity_id (StartResumeR_originating_id x);;
   receiving_id_bytes <- w_entity_id (StartResumeR_receiving_id x);;
   real_world_bytes <- w_clock_time (StartResumeR_real_world_time x);;
   sim_time_bytes <- w_clock_time (StartResumeR_simulation_time x);;
   put_u8 (StartResumeR_required_reliability_service x);;
   put_u8 0;;
   put_u16 0;;
   put_u32 (StartResumeR_request_id x);;
   wret (originating_id_bytes + receiving_id_bytes + real_world_bytes + sim_time_bytes + 8))%write.
(* common/start_resume_r/model.rs:36-38 *) (* body_length *)
Definition len_start_resume_r (m : mode) (x : StartResumeR) : W Z :=
  (wret 36)%write.
(** octets of the body as laid out by the writer (specification) *)
Definition size_start_resume_r (x : StartResumeR) : Z := 36.
Definition fits_start_resume_r (x : StartResumeR) : Prop := True.
(* common/start_resume_r/model.rs:45-53 *) (* Interaction *)
Definition orig_start_resume_r (x : StartResumeR) : option EntityId := Some (StartResumeR_originating_id x).
Definition recv_start_resume_r (x : StartResumeR) : option EntityId := Some (StartResumeR_receiving_id x).
Lemma RT_start_resume_r m x : wf_StartResumeR x -> fits_start_resume_r x -> RT (w_start_resume_r m x) p_start_resume_r_body x (size_start_resume_r x) (size_start_resume_r x).
Proof. destruct x; unfold wf_StartResumeR, fits_start_resume_r, size_start_resume_r, w_start_resume_r, p_start_resume_r_body; cbn [StartResumeR_originating_id StartResumeR_receiving_id StartResumeR_real_world_time StartResumeR_simulation_time StartResumeR_required_reliability_service StartResumeR_request_id]; intros; wfd. pdu_rt. Qed.
Lemma Ext_start_resume_r : Ext p_start_resume_r_body. Proof. unfold p_start_resume_r_body; ext. Qed.
Lemma Safe_start_resume_r : Safe p_start_resume_r_body. Proof. unfold p_start_resume_r_body; safe. Qed.
Lemma len_start_resume_r_ok m x : wf_StartResumeR x -> fits_start_resume_r x -> len_start_resume_r m x = WOk [] (size_start_resume_r x).
Proof. destruct x; unfold wf_StartResumeR, fits_start_resume_r, size_start_resume_r, len_start_resume_r; cbn [StartResumeR_originating_id StartResumeR_receiving_id StartResumeR_real_world_time StartResumeR_simulation_time StartResumeR_required_reliability_service StartResumeR_request_id]; intros; wfd. pdu_len. Qed.
Global Hint Resolve RT_start_resume_r : rt. Global Hint Resolve Ext_start_resume_r : ext. Global Hint Resolve Safe_start_resume_r : safe.

(** ** StopFreeze *)
(* common/stop_freeze/model.rs:12-19 *)
Record StopFreeze := MkStopFreeze {
  StopFreeze_originating_id : EntityId;
  StopFreeze_receiving_id : EntityId;
  StopFreeze_real_world_time : ClockTime;
  StopFreeze_reason : Z;
  StopFreeze_frozen_behavior : Z;
  StopFreeze_request_id : Z }.
Definition wf_StopFreeze (x : StopFreeze) : Prop :=
  wf_EntityId (StopFreeze_originating_id x) /\
  wf_EntityId (StopFreeze_receiving_id x) /\
  wf_ClockTime (StopFreeze_real_world_time x) /\
  u8 (StopFreeze_reason x) /\
  u8 (StopFreeze_frozen_behavior x) /\
  u32 (StopFreeze_request_id x).
(* common/stop_freeze/parser.rs:8-30 *) (* stop_freeze_body *)
Definition p_stop_freeze_body : bparser StopFreeze :=
  (originating_id <- p_entity_id;;
   receiving_id <- p_entity_id;;
   real_world_time <- p_clock_time;;
   reason <- be_u8;;
   behavior <- be_u8;;
   _ <- be_u16;;
   request_id <- be_u32;;
   pret (MkStopFreeze originating_id receiving_id real_world_time reason behavior request_id))%parse.
(* common/stop_freeze/writer.rs:5-17 *)
Definition w_stop_freeze (m : mode) (x : StopFreeze) : W Z :=
  (originating_id_bytes <- w_entity_id (StopFreeze_originating_id x);;
   receiving_id_bytes <- w_entity_id (StopFreeze_receiving_id x);;
   real_world_bytes <- w_clock_time (StopFreeze_real_world_time x);;
   put_u8 (StopFreeze_reason x);;
   put_u8 (StopFreeze_frozen_behavior x);;
   put_u16 0;;
   put_u32 (StopFreeze_request_id x);;
   wret (originating_id_bytes + receiving_id_bytes + real_world_bytes + 1 + 1 + 2 + 4))%write.
(* common/stop_freeze/model.rs:36-38 *) (* body_length *)
Definition len_stop_freeze (m : mode) (x : StopFreeze) : W Z :=
  (wret 28)%write.
(** octets of the body as laid out by the writer (specification) *)
Definition size_stop_freeze (x : StopFreeze) : Z := 28.
Definition fits_stop_freeze (x : StopFreeze) : Prop := True.
(* common/stop_freeze/model.rs:45-53 *) (* Interaction *)
Definition orig_stop_freeze (x : StopFreeze) : option EntityId := Some (StopFreeze_originating_id x).
Definition recv_stop_freeze (x : StopFreeze) : option EntityId := Some (StopFreeze_receiving_id x).
Lemma RT_stop_freeze m x : wf_StopFreeze x -> fits_stop_freeze x -> RT (w_stop_freeze m x) p_stop_freeze_body x (size_stop_freeze x) (size_stop_freeze x).
Proof. destruct x; unfold wf_StopFreeze, fits_stop_freeze, size_stop_freeze, w_stop_freeze, p_stop_freeze_body; cbn [StopFreeze_originating_id StopFreeze_receiving_id StopFreeze_real_world_time StopFreeze_reason StopFreeze_frozen_behavior StopFreeze_request_id]; intros; wfd. pdu_rt. Qed.
Lemma Ext_stop_freeze : Ext p_stop_freeze_body. Proof. unfold p_stop_freeze_body; ext. Qed.
Lemma Safe_stop_freeze : Safe p_stop_freeze_body. Proof. unfold p_stop_freeze_body; safe. Qed.
Lemma len_stop_freeze_ok m x : wf_StopFreeze x -> fits_stop_freeze x -> len_stop_freeze m x = WOk [] (size_stop_freeze x).
Proof. destruct x; unfold wf_StopFreeze, fits_stop_freeze, size_stop_freeze, len_stop_freeze; cbn [StopFreeze_originating_id StopFreeze_receiving_id StopFreeze_real_world_time StopFreeze_reason StopFreeze_frozen_behavior StopFreeze_request_id]; intros; wfd. pdu_len. Qed.
Global Hint Resolve RT_stop_freeze : rt. Global Hint Resolve Ext_stop_freeze : ext. Global Hint Resolve Safe_stop_freeze : safe.

(** ** StopFreezeR *)
(* common/stop_freeze_r/model.rs:12-20 *)
Record StopFreezeR := MkStopFreezeR {
  StopFreezeR_originating_id : EntityId;
  StopFreezeR_receiving_id : EntityId;
  StopFreezeR_real_world_time : ClockTime;
  StopFreezeR_reason : Z;
  StopFreezeR_frozen_behavior : Z;
  StopFreezeR_required_reliability_service : Z;
  StopFreezeR_request_id : Z }.
Definition wf_StopFreezeR (x : StopFreezeR) : Prop :=
  wf_EntityId (StopFreezeR_originating_id x) /\
  wf_EntityId (StopFreezeR_receiving_id x) /\
  wf_ClockTime (StopFreezeR_real_world_time x) /\
  u8 (StopFreezeR_reason x) /\
  u8 (StopFreezeR_frozen_behavior x) /\
  u8 (StopFreezeR_required_reliability_service x) /\
  u32 (StopFreezeR_request_id x).
(* common/stop_freeze_r/parser.rs:8-33 *) (* stop_freeze_r_body *)
Definition p_stop_freeze_r_body : bparser StopFreezeR :=
  (originating_id <- p_entity_id;;
   receiving_id <- p_entity_id;;
   real_world_time <- p_clock_time;;
   reason <- be_u8;;
   behavior <- be_u8;;
   required_reliability_service <- be_u8;;
   _ <- be_u8;;
   request_id <- be_u32;;
   pret (MkStopFreezeR originating_id receiving_id real_world_time reason behavior required_reliability_service request_id))%parse.
(* common/stop_freeze_r/writer.rs:5-18 *)
Definition w_stop_freeze_r (m : mode) (x : StopFreezeR) : W Z :=
  (originating_id_bytes <- w_entity_id (StopFreezeR_originating_id x);;
   receiving_id_bytes <- w_entity_id (StopFreezeR_receiving_id x);;
   real_world_bytes <- w_clock_time (StopFreezeR_real_world_time x);;
   put_u8 (StopFreezeR_reason x);;
   put_u8 (StopFreezeR_frozen_behavior x);;
   put_u8 (StopFreezeR_required_reliability_service x);;
   put_u8 0;;
   put_u32 (StopFreezeR_request_id x);;
   wret (originating_id_bytes + receiving_id_bytes + real_world_bytes + 8))%write.
(* common/stop_freeze_r/model.rs:37-39 *) (* body_length *)
Definition len_stop_freeze_r (m : mode) (x : StopFreezeR) : W Z :=
  (wret 28)%write.
(** octets of the body as laid out by the writer (specification) *)
Definition size_stop_freeze_r (x : StopFreezeR) : Z := 28.
Definition fits_stop_freeze_r (x : StopFreezeR) : Prop := True.
(* common/stop_freeze_r/model.rs:46-54 *) (* Interaction *)
Definition orig_stop_freeze_r (x : StopFreezeR) : option EntityId := Some (StopFreezeR_originating_id x).
Definition recv_stop_freeze_r (x : StopFreezeR) : option EntityId := Some (StopFreezeR_receiving_id x).
Lemma RT_stop_freeze_r m x : wf_StopFreezeR x -> fits_stop_freeze_r x -> RT (w_stop_freeze_r m x) p_stop_freeze_r_body x (size_stop_freeze_r x) (size_stop_freeze_r x).
Proof. destruct x; unfold wf_StopFreezeR, fits_stop_freeze_r, size_stop_freeze_r, w_stop_freeze_r, p_stop_freeze_r_body; cbn [StopFreezeR_originating_id StopFreezeR_receiving_id StopFreezeR_real_world_time StopFreezeR_reason StopFreezeR_frozen_behavior StopFreezeR_required_reliability_service StopFreezeR_request_id]; intros; wfd. pdu_rt. Qed.
Lemma Ext_stop_freeze_r : Ext p_stop_freeze_r_body. Proof. unfold p_stop_freeze_r_body; ext. Qed.
Lemma Safe_stop_freeze_r : Safe p_stop_freeze_r_body. Proof. unfold p_stop_freeze_r_body; safe. Qed.
Lemma len_stop_freeze_r_ok m x : wf_StopFreezeR x -> fits_stop_freeze_r x -> len_stop_freeze_r m x = WOk [] (size_stop_freeze_r x).
Proof. destruct x; unfold wf_StopFreezeR, fits_stop_freeze_r, size_stop_freeze_r, len_stop_freeze_r; cbn [StopFreezeR_originating_id StopFreezeR_receiving_id StopFreezeR_real_world_time StopFreezeR_reason StopFreezeR_frozen_behavior StopFreezeR_required_reliability_service StopFreezeR_request_id]; intros; wfd. pdu_len. Qed.
Global Hint Resolve RT_stop_freeze_r : rt. Global Hint Resolve Ext_stop_freeze_r : ext. Global Hint Resolve Safe_stop_freeze_r : safe.

(** ** ActionRequest *)
(* common/action_request/model.rs:14-21 *)
Record ActionRequest := MkActionRequest {
  ActionRequest_originating_id : EntityId;
  ActionRequest_receiving_id : EntityId;
  ActionRequest_request_id : Z;
  ActionRequest_action_id : Z;
  ActionRequest_fixed_datum_records : list FixedDatum;
  ActionRequest_variable_datum_records : list VariableDatum }.
Definition wf_ActionRequest (x : ActionRequest) : Prop :=
  wf_EntityId (ActionRequest_originating_id x) /\
  wf_EntityId (ActionRequest_receiving_id x) /\
  u32 (ActionRequest_request_id x) /\
  u32 (ActionRequest_action_id x) /\
  Forall wf_FixedDatum (ActionRequest_fixed_datum_records x) /\
  Forall wf_VariableDatum (ActionRequest_variable_datum_records x).
(* common/action_request/parser.rs:8-26 *) (* action_request_body *)
Definition p_action_request_body : bparser ActionRequest :=
  (originating_id <- p_entity_id;;
   receiving_id <- p_entity_id;;
   request_id <- be_u32;;
   action_id <- be_u32;;
   datums <- p_datum_specification;;
   pret (MkActionRequest originating_id receiving_id request_id action_id (ds_fixed datums) (ds_variable datums)))%parse.
(* common/action_request/writer.rs:5-20 *)
Definition w_action_request (m : mode) (x : ActionRequest) : W Z :=
  (originating_bytes <- w_entity_id (ActionRequest_originating_id x);;
   receiving_bytes <- w_entity_id (ActionRequest_receiving_id x);;
   put_u32 (ActionRequest_request_id x);;
   put_u32 (ActionRequest_action_id x);;
   put_u32 (zlen (ActionRequest_fixed_datum_records x) mod 4294967296);;
   put_u32 (zlen (ActionRequest_variable_datum_records x) mod 4294967296);;
   fixed_datum_bytes <- wmap_sum m w_fixed_datum (ActionRequest_fixed_datum_records x);;
   variable_datum_bytes <- wmap_sum m (w_variable_datum m) (ActionRequest_variable_datum_records x);;
   r1 <- add16 m (originating_bytes + receiving_bytes + 16) fixed_datum_bytes;;
   add16 m r1 variable_datum_bytes)%write.
(* common/action_request/model.rs:38-47 *) (* body_length *)
Definition len_action_request (m : mode) (x : ActionRequest) : W Z :=
  (a0 <- mul16 m 8 (zlen (ActionRequest_fixed_datum_records x) mod 65536);;
   b0 <- add16 m 28 a0;;
   a1 <- len_variable_datums m (ActionRequest_variable_datum_records x);;
   add16 m b0 a1)%write.
(** octets of the body as laid out by the writer (specification) *)
Definition size_action_request (x : ActionRequest) : Z := 28 + 8 * zlen (ActionRequest_fixed_datum_records x) + vds_size (ActionRequest_variable_datum_records x).
Definition fits_action_request (x : ActionRequest) : Prop := size_action_request x < 65524 /\ Forall vd_ok (ActionRequest_variable_datum_records x).
(* common/action_request/model.rs:54-62 *) (* Interaction *)
Definition orig_action_request (x : ActionRequest) : option EntityId := Some (ActionRequest_originating_id x).
Definition recv_action_request (x : ActionRequest) : option EntityId := Some (ActionRequest_receiving_id x).
Lemma RT_action_request m x : wf_ActionRequest x -> fits_action_request x -> RT (w_action_request m x) p_action_request_body x (size_action_request x) (size_action_request x).
Proof. destruct x; unfold wf_ActionRequest, fits_action_request, size_action_request, w_action_request, p_action_request_body; cbn [ActionRequest_originating_id ActionRequest_receiving_id ActionRequest_request_id ActionRequest_action_id ActionRequest_fixed_datum_records ActionRequest_variable_datum_records]; intros; wfd. pdu_rt. Qed.
Lemma Ext_action_request : Ext p_action_request_body. Proof. unfold p_action_request_body; ext. Qed.
Lemma Safe_action_request : Safe p_action_request_body. Proof. unfold p_action_request_body; safe. Qed.
Lemma len_action_request_ok m x : wf_ActionRequest x -> fits_action_request x -> len_action_request m x = WOk [] (size_action_request x).
Proof. destruct x; unfold wf_ActionRequest, fits_action_request, size_action_request, len_action_request; cbn [ActionRequest_originating_id ActionRequest_receiving_id ActionRequest_request_id ActionRequest_action_id ActionRequest_fixed_datum_records ActionRequest_variable_datum_records]; intros; wfd. pdu_len. Qed.
Global Hint Resolve RT_action_request : rt. Global Hint Resolve Ext_action_request : ext. Global Hint Resolve Safe_action_request : safe.

(** ** ActionRequestR *)
(* common/action_request_r/model.rs:14-22 *)
Record ActionRequestR := MkActionRequestR {
  ActionRequestR_originating_id : EntityId;
  ActionRequestR_receiving_id : EntityId;
  ActionRequestR_required_reliability_service : Z;
  ActionRequestR_request_id : Z;
  ActionRequestR_action_id : Z;
  ActionRequestR_fixed_datum_records : list FixedDatum;
  ActionRequestR_variable_datum_records : list VariableDatum }.
Definition wf_ActionRequestR (x : ActionRequestR) : Prop :=
  wf_EntityId (ActionRequestR_originating_id x) /\
  wf_EntityId (ActionRequestR_receiving_id x) /\
  u8 (ActionRequestR_required_reliability_service x) /\
  u32 (ActionRequestR_request_id x) /\
  u32 (ActionRequestR_action_id x) /\
  Forall wf_FixedDatum (ActionRequestR_fixed_datum_records x) /\
  Forall wf_VariableDatum (ActionRequestR_variable_datum_records x).
(* common/action_request_r/parser.rs:8-32 *) (* action_request_r_body *)
Definition p_action_request_r_body : bparser ActionRequestR :=
  (originating_id <- p_entity_id;;
   receiving_id <- p_entity_id;;
   required_reliability_service <- be_u8;;
   _ <- be_u8;;
   _ <- be_u16;;
   request_id <- be_u32;;
   action_id <- be_u32;;
   _ <- be_u32;;
   datums <- p_datum_specification;;
   pret (MkActionRequestR originating_id receiving_id required_reliability_service request_id action_id (ds_fixed datums) (ds_variable datums)))%parse.
(* common/action_request_r/writer.rs:5-24 *)
Definition w_action_request_r (m : mode) (x : ActionRequestR) : W Z :=
  (originating_bytes <- w_entity_id (ActionRequestR_originating_id x);;
   receiving_bytes <- w_entity_id (ActionRequestR_receiving_id x);;
   put_u8 (ActionRequestR_required_reliability_service x);;
   put_u8 0;;
   put_u16 0;;
   put_u32 (ActionRequestR_request_id x);;
   put_u32 (ActionRequestR_action_id x);;
   put_u32 0;;
   put_u32 (zlen (ActionRequestR_fixed_datum_records x) mod 4294967296);;
   put_u32 (zlen (ActionRequestR_variable_datum_records x) mod 4294967296);;
   fixed_datum_bytes <- wmap_sum m w_fixed_datum (ActionRequestR_fixed_datum_records x);;
   variable_datum_bytes <- wmap_sum m (w_variable_datum m) (ActionRequestR_variable_datum_records x);;
   r1 <- add16 m (originating_bytes + receiving_bytes + 24) fixed_datum_bytes;;
   add16 m r1 variable_datum_bytes)%write.
(* common/action_request_r/model.rs:39-48 *) (* body_length *)
Definition len_action_request_r (m : mode) (x : ActionRequestR) : W Z :=
  (a0 <- mul16 m 8 (zlen (ActionRequestR_fixed_datum_records x) mod 65536);;
   b0 <- add16 m 36 a0;;
   a1 <- len_variable_datums m (ActionRequestR_variable_datum_records x);;
   add16 m b0 a1)%write.
(** octets of the body as laid out by the writer (specification) *)
Definition size_action_request_r (x : ActionRequestR) : Z := 36 + 8 * zlen (ActionRequestR_fixed_datum_records x) + vds_size (ActionRequestR_variable_datum_records x).
Definition fits_action_request_r (x : ActionRequestR) : Prop := size_action_request_r x < 65524 /\ Forall vd_ok (ActionRequestR_variable_datum_records x).
(* common/action_request_r/model.rs:55-63 *) (* Interaction *)
Definition orig_action_request_r (x : ActionRequestR) : option EntityId := Some (ActionRequestR_originating_id x).
Definition recv_action_request_r (x : ActionRequestR) : option EntityId := Some (ActionRequestR_receiving_id x).
Lemma RT_action_request_r m x : wf_ActionRequestR x -> fits_action_request_r x -> RT (w_action_request_r m x) p_action_request_r_body x (size_action_request_r x) (size_action_request_r x).
Proof. destruct x; unfold wf_ActionRequestR, fits_action_request_r, size_action_request_r, w_action_request_r, p_action_request_r_body; cbn [ActionRequestR_originating_id ActionRequestR_receiving_id ActionRequestR_required_reliability_service ActionRequestR_request_id ActionRequestR_action_id ActionRequestR_fixed_datum_records ActionRequestR_variable_datum_records]; intros; wfd. pdu_rt. Qed.
Lemma Ext_action_request_r : Ext p_action_request_r_body. Proof. unfold p_action_request_r_body; ext. Qed.
Lemma Safe_action_request_r : Safe p_action_request_r_body. Proof. unfold p_action_request_r_body; safe. Qed.
Lemma len_action_request_r_ok m x : wf_ActionRequestR x -> fits_action_request_r x -> len_action_request_r m x = WOk [] (size_action_request_r x).
Proof. destruct x; unfold wf_ActionRequestR, fits_action_request_r, size_action_request_r, len_action_request_r; cbn [ActionRequestR_originating_id ActionRequestR_receiving_id ActionRequestR_required_reliability_service ActionRequestR_request_id ActionRequestR_action_id ActionRequestR_fixed_datum_records ActionRequestR_variable_datum_records]; intros; wfd. pdu_len. Qed.
Global Hint Resolve RT_action_request_r : rt. Global Hint Resolve Ext_action_request_r : ext. Global Hint Resolve Safe_action_request_r : safe.

(** ** ActionResponse *)
(* common/action_response/model.rs:11-18 *)
Record ActionResponse := MkActionResponse {
  ActionResponse_originating_id : EntityId;
  ActionResponse_receiving_id : EntityId;
  ActionResponse_request_id : Z;
  ActionResponse_request_status : Z;
  ActionResponse_fixed_datum_records : list FixedDatum;
  ActionResponse_variable_datum_records : list VariableDatum }.
Definition wf_ActionResponse (x : ActionResponse) : Prop :=
  wf_EntityId (ActionResponse_originating_id x) /\
  wf_EntityId (ActionResponse_receiving_id x) /\
  u32 (ActionResponse_request_id x) /\
  u32 (ActionResponse_request_status x) /\
  Forall wf_FixedDatum (ActionResponse_fixed_datum_records x) /\
  Forall wf_VariableDatum (ActionResponse_variable_datum_records x).
(* common/action_response/parser.rs:8-26 *) (* action_response_body *)
Definition p_action_response_body : bparser ActionResponse :=
  (originating_id <- p_entity_id;;
   receiving_id <- p_entity_id;;
   request_id <- be_u32;;
   request_status <- be_u32;;
   datums <- p_datum_specification;;
   pret (MkActionResponse originating_id receiving_id request_id request_status (ds_fixed datums) (ds_variable datums)))%parse.
(* common/action_response/writer.rs:5-20 *)
Definition w_action_response (m : mode) (x : ActionResponse) : W Z :=
  (originating_bytes <- w_entity_id (ActionResponse_originating_id x);;
   receiving_bytes <- w_entity_id (ActionResponse_receiving_id x);;
   put_u32 (ActionResponse_request_id x);;
   put_u32 (ActionResponse_request_status x);;
   put_u32 (zlen (ActionResponse_fixed_datum_records x) mod 4294967296);;
   put_u32 (zlen (ActionResponse_variable_datum_records x) mod 4294967296);;
   fixed_datum_bytes <- wmap_sum m w_fixed_datum (ActionResponse_fixed_datum_records x);;
   variable_datum_bytes <- wmap_sum m (w_variable_datum m) (ActionResponse_variable_datum_records x);;
   r1 <- add16 m (originating_bytes + receiving_bytes + 16) fixed_datum_bytes;;
   add16 m r1 variable_datum_bytes)%write.
(* common/action_response/model.rs:35-44 *) (* body_length *)
Definition len_action_response (m : mode) (x : ActionResponse) : W Z :=
  (a0 <- mul16 m 8 (zlen (ActionResponse_fixed_datum_records x) mod 65536);;
   b0 <- add16 m 28 a0;;
   a1 <- len_variable_datums m (ActionResponse_variable_datum_records x);;
   add16 m b0 a1)%write.
(** octets of the body as laid out by the writer (specification) *)
Definition size_action_response (x : ActionResponse) : Z := 28 + 8 * zlen (ActionResponse_fixed_datum_records x) + vds_size (ActionResponse_variable_datum_records x).
Definition fits_action_response (x : ActionResponse) : Prop := size_action_response x < 65524 /\ Forall vd_ok (ActionResponse_variable_datum_records x).
(* common/action_response/model.rs:51-59 *) (* Interaction *)
Definition orig_action_response (x : ActionResponse) : option EntityId := Some (ActionResponse_originating_id x).
Definition recv_action_response (x : ActionResponse) : option EntityId := Some (ActionResponse_receiving_id x).
Lemma RT_action_response m x : wf_ActionResponse x -> fits_action_response x -> RT (w_action_response m x) p_action_response_body x (size_action_response x) (size_action_response x).
Proof. destruct x; unfold wf_ActionResponse, fits_action_response, size_action_response, w_action_response, p_action_response_body; cbn [ActionResponse_originating_id ActionResponse_receiving_id ActionResponse_request_id ActionResponse_request_status ActionResponse_fixed_datum_records ActionResponse_variable_datum_records]; intros; wfd. pdu_rt. Qed.
Lemma Ext_action_response : Ext p_action_response_body. Proof. unfold p_action_response_body; ext. Qed.
Lemma Safe_action_response : Safe p_action_response_body. Proof. unfold p_action_response_body; safe. Qed.
Lemma len_action_response_ok m x : wf_ActionResponse x -> fits_action_response x -> len_action_response m x = WOk [] (size_action_response x).
Proof. destruct x; unfold wf_ActionResponse, fits_action_response, size_action_response, len_action_response; cbn [ActionResponse_originating_id ActionResponse_receiving_id ActionResponse_request_id ActionResponse_request_status ActionResponse_fixed_datum_records ActionResponse_variable_datum_records]; intros; wfd. pdu_len. Qed.
Global Hint Resolve RT_action_response : rt. Global Hint Resolve Ext_action_response : ext. Global Hint Resolve Safe_action_response : safe.

(** ** ActionResponseR *)
(* common/action_response_r/model.rs:14-21 *)
Record ActionResponseR := MkActionResponseR {
  ActionResponseR_originating_id : EntityId;
  ActionResponseR_receiving_id : EntityId;
  ActionResponseR_request_id : Z;
  ActionResponseR_request_status : Z;
  ActionResponseR_fixed_datum_records : list FixedDatum;
  ActionResponseR_variable_datum_records : list VariableDatum }.
Definition wf_ActionResponseR (x : ActionResponseR) : Prop :=
  wf_EntityId (ActionResponseR_originating_id x) /\
  wf_EntityId (ActionResponseR_receiving_id x) /\
  u32 (ActionResponseR_request_id x) /\
  u32 (ActionResponseR_request_status x) /\
  Forall wf_FixedDatum (ActionResponseR_fixed_datum_records x) /\
  Forall wf_VariableDatum (ActionResponseR_variable_datum_records x).
(* common/action_response_r/parser.rs:8-26 *) (* action_response_r_body *)
Definition p_action_response_r_body : bparser ActionResponse :=
  (originating_id <- p_entity_id;;
   receiving_id <- p_entity_id;;
   request_id <- be_u32;;
   request_status <- be_u32;;
   datums <- p_datum_specification;;
   pret (MkActionResponse originating_id receiving_id request_id request_status (ds_fixed datums) (ds_variable datums)))%parse.
(* common/action_response_r/writer.rs:5-20 *)
Definition w_action_response_r (m : mode) (x : ActionResponseR) : W Z :=
  (originating_bytes <- w_entity_id (ActionResponseR_originating_id x);;
   receiving_bytes <- w_entity_id (ActionResponseR_receiving_id x);;
   put_u32 (ActionResponseR_request_id x);;
   put_u32 (ActionResponseR_request_status x);;
   put_u32 (zlen (ActionResponseR_fixed_datum_records x) mod 4294967296);;
   put_u32 (zlen (ActionResponseR_variable_datum_records x) mod 4294967296);;
   fixed_datum_bytes <- wmap_sum m w_fixed_datum (ActionResponseR_fixed_datum_records x);;
   variable_datum_bytes <- wmap_sum m (w_variable_datum m) (ActionResponseR_variable_datum_records x);;
   r1 <- add16 m (originating_bytes + receiving_bytes + 16) fixed_datum_bytes;;
   add16 m r1 variable_datum_bytes)%write.
(* common/action_response_r/model.rs:38-47 *) (* body_length *)
Definition len_action_response_r (m : mode) (x : ActionResponseR) : W Z :=
  (a0 <- mul16 m 8 (zlen (ActionResponseR_fixed_datum_records x) mod 65536);;
   b0 <- add16 m 28 a0;;
   a1 <- len_variable_datums m (ActionResponseR_variable_datum_records x);;
   add16 m b0 a1)%write.
(** octets of the body as laid out by the writer (specification) *)
Definition size_action_response_r (x : ActionResponseR) : Z := 28 + 8 * zlen (ActionResponseR_fixed_datum_records x) + vds_size (ActionResponseR_variable_datum_records x).
Definition fits_action_response_r (x : ActionResponseR) : Prop := size_action_response_r x < 65524 /\ Forall vd_ok (ActionResponseR_variable_datum_records x).
(* common/action_response_r/model.rs:54-62 *) (* Interaction *)
Definition orig_action_response_r (x : ActionResponseR) : option EntityId := Some (ActionResponseR_originating_id x).
Definition recv_action_response_r (x : ActionResponseR) : option EntityId := Some (ActionResponseR_receiving_id x).
Lemma RT_action_response_r m x : wf_ActionResponseR x -> fits_action_response_r x -> RT (w_action_response_r m x) p_action_response_r_body (MkActionResponse (ActionResponseR_originating_id x) (ActionResponseR_receiving_id x) (ActionResponseR_request_id x) (ActionResponseR_request_status x) (ActionResponseR_fixed_datum_records x) (ActionResponseR_variable_datum_records x)) (size_action_response_r x) (size_action_response_r x).
Proof. destruct x; unfold wf_ActionResponseR, fits_action_response_r, size_action_response_r, w_action_response_r, p_action_response_r_body; cbn [ActionResponseR_originating_id ActionResponseR_receiving_id ActionResponseR_request_id ActionResponseR_request_status ActionResponseR_fixed_datum_records ActionResponseR_variable_datum_records]; intros; wfd. pdu_rt. Qed.
Lemma Ext_action_response_r : Ext p_action_response_r_body. Proof. unfold p_action_response_r_body; ext. Qed.
Lemma Safe_action_response_r : Safe p_action_response_r_body. Proof. unfold p_action_response_r_body; safe. Qed.
Lemma len_action_response_r_ok m x : wf_ActionResponseR x -> fits_action_response_r x -> len_action_response_r m x = WOk [] (size_action_response_r x).
Proof. destruct x; unfold wf_ActionResponseR, fits_action_response_r, size_action_response_r, len_action_response_r; cbn [ActionResponseR_originating_id ActionResponseR_receiving_id ActionResponseR_request_id ActionResponseR_request_status ActionResponseR_fixed_datum_records ActionResponseR_variable_datum_records]; intros; wfd. pdu_len. Qed.
Global Hint Resolve RT_action_response_r : rt. Global Hint Resolve Ext_action_response_r : ext. Global Hint Resolve Safe_action_response_r : safe.

(** ** Comment *)
(* common/comment/model.rs:13-17 *)
Record Comment := MkComment {
  Comment_originating_id : EntityId;
  Comment_receiving_id : EntityId;
  Comment_variable_datum_records : list VariableDatum }.
Definition wf_Comment (x : Comment) : Prop :=
  wf_EntityId (Comment_originating_id x) /\
  wf_EntityId (Comment_receiving_id x) /\
  Forall wf_VariableDatum (Comment_variable_datum_records x).
(* common/comment/parser.rs:6-18 *) (* comment_body *)
Definition p_comment_body : bparser Comment :=
  (originating_id <- p_entity_id;;
   receiving_id <- p_entity_id;;
   datums <- p_datum_specification;;
   pret (MkComment originating_id receiving_id (ds_variable datums)))%parse.
(* common/comment/writer.rs:5-16 *)
Definition w_comment (m : mode) (x : Comment) : W Z :=
  (originating_bytes <- w_entity_id (Comment_originating_id x);;
   receiving_bytes <- w_entity_id (Comment_receiving_id x);;
   put_u32 0;;
   put_u32 (zlen (Comment_variable_datum_records x) mod 4294967296);;
   variable_datum_bytes <- wmap_sum m (w_variable_datum m) (Comment_variable_datum_records x);;
   add16 m (originating_bytes + receiving_bytes + 8) variable_datum_bytes)%write.
(* common/comment/model.rs:34-42 *) (* body_length *)
Definition len_comment (m : mode) (x : Comment) : W Z :=
  (a0 <- len_variable_datums m (Comment_variable_datum_records x);;
   add16 m 20 a0)%write.
(** octets of the body as laid out by the writer (specification) *)
Definition size_comment (x : Comment) : Z := 20 + vds_size (Comment_variable_datum_records x).
Definition fits_comment (x : Comment) : Prop := size_comment x < 65524 /\ Forall vd_ok (Comment_variable_datum_records x).
(* common/comment/model.rs:49-57 *) (* Interaction *)
Definition orig_comment (x : Comment) : option EntityId := Some (Comment_originating_id x).
Definition recv_comment (x : Comment) : option EntityId := Some (Comment_receiving_id x).
Lemma RT_comment m x : wf_Comment x -> fits_comment x -> RT (w_comment m x) p_comment_body x (size_comment x) (size_comment x).
Proof. destruct x; unfold wf_Comment, fits_comment, size_comment, w_comment, p_comment_body; cbn [Comment_originating_id Comment_receiving_id Comment_variable_datum_records]; intros; wfd. pdu_rt. Qed.
Lemma Ext_comment : Ext p_comment_body. Proof. unfold p_comment_body; ext. Qed.
Lemma Safe_comment : Safe p_comment_body. Proof. unfold p_comment_body; safe. Qed.
Lemma len_comment_ok m x : wf_Comment x -> fits_comment x -> len_comment m x = WOk [] (size_comment x).
Proof. destruct x; unfold wf_Comment, fits_comment, size_comment, len_comment; cbn [Comment_originating_id Comment_receiving_id Comment_variable_datum_records]; intros; wfd. pdu_len. Qed.
Global Hint Resolve RT_comment : rt. Global Hint Resolve Ext_comment : ext. Global Hint Resolve Safe_comment : safe.

(** ** CommentR *)
(* common/comment_r/model.rs:13-17 *)
Record CommentR := MkCommentR {
  CommentR_originating_id : EntityId;
  CommentR_receiving_id : EntityId;
  CommentR_variable_datum_records : list VariableDatum }.
Definition wf_CommentR (x : CommentR) : Prop :=
  wf_EntityId (CommentR_originating_id x) /\
  wf_EntityId (CommentR_receiving_id x) /\
  Forall wf_VariableDatum (CommentR_variable_datum_records x).
(* common/comment_r/parser.rs:6-18 *) (* comment_r_body *)
Definition p_comment_r_body : bparser CommentR :=
  (originating_id <- p_entity_id;;
   receiving_id <- p_entity_id;;
   datums <- p_datum_specification;;
   pret (MkCommentR originating_id receiving_id (ds_variable datums)))%parse.
(* common/comment_r/writer.rs:5-16 *)
Definition w_comment_r (m : mode) (x : CommentR) : W Z :=
  (originating_bytes <- w_entity_id (CommentR_originating_id x);;
   receiving_bytes <- w_entity_id (CommentR_receiving_id x);;
   put_u32 0;;
   put_u32 (zlen (CommentR_variable_datum_records x) mod 4294967296);;
   variable_datum_bytes <- wmap_sum m (w_variable_datum m) (CommentR_variable_datum_records x);;
   add16 m (originating_bytes + receiving_bytes + 8) variable_datum_bytes)%write.
(* common/comment_r/model.rs:34-42 *) (* body_length *)
Definition len_comment_r (m : mode) (x : CommentR) : W Z :=
  (a0 <- len_variable_datums m (CommentR_variable_datum_records x);;
   add16 m 20 a0)%write.
(** octets of the body as laid out by the writer (specification) *)
Definition size_comment_r (x : CommentR) : Z := 20 + vds_size (CommentR_variable_datum_records x).
Definition fits_comment_r (x : CommentR) : Prop := size_comment_r x < 65524 /\ Forall vd_ok (CommentR_variable_datum_records x).
(* common/comment_r/model.rs:49-57 *) (* Interaction *)
Definition orig_comment_r (x : CommentR) : option EntityId := Some (CommentR_originating_id x).
Definition recv_comment_r (x : CommentR) : option EntityId := Some (CommentR_receiving_id x).
Lemma RT_comment_r m x : wf_CommentR x -> fits_comment_r x -> RT (w_comment_r m x) p_comment_r_body x (size_comment_r x) (size_comment_r x).
Proof. destruct x; unfold wf_CommentR, fits_comment_r, size_comment_r, w_comment_r, p_comment_r_body; cbn [CommentR_originating_id CommentR_receiving_id CommentR_variable_datum_records]; intros; wfd. pdu_rt. Qed.
Lemma Ext_comment_r : Ext p_comment_r_body. Proof. unfold p_comment_r_body; ext. Qed.
Lemma Safe_comment_r : Safe p_comment_r_body. Proof. unfold p_comment_r_body; safe. Qed.
Lemma len_comment_r_ok m x : wf_CommentR x -> fits_comment_r x -> len_comment_r m x = WOk [] (size_comment_r x).
Proof. destruct x; unfold wf_CommentR, fits_comment_r, size_comment_r, len_comment_r; cbn [CommentR_originating_id CommentR_receiving_id CommentR_variable_datum_records]; intros; wfd. pdu_len. Qed.
Global Hint Resolve RT_comment_r : rt. Global Hint Resolve Ext_comment_r : ext. Global Hint Resolve Safe_comment_r : safe.

(** ** Data *)
(* common/data/model.rs:10-16 *)
Record Data := MkData {
  Data_originating_id : EntityId;
  Data_receiving_id : EntityId;
  Data_request_id : Z;
  Data_fixed_datum_records : list FixedDatum;
  Data_variable_datum_records : list VariableDatum }.
Definition wf_Data (x : Data) : Prop :=
  wf_EntityId (Data_originating_id x) /\
  wf_EntityId (Data_receiving_id x) /\
  u32 (Data_request_id x) /\
  Forall wf_FixedDatum (Data_fixed_datum_records x) /\
  Forall wf_VariableDatum (Data_variable_datum_records x).
(* common/data/parser.rs:7-23 *) (* data_body *)
Definition p_data_body : bparser Data :=
  (originating_id <- p_entity_id;;
   receiving_id <- p_entity_id;;
   request_id <- be_u32;;
   _ <- be_u32;;
   datums <- p_datum_specification;;
   pret (MkData originating_id receiving_id request_id (ds_fixed datums) (ds_variable datums)))%parse.
(* common/data/writer.rs:5-20 *)
Definition w_data (m : mode) (x : Data) : W Z :=
  (originating_bytes <- w_entity_id (Data_originating_id x);;
   receiving_bytes <- w_entity_id (Data_receiving_id x);;
   put_u32 (Data_request_id x);;
   put_u32 0;;
   put_u32 (zlen (Data_fixed_datum_records x) mod 4294967296);;
   put_u32 (zlen (Data_variable_datum_records x) mod 4294967296);;
   fixed_datum_bytes <- wmap_sum m w_fixed_datum (Data_fixed_datum_records x);;
   variable_datum_bytes <- wmap_sum m (w_variable_datum m) (Data_variable_datum_records x);;
   r1 <- add16 m (originating_bytes + receiving_bytes + 16) fixed_datum_bytes;;
   add16 m r1 variable_datum_bytes)%write.
(* common/data/model.rs:33-42 *) (* body_length *)
Definition len_data (m : mode) (x : Data) : W Z :=
  (a0 <- mul16 m 8 (zlen (Data_fixed_datum_records x) mod 65536);;
   b0 <- add16 m 28 a0;;
   a1 <- len_variable_datums m (Data_variable_datum_records x);;
   add16 m b0 a1)%write.
(** octets of the body as laid out by the writer (specification) *)
Definition size_data (x : Data) : Z := 28 + 8 * zlen (Data_fixed_datum_records x) + vds_size (Data_variable_datum_records x).
Definition fits_data (x : Data) : Prop := size_data x < 65524 /\ Forall vd_ok (Data_variable_datum_records x).
(* common/data/model.rs:49-57 *) (* Interaction *)
Definition orig_data (x : Data) : option EntityId := Some (Data_originating_id x).
Definition recv_data (x : Data) : option EntityId := Some (Data_receiving_id x).
Lemma RT_data m x : wf_Data x -> fits_data x -> RT (w_data m x) p_data_body x (size_data x) (size_data x).
Proof. destruct x; unfold wf_Data, fits_data, size_data, w_data, p_data_body; cbn [Data_originating_id Data_receiving_id Data_request_id Data_fixed_datum_records Data_variable_datum_records]; intros; wfd. pdu_rt. Qed.
Lemma Ext_data : Ext p_data_body. Proof. unfold p_data_body; ext. Qed.
Lemma Safe_data : Safe p_data_body. Proof. unfold p_data_body; safe. Qed.
Lemma len_data_ok m x : wf_Data x -> fits_data x -> len_data m x = WOk [] (size_data x).
Proof. destruct x; unfold wf_Data, fits_data, size_data, len_data; cbn [Data_originating_id Data_receiving_id Data_request_id Data_fixed_datum_records Data_variable_datum_records]; intros; wfd. pdu_len. Qed.
Global Hint Resolve RT_data : rt. Global Hint Resolve Ext_data : ext. Global Hint Resolve Safe_data : safe.

(** ** DataR *)
(* common/data_r/model.rs:13-20 *)
Record DataR := MkDataR {
  DataR_originating_id : EntityId;
  DataR_receiving_id : EntityId;
  DataR_request_id : Z;
  DataR_required_reliability_service : Z;
  DataR_fixed_datum_records : list FixedDatum;
  DataR_variable_datum_records : list VariableDatum }.
Definition wf_DataR (x : DataR) : Prop :=
  wf_EntityId (DataR_originating_id x) /\
  wf_EntityId (DataR_receiving_id x) /\
  u32 (DataR_request_id x) /\
  u8 (DataR_required_reliability_service x) /\
  Forall wf_FixedDatum (DataR_fixed_datum_records x) /\
  Forall wf_VariableDatum (DataR_variable_datum_records x).
(* common/data_r/parser.rs:8-28 *) (* data_r_body *)
Definition p_data_r_body : bparser DataR :=
  (originating_id <- p_entity_id;;
   receiving_id <- p_entity_id;;
   request_id <- be_u32;;
   required_reliability_service <- be_u8;;
   _ <- be_u8;;
   _ <- be_u16;;
   datums <- p_datum_specification;;
   pret (MkDataR originating_id receiving_id request_id required_reliability_service (ds_fixed datums) (ds_variable datums)))%parse.
(* common/data_r/writer.rs:5-22 *)
Definition w_data_r (m : mode) (x : DataR) : W Z :=
  (originating_bytes <- w_entity_id (DataR_originating_id x);;
   receiving_bytes <- w_entity_id (DataR_receiving_id x);;
   put_u32 (DataR_request_id x);;
   put_u8 (DataR_required_reliability_service x);;
   put_u8 0;;
   put_u16 0;;
   put_u32 (zlen (DataR_fixed_datum_records x) mod 4294967296);;
   put_u32 (zlen (DataR_variable_datum_records x) mod 4294967296);;
   fixed_datum_bytes <- wmap_sum m w_fixed_datum (DataR_fixed_datum_records x);;
   variable_datum_bytes <- wmap_sum m (w_variable_datum m) (DataR_variable_datum_records x);;
   r1 <- add16 m (originating_bytes + receiving_bytes + 16) fixed_datum_bytes;;
   add16 m r1 variable_datum_bytes)%write.
(* common/data_r/model.rs:37-46 *) (* body_length *)
Definition len_data_r (m : mode) (x : DataR) : W Z :=
  (a0 <- mul16 m 8 (zlen (DataR_fixed_datum_records x) mod 65536);;
   b0 <- add16 m 28 a0;;
   a1 <- len_variable_datums m (DataR_variable_datum_records x);;
   add16 m b0 a1)%write.
(** octets of the body as laid out by the writer (specification) *)
Definition size_data_r (x : DataR) : Z := 28 + 8 * zlen (DataR_fixed_datum_records x) + vds_size (DataR_variable_datum_records x).
Definition fits_data_r (x : DataR) : Prop := size_data_r x < 65524 /\ Forall vd_ok (DataR_variable_datum_records x).
(* common/data_r/model.rs:53-61 *) (* Interaction *)
Definition orig_data_r (x : DataR) : option EntityId := Some (DataR_originating_id x).
Definition recv_data_r (x : DataR) : option EntityId := Some (DataR_receiving_id x).
Lemma RT_data_r m x : wf_DataR x -> fits_data_r x -> RT (w_data_r m x) p_data_r_body x (size_data_r x) (size_data_r x).
Proof. destruct x; unfold wf_DataR, fits_data_r, size_data_r, w_data_r, p_data_r_body; cbn [DataR_originating_id DataR_receiving_id DataR_request_id DataR_required_reliability_service DataR_fixed_datum_records DataR_variable_datum_records]; intros; wfd. pdu_rt. Qed.
Lemma Ext_data_r : Ext p_data_r_body. Proof. unfold p_data_r_body; ext. Qed.
Lemma Safe_data_r : Safe p_data_r_body. Proof. unfold p_data_r_body; safe. Qed.
Lemma len_data_r_ok m x : wf_DataR x -> fits_data_r x -> len_data_r m x = WOk [] (size_data_r x).
Proof. destruct x; unfold wf_DataR, fits_data_r, size_data_r, len_data_r; cbn [DataR_originating_id DataR_receiving_id DataR_request_id DataR_required_reliability_service DataR_fixed_datum_records DataR_variable_datum_records]; intros; wfd. pdu_len. Qed.
Global Hint Resolve RT_data_r : rt. Global Hint Resolve Ext_data_r : ext. Global Hint Resolve Safe_data_r : safe.

(** ** SetData *)
(* common/set_data/model.rs:13-19 *)
Record SetData := MkSetData {
  SetData_originating_id : EntityId;
  SetData_receiving_id : EntityId;
  SetData_request_id : Z;
  SetData_fixed_datum_records : list FixedDatum;
  SetData_variable_datum_records : list VariableDatum }.
Definition wf_SetData (x : SetData) : Prop :=
  wf_EntityId (SetData_originating_id x) /\
  wf_EntityId (SetData_receiving_id x) /\
  u32 (SetData_request_id x) /\
  Forall wf_FixedDatum (SetData_fixed_datum_records x) /\
  Forall wf_VariableDatum (SetData_variable_datum_records x).
(* common/set_data/parser.rs:7-23 *) (* set_data_body *)
Definition p_set_data_body : bparser SetData :=
  (originating_id <- p_entity_id;;
   receiving_id <- p_entity_id;;
   request_id <- be_u32;;
   _ <- be_u32;;
   datums <- p_datum_specification;;
   pret (MkSetData originating_id receiving_id request_id (ds_fixed datums) (ds_variable datums)))%parse.
(* common/set_data/writer.rs:5-20 *)
Definition w_set_data (m : mode) (x : SetData) : W Z :=
  (originating_bytes <- w_entity_id (SetData_originating_id x);;
   receiving_bytes <- w_entity_id (SetData_receiving_id x);;
   put_u32 (SetData_request_id x);;
   put_u32 0;;
   put_u32 (zlen (SetData_fixed_datum_records x) mod 4294967296);;
   put_u32 (zlen (SetData_variable_datum_records x) mod 4294967296);;
   fixed_datum_bytes <- wmap_sum m w_fixed_datum (SetData_fixed_datum_records x);;
   variable_datum_bytes <- wmap_sum m (w_variable_datum m) (SetData_variable_datum_records x);;
   r1 <- add16 m (originating_bytes + receiving_bytes + 16) fixed_datum_bytes;;
   add16 m r1 variable_datum_bytes)%write.
(* common/set_data/model.rs:36-45 *) (* body_length *)
Definition len_set_data (m : mode) (x : SetData) : W Z :=
  (a0 <- mul16 m 8 (zlen (SetData_fixed_datum_records x) mod 65536);;
   b0 <- add16 m 28 a0;;
   a1 <- len_variable_datums m (SetData_variable_datum_records x);;
   add16 m b0 a1)%write.
(** octets of the body as laid out by the writer (specification) *)
Definition size_set_data (x : SetData) : Z := 28 + 8 * zlen (SetData_fixed_datum_records x) + vds_size (SetData_variable_datum_records x).
Definition fits_set_data (x : SetData) : Prop := size_set_data x < 65524 /\ Forall vd_ok (SetData_variable_datum_records x).
(* common/set_data/model.rs:52-60 *) (* Interaction *)
Definition orig_set_data (x : SetData) : option EntityId := Some (SetData_originating_id x).
Definition recv_set_data (x : SetData) : option EntityId := Some (SetData_receiving_id x).
Lemma RT_set_data m x : wf_SetData x -> fits_set_data x -> RT (w_set_data m x) p_set_data_body x (size_set_data x) (size_set_data x).
Proof. destruct x; unfold wf_SetData, fits_set_data, size_set_data, w_set_data, p_set_data_body; cbn [SetData_originating_id SetData_receiving_id SetData_request_id SetData_fixed_datum_records SetData_variable_datum_records]; intros; wfd. pdu_rt. Qed.
Lemma Ext_set_data : Ext p_set_data_body. Proof. unfold p_set_data_body; ext. Qed.
Lemma Safe_set_data : Safe p_set_data_body. Proof. unfold p_set_data_body; safe. Qed.
Lemma len_set_data_ok m x : wf_SetData x -> fits_set_data x -> len_set_data m x = WOk [] (size_set_data x).
Proof. destruct x; unfold wf_SetData, fits_set_data, size_set_data, len_set_data; cbn [SetData_originating_id SetData_receiving_id SetData_request_id SetData_fixed_datum_records SetData_variable_datum_records]; intros; wfd. pdu_len. Qed.
Global Hint Resolve RT_set_data : rt. Global Hint Resolve Ext_set_data : ext. Global Hint Resolve Safe_set_data : safe.

(** ** SetDataR *)
(* common/set_data_r/model.rs:13-20 *)
Record SetDataR := MkSetDataR {
  SetDataR_originating_id : EntityId;
  SetDataR_receiving_id : EntityId;
  SetDataR_required_reliability_service : Z;
  SetDataR_request_id : Z;
  SetDataR_fixed_datum_records : list FixedDatum;
  SetDataR_variable_datum_records : list VariableDatum }.
Definition wf_SetDataR (x : SetDataR) : Prop :=
  wf_EntityId (SetDataR_originating_id x) /\
  wf_EntityId (SetDataR_receiving_id x) /\
  u8 (SetDataR_required_reliability_service x) /\
  u32 (SetDataR_request_id x) /\
  Forall wf_FixedDatum (SetDataR_fixed_datum_records x) /\
  Forall wf_VariableDatum (SetDataR_variable_datum_records x).
(* common/set_data_r/parser.rs:8-28 *) (* set_data_r_body *)
Definition p_set_data_r_body : bparser SetDataR :=
  (originating_id <- p_entity_id;;
   receiving_id <- p_entity_id;;
   required_reliability_service <- be_u8;;
   _ <- be_u8;;
   _ <- be_u16;;
   request_id <- be_u32;;
   datums <- p_datum_specification;;
   pret (MkSetDataR originating_id receiving_id required_reliability_service request_id (ds_fixed datums) (ds_variable datums)))%parse.
(* common/set_data_r/writer.rs:5-22 *)
Definition w_set_data_r (m : mode) (x : SetDataR) : W Z :=
  (originating_bytes <- w_entity_id (SetDataR_originating_id x);;
   receiving_bytes <- w_entity_id (SetDataR_receiving_id x);;
   put_u8 (SetDataR_required_reliability_service x);;
   put_u8 0;;
   put_u16 0;;
   put_u32 (SetDataR_request_id x);;
   put_u32 (zlen (SetDataR_fixed_datum_records x) mod 4294967296);;
   put_u32 (zlen (SetDataR_variable_datum_records x) mod 4294967296);;
   fixed_datum_bytes <- wmap_sum m w_fixed_datum (SetDataR_fixed_datum_records x);;
   variable_datum_bytes <- wmap_sum m (w_variable_datum m) (SetDataR_variable_datum_records x);;
   r1 <- add16 m (originating_bytes + receiving_bytes + 16) fixed_datum_bytes;;
   add16 m r1 variable_datum_bytes)%write.
(* common/set_data_r/model.rs:37-46 *) (* body_length *)
Definition len_set_data_r (m : mode) (x : SetDataR) : W Z :=
  (a0 <- mul16 m 8 (zlen (SetDataR_fixed_datum_records x) mod 65536);;
   b0 <- add16 m 28 a0;;
   a1 <- len_variable_datums m (SetDataR_variable_datum_records x);;
   add16 m b0 a1)%write.
(** octets of the body as laid out by the writer (specification) *)
Definition size_set_data_r (x : SetDataR) : Z := 28 + 8 * zlen (SetDataR_fixed_datum_records x) + vds_size (SetDataR_variable_datum_records x).
Definition fits_set_data_r (x : SetDataR) : Prop := size_set_data_r x < 65524 /\ Forall vd_ok (SetDataR_variable_datum_records x).
(* common/set_data_r/model.rs:53-61 *) (* Interaction *)
Definition orig_set_data_r (x : SetDataR) : option EntityId := Some (SetDataR_originating_id x).
Definition recv_set_data_r (x : SetDataR) : option EntityId := Some (SetDataR_receiving_id x).
Lemma RT_set_data_r m x : wf_SetDataR x -> fits_set_data_r x -> RT (w_set_data_r m x) p_set_data_r_body x (size_set_data_r x) (size_set_data_r x).
Proof. destruct x; unfold wf_SetDataR, fits_set_data_r, size_set_data_r, w_set_data_r, p_set_data_r_body; cbn [SetDataR_originating_id SetDataR_receiving_id SetDataR_required_reliability_service SetDataR_request_id SetDataR_fixed_datum_records SetDataR_variable_datum_records]; intros; wfd. pdu_rt. Qed.
Lemma Ext_set_data_r : Ext p_set_data_r_body. Proof. unfold p_set_data_r_body; ext. Qed.
Lemma Safe_set_data_r : Safe p_set_data_r_body. Proof. unfold p_set_data_r_body; safe. Qed.
Lemma len_set_data_r_ok m x : wf_SetDataR x -> fits_set_data_r x -> len_set_data_r m x = WOk [] (size_set_data_r x).
Proof. destruct x; unfold wf_SetDataR, fits_set_data_r, size_set_data_r, len_set_data_r; cbn [SetDataR_originating_id SetDataR_receiving_id SetDataR_required_reliability_service SetDataR_request_id SetDataR_fixed_datum_records SetDataR_variable_datum_records]; intros; wfd. pdu_len. Qed.
Global Hint Resolve RT_set_data_r : rt. Global Hint Resolve Ext_set_data_r : ext. Global Hint Resolve Safe_set_data_r : safe.

(** ** EventReport *)
(* common/event_report/model.rs:16-22 *)
Record EventReport := MkEventReport {
  EventReport_originating_id : EntityId;
  EventReport_receiving_id : EntityId;
  EventReport_event_type : Z;
  EventReport_fixed_datum_records : list FixedDatum;
  EventReport_variable_datum_records : list VariableDatum }.
Definition wf_EventReport (x : EventReport) : Prop :=
  wf_EntityId (EventReport_originating_id x) /\
  wf_EntityId (EventReport_receiving_id x) /\
  u32 (EventReport_event_type x) /\
  Forall wf_FixedDatum (EventReport_fixed_datum_records x) /\
  Forall wf_VariableDatum (EventReport_variable_datum_records x).
(* common/event_report/parser.rs:8-25 *) (* event_report_body *)
Definition p_event_report_body : bparser EventReport :=
  (originating_id <- p_entity_id;;
   receiving_id <- p_entity_id;;
   event_type <- be_u32;;
   _ <- be_u32;;
   datums <- p_datum_specification;;
   pret (MkEventReport originating_id receiving_id event_type (ds_fixed datums) (ds_variable datums)))%parse.
(* common/event_report/writer.rs:5-20 *)
Definition w_event_report (m : mode) (x : EventReport) : W Z :=
  (originating_bytes <- w_entity_id (EventReport_originating_id x);;
   receiving_bytes <- w_entity_id (EventReport_receiving_id x);;
   put_u32 (EventReport_event_type x);;
   put_u32 0;;
   put_u32 (zlen (EventReport_fixed_datum_records x) mod 4294967296);;
   put_u32 (zlen (EventReport_variable_datum_records x) mod 4294967296);;
   fixed_datum_bytes <- wmap_sum m w_fixed_datum (EventReport_fixed_datum_records x);;
   variable_datum_bytes <- wmap_sum m (w_variable_datum m) (EventReport_variable_datum_records x);;
   r1 <- add16 m (originating_bytes + receiving_bytes + 16) fixed_datum_bytes;;
   add16 m r1 variable_datum_bytes)%write.
(* common/event_report/model.rs:39-48 *) (* body_length *)
Definition len_event_report (m : mode) (x : EventReport) : W Z :=
  (a0 <- mul16 m 8 (zlen (EventReport_fixed_datum_records x) mod 65536);;
   b0 <- add16 m 28 a0;;
   a1 <- len_variable_datums m (EventReport_variable_datum_records x);;
   add16 m b0 a1)%write.
(** octets of the body as laid out by the writer (specification) *)
Definition size_event_report (x : EventReport) : Z := 28 + 8 * zlen (EventReport_fixed_datum_records x) + vds_size (EventReport_variable_datum_records x).
Definition fits_event_report (x : EventReport) : Prop := size_event_report x < 65524 /\ Forall vd_ok (EventReport_variable_datum_records x).
(* common/event_report/model.rs:55-63 *) (* Interaction *)
Definition orig_event_report (x : EventReport) : option EntityId := Some (EventReport_originating_id x).
Definition recv_event_report (x : EventReport) : option EntityId := Some (EventReport_receiving_id x).
Lemma RT_event_report m x : wf_EventReport x -> fits_event_report x -> RT (w_event_report m x) p_event_report_body x (size_event_report x) (size_event_report x).
Proof. destruct x; unfold wf_EventReport, fits_event_report, size_event_report, w_event_report, p_event_report_body; cbn [EventReport_originating_id EventReport_receiving_id EventReport_event_type EventReport_fixed_datum_records EventReport_variable_datum_records]; intros; wfd. pdu_rt. Qed.
Lemma Ext_event_report : Ext p_event_report_body. Proof. unfold p_event_report_body; ext. Qed.
Lemma Safe_event_report : Safe p_event_report_body. Proof. unfold p_event_report_body; safe. Qed.
Lemma len_event_report_ok m x : wf_EventReport x -> fits_event_report x -> len_event_report m x = WOk [] (size_event_report x).
Proof. destruct x; unfold wf_EventReport, fits_event_report, size_event_report, len_event_report; cbn [EventReport_originating_id EventReport_receiving_id EventReport_event_type EventReport_fixed_datum_records EventReport_variable_datum_records]; intros; wfd. pdu_len. Qed.
Global Hint Resolve RT_event_report : rt. Global Hint Resolve Ext_event_report : ext. Global Hint Resolve Safe_event_report : safe.

(** ** EventReportR *)
(* common/event_report_r/model.rs:14-20 *)
Record EventReportR := MkEventReportR {
  EventReportR_originating_id : EntityId;
  EventReportR_receiving_id : EntityId;
  EventReportR_event_type : Z;
  EventReportR_fixed_datum_records : list FixedDatum;
  EventReportR_variable_datum_records : list VariableDatum }.
Definition wf_EventReportR (x : EventReportR) : Prop :=
  wf_EntityId (EventReportR_originating_id x) /\
  wf_EntityId (EventReportR_receiving_id x) /\
  u32 (EventReportR_event_type x) /\
  Forall wf_FixedDatum (EventReportR_fixed_datum_records x) /\
  Forall wf_VariableDatum (EventReportR_variable_datum_records x).
(* common/event_report_r/parser.rs:8-25 *) (* event_report_r_body *)
Definition p_event_report_r_body : bparser EventReportR :=
  (originating_id <- p_entity_id;;
   receiving_id <- p_entity_id;;
   event_type <- be_u32;;
   _ <- be_u32;;
   datums <- p_datum_specification;;
   pret (MkEventReportR originating_id receiving_id event_type (ds_fixed datums) (ds_variable datums)))%parse.
(* common/event_report_r/writer.rs:5-20 *)
Definition w_event_report_r (m : mode) (x : EventReportR) : W Z :=
  (originating_bytes <- w_entity_id (EventReportR_originating_id x);;
   receiving_bytes <- w_entity_id (EventReportR_receiving_id x);;
   put_u32 (EventReportR_event_type x);;
   put_u32 0;;
   put_u32 (zlen (EventReportR_fixed_datum_records x) mod 4294967296);;
   put_u32 (zlen (EventReportR_variable_datum_records x) mod 4294967296);;
   fixed_datum_bytes <- wmap_sum m w_fixed_datum (EventReportR_fixed_datum_records x);;
   variable_datum_bytes <- wmap_sum m (w_variable_datum m) (EventReportR_variable_datum_records x);;
   r1 <- add16 m (originating_bytes + receiving_bytes + 16) fixed_datum_bytes;;
   add16 m r1 variable_datum_bytes)%write.
(* common/event_report_r/model.rs:37-46 *) (* body_length *)
Definition len_event_report_r (m : mode) (x : EventReportR) : W Z :=
  (a0 <- mul16 m 8 (zlen (EventReportR_fixed_datum_records x) mod 65536);;
   b0 <- add16 m 28 a0;;
   a1 <- len_variable_datums m (EventReportR_variable_datum_records x);;
   add16 m b0 a1)%write.
(** octets of the body as laid out by the writer (specification) *)
Definition size_event_report_r (x : EventReportR) : Z := 28 + 8 * zlen (EventReportR_fixed_datum_records x) + vds_size (EventReportR_variable_datum_records x).
Definition fits_event_report_r (x : EventReportR) : Prop := size_event_report_r x < 65524 /\ Forall vd_ok (EventReportR_variable_datum_records x).
(* common/event_report_r/model.rs:53-61 *) (* Interaction *)
Definition orig_event_report_r (x : EventReportR) : option EntityId := Some (EventReportR_originating_id x).
Definition recv_event_report_r (x : EventReportR) : option EntityId := Some (EventReportR_receiving_id x).
Lemma RT_event_report_r m x : wf_EventReportR x -> fits_event_report_r x -> RT (w_event_report_r m x) p_event_report_r_body x (size_event_report_r x) (size_event_report_r x).
Proof. destruct x; unfold wf_EventReportR, fits_event_report_r, size_event_report_r, w_event_report_r, p_event_report_r_body; cbn [EventReportR_originating_id EventReportR_receiving_id EventReportR_event_type EventReportR_fixed_datum_records EventReportR_variable_datum_records]; intros; wfd. pdu_rt. Qed.
Lemma Ext_event_report_r : Ext p_event_report_r_body. Proof. unfold p_event_report_r_body; ext. Qed.
Lemma Safe_event_report_r : Safe p_event_report_r_body. Proof. unfold p_event_report_r_body; safe. Qed.
Lemma len_event_report_r_ok m x : wf_EventReportR x -> fits_event_report_r x -> len_event_report_r m x = WOk [] (size_event_report_r x).
Proof. destruct x; unfold wf_EventReportR, fits_event_report_r, size_event_report_r, len_event_report_r; cbn [EventReportR_originating_id EventReportR_receiving_id EventReportR_event_type EventReportR_fixed_datum_records EventReportR_variable_datum_records]; intros; wfd. pdu_len. Qed.
Global Hint Resolve RT_event_report_r : rt. Global Hint Resolve Ext_event_report_r : ext. Global Hint Resolve Safe_event_report_r : safe.

(** ** DataQuery *)
(* common/data_query/model.rs:10-17 *)
Record DataQuery := MkDataQuery {
  DataQuery_originating_id : EntityId;
  DataQuery_receiving_id : EntityId;
  DataQuery_request_id : Z;
  DataQuery_time_interval : Z;
  DataQuery_fixed_datum_records : list Z;
  DataQuery_variable_datum_records : list Z }.
Definition wf_DataQuery (x : DataQuery) : Prop :=
  wf_EntityId (DataQuery_originating_id x) /\
  wf_EntityId (DataQuery_receiving_id x) /\
  u32 (DataQuery_request_id x) /\
  u32 (DataQuery_time_interval x) /\
  Forall u32 (DataQuery_fixed_datum_records x) /\
  Forall u32 (DataQuery_variable_datum_records x).
(* common/data_query/parser.rs:9-32 *) (* data_query_body *)
Definition p_data_query_body : bparser DataQuery :=
  (originating_id <- p_entity_id;;
   receiving_id <- p_entity_id;;
   request_id <- be_u32;;
   time_interval <- be_u32;;
   num_of_fixed_datums <- be_u32;;
   num_of_variable_datums <- be_u32;;
   fixed_datum_ids <- count be_u32 num_of_fixed_datums;;
   variable_datum_ids <- count be_u32 num_of_variable_datums;;
   pret (MkDataQuery originating_id receiving_id request_id time_interval fixed_datum_ids variable_datum_ids))%parse.
(* common/data_query/writer.rs:5-20 *)
Definition w_data_query (m : mode) (x : DataQuery) : W Z :=
  (originating_bytes <- w_entity_id (DataQuery_originating_id x);;
   receiving_bytes <- w_entity_id (DataQuery_receiving_id x);;
   put_u32 (DataQuery_request_id x);;
   put_u32 (DataQuery_time_interval x);;
   put_u32 (zlen (DataQuery_fixed_datum_records x) mod 4294967296);;
   put_u32 (zlen (DataQuery_variable_datum_records x) mod 4294967296);;
   fixed_datum_bytes <- wmap_sum m w_u32_elt (DataQuery_fixed_datum_records x);;
   variable_datum_bytes <- wmap_sum m w_u32_elt (DataQuery_variable_datum_records x);;
   r1 <- add16 m (originating_bytes + receiving_bytes + 16) fixed_datum_bytes;;
   add16 m r1 variable_datum_bytes)%write.
(* common/data_query/model.rs:34-38 *) (* body_length *)
Definition len_data_query (m : mode) (x : DataQuery) : W Z :=
  (a0 <- wret ((4 * zlen (DataQuery_fixed_datum_records x)) mod 65536);;
   b0 <- add16 m 28 a0;;
   a1 <- wret ((4 * zlen (DataQuery_variable_datum_records x)) mod 65536);;
   add16 m b0 a1)%write.
(** octets of the body as laid out by the writer (specification) *)
Definition size_data_query (x : DataQuery) : Z := 28 + 4 * zlen (DataQuery_fixed_datum_records x) + 4 * zlen (DataQuery_variable_datum_records x).
Definition fits_data_query (x : DataQuery) : Prop := size_data_query x < 65524.
(* common/data_query/model.rs:45-53 *) (* Interaction *)
Definition orig_data_query (x : DataQuery) : option EntityId := Some (DataQuery_originating_id x).
Definition recv_data_query (x : DataQuery) : option EntityId := Some (DataQuery_receiving_id x).
Lemma RT_data_query m x : wf_DataQuery x -> fits_data_query x -> RT (w_data_query m x) p_data_query_body x (size_data_query x) (size_data_query x).
Proof. destruct x; unfold wf_DataQuery, fits_data_query, size_data_query, w_data_query, p_data_query_body; cbn [DataQuery_originating_id DataQuery_receiving_id DataQuery_request_id DataQuery_time_interval DataQuery_fixed_datum_records DataQuery_variable_datum_records]; intros; wfd. pdu_rt. Qed.
Lemma Ext_data_query : Ext p_data_query_body. Proof. unfold p_data_query_body; ext. Qed.
Lemma Safe_data_query : Safe p_data_query_body. Proof. unfold p_data_query_body; safe. Qed.
Lemma len_data_query_ok m x : wf_DataQuery x -> fits_data_query x -> len_data_query m x = WOk [] (size_data_query x).
Proof. destruct x; unfold wf_DataQuery, fits_data_query, size_data_query, len_data_query; cbn [DataQuery_originating_id DataQuery_receiving_id DataQuery_request_id DataQuery_time_interval DataQuery_fixed_datum_records DataQuery_variable_datum_records]; intros; wfd. pdu_len. Qed.
Global Hint Resolve RT_data_query : rt. Global Hint Resolve Ext_data_query : ext. Global Hint Resolve Safe_data_query : safe.

(** ** DataQueryR *)
(* common/data_query_r/model.rs:13-21 *)
Record DataQueryR := MkDataQueryR {
  DataQueryR_originating_id : EntityId;
  DataQueryR_receiving_id : EntityId;
  DataQueryR_required_reliability_service : Z;
  DataQueryR_request_id : Z;
  DataQueryR_time_interval : Z;
  DataQueryR_fixed_datum_records : list Z;
  DataQueryR_variable_datum_records : list Z }.
Definition wf_DataQueryR (x : DataQueryR) : Prop :=
  wf_EntityId (DataQueryR_originating_id x) /\
  wf_EntityId (DataQueryR_receiving_id x) /\
  u8 (DataQueryR_required_reliability_service x) /\
  u32 (DataQueryR_request_id x) /\
  u32 (DataQueryR_time_interval x) /\
  Forall u32 (DataQueryR_fixed_datum_records x) /\
  Forall u32 (DataQueryR_variable_datum_records x).
(* common/data_query_r/parser.rs:9-37 *) (* data_query_r_body *)
Definition p_data_query_r_body : bparser DataQueryR :=
  (originating_id <- p_entity_id;;
   receiving_id <- p_entity_id;;
   required_reliability_service <- be_u8;;
   _ <- be_u8;;
   _ <- be_u16;;
   request_id <- be_u32;;
   time_interval <- be_u32;;
   num_of_fixed_datums <- be_u32;;
   num_of_variable_datums <- be_u32;;
   fixed_datum_ids <- count be_u32 num_of_fixed_datums;;
   variable_datum_ids <- count be_u32 num_of_variable_datums;;
   pret (MkDataQueryR originating_id receiving_id required_reliability_service request_id time_interval fixed_datum_ids variable_datum_ids))%parse.
(* common/data_query_r/writer.rs:5-23 *)
Definition w_data_query_r (m : mode) (x : DataQueryR) : W Z :=
  (originating_bytes <- w_entity_id (DataQueryR_originating_id x);;
   receiving_bytes <- w_entity_id (DataQueryR_receiving_id x);;
   put_u8 (DataQueryR_required_reliability_service x);;
   put_u8 0;;
   put_u16 0;;
   put_u32 (DataQueryR_request_id x);;
   put_u32 (DataQueryR_time_interval x);;
   put_u32 (zlen (DataQueryR_fixed_datum_records x) mod 4294967296);;
   put_u32 (zlen (DataQueryR_variable_datum_records x) mod 4294967296);;
   fixed_datum_bytes <- wmap_sum m w_u32_elt (DataQueryR_fixed_datum_records x);;
   variable_datum_bytes <- wmap_sum m w_u32_elt (DataQueryR_variable_datum_records x);;
   r1 <- add16 m (originating_bytes + receiving_bytes + 20) fixed_datum_bytes;;
   add16 m r1 variable_datum_bytes)%write.
(* common/data_query_r/model.rs:38-42 *) (* body_length *)
Definition len_data_query_r (m : mode) (x : DataQueryR) : W Z :=
  (a0 <- wret ((4 * zlen (DataQueryR_fixed_datum_records x)) mod 65536);;
   b0 <- add16 m 32 a0;;
   a1 <- wret ((4 * zlen (DataQueryR_variable_datum_records x)) mod 65536);;
   add16 m b0 a1)%write.
(** octets of the body as laid out by the writer (specification) *)
Definition size_data_query_r (x : DataQueryR) : Z := 32 + 4 * zlen (DataQueryR_fixed_datum_records x) + 4 * zlen (DataQueryR_variable_datum_records x).
Definition fits_data_query_r (x : DataQueryR) : Prop := size_data_query_r x < 65524.
(* common/data_query_r/model.rs:49-57 *) (* Interaction *)
Definition orig_data_query_r (x : DataQueryR) : option EntityId := Some (DataQueryR_originating_id x).
Definition recv_data_query_r (x : DataQueryR) : option EntityId := Some (DataQueryR_receiving_id x).
Lemma RT_data_query_r m x : wf_DataQueryR x -> fits_data_query_r x -> RT (w_data_query_r m x) p_data_query_r_body x (size_data_query_r x) (size_data_query_r x).
Proof. destruct x; unfold wf_DataQueryR, fits_data_query_r, size_data_query_r, w_data_query_r, p_data_query_r_body; cbn [DataQueryR_originating_id DataQueryR_receiving_id DataQueryR_required_reliability_service DataQueryR_request_id DataQueryR_time_interval DataQueryR_fixed_datum_records DataQueryR_variable_datum_records]; intros; wfd. pdu_rt. Qed.
Lemma Ext_data_query_r : Ext p_data_query_r_body. Proof. unfold p_data_query_r_body; ext. Qed.
Lemma Safe_data_query_r : Safe p_data_query_r_body. Proof. unfold p_data_query_r_body; safe. Qed.
Lemma len_data_query_r_ok m x : wf_DataQueryR x -> fits_data_query_r x -> len_data_query_r m x = WOk [] (size_data_query_r x).
Proof. destruct x; unfold wf_DataQueryR, fits_data_query_r, size_data_query_r, len_data_query_r; cbn [DataQueryR_originating_id DataQueryR_receiving_id DataQueryR_required_reliability_service DataQueryR_request_id DataQueryR_time_interval DataQueryR_fixed_datum_records DataQueryR_variable_datum_records]; intros; wfd. pdu_len. Qed.
Global Hint Resolve RT_data_query_r : rt. Global Hint Resolve Ext_data_query_r : ext. Global Hint Resolve Safe_data_query_r : safe.

(** ** RecordQueryR *)
(* common/record_query_r/model.rs:14-22 *)
Record RecordQueryR := MkRecordQueryR {
  RecordQueryR_originating_id : EntityId;
  RecordQueryR_receiving_id : EntityId;
  RecordQueryR_request_id : Z;
  RecordQueryR_required_reliability_service : Z;
  RecordQueryR_event_type : Z;
  RecordQueryR_time : Z;
  RecordQueryR_record_query_specification : list Z }.
Definition wf_RecordQueryR (x : RecordQueryR) : Prop :=
  wf_EntityId (RecordQueryR_originating_id x) /\
  wf_EntityId (RecordQueryR_receiving_id x) /\
  u32 (RecordQueryR_request_id x) /\
  u8 (RecordQueryR_required_reliability_service x) /\
  u16 (RecordQueryR_event_type x) /\
  u32 (RecordQueryR_time x) /\
  Forall u32 (RecordQueryR_record_query_specification x).
(* common/record_query_r/parser.rs:10-34 *) (* record_query_r_body *)
Definition p_record_query_r_body : bparser RecordQueryR :=
  (originating_id <- p_entity_id;;
   receiving_id <- p_entity_id;;
   request_id <- be_u32;;
   required_reliability_service <- be_u8;;
   _ <- be_u8;;
   event_type <- be_u16;;
   time_ <- be_u32;;
   record_query_specification <- p_record_query_specification;;
   pret (MkRecordQueryR originating_id receiving_id request_id required_reliability_service event_type time_ record_query_specification))%parse.
(* common/record_query_r/writer.rs:6-19 *)
Definition w_record_query_r (m : mode) (x : RecordQueryR) : W Z :=
  (origination_id_bytes <- w_entity_id (RecordQueryR_originating_id x);;
   receiving_id_bytes <- w_entity_id (RecordQueryR_receiving_id x);;
   put_u32 (RecordQueryR_request_id x);;
   put_u8 (RecordQueryR_required_reliability_service x);;
   put_u8 0;;
   put_u16 (RecordQueryR_event_type x);;
   put_u32 (RecordQueryR_time x);;
   record_query_specification <- w_record_query_specification m (RecordQueryR_record_query_specification x);;
   add16 m (origination_id_bytes + receiving_id_bytes + 12) record_query_specification)%write.
(* common/record_query_r/model.rs:39-42 *) (* body_length *)
Definition len_record_query_r (m : mode) (x : RecordQueryR) : W Z :=
  (a0 <- wret ((zlen (RecordQueryR_record_query_specification x) * 4) mod 65536);;
   add16 m 28 a0)%write.
(** octets of the body as laid out by the writer (specification) *)
Definition size_record_query_r (x : RecordQueryR) : Z := 24 + (4 + 4 * zlen (RecordQueryR_record_query_specification x)).
Definition fits_record_query_r (x : RecordQueryR) : Prop := size_record_query_r x < 65524.
(* common/record_query_r/model.rs:49-57 *) (* Interaction *)
Definition orig_record_query_r (x : RecordQueryR) : option EntityId := Some (RecordQueryR_originating_id x).
Definition recv_record_query_r (x : RecordQueryR) : option EntityId := Some (RecordQueryR_receiving_id x).
Lemma RT_record_query_r m x : wf_RecordQueryR x -> fits_record_query_r x -> RT (w_record_query_r m x) p_record_query_r_body x (size_record_query_r x) (size_record_query_r x).
Proof. destruct x; unfold wf_RecordQueryR, fits_record_query_r, size_record_query_r, w_record_query_r, p_record_query_r_body; cbn [RecordQueryR_originating_id RecordQueryR_receiving_id RecordQueryR_request_id RecordQueryR_required_reliability_service RecordQueryR_event_type RecordQueryR_time RecordQueryR_record_query_specification]; intros; wfd. pdu_rt. Qed.
Lemma Ext_record_query_r : Ext p_record_query_r_body. Proof. unfold p_record_query_r_body; ext. Qed.
Lemma Safe_record_query_r : Safe p_record_query_r_body. Proof. unfold p_record_query_r_body; safe. Qed.
Lemma len_record_query_r_ok m x : wf_RecordQueryR x -> fits_record_query_r x -> len_record_query_r m x = WOk [] (size_record_query_r x).
Proof. destruct x; unfold wf_RecordQueryR, fits_record_query_r, size_record_query_r, len_record_query_r; cbn [RecordQueryR_originating_id RecordQueryR_receiving_id RecordQueryR_request_id RecordQueryR_required_reliability_service RecordQueryR_event_type RecordQueryR_time RecordQueryR_record_query_specification]; intros; wfd. pdu_len. Qed.
Global Hint Resolve RT_record_query_r : rt. Global Hint Resolve Ext_record_query_r : ext. Global Hint Resolve Safe_record_query_r : safe.

(** ** RecordR *)
(* common/record_r/model.rs:14-22 *)
Record RecordR := MkRecordR {
  RecordR_originating_id : EntityId;
  RecordR_receiving_id : EntityId;
  RecordR_request_id : Z;
  RecordR_required_reliability_service : Z;
  RecordR_event_type : Z;
  RecordR_response_serial_number : Z;
  RecordR_record_specification : list RecordSet }.
Definition wf_RecordR (x : RecordR) : Prop :=
  wf_EntityId (RecordR_originating_id x) /\
  wf_EntityId (RecordR_receiving_id x) /\
  u32 (RecordR_request_id x) /\
  u8 (RecordR_required_reliability_service x) /\
  u32 (RecordR_event_type x) /\
  u32 (RecordR_response_serial_number x) /\
  Forall wf_RecordSet (RecordR_record_specification x).
(* common/record_r/parser.rs:8-31 *) (* record_r_body *)
Definition p_record_r_body (m : mode) : bparser RecordR :=
  (originating_id <- p_entity_id;;
   receiving_id <- p_entity_id;;
   request_id <- be_u32;;
   required_reliability_service <- be_u8;;
   _ <- be_u8;;
   event_type <- be_u32;;
   response_serial_number <- be_u32;;
   record_specification <- (p_record_specification m);;
   pret (MkRecordR originating_id receiving_id request_id required_reliability_service event_type response_serial_number record_specification))%parse.
(* common/record_r/writer.rs:5-18 *)
Definition w_record_r (m : mode) (x : RecordR) : W Z :=
  (origination_id_bytes <- w_entity_id (RecordR_originating_id x);;
   receiving_id_bytes <- w_entity_id (RecordR_receiving_id x);;
   put_u32 (RecordR_request_id x);;
   put_u8 (RecordR_required_reliability_service x);;
   put_u8 0;;
   put_u32 (RecordR_event_type x);;
   put_u32 (RecordR_response_serial_number x);;
   record_specification_bytes <- w_record_specification m (RecordR_record_specification x);;
   add16 m (origination_id_bytes + receiving_id_bytes + 12) record_specification_bytes)%write.
(* common/record_r/model.rs:39-50 *) (* body_length *)
Definition len_record_r (m : mode) (x : RecordR) : W Z :=
  (a0 <- len_record_sets m (RecordR_record_specification x);;
   add16 m 28 a0)%write.
(** octets of the body as laid out by the writer (specification) *)
Definition size_record_r (x : RecordR) : Z := 26 + recspec_size (RecordR_record_specification x).
Definition fits_record_r (x : RecordR) : Prop := size_record_r x < 65524 /\ Forall rs_ok (RecordR_record_specification x).
(* common/record_r/model.rs:57-65 *) (* Interaction *)
Definition orig_record_r (x : RecordR) : option EntityId := Some (RecordR_originating_id x).
Definition recv_record_r (x : RecordR) : option EntityId := Some (RecordR_receiving_id x).
Lemma RT_record_r m x : wf_RecordR x -> fits_record_r x -> RT (w_record_r m x) (p_record_r_body m) x (size_record_r x - 2) (size_record_r x).
Proof. destruct x; unfold wf_RecordR, fits_record_r, size_record_r, w_record_r, p_record_r_body; cbn [RecordR_originating_id RecordR_receiving_id RecordR_request_id RecordR_required_reliability_service RecordR_event_type RecordR_response_serial_number RecordR_record_specification]; intros; wfd. pdu_rt. Qed.
Lemma Ext_record_r m : Ext (p_record_r_body m). Proof. unfold p_record_r_body; ext. Qed.
Lemma Safe_record_r : Safe (p_record_r_body Wrapping). Proof. unfold p_record_r_body; safe. Qed.
Lemma len_record_r_ok m x : wf_RecordR x -> fits_record_r x -> len_record_r m x = WOk [] (size_record_r x - 2).
Proof. destruct x; unfold wf_RecordR, fits_record_r, size_record_r, len_record_r; cbn [RecordR_originating_id RecordR_receiving_id RecordR_request_id RecordR_required_reliability_service RecordR_event_type RecordR_response_serial_number RecordR_record_specification]; intros; wfd. pdu_len. Qed.
Global Hint Resolve RT_record_r : rt. Global Hint Resolve Ext_record_r : ext. Global Hint Resolve Safe_record_r : safe.

(** ** SetRecordR *)
(* common/set_record_r/model.rs:14-20 *)
Record SetRecordR := MkSetRecordR {
  SetRecordR_originating_id : EntityId;
  SetRecordR_receiving_id : EntityId;
  SetRecordR_request_id : Z;
  SetRecordR_required_reliability_service : Z;
  SetRecordR_record_specification : list RecordSet }.
Definition wf_SetRecordR (x : SetRecordR) : Prop :=
  wf_EntityId (SetRecordR_originating_id x) /\
  wf_EntityId (SetRecordR_receiving_id x) /\
  u32 (SetRecordR_request_id x) /\
  u8 (SetRecordR_required_reliability_service x) /\
  Forall wf_RecordSet (SetRecordR_record_specification x).
(* common/set_record_r/parser.rs:8-28 *) (* set_record_r_body *)
Definition p_set_record_r_body (m : mode) : bparser SetRecordR :=
  (originating_id <- p_entity_id;;
   receiving_id <- p_entity_id;;
   request_id <- be_u32;;
   required_reliability_service <- be_u8;;
   _ <- be_u8;;
   _ <- be_u16;;
   _ <- be_u32;;
   record_specification <- (p_record_specification m);;
   pret (MkSetRecordR originating_id receiving_id request_id required_reliability_service record_specification))%parse.
(* common/set_record_r/writer.rs:5-18 *)
Definition w_set_record_r (m : mode) (x : SetRecordR) : W Z :=
  (origination_id_bytes <- w_entity_id (SetRecordR_originating_id x);;
   receiving_id_bytes <- w_entity_id (SetRecordR_receiving_id x);;
   put_u32 (SetRecordR_request_id x);;
   put_u8 (SetRecordR_required_reliability_service x);;
   put_u8 0;;
   put_u16 0;;
   put_u32 0;;
   record_specification_bytes <- w_record_specification m (SetRecordR_record_specification x);;
   add16 m (origination_id_bytes + receiving_id_bytes + 12) record_specification_bytes)%write.
(* common/set_record_r/model.rs:37-48 *) (* body_length *)
Definition len_set_record_r (m : mode) (x : SetRecordR) : W Z :=
  (a0 <- len_record_sets m (SetRecordR_record_specification x);;
   add16 m 28 a0)%write.
(** octets of the body as laid out by the writer (specification) *)
Definition size_set_record_r (x : SetRecordR) : Z := 24 + recspec_size (SetRecordR_record_specification x).
Definition fits_set_record_r (x : SetRecordR) : Prop := size_set_record_r x < 65524 /\ Forall rs_ok (SetRecordR_record_specification x).
(* common/set_record_r/model.rs:55-63 *) (* Interaction *)
Definition orig_set_record_r (x : SetRecordR) : option EntityId := Some (SetRecordR_originating_id x).
Definition recv_set_record_r (x : SetRecordR) : option EntityId := Some (SetRecordR_receiving_id x).
Lemma RT_set_record_r m x : wf_SetRecordR x -> fits_set_record_r x -> RT (w_set_record_r m x) (p_set_record_r_body m) x (size_set_record_r x) (size_set_record_r x).
Proof. destruct x; unfold wf_SetRecordR, fits_set_record_r, size_set_record_r, w_set_record_r, p_set_record_r_body; cbn [SetRecordR_originating_id SetRecordR_receiving_id SetRecordR_request_id SetRecordR_required_reliability_service SetRecordR_record_specification]; intros; wfd. pdu_rt. Qed.
Lemma Ext_set_record_r m : Ext (p_set_record_r_body m). Proof. unfold p_set_record_r_body; ext. Qed.
Lemma Safe_set_record_r : Safe (p_set_record_r_body Wrapping). Proof. unfold p_set_record_r_body; safe. Qed.
Lemma len_set_record_r_ok m x : wf_SetRecordR x -> fits_set_record_r x -> len_set_record_r m x = WOk [] (size_set_record_r x).
Proof. destruct x; unfold wf_SetRecordR, fits_set_record_r, size_set_record_r, len_set_record_r; cbn [SetRecordR_originating_id SetRecordR_receiving_id SetRecordR_request_id SetRecordR_required_reliability_service SetRecordR_record_specification]; intros; wfd. pdu_len. Qed.
Global Hint Resolve RT_set_record_r : rt. Global Hint Resolve Ext_set_record_r : ext. Global Hint Resolve Safe_set_record_r : safe.

