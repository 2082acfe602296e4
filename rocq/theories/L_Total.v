(** Lemmas for Props_Total: in a release build the writers and [pdu_length] always succeed but for markings that are too long. *)
From Coq Require Import ZArith List Lia Bool.
From Verif Require Import Base DisCommon DisHeader DisLists DisSimman DisLogistics DisWarfare DisEntity DisEmission DisRadio DisIff DisPdu DisPacket SpecWire SpecSize.
Import ListNotations. Open Scope Z_scope.

Definition Tot {R} (w : W R) : Prop := exists bs r, w = WOk bs r.
Lemma Tot_ret {R} (r : R) : Tot (wret r). Proof. eexists; eexists; reflexivity. Qed.
Lemma Tot_ok {R} bs (r : R) : Tot (WOk bs r). Proof. eexists; eexists; reflexivity. Qed.
Lemma Tot_bind {R S} (w : W R) (k : R -> W S) : Tot w -> (forall r, Tot (k r)) -> Tot (wbind w k).
Proof. intros (bs & r & ->) H. destruct (H r) as (b2 & s & E). unfold wbind. rewrite E. apply Tot_ok. Qed.
Lemma Tot_arith r : Tot (@arith Z Wrapping r).
Proof. unfold arith. destruct (_ && _); apply Tot_ret. Qed.
Lemma Tot_add16 a b : Tot (@add16 Z Wrapping a b). Proof. apply Tot_arith. Qed.
Lemma Tot_mul16 a b : Tot (@mul16 Z Wrapping a b). Proof. apply Tot_arith. Qed.
Lemma Tot_add32 a b : Tot (@add32 Z Wrapping a b).
Proof. unfold add32. cbv zeta. destruct (_ && _); apply Tot_ret. Qed.
Lemma Tot_wsum {A} (w : A -> W Z) l : (forall x, In x l -> Tot (w x)) -> forall acc, Tot (wsum Wrapping w l acc).
Proof.
  induction l as [|x l IH]; intros H acc; cbn [wsum]; [apply Tot_ret|].
  apply Tot_bind; [apply H; now left|]. intros n. apply Tot_bind; [apply Tot_add16|]. intros a. apply IH. intros y Hy. apply H. now right.
Qed.
Lemma Tot_sum {A} (w : A -> W Z) l : (forall x, Tot (w x)) -> Tot (wmap_sum Wrapping w l).
Proof. intros H. apply Tot_wsum. auto. Qed.
Lemma Tot_iter {A} (w : A -> W unit) l : (forall x, Tot (w x)) -> Tot (witer w l).
Proof. intros H. induction l; cbn [witer]; [apply Tot_ret|]. apply Tot_bind; auto. Qed.
Lemma Tot_padded d n : 0 <= d -> 0 < n -> Tot (w_padded d n).
Proof. intros. rewrite w_padded_ok by assumption. apply Tot_ok. Qed.
Lemma Tot_put n v : Tot (put n v). Proof. apply Tot_ok. Qed.
Lemma Tot_slice l : Tot (put_slice l). Proof. apply Tot_ok. Qed.
Lemma Tot_bytes v n : Tot (put_bytes v n). Proof. apply Tot_ok. Qed.
Create HintDb tot.
Global Hint Resolve @Tot_ret Tot_arith Tot_add16 Tot_mul16 Tot_add32 Tot_slice Tot_bytes Tot_put : tot.
Ltac padded := apply Tot_padded; [repeat match goal with |- context [zlen ?l] => pose_once (zlen_nonneg l) end;
  first [lia | apply Z.mod_pos_bound; lia] | lia].
Ltac tot_step :=
  match goal with
  | |- Tot (put_u8 _) => apply Tot_put | |- Tot (put_u16 _) => apply Tot_put | |- Tot (put_u32 _) => apply Tot_put | |- Tot (put_u64 _) => apply Tot_put
  | |- Tot (put_f32 _) => apply Tot_put | |- Tot (put_f64 _) => apply Tot_put | |- Tot (put_i32 _) => apply Tot_put | |- Tot (put_i16 _) => apply Tot_put
  | |- Tot (put_i8 _) => apply Tot_put
  | |- Tot (w_padded _ _) => padded
  | |- Tot (wbind _ _) => apply Tot_bind; [|intros ?]
  | |- Tot (let _ := _ in _) => cbv zeta
  | |- Tot (wmap_sum Wrapping _ _) => apply Tot_sum; intros ?; cbv beta
  | |- Tot (witer _ _) => apply Tot_iter; intros ?; cbv beta
  | |- Tot (w_option _ ?o) => destruct o; cbn [w_option]
  | |- Tot (if ?b then _ else _) => destruct b
  | |- Tot (match ?x with _ => _ end) => destruct x
  | _ => solve [eauto 3 with tot]
  end.
Ltac tot := cbv zeta; repeat tot_step.
Lemma Tot_w_simulation_address (s : SimulationAddress) : Tot (w_simulation_address s).
Proof. unfold w_simulation_address. tot. Qed.
Global Hint Resolve Tot_w_simulation_address : tot.
Lemma Tot_w_entity_id (e : EntityId) : Tot (w_entity_id e).
Proof. unfold w_entity_id. tot. Qed.
Global Hint Resolve Tot_w_entity_id : tot.
Lemma Tot_w_event_id (e : EventId) : Tot (w_event_id e).
Proof. unfold w_event_id. tot. Qed.
Global Hint Resolve Tot_w_event_id : tot.
Lemma Tot_w_vector_f32 (v : VectorF32) : Tot (w_vector_f32 v).
Proof. unfold w_vector_f32. tot. Qed.
Global Hint Resolve Tot_w_vector_f32 : tot.
Lemma Tot_w_location (v : Location) : Tot (w_location v).
Proof. unfold w_location. tot. Qed.
Global Hint Resolve Tot_w_location : tot.
Lemma Tot_w_orientation (v : Orientation) : Tot (w_orientation v).
Proof. unfold w_orientation. tot. Qed.
Global Hint Resolve Tot_w_orientation : tot.
Lemma Tot_w_entity_type (t : EntityType) : Tot (w_entity_type t).
Proof. unfold w_entity_type. tot. Qed.
Global Hint Resolve Tot_w_entity_type : tot.
Lemma Tot_w_munition_descriptor (d : MunitionDescriptor) : Tot (w_munition_descriptor d).
Proof. unfold w_munition_descriptor. tot. Qed.
Global Hint Resolve Tot_w_munition_descriptor : tot.
Lemma Tot_w_descriptor_record (d : DescriptorRecord) : Tot (w_descriptor_record d).
Proof. unfold w_descriptor_record. tot. Qed.
Global Hint Resolve Tot_w_descriptor_record : tot.
Lemma Tot_w_clock_time (c : ClockTime) : Tot (w_clock_time c).
Proof. unfold w_clock_time. tot. Qed.
Global Hint Resolve Tot_w_clock_time : tot.
Lemma Tot_w_fixed_datum (d : FixedDatum) : Tot (w_fixed_datum d).
Proof. unfold w_fixed_datum. tot. Qed.
Global Hint Resolve Tot_w_fixed_datum : tot.
Lemma Tot_w_variable_datum (d : VariableDatum) : Tot (w_variable_datum Wrapping d).
Proof. unfold w_variable_datum. tot. Qed.
Global Hint Resolve Tot_w_variable_datum : tot.
Lemma Tot_w_articulated_part (x : ArticulatedPart) : Tot (w_articulated_part Wrapping x).
Proof. unfold w_articulated_part. tot. Qed.
Global Hint Resolve Tot_w_articulated_part : tot.
Lemma Tot_w_attached_part (x : AttachedPart) : Tot (w_attached_part x).
Proof. unfold w_attached_part. tot. Qed.
Global Hint Resolve Tot_w_attached_part : tot.
Lemma Tot_w_separation (x : SeparationParameter) : Tot (w_separation x).
Proof. unfold w_separation. tot. Qed.
Global Hint Resolve Tot_w_separation : tot.
Lemma Tot_w_entity_type_parameter (x : EntityTypeParameter) : Tot (w_entity_type_parameter x).
Proof. unfold w_entity_type_parameter. tot. Qed.
Global Hint Resolve Tot_w_entity_type_parameter : tot.
Lemma Tot_w_entity_association (x : EntityAssociation) : Tot (w_entity_association x).
Proof. unfold w_entity_association. tot. Qed.
Global Hint Resolve Tot_w_entity_association : tot.
Lemma Tot_w_variable_parameter (v : VariableParameter) : Tot (w_variable_parameter Wrapping v).
Proof. unfold w_variable_parameter. tot. Qed.
Global Hint Resolve Tot_w_variable_parameter : tot.
Lemma Tot_w_beam_data (b : BeamData) : Tot (w_beam_data b).
Proof. unfold w_beam_data. tot. Qed.
Global Hint Resolve Tot_w_beam_data : tot.
Lemma Tot_w_supply_quantity (s : SupplyQuantity) : Tot (w_supply_quantity s).
Proof. unfold w_supply_quantity. tot. Qed.
Global Hint Resolve Tot_w_supply_quantity : tot.
Lemma Tot_w_record_set (r : RecordSet) : Tot (w_record_set Wrapping r).
Proof. unfold w_record_set. tot. Qed.
Global Hint Resolve Tot_w_record_set : tot.
Lemma Tot_w_record_specification (l : list RecordSet) : Tot (w_record_specification Wrapping l).
Proof. unfold w_record_specification. tot. Qed.
Global Hint Resolve Tot_w_record_specification : tot.
Lemma Tot_len_variable_datums (l : list VariableDatum) : Tot (len_variable_datums Wrapping l).
Proof. unfold len_variable_datums. tot. Qed.
Global Hint Resolve Tot_len_variable_datums : tot.
Lemma Tot_w_u32_elt (d : Z) : Tot (w_u32_elt d).
Proof. unfold w_u32_elt. tot. Qed.
Global Hint Resolve Tot_w_u32_elt : tot.
Lemma arith_nonneg r n bs : @arith Z Wrapping r = WOk bs n -> 0 <= n.
Proof. unfold arith. destruct (0 <=? r) eqn:E1; destruct (r <? 65536); cbn; intros H; injection H as <- <-; try (apply Z.mod_pos_bound; lia); apply Z.leb_le; exact E1. Qed.
Lemma wsum_nonneg {A} (w : A -> W Z) l : forall acc bs r, 0 <= acc -> wsum Wrapping w l acc = WOk bs r -> 0 <= r.
Proof.
  induction l as [|x l IH]; intros acc bs r Ha; cbn [wsum]; [intros H; injection H as <- <-; exact Ha|].
  unfold wbind. destruct (w x) as [b1 n|]; [|discriminate]. destruct (add16 Wrapping acc n) as [b2 a|] eqn:E; [|discriminate].
  destruct (wsum Wrapping w l a) as [b3 q|] eqn:E3; [|discriminate]. intros H. injection H as <- <-. eapply IH; [|exact E3]. eapply arith_nonneg. exact E.
Qed.
Lemma Tot_sum_then {A S} (w : A -> W Z) l (k : Z -> W S) : (forall x, Tot (w x)) -> (forall r, 0 <= r -> Tot (k r)) -> Tot (wbind (wmap_sum Wrapping w l) k).
Proof.
  intros H K. destruct (Tot_sum w l H) as (bs & r & E). pose proof (wsum_nonneg w l 0 bs r ltac:(lia) E) as N. destruct (K r N) as (b2 & s & E2).
  unfold wbind. rewrite E, E2. apply Tot_ok.
Qed.
Lemma Tot_len_record_sets (l : list RecordSet) : Tot (len_record_sets Wrapping l).
Proof. unfold len_record_sets. apply Tot_sum. intros x. apply Tot_sum_then; [intros; apply Tot_ret|]. intros r Hr. apply Tot_bind; [apply Tot_padded; lia|]. intros. auto with tot. Qed.
Global Hint Resolve Tot_len_record_sets : tot.
Lemma Tot_w_record_query_specification (l : list Z) : Tot (w_record_query_specification Wrapping l).
Proof. unfold w_record_query_specification. tot. Qed.
Global Hint Resolve Tot_w_record_query_specification : tot.
Lemma Tot_w_relationship (r : Relationship) : Tot (w_relationship r).
Proof. unfold w_relationship. tot. Qed.
Global Hint Resolve Tot_w_relationship : tot.
Lemma Tot_w_named_location (r : NamedLocationId) : Tot (w_named_location r).
Proof. unfold w_named_location. tot. Qed.
Global Hint Resolve Tot_w_named_location : tot.
Lemma Tot_w_acknowledge (x : Acknowledge) : Tot (w_acknowledge Wrapping x).
Proof. unfold w_acknowledge. tot. Qed.
Global Hint Resolve Tot_w_acknowledge : tot.
Lemma Tot_len_acknowledge (x : Acknowledge) : Tot (len_acknowledge Wrapping x).
Proof. unfold len_acknowledge. tot. Qed.
Global Hint Resolve Tot_len_acknowledge : tot.
Lemma Tot_w_acknowledge_r (x : AcknowledgeR) : Tot (w_acknowledge_r Wrapping x).
Proof. unfold w_acknowledge_r. tot. Qed.
Global Hint Resolve Tot_w_acknowledge_r : tot.
Lemma Tot_len_acknowledge_r (x : AcknowledgeR) : Tot (len_acknowledge_r Wrapping x).
Proof. unfold len_acknowledge_r. tot. Qed.
Global Hint Resolve Tot_len_acknowledge_r : tot.
Lemma Tot_w_create_entity (x : CreateEntity) : Tot (w_create_entity Wrapping x).
Proof. unfold w_create_entity. tot. Qed.
Global Hint Resolve Tot_w_create_entity : tot.
Lemma Tot_len_create_entity (x : CreateEntity) : Tot (len_create_entity Wrapping x).
Proof. unfold len_create_entity. tot. Qed.
Global Hint Resolve Tot_len_create_entity : tot.
Lemma Tot_w_create_entity_r (x : CreateEntityR) : Tot (w_create_entity_r Wrapping x).
Proof. unfold w_create_entity_r. tot. Qed.
Global Hint Resolve Tot_w_create_entity_r : tot.
Lemma Tot_len_create_entity_r (x : CreateEntityR) : Tot (len_create_entity_r Wrapping x).
Proof. unfold len_create_entity_r. tot. Qed.
Global Hint Resolve Tot_len_create_entity_r : tot.
Lemma Tot_w_remove_entity (x : RemoveEntity) : Tot (w_remove_entity Wrapping x).
Proof. unfold w_remove_entity. tot. Qed.
Global Hint Resolve Tot_w_remove_entity : tot.
Lemma Tot_len_remove_entity (x : RemoveEntity) : Tot (len_remove_entity Wrapping x).
Proof. unfold len_remove_entity. tot. Qed.
Global Hint Resolve Tot_len_remove_entity : tot.
Lemma Tot_w_remove_entity_r (x : RemoveEntityR) : Tot (w_remove_entity_r Wrapping x).
Proof. unfold w_remove_entity_r. tot. Qed.
Global Hint Resolve Tot_w_remove_entity_r : tot.
Lemma Tot_len_remove_entity_r (x : RemoveEntityR) : Tot (len_remove_entity_r Wrapping x).
Proof. unfold len_remove_entity_r. tot. Qed.
Global Hint Resolve Tot_len_remove_entity_r : tot.
Lemma Tot_w_start_resume (x : StartResume) : Tot (w_start_resume Wrapping x).
Proof. unfold w_start_resume. tot. Qed.
Global Hint Resolve Tot_w_start_resume : tot.
Lemma Tot_len_start_resume (x : StartResume) : Tot (len_start_resume Wrapping x).
Proof. unfold len_start_resume. tot. Qed.
Global Hint Resolve Tot_len_start_resume : tot.
Lemma Tot_w_start_resume_r (x : StartResumeR) : Tot (w_start_resume_r Wrapping x).
Proof. unfold w_start_resume_r. tot. Qed.
Global Hint Resolve Tot_w_start_resume_r : tot.
Lemma Tot_len_start_resume_r (x : StartResumeR) : Tot (len_start_resume_r Wrapping x).
Proof. unfold len_start_resume_r. tot. Qed.
Global Hint Resolve Tot_len_start_resume_r : tot.
Lemma Tot_w_stop_freeze (x : StopFreeze) : Tot (w_stop_freeze Wrapping x).
Proof. unfold w_stop_freeze. tot. Qed.
Global Hint Resolve Tot_w_stop_freeze : tot.
Lemma Tot_len_stop_freeze (x : StopFreeze) : Tot (len_stop_freeze Wrapping x).
Proof. unfold len_stop_freeze. tot. Qed.
Global Hint Resolve Tot_len_stop_freeze : tot.
Lemma Tot_w_stop_freeze_r (x : StopFreezeR) : Tot (w_stop_freeze_r Wrapping x).
Proof. unfold w_stop_freeze_r. tot. Qed.
Global Hint Resolve Tot_w_stop_freeze_r : tot.
Lemma Tot_len_stop_freeze_r (x : StopFreezeR) : Tot (len_stop_freeze_r Wrapping x).
Proof. unfold len_stop_freeze_r. tot. Qed.
Global Hint Resolve Tot_len_stop_freeze_r : tot.
Lemma Tot_w_action_request (x : ActionRequest) : Tot (w_action_request Wrapping x).
Proof. unfold w_action_request. tot. Qed.
Global Hint Resolve Tot_w_action_request : tot.
Lemma Tot_len_action_request (x : ActionRequest) : Tot (len_action_request Wrapping x).
Proof. unfold len_action_request. tot. Qed.
Global Hint Resolve Tot_len_action_request : tot.
Lemma Tot_w_action_request_r (x : ActionRequestR) : Tot (w_action_request_r Wrapping x).
Proof. unfold w_action_request_r. tot. Qed.
Global Hint Resolve Tot_w_action_request_r : tot.
Lemma Tot_len_action_request_r (x : ActionRequestR) : Tot (len_action_request_r Wrapping x).
Proof. unfold len_action_request_r. tot. Qed.
Global Hint Resolve Tot_len_action_request_r : tot.
Lemma Tot_w_action_response (x : ActionResponse) : Tot (w_action_response Wrapping x).
Proof. unfold w_action_response. tot. Qed.
Global Hint Resolve Tot_w_action_response : tot.
Lemma Tot_len_action_response (x : ActionResponse) : Tot (len_action_response Wrapping x).
Proof. unfold len_action_response. tot. Qed.
Global Hint Resolve Tot_len_action_response : tot.
Lemma Tot_w_action_response_r (x : ActionResponseR) : Tot (w_action_response_r Wrapping x).
Proof. unfold w_action_response_r. tot. Qed.
Global Hint Resolve Tot_w_action_response_r : tot.
Lemma Tot_len_action_response_r (x : ActionResponseR) : Tot (len_action_response_r Wrapping x).
Proof. unfold len_action_response_r. tot. Qed.
Global Hint Resolve Tot_len_action_response_r : tot.
Lemma Tot_w_comment (x : Comment) : Tot (w_comment Wrapping x).
Proof. unfold w_comment. tot. Qed.
Global Hint Resolve Tot_w_comment : tot.
Lemma Tot_len_comment (x : Comment) : Tot (len_comment Wrapping x).
Proof. unfold len_comment. tot. Qed.
Global Hint Resolve Tot_len_comment : tot.
Lemma Tot_w_comment_r (x : CommentR) : Tot (w_comment_r Wrapping x).
Proof. unfold w_comment_r. tot. Qed.
Global Hint Resolve Tot_w_comment_r : tot.
Lemma Tot_len_comment_r (x : CommentR) : Tot (len_comment_r Wrapping x).
Proof. unfold len_comment_r. tot. Qed.
Global Hint Resolve Tot_len_comment_r : tot.
Lemma Tot_w_data (x : Data) : Tot (w_data Wrapping x).
Proof. unfold w_data. tot. Qed.
Global Hint Resolve Tot_w_data : tot.
Lemma Tot_len_data (x : Data) : Tot (len_data Wrapping x).
Proof. unfold len_data. tot. Qed.
Global Hint Resolve Tot_len_data : tot.
Lemma Tot_w_data_r (x : DataR) : Tot (w_data_r Wrapping x).
Proof. unfold w_data_r. tot. Qed.
Global Hint Resolve Tot_w_data_r : tot.
Lemma Tot_len_data_r (x : DataR) : Tot (len_data_r Wrapping x).
Proof. unfold len_data_r. tot. Qed.
Global Hint Resolve Tot_len_data_r : tot.
Lemma Tot_w_set_data (x : SetData) : Tot (w_set_data Wrapping x).
Proof. unfold w_set_data. tot. Qed.
Global Hint Resolve Tot_w_set_data : tot.
Lemma Tot_len_set_data (x : SetData) : Tot (len_set_data Wrapping x).
Proof. unfold len_set_data. tot. Qed.
Global Hint Resolve Tot_len_set_data : tot.
Lemma Tot_w_set_data_r (x : SetDataR) : Tot (w_set_data_r Wrapping x).
Proof. unfold w_set_data_r. tot. Qed.
Global Hint Resolve Tot_w_set_data_r : tot.
Lemma Tot_len_set_data_r (x : SetDataR) : Tot (len_set_data_r Wrapping x).
Proof. unfold len_set_data_r. tot. Qed.
Global Hint Resolve Tot_len_set_data_r : tot.
Lemma Tot_w_event_report (x : EventReport) : Tot (w_event_report Wrapping x).
Proof. unfold w_event_report. tot. Qed.
Global Hint Resolve Tot_w_event_report : tot.
Lemma Tot_len_event_report (x : EventReport) : Tot (len_event_report Wrapping x).
Proof. unfold len_event_report. tot. Qed.
Global Hint Resolve Tot_len_event_report : tot.
Lemma Tot_w_event_report_r (x : EventReportR) : Tot (w_event_report_r Wrapping x).
Proof. unfold w_event_report_r. tot. Qed.
Global Hint Resolve Tot_w_event_report_r : tot.
Lemma Tot_len_event_report_r (x : EventReportR) : Tot (len_event_report_r Wrapping x).
Proof. unfold len_event_report_r. tot. Qed.
Global Hint Resolve Tot_len_event_report_r : tot.
Lemma Tot_w_data_query (x : DataQuery) : Tot (w_data_query Wrapping x).
Proof. unfold w_data_query. tot. Qed.
Global Hint Resolve Tot_w_data_query : tot.
Lemma Tot_len_data_query (x : DataQuery) : Tot (len_data_query Wrapping x).
Proof. unfold len_data_query. tot. Qed.
Global Hint Resolve Tot_len_data_query : tot.
Lemma Tot_w_data_query_r (x : DataQueryR) : Tot (w_data_query_r Wrapping x).
Proof. unfold w_data_query_r. tot. Qed.
Global Hint Resolve Tot_w_data_query_r : tot.
Lemma Tot_len_data_query_r (x : DataQueryR) : Tot (len_data_query_r Wrapping x).
Proof. unfold len_data_query_r. tot. Qed.
Global Hint Resolve Tot_len_data_query_r : tot.
Lemma Tot_w_record_query_r (x : RecordQueryR) : Tot (w_record_query_r Wrapping x).
Proof. unfold w_record_query_r. tot. Qed.
Global Hint Resolve Tot_w_record_query_r : tot.
Lemma Tot_len_record_query_r (x : RecordQueryR) : Tot (len_record_query_r Wrapping x).
Proof. unfold len_record_query_r. tot. Qed.
Global Hint Resolve Tot_len_record_query_r : tot.
Lemma Tot_w_record_r (x : RecordR) : Tot (w_record_r Wrapping x).
Proof. unfold w_record_r. tot. Qed.
Global Hint Resolve Tot_w_record_r : tot.
Lemma Tot_len_record_r (x : RecordR) : Tot (len_record_r Wrapping x).
Proof. unfold len_record_r. tot. Qed.
Global Hint Resolve Tot_len_record_r : tot.
Lemma Tot_w_set_record_r (x : SetRecordR) : Tot (w_set_record_r Wrapping x).
Proof. unfold w_set_record_r. tot. Qed.
Global Hint Resolve Tot_w_set_record_r : tot.
Lemma Tot_len_set_record_r (x : SetRecordR) : Tot (len_set_record_r Wrapping x).
Proof. unfold len_set_record_r. tot. Qed.
Global Hint Resolve Tot_len_set_record_r : tot.
Lemma Tot_w_service_request (x : ServiceRequest) : Tot (w_service_request Wrapping x).
Proof. unfold w_service_request. tot. Qed.
Global Hint Resolve Tot_w_service_request : tot.
Lemma Tot_len_service_request (x : ServiceRequest) : Tot (len_service_request Wrapping x).
Proof. unfold len_service_request. tot. Qed.
Global Hint Resolve Tot_len_service_request : tot.
Lemma Tot_w_resupply_offer (x : ResupplyOffer) : Tot (w_resupply_offer Wrapping x).
Proof. unfold w_resupply_offer. tot. Qed.
Global Hint Resolve Tot_w_resupply_offer : tot.
Lemma Tot_len_resupply_offer (x : ResupplyOffer) : Tot (len_resupply_offer Wrapping x).
Proof. unfold len_resupply_offer. tot. Qed.
Global Hint Resolve Tot_len_resupply_offer : tot.
Lemma Tot_w_resupply_received (x : ResupplyReceived) : Tot (w_resupply_received Wrapping x).
Proof. unfold w_resupply_received. tot. Qed.
Global Hint Resolve Tot_w_resupply_received : tot.
Lemma Tot_len_resupply_received (x : ResupplyReceived) : Tot (len_resupply_received Wrapping x).
Proof. unfold len_resupply_received. tot. Qed.
Global Hint Resolve Tot_len_resupply_received : tot.
Lemma Tot_w_resupply_cancel (x : ResupplyCancel) : Tot (w_resupply_cancel Wrapping x).
Proof. unfold w_resupply_cancel. tot. Qed.
Global Hint Resolve Tot_w_resupply_cancel : tot.
Lemma Tot_len_resupply_cancel (x : ResupplyCancel) : Tot (len_resupply_cancel Wrapping x).
Proof. unfold len_resupply_cancel. tot. Qed.
Global Hint Resolve Tot_len_resupply_cancel : tot.
Lemma Tot_w_repair_complete (x : RepairComplete) : Tot (w_repair_complete Wrapping x).
Proof. unfold w_repair_complete. tot. Qed.
Global Hint Resolve Tot_w_repair_complete : tot.
Lemma Tot_len_repair_complete (x : RepairComplete) : Tot (len_repair_complete Wrapping x).
Proof. unfold len_repair_complete. tot. Qed.
Global Hint Resolve Tot_len_repair_complete : tot.
Lemma Tot_w_repair_response (x : RepairResponse) : Tot (w_repair_response Wrapping x).
Proof. unfold w_repair_response. tot. Qed.
Global Hint Resolve Tot_w_repair_response : tot.
Lemma Tot_len_repair_response (x : RepairResponse) : Tot (len_repair_response Wrapping x).
Proof. unfold len_repair_response. tot. Qed.
Global Hint Resolve Tot_len_repair_response : tot.
Lemma Tot_w_collision (x : Collision) : Tot (w_collision Wrapping x).
Proof. unfold w_collision. tot. Qed.
Global Hint Resolve Tot_w_collision : tot.
Lemma Tot_len_collision (x : Collision) : Tot (len_collision Wrapping x).
Proof. unfold len_collision. tot. Qed.
Global Hint Resolve Tot_len_collision : tot.
Lemma Tot_w_collision_elastic (x : CollisionElastic) : Tot (w_collision_elastic Wrapping x).
Proof. unfold w_collision_elastic. tot. Qed.
Global Hint Resolve Tot_w_collision_elastic : tot.
Lemma Tot_len_collision_elastic (x : CollisionElastic) : Tot (len_collision_elastic Wrapping x).
Proof. unfold len_collision_elastic. tot. Qed.
Global Hint Resolve Tot_len_collision_elastic : tot.
Lemma Tot_w_receiver (x : Receiver) : Tot (w_receiver Wrapping x).
Proof. unfold w_receiver. tot. Qed.
Global Hint Resolve Tot_w_receiver : tot.
Lemma Tot_len_receiver (x : Receiver) : Tot (len_receiver Wrapping x).
Proof. unfold len_receiver. tot. Qed.
Global Hint Resolve Tot_len_receiver : tot.
Lemma Tot_w_designator (x : Designator) : Tot (w_designator Wrapping x).
Proof. unfold w_designator. tot. Qed.
Global Hint Resolve Tot_w_designator : tot.
Lemma Tot_len_designator (x : Designator) : Tot (len_designator Wrapping x).
Proof. unfold len_designator. tot. Qed.
Global Hint Resolve Tot_len_designator : tot.
Lemma Tot_w_is_part_of (x : IsPartOf) : Tot (w_is_part_of Wrapping x).
Proof. unfold w_is_part_of. tot. Qed.
Global Hint Resolve Tot_w_is_part_of : tot.
Lemma Tot_len_is_part_of (x : IsPartOf) : Tot (len_is_part_of Wrapping x).
Proof. unfold len_is_part_of. tot. Qed.
Global Hint Resolve Tot_len_is_part_of : tot.
Lemma Tot_w_transfer_ownership (x : TransferOwnership) : Tot (w_transfer_ownership Wrapping x).
Proof. unfold w_transfer_ownership. tot. Qed.
Global Hint Resolve Tot_w_transfer_ownership : tot.
Lemma Tot_len_transfer_ownership (x : TransferOwnership) : Tot (len_transfer_ownership Wrapping x).
Proof. unfold len_transfer_ownership. tot. Qed.
Global Hint Resolve Tot_len_transfer_ownership : tot.
Lemma Tot_w_fire (x : Fire) : Tot (w_fire Wrapping x).
Proof. unfold w_fire. tot. Qed.
Global Hint Resolve Tot_w_fire : tot.
Lemma Tot_len_fire (x : Fire) : Tot (len_fire Wrapping x).
Proof. unfold len_fire. tot. Qed.
Global Hint Resolve Tot_len_fire : tot.
Lemma Tot_w_detonation (x : Detonation) : Tot (w_detonation Wrapping x).
Proof. unfold w_detonation. tot. Qed.
Global Hint Resolve Tot_w_detonation : tot.
Lemma Tot_len_detonation (x : Detonation) : Tot (len_detonation Wrapping x).
Proof. unfold len_detonation. tot. Qed.
Global Hint Resolve Tot_len_detonation : tot.
Lemma Tot_w_entity_appearance (a : EntityAppearance) : Tot (w_entity_appearance a).
Proof. unfold w_entity_appearance. tot. Qed.
Global Hint Resolve Tot_w_entity_appearance : tot.
Lemma Tot_w_entity_state_update (x : EntityStateUpdate) : Tot (w_entity_state_update Wrapping x).
Proof. unfold w_entity_state_update. tot. Qed.
Global Hint Resolve Tot_w_entity_state_update : tot.
Lemma Tot_len_entity_state_update (x : EntityStateUpdate) : Tot (len_entity_state_update Wrapping x).
Proof. unfold len_entity_state_update. tot. Qed.
Global Hint Resolve Tot_len_entity_state_update : tot.
Lemma Tot_w_propulsion (p : PropulsionSystemData) : Tot (w_propulsion p).
Proof. unfold w_propulsion. tot. Qed.
Global Hint Resolve Tot_w_propulsion : tot.
Lemma Tot_w_nozzle (p : VectoringNozzleSystemData) : Tot (w_nozzle p).
Proof. unfold w_nozzle. tot. Qed.
Global Hint Resolve Tot_w_nozzle : tot.
Lemma Tot_w_sees (x : Sees) : Tot (w_sees Wrapping x).
Proof. unfold w_sees. tot. Qed.
Global Hint Resolve Tot_w_sees : tot.
Lemma Tot_len_sees (x : Sees) : Tot (len_sees Wrapping x).
Proof. unfold len_sees. tot. Qed.
Global Hint Resolve Tot_len_sees : tot.
Lemma Tot_w_other (x : Other) : Tot (w_other Wrapping x).
Proof. unfold w_other. tot. Qed.
Global Hint Resolve Tot_w_other : tot.
Lemma Tot_len_other (x : Other) : Tot (len_other Wrapping x).
Proof. unfold len_other. tot. Qed.
Global Hint Resolve Tot_len_other : tot.
Lemma Tot_w_attribute_record (r : AttributeRecord) : Tot (w_attribute_record r).
Proof. unfold w_attribute_record. tot. Qed.
Global Hint Resolve Tot_w_attribute_record : tot.
Lemma Tot_w_attribute_record_set (s : AttributeRecordSet) : Tot (w_attribute_record_set Wrapping s).
Proof. unfold w_attribute_record_set. tot. Qed.
Global Hint Resolve Tot_w_attribute_record_set : tot.
Lemma Tot_w_attribute (x : Attribute) : Tot (w_attribute Wrapping x).
Proof. unfold w_attribute. tot. Qed.
Global Hint Resolve Tot_w_attribute : tot.
Lemma Tot_len_attribute (x : Attribute) : Tot (len_attribute Wrapping x).
Proof. unfold len_attribute. tot. Qed.
Global Hint Resolve Tot_len_attribute : tot.
Lemma Tot_w_encoding_scheme (s : EncodingScheme) : Tot (w_encoding_scheme s).
Proof. unfold w_encoding_scheme. tot. Qed.
Global Hint Resolve Tot_w_encoding_scheme : tot.
Lemma Tot_w_signal (x : Signal) : Tot (w_signal Wrapping x).
Proof. unfold w_signal. tot. Qed.
Global Hint Resolve Tot_w_signal : tot.
Lemma Tot_len_signal (x : Signal) : Tot (len_signal Wrapping x).
Proof. unfold len_signal. tot. Qed.
Global Hint Resolve Tot_len_signal : tot.
Lemma Tot_w_capabilities (version : SupportedVersion) (c : EntityCapabilities) : Tot (w_capabilities version c).
Proof. unfold w_capabilities. tot. Qed.
Global Hint Resolve Tot_w_capabilities : tot.
Lemma Tot_w_dr_other (d : DrOtherParameters) : Tot (w_dr_other d).
Proof. unfold w_dr_other. tot. Qed.
Global Hint Resolve Tot_w_dr_other : tot.
Lemma Tot_w_dr_parameters (d : DrParameters) : Tot (w_dr_parameters d).
Proof. unfold w_dr_parameters. tot. Qed.
Global Hint Resolve Tot_w_dr_parameters : tot.
Lemma Tot_len_entity_state (x : EntityState) : Tot (len_entity_state Wrapping x).
Proof. unfold len_entity_state. tot. Qed.
Global Hint Resolve Tot_len_entity_state : tot.
Lemma Tot_w_aggregate_type (t : AggregateType) : Tot (w_aggregate_type t).
Proof. unfold w_aggregate_type. tot. Qed.
Global Hint Resolve Tot_w_aggregate_type : tot.
Lemma Tot_len_silent_entity (s : SilentEntity) : Tot (len_silent_entity Wrapping s).
Proof. unfold len_silent_entity. tot. Qed.
Global Hint Resolve Tot_len_silent_entity : tot.
Lemma Tot_w_silent_aggregate (s : SilentAggregate) : Tot (w_silent_aggregate s).
Proof. unfold w_silent_aggregate. tot. Qed.
Global Hint Resolve Tot_w_silent_aggregate : tot.
Lemma Tot_w_silent_entity (s : SilentEntity) : Tot (w_silent_entity Wrapping s).
Proof. unfold w_silent_entity. tot. Qed.
Global Hint Resolve Tot_w_silent_entity : tot.
Lemma Tot_agg_intermediate (aggregates : list EntityId) (entities : list EntityId) : Tot (agg_intermediate Wrapping aggregates entities).
Proof. unfold agg_intermediate. tot. Qed.
Global Hint Resolve Tot_agg_intermediate : tot.
Lemma Tot_len_aggregate_state (x : AggregateState) : Tot (len_aggregate_state Wrapping x).
Proof. unfold len_aggregate_state. tot. Qed.
Global Hint Resolve Tot_len_aggregate_state : tot.
Lemma Tot_w_propulsion_plant (p : PropulsionPlant) : Tot (w_propulsion_plant p).
Proof. unfold w_propulsion_plant. tot. Qed.
Global Hint Resolve Tot_w_propulsion_plant : tot.
Lemma Tot_w_shaft (s : Shaft) : Tot (w_shaft s).
Proof. unfold w_shaft. tot. Qed.
Global Hint Resolve Tot_w_shaft : tot.
Lemma Tot_w_apa (a : APA) : Tot (w_apa a).
Proof. unfold w_apa. tot. Qed.
Global Hint Resolve Tot_w_apa : tot.
Lemma Tot_w_ua_fundamental (f : UAFundamental) : Tot (w_ua_fundamental f).
Proof. unfold w_ua_fundamental. tot. Qed.
Global Hint Resolve Tot_w_ua_fundamental : tot.
Lemma Tot_w_ua_beam (b : UABeam) : Tot (w_ua_beam b).
Proof. unfold w_ua_beam. tot. Qed.
Global Hint Resolve Tot_w_ua_beam : tot.
Lemma Tot_w_aes (a : AcousticEmitterSystem) : Tot (w_aes a).
Proof. unfold w_aes. tot. Qed.
Global Hint Resolve Tot_w_aes : tot.
Lemma Tot_rl_ua_system (s : UAEmitterSystem) : Tot (rl_ua_system Wrapping s).
Proof. unfold rl_ua_system. tot. Qed.
Global Hint Resolve Tot_rl_ua_system : tot.
Lemma Tot_w_ua_system (s : UAEmitterSystem) : Tot (w_ua_system Wrapping s).
Proof. unfold w_ua_system. tot. Qed.
Global Hint Resolve Tot_w_ua_system : tot.
Lemma Tot_len_underwater_acoustic (x : UnderwaterAcoustic) : Tot (len_underwater_acoustic Wrapping x).
Proof. unfold len_underwater_acoustic. tot. Qed.
Global Hint Resolve Tot_len_underwater_acoustic : tot.
Lemma Tot_w_underwater_acoustic (x : UnderwaterAcoustic) : Tot (w_underwater_acoustic Wrapping x).
Proof. unfold w_underwater_acoustic. tot. Qed.
Global Hint Resolve Tot_w_underwater_acoustic : tot.
Lemma Tot_w_track_jam (t : TrackJam) : Tot (w_track_jam t).
Proof. unfold w_track_jam. tot. Qed.
Global Hint Resolve Tot_w_track_jam : tot.
Lemma Tot_w_jamming (j : JammingTechnique) : Tot (w_jamming j).
Proof. unfold w_jamming. tot. Qed.
Global Hint Resolve Tot_w_jamming : tot.
Lemma Tot_w_fpd (f : FundamentalParameterData) : Tot (w_fpd f).
Proof. unfold w_fpd. tot. Qed.
Global Hint Resolve Tot_w_fpd : tot.
Lemma Tot_rl_beam (b : Beam) : Tot (rl_beam Wrapping b).
Proof. unfold rl_beam. tot. Qed.
Global Hint Resolve Tot_rl_beam : tot.
Lemma Tot_w_beam (b : Beam) : Tot (w_beam Wrapping b).
Proof. unfold w_beam. tot. Qed.
Global Hint Resolve Tot_w_beam : tot.
Lemma Tot_rl_emitter_system (s : EmitterSystem) : Tot (rl_emitter_system Wrapping s).
Proof. unfold rl_emitter_system. tot. Qed.
Global Hint Resolve Tot_rl_emitter_system : tot.
Lemma Tot_w_emitter_system (s : EmitterSystem) : Tot (w_emitter_system Wrapping s).
Proof. unfold w_emitter_system. tot. Qed.
Global Hint Resolve Tot_w_emitter_system : tot.
Lemma Tot_w_emission (x : ElectromagneticEmission) : Tot (w_emission Wrapping x).
Proof. unfold w_emission. tot. Qed.
Global Hint Resolve Tot_w_emission : tot.
Lemma Tot_len_emission (x : ElectromagneticEmission) : Tot (len_emission Wrapping x).
Proof. unfold len_emission. tot. Qed.
Global Hint Resolve Tot_len_emission : tot.
Lemma Tot_w_modulation_type (t : ModulationType) : Tot (w_modulation_type t).
Proof. unfold w_modulation_type. tot. Qed.
Global Hint Resolve Tot_w_modulation_type : tot.
Lemma Tot_w_crypto_key_id (k : CryptoKeyId) : Tot (w_crypto_key_id k).
Proof. unfold w_crypto_key_id. tot. Qed.
Global Hint Resolve Tot_w_crypto_key_id : tot.
Lemma Tot_w_beam_antenna_pattern (b : BeamAntennaPattern) : Tot (w_beam_antenna_pattern b).
Proof. unfold w_beam_antenna_pattern. tot. Qed.
Global Hint Resolve Tot_w_beam_antenna_pattern : tot.
Lemma Tot_w_vtp (v : VTP) : Tot (w_vtp v).
Proof. unfold w_vtp. tot. Qed.
Global Hint Resolve Tot_w_vtp : tot.
Lemma Tot_w_octet (b : Z) : Tot (w_octet b).
Proof. unfold w_octet. tot. Qed.
Global Hint Resolve Tot_w_octet : tot.
Lemma Tot_w_transmitter (x : Transmitter) : Tot (w_transmitter Wrapping x).
Proof. unfold w_transmitter. tot. Qed.
Global Hint Resolve Tot_w_transmitter : tot.
Lemma Tot_len_transmitter (x : Transmitter) : Tot (len_transmitter Wrapping x).
Proof. unfold len_transmitter. tot. Qed.
Global Hint Resolve Tot_len_transmitter : tot.
Lemma Tot_w_ged_base (b : GEDBase) : Tot (w_ged_base b).
Proof. unfold w_ged_base. tot. Qed.
Global Hint Resolve Tot_w_ged_base : tot.
Lemma Tot_w_ged_ground (r : GEDGround) : Tot (w_ged_ground r).
Proof. unfold w_ged_ground. tot. Qed.
Global Hint Resolve Tot_w_ged_ground : tot.
Lemma Tot_w_ged_air (r : GEDAir) : Tot (w_ged_air r).
Proof. unfold w_ged_air. tot. Qed.
Global Hint Resolve Tot_w_ged_air : tot.
Lemma Tot_w_quad (q : Quad) : Tot (w_quad q).
Proof. unfold w_quad. tot. Qed.
Global Hint Resolve Tot_w_quad : tot.
Lemma Tot_w_ged (g : GroupEntityDescription) : Tot (w_ged g).
Proof. unfold w_ged. tot. Qed.
Global Hint Resolve Tot_w_ged : tot.
Lemma Tot_w_is_group_of (x : IsGroupOf) : Tot (w_is_group_of Wrapping x).
Proof. unfold w_is_group_of. tot. Qed.
Global Hint Resolve Tot_w_is_group_of : tot.
Lemma Tot_len_is_group_of (x : IsGroupOf) : Tot (len_is_group_of Wrapping x).
Proof. unfold len_is_group_of. tot. Qed.
Global Hint Resolve Tot_len_is_group_of : tot.
Lemma Tot_w_layer_header (h : LayerHeader) : Tot (w_layer_header h).
Proof. unfold w_layer_header. tot. Qed.
Global Hint Resolve Tot_w_layer_header : tot.
Lemma Tot_w_iff_parameter (p : IffParameter) : Tot (w_iff_parameter p).
Proof. unfold w_iff_parameter. tot. Qed.
Global Hint Resolve Tot_w_iff_parameter : tot.
Lemma Tot_w_iff_data_record (r : IffDataRecord) : Tot (w_iff_data_record r).
Proof. unfold w_iff_data_record. tot. Qed.
Global Hint Resolve Tot_w_iff_data_record : tot.
Lemma Tot_w_iff_data_specification (l : list IffDataRecord) : Tot (w_iff_data_specification Wrapping l).
Proof. unfold w_iff_data_specification. tot. Qed.
Global Hint Resolve Tot_w_iff_data_specification : tot.
Lemma Tot_w_system_id (s : SystemId) : Tot (w_system_id s).
Proof. unfold w_system_id. tot. Qed.
Global Hint Resolve Tot_w_system_id : tot.
Lemma Tot_w_fund_op_data (d : FundOpData) : Tot (w_fund_op_data d).
Proof. unfold w_fund_op_data. tot. Qed.
Global Hint Resolve Tot_w_fund_op_data : tot.
Lemma Tot_w_iff_layer_2 (l : IffLayer2) : Tot (w_iff_layer_2 Wrapping l).
Proof. unfold w_iff_layer_2. tot. Qed.
Global Hint Resolve Tot_w_iff_layer_2 : tot.
Lemma Tot_w_mode5_interrogator (x : Mode5Interrogator) : Tot (w_mode5_interrogator x).
Proof. unfold w_mode5_interrogator. tot. Qed.
Global Hint Resolve Tot_w_mode5_interrogator : tot.
Lemma Tot_w_mode5_transponder (x : Mode5Transponder) : Tot (w_mode5_transponder x).
Proof. unfold w_mode5_transponder. tot. Qed.
Global Hint Resolve Tot_w_mode5_transponder : tot.
Lemma Tot_w_mode5_basic_data (b : Mode5BasicData) : Tot (w_mode5_basic_data b).
Proof. unfold w_mode5_basic_data. tot. Qed.
Global Hint Resolve Tot_w_mode5_basic_data : tot.
Lemma Tot_w_iff_layer_3 (l : IffLayer3) : Tot (w_iff_layer_3 Wrapping l).
Proof. unfold w_iff_layer_3. tot. Qed.
Global Hint Resolve Tot_w_iff_layer_3 : tot.
Lemma Tot_w_modes_interrogator (x : ModeSInterrogator) : Tot (w_modes_interrogator x).
Proof. unfold w_modes_interrogator. tot. Qed.
Global Hint Resolve Tot_w_modes_interrogator : tot.
Lemma Tot_w_ascii8 (s : list Z) : Tot (w_ascii8 s).
Proof. unfold w_ascii8. tot. Qed.
Global Hint Resolve Tot_w_ascii8 : tot.
Lemma Tot_w_modes_transponder (x : ModeSTransponder) : Tot (w_modes_transponder x).
Proof. unfold w_modes_transponder. tot. Qed.
Global Hint Resolve Tot_w_modes_transponder : tot.
Lemma Tot_w_modes_basic_data (b : ModeSBasicData) : Tot (w_modes_basic_data b).
Proof. unfold w_modes_basic_data. tot. Qed.
Global Hint Resolve Tot_w_modes_basic_data : tot.
Lemma Tot_w_iff_layer_4 (l : IffLayer4) : Tot (w_iff_layer_4 Wrapping l).
Proof. unfold w_iff_layer_4. tot. Qed.
Global Hint Resolve Tot_w_iff_layer_4 : tot.
Lemma Tot_w_iff_layer_5 (l : IffLayer5) : Tot (w_iff_layer_5 Wrapping l).
Proof. unfold w_iff_layer_5. tot. Qed.
Global Hint Resolve Tot_w_iff_layer_5 : tot.
Lemma Tot_w_iff (x : Iff) : Tot (w_iff Wrapping x).
Proof. unfold w_iff. tot. Qed.
Global Hint Resolve Tot_w_iff : tot.
Lemma Tot_len_iff_records (l : list IffDataRecord) : Tot (len_iff_records Wrapping l).
Proof. unfold len_iff_records. tot. Qed.
Global Hint Resolve Tot_len_iff_records : tot.
Lemma Tot_len_layer_2 (l : IffLayer2) : Tot (len_layer_2 Wrapping l).
Proof. unfold len_layer_2. tot. Qed.
Global Hint Resolve Tot_len_layer_2 : tot.
Lemma Tot_len_layer_3 (l : IffLayer3) : Tot (len_layer_3 Wrapping l).
Proof. unfold len_layer_3. tot. Qed.
Global Hint Resolve Tot_len_layer_3 : tot.
Lemma Tot_len_layer_4 (l : IffLayer4) : Tot (len_layer_4 Wrapping l).
Proof. unfold len_layer_4. tot. Qed.
Global Hint Resolve Tot_len_layer_4 : tot.
Lemma Tot_len_layer_5 (l : IffLayer5) : Tot (len_layer_5 Wrapping l).
Proof. unfold len_layer_5. tot. Qed.
Global Hint Resolve Tot_len_layer_5 : tot.
Lemma Tot_len_iff (x : Iff) : Tot (len_iff Wrapping x).
Proof. unfold len_iff. tot. Qed.
Global Hint Resolve Tot_len_iff : tot.

(** ** Markings, and the whole PDU *)
Lemma Tot_w_header h : Tot (w_header h).
Proof. unfold w_header. tot. Qed.
Global Hint Resolve Tot_w_header : tot.
Lemma Tot_w_marking n x : zlen (mk_string x) <= n -> Tot (w_marking n x).
Proof. intros H. unfold w_marking. rewrite (proj2 (Z.ltb_ge _ _) H). tot. Qed.
Lemma w_marking_long n x : n < zlen (mk_string x) -> w_marking n x = WPanic.
Proof. intros H. unfold w_marking. rewrite (proj2 (Z.ltb_lt _ _) H). reflexivity. Qed.
Lemma panic_bind {R S} (w : W R) (k : R -> W S) : w = WPanic -> wbind w k = WPanic.
Proof. intros ->. reflexivity. Qed.
Lemma bind_panic {R S} (w : W R) (k : R -> W S) : (forall r, k r = WPanic) -> wbind w k = WPanic.
Proof. intros H. destruct w; cbv [wbind]; [rewrite H|]; reflexivity. Qed.

Lemma Tot_w_body version b : Forall text_fits (texts b) -> Tot (w_body Wrapping version b).
Proof.
  intros F. destruct b; cbn [w_body]; try solve [tot].
  - cbn [texts] in F. apply Forall_inv in F. unfold text_fits in F; cbn in F. pose proof (Tot_w_marking 11 _ F) as M.
    unfold w_entity_state. tot.
  - cbn [texts] in F. apply Forall_inv in F. unfold text_fits in F; cbn in F. pose proof (Tot_w_marking 31 _ F) as M.
    unfold w_aggregate_state. tot.
Qed.
Lemma Tot_body_length b : Tot (body_length Wrapping b).
Proof. destruct b; cbn [body_length]; tot. Qed.
Lemma long_w_body m version b : ~ Forall text_fits (texts b) -> w_body m version b = WPanic.
Proof.
  intros F. destruct b; cbn [texts] in F; try solve [exfalso; apply F; constructor]; cbn [w_body].
  - assert (L : 11 < zlen (mk_string (EntityState_marking x))).
    { destruct (Z.lt_ge_cases 11 (zlen (mk_string (EntityState_marking x)))) as [H|H]; [exact H|].
      exfalso; apply F; constructor; [unfold text_fits; cbn; lia|constructor]. }
    unfold w_entity_state. do 10 (apply bind_panic; intros ?).
    apply panic_bind, w_marking_long, L.
  - assert (L : 31 < zlen (mk_string (AggregateState_marking x))).
    { destruct (Z.lt_ge_cases 31 (zlen (mk_string (AggregateState_marking x)))) as [H|H]; [exact H|].
      exfalso; apply F; constructor; [unfold text_fits; cbn; lia|constructor]. }
    unfold w_aggregate_state. do 5 (apply bind_panic; intros ?).
    apply panic_bind, w_marking_long, L.
Qed.

Lemma arith_ok m r : 0 <= r < 65536 -> @arith Z m r = WOk [] r.
Proof. intros H. unfold arith. rewrite (proj2 (Z.leb_le _ _)), (proj2 (Z.ltb_lt _ _)) by lia. reflexivity. Qed.
Lemma add16_wraps a b : exists n, 0 <= n < 65536 /\ @add16 Z Wrapping a b = WOk [] n.
Proof.
  unfold add16, arith. destruct ((0 <=? a + b) && (a + b <? 65536)) eqn:E.
  - apply andb_prop in E as [E1 E2]. apply Z.leb_le in E1; apply Z.ltb_lt in E2. eexists; split; [|reflexivity]. lia.
  - eexists; split; [|reflexivity]. apply Z.mod_pos_bound; lia.
Qed.

(*@C51 In a release build (where integer arithmetic wraps), [serialize] returns for every PDU value whatsoever, except for Entity State and Aggregate State PDUs whose marking is longer than the room for it: either the buffer is too small and nothing is written, or the PDU is appended to what the buffer held and the call reports a size that fits 16 bits. With a marking that is too long, it fails — always, unless the buffer is found too small first. *)
Lemma release_serialize_total_pf : forall (p : Pdu) (buf : list Z) (capacity : Z),
  (exists n, 0 <= n < 65536 /\ capacity < n /\ serialize Wrapping p buf capacity = (buf, InsufficientBufferSize n capacity)) \/
  (Forall text_fits (texts (pdu_body p)) /\
   exists written n, 0 <= n < 65536 /\ serialize Wrapping p buf capacity = (buf ++ written, Written n)) \/
  (~ Forall text_fits (texts (pdu_body p)) /\ snd (serialize Wrapping p buf capacity) = Panicked).
Proof.
  intros p buf capacity. unfold serialize, pdu_length.
  destruct (Tot_body_length (pdu_body p)) as (b0 & n0 & ->). cbv [wbind].
  destruct (add16_wraps 12 n0) as (n & Rn & ->).
  destruct (capacity <? n) eqn:C.
  { left. apply Z.ltb_lt in C. exists n. split; [exact Rn|]. split; [exact C|reflexivity]. }
  right. unfold w_pdu.
  assert (D : Forall text_fits (texts (pdu_body p)) \/ ~ Forall text_fits (texts (pdu_body p))).
  { destruct (Forall_dec text_fits (fun t => Z_le_dec (zlen (snd t)) (fst t)) (texts (pdu_body p))); [left|right]; assumption. }
  destruct D as [F|F].
  - left. split; [exact F|]. destruct (Tot_w_header (pdu_header p)) as (hb & hs & ->).
    destruct (Tot_w_body (h_version (pdu_header p)) _ F) as (bb & bs & ->). cbv [wbind].
    destruct (add16_wraps hs bs) as (r & Rr & ->). eexists; exists r. split; [exact Rr|reflexivity].
  - right. split; [exact F|]. destruct (Tot_w_header (pdu_header p)) as (hb & hs & ->).
    rewrite (long_w_body Wrapping _ _ F). reflexivity.
Qed.

(*@C51 The release-build guarantee does not depend on the PDU being representable on the wire: a Comment with a datum of 9000 octets, which a debug build may refuse, is written in a release build. *)
Lemma release_serialize_example_pf : forall (x : Comment) (h : PduHeader) (buf : list Z),
  exists written n, 0 <= n < 65536 /\ serialize Wrapping (MkPdu h (BComment x)) buf 65536 = (buf ++ written, Written n).
Proof.
  intros x h buf. destruct (release_serialize_total_pf (MkPdu h (BComment x)) buf 65536) as [(n & R & L & _)|[[_ H]|[N _]]].
  - lia.
  - exact H.
  - exfalso; apply N; constructor.
Qed.
(*@C51 A marking of twelve octets does make it fail, in a release and in a debug build. *)
Lemma release_serialize_long_marking_refuted_pf : forall (m : mode) (h : PduHeader) (x : EntityState) (buf : list Z) (capacity : Z),
  zlen (mk_string (EntityState_marking x)) = 12 -> zlen (EntityState_variable_parameters x) < 256 -> 65536 <= capacity ->
  snd (serialize m (MkPdu h (BEntityState x)) buf capacity) = Panicked.
Proof.
  intros m h x buf capacity L V C. unfold serialize, pdu_length. cbn [pdu_body body_length]. unfold len_entity_state, mul16, add16.
  pose proof (zlen_nonneg (EntityState_variable_parameters x)) as N.
  set (k := zlen (EntityState_variable_parameters x)) in *. rewrite (Z.mod_small k 65536) by lia.
  rewrite (arith_ok m (16 * k)) by lia. cbv [wbind]. rewrite (arith_ok m (132 + 16 * k)) by lia. rewrite (arith_ok m (12 + (132 + 16 * k))) by lia.
  rewrite (proj2 (Z.ltb_ge capacity (12 + (132 + 16 * k)))) by lia.
  unfold w_pdu. cbn [pdu_header pdu_body]. destruct (Tot_w_header h) as (hb & hs & ->).
  rewrite long_w_body; [reflexivity|]. intros F. apply Forall_inv in F. unfold text_fits in F; cbn in F. lia.
Qed.
