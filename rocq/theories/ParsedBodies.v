(** What each parser returns. *)
From Coq Require Import ZArith List Lia Bool.
From Verif Require Import Base Utf8 DisCommon DisLists DisHeader DisSimman DisLogistics DisWarfare DisEntity DisEmission DisRadio DisIff DisPdu DisPacket SpecSize SpecRelay Parsed.
Import ListNotations. Open Scope Z_scope.
Lemma G_entity_id : Gives p_entity_id wf_EntityId. Proof. unfold p_entity_id. gvs wf_EntityId. Qed.
Global Hint Resolve G_entity_id : gives.
Lemma G_event_id : Gives p_event_id wf_EventId. Proof. unfold p_event_id. gvs wf_EventId. Qed.
Global Hint Resolve G_event_id : gives.
Lemma G_vec3_f32 : Gives p_vec3_f32 wf_VectorF32. Proof. eapply Gives_pext; [exact p_vec3_alt|]. gvs wf_VectorF32. Qed.
Global Hint Resolve G_vec3_f32 : gives.
Lemma G_location : Gives p_location wf_Location. Proof. eapply Gives_pext; [exact p_location_alt|]. gvs wf_Location. Qed.
Global Hint Resolve G_location : gives.
Lemma G_orientation : Gives p_orientation wf_Orientation. Proof. eapply Gives_pext; [exact p_orientation_alt|]. gvs wf_Orientation. Qed.
Global Hint Resolve G_orientation : gives.
Lemma G_entity_type : Gives p_entity_type wf_EntityType. Proof. unfold p_entity_type. gvs wf_EntityType. Qed.
Global Hint Resolve G_entity_type : gives.
Lemma G_munition_descriptor : Gives p_munition_descriptor wf_MunitionDescriptor. Proof. unfold p_munition_descriptor. gvs wf_MunitionDescriptor. Qed.
Global Hint Resolve G_munition_descriptor : gives.
Ltac eqbs := repeat match goal with H : (_ =? _) = false |- _ => apply Z.eqb_neq in H | H : (_ =? _) = true |- _ => apply Z.eqb_eq in H end.
Lemma G_descriptor_record_fti fti : Gives (p_descriptor_record_fti fti) (fun d => wf_DescriptorRecord d /\ descriptor_fits_fti fti d).
Proof. unfold p_descriptor_record_fti. gv; eqbs; cbn; parts. Qed.
Global Hint Resolve G_descriptor_record_fti : gives.
Lemma G_descriptor_record_dti dti : Gives (p_descriptor_record_dti dti) (fun d => wf_DescriptorRecord d /\ descriptor_fits_dti dti d).
Proof. unfold p_descriptor_record_dti. gv; eqbs; cbn; parts. Qed.
Global Hint Resolve G_descriptor_record_dti : gives.
Lemma G_clock_time : Gives p_clock_time wf_ClockTime. Proof. unfold p_clock_time. gvs wf_ClockTime. Qed.
Global Hint Resolve G_clock_time : gives.
Lemma G_fixed_datum : Gives p_fixed_datum wf_FixedDatum. Proof. unfold p_fixed_datum. gvs wf_FixedDatum. Qed.
Global Hint Resolve G_fixed_datum : gives.
Lemma G_variable_datum : Gives p_variable_datum wf_VariableDatum. Proof. unfold p_variable_datum. gvs wf_VariableDatum. Qed.
Global Hint Resolve G_variable_datum : gives.
Lemma G_datum_specification : Gives p_datum_specification (fun d => Forall wf_FixedDatum (ds_fixed d) /\ Forall wf_VariableDatum (ds_variable d)).
Proof. unfold p_datum_specification. gv. cbn. parts. Qed.
Global Hint Resolve G_datum_specification : gives.
Definition wfc_vp (v : VariableParameter) : Prop := wf_VariableParameter v /\ vp_canonical v.
Lemma G_articulated_part : Gives p_articulated_part wfc_vp.
Proof.
  unfold p_articulated_part. gv. unfold wfc_vp; cbn. change 31 with (Z.ones 5).
  rewrite Z.land_ones by lia. change (2 ^ 5) with 32. unfold u8, u16, u32 in *.
  match goal with |- context [?x mod 32] => pose proof (Z.mod_pos_bound x 32); assert ((x - x mod 32) mod 32 = 0) by (rewrite Zminus_mod_idemp_r, Z.sub_diag; reflexivity); pose proof (Z.mod_le x 32) end.
  repeat split; lia.
Qed.
Global Hint Resolve G_articulated_part : gives.
Lemma G_attached_part : Gives p_attached_part wfc_vp. Proof. unfold p_attached_part. gv. unfold wfc_vp. cbn. parts. Qed.
Global Hint Resolve G_attached_part : gives.
Lemma G_entity_association : Gives p_entity_association wfc_vp. Proof. unfold p_entity_association. gv. unfold wfc_vp. cbn. parts. Qed.
Global Hint Resolve G_entity_association : gives.
Lemma G_entity_type_vp : Gives p_entity_type_vp wfc_vp. Proof. unfold p_entity_type_vp. gv. unfold wfc_vp. cbn. parts. Qed.
Global Hint Resolve G_entity_type_vp : gives.
Lemma G_separation : Gives p_separation wfc_vp. Proof. unfold p_separation. gv. unfold wfc_vp. cbn. parts. Qed.
Global Hint Resolve G_separation : gives.
Lemma G_variable_parameter : Gives p_variable_parameter wfc_vp.
Proof.
  unfold p_variable_parameter. gv. unfold wfc_vp. cbn.
  repeat match goal with H : (_ =? _) = false |- _ => apply Z.eqb_neq in H end. parts.
Qed.
Global Hint Resolve G_variable_parameter : gives.
Lemma G_beam_data : Gives p_beam_data wf_BeamData. Proof. unfold p_beam_data. gvs wf_BeamData. Qed.
Global Hint Resolve G_beam_data : gives.
Lemma G_supply_quantity : Gives p_supply_quantity wf_SupplyQuantity. Proof. unfold p_supply_quantity. gvs wf_SupplyQuantity. Qed.
Global Hint Resolve G_supply_quantity : gives.
Definition wfc_rs (r : RecordSet) : Prop := wf_RecordSet r /\ rs_uniform r /\ rs_length_bytes r <= 8192 /\ zlen (rs_records r) < 65536.
Lemma G_record_set m : Gives (p_record_set m) wfc_rs.
Proof.
  unfold p_record_set. cbv zeta. gv. unfold wfc_rs, wf_RecordSet, rs_uniform, record_set_with_records. cbn [rs_id rs_serial rs_records rs_length_bytes].
  unfold u16, u32 in *.
  assert (0 <= (a2 + 7) / 8 <= 8192) by (split; [apply Z.div_pos; lia|apply Z.lt_succ_r, Z.div_lt_upper_bound; lia]).
  assert (L : Forall (fun x => zlen x = (a2 + 7) / 8) a4) by (eapply Forall_impl; [|exact H4]; cbn; intros; lia).
  assert (B : Forall bytes a4) by (eapply Forall_impl; [|exact H4]; cbn; intros; tauto). clear H4. destruct a4 as [|y rs].
  - repeat split; try constructor; try lia.
  - pose proof (Forall_inv L) as Hy. cbn beta in Hy. rewrite (Z.mod_small (zlen y)) by lia. rewrite Hy.
    repeat split; try assumption; try lia. intros; discriminate.
Qed.
Global Hint Resolve G_record_set : gives.
Lemma G_record_specification m : Gives (p_record_specification m) (fun l => Forall wf_RecordSet l /\ Forall (fun r => rs_uniform r /\ zlen (rs_records r) < 65536) l).
Proof. unfold p_record_specification. gv. split; (eapply Forall_impl; [|eassumption]); unfold wfc_rs; intros; tauto. Qed.
Global Hint Resolve G_record_specification : gives.
Lemma G_record_query_specification : Gives p_record_query_specification (Forall u32).
Proof. unfold p_record_query_specification. gv. assumption. Qed.
Global Hint Resolve G_record_query_specification : gives.
Lemma G_relationship : Gives p_relationship wf_Relationship. Proof. unfold p_relationship. gvs wf_Relationship. Qed.
Global Hint Resolve G_relationship : gives.
Lemma G_named_location_id : Gives p_named_location_id wf_NamedLocationId. Proof. unfold p_named_location_id. gvs wf_NamedLocationId. Qed.
Global Hint Resolve G_named_location_id : gives.
Lemma G_acknowledge_body : Gives p_acknowledge_body wf_Acknowledge. Proof. unfold p_acknowledge_body. gvs wf_Acknowledge. Qed.
Global Hint Resolve G_acknowledge_body : gives.
Lemma G_acknowledge_r_body : Gives p_acknowledge_r_body wf_AcknowledgeR. Proof. unfold p_acknowledge_r_body. gvs wf_AcknowledgeR. Qed.
Global Hint Resolve G_acknowledge_r_body : gives.
Lemma G_create_entity_body : Gives p_create_entity_body wf_CreateEntity. Proof. unfold p_create_entity_body. gvs wf_CreateEntity. Qed.
Global Hint Resolve G_create_entity_body : gives.
Lemma G_create_entity_r_body : Gives p_create_entity_r_body wf_CreateEntityR. Proof. unfold p_create_entity_r_body. gvs wf_CreateEntityR. Qed.
Global Hint Resolve G_create_entity_r_body : gives.
Lemma G_remove_entity_body : Gives p_remove_entity_body wf_RemoveEntity. Proof. unfold p_remove_entity_body. gvs wf_RemoveEntity. Qed.
Global Hint Resolve G_remove_entity_body : gives.
Lemma G_remove_entity_r_body : Gives p_remove_entity_r_body wf_RemoveEntityR. Proof. unfold p_remove_entity_r_body. gvs wf_RemoveEntityR. Qed.
Global Hint Resolve G_remove_entity_r_body : gives.
Lemma G_start_resume_body : Gives p_start_resume_body wf_StartResume. Proof. unfold p_start_resume_body. gvs wf_StartResume. Qed.
Global Hint Resolve G_start_resume_body : gives.
Lemma G_start_resume_r_body : Gives p_start_resume_r_body wf_StartResumeR. Proof. unfold p_start_resume_r_body. gvs wf_StartResumeR. Qed.
Global Hint Resolve G_start_resume_r_body : gives.
Lemma G_stop_freeze_body : Gives p_stop_freeze_body wf_StopFreeze. Proof. unfold p_stop_freeze_body. gvs wf_StopFreeze. Qed.
Global Hint Resolve G_stop_freeze_body : gives.
Lemma G_stop_freeze_r_body : Gives p_stop_freeze_r_body wf_StopFreezeR. Proof. unfold p_stop_freeze_r_body. gvs wf_StopFreezeR. Qed.
Global Hint Resolve G_stop_freeze_r_body : gives.
Lemma G_action_request_body : Gives p_action_request_body wf_ActionRequest. Proof. unfold p_action_request_body. gvs wf_ActionRequest. Qed.
Global Hint Resolve G_action_request_body : gives.
Lemma G_action_request_r_body : Gives p_action_request_r_body wf_ActionRequestR. Proof. unfold p_action_request_r_body. gvs wf_ActionRequestR. Qed.
Global Hint Resolve G_action_request_r_body : gives.
Lemma G_action_response_body : Gives p_action_response_body wf_ActionResponse. Proof. unfold p_action_response_body. gvs wf_ActionResponse. Qed.
Global Hint Resolve G_action_response_body : gives.
Lemma G_action_response_r_body : Gives p_action_response_r_body wf_ActionResponse. Proof. unfold p_action_response_r_body. gvs wf_ActionResponse. Qed.
Global Hint Resolve G_action_response_r_body : gives.
Lemma G_comment_body : Gives p_comment_body wf_Comment. Proof. unfold p_comment_body. gvs wf_Comment. Qed.
Global Hint Resolve G_comment_body : gives.
Lemma G_comment_r_body : Gives p_comment_r_body wf_CommentR. Proof. unfold p_comment_r_body. gvs wf_CommentR. Qed.
Global Hint Resolve G_comment_r_body : gives.
Lemma G_data_body : Gives p_data_body wf_Data. Proof. unfold p_data_body. gvs wf_Data. Qed.
Global Hint Resolve G_data_body : gives.
Lemma G_data_r_body : Gives p_data_r_body wf_DataR. Proof. unfold p_data_r_body. gvs wf_DataR. Qed.
Global Hint Resolve G_data_r_body : gives.
Lemma G_set_data_body : Gives p_set_data_body wf_SetData. Proof. unfold p_set_data_body. gvs wf_SetData. Qed.
Global Hint Resolve G_set_data_body : gives.
Lemma G_set_data_r_body : Gives p_set_data_r_body wf_SetDataR. Proof. unfold p_set_data_r_body. gvs wf_SetDataR. Qed.
Global Hint Resolve G_set_data_r_body : gives.
Lemma G_event_report_body : Gives p_event_report_body wf_EventReport. Proof. unfold p_event_report_body. gvs wf_EventReport. Qed.
Global Hint Resolve G_event_report_body : gives.
Lemma G_event_report_r_body : Gives p_event_report_r_body wf_EventReportR. Proof. unfold p_event_report_r_body. gvs wf_EventReportR. Qed.
Global Hint Resolve G_event_report_r_body : gives.
Lemma G_data_query_body : Gives p_data_query_body wf_DataQuery. Proof. unfold p_data_query_body. gvs wf_DataQuery. Qed.
Global Hint Resolve G_data_query_body : gives.
Lemma G_data_query_r_body : Gives p_data_query_r_body wf_DataQueryR. Proof. unfold p_data_query_r_body. gvs wf_DataQueryR. Qed.
Global Hint Resolve G_data_query_r_body : gives.
Lemma G_record_query_r_body : Gives p_record_query_r_body wf_RecordQueryR. Proof. unfold p_record_query_r_body. gvs wf_RecordQueryR. Qed.
Global Hint Resolve G_record_query_r_body : gives.
Lemma G_record_r_body m : Gives (p_record_r_body m) (fun x => wf_RecordR x /\ Forall (fun r => rs_uniform r /\ zlen (rs_records r) < 65536) (RecordR_record_specification x)).
Proof. unfold p_record_r_body. gvs wf_RecordR. Qed.
Global Hint Resolve G_record_r_body : gives.
Lemma G_set_record_r_body m : Gives (p_set_record_r_body m) (fun x => wf_SetRecordR x /\ Forall (fun r => rs_uniform r /\ zlen (rs_records r) < 65536) (SetRecordR_record_specification x)).
Proof. unfold p_set_record_r_body. gvs wf_SetRecordR. Qed.
Global Hint Resolve G_set_record_r_body : gives.
Lemma G_service_request_body : Gives p_service_request_body (fun x => wf_ServiceRequest x /\ zlen (ServiceRequest_supplies x) < 256).
Proof. unfold p_service_request_body. gvs wf_ServiceRequest. Qed.
Global Hint Resolve G_service_request_body : gives.
Lemma G_resupply_offer_body : Gives p_resupply_offer_body (fun x => wf_ResupplyOffer x /\ zlen (ResupplyOffer_supplies x) < 256).
Proof. unfold p_resupply_offer_body. gvs wf_ResupplyOffer. Qed.
Global Hint Resolve G_resupply_offer_body : gives.
Lemma G_resupply_received_body : Gives p_resupply_received_body (fun x => wf_ResupplyReceived x /\ zlen (ResupplyReceived_supplies x) < 256).
Proof. unfold p_resupply_received_body. gvs wf_ResupplyReceived. Qed.
Global Hint Resolve G_resupply_received_body : gives.
Lemma G_resupply_cancel_body : Gives p_resupply_cancel_body wf_ResupplyCancel. Proof. unfold p_resupply_cancel_body. gvs wf_ResupplyCancel. Qed.
Global Hint Resolve G_resupply_cancel_body : gives.
Lemma G_repair_complete_body : Gives p_repair_complete_body wf_RepairComplete. Proof. unfold p_repair_complete_body. gvs wf_RepairComplete. Qed.
Global Hint Resolve G_repair_complete_body : gives.
Lemma G_repair_response_body : Gives p_repair_response_body wf_RepairResponse. Proof. unfold p_repair_response_body. gvs wf_RepairResponse. Qed.
Global Hint Resolve G_repair_response_body : gives.
Lemma G_collision_body : Gives p_collision_body wf_Collision. Proof. unfold p_collision_body. gvs wf_Collision. Qed.
Global Hint Resolve G_collision_body : gives.
Lemma G_collision_elastic_body : Gives p_collision_elastic_body wf_CollisionElastic. Proof. unfold p_collision_elastic_body. gvs wf_CollisionElastic. Qed.
Global Hint Resolve G_collision_elastic_body : gives.
Lemma G_receiver_body : Gives p_receiver_body wf_Receiver. Proof. unfold p_receiver_body. gvs wf_Receiver. Qed.
Global Hint Resolve G_receiver_body : gives.
Lemma G_designator_body : Gives p_designator_body wf_Designator. Proof. unfold p_designator_body. gvs wf_Designator. Qed.
Global Hint Resolve G_designator_body : gives.
Lemma G_is_part_of_body : Gives p_is_part_of_body wf_IsPartOf. Proof. unfold p_is_part_of_body. gvs wf_IsPartOf. Qed.
Global Hint Resolve G_is_part_of_body : gives.
Lemma G_transfer_ownership_body m : Gives (p_transfer_ownership_body m) (fun x => wf_TransferOwnership x /\ Forall (fun r => rs_uniform r /\ zlen (rs_records r) < 65536) (TransferOwnership_record_specification x)).
Proof. unfold p_transfer_ownership_body. gvs wf_TransferOwnership. Qed.
Global Hint Resolve G_transfer_ownership_body : gives.
Lemma G_vps n : Gives (p_vps n) (fun l => Forall wf_VariableParameter l /\ Forall vp_canonical l /\ zlen l = Z.of_nat (Z.to_nat n)).
Proof.
  eapply Gives_pext; [exact (p_vps_eq n)|]. eapply Gives_weaken; [apply Gives_count, G_variable_parameter|].
  intros l [Hl Hn]. split; [|split; [|exact Hn]]; (eapply Forall_impl; [|exact Hl]); unfold wfc_vp; intros; tauto.
Qed.
Global Hint Resolve G_vps : gives.
Lemma G_fire_body fti : Gives (p_fire_body fti) (fun x => wf_Fire x /\ fits_fire fti x).
Proof. unfold p_fire_body. gv. unfold wf_Fire, fits_fire. cbn [Fire_firing_entity_id Fire_target_entity_id Fire_entity_id Fire_event_id Fire_fire_mission_index
    Fire_location_in_world Fire_descriptor Fire_velocity Fire_range]. parts. Qed.
Global Hint Resolve G_fire_body : gives.
Lemma G_detonation_body dti : Gives (p_detonation_body dti) (fun x => wf_Detonation x /\ descriptor_fits_dti dti (Detonation_descriptor x) /\
  zlen (Detonation_variable_parameters x) < 256 /\ Forall vp_canonical (Detonation_variable_parameters x)).
Proof. unfold p_detonation_body. gv. unfold wf_Detonation. cbn [Detonation_source_entity_id Detonation_target_entity_id Detonation_exploding_entity_id Detonation_event_id Detonation_velocity Detonation_world_location Detonation_descriptor Detonation_entity_location Detonation_result Detonation_variable_parameters]. parts. Qed.
Global Hint Resolve G_detonation_body : gives.
Lemma G_entity_appearance k d : Gives (p_entity_appearance k d) (fun a => wf_EntityAppearance a /\ ea_kind a = appearance_kind k d).
Proof. unfold p_entity_appearance. gv. unfold wf_EntityAppearance. cbn. parts. Qed.
Global Hint Resolve G_entity_appearance : gives.
Lemma G_entity_state_update_body : Gives p_entity_state_update_body (fun x => wf_EntityStateUpdate x /\ ea_kind (EntityStateUpdate_appearance x) = AUnspecified /\
  zlen (EntityStateUpdate_variable_parameters x) < 256 /\ Forall vp_canonical (EntityStateUpdate_variable_parameters x)).
Proof. unfold p_entity_state_update_body. gvs wf_EntityStateUpdate. Qed.
Global Hint Resolve G_entity_state_update_body : gives.
Lemma G_propulsion : Gives p_propulsion wf_Propulsion. Proof. unfold p_propulsion. gvs wf_Propulsion. Qed.
Global Hint Resolve G_propulsion : gives.
Lemma G_nozzle : Gives p_nozzle wf_Nozzle. Proof. unfold p_nozzle. gvs wf_Nozzle. Qed.
Global Hint Resolve G_nozzle : gives.
Lemma G_sees_body : Gives p_sees_body wf_Sees. Proof. unfold p_sees_body. gvs wf_Sees. Qed.
Global Hint Resolve G_sees_body : gives.
Lemma G_other_body ty len : other_type ty -> Gives (p_other_body ty len) (fun x => wf_Other x /\ Z.max 12 len = 12 + size_other x /\ (size_other x < 65524 -> fits_other ty x)).
Proof.
  intros Ho. assert (E : other_peeks_one ty = false /\ other_peeks_two ty = false).
  { assert (N : forall k, In k implemented_types -> (ty =? k) = false) by (intros k Hk; apply Z.eqb_neq; intros <-; contradiction). unfold implemented_types in N.
    unfold other_peeks_one, other_peeks_two. cbn [existsb]. split; repeat (rewrite N by (repeat first [left; reflexivity | right])); reflexivity. }
  unfold p_other_body, fits_other. destruct E as [-> ->].
  eapply Gives_bind with (P := fun ids => ids = (None, None)); [apply Gives_ret; reflexivity|]. intros ids ->. cbn [fst snd].
  gv. unfold wf_Other, size_other. cbn [Other_body Other_originating Other_receiving]. repeat split; try assumption; lia.
Qed.
Global Hint Resolve G_other_body : gives.
Lemma G_attribute_record : Gives p_attribute_record wf_AttributeRecord. Proof. unfold p_attribute_record. gvs wf_AttributeRecord. Qed.
Global Hint Resolve G_attribute_record : gives.
Lemma G_attribute_record_set : Gives p_attribute_record_set wf_AttributeRecordSet. Proof. unfold p_attribute_record_set. gvs wf_AttributeRecordSet. Qed.
Global Hint Resolve G_attribute_record_set : gives.
Lemma G_attribute_body : Gives p_attribute_body wf_Attribute. Proof. unfold p_attribute_body. gvs wf_Attribute. Qed.
Global Hint Resolve G_attribute_body : gives.
Lemma be_S n x : be (S n) x = (x / 256 ^ Z.of_nat n) mod 256 :: be n x. Proof. reflexivity. Qed.
Lemma be_add n : forall k v q, Z.of_nat n <= k -> be n (v + q * 256 ^ k) = be n v.
Proof.
  induction n as [|n IH]; intros k v q H; [reflexivity|]. rewrite !be_S. rewrite (IH k v q) by lia. f_equal.
  replace (256 ^ k) with (256 * 256 ^ (k - 1 - Z.of_nat n) * 256 ^ Z.of_nat n).
  - rewrite Z.mul_assoc, Z.div_add by (apply Z.pow_nonzero; lia).
    replace (q * (256 * 256 ^ (k - 1 - Z.of_nat n))) with (q * 256 ^ (k - 1 - Z.of_nat n) * 256) by ring. apply Z_mod_plus_full.
  - rewrite <- Z.pow_succ_r, <- Z.pow_add_r by lia. f_equal. lia.
Qed.
Lemma be_be_val l : bytes l -> be (length l) (be_val l) = l.
Proof.
  induction l as [|b l IH]; intros H; [reflexivity|]. inversion H as [|? ? Hb Hl]; subst. cbn [length]. rewrite be_S, be_val_cons. pose proof (be_val_bound l Hl) as B. unfold zlen in *.
  assert (0 < 256 ^ Z.of_nat (length l)) by (apply Z.pow_pos_nonneg; lia).
  rewrite Z.div_add_l, (Z.div_small (be_val l)), Z.add_0_r, Z.mod_small by (lia || assumption).
  rewrite (Z.add_comm (b * _)), be_add by lia. now rewrite IH.
Qed.
Lemma skipn_add {A} n k : forall l : list A, skipn k (skipn n l) = skipn (n + k) l.
Proof. induction n as [|n IH]; intros l; [reflexivity|]. destruct l as [|x l]; [now rewrite !skipn_nil|]. cbn. apply IH. Qed.
Lemma slice_val data a k : bytes data -> 0 <= a -> 0 <= k -> a + k <= zlen data ->
  let w := be_val (firstn (Z.to_nat k) (skipn (Z.to_nat a) data)) in
  0 <= w < 256 ^ k /\ skipn (Z.to_nat a) data = be (Z.to_nat k) w ++ skipn (Z.to_nat (a + k)) data.
Proof.
  intros B Ha Hk Hl w. set (f := firstn (Z.to_nat k) (skipn (Z.to_nat a) data)) in *.
  assert (Bf : bytes f) by (apply bytes_firstn, bytes_skipn, B).
  assert (L : length f = Z.to_nat k) by (unfold f; rewrite firstn_length, skipn_length; unfold zlen in *; lia).
  split; [pose proof (be_val_bound f Bf); unfold zlen in *; rewrite L, Z2Nat.id in * by lia; exact H|].
  rewrite <- L at 1. unfold w. rewrite be_be_val by exact Bf. unfold f.
  rewrite Z2Nat.inj_add, <- skipn_add by lia. symmetry. apply firstn_skipn.
Qed.
Lemma G_slice data a k : bytes data -> 0 <= a -> 0 <= k ->
  Gives (slice_u32 data a (a + k)) (fun w => a + k <= zlen data /\ 0 <= w < 256 ^ k /\ skipn (Z.to_nat a) data = be (Z.to_nat k) w ++ skipn (Z.to_nat (a + k)) data).
Proof.
  intros B Ha Hk i r x Bi E. unfold slice_u32 in E. replace (a + k - a) with k in E by lia.
  destruct (Z.ltb_spec (zlen data) (a + k)); [discriminate|]. inversion E; subst. split; [exact Bi|]. split; [assumption|]. apply slice_val; assumption.
Qed.
Lemma G_encoding_scheme v data : u16 v -> bytes data -> Gives (p_encoding_scheme v data) (fun e => wf_EncodingScheme e /\ es_ok data e).
Proof.
  intros Hv Hd. unfold p_encoding_scheme, u16 in *. cbv zeta.
  assert (Hc : 0 <= v / 16384 <= 3) by (split; [apply Z.div_pos; lia|apply Z.lt_succ_r, Z.div_lt_upper_bound; lia]).
  pose proof (Z.mod_pos_bound v 16384 ltac:(lia)).
  assert (C : v / 16384 = 0 \/ v / 16384 = 1 \/ v / 16384 = 2 \/ v / 16384 = 3) by lia.
  destruct C as [-> | [-> | [-> | ->]]].
  - apply Gives_ret. unfold wf_EncodingScheme, es_ok, u16. lia.
  - apply Gives_ret. unfold wf_EncodingScheme, es_ok, u16. lia.
  - eapply Gives_bind; [apply (G_slice data 0 4 Hd); lia|]. intros w (Hl & Hw & E). apply Gives_ret.
    unfold wf_EncodingScheme, es_ok, u16, u32. change (256 ^ 4) with 4294967296 in *. repeat split; try lia. eexists. exact E.
  - eapply Gives_bind; [apply (G_slice data 0 4 Hd); lia|]. intros w (Hl & Hw & E).
    eapply Gives_bind; [apply (G_slice data 4 4 Hd); lia|]. intros w1 (Hl1 & Hw1 & E1).
    eapply Gives_bind; [apply (G_slice data 8 4 Hd); lia|]. intros w2 (Hl2 & Hw2 & E2). apply Gives_ret.
    unfold wf_EncodingScheme, es_ok, u16, u32. change (256 ^ 4) with 4294967296 in *. repeat split; try lia.
    eexists. change (skipn (Z.to_nat 0) data) with data in E. change (0 + 4) with 4 in E. change (4 + 4) with 8 in E1.
    rewrite E1, E2 in E. exact E.
Qed.
Global Hint Extern 1 (Gives (p_encoding_scheme _ _) _) => apply G_encoding_scheme; assumption : gives.
Lemma G_signal_body : Gives p_signal_body (fun x => wf_Signal x /\ zlen (Signal_data x) < 8192 /\ es_ok (Signal_data x) (Signal_encoding_scheme x)).
Proof.
  unfold p_signal_body. gv.
  unfold wf_Signal. cbn [Signal_radio_reference_id Signal_radio_number Signal_encoding_scheme Signal_tdl_type Signal_sample_rate Signal_samples Signal_data].
  assert (zlen a6 < 8192) by (match goal with H : u16 ?b, L : zlen _ = Z.max 0 (?b / 8) |- _ => rewrite L; assert (b / 8 < 8192) by (unfold u16 in H; apply Z.div_lt_upper_bound; lia); lia end).
  parts.
Qed.
Global Hint Resolve G_signal_body : gives.
Lemma G_marking n : Gives (p_marking n) (fun x => wf_Marking x /\ exists s, Forall scalar s /\ mk_string x = utf8_encode s /\ ends_alnum s).
Proof.
  unfold p_marking. gv. unfold wf_Marking. cbn [mk_charset mk_string].
  match goal with B : bytes ?b |- context [sanitize_marking ?b] =>
    destruct (sanitize_spec b) as (s & t & E1 & E2 & _ & E3); pose proof (lossy_scalar b B) as S; rewrite E1 in S; apply Forall_app in S; destruct S as [S _] end.
  rewrite E3. split; [split; [assumption|apply utf8_encode_bytes; assumption]|]. exists s. auto.
Qed.
Global Hint Resolve G_marking : gives.
Lemma G_capabilities v k d : Gives (p_capabilities v k d) (fun c => wf_EntityCapabilities c /\ (v = 6 \/ v = 7 \/ ec_word c = 0 -> capabilities_ok v k d c)).
Proof.
  unfold p_capabilities, capabilities_from_bytes, wf_EntityCapabilities, capabilities_ok.
  destruct (Z.eqb_spec v 7); gv; unfold u32 in *.
  - destruct (k =? 0); cbn [ec_word ec_kind]; split; intros; try reflexivity; lia.
  - cbn [ec_word ec_kind]. assert (0 <= a / 268435456 < 16) by (split; [apply Z.div_pos; lia|apply Z.div_lt_upper_bound; lia]).
    split; [lia|]. intros Hv. split; [reflexivity|]. destruct (Z.eqb_spec v 6); [apply Z.mod_mul; lia|]. destruct Hv as [Hv|[Hv|Hv]]; [contradiction|contradiction|exact Hv].
Qed.
Global Hint Resolve G_capabilities : gives.
Lemma G_dr_other alg : Gives (p_dr_other alg) (fun d => wf_DrOther d /\ dr_ok (MkDr alg d (MkVectorF32 0 0 0) (MkVectorF32 0 0 0))).
Proof. unfold p_dr_other, dr_ok. gv; cbn [dr_other dr_algorithm wf_DrOther]; parts. Qed.
Global Hint Resolve G_dr_other : gives.
Lemma G_dr_parameters : Gives p_dr_parameters (fun d => wf_Dr d /\ dr_ok d).
Proof. unfold p_dr_parameters. gv. unfold wf_Dr, dr_ok in *. cbn [dr_other dr_algorithm dr_acceleration dr_velocity] in *. parts. Qed.
Global Hint Resolve G_dr_parameters : gives.
Lemma G_entity_state_body v : Gives (p_entity_state_body v) (fun x => wf_EntityState x /\
  zlen (EntityState_variable_parameters x) < 256 /\ Forall vp_canonical (EntityState_variable_parameters x) /\
  ea_kind (EntityState_appearance x) = appearance_kind (et_kind (EntityState_entity_type x)) (et_domain (EntityState_entity_type x)) /\ dr_ok (EntityState_dr x) /\
  (exists s, Forall scalar s /\ mk_string (EntityState_marking x) = utf8_encode s /\ ends_alnum s) /\
  (v = 6 \/ v = 7 \/ ec_word (EntityState_capabilities x) = 0 -> capabilities_ok v (et_kind (EntityState_entity_type x)) (et_domain (EntityState_entity_type x)) (EntityState_capabilities x))).
Proof. unfold p_entity_state_body. gv. unfold wf_EntityState. cbn [EntityState_entity_id EntityState_force_id EntityState_entity_type EntityState_alternative_entity_type EntityState_velocity EntityState_location EntityState_orientation EntityState_appearance EntityState_dr EntityState_marking EntityState_capabilities EntityState_variable_parameters]. parts. Qed.
Global Hint Resolve G_entity_state_body : gives.
Lemma G_aggregate_type : Gives p_aggregate_type wf_AggregateType. Proof. unfold p_aggregate_type. gvs wf_AggregateType. Qed.
Global Hint Resolve G_aggregate_type : gives.
Lemma G_silent_aggregate : Gives p_silent_aggregate wf_SilentAggregate. Proof. unfold p_silent_aggregate. gvs wf_SilentAggregate. Qed.
Global Hint Resolve G_silent_aggregate : gives.
Lemma G_silent_entity : Gives p_silent_entity (fun s => wf_SilentEntity s /\ silent_entity_ok s).
Proof.
  unfold p_silent_entity. gv. unfold wf_SilentEntity, silent_entity_ok. cbn [se_number se_type se_appearances].
  match goal with H : Forall _ _ |- _ => rename H into F end.
  assert (Forall wf_EntityAppearance a2) by (eapply Forall_impl; [|exact F]; cbn; tauto).
  split; [parts|]. eapply Forall_impl; [|exact F]; cbn; tauto.
Qed.
Global Hint Resolve G_silent_entity : gives.
Lemma G_aggregate_state_body m : Gives (p_aggregate_state_body m) (fun x => wf_AggregateState x /\ Forall silent_entity_ok (AggregateState_silent_entities x) /\
  (exists s, Forall scalar s /\ mk_string (AggregateState_marking x) = utf8_encode s /\ ends_alnum s)).
Proof.
  unfold p_aggregate_state_body.
  assert (P : forall ags ens, Gives (plift (agg_intermediate m ags ens)) (fun _ => True)) by (intros; apply Gives_plift; trivial).
  gv. unfold wf_AggregateState. cbn [AggregateState_aggregate_id AggregateState_force_id AggregateState_aggregate_state AggregateState_aggregate_type AggregateState_formation
    AggregateState_marking AggregateState_dimensions AggregateState_orientation AggregateState_center_of_mass AggregateState_velocity AggregateState_aggregates AggregateState_entities
    AggregateState_silent_aggregates AggregateState_silent_entities AggregateState_variable_datums].
  match goal with H : Forall (fun s => wf_SilentEntity s /\ _) ?ses |- _ =>
    assert (Forall wf_SilentEntity ses) by (eapply Forall_impl; [|exact H]; cbn; tauto);
    assert (Forall silent_entity_ok ses) by (eapply Forall_impl; [|exact H]; cbn; tauto) end.
  parts.
Qed.
Global Hint Resolve G_aggregate_state_body : gives.
Ltac foralls := repeat match goal with H : Forall (fun _ => _ /\ _) _ |- _ => apply Forall_and_inv in H; destruct H end.
Lemma G_propulsion_plant : Gives p_propulsion_plant (fun p => wf_PropulsionPlant p /\ pp_configuration p < 128).
Proof.
  unfold p_propulsion_plant. gv. unfold wf_PropulsionPlant, u8 in *. cbn [pp_configuration]. rewrite Z.shiftr_div_pow2 by lia. change (2 ^ 1) with 2.
  assert (0 <= a / 2 < 128) by (split; [apply Z.div_pos; lia|apply Z.div_lt_upper_bound; lia]). lia.
Qed.
Global Hint Resolve G_propulsion_plant : gives.
Lemma G_shaft : Gives p_shaft wf_Shaft. Proof. unfold p_shaft. gvs wf_Shaft. Qed.
Global Hint Resolve G_shaft : gives.
Lemma G_apa : Gives p_apa wf_APA.
Proof.
  unfold p_apa. gv. unfold wf_APA, u8, u16 in *. cbn [apa_parameter apa_status apa_value]. rewrite Z.shiftr_div_pow2 by lia. change (2 ^ 2) with 4.
  change 3 with (Z.ones 2). rewrite Z.land_ones by lia. change (2 ^ 2) with 4. pose proof (Z.mod_pos_bound a 4).
  assert (0 <= a / 4 < 16384) by (split; [apply Z.div_pos; lia|apply Z.div_lt_upper_bound; lia]). repeat split; try lia; unfold i16 in *; lia.
Qed.
Global Hint Resolve G_apa : gives.
Lemma G_ua_fundamental : Gives p_ua_fundamental wf_UAFundamental. Proof. unfold p_ua_fundamental. gvs wf_UAFundamental. Qed.
Global Hint Resolve G_ua_fundamental : gives.
Lemma G_ua_beam : Gives p_ua_beam wf_UABeam. Proof. unfold p_ua_beam. gvs wf_UABeam. Qed.
Global Hint Resolve G_ua_beam : gives.
Lemma G_aes : Gives p_aes wf_AES. Proof. unfold p_aes. gvs wf_AES. Qed.
Global Hint Resolve G_aes : gives.
Lemma G_ua_system : Gives p_ua_system (fun s => wf_UASystem s /\ zlen (uas_beams s) < 256).
Proof. unfold p_ua_system. gvs wf_UASystem. Qed.
Global Hint Resolve G_ua_system : gives.
Lemma G_underwater_acoustic_body : Gives p_underwater_acoustic_body (fun x => wf_UA x /\ (size_underwater_acoustic x < 65524 -> Forall apa_ok (UA_apas x) -> fits_underwater_acoustic x)).
Proof.
  unfold p_underwater_acoustic_body. gv. foralls. unfold wf_UA, fits_underwater_acoustic.
  cbn [UA_emitting_entity_id UA_event_id UA_state_change UA_passive_index UA_propulsion UA_shafts UA_apas UA_systems].
  split; [parts|]. intros. parts.
Qed.
Global Hint Resolve G_underwater_acoustic_body : gives.
Lemma G_track_jam : Gives p_track_jam wf_TrackJam. Proof. unfold p_track_jam. gvs wf_TrackJam. Qed.
Global Hint Resolve G_track_jam : gives.
Lemma G_jamming : Gives p_jamming wf_Jamming. Proof. unfold p_jamming. gvs wf_Jamming. Qed.
Global Hint Resolve G_jamming : gives.
Lemma G_fpd : Gives p_fpd wf_FPD. Proof. unfold p_fpd. gvs wf_FPD. Qed.
Global Hint Resolve G_fpd : gives.
Lemma G_beam : Gives p_beam (fun b => wf_Beam b /\ zlen (be_tracks b) < 256). Proof. unfold p_beam. gvs wf_Beam. Qed.
Global Hint Resolve G_beam : gives.
Lemma G_emitter_system : Gives p_emitter_system (fun s => wf_EmitterSystem s /\ (zlen (es_beams s) < 256 /\ Forall (fun b => zlen (be_tracks b) < 256) (es_beams s))).
Proof. unfold p_emitter_system. gv. foralls. unfold wf_EmitterSystem. cbn. parts. Qed.
Global Hint Resolve G_emitter_system : gives.
Lemma G_emission_body : Gives p_emission_body (fun x => wf_EE x /\ (size_emission x < 65524 -> fits_emission x)).
Proof.
  unfold p_emission_body. gv. match goal with H : Forall _ _ |- _ => apply Forall_and_inv in H; destruct H end. unfold wf_EE, fits_emission.
  cbn [EE_emitting_entity_id EE_event_id EE_state_update EE_systems]. split; [parts|]. intros. parts.
Qed.
Global Hint Resolve G_emission_body : gives.
Lemma G_modulation_type : Gives p_modulation_type wf_ModulationType.
Proof.
  unfold p_modulation_type. gv. unfold wf_ModulationType. cbn [mt_major mt_system]. split; [|assumption].
  unfold major_from_bytes. destruct (a0 =? 0); [exact I|]. destruct (Z.leb_spec 1 a0); destruct (Z.leb_spec a0 8); cbn [andb wf_MajorModulation]; try assumption. split; [lia|assumption].
Qed.
Global Hint Resolve G_modulation_type : gives.
Lemma G_crypto_key_id : Gives p_crypto_key_id (fun k => wf_CryptoKeyId k /\ ck_key k < 32768).
Proof.
  unfold p_crypto_key_id. gv. unfold wf_CryptoKeyId, crypto_from_u16, u16 in *. cbn [ck_key]. rewrite Z.shiftr_div_pow2 by lia. change (2 ^ 1) with 2.
  assert (0 <= a / 2 < 32768) by (split; [apply Z.div_pos; lia|apply Z.div_lt_upper_bound; lia]). lia.
Qed.
Global Hint Resolve G_crypto_key_id : gives.
Lemma G_beam_antenna_pattern : Gives p_beam_antenna_pattern wf_BAP. Proof. unfold p_beam_antenna_pattern. gvs wf_BAP. Qed.
Global Hint Resolve G_beam_antenna_pattern : gives.
Lemma G_vtp (m : mode) : Gives (p_vtp m) wf_VTP. Proof. unfold p_vtp. gvs wf_VTP. Qed.
Global Hint Resolve G_vtp : gives.
Lemma G_modulation_parameters n : u8 n -> Gives (p_modulation_parameters n) (fun o => wf_option bytes o /\ wf_option (fun l => 0 < zlen l < 256) o).
Proof. intros H. unfold p_modulation_parameters. destruct (Z.ltb_spec 0 n); gv; cbn; parts. Qed.
Global Hint Extern 1 (Gives (p_modulation_parameters _) _) => apply G_modulation_parameters; assumption : gives.
Lemma G_antenna_pattern n : Gives (p_antenna_pattern n) (wf_option wf_BAP).
Proof. unfold p_antenna_pattern. destruct (Z.ltb_spec 0 n); gv; cbn; parts. Qed.
Global Hint Resolve G_antenna_pattern : gives.
Lemma G_transmitter_body m v : Gives (p_transmitter_body m v) (fun x => wf_Transmitter x /\ (size_transmitter x < 65524 -> Forall vtp_ok (Transmitter_vtps x) -> fits_transmitter v x)).
Proof.
  unfold p_transmitter_body. gv. unfold wf_Transmitter, fits_transmitter.
  cbn [Transmitter_radio_reference_id Transmitter_radio_number Transmitter_radio_type Transmitter_transmit_state Transmitter_input_source Transmitter_antenna_location
    Transmitter_relative_antenna_location Transmitter_antenna_pattern_type Transmitter_frequency Transmitter_bandwidth Transmitter_power Transmitter_modulation_type
    Transmitter_crypto_system Transmitter_crypto_key_id Transmitter_modulation_parameters Transmitter_antenna_pattern Transmitter_vtps].
  match goal with Q : zlen ?vt = Z.of_nat (Z.to_nat (if v =? 7 then _ else 0)) |- _ => assert (v = 7 \/ vt = []) by (destruct (Z.eqb_spec v 7); [now left|right; destruct vt as [|v0 tl]; [reflexivity|exfalso; rewrite zlen_cons in Q; pose proof (zlen_nonneg tl); change (Z.of_nat (Z.to_nat 0)) with 0 in Q; lia]]) end.
  split; [parts|]. intros. parts.
Qed.
Global Hint Resolve G_transmitter_body : gives.
Lemma G_ged_base d : Gives (p_ged_base d) (fun b => wf_GEDBase b /\ ea_kind (gb_appearance b) = appearance_kind 1 d).
Proof. unfold p_ged_base. gv. unfold wf_GEDBase. cbn [gb_id gb_x gb_y gb_z gb_appearance gb_psi gb_theta gb_phi]. parts. Qed.
Global Hint Resolve G_ged_base : gives.
Lemma G_ged_ground : Gives p_ged_ground (fun r => wf_GEDGround r /\ ea_kind (gb_appearance (gg_base r)) = ALand).
Proof. unfold p_ged_ground. gv. unfold wf_GEDGround. cbn [gg_base gg_speed gg_1 gg_2 gg_3 gg_4]. parts. Qed.
Global Hint Resolve G_ged_ground : gives.
Lemma G_ged_air : Gives p_ged_air (fun r => wf_GEDAir r /\ ea_kind (gb_appearance (ga_base r)) = AAir).
Proof. unfold p_ged_air. gv. unfold wf_GEDAir. cbn [ga_base ga_fuel ga_horizontal ga_vertical ga_speed]. parts. Qed.
Global Hint Resolve G_ged_air : gives.
Lemma G_quad : Gives p_quad wf_Quad. Proof. unfold p_quad. gvs wf_Quad. Qed.
Global Hint Resolve G_quad : gives.
Lemma G_ged c : u8 c -> Gives (p_ged c) (fun g => wf_GED g /\ ged_ok c g).
Proof.
  intros Hc. assert (C : c = 1 \/ c = 2 \/ c = 3 \/ c = 4 \/ c = 5 \/ c = 6 \/ c = 7 \/ c = 8 \/ c = 9 \/ ~ 1 <= c <= 9) by lia.
  repeat (destruct C as [-> | C]; [unfold p_ged; gv; cbn [wf_GED ged_ok]; parts|]).
  assert (E : p_ged c = pret GUndefined) by (unfold p_ged; destruct c as [|p|p]; [reflexivity| |reflexivity]; do 4 (destruct p as [p|p|]; try reflexivity; try (exfalso; lia))).
  rewrite E. apply Gives_ret. split; [exact I|exact C].
Qed.
Global Hint Extern 1 (Gives (p_ged _) _) => apply G_ged; assumption : gives.
Lemma G_is_group_of_body : Gives p_is_group_of_body (fun x => wf_IsGroupOf x /\ fits_is_group_of x).
Proof.
  unfold p_is_group_of_body. gv. foralls. unfold wf_IsGroupOf, fits_is_group_of. cbn [IsGroupOf_group_id IsGroupOf_category IsGroupOf_latitude IsGroupOf_longitude IsGroupOf_descriptions]. parts.
Qed.
Global Hint Resolve G_is_group_of_body : gives.
Lemma lor_range n a b : 0 <= n -> 0 <= a < 2 ^ n -> 0 <= b < 2 ^ n -> 0 <= Z.lor a b < 2 ^ n.
Proof.
  intros Hn Ha Hb. split; [apply Z.lor_nonneg; lia|]. destruct (Z.eq_dec (Z.lor a b) 0) as [->|N]; [apply Z.pow_pos_nonneg; lia|].
  apply Z.log2_lt_pow2; [pose proof (Z.lor_nonneg a b); lia|]. rewrite Z.log2_lor by lia.
  assert (L : forall x, 0 <= x < 2 ^ n -> 0 < Z.lor a b -> x <> 0 -> Z.log2 x < n) by (intros x Hx _ Hx0; apply Z.log2_lt_pow2; lia).
  destruct (Z.eq_dec a 0) as [->|Na], (Z.eq_dec b 0) as [->|Nb]; [contradiction|rewrite Z.max_r by apply Z.log2_nonneg|rewrite Z.max_l by apply Z.log2_nonneg|apply Z.max_lub_lt]; apply Z.log2_lt_pow2; lia.
Qed.
Lemma land_range n a b : 0 <= n -> 0 <= a < 2 ^ n -> 0 <= b -> 0 <= Z.land a b < 2 ^ n.
Proof.
  intros Hn Ha Hb. split; [apply Z.land_nonneg; lia|]. destruct (Z.eq_dec (Z.land a b) 0) as [->|N]; [apply Z.pow_pos_nonneg; lia|].
  assert (0 <= Z.land a b) by (apply Z.land_nonneg; lia). apply Z.log2_lt_pow2; [lia|]. pose proof (Z.log2_land a b ltac:(lia) ltac:(lia)).
  destruct (Z.eq_dec a 0) as [->|Na]; [rewrite Z.land_0_l in N; lia|]. assert (Z.log2 a < n) by (apply Z.log2_lt_pow2; lia). lia.
Qed.
Lemma bits_idem mask force v : bits_ok mask force (bits_of mask force v).
Proof.
  unfold bits_ok, bits_of. apply Z.bits_inj. intros k. rewrite !Z.lor_spec, !Z.land_spec, !Z.lor_spec, !Z.land_spec.
  destruct (Z.testbit v k), (Z.testbit mask k), (Z.testbit force k); reflexivity.
Qed.
Lemma G_bits8 mask force : 0 <= mask < 256 -> 0 <= force < 256 -> Gives (p_bits8 mask force) (fun v => u8 v /\ bits_ok mask force v).
Proof.
  intros Hm Hf. unfold p_bits8. gv. split; [|apply bits_idem]. unfold u8, bits_of in *. change 256 with (2 ^ 8) in *. apply lor_range; [lia|apply land_range; lia|lia].
Qed.
Global Hint Extern 1 (Gives (p_bits8 _ _) _) => apply G_bits8; (vm_compute; split; congruence) : gives.
Lemma G_bits16 mask force : 0 <= mask < 65536 -> 0 <= force < 65536 -> Gives (p_bits16 mask force) (fun v => u16 v /\ bits_ok mask force v).
Proof.
  intros Hm Hf. unfold p_bits16. gv. split; [|apply bits_idem]. unfold u16, bits_of in *. change 65536 with (2 ^ 16) in *. apply lor_range; [lia|apply land_range; lia|lia].
Qed.
Global Hint Extern 1 (Gives (p_bits16 _ _) _) => apply G_bits16; (vm_compute; split; congruence) : gives.
Lemma G_layer_header : Gives p_layer_header wf_LayerHeader. Proof. unfold p_layer_header. gvs wf_LayerHeader. Qed.
Global Hint Resolve G_layer_header : gives.
Lemma G_iff_parameter : Gives p_iff_parameter wf_IffParameter. Proof. unfold p_iff_parameter. gvs wf_IffParameter. Qed.
Global Hint Resolve G_iff_parameter : gives.
Lemma G_iff_data_record : Gives p_iff_data_record wf_IffDataRecord. Proof. unfold p_iff_data_record. gvs wf_IffDataRecord. Qed.
Global Hint Resolve G_iff_data_record : gives.
Lemma G_iff_data_specification : Gives p_iff_data_specification (Forall wf_IffDataRecord).
Proof. unfold p_iff_data_specification. gv. assumption. Qed.
Global Hint Resolve G_iff_data_specification : gives.
Lemma G_system_id : Gives p_system_id wf_SystemId. Proof. unfold p_system_id. gvs wf_SystemId. Qed.
Global Hint Resolve G_system_id : gives.
Lemma G_fund_op_data : Gives p_fund_op_data (fun d => wf_FundOpData d /\ bits_ok m_layers 0 (fo_layers d)).
Proof. unfold p_fund_op_data. gv. unfold wf_FundOpData. cbn [fo_status fo_field1 fo_layers fo_field2 fo_p1 fo_p2 fo_p3 fo_p4 fo_p5 fo_p6]. parts. Qed.
Global Hint Resolve G_fund_op_data : gives.
Lemma G_iff_layer_2 : Gives p_iff_layer_2 wf_IffLayer2. Proof. unfold p_iff_layer_2. gvs wf_IffLayer2. Qed.
Global Hint Resolve G_iff_layer_2 : gives.
Lemma G_mode5_interrogator : Gives p_mode5_interrogator (fun x => wf_M5I x /\ bits_ok m_m5i_status 0 (m5i_status x)).
Proof. unfold p_mode5_interrogator. gv. unfold wf_M5I. cbn [m5i_status m5i_formats m5i_entity]. parts. Qed.
Global Hint Resolve G_mode5_interrogator : gives.
Lemma G_mode5_transponder : Gives p_mode5_transponder (fun x => wf_M5T x /\ bits_ok m_m5t_status 0 (m5t_status x) /\ bits_ok m_mode1 0 (m5t_mode1 x) /\ bits_ok m_supplemental 0 (m5t_supplemental x)).
Proof. unfold p_mode5_transponder. gv. unfold wf_M5T. cbn [m5t_status m5t_pin m5t_formats m5t_mode1 m5t_origin m5t_supplemental m5t_nav m5t_merit]. parts. Qed.
Global Hint Resolve G_mode5_transponder : gives.
Lemma G_mode5_basic_data t : Gives (p_mode5_basic_data t) (fun b => wf_Mode5BasicData b /\ (is_transponder t = true \/ is_interrogator t = true -> m5_ok t b)).
Proof.
  unfold p_mode5_basic_data. destruct (is_transponder t) eqn:E; [|destruct (is_interrogator t) eqn:F]; gv; cbn [wf_Mode5BasicData m5_ok]; split; intros; try assumption; try tauto.
  - unfold wf_M5T, default_m5t, u8, u16, u32. cbn. lia.
  - intuition congruence.
Qed.
Global Hint Resolve G_mode5_basic_data : gives.
Lemma G_iff_layer_3 t : Gives (p_iff_layer_3 t) (fun l => wf_IffLayer3 l /\ (is_transponder t = true \/ is_interrogator t = true -> m5_ok t (l3_basic l))).
Proof. unfold p_iff_layer_3. gv. unfold wf_IffLayer3. cbn [l3_header l3_sim l3_basic l3_records]. parts. Qed.
Global Hint Resolve G_iff_layer_3 : gives.
Lemma G_modes_interrogator : Gives p_modes_interrogator (fun x => wf_MSI x /\ bits_ok m_msi_status 4 (msi_status x) /\ bits_ok m_levels 4 (msi_levels x)).
Proof. unfold p_modes_interrogator. gv. unfold wf_MSI. cbn [msi_status msi_levels]. parts. Qed.
Global Hint Resolve G_modes_interrogator : gives.
Lemma G_ascii8 : Gives p_ascii8 (fun l => bytes l /\ (ascii l -> ends_alnum l)).
Proof.
  unfold p_ascii8. gv.
  match goal with B : bytes ?b |- context [sanitize_marking ?b] =>
    destruct (sanitize_spec b) as (s & t & E1 & E2 & _ & E3); pose proof (lossy_scalar b B) as S; rewrite E1 in S; apply Forall_app in S; destruct S as [S _] end.
  rewrite E3. split; [apply utf8_encode_bytes; assumption|]. intros A. rewrite <- (lossy_ascii _ A), utf8_decode_encode by assumption. assumption.
Qed.
Global Hint Resolve G_ascii8 : gives.
Lemma G_modes_transponder : Gives p_modes_transponder (fun x => wf_MST x /\ bits_ok m_mst_status 0 (mst_status x) /\ bits_ok m_levels 4 (mst_levels x) /\ bits_ok m_dap 8 (mst_dap x) /\
      bits_ok m_altitude 0 (mst_altitude x) /\ (ascii (mst_id x) -> ends_alnum (mst_id x))).
Proof. unfold p_modes_transponder. gv. unfold wf_MST. cbn [mst_status mst_levels mst_domain mst_id mst_address mst_idtype mst_dap mst_altitude mst_capability]. parts. Qed.
Global Hint Resolve G_modes_transponder : gives.
Lemma system_known_iff t : system_known t -> is_transponder t = true \/ is_interrogator t = true.
Proof. unfold system_known. cbn. intros H. repeat (destruct H as [<- | H]; [cbn; tauto|]). contradiction. Qed.
Lemma ascii_of l : bytes l -> Forall (fun c => c < 128) l -> ascii l.
Proof. unfold bytes, ascii. rewrite !Forall_forall. intros B A c Hc. specialize (B c Hc). specialize (A c Hc). cbn in *. lia. Qed.
Lemma G_modes_basic_data t : Gives (p_modes_basic_data t) (fun b => wf_ModeSBasicData b /\ (system_known t -> aircraft_id_fits b -> ms_ok t b)).
Proof.
  unfold p_modes_basic_data. destruct (is_transponder t) eqn:E; [|destruct (is_interrogator t) eqn:F]; gv; cbn [wf_ModeSBasicData ms_ok aircraft_id_fits]; (split; [|intros K A; apply system_known_iff in K]); try assumption.
  - destruct A as [A1 A2]. assert (ascii (mst_id a)) by (apply ascii_of; [unfold wf_MST in *; tauto|exact A1]). tauto.
  - tauto.
  - unfold wf_MST, default_mst, u8, u16, u32. cbn. repeat split; try lia. constructor.
  - intuition congruence.
Qed.
Global Hint Resolve G_modes_basic_data : gives.
Lemma G_iff_layer_4 t : Gives (p_iff_layer_4 t) (fun l => wf_IffLayer4 l /\ (system_known t -> aircraft_id_fits (l4_basic l) -> ms_ok t (l4_basic l))).
Proof. unfold p_iff_layer_4. gv. unfold wf_IffLayer4. cbn [l4_header l4_sim l4_basic l4_records]. parts. Qed.
Global Hint Resolve G_iff_layer_4 : gives.
Lemma G_iff_layer_5 : Gives p_iff_layer_5 (fun l => wf_IffLayer5 l /\ bits_ok m_layers 0 (l5_layers l)).
Proof. unfold p_iff_layer_5. gv. unfold wf_IffLayer5. cbn [l5_header l5_sim l5_layers l5_category l5_records]. parts. Qed.
Global Hint Resolve G_iff_layer_5 : gives.
Lemma Gives_option {A} b (p : bparser A) P : Gives p P -> Gives (p_option b p) (fun o => wf_option P o /\ is_some o = b).
Proof. intros H. unfold p_option. destruct b; [eapply Gives_bind; [exact H|]; intros; apply Gives_ret; cbn; auto|apply Gives_ret; cbn; auto]. Qed.
Lemma wf_option_and {A} (P Q : A -> Prop) o : wf_option (fun x => P x /\ Q x) o -> wf_option P o /\ wf_option Q o.
Proof. destruct o; cbn; tauto. Qed.
(** the conditions grouped the way the proofs of the single PDUs need them *)
Definition relayable_iff (x : Iff) : Prop :=
  (Iff_layer_3 x <> None \/ Iff_layer_4 x <> None -> system_known (si_type (Iff_system_id x))) /\
  if_present (fun l => Forall iff_record_whole (l3_records l)) (Iff_layer_3 x) /\
  if_present (fun l => Forall iff_record_whole (l4_records l) /\ aircraft_id_fits (l4_basic l)) (Iff_layer_4 x) /\
  if_present (fun l => Forall iff_record_whole (l5_records l)) (Iff_layer_5 x).
Lemma G_iff_body : Gives p_iff_body (fun x => wf_Iff x /\ (size_iff x < 65520 -> relayable_iff x -> fits_iff x)).
Proof.
  unfold p_iff_body.
  repeat first [match goal with |- Gives (pbind (p_option _ _) _) _ => eapply Gives_bind; [apply Gives_option; solve [eauto 2 with gives]|intros; cbv beta in *; unpack] end | gv_step].
  repeat match goal with H : wf_option (fun _ => _ /\ _) _ |- _ => apply wf_option_and in H; destruct H end.
  unfold wf_Iff, fits_iff, relayable_iff. cbn [Iff_emitting_entity_id Iff_event_id Iff_antenna Iff_system_id Iff_designator Iff_specific Iff_data Iff_layer_2 Iff_layer_3 Iff_layer_4 Iff_layer_5].
  split; [parts|]. intros Hs (Ht & R3 & R4 & R5).
  repeat match goal with H : is_some ?o = ?b |- _ => rewrite <- H; clear H end.
  repeat (split; [first [assumption | reflexivity]|]).
  match goal with |- wf_option _ ?o3 /\ wf_option _ ?o4 /\ wf_option _ ?o5 => destruct o3, o4, o5 end; cbn [wf_option if_present] in *; unpack; repeat split; trivial; (match goal with H : _ -> ?G |- _ => apply H end; trivial); try (first [apply Ht | apply system_known_iff, Ht]; first [left; discriminate | right; discriminate]).
Qed.
Global Hint Resolve G_iff_body : gives.
