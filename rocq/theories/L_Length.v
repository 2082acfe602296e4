(** Lemmas for Props_Length: sizes of the remaining bodies, of whole PDUs, and what [serialize] reports. *)
From Coq Require Import ZArith List Lia Bool.
From Verif Require Import Base DisCommon DisHeader DisLists DisSimman DisLogistics DisWarfare DisEntity DisEmission DisRadio DisIff DisPdu DisPacket SpecWire SpecSize L_Size L_Wire.
Import ListNotations. Open Scope Z_scope.

Ltac wr_with t := repeat first [t | wr_step].
Lemma len_aggregate_state_size m x : size_aggregate_state x < 65524 ->
  len_aggregate_state m x = WOk [] (size_aggregate_state x - 2 * zlen (AggregateState_silent_entities x)).
Proof.
  intros Hs. unfold len_aggregate_state. unfold size_aggregate_state, agg_ids_size in *.
  pose proof (ses_bounds x). pose proof (vds_size_bound (AggregateState_variable_datums x)).
  pose proof (zlen_nonneg (AggregateState_aggregates x)). pose proof (zlen_nonneg (AggregateState_entities x)).
  pose proof (zlen_nonneg (AggregateState_silent_aggregates x)). pose proof (zlen_nonneg (AggregateState_silent_entities x)).
  pose proof (zlen_nonneg (AggregateState_variable_datums x)).
  pose proof (pad_to_bound (6 * zlen (AggregateState_aggregates x) + 6 * zlen (AggregateState_entities x)) 4).
  rewrite agg_intermediate_ok by lia. unfold wbind at 1. cbn [fst snd].
  rewrite wmap_const_pure by lia. unfold wbind at 1. rewrite add16_ok by lia. unfold wbind at 1.
  rewrite wmap_sum_pure with (len := fun s => size_silent_entity s - 2); [| |rewrite zsum_map_sub; lia].
  - rewrite zsum_map_sub. unfold wbind at 1. rewrite add16_ok by lia. unfold wbind at 1.
    rewrite len_variable_datums_ok by lia. unfold wbind. rewrite add16_ok by lia. cbn [app]. f_equal. lia.
  - intros s Hi. unfold size_silent_entity at 2. pose proof (zlen_nonneg (se_appearances s)). split; [|lia].
    apply len_silent_entity_ok. enough (size_silent_entity s <= zsum (map size_silent_entity (AggregateState_silent_entities x))) by lia.
    apply zsum_elt_le; [|exact Hi]. intros y _. unfold size_silent_entity. pose proof (zlen_nonneg (se_appearances y)). lia.
Qed.
Lemma Wr_aggregate_state m x : Forall vd_ok (AggregateState_variable_datums x) -> zlen (mk_string (AggregateState_marking x)) <= 31 -> size_aggregate_state x < 65524 ->
  Wr (w_aggregate_state m x) (size_aggregate_state x - 2 * zlen (AggregateState_silent_entities x)) (size_aggregate_state x).
Proof.
  intros Hd Hm Hs. pose proof (len_aggregate_state_size m x Hs) as Hlen. unfold w_aggregate_state. rewrite Hlen.
  unfold size_aggregate_state, agg_ids_size in *. pose proof (ses_bounds x). pose proof (vds_size_bound (AggregateState_variable_datums x)).
  pose proof (zlen_nonneg (AggregateState_aggregates x)). pose proof (zlen_nonneg (AggregateState_entities x)).
  pose proof (zlen_nonneg (AggregateState_silent_aggregates x)). pose proof (zlen_nonneg (AggregateState_silent_entities x)).
  pose proof (zlen_nonneg (AggregateState_variable_datums x)).
  pose proof (pad_to_bound (6 * zlen (AggregateState_aggregates x) + 6 * zlen (AggregateState_entities x)) 4).
  rewrite agg_intermediate_ok by lia.
  eapply Wr_conv; [wr_with ltac:(idtac; match goal with
    | |- Wr (wbind (w_marking 31 _) _) _ _ => eapply Wr_bind; [apply Wr_marking; exact Hm|]; cbv beta
    | |- Wr (wbind (WOk [] _) _) _ _ => eapply Wr_wpure; [reflexivity|]; cbn [fst snd]
    | |- Wr (WOk [] _) _ _ => apply Wr_pure; reflexivity
    | |- Wr (wbind (wmap_sum _ (w_silent_entity _) _) _) _ _ =>
        eapply Wr_bind; [apply (Wr_sum m (w_silent_entity m) (fun s => size_silent_entity s - 2) size_silent_entity); [|rewrite zsum_map_sub; lia]|]; cbv beta
    end)|reflexivity|lia].
  intros s Hi. assert (size_silent_entity s <= zsum (map size_silent_entity (AggregateState_silent_entities x))).
  { apply zsum_elt_le; [|exact Hi]. intros y _. unfold size_silent_entity. pose proof (zlen_nonneg (se_appearances y)). lia. }
  split; [apply Wr_silent_entity; lia|]. unfold size_silent_entity. pose proof (zlen_nonneg (se_appearances s)). lia.
Qed.

Lemma len_underwater_acoustic_size m x : size_underwater_acoustic x < 65524 -> len_underwater_acoustic m x = WOk [] (size_underwater_acoustic x).
Proof.
  intros Hs. unfold size_underwater_acoustic, len_underwater_acoustic in *. pose proof (ua_systems_bound (UA_systems x)).
  pose proof (zlen_nonneg (UA_shafts x)). pose proof (zlen_nonneg (UA_apas x)). pose proof (zlen_nonneg (UA_systems x)).
  rewrite wmap_const_pure by lia. unfold wbind at 1. rewrite add16_ok by lia. unfold wbind at 1.
  rewrite wmap_const_pure by lia. unfold wbind at 1. rewrite add16_ok by lia. unfold wbind at 1.
  rewrite wmap_sum_pure with (len := size_ua_system); [unfold wbind; rewrite add16_ok by lia; reflexivity| |lia].
  intros s Hi. pose proof (ua_system_le _ _ Hi). assert (0 <= size_ua_system s) by (unfold size_ua_system; pose proof (zlen_nonneg (uas_beams s)); lia).
  split; [apply rl_ua_system_ok; lia|lia].
Qed.
Lemma Wr_ua_system m s : size_ua_system s < 65536 -> Wr (w_ua_system m s) (size_ua_system s) (size_ua_system s).
Proof.
  intros Hs. unfold w_ua_system. rewrite (rl_ua_system_ok m s Hs). unfold size_ua_system in *. pose proof (zlen_nonneg (uas_beams s)).
  eapply Wr_conv; [wr_with ltac:(idtac; match goal with
    | |- Wr (wbind (WOk [] _) _) _ _ => eapply Wr_wpure; [reflexivity|]
    | |- Wr (WOk [] _) _ _ => apply Wr_pure; reflexivity end)|lia|lia].
Qed.
Lemma Wr_underwater_acoustic m x : size_underwater_acoustic x < 65524 -> Wr (w_underwater_acoustic m x) (size_underwater_acoustic x) (size_underwater_acoustic x).
Proof.
  intros Hs. pose proof (len_underwater_acoustic_size m x Hs) as E. unfold w_underwater_acoustic. rewrite E.
  unfold size_underwater_acoustic in *. pose proof (ua_systems_bound (UA_systems x)).
  pose proof (zlen_nonneg (UA_shafts x)). pose proof (zlen_nonneg (UA_apas x)). pose proof (zlen_nonneg (UA_systems x)).
  eapply Wr_conv; [wr_with ltac:(idtac; match goal with
    | |- Wr (WOk [] _) _ _ => apply Wr_pure; reflexivity
    | |- Wr (wbind (wmap_sum _ (w_ua_system _) _) _) _ _ => eapply Wr_bind; [apply (Wr_sum m (w_ua_system m) size_ua_system size_ua_system); [|lia]|]; cbv beta end)|lia|lia].
  intros s Hi. pose proof (ua_system_le _ _ Hi). assert (0 <= size_ua_system s) by (unfold size_ua_system; pose proof (zlen_nonneg (uas_beams s)); lia).
  split; [apply Wr_ua_system; lia|lia].
Qed.

Lemma len_emission_size m x : size_emission x < 65524 -> len_emission m x = WOk [] (size_emission x).
Proof.
  intros Hs. unfold size_emission, len_emission in *. pose proof (emitter_systems_bound (EE_systems x)). pose proof (zlen_nonneg (EE_systems x)).
  rewrite wmap_sum_pure with (len := size_emitter_system); [unfold wbind; rewrite add16_ok by lia; reflexivity| |lia].
  intros b Hi. pose proof (emitter_system_le _ _ Hi). pose proof (size_emitter_bound b). pose proof (zlen_nonneg (es_beams b)). split; [apply rl_emitter_system_ok|]; lia.
Qed.
Lemma Wr_beam m b : size_beam b < 65536 -> Wr (w_beam m b) (size_beam b) (size_beam b).
Proof.
  intros Hs. unfold w_beam. rewrite (rl_beam_ok m b Hs). unfold size_beam in *. pose proof (zlen_nonneg (be_tracks b)).
  eapply Wr_conv; [wr_with ltac:(idtac; match goal with |- Wr (wbind (WOk [] _) _) _ _ => eapply Wr_wpure; [reflexivity|] end)|lia|lia].
Qed.
Lemma Wr_emitter_system m s : size_emitter_system s < 65536 -> Wr (w_emitter_system m s) (size_emitter_system s) (size_emitter_system s).
Proof.
  intros Hs. unfold w_emitter_system. rewrite (rl_emitter_system_ok m s Hs). pose proof (size_emitter_bound s). unfold size_emitter_system in *. pose proof (zlen_nonneg (es_beams s)).
  eapply Wr_conv; [wr_with ltac:(idtac; match goal with |- Wr (wbind (WOk [] _) _) _ _ => eapply Wr_wpure; [reflexivity|]
    | |- Wr (wbind (wmap_sum _ (w_beam _) _) _) _ _ => eapply Wr_bind; [apply (Wr_sum m (w_beam m) size_beam size_beam); [|lia]|]; cbv beta end)|lia|lia].
  intros b Hi. pose proof (beam_le _ _ Hi). pose proof (size_beam_bound b). split; [apply Wr_beam; lia|lia].
Qed.
Lemma Wr_emission m x : size_emission x < 65524 -> Wr (w_emission m x) (size_emission x) (size_emission x).
Proof.
  intros Hs. unfold w_emission. unfold size_emission in *. pose proof (emitter_systems_bound (EE_systems x)). pose proof (zlen_nonneg (EE_systems x)).
  eapply Wr_conv; [wr_with ltac:(idtac; match goal with
    | |- Wr (wbind (wmap_sum _ (w_emitter_system _) _) _) _ _ => eapply Wr_bind; [apply (Wr_sum m (w_emitter_system m) size_emitter_system size_emitter_system); [|lia]|]; cbv beta end)|lia|lia].
  intros b Hi. pose proof (emitter_system_le _ _ Hi). pose proof (size_emitter_bound b). pose proof (zlen_nonneg (es_beams b)). split; [apply Wr_emitter_system; lia|lia].
Qed.

Lemma Wr_vtp v : size_vtp v < 65536 -> Wr (w_vtp v) (size_vtp v) (size_vtp v).
Proof.
  unfold size_vtp, w_vtp. intros H. pose proof (zlen_nonneg (vtp_fields v)). pose proof (pad_to_bound (6 + zlen (vtp_fields v)) 8).
  eapply Wr_conv; [repeat wr_step|rewrite Z.mod_small by lia; lia|lia].
Qed.
Lemma Wr_octet b : Wr (w_octet b) 1 1. Proof. unfold w_octet. wr0. Qed.
Global Hint Resolve Wr_octet : wr.
Lemma Wr_transmitter m x : size_transmitter x < 65524 -> Wr (w_transmitter m x) (size_transmitter x + 12) (size_transmitter x).
Proof.
  intros Hs. unfold w_transmitter. pose proof (modparams_nonneg x). pose proof (pattern_len_range x). unfold size_transmitter in *.
  pose proof (vtps_bound (Transmitter_vtps x)). pose proof (zlen_nonneg (Transmitter_vtps x)).
  assert (Wr (match Transmitter_modulation_parameters x with Some l => wmap_sum m w_octet l | None => wret 0 end) (modparams_len x) (modparams_len x)) as Hmp.
  { unfold modparams_len in *. destruct (Transmitter_modulation_parameters x) as [l|]; [|apply Wr_ret].
    eapply Wr_conv; [apply (Wr_const m w_octet 1); [intros; apply Wr_octet|lia|lia]|lia|lia]. }
  assert (Wr (match Transmitter_antenna_pattern x with Some b => (_ <- w_beam_antenna_pattern b;; wret 40)%write | None => wret 0 end) (pattern_len x) (pattern_len x)) as Hap.
  { unfold pattern_len. destruct (Transmitter_antenna_pattern x) as [b|]; [|apply Wr_ret]. wr. }
  eapply Wr_conv; [wr_with ltac:(idtac; match goal with
    | |- Wr (wbind (match Transmitter_modulation_parameters _ with _ => _ end) _) _ _ => eapply Wr_bind; [exact Hmp|]; cbv beta
    | |- Wr (wbind (match Transmitter_antenna_pattern _ with _ => _ end) _) _ _ => eapply Wr_bind; [exact Hap|]; cbv beta
    | |- Wr (wbind (wmap_sum _ w_vtp _) _) _ _ => eapply Wr_bind; [apply (Wr_sum m w_vtp size_vtp size_vtp); [|lia]|]; cbv beta end)|lia|lia].
  intros v Hi. pose proof (vtp_le _ _ Hi). pose proof (size_vtp_bound v). split; [apply Wr_vtp; lia|lia].
Qed.

Lemma len_is_group_of_size m x : size_is_group_of x < 65524 -> len_is_group_of m x = WOk [] (size_is_group_of x).
Proof.
  intros Hn. unfold len_is_group_of, size_is_group_of in *. pose proof (geds_range (IsGroupOf_descriptions x)).
  rewrite wmap_sum_pure with (len := size_ged); [unfold wbind; rewrite add16_ok by lia; cbn [app]; f_equal; lia| |lia].
  intros g _. split; [destruct g; reflexivity|apply size_ged_range].
Qed.
Lemma Wr_ged_base b : Wr (w_ged_base b) tt 15.
Proof. unfold w_ged_base. wr0. Qed.
Lemma ln_acknowledge m x : wf_Acknowledge x -> size_acknowledge x < 65524 -> len_acknowledge m x = WOk [] (size_acknowledge x).
Proof. destruct x as [y0 y1 y2 y3 y4]; unfold wf_Acknowledge, size_acknowledge, len_acknowledge; cbn [Acknowledge_originating_id Acknowledge_receiving_id Acknowledge_acknowledge_flag Acknowledge_response_flag Acknowledge_request_id]; intros; wfd. pdu_facts. pdu_len. Qed.
Lemma ln_acknowledge_r m x : wf_AcknowledgeR x -> size_acknowledge_r x < 65524 -> len_acknowledge_r m x = WOk [] (size_acknowledge_r x).
Proof. destruct x as [y0 y1 y2 y3 y4]; unfold wf_AcknowledgeR, size_acknowledge_r, len_acknowledge_r; cbn [AcknowledgeR_originating_id AcknowledgeR_receiving_id AcknowledgeR_acknowledge_flag AcknowledgeR_response_flag AcknowledgeR_request_id]; intros; wfd. pdu_facts. pdu_len. Qed.
Lemma ln_create_entity m x : wf_CreateEntity x -> size_create_entity x < 65524 -> len_create_entity m x = WOk [] (size_create_entity x).
Proof. destruct x as [y0 y1 y2]; unfold wf_CreateEntity, size_create_entity, len_create_entity; cbn [CreateEntity_originating_id CreateEntity_receiving_id CreateEntity_request_id]; intros; wfd. pdu_facts. pdu_len. Qed.
Lemma ln_create_entity_r m x : wf_CreateEntityR x -> size_create_entity_r x < 65524 -> len_create_entity_r m x = WOk [] (size_create_entity_r x).
Proof. destruct x as [y0 y1 y2 y3]; unfold wf_CreateEntityR, size_create_entity_r, len_create_entity_r; cbn [CreateEntityR_originating_id CreateEntityR_receiving_id CreateEntityR_required_reliability_service CreateEntityR_request_id]; intros; wfd. pdu_facts. pdu_len. Qed.
Lemma ln_remove_entity m x : wf_RemoveEntity x -> size_remove_entity x < 65524 -> len_remove_entity m x = WOk [] (size_remove_entity x).
Proof. destruct x as [y0 y1 y2]; unfold wf_RemoveEntity, size_remove_entity, len_remove_entity; cbn [RemoveEntity_originating_id RemoveEntity_receiving_id RemoveEntity_request_id]; intros; wfd. pdu_facts. pdu_len. Qed.
Lemma ln_remove_entity_r m x : wf_RemoveEntityR x -> size_remove_entity_r x < 65524 -> len_remove_entity_r m x = WOk [] (size_remove_entity_r x).
Proof. destruct x as [y0 y1 y2 y3]; unfold wf_RemoveEntityR, size_remove_entity_r, len_remove_entity_r; cbn [RemoveEntityR_originating_id RemoveEntityR_receiving_id RemoveEntityR_required_reliability_service RemoveEntityR_request_id]; intros; wfd. pdu_facts. pdu_len. Qed.
Lemma ln_start_resume m x : wf_StartResume x -> size_start_resume x < 65524 -> len_start_resume m x = WOk [] (size_start_resume x).
Proof. destruct x as [y0 y1 y2 y3 y4]; unfold wf_StartResume, size_start_resume, len_start_resume; cbn [StartResume_originating_id StartResume_receiving_id StartResume_real_world_time StartResume_simulation_time StartResume_request_id]; intros; wfd. pdu_facts. pdu_len. Qed.
Lemma ln_start_resume_r m x : wf_StartResumeR x -> size_start_resume_r x < 65524 -> len_start_resume_r m x = WOk [] (size_start_resume_r x).
Proof. destruct x as [y0 y1 y2 y3 y4 y5]; unfold wf_StartResumeR, size_start_resume_r, len_start_resume_r; cbn [StartResumeR_originating_id StartResumeR_receiving_id StartResumeR_real_world_time StartResumeR_simulation_time StartResumeR_required_reliability_service StartResumeR_request_id]; intros; wfd. pdu_facts. pdu_len. Qed.
Lemma ln_stop_freeze m x : wf_StopFreeze x -> size_stop_freeze x < 65524 -> len_stop_freeze m x = WOk [] (size_stop_freeze x).
Proof. destruct x as [y0 y1 y2 y3 y4 y5]; unfold wf_StopFreeze, size_stop_freeze, len_stop_freeze; cbn [StopFreeze_originating_id StopFreeze_receiving_id StopFreeze_real_world_time StopFreeze_reason StopFreeze_frozen_behavior StopFreeze_request_id]; intros; wfd. pdu_facts. pdu_len. Qed.
Lemma ln_stop_freeze_r m x : wf_StopFreezeR x -> size_stop_freeze_r x < 65524 -> len_stop_freeze_r m x = WOk [] (size_stop_freeze_r x).
Proof. destruct x as [y0 y1 y2 y3 y4 y5 y6]; unfold wf_StopFreezeR, size_stop_freeze_r, len_stop_freeze_r; cbn [StopFreezeR_originating_id StopFreezeR_receiving_id StopFreezeR_real_world_time StopFreezeR_reason StopFreezeR_frozen_behavior StopFreezeR_required_reliability_service StopFreezeR_request_id]; intros; wfd. pdu_facts. pdu_len. Qed.
Lemma ln_action_request m x : wf_ActionRequest x -> size_action_request x < 65524 -> len_action_request m x = WOk [] (size_action_request x).
Proof. destruct x as [y0 y1 y2 y3 y4 y5]; unfold wf_ActionRequest, size_action_request, len_action_request; cbn [ActionRequest_originating_id ActionRequest_receiving_id ActionRequest_request_id ActionRequest_action_id ActionRequest_fixed_datum_records ActionRequest_variable_datum_records]; intros; wfd. pdu_facts. pdu_len. Qed.
Lemma ln_action_request_r m x : wf_ActionRequestR x -> size_action_request_r x < 65524 -> len_action_request_r m x = WOk [] (size_action_request_r x).
Proof. destruct x as [y0 y1 y2 y3 y4 y5 y6]; unfold wf_ActionRequestR, size_action_request_r, len_action_request_r; cbn [ActionRequestR_originating_id ActionRequestR_receiving_id ActionRequestR_required_reliability_service ActionRequestR_request_id ActionRequestR_action_id ActionRequestR_fixed_datum_records ActionRequestR_variable_datum_records]; intros; wfd. pdu_facts. pdu_len. Qed.
Lemma ln_action_response m x : wf_ActionResponse x -> size_action_response x < 65524 -> len_action_response m x = WOk [] (size_action_response x).
Proof. destruct x as [y0 y1 y2 y3 y4 y5]; unfold wf_ActionResponse, size_action_response, len_action_response; cbn [ActionResponse_originating_id ActionResponse_receiving_id ActionResponse_request_id ActionResponse_request_status ActionResponse_fixed_datum_records ActionResponse_variable_datum_records]; intros; wfd. pdu_facts. pdu_len. Qed.
Lemma ln_action_response_r m x : wf_ActionResponseR x -> size_action_response_r x < 65524 -> len_action_response_r m x = WOk [] (size_action_response_r x).
Proof. destruct x as [y0 y1 y2 y3 y4 y5]; unfold wf_ActionResponseR, size_action_response_r, len_action_response_r; cbn [ActionResponseR_originating_id ActionResponseR_receiving_id ActionResponseR_request_id ActionResponseR_request_status ActionResponseR_fixed_datum_records ActionResponseR_variable_datum_records]; intros; wfd. pdu_facts. pdu_len. Qed.
Lemma ln_comment m x : wf_Comment x -> size_comment x < 65524 -> len_comment m x = WOk [] (size_comment x).
Proof. destruct x as [y0 y1 y2]; unfold wf_Comment, size_comment, len_comment; cbn [Comment_originating_id Comment_receiving_id Comment_variable_datum_records]; intros; wfd. pdu_facts. pdu_len. Qed.
Lemma ln_comment_r m x : wf_CommentR x -> size_comment_r x < 65524 -> len_comment_r m x = WOk [] (size_comment_r x).
Proof. destruct x as [y0 y1 y2]; unfold wf_CommentR, size_comment_r, len_comment_r; cbn [CommentR_originating_id CommentR_receiving_id CommentR_variable_datum_records]; intros; wfd. pdu_facts. pdu_len. Qed.
Lemma ln_data m x : wf_Data x -> size_data x < 65524 -> len_data m x = WOk [] (size_data x).
Proof. destruct x as [y0 y1 y2 y3 y4]; unfold wf_Data, size_data, len_data; cbn [Data_originating_id Data_receiving_id Data_request_id Data_fixed_datum_records Data_variable_datum_records]; intros; wfd. pdu_facts. pdu_len. Qed.
Lemma ln_data_r m x : wf_DataR x -> size_data_r x < 65524 -> len_data_r m x = WOk [] (size_data_r x).
Proof. destruct x as [y0 y1 y2 y3 y4 y5]; unfold wf_DataR, size_data_r, len_data_r; cbn [DataR_originating_id DataR_receiving_id DataR_request_id DataR_required_reliability_service DataR_fixed_datum_records DataR_variable_datum_records]; intros; wfd. pdu_facts. pdu_len. Qed.
Lemma ln_set_data m x : wf_SetData x -> size_set_data x < 65524 -> len_set_data m x = WOk [] (size_set_data x).
Proof. destruct x as [y0 y1 y2 y3 y4]; unfold wf_SetData, size_set_data, len_set_data; cbn [SetData_originating_id SetData_receiving_id SetData_request_id SetData_fixed_datum_records SetData_variable_datum_records]; intros; wfd. pdu_facts. pdu_len. Qed.
Lemma ln_set_data_r m x : wf_SetDataR x -> size_set_data_r x < 65524 -> len_set_data_r m x = WOk [] (size_set_data_r x).
Proof. destruct x as [y0 y1 y2 y3 y4 y5]; unfold wf_SetDataR, size_set_data_r, len_set_data_r; cbn [SetDataR_originating_id SetDataR_receiving_id SetDataR_required_reliability_service SetDataR_request_id SetDataR_fixed_datum_records SetDataR_variable_datum_records]; intros; wfd. pdu_facts. pdu_len. Qed.
Lemma ln_event_report m x : wf_EventReport x -> size_event_report x < 65524 -> len_event_report m x = WOk [] (size_event_report x).
Proof. destruct x as [y0 y1 y2 y3 y4]; unfold wf_EventReport, size_event_report, len_event_report; cbn [EventReport_originating_id EventReport_receiving_id EventReport_event_type EventReport_fixed_datum_records EventReport_variable_datum_records]; intros; wfd. pdu_facts. pdu_len. Qed.
Lemma ln_event_report_r m x : wf_EventReportR x -> size_event_report_r x < 65524 -> len_event_report_r m x = WOk [] (size_event_report_r x).
Proof. destruct x as [y0 y1 y2 y3 y4]; unfold wf_EventReportR, size_event_report_r, len_event_report_r; cbn [EventReportR_originating_id EventReportR_receiving_id EventReportR_event_type EventReportR_fixed_datum_records EventReportR_variable_datum_records]; intros; wfd. pdu_facts. pdu_len. Qed.
Lemma ln_data_query m x : wf_DataQuery x -> size_data_query x < 65524 -> len_data_query m x = WOk [] (size_data_query x).
Proof. destruct x as [y0 y1 y2 y3 y4 y5]; unfold wf_DataQuery, size_data_query, len_data_query; cbn [DataQuery_originating_id DataQuery_receiving_id DataQuery_request_id DataQuery_time_interval DataQuery_fixed_datum_records DataQuery_variable_datum_records]; intros; wfd. pdu_facts. pdu_len. Qed.
Lemma ln_data_query_r m x : wf_DataQueryR x -> size_data_query_r x < 65524 -> len_data_query_r m x = WOk [] (size_data_query_r x).
Proof. destruct x as [y0 y1 y2 y3 y4 y5 y6]; unfold wf_DataQueryR, size_data_query_r, len_data_query_r; cbn [DataQueryR_originating_id DataQueryR_receiving_id DataQueryR_required_reliability_service DataQueryR_request_id DataQueryR_time_interval DataQueryR_fixed_datum_records DataQueryR_variable_datum_records]; intros; wfd. pdu_facts. pdu_len. Qed.
Lemma ln_record_query_r m x : wf_RecordQueryR x -> size_record_query_r x < 65524 -> len_record_query_r m x = WOk [] (size_record_query_r x).
Proof. destruct x as [y0 y1 y2 y3 y4 y5 y6]; unfold wf_RecordQueryR, size_record_query_r, len_record_query_r; cbn [RecordQueryR_originating_id RecordQueryR_receiving_id RecordQueryR_request_id RecordQueryR_required_reliability_service RecordQueryR_event_type RecordQueryR_time RecordQueryR_record_query_specification]; intros; wfd. pdu_facts. pdu_len. Qed.
Lemma ln_record_r m x : wf_RecordR x -> Forall rs_ok (RecordR_record_specification x) -> size_record_r x < 65524 -> len_record_r m x = WOk [] (size_record_r x - 2).
Proof. destruct x as [y0 y1 y2 y3 y4 y5 y6]; unfold wf_RecordR, size_record_r, len_record_r; cbn [RecordR_originating_id RecordR_receiving_id RecordR_request_id RecordR_required_reliability_service RecordR_event_type RecordR_response_serial_number RecordR_record_specification]; intros; wfd. pdu_facts. pdu_len. Qed.
Lemma ln_set_record_r m x : wf_SetRecordR x -> Forall rs_ok (SetRecordR_record_specification x) -> size_set_record_r x < 65524 -> len_set_record_r m x = WOk [] (size_set_record_r x).
Proof. destruct x as [y0 y1 y2 y3 y4]; unfold wf_SetRecordR, size_set_record_r, len_set_record_r; cbn [SetRecordR_originating_id SetRecordR_receiving_id SetRecordR_request_id SetRecordR_required_reliability_service SetRecordR_record_specification]; intros; wfd. pdu_facts. pdu_len. Qed.
Lemma ln_service_request m x : wf_ServiceRequest x -> size_service_request x < 65524 -> len_service_request m x = WOk [] (size_service_request x + 12).
Proof. destruct x as [y0 y1 y2 y3]; unfold wf_ServiceRequest, size_service_request, len_service_request; cbn [ServiceRequest_requesting_id ServiceRequest_servicing_id ServiceRequest_service_type_requested ServiceRequest_supplies]; intros; wfd. pdu_facts. pdu_len. Qed.
Lemma ln_resupply_offer m x : wf_ResupplyOffer x -> size_resupply_offer x < 65524 -> len_resupply_offer m x = WOk [] (size_resupply_offer x + 12).
Proof. destruct x as [y0 y1 y2]; unfold wf_ResupplyOffer, size_resupply_offer, len_resupply_offer; cbn [ResupplyOffer_requesting_id ResupplyOffer_servicing_id ResupplyOffer_supplies]; intros; wfd. pdu_facts. pdu_len. Qed.
Lemma ln_resupply_received m x : wf_ResupplyReceived x -> size_resupply_received x < 65524 -> len_resupply_received m x = WOk [] (size_resupply_received x + 12).
Proof. destruct x as [y0 y1 y2]; unfold wf_ResupplyReceived, size_resupply_received, len_resupply_received; cbn [ResupplyReceived_requesting_id ResupplyReceived_servicing_id ResupplyReceived_supplies]; intros; wfd. pdu_facts. pdu_len. Qed.
Lemma ln_resupply_cancel m x : wf_ResupplyCancel x -> size_resupply_cancel x < 65524 -> len_resupply_cancel m x = WOk [] (size_resupply_cancel x + 12).
Proof. destruct x as [y0 y1]; unfold wf_ResupplyCancel, size_resupply_cancel, len_resupply_cancel; cbn [ResupplyCancel_requesting_id ResupplyCancel_servicing_id]; intros; wfd. pdu_facts. pdu_len. Qed.
Lemma ln_repair_complete m x : wf_RepairComplete x -> size_repair_complete x < 65524 -> len_repair_complete m x = WOk [] (size_repair_complete x).
Proof. destruct x as [y0 y1 y2]; unfold wf_RepairComplete, size_repair_complete, len_repair_complete; cbn [RepairComplete_receiving_id RepairComplete_repairing_id RepairComplete_repair]; intros; wfd. pdu_facts. pdu_len. Qed.
Lemma ln_repair_response m x : wf_RepairResponse x -> size_repair_response x < 65524 -> len_repair_response m x = WOk [] (size_repair_response x).
Proof. destruct x as [y0 y1 y2]; unfold wf_RepairResponse, size_repair_response, len_repair_response; cbn [RepairResponse_receiving_id RepairResponse_repairing_id RepairResponse_repair_result]; intros; wfd. pdu_facts. pdu_len. Qed.
Lemma ln_collision m x : wf_Collision x -> size_collision x < 65524 -> len_collision m x = WOk [] (size_collision x + 12).
Proof. destruct x as [y0 y1 y2 y3 y4 y5 y6]; unfold wf_Collision, size_collision, len_collision; cbn [Collision_issuing_entity_id Collision_colliding_entity_id Collision_event_id Collision_collision_type Collision_velocity Collision_mass Collision_location]; intros; wfd. pdu_facts. pdu_len. Qed.
Lemma ln_collision_elastic m x : wf_CollisionElastic x -> size_collision_elastic x < 65524 -> len_collision_elastic m x = WOk [] (size_collision_elastic x).
Proof. destruct x as [y0 y1 y2 y3 y4 y5 y6 y7 y8 y9 y10 y11 y12 y13]; unfold wf_CollisionElastic, size_collision_elastic, len_collision_elastic; cbn [CollisionElastic_issuing_entity_id CollisionElastic_colliding_entity_id CollisionElastic_event_id CollisionElastic_velocity CollisionElastic_mass CollisionElastic_location CollisionElastic_intermediate_result_xx CollisionElastic_intermediate_result_xy CollisionElastic_intermediate_result_xz CollisionElastic_intermediate_result_yy CollisionElastic_intermediate_result_yz CollisionElastic_intermediate_result_zz CollisionElastic_unit_surface_normal CollisionElastic_coefficient_of_restitution]; intros; wfd. pdu_facts. pdu_len. Qed.
Lemma ln_receiver m x : wf_Receiver x -> size_receiver x < 65524 -> len_receiver m x = WOk [] (size_receiver x).
Proof. destruct x as [y0 y1 y2 y3 y4 y5]; unfold wf_Receiver, size_receiver, len_receiver; cbn [Receiver_radio_reference_id Receiver_radio_number Receiver_receiver_state Receiver_received_power Receiver_transmitter_radio_reference_id Receiver_transmitter_radio_number]; intros; wfd. pdu_facts. pdu_len. Qed.
Lemma ln_designator m x : wf_Designator x -> size_designator x < 65524 -> len_designator m x = WOk [] (size_designator x).
Proof. destruct x as [y0 y1 y2 y3 y4 y5 y6 y7 y8 y9]; unfold wf_Designator, size_designator, len_designator; cbn [Designator_designating_entity_id Designator_system_name Designator_designated_entity_id Designator_code Designator_power Designator_wavelength Designator_spot_wrt_designated_entity Designator_spot_location Designator_dead_reckoning_algorithm Designator_linear_acceleration]; intros; wfd. pdu_facts. pdu_len. Qed.
Lemma ln_is_part_of m x : wf_IsPartOf x -> size_is_part_of x < 65524 -> len_is_part_of m x = WOk [] (size_is_part_of x + 8).
Proof. destruct x as [y0 y1 y2 y3 y4]; unfold wf_IsPartOf, size_is_part_of, len_is_part_of; cbn [IsPartOf_originating_simulation_id IsPartOf_receiving_entity_id IsPartOf_relationship IsPartOf_part_location IsPartOf_named_location_id]; intros; wfd. pdu_facts. pdu_len. Qed.
Lemma ln_transfer_ownership m x : wf_TransferOwnership x -> Forall rs_ok (TransferOwnership_record_specification x) -> size_transfer_ownership x < 65524 -> len_transfer_ownership m x = WOk [] (size_transfer_ownership x).
Proof. destruct x as [y0 y1 y2 y3 y4 y5 y6]; unfold wf_TransferOwnership, size_transfer_ownership, len_transfer_ownership; cbn [TransferOwnership_originating_id TransferOwnership_receiving_id TransferOwnership_request_id TransferOwnership_required_reliability_service TransferOwnership_transfer_type TransferOwnership_transfer_entity_id TransferOwnership_record_specification]; intros; wfd. pdu_facts. pdu_len. Qed.
Lemma ln_fire m x : wf_Fire x -> size_fire x < 65524 -> len_fire m x = WOk [] (size_fire x - 56).
Proof. destruct x as [y0 y1 y2 y3 y4 y5 y6 y7 y8]; unfold wf_Fire, size_fire, len_fire; cbn [Fire_firing_entity_id Fire_target_entity_id Fire_entity_id Fire_event_id Fire_fire_mission_index Fire_location_in_world Fire_descriptor Fire_velocity Fire_range]; intros; wfd. pdu_facts. pdu_len. Qed.
Lemma ln_detonation m x : wf_Detonation x -> size_detonation x < 65524 -> len_detonation m x = WOk [] (size_detonation x + 12).
Proof. destruct x as [y0 y1 y2 y3 y4 y5 y6 y7 y8 y9]; unfold wf_Detonation, size_detonation, len_detonation; cbn [Detonation_source_entity_id Detonation_target_entity_id Detonation_exploding_entity_id Detonation_event_id Detonation_velocity Detonation_world_location Detonation_descriptor Detonation_entity_location Detonation_result Detonation_variable_parameters]; intros; wfd. pdu_facts. pdu_len. Qed.
Lemma ln_entity_state_update m x : wf_EntityStateUpdate x -> size_entity_state_update x < 65524 -> len_entity_state_update m x = WOk [] (size_entity_state_update x).
Proof. destruct x as [y0 y1 y2 y3 y4 y5]; unfold wf_EntityStateUpdate, size_entity_state_update, len_entity_state_update; cbn [EntityStateUpdate_entity_id EntityStateUpdate_velocity EntityStateUpdate_location EntityStateUpdate_orientation EntityStateUpdate_appearance EntityStateUpdate_variable_parameters]; intros; wfd. pdu_facts. pdu_len. Qed.
Lemma ln_sees m x : wf_Sees x -> size_sees x < 65524 -> len_sees m x = WOk [] (size_sees x).
Proof. destruct x as [y0 y1 y2 y3 y4 y5]; unfold wf_Sees, size_sees, len_sees; cbn [Sees_originating_entity_id Sees_infrared Sees_acoustic Sees_radar Sees_propulsion_systems Sees_vectoring_nozzle_systems]; intros; wfd. pdu_facts. pdu_len. Qed.
Lemma Wr_ged_ground r : Wr (w_ged_ground r) tt 20. Proof. unfold w_ged_ground. pose proof Wr_ged_base. eapply Wr_conv; [wr_with ltac:(idtac; match goal with |- Wr (wbind (w_ged_base _) _) _ _ => eapply Wr_bind; [apply Wr_ged_base|]; cbv beta end)|reflexivity|lia]. Qed.
Lemma Wr_ged_air r : Wr (w_ged_air r) tt 20. Proof. unfold w_ged_air. eapply Wr_conv; [wr_with ltac:(idtac; match goal with |- Wr (wbind (w_ged_base _) _) _ _ => eapply Wr_bind; [apply Wr_ged_base|]; cbv beta end)|reflexivity|lia]. Qed.
Lemma Wr_quad q : Wr (w_quad q) tt 4. Proof. unfold w_quad. wr. Qed.
Global Hint Resolve Wr_ged_base Wr_ged_ground Wr_ged_air Wr_quad : wr.
Lemma Wr_ged g : Wr (w_ged g) (size_ged g) (size_ged g).
Proof.
  unfold w_ged. assert (rl_ged g = size_ged g) as -> by (destruct g; reflexivity).
  eapply Wr_conv; [eapply Wr_bind with (r := tt) (L := size_ged g); [|cbv beta; apply Wr_ret]|reflexivity|lia].
  destruct g; cbn [size_ged]; try (solve [auto with wr]); try apply Wr_ret;
    (eapply Wr_conv; [repeat wr_step; solve [auto with wr | apply Wr_put2]|reflexivity|reflexivity]).
Qed.
Lemma Wr_is_group_of m x : size_is_group_of x < 65524 -> Wr (w_is_group_of m x) (size_is_group_of x - 8) (size_is_group_of x).
Proof.
  intros Hs. unfold w_is_group_of. unfold size_is_group_of in *. pose proof (geds_range (IsGroupOf_descriptions x)).
  eapply Wr_conv; [wr_with ltac:(idtac; match goal with
    | |- Wr (wbind (wmap_sum _ w_ged _) _) _ _ => eapply Wr_bind; [apply (Wr_sum m w_ged size_ged size_ged); [|lia]|]; cbv beta end)|lia|lia].
  intros g _. split; [apply Wr_ged|apply size_ged_range].
Qed.

Lemma Wr_iff_data_record v : size_idr v < 65536 -> Wr (w_iff_data_record v) (size_idr v) (size_idr v).
Proof.
  unfold size_idr, w_iff_data_record. intros H. pose proof (zlen_nonneg (idr_fields v)). pose proof (pad_to_bound (6 + zlen (idr_fields v)) 4).
  eapply Wr_conv; [repeat wr_step|rewrite Z.mod_small by lia; lia|lia].
Qed.
Lemma Wr_iff_data_specification m l : size_idrs l < 65536 -> Wr (w_iff_data_specification m l) (size_idrs l) (size_idrs l).
Proof.
  unfold size_idrs, w_iff_data_specification. intros H. pose proof (idrs_bound l). pose proof (zlen_nonneg l).
  eapply Wr_conv; [wr_with ltac:(idtac; match goal with
    | |- Wr (wbind (wmap_sum _ w_iff_data_record _) _) _ _ => eapply Wr_bind; [apply (Wr_sum m w_iff_data_record size_idr size_idr); [|lia]|]; cbv beta end)|lia|lia].
  intros v Hi. pose proof (idr_le _ _ Hi). pose proof (size_idr_bound v). split; [apply Wr_iff_data_record; lia|lia].
Qed.
Ltac wr_iff := eapply Wr_conv; [wr_with ltac:(idtac; match goal with
    | |- Wr (wbind (w_iff_data_specification _ _) _) _ _ => eapply Wr_bind; [apply Wr_iff_data_specification; lia|]; cbv beta
    | |- Wr (wbind (w_modes_basic_data _) _) _ _ => eapply Wr_bind; [apply Wr_modes_basic_data|]; cbv beta end)|lia|lia].
Lemma Wr_iff_layer_2 m l : size_l2 l < 65536 -> Wr (w_iff_layer_2 m l) (size_l2 l) (size_l2 l).
Proof. unfold size_l2, w_iff_layer_2. intros H. pose proof (zlen_nonneg (l2_params l)). wr. Qed.
Lemma Wr_iff_layer_3 m l : size_l3 l < 65536 -> Wr (w_iff_layer_3 m l) (size_l3 l) (size_l3 l).
Proof. unfold size_l3, w_iff_layer_3. intros H. pose proof (size_idrs_bound (l3_records l)). wr_iff. Qed.
Lemma Wr_iff_layer_4 m l : size_l4 l + modes_deficit (l4_basic l) < 65536 -> Wr (w_iff_layer_4 m l) (size_l4 l + modes_deficit (l4_basic l)) (size_l4 l).
Proof. unfold size_l4, w_iff_layer_4. intros H. pose proof (size_idrs_bound (l4_records l)). assert (0 <= modes_deficit (l4_basic l) <= 3) by (destruct (l4_basic l); cbn; lia). wr_iff. Qed.
Lemma Wr_iff_layer_5 m l : size_l5 l < 65536 -> Wr (w_iff_layer_5 m l) (size_l5 l) (size_l5 l).
Proof. unfold size_l5, w_iff_layer_5. intros H. pose proof (size_idrs_bound (l5_records l)). wr_iff. Qed.
Lemma Wr_option {A} (w : A -> W Z) o r L : (forall a, o = Some a -> Wr (w a) (r a) (L a)) -> Wr (w_option w o) (opt_size r o) (opt_size L o).
Proof. intros H. destruct o as [a|]; cbn [w_option opt_size]; [auto|apply Wr_ret]. Qed.
Lemma Wr_iff m x : size_iff x < 65520 -> Wr (w_iff m x) (size_iff x + deficit_iff x) (size_iff x).
Proof.
  intros Hs. pose proof (deficit_range x) as Hdef. unfold size_iff, deficit_iff in *. unfold w_iff.
  pose proof (size_l2_nonneg (Iff_layer_2 x)). pose proof (size_l3_nonneg (Iff_layer_3 x)). pose proof (size_l4_nonneg (Iff_layer_4 x)). pose proof (size_l5_nonneg (Iff_layer_5 x)).
  pose proof (opt_size_add size_l4 (fun l => modes_deficit (l4_basic l)) (Iff_layer_4 x)) as E4.
  eapply Wr_conv; [do 7 wr_step;
    (eapply Wr_bind; [apply (Wr_option (w_iff_layer_2 m) (Iff_layer_2 x) size_l2 size_l2)|]; cbv beta; [|
    eapply Wr_bind; [apply (Wr_option (w_iff_layer_3 m) (Iff_layer_3 x) size_l3 size_l3)|]; cbv beta; [|
    eapply Wr_bind; [apply (Wr_option (w_iff_layer_4 m) (Iff_layer_4 x) (fun l => size_l4 l + modes_deficit (l4_basic l)) size_l4)|]; cbv beta; [|
    eapply Wr_bind; [apply (Wr_option (w_iff_layer_5 m) (Iff_layer_5 x) size_l5 size_l5)|]; cbv beta; [|rewrite E4; repeat wr_step]]]])
    |lia|lia]; intros l El; rewrite El in *; cbn [opt_size] in *.
  - apply Wr_iff_layer_2; lia.
  - apply Wr_iff_layer_3; lia.
  - apply Wr_iff_layer_4; lia.
  - apply Wr_iff_layer_5; lia.
Qed.

Lemma len_entity_state_size m x : size_entity_state x < 65480 -> len_entity_state m x = WOk [] (size_entity_state x).
Proof. unfold len_entity_state, size_entity_state. intros. pose proof (zlen_nonneg (EntityState_variable_parameters x)). pdu_len. Qed.
Lemma len_signal_size m x : size_signal x < 65524 -> len_signal m x = WOk [] (size_signal x).
Proof.
  unfold len_signal, size_signal. intros; wfd. pose proof (zlen_nonneg (Signal_data x)). pose proof (pad_to_bound (zlen (Signal_data x)) 4).
  rewrite w_padded_ok by lia. unfold wbind. cbn [pl_record].
  rewrite Z.mod_small by lia. rewrite add16_ok by lia. cbn [app]. f_equal. lia.
Qed.
Lemma zsum_map_minus {A} (f g : A -> Z) l : zsum (map (fun x => f x - g x) l) = zsum (map f l) - zsum (map g l).
Proof. induction l; cbn [map zsum]; lia. Qed.
Definition set_padding (s : AttributeRecordSet) : Z := zsum (map (fun r => pad_to (6 + zlen (ar_fields r)) 8) (as_records s)).
Lemma set_padding_range s : 0 <= set_padding s <= zsum (map size_attribute_record (as_records s)).
Proof.
  unfold set_padding. induction (as_records s) as [|r l IH]; cbn [map zsum]; [lia|].
  unfold size_attribute_record at 1. pose proof (zlen_nonneg (ar_fields r)). pose proof (pad_to_bound (6 + zlen (ar_fields r)) 8). lia.
Qed.
Lemma paddings_range l : 0 <= zsum (map set_padding l) <= zsum (map size_attribute_record_set l).
Proof. induction l as [|s l IH]; cbn [map zsum]; [lia|]. pose proof (set_padding_range s). unfold size_attribute_record_set at 1. lia. Qed.
Lemma len_attribute_size m x : size_attribute x < 65524 -> len_attribute m x = WOk [] (size_attribute x - zsum (map set_padding (Attribute_sets x))).
Proof.
  unfold len_attribute, size_attribute. intros Hs.
  assert (Hb : forall s, 8 <= size_attribute_record_set s) by (intros s; pose proof (size_attribute_set_bound s); pose proof (zlen_nonneg (as_records s)); lia).
  pose proof (zsum_map_nonneg size_attribute_record_set (Attribute_sets x) ltac:(intros y _; specialize (Hb y); lia)).
  pose proof (paddings_range (Attribute_sets x)).
  pose proof (zsum_map_minus size_attribute_record_set set_padding (Attribute_sets x)) as E.
  rewrite wmap_sum_pure with (len := fun s => size_attribute_record_set s - set_padding s); [| |lia].
  - unfold wbind. rewrite add16_ok by lia. cbn [app]. f_equal. lia.
  - intros s Hi. pose proof (set_padding_range s) as Hp.
    assert (size_attribute_record_set s <= zsum (map size_attribute_record_set (Attribute_sets x))).
    { apply zsum_elt_le; [|exact Hi]. intros y _. specialize (Hb y); lia. }
    split; [|unfold size_attribute_record_set; lia].
    assert (8 + zsum (map size_attribute_record (as_records s)) < 65524) by (unfold size_attribute_record_set in *; lia). unfold size_attribute_record_set.
    pose proof (zsum_map_minus size_attribute_record (fun r => pad_to (6 + zlen (ar_fields r)) 8) (as_records s)) as E2. cbv beta in E2. change (zsum (map (fun r => pad_to (6 + zlen (ar_fields r)) 8) (as_records s))) with (set_padding s) in E2.
    rewrite wmap_sum_pure with (len := fun r => size_attribute_record r - pad_to (6 + zlen (ar_fields r)) 8); [| |lia].
    + unfold wbind. rewrite add16_ok by lia. cbn [app]. f_equal. lia.
    + intros r Hr. pose proof (zlen_nonneg (ar_fields r)). pose proof (pad_to_bound (6 + zlen (ar_fields r)) 8).
      assert (size_attribute_record r <= zsum (map size_attribute_record (as_records s))).
      { apply zsum_elt_le; [|exact Hr]. intros y _. pose proof (size_attribute_record_bound y); lia. }
      unfold size_attribute_record in *. split; [|lia]. rewrite Z.mod_small by lia. rewrite add16_ok by lia. f_equal. lia.
Qed.

(** ** Whole PDUs *)
Lemma sized_rs l : Forall set_uniform l -> Forall rs_ok l.
Proof. apply Forall_impl. intros r (H1 & H2 & H3 & H4). split; [|split; assumption]. split; assumption. Qed.
Lemma Wr_body m v b : wf_body b -> sized b -> 12 + size_body b <= 65500 -> Wr (w_body m v b) (size_body b + returned_excess b) (size_body b).
Proof.
  intros Hw (Hd & Hr & Hv & Ht) Hs. apply sized_rs in Hr. change datum_whole with vd_ok in Hd.
  destruct b; cbn [wf_body variable_datums record_sets variable_parameters texts size_body w_body returned_excess] in *;
    try (apply Forall_inv in Ht; unfold text_fits in Ht; cbn [fst snd] in Ht).
  - (* other *) eapply Wr_conv; [apply Wr_other; solve [assumption | lia | unfold size_entity_state in *; lia]|lia|lia].
  - (* entity_state *) eapply Wr_conv; [apply Wr_entity_state; solve [assumption | lia | unfold size_entity_state in *; lia]|lia|lia].
  - (* fire *) eapply Wr_conv; [apply Wr_fire; solve [assumption | lia | unfold size_entity_state in *; lia]|lia|lia].
  - (* detonation *) eapply Wr_conv; [apply Wr_detonation; solve [assumption | lia | unfold size_entity_state in *; lia]|lia|lia].
  - (* collision *) eapply Wr_conv; [apply Wr_collision; solve [assumption | lia | unfold size_entity_state in *; lia]|lia|lia].
  - (* service_request *) eapply Wr_conv; [apply Wr_service_request; solve [assumption | lia | unfold size_entity_state in *; lia]|lia|lia].
  - (* resupply_offer *) eapply Wr_conv; [apply Wr_resupply_offer; solve [assumption | lia | unfold size_entity_state in *; lia]|lia|lia].
  - (* resupply_received *) eapply Wr_conv; [apply Wr_resupply_received; solve [assumption | lia | unfold size_entity_state in *; lia]|lia|lia].
  - (* resupply_cancel *) eapply Wr_conv; [apply Wr_resupply_cancel; solve [assumption | lia | unfold size_entity_state in *; lia]|lia|lia].
  - (* repair_complete *) eapply Wr_conv; [apply Wr_repair_complete; solve [assumption | lia | unfold size_entity_state in *; lia]|lia|lia].
  - (* repair_response *) eapply Wr_conv; [apply Wr_repair_response; solve [assumption | lia | unfold size_entity_state in *; lia]|lia|lia].
  - (* create_entity *) eapply Wr_conv; [apply Wr_create_entity; solve [assumption | lia | unfold size_entity_state in *; lia]|lia|lia].
  - (* remove_entity *) eapply Wr_conv; [apply Wr_remove_entity; solve [assumption | lia | unfold size_entity_state in *; lia]|lia|lia].
  - (* start_resume *) eapply Wr_conv; [apply Wr_start_resume; solve [assumption | lia | unfold size_entity_state in *; lia]|lia|lia].
  - (* stop_freeze *) eapply Wr_conv; [apply Wr_stop_freeze; solve [assumption | lia | unfold size_entity_state in *; lia]|lia|lia].
  - (* acknowledge *) eapply Wr_conv; [apply Wr_acknowledge; solve [assumption | lia | unfold size_entity_state in *; lia]|lia|lia].
  - (* action_request *) eapply Wr_conv; [apply Wr_action_request; solve [assumption | lia | unfold size_entity_state in *; lia]|lia|lia].
  - (* action_response *) eapply Wr_conv; [apply Wr_action_response; solve [assumption | lia | unfold size_entity_state in *; lia]|lia|lia].
  - (* data_query *) eapply Wr_conv; [apply Wr_data_query; solve [assumption | lia | unfold size_entity_state in *; lia]|lia|lia].
  - (* set_data *) eapply Wr_conv; [apply Wr_set_data; solve [assumption | lia | unfold size_entity_state in *; lia]|lia|lia].
  - (* data *) eapply Wr_conv; [apply Wr_data; solve [assumption | lia | unfold size_entity_state in *; lia]|lia|lia].
  - (* event_report *) eapply Wr_conv; [apply Wr_event_report; solve [assumption | lia | unfold size_entity_state in *; lia]|lia|lia].
  - (* comment *) eapply Wr_conv; [apply Wr_comment; solve [assumption | lia | unfold size_entity_state in *; lia]|lia|lia].
  - (* emission *) eapply Wr_conv; [apply Wr_emission; solve [assumption | lia | unfold size_entity_state in *; lia]|lia|lia].
  - (* designator *) eapply Wr_conv; [apply Wr_designator; solve [assumption | lia | unfold size_entity_state in *; lia]|lia|lia].
  - (* transmitter *) eapply Wr_conv; [apply Wr_transmitter; solve [assumption | lia | unfold size_entity_state in *; lia]|lia|lia].
  - (* signal *) eapply Wr_conv; [apply Wr_signal; solve [assumption | lia | unfold size_entity_state in *; lia]|lia|lia].
  - (* receiver *) eapply Wr_conv; [apply Wr_receiver; solve [assumption | lia | unfold size_entity_state in *; lia]|lia|lia].
  - (* iff *) eapply Wr_conv; [apply Wr_iff; solve [assumption | lia | unfold size_entity_state in *; lia]|lia|lia].
  - (* underwater_acoustic *) eapply Wr_conv; [apply Wr_underwater_acoustic; solve [assumption | lia | unfold size_entity_state in *; lia]|lia|lia].
  - (* sees *) eapply Wr_conv; [apply Wr_sees; solve [assumption | lia | unfold size_entity_state in *; lia]|lia|lia].
  - (* aggregate_state *) eapply Wr_conv; [apply Wr_aggregate_state; solve [assumption | lia | unfold size_entity_state in *; lia]|lia|lia].
  - (* is_group_of *) eapply Wr_conv; [apply Wr_is_group_of; solve [assumption | lia | unfold size_entity_state in *; lia]|lia|lia].
  - (* transfer_ownership *) eapply Wr_conv; [apply Wr_transfer_ownership; solve [assumption | lia | unfold size_entity_state in *; lia]|lia|lia].
  - (* is_part_of *) eapply Wr_conv; [apply Wr_is_part_of; solve [assumption | lia | unfold size_entity_state in *; lia]|lia|lia].
  - (* create_entity_r *) eapply Wr_conv; [apply Wr_create_entity_r; solve [assumption | lia | unfold size_entity_state in *; lia]|lia|lia].
  - (* remove_entity_r *) eapply Wr_conv; [apply Wr_remove_entity_r; solve [assumption | lia | unfold size_entity_state in *; lia]|lia|lia].
  - (* start_resume_r *) eapply Wr_conv; [apply Wr_start_resume_r; solve [assumption | lia | unfold size_entity_state in *; lia]|lia|lia].
  - (* stop_freeze_r *) eapply Wr_conv; [apply Wr_stop_freeze_r; solve [assumption | lia | unfold size_entity_state in *; lia]|lia|lia].
  - (* acknowledge_r *) eapply Wr_conv; [apply Wr_acknowledge_r; solve [assumption | lia | unfold size_entity_state in *; lia]|lia|lia].
  - (* action_request_r *) eapply Wr_conv; [apply Wr_action_request_r; solve [assumption | lia | unfold size_entity_state in *; lia]|lia|lia].
  - (* action_response_r *) eapply Wr_conv; [apply Wr_action_response_r; solve [assumption | lia | unfold size_entity_state in *; lia]|lia|lia].
  - (* data_query_r *) eapply Wr_conv; [apply Wr_data_query_r; solve [assumption | lia | unfold size_entity_state in *; lia]|lia|lia].
  - (* set_data_r *) eapply Wr_conv; [apply Wr_set_data_r; solve [assumption | lia | unfold size_entity_state in *; lia]|lia|lia].
  - (* data_r *) eapply Wr_conv; [apply Wr_data_r; solve [assumption | lia | unfold size_entity_state in *; lia]|lia|lia].
  - (* event_report_r *) eapply Wr_conv; [apply Wr_event_report_r; solve [assumption | lia | unfold size_entity_state in *; lia]|lia|lia].
  - (* comment_r *) eapply Wr_conv; [apply Wr_comment_r; solve [assumption | lia | unfold size_entity_state in *; lia]|lia|lia].
  - (* record_r *) eapply Wr_conv; [apply Wr_record_r; solve [assumption | lia | unfold size_entity_state in *; lia]|lia|lia].
  - (* set_record_r *) eapply Wr_conv; [apply Wr_set_record_r; solve [assumption | lia | unfold size_entity_state in *; lia]|lia|lia].
  - (* record_query_r *) eapply Wr_conv; [apply Wr_record_query_r; solve [assumption | lia | unfold size_entity_state in *; lia]|lia|lia].
  - (* collision_elastic *) eapply Wr_conv; [apply Wr_collision_elastic; solve [assumption | lia | unfold size_entity_state in *; lia]|lia|lia].
  - (* entity_state_update *) eapply Wr_conv; [apply Wr_entity_state_update; solve [assumption | lia | unfold size_entity_state in *; lia]|lia|lia].
  - (* attribute *) eapply Wr_conv; [apply Wr_attribute; solve [assumption | lia | unfold size_entity_state in *; lia]|lia|lia].
  - (* unit *) eapply Wr_conv; [apply Wr_ret|lia|lia].
Qed.
Lemma length_body m b : wf_body b -> Forall set_uniform (record_sets b) -> 12 + size_body b <= 65500 -> body_length m b = WOk [] (size_body b + claimed_excess b - attribute_padding b).
Proof.
  intros Hw Hr Hs. apply sized_rs in Hr.
  destruct b; cbn [wf_body record_sets size_body body_length claimed_excess attribute_padding] in *.
  - rewrite len_other_ok by solve [assumption | lia | unfold size_entity_state in *; lia]. f_equal; lia.
  - rewrite len_entity_state_size by solve [assumption | lia | unfold size_entity_state in *; lia]. f_equal; lia.
  - rewrite ln_fire by solve [assumption | lia | unfold size_entity_state in *; lia]. f_equal; lia.
  - rewrite ln_detonation by solve [assumption | lia | unfold size_entity_state in *; lia]. f_equal; lia.
  - rewrite ln_collision by solve [assumption | lia | unfold size_entity_state in *; lia]. f_equal; lia.
  - rewrite ln_service_request by solve [assumption | lia | unfold size_entity_state in *; lia]. f_equal; lia.
  - rewrite ln_resupply_offer by solve [assumption | lia | unfold size_entity_state in *; lia]. f_equal; lia.
  - rewrite ln_resupply_received by solve [assumption | lia | unfold size_entity_state in *; lia]. f_equal; lia.
  - rewrite ln_resupply_cancel by solve [assumption | lia | unfold size_entity_state in *; lia]. f_equal; lia.
  - rewrite ln_repair_complete by solve [assumption | lia | unfold size_entity_state in *; lia]. f_equal; lia.
  - rewrite ln_repair_response by solve [assumption | lia | unfold size_entity_state in *; lia]. f_equal; lia.
  - rewrite ln_create_entity by solve [assumption | lia | unfold size_entity_state in *; lia]. f_equal; lia.
  - rewrite ln_remove_entity by solve [assumption | lia | unfold size_entity_state in *; lia]. f_equal; lia.
  - rewrite ln_start_resume by solve [assumption | lia | unfold size_entity_state in *; lia]. f_equal; lia.
  - rewrite ln_stop_freeze by solve [assumption | lia | unfold size_entity_state in *; lia]. f_equal; lia.
  - rewrite ln_acknowledge by solve [assumption | lia | unfold size_entity_state in *; lia]. f_equal; lia.
  - rewrite ln_action_request by solve [assumption | lia | unfold size_entity_state in *; lia]. f_equal; lia.
  - rewrite ln_action_response by solve [assumption | lia | unfold size_entity_state in *; lia]. f_equal; lia.
  - rewrite ln_data_query by solve [assumption | lia | unfold size_entity_state in *; lia]. f_equal; lia.
  - rewrite ln_set_data by solve [assumption | lia | unfold size_entity_state in *; lia]. f_equal; lia.
  - rewrite ln_data by solve [assumption | lia | unfold size_entity_state in *; lia]. f_equal; lia.
  - rewrite ln_event_report by solve [assumption | lia | unfold size_entity_state in *; lia]. f_equal; lia.
  - rewrite ln_comment by solve [assumption | lia | unfold size_entity_state in *; lia]. f_equal; lia.
  - rewrite len_emission_size by solve [assumption | lia | unfold size_entity_state in *; lia]. f_equal; lia.
  - rewrite ln_designator by solve [assumption | lia | unfold size_entity_state in *; lia]. f_equal; lia.
  - rewrite len_transmitter_ok by solve [assumption | lia | unfold size_entity_state in *; lia]. f_equal; lia.
  - rewrite len_signal_size by solve [assumption | lia | unfold size_entity_state in *; lia]. f_equal; lia.
  - rewrite ln_receiver by solve [assumption | lia | unfold size_entity_state in *; lia]. f_equal; lia.
  - rewrite len_iff_ok by solve [assumption | lia | unfold size_entity_state in *; lia]. f_equal; lia.
  - rewrite len_underwater_acoustic_size by solve [assumption | lia | unfold size_entity_state in *; lia]. f_equal; lia.
  - rewrite ln_sees by solve [assumption | lia | unfold size_entity_state in *; lia]. f_equal; lia.
  - rewrite len_aggregate_state_size by solve [assumption | lia | unfold size_entity_state in *; lia]. f_equal; lia.
  - rewrite len_is_group_of_size by solve [assumption | lia | unfold size_entity_state in *; lia]. f_equal; lia.
  - rewrite ln_transfer_ownership by solve [assumption | lia | unfold size_entity_state in *; lia]. f_equal; lia.
  - rewrite ln_is_part_of by solve [assumption | lia | unfold size_entity_state in *; lia]. f_equal; lia.
  - rewrite ln_create_entity_r by solve [assumption | lia | unfold size_entity_state in *; lia]. f_equal; lia.
  - rewrite ln_remove_entity_r by solve [assumption | lia | unfold size_entity_state in *; lia]. f_equal; lia.
  - rewrite ln_start_resume_r by solve [assumption | lia | unfold size_entity_state in *; lia]. f_equal; lia.
  - rewrite ln_stop_freeze_r by solve [assumption | lia | unfold size_entity_state in *; lia]. f_equal; lia.
  - rewrite ln_acknowledge_r by solve [assumption | lia | unfold size_entity_state in *; lia]. f_equal; lia.
  - rewrite ln_action_request_r by solve [assumption | lia | unfold size_entity_state in *; lia]. f_equal; lia.
  - rewrite ln_action_response_r by solve [assumption | lia | unfold size_entity_state in *; lia]. f_equal; lia.
  - rewrite ln_data_query_r by solve [assumption | lia | unfold size_entity_state in *; lia]. f_equal; lia.
  - rewrite ln_set_data_r by solve [assumption | lia | unfold size_entity_state in *; lia]. f_equal; lia.
  - rewrite ln_data_r by solve [assumption | lia | unfold size_entity_state in *; lia]. f_equal; lia.
  - rewrite ln_event_report_r by solve [assumption | lia | unfold size_entity_state in *; lia]. f_equal; lia.
  - rewrite ln_comment_r by solve [assumption | lia | unfold size_entity_state in *; lia]. f_equal; lia.
  - rewrite ln_record_r by solve [assumption | lia | unfold size_entity_state in *; lia]. f_equal; lia.
  - rewrite ln_set_record_r by solve [assumption | lia | unfold size_entity_state in *; lia]. f_equal; lia.
  - rewrite ln_record_query_r by solve [assumption | lia | unfold size_entity_state in *; lia]. f_equal; lia.
  - rewrite ln_collision_elastic by solve [assumption | lia | unfold size_entity_state in *; lia]. f_equal; lia.
  - rewrite ln_entity_state_update by solve [assumption | lia | unfold size_entity_state in *; lia]. f_equal; lia.
  - rewrite len_attribute_size by solve [assumption | lia | unfold size_entity_state in *; lia]. f_equal; unfold set_padding; lia.
  - reflexivity.
Qed.
Lemma Wr_header h : Wr (w_header h) 12 12.
Proof.
  unfold w_header. assert (Wr (if h_version h =? 7 then match h_status h with Some s => (_ <- put_u8 (write_status (h_type h) s);; put_u8 0)%write | None => put_u16 0 end else put_u16 0) tt 2) as E.
  { destruct (h_version h =? 7); [destruct (h_status h)|]; try apply Wr_put2. eapply Wr_conv; [eapply Wr_bind; [apply Wr_put1|apply Wr_put1]|reflexivity|reflexivity]. }
  eapply Wr_conv; [wr_with ltac:(idtac; match goal with |- Wr (wbind (if _ then _ else _) _) _ _ => eapply Wr_bind; [exact E|]; cbv beta end)|reflexivity|reflexivity].
Qed.
Lemma size_body_pos b : wf_body b -> sized b -> 12 + size_body b <= 65500 -> 0 <= size_body b.
Proof. intros H1 H2 H3. destruct (Wr_body Wrapping 7 b H1 H2 H3) as (bs & _ & <-). apply zlen_nonneg. Qed.
Lemma padding_nonneg b : 0 <= attribute_padding b.
Proof. destruct b; cbn [attribute_padding]; try lia. apply (paddings_range (Attribute_sets x)). Qed.
Lemma excess_range b : wf_body b -> sized b -> 12 + size_body b <= 65500 ->
  0 <= 12 + size_body b + returned_excess b < 65536 /\ 0 <= 12 + size_body b + claimed_excess b - attribute_padding b < 65536.
Proof.
  intros Hw Hz Hs. pose proof (size_body_pos b Hw Hz Hs) as Hn. pose proof (padding_nonneg b).
  destruct b; cbn [returned_excess claimed_excess] in *; try (cbn [attribute_padding] in *; lia).
  - cbn [size_body attribute_padding] in *. unfold size_entity_state in *. lia.
  - cbn [size_body attribute_padding] in *. unfold size_fire in *. lia.
  - cbn [attribute_padding]. pose proof (DisIff.deficit_range x). lia.
  - cbn [size_body attribute_padding] in *. unfold size_aggregate_state in *.
    pose proof (ses_bounds x). pose proof (vds_size_bound (AggregateState_variable_datums x)). pose proof (zlen_nonneg (AggregateState_silent_entities x)).
    pose proof (zlen_nonneg (AggregateState_silent_aggregates x)). pose proof (zlen_nonneg (AggregateState_variable_datums x)).
    pose proof (pad_to_bound (agg_ids_size x) 4 ltac:(lia)).
    assert (0 <= agg_ids_size x) by (unfold agg_ids_size; pose proof (zlen_nonneg (AggregateState_aggregates x)); pose proof (zlen_nonneg (AggregateState_entities x)); lia).
    lia.
  - cbn [size_body attribute_padding] in *. unfold size_attribute in *. pose proof (paddings_range (Attribute_sets x)) as P. unfold set_padding in P. lia.
Qed.
Lemma Wr_pdu m p : wf_Pdu p -> sized (pdu_body p) -> size_pdu p <= 65500 -> Wr (w_pdu m p) (size_pdu p + returned_excess (pdu_body p)) (size_pdu p).
Proof.
  intros [_ Hw] Hz Hs. unfold size_pdu in *. destruct (excess_range _ Hw Hz Hs) as [Hr _]. unfold w_pdu.
  eapply Wr_conv; [eapply Wr_bind; [apply Wr_header|]; cbv beta; eapply Wr_bind; [apply Wr_body; assumption|]; cbv beta; apply Wr_pure, add16_ok; lia|lia|lia].
Qed.
Lemma length_pdu m p : wf_Pdu p -> sized (pdu_body p) -> size_pdu p <= 65500 -> pdu_length m p = WOk [] (size_pdu p + claimed_excess (pdu_body p) - attribute_padding (pdu_body p)).
Proof.
  intros [_ Hw] Hz Hs. unfold size_pdu in *. destruct (excess_range _ Hw Hz Hs) as [_ Hr]. unfold pdu_length.
  destruct Hz as (_ & Hz & _). rewrite length_body by assumption. unfold wbind. rewrite add16_ok by lia. cbn [app]. f_equal. lia.
Qed.
Global Hint Unfold fits_action_request fits_action_request_r fits_action_response fits_comment fits_comment_r fits_data fits_data_r fits_set_data fits_set_data_r fits_event_report fits_event_report_r fits_record_r fits_set_record_r fits_transfer_ownership fits_entity_state fits_aggregate_state fits_detonation fits_entity_state_update wf_EntityState wf_Detonation wf_EntityStateUpdate : szdb.
Lemma fits_sized h b : wf_body b -> fits_body h b -> sized b.
Proof.
  intros Hw Hf. assert (forall l, Forall rs_ok l -> Forall set_uniform l) as Hrs.
  { intros l. apply Forall_impl. intros r ((H1 & H2) & H3 & H4). repeat split; assumption. }
  assert (forall l, Forall wf_VariableParameter l -> Forall vp_ok l -> Forall vp_plain l) as Hvp.
  { intros l W P. rewrite Forall_forall in *. intros v Hi. specialize (W v Hi). destruct (P v Hi) as [H _]. destruct v as [y|y|y|y|y|t y]; cbn [vp_plain]; try exact I.
    cbn [vp_canonical wf_VariableParameter] in *. destruct W as (_ & _ & W1 & W2 & _). unfold u32 in *. destruct H as [H1 H2].
    pose proof (Z.div_mod (ap_class y) 32 ltac:(lia)). lia. }
  assert (forall n k, marking_ok n k -> Forall text_fits [(n, mk_string k)]) as Hmk.
  { intros n k (H & _). constructor; [exact H|constructor]. }
  destruct b; cbn [fits_body] in Hf; try contradiction; unfold sized; cbn [variable_datums record_sets variable_parameters texts];
    repeat split; try apply Forall_nil; destruct Hf as [_ Hf];
    try (autounfold with szdb in Hf); try (apply Hmk); try (apply Hvp; [cbn [wf_body] in Hw; autounfold with szdb in Hw; tauto|]); try (apply Hrs); try tauto.
Qed.

(** ** C06 *)
(*@C06
Complete accounting, for every PDU of at most 65500 octets whose datums, record sets, articulated parts and texts are
[sized] (whether or not it can be read back): [serialize] leaves the octets already in the buffer alone, appends exactly
the size of the PDU as laid out on the wire, and returns that size plus the listed excess; [pdu_length] is that size
plus the listed excess, less the padding after attribute records. *)
Lemma C06_serialize_accounting_pf : forall m p buf cap,
  wf_Pdu p -> sized (pdu_body p) -> size_pdu p <= 65500 ->
  size_pdu p + claimed_excess (pdu_body p) - attribute_padding (pdu_body p) <= cap ->
  exists bs, serialize m p buf cap = (buf ++ bs, Written (size_pdu p + returned_excess (pdu_body p))) /\
             zlen bs = size_pdu p /\ pdu_length m p = WOk [] (size_pdu p + claimed_excess (pdu_body p) - attribute_padding (pdu_body p)).
Proof.
  intros m p buf cap Hw Hz Hs Hc. destruct (Wr_pdu m p Hw Hz Hs) as (bs & E & Hl). pose proof (length_pdu m p Hw Hz Hs) as En.
  exists bs. split; [|split; [exact Hl|exact En]]. unfold serialize. rewrite En. destruct (Z.ltb_spec cap (size_pdu p + claimed_excess (pdu_body p) - attribute_padding (pdu_body p))); [lia|].
  rewrite E. reflexivity.
Qed.

(*@C06
For the PDU types of [exact_types] (Attribute PDUs only when none of their records is padded), serialization appends
exactly [pdu_length] octets and returns that number.  For the others see the accounting above and the refutation below. *)
Lemma C06_serialize_exact_types_pf : forall m p buf cap n,
  wf_Pdu p -> sized (pdu_body p) -> size_pdu p <= 65500 -> In (body_type (pdu_body p)) exact_types -> attribute_padding (pdu_body p) = 0 ->
  pdu_length m p = WOk [] n -> n <= cap ->
  exists bs, serialize m p buf cap = (buf ++ bs, Written n) /\ zlen bs = n.
Proof.
  intros m p buf cap n Hw Hz Hs Hx Hp Hn Hc. destruct (exact_excess _ Hx) as [Hr Hcl].
  rewrite (length_pdu m p Hw Hz Hs) in Hn. rewrite Hcl, Hp in Hn. assert (n = size_pdu p) as -> by (inversion Hn; lia).
  destruct (C06_serialize_accounting_pf m p buf cap Hw Hz Hs) as (bs & E & Hl & _); [lia|].
  exists bs. rewrite Hr, Z.add_0_r in E. auto.
Qed.
(** Every PDU that can be read back from its serialization is [sized]. *)
(*@C06
The PDUs that survive a round trip are among the PDUs these theorems are about. *)
Lemma C06_fitting_pdus_are_sized_pf : forall p, wf_Pdu p -> fits_Pdu p -> sized (pdu_body p).
Proof. intros p [_ Hw] [_ Hf]. exact (fits_sized _ _ Hw Hf). Qed.
(** an ActionResponse-R PDU (which the parser reads back as something else) with a datum of eight octets *)
Definition sample_response : Pdu :=
  MkPdu (MkPduHeader 7 1 57 10 1000 56 None 0) (BActionResponseR (MkActionResponseR (eid 1 2 3) (eid 4 5 6) 9 1 [MkFixedDatum 1 2] [MkVariableDatum 3 [1; 2; 3; 4; 5; 6; 7; 8]])).
(*@ex*)
Example C06_exact_example : wf_Pdu sample_response /\ sized (pdu_body sample_response) /\ size_pdu sample_response <= 65500 /\
  In (body_type (pdu_body sample_response)) exact_types /\
  exists bs, serialize Checked sample_response [0xAA] 100 = (0xAA :: bs, Written 64) /\ zlen bs = 64.
Proof.
  split; [|split; [|split; [|split]]].
  - unfold wf_Pdu. cbn. unfold wf_PduHeader, wf_ActionResponseR, wf_EntityId, wf_SimulationAddress, wf_FixedDatum, wf_VariableDatum, bytes, u8, u16, u32. cbn.
    repeat split; try lia; repeat constructor; cbn; lia.
  - unfold sized. cbn. repeat split; repeat constructor; cbn; lia || reflexivity.
  - vm_compute. discriminate.
  - vm_compute. tauto.
  - eexists. split; vm_compute; reflexivity.
Qed.
(** an Attribute PDU with a record of eight octets (14 with its header, padded to 16) *)
Definition sample_attribute : Pdu :=
  MkPdu (MkPduHeader 7 1 72 1 1000 56 None 0) (BAttribute (MkAttribute (MkSimulationAddress 1 2) 1 7 0 0 [MkAttributeRecordSet (eid 1 2 3) [MkAttributeRecord 5 [1; 2; 3; 4; 5; 6; 7; 8]]])).
(*@C06
Refutation for Attribute PDUs with padded records: the padding is written, and counted by the size returned, but not
by [pdu_length]. *)
Lemma C06_attribute_padding_refuted_pf : exists p bs, wf_Pdu p /\ sized (pdu_body p) /\ body_type (pdu_body p) = 72 /\
  pdu_length Checked p = WOk [] 54 /\ serialize Checked p [] 54 = (bs, Written 56) /\ zlen bs = 56.
Proof.
  exists sample_attribute. eexists. split; [|split; [|split; [reflexivity|split; [vm_compute; reflexivity|split; vm_compute; reflexivity]]]].
  - unfold wf_Pdu. cbn. unfold wf_PduHeader, wf_Attribute, wf_AttributeRecordSet, wf_AttributeRecord, wf_EntityId, wf_SimulationAddress, bytes, u8, u16, u32. cbn.
    repeat split; try lia; repeat constructor; cbn; unfold wf_EntityId, wf_SimulationAddress, wf_AttributeRecord, bytes, u16, u32; cbn; repeat split; repeat constructor; lia.
  - unfold sized. cbn. repeat split; constructor.
Qed.

(** ** C07 *)
(*@C07
For the types of [exact_types] the advertised length is the true one, so a PDU that needs more octets than the capacity
is always rejected and one that needs at most the capacity never is. *)
Lemma C07_insufficient_true_length_pf : forall m p buf cap,
  wf_Pdu p -> sized (pdu_body p) -> size_pdu p <= 65500 -> In (body_type (pdu_body p)) exact_types -> attribute_padding (pdu_body p) = 0 ->
  (cap < size_pdu p <-> snd (serialize m p buf cap) = InsufficientBufferSize (size_pdu p) cap) /\
  (size_pdu p <= cap -> zlen (fst (serialize m p buf cap)) = zlen buf + size_pdu p).
Proof.
  intros m p buf cap Hw Hz Hs Hx Hp. destruct (exact_excess _ Hx) as [Hr Hcl]. pose proof (length_pdu m p Hw Hz Hs) as En.
  replace (size_pdu p + claimed_excess (pdu_body p) - attribute_padding (pdu_body p)) with (size_pdu p) in En by lia.
  destruct (Wr_pdu m p Hw Hz Hs) as (bs & E & Hl). unfold serialize. rewrite En. rewrite E.
  destruct (Z.ltb_spec cap (size_pdu p)); cbn [fst snd]; (split; [split; intros H1; (lia || reflexivity || discriminate)|intros H1; try lia]).
  rewrite zlen_app. lia.
Qed.
