(** * Parsers and the wire layout: whatever a parser accepts lies on the wire as the layout tables say *)
From Coq Require Import ZArith List Lia Bool.
From Verif Require Import Base Utf8 DisCommon DisLists DisHeader DisSimman DisLogistics DisWarfare DisEntity DisEmission DisRadio DisIff DisPdu DisPacket Parsed SpecLayout Layout.
Import ListNotations. Open Scope Z_scope.

(** ** Showing a layout *)
Lemma shows_nil : shows [] []. Proof. exists []. split; [reflexivity|constructor]. Qed.
Lemma shows_app a b x y : shows a x -> shows b y -> shows (a ++ b) (x ++ y).
Proof.
  intros (p & -> & Hp) (q & -> & Hq). exists (p ++ q). split; [symmetry; apply concat_app|]. now apply Forall2_app.
Qed.
Lemma shows_app_inv a b z : shows (a ++ b) z -> exists x y, z = x ++ y /\ shows a x /\ shows b y.
Proof.
  intros (p & -> & H). apply Forall2_app_inv_l in H. destruct H as (p1 & p2 & H1 & H2 & ->).
  exists (concat p1), (concat p2). split; [apply concat_app|]. split; eexists; split; try reflexivity; assumption.
Qed.
Lemma shows_one a x : shows [a] x <-> accepts a x.
Proof.
  split.
  - intros (p & -> & H). inversion H as [|? ? ? ? H1 H2]; subst. inversion H2; subst. cbn [concat]. now rewrite app_nil_r.
  - intros H. exists [x]. split; [cbn [concat]; now rewrite app_nil_r|]. repeat constructor. exact H.
Qed.
(** every octet string showing [a] shows [b] *)
Definition Inc (a b : list item) : Prop := forall os, shows a os -> shows b os.
Lemma Inc_refl a : Inc a a. Proof. now intros os. Qed.
Lemma Inc_app a a' b b' : Inc a a' -> Inc b b' -> Inc (a ++ b) (a' ++ b').
Proof. intros H1 H2 os H. apply shows_app_inv in H. destruct H as (x & y & -> & Hx & Hy). apply shows_app; auto. Qed.
Lemma Inc_cons a a' b b' : (forall os, accepts a os -> accepts a' os) -> Inc b b' -> Inc (a :: b) (a' :: b').
Proof. intros H1 H2. apply (Inc_app [a] [a'] b b'); [|assumption]. intros os H. apply shows_one. apply H1. now apply shows_one. Qed.
Lemma Inc_trans a b c : Inc a b -> Inc b c -> Inc a c. Proof. intros H1 H2 os H. auto. Qed.
Lemma Inc_flat_map {A} (f g : A -> list item) l : (forall x, Inc (f x) (g x)) -> Inc (flat_map f l) (flat_map g l).
Proof. intros H. induction l; cbn [flat_map]; [apply Inc_refl|]. apply Inc_app; auto. Qed.

(** ** The logic: [C] is the condition under which the result is laid out as in [L]; [Q] what else is known of the result *)
Definition Shows {A} (p : bparser A) (C : A -> Prop) (L : A -> list item) (Q : A -> Prop) : Prop :=
  forall i r x, bytes i -> p i = POk r x -> bytes r /\ (exists os, i = os ++ r /\ (C x -> shows (L x) os)) /\ Q x.
Definition After {A} (PC : Prop) (pre : list item) (p : bparser A) (C : A -> Prop) (L : A -> list item) (Q : A -> Prop) : Prop :=
  forall i r x os0, bytes i -> (PC -> shows pre os0) -> p i = POk r x ->
    bytes r /\ (exists os, i = os ++ r /\ (C x -> shows (L x) (os0 ++ os))) /\ Q x.
Lemma Shows_after {A} (p : bparser A) C L Q : After True [] p C L Q -> Shows p C L Q.
Proof. intros H i r x B E. exact (H i r x [] B (fun _ => shows_nil) E). Qed.
Lemma After_bind {A B} (p : bparser A) (f : A -> bparser B) PC pre C1 L1 Q1 C L Q :
  Shows p C1 L1 Q1 -> (forall a, Q1 a -> After (PC /\ C1 a) (pre ++ L1 a) (f a) C L Q) -> After PC pre (pbind p f) C L Q.
Proof.
  intros H1 H2 i r x os0 Bi Hp E. unfold pbind in E. destruct (p i) as [r1 a| |] eqn:E1; try discriminate.
  destruct (H1 _ _ _ Bi E1) as (B1 & (os1 & -> & S1) & HQ).
  assert (Hs : PC /\ C1 a -> shows (pre ++ L1 a) (os0 ++ os1)) by (intros [Hc Ha]; apply shows_app; auto).
  destruct (H2 a HQ r1 r x (os0 ++ os1) B1 Hs E) as (Br & (os & -> & S) & Qx).
  split; [exact Br|]. split; [|exact Qx]. exists (os1 ++ os). split; [apply app_assoc|]. intros Hc. rewrite app_assoc. auto.
Qed.
Lemma After_ret {A} (x : A) (PC : Prop) pre (C : A -> Prop) L (Q : A -> Prop) : (C x -> PC) -> (C x -> Inc pre (L x)) -> Q x -> After PC pre (pret x) C L Q.
Proof.
  intros H1 H2 HQ i r y os0 B Hp E. injection E as <- <-. split; [exact B|]. split; [|exact HQ]. exists []. split; [reflexivity|]. intros Hc. rewrite app_nil_r.
  apply H2; auto.
Qed.
Lemma After_fail {A} k PC pre C L Q : After PC pre (@pfail _ A k) C L Q. Proof. intros i r x os0 B Hp E. discriminate. Qed.
Lemma After_panic {A} PC pre C L Q : After PC pre (@ppanic _ A) C L Q. Proof. intros i r x os0 B Hp E. discriminate. Qed.
(** a parser as the last step *)
Lemma After_last {A} (p : bparser A) (PC : Prop) pre C1 L1 Q1 (C : A -> Prop) L (Q : A -> Prop) :
  Shows p C1 L1 Q1 -> (forall x, Q1 x -> C x -> PC /\ C1 x) -> (forall x, Q1 x -> C x -> Inc (pre ++ L1 x) (L x)) -> (forall x, Q1 x -> Q x) -> After PC pre p C L Q.
Proof.
  intros H1 H2 H3 H4 i r x os0 B Hp E. destruct (H1 _ _ _ B E) as (Br & (os & -> & S) & HQ). split; [exact Br|]. split; [|auto]. exists os. split; [reflexivity|].
  intros Hc. destruct (H2 x HQ Hc). apply H3; auto. apply shows_app; auto.
Qed.
Lemma After_pext {A} (p q : bparser A) PC pre C L Q : (forall i, p i = q i) -> After PC pre q C L Q -> After PC pre p C L Q.
Proof. intros H G i r x os0 B Hp E. rewrite H in E. exact (G _ _ _ _ B Hp E). Qed.
Lemma Shows_conv {A} (p : bparser A) (C C' : A -> Prop) L L' (Q Q' : A -> Prop) :
  Shows p C L Q -> (forall x, Q x -> C' x -> C x /\ Inc (L x) (L' x)) -> (forall x, Q x -> Q' x) -> Shows p C' L' Q'.
Proof.
  intros H H1 H2 i r x B E. destruct (H _ _ _ B E) as (Br & (os & -> & S) & HQ). split; [exact Br|]. split; [|auto]. exists os. split; [reflexivity|].
  intros Hc. destruct (H1 x HQ Hc) as [HC HI]. auto.
Qed.
(** a parser that gives more is known to *)
Lemma Shows_gives {A} (p : bparser A) C L Q (P : A -> Prop) : Shows p C L Q -> Gives p P -> Shows p C L (fun x => Q x /\ P x).
Proof. intros H G i r x B E. destruct (H _ _ _ B E) as (Br & S & HQ). destruct (G _ _ _ B E). auto. Qed.

Definition any {A} : A -> Prop := fun _ => True.
Lemma Shows_be_u n : Shows (be_u n) any (fun v => [Int n v]) (fun v => 0 <= v < 256 ^ Z.of_nat n).
Proof.
  intros i r x B E. unfold be_u in E. destruct (length i <? n)%nat eqn:El; [discriminate|]. apply Nat.ltb_ge in El. injection E as <- <-.
  assert (Hl : length (firstn n i) = n) by (rewrite firstn_length; lia).
  assert (Hb : 0 <= be_val (firstn n i) < 256 ^ Z.of_nat n).
  { pose proof (be_val_bound (firstn n i) (bytes_firstn n i B)) as H. unfold zlen in H. rewrite Hl in H. exact H. }
  split; [apply bytes_skipn; assumption|]. split; [|exact Hb]. exists (firstn n i). split; [symmetry; apply firstn_skipn|]. intros _.
  apply shows_one. cbn [accepts Int]. split; [exact Hl|]. rewrite Z.mod_small by exact Hb. reflexivity.
Qed.
Lemma Shows_u8 : Shows be_u8 any (fun v => [Int 1 v]) u8. Proof. exact (Shows_be_u 1). Qed.
Lemma Shows_u16 : Shows be_u16 any (fun v => [Int 2 v]) u16. Proof. exact (Shows_be_u 2). Qed.
Lemma Shows_u32 : Shows be_u32 any (fun v => [Int 4 v]) u32. Proof. exact (Shows_be_u 4). Qed.
Lemma Shows_u64 : Shows be_u64 any (fun v => [Int 8 v]) u64. Proof. exact (Shows_be_u 8). Qed.
Lemma Shows_f32 : Shows be_f32 any (fun v => [Int 4 v]) u32. Proof. exact (Shows_be_u 4). Qed.
Lemma Shows_f64 : Shows be_f64 any (fun v => [Int 8 v]) u64. Proof. exact (Shows_be_u 8). Qed.
Lemma sext_mod n v : (0 < n)%nat -> 0 <= v < 256 ^ Z.of_nat n -> sext (8 * Z.of_nat n) v mod 256 ^ Z.of_nat n = v mod 256 ^ Z.of_nat n.
Proof.
  intros Hn Hv. unfold sext. replace (2 ^ (8 * Z.of_nat n)) with (256 ^ Z.of_nat n).
  - destruct (v <? _); [reflexivity|]. replace (v - 256 ^ Z.of_nat n) with (v + (-1) * 256 ^ Z.of_nat n) by lia. apply Z_mod_plus_full.
  - change 256 with (2 ^ 8). rewrite <- Z.pow_mul_r by lia. reflexivity.
Qed.
Lemma Shows_signed n (P : Z -> Prop) : (0 < n)%nat -> Shows (pbind (be_u n) (fun v => pret (sext (8 * Z.of_nat n) v))) any (fun v => [Int n v]) any.
Proof.
  intros Hn. apply Shows_after. eapply After_bind; [apply Shows_be_u|]. intros v Hv. apply After_ret; [intros _; split; exact I| |exact I].
  intros _. cbn [app]. apply Inc_cons; [|apply Inc_refl]. intros os. cbn [accepts Int]. now rewrite sext_mod.
Qed.
Lemma Shows_i8 : Shows be_i8 any (fun v => [Int 1 v]) any. Proof. apply (Shows_signed 1 any). lia. Qed.
Lemma Shows_i16 : Shows be_i16 any (fun v => [Int 2 v]) any. Proof. apply (Shows_signed 2 any). lia. Qed.
Lemma Shows_i32 : Shows be_i32 any (fun v => [Int 4 v]) any. Proof. apply (Shows_signed 4 any). lia. Qed.
Lemma Shows_take n : Shows (take n) any (fun l => [Raw l]) (fun l => bytes l /\ zlen l = Z.max 0 n).
Proof.
  intros i r x B E. pose proof (Gives_take n _ _ _ B E) as [Br HQ]. split; [exact Br|]. split; [|exact HQ].
  unfold take in E. destruct (zlen i <? n); [discriminate|]. injection E as <- <-. exists (firstn (Z.to_nat n) i).
  split; [symmetry; apply firstn_skipn|]. intros _. apply shows_one. reflexivity.
Qed.
Lemma Shows_count {A} (p : bparser A) C L Q n : Shows p C L Q -> Shows (count p n) (Forall C) (flat_map L) (fun l => Forall Q l /\ zlen l = Z.max 0 n).
Proof.
  intros H. unfold count. assert (G : forall k, Shows (count_nat p k) (Forall C) (flat_map L) (fun l => Forall Q l /\ length l = k)).
  { induction k; cbn [count_nat].
    - apply Shows_after, After_ret; [auto|intros _; apply Inc_refl|auto].
    - apply Shows_after. eapply After_bind; [exact H|]. intros a Ha. eapply After_bind; [exact IHk|]. intros l [Hl Hn].
      apply After_ret; [intros Hc; inversion Hc; auto|intros _; cbn [app flat_map]; apply Inc_refl|]. split; [constructor; auto|cbn; congruence]. }
  eapply Shows_conv; [apply G|intros; split; [assumption|apply Inc_refl]|]. intros l [H1 H2]. split; [exact H1|]. unfold zlen. rewrite H2. lia.
Qed.
Lemma Shows_pure {A} (p : bparser A) (P : A -> Prop) : (forall i r x, p i = POk r x -> r = i /\ P x) -> Shows p any (fun _ => []) P.
Proof. intros H i r x B E. destruct (H _ _ _ E) as [-> HP]. split; [exact B|]. split; [|exact HP]. exists []. split; [reflexivity|]. intros _. apply shows_nil. Qed.
Lemma Shows_parith m r : Shows (parith m r) any (fun _ => []) (fun v => v mod 65536 = r mod 65536 /\ 0 <= v < 65536).
Proof.
  apply Shows_pure. intros i r' x. unfold parith. destruct (Z.leb_spec 0 r); destruct (Z.ltb_spec r 65536); cbn [andb];
    try (destruct m); intros E; try discriminate; injection E as <- <-;
    (split; [reflexivity|]; split; [rewrite ?Zmod_mod; reflexivity|]; first [lia|apply Z.mod_pos_bound; lia]).
Qed.
Lemma Shows_padded d n : Shows (p_padded d n) any (fun _ => []) (fun pl => 0 <= d -> 0 < n -> pl = MkPadded d (pad_to d n) (d + pad_to d n)).
Proof.
  apply Shows_pure. intros i r x. unfold p_padded. destruct (length_padded_to_num d n) eqn:El; intros E; [|discriminate]. injection E as <- <-.
  split; [reflexivity|]. intros. rewrite length_padded_val in El by assumption. congruence.
Qed.
Lemma Shows_plift {A} (w : W A) (P : A -> Prop) : (forall bs a, w = WOk bs a -> P a) -> Shows (plift w) any (fun _ => []) P.
Proof. intros H. apply Shows_pure. intros i r x. unfold plift. destruct w; intros E; [|discriminate]. injection E as <- <-. split; [reflexivity|]. eapply H; reflexivity. Qed.

Lemma int_pad n v os : accepts (Int n v) os -> accepts (Pad n) os. Proof. intros [H _]. split; [exact H|exact I]. Qed.
Lemma int_ignored n v w os : accepts (Int n v) os -> accepts (Ignored n w) os. Proof. intros [H _]. split; [exact H|exact I]. Qed.
Lemma int_eq n v w os : v = w -> accepts (Int n v) os -> accepts (Int n w) os. Proof. now intros <-. Qed.
Lemma int_field n v w (P : Z -> Prop) os : 0 <= v < 256 ^ Z.of_nat n -> P v -> accepts (Int n v) os -> accepts (Field n w P) os.
Proof. intros Hv HP [H E]. split; [exact H|]. rewrite E, Z.mod_small by exact Hv. exact HP. Qed.
Lemma raw_fill l k os : zlen l = k -> accepts (Raw l) os -> accepts (Fill k) os. Proof. cbn [accepts Raw Fill]. now intros H ->. Qed.

Create HintDb shows discriminated.
Global Hint Resolve Shows_u8 Shows_u16 Shows_u32 Shows_u64 Shows_f32 Shows_f64 Shows_i8 Shows_i16 Shows_i32 Shows_take Shows_parith Shows_padded : shows.
Ltac prj := cbv beta iota delta [sa_site sa_app ei_addr ei_id ev_addr ev_id v_1 v_2 v_3 loc_x loc_y loc_z or_psi or_theta or_phi et_kind et_domain et_country et_category et_subcategory et_specific et_extra md_warhead md_fuse md_quantity md_rate ct_hour ct_past pl_data pl_padding pl_record fd_id fd_value vd_id vd_value ds_fixed ds_variable ap_change ap_attachment ap_metric ap_class ap_value at_detached at_attachment at_parameter at_type se_reason se_pre se_parent se_station DisCommon.se_number DisEntity.se_number etp_change etp_type ea_change ea_status ea_type ea_entity ea_station ea_connection ea_member ea_group bd_azc bd_azs bd_elc bd_els bd_sync sq_type sq_quantity rs_id rs_serial rs_length_bytes rs_records re_nature re_position nl_name nl_number st_tei st_lvc st_cei st_fti st_dti st_rai st_iai st_ism st_aii h_version h_exercise h_type h_family h_time h_length h_status h_padding Acknowledge_originating_id Acknowledge_receiving_id Acknowledge_acknowledge_flag Acknowledge_response_flag Acknowledge_request_id AcknowledgeR_originating_id AcknowledgeR_receiving_id AcknowledgeR_acknowledge_flag AcknowledgeR_response_flag AcknowledgeR_request_id CreateEntity_originating_id CreateEntity_receiving_id CreateEntity_request_id CreateEntityR_originating_id CreateEntityR_receiving_id CreateEntityR_required_reliability_service CreateEntityR_request_id RemoveEntity_originating_id RemoveEntity_receiving_id RemoveEntity_request_id RemoveEntityR_originating_id RemoveEntityR_receiving_id RemoveEntityR_required_reliability_service RemoveEntityR_request_id StartResume_originating_id StartResume_receiving_id StartResume_real_world_time StartResume_simulation_time StartResume_request_id StartResumeR_originating_id StartResumeR_receiving_id StartResumeR_real_world_time StartResumeR_simulation_time StartResumeR_required_reliability_service StartResumeR_request_id StopFreeze_originating_id StopFreeze_receiving_id StopFreeze_real_world_time StopFreeze_reason StopFreeze_frozen_behavior StopFreeze_request_id StopFreezeR_originating_id StopFreezeR_receiving_id StopFreezeR_real_world_time StopFreezeR_reason StopFreezeR_frozen_behavior StopFreezeR_required_reliability_service StopFreezeR_request_id ActionRequest_originating_id ActionRequest_receiving_id ActionRequest_request_id ActionRequest_action_id ActionRequest_fixed_datum_records ActionRequest_variable_datum_records ActionRequestR_originating_id ActionRequestR_receiving_id ActionRequestR_required_reliability_service ActionRequestR_request_id ActionRequestR_action_id ActionRequestR_fixed_datum_records ActionRequestR_variable_datum_records ActionResponse_originating_id ActionResponse_receiving_id ActionResponse_request_id ActionResponse_request_status ActionResponse_fixed_datum_records ActionResponse_variable_datum_records ActionResponseR_originating_id ActionResponseR_receiving_id ActionResponseR_request_id ActionResponseR_request_status ActionResponseR_fixed_datum_records ActionResponseR_variable_datum_records Comment_originating_id Comment_receiving_id Comment_variable_datum_records CommentR_originating_id CommentR_receiving_id CommentR_variable_datum_records Data_originating_id Data_receiving_id Data_request_id Data_fixed_datum_records Data_variable_datum_records DataR_originating_id DataR_receiving_id DataR_request_id DataR_required_reliability_service DataR_fixed_datum_records DataR_variable_datum_records SetData_originating_id SetData_receiving_id SetData_request_id SetData_fixed_datum_records SetData_variable_datum_records SetDataR_originating_id SetDataR_receiving_id SetDataR_required_reliability_service SetDataR_request_id SetDataR_fixed_datum_records SetDataR_variable_datum_records EventReport_originating_id EventReport_receiving_id EventReport_event_type EventReport_fixed_datum_records EventReport_variable_datum_records EventReportR_originating_id EventReportR_receiving_id EventReportR_event_type EventReportR_fixed_datum_records EventReportR_variable_datum_records DataQuery_originating_id DataQuery_receiving_id DataQuery_request_id DataQuery_time_interval DataQuery_fixed_datum_records DataQuery_variable_datum_records DataQueryR_originating_id DataQueryR_receiving_id DataQueryR_required_reliability_service DataQueryR_request_id DataQueryR_time_interval DataQueryR_fixed_datum_records DataQueryR_variable_datum_records RecordQueryR_originating_id RecordQueryR_receiving_id RecordQueryR_request_id RecordQueryR_required_reliability_service RecordQueryR_event_type RecordQueryR_time RecordQueryR_record_query_specification RecordR_originating_id RecordR_receiving_id RecordR_request_id RecordR_required_reliability_service RecordR_event_type RecordR_response_serial_number RecordR_record_specification SetRecordR_originating_id SetRecordR_receiving_id SetRecordR_request_id SetRecordR_required_reliability_service SetRecordR_record_specification ServiceRequest_requesting_id ServiceRequest_servicing_id ServiceRequest_service_type_requested ServiceRequest_supplies ResupplyOffer_requesting_id ResupplyOffer_servicing_id ResupplyOffer_supplies ResupplyReceived_requesting_id ResupplyReceived_servicing_id ResupplyReceived_supplies ResupplyCancel_requesting_id ResupplyCancel_servicing_id RepairComplete_receiving_id RepairComplete_repairing_id RepairComplete_repair RepairResponse_receiving_id RepairResponse_repairing_id RepairResponse_repair_result Collision_issuing_entity_id Collision_colliding_entity_id Collision_event_id Collision_collision_type Collision_velocity Collision_mass Collision_location CollisionElastic_issuing_entity_id CollisionElastic_colliding_entity_id CollisionElastic_event_id CollisionElastic_velocity CollisionElastic_mass CollisionElastic_location CollisionElastic_intermediate_result_xx CollisionElastic_intermediate_result_xy CollisionElastic_intermediate_result_xz CollisionElastic_intermediate_result_yy CollisionElastic_intermediate_result_yz CollisionElastic_intermediate_result_zz CollisionElastic_unit_surface_normal CollisionElastic_coefficient_of_restitution Receiver_radio_reference_id Receiver_radio_number Receiver_receiver_state Receiver_received_power Receiver_transmitter_radio_reference_id Receiver_transmitter_radio_number Designator_designating_entity_id Designator_system_name Designator_designated_entity_id Designator_code Designator_power Designator_wavelength Designator_spot_wrt_designated_entity Designator_spot_location Designator_dead_reckoning_algorithm Designator_linear_acceleration IsPartOf_originating_simulation_id IsPartOf_receiving_entity_id IsPartOf_relationship IsPartOf_part_location IsPartOf_named_location_id TransferOwnership_originating_id TransferOwnership_receiving_id TransferOwnership_request_id TransferOwnership_required_reliability_service TransferOwnership_transfer_type TransferOwnership_transfer_entity_id TransferOwnership_record_specification Fire_firing_entity_id Fire_target_entity_id Fire_entity_id Fire_event_id Fire_fire_mission_index Fire_location_in_world Fire_descriptor Fire_velocity Fire_range Detonation_source_entity_id Detonation_target_entity_id Detonation_exploding_entity_id Detonation_event_id Detonation_velocity Detonation_world_location Detonation_descriptor Detonation_entity_location Detonation_result Detonation_variable_parameters ea_kind ea_word EntityStateUpdate_entity_id EntityStateUpdate_velocity EntityStateUpdate_location EntityStateUpdate_orientation EntityStateUpdate_appearance EntityStateUpdate_variable_parameters ps_power ps_rpm vn_horizontal vn_vertical Sees_originating_entity_id Sees_infrared Sees_acoustic Sees_radar Sees_propulsion_systems Sees_vectoring_nozzle_systems Other_originating Other_receiving Other_body ar_type ar_fields as_entity_id as_records Attribute_address Attribute_pdu_type Attribute_version Attribute_master_type Attribute_action_code Attribute_sets Signal_radio_reference_id Signal_radio_number Signal_encoding_scheme Signal_tdl_type Signal_sample_rate Signal_samples Signal_data mk_charset mk_string ec_kind ec_word dr_algorithm dr_other dr_acceleration dr_velocity EntityState_entity_id EntityState_force_id EntityState_entity_type EntityState_alternative_entity_type EntityState_velocity EntityState_location EntityState_orientation EntityState_appearance EntityState_dr EntityState_marking EntityState_capabilities EntityState_variable_parameters ag_kind ag_domain ag_country ag_category ag_subcategory ag_specific ag_extra sa_number sa_type se_type se_appearances AggregateState_aggregate_id AggregateState_force_id AggregateState_aggregate_state AggregateState_aggregate_type AggregateState_formation AggregateState_marking AggregateState_dimensions AggregateState_orientation AggregateState_center_of_mass AggregateState_velocity AggregateState_aggregates AggregateState_entities AggregateState_silent_aggregates AggregateState_silent_entities AggregateState_variable_datums pp_configuration pp_masker sh_current sh_ordered sh_rate apa_parameter apa_status apa_value uaf_index uaf_scan uaf_azc uaf_azw uaf_dec uaf_dew uab_length uab_id uab_data aes_name aes_function aes_id uas_system uas_location uas_beams UA_emitting_entity_id UA_event_id UA_state_change UA_passive_index UA_propulsion UA_shafts UA_apas UA_systems tj_entity tj_emitter tj_beam jt_kind jt_category jt_subcategory jt_specific fp_frequency fp_range fp_power fp_prf fp_width be_number be_index be_parameters be_data be_function be_high_density be_status be_technique be_tracks es_name es_function es_number es_location es_beams EE_emitting_entity_id EE_event_id EE_state_update EE_systems ss_hopping ss_noise ss_time mt_spread mt_major mt_system ck_key ck_diphase bap_direction bap_azimuth bap_elevation bap_reference bap_ez bap_ex bap_phase vtp_type vtp_fields Transmitter_radio_reference_id Transmitter_radio_number Transmitter_radio_type Transmitter_transmit_state Transmitter_input_source Transmitter_antenna_location Transmitter_relative_antenna_location Transmitter_antenna_pattern_type Transmitter_frequency Transmitter_bandwidth Transmitter_power Transmitter_modulation_type Transmitter_crypto_system Transmitter_crypto_key_id Transmitter_modulation_parameters Transmitter_antenna_pattern Transmitter_vtps gb_id gb_x gb_y gb_z gb_appearance gb_psi gb_theta gb_phi gg_base gg_speed gg_1 gg_2 gg_3 gg_4 ga_base ga_fuel ga_horizontal ga_vertical ga_speed q_1 q_2 q_3 q_4 IsGroupOf_group_id IsGroupOf_category IsGroupOf_latitude IsGroupOf_longitude IsGroupOf_descriptions lh_number lh_specific lh_length ip_erp ip_frequency ip_pgrf ip_pulse_width ip_burst ip_modes ip_s1 ip_s2 ip_s3 idr_type idr_fields si_type si_name si_mode si_change fo_status fo_field1 fo_layers fo_field2 fo_p1 fo_p2 fo_p3 fo_p4 fo_p5 fo_p6 l2_header l2_beam l2_op1 l2_op2 l2_params m5i_status m5i_formats m5i_entity m5t_status m5t_pin m5t_formats m5t_mode1 m5t_origin m5t_supplemental m5t_nav m5t_merit l3_header l3_sim l3_basic l3_records msi_status msi_levels mst_status mst_levels mst_domain mst_id mst_address mst_idtype mst_dap mst_altitude mst_capability l4_header l4_sim l4_basic l4_records l5_header l5_sim l5_layers l5_category l5_records Iff_emitting_entity_id Iff_event_id Iff_antenna Iff_system_id Iff_designator Iff_specific Iff_data Iff_layer_2 Iff_layer_3 Iff_layer_4 Iff_layer_5 pdu_header pdu_body].
Ltac sh_atom := first
  [ solve [eauto 2 with shows]
  | apply Shows_take
  | eapply Shows_count; sh_atom ].
Ltac sh_step :=
  match goal with
  | |- After _ _ (pret _) _ _ _ => apply After_ret
  | |- After _ _ (pbind _ _) _ _ _ => eapply After_bind; [sh_atom|intros; cbv beta in *; unpack]
  | |- After _ _ (if ?x then _ else _) _ _ _ => destruct x eqn:?
  | |- After _ _ (let _ := _ in _) _ _ _ => cbv zeta
  | |- After _ _ (pfail _) _ _ _ => apply After_fail
  | |- After _ _ ppanic _ _ _ => apply After_panic
  end.
Ltac all_any := unfold any; repeat match goal with |- _ /\ _ => split | |- Forall _ _ => apply Forall_forall; intros end; try exact I.
Ltac conds := unfold any; repeat match goal with |- _ /\ _ => split end; first [assumption | exact I | apply Forall_forall; intros; exact I | idtac].
Ltac inc_item := intros ?os; first [exact (fun h => h) | apply int_pad | apply int_ignored | apply int_eq; solve [reflexivity|size_lia]
  | apply raw_fill; solve [reflexivity|size_lia] | apply int_field; [size_lia|solve [reflexivity|size_lia|auto]] ].
Ltac inc_norm := cbn [app]; rewrite <- ?app_assoc; cbn [app]; rewrite <- ?app_assoc; cbn [app].
Ltac inc := inc_norm; repeat first [apply Inc_refl | apply Inc_cons; [solve [inc_item]|] | apply Inc_app; [apply Inc_refl|]].
Ltac sh l := apply Shows_after; repeat sh_step; [intros; all_any|intros; unfold l; prj; inc|exact I].

Lemma Sh_address : Shows p_simulation_address any L_address any.
Proof. unfold p_simulation_address. sh L_address. Qed.
Global Hint Resolve Sh_address : shows.
Lemma Sh_entity : Shows p_entity_id any L_entity any.
Proof. unfold p_entity_id. sh L_entity. Qed.
Global Hint Resolve Sh_entity : shows.
Lemma Sh_event : Shows p_event_id any L_event any.
Proof. unfold p_event_id. sh L_event. Qed.
Global Hint Resolve Sh_event : shows.
Lemma Sh_vector : Shows p_vec3_f32 any L_vector any.
Proof. apply Shows_after. eapply After_pext; [exact p_vec3_alt|]. repeat sh_step; [intros; all_any|intros; unfold L_vector; prj; inc|exact I]. Qed.
Global Hint Resolve Sh_vector : shows.
Lemma Sh_world : Shows p_location any L_world any.
Proof. apply Shows_after. eapply After_pext; [exact p_location_alt|]. repeat sh_step; [intros; all_any|intros; unfold L_world; prj; inc|exact I]. Qed.
Global Hint Resolve Sh_world : shows.
Lemma Sh_angles : Shows p_orientation any L_angles any.
Proof. apply Shows_after. eapply After_pext; [exact p_orientation_alt|]. repeat sh_step; [intros; all_any|intros; unfold L_angles; prj; inc|exact I]. Qed.
Global Hint Resolve Sh_angles : shows.
Lemma Sh_type : Shows p_entity_type any L_type any.
Proof. unfold p_entity_type. apply Shows_after; repeat sh_step; [intros; all_any|intros; unfold L_type; prj; inc|exact I]. Qed.
Global Hint Resolve Sh_type : shows.
Definition L_munition m := [Int 2 (md_warhead m); Int 2 (md_fuse m); Int 2 (md_quantity m); Int 2 (md_rate m)].
Lemma Sh_munition : Shows p_munition_descriptor any L_munition any.
Proof. unfold p_munition_descriptor. apply Shows_after; repeat sh_step; [intros; all_any|intros; unfold L_munition; prj; inc|exact I]. Qed.
Global Hint Resolve Sh_munition : shows.
Lemma Sh_fti k : Shows (p_descriptor_record_fti k) any L_descriptor any.
Proof. unfold p_descriptor_record_fti. apply Shows_after; repeat sh_step; try exact I; try (intros; all_any; fail); intros; unfold L_descriptor; inc. Qed.
Lemma Sh_dti k : Shows (p_descriptor_record_dti k) (fun d => match d with DExplosion _ _ _ => False | _ => True end) L_descriptor any.
Proof. unfold p_descriptor_record_dti. apply Shows_after; repeat sh_step; try exact I; try (intros; all_any; fail); try (intros []; fail); intros; unfold L_descriptor; inc. Qed.
Global Hint Resolve Sh_fti Sh_dti : shows.
Lemma Sh_clock : Shows p_clock_time any L_clock any.
Proof. unfold p_clock_time. apply Shows_after; repeat sh_step; [intros; all_any|intros; unfold L_clock; prj; inc|exact I]. Qed.
Global Hint Resolve Sh_clock : shows.
Lemma Sh_fixed : Shows p_fixed_datum any L_fixed any.
Proof. unfold p_fixed_datum. apply Shows_after; repeat sh_step; [intros; all_any|intros; unfold L_fixed; prj; inc|exact I]. Qed.
Global Hint Resolve Sh_fixed : shows.
Lemma Sh_variable : Shows p_variable_datum any L_variable any.
Proof.
  unfold p_variable_datum. apply Shows_after. repeat sh_step; [intros; all_any| |exact I]. intros _.
  match goal with H : _ -> _ -> ?pl = _, Hb : u32 ?b |- _ => unfold u32 in Hb; rewrite H in * by (try apply Z.div_pos; lia); pose proof (Z.div_pos b 8 ltac:(lia) ltac:(lia)) end.
  prj. unfold L_variable. prj. cbn [pl_data pl_padding] in *.
  rewrite Z.max_r in * by (try apply pad_to_bound; lia). inc_norm. apply Inc_cons; [inc_item|]. apply Inc_cons.
  - intros os. apply int_field; [change (256 ^ Z.of_nat 4) with 4294967296; lia|]. symmetry. assumption.
  - apply Inc_cons; [inc_item|]. apply Inc_cons; [|apply Inc_refl]. intros os. apply raw_fill. unfold pad_to in *. congruence.
Qed.
Global Hint Resolve Sh_variable : shows.
Definition L_ds (d : DatumSpecification) := L_datums (ds_fixed d) (ds_variable d).
Lemma Sh_ds : Shows p_datum_specification any L_ds (fun d => u32 (zlen (ds_fixed d))).
Proof. unfold p_datum_specification. apply Shows_after; repeat sh_step; [intros; all_any|intros; unfold L_ds, L_datums; prj; inc|prj; size_lia]. Qed.
Global Hint Resolve Sh_ds : shows.
Definition plain_vp v := match v with VPSeparation _ => False | _ => True end.
Lemma Sh_parameter : Shows p_variable_parameter plain_vp L_parameter any.
Proof.
  unfold p_variable_parameter, p_articulated_part, p_attached_part, p_entity_association, p_entity_type_vp, p_separation. apply Shows_after; repeat sh_step; try exact I; try (intros; all_any; fail);
    repeat match goal with H : (?t =? _) = true |- _ => apply Z.eqb_eq in H; try subst t end; try (intros []; fail); intros; unfold L_parameter; prj; inc.
Qed.
Global Hint Resolve Sh_parameter : shows.
Lemma Sh_vps n : 0 <= n -> Shows (p_vps n) no_separation (flat_map L_parameter) (fun l => zlen l = n).
Proof.
  intros Hn. apply Shows_after. eapply After_pext; [apply p_vps_eq|]. eapply After_last; [apply Shows_count, Sh_parameter| | |].
  - intros x _ Hx. split; [exact I|exact Hx].
  - intros x _ _. apply Inc_refl.
  - cbv beta. intros x [_ H]. lia.
Qed.
Global Hint Extern 1 (Shows (p_vps _) _ _ _) => apply Sh_vps; unfold u8 in *; lia : shows.
Lemma Sh_beam_data : Shows p_beam_data any L_beam_data any.
Proof. unfold p_beam_data. apply Shows_after; repeat sh_step; [intros; all_any|intros; unfold L_beam_data; prj; inc|exact I]. Qed.
Global Hint Resolve Sh_beam_data : shows.
Lemma Sh_supply : Shows p_supply_quantity any L_supply any.
Proof. unfold p_supply_quantity. apply Shows_after; repeat sh_step; [intros; all_any|intros; unfold L_supply; prj; inc|exact I]. Qed.
Global Hint Resolve Sh_supply : shows.
Lemma flat_map_raw l : flat_map (fun x => [Raw x]) l = map Raw l. Proof. induction l; cbn [flat_map map app]; congruence. Qed.
Lemma flat_map_int n l : flat_map (fun x => [Int n x]) l = map (Int n) l. Proof. induction l; cbn [flat_map map app]; congruence. Qed.
Lemma zlen_concat_const l k : Forall (fun x : list Z => bytes x /\ zlen x = k) l -> zlen (concat l) = zlen l * k.
Proof. induction 1 as [|x t [_ Hx] _ IH]; [reflexivity|]. cbn [concat]. rewrite zlen_app, zlen_cons. lia. Qed.
Lemma Sh_record_set m : Shows (p_record_set m) any L_record_set any.
Proof.
  unfold p_record_set. apply Shows_after. repeat sh_step; [intros; all_any| |exact I]. intros _.
  unfold u16, u32 in *. rename a2 into bits, a3 into cnt, a4 into recs, a5 into total.
  match goal with H : _ -> _ -> ?pl = _ |- _ => specialize (H ltac:(lia) ltac:(lia)); subst pl end. cbn [pl_padding] in *.
  set (len := (bits + 7) / 8) in *. assert (Hlen : 0 <= len < 65536) by (subst len; Z.div_mod_to_equations; lia).
  match goal with H : Forall _ recs |- _ => pose proof (zlen_concat_const recs (Z.max 0 len) H) as Hc end.
  replace (Z.max 0 len) with len in * by lia. replace (Z.max 0 cnt) with cnt in * by lia. rewrite Z.max_r in * by (apply pad_to_bound; lia).
  unfold L_record_set, record_set_with_records. prj. rewrite flat_map_raw. inc_norm.
  apply Inc_cons; [inc_item|]. apply Inc_cons; [inc_item|]. apply Inc_cons; [inc_item|]. apply Inc_cons.
  - intros os. apply int_field; [change (256 ^ Z.of_nat 2) with 65536; lia|]. intros Hr. destruct recs as [|r0 t]; [congruence|].
    match goal with H : Forall (fun x => _ /\ zlen x = len) (_ :: _) |- _ => apply Forall_inv in H; destruct H as [_ Hr0] end. rewrite Hr0, Z.mod_small by lia. reflexivity.
  - apply Inc_cons; [intros os; apply int_eq; lia|]. apply Inc_app; [apply Inc_refl|]. apply Inc_cons; [|apply Inc_refl]. intros os. apply raw_fill.
    match goal with H : zlen _ = pad_to _ _ |- _ => rewrite H end. unfold pad_to. rewrite Hc.
    match goal with H : total mod 65536 = _ |- _ => revert H end. replace (zlen recs) with cnt by lia. rewrite (Z.mul_comm cnt). set (q := len * cnt). intros. Z.div_mod_to_equations; lia.
Qed.
Global Hint Resolve Sh_record_set : shows.
Lemma Sh_records m : Shows (p_record_specification m) any L_records any.
Proof. unfold p_record_specification. apply Shows_after; repeat sh_step; [intros; all_any|intros; unfold L_records; prj; inc|exact I]. Qed.
Global Hint Resolve Sh_records : shows.
Definition L_query (l : list Z) := [Int 4 (zlen l)] ++ map (Int 4) l.
Lemma Sh_query : Shows p_record_query_specification any L_query any.
Proof. unfold p_record_query_specification. apply Shows_after; repeat sh_step; [intros; all_any|intros; unfold L_query; rewrite flat_map_int; prj; inc|exact I]. Qed.
Global Hint Resolve Sh_query : shows.
Lemma Sh_service_request : Shows p_service_request_body any L_service_request any.
Proof. unfold p_service_request_body. apply Shows_after; repeat sh_step; [intros; all_any|intros; unfold L_service_request, L_pair; prj; inc|exact I]. Qed.
Global Hint Resolve Sh_service_request : shows.
Lemma Sh_resupply_offer : Shows p_resupply_offer_body any L_resupply_offer any.
Proof. unfold p_resupply_offer_body. apply Shows_after; repeat sh_step; [intros; all_any|intros; unfold L_resupply_offer, L_pair; prj; inc|exact I]. Qed.
Global Hint Resolve Sh_resupply_offer : shows.
Lemma Sh_resupply_received : Shows p_resupply_received_body any L_resupply_received any.
Proof. unfold p_resupply_received_body. apply Shows_after; repeat sh_step; [intros; all_any|intros; unfold L_resupply_received, L_pair; prj; inc|exact I]. Qed.
Global Hint Resolve Sh_resupply_received : shows.
Lemma Sh_resupply_cancel : Shows p_resupply_cancel_body any L_resupply_cancel any.
Proof. unfold p_resupply_cancel_body. apply Shows_after; repeat sh_step; [intros; all_any|intros; unfold L_resupply_cancel, L_pair; prj; inc|exact I]. Qed.
Global Hint Resolve Sh_resupply_cancel : shows.
Lemma Sh_repair_complete : Shows p_repair_complete_body any L_repair_complete any.
Proof. unfold p_repair_complete_body. apply Shows_after; repeat sh_step; [intros; all_any|intros; unfold L_repair_complete, L_pair; prj; inc|exact I]. Qed.
Global Hint Resolve Sh_repair_complete : shows.
Lemma Sh_repair_response : Shows p_repair_response_body any L_repair_response any.
Proof. unfold p_repair_response_body. apply Shows_after; repeat sh_step; [intros; all_any|intros; unfold L_repair_response, L_pair; prj; inc|exact I]. Qed.
Global Hint Resolve Sh_repair_response : shows.
Lemma Sh_collision : Shows p_collision_body any L_collision any.
Proof. unfold p_collision_body. apply Shows_after; repeat sh_step; [intros; all_any|intros; unfold L_collision, L_pair; prj; inc|exact I]. Qed.
Global Hint Resolve Sh_collision : shows.
Lemma Sh_collision_elastic : Shows p_collision_elastic_body any L_collision_elastic any.
Proof. unfold p_collision_elastic_body. apply Shows_after; repeat sh_step; [intros; all_any|intros; unfold L_collision_elastic, L_pair; prj; inc|exact I]. Qed.
Global Hint Resolve Sh_collision_elastic : shows.
Lemma Sh_receiver : Shows p_receiver_body any L_receiver any.
Proof. unfold p_receiver_body. apply Shows_after; repeat sh_step; [intros; all_any|intros; unfold L_receiver, L_pair; prj; inc|exact I]. Qed.
Global Hint Resolve Sh_receiver : shows.
Lemma Sh_designator : Shows p_designator_body any L_designator any.
Proof. unfold p_designator_body. apply Shows_after; repeat sh_step; [intros; all_any|intros; unfold L_designator, L_pair; prj; inc|exact I]. Qed.
Global Hint Resolve Sh_designator : shows.
Lemma Sh_acknowledge : Shows p_acknowledge_body any L_acknowledge any.
Proof. unfold p_acknowledge_body. apply Shows_after; repeat sh_step; [intros; all_any|intros; unfold L_acknowledge, L_pair; prj; inc|exact I]. Qed.
Global Hint Resolve Sh_acknowledge : shows.
Lemma Sh_acknowledge_r : Shows p_acknowledge_r_body any L_acknowledge_r any.
Proof. unfold p_acknowledge_r_body. apply Shows_after; repeat sh_step; [intros; all_any|intros; unfold L_acknowledge_r, L_pair; prj; inc|exact I]. Qed.
Global Hint Resolve Sh_acknowledge_r : shows.
Lemma Sh_create_entity : Shows p_create_entity_body any L_create_entity any.
Proof. unfold p_create_entity_body. apply Shows_after; repeat sh_step; [intros; all_any|intros; unfold L_create_entity, L_pair; prj; inc|exact I]. Qed.
Global Hint Resolve Sh_create_entity : shows.
Lemma Sh_create_entity_r : Shows p_create_entity_r_body any L_create_entity_r any.
Proof. unfold p_create_entity_r_body. apply Shows_after; repeat sh_step; [intros; all_any|intros; unfold L_create_entity_r, L_pair; prj; inc|exact I]. Qed.
Global Hint Resolve Sh_create_entity_r : shows.
Lemma Sh_remove_entity : Shows p_remove_entity_body any L_remove_entity any.
Proof. unfold p_remove_entity_body. apply Shows_after; repeat sh_step; [intros; all_any|intros; unfold L_remove_entity, L_pair; prj; inc|exact I]. Qed.
Global Hint Resolve Sh_remove_entity : shows.
Lemma Sh_remove_entity_r : Shows p_remove_entity_r_body any L_remove_entity_r any.
Proof. unfold p_remove_entity_r_body. apply Shows_after; repeat sh_step; [intros; all_any|intros; unfold L_remove_entity_r, L_pair; prj; inc|exact I]. Qed.
Global Hint Resolve Sh_remove_entity_r : shows.
Lemma Sh_start_resume : Shows p_start_resume_body any L_start_resume any.
Proof. unfold p_start_resume_body. apply Shows_after; repeat sh_step; [intros; all_any|intros; unfold L_start_resume, L_pair; prj; inc|exact I]. Qed.
Global Hint Resolve Sh_start_resume : shows.
Lemma Sh_start_resume_r : Shows p_start_resume_r_body any L_start_resume_r any.
Proof. unfold p_start_resume_r_body. apply Shows_after; repeat sh_step; [intros; all_any|intros; unfold L_start_resume_r, L_pair; prj; inc|exact I]. Qed.
Global Hint Resolve Sh_start_resume_r : shows.
Lemma Sh_stop_freeze : Shows p_stop_freeze_body any L_stop_freeze any.
Proof. unfold p_stop_freeze_body. apply Shows_after; repeat sh_step; [intros; all_any|intros; unfold L_stop_freeze, L_pair; prj; inc|exact I]. Qed.
Global Hint Resolve Sh_stop_freeze : shows.
Lemma Sh_stop_freeze_r : Shows p_stop_freeze_r_body any L_stop_freeze_r any.
Proof. unfold p_stop_freeze_r_body. apply Shows_after; repeat sh_step; [intros; all_any|intros; unfold L_stop_freeze_r, L_pair; prj; inc|exact I]. Qed.
Global Hint Resolve Sh_stop_freeze_r : shows.
Lemma Sh_action_request : Shows p_action_request_body any L_action_request any.
Proof. unfold p_action_request_body. apply Shows_after; repeat sh_step; [intros; all_any|intros; unfold L_action_request, L_pair, L_ds; prj; inc|exact I]. Qed.
Global Hint Resolve Sh_action_request : shows.
Lemma Sh_action_request_r : Shows p_action_request_r_body any L_action_request_r any.
Proof. unfold p_action_request_r_body. apply Shows_after; repeat sh_step; [intros; all_any|intros; unfold L_action_request_r, L_pair, L_ds; prj; inc|exact I]. Qed.
Global Hint Resolve Sh_action_request_r : shows.
Lemma Sh_action_response : Shows p_action_response_body any L_action_response any.
Proof. unfold p_action_response_body. apply Shows_after; repeat sh_step; [intros; all_any|intros; unfold L_action_response, L_pair, L_ds; prj; inc|exact I]. Qed.
Global Hint Resolve Sh_action_response : shows.
Lemma Sh_data : Shows p_data_body any L_data any.
Proof. unfold p_data_body. apply Shows_after; repeat sh_step; [intros; all_any|intros; unfold L_data, L_pair, L_ds; prj; inc|exact I]. Qed.
Global Hint Resolve Sh_data : shows.
Lemma Sh_data_r : Shows p_data_r_body any L_data_r any.
Proof. unfold p_data_r_body. apply Shows_after; repeat sh_step; [intros; all_any|intros; unfold L_data_r, L_pair, L_ds; prj; inc|exact I]. Qed.
Global Hint Resolve Sh_data_r : shows.
Lemma Sh_set_data : Shows p_set_data_body any L_set_data any.
Proof. unfold p_set_data_body. apply Shows_after; repeat sh_step; [intros; all_any|intros; unfold L_set_data, L_pair, L_ds; prj; inc|exact I]. Qed.
Global Hint Resolve Sh_set_data : shows.
Lemma Sh_set_data_r : Shows p_set_data_r_body any L_set_data_r any.
Proof. unfold p_set_data_r_body. apply Shows_after; repeat sh_step; [intros; all_any|intros; unfold L_set_data_r, L_pair, L_ds; prj; inc|exact I]. Qed.
Global Hint Resolve Sh_set_data_r : shows.
Lemma Sh_event_report : Shows p_event_report_body any L_event_report any.
Proof. unfold p_event_report_body. apply Shows_after; repeat sh_step; [intros; all_any|intros; unfold L_event_report, L_pair, L_ds; prj; inc|exact I]. Qed.
Global Hint Resolve Sh_event_report : shows.
Lemma Sh_event_report_r : Shows p_event_report_r_body any L_event_report_r any.
Proof. unfold p_event_report_r_body. apply Shows_after; repeat sh_step; [intros; all_any|intros; unfold L_event_report_r, L_pair, L_ds; prj; inc|exact I]. Qed.
Global Hint Resolve Sh_event_report_r : shows.
Lemma Sh_action_response_r : Shows p_action_response_r_body any L_action_response any.
Proof. unfold p_action_response_r_body. apply Shows_after; repeat sh_step; [intros; all_any|intros; unfold L_action_response, L_pair, L_ds; prj; inc|exact I]. Qed.
Lemma shows_fixed l os : shows (flat_map L_fixed l) os -> zlen os = 8 * zlen l.
Proof.
  revert os. induction l as [|x t IH]; intros os H; cbn [flat_map] in H.
  - destruct H as (p & -> & H). inversion H. reflexivity.
  - apply shows_app_inv in H. destruct H as (a & b & -> & Ha & Hb). apply IH in Hb. rewrite zlen_app, zlen_cons.
    unfold L_fixed in Ha. destruct Ha as (p & -> & H). inversion H as [|? o1 ? ? H1 H2]; subst. inversion H2 as [|? o2 ? ? H3 H4]; subst. inversion H4; subst. cbn [accepts Int] in H1, H3. destruct H1 as [H1 _], H3 as [H3 _].
    cbn [concat]. rewrite !zlen_app. unfold zlen at 1 2 3. rewrite H1, H3. cbn [length]. lia.
Qed.
Lemma Inc_skipped f n b : u32 (zlen f) -> Inc (Int 4 (zlen f) :: Int 4 n :: flat_map L_fixed f ++ b) (Only_variable n :: b).
Proof.
  intros Hf. apply (Inc_app ([Int 4 (zlen f); Int 4 n] ++ flat_map L_fixed f) [Only_variable n]); [|apply Inc_refl]. intros os H. apply shows_one.
  apply (shows_app_inv [Int 4 (zlen f)]) in H. destruct H as (x & z & -> & Hx & H). apply (shows_app_inv [Int 4 n]) in H. destruct H as (y & w & -> & Hy & H).
  apply shows_one in Hx, Hy. apply shows_fixed in H. exists x, y, w. split; [reflexivity|]. split; [exact (int_pad _ _ _ Hx)|]. split; [exact Hy|].
  destruct Hx as [_ Hx]. rewrite Hx, Z.mod_small by exact Hf. exact H.
Qed.
Lemma Sh_comment : Shows p_comment_body any L_comment any.
Proof.
  unfold p_comment_body. apply Shows_after; repeat sh_step; [intros; all_any|intros; unfold L_comment, L_pair, L_ds, L_datums; prj|exact I].
  inc_norm. repeat first [apply Inc_skipped; assumption | apply Inc_cons; [solve [inc_item]|] | apply Inc_app; [apply Inc_refl|]].
Qed.
Lemma Sh_comment_r : Shows p_comment_r_body any L_comment_r any.
Proof.
  unfold p_comment_r_body. apply Shows_after; repeat sh_step; [intros; all_any|intros; unfold L_comment_r, L_pair, L_ds, L_datums; prj|exact I].
  inc_norm. repeat first [apply Inc_skipped; assumption | apply Inc_cons; [solve [inc_item]|] | apply Inc_app; [apply Inc_refl|]].
Qed.
Lemma Sh_data_query : Shows p_data_query_body any L_data_query any.
Proof. unfold p_data_query_body. apply Shows_after; repeat sh_step; [intros; all_any|intros; unfold L_data_query, L_pair, L_ids; prj; rewrite ?flat_map_int; inc|exact I]. Qed.
Lemma Sh_data_query_r : Shows p_data_query_r_body any L_data_query_r any.
Proof. unfold p_data_query_r_body. apply Shows_after; repeat sh_step; [intros; all_any|intros; unfold L_data_query_r, L_pair, L_ids; prj; rewrite ?flat_map_int; inc|exact I]. Qed.
Lemma Sh_record_query_r : Shows p_record_query_r_body any L_record_query_r any.
Proof. unfold p_record_query_r_body. apply Shows_after; repeat sh_step; [intros; all_any|intros; unfold L_record_query_r, L_pair, L_query; prj; inc|exact I]. Qed.
Global Hint Resolve Sh_record_query_r : shows.
Lemma Sh_set_record_r m : Shows (p_set_record_r_body m) any L_set_record_r any.
Proof. unfold p_set_record_r_body. apply Shows_after; repeat sh_step; [intros; all_any|intros; unfold L_set_record_r, L_pair; prj; inc|exact I]. Qed.
Lemma Sh_transfer_ownership m : Shows (p_transfer_ownership_body m) any L_transfer_ownership any.
Proof. unfold p_transfer_ownership_body. apply Shows_after; repeat sh_step; [intros; all_any|intros; unfold L_transfer_ownership, L_pair; prj; inc|exact I]. Qed.
Definition L_app a := [Int 4 (ea_word a)].
Lemma Sh_appearance k d : Shows (p_entity_appearance k d) any L_app any.
Proof. unfold p_entity_appearance. apply Shows_after; repeat sh_step; [intros; all_any|intros; unfold L_app; prj; inc|exact I]. Qed.
Global Hint Resolve Sh_appearance : shows.
Lemma Sh_fire k : Shows (p_fire_body k) any L_fire any.
Proof. unfold p_fire_body. apply Shows_after; repeat sh_step; [intros; all_any|intros; unfold L_fire, L_pair; prj; inc|exact I]. Qed.
Lemma Sh_detonation k : Shows (p_detonation_body k) (fun x => reads_body (BDetonation x)) L_detonation any.
Proof. unfold p_detonation_body. apply Shows_after; repeat sh_step; [cbn [reads_body]; prj; intros [? ?]; conds|intros; unfold L_detonation, L_pair; prj; inc|exact I]. Qed.
Lemma Sh_entity_state_update : Shows p_entity_state_update_body (fun x => reads_body (BEntityStateUpdate x)) L_entity_state_update any.
Proof. unfold p_entity_state_update_body. apply Shows_after; repeat sh_step; [cbn [reads_body]; prj; intros; conds|intros; unfold L_entity_state_update, L_app; prj; inc|exact I]. Qed.
Definition L_propulsion s := [Int 4 (ps_power s); Int 4 (ps_rpm s)].
Definition L_nozzle s := [Int 4 (vn_horizontal s); Int 4 (vn_vertical s)].
Lemma Sh_propulsion : Shows p_propulsion any L_propulsion any.
Proof. unfold p_propulsion. apply Shows_after; repeat sh_step; [intros; all_any|intros; unfold L_propulsion; prj; inc|exact I]. Qed.
Global Hint Resolve Sh_propulsion : shows.
Lemma Sh_nozzle : Shows p_nozzle any L_nozzle any.
Proof. unfold p_nozzle. apply Shows_after; repeat sh_step; [intros; all_any|intros; unfold L_nozzle; prj; inc|exact I]. Qed.
Global Hint Resolve Sh_nozzle : shows.
Lemma Sh_sees : Shows p_sees_body any L_sees any.
Proof. unfold p_sees_body. apply Shows_after; repeat sh_step; [intros; all_any|intros; unfold L_sees; prj; inc|exact I]. Qed.
Global Hint Resolve Sh_sees : shows.
Lemma Shows_peek {A} (p : bparser A) : Shows (peek p) any (fun _ => []) any.
Proof. apply Shows_pure. intros i r x. unfold peek. destruct (p i); intros E; try discriminate. injection E as <- <-. split; [reflexivity|exact I]. Qed.
Lemma Sh_other ty n : Shows (p_other_body ty n) any (fun x => [Raw (Other_body x)]) any.
Proof.
  unfold p_other_body. apply Shows_after. eapply After_bind with (C1 := any) (L1 := fun _ => []) (Q1 := any).
  - destruct (other_peeks_one ty); [|destruct (other_peeks_two ty)]; apply Shows_after;
      repeat first [ eapply After_bind; [apply Shows_peek|intros] | apply After_ret; [intros; all_any|intros; apply Inc_refl|exact I] ].
  - intros. repeat sh_step; [intros; all_any|intros; prj; inc|exact I].
Qed.
Lemma Sh_attribute_record : Shows p_attribute_record (fun r => (6 + zlen (ar_fields r)) mod 8 = 0) L_attribute_record any.
Proof.
  unfold p_attribute_record. apply Shows_after; repeat sh_step; [intros; all_any| |exact I]. prj. unfold L_attribute_record. prj. unfold u16 in *. intros Hm.
  assert (E : (- (6 + zlen a1)) mod 8 = 0) by (Z.div_mod_to_equations; lia). rewrite E. inc_norm.
  apply Inc_cons; [inc_item|]. apply Inc_cons; [intros os; apply int_eq|].
  - enough (6 <= a0) by lia. destruct (Z.leb_spec 6 a0); [assumption|]. exfalso. replace (zlen a1) with 0 in Hm by lia. discriminate.
  - apply (Inc_app [Raw a1] [Raw a1] [] [Fill 0]); [apply Inc_refl|]. intros os (ps & -> & Hps). inversion Hps; subst. apply shows_one. reflexivity.
Qed.
Global Hint Resolve Sh_attribute_record : shows.
Lemma Sh_attribute_set : Shows p_attribute_record_set (fun s => Forall (fun r => (6 + zlen (ar_fields r)) mod 8 = 0) (as_records s))
  (fun s => L_entity (as_entity_id s) ++ [Int 2 (zlen (as_records s))] ++ flat_map L_attribute_record (as_records s)) any.
Proof. unfold p_attribute_record_set. apply Shows_after; repeat sh_step; [prj; intros; conds|intros; prj; inc|exact I]. Qed.
Global Hint Resolve Sh_attribute_set : shows.
Lemma Sh_attribute : Shows p_attribute_body (fun x => reads_body (BAttribute x)) L_attribute any.
Proof. unfold p_attribute_body. apply Shows_after; repeat sh_step; [cbn [reads_body]; prj; intros; conds|intros; unfold L_attribute; prj; inc|exact I]. Qed.

