(** * What the library's parsers return can be read off the tables: parsed parts are legible *)
From Coq Require Import ZArith List Lia Bool.
From Verif Require Import Base Utf8 DisCommon DisLists DisHeader DisSimman DisLogistics DisWarfare DisEntity DisEmission DisRadio DisIff DisPdu DisPacket SpecSize SpecRelay Parsed ParsedBodies SpecLayout SpecLegible L_Relay.
Import ListNotations. Open Scope Z_scope.

Create HintDb leg discriminated.
Ltac gv_atom ::= first
  [ solve [eauto 2 with leg]
  | solve [eauto 2 with gives]
  | apply Gives_take
  | eapply Gives_count; gv_atom ].
Ltac few := unfold few8, few16, few32 in *; size_lia.
Ltac foralls := repeat match goal with H : Forall (fun _ => _ /\ _) _ |- _ => apply Forall_and_inv in H; destruct H end.
Ltac leaf := first [assumption | exact I | reflexivity | match goal with |- _ < _ => exact eq_refl | |- few32 [] => exact eq_refl end | few].
Ltac leaves := first [leaf | split; leaves].

Lemma Q_variable_datum : Gives p_variable_datum (fun d => wf_VariableDatum d /\ datum_legible d).
Proof.
  apply Gives_and; [apply G_variable_datum|]. unfold p_variable_datum. gv. unfold datum_legible. cbn [vd_value].
  match goal with H : u32 ?b, P : _ -> _ -> _ = MkPadded (?b / 8) _ _ |- _ => assert (0 <= b / 8) by (unfold u32 in H; apply Z.div_pos; lia); assert (8 * (b / 8) <= b) by (apply Z.mul_div_le; lia);
    rewrite P in * by lia; cbn [pl_data] in *; unfold u32 in H; lia end.
Qed.
Global Hint Resolve Q_variable_datum : leg.
Lemma Q_datums : Gives p_datum_specification (fun d => datums_legible (ds_fixed d) (ds_variable d)).
Proof. unfold p_datum_specification. gv. foralls. cbn [ds_fixed ds_variable]. unfold datums_legible. leaves. Qed.
Global Hint Resolve Q_datums : leg.
Ltac q := gv; foralls; cbn; unfold datums_legible in *; unpack; leaves.
Lemma Q_action_request : Gives p_action_request_body (fun x => datums_legible (ActionRequest_fixed_datum_records x) (ActionRequest_variable_datum_records x)).
Proof. unfold p_action_request_body. q. Qed.
Lemma Q_action_request_r : Gives p_action_request_r_body (fun x => datums_legible (ActionRequestR_fixed_datum_records x) (ActionRequestR_variable_datum_records x)).
Proof. unfold p_action_request_r_body. q. Qed.
Lemma Q_action_response : Gives p_action_response_body (fun x => datums_legible (ActionResponse_fixed_datum_records x) (ActionResponse_variable_datum_records x)).
Proof. unfold p_action_response_body. q. Qed.
Lemma Q_action_response_r : Gives p_action_response_r_body (fun x => datums_legible (ActionResponse_fixed_datum_records x) (ActionResponse_variable_datum_records x)).
Proof. unfold p_action_response_r_body. q. Qed.
Lemma Q_set_data : Gives p_set_data_body (fun x => datums_legible (SetData_fixed_datum_records x) (SetData_variable_datum_records x)).
Proof. unfold p_set_data_body. q. Qed.
Lemma Q_set_data_r : Gives p_set_data_r_body (fun x => datums_legible (SetDataR_fixed_datum_records x) (SetDataR_variable_datum_records x)).
Proof. unfold p_set_data_r_body. q. Qed.
Lemma Q_data : Gives p_data_body (fun x => datums_legible (Data_fixed_datum_records x) (Data_variable_datum_records x)).
Proof. unfold p_data_body. q. Qed.
Lemma Q_data_r : Gives p_data_r_body (fun x => datums_legible (DataR_fixed_datum_records x) (DataR_variable_datum_records x)).
Proof. unfold p_data_r_body. q. Qed.
Lemma Q_event_report : Gives p_event_report_body (fun x => datums_legible (EventReport_fixed_datum_records x) (EventReport_variable_datum_records x)).
Proof. unfold p_event_report_body. q. Qed.
Lemma Q_event_report_r : Gives p_event_report_r_body (fun x => datums_legible (EventReportR_fixed_datum_records x) (EventReportR_variable_datum_records x)).
Proof. unfold p_event_report_r_body. q. Qed.
Lemma Q_comment : Gives p_comment_body (fun x => datums_legible [] (Comment_variable_datum_records x)).
Proof. unfold p_comment_body. q. Qed.
Lemma Q_comment_r : Gives p_comment_r_body (fun x => datums_legible [] (CommentR_variable_datum_records x)).
Proof. unfold p_comment_r_body. q. Qed.
Lemma Q_data_query : Gives p_data_query_body (fun x => few32 (DataQuery_fixed_datum_records x) /\ few32 (DataQuery_variable_datum_records x)).
Proof. unfold p_data_query_body. q. Qed.
Lemma Q_data_query_r : Gives p_data_query_r_body (fun x => few32 (DataQueryR_fixed_datum_records x) /\ few32 (DataQueryR_variable_datum_records x)).
Proof. unfold p_data_query_r_body. q. Qed.
Global Hint Resolve Q_action_request Q_action_request_r Q_action_response Q_action_response_r Q_set_data Q_set_data_r Q_data Q_data_r Q_event_report Q_event_report_r
  Q_comment Q_comment_r Q_data_query Q_data_query_r : leg.
Lemma Q_records m : Gives (p_record_specification m) (fun l => few32 l /\ (Forall (fun r => rs_length_bytes r * zlen (rs_records r) < 65500) l -> Forall record_set_legible l)).
Proof.
  unfold p_record_specification. gv. split; [few|]. intros B.
  match goal with H : Forall wfc_rs _ |- _ => rename H into F end. rewrite Forall_forall in *. intros r Hr. specialize (F r Hr). specialize (B r Hr). cbn beta in *.
  unfold wfc_rs, rs_uniform, record_set_legible in *. unpack. repeat split; try assumption. lia.
Qed.
Global Hint Resolve Q_records : leg.
Lemma below_sum {A} (f g : A -> Z) (P : A -> Prop) l : Forall P l -> (forall x, P x -> 0 <= g x <= f x) -> Forall (fun x => g x <= zsum (map f l)) l.
Proof.
  intros H B. assert (N : 0 <= zsum (map f l)).
  { apply zsum_nonneg, Forall_forall. intros z Hz. apply in_map_iff in Hz. destruct Hz as (y & <- & Hy). rewrite Forall_forall in H. specialize (B y (H y Hy)). lia. }
  induction H as [|x l Hx Hl IH]; [constructor|]. cbn [map zsum] in *. pose proof (B x Hx).
  assert (0 <= zsum (map f l)).
  { apply zsum_nonneg, Forall_forall. intros z Hz. apply in_map_iff in Hz. destruct Hz as (y & <- & Hy). rewrite Forall_forall in Hl. specialize (B y (Hl y Hy)). lia. }
  constructor; [lia|]. eapply Forall_impl; [|apply IH; assumption]. cbn. intros; lia.
Qed.
Lemma records_small l : Forall wf_RecordSet l -> recspec_size l < 65500 -> Forall (fun r => rs_length_bytes r * zlen (rs_records r) < 65500) l.
Proof.
  intros W H. unfold recspec_size in H. eapply Forall_impl; [|apply (below_sum rs_size (fun r => rs_length_bytes r * zlen (rs_records r)) _ l W)].
  - cbn. intros; lia.
  - intros r (_ & _ & Hl & _). unfold rs_size, u16 in *. cbv zeta. pose proof (zlen_nonneg (rs_records r)). pose proof (pad_to_bound (rs_length_bytes r * zlen (rs_records r)) 8). nia.
Qed.
Lemma Q_transfer_ownership m : Gives (p_transfer_ownership_body m) (fun x => wf_TransferOwnership x /\ (size_transfer_ownership x < 65500 -> records_legible (TransferOwnership_record_specification x))).
Proof.
  eapply Gives_weaken; [apply Gives_and; [apply G_transfer_ownership_body|]|].
  - instantiate (1 := fun x => few32 (TransferOwnership_record_specification x) /\ (Forall (fun r => rs_length_bytes r * zlen (rs_records r) < 65500) (TransferOwnership_record_specification x) -> Forall record_set_legible (TransferOwnership_record_specification x))).
    unfold p_transfer_ownership_body. gv. cbn. leaves.
  - cbn beta. intros x ((W & _) & F & L). split; [exact W|]. intros S. split; [exact F|]. apply L, records_small; [unfold wf_TransferOwnership in W; tauto|]. unfold size_transfer_ownership in S. lia.
Qed.
Lemma Q_set_record_r m : Gives (p_set_record_r_body m) (fun x => wf_SetRecordR x /\ (size_set_record_r x < 65500 -> records_legible (SetRecordR_record_specification x))).
Proof.
  eapply Gives_weaken; [apply Gives_and; [apply G_set_record_r_body|]|].
  - instantiate (1 := fun x => few32 (SetRecordR_record_specification x) /\ (Forall (fun r => rs_length_bytes r * zlen (rs_records r) < 65500) (SetRecordR_record_specification x) -> Forall record_set_legible (SetRecordR_record_specification x))).
    unfold p_set_record_r_body. gv. cbn. leaves.
  - cbn beta. intros x ((W & _) & F & L). split; [exact W|]. intros S. split; [exact F|]. apply L, records_small; [unfold wf_SetRecordR in W; tauto|]. unfold size_set_record_r in S. lia.
Qed.
Global Hint Resolve Q_transfer_ownership Q_set_record_r : leg.
Lemma Q_record_query : Gives p_record_query_specification (fun l => few32 l).
Proof. unfold p_record_query_specification. gv. leaves. Qed.
Global Hint Resolve Q_record_query : leg.
Lemma Q_record_query_r : Gives p_record_query_r_body (fun x => few32 (RecordQueryR_record_query_specification x)).
Proof. unfold p_record_query_r_body. q. Qed.
Lemma Q_sees : Gives p_sees_body (fun x => few16 (Sees_propulsion_systems x) /\ few16 (Sees_vectoring_nozzle_systems x)).
Proof. unfold p_sees_body. q. Qed.
Global Hint Resolve Q_record_query_r Q_sees : leg.
Lemma Q_attribute_record : Gives p_attribute_record (fun r => (6 + zlen (ar_fields r)) mod 8 = 0 -> whole 8 (ar_fields r)).
Proof. unfold p_attribute_record. gv. cbn [ar_fields]. unfold whole. intros. split; [assumption|]. unfold u16 in *. lia. Qed.
Global Hint Resolve Q_attribute_record : leg.
Lemma Q_attribute_set : Gives p_attribute_record_set (fun s => few16 (as_records s) /\ Forall (fun r => (6 + zlen (ar_fields r)) mod 8 = 0 -> whole 8 (ar_fields r)) (as_records s)).
Proof. unfold p_attribute_record_set. gv. cbn [as_records]. leaves. Qed.
Global Hint Resolve Q_attribute_set : leg.
Lemma Q_attribute : Gives p_attribute_body (fun x => reads_body (BAttribute x) -> attribute_legible x).
Proof.
  unfold p_attribute_body. gv. cbn [reads_body Attribute_sets]. intros R. unfold attribute_legible. cbn [Attribute_sets]. split; [few|].
  rewrite Forall_forall in *. intros s Hs. specialize (R s Hs). match goal with H : forall x, In x _ -> few16 _ /\ _ |- _ => destruct (H s Hs) as [F L] end. split; [exact F|].
  rewrite Forall_forall in *. intros r Hr. apply L; auto.
Qed.
Global Hint Resolve Q_attribute : leg.
Lemma Q_apa : Gives p_apa (fun a => apa_parameter a < 16384 /\ apa_status a < 4).
Proof.
  unfold p_apa. gv. unfold u16 in *. cbn [apa_parameter apa_status]. rewrite Z.shiftr_div_pow2 by lia. change (2 ^ 2) with 4.
  change 3 with (Z.ones 2). rewrite Z.land_ones by lia. change (2 ^ 2) with 4. pose proof (Z.mod_pos_bound a 4).
  assert (a / 4 < 16384) by (apply Z.div_lt_upper_bound; lia). lia.
Qed.
Global Hint Resolve Q_apa : leg.
Lemma Q_acoustic : Gives p_underwater_acoustic_body acoustic_legible.
Proof. unfold p_underwater_acoustic_body. gv. unfold acoustic_legible. cbn [UA_propulsion UA_shafts UA_apas UA_systems].
  repeat match goal with H : Forall (fun s => wf_UASystem s /\ _) _ |- _ => apply Forall_and_inv in H; destruct H end. leaves. Qed.
Lemma Q_emission : Gives p_emission_body emission_legible.
Proof. unfold p_emission_body. gv. foralls. unfold emission_legible. cbn [EE_systems]. split; [few|]. rewrite Forall_forall in *. intros s Hs. unfold few8. split; auto. Qed.
Global Hint Resolve Q_acoustic Q_emission : leg.
Lemma parameters_of l : zlen l < 256 -> Forall vp_canonical l -> no_separation l -> parameters_legible l.
Proof.
  unfold no_separation, parameters_legible. intros N C S. split; [exact N|]. rewrite Forall_forall in *. intros v Hv. specialize (C v Hv). specialize (S v Hv).
  destruct v; cbn in *; tauto.
Qed.
Lemma Q_capabilities v t : Gives (p_capabilities v (et_kind t) (et_domain t)) (fun c => capabilities_of v t c).
Proof.
  unfold p_capabilities, capabilities_from_bytes, capabilities_of.
  destruct (Z.eqb_spec v 7); gv; destruct (et_kind t =? 0); cbn [ec_kind]; reflexivity.
Qed.
Lemma Q_entity_state v : Gives (p_entity_state_body v) (fun x => capabilities_of v (EntityState_entity_type x) (EntityState_capabilities x)).
Proof.
  unfold p_entity_state_body. repeat first [match goal with |- Gives (pbind (p_capabilities _ _ _) _) _ => eapply Gives_bind; [apply Q_capabilities|intros; cbv beta in *] end | gv_step].
  cbn [EntityState_entity_type EntityState_capabilities]. assumption.
Qed.
Lemma Q_vtps l : Forall (fun v => (6 + zlen (vtp_fields v)) mod 8 = 0) l -> zsum (map size_vtp l) < 65536 -> Forall (fun v => whole 8 (vtp_fields v)) l.
Proof.
  intros R S. assert (B : Forall (fun v => 6 + zlen (vtp_fields v) <= zsum (map size_vtp l)) l).
  { apply (below_sum size_vtp (fun v => 6 + zlen (vtp_fields v)) (fun _ => True)); [apply Forall_forall; trivial|]. intros v _. unfold size_vtp.
    pose proof (zlen_nonneg (vtp_fields v)). pose proof (pad_to_bound (6 + zlen (vtp_fields v)) 8). lia. }
  rewrite Forall_forall in *. intros v Hv. specialize (B v Hv). specialize (R v Hv). cbn beta in *. unfold whole. split; [exact R|lia].
Qed.
Lemma Q_transmitter m v : Gives (p_transmitter_body m v) (fun x => few16 (Transmitter_vtps x)).
Proof. unfold p_transmitter_body. gv. cbn [Transmitter_vtps]. unfold few16. destruct (v =? 7); size_lia. Qed.
Lemma transmitter_of v x : few16 (Transmitter_vtps x) -> (size_transmitter x < 65524 -> Forall vtp_ok (Transmitter_vtps x) -> fits_transmitter v x) ->
  size_transmitter x < 65500 -> reads_body (BTransmitter x) -> transmitter_legible v x.
Proof.
  intros F G S R. cbn [reads_body] in R. assert (H : fits_transmitter v x) by (apply G; [lia|exact R]). unfold fits_transmitter in H. unpack.
  unfold transmitter_legible. repeat (split; [try assumption|]); try assumption.
  apply Q_vtps; [exact R|]. unfold size_transmitter, modparams_len, pattern_len in S.
    assert (0 <= match Transmitter_modulation_parameters x with Some l => zlen l | None => 0 end) by (destruct (Transmitter_modulation_parameters x) as [l|]; [apply zlen_nonneg|lia]).
    destruct (Transmitter_antenna_pattern x); lia.
Qed.
Lemma Q_silent_entity : Gives p_silent_entity silent_entity_legible.
Proof.
  unfold p_silent_entity. gv. unfold silent_entity_legible. cbn [se_type se_appearances]. split; [few|]. unfold appearance_of.
  match goal with H : Forall _ _ |- _ => eapply Forall_impl; [|exact H]; cbn; tauto end.
Qed.
Global Hint Resolve Q_silent_entity : leg.
Lemma Q_aggregate m : Gives (p_aggregate_state_body m) (fun x => size_aggregate_state x < 65490 -> aggregate_legible x).
Proof.
  unfold p_aggregate_state_body.
  assert (P : forall ags ens, Gives (plift (agg_intermediate m ags ens)) (fun _ => True)) by (intros; apply Gives_plift; trivial).
  gv. foralls. unfold aggregate_legible, size_aggregate_state, agg_ids_size.
  cbn [AggregateState_aggregates AggregateState_entities AggregateState_silent_aggregates AggregateState_silent_entities AggregateState_variable_datums]. intros S.
  assert (N : forall l : list SilentEntity, 0 <= zsum (map size_silent_entity l)).
  { intros l. apply zsum_nonneg, Forall_forall. intros z Hz. apply in_map_iff in Hz. destruct Hz as (y & <- & _). unfold size_silent_entity. pose proof (zlen_nonneg (se_appearances y)). lia. }
  match type of S with context [map size_silent_entity ?l] => specialize (N l) end.
  match type of S with context [vds_size ?l] => pose proof (vds_size_bound l); pose proof (zlen_nonneg l) end.
  match type of S with context [pad_to ?n 4] => pose proof (pad_to_bound n 4) end.
  repeat split; try assumption; unfold few16, few32; try size_lia.
Qed.
Lemma Q_iff_record : Gives p_iff_data_record (fun r => (6 + zlen (idr_fields r)) mod 4 = 0 -> whole 4 (idr_fields r)).
Proof. unfold p_iff_data_record. gv. cbn [idr_fields]. unfold whole. intros. split; [assumption|]. unfold u16 in *. lia. Qed.
Global Hint Resolve Q_iff_record : leg.
Lemma Q_iff_records : Gives p_iff_data_specification (fun l => Forall (fun r => (6 + zlen (idr_fields r)) mod 4 = 0) l -> iff_records_legible l).
Proof.
  unfold p_iff_data_specification. gv. intros R. split; [few|]. rewrite Forall_forall in *. auto.
Qed.
Global Hint Resolve Q_iff_records : leg.
Lemma Q_mode_5 t : Gives (p_mode5_basic_data t) (fun b => is_transponder t = true \/ is_interrogator t = true -> mode_5_legible t b).
Proof. eapply Gives_weaken; [apply G_mode5_basic_data|]. intros b [_ H] K. specialize (H K). destruct b; cbn in *; tauto. Qed.
Lemma Q_mode_s t : Gives (p_modes_basic_data t) (fun b => match b with MSTransponder _ => False | MSInterrogator _ => True end -> mode_s_legible t b).
Proof.
  unfold p_modes_basic_data. destruct (is_transponder t) eqn:E; [|destruct (is_interrogator t) eqn:F]; gv; cbn [mode_s_legible]; intros; trivial; contradiction.
Qed.
Global Hint Resolve Q_mode_5 Q_mode_s : leg.
Lemma Q_layer_2 : Gives p_iff_layer_2 (fun l => few16 (l2_params l)).
Proof. unfold p_iff_layer_2. gv. cbn. few. Qed.
Lemma Q_layer_3 t : Gives (p_iff_layer_3 t) (fun l => is_transponder t = true \/ is_interrogator t = true -> Forall (fun r => (6 + zlen (idr_fields r)) mod 4 = 0) (l3_records l) ->
  mode_5_legible t (l3_basic l) /\ iff_records_legible (l3_records l)).
Proof. unfold p_iff_layer_3. gv. cbn [l3_basic l3_records]. auto. Qed.
Lemma Q_layer_4 t : Gives (p_iff_layer_4 t) (fun l => match l4_basic l with MSTransponder _ => False | MSInterrogator _ => Forall (fun r => (6 + zlen (idr_fields r)) mod 4 = 0) (l4_records l) end ->
  mode_s_legible t (l4_basic l) /\ iff_records_legible (l4_records l)).
Proof.
  unfold p_iff_layer_4. gv. cbn [l4_basic l4_records]. match goal with |- match ?b with _ => _ end -> _ => destruct b; [|] end; intros; try contradiction; auto.
Qed.
Lemma Q_layer_5 : Gives p_iff_layer_5 (fun l => Forall (fun r => (6 + zlen (idr_fields r)) mod 4 = 0) (l5_records l) -> iff_records_legible (l5_records l)).
Proof. unfold p_iff_layer_5. gv. cbn [l5_records]. assumption. Qed.
Global Hint Resolve Q_layer_2 Q_layer_3 Q_layer_4 Q_layer_5 : leg.
Lemma Q_iff : Gives p_iff_body (fun x => reads_body (BIff x) -> iff_legible x).
Proof.
  unfold p_iff_body.
  repeat first [match goal with |- Gives (pbind (p_option _ _) _) _ => eapply Gives_bind; [apply Gives_option; solve [eauto 2 with leg]|intros; cbv beta in *; unpack] end | gv_step].
  unfold iff_legible. cbn [reads_body Iff_system_id Iff_data Iff_layer_2 Iff_layer_3 Iff_layer_4 Iff_layer_5]. cbv zeta. unfold present. intros (R3 & R4 & R5).
  repeat match goal with H : is_some _ = Z.testbit _ _ |- _ => rewrite <- H; clear H end.
  repeat (split; [reflexivity|]).
  repeat (split; [match goal with H : wf_option _ ?o |- in_layer _ ?o => destruct o; cbn [wf_option in_layer] in *; [|exact I] end; unpack; auto|]).
  match goal with H : wf_option _ ?o |- in_layer _ ?o => destruct o; cbn [wf_option in_layer] in *; [|exact I] end; unpack; auto.
Qed.
Lemma Q_other ty len : other_type ty -> Gives (p_other_body ty len) (fun x => Z.max 12 len = 12 + zlen (Other_body x) /\ Other_originating x = None /\ Other_receiving x = None /\
  other_peeks_one ty = false /\ other_peeks_two ty = false).
Proof.
  intros Ho. assert (E : other_peeks_one ty = false /\ other_peeks_two ty = false).
  { assert (N : forall k, In k implemented_types -> (ty =? k) = false) by (intros k Hk; apply Z.eqb_neq; intros <-; contradiction). unfold implemented_types in N.
    unfold other_peeks_one, other_peeks_two. cbn [existsb]. split; repeat (rewrite N by (repeat first [left; reflexivity | right])); reflexivity. }
  unfold p_other_body. destruct E as [-> ->].
  eapply Gives_bind with (P := fun ids => ids = (None, None)); [apply Gives_ret; reflexivity|]. intros ids ->. cbn [fst snd].
  gv. cbn [Other_body Other_originating Other_receiving]. repeat split; try assumption; lia.
Qed.
Lemma Q_header : Gives p_header (fun h => h_status h = None <-> 1 <= h_version h <= 6).
Proof.
  unfold p_header. do 6 gv_step.
  eapply Gives_bind with (P := fun sp : option PduStatus * Z => fst sp = None <-> 1 <= a <= 6).
  - destruct (rng 1 5 a) eqn:R5; [|destruct (Z.eqb_spec a 6) as [->|N6]].
    + gv. cbn [fst snd]. apply rng_true in R5. split; [lia|reflexivity].
    + gv. cbn [fst snd]. split; [lia|reflexivity].
    + apply rng_false in R5. assert (G : Gives (p_status a1) (fun sp => fst sp <> None)) by (unfold p_status; gv; cbn [fst]; discriminate).
      destruct (a =? 7); (eapply Gives_weaken; [exact G|]); cbv beta; intros sp Hq; (split; [contradiction|lia]).
  - intros sp Hs. apply Gives_ret. cbn [h_version h_status]. exact Hs.
Qed.
Definition legible_if (h : PduHeader) (b : PduBody) : Prop := 12 + size_body b <= 65500 -> reads_body b -> body_legible h b.
Ltac eqs := repeat match goal with H : (_ =? _) = false |- _ => clear H end; match goal with H : (_ =? _) = true |- _ => apply Z.eqb_eq in H end.
Lemma Q_body m h : u8 (h_type h) -> Gives (p_body m h) (legible_if h).
Proof.
  intros Hu. unfold p_body. cbv zeta.
  repeat match goal with |- Gives (if ?c then _ else _) _ => destruct c eqn:? ; [|] end.
  all: match goal with |- Gives (pmap (fun _ => BOther _) _) _ => idtac | |- Gives (pmap BOther _) _ => idtac | _ => eqs end.
  all: try solve [eapply Gives_pmap; [solve [eauto 2 with leg | eauto 2 with gives]|]; intros x Hx; cbv beta in Hx; unpack; unfold legible_if; cbn [body_legible reads_body size_body body_type]; intros; unpack;
    (split; [first [assumption | left; assumption | right; assumption | contradiction]|first [assumption | exact I | auto; fail]])].
  - eapply Gives_pmap; [apply Gives_and; [apply G_entity_state_body|apply Q_entity_state]|]. intros x [Hx C]. unpack. unfold legible_if. cbn [body_legible reads_body body_type]. intros _ R.
    split; [assumption|]. split; [apply parameters_of; assumption|]. unfold appearance_of. split; [assumption|]. split; [|assumption].
    match goal with H : dr_ok _ |- _ => unfold dr_ok in H end. unfold reckoning_of. assumption.
  - eapply Gives_pmap; [apply G_detonation_body|]. intros x Hx. cbv beta in Hx. unpack. unfold legible_if. cbn [body_legible reads_body body_type]. intros _ [R1 R2].
    split; [assumption|]. split; [|apply parameters_of; assumption]. destruct (Detonation_descriptor x); cbn in *; tauto.
  - eapply Gives_pmap; [apply Gives_and; [apply G_transmitter_body|apply Q_transmitter]|]. intros x [[W F] C]. unfold legible_if. cbn [body_legible body_type size_body]. intros S R.
    split; [assumption|]. apply transmitter_of; try assumption. lia.
  - eapply Gives_pmap; [apply Q_iff|]. intros x Hx. unfold legible_if. cbn [body_legible body_type size_body]. intros S R. split; auto.
  - eapply Gives_pmap; [apply Q_aggregate|]. intros x Hx. unfold legible_if. cbn [body_legible body_type size_body]. intros S R. split; [assumption|]. apply Hx. lia.
  - eapply Gives_pmap; [apply Q_transfer_ownership|]. intros x [_ Hx]. unfold legible_if. cbn [body_legible body_type size_body]. intros S R. split; [assumption|]. apply Hx. lia.
  - eapply Gives_pmap; [apply Q_set_record_r|]. intros x [_ Hx]. unfold legible_if. cbn [body_legible body_type size_body]. intros S R. split; [assumption|]. apply Hx. lia.
  - eapply Gives_pmap; [apply G_entity_state_update_body|]. intros x Hx. cbv beta in Hx. unpack. unfold legible_if. cbn [body_legible reads_body body_type]. intros _ R.
    split; [assumption|]. split; [apply parameters_of; assumption|assumption].
  - assert (Ho : other_type (h_type h)).
    { unfold other_type, implemented_types. cbn [In]. repeat match goal with H : (_ =? _) = false |- _ => apply Z.eqb_neq in H end. intuition congruence. }
    eapply Gives_pmap; [apply Q_other; exact Ho|]. intros x (H1 & H2 & H3 & H4 & H5). unfold legible_if. cbn [body_legible]. intros _ _. unfold body_legible, other_legible. rewrite H4, H5. repeat split; assumption.
Qed.
Lemma Q_pdu m : Gives (p_pdu m) (fun p => size_pdu p <= 65500 -> reads_body (pdu_body p) -> legible p).
Proof.
  unfold p_pdu. eapply Gives_bind; [apply Gives_and; [apply G_header|apply Q_header]|]. intros h [[Wh _] Sh]. eapply Gives_bind; [apply (Q_body m h); unfold wf_PduHeader in Wh; tauto|].
  intros b Hb. apply Gives_ret. unfold size_pdu, legible. cbn [pdu_header pdu_body]. intros S R. split; [exact Sh|]. apply Hb; assumption.
Qed.
