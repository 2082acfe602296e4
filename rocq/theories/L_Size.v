(** Lemmas for Props_Size: how many octets each writer appends and what it returns, without any condition that the result can be read back. *)
From Coq Require Import ZArith List Lia Bool.
From Verif Require Import Base DisCommon DisHeader DisLists DisSimman DisLogistics DisWarfare DisEntity DisEmission DisRadio DisIff DisPdu DisPacket SpecWire SpecSize.
Import ListNotations. Open Scope Z_scope.

Definition Wr {R} (w : W R) (r : R) (L : Z) : Prop := exists bs, w = WOk bs r /\ zlen bs = L.
Lemma Wr_ret {R} (r : R) : Wr (wret r) r 0. Proof. exists []. split; reflexivity. Qed.
Lemma Wr_pure {R} (w : W R) r : w = WOk [] r -> Wr w r 0. Proof. intros ->. exists []. split; reflexivity. Qed.
Lemma Wr_bind {R S} (w : W R) (k : R -> W S) r s L M : Wr w r L -> Wr (k r) s M -> Wr (wbind w k) s (L + M).
Proof. intros (b1 & -> & <-) (b2 & E & <-). exists (b1 ++ b2). unfold wbind. rewrite E. split; [reflexivity|]. apply zlen_app. Qed.
Lemma Wr_wpure {R S} (w : W R) (k : R -> W S) r s L : w = WOk [] r -> Wr (k r) s L -> Wr (wbind w k) s L.
Proof. intros -> (b & E & H). exists b. unfold wbind. rewrite E. split; [reflexivity|exact H]. Qed.
Lemma Wr_conv {R} (w : W R) r r' L L' : Wr w r L -> r = r' -> L = L' -> Wr w r' L'. Proof. intros H -> ->. exact H. Qed.
Lemma Wr_put n v : Wr (put n v) tt (Z.of_nat n).
Proof. exists (be n v). split; [reflexivity|]. unfold zlen. now rewrite be_length. Qed.
Lemma Wr_put1 v : Wr (put 1 v) tt 1. Proof. apply (Wr_put 1). Qed.
Lemma Wr_put2 v : Wr (put 2 v) tt 2. Proof. apply (Wr_put 2). Qed.
Lemma Wr_put4 v : Wr (put 4 v) tt 4. Proof. apply (Wr_put 4). Qed.
Lemma Wr_put8 v : Wr (put 8 v) tt 8. Proof. apply (Wr_put 8). Qed.
Lemma Wr_slice l : Wr (put_slice l) tt (zlen l). Proof. exists l. split; reflexivity. Qed.
Lemma Wr_bytes v n : 0 <= n -> Wr (put_bytes v n) tt n.
Proof. intros H. exists (repeat v (Z.to_nat n)). split; [reflexivity|]. rewrite zlen_repeat. lia. Qed.
Lemma Wr_wsum {A} m (w : A -> W Z) ret len l : (forall x, In x l -> Wr (w x) (ret x) (len x) /\ 0 <= ret x) ->
  forall acc, 0 <= acc -> acc + zsum (map ret l) < 65536 -> Wr (wsum m w l acc) (acc + zsum (map ret l)) (zsum (map len l)).
Proof.
  induction l as [|x l IH]; intros H acc Ha Hs; cbn [wsum map zsum] in *.
  - replace (acc + 0) with acc by lia. apply Wr_ret.
  - destruct (H x (or_introl eq_refl)) as [Hx H0].
    assert (0 <= zsum (map ret l)) by (apply zsum_map_nonneg; intros y Hy; apply (H y); now right).
    eapply Wr_bind; [exact Hx|]. eapply Wr_wpure; [apply add16_ok; lia|].
    replace (acc + (ret x + zsum (map ret l))) with ((acc + ret x) + zsum (map ret l)) by lia.
    apply IH; [intros y Hy; apply H; now right|lia|lia].
Qed.
Lemma Wr_sum {A} m (w : A -> W Z) ret len l : (forall x, In x l -> Wr (w x) (ret x) (len x) /\ 0 <= ret x) -> zsum (map ret l) < 65536 ->
  Wr (wmap_sum m w l) (zsum (map ret l)) (zsum (map len l)).
Proof. intros H Hs. eapply Wr_conv; [apply (Wr_wsum m w ret len l H 0); lia|lia|reflexivity]. Qed.
Lemma Wr_const {A} m (w : A -> W Z) c l : (forall x, In x l -> Wr (w x) c c) -> 0 <= c -> c * zlen l < 65536 ->
  Wr (wmap_sum m w l) (c * zlen l) (c * zlen l).
Proof.
  intros H Hc Hs. pose proof (zsum_const (fun _ : A => c) c l ltac:(auto)) as Z0.
  eapply Wr_conv; [apply (Wr_sum m w (fun _ => c) (fun _ => c) l); [auto|lia]|lia|lia].
Qed.
Create HintDb wr.
Global Hint Resolve @Wr_ret Wr_put1 Wr_put2 Wr_put4 Wr_put8 Wr_slice : wr.
Ltac wr0_step :=
  match goal with
  | |- Wr (wret _) _ _ => apply Wr_ret
  | |- Wr (add16 _ _ _) _ _ => apply Wr_pure, add16_ok; lia
  | |- Wr (wbind (add16 _ _ _) _) _ _ => eapply Wr_wpure; [apply add16_ok; lia|]
  | |- Wr (wbind (mul16 _ _ _) _) _ _ => eapply Wr_wpure; [apply mul16_ok; lia|]
  | |- Wr (wbind (add32 _ _ _) _) _ _ => eapply Wr_wpure; [apply add32_ok; lia|]
  | |- Wr (wbind (w_padded _ _) _) _ _ => eapply Wr_wpure; [apply w_padded_ok; lia|]; cbn [pl_data pl_padding pl_record]
  | |- Wr (wbind (put_u8 _) _) _ _ => eapply Wr_bind; [apply Wr_put1|]; cbv beta
  | |- Wr (wbind (put_u16 _) _) _ _ => eapply Wr_bind; [apply Wr_put2|]; cbv beta
  | |- Wr (wbind (put_u32 _) _) _ _ => eapply Wr_bind; [apply Wr_put4|]; cbv beta
  | |- Wr (wbind (put_u64 _) _) _ _ => eapply Wr_bind; [apply Wr_put8|]; cbv beta
  | |- Wr (wbind (put_f32 _) _) _ _ => eapply Wr_bind; [apply Wr_put4|]; cbv beta
  | |- Wr (wbind (put_f64 _) _) _ _ => eapply Wr_bind; [apply Wr_put8|]; cbv beta
  | |- Wr (wbind (put_i8 _) _) _ _ => eapply Wr_bind; [apply Wr_put1|]; cbv beta
  | |- Wr (wbind (put_i16 _) _) _ _ => eapply Wr_bind; [apply Wr_put2|]; cbv beta
  | |- Wr (wbind (put_i32 _) _) _ _ => eapply Wr_bind; [apply Wr_put4|]; cbv beta
  | |- Wr (wbind (put_bytes _ _) _) _ _ => eapply Wr_bind; [apply Wr_bytes; lia|]; cbv beta
  | |- Wr (wbind _ _) _ _ => eapply Wr_bind; [solve [eauto 3 with wr]|]; cbv beta
  end.
Ltac wr0 := eapply Wr_conv; [repeat wr0_step|try reflexivity; try lia|try reflexivity; try lia].
Lemma Wr_simulation_address (s : SimulationAddress) : Wr (w_simulation_address s) 4 4.
Proof. unfold w_simulation_address. wr0. Qed.
Global Hint Resolve Wr_simulation_address : wr.
Lemma Wr_entity_id (s : EntityId) : Wr (w_entity_id s) 6 6.
Proof. unfold w_entity_id. wr0. Qed.
Global Hint Resolve Wr_entity_id : wr.
Lemma Wr_event_id (s : EventId) : Wr (w_event_id s) 6 6.
Proof. unfold w_event_id. wr0. Qed.
Global Hint Resolve Wr_event_id : wr.
Lemma Wr_vector_f32 (s : VectorF32) : Wr (w_vector_f32 s) 12 12.
Proof. unfold w_vector_f32. wr0. Qed.
Global Hint Resolve Wr_vector_f32 : wr.
Lemma Wr_location (s : Location) : Wr (w_location s) 24 24.
Proof. unfold w_location. wr0. Qed.
Global Hint Resolve Wr_location : wr.
Lemma Wr_orientation (s : Orientation) : Wr (w_orientation s) 12 12.
Proof. unfold w_orientation. wr0. Qed.
Global Hint Resolve Wr_orientation : wr.
Lemma Wr_entity_type (s : EntityType) : Wr (w_entity_type s) 8 8.
Proof. unfold w_entity_type. wr0. Qed.
Global Hint Resolve Wr_entity_type : wr.
Lemma Wr_munition_descriptor (s : MunitionDescriptor) : Wr (w_munition_descriptor s) 8 8.
Proof. unfold w_munition_descriptor. wr0. Qed.
Global Hint Resolve Wr_munition_descriptor : wr.
Lemma Wr_clock_time (s : ClockTime) : Wr (w_clock_time s) 8 8.
Proof. unfold w_clock_time. wr0. Qed.
Global Hint Resolve Wr_clock_time : wr.
Lemma Wr_fixed_datum (s : FixedDatum) : Wr (w_fixed_datum s) 8 8.
Proof. unfold w_fixed_datum. wr0. Qed.
Global Hint Resolve Wr_fixed_datum : wr.
Lemma Wr_beam_data (s : BeamData) : Wr (w_beam_data s) 20 20.
Proof. unfold w_beam_data. wr0. Qed.
Global Hint Resolve Wr_beam_data : wr.
Lemma Wr_supply_quantity (s : SupplyQuantity) : Wr (w_supply_quantity s) 12 12.
Proof. unfold w_supply_quantity. wr0. Qed.
Global Hint Resolve Wr_supply_quantity : wr.
Lemma Wr_u32_elt (s : Z) : Wr (w_u32_elt s) 4 4.
Proof. unfold w_u32_elt. wr0. Qed.
Global Hint Resolve Wr_u32_elt : wr.
Lemma Wr_relationship (s : Relationship) : Wr (w_relationship s) 4 4.
Proof. unfold w_relationship. wr0. Qed.
Global Hint Resolve Wr_relationship : wr.
Lemma Wr_named_location (s : NamedLocationId) : Wr (w_named_location s) 4 4.
Proof. unfold w_named_location. wr0. Qed.
Global Hint Resolve Wr_named_location : wr.
Lemma Wr_entity_appearance (s : EntityAppearance) : Wr (w_entity_appearance s) 4 4.
Proof. unfold w_entity_appearance. wr0. Qed.
Global Hint Resolve Wr_entity_appearance : wr.
Lemma Wr_propulsion (s : PropulsionSystemData) : Wr (w_propulsion s) 8 8.
Proof. unfold w_propulsion. wr0. Qed.
Global Hint Resolve Wr_propulsion : wr.
Lemma Wr_nozzle (s : VectoringNozzleSystemData) : Wr (w_nozzle s) 8 8.
Proof. unfold w_nozzle. wr0. Qed.
Global Hint Resolve Wr_nozzle : wr.
Lemma Wr_aggregate_type (s : AggregateType) : Wr (w_aggregate_type s) 8 8.
Proof. unfold w_aggregate_type. wr0. Qed.
Global Hint Resolve Wr_aggregate_type : wr.
Lemma Wr_silent_aggregate (s : SilentAggregate) : Wr (w_silent_aggregate s) 12 12.
Proof. unfold w_silent_aggregate. wr0. Qed.
Global Hint Resolve Wr_silent_aggregate : wr.
Lemma Wr_propulsion_plant (s : PropulsionPlant) : Wr (w_propulsion_plant s) 1 1.
Proof. unfold w_propulsion_plant. wr0. Qed.
Global Hint Resolve Wr_propulsion_plant : wr.
Lemma Wr_shaft (s : Shaft) : Wr (w_shaft s) 8 8.
Proof. unfold w_shaft. wr0. Qed.
Global Hint Resolve Wr_shaft : wr.
Lemma Wr_apa (s : APA) : Wr (w_apa s) 4 4.
Proof. unfold w_apa. wr0. Qed.
Global Hint Resolve Wr_apa : wr.
Lemma Wr_ua_fundamental (s : UAFundamental) : Wr (w_ua_fundamental s) 20 20.
Proof. unfold w_ua_fundamental. wr0. Qed.
Global Hint Resolve Wr_ua_fundamental : wr.
Lemma Wr_ua_beam (s : UABeam) : Wr (w_ua_beam s) 24 24.
Proof. unfold w_ua_beam. wr0. Qed.
Global Hint Resolve Wr_ua_beam : wr.
Lemma Wr_aes (s : AcousticEmitterSystem) : Wr (w_aes s) 4 4.
Proof. unfold w_aes. wr0. Qed.
Global Hint Resolve Wr_aes : wr.
Lemma Wr_track_jam (s : TrackJam) : Wr (w_track_jam s) 8 8.
Proof. unfold w_track_jam. wr0. Qed.
Global Hint Resolve Wr_track_jam : wr.
Lemma Wr_jamming (s : JammingTechnique) : Wr (w_jamming s) 4 4.
Proof. unfold w_jamming. wr0. Qed.
Global Hint Resolve Wr_jamming : wr.
Lemma Wr_fpd (s : FundamentalParameterData) : Wr (w_fpd s) 20 20.
Proof. unfold w_fpd. wr0. Qed.
Global Hint Resolve Wr_fpd : wr.
Lemma Wr_modulation_type (s : ModulationType) : Wr (w_modulation_type s) 8 8.
Proof. unfold w_modulation_type. wr0. Qed.
Global Hint Resolve Wr_modulation_type : wr.
Lemma Wr_crypto_key_id (s : CryptoKeyId) : Wr (w_crypto_key_id s) 2 2.
Proof. unfold w_crypto_key_id. wr0. Qed.
Global Hint Resolve Wr_crypto_key_id : wr.
Lemma Wr_beam_antenna_pattern (s : BeamAntennaPattern) : Wr (w_beam_antenna_pattern s) 40 40.
Proof. unfold w_beam_antenna_pattern. wr0. Qed.
Global Hint Resolve Wr_beam_antenna_pattern : wr.
Lemma Wr_octet (s : Z) : Wr (w_octet s) 1 1.
Proof. unfold w_octet. wr0. Qed.
Global Hint Resolve Wr_octet : wr.
Lemma Wr_layer_header (s : LayerHeader) : Wr (w_layer_header s) 4 4.
Proof. unfold w_layer_header. wr0. Qed.
Global Hint Resolve Wr_layer_header : wr.
Lemma Wr_iff_parameter (s : IffParameter) : Wr (w_iff_parameter s) 24 24.
Proof. unfold w_iff_parameter. wr0. Qed.
Global Hint Resolve Wr_iff_parameter : wr.
Lemma Wr_system_id (s : SystemId) : Wr (w_system_id s) 6 6.
Proof. unfold w_system_id. wr0. Qed.
Global Hint Resolve Wr_system_id : wr.
Lemma Wr_fund_op_data (s : FundOpData) : Wr (w_fund_op_data s) 16 16.
Proof. unfold w_fund_op_data. wr0. Qed.
Global Hint Resolve Wr_fund_op_data : wr.
Lemma Wr_mode5_interrogator (s : Mode5Interrogator) : Wr (w_mode5_interrogator s) 16 16.
Proof. unfold w_mode5_interrogator. wr0. Qed.
Global Hint Resolve Wr_mode5_interrogator : wr.
Lemma Wr_mode5_transponder (s : Mode5Transponder) : Wr (w_mode5_transponder s) 16 16.
Proof. unfold w_mode5_transponder. wr0. Qed.
Global Hint Resolve Wr_mode5_transponder : wr.
Lemma Wr_modes_interrogator (s : ModeSInterrogator) : Wr (w_modes_interrogator s) 24 24.
Proof. unfold w_modes_interrogator. wr0. Qed.
Global Hint Resolve Wr_modes_interrogator : wr.
Lemma Wr_attached_part (s : AttachedPart) : Wr (w_attached_part s) 15 15.
Proof. unfold w_attached_part. wr0. Qed.
Global Hint Resolve Wr_attached_part : wr.
Lemma Wr_separation (s : SeparationParameter) : Wr (w_separation s) 15 15.
Proof. unfold w_separation. wr0. Qed.
Global Hint Resolve Wr_separation : wr.
Lemma Wr_entity_type_parameter (s : EntityTypeParameter) : Wr (w_entity_type_parameter s) 15 15.
Proof. unfold w_entity_type_parameter. wr0. Qed.
Global Hint Resolve Wr_entity_type_parameter : wr.
Lemma Wr_entity_association (s : EntityAssociation) : Wr (w_entity_association s) 15 15.
Proof. unfold w_entity_association. wr0. Qed.
Global Hint Resolve Wr_entity_association : wr.

Lemma Wr_descriptor_record d : Wr (w_descriptor_record d) 16 16.
Proof. destruct d; cbn [w_descriptor_record]; wr0. Qed.
Lemma Wr_capabilities v c : Wr (w_capabilities v c) 4 4. Proof. destruct v; cbn [w_capabilities]; wr0. Qed.
Lemma Wr_mode5_basic_data b : Wr (w_mode5_basic_data b) 16 16. Proof. destruct b; cbn [w_mode5_basic_data]; auto with wr. Qed.
Lemma Wr_encoding_scheme s : Wr (w_encoding_scheme s) 2 2. Proof. destruct s; cbn [w_encoding_scheme]; wr0. Qed.
Global Hint Resolve Wr_descriptor_record Wr_capabilities Wr_mode5_basic_data Wr_encoding_scheme : wr.
Lemma Wr_ascii8 s : Wr (w_ascii8 s) tt 8.
Proof.
  unfold w_ascii8. destruct (Z.ltb_spec 8 (zlen s)) as [H|H]; cbn [orb]; [apply Wr_bytes; lia|].
  destruct (negb _); [apply Wr_bytes; lia|]. eapply Wr_conv; [eapply Wr_bind; [apply Wr_slice|apply Wr_bytes; lia]|reflexivity|lia].
Qed.
Global Hint Resolve Wr_ascii8 : wr.
Lemma Wr_modes_basic_data b : Wr (w_modes_basic_data b) 24 (24 - modes_deficit b).
Proof. destruct b; cbn [w_modes_basic_data modes_deficit]; [apply Wr_modes_interrogator|]. unfold w_modes_transponder. wr0. Qed.
Lemma Wr_marking n x : zlen (mk_string x) <= n -> Wr (w_marking n x) (n + 1) (n + 1).
Proof. intros H. unfold w_marking. destruct (Z.ltb_spec n (zlen (mk_string x))); [lia|]. wr0. Qed.
Lemma Wr_dr d : wf_Dr d -> Wr (w_dr_parameters d) 40 40.
Proof.
  intros H. unfold w_dr_parameters. assert (Wr (w_dr_other (dr_other d)) 15 15) as E.
  { destruct d as [alg o a v]. destruct H as (_ & H & _). cbn [dr_other] in *. destruct o; cbn [w_dr_other]; [|wr0|wr0]. destruct H as [_ H]. eapply Wr_conv; [repeat wr0_step|reflexivity|lia]. }
  eapply Wr_conv; [repeat first [wr0_step | eapply Wr_bind; [exact E|]; cbv beta]|reflexivity|reflexivity].
Qed.
Lemma Wr_vp m v : wf_VariableParameter v -> vp_plain v -> Wr (w_variable_parameter m v) 16 16.
Proof.
  intros H P. destruct v as [x|x|x|x|x|t b]; cbn [w_variable_parameter vp_plain wf_VariableParameter] in *; try (wr0; fail).
  - destruct H as (_ & _ & H1 & H2 & _). unfold u32 in *. assert (Wr (w_articulated_part m x) 15 15) as E by (unfold w_articulated_part; wr0).
    eapply Wr_conv; [eapply Wr_bind; [apply Wr_put1|]; eapply Wr_bind; [exact E|]; apply Wr_ret|reflexivity|reflexivity].
Qed.
Lemma Wr_vps m l : Forall wf_VariableParameter l -> Forall vp_plain l -> 16 * zlen l < 65536 -> Wr (wmap_sum m (w_variable_parameter m) l) (16 * zlen l) (16 * zlen l).
Proof. intros H P S. rewrite Forall_forall in *. apply Wr_const; [|lia|lia]. intros x Hx. apply Wr_vp; auto. Qed.
Lemma Wr_variable_datum m d : vd_ok d -> Wr (w_variable_datum m d) (vd_size d) (vd_size d).
Proof.
  intros [H1 H2]. pose proof (zlen_nonneg (vd_value d)). rewrite vd_ok_size by (split; assumption). unfold w_variable_datum. cbv zeta.
  eapply Wr_wpure; [apply w_padded_ok; lia|]. cbn [pl_data pl_padding pl_record].
  assert (pad_to (zlen (vd_value d) * 8) 64 = 0) as ->.
  { unfold pad_to. rewrite <- Z.mul_opp_l. change 64 with (8 * 8). rewrite Z.mul_mod_distr_r by lia. rewrite Z_mod_zero_opp_full by assumption. reflexivity. }
  rewrite Z.add_0_r, (Z.mod_small (zlen (vd_value d) * 8) 65536) by lia. rewrite Z.div_mul by lia.
  eapply Wr_conv; [repeat wr0_step|reflexivity|lia].
Qed.
Lemma Wr_variable_datums m l : Forall vd_ok l -> vds_size l < 65536 -> Wr (wmap_sum m (w_variable_datum m) l) (vds_size l) (vds_size l).
Proof. intros H S. rewrite Forall_forall in H. apply Wr_sum; [|exact S]. intros x Hx. split; [apply Wr_variable_datum; auto|]. pose proof (vd_size_nonneg x). lia. Qed.
Lemma Wr_record_set m r : wf_RecordSet r -> rs_ok r -> rs_size r < 65536 -> Wr (w_record_set m r) (rs_size r) (rs_size r).
Proof. intros H (H1 & H2 & H3) S. destruct (RT_record_set m r) as (bs & E & L & _); auto. exists bs. auto. Qed.
Lemma Wr_recspec m l : Forall wf_RecordSet l -> Forall rs_ok l -> recspec_size l < 65536 -> Wr (w_record_specification m l) (recspec_size l) (recspec_size l).
Proof. intros. destruct (RT_record_specification m l) as (bs & E & L & _); auto. exists bs. auto. Qed.
Lemma Wr_query m l : 4 + 4 * zlen l < 65536 -> Wr (w_record_query_specification m l) (4 + 4 * zlen l) (4 + 4 * zlen l).
Proof.
  intros H. pose proof (zlen_nonneg l). unfold w_record_query_specification.
  eapply Wr_conv; [eapply Wr_bind; [apply Wr_put4|]; cbv beta; eapply Wr_bind; [apply (Wr_const m w_u32_elt 4); [intros; apply Wr_u32_elt|lia|lia]|]; cbv beta; repeat wr0_step|lia|lia].
Qed.
Ltac wr_step :=
  match goal with
  | |- Wr (wret _) _ _ => apply Wr_ret
  | |- Wr (add16 _ _ _) _ _ => apply Wr_pure, add16_ok; lia
  | |- Wr (wbind (add16 _ _ _) _) _ _ => eapply Wr_wpure; [apply add16_ok; lia|]
  | |- Wr (wbind (mul16 _ _ _) _) _ _ => eapply Wr_wpure; [apply mul16_ok; lia|]
  | |- Wr (wbind (add32 _ _ _) _) _ _ => eapply Wr_wpure; [apply add32_ok; lia|]
  | |- Wr (wbind (w_padded _ _) _) _ _ => eapply Wr_wpure; [apply w_padded_ok; lia|]; cbn [pl_data pl_padding pl_record]
  | |- Wr (wbind (put_u8 _) _) _ _ => eapply Wr_bind; [apply Wr_put1|]; cbv beta
  | |- Wr (wbind (put_u16 _) _) _ _ => eapply Wr_bind; [apply Wr_put2|]; cbv beta
  | |- Wr (wbind (put_u32 _) _) _ _ => eapply Wr_bind; [apply Wr_put4|]; cbv beta
  | |- Wr (wbind (put_u64 _) _) _ _ => eapply Wr_bind; [apply Wr_put8|]; cbv beta
  | |- Wr (wbind (put_f32 _) _) _ _ => eapply Wr_bind; [apply Wr_put4|]; cbv beta
  | |- Wr (wbind (put_f64 _) _) _ _ => eapply Wr_bind; [apply Wr_put8|]; cbv beta
  | |- Wr (wbind (put_i8 _) _) _ _ => eapply Wr_bind; [apply Wr_put1|]; cbv beta
  | |- Wr (wbind (put_i16 _) _) _ _ => eapply Wr_bind; [apply Wr_put2|]; cbv beta
  | |- Wr (wbind (put_i32 _) _) _ _ => eapply Wr_bind; [apply Wr_put4|]; cbv beta
  | |- Wr (wbind (put_bytes _ _) _) _ _ => eapply Wr_bind; [apply Wr_bytes; lia|]; cbv beta
  | |- Wr (wbind (wmap_sum _ (w_variable_datum _) _) _) _ _ => eapply Wr_bind; [apply Wr_variable_datums; side|]; cbv beta
  | |- Wr (wbind (wmap_sum _ (w_variable_parameter _) _) _) _ _ => eapply Wr_bind; [apply Wr_vps; side|]; cbv beta
  | |- Wr (wbind (wmap_sum _ _ _) _) _ _ => eapply Wr_bind; [apply Wr_const; [intros; solve [eauto 3 with wr]|lia|lia]|]; cbv beta
  | |- Wr (wbind (w_record_specification _ _) _) _ _ => eapply Wr_bind; [apply Wr_recspec; side|]; cbv beta
  | |- Wr (wbind (w_record_query_specification _ _) _) _ _ => eapply Wr_bind; [apply Wr_query; side|]; cbv beta
  | |- Wr (wbind _ _) _ _ => eapply Wr_bind; [solve [eauto 3 with wr]|]; cbv beta
  end.
Ltac wr := eapply Wr_conv; [repeat wr_step|try reflexivity; try lia|try reflexivity; try lia].
Lemma Wr_acknowledge m x : wf_Acknowledge x -> size_acknowledge x < 65524 -> Wr (w_acknowledge m x) (size_acknowledge x) (size_acknowledge x).
Proof. destruct x as [y0 y1 y2 y3 y4]; unfold wf_Acknowledge, size_acknowledge, w_acknowledge; cbn [Acknowledge_originating_id Acknowledge_receiving_id Acknowledge_acknowledge_flag Acknowledge_response_flag Acknowledge_request_id]; intros; wfd. pdu_facts. wr. Qed.
Lemma Wr_acknowledge_r m x : wf_AcknowledgeR x -> size_acknowledge_r x < 65524 -> Wr (w_acknowledge_r m x) (size_acknowledge_r x) (size_acknowledge_r x).
Proof. destruct x as [y0 y1 y2 y3 y4]; unfold wf_AcknowledgeR, size_acknowledge_r, w_acknowledge_r; cbn [AcknowledgeR_originating_id AcknowledgeR_receiving_id AcknowledgeR_acknowledge_flag AcknowledgeR_response_flag AcknowledgeR_request_id]; intros; wfd. pdu_facts. wr. Qed.
Lemma Wr_create_entity m x : wf_CreateEntity x -> size_create_entity x < 65524 -> Wr (w_create_entity m x) (size_create_entity x) (size_create_entity x).
Proof. destruct x as [y0 y1 y2]; unfold wf_CreateEntity, size_create_entity, w_create_entity; cbn [CreateEntity_originating_id CreateEntity_receiving_id CreateEntity_request_id]; intros; wfd. pdu_facts. wr. Qed.
Lemma Wr_create_entity_r m x : wf_CreateEntityR x -> size_create_entity_r x < 65524 -> Wr (w_create_entity_r m x) (size_create_entity_r x) (size_create_entity_r x).
Proof. destruct x as [y0 y1 y2 y3]; unfold wf_CreateEntityR, size_create_entity_r, w_create_entity_r; cbn [CreateEntityR_originating_id CreateEntityR_receiving_id CreateEntityR_required_reliability_service CreateEntityR_request_id]; intros; wfd. pdu_facts. wr. Qed.
Lemma Wr_remove_entity m x : wf_RemoveEntity x -> size_remove_entity x < 65524 -> Wr (w_remove_entity m x) (size_remove_entity x) (size_remove_entity x).
Proof. destruct x as [y0 y1 y2]; unfold wf_RemoveEntity, size_remove_entity, w_remove_entity; cbn [RemoveEntity_originating_id RemoveEntity_receiving_id RemoveEntity_request_id]; intros; wfd. pdu_facts. wr. Qed.
Lemma Wr_remove_entity_r m x : wf_RemoveEntityR x -> size_remove_entity_r x < 65524 -> Wr (w_remove_entity_r m x) (size_remove_entity_r x) (size_remove_entity_r x).
Proof. destruct x as [y0 y1 y2 y3]; unfold wf_RemoveEntityR, size_remove_entity_r, w_remove_entity_r; cbn [RemoveEntityR_originating_id RemoveEntityR_receiving_id RemoveEntityR_required_reliability_service RemoveEntityR_request_id]; intros; wfd. pdu_facts. wr. Qed.
Lemma Wr_start_resume m x : wf_StartResume x -> size_start_resume x < 65524 -> Wr (w_start_resume m x) (size_start_resume x) (size_start_resume x).
Proof. destruct x as [y0 y1 y2 y3 y4]; unfold wf_StartResume, size_start_resume, w_start_resume; cbn [StartResume_originating_id StartResume_receiving_id StartResume_real_world_time StartResume_simulation_time StartResume_request_id]; intros; wfd. pdu_facts. wr. Qed.
Lemma Wr_start_resume_r m x : wf_StartResumeR x -> size_start_resume_r x < 65524 -> Wr (w_start_resume_r m x) (size_start_resume_r x) (size_start_resume_r x).
Proof. destruct x as [y0 y1 y2 y3 y4 y5]; unfold wf_StartResumeR, size_start_resume_r, w_start_resume_r; cbn [StartResumeR_originating_id StartResumeR_receiving_id StartResumeR_real_world_time StartResumeR_simulation_time StartResumeR_required_reliability_service StartResumeR_request_id]; intros; wfd. pdu_facts. wr. Qed.
Lemma Wr_stop_freeze m x : wf_StopFreeze x -> size_stop_freeze x < 65524 -> Wr (w_stop_freeze m x) (size_stop_freeze x) (size_stop_freeze x).
Proof. destruct x as [y0 y1 y2 y3 y4 y5]; unfold wf_StopFreeze, size_stop_freeze, w_stop_freeze; cbn [StopFreeze_originating_id StopFreeze_receiving_id StopFreeze_real_world_time StopFreeze_reason StopFreeze_frozen_behavior StopFreeze_request_id]; intros; wfd. pdu_facts. wr. Qed.
Lemma Wr_stop_freeze_r m x : wf_StopFreezeR x -> size_stop_freeze_r x < 65524 -> Wr (w_stop_freeze_r m x) (size_stop_freeze_r x) (size_stop_freeze_r x).
Proof. destruct x as [y0 y1 y2 y3 y4 y5 y6]; unfold wf_StopFreezeR, size_stop_freeze_r, w_stop_freeze_r; cbn [StopFreezeR_originating_id StopFreezeR_receiving_id StopFreezeR_real_world_time StopFreezeR_reason StopFreezeR_frozen_behavior StopFreezeR_required_reliability_service StopFreezeR_request_id]; intros; wfd. pdu_facts. wr. Qed.
Lemma Wr_action_request m x : wf_ActionRequest x -> Forall vd_ok (ActionRequest_variable_datum_records x) -> size_action_request x < 65524 -> Wr (w_action_request m x) (size_action_request x) (size_action_request x).
Proof. destruct x as [y0 y1 y2 y3 y4 y5]; unfold wf_ActionRequest, size_action_request, w_action_request; cbn [ActionRequest_originating_id ActionRequest_receiving_id ActionRequest_request_id ActionRequest_action_id ActionRequest_fixed_datum_records ActionRequest_variable_datum_records]; intros; wfd. pdu_facts. wr. Qed.
Lemma Wr_action_request_r m x : wf_ActionRequestR x -> Forall vd_ok (ActionRequestR_variable_datum_records x) -> size_action_request_r x < 65524 -> Wr (w_action_request_r m x) (size_action_request_r x) (size_action_request_r x).
Proof. destruct x as [y0 y1 y2 y3 y4 y5 y6]; unfold wf_ActionRequestR, size_action_request_r, w_action_request_r; cbn [ActionRequestR_originating_id ActionRequestR_receiving_id ActionRequestR_required_reliability_service ActionRequestR_request_id ActionRequestR_action_id ActionRequestR_fixed_datum_records ActionRequestR_variable_datum_records]; intros; wfd. pdu_facts. wr. Qed.
Lemma Wr_action_response m x : wf_ActionResponse x -> Forall vd_ok (ActionResponse_variable_datum_records x) -> size_action_response x < 65524 -> Wr (w_action_response m x) (size_action_response x) (size_action_response x).
Proof. destruct x as [y0 y1 y2 y3 y4 y5]; unfold wf_ActionResponse, size_action_response, w_action_response; cbn [ActionResponse_originating_id ActionResponse_receiving_id ActionResponse_request_id ActionResponse_request_status ActionResponse_fixed_datum_records ActionResponse_variable_datum_records]; intros; wfd. pdu_facts. wr. Qed.
Lemma Wr_action_response_r m x : wf_ActionResponseR x -> Forall vd_ok (ActionResponseR_variable_datum_records x) -> size_action_response_r x < 65524 -> Wr (w_action_response_r m x) (size_action_response_r x) (size_action_response_r x).
Proof. destruct x as [y0 y1 y2 y3 y4 y5]; unfold wf_ActionResponseR, size_action_response_r, w_action_response_r; cbn [ActionResponseR_originating_id ActionResponseR_receiving_id ActionResponseR_request_id ActionResponseR_request_status ActionResponseR_fixed_datum_records ActionResponseR_variable_datum_records]; intros; wfd. pdu_facts. wr. Qed.
Lemma Wr_comment m x : wf_Comment x -> Forall vd_ok (Comment_variable_datum_records x) -> size_comment x < 65524 -> Wr (w_comment m x) (size_comment x) (size_comment x).
Proof. destruct x as [y0 y1 y2]; unfold wf_Comment, size_comment, w_comment; cbn [Comment_originating_id Comment_receiving_id Comment_variable_datum_records]; intros; wfd. pdu_facts. wr. Qed.
Lemma Wr_comment_r m x : wf_CommentR x -> Forall vd_ok (CommentR_variable_datum_records x) -> size_comment_r x < 65524 -> Wr (w_comment_r m x) (size_comment_r x) (size_comment_r x).
Proof. destruct x as [y0 y1 y2]; unfold wf_CommentR, size_comment_r, w_comment_r; cbn [CommentR_originating_id CommentR_receiving_id CommentR_variable_datum_records]; intros; wfd. pdu_facts. wr. Qed.
Lemma Wr_data m x : wf_Data x -> Forall vd_ok (Data_variable_datum_records x) -> size_data x < 65524 -> Wr (w_data m x) (size_data x) (size_data x).
Proof. destruct x as [y0 y1 y2 y3 y4]; unfold wf_Data, size_data, w_data; cbn [Data_originating_id Data_receiving_id Data_request_id Data_fixed_datum_records Data_variable_datum_records]; intros; wfd. pdu_facts. wr. Qed.
Lemma Wr_data_r m x : wf_DataR x -> Forall vd_ok (DataR_variable_datum_records x) -> size_data_r x < 65524 -> Wr (w_data_r m x) (size_data_r x) (size_data_r x).
Proof. destruct x as [y0 y1 y2 y3 y4 y5]; unfold wf_DataR, size_data_r, w_data_r; cbn [DataR_originating_id DataR_receiving_id DataR_request_id DataR_required_reliability_service DataR_fixed_datum_records DataR_variable_datum_records]; intros; wfd. pdu_facts. wr. Qed.
Lemma Wr_set_data m x : wf_SetData x -> Forall vd_ok (SetData_variable_datum_records x) -> size_set_data x < 65524 -> Wr (w_set_data m x) (size_set_data x) (size_set_data x).
Proof. destruct x as [y0 y1 y2 y3 y4]; unfold wf_SetData, size_set_data, w_set_data; cbn [SetData_originating_id SetData_receiving_id SetData_request_id SetData_fixed_datum_records SetData_variable_datum_records]; intros; wfd. pdu_facts. wr. Qed.
Lemma Wr_set_data_r m x : wf_SetDataR x -> Forall vd_ok (SetDataR_variable_datum_records x) -> size_set_data_r x < 65524 -> Wr (w_set_data_r m x) (size_set_data_r x) (size_set_data_r x).
Proof. destruct x as [y0 y1 y2 y3 y4 y5]; unfold wf_SetDataR, size_set_data_r, w_set_data_r; cbn [SetDataR_originating_id SetDataR_receiving_id SetDataR_required_reliability_service SetDataR_request_id SetDataR_fixed_datum_records SetDataR_variable_datum_records]; intros; wfd. pdu_facts. wr. Qed.
Lemma Wr_event_report m x : wf_EventReport x -> Forall vd_ok (EventReport_variable_datum_records x) -> size_event_report x < 65524 -> Wr (w_event_report m x) (size_event_report x) (size_event_report x).
Proof. destruct x as [y0 y1 y2 y3 y4]; unfold wf_EventReport, size_event_report, w_event_report; cbn [EventReport_originating_id EventReport_receiving_id EventReport_event_type EventReport_fixed_datum_records EventReport_variable_datum_records]; intros; wfd. pdu_facts. wr. Qed.
Lemma Wr_event_report_r m x : wf_EventReportR x -> Forall vd_ok (EventReportR_variable_datum_records x) -> size_event_report_r x < 65524 -> Wr (w_event_report_r m x) (size_event_report_r x) (size_event_report_r x).
Proof. destruct x as [y0 y1 y2 y3 y4]; unfold wf_EventReportR, size_event_report_r, w_event_report_r; cbn [EventReportR_originating_id EventReportR_receiving_id EventReportR_event_type EventReportR_fixed_datum_records EventReportR_variable_datum_records]; intros; wfd. pdu_facts. wr. Qed.
Lemma Wr_data_query m x : wf_DataQuery x -> size_data_query x < 65524 -> Wr (w_data_query m x) (size_data_query x) (size_data_query x).
Proof. destruct x as [y0 y1 y2 y3 y4 y5]; unfold wf_DataQuery, size_data_query, w_data_query; cbn [DataQuery_originating_id DataQuery_receiving_id DataQuery_request_id DataQuery_time_interval DataQuery_fixed_datum_records DataQuery_variable_datum_records]; intros; wfd. pdu_facts. wr. Qed.
Lemma Wr_data_query_r m x : wf_DataQueryR x -> size_data_query_r x < 65524 -> Wr (w_data_query_r m x) (size_data_query_r x) (size_data_query_r x).
Proof. destruct x as [y0 y1 y2 y3 y4 y5 y6]; unfold wf_DataQueryR, size_data_query_r, w_data_query_r; cbn [DataQueryR_originating_id DataQueryR_receiving_id DataQueryR_required_reliability_service DataQueryR_request_id DataQueryR_time_interval DataQueryR_fixed_datum_records DataQueryR_variable_datum_records]; intros; wfd. pdu_facts. wr. Qed.
Lemma Wr_record_query_r m x : wf_RecordQueryR x -> size_record_query_r x < 65524 -> Wr (w_record_query_r m x) (size_record_query_r x) (size_record_query_r x).
Proof. destruct x as [y0 y1 y2 y3 y4 y5 y6]; unfold wf_RecordQueryR, size_record_query_r, w_record_query_r; cbn [RecordQueryR_originating_id RecordQueryR_receiving_id RecordQueryR_request_id RecordQueryR_required_reliability_service RecordQueryR_event_type RecordQueryR_time RecordQueryR_record_query_specification]; intros; wfd. pdu_facts. wr. Qed.
Lemma Wr_record_r m x : wf_RecordR x -> Forall rs_ok (RecordR_record_specification x) -> size_record_r x < 65524 -> Wr (w_record_r m x) (size_record_r x - 2) (size_record_r x).
Proof. destruct x as [y0 y1 y2 y3 y4 y5 y6]; unfold wf_RecordR, size_record_r, w_record_r; cbn [RecordR_originating_id RecordR_receiving_id RecordR_request_id RecordR_required_reliability_service RecordR_event_type RecordR_response_serial_number RecordR_record_specification]; intros; wfd. pdu_facts. wr. Qed.
Lemma Wr_set_record_r m x : wf_SetRecordR x -> Forall rs_ok (SetRecordR_record_specification x) -> size_set_record_r x < 65524 -> Wr (w_set_record_r m x) (size_set_record_r x) (size_set_record_r x).
Proof. destruct x as [y0 y1 y2 y3 y4]; unfold wf_SetRecordR, size_set_record_r, w_set_record_r; cbn [SetRecordR_originating_id SetRecordR_receiving_id SetRecordR_request_id SetRecordR_required_reliability_service SetRecordR_record_specification]; intros; wfd. pdu_facts. wr. Qed.
Lemma Wr_service_request m x : wf_ServiceRequest x -> size_service_request x < 65524 -> Wr (w_service_request m x) (size_service_request x) (size_service_request x).
Proof. destruct x as [y0 y1 y2 y3]; unfold wf_ServiceRequest, size_service_request, w_service_request; cbn [ServiceRequest_requesting_id ServiceRequest_servicing_id ServiceRequest_service_type_requested ServiceRequest_supplies]; intros; wfd. pdu_facts. wr. Qed.
Lemma Wr_resupply_offer m x : wf_ResupplyOffer x -> size_resupply_offer x < 65524 -> Wr (w_resupply_offer m x) (size_resupply_offer x) (size_resupply_offer x).
Proof. destruct x as [y0 y1 y2]; unfold wf_ResupplyOffer, size_resupply_offer, w_resupply_offer; cbn [ResupplyOffer_requesting_id ResupplyOffer_servicing_id ResupplyOffer_supplies]; intros; wfd. pdu_facts. wr. Qed.
Lemma Wr_resupply_received m x : wf_ResupplyReceived x -> size_resupply_received x < 65524 -> Wr (w_resupply_received m x) (size_resupply_received x) (size_resupply_received x).
Proof. destruct x as [y0 y1 y2]; unfold wf_ResupplyReceived, size_resupply_received, w_resupply_received; cbn [ResupplyReceived_requesting_id ResupplyReceived_servicing_id ResupplyReceived_supplies]; intros; wfd. pdu_facts. wr. Qed.
Lemma Wr_resupply_cancel m x : wf_ResupplyCancel x -> size_resupply_cancel x < 65524 -> Wr (w_resupply_cancel m x) (size_resupply_cancel x) (size_resupply_cancel x).
Proof. destruct x as [y0 y1]; unfold wf_ResupplyCancel, size_resupply_cancel, w_resupply_cancel; cbn [ResupplyCancel_requesting_id ResupplyCancel_servicing_id]; intros; wfd. pdu_facts. wr. Qed.
Lemma Wr_repair_complete m x : wf_RepairComplete x -> size_repair_complete x < 65524 -> Wr (w_repair_complete m x) (size_repair_complete x) (size_repair_complete x).
Proof. destruct x as [y0 y1 y2]; unfold wf_RepairComplete, size_repair_complete, w_repair_complete; cbn [RepairComplete_receiving_id RepairComplete_repairing_id RepairComplete_repair]; intros; wfd. pdu_facts. wr. Qed.
Lemma Wr_repair_response m x : wf_RepairResponse x -> size_repair_response x < 65524 -> Wr (w_repair_response m x) (size_repair_response x) (size_repair_response x).
Proof. destruct x as [y0 y1 y2]; unfold wf_RepairResponse, size_repair_response, w_repair_response; cbn [RepairResponse_receiving_id RepairResponse_repairing_id RepairResponse_repair_result]; intros; wfd. pdu_facts. wr. Qed.
Lemma Wr_collision m x : wf_Collision x -> size_collision x < 65524 -> Wr (w_collision m x) (size_collision x) (size_collision x).
Proof. destruct x as [y0 y1 y2 y3 y4 y5 y6]; unfold wf_Collision, size_collision, w_collision; cbn [Collision_issuing_entity_id Collision_colliding_entity_id Collision_event_id Collision_collision_type Collision_velocity Collision_mass Collision_location]; intros; wfd. pdu_facts. wr. Qed.
Lemma Wr_collision_elastic m x : wf_CollisionElastic x -> size_collision_elastic x < 65524 -> Wr (w_collision_elastic m x) (size_collision_elastic x) (size_collision_elastic x).
Proof. destruct x as [y0 y1 y2 y3 y4 y5 y6 y7 y8 y9 y10 y11 y12 y13]; unfold wf_CollisionElastic, size_collision_elastic, w_collision_elastic; cbn [CollisionElastic_issuing_entity_id CollisionElastic_colliding_entity_id CollisionElastic_event_id CollisionElastic_velocity CollisionElastic_mass CollisionElastic_location CollisionElastic_intermediate_result_xx CollisionElastic_intermediate_result_xy CollisionElastic_intermediate_result_xz CollisionElastic_intermediate_result_yy CollisionElastic_intermediate_result_yz CollisionElastic_intermediate_result_zz CollisionElastic_unit_surface_normal CollisionElastic_coefficient_of_restitution]; intros; wfd. pdu_facts. wr. Qed.
Lemma Wr_receiver m x : wf_Receiver x -> size_receiver x < 65524 -> Wr (w_receiver m x) (size_receiver x) (size_receiver x).
Proof. destruct x as [y0 y1 y2 y3 y4 y5]; unfold wf_Receiver, size_receiver, w_receiver; cbn [Receiver_radio_reference_id Receiver_radio_number Receiver_receiver_state Receiver_received_power Receiver_transmitter_radio_reference_id Receiver_transmitter_radio_number]; intros; wfd. pdu_facts. wr. Qed.
Lemma Wr_designator m x : wf_Designator x -> size_designator x < 65524 -> Wr (w_designator m x) (size_designator x) (size_designator x).
Proof. destruct x as [y0 y1 y2 y3 y4 y5 y6 y7 y8 y9]; unfold wf_Designator, size_designator, w_designator; cbn [Designator_designating_entity_id Designator_system_name Designator_designated_entity_id Designator_code Designator_power Designator_wavelength Designator_spot_wrt_designated_entity Designator_spot_location Designator_dead_reckoning_algorithm Designator_linear_acceleration]; intros; wfd. pdu_facts. wr. Qed.
Lemma Wr_is_part_of m x : wf_IsPartOf x -> size_is_part_of x < 65524 -> Wr (w_is_part_of m x) (size_is_part_of x) (size_is_part_of x).
Proof. destruct x as [y0 y1 y2 y3 y4]; unfold wf_IsPartOf, size_is_part_of, w_is_part_of; cbn [IsPartOf_originating_simulation_id IsPartOf_receiving_entity_id IsPartOf_relationship IsPartOf_part_location IsPartOf_named_location_id]; intros; wfd. pdu_facts. wr. Qed.
Lemma Wr_transfer_ownership m x : wf_TransferOwnership x -> Forall rs_ok (TransferOwnership_record_specification x) -> size_transfer_ownership x < 65524 -> Wr (w_transfer_ownership m x) (size_transfer_ownership x - 2) (size_transfer_ownership x).
Proof. destruct x as [y0 y1 y2 y3 y4 y5 y6]; unfold wf_TransferOwnership, size_transfer_ownership, w_transfer_ownership; cbn [TransferOwnership_originating_id TransferOwnership_receiving_id TransferOwnership_request_id TransferOwnership_required_reliability_service TransferOwnership_transfer_type TransferOwnership_transfer_entity_id TransferOwnership_record_specification]; intros; wfd. pdu_facts. wr. Qed.
Lemma Wr_fire m x : wf_Fire x -> size_fire x < 65524 -> Wr (w_fire m x) (size_fire x) (size_fire x).
Proof. destruct x as [y0 y1 y2 y3 y4 y5 y6 y7 y8]; unfold wf_Fire, size_fire, w_fire; cbn [Fire_firing_entity_id Fire_target_entity_id Fire_entity_id Fire_event_id Fire_fire_mission_index Fire_location_in_world Fire_descriptor Fire_velocity Fire_range]; intros; wfd. pdu_facts. wr. Qed.
Lemma Wr_detonation m x : wf_Detonation x -> Forall vp_plain (Detonation_variable_parameters x) -> size_detonation x < 65524 -> Wr (w_detonation m x) (size_detonation x) (size_detonation x).
Proof. destruct x as [y0 y1 y2 y3 y4 y5 y6 y7 y8 y9]; unfold wf_Detonation, size_detonation, w_detonation; cbn [Detonation_source_entity_id Detonation_target_entity_id Detonation_exploding_entity_id Detonation_event_id Detonation_velocity Detonation_world_location Detonation_descriptor Detonation_entity_location Detonation_result Detonation_variable_parameters]; intros; wfd. pdu_facts. wr. Qed.
Lemma Wr_entity_state_update m x : wf_EntityStateUpdate x -> Forall vp_plain (EntityStateUpdate_variable_parameters x) -> size_entity_state_update x < 65524 -> Wr (w_entity_state_update m x) (size_entity_state_update x) (size_entity_state_update x).
Proof. destruct x as [y0 y1 y2 y3 y4 y5]; unfold wf_EntityStateUpdate, size_entity_state_update, w_entity_state_update; cbn [EntityStateUpdate_entity_id EntityStateUpdate_velocity EntityStateUpdate_location EntityStateUpdate_orientation EntityStateUpdate_appearance EntityStateUpdate_variable_parameters]; intros; wfd. pdu_facts. wr. Qed.
Lemma Wr_sees m x : wf_Sees x -> size_sees x < 65524 -> Wr (w_sees m x) (size_sees x) (size_sees x).
Proof. destruct x as [y0 y1 y2 y3 y4 y5]; unfold wf_Sees, size_sees, w_sees; cbn [Sees_originating_entity_id Sees_infrared Sees_acoustic Sees_radar Sees_propulsion_systems Sees_vectoring_nozzle_systems]; intros; wfd. pdu_facts. wr. Qed.

(** ** Bodies with nested lists *)
Lemma Wr_other m x : size_other x < 65524 -> Wr (w_other m x) (size_other x) (size_other x).
Proof. intros H. pose proof (zlen_nonneg (Other_body x)). unfold w_other, size_other in *. rewrite Z.mod_small by lia. wr. Qed.
Lemma Wr_entity_state m v x : wf_EntityState x -> Forall vp_plain (EntityState_variable_parameters x) -> zlen (mk_string (EntityState_marking x)) <= 11 ->
  size_entity_state x < 65480 -> Wr (w_entity_state m v x) (size_entity_state x + 44) (size_entity_state x).
Proof.
  intros (_ & _ & _ & _ & _ & _ & _ & _ & Hd & _ & _ & Hv) Hp Hm S. unfold w_entity_state, size_entity_state in *. pose proof (zlen_nonneg (EntityState_variable_parameters x)).
  eapply Wr_conv; [repeat first [match goal with
    | |- Wr (wbind (w_marking 11 _) _) _ _ => eapply Wr_bind; [apply Wr_marking; exact Hm|]; cbv beta
    | |- Wr (wbind (w_dr_parameters _) _) _ _ => eapply Wr_bind; [apply Wr_dr; exact Hd|]; cbv beta end | wr_step]|lia|lia].
Qed.
Lemma Wr_attribute_record r : size_attribute_record r < 65536 -> Wr (w_attribute_record r) (size_attribute_record r) (size_attribute_record r).
Proof.
  unfold size_attribute_record, w_attribute_record. intros H. pose proof (zlen_nonneg (ar_fields r)). pose proof (pad_to_bound (6 + zlen (ar_fields r)) 8).
  eapply Wr_conv; [repeat wr_step|rewrite Z.mod_small by lia; lia|lia].
Qed.
Lemma size_attribute_record_pos r : 6 <= size_attribute_record r.
Proof. unfold size_attribute_record. pose proof (zlen_nonneg (ar_fields r)). pose proof (pad_to_bound (6 + zlen (ar_fields r)) 8). lia. Qed.
Lemma Wr_attribute_record_set m s : size_attribute_record_set s < 65536 -> Wr (w_attribute_record_set m s) (size_attribute_record_set s) (size_attribute_record_set s).
Proof.
  unfold size_attribute_record_set, w_attribute_record_set. intros H.
  assert (forall x, In x (as_records s) -> 0 <= size_attribute_record x) as N by (intros; pose proof (size_attribute_record_pos x); lia).
  assert (0 <= zsum (map size_attribute_record (as_records s))) by (apply zsum_map_nonneg; exact N).
  eapply Wr_conv; [repeat first [match goal with
    | |- Wr (wbind (wmap_sum _ w_attribute_record _) _) _ _ => eapply Wr_bind; [apply (Wr_sum m w_attribute_record size_attribute_record size_attribute_record); [|lia]|]; cbv beta end | wr_step]|lia|lia].
  intros r Hr. split; [|auto]. apply Wr_attribute_record. pose proof (zsum_elt_le size_attribute_record (as_records s) r N Hr). lia.
Qed.
Lemma Wr_attribute m x : size_attribute x < 65524 -> Wr (w_attribute m x) (size_attribute x) (size_attribute x).
Proof.
  unfold size_attribute, w_attribute. intros H.
  assert (forall s, In s (Attribute_sets x) -> 0 <= size_attribute_record_set s) as N.
  { intros s _. unfold size_attribute_record_set. assert (0 <= zsum (map size_attribute_record (as_records s))); [|lia].
    apply zsum_map_nonneg. intros r _. pose proof (size_attribute_record_pos r). lia. }
  assert (0 <= zsum (map size_attribute_record_set (Attribute_sets x))) by (apply zsum_map_nonneg; exact N).
  eapply Wr_conv; [repeat first [match goal with
    | |- Wr (wbind (wmap_sum _ (w_attribute_record_set _) _) _) _ _ => eapply Wr_bind; [apply (Wr_sum m (w_attribute_record_set m) size_attribute_record_set size_attribute_record_set); [|lia]|]; cbv beta end | wr_step]|lia|lia].
  intros r Hr. split; [|auto]. apply Wr_attribute_record_set. pose proof (zsum_elt_le size_attribute_record_set (Attribute_sets x) r N Hr). lia.
Qed.
Lemma Wr_signal m x : size_signal x < 65524 -> Wr (w_signal m x) (size_signal x) (size_signal x).
Proof.
  unfold size_signal, w_signal. intros H. pose proof (zlen_nonneg (Signal_data x)). pose proof (pad_to_bound (zlen (Signal_data x)) 4).
  eapply Wr_conv; [repeat first [match goal with |- Wr (add16 _ _ (?a mod 65536)) _ _ => rewrite (Z.mod_small a 65536) by lia end | wr_step]|lia|lia].
Qed.
Lemma Wr_silent_entity m s : size_silent_entity s < 65536 -> Wr (w_silent_entity m s) (size_silent_entity s - 2) (size_silent_entity s).
Proof.
  intros H. unfold w_silent_entity. pose proof (zlen_nonneg (se_appearances s)). pose proof (len_silent_entity_ok m s H) as E. unfold size_silent_entity in *.
  eapply Wr_conv; [repeat first [match goal with |- Wr (len_silent_entity _ _) _ _ => apply Wr_pure; exact E end | wr_step]|lia|lia].
Qed.
