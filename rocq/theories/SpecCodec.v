(** * Specification of the C-DIS codec's state: what a full update is and what a history of updates means

    Written without reference to the codec: only the record types and [dec_eid], the identity of an entity on both sides. *)
From Coq Require Import ZArith List Lia Bool.
From Verif Require Import Base DisCommon DisHeader DisSimman DisLogistics DisWarfare DisEntity DisEmission DisRadio DisIff DisPdu DisPacket
  CdisRecords CdisBodies1 CdisBodies2 CdisIff CdisPdu CdisCodec1 CdisCodec2.
Import ListNotations. Open Scope Z_scope.

(** What a stateful PDU is about: the entity, or the radio of an entity *)
Inductive Subject := SuEntity (id : EntityId) | SuEmission (id : EntityId) | SuDesignator (id : EntityId) | SuRadio (id : EntityId) (number : Z) | SuIff (id : EntityId).
Definition subject (b : PduBody) : option Subject :=
  match b with
  | BEntityState x => Some (SuEntity (EntityState_entity_id x))
  | BElectromagneticEmission x => Some (SuEmission (EE_emitting_entity_id x))
  | BDesignator x => Some (SuDesignator (Designator_designating_entity_id x))
  | BTransmitter x => Some (SuRadio (Transmitter_radio_reference_id x) (Transmitter_radio_number x))
  | BIff x => Some (SuIff (Iff_emitting_entity_id x))
  | _ => None
  end.
Definition csubject (b : CBody) : option Subject :=
  match b with
  | CBEntityState x => Some (SuEntity (dec_eid (CEntityState_id x)))
  | CBEmission x => Some (SuEmission (dec_eid (CEmission_id x)))
  | CBDesignator x => Some (SuDesignator (dec_eid (CDesignator_id x)))
  | CBTransmitter x => Some (SuRadio (dec_eid (CTransmitter_radio x)) (CTransmitter_number x))
  | CBIff x => Some (SuIff (dec_eid (CIff_emitting x)))
  | _ => None
  end.
(** equality of subjects, decided *)
Definition subj_eqb (a b : Subject) : bool :=
  match a, b with
  | SuEntity i, SuEntity j | SuEmission i, SuEmission j | SuDesignator i, SuDesignator j | SuIff i, SuIff j => eid_eqb i j
  | SuRadio i n, SuRadio j k => eid_eqb i j && (n =? k)
  | _, _ => false
  end.
Lemma subj_eqb_eq a b : subj_eqb a b = true <-> a = b.
Proof.
  destruct a, b; cbn; try (split; discriminate); rewrite ?andb_true_iff, ?eid_eqb_eq, ?Z.eqb_eq; split; try congruence.
  - intros [-> ->]. reflexivity.
  - intros H. injection H as -> ->. auto.
Qed.
Definition about (s : Subject) (i : Z * Pdu) : bool := match subject (pdu_body (snd i)) with Some s' => subj_eqb s' s | None => false end.
Definition cabout (s : Subject) (c : CPdu) : bool := match csubject (cp_body c) with Some s' => subj_eqb s' s | None => false end.

(** The heartbeat parameter that governs a PDU, IEEE 1278.1 names in dis-rs variable_parameters.rs. Entity kinds (SISO-REF-010): 1 platform, 2 munition,
    3 life form, 4 environmental, 5 cultural feature, 6 supply, 7 radio, 8 expendable, 9 sensor/emitter; domains: 1 land, 2 air, 3 surface, 4 subsurface, 5 space. *)
Definition heartbeat_parameter (h : Heartbeats) (b : PduBody) : Z :=
  match b with
  | BEntityState x =>
      match et_kind (EntityState_entity_type x), et_domain (EntityState_entity_type x) with
      | 2, _ => hb_munition h | 3, _ => hb_life_form h | 4, _ => hb_environmental h | 5, _ => hb_cultural h
      | 6, _ => hb_supply h | 7, _ => hb_radio h | 8, _ => hb_expendable h | 9, _ => hb_sensor h
      | 1, 1 => hb_land h | 1, 3 => hb_surface h | 1, 4 => hb_subsurface h | 1, 5 => hb_space h
      | _, _ => hb_air h
      end
  | BElectromagneticEmission _ => hb_ee h
  | BDesignator _ => hb_designator h
  | BTransmitter _ => hb_transmitter h
  | BIff _ => hb_iff h
  | _ => 0
  end.

Definition present {A} (o : option A) : Prop := o <> None.
Definition absent {A} (o : option A) : Prop := o = None.

(** A full update carries every static field, a partial update none. (The IFF body's full update flag is never set by the encoder: see
    [iff_full_update_flag_refuted]; its only static field is the system identification.) *)
Definition track_full (t : CTrackJam) : Prop := present (ctj_emitter t) /\ present (ctj_beam t).
Definition track_partial (t : CTrackJam) : Prop := absent (ctj_emitter t) /\ absent (ctj_beam t).
Definition beam_full (b : CEmitterBeam) : Prop :=
  present (ceb_fp_index b) /\ present (ceb_bd_index b) /\ present (ceb_kind b) /\ present (ceb_category b) /\ present (ceb_subcategory b) /\ present (ceb_specific b) /\
  Forall track_full (ceb_tracks b).
Definition beam_partial (b : CEmitterBeam) : Prop :=
  absent (ceb_kind b) /\ absent (ceb_category b) /\ absent (ceb_subcategory b) /\ absent (ceb_specific b) /\ Forall track_partial (ceb_tracks b).
Definition system_full (e : CEmitterSystem) : Prop := present (cesy_name e) /\ present (cesy_function e) /\ present (cesy_location e) /\ Forall beam_full (cesy_beams e).
Definition system_partial (e : CEmitterSystem) : Prop := absent (cesy_name e) /\ absent (cesy_function e) /\ absent (cesy_location e) /\ Forall beam_partial (cesy_beams e).
Definition full_update (b : CBody) : Prop :=
  match b with
  | CBEntityState x => CEntityState_full x = true /\ present (CEntityState_force x) /\ present (CEntityState_etype x) /\ present (CEntityState_location x) /\
      present (CEntityState_orientation x) /\ present (CEntityState_appearance x) /\ present (CEntityState_marking x)
  | CBEmission x => CEmission_full x = true /\ Forall system_full (CEmission_systems x)
  | CBDesignator x => CDesignator_full x = true /\ present (CDesignator_code_name x) /\ present (CDesignator_code x) /\ present (CDesignator_power x) /\
      present (CDesignator_wavelength x) /\ present (CDesignator_spot_location x)
  | CBTransmitter x => CTransmitter_full x = true /\ present (CTransmitter_rtype x) /\ present (CTransmitter_antenna x) /\ present (CTransmitter_relative x) /\
      present (CTransmitter_frequency x) /\ present (CTransmitter_bandwidth x) /\ present (CTransmitter_power x) /\ present (CTransmitter_modulation x)
  | CBIff x => present (CIff_system x)
  | _ => False
  end.
Definition partial_update (b : CBody) : Prop :=
  match b with
  | CBEntityState x => CEntityState_full x = false /\ absent (CEntityState_force x) /\ absent (CEntityState_etype x) /\ absent (CEntityState_location x) /\
      absent (CEntityState_orientation x) /\ absent (CEntityState_appearance x) /\ absent (CEntityState_marking x)
  | CBEmission x => CEmission_full x = false /\ Forall system_partial (CEmission_systems x)
  | CBDesignator x => CDesignator_full x = false /\ absent (CDesignator_code_name x) /\ absent (CDesignator_code x) /\ absent (CDesignator_power x) /\
      absent (CDesignator_wavelength x) /\ absent (CDesignator_spot_location x)
  | CBTransmitter x => CTransmitter_full x = false /\ absent (CTransmitter_rtype x) /\ absent (CTransmitter_antenna x) /\ absent (CTransmitter_relative x) /\
      absent (CTransmitter_frequency x) /\ absent (CTransmitter_bandwidth x) /\ absent (CTransmitter_power x) /\ absent (CTransmitter_modulation x)
  | CBIff x => absent (CIff_system x)
  | _ => False
  end.

(** What the encoder has done so far: (time, DIS PDU, C-DIS PDU), oldest first *)
Definition Sent := list (Z * Pdu * CPdu).
Definition full_sent (s : Subject) (e : Z * Pdu * CPdu) : Prop := subject (pdu_body (snd (fst e))) = Some s /\ full_update (cp_body (snd e)).
Definition never_sent_full (s : Subject) (h : Sent) : Prop := Forall (fun e => ~ full_sent s e) h.
Definition last_sent_full (s : Subject) (h : Sent) (t : Z) (p : Pdu) : Prop :=
  exists h1 c h2, h = h1 ++ (t, p, c) :: h2 /\ full_sent s (t, p, c) /\ never_sent_full s h2.

(** What the decoder has done so far: (C-DIS PDU, DIS PDU), oldest first. Here the full update flag decides. *)
Definition Received := list (CPdu * Pdu).
Definition flagged_full (b : CBody) : bool :=
  match b with
  | CBEntityState x => CEntityState_full x
  | CBEmission x => CEmission_full x
  | CBDesignator x => CDesignator_full x
  | CBTransmitter x => CTransmitter_full x
  | CBIff x => CIff_full x
  | _ => false
  end.
Definition full_received (s : Subject) (e : CPdu * Pdu) : Prop := csubject (cp_body (fst e)) = Some s /\ flagged_full (cp_body (fst e)) = true.
Definition never_received_full (s : Subject) (h : Received) : Prop := Forall (fun e => ~ full_received s e) h.
Definition last_received_full (s : Subject) (h : Received) (d : PduBody) : Prop :=
  exists h1 c p h2, h = h1 ++ (c, p) :: h2 /\ full_received s (c, p) /\ never_received_full s h2 /\ pdu_body p = d.
Definition first_received_full (s : Subject) (h : Received) (d : PduBody) : Prop :=
  exists h1 c p h2, h = h1 ++ (c, p) :: h2 /\ full_received s (c, p) /\ never_received_full s h1 /\ pdu_body p = d.

(** ** What a partial update inherits from the last full update [f] of the same subject: each static field that it does not carry *)
Definition the_system (f : ElectromagneticEmission) (n : Z) (e : EmitterSystem) : Prop :=
  In e (EE_systems f) /\ es_number e = n /\ forall e', In e' (EE_systems f) -> es_number e' = n -> e' = e.
Definition beam_of (f : ElectromagneticEmission) (n k : Z) (b : Beam) : Prop :=
  exists e, In e (EE_systems f) /\ es_number e = n /\ In b (es_beams e) /\ be_number b = k.
Definition the_beam (f : ElectromagneticEmission) (n k : Z) (b : Beam) : Prop := beam_of f n k b /\ forall b', beam_of f n k b' -> b' = b.
Definition inherits_es (x : CEntityState) (d f : EntityState) : Prop :=
  (absent (CEntityState_force x) -> EntityState_force_id d = EntityState_force_id f) /\
  (absent (CEntityState_etype x) -> EntityState_entity_type d = EntityState_entity_type f) /\
  (absent (CEntityState_location x) -> EntityState_location d = EntityState_location f) /\
  (absent (CEntityState_orientation x) -> EntityState_orientation d = EntityState_orientation f) /\
  (absent (CEntityState_appearance x) -> EntityState_appearance d = EntityState_appearance f).
Definition inherits_designator (x : CDesignator) (d f : Designator) : Prop :=
  (absent (CDesignator_code_name x) -> Designator_system_name d = Designator_system_name f) /\
  (absent (CDesignator_code x) -> Designator_code d = Designator_code f) /\
  (absent (CDesignator_power x) -> Designator_power d = Designator_power f) /\
  (absent (CDesignator_wavelength x) -> Designator_wavelength d = Designator_wavelength f) /\
  (absent (CDesignator_spot_location x) -> Designator_spot_location d = Designator_spot_location f).
Definition inherits_transmitter (x : CTransmitter) (d f : Transmitter) : Prop :=
  (absent (CTransmitter_rtype x) -> Transmitter_radio_type d = Transmitter_radio_type f) /\
  (absent (CTransmitter_antenna x) -> Transmitter_antenna_location d = Transmitter_antenna_location f) /\
  (absent (CTransmitter_frequency x) -> Transmitter_frequency d = Transmitter_frequency f) /\
  (absent (CTransmitter_bandwidth x) -> Transmitter_bandwidth d = Transmitter_bandwidth f) /\
  (absent (CTransmitter_power x) -> Transmitter_power d = Transmitter_power f) /\
  (absent (CTransmitter_modulation x) -> Transmitter_modulation_type d = Transmitter_modulation_type f).
Definition inherits_beam (f : ElectromagneticEmission) (n : Z) (x : CEmitterBeam) (d : Beam) : Prop :=
  forall b, the_beam f n (ceb_id x) b ->
  (absent (ceb_fp_index x) -> be_parameters d = be_parameters b) /\ (absent (ceb_bd_index x) -> be_data d = be_data b).
Definition inherits_system (f : ElectromagneticEmission) (x : CEmitterSystem) (d : EmitterSystem) : Prop :=
  (forall e, the_system f (cesy_number x) e ->
    (absent (cesy_name x) -> es_name d = es_name e) /\ (absent (cesy_function x) -> es_function d = es_function e) /\
    (absent (cesy_location x) -> es_location d = es_location e)) /\
  Forall2 (inherits_beam f (cesy_number x)) (cesy_beams x) (es_beams d).
Definition inherits (c : CBody) (d f : PduBody) : Prop :=
  match c, d, f with
  | CBEntityState x, BEntityState d, BEntityState f => inherits_es x d f
  | CBDesignator x, BDesignator d, BDesignator f => inherits_designator x d f
  | CBTransmitter x, BTransmitter d, BTransmitter f => inherits_transmitter x d f
  | CBEmission x, BElectromagneticEmission d, BElectromagneticEmission f => Forall2 (inherits_system f) (CEmission_systems x) (EE_systems d)
  | _, _, _ => False
  end.

(** ** The static fields that survive the translation exactly: of [d], what the receiver reconstructs, with respect to [q], the PDU that was sent in full *)
Definition same_statics (d q : PduBody) : Prop :=
  match d, q with
  | BEntityState d, BEntityState q =>
      EntityState_force_id d = EntityState_force_id q /\ EntityState_entity_type d = EntityState_entity_type q /\
      ea_word (EntityState_appearance d) = ea_word (EntityState_appearance q)
  | BDesignator d, BDesignator q => Designator_system_name d = Designator_system_name q /\ Designator_code d = Designator_code q
  | BTransmitter d, BTransmitter q => Transmitter_radio_type d = Transmitter_radio_type q
  | BElectromagneticEmission d, BElectromagneticEmission q =>
      forall e e', In e (EE_systems d) -> the_system q (es_number e) e' -> es_name e = es_name e' /\ es_function e = es_function e'
  | _, _ => False
  end.

(** ** Simulation management: the PDUs whose values fit the narrower C-DIS fields *)
Definition datums_narrow (f : list FixedDatum) (v : list VariableDatum) : Prop :=
  zlen f < 256 /\ zlen v < 256 /\ Forall (fun d => zlen (vd_value d) <= 2047) v.
Definition simman_narrow (b : PduBody) : Prop :=
  match b with
  | BCreateEntity _ | BRemoveEntity _ | BStartResume _ => True
  | BStopFreeze x => StopFreeze_reason x < 16 /\ StopFreeze_frozen_behavior x < 8
  | BAcknowledge x => Acknowledge_acknowledge_flag x < 8 /\ Acknowledge_response_flag x < 4
  | BActionRequest x => datums_narrow (ActionRequest_fixed_datum_records x) (ActionRequest_variable_datum_records x)
  | BActionResponse x => datums_narrow (ActionResponse_fixed_datum_records x) (ActionResponse_variable_datum_records x)
  | BSetData x => datums_narrow (SetData_fixed_datum_records x) (SetData_variable_datum_records x)
  | BData x => datums_narrow (Data_fixed_datum_records x) (Data_variable_datum_records x)
  | BEventReport x => datums_narrow (EventReport_fixed_datum_records x) (EventReport_variable_datum_records x)
  | BComment x => datums_narrow [] (Comment_variable_datum_records x)
  | BDataQuery x => zlen (DataQuery_fixed_datum_records x) < 256 /\ zlen (DataQuery_variable_datum_records x) < 256
  | _ => False
  end.

(** the same body; of a Data Query's time interval, which changes its unit, only the flag in the lowest bit *)
Definition simman_same (b' b : PduBody) : Prop :=
  match b', b with
  | BDataQuery x', BDataQuery x =>
      DataQuery_originating_id x' = DataQuery_originating_id x /\ DataQuery_receiving_id x' = DataQuery_receiving_id x /\
      DataQuery_request_id x' = DataQuery_request_id x /\ Z.odd (DataQuery_time_interval x') = Z.odd (DataQuery_time_interval x) /\
      DataQuery_fixed_datum_records x' = DataQuery_fixed_datum_records x /\ DataQuery_variable_datum_records x' = DataQuery_variable_datum_records x
  | _, _ => b' = b
  end.
