(** * Specification vocabulary for the C-DIS PDU properties *)
From Coq Require Import ZArith List Lia Bool.
From Verif Require Import Base DisCommon DisLists DisSimman CdisBase CdisRecords CdisBodies1 CdisBodies2 CdisIff CdisPdu.
Import ListNotations. Open Scope Z_scope.

(** ** The bits by which the declared body length exceeds what is written *)
Definition absent {A} (o : option A) (n : Z) : Z := match o with Some _ => 0 | None => n end.
Definition when_empty {A} (l : list A) (n : Z) : Z := match l with [] => n | _ => 0 end.
Definition total {A} (f : A -> Z) (l : list A) : Z := fold_right (fun x s => f x + s) 0 l.
(** beam data: the sizes of the three angles that are replaced by the azimuth centre *)
Definition excess_beam_data (b : CBeamData) : Z :=
  len_svint13 (cbd_az_sweep b) + len_svint13 (cbd_el_center b) + len_svint13 (cbd_el_sweep b) - 3 * len_svint13 (cbd_az_center b).
Definition excess_datums (d : DatumSpecification) : Z := when_empty (ds_fixed d) 5 + when_empty (ds_variable d) 5.
Definition excess_emitter_beam (b : CEmitterBeam) : Z := absent (ceb_fp_index b) 5 + absent (ceb_bd_index b) 5.
Definition excess_emitter_system (s : CEmitterSystem) : Z := len_uvint8 (cesy_number s) + total excess_emitter_beam (cesy_beams s).
Definition excess_cbody (b : CBody) : Z := match b with
  | CBActionRequest x => excess_datums (CActionRequest_datums x)
  | CBActionResponse x => excess_datums (CActionResponse_datums x)
  | CBDataQuery x => when_empty (CDataQuery_fixed x) 5 + when_empty (CDataQuery_variable x) 5
  | CBSetData x => excess_datums (CSetData_datums x)
  | CBData x => excess_datums (CData_datums x)
  | CBEventReport x => excess_datums (CEventReport_datums x)
  | CBComment x => excess_datums (CComment_datums x)
  | CBEmission x => 1 + total excess_beam_data (CEmission_beams x) + total excess_emitter_system (CEmission_systems x)
  | CBTransmitter x =>
      absent (CTransmitter_ptype x) 3 + absent (CTransmitter_pattern x) 10 + absent (CTransmitter_power x) 8 +
      absent (CTransmitter_crypto x) 4 + absent (CTransmitter_key x) 16 + when_empty (CTransmitter_modparams x) 8
  | CBSignal _ => 2
  | CBIff x =>
      match CIff_layer2 x with Some l => excess_beam_data (cl2_beam l) | None => 0 end +
      match CIff_layer4 x with Some l => when_empty (cl4_records l) 5 | None => 0 end +
      match CIff_layer5 x with Some l => when_empty (cl5_records l) 5 | None => 0 end
  | _ => 0
  end.

(** ** The fields-present flags in the order of the C-DIS standard's tables, most significant first *)
Definition present {A} (o : option A) : bool := match o with Some _ => true | None => false end.
Definition some_items {A} (l : list A) : bool := match l with [] => false | _ => true end.
Definition datum_flags (d : DatumSpecification) : list bool := [some_items (ds_fixed d); some_items (ds_variable d)].
Definition presence_flags (b : CBody) : list bool := match b with
  | CBEntityState x => [present (CEntityState_force x); some_items (CEntityState_vps x); present (CEntityState_etype x); present (CEntityState_alt x);
      present (CEntityState_velocity x); present (CEntityState_location x); present (CEntityState_orientation x); present (CEntityState_appearance x);
      present (CEntityState_dr_other x); present (CEntityState_dr_acceleration x); present (CEntityState_dr_angular x); present (CEntityState_marking x);
      present (CEntityState_capabilities x)]
  | CBFire x => [present (CFire_mission x); present (CFire_warhead x) && present (CFire_fuze x); present (CFire_quantity x) && present (CFire_rate x); present (CFire_range x)]
  | CBDetonation x => [present (CDetonation_warhead x) && present (CDetonation_fuze x); present (CDetonation_quantity x) && present (CDetonation_rate x);
      present (CDetonation_material x) && present (CDetonation_force x); some_items (CDetonation_vps x)]
  | CBActionRequest x => datum_flags (CActionRequest_datums x)
  | CBActionResponse x => datum_flags (CActionResponse_datums x)
  | CBDataQuery x => [some_items (CDataQuery_fixed x); some_items (CDataQuery_variable x)]
  | CBSetData x => datum_flags (CSetData_datums x)
  | CBData x => datum_flags (CData_datums x)
  | CBEventReport x => datum_flags (CEventReport_datums x)
  | CBComment x => datum_flags (CComment_datums x)
  | CBDesignator x => [present (CDesignator_designated x) && present (CDesignator_spot_entity x);
      present (CDesignator_code_name x) && present (CDesignator_code x) && present (CDesignator_power x) && present (CDesignator_wavelength x);
      present (CDesignator_spot_location x); present (CDesignator_dr_algorithm x) && present (CDesignator_dr_acceleration x)]
  | CBTransmitter x => [present (CTransmitter_rtype x); some_items (CTransmitter_vtps x); present (CTransmitter_antenna x); present (CTransmitter_relative x);
      present (CTransmitter_ptype x) && present (CTransmitter_pattern x);
      present (CTransmitter_frequency x) && present (CTransmitter_bandwidth x) && present (CTransmitter_power x) && present (CTransmitter_modulation x);
      present (CTransmitter_crypto x) && present (CTransmitter_key x); some_items (CTransmitter_modparams x)]
  | CBSignal x => [present (CSignal_rate x); present (CSignal_samples x)]
  | CBIff x => [present (CIff_event x); present (CIff_antenna x); present (CIff_system x); present (CIff_specific x);
      present (cfo_field1 (CIff_data x)); present (cfo_field2 (CIff_data x)); present (cfo_p1 (CIff_data x)); present (cfo_p2 (CIff_data x));
      present (cfo_p3 (CIff_data x)); present (cfo_p4 (CIff_data x)); present (cfo_p5 (CIff_data x)); present (cfo_p6 (CIff_data x))]
  | _ => []
  end.

(** ** The parts of a body that do not survive the wire, blanked out *)
Definition blank_location (w : CWorldCoordinates) : CWorldCoordinates := MkCWorldCoordinates 0 0 (if cwc_alt w <? -1048576 then cwc_alt w + 16777216 else cwc_alt w).
Definition blank_beam_data (b : CBeamData) : CBeamData := MkCBeamData (cbd_az_center b) 0 0 0 (cbd_sync b).
Definition blank_layer_length (h : CLayerHeader) : CLayerHeader := MkCLayerHeader (clh_number h) (clh_info h) 0.
Definition blank_lossy (b : CBody) : CBody := match b with
  | CBEntityState x => CBEntityState (MkCEntityState (CEntityState_units x) (CEntityState_full x) (CEntityState_id x) (CEntityState_force x) (CEntityState_etype x)
      (CEntityState_alt x) (CEntityState_velocity x) (option_map blank_location (CEntityState_location x)) (CEntityState_orientation x) (CEntityState_appearance x)
      (CEntityState_dr_algorithm x) (CEntityState_dr_other x) (CEntityState_dr_acceleration x) (CEntityState_dr_angular x) (CEntityState_marking x)
      (CEntityState_capabilities x) (CEntityState_vps x))
  | CBFire x => CBFire (MkCFire (CFire_units x) (CFire_firing x) (CFire_target x) (CFire_munition x) (CFire_event x) (CFire_mission x) (blank_location (CFire_location x))
      (CFire_etype x) (CFire_warhead x) (CFire_fuze x) (CFire_quantity x) (CFire_rate x) (CFire_velocity x) (CFire_range x))
  | CBDetonation x => CBDetonation (MkCDetonation (CDetonation_units x) (CDetonation_source x) (CDetonation_target x) (CDetonation_exploding x) (CDetonation_event x)
      (CDetonation_velocity x) (blank_location (CDetonation_location x)) (CDetonation_etype x) (CDetonation_warhead x) (CDetonation_fuze x) (CDetonation_quantity x)
      (CDetonation_rate x) (CDetonation_material x) (CDetonation_force x) (CDetonation_location_entity x) (CDetonation_result x) (CDetonation_vps x))
  | CBEmission x => CBEmission (MkCEmission (CEmission_full x) (CEmission_id x) (CEmission_event x) (CEmission_sui x) (CEmission_params x)
      (map blank_beam_data (CEmission_beams x)) (CEmission_sites x) (CEmission_systems x))
  | CBDesignator x => CBDesignator (MkCDesignator (CDesignator_units x) (CDesignator_full x) (CDesignator_id x) (CDesignator_code_name x) (CDesignator_designated x)
      (CDesignator_code x) (CDesignator_power x) (CDesignator_wavelength x) (CDesignator_spot_entity x) (option_map blank_location (CDesignator_spot_location x))
      (CDesignator_dr_algorithm x) (CDesignator_dr_acceleration x))
  | CBTransmitter x => CBTransmitter (MkCTransmitter (CTransmitter_units x) (CTransmitter_full x) (CTransmitter_radio x) (CTransmitter_number x) (CTransmitter_rtype x)
      (CTransmitter_state x) (CTransmitter_source x) (option_map blank_location (CTransmitter_antenna x)) (CTransmitter_relative x) (CTransmitter_ptype x)
      (CTransmitter_frequency x) (CTransmitter_bandwidth x) (CTransmitter_power x) (CTransmitter_modulation x) (CTransmitter_crypto x) (CTransmitter_key x)
      (CTransmitter_modparams x) (CTransmitter_pattern x) (CTransmitter_vtps x))
  | CBIff x => CBIff (MkCIff (CIff_units x) (CIff_full x) (CIff_emitting x) (CIff_event x) (CIff_antenna x) (CIff_system x) (CIff_designator x) (CIff_specific x) (CIff_data x)
      (option_map (fun l => MkCIffLayer2 (blank_layer_length (cl2_header l)) (blank_beam_data (cl2_beam l)) (cl2_op1 l) (cl2_op2 l) (cl2_params l)) (CIff_layer2 x))
      (option_map (fun l => MkCIffLayer3 (blank_layer_length (cl3_header l)) (cl3_site l) (cl3_app l) (cl3_basic l) (cl3_records l)) (CIff_layer3 x))
      (option_map (fun l => MkCIffLayer4 (blank_layer_length (cl4_header l)) (cl4_site l) (cl4_app l) (cl4_basic l) (cl4_records l)) (CIff_layer4 x))
      (option_map (fun l => MkCIffLayer5 (blank_layer_length (cl5_header l)) (cl5_site l) (cl5_app l) (cl5_layers l) (cl5_category l) (cl5_records l)) (CIff_layer5 x)))
  | _ => b
  end.
Definition same_but_lossy (p q : CPdu) : Prop := cp_header p = cp_header q /\ blank_lossy (cp_body p) = blank_lossy (cp_body q).
(** none of the lossy parts is there *)
Definition no_lossy_parts (b : CBody) : Prop := match b with
  | CBEntityState x => CEntityState_location x = None
  | CBFire _ | CBDetonation _ => False
  | CBEmission x => CEmission_beams x = []
  | CBDesignator x => CDesignator_spot_location x = None
  | CBTransmitter x => CTransmitter_antenna x = None
  | CBIff x => CIff_layer2 x = None /\ CIff_layer3 x = None /\ CIff_layer4 x = None /\ CIff_layer5 x = None
  | _ => True
  end.

(** serializing PDUs one after the other into one buffer *)
Fixpoint serialize_all (m : mode) (ps : list CPdu) (buf : list bool) (cursor : Z) : option (list bool * Z) := match ps with
  | [] => Some (buf, cursor)
  | p :: ps' => match cserialize m p buf cursor with Some (buf', c') => serialize_all m ps' buf' c' | None => None end
  end.
