(** * What a receiver may rely on: whole PDU bodies after encoding to C-DIS and decoding *)
From Coq Require Import ZArith List Reals SpecFloat.
From Verif Require Import Base CdisBase DisCommon DisHeader DisLists DisSimman DisLogistics DisWarfare DisEntity DisEmission DisRadio DisIff DisPdu DisPacket
  CdisRecords CdisBodies1 CdisBodies2 CdisIff CdisPdu CdisCodec1 CdisCodec2 CdisCodec3 SpecFloatValue SpecContent.
Import ListNotations. Open Scope Z_scope.

(** The DIS PDU [p] is encoded at the time [now] to the C-DIS PDU [c] by an encoder with the options [oe], in any state; a decoder with the options [od],
    in any state, makes the DIS PDU [p'] of it. [g] are the conversions between geocentric and geodetic coordinates, [m] the arithmetic mode. *)
Definition translated (m : mode) (g : Geo) (oe od : Options) (p : Pdu) (c : CPdu) (p' : Pdu) : Prop :=
  exists now est dst r est' r' dst', encode g oe now est p = Some (c, r, est') /\ decode m g od dst c = WOk [] (p', r', dst').

(** a place: the received one is the geocentric position of a latitude and a longitude within 0.0000003 of their size (and a millionth of a millionth of a radian) and of an altitude within
    1.52 cm, or beyond 83886 m within 10.1 m and 0.0000002 of its size. The centre of the earth, all zero, has a code of its own. *)
Definition centre (l : Location) : Prop := f64_value (loc_x l) = 0%R /\ f64_value (loc_y l) = 0%R /\ f64_value (loc_z l) = 0%R.
Definition place_kept (g : Geo) (l l' : Location) : Prop :=
  forall lat lon alt, to_lla g (loc_x l) (loc_y l) (loc_z l) = (lat, lon, alt) -> ~ centre l ->
  f64_finite (loc_x l) -> f64_finite (loc_y l) -> f64_finite (loc_z l) ->
  f64_finite lat -> f64_finite lon -> f64_finite alt ->
  (-4 <= f64_value lat <= 4)%R -> (-4 <= f64_value lon <= 4)%R -> (-83886 <= f64_value alt <= 100000000)%R ->
  exists lat' lon' alt', to_ecef g lat' lon' alt' = (loc_x l', loc_y l', loc_z l') /\ f64_finite lat' /\ f64_finite lon' /\ f64_finite alt' /\
    within (0.0000003 * Rabs (f64_value lat) + 0.000000000001) (f64_value lat') (f64_value lat) /\
    within (0.0000003 * Rabs (f64_value lon) + 0.000000000001) (f64_value lon') (f64_value lon) /\
    within (if Rle_dec (f64_value alt) 83886 then 0.0152 else 10.1 + 0.0000002 * f64_value alt) (f64_value alt') (f64_value alt).

(** variable parameters: an articulation's value to the precision of C-DIS, everything else exactly; one without a known type becomes an empty one *)
Definition vp_kept (v w : VariableParameter) : Prop :=
  match v with
  | VPArticulated x => exists y, w = VPArticulated y /\ ap_change y = ap_change x /\ ap_attachment y = ap_attachment x /\ ap_metric y = ap_metric x /\ ap_class y = ap_class x /\
      parameter_kept (ap_value x) (ap_value y)
  | VPUnspecified _ _ => w = VPUnspecified 0 (repeat 0 15)
  | _ => w = v
  end.

(** ** Collision *)
Definition collision_kept (x y : Collision) : Prop :=
  Collision_issuing_entity_id y = Collision_issuing_entity_id x /\ Collision_colliding_entity_id y = Collision_colliding_entity_id x /\
  Collision_event_id y = Collision_event_id x /\ Collision_collision_type y = Collision_collision_type x /\
  speed_kept (Collision_velocity x) (Collision_velocity y) /\ mass_kept (Collision_mass x) (Collision_mass y) /\
  coordinates_kept (Collision_location x) (Collision_location y).

(** ** Fire, Detonation *)
Definition descriptor_type (d : DescriptorRecord) : EntityType := match d with DMunition t _ | DExpendable t | DExplosion t _ _ => t end.
Definition munition_kind : Z := 2.
Definition expendable_kind : Z := 8.
(** A munition's warhead and fuse exactly and the counts up to 255, when the entity type says that it is a munition; an expendable, when the type says so; an
    explosion, when the type is neither. (The kind of descriptor is not sent: the decoder takes it from the type.) *)
Definition descriptor_kept (d d' : DescriptorRecord) : Prop :=
  descriptor_type d' = descriptor_type d /\
  match d with
  | DMunition t m => et_kind t = munition_kind ->
      d' = DMunition t (MkMunitionDescriptor (md_warhead m) (md_fuse m) (Z.min (md_quantity m) 255) (Z.min (md_rate m) 255))
  | DExpendable t => et_kind t = expendable_kind -> d' = DExpendable t
  | DExplosion t mat f => True
  end.
Definition explosion_kept (d d' : DescriptorRecord) : Prop :=
  match d with
  | DExplosion t mat f => et_kind t <> munition_kind -> et_kind t <> expendable_kind -> exists f', d' = DExplosion t mat f' /\ force_kept f f'
  | _ => True
  end.
(** of a Fire PDU whose type is neither a munition nor an expendable only the type is left: an empty munition *)
Definition shot_kept (d d' : DescriptorRecord) : Prop :=
  let t := descriptor_type d in et_kind t <> munition_kind -> et_kind t <> expendable_kind -> d' = DMunition t (MkMunitionDescriptor 0 0 0 0).
Definition fire_kept_at (place : Location -> Location -> Prop) (x y : Fire) : Prop :=
  Fire_firing_entity_id y = Fire_firing_entity_id x /\ Fire_target_entity_id y = Fire_target_entity_id x /\ Fire_entity_id y = Fire_entity_id x /\
  Fire_event_id y = Fire_event_id x /\ Fire_fire_mission_index y = Fire_fire_mission_index x /\
  place (Fire_location_in_world x) (Fire_location_in_world y) /\ descriptor_kept (Fire_descriptor x) (Fire_descriptor y) /\
  shot_kept (Fire_descriptor x) (Fire_descriptor y) /\ speed_kept (Fire_velocity x) (Fire_velocity y) /\ whole_kept 4294967295 (Fire_range x) (Fire_range y).
Definition fire_kept (g : Geo) := fire_kept_at (place_kept g).
Definition detonation_kept_at (place : Location -> Location -> Prop) (x y : Detonation) : Prop :=
  Detonation_source_entity_id y = Detonation_source_entity_id x /\ Detonation_target_entity_id y = Detonation_target_entity_id x /\
  Detonation_exploding_entity_id y = Detonation_exploding_entity_id x /\ Detonation_event_id y = Detonation_event_id x /\
  speed_kept (Detonation_velocity x) (Detonation_velocity y) /\ place (Detonation_world_location x) (Detonation_world_location y) /\
  descriptor_kept (Detonation_descriptor x) (Detonation_descriptor y) /\ explosion_kept (Detonation_descriptor x) (Detonation_descriptor y) /\
  coordinates_kept (Detonation_entity_location x) (Detonation_entity_location y) /\ Detonation_result y = Detonation_result x /\
  Forall2 vp_kept (Detonation_variable_parameters x) (Detonation_variable_parameters y).
Definition detonation_kept (g : Geo) := detonation_kept_at (place_kept g).

(** ** Receiver, Signal *)
Definition receiver_kept (x y : Receiver) : Prop :=
  Receiver_radio_reference_id y = Receiver_radio_reference_id x /\ Receiver_radio_number y = Receiver_radio_number x /\
  Receiver_receiver_state y = Receiver_receiver_state x /\ arrives 1 (-32768) 32767 (Receiver_received_power x) (Receiver_received_power y) /\
  Receiver_transmitter_radio_reference_id y = Receiver_transmitter_radio_reference_id x /\ Receiver_transmitter_radio_number y = Receiver_transmitter_radio_number x.
(** encoded audio is kept with its sample rate and number of samples; of the other schemes only the class, and these two arrive as zero *)
Definition signal_kept (x y : Signal) : Prop :=
  Signal_radio_reference_id y = Signal_radio_reference_id x /\ Signal_radio_number y = Signal_radio_number x /\ Signal_tdl_type y = Signal_tdl_type x /\
  Signal_data y = Signal_data x /\
  match Signal_encoding_scheme x with
  | EsEncodedAudio c t => Signal_encoding_scheme y = EsEncodedAudio c t /\ Signal_sample_rate y = Signal_sample_rate x /\ Signal_samples y = Signal_samples x
  | EsRawBinary c n => (exists n', Signal_encoding_scheme y = EsRawBinary c n' /\ (0 <= n < 256 -> n' = n)) /\
                       Signal_sample_rate y = 0 /\ Signal_samples y = 0
  | EsAppSpecific c _ | EsDatabaseIndex c _ _ _ | EsUnspecified c =>
      Signal_encoding_scheme y = EsUnspecified c /\ Signal_sample_rate y = 0 /\ Signal_samples y = 0
  end.

(** ** Dead reckoning algorithms (SISO-REF-010): Static and Other use no velocity; those with an acceleration are FVW, FVB, RVW, RVB, those with a rotation RPW, RVW, RPB, RVB *)
Definition moves (alg : Z) : Prop := alg <> 0 /\ alg <> 1.
Definition accelerates (alg : Z) : Prop := In alg [4; 5; 8; 9].
Definition rotates (alg : Z) : Prop := In alg [3; 4; 7; 8].

(** what arrives for a velocity, an acceleration or a rotation the algorithm does not use: three times the float zero *)
Definition at_rest : VectorF32 := MkVectorF32 0 0 0.

(** ** Entity State *)
(** in every update *)
Definition movement_kept (complete : bool) (x y : EntityState) : Prop :=
  let dx := EntityState_dr x in let dy := EntityState_dr y in let alg := dr_algorithm dx in
  EntityState_entity_id y = EntityState_entity_id x /\ EntityState_alternative_entity_type y = EntityState_alternative_entity_type x /\
  dr_algorithm dy = alg /\
  (moves alg -> speed_kept (EntityState_velocity x) (EntityState_velocity y)) /\ (~ moves alg -> EntityState_velocity y = at_rest) /\
  (accelerates alg -> acceleration_kept (dr_acceleration dx) (dr_acceleration dy)) /\ (~ accelerates alg -> dr_acceleration dy = at_rest) /\
  (rotates alg -> turning_kept (dr_velocity dx) (dr_velocity dy)) /\ (~ rotates alg -> dr_velocity dy = at_rest) /\
  (alg <> 0 -> wf_DrOther (dr_other dx) -> dr_ok dx -> dr_other dy = dr_other dx) /\
  (complete = true -> et_kind (EntityState_entity_type y) <> 0 -> ec_word (EntityState_capabilities y) = ec_word (EntityState_capabilities x)) /\
  Forall2 vp_kept (EntityState_variable_parameters x) (EntityState_variable_parameters y).
(** in a full update *)
Definition identity_kept_at (place : Location -> Location -> Prop) (x y : EntityState) : Prop :=
  EntityState_force_id y = EntityState_force_id x /\ EntityState_entity_type y = EntityState_entity_type x /\
  place (EntityState_location x) (EntityState_location y) /\ orientation_kept (EntityState_orientation x) (EntityState_orientation y) /\
  ea_word (EntityState_appearance y) = ea_word (EntityState_appearance x).
Definition identity_kept (g : Geo) := identity_kept_at (place_kept g).

(** ** Designator *)
Definition aim_kept (x y : Designator) : Prop :=
  Designator_designating_entity_id y = Designator_designating_entity_id x /\ Designator_designated_entity_id y = Designator_designated_entity_id x /\
  coordinates_kept (Designator_spot_wrt_designated_entity x) (Designator_spot_wrt_designated_entity y) /\
  Designator_dead_reckoning_algorithm y = Designator_dead_reckoning_algorithm x /\
  (accelerates (Designator_dead_reckoning_algorithm x) -> acceleration_kept (Designator_linear_acceleration x) (Designator_linear_acceleration y)) /\
  (~ accelerates (Designator_dead_reckoning_algorithm x) -> Designator_linear_acceleration y = at_rest).
Definition laser_kept_at (place : Location -> Location -> Prop) (x y : Designator) : Prop :=
  Designator_system_name y = Designator_system_name x /\ Designator_code y = Designator_code x /\
  whole_kept 4294967295 (Designator_power x) (Designator_power y) /\ whole_kept 4294967295 (Designator_wavelength x) (Designator_wavelength y) /\
  place (Designator_spot_location x) (Designator_spot_location y).
Definition laser_kept (g : Geo) := laser_kept_at (place_kept g).

(** ** Transmitter *)
Definition transmission_kept (x y : Transmitter) : Prop :=
  Transmitter_radio_reference_id y = Transmitter_radio_reference_id x /\ Transmitter_radio_number y = Transmitter_radio_number x /\
  Transmitter_transmit_state y = Transmitter_transmit_state x /\ Transmitter_input_source y = Transmitter_input_source x /\
  Transmitter_crypto_system y = Transmitter_crypto_system x /\
  (Transmitter_crypto_system x <> 0 -> 0 <= ck_key (Transmitter_crypto_key_id x) < 32768 -> Transmitter_crypto_key_id y = Transmitter_crypto_key_id x) /\
  (forall l, Transmitter_modulation_parameters x = Some l -> Transmitter_modulation_parameters y = Some l) /\
  (forall a, Transmitter_antenna_pattern x = Some a -> Transmitter_antenna_pattern_type y = Transmitter_antenna_pattern_type x /\
     exists a', Transmitter_antenna_pattern y = Some a' /\ pattern_kept a a') /\
  Transmitter_vtps y = Transmitter_vtps x.
(** a modulation C-DIS can express: eight bits for the details and the system *)
Definition narrow_modulation (t : ModulationType) : Prop :=
  0 <= mt_system t < 256 /\ match mt_major t with MMNoStatement => True | MMDetail k d => 1 <= k <= 8 /\ 0 <= d < 256 | MMUnspecified d => 0 <= d < 256 end.
Definition radio_kept_at (place : Location -> Location -> Prop) (x y : Transmitter) : Prop :=
  Transmitter_radio_type y = Transmitter_radio_type x /\ place (Transmitter_antenna_location x) (Transmitter_antenna_location y) /\
  coordinates_kept (Transmitter_relative_antenna_location x) (Transmitter_relative_antenna_location y) /\
  hertz_kept (Transmitter_frequency x) (Transmitter_frequency y) /\ frequency_kept (Transmitter_bandwidth x) (Transmitter_bandwidth y) /\
  carried 1 0 255 (Transmitter_power x) (Transmitter_power y) /\
  (narrow_modulation (Transmitter_modulation_type x) -> Transmitter_modulation_type y = Transmitter_modulation_type x).
Definition radio_kept (g : Geo) := radio_kept_at (place_kept g).

(** ** IFF *)
Definition layer2_kept (x y : IffLayer2) : Prop :=
  lh_number (l2_header y) = lh_number (l2_header x) /\ lh_specific (l2_header y) = lh_specific (l2_header x) /\
  beam_kept (l2_beam x) (l2_beam y) /\ l2_op1 y = l2_op1 x /\ l2_op2 y = l2_op2 x /\ Forall2 interrogation_kept (l2_params x) (l2_params y).
(** everything but the navigation source of a transponder *)
Definition mode5_kept (x y : Mode5BasicData) : Prop :=
  match x with
  | M5Interrogator _ => y = x
  | M5Transponder a => exists b, y = M5Transponder b /\ m5t_status b = m5t_status a /\ m5t_pin b = m5t_pin a /\ m5t_formats b = m5t_formats a /\ m5t_mode1 b = m5t_mode1 a /\
      m5t_origin b = m5t_origin a /\ m5t_supplemental b = m5t_supplemental a /\ m5t_merit b = m5t_merit a
  end.
Definition layer3_kept (x y : IffLayer3) : Prop :=
  lh_number (l3_header y) = lh_number (l3_header x) /\ lh_specific (l3_header y) = lh_specific (l3_header x) /\
  l3_sim y = l3_sim x /\ mode5_kept (l3_basic x) (l3_basic y) /\ l3_records y = l3_records x.
Definition layer4_kept (x y : IffLayer4) : Prop :=
  lh_number (l4_header y) = lh_number (l4_header x) /\ lh_specific (l4_header y) = lh_specific (l4_header x) /\
  l4_sim y = l4_sim x /\ l4_basic y = l4_basic x /\ l4_records y = l4_records x.
Definition layer5_kept (x y : IffLayer5) : Prop :=
  lh_number (l5_header y) = lh_number (l5_header x) /\ lh_specific (l5_header y) = lh_specific (l5_header x) /\
  l5_sim y = l5_sim x /\ l5_layers y = l5_layers x /\ l5_category y = l5_category x /\ l5_records y = l5_records x.
Definition each_or_none {A} (P : A -> A -> Prop) (a b : option A) : Prop :=
  match a, b with Some x, Some y => P x y | None, None => True | _, _ => False end.
(** everything but the six parameters of the fundamental operational data, and the system identification, which is not in a partial update *)
Definition iff_kept (x y : Iff) : Prop :=
  Iff_emitting_entity_id y = Iff_emitting_entity_id x /\ Iff_event_id y = Iff_event_id x /\ coordinates_kept (Iff_antenna x) (Iff_antenna y) /\
  Iff_designator y = Iff_designator x /\ Iff_specific y = Iff_specific x /\
  fo_status (Iff_data y) = fo_status (Iff_data x) /\ fo_field1 (Iff_data y) = fo_field1 (Iff_data x) /\ fo_layers (Iff_data y) = fo_layers (Iff_data x) /\
  fo_field2 (Iff_data y) = fo_field2 (Iff_data x) /\
  each_or_none layer2_kept (Iff_layer_2 x) (Iff_layer_2 y) /\ each_or_none layer3_kept (Iff_layer_3 x) (Iff_layer_3 y) /\
  each_or_none layer4_kept (Iff_layer_4 x) (Iff_layer_4 y) /\ each_or_none layer5_kept (Iff_layer_5 x) (Iff_layer_5 y).

(** ** Electromagnetic Emission: a full update *)
(** more than 15 targets are not sent; instead the beam is marked high density *)
Definition tracks_kept (b b' : Beam) : Prop :=
  if zlen (be_tracks b) <=? 15 then be_tracks b' = be_tracks b /\ be_high_density b' = be_high_density b else be_tracks b' = [] /\ be_high_density b' = 1.
Definition ebeam_kept (b b' : Beam) : Prop :=
  be_number b' = be_number b /\ be_index b' = be_index b /\ emission_kept (be_parameters b) (be_parameters b') /\ beam_kept (be_data b) (be_data b') /\
  be_function b' = be_function b /\ be_status b' = (if be_status b =? 0 then 0 else 1) /\ be_technique b' = be_technique b /\ tracks_kept b b'.
Definition esystem_kept (s s' : EmitterSystem) : Prop :=
  es_name s' = es_name s /\ es_function s' = es_function s /\ es_number s' = es_number s /\ each (carried 1 (-32768) 32767) (es_location s) (es_location s') /\
  Forall2 ebeam_kept (es_beams s) (es_beams s').
Definition emissions_kept (x y : ElectromagneticEmission) : Prop :=
  EE_emitting_entity_id y = EE_emitting_entity_id x /\ EE_event_id y = EE_event_id x /\ EE_state_update y = EE_state_update x /\
  Forall2 esystem_kept (EE_systems x) (EE_systems y).

(** ** Electromagnetic Emission: a partial update *)
(** of a target only the entity arrives, its emitter and beam number are zero; the jamming technique of the beam is zero too *)
Definition tracks_reduced (b b' : Beam) : Prop :=
  if zlen (be_tracks b) <=? 15 then be_tracks b' = map (fun t => MkTrackJam (tj_entity t) 0 0) (be_tracks b) /\ be_high_density b' = be_high_density b
  else be_tracks b' = [] /\ be_high_density b' = 1.
Definition ebeam_reduced (b b' : Beam) : Prop :=
  be_number b' = be_number b /\ be_index b' = be_index b /\ be_function b' = be_function b /\ be_status b' = (if be_status b =? 0 then 0 else 1) /\
  be_technique b' = MkJamming 0 0 0 0 /\ tracks_reduced b b'.
Definition emissions_reduced (x y : ElectromagneticEmission) : Prop :=
  EE_emitting_entity_id y = EE_emitting_entity_id x /\ EE_event_id y = EE_event_id x /\ EE_state_update y = EE_state_update x /\
  Forall2 (fun s s' => es_number s' = es_number s /\ Forall2 ebeam_reduced (es_beams s) (es_beams s')) (EE_systems x) (EE_systems y).
(** two octet patterns stand for different numbers, or one is not a number *)
Definition differ (a b : Z) : Prop := SFeqb (sf_of_bits a) (sf_of_bits b) = false.
Definition parameters_changed (d e : FundamentalParameterData) : Prop :=
  differ (fp_frequency d) (fp_frequency e) \/ differ (fp_range d) (fp_range e) \/ differ (fp_power d) (fp_power e) \/ differ (fp_prf d) (fp_prf e) \/
  differ (fp_width d) (fp_width e).
Definition shape_changed (d e : BeamData) : Prop :=
  differ (bd_azc d) (bd_azc e) \/ differ (bd_azs d) (bd_azs e) \/ differ (bd_elc d) (bd_elc e) \/ differ (bd_els d) (bd_els e) \/ differ (bd_sync d) (bd_sync e).
(** every beam of [x] and the beam of [y] at the same place, with the number of their system *)
Definition beamwise (P : Z -> Beam -> Beam -> Prop) (x y : ElectromagneticEmission) : Prop :=
  Forall2 (fun s s' => Forall2 (P (es_number s)) (es_beams s) (es_beams s')) (EE_systems x) (EE_systems y).

(** at most 256 different parameter sets, beam shapes and target simulations in one PDU *)
Definition at_most {A} (n : Z) (P : A -> Prop) : Prop := exists l, zlen l <= n /\ forall a, P a -> In a l.
Definition beam_in (x : ElectromagneticEmission) (b : Beam) : Prop := exists s, In s (EE_systems x) /\ In b (es_beams s).
Definition countable (x : ElectromagneticEmission) : Prop :=
  at_most 256 (fun d => exists b, beam_in x b /\ d = be_parameters b) /\ at_most 256 (fun d => exists b, beam_in x b /\ d = be_data b) /\
  at_most 256 (fun a => exists b t, beam_in x b /\ In t (be_tracks b) /\ a = ei_addr (tj_entity t)).
