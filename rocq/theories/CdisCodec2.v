(** * Translation between DIS and C-DIS: the bodies with state (entity state, designator, transmitter, IFF)

    Models cdis-assemble/src/{entity_state,designator,transmitter,iff}/codec.rs and the options of codec.rs. Every encoder and decoder gets the state
    kept for its key ([None]: no state) and gives back the body and whether the state for that key must be updated (CodecStateResult: the value is
    [true] exactly for the StateUpdate result of the body's own kind).
    Simplifications. Time is a number of nanoseconds, read once for each PDU (the code reads the clock when it evaluates the timeout and again when it
    stores the heartbeat). Seconds and multipliers are f32 bit patterns, and the timeout is compared in f32 arithmetic, as the code does. *)
From Coq Require Import ZArith List Lia Bool SpecFloat.
From Verif Require Import Base CdisBase DisCommon DisHeader DisLists DisSimman DisLogistics DisWarfare DisEntity DisEmission DisRadio DisIff DisText DisPacket
  CdisRecords CdisBodies1 CdisBodies2 CdisIff CdisCodec1.
Import ListNotations. Open Scope Z_scope.

(** ** Options: codec.rs:95-160, dis-rs/src/variable_parameters.rs *)
(** the heartbeat parameters the codec uses: f32 bit patterns, in seconds *)
Record Heartbeats := MkHeartbeats {
  hb_cultural : Z; hb_environmental : Z; hb_expendable : Z; hb_life_form : Z; hb_munition : Z; hb_radio : Z; hb_sensor : Z; hb_supply : Z;
  hb_air : Z; hb_land : Z; hb_space : Z; hb_subsurface : Z; hb_surface : Z;
  hb_designator : Z; hb_ee : Z; hb_iff : Z; hb_transmitter : Z }.
Definition second : Z := 1000000000.
(** 5.0, 10.0, 2.0 and 2.4 as f32: variable_parameters.rs:147-175, codec.rs:29 *)
Definition f32_5 : Z := 1084227584.
Definition f32_10 : Z := 1092616192.
Definition f32_2 : Z := 1073741824.
Definition f32_2_4 : Z := 1075419546.
Definition default_heartbeats : Heartbeats :=
  MkHeartbeats f32_5 f32_5 f32_5 f32_5 f32_5 f32_5 f32_5 f32_5 f32_5 f32_5 f32_5 f32_5 f32_5 f32_5 f32_5 f32_10 f32_2.
(** [o_partial]: update_mode == PartialUpdate; [o_complete]: optimize_mode == Completeness; [o_mplier]: hbt_cdis_full_update_mplier, f32 bits *)
Record Options := MkOptions { o_partial : bool; o_complete : bool; o_hbt : Heartbeats; o_mplier : Z }.
(* codec.rs:112-128 *)
Definition new_full_update : Options := MkOptions false true default_heartbeats f32_2_4.
Definition new_partial_update : Options := MkOptions true true default_heartbeats f32_2_4.
(** std: Duration::as_secs_f32 of [d] nanoseconds: (secs as f32) + (nanos as f32) / (NANOS_PER_SEC as f32) *)
Definition as_secs_f32 (d : Z) : spec_float := sfadd (fz (d / second)) (sfdiv (fz (d mod second)) (fz second)).
(** [heartbeat.elapsed().as_secs_f32() > hbt * mplier]: entity_state/codec.rs:326-347, electromagnetic_emission/codec.rs:305-308, designator/codec.rs:222-225,
    transmitter/codec.rs:268-271, iff/codec.rs:84-87. Instant::elapsed is zero when the clock reading is not later. *)
Definition timed_out (o : Options) (hbt now heartbeat : Z) : bool :=
  SFltb (sfmul (sf_of_bits hbt) (sf_of_bits (o_mplier o))) (as_secs_f32 (Z.max 0 (now - heartbeat))).
(** [options.update_mode == PartialUpdate && state.is_some_and(|s| !timeout)] *)
Definition partial_ok (o : Options) (hbt now : Z) (st : option Z) : bool :=
  o_partial o && match st with Some hb => negb (timed_out o hbt now hb) | None => false end.

(** ** Common values *)
Definition zero_id : EntityId := MkEntityId (MkSimulationAddress 0 0) 0.
Definition zero_event : EventId := MkEventId (MkSimulationAddress 0 0) 0.
Definition zero_type : EntityType := MkEntityType 0 0 0 0 0 0 0.
Definition zero_vec : VectorF32 := MkVectorF32 0 0 0.
Definition zero_loc : Location := MkLocation 0 0 0.
Definition zero_orientation : Orientation := MkOrientation 0 0 0.
Definition sim_eqb (a b : SimulationAddress) : bool := (sa_site a =? sa_site b) && (sa_app a =? sa_app b).
Definition eid_eqb (a b : EntityId) : bool := sim_eqb (ei_addr a) (ei_addr b) && (ei_id a =? ei_id b).
Definition etype_eqb (a b : EntityType) : bool :=
  (et_kind a =? et_kind b) && (et_domain a =? et_domain b) && (et_country a =? et_country b) && (et_category a =? et_category b) &&
  (et_subcategory a =? et_subcategory b) && (et_specific a =? et_specific b) && (et_extra a =? et_extra b).
(** f32 [== 0.0]: both zeros *)
Definition f32_zero (b : Z) : bool := (b =? 0) || (b =? 2 ^ 31).
Definition vec_zero (v : VectorF32) : bool := f32_zero (v_1 v) && f32_zero (v_2 v) && f32_zero (v_3 v).
Definition some_nonzero (z : Z) : option Z := if z =? 0 then None else Some z.
Lemma sim_eqb_eq a b : sim_eqb a b = true <-> a = b.
Proof. destruct a as [a1 a2], b as [b1 b2]. unfold sim_eqb. cbn [sa_site sa_app]. rewrite andb_true_iff, !Z.eqb_eq. split; [intros [-> ->]; reflexivity|intros H; injection H as -> ->; auto]. Qed.
Lemma eid_eqb_eq a b : eid_eqb a b = true <-> a = b.
Proof. destruct a as [a1 a2], b as [b1 b2]. unfold eid_eqb. cbn [ei_addr ei_id]. rewrite andb_true_iff, sim_eqb_eq, Z.eqb_eq. split; [intros [-> ->]; reflexivity|intros H; injection H as -> ->; auto]. Qed.

(** Rust strings are octets in the DIS model and characters in the C-DIS model: [utf8_lossy] of valid UTF-8 and [utf8_encode] (Utf8.v) translate *)
(** ** Entity State: entity_state/codec.rs *)
(* codec.rs:316-347 *)
Definition es_heartbeat (o : Options) (t : EntityType) : Z :=
  let h := o_hbt o in let k := et_kind t in let d := et_domain t in
  if k =? 5 then hb_cultural h else if k =? 4 then hb_environmental h else if k =? 8 then hb_expendable h else if k =? 3 then hb_life_form h
  else if k =? 2 then hb_munition h else if k =? 7 then hb_radio h else if k =? 9 then hb_sensor h else if k =? 6 then hb_supply h
  else if k =? 1 then (if d =? 2 then hb_air h else if d =? 1 then hb_land h else if d =? 5 then hb_space h else if d =? 4 then hb_subsurface h
                       else if d =? 3 then hb_surface h else hb_air h)
  else hb_air h.
(* codec.rs:250-257 *)
Definition enc_es_velocity (alg : Z) (v : VectorF32) : option CLinearVelocity := if (alg =? 0) || (alg =? 1) then None else Some (enc_velocity v).
(* codec.rs:288-300 *)
Definition enc_dr_acceleration (alg : Z) (v : VectorF32) : option CLinearAcceleration :=
  if (alg =? 4) || (alg =? 5) || (alg =? 8) || (alg =? 9) then Some (enc_acceleration v) else None.
(* codec.rs:303-313 *)
Definition enc_dr_angular (alg : Z) (v : VectorF32) : option CAngularVelocity :=
  if (alg =? 3) || (alg =? 4) || (alg =? 7) || (alg =? 8) then Some (enc_angular v) else None.
(* entity_state/model.rs:136-145: From<&DrOtherParameters> for CdisDRParametersOther: the 15 octets as one big-endian number *)
Fixpoint of_octets (l : list Z) (acc : Z) : Z := match l with [] => acc | b :: t => of_octets t (acc * 256 + b) end.
Fixpoint octets_of (n : nat) (z : Z) : list Z := match n with O => [] | S k => octets_of k (z / 256) ++ [z mod 256] end.
Definition dr_other_value (d : DrOtherParameters) : Z := match w_dr_other d with WOk l _ => of_octets l 0 | WPanic => 0 end.
(* codec.rs:276-285 *)
Definition enc_dr_other (alg : Z) (d : DrOtherParameters) : option Z := if alg =? 0 then None else some_nonzero (dr_other_value d).
Definition zero_dr_other : DrOtherParameters := DrNone (repeat 0 15).
(* entity_state/model.rs:115-128: CdisDRParametersOther::decode *)
Definition dec_dr_other (alg v : Z) : DrOtherParameters := match p_dr_other alg (octets_of 15 v) with POk _ d => d | _ => zero_dr_other end.
(* codec.rs:260-273 *)
Definition enc_capabilities (o : Options) (c : EntityCapabilities) : option Z := if o_complete o then some_nonzero (ec_word c) else None.
(** EntityMarking::default (dis-rs common/entity_state/model.rs:170-177), and what the decoder builds *)
Definition default_marking : Marking := MkMarking 1 [77; 97; 114; 107; 105; 110; 103].
Definition dec_marking (c : CMarking) : Marking := MkMarking 1 (utf8_encode (cm_chars c)).
Definition default_appearance : EntityAppearance := MkAppearance AUnspecified 0.
Definition appearance_from_bytes (w : Z) (t : EntityType) : EntityAppearance := MkAppearance (appearance_kind (et_kind t) (et_domain t)) w.
(* codec.rs:104-170. None: the panic of CdisEntityMarking::new *)
Definition enc_es (g : Geo) (o : Options) (now : Z) (st : option Z) (x : EntityState) : option (CEntityState * bool) :=
  let dr := EntityState_dr x in
  let alg := dr_algorithm dr in
  let alt := if etype_eqb (EntityState_alternative_entity_type x) zero_type then None else Some (enc_etype (EntityState_alternative_entity_type x)) in
  let id := enc_eid (EntityState_entity_id x) in
  let vel := enc_es_velocity alg (EntityState_velocity x) in
  let oth := enc_dr_other alg (dr_other dr) in
  let acc := enc_dr_acceleration alg (dr_acceleration dr) in
  let ang := enc_dr_angular alg (dr_velocity dr) in
  let cap := enc_capabilities o (EntityState_capabilities x) in
  let vps := map enc_vp (EntityState_variable_parameters x) in
  if partial_ok o (es_heartbeat o (EntityState_entity_type x)) now st then
    Some (MkCEntityState 1 false id None None alt vel None None None alg oth acc ang None cap vps, false)
  else
    let (loc, units) := enc_world g (EntityState_location x) in
    match cmarking_new (utf8_lossy (mk_string (EntityState_marking x))) with
    | None => None
    | Some mk =>
        Some (MkCEntityState units true id (Some (EntityState_force_id x)) (Some (enc_etype (EntityState_entity_type x))) alt vel (Some loc)
                (Some (enc_orientation (EntityState_orientation x))) (Some (ea_word (EntityState_appearance x))) alg oth acc ang (Some mk) cap vps, o_partial o)
    end.
(** DecoderStateEntityState, without its heartbeat, which no code reads *)
Record DecES := MkDecES { ds_force : Z; ds_type : EntityType; ds_location : Location; ds_orientation : Orientation; ds_appearance : EntityAppearance; ds_marking : Marking }.
Definition default_DecES : DecES := MkDecES 0 zero_type zero_loc zero_orientation default_appearance default_marking.
(* codec.rs:172-247 *)
Definition dec_es (g : Geo) (o : Options) (st : option DecES) (x : CEntityState) : EntityState * bool :=
  let use_state := o_partial o && negb (CEntityState_full x) in
  let s := if use_state then unopt default_DecES st else default_DecES in
  let t := unopt (ds_type s) (option_map dec_etype (CEntityState_etype x)) in
  let alg := CEntityState_dr_algorithm x in
  (MkEntityState (dec_eid (CEntityState_id x)) (unopt (ds_force s) (CEntityState_force x)) t (unopt zero_type (option_map dec_etype (CEntityState_alt x)))
     (unopt zero_vec (option_map dec_velocity (CEntityState_velocity x)))
     (unopt (ds_location s) (option_map (fun c => dec_world g c (CEntityState_units x)) (CEntityState_location x)))
     (unopt (ds_orientation s) (option_map dec_orientation (CEntityState_orientation x)))
     (unopt (ds_appearance s) (option_map (fun w => appearance_from_bytes w t) (CEntityState_appearance x)))
     (MkDr alg (unopt zero_dr_other (option_map (dec_dr_other alg) (CEntityState_dr_other x)))
        (unopt zero_vec (option_map dec_acceleration (CEntityState_dr_acceleration x))) (unopt zero_vec (option_map dec_angular (CEntityState_dr_angular x))))
     (unopt (ds_marking s) (option_map dec_marking (CEntityState_marking x)))
     (capabilities_from_bytes (unopt 0 (CEntityState_capabilities x)) (et_kind t) (et_domain t)) (map dec_vp (CEntityState_vps x)),
   o_partial o && CEntityState_full x).
(* codec.rs:37-47, 76-87: and_modify leaves the marking alone *)
Definition upd_es (st : option DecES) (x : EntityState) : DecES :=
  MkDecES (EntityState_force_id x) (EntityState_entity_type x) (EntityState_location x) (EntityState_orientation x) (EntityState_appearance x)
    match st with Some s => ds_marking s | None => EntityState_marking x end.

(** ** Designator: designator/codec.rs *)
Definition f32_to_u32 (b : Z) : Z := unopt 0 (sf_from 0 (2 ^ 32 - 1) (sf_of_bits b)).
(* codec.rs:101-166, 222-225 *)
Definition enc_designator (g : Geo) (o : Options) (now : Z) (st : option Z) (x : Designator) : CDesignator * bool :=
  let des := if eid_eqb (Designator_designated_entity_id x) zero_id then None else Some (enc_eid (Designator_designated_entity_id x)) in
  let '(spot, eu) := if vec_zero (Designator_spot_wrt_designated_entity x) then (None, 0)
                     else let (v, u) := enc_ecv (Designator_spot_wrt_designated_entity x) in (Some v, u) in
  let alg := Designator_dead_reckoning_algorithm x in
  let acc := enc_dr_acceleration alg (Designator_linear_acceleration x) in
  let id := enc_eid (Designator_designating_entity_id x) in
  if partial_ok o (hb_designator (o_hbt o)) now st then (MkCDesignator (eu, 1) false id None des None None None spot None (Some alg) acc, false)
  else let (loc, wu) := enc_world g (Designator_spot_location x) in
       (MkCDesignator (eu, wu) true id (Some (Designator_system_name x)) des (Some (Designator_code x)) (Some (f32_to_u32 (Designator_power x)))
          (Some (f32_to_u32 (Designator_wavelength x))) spot (Some loc) (Some alg) acc, true).
Record DecDes := MkDecDes { dd_name : Z; dd_code : Z; dd_power : Z; dd_wavelength : Z; dd_location : Location }.
(* codec.rs:168-219 *)
Definition zero_cwc : CWorldCoordinates := MkCWorldCoordinates 0 0 0.
Definition zero_cecv : CEntityCoordinateVector := MkCEntityCoordinateVector 0 0 0.
Definition zero_ceid : CEntityId := MkCEntityId 0 0 0.
Definition zero_cacc : CLinearAcceleration := MkCLinearAcceleration 0 0 0.
Definition dec_designator (g : Geo) (st : option DecDes) (x : CDesignator) : Designator * bool :=
  let full := CDesignator_full x in
  let loc c := dec_world g c (snd (CDesignator_units x)) in
  let s := if full then MkDecDes 0 0 (f32_of_int 0) (f32_of_int 0) (loc zero_cwc) else unopt (MkDecDes 0 0 0 0 zero_loc) st in
  (MkDesignator (dec_eid (CDesignator_id x)) (unopt (dd_name s) (CDesignator_code_name x)) (dec_eid (unopt zero_ceid (CDesignator_designated x)))
     (unopt (dd_code s) (CDesignator_code x)) (unopt (dd_power s) (option_map f32_of_int (CDesignator_power x)))
     (unopt (dd_wavelength s) (option_map f32_of_int (CDesignator_wavelength x)))
     (dec_ecv (unopt zero_cecv (CDesignator_spot_entity x)) (fst (CDesignator_units x)))
     (unopt (dd_location s) (option_map loc (CDesignator_spot_location x)))
     (unopt 0 (CDesignator_dr_algorithm x)) (dec_acceleration (unopt zero_cacc (CDesignator_dr_acceleration x))), full).
(* codec.rs:39-50, 79-90 *)
Definition upd_designator (x : Designator) : DecDes :=
  MkDecDes (Designator_system_name x) (Designator_code x) (Designator_power x) (Designator_wavelength x) (Designator_spot_location x).

(** ** Transmitter: transmitter/codec.rs *)
(* transmitter/model.rs:244-272: From<&dis ModulationType> for ModulationType and back; the [as u8] casts *)
Definition enc_modulation (t : ModulationType) : CModulation :=
  MkCModulation (Z.shiftr (spread_to_u16 (mt_spread t)) 12) (fst (major_to_bytes (mt_major t)) mod 256) (snd (major_to_bytes (mt_major t)) mod 256) (mt_system t mod 256).
Definition dec_modulation (c : CModulation) : ModulationType :=
  MkModulationType (spread_from_u16 (Z.shiftl (CModulation_spread c) 12)) (major_from_bytes (CModulation_major c) (CModulation_detail c)) (CModulation_system c).
Definition enc_tx_frequency (f : Z) : CTxFrequency := let (a, e) := from_float 53 1024 24 4 0 (2 ^ 32 - 1) (df_of_int f) in MkCTxFrequency a e.
Definition dec_tx_frequency (c : CTxFrequency) : Z := sf_cast 0 (2 ^ 64 - 1) (to_float 53 1024 (CTxFrequency_mantissa c) (CTxFrequency_exponent c)).
Definition enc_tx_bandwidth (b : Z) : CTxBandwidth := let (a, e) := from_float 24 128 17 4 0 (2 ^ 32 - 1) (sf_of_bits b) in MkCTxBandwidth a e.
Definition dec_tx_bandwidth (c : CTxBandwidth) : Z := bits_of_sf (to_float 24 128 (CTxBandwidth_mantissa c) (CTxBandwidth_exponent c)).
(* codec.rs:273-289 *)
Definition enc_bap (b : BeamAntennaPattern) : CBeamAntennaPattern :=
  let a z := f32_as_i16 (sfmul (sf_of_bits z) orientation_scale) in
  MkCBeamAntennaPattern (a (or_psi (bap_direction b))) (a (or_theta (bap_direction b))) (a (or_phi (bap_direction b))) (a (bap_azimuth b)) (a (bap_elevation b))
    (bap_reference b) (f32_as_i16 (sf_of_bits (bap_ez b))) (f32_as_i16 (sf_of_bits (bap_ex b))) (a (bap_phase b)).
(* codec.rs:291-304 *)
Definition dec_bap (c : CBeamAntennaPattern) : BeamAntennaPattern :=
  MkBAP (MkOrientation (dec_angle (CBeamAntennaPattern_psi c)) (dec_angle (CBeamAntennaPattern_theta c)) (dec_angle (CBeamAntennaPattern_phi c)))
    (dec_angle (CBeamAntennaPattern_az c)) (dec_angle (CBeamAntennaPattern_el c)) (CBeamAntennaPattern_ref c)
    (f32_of_int (CBeamAntennaPattern_e_z c)) (f32_of_int (CBeamAntennaPattern_e_x c)) (dec_angle (CBeamAntennaPattern_phase c)).
Definition zero_bap : BeamAntennaPattern := MkBAP zero_orientation 0 0 0 0 0 0.
(* codec.rs:53-130, 268-271 *)
Definition enc_transmitter (g : Geo) (o : Options) (now : Z) (st : option Z) (x : Transmitter) : CTransmitter * bool :=
  let id := enc_eid (Transmitter_radio_reference_id x) in
  let sys := some_nonzero (Transmitter_crypto_system x) in
  let key := if Transmitter_crypto_system x =? 0 then None else Some (crypto_to_u16 (Transmitter_crypto_key_id x)) in
  let mp := unopt [] (Transmitter_modulation_parameters x) in
  let pt := option_map (fun _ => Transmitter_antenna_pattern_type x) (Transmitter_antenna_pattern x) in
  let pat := option_map enc_bap (Transmitter_antenna_pattern x) in
  if partial_ok o (hb_transmitter (o_hbt o)) now st then
    (MkCTransmitter (1, 0) false id (Transmitter_radio_number x) None (Transmitter_transmit_state x) (Transmitter_input_source x) None None pt None None None None
       sys key mp pat (Transmitter_vtps x), false)
  else
    let (loc, wu) := enc_world g (Transmitter_antenna_location x) in
    let (rel, eu) := enc_ecv (Transmitter_relative_antenna_location x) in
    (MkCTransmitter (wu, eu) true id (Transmitter_radio_number x) (Some (enc_etype (Transmitter_radio_type x))) (Transmitter_transmit_state x)
       (Transmitter_input_source x) (Some loc) (Some rel) pt (Some (enc_tx_frequency (Transmitter_frequency x))) (Some (enc_tx_bandwidth (Transmitter_bandwidth x)))
       (Some (sf_cast 0 255 (sf_of_bits (Transmitter_power x)))) (Some (enc_modulation (Transmitter_modulation_type x))) sys key mp pat (Transmitter_vtps x), true).
Record DecTx := MkDecTx { dt_type : EntityType; dt_location : Location; dt_frequency : Z; dt_bandwidth : Z; dt_power : Z; dt_modulation : ModulationType }.
Definition zero_modulation : ModulationType := MkModulationType (MkSpread false false false) MMNoStatement 0.
(* codec.rs:132-216 *)
Definition dec_transmitter (g : Geo) (o : Options) (st : option DecTx) (x : CTransmitter) : Transmitter * bool :=
  let use_state := o_partial o && negb (CTransmitter_full x) in
  let loc c := dec_world g c (fst (CTransmitter_units x)) in
  let rel c := dec_ecv c (snd (CTransmitter_units x)) in
  let s := if use_state then unopt (MkDecTx zero_type zero_loc 0 0 0 zero_modulation) st else MkDecTx zero_type (loc zero_cwc) 0 0 0 zero_modulation in
  (MkTransmitter (dec_eid (CTransmitter_radio x)) (CTransmitter_number x) (unopt (dt_type s) (option_map dec_etype (CTransmitter_rtype x)))
     (CTransmitter_state x) (CTransmitter_source x) (unopt (dt_location s) (option_map loc (CTransmitter_antenna x)))
     (unopt (if use_state then zero_vec else rel zero_cecv) (option_map rel (CTransmitter_relative x)))
     (unopt 0 (CTransmitter_ptype x)) (unopt (dt_frequency s) (option_map dec_tx_frequency (CTransmitter_frequency x)))
     (unopt (dt_bandwidth s) (option_map dec_tx_bandwidth (CTransmitter_bandwidth x))) (unopt (dt_power s) (option_map f32_of_int (CTransmitter_power x)))
     (unopt (dt_modulation s) (option_map dec_modulation (CTransmitter_modulation x))) (unopt 0 (CTransmitter_crypto x))
     (unopt (MkCryptoKeyId 0 false) (option_map crypto_from_u16 (CTransmitter_key x))) (Some (CTransmitter_modparams x))
     (Some (unopt zero_bap (option_map dec_bap (CTransmitter_pattern x)))) (CTransmitter_vtps x),
   o_partial o && CTransmitter_full x).
(* codec.rs:36-47, 231-243 *)
Definition upd_transmitter (x : Transmitter) : DecTx :=
  MkDecTx (Transmitter_radio_type x) (Transmitter_antenna_location x) (Transmitter_frequency x) (Transmitter_bandwidth x) (Transmitter_power x) (Transmitter_modulation_type x).

(** ** IFF: iff/codec.rs *)
(* codec.rs:88-96 *)
Definition event_zero (e : EventId) : bool := (ev_id e =? 0) && (sa_app (ev_addr e) =? 0) && (sa_site (ev_addr e) =? 0).
(* codec.rs:120-146. The decoder calls with_parameter_1 six times. *)
Definition enc_fod (d : FundOpData) : CFundOpData :=
  MkCFundOpData (fo_status d) (some_nonzero (fo_field1 d)) (fo_layers d) (some_nonzero (fo_field2 d)) (some_nonzero (fo_p1 d)) (some_nonzero (fo_p2 d))
    (some_nonzero (fo_p3 d)) (some_nonzero (fo_p4 d)) (some_nonzero (fo_p5 d)) (some_nonzero (fo_p6 d)).
Definition dec_fod (c : CFundOpData) : FundOpData :=
  MkFundOpData (cfo_status c) (unopt 0 (cfo_field1 c)) (cfo_layers c) (unopt 0 (cfo_field2 c)) (unopt 0 (cfo_p6 c)) 0 0 0 0 0.
(* codec.rs:364-393 *)
Definition f32_to_uint (hi b : Z) : Z := unopt 0 (sf_from 0 hi (sf_of_bits b)).
Definition enc_ip (p : IffParameter) : CIffParameter :=
  MkCIffParameter (f32_to_uint 255 (ip_erp p)) (enc_cff (ip_frequency p)) (f32_to_uint 65535 (ip_pgrf p)) (f32_to_uint 65535 (ip_pulse_width p))
    (f32_to_uint 65535 (ip_burst p)) (ip_modes p) (ip_s1 p) (ip_s2 p) (ip_s3 p).
Definition dec_ip (c : CIffParameter) : IffParameter :=
  MkIffParameter (f32_of_int (cip_erp c)) (dec_cff (cip_frequency c)) (f32_of_int (cip_pgrf c)) (f32_of_int (cip_pulse c)) (f32_of_int (cip_burst c))
    (cip_modes c) (cip_s1 c) (cip_s2 c) (cip_s3 c).
(* codec.rs:395-442; decoding a transponder sets the national origin twice and the navigation source never *)
Definition enc_m5 (d : Mode5BasicData) : CMode5BasicData :=
  match d with
  | M5Interrogator x => CM5Interrogator (MkCM5I (m5i_status x) (m5i_formats x) (enc_eid (m5i_entity x)))
  | M5Transponder x => CM5Transponder x
  end.
Definition dec_m5 (d : CMode5BasicData) : Mode5BasicData :=
  match d with
  | CM5Interrogator x => M5Interrogator (MkM5I (cm5i_status x) (cm5i_formats x) (dec_eid (cm5i_entity x)))
  | CM5Transponder x => M5Transponder (MkM5T (m5t_status x) (m5t_pin x) (m5t_formats x) (m5t_mode1 x) (m5t_origin x) (m5t_supplemental x) 0 (m5t_merit x))
  end.
(** encode_layer_header_with_length, decode_layer_header_with_length: records/codec.rs:138-155; the lengths are the C-DIS bit length and the DIS octet length
    (simplification: the u16 sums of data_length() wrap, as in a release build) *)
Definition enc_lh (h : LayerHeader) (n : Z) : CLayerHeader := MkCLayerHeader (lh_number h) (lh_specific h) (n mod 65536).
Definition dec_lh (h : CLayerHeader) (n : Z) : LayerHeader := MkLayerHeader (clh_number h) (clh_info h) (n mod 65536).
Definition no_clh : CLayerHeader := MkCLayerHeader 0 0 0.
Definition no_lh : LayerHeader := MkLayerHeader 0 0 0.
(* codec.rs:221-249 *)
Definition enc_l2 (l : IffLayer2) : CIffLayer2 :=
  let b h := MkCIffLayer2 h (enc_beam (l2_beam l)) (l2_op1 l) (l2_op2 l) (map enc_ip (l2_params l)) in b (enc_lh (l2_header l) (len_cl2 (b no_clh))).
Definition dec_l2 (c : CIffLayer2) : IffLayer2 :=
  let b h := MkIffLayer2 h (dec_beam (cl2_beam c)) (cl2_op1 c) (cl2_op2 c) (map dec_ip (cl2_params c)) in b (dec_lh (cl2_header c) (size_l2 (b no_lh))).
(* codec.rs:251-285; model.rs:147-150: 26 octets and the data specification *)
Definition enc_l3 (l : IffLayer3) : CIffLayer3 :=
  let b h := MkCIffLayer3 h (sa_site (l3_sim l)) (sa_app (l3_sim l)) (enc_m5 (l3_basic l)) (l3_records l) in b (enc_lh (l3_header l) (len_cl3 (b no_clh))).
Definition dec_l3 (c : CIffLayer3) : IffLayer3 :=
  let b h := MkIffLayer3 h (MkSimulationAddress (cl3_site c) (cl3_app c)) (dec_m5 (cl3_basic c)) (cl3_records c) in b (dec_lh (cl3_header c) (size_l3 (b no_lh))).
(* codec.rs:287-321; model.rs:207-210 *)
Definition enc_l4 (l : IffLayer4) : CIffLayer4 :=
  let b h := MkCIffLayer4 h (sa_site (l4_sim l)) (sa_app (l4_sim l)) (l4_basic l) (l4_records l) in b (enc_lh (l4_header l) (len_cl4 (b no_clh))).
Definition dec_l4 (c : CIffLayer4) : IffLayer4 :=
  MkIffLayer4 (dec_lh (cl4_header c) (34 + size_idrs (cl4_records c))) (MkSimulationAddress (cl4_site c) (cl4_app c)) (cl4_basic c) (cl4_records c).
(* codec.rs:323-359; model.rs:269-272 *)
Definition enc_l5 (l : IffLayer5) : CIffLayer5 :=
  let b h := MkCIffLayer5 h (sa_site (l5_sim l)) (sa_app (l5_sim l)) (l5_layers l) (l5_category l) (l5_records l) in b (enc_lh (l5_header l) (len_cl5 (b no_clh))).
Definition dec_l5 (c : CIffLayer5) : IffLayer5 :=
  let b h := MkIffLayer5 h (MkSimulationAddress (cl5_site c) (cl5_app c)) (cl5_layers c) (cl5_category c) (cl5_records c) in b (dec_lh (cl5_header c) (size_l5 (b no_lh))).
(* codec.rs:149-186, 84-87 *)
Definition enc_iff (o : Options) (now : Z) (st : option Z) (x : Iff) : CIff * bool :=
  let partial := partial_ok o (hb_iff (o_hbt o)) now st in
  let '(ant, units) := if vec_zero (Iff_antenna x) then (None, 0) else let (v, u) := enc_ecv (Iff_antenna x) in (Some v, u) in
  (MkCIff units false (enc_eid (Iff_emitting_entity_id x)) (if event_zero (Iff_event_id x) then None else Some (enc_event (Iff_event_id x))) ant
     (if partial then None else Some (Iff_system_id x)) (Iff_designator x) (some_nonzero (Iff_specific x)) (enc_fod (Iff_data x))
     (option_map enc_l2 (Iff_layer_2 x)) (option_map enc_l3 (Iff_layer_3 x)) (option_map enc_l4 (Iff_layer_4 x)) (option_map enc_l5 (Iff_layer_5 x)),
   negb partial).
Definition zero_system : SystemId := MkSystemId 0 0 0 0.
(* codec.rs:188-218 *)
Definition dec_iff (o : Options) (st : option SystemId) (x : CIff) : Iff * bool :=
  let s := if o_partial o && negb (CIff_full x) then unopt zero_system st else zero_system in
  (MkIff (dec_eid (CIff_emitting x)) (unopt zero_event (option_map dec_event (CIff_event x)))
     (unopt zero_vec (option_map (fun v => dec_ecv v (CIff_units x)) (CIff_antenna x))) (unopt s (CIff_system x)) (CIff_designator x) (unopt 0 (CIff_specific x))
     (dec_fod (CIff_data x)) (option_map dec_l2 (CIff_layer2 x)) (option_map dec_l3 (CIff_layer3 x)) (option_map dec_l4 (CIff_layer4 x)) (option_map dec_l5 (CIff_layer5 x)),
   o_partial o && CIff_full x).
(* codec.rs:37-43: and_modify only touches the heartbeat *)
Definition upd_iff (st : option SystemId) (x : Iff) : SystemId := unopt (Iff_system_id x) st.
