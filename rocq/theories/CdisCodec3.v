(** * Translation between DIS and C-DIS: electromagnetic emission, and whole PDUs with the codec state

    Models cdis-assemble/src/electromagnetic_emission/codec.rs and codec.rs. The simplifications of CdisCodec2.v apply. Maps are functions from keys. *)
From Coq Require Import ZArith List Lia Bool SpecFloat.
From Verif Require Import Base CdisBase DisCommon DisHeader DisLists DisSimman DisLogistics DisWarfare DisEntity DisEmission DisRadio DisIff DisText DisPdu DisPacket
  CdisRecords CdisBodies1 CdisBodies2 CdisIff CdisPdu CdisCodec1 CdisCodec2.
Import ListNotations. Open Scope Z_scope.

(** ** Electromagnetic Emission *)
(* electromagnetic_emission/model.rs:160-190: 14 bits, u16; 3 bits, i8 *)
Definition enc_pulse (b : Z) : CPulseWidth := let (a, e) := from_float 24 128 14 3 0 65535 (sf_of_bits b) in MkCPulseWidth a e.
Definition dec_pulse (c : CPulseWidth) : Z := bits_of_sf (to_float 24 128 (CPulseWidth_mantissa c) (CPulseWidth_exponent c)).
(* electromagnetic_emission/codec.rs:705-727 *)
Definition enc_fp (d : FundamentalParameterData) : CFundamentalParameter :=
  MkCFundamentalParameter (enc_cff (fp_frequency d)) (enc_cff (fp_range d)) (f32_to_uint 255 (fp_power d)) (f32_to_uint 65535 (fp_prf d)) (enc_pulse (fp_width d)).
Definition dec_fp (c : CFundamentalParameter) : FundamentalParameterData :=
  MkFPD (dec_cff (CFundamentalParameter_frequency c)) (dec_cff (CFundamentalParameter_range c)) (f32_of_int (CFundamentalParameter_erp c))
    (f32_of_int (CFundamentalParameter_prf c)) (dec_pulse (CFundamentalParameter_pulse c)).
Definition zero_fpd : FundamentalParameterData := MkFPD 0 0 0 0 0.
Definition zero_bd : BeamData := MkBeamData 0 0 0 0 0.
Definition zero_cff : CFrequencyFloat := MkCFrequencyFloat 0 0.
Definition zero_cfp : CFundamentalParameter := MkCFundamentalParameter zero_cff zero_cff 0 0 (MkCPulseWidth 0 0).
Definition zero_cbd : CBeamData := MkCBeamData 0 0 0 0 0.
(** PartialEq of f32: a NaN differs from itself, the zeros are equal *)
Definition f32_eq (a b : Z) : bool := SFeqb (sf_of_bits a) (sf_of_bits b).
Definition fpd_eq (a b : FundamentalParameterData) : bool :=
  f32_eq (fp_frequency a) (fp_frequency b) && f32_eq (fp_range a) (fp_range b) && f32_eq (fp_power a) (fp_power b) && f32_eq (fp_prf a) (fp_prf b) &&
  f32_eq (fp_width a) (fp_width b).
Definition bd_eq (a b : BeamData) : bool :=
  f32_eq (bd_azc a) (bd_azc b) && f32_eq (bd_azs a) (bd_azs b) && f32_eq (bd_elc a) (bd_elc b) &&
  f32_eq (bd_els a) (bd_els b) && f32_eq (bd_sync a) (bd_sync b).
(** derived Ord: lexicographic in the fields; a variable-length integer is ordered by its size, then by its value *)
Definition cff_key (c : CFrequencyFloat) : list Z := [CFrequencyFloat_mantissa c; CFrequencyFloat_exponent c].
Definition cfp_key (c : CFundamentalParameter) : list Z :=
  cff_key (CFundamentalParameter_frequency c) ++ cff_key (CFundamentalParameter_range c) ++
  [CFundamentalParameter_erp c; CFundamentalParameter_prf c; CPulseWidth_mantissa (CFundamentalParameter_pulse c); CPulseWidth_exponent (CFundamentalParameter_pulse c)].
Definition cbd_key (c : CBeamData) : list Z :=
  [len_svint13 (cbd_az_center c); cbd_az_center c; len_svint13 (cbd_az_sweep c); cbd_az_sweep c; len_svint13 (cbd_el_center c); cbd_el_center c;
   len_svint13 (cbd_el_sweep c); cbd_el_sweep c; cbd_sync c].
Definition csa_key (c : CSiteApp) : list Z := [CSiteApp_site c; CSiteApp_app c].
Fixpoint lex_le (a b : list Z) : bool :=
  match a, b with
  | [], _ => true
  | _, [] => false
  | x :: a', y :: b' => (x <? y) || ((x =? y) && lex_le a' b')
  end.
Fixpoint key_eq (a b : list Z) : bool := match a, b with [], [] => true | x :: a', y :: b' => (x =? y) && key_eq a' b' | _, _ => false end.
(** Vec::sort, Vec::dedup *)
Fixpoint insert_by {A} (key : A -> list Z) (x : A) (l : list A) : list A :=
  match l with [] => [x] | y :: t => if lex_le (key x) (key y) then x :: l else y :: insert_by key x t end.
Definition sort_by {A} (key : A -> list Z) (l : list A) : list A := fold_right (insert_by key) [] l.
Fixpoint dedup {A} (key : A -> list Z) (l : list A) : list A :=
  match l with
  | [] => []
  | x :: t => match dedup key t with [] => [x] | y :: r => if key_eq (key x) (key y) then x :: r else x :: y :: r end
  end.
Definition sort_dedup {A} (key : A -> list Z) (l : list A) : list A := dedup key (sort_by key l).
(** find_*_index, electromagnetic_emission/codec.rs:341-346, 378-383, 404-409 *)
Fixpoint find_index {A} (key : A -> list Z) (x : A) (l : list A) (i : Z) : option Z :=
  match l with [] => None | y :: t => if key_eq (key y) (key x) then Some i else find_index key x t (i + 1) end.

(** every beam with its system's number, as set_*_encoder_state visits them, electromagnetic_emission/codec.rs:42-69 *)
Definition beams_of (x : ElectromagneticEmission) : list (Z * Beam) := flat_map (fun s => map (fun b => (es_number s, b)) (es_beams s)) (EE_systems x).
(** HashMap::insert in order: the last one with the key stays *)
Fixpoint last_match {A} (f : A -> bool) (l : list A) : option A :=
  match l with [] => None | a :: t => match last_match f t with Some b => Some b | None => if f a then Some a else None end end.
Definition beam_at (x : ElectromagneticEmission) (s b : Z) : option Beam :=
  option_map snd (last_match (fun p => (fst p =? s) && (be_number (snd p) =? b)) (beams_of x)).
Definition system_at (x : ElectromagneticEmission) (s : Z) : option EmitterSystem := last_match (fun e => es_number e =? s) (EE_systems x).
(** EncoderStateElectromagneticEmission, electromagnetic_emission/codec.rs:103-123, 27-36: the heartbeat and the two maps, which are functions of the last body sent in full *)
Record EncEE := MkEncEE { ee_heartbeat : Z; ee_params : Z -> Z -> option FundamentalParameterData; ee_beams : Z -> Z -> option BeamData }.
Definition upd_enc_ee (now : Z) (x : ElectromagneticEmission) : EncEE :=
  MkEncEE now (fun s b => option_map be_parameters (beam_at x s b)) (fun s b => option_map be_data (beam_at x s b)).
(* construct_*_list_full, _partial, construct_site_app_pairs_list, electromagnetic_emission/codec.rs:310-402 *)
Definition full_params (x : ElectromagneticEmission) : list CFundamentalParameter := sort_dedup cfp_key (map (fun p => enc_fp (be_parameters (snd p))) (beams_of x)).
Definition full_beams (x : ElectromagneticEmission) : list CBeamData := sort_dedup cbd_key (map (fun p => enc_beam (be_data (snd p))) (beams_of x)).
Definition changed_params (st : EncEE) (x : ElectromagneticEmission) : list CFundamentalParameter :=
  sort_dedup cfp_key (map (fun p => enc_fp (be_parameters (snd p)))
    (filter (fun p => match ee_params st (fst p) (be_number (snd p)) with Some d => negb (fpd_eq d (be_parameters (snd p))) | None => false end) (beams_of x))).
Definition changed_beams (st : EncEE) (x : ElectromagneticEmission) : list CBeamData :=
  sort_dedup cbd_key (map (fun p => enc_beam (be_data (snd p)))
    (filter (fun p => match ee_beams st (fst p) (be_number (snd p)) with Some d => negb (bd_eq d (be_data (snd p))) | None => false end) (beams_of x))).
Definition pair_of (a : SimulationAddress) : CSiteApp := MkCSiteApp (sa_site a) (sa_app a).
Definition site_pairs (x : ElectromagneticEmission) : list CSiteApp :=
  sort_dedup csa_key (flat_map (fun p => map (fun t => pair_of (ei_addr (tj_entity t))) (be_tracks (snd p))) (beams_of x)).
(** the [as u8] of an index *)
Definition as_u8 (z : Z) : Z := z mod 256.
(* impl TrackJam, electromagnetic_emission/codec.rs:652-703 *)
Definition enc_tj (full : bool) (sites : list CSiteApp) (t : TrackJam) : CTrackJam :=
  MkCTrackJam (as_u8 (unopt 0 (find_index csa_key (pair_of (ei_addr (tj_entity t))) sites 0))) (ei_id (tj_entity t))
    (if full then Some (tj_emitter t) else None) (if full then Some (tj_beam t) else None).
Definition dec_tj (sites : list CSiteApp) (c : CTrackJam) : TrackJam :=
  MkTrackJam (MkEntityId match nth_error sites (Z.to_nat (ctj_index c)) with Some p => MkSimulationAddress (CSiteApp_site p) (CSiteApp_app p) | None => MkSimulationAddress 0 0 end
    (ctj_entity c)) (unopt 0 (ctj_emitter c)) (unopt 0 (ctj_beam c)).
(* impl EmitterBeam, electromagnetic_emission/codec.rs:494-565; MAX_TRACK_JAM_NUMBER_OF_TARGETS is 15; BeamStatusBeamState Active is 0, Deactivated 1; HighDensityTrackJam Selected is 1 *)
Definition enc_eb (full : bool) (ps : list CFundamentalParameter) (bs : list CBeamData) (sites : list CSiteApp) (b : Beam) : CEmitterBeam :=
  let pi := find_index cfp_key (enc_fp (be_parameters b)) ps 0 in
  let bi := find_index cbd_key (enc_beam (be_data b)) bs 0 in
  let many := 15 <? zlen (be_tracks b) in
  let jam z := if full then Some z else None in
  let j := be_technique b in
  MkCEmitterBeam (be_number b) (be_index b) (if full then Some (as_u8 (unopt 0 pi)) else option_map as_u8 pi) (if full then Some (as_u8 (unopt 0 bi)) else option_map as_u8 bi)
    (be_function b) (if many then 1 else be_high_density b) (be_status b =? 0)
    (jam (jt_kind j)) (jam (jt_category j)) (jam (jt_subcategory j)) (jam (jt_specific j)) (if many then [] else map (enc_tj full sites) (be_tracks b)).
(** DecoderStateElectromagneticEmission, electromagnetic_emission/codec.rs:145-169, 79-86 *)
Record DecEE := MkDecEE { de_params : Z -> Z -> option FundamentalParameterData; de_beams : Z -> Z -> option BeamData; de_fields : Z -> option (Z * Z * VectorF32) }.
Definition upd_dec_ee (x : ElectromagneticEmission) : DecEE :=
  MkDecEE (fun s b => option_map be_parameters (beam_at x s b)) (fun s b => option_map be_data (beam_at x s b))
    (fun s => option_map (fun e => (es_name e, es_function e, es_location e)) (system_at x s)).
(** [use]: decode_partial_update; otherwise decode_full_update, electromagnetic_emission/codec.rs:567-650 *)
Definition dec_eb (use : bool) (st : option DecEE) (sys : Z) (ps : list CFundamentalParameter) (bs : list CBeamData) (sites : list CSiteApp) (c : CEmitterBeam) : Beam :=
  let fp := match ceb_fp_index c with
            | Some i => dec_fp (nth (Z.to_nat i) ps zero_cfp)
            | None => unopt zero_fpd (if use then match st with Some s => de_params s sys (ceb_id c) | None => None end else None)
            end in
  let bd := match ceb_bd_index c with
            | Some i => dec_beam (nth (Z.to_nat i) bs zero_cbd)
            | None => unopt zero_bd (if use then match st with Some s => de_beams s sys (ceb_id c) | None => None end else None)
            end in
  MkBeam (ceb_id c) (ceb_param c) fp bd (ceb_function c) (ceb_density c) (if ceb_status c then 0 else 1)
    (MkJamming (unopt 0 (ceb_kind c)) (unopt 0 (ceb_category c)) (unopt 0 (ceb_subcategory c)) (unopt 0 (ceb_specific c))) (map (dec_tj sites) (ceb_tracks c)).
(* impl EmitterSystem, electromagnetic_emission/codec.rs:411-492; encode_entity_coordinate_vector_meters, records/codec.rs:278-284 *)
Definition enc_ecv_m (v : VectorF32) : CEntityCoordinateVector := MkCEntityCoordinateVector (enc_component 1 (v_1 v)) (enc_component 1 (v_2 v)) (enc_component 1 (v_3 v)).
Definition enc_esys (full : bool) (ps : list CFundamentalParameter) (bs : list CBeamData) (sites : list CSiteApp) (e : EmitterSystem) : CEmitterSystem :=
  MkCEmitterSystem (if full then Some (es_name e) else None) (if full then Some (es_function e) else None) (es_number e)
    (if full then Some (enc_ecv_m (es_location e)) else None) (map (enc_eb full ps bs sites) (es_beams e)).
Definition dec_esys (use : bool) (st : option DecEE) (ps : list CFundamentalParameter) (bs : list CBeamData) (sites : list CSiteApp) (c : CEmitterSystem) : EmitterSystem :=
  let '(n, f, l) := unopt (0, 0, zero_vec) (if use then match st with Some s => de_fields s (cesy_number c) | None => None end else None) in
  MkEmitterSystem (unopt n (cesy_name c)) (unopt f (cesy_function c)) (cesy_number c) (unopt l (option_map (fun v => dec_ecv v 1) (cesy_location c)))
    (map (dec_eb use st (cesy_number c) ps bs sites) (cesy_beams c)).
(* impl ElectromagneticEmission, encode; evaluate_timeout_for_ee, electromagnetic_emission/codec.rs:190-250, 305-308 *)
Definition enc_ee (o : Options) (now : Z) (st : option EncEE) (x : ElectromagneticEmission) : CEmission * bool :=
  let sites := site_pairs x in
  let body full ps bs := MkCEmission full (enc_eid (EE_emitting_entity_id x)) (enc_event (EE_event_id x)) (EE_state_update x) ps bs sites
                           (map (enc_esys full ps bs sites) (EE_systems x)) in
  match (if partial_ok o (hb_ee (o_hbt o)) now (option_map ee_heartbeat st) then st else None) with
  | Some s => (body false (changed_params s x) (changed_beams s x), false)
  | None => (body true (full_params x) (full_beams x), o_partial o)
  end.
(* decode, electromagnetic_emission/codec.rs:252-303 *)
Definition dec_ee (o : Options) (st : option DecEE) (x : CEmission) : ElectromagneticEmission * bool :=
  let use := o_partial o && negb (CEmission_full x) in
  (MkEE (dec_eid (CEmission_id x)) (dec_event (CEmission_event x)) (CEmission_sui x)
     (map (dec_esys use st (CEmission_params x) (CEmission_beams x) (CEmission_sites x)) (CEmission_systems x)), o_partial o && CEmission_full x).

(** ** Codec state: codec.rs:50-100 *)
Definition radio_key := (EntityId * Z)%type.
Definition radio_eqb (a b : radio_key) : bool := eid_eqb (fst a) (fst b) && (snd a =? snd b).
(** HashMap::insert *)
Definition put_at {K V} (eqb : K -> K -> bool) (k : K) (v : V) (f : K -> option V) : K -> option V := fun k' => if eqb k k' then Some v else f k'.
Record EncState := MkEncState { en_es : EntityId -> option Z; en_ee : EntityId -> option EncEE; en_des : EntityId -> option Z; en_tx : radio_key -> option Z; en_iff : EntityId -> option Z }.
Definition enc_state_new : EncState := MkEncState (fun _ => None) (fun _ => None) (fun _ => None) (fun _ => None) (fun _ => None).
Record DecState := MkDecState { dn_es : EntityId -> option DecES; dn_ee : EntityId -> option DecEE; dn_des : EntityId -> option DecDes; dn_tx : radio_key -> option DecTx; dn_iff : EntityId -> option SystemId }.
Definition dec_state_new : DecState := MkDecState (fun _ => None) (fun _ => None) (fun _ => None) (fun _ => None) (fun _ => None).

(** CodecStateResult, codec.rs:145-154 *)
Inductive StateResult := StateUnaffected | StateUpdateEntityState | StateUpdateElectromagneticEmission | StateUpdateDesignator | StateUpdateTransmitter | StateUpdateIff.

(** CdisBody::encode, codec.rs:183-268, with the encode_*_and_update_state functions; None is a panic *)
Definition enc_body (g : Geo) (o : Options) (now : Z) (st : EncState) (b : PduBody) : option (CBody * StateResult * EncState) :=
  let plain c := Some (c, StateUnaffected, st) in
  match b with
  | BEntityState x =>
      let k := EntityState_entity_id x in
      match enc_es g o now (en_es st k) x with
      | None => None
      | Some (c, u) => Some (CBEntityState c, if u then StateUpdateEntityState else StateUnaffected,
                             if u then MkEncState (put_at eid_eqb k now (en_es st)) (en_ee st) (en_des st) (en_tx st) (en_iff st) else st)
      end
  | BElectromagneticEmission x =>
      let k := EE_emitting_entity_id x in let (c, u) := enc_ee o now (en_ee st k) x in
      Some (CBEmission c, if u then StateUpdateElectromagneticEmission else StateUnaffected,
            if u then MkEncState (en_es st) (put_at eid_eqb k (upd_enc_ee now x) (en_ee st)) (en_des st) (en_tx st) (en_iff st) else st)
  | BDesignator x =>
      let k := Designator_designating_entity_id x in let (c, u) := enc_designator g o now (en_des st k) x in
      Some (CBDesignator c, if u then StateUpdateDesignator else StateUnaffected,
            if u then MkEncState (en_es st) (en_ee st) (put_at eid_eqb k now (en_des st)) (en_tx st) (en_iff st) else st)
  | BTransmitter x =>
      let k := (Transmitter_radio_reference_id x, Transmitter_radio_number x) in let (c, u) := enc_transmitter g o now (en_tx st k) x in
      Some (CBTransmitter c, if u then StateUpdateTransmitter else StateUnaffected,
            if u then MkEncState (en_es st) (en_ee st) (en_des st) (put_at radio_eqb k now (en_tx st)) (en_iff st) else st)
  | BIff x =>
      let k := Iff_emitting_entity_id x in let (c, u) := enc_iff o now (en_iff st k) x in
      Some (CBIff c, if u then StateUpdateIff else StateUnaffected,
            if u then MkEncState (en_es st) (en_ee st) (en_des st) (en_tx st) (put_at eid_eqb k now (en_iff st)) else st)
  | BFire x => plain (CBFire (enc_fire g x))
  | BDetonation x => plain (CBDetonation (enc_detonation g x))
  | BCollision x => plain (CBCollision (enc_collision x))
  | BCreateEntity x => plain (CBCreateEntity (enc_create x))
  | BRemoveEntity x => plain (CBRemoveEntity (enc_remove x))
  | BStartResume x => plain (CBStartResume (enc_start x))
  | BStopFreeze x => plain (CBStopFreeze (enc_stop x))
  | BAcknowledge x => plain (CBAcknowledge (enc_ack x))
  | BActionRequest x => plain (CBActionRequest (enc_actreq x))
  | BActionResponse x => plain (CBActionResponse (enc_actresp x))
  | BDataQuery x => plain (CBDataQuery (enc_query x))
  | BSetData x => plain (CBSetData (enc_setdata x))
  | BData x => plain (CBData (enc_data x))
  | BEventReport x => plain (CBEventReport (enc_report x))
  | BComment x => plain (CBComment (enc_comment x))
  | BSignal x => plain (CBSignal (enc_signal x))
  | BReceiver x => plain (CBReceiver (enc_receiver x))
  | _ => plain CBUnsupported
  end.
(** CdisPdu::encode, codec.rs:157-166 *)
Definition encode (g : Geo) (o : Options) (now : Z) (st : EncState) (p : Pdu) : option (CPdu * StateResult * EncState) :=
  match enc_body g o now st (pdu_body p) with
  | None => None
  | Some (b, r, st') => Some (cfinalize (enc_header (pdu_header p)) b None, r, st')
  end.

(** CdisBody::decode, codec.rs:270-345, with the decode_*_and_update_state functions *)
Definition dec_body (g : Geo) (o : Options) (st : DecState) (b : CBody) : PduBody * StateResult * DecState :=
  let plain d := (d, StateUnaffected, st) in
  match b with
  | CBUnsupported => plain (BOther (MkOther None None []))
  | CBEntityState x =>
      let k := dec_eid (CEntityState_id x) in let (d, u) := dec_es g o (dn_es st k) x in
      (BEntityState d, if u then StateUpdateEntityState else StateUnaffected,
       if u then MkDecState (put_at eid_eqb k (upd_es (dn_es st k) d) (dn_es st)) (dn_ee st) (dn_des st) (dn_tx st) (dn_iff st) else st)
  | CBEmission x =>
      let k := dec_eid (CEmission_id x) in let (d, u) := dec_ee o (dn_ee st k) x in
      (BElectromagneticEmission d, if u then StateUpdateElectromagneticEmission else StateUnaffected,
       if u then MkDecState (dn_es st) (put_at eid_eqb k (upd_dec_ee d) (dn_ee st)) (dn_des st) (dn_tx st) (dn_iff st) else st)
  | CBDesignator x =>
      let k := dec_eid (CDesignator_id x) in let (d, u) := dec_designator g (dn_des st k) x in
      (BDesignator d, if u then StateUpdateDesignator else StateUnaffected,
       if u then MkDecState (dn_es st) (dn_ee st) (put_at eid_eqb k (upd_designator d) (dn_des st)) (dn_tx st) (dn_iff st) else st)
  | CBTransmitter x =>
      let k := (dec_eid (CTransmitter_radio x), CTransmitter_number x) in let (d, u) := dec_transmitter g o (dn_tx st k) x in
      (BTransmitter d, if u then StateUpdateTransmitter else StateUnaffected,
       if u then MkDecState (dn_es st) (dn_ee st) (dn_des st) (put_at radio_eqb k (upd_transmitter d) (dn_tx st)) (dn_iff st) else st)
  | CBIff x =>
      let k := dec_eid (CIff_emitting x) in let (d, u) := dec_iff o (dn_iff st k) x in
      (BIff d, if u then StateUpdateIff else StateUnaffected,
       if u then MkDecState (dn_es st) (dn_ee st) (dn_des st) (dn_tx st) (put_at eid_eqb k (upd_iff (dn_iff st k) d) (dn_iff st)) else st)
  | CBFire x => plain (BFire (dec_fire g x))
  | CBDetonation x => plain (BDetonation (dec_detonation g x))
  | CBCollision x => plain (BCollision (dec_collision x))
  | CBCreateEntity x => plain (BCreateEntity (dec_create x))
  | CBRemoveEntity x => plain (BRemoveEntity (dec_remove x))
  | CBStartResume x => plain (BStartResume (dec_start x))
  | CBStopFreeze x => plain (BStopFreeze (dec_stop x))
  | CBAcknowledge x => plain (BAcknowledge (dec_ack x))
  | CBActionRequest x => plain (BActionRequest (dec_actreq x))
  | CBActionResponse x => plain (BActionResponse (dec_actresp x))
  | CBDataQuery x => plain (BDataQuery (dec_query x))
  | CBSetData x => plain (BSetData (dec_setdata x))
  | CBData x => plain (BData (dec_data x))
  | CBEventReport x => plain (BEventReport (dec_report x))
  | CBComment x => plain (BComment (dec_comment x))
  | CBSignal x => plain (BSignal (dec_signal x))
  | CBReceiver x => plain (BReceiver (dec_receiver x))
  end.
(** CdisPdu::decode, codec.rs:168-178; the panic is an overflow of the DIS length computation, in a checked build *)
Definition decode (m : mode) (g : Geo) (o : Options) (st : DecState) (p : CPdu) : W (Pdu * StateResult * DecState) :=
  let h := dec_header (cp_header p) in
  let '(b, r, st') := dec_body g o st (cp_body p) in
  (q <- finalize m h b (h_time h);; wret (q, r, st'))%write.

(** A history: one codec handles PDU after PDU, and stops at a panic. The encoder's come with the time each is handled. *)
Fixpoint run {S I O : Type} (step : S -> I -> option (O * S)) (st : S) (l : list I) : option (list O * S) :=
  match l with
  | [] => Some ([], st)
  | i :: t => match step st i with
              | None => None
              | Some (c, st') => match run step st' t with None => None | Some (cs, st'') => Some (c :: cs, st'') end
              end
  end.
Definition encode_step (g : Geo) (o : Options) (st : EncState) (i : Z * Pdu) : option (CPdu * EncState) :=
  match encode g o (fst i) st (snd i) with Some (c, _, st') => Some (c, st') | None => None end.
Definition decode_step (m : mode) (g : Geo) (o : Options) (st : DecState) (c : CPdu) : option (Pdu * DecState) :=
  match decode m g o st c with WOk _ (p, _, st') => Some (p, st') | WPanic => None end.
Definition encode_all (g : Geo) (o : Options) (l : list (Z * Pdu)) : option (list CPdu * EncState) := run (encode_step g o) enc_state_new l.
Definition decode_all (m : mode) (g : Geo) (o : Options) (l : list CPdu) : option (list Pdu * DecState) := run (decode_step m g o) dec_state_new l.
