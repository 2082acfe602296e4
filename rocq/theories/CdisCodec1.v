(** * Translation between DIS and C-DIS: numbers, records, stateless PDU bodies

    Models cdis-assemble/src/records/codec.rs and the codec.rs of the stateless PDU bodies. Each codec is a pair [enc_*] (DIS to C-DIS) and
    [dec_*] (C-DIS to DIS). Floats are bit patterns and their arithmetic is SpecFloat's IEEE 754 arithmetic, at precision 24 (f32) and 53 (f64). The two
    geodesy functions of dis-rs (utils.rs: ecef_to_geodetic_lla, geodetic_lla_to_ecef) use trigonometry and are not modelled: they are an argument
    [g : Geo] of every codec that calls them, so that every theorem holds for whatever they compute. *)
From Coq Require Import ZArith List Lia Bool SpecFloat.
From Verif Require Import Base CdisBase DisCommon DisHeader DisLists DisSimman DisLogistics DisWarfare DisText DisPacket CdisRecords CdisBodies1.
Import ListNotations. Open Scope Z_scope.

(** ** Floats *)
(** f64, as CdisRecords.sf_of_bits and bits_of_sf for f32 *)
Definition df_of_bits (b : Z) : spec_float :=
  let s := 2 ^ 63 <=? b in let e := (b / 2 ^ 52) mod 2048 in let k := b mod 2 ^ 52 in
  if e =? 2047 then (if k =? 0 then S754_infinity s else S754_nan)
  else if e =? 0 then match k with Zpos p => S754_finite s p (-1074) | _ => S754_zero s end
  else match k + 2 ^ 52 with Zpos p => S754_finite s p (e - 1075) | _ => S754_nan end.
Definition bits_of_df (f : spec_float) : Z :=
  let sg (s : bool) := if s then 2 ^ 63 else 0 in
  match f with
  | S754_zero s => sg s
  | S754_infinity s => sg s + 2047 * 2 ^ 52
  | S754_nan => 9221120237041090560
  | S754_finite s p e => sg s + (if Zpos p <? 2 ^ 52 then Zpos p else (e + 1075) * 2 ^ 52 + (Zpos p - 2 ^ 52))
  end.
Definition df_of_int (z : Z) : spec_float := binary_normalize 53 1024 z 0 false.
(** [x as f32] for an f64, [x as f64] for an f32 *)
Definition sf_round_to (prec emax : Z) (f : spec_float) : spec_float :=
  match f with S754_finite s p e => binary_normalize prec emax (if s then Zneg p else Zpos p) e s | _ => f end.
Definition f64_as_f32 (f : spec_float) : spec_float := sf_round_to 24 128 f.
Definition f32_as_f64 (f : spec_float) : spec_float := sf_round_to 53 1024 f.
Definition dfdiv := SFdiv 53 1024.
Definition dfmul := SFmul 53 1024.
Definition dfsub := SFsub 53 1024.
Definition sfadd := SFadd 24 128.
Definition sfsub := SFsub 24 128.
(** std::f64::consts::PI, FRAC_PI_2; std::f32::consts::FRAC_PI_2 *)
Definition df_pi : spec_float := df_of_bits 4614256656552045848.
Definition df_frac_pi_2 : spec_float := df_of_bits 4609753056924675352.
Definition sf_frac_pi_2 : spec_float := sf_of_bits 1070141403.
(** [f.round()] followed by [as iN]: half away from zero, then saturating; NaN becomes 0 *)
Definition sf_round_cast (lo hi : Z) (f : spec_float) : Z :=
  match f with
  | S754_zero _ | S754_nan => 0
  | S754_infinity s => if s then lo else hi
  | S754_finite s p e =>
      let a := if 0 <=? e then Zpos p * 2 ^ e else (2 * Zpos p + 2 ^ (- e)) / (2 * 2 ^ (- e)) in
      Z.max lo (Z.min hi (if s then - a else a))
  end.
(** num's [iN::from_f32] / [to_u32]: the truncated number when it is in the type's range, None otherwise *)
Definition sf_from (lo hi : Z) (f : spec_float) : option Z :=
  match f with
  | S754_zero _ => Some 0
  | S754_nan | S754_infinity _ => None
  | S754_finite s p e => let t := sf_trunc s p e in if (lo <=? t) && (t <=? hi) then Some t else None
  end.
(** [a % b] for a finite positive b: the exact remainder, with the sign of a *)
Definition sf_rem (prec emax : Z) (a b : spec_float) : spec_float :=
  match a, b with
  | S754_zero s, _ => S754_zero s
  | S754_finite s p e, S754_finite _ q f =>
      let m := Z.min e f in
      binary_normalize prec emax ((if s then -1 else 1) * ((Zpos p * 2 ^ (e - m)) mod (Zpos q * 2 ^ (f - m)))) m s
  | _, _ => S754_nan
  end.
(** f32::is_normal *)
Definition f32_is_normal (b : Z) : bool := let e := (b / 2 ^ 23) mod 256 in negb (e =? 0) && negb (e =? 255).
(** is_sign_positive *)
Definition f32_positive (b : Z) : bool := b <? 2 ^ 31.
Definition f32_as_i16 (f : spec_float) : Z := sf_cast (-32768) 32767 f.
(** an integer as the bits of the f32 *)
Definition f32_of_int (z : Z) : Z := bits_of_sf (sf_of_int z).
Definition fz (z : Z) : spec_float := sf_of_int z.

(** ** Floats with a decimal exponent (types/model.rs:970-983 and the implementations cited below)
    [from_float]: divide by ten while the mantissa is above 2^bits - 1 and the exponent is at most [eb] (the number of bits of the exponent,
    which the code takes for its largest value), then truncate. A negative number is never scaled. *)
Fixpoint scale_loop (prec emax maxm : Z) (n : nat) (f : spec_float) (e : Z) : spec_float * Z :=
  match n with
  | O => (f, e)
  | S k => if SFltb (binary_normalize prec emax maxm 0 false) f
           then scale_loop prec emax maxm k (SFdiv prec emax f (binary_normalize prec emax 10 0 false)) (e + 1) else (f, e)
  end.
Definition from_float (prec emax mb eb lo hi : Z) (f : spec_float) : Z * Z :=
  let (r, e) := scale_loop prec emax (2 ^ mb - 1) (Z.to_nat (eb + 1)) f 0 in (sf_cast lo hi r, e).
(** [10.powf(exponent)] is taken to be correctly rounded *)
Definition pow10 (prec emax e : Z) : spec_float :=
  if 0 <=? e then binary_normalize prec emax (10 ^ e) 0 false
  else SFdiv prec emax (binary_normalize prec emax 1 0 false) (binary_normalize prec emax (10 ^ (- e)) 0 false).
Definition to_float (prec emax mant e : Z) : spec_float := SFmul prec emax (binary_normalize prec emax mant 0 false) (pow10 prec emax e).
(* records/model.rs:1016-1049: 15 bits, i32; 3 bits, i8 *)
Definition enc_cpv (b : Z) : CParameterValue := let (a, e) := from_float 24 128 15 3 (- 2 ^ 31) (2 ^ 31 - 1) (sf_of_bits b) in MkCParameterValue a e None.
Definition dec_cpv (x : CParameterValue) : Z := bits_of_sf (to_float 24 128 (cpv_mantissa x) (cpv_exponent x)).
(* records/model.rs:1275-1306: 17 bits, u32; 4 bits, u8 *)
Definition enc_cff (b : Z) : CFrequencyFloat := let (a, e) := from_float 24 128 17 4 0 (2 ^ 32 - 1) (sf_of_bits b) in MkCFrequencyFloat a e.
Definition dec_cff (x : CFrequencyFloat) : Z := bits_of_sf (to_float 24 128 (CFrequencyFloat_mantissa x) (CFrequencyFloat_exponent x)).
(* detonation/model.rs:121-152: 15 bits, u16; 3 bits, i8 *)
Definition enc_force (b : Z) : CForceFloat := let (a, e) := from_float 24 128 15 3 0 65535 (sf_of_bits b) in MkCForceFloat a e.
Definition dec_force (x : CForceFloat) : Z := bits_of_sf (to_float 24 128 (CForceFloat_mantissa x) (CForceFloat_exponent x)).

(** ** Time stamps: records/model.rs:65-205 *)
(* constants.rs: [(2^25) - 1] and [(2^31) - 1], exclusive or: 26 and 28 *)
Definition CDIS_TIME_UNITS_PER_HOUR : Z := Z.lxor 2 25 - 1.
Definition DIS_TIME_UNITS_PER_HOUR : Z := Z.lxor 2 31 - 1.
(** the units past the hour scaled by the f32 quotient of the two constants, rounded, [as u32]; the raw value is the units doubled plus the
    least significant bit; the nanoseconds are computed and dropped *)
Definition scale_units (num den u : Z) : Z := sf_round_cast 0 (2 ^ 32 - 1) (sfmul (fz u) (sfdiv (fz num) (fz den))).
Definition convert_raw (num den v : Z) : Z := Z.lor ((scale_units num den (Z.shiftr v 1) * 2) mod 2 ^ 32) (Z.land v 1).
Definition dis_to_cdis_ts : Z -> Z := convert_raw CDIS_TIME_UNITS_PER_HOUR DIS_TIME_UNITS_PER_HOUR.
Definition cdis_to_dis_ts : Z -> Z := convert_raw DIS_TIME_UNITS_PER_HOUR CDIS_TIME_UNITS_PER_HOUR.

(** ** Records: records/codec.rs *)
(* 12-31; PduHeader::new_v7 (dis-rs common/model.rs) has version 7, the family of the type, time stamp and length 0 *)
Definition enc_header (h : PduHeader) : CHeader :=
  MkCHeader 1 (h_exercise h) (h_type h) (dis_to_cdis_ts (h_time h)) 0 (match h_status h with Some s => s | None => default_status end).
Definition dec_header (c : CHeader) : PduHeader :=
  let h := header_new 7 (ch_exercise c) (ch_type c) in
  MkPduHeader (h_version h) (h_exercise h) (h_type h) (h_family h) (cdis_to_dis_ts (ch_timestamp c)) (h_length h) (Some (ch_status c)) (h_padding h).
(* 33-51 *)
Definition enc_eid (e : EntityId) : CEntityId := MkCEntityId (sa_site (ei_addr e)) (sa_app (ei_addr e)) (ei_id e).
Definition dec_eid (c : CEntityId) : EntityId := MkEntityId (MkSimulationAddress (CEntityId_site c) (CEntityId_app c)) (CEntityId_entity c).
(* records/model.rs: From<&EventId> for EntityId, From<&EntityId> for EventId *)
Definition enc_event (e : EventId) : CEntityId := MkCEntityId (sa_site (ev_addr e)) (sa_app (ev_addr e)) (ev_id e).
Definition dec_event (c : CEntityId) : EventId := MkEventId (MkSimulationAddress (CEntityId_site c) (CEntityId_app c)) (CEntityId_entity c).
(* 53-77; the enumerated fields are their numbers *)
Definition enc_etype (t : EntityType) : CEntityType :=
  MkCEntityType (et_kind t) (et_domain t) (et_country t) (et_category t) (et_subcategory t) (et_specific t) (et_extra t).
Definition dec_etype (c : CEntityType) : EntityType :=
  MkEntityType (CEntityType_kind c) (CEntityType_domain c) (CEntityType_country c) (CEntityType_category c) (CEntityType_subcategory c)
    (CEntityType_specific c) (CEntityType_extra c).
(* 79-100, 148-174: decimetres *)
Definition to_decimeters (b : Z) : Z := f32_as_i16 (sfmul (sf_of_bits b) (fz 10)).
Definition from_decimeters (z : Z) : Z := bits_of_sf (sfdiv (fz z) (fz 10)).
Definition enc_velocity (v : VectorF32) : CLinearVelocity := MkCLinearVelocity (to_decimeters (v_1 v)) (to_decimeters (v_2 v)) (to_decimeters (v_3 v)).
Definition dec_velocity (c : CLinearVelocity) : VectorF32 :=
  MkVectorF32 (from_decimeters (CLinearVelocity_x c)) (from_decimeters (CLinearVelocity_y c)) (from_decimeters (CLinearVelocity_z c)).
Definition enc_acceleration (v : VectorF32) : CLinearAcceleration :=
  MkCLinearAcceleration (to_decimeters (v_1 v)) (to_decimeters (v_2 v)) (to_decimeters (v_3 v)).
Definition dec_acceleration (c : CLinearAcceleration) : VectorF32 :=
  MkVectorF32 (from_decimeters (CLinearAcceleration_x c)) (from_decimeters (CLinearAcceleration_y c)) (from_decimeters (CLinearAcceleration_z c)).
(* 126-134 *)
Definition two_pi : spec_float := sfmul (fz 2) sf_pi.
Definition normalize_radians (f : spec_float) : spec_float :=
  let r := sf_rem 24 128 f two_pi in
  let r := sf_rem 24 128 (sfadd r two_pi) two_pi in
  if SFltb sf_pi r then sfsub r two_pi else r.
(* 102-124 *)
Definition orientation_scale : spec_float := sfdiv (fz 4095) sf_pi.
Definition enc_angle (b : Z) : Z := f32_as_i16 (sfmul (normalize_radians (sf_of_bits b)) orientation_scale).
Definition dec_angle (z : Z) : Z := bits_of_sf (sfdiv (fz z) orientation_scale).
Definition enc_orientation (o : Orientation) : COrientation := MkCOrientation (enc_angle (or_psi o)) (enc_angle (or_theta o)) (enc_angle (or_phi o)).
Definition dec_orientation (c : COrientation) : Orientation :=
  MkOrientation (dec_angle (COrientation_psi c)) (dec_angle (COrientation_theta c)) (dec_angle (COrientation_phi c)).
(* 176-206; [(2^11) - 1] is 8 *)
Definition angular_scale : spec_float := sfdiv (fz (Z.lxor 2 11 - 1)) (sfmul (fz 4) sf_pi).
Definition degrees_per_radian : spec_float := sfdiv (fz 180) sf_pi.
Definition enc_rate (b : Z) : Z := f32_as_i16 (sfmul (sfmul (sf_of_bits b) degrees_per_radian) angular_scale).
Definition dec_rate (z : Z) : Z := bits_of_sf (sfdiv (sfdiv (fz z) angular_scale) degrees_per_radian).
Definition enc_angular (v : VectorF32) : CAngularVelocity := MkCAngularVelocity (enc_rate (v_1 v)) (enc_rate (v_2 v)) (enc_rate (v_3 v)).
Definition dec_angular (c : CAngularVelocity) : VectorF32 :=
  MkVectorF32 (dec_rate (CAngularVelocity_x c)) (dec_rate (CAngularVelocity_y c)) (dec_rate (CAngularVelocity_z c)).
(* 208-245 *)
Definition enc_scheme (s : EncodingScheme) : CEncodingScheme :=
  match s with
  | EsEncodedAudio c t => MkCEncodingScheme 0 c t
  | EsRawBinary c n => MkCEncodingScheme 1 c (n mod 256)
  | EsAppSpecific c _ | EsDatabaseIndex c _ _ _ | EsUnspecified c => MkCEncodingScheme 2 c 0
  end.
Definition dec_scheme (x : CEncodingScheme) : EncodingScheme :=
  if cen_variant x =? 0 then EsEncodedAudio (cen_class x) (cen_value x)
  else if cen_variant x =? 1 then EsRawBinary (cen_class x) (cen_value x) else EsUnspecified (cen_class x).
(* 247-292; units: 0 centimetres, 1 metres *)
Definition f32_to_i16 (f : spec_float) (positive : bool) : Z :=
  match sf_from (-32768) 32767 f with Some z => z | None => if positive then 32767 else -32768 end.
Definition in_i16_range (b : Z) : bool := SFleb (fz (-32768)) (sf_of_bits b) && SFleb (sf_of_bits b) (fz 32767).
(** [is_positive] is asked of the value after scaling; for a NaN the sign bit is that of the original *)
Definition enc_component (scale b : Z) : Z :=
  f32_to_i16 (if scale =? 1 then sf_of_bits b else sfmul (sf_of_bits b) (fz scale)) (f32_positive b).
Definition enc_ecv (v : VectorF32) : CEntityCoordinateVector * Z :=
  if negb (in_i16_range (v_1 v)) || negb (in_i16_range (v_2 v)) || negb (in_i16_range (v_3 v))
  then (MkCEntityCoordinateVector (enc_component 1 (v_1 v)) (enc_component 1 (v_2 v)) (enc_component 1 (v_3 v)), 1)
  else (MkCEntityCoordinateVector (enc_component 100 (v_1 v)) (enc_component 100 (v_2 v)) (enc_component 100 (v_3 v)), 0).
(* 294-317 *)
Definition dec_component (units z : Z) : Z := if units =? 0 then bits_of_sf (sfdiv (fz z) (fz 100)) else f32_of_int z.
Definition dec_ecv (c : CEntityCoordinateVector) (units : Z) : VectorF32 :=
  MkVectorF32 (dec_component units (CEntityCoordinateVector_x c)) (dec_component units (CEntityCoordinateVector_y c)) (dec_component units (CEntityCoordinateVector_z c)).

(** the geodesy of dis-rs: f64 bit patterns to f64 bit patterns *)
Record Geo := MkGeo { to_lla : Z -> Z -> Z -> Z * Z * Z; to_ecef : Z -> Z -> Z -> Z * Z * Z }.
(* 319-348; units: 0 centimetres, 1 dekametres *)
Definition df_is_zero (b : Z) : bool := (b =? 0) || (b =? 2 ^ 63).
Definition enc_world (g : Geo) (l : Location) : CWorldCoordinates * Z :=
  if df_is_zero (loc_x l) && df_is_zero (loc_y l) && df_is_zero (loc_z l) then (MkCWorldCoordinates 0 0 (-8388608), 1)
  else
    let '(lat, lon, alt) := to_lla g (loc_x l) (loc_y l) (loc_z l) in
    let lat := dfmul (df_of_bits lat) (dfdiv (dfsub (df_of_int (2 ^ 30)) (df_of_int 1)) df_frac_pi_2) in
    let lon := dfmul (df_of_bits lon) (dfdiv (dfsub (df_of_int (2 ^ 31)) (df_of_int 1)) df_pi) in
    let cm := dfmul (df_of_bits alt) (df_of_int 100) in
    let (a, u) := if SFleb cm (df_of_int 8388608) then (cm, 0) else (dfdiv (df_of_bits alt) (df_of_int 10), 1) in
    (MkCWorldCoordinates (bits_of_sf (f64_as_f32 lat)) (bits_of_sf (f64_as_f32 lon)) (sf_cast (- 2 ^ 31) (2 ^ 31 - 1) a), u).
(* 350-369 *)
Definition dec_world (g : Geo) (c : CWorldCoordinates) (units : Z) : Location :=
  let alt := if units =? 0 then sfdiv (fz (cwc_alt c)) (fz 100) else sfmul (fz (cwc_alt c)) (fz 10) in
  let lat := sfdiv (sf_of_bits (cwc_lat c)) (sfdiv (sfsub (fz (2 ^ 30)) (fz 1)) sf_frac_pi_2) in
  let lon := sfdiv (sf_of_bits (cwc_lon c)) (sfdiv (sfsub (fz (2 ^ 31)) (fz 1)) sf_pi) in
  let '(x, y, z) := to_ecef g (bits_of_df (f32_as_f64 lat)) (bits_of_df (f32_as_f64 lon)) (bits_of_df (f32_as_f64 alt)) in
  MkLocation x y z.

(* 371-506: variable parameters *)
Definition enc_vp (v : VariableParameter) : CVariableParameter :=
  match v with
  | VPArticulated x => CVPArticulated (MkCArticulated (ap_change x) (ap_attachment x) (ap_class x) (ap_metric x) (enc_cpv (ap_value x)))
  | VPAttached x => CVPAttached (MkCAttached (at_detached x) (at_attachment x) (at_parameter x) (enc_etype (at_type x)))
  | VPSeparation x => CVPSeparation (MkCSeparation (se_reason x) (se_pre x) (enc_eid (se_parent x)) (se_station x) (se_number x))
  | VPEntityType x => CVPEntityType (MkCEntityTypeVP (etp_change x) (enc_etype (etp_type x)))
  | VPEntityAssociation x => CVPAssociation (MkCAssociation (ea_change x) (ea_status x) (ea_type x) (enc_eid (ea_entity x)) (ea_station x) (ea_connection x) (ea_member x) (ea_group x))
  | VPUnspecified _ _ => CVPUnspecified
  end.
Definition dec_vp (v : CVariableParameter) : VariableParameter :=
  match v with
  | CVPArticulated x => VPArticulated (MkArticulatedPart (car_change x) (car_attachment x) (car_metric x) (car_class x) (dec_cpv (car_value x)))
  | CVPAttached x => VPAttached (MkAttachedPart (CAttached_detached x) (CAttached_attachment x) (CAttached_ptype x) (dec_etype (CAttached_etype x)))
  | CVPSeparation x => VPSeparation (MkSeparation (CSeparation_reason x) (CSeparation_pre x) (dec_eid (CSeparation_parent x)) (CSeparation_station x) (CSeparation_number x))
  | CVPEntityType x => VPEntityType (MkEntityTypeParameter (CEntityTypeVP_change x) (dec_etype (CEntityTypeVP_etype x)))
  | CVPAssociation x => VPEntityAssociation (MkEntityAssociation (CAssociation_change x) (CAssociation_status x) (CAssociation_atype x) (dec_eid (CAssociation_entity x)) (CAssociation_station x) (CAssociation_connection x) (CAssociation_member x) (CAssociation_group x))
  | CVPUnspecified => VPUnspecified 0 (repeat 0 15)
  end.
(* 508-533; [(2^12) - 1] is 13 *)
Definition beam_scale : spec_float := sfdiv (fz (Z.lxor 2 12 - 1)) sf_pi.
Definition sync_scale : spec_float := sfdiv (fz 1023) (fz 100).
Definition enc_beam_angle (b : Z) : Z := sf_round_cast (-32768) 32767 (sfmul (sf_of_bits b) beam_scale).
Definition enc_beam (b : BeamData) : CBeamData :=
  MkCBeamData (enc_beam_angle (bd_azc b)) (enc_beam_angle (bd_azs b)) (enc_beam_angle (bd_elc b)) (enc_beam_angle (bd_els b))
    (sf_round_cast 0 65535 (sfmul (sf_of_bits (bd_sync b)) sync_scale)).
Definition dec_beam_angle (z : Z) : Z := bits_of_sf (sfdiv (fz z) beam_scale).
Definition dec_beam (c : CBeamData) : BeamData :=
  MkBeamData (dec_beam_angle (cbd_az_center c)) (dec_beam_angle (cbd_az_sweep c)) (dec_beam_angle (cbd_el_center c)) (dec_beam_angle (cbd_el_sweep c))
    (bits_of_sf (sfdiv (fz (cbd_sync c)) sync_scale)).

(** ** Stateless PDU bodies *)
Definition unopt {A} (d : A) (o : option A) : A := match o with Some a => a | None => d end.
Definition enc_clock (c : ClockTime) : Z * Z := (ct_hour c, ct_past c).
Definition dec_clock (c : Z * Z) : ClockTime := MkClockTime (fst c) (snd c).
(* create_entity/codec.rs:6-23, remove_entity/codec.rs:6-23 *)
Definition enc_create (x : CreateEntity) : CCreateEntity := MkCCreateEntity (enc_eid (CreateEntity_originating_id x)) (enc_eid (CreateEntity_receiving_id x)) (CreateEntity_request_id x).
Definition dec_create (x : CCreateEntity) : CreateEntity := MkCreateEntity (dec_eid (CCreateEntity_orig x)) (dec_eid (CCreateEntity_recv x)) (CCreateEntity_request x).
Definition enc_remove (x : RemoveEntity) : CRemoveEntity := MkCRemoveEntity (enc_eid (RemoveEntity_originating_id x)) (enc_eid (RemoveEntity_receiving_id x)) (RemoveEntity_request_id x).
Definition dec_remove (x : CRemoveEntity) : RemoveEntity := MkRemoveEntity (dec_eid (CRemoveEntity_orig x)) (dec_eid (CRemoveEntity_recv x)) (CRemoveEntity_request x).
(* start_resume/codec.rs:6-27 *)
Definition enc_start (x : StartResume) : CStartResume :=
  MkCStartResume (enc_eid (StartResume_originating_id x)) (enc_eid (StartResume_receiving_id x)) (enc_clock (StartResume_real_world_time x))
    (enc_clock (StartResume_simulation_time x)) (StartResume_request_id x).
Definition dec_start (x : CStartResume) : StartResume :=
  MkStartResume (dec_eid (CStartResume_orig x)) (dec_eid (CStartResume_recv x)) (dec_clock (CStartResume_real_time x)) (dec_clock (CStartResume_sim_time x)) (CStartResume_request x).
(* stop_freeze/codec.rs:6-29; the frozen behavior is copied as the generated bit field, whose three flags are bits 0, 1 and 2 (SISO-REF-010 UID 68; the
   table is not in the repository) *)
Definition enc_stop (x : StopFreeze) : CStopFreeze :=
  MkCStopFreeze (enc_eid (StopFreeze_originating_id x)) (enc_eid (StopFreeze_receiving_id x)) (enc_clock (StopFreeze_real_world_time x)) (StopFreeze_reason x)
    (Z.testbit (StopFreeze_frozen_behavior x) 0) (Z.testbit (StopFreeze_frozen_behavior x) 1) (Z.testbit (StopFreeze_frozen_behavior x) 2) (StopFreeze_request_id x).
Definition dec_stop (x : CStopFreeze) : StopFreeze :=
  MkStopFreeze (dec_eid (CStopFreeze_orig x)) (dec_eid (CStopFreeze_recv x)) (dec_clock (CStopFreeze_real_time x)) (CStopFreeze_reason x)
    (Z.b2z (CStopFreeze_run_clock x) + 2 * Z.b2z (CStopFreeze_transmit x) + 4 * Z.b2z (CStopFreeze_process x)) (CStopFreeze_request x).
(* acknowledge/codec.rs:6-27 *)
Definition enc_ack (x : Acknowledge) : CAcknowledge :=
  MkCAcknowledge (enc_eid (Acknowledge_originating_id x)) (enc_eid (Acknowledge_receiving_id x)) (Acknowledge_acknowledge_flag x) (Acknowledge_response_flag x) (Acknowledge_request_id x).
Definition dec_ack (x : CAcknowledge) : Acknowledge :=
  MkAcknowledge (dec_eid (CAcknowledge_orig x)) (dec_eid (CAcknowledge_recv x)) (CAcknowledge_ack x) (CAcknowledge_response x) (CAcknowledge_request x).
(* action_request/codec.rs:7-31, action_response/codec.rs:7-31 *)
Definition enc_actreq (x : ActionRequest) : CActionRequest :=
  MkCActionRequest (enc_eid (ActionRequest_originating_id x)) (enc_eid (ActionRequest_receiving_id x)) (ActionRequest_request_id x) (ActionRequest_action_id x)
    (MkDatumSpecification (ActionRequest_fixed_datum_records x) (ActionRequest_variable_datum_records x)).
Definition dec_actreq (x : CActionRequest) : ActionRequest :=
  MkActionRequest (dec_eid (CActionRequest_orig x)) (dec_eid (CActionRequest_recv x)) (CActionRequest_request x) (CActionRequest_action x)
    (ds_fixed (CActionRequest_datums x)) (ds_variable (CActionRequest_datums x)).
Definition enc_actresp (x : ActionResponse) : CActionResponse :=
  MkCActionResponse (enc_eid (ActionResponse_originating_id x)) (enc_eid (ActionResponse_receiving_id x)) (ActionResponse_request_id x) (ActionResponse_request_status x)
    (MkDatumSpecification (ActionResponse_fixed_datum_records x) (ActionResponse_variable_datum_records x)).
Definition dec_actresp (x : CActionResponse) : ActionResponse :=
  MkActionResponse (dec_eid (CActionResponse_orig x)) (dec_eid (CActionResponse_recv x)) (CActionResponse_request x) (CActionResponse_status x)
    (ds_fixed (CActionResponse_datums x)) (ds_variable (CActionResponse_datums x)).
(* set_data/codec.rs:6-27, data/codec.rs:6-27, event_report/codec.rs:7-29 *)
Definition enc_setdata (x : SetData) : CSetData :=
  MkCSetData (enc_eid (SetData_originating_id x)) (enc_eid (SetData_receiving_id x)) (SetData_request_id x) (MkDatumSpecification (SetData_fixed_datum_records x) (SetData_variable_datum_records x)).
Definition dec_setdata (x : CSetData) : SetData :=
  MkSetData (dec_eid (CSetData_orig x)) (dec_eid (CSetData_recv x)) (CSetData_request x) (ds_fixed (CSetData_datums x)) (ds_variable (CSetData_datums x)).
Definition enc_data (x : Data) : CData :=
  MkCData (enc_eid (Data_originating_id x)) (enc_eid (Data_receiving_id x)) (Data_request_id x) (MkDatumSpecification (Data_fixed_datum_records x) (Data_variable_datum_records x)).
Definition dec_data (x : CData) : Data :=
  MkData (dec_eid (CData_orig x)) (dec_eid (CData_recv x)) (CData_request x) (ds_fixed (CData_datums x)) (ds_variable (CData_datums x)).
Definition enc_report (x : EventReport) : CEventReport :=
  MkCEventReport (enc_eid (EventReport_originating_id x)) (enc_eid (EventReport_receiving_id x)) (EventReport_event_type x) (MkDatumSpecification (EventReport_fixed_datum_records x) (EventReport_variable_datum_records x)).
Definition dec_report (x : CEventReport) : EventReport :=
  MkEventReport (dec_eid (CEventReport_orig x)) (dec_eid (CEventReport_recv x)) (CEventReport_event x) (ds_fixed (CEventReport_datums x)) (ds_variable (CEventReport_datums x)).
(* comment/codec.rs:6-23 *)
Definition enc_comment (x : Comment) : CComment :=
  MkCComment (enc_eid (Comment_originating_id x)) (enc_eid (Comment_receiving_id x)) (MkDatumSpecification [] (Comment_variable_datum_records x)).
Definition dec_comment (x : CComment) : Comment := MkComment (dec_eid (CComment_orig x)) (dec_eid (CComment_recv x)) (ds_variable (CComment_datums x)).
(* data_query/codec.rs:8-32 *)
Definition enc_query (x : DataQuery) : CDataQuery :=
  MkCDataQuery (enc_eid (DataQuery_originating_id x)) (enc_eid (DataQuery_receiving_id x)) (DataQuery_request_id x) (dis_to_cdis_ts (DataQuery_time_interval x))
    (DataQuery_fixed_datum_records x) (DataQuery_variable_datum_records x).
Definition dec_query (x : CDataQuery) : DataQuery :=
  MkDataQuery (dec_eid (CDataQuery_orig x)) (dec_eid (CDataQuery_recv x)) (CDataQuery_request x) (cdis_to_dis_ts (CDataQuery_interval x)) (CDataQuery_fixed x) (CDataQuery_variable x).
(* receiver/codec.rs:8-30 *)
Definition enc_receiver (x : Receiver) : CReceiver :=
  MkCReceiver (enc_eid (Receiver_radio_reference_id x)) (Receiver_radio_number x) (Receiver_receiver_state x)
    (unopt 0 (sf_from (-32768) 32767 (sf_of_bits (Receiver_received_power x)))) (enc_eid (Receiver_transmitter_radio_reference_id x)) (Receiver_transmitter_radio_number x).
Definition dec_receiver (x : CReceiver) : Receiver :=
  MkReceiver (dec_eid (CReceiver_radio x)) (CReceiver_number x) (CReceiver_state x) (f32_of_int (CReceiver_power x)) (dec_eid (CReceiver_tradio x)) (CReceiver_tnumber x).
(* signal/codec.rs:8-46 *)
Definition is_audio (s : EncodingScheme) : bool := match s with EsEncodedAudio _ _ => true | _ => false end.
Definition enc_signal (x : Signal) : CSignal :=
  MkCSignal (enc_eid (Signal_radio_reference_id x)) (Signal_radio_number x) (enc_scheme (Signal_encoding_scheme x)) (Signal_tdl_type x)
    (if is_audio (Signal_encoding_scheme x) then Some (Signal_sample_rate x) else None)
    (if is_audio (Signal_encoding_scheme x) then Some (Signal_samples x) else None) (Signal_data x).
Definition dec_signal (x : CSignal) : Signal :=
  MkSignal (dec_eid (CSignal_radio x)) (CSignal_number x) (dec_scheme (CSignal_encoding x)) (CSignal_tdl x) (unopt 0 (CSignal_rate x)) (unopt 0 (CSignal_samples x)) (CSignal_data x).
(* collision/codec.rs:11-67; units: (location, mass), mass 0 grams, 1 kilograms; 1115886060 is 65.535 *)
Definition enc_mass (b : Z) : Z * Z :=
  if SFleb (sf_of_bits b) (sf_of_bits 1115886060)
  then (unopt 4294967295 (sf_from 0 4294967295 (sfmul (sf_of_bits b) (fz 1000))), 0)
  else (unopt 4294967295 (sf_from 0 4294967295 (sf_of_bits b)), 1).
Definition dec_mass (mass units : Z) : Z := bits_of_sf (if units =? 0 then sfdiv (fz mass) (fz 1000) else fz mass).
Definition enc_collision (x : Collision) : CCollision :=
  let (loc, u) := enc_ecv (Collision_location x) in let (mass, um) := enc_mass (Collision_mass x) in
  MkCCollision (u, um) (enc_eid (Collision_issuing_entity_id x)) (enc_eid (Collision_colliding_entity_id x)) (enc_event (Collision_event_id x))
    (Collision_collision_type x) (enc_velocity (Collision_velocity x)) mass loc.
Definition dec_collision (x : CCollision) : Collision :=
  MkCollision (dec_eid (CCollision_issuing x)) (dec_eid (CCollision_colliding x)) (dec_event (CCollision_event x)) (CCollision_ctype x)
    (dec_velocity (CCollision_velocity x)) (dec_mass (CCollision_mass x) (snd (CCollision_units x))) (dec_ecv (CCollision_location x) (fst (CCollision_units x))).
(* fire/codec.rs:13-106; the descriptor parts: warhead, fuze, quantity, rate *)
Definition enc_count (n : Z) : option Z := if n =? 0 then None else Some (Z.min n 255).
Definition enc_munition (m : MunitionDescriptor) : option Z * option Z * option Z * option Z :=
  (Some (md_warhead m), Some (md_fuse m), enc_count (md_quantity m), enc_count (md_rate m)).
Definition no_munition : option Z * option Z * option Z * option Z := (None, None, None, None).
Definition enc_fire (g : Geo) (x : Fire) : CFire :=
  let (loc, units) := enc_world g (Fire_location_in_world x) in
  let (t, d) := match Fire_descriptor x with
                | DMunition t m => (t, enc_munition m) | DExpendable t => (t, no_munition) | DExplosion t _ _ => (t, no_munition) end in
  let '(w, f, q, r) := d in
  MkCFire units (enc_eid (Fire_firing_entity_id x)) (enc_eid (Fire_target_entity_id x)) (enc_eid (Fire_entity_id x)) (enc_event (Fire_event_id x))
    (if Fire_fire_mission_index x =? 0 then None else Some (Fire_fire_mission_index x)) loc (enc_etype t) w f q r (enc_velocity (Fire_velocity x))
    (if f32_is_normal (Fire_range x) then sf_from 0 4294967295 (sf_of_bits (Fire_range x)) else None).
Definition dec_munition (w f q r : option Z) : MunitionDescriptor := MkMunitionDescriptor (unopt 0 w) (unopt 0 f) (unopt 0 q) (unopt 0 r).
Definition KIND_MUNITION : Z := 2.
Definition KIND_EXPENDABLE : Z := 8.
Definition dec_fire (g : Geo) (x : CFire) : Fire :=
  let t := dec_etype (CFire_etype x) in
  MkFire (dec_eid (CFire_firing x)) (dec_eid (CFire_target x)) (dec_eid (CFire_munition x)) (dec_event (CFire_event x)) (unopt 0 (CFire_mission x))
    (dec_world g (CFire_location x) (CFire_units x))
    (if et_kind t =? KIND_MUNITION then DMunition t (dec_munition (CFire_warhead x) (CFire_fuze x) (CFire_quantity x) (CFire_rate x))
     else if et_kind t =? KIND_EXPENDABLE then DExpendable t else DMunition t (MkMunitionDescriptor 0 0 0 0))
    (dec_velocity (CFire_velocity x)) (f32_of_int (unopt 0 (CFire_range x))).
(* detonation/codec.rs:12-113; units: (world altitude, entity coordinates) *)
Definition enc_detonation (g : Geo) (x : Detonation) : CDetonation :=
  let (wl, uw) := enc_world g (Detonation_world_location x) in
  let (el, ue) := enc_ecv (Detonation_entity_location x) in
  let '(t, d, mat, force) := match Detonation_descriptor x with
                | DMunition t m => (t, enc_munition m, None, None) | DExpendable t => (t, no_munition, None, None)
                | DExplosion t mat f => (t, no_munition, Some mat, Some (enc_force f)) end in
  let '(w, f, q, r) := d in
  MkCDetonation (uw, ue) (enc_eid (Detonation_source_entity_id x)) (enc_eid (Detonation_target_entity_id x)) (enc_eid (Detonation_exploding_entity_id x))
    (enc_event (Detonation_event_id x)) (enc_velocity (Detonation_velocity x)) wl (enc_etype t) w f q r mat force el (Detonation_result x)
    (map enc_vp (Detonation_variable_parameters x)).
Definition dec_detonation (g : Geo) (x : CDetonation) : Detonation :=
  let t := dec_etype (CDetonation_etype x) in
  MkDetonation (dec_eid (CDetonation_source x)) (dec_eid (CDetonation_target x)) (dec_eid (CDetonation_exploding x)) (dec_event (CDetonation_event x))
    (dec_velocity (CDetonation_velocity x)) (dec_world g (CDetonation_location x) (fst (CDetonation_units x)))
    (if et_kind t =? KIND_MUNITION then DMunition t (dec_munition (CDetonation_warhead x) (CDetonation_fuze x) (CDetonation_quantity x) (CDetonation_rate x))
     else if et_kind t =? KIND_EXPENDABLE then DExpendable t
     else DExplosion t (unopt 0 (CDetonation_material x)) (match CDetonation_force x with Some f => dec_force f | None => 0 end))
    (dec_ecv (CDetonation_location_entity x) (snd (CDetonation_units x))) (CDetonation_result x) (map dec_vp (CDetonation_vps x)).
