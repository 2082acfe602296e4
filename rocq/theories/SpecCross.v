(** * Across the C-DIS wire: what a DIS receiver gets of a PDU that was encoded, sent as bits, read and decoded *)
From Coq Require Import ZArith List Reals.
From Verif Require Import Base CdisBase DisCommon DisHeader DisLists DisSimman DisLogistics DisWarfare DisEntity DisEmission DisRadio DisIff DisPdu DisPacket
  CdisRecords CdisBodies1 CdisBodies2 CdisIff CdisPdu CdisCodec1 CdisCodec2 CdisCodec3 SpecFloatValue SpecContent SpecBody.
Import ListNotations. Open Scope Z_scope.

(** the C-DIS PDU [c] is written as some bits, and these bits, whatever follows them, are read as the C-DIS PDU [q] *)
Definition on_the_wire (m : mode) (c q : CPdu) : Prop := exists bs, w_cpdu m c = WOk bs tt /\ forall rest, p_cpdu (bs ++ rest) = POk rest q.
(** The DIS PDU [p] is encoded to the C-DIS PDU [c] by an encoder with the options [oe], in any state, at any time; [c] crosses the wire;
    a decoder with the options [od], in any state, makes [p'] of what is read. *)
Definition crosses (m : mode) (g : Geo) (oe od : Options) (p : Pdu) (c : CPdu) (p' : Pdu) : Prop :=
  exists now est dst r est' q r' dst', encode g oe now est p = Some (c, r, est') /\ on_the_wire m c q /\ decode m g od dst q = WOk [] (p', r', dst').

(** ** What C-DIS has room for *)
(** four bits for the kind, four for the domain, nine for the country *)
Definition narrow_type (t : EntityType) : Prop := et_kind t < 16 /\ et_domain t < 16 /\ et_country t < 512.
Definition narrow_acceleration (v : VectorF32) : Prop := all_finite v /\ forall b, In b [v_1 v; v_2 v; v_3 v] -> (-819 <= f32_value b <= 819)%R.
Definition narrow_turning (v : VectorF32) : Prop := all_finite v /\ forall b, In b [v_1 v; v_2 v; v_3 v] -> (-50 <= f32_value b <= 50)%R.
Definition narrow_orientation (o : Orientation) : Prop := f32_finite (or_psi o) /\ f32_finite (or_theta o) /\ f32_finite (or_phi o).
(** a latitude up to 89.99 degrees, an altitude from -10485 to 83886 m or from 83887 m to 83886 km *)
Definition narrow_place (g : Geo) (l : Location) : Prop :=
  ~ centre l /\ f64_finite (loc_x l) /\ f64_finite (loc_y l) /\ f64_finite (loc_z l) /\
  forall lat lon alt, to_lla g (loc_x l) (loc_y l) (loc_z l) = (lat, lon, alt) ->
    f64_finite lat /\ f64_finite lon /\ f64_finite alt /\ (-1.5707 <= f64_value lat <= 1.5707)%R /\ (-3.1415927 <= f64_value lon <= 3.1415927)%R /\
    (-10485 <= f64_value alt <= 83886 \/ 83887 <= f64_value alt <= 83886000)%R.
Definition narrow_parameter (v : VariableParameter) : Prop :=
  match v with
  | VPArticulated x => ap_attachment x < 1024 /\ ap_metric x < 32 /\ ap_class x mod 32 = 0 /\ ap_class x < 16384 /\
      f32_finite (ap_value x) /\ (-16383 <= f32_value (ap_value x) <= 16383)%R
  | VPAttached x => at_detached x < 2 /\ at_attachment x < 1024 /\ at_parameter x < 2048 /\ narrow_type (at_type x)
  | VPSeparation x => se_reason x < 8 /\ se_pre x < 8 /\ se_station x < 64 /\ DisCommon.se_number x < 4096
  | VPEntityType x => etp_change x < 2 /\ narrow_type (etp_type x)
  | VPEntityAssociation x => ea_change x < 2 /\ ea_status x < 16 /\ ea_station x < 64 /\ ea_connection x < 32 /\ ea_member x < 16
  | VPUnspecified _ _ => False
  end.
(** a descriptor: the quantity and the rate of fire are both zero or both not *)
Definition narrow_descriptor (d : DescriptorRecord) : Prop :=
  narrow_type (descriptor_type d) /\
  match d with
  | DMunition _ m => md_quantity m = 0 <-> md_rate m = 0
  | DExpendable _ => True
  | DExplosion _ _ f => f32_finite f /\ (0 <= f32_value f <= 32700000)%R
  end.
(** the characters C-DIS can send: capital letters, digits, the space and . ? ! [ ] ( ) { } + - _ @ &, the quotation mark, ' : ; , ~ \ / % # $ * ;
    a text of capital letters and digits without J, K, Q, X and Z must not contain a Y *)
Definition letters : list Z := [65; 66; 67; 68; 69; 70; 71; 72; 73; 74; 75; 76; 77; 78; 79; 80; 81; 82; 83; 84; 85; 86; 87; 88; 89; 90].
Definition digits : list Z := [48; 49; 50; 51; 52; 53; 54; 55; 56; 57].
Definition signs : list Z := [32; 46; 63; 33; 91; 93; 40; 41; 123; 125; 43; 45; 95; 64; 38; 34; 39; 58; 59; 44; 126; 92; 47; 37; 35; 36; 42].
Definition narrow_text (s : list Z) : Prop :=
  (forall c, In c s -> In c (letters ++ digits ++ signs)) /\ (In 89 s -> exists c, In c s /\ In c ([74; 75; 81; 88; 90] ++ signs)).

Definition narrow_collision (x : Collision) : Prop := Collision_collision_type x < 2.
Definition narrow_fire (g : Geo) (x : Fire) : Prop := narrow_place g (Fire_location_in_world x) /\ narrow_descriptor (Fire_descriptor x).
Definition narrow_detonation (g : Geo) (x : Detonation) : Prop :=
  narrow_place g (Detonation_world_location x) /\ narrow_descriptor (Detonation_descriptor x) /\
  Forall narrow_parameter (Detonation_variable_parameters x) /\ zlen (Detonation_variable_parameters x) < 256.
(** the power is saturated at 16 bits but sent in nine *)
Definition narrow_receiver (x : Receiver) : Prop :=
  Receiver_receiver_state x < 4 /\ f32_finite (Receiver_received_power x) /\ (-256 <= f32_value (Receiver_received_power x) <= 255)%R.
Definition narrow_signal (x : Signal) : Prop :=
  Signal_tdl_type x < 256 /\ zlen (Signal_data x) <= 2047 /\
  match Signal_encoding_scheme x with
  | EsEncodedAudio c t => c = 0 /\ t < 256 | EsRawBinary c _ => c = 1 | EsAppSpecific c _ | EsDatabaseIndex c _ _ _ | EsUnspecified c => 2 <= c < 4
  end.
(** in every update *)
Definition narrow_movement (x : EntityState) : Prop :=
  let d := EntityState_dr x in
  dr_algorithm d < 16 /\ (accelerates (dr_algorithm d) -> narrow_acceleration (dr_acceleration d)) /\ (rotates (dr_algorithm d) -> narrow_turning (dr_velocity d)) /\
  narrow_type (EntityState_alternative_entity_type x) /\
  Forall narrow_parameter (EntityState_variable_parameters x) /\ zlen (EntityState_variable_parameters x) < 256.
(** in a full update *)
Definition narrow_identity (g : Geo) (x : EntityState) : Prop :=
  narrow_type (EntityState_entity_type x) /\ narrow_place g (EntityState_location x) /\ narrow_orientation (EntityState_orientation x) /\
  zlen (mk_string (EntityState_marking x)) <= 11 /\ narrow_text (mk_string (EntityState_marking x)).
Definition narrow_entity_state (g : Geo) (x : EntityState) : Prop := narrow_movement x /\ narrow_identity g x.
(** a designator: a dead reckoning algorithm with an acceleration, and a spot and a designated entity both or neither *)
Definition nothing (v : VectorF32) : Prop := forall b, In b [v_1 v; v_2 v; v_3 v] -> b = 0 \/ b = 2147483648.
Definition no_entity : EntityId := MkEntityId (MkSimulationAddress 0 0) 0.
Definition narrow_designator (g : Geo) (x : Designator) : Prop :=
  accelerates (Designator_dead_reckoning_algorithm x) /\ narrow_acceleration (Designator_linear_acceleration x) /\
  (Designator_designated_entity_id x = no_entity <-> nothing (Designator_spot_wrt_designated_entity x)) /\
  narrow_place g (Designator_spot_location x).
(** a transmitter: at least one variable transmitter parameter *)
Definition half_turn (b : Z) : Prop := f32_finite b /\ (-3.1416 <= f32_value b <= 3.1416)%R.
Definition narrow_pattern (p : BeamAntennaPattern) : Prop :=
  (forall b, In b [or_psi (bap_direction p); or_theta (bap_direction p); or_phi (bap_direction p); bap_azimuth p; bap_elevation p; bap_phase p] -> half_turn b) /\ 0 <= bap_reference p < 4.
Definition narrow_radio_modulation (t : ModulationType) : Prop :=
  mt_system t < 16 /\ match mt_major t with MMNoStatement => True | MMDetail k d => 1 <= k <= 8 /\ d < 16 | MMUnspecified d => d < 16 end.
Definition narrow_transmitter (g : Geo) (x : Transmitter) : Prop :=
  Transmitter_transmit_state x < 4 /\ Transmitter_crypto_system x < 16 /\ 0 <= ck_key (Transmitter_crypto_key_id x) < 32768 /\
  (forall l, Transmitter_modulation_parameters x = Some l -> zlen l < 256) /\
  (forall a, Transmitter_antenna_pattern x = Some a -> narrow_pattern a /\ Transmitter_antenna_pattern_type x < 8) /\
  Transmitter_vtps x <> [] /\ zlen (Transmitter_vtps x) < 256 /\ Forall (fun v => zlen (vtp_fields v) < 65530) (Transmitter_vtps x) /\
  narrow_type (Transmitter_radio_type x) /\ narrow_place g (Transmitter_antenna_location x) /\ Transmitter_frequency x <= 1670000000000 /\
  f32_finite (Transmitter_bandwidth x) /\ (0 <= f32_value (Transmitter_bandwidth x) <= 13100000000)%R /\ narrow_radio_modulation (Transmitter_modulation_type x).

(** a body C-DIS can carry *)
Definition narrow_body (g : Geo) (b : PduBody) : Prop :=
  match b with
  | BCollision x => narrow_collision x | BFire x => narrow_fire g x | BDetonation x => narrow_detonation g x | BReceiver x => narrow_receiver x
  | BSignal x => narrow_signal x | BEntityState x => narrow_entity_state g x | BDesignator x => narrow_designator g x | BTransmitter x => narrow_transmitter g x
  | _ => False
  end.
Definition narrow_pdu (g : Geo) (p : Pdu) : Prop :=
  u8 (h_exercise (pdu_header p)) /\ h_type (pdu_header p) = body_type (pdu_body p) /\ wf_body (pdu_body p) /\ narrow_body g (pdu_body p).

(** ** What arrives of a place: the altitude, as it left the encoder; the latitude and the longitude shrunk, to about a seventeenth (pi / 54) and a ninth (pi / 28) *)
Definition lat_shrink : R := 0.05817764173.
Definition lon_shrink : R := 0.11219973763.
Definition place_shrunk (g : Geo) (l l' : Location) : Prop :=
  forall lat lon alt, to_lla g (loc_x l) (loc_y l) (loc_z l) = (lat, lon, alt) ->
  exists lat' lon' alt', to_ecef g lat' lon' alt' = (loc_x l', loc_y l', loc_z l') /\ f64_finite lat' /\ f64_finite lon' /\ f64_finite alt' /\
    within (0.0000001 * Rabs (f64_value lat) + 0.000000001) (f64_value lat') (f64_value lat * lat_shrink) /\
    within (0.0000001 * Rabs (f64_value lon) + 0.000000001) (f64_value lon') (f64_value lon * lon_shrink) /\
    within (if Rle_dec (f64_value alt) 83886 then 0.0152 else 10.1 + 0.0000002 * f64_value alt) (f64_value alt') (f64_value alt).
