(** * Across the C-DIS wire: IFF *)
From Coq Require Import ZArith List Reals.
From Verif Require Import Base CdisBase DisCommon DisHeader DisLists DisSimman DisLogistics DisWarfare DisEntity DisEmission DisRadio DisIff DisPdu DisPacket
  CdisRecords CdisBodies1 CdisBodies2 CdisIff CdisPdu CdisCodec1 CdisCodec2 CdisCodec3 SpecFloatValue SpecContent SpecBody SpecCross.
Import ListNotations. Open Scope Z_scope.

(** ** What C-DIS has room for *)
(** four bits for the system type, five for the name, three for the mode *)
Definition narrow_system (s : SystemId) : Prop := si_type s < 16 /\ si_name s < 32 /\ si_mode s < 8.
(** beam angles up to 900 radians, a sweep position up to 100 percent *)
Definition narrow_beam (b : BeamData) : Prop :=
  (forall a, In a [bd_azc b; bd_azs b; bd_elc b; bd_els b] -> f32_finite a /\ (-900 <= f32_value a <= 900)%R) /\ f32_finite (bd_sync b) /\ (f32_value (bd_sync b) <= 100)%R.
(** ten bits for a repetition rate, a pulse width and a burst length; three for the applicable modes *)
Definition narrow_interrogation (p : IffParameter) : Prop :=
  f32_finite (ip_frequency p) /\ (0 <= f32_value (ip_frequency p) <= 13100000000)%R /\ ip_modes p < 8 /\
  forall a, In a [ip_pgrf p; ip_pulse_width p; ip_burst p] -> f32_finite a /\ (0 <= f32_value a <= 1023)%R.
(** sixteen bits for the type of a data record, one octet for its length, five bits for their number; a layer of less than 16384 bits *)
Definition narrow_records (l : list IffDataRecord) : Prop :=
  (forall r, In r l -> idr_type r < 65536 /\ zlen (idr_fields r) <= 252) /\ zlen l <= 31 /\ zsum (map (fun r => 3 + zlen (idr_fields r)) l) <= 2000.
Definition narrow_layer_2 (l : IffLayer2) : Prop :=
  lh_number (l2_header l) < 16 /\ narrow_beam (l2_beam l) /\ zlen (l2_params l) <= 188 /\ Forall narrow_interrogation (l2_params l).
(** three bits for the navigation source, five for the figure of merit; the kind of basic data is the one the system type announces (C09) *)
Definition narrow_mode5 (b : Mode5BasicData) : Prop := match b with M5Interrogator _ => True | M5Transponder t => m5t_nav t < 8 /\ m5t_merit t < 32 end.
Definition narrow_modes (b : ModeSBasicData) : Prop := match b with MSInterrogator _ => True | MSTransponder t => mst_domain t < 8 /\ mst_idtype t < 8 end.
Definition narrow_layer_3 (system_type : Z) (l : IffLayer3) : Prop :=
  lh_number (l3_header l) < 16 /\ narrow_mode5 (l3_basic l) /\ m5_ok system_type (l3_basic l) /\ narrow_records (l3_records l).
Definition narrow_layer_4 (system_type : Z) (l : IffLayer4) : Prop :=
  lh_number (l4_header l) < 16 /\ narrow_modes (l4_basic l) /\ ms_ok system_type (l4_basic l) /\ narrow_records (l4_records l).
Definition narrow_layer_5 (l : IffLayer5) : Prop :=
  lh_number (l5_header l) < 16 /\ l5_layers l < 64 /\ l5_category l < 8 /\ narrow_records (l5_records l).
(** the information layers (bits 2 to 5 from the left) name the layers that are there *)
Definition layers_announced (x : Iff) : Prop :=
  fo_layers (Iff_data x) < 128 /\
  is_some (Iff_layer_2 x) = Z.testbit (fo_layers (Iff_data x)) 5 /\ is_some (Iff_layer_3 x) = Z.testbit (fo_layers (Iff_data x)) 4 /\
  is_some (Iff_layer_4 x) = Z.testbit (fo_layers (Iff_data x)) 3 /\ is_some (Iff_layer_5 x) = Z.testbit (fo_layers (Iff_data x)) 2.
Definition narrow_iff (x : Iff) : Prop :=
  narrow_system (Iff_system_id x) /\ layers_announced x /\
  (forall l, Iff_layer_2 x = Some l -> narrow_layer_2 l) /\ (forall l, Iff_layer_3 x = Some l -> narrow_layer_3 (si_type (Iff_system_id x)) l) /\
  (forall l, Iff_layer_4 x = Some l -> narrow_layer_4 (si_type (Iff_system_id x)) l) /\ (forall l, Iff_layer_5 x = Some l -> narrow_layer_5 l).
Definition narrow_iff_pdu (p : Pdu) (x : Iff) : Prop :=
  u8 (h_exercise (pdu_header p)) /\ pdu_body p = BIff x /\ h_type (pdu_header p) = 28 /\ wf_Iff x /\ narrow_iff x.
(** neither layer 3 nor layer 4 *)
Definition no_basic_data (x : Iff) : Prop := Iff_layer_3 x = None /\ Iff_layer_4 x = None.

(** ** What arrives *)
(** of a beam the azimuth centre, in the place of all four angles, and the sweep position *)
Definition beam_smeared (b b' : BeamData) : Prop :=
  let angle := arrives 0.1235 (-100) 100 in
  angle (bd_azc b) (bd_azc b') /\ bd_azs b' = bd_azc b' /\ bd_elc b' = bd_azc b' /\ bd_els b' = bd_azc b' /\ arrives 0.05 0 100 (bd_sync b) (bd_sync b').
Definition layer2_crossed (x y : IffLayer2) : Prop :=
  lh_number (l2_header y) = lh_number (l2_header x) /\ lh_specific (l2_header y) = lh_specific (l2_header x) /\
  beam_smeared (l2_beam x) (l2_beam y) /\ l2_op1 y = l2_op1 x /\ l2_op2 y = l2_op2 x /\ Forall2 interrogation_kept (l2_params x) (l2_params y).
(** everything but the six parameters of the fundamental operational data, and the system identification, which is not in a partial update *)
Definition iff_crossed (x y : Iff) : Prop :=
  Iff_emitting_entity_id y = Iff_emitting_entity_id x /\ Iff_event_id y = Iff_event_id x /\ coordinates_kept (Iff_antenna x) (Iff_antenna y) /\
  Iff_designator y = Iff_designator x /\ Iff_specific y = Iff_specific x /\
  fo_status (Iff_data y) = fo_status (Iff_data x) /\ fo_field1 (Iff_data y) = fo_field1 (Iff_data x) /\ fo_layers (Iff_data y) = fo_layers (Iff_data x) /\
  fo_field2 (Iff_data y) = fo_field2 (Iff_data x) /\
  each_or_none layer2_crossed (Iff_layer_2 x) (Iff_layer_2 y) /\ each_or_none layer3_kept (Iff_layer_3 x) (Iff_layer_3 y) /\
  each_or_none layer4_kept (Iff_layer_4 x) (Iff_layer_4 y) /\ each_or_none layer5_kept (Iff_layer_5 x) (Iff_layer_5 y).
