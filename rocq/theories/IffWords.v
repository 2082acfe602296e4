(** The status records of the IFF PDU, subfield by subfield: how they are read from and written to their wire word.
    Source: /repo/dis-rs/src/common/iff/{model,parser,writer}.rs. The PDU model (DisIff.v, CdisIff.v) keeps the words whole.
    Two-valued enumerations are two-constructor types; enumerations generated from SISO-REF-010 are their raw u8 number.
    The readers go through builders whose setters store their argument (builder.rs:219-269, 377-422, 557-657, 683-891,
    944-1058, 1082-1149, 1208-1324); here the record is made at once. *)
From Verif Require Import Base DisCommon.

(** Rust arithmetic on words: [<<] on u8 and u16 drops what is shifted out (in every build), [as u8] truncates. *)
Definition shl8 (v s : Z) : Z := Z.shiftl v s mod 256.
Definition shl16 (v s : Z) : Z := Z.shiftl v s mod 65536.
Definition shl32 (v s : Z) : Z := Z.shiftl v s mod 4294967296.
Definition as_u8 (v : Z) : Z := v mod 256.

(** * Two-valued enumerations: [From<u8>] and [u8::from] *)
(* model.rs:1010-1014; parser.rs:490-497 *)
Inductive OnOffStatus := OnOff_Off | OnOff_On.
Definition onoff_of (v : Z) : OnOffStatus := if v =? 0 then OnOff_Off else OnOff_On.
(* writer.rs:323-330 *)
Definition onoff_num (x : OnOffStatus) : Z := match x with OnOff_Off => 0 | OnOff_On => 1 end.
(* model.rs:1018-1022; parser.rs:499-506 *)
Inductive DamageStatus := Damage_None | Damage_Damaged.
Definition damage_of (v : Z) : DamageStatus := if v =? 0 then Damage_None else Damage_Damaged.
(* writer.rs:332-339 *)
Definition damage_num (x : DamageStatus) : Z := match x with Damage_None => 0 | Damage_Damaged => 1 end.
(* model.rs:1026-1030; parser.rs:508-515 *)
Inductive MalfunctionStatus := Malfunction_None | Malfunction_Some.
Definition malfunction_of (v : Z) : MalfunctionStatus := if v =? 0 then Malfunction_None else Malfunction_Some.
(* writer.rs:341-348 *)
Definition malfunction_num (x : MalfunctionStatus) : Z := match x with Malfunction_None => 0 | Malfunction_Some => 1 end.
(* model.rs:1034-1038; parser.rs:517-524 *)
Inductive EnabledStatus := Enabled_Not | Enabled_Yes.
Definition enabled_of (v : Z) : EnabledStatus := if v =? 0 then Enabled_Not else Enabled_Yes.
(* writer.rs:350-357 *)
Definition enabled_num (x : EnabledStatus) : Z := match x with Enabled_Not => 0 | Enabled_Yes => 1 end.
(* model.rs:1043-1047; parser.rs:526-533 *)
Inductive LatLonAltSource := LatLonAlt_ComputeLocally | LatLonAlt_RecordPresent.
Definition latlon_of (v : Z) : LatLonAltSource := if v =? 0 then LatLonAlt_ComputeLocally else LatLonAlt_RecordPresent.
(* writer.rs:359-366 *)
Definition latlon_num (x : LatLonAltSource) : Z := match x with LatLonAlt_ComputeLocally => 0 | LatLonAlt_RecordPresent => 1 end.
(* model.rs:1359-1363; parser.rs:535-542 *)
Inductive IffPresence := Presence_Not | Presence_Present.
Definition presence_of (v : Z) : IffPresence := if v =? 0 then Presence_Not else Presence_Present.
(* writer.rs:421-437 *)
Definition presence_num (x : IffPresence) : Z := match x with Presence_Not => 0 | Presence_Present => 1 end.
(* model.rs:1489-1493; parser.rs:544-551 *)
Inductive SquitterStatus := Squitter_Off | Squitter_On.
Definition squitter_of (v : Z) : SquitterStatus := if v =? 0 then Squitter_Off else Squitter_On.
(* writer.rs:505-512 *)
Definition squitter_num (x : SquitterStatus) : Z := match x with Squitter_Off => 0 | Squitter_On => 1 end.
(* model.rs:393-397; parser.rs:553-560 *)
Inductive ParameterCapable := Capable_Yes | Capable_Not.
Definition capable_of (v : Z) : ParameterCapable := if v =? 0 then Capable_Yes else Capable_Not.
(* writer.rs:126-133 *)
Definition capable_num (x : ParameterCapable) : Z := match x with Capable_Yes => 0 | Capable_Not => 1 end.
(* model.rs:402-406; parser.rs:562-569 *)
Inductive OperationalStatus := Operational_Yes | Operational_Failed.
Definition operational_of (v : Z) : OperationalStatus := if v =? 0 then Operational_Yes else Operational_Failed.
(* writer.rs:135-142 *)
Definition operational_num (x : OperationalStatus) : Z := match x with Operational_Yes => 0 | Operational_Failed => 1 end.
(* model.rs:411-415; parser.rs:571-577 *)
Inductive LayersPresence := Layer_Not | Layer_Present.
Definition layer_of (v : Z) : LayersPresence := if v =? 0 then Layer_Not else Layer_Present.
(* writer.rs:144-151 *)
Definition layer_num (x : LayersPresence) : Z := match x with Layer_Not => 0 | Layer_Present => 1 end.
(* model.rs:664-668; parser.rs:271-278 *)
Inductive DapValue := Dap_ComputeLocally | Dap_RecordAvailable.
Definition dap_of (v : Z) : DapValue := if v =? 0 then Dap_ComputeLocally else Dap_RecordAvailable.
(* writer.rs:258-265 *)
Definition dap_num (x : DapValue) : Z := match x with Dap_ComputeLocally => 0 | Dap_RecordAvailable => 1 end.

(** * Records *)
(* model.rs:282-291 *)
Record ChangeOptions := MkChangeOptions { co_change : bool; co_specific_1 : bool; co_specific_2 : bool; co_heartbeat : bool; co_transponder : bool; co_simulation : bool; co_interactive : bool; co_test : bool }.
(* model.rs:299-336 *)
Definition change_options_of (v : Z) : ChangeOptions := MkChangeOptions
  (negb (Z.shiftr (Z.land v 128) 7 =? 0))
  (negb (Z.shiftr (Z.land v 64) 6 =? 0))
  (negb (Z.shiftr (Z.land v 32) 5 =? 0))
  (negb (Z.shiftr (Z.land v 16) 4 =? 0))
  (negb (Z.shiftr (Z.land v 8) 3 =? 0))
  (negb (Z.shiftr (Z.land v 4) 2 =? 0))
  (negb (Z.shiftr (Z.land v 2) 1 =? 0))
  (negb (Z.land v 1 =? 0)).
(* model.rs:338-366 *)
Definition change_options_num (x : ChangeOptions) : Z :=
  (if co_change x then 128 else 0) + (if co_specific_1 x then 64 else 0) + (if co_specific_2 x then 32 else 0) + (if co_heartbeat x then 16 else 0) + (if co_transponder x then 8 else 0) + (if co_simulation x then 4 else 0) + (if co_interactive x then 2 else 0) + (if co_test x then 1 else 0).
Definition wf_ChangeOptions (x : ChangeOptions) : Prop := True.
(* model.rs:1497-1506 *)
Record SystemStatus := MkSystemStatus { sy_on_off : OnOffStatus; sy_parameter_1 : ParameterCapable; sy_parameter_2 : ParameterCapable; sy_parameter_3 : ParameterCapable; sy_parameter_4 : ParameterCapable; sy_parameter_5 : ParameterCapable; sy_parameter_6 : ParameterCapable; sy_operational : OperationalStatus }.
(* model.rs:1518-1540 *)
Definition system_status_of (v : Z) : SystemStatus := MkSystemStatus
  (onoff_of (Z.shiftr (Z.land v 128) 7))
  (capable_of (Z.shiftr (Z.land v 64) 6))
  (capable_of (Z.shiftr (Z.land v 32) 5))
  (capable_of (Z.shiftr (Z.land v 16) 4))
  (capable_of (Z.shiftr (Z.land v 8) 3))
  (capable_of (Z.shiftr (Z.land v 4) 2))
  (capable_of (Z.shiftr (Z.land v 2) 1))
  (operational_of (Z.land v 1)).
(* model.rs:1542-1556 *)
Definition system_status_num (x : SystemStatus) : Z :=
  Z.lor (Z.lor (Z.lor (Z.lor (Z.lor (Z.lor (Z.lor (shl8 (onoff_num (sy_on_off x)) 7) (shl8 (capable_num (sy_parameter_1 x)) 6)) (shl8 (capable_num (sy_parameter_2 x)) 5)) (shl8 (capable_num (sy_parameter_3 x)) 4)) (shl8 (capable_num (sy_parameter_4 x)) 3)) (shl8 (capable_num (sy_parameter_5 x)) 2)) (shl8 (capable_num (sy_parameter_6 x)) 1)) (operational_num (sy_operational x)).
Definition wf_SystemStatus (x : SystemStatus) : Prop := True.
(* model.rs:467-475 *)
Record InformationLayers := MkInformationLayers { il_layer_1 : LayersPresence; il_layer_2 : LayersPresence; il_layer_3 : LayersPresence; il_layer_4 : LayersPresence; il_layer_5 : LayersPresence; il_layer_6 : LayersPresence; il_layer_7 : LayersPresence }.
(* model.rs:483-503 *)
Definition information_layers_of (v : Z) : InformationLayers := MkInformationLayers
  (layer_of (Z.shiftr (Z.land v 64) 6))
  (layer_of (Z.shiftr (Z.land v 32) 5))
  (layer_of (Z.shiftr (Z.land v 16) 4))
  (layer_of (Z.shiftr (Z.land v 8) 3))
  (layer_of (Z.shiftr (Z.land v 4) 2))
  (layer_of (Z.shiftr (Z.land v 2) 1))
  (layer_of (Z.land v 1)).
(* model.rs:505-517 *)
Definition information_layers_num (x : InformationLayers) : Z :=
  Z.lor (Z.lor (Z.lor (Z.lor (Z.lor (Z.lor (shl8 (layer_num (il_layer_1 x)) 6) (shl8 (layer_num (il_layer_2 x)) 5)) (shl8 (layer_num (il_layer_3 x)) 4)) (shl8 (layer_num (il_layer_4 x)) 3)) (shl8 (layer_num (il_layer_5 x)) 2)) (shl8 (layer_num (il_layer_6 x)) 1)) (layer_num (il_layer_7 x)).
Definition wf_InformationLayers (x : InformationLayers) : Prop := True.
(* model.rs:766-773 *)
Record Mode5InterrogatorStatus := MkMode5InterrogatorStatus { is_mission : Z; is_formats_status : Z; is_on_off : OnOffStatus; is_damage : DamageStatus; is_malfunction : MalfunctionStatus }.
(* model.rs:783-803 *)
Definition m5i_word_of (v : Z) : Mode5InterrogatorStatus := MkMode5InterrogatorStatus
  (Z.shiftr (Z.land v 224) 5)
  (Z.shiftr (Z.land v 16) 4)
  (onoff_of (Z.shiftr (Z.land v 4) 2))
  (damage_of (Z.shiftr (Z.land v 2) 1))
  (malfunction_of (Z.land v 1)).
(* model.rs:805-819 *)
Definition m5i_word_num (x : Mode5InterrogatorStatus) : Z :=
  Z.lor (Z.lor (Z.lor (Z.lor (shl8 (is_mission x) 5) (shl8 (is_formats_status x) 4)) (shl8 (onoff_num (is_on_off x)) 2)) (shl8 (damage_num (is_damage x)) 1)) (malfunction_num (is_malfunction x)).
Definition wf_Mode5InterrogatorStatus (x : Mode5InterrogatorStatus) : Prop := u8 (is_mission x) /\ u8 (is_formats_status x).
(* model.rs:822-856 *)
Record MessageFormats := MkMessageFormats { mf_0 : IffPresence; mf_1 : IffPresence; mf_2 : IffPresence; mf_3 : IffPresence; mf_4 : IffPresence; mf_5 : IffPresence; mf_6 : IffPresence; mf_7 : IffPresence; mf_8 : IffPresence; mf_9 : IffPresence; mf_10 : IffPresence; mf_11 : IffPresence; mf_12 : IffPresence; mf_13 : IffPresence; mf_14 : IffPresence; mf_15 : IffPresence; mf_16 : IffPresence; mf_17 : IffPresence; mf_18 : IffPresence; mf_19 : IffPresence; mf_20 : IffPresence; mf_21 : IffPresence; mf_22 : IffPresence; mf_23 : IffPresence; mf_24 : IffPresence; mf_25 : IffPresence; mf_26 : IffPresence; mf_27 : IffPresence; mf_28 : IffPresence; mf_29 : IffPresence; mf_30 : IffPresence; mf_31 : IffPresence }.
(* model.rs:868-938 *)
Definition message_formats_of (v : Z) : MessageFormats := MkMessageFormats
  (presence_of (Z.land (as_u8 (Z.shiftr v 31)) 1))
  (presence_of (Z.land (as_u8 (Z.shiftr v 30)) 1))
  (presence_of (Z.land (as_u8 (Z.shiftr v 29)) 1))
  (presence_of (Z.land (as_u8 (Z.shiftr v 28)) 1))
  (presence_of (Z.land (as_u8 (Z.shiftr v 27)) 1))
  (presence_of (Z.land (as_u8 (Z.shiftr v 26)) 1))
  (presence_of (Z.land (as_u8 (Z.shiftr v 25)) 1))
  (presence_of (Z.land (as_u8 (Z.shiftr v 24)) 1))
  (presence_of (Z.land (as_u8 (Z.shiftr v 23)) 1))
  (presence_of (Z.land (as_u8 (Z.shiftr v 22)) 1))
  (presence_of (Z.land (as_u8 (Z.shiftr v 21)) 1))
  (presence_of (Z.land (as_u8 (Z.shiftr v 20)) 1))
  (presence_of (Z.land (as_u8 (Z.shiftr v 19)) 1))
  (presence_of (Z.land (as_u8 (Z.shiftr v 18)) 1))
  (presence_of (Z.land (as_u8 (Z.shiftr v 17)) 1))
  (presence_of (Z.land (as_u8 (Z.shiftr v 16)) 1))
  (presence_of (Z.land (as_u8 (Z.shiftr v 15)) 1))
  (presence_of (Z.land (as_u8 (Z.shiftr v 14)) 1))
  (presence_of (Z.land (as_u8 (Z.shiftr v 13)) 1))
  (presence_of (Z.land (as_u8 (Z.shiftr v 12)) 1))
  (presence_of (Z.land (as_u8 (Z.shiftr v 11)) 1))
  (presence_of (Z.land (as_u8 (Z.shiftr v 10)) 1))
  (presence_of (Z.land (as_u8 (Z.shiftr v 9)) 1))
  (presence_of (Z.land (as_u8 (Z.shiftr v 8)) 1))
  (presence_of (Z.land (as_u8 (Z.shiftr v 7)) 1))
  (presence_of (Z.land (as_u8 (Z.shiftr v 6)) 1))
  (presence_of (Z.land (as_u8 (Z.shiftr v 5)) 1))
  (presence_of (Z.land (as_u8 (Z.shiftr v 4)) 1))
  (presence_of (Z.land (as_u8 (Z.shiftr v 3)) 1))
  (presence_of (Z.land (as_u8 (Z.shiftr v 2)) 1))
  (presence_of (Z.land (as_u8 (Z.shiftr v 1)) 1))
  (presence_of (Z.land (as_u8 v) 1)).
(* model.rs:940-983 *)
Definition message_formats_num (x : MessageFormats) : Z :=
  Z.lor (Z.lor (Z.lor (Z.lor (Z.lor (Z.lor (Z.lor (Z.lor (Z.lor (Z.lor (Z.lor (Z.lor (Z.lor (Z.lor (Z.lor (Z.lor (Z.lor (Z.lor (Z.lor (Z.lor (Z.lor (Z.lor (Z.lor (Z.lor (Z.lor (Z.lor (Z.lor (Z.lor (Z.lor (Z.lor (Z.lor (shl32 (presence_num (mf_0 x)) 31) (shl32 (presence_num (mf_1 x)) 30)) (shl32 (presence_num (mf_2 x)) 29)) (shl32 (presence_num (mf_3 x)) 28)) (shl32 (presence_num (mf_4 x)) 27)) (shl32 (presence_num (mf_5 x)) 26)) (shl32 (presence_num (mf_6 x)) 25)) (shl32 (presence_num (mf_7 x)) 24)) (shl32 (presence_num (mf_8 x)) 23)) (shl32 (presence_num (mf_9 x)) 22)) (shl32 (presence_num (mf_10 x)) 21)) (shl32 (presence_num (mf_11 x)) 20)) (shl32 (presence_num (mf_12 x)) 19)) (shl32 (presence_num (mf_13 x)) 18)) (shl32 (presence_num (mf_14 x)) 17)) (shl32 (presence_num (mf_15 x)) 16)) (shl32 (presence_num (mf_16 x)) 15)) (shl32 (presence_num (mf_17 x)) 14)) (shl32 (presence_num (mf_18 x)) 13)) (shl32 (presence_num (mf_19 x)) 12)) (shl32 (presence_num (mf_20 x)) 11)) (shl32 (presence_num (mf_21 x)) 10)) (shl32 (presence_num (mf_22 x)) 9)) (shl32 (presence_num (mf_23 x)) 8)) (shl32 (presence_num (mf_24 x)) 7)) (shl32 (presence_num (mf_25 x)) 6)) (shl32 (presence_num (mf_26 x)) 5)) (shl32 (presence_num (mf_27 x)) 4)) (shl32 (presence_num (mf_28 x)) 3)) (shl32 (presence_num (mf_29 x)) 2)) (shl32 (presence_num (mf_30 x)) 1)) (presence_num (mf_31 x)).
Definition wf_MessageFormats (x : MessageFormats) : Prop := True.
(* model.rs:672-680 *)
Record EnhancedMode1Code := MkEnhancedMode1Code { em_element_1 : Z; em_element_2 : Z; em_element_3 : Z; em_element_4 : Z; em_on_off : OnOffStatus; em_damage : DamageStatus; em_malfunction : MalfunctionStatus }.
(* model.rs:692-723 *)
Definition mode1_code_of (v : Z) : EnhancedMode1Code := MkEnhancedMode1Code
  (Z.shiftr (Z.land v 57344) 13)
  (Z.shiftr (Z.land v 7168) 10)
  (Z.shiftr (Z.land v 896) 7)
  (Z.shiftr (Z.land v 112) 4)
  (onoff_of (as_u8 (Z.shiftr (Z.land v 4) 2)))
  (damage_of (as_u8 (Z.shiftr (Z.land v 2) 1)))
  (malfunction_of (as_u8 (Z.land v 1))).
(* model.rs:725-743 *)
Definition mode1_code_num (x : EnhancedMode1Code) : Z :=
  Z.lor (Z.lor (Z.lor (Z.lor (Z.lor (Z.lor (shl16 (em_element_1 x) 13) (shl16 (em_element_2 x) 10)) (shl16 (em_element_3 x) 7)) (shl16 (em_element_4 x) 4)) (shl16 (onoff_num (em_on_off x)) 2)) (shl16 (damage_num (em_damage x)) 1)) (malfunction_num (em_malfunction x)).
Definition wf_EnhancedMode1Code (x : EnhancedMode1Code) : Prop := u16 (em_element_1 x) /\ u16 (em_element_2 x) /\ u16 (em_element_3 x) /\ u16 (em_element_4 x).
(* model.rs:1051-1055 *)
Record SupplementalData := MkSupplementalData { sd_squitter : SquitterStatus; sd_level_2 : Z; sd_mission : Z }.
(* model.rs:1067-1080 *)
Definition supplemental_data_of (v : Z) : SupplementalData := MkSupplementalData
  (squitter_of (Z.shiftr (Z.land v 128) 7))
  (Z.shiftr (Z.land v 64) 6)
  (Z.shiftr (Z.land v 56) 3).
(* model.rs:1082-1092 *)
Definition supplemental_data_num (x : SupplementalData) : Z :=
  Z.lor (Z.lor (shl8 (squitter_num (sd_squitter x)) 7) (shl8 (sd_level_2 x) 6)) (shl8 (sd_mission x) 3).
Definition wf_SupplementalData (x : SupplementalData) : Prop := u8 (sd_level_2 x) /\ u8 (sd_mission x).
(* model.rs:1096-1108 *)
Record Mode5TransponderStatus := MkMode5TransponderStatus { ts_reply : Z; ts_line_test : EnabledStatus; ts_antenna : Z; ts_crypto : IffPresence; ts_lat_lon_alt : LatLonAltSource; ts_location_errors : Z; ts_platform : Z; ts_level : Z; ts_on_off : OnOffStatus; ts_damage : DamageStatus; ts_malfunction : MalfunctionStatus }.
(* model.rs:1120-1159 *)
Definition m5t_word_of (v : Z) : Mode5TransponderStatus := MkMode5TransponderStatus
  (as_u8 (Z.shiftr (Z.land v 61440) 12))
  (enabled_of (as_u8 (Z.shiftr (Z.land v 2048) 11)))
  (as_u8 (Z.shiftr (Z.land v 1536) 9))
  (presence_of (as_u8 (Z.shiftr (Z.land v 256) 8)))
  (latlon_of (as_u8 (Z.shiftr (Z.land v 128) 7)))
  (as_u8 (Z.shiftr (Z.land v 64) 6))
  (as_u8 (Z.shiftr (Z.land v 32) 5))
  (as_u8 (Z.shiftr (Z.land v 16) 4))
  (onoff_of (as_u8 (Z.shiftr (Z.land v 4) 2)))
  (damage_of (as_u8 (Z.shiftr (Z.land v 2) 1)))
  (malfunction_of (as_u8 (Z.land v 1))).
(* model.rs:1161-1193 *)
Definition m5t_word_num (x : Mode5TransponderStatus) : Z :=
  Z.lor (shl16 (Z.lor (Z.lor (Z.lor (shl8 (ts_reply x) 4) (shl8 (enabled_num (ts_line_test x)) 3)) (shl8 (ts_antenna x) 1)) (presence_num (ts_crypto x))) 8)
    (Z.lor (Z.lor (Z.lor (Z.lor (Z.lor (Z.lor (shl8 (latlon_num (ts_lat_lon_alt x)) 7) (shl8 (ts_location_errors x) 6)) (shl8 (ts_platform x) 5)) (shl8 (ts_level x) 4)) (shl8 (onoff_num (ts_on_off x)) 2)) (shl8 (damage_num (ts_damage x)) 1)) (malfunction_num (ts_malfunction x))).
Definition wf_Mode5TransponderStatus (x : Mode5TransponderStatus) : Prop := u8 (ts_reply x) /\ u8 (ts_antenna x) /\ u8 (ts_location_errors x) /\ u8 (ts_platform x) /\ u8 (ts_level x).
(* model.rs:1197-1200 *)
Record ModeSAltitude := MkModeSAltitude { al_altitude : Z; al_resolution : Z }.
(* model.rs:1212-1225 *)
Definition altitude_word_of (v : Z) : ModeSAltitude := MkModeSAltitude
  (Z.shiftr (Z.land v 65504) 5)
  (Z.shiftr (as_u8 (Z.land v 16)) 4).
(* model.rs:1227-1234 *)
Definition altitude_word_num (x : ModeSAltitude) : Z := Z.lor (shl16 (al_altitude x) 5) (shl16 (al_resolution x) 4).
Definition wf_ModeSAltitude (x : ModeSAltitude) : Prop := u16 (al_altitude x) /\ u8 (al_resolution x).
(* model.rs:1255-1260 *)
Record ModeSInterrogatorStatus := MkModeSInterrogatorStatus { ss_on_off : OnOffStatus; ss_transmit : Z; ss_damage : DamageStatus; ss_malfunction : MalfunctionStatus }.
(* model.rs:1272-1287 -- a constant is tested instead of the record in one of the bits *)
Definition msi_word_of (v : Z) : ModeSInterrogatorStatus := MkModeSInterrogatorStatus
  (onoff_of (Z.shiftr (Z.land v 128) 7))
  (Z.shiftr (Z.land v 112) 4)
  (damage_of (Z.shiftr (Z.land v 8) 3))
  (malfunction_of (Z.shiftr (Z.land 4 4) 2)).
(* model.rs:1289-1301 *)
Definition msi_word_num (x : ModeSInterrogatorStatus) : Z :=
  Z.lor (Z.lor (Z.lor (shl8 (onoff_num (ss_on_off x)) 7) (shl8 (ss_transmit x) 4)) (shl8 (damage_num (ss_damage x)) 3)) (shl8 (malfunction_num (ss_malfunction x)) 2).
Definition wf_ModeSInterrogatorStatus (x : ModeSInterrogatorStatus) : Prop := u8 (ss_transmit x).
(* model.rs:1305-1311 *)
Record ModeSLevels := MkModeSLevels { lv_1 : IffPresence; lv_2_els : IffPresence; lv_2_ehs : IffPresence; lv_3 : IffPresence; lv_4 : IffPresence }.
(* model.rs:1323-1339 -- a constant is tested instead of the record in one of the bits *)
Definition levels_word_of (v : Z) : ModeSLevels := MkModeSLevels
  (presence_of (Z.shiftr (Z.land v 64) 6))
  (presence_of (Z.shiftr (Z.land v 32) 5))
  (presence_of (Z.shiftr (Z.land v 16) 4))
  (presence_of (Z.shiftr (Z.land v 8) 3))
  (presence_of (Z.shiftr (Z.land 4 4) 2)).
(* model.rs:1341-1355 *)
Definition levels_word_num (x : ModeSLevels) : Z :=
  Z.lor (Z.lor (Z.lor (Z.lor (shl8 (presence_num (lv_1 x)) 6) (shl8 (presence_num (lv_2_els x)) 5)) (shl8 (presence_num (lv_2_ehs x)) 4)) (shl8 (presence_num (lv_3 x)) 3)) (shl8 (presence_num (lv_4 x)) 2).
Definition wf_ModeSLevels (x : ModeSLevels) : Prop := True.
(* model.rs:594-603 *)
Record DapSource := MkDapSource { da_indicated : DapValue; da_mach : DapValue; da_ground : DapValue; da_heading : DapValue; da_track_rate : DapValue; da_track_angle : DapValue; da_true_airspeed : DapValue; da_vertical : DapValue }.
(* model.rs:616-638 -- a constant is tested instead of the record in one of the bits *)
Definition dap_word_of (v : Z) : DapSource := MkDapSource
  (dap_of (Z.shiftr (Z.land v 128) 7))
  (dap_of (Z.shiftr (Z.land v 64) 6))
  (dap_of (Z.shiftr (Z.land v 32) 5))
  (dap_of (Z.shiftr (Z.land v 16) 4))
  (dap_of (Z.shiftr (Z.land 8 8) 3))
  (dap_of (Z.shiftr (Z.land v 4) 2))
  (dap_of (Z.shiftr (Z.land v 2) 1))
  (dap_of (Z.land v 1)).
(* model.rs:640-660, writer.rs:233-256 *)
Definition dap_word_num (x : DapSource) : Z :=
  Z.lor (Z.lor (Z.lor (Z.lor (Z.lor (Z.lor (Z.lor (shl8 (dap_num (da_indicated x)) 7) (shl8 (dap_num (da_mach x)) 6)) (shl8 (dap_num (da_ground x)) 5)) (shl8 (dap_num (da_heading x)) 4)) (shl8 (dap_num (da_track_rate x)) 3)) (shl8 (dap_num (da_track_angle x)) 2)) (shl8 (dap_num (da_true_airspeed x)) 1)) (dap_num (da_vertical x)).
Definition wf_DapSource (x : DapSource) : Prop := True.
(* model.rs:1391-1403 *)
Record ModeSTransponderStatus := MkModeSTransponderStatus { st_squitter : SquitterStatus; st_type : Z; st_source : Z; st_airborne_position : IffPresence; st_airborne_velocity : IffPresence; st_surface_position : IffPresence; st_identification : IffPresence; st_event_driven : IffPresence; st_on_off : OnOffStatus; st_damage : DamageStatus; st_malfunction : MalfunctionStatus }.
(* model.rs:1415-1455 *)
Definition mst_word_of (v : Z) : ModeSTransponderStatus := MkModeSTransponderStatus
  (squitter_of (as_u8 (Z.shiftr (Z.land v 32768) 15)))
  (as_u8 (Z.shiftr (Z.land v 28672) 12))
  (as_u8 (Z.shiftr (Z.land v 2048) 11))
  (presence_of (as_u8 (Z.shiftr (Z.land v 1024) 10)))
  (presence_of (as_u8 (Z.shiftr (Z.land v 512) 9)))
  (presence_of (as_u8 (Z.shiftr (Z.land v 256) 8)))
  (presence_of (as_u8 (Z.shiftr (Z.land v 128) 7)))
  (presence_of (as_u8 (Z.shiftr (Z.land v 64) 6)))
  (onoff_of (as_u8 (Z.shiftr (Z.land v 4) 2)))
  (damage_of (as_u8 (Z.shiftr (Z.land v 2) 1)))
  (malfunction_of (as_u8 (Z.land v 1))).
(* model.rs:1457-1484, writer.rs:469-502 *)
Definition mst_word_num (x : ModeSTransponderStatus) : Z :=
  Z.lor (shl16 (Z.lor (Z.lor (Z.lor (Z.lor (Z.lor (shl8 (squitter_num (st_squitter x)) 7) (shl8 (st_type x) 4)) (shl8 (st_source x) 3)) (shl8 (presence_num (st_airborne_position x)) 2)) (shl8 (presence_num (st_airborne_velocity x)) 1)) (presence_num (st_surface_position x))) 8)
    (Z.lor (Z.lor (Z.lor (Z.lor (shl8 (presence_num (st_identification x)) 7) (shl8 (presence_num (st_event_driven x)) 6)) (shl8 (onoff_num (st_on_off x)) 2)) (shl8 (damage_num (st_damage x)) 1)) (malfunction_num (st_malfunction x))).
Definition wf_ModeSTransponderStatus (x : ModeSTransponderStatus) : Prop := u8 (st_type x) /\ u8 (st_source x).
