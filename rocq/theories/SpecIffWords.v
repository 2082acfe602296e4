(** What the status records of an IFF PDU look like on the wire. Bits are numbered from the most significant, as in
    the comments of the library and the tables of IEEE 1278.1-2012 (6.2.13, 6.2.45, annex B.2): a record is a list of
    bit ranges, one for each subfield in the order of its declaration; bits in no range are reserved. *)
From Verif Require Import Base DisCommon IffWords.

(** the number in bits [first..last] of the word [v] of [n] bits *)
Definition bits (n v : Z) (p : Z * Z) : Z := v / 2 ^ (n - 1 - snd p) mod 2 ^ (snd p - fst p + 1).
Definition covered (i : Z) (p : Z * Z) : Prop := fst p <= i <= snd p.
(** the word [v] of [n] bits says the numbers [xs], and its reserved bits are zero *)
Definition says (n : Z) (layout : list (Z * Z)) (v : Z) (xs : list Z) : Prop :=
  0 <= v < 2 ^ n /\ map (bits n v) layout = xs /\ forall i, 0 <= i < n -> Forall (fun p => ~ covered i p) layout -> bits n v (i, i) = 0.
(** the numbers have room in their ranges *)
Definition room (layout : list (Z * Z)) (xs : list Z) : Prop := Forall2 (fun p x => 0 <= x < 2 ^ (snd p - fst p + 1)) layout xs.
(** the word without its reserved bits *)
Definition same_fields (n : Z) (layout : list (Z * Z)) (v v' : Z) : Prop := says n layout v' (map (bits n v) layout).

(** what each value of a two-valued enumeration is called *)
Definition yes (b : bool) : Z := if b then 1 else 0.
Definition code_onoff (x : OnOffStatus) : Z := match x with OnOff_Off => 0 | OnOff_On => 1 end.
Definition code_damage (x : DamageStatus) : Z := match x with Damage_None => 0 | Damage_Damaged => 1 end.
Definition code_malfunction (x : MalfunctionStatus) : Z := match x with Malfunction_None => 0 | Malfunction_Some => 1 end.
Definition code_enabled (x : EnabledStatus) : Z := match x with Enabled_Not => 0 | Enabled_Yes => 1 end.
Definition code_latlon (x : LatLonAltSource) : Z := match x with LatLonAlt_ComputeLocally => 0 | LatLonAlt_RecordPresent => 1 end.
Definition code_presence (x : IffPresence) : Z := match x with Presence_Not => 0 | Presence_Present => 1 end.
Definition code_squitter (x : SquitterStatus) : Z := match x with Squitter_Off => 0 | Squitter_On => 1 end.
Definition code_capable (x : ParameterCapable) : Z := match x with Capable_Yes => 0 | Capable_Not => 1 end.
Definition code_operational (x : OperationalStatus) : Z := match x with Operational_Yes => 0 | Operational_Failed => 1 end.
Definition code_layer (x : LayersPresence) : Z := match x with Layer_Not => 0 | Layer_Present => 1 end.
Definition code_dap (x : DapValue) : Z := match x with Dap_ComputeLocally => 0 | Dap_RecordAvailable => 1 end.

Definition layout_change_options : list (Z * Z) := [(0, 0); (1, 1); (2, 2); (3, 3); (4, 4); (5, 5); (6, 6); (7, 7)].
Definition fields_change_options (x : ChangeOptions) : list Z := [yes (co_change x); yes (co_specific_1 x); yes (co_specific_2 x); yes (co_heartbeat x); yes (co_transponder x); yes (co_simulation x); yes (co_interactive x); yes (co_test x)].

Definition layout_system_status : list (Z * Z) := [(0, 0); (1, 1); (2, 2); (3, 3); (4, 4); (5, 5); (6, 6); (7, 7)].
Definition fields_system_status (x : SystemStatus) : list Z := [code_onoff (sy_on_off x); code_capable (sy_parameter_1 x); code_capable (sy_parameter_2 x); code_capable (sy_parameter_3 x); code_capable (sy_parameter_4 x); code_capable (sy_parameter_5 x); code_capable (sy_parameter_6 x); code_operational (sy_operational x)].

Definition layout_information_layers : list (Z * Z) := [(1, 1); (2, 2); (3, 3); (4, 4); (5, 5); (6, 6); (7, 7)].
Definition fields_information_layers (x : InformationLayers) : list Z := [code_layer (il_layer_1 x); code_layer (il_layer_2 x); code_layer (il_layer_3 x); code_layer (il_layer_4 x); code_layer (il_layer_5 x); code_layer (il_layer_6 x); code_layer (il_layer_7 x)].

Definition layout_m5i_word : list (Z * Z) := [(0, 2); (3, 3); (5, 5); (6, 6); (7, 7)].
Definition fields_m5i_word (x : Mode5InterrogatorStatus) : list Z := [is_mission x; is_formats_status x; code_onoff (is_on_off x); code_damage (is_damage x); code_malfunction (is_malfunction x)].

Definition layout_message_formats : list (Z * Z) := [(0, 0); (1, 1); (2, 2); (3, 3); (4, 4); (5, 5); (6, 6); (7, 7); (8, 8); (9, 9); (10, 10); (11, 11); (12, 12); (13, 13); (14, 14); (15, 15); (16, 16); (17, 17); (18, 18); (19, 19); (20, 20); (21, 21); (22, 22); (23, 23); (24, 24); (25, 25); (26, 26); (27, 27); (28, 28); (29, 29); (30, 30); (31, 31)].
Definition fields_message_formats (x : MessageFormats) : list Z := [code_presence (mf_0 x); code_presence (mf_1 x); code_presence (mf_2 x); code_presence (mf_3 x); code_presence (mf_4 x); code_presence (mf_5 x); code_presence (mf_6 x); code_presence (mf_7 x); code_presence (mf_8 x); code_presence (mf_9 x); code_presence (mf_10 x); code_presence (mf_11 x); code_presence (mf_12 x); code_presence (mf_13 x); code_presence (mf_14 x); code_presence (mf_15 x); code_presence (mf_16 x); code_presence (mf_17 x); code_presence (mf_18 x); code_presence (mf_19 x); code_presence (mf_20 x); code_presence (mf_21 x); code_presence (mf_22 x); code_presence (mf_23 x); code_presence (mf_24 x); code_presence (mf_25 x); code_presence (mf_26 x); code_presence (mf_27 x); code_presence (mf_28 x); code_presence (mf_29 x); code_presence (mf_30 x); code_presence (mf_31 x)].

Definition layout_mode1_code : list (Z * Z) := [(0, 2); (3, 5); (6, 8); (9, 11); (13, 13); (14, 14); (15, 15)].
Definition fields_mode1_code (x : EnhancedMode1Code) : list Z := [em_element_1 x; em_element_2 x; em_element_3 x; em_element_4 x; code_onoff (em_on_off x); code_damage (em_damage x); code_malfunction (em_malfunction x)].

Definition layout_supplemental_data : list (Z * Z) := [(0, 0); (1, 1); (2, 4)].
Definition fields_supplemental_data (x : SupplementalData) : list Z := [code_squitter (sd_squitter x); sd_level_2 x; sd_mission x].

Definition layout_m5t_word : list (Z * Z) := [(0, 3); (4, 4); (5, 6); (7, 7); (8, 8); (9, 9); (10, 10); (11, 11); (13, 13); (14, 14); (15, 15)].
Definition fields_m5t_word (x : Mode5TransponderStatus) : list Z := [ts_reply x; code_enabled (ts_line_test x); ts_antenna x; code_presence (ts_crypto x); code_latlon (ts_lat_lon_alt x); ts_location_errors x; ts_platform x; ts_level x; code_onoff (ts_on_off x); code_damage (ts_damage x); code_malfunction (ts_malfunction x)].

Definition layout_altitude_word : list (Z * Z) := [(0, 10); (11, 11)].
Definition fields_altitude_word (x : ModeSAltitude) : list Z := [al_altitude x; al_resolution x].

Definition layout_msi_word : list (Z * Z) := [(0, 0); (1, 3); (4, 4); (5, 5)].
Definition fields_msi_word (x : ModeSInterrogatorStatus) : list Z := [code_onoff (ss_on_off x); ss_transmit x; code_damage (ss_damage x); code_malfunction (ss_malfunction x)].

Definition layout_levels_word : list (Z * Z) := [(1, 1); (2, 2); (3, 3); (4, 4); (5, 5)].
Definition fields_levels_word (x : ModeSLevels) : list Z := [code_presence (lv_1 x); code_presence (lv_2_els x); code_presence (lv_2_ehs x); code_presence (lv_3 x); code_presence (lv_4 x)].

Definition layout_dap_word : list (Z * Z) := [(0, 0); (1, 1); (2, 2); (3, 3); (4, 4); (5, 5); (6, 6); (7, 7)].
Definition fields_dap_word (x : DapSource) : list Z := [code_dap (da_indicated x); code_dap (da_mach x); code_dap (da_ground x); code_dap (da_heading x); code_dap (da_track_rate x); code_dap (da_track_angle x); code_dap (da_true_airspeed x); code_dap (da_vertical x)].

Definition layout_mst_word : list (Z * Z) := [(0, 0); (1, 3); (4, 4); (5, 5); (6, 6); (7, 7); (8, 8); (9, 9); (13, 13); (14, 14); (15, 15)].
Definition fields_mst_word (x : ModeSTransponderStatus) : list Z := [code_squitter (st_squitter x); st_type x; st_source x; code_presence (st_airborne_position x); code_presence (st_airborne_velocity x); code_presence (st_surface_position x); code_presence (st_identification x); code_presence (st_event_driven x); code_onoff (st_on_off x); code_damage (st_damage x); code_malfunction (st_malfunction x)].

(** a record read from every word as the layout says, written as it says, and coming back from the wire if and only if
    its numbers have room *)
Definition record_on_the_wire {A} (n : Z) (layout : list (Z * Z)) (fields : A -> list Z) (wf : A -> Prop) (read : Z -> A) (write : A -> Z) : Prop :=
  (forall v, 0 <= v < 2 ^ n -> wf (read v) /\ fields (read v) = map (bits n v) layout) /\
  (forall x, wf x -> room layout (fields x) -> says n layout (write x) (fields x)) /\
  (forall x, wf x -> (read (write x) = x <-> room layout (fields x))) /\
  (forall v, 0 <= v < 2 ^ n -> same_fields n layout v (write (read v))).
(** the same, but subfield [k] is read as 1 whatever the word says *)
Definition with_one (k : nat) (xs : list Z) : list Z := firstn k xs ++ [1] ++ skipn (S k) xs.
Definition record_with_stuck_bit {A} (n : Z) (layout : list (Z * Z)) (k : nat) (fields : A -> list Z) (wf : A -> Prop) (read : Z -> A) (write : A -> Z) : Prop :=
  (forall v, 0 <= v < 2 ^ n -> wf (read v) /\ fields (read v) = with_one k (map (bits n v) layout)) /\
  (forall x, wf x -> room layout (fields x) -> says n layout (write x) (fields x)) /\
  (forall x, wf x -> (read (write x) = x <-> room layout (fields x) /\ nth k (fields x) 0 = 1)) /\
  (forall v, 0 <= v < 2 ^ n -> says n layout (write (read v)) (with_one k (map (bits n v) layout))).
