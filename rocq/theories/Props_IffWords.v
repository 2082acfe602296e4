(** * Properties: IffWords

    Theorems only: each is closed by the lemma of the same name in L_IffWords.v. *)
From Coq Require Import ZArith List Lia Bool String Ascii.
From Verif Require Import Base DisCommon IffWords SpecIffWords IffWordsLemmas DisIff L_IffWords.
Import ListNotations. Open Scope Z_scope.

(** C59. The change and options record is read from every word, and written, as the layout says; it comes back from the wire if and only if its numbers have room. *)
Theorem iff_change_options_on_the_wire : record_on_the_wire 8 layout_change_options fields_change_options wf_ChangeOptions change_options_of change_options_num.
Proof. exact iff_change_options_on_the_wire_pf. Qed.
Print Assumptions iff_change_options_on_the_wire.

(** C59. The system status record is read from every word, and written, as the layout says; it comes back from the wire if and only if its numbers have room. *)
Theorem iff_system_status_on_the_wire : record_on_the_wire 8 layout_system_status fields_system_status wf_SystemStatus system_status_of system_status_num.
Proof. exact iff_system_status_on_the_wire_pf. Qed.
Print Assumptions iff_system_status_on_the_wire.

(** C59. The information layers record is read from every word, and written, as the layout says; it comes back from the wire if and only if its numbers have room. *)
Theorem iff_information_layers_on_the_wire : record_on_the_wire 8 layout_information_layers fields_information_layers wf_InformationLayers information_layers_of information_layers_num.
Proof. exact iff_information_layers_on_the_wire_pf. Qed.
Print Assumptions iff_information_layers_on_the_wire.

(** C59. The Mode 5 interrogator status record is read from every word, and written, as the layout says; it comes back from the wire if and only if its numbers have room. *)
Theorem iff_m5i_word_on_the_wire : record_on_the_wire 8 layout_m5i_word fields_m5i_word wf_Mode5InterrogatorStatus m5i_word_of m5i_word_num.
Proof. exact iff_m5i_word_on_the_wire_pf. Qed.
Print Assumptions iff_m5i_word_on_the_wire.

(** C59. The Mode 5 message formats record is read from every word, and written, as the layout says; it comes back from the wire if and only if its numbers have room. *)
Theorem iff_message_formats_on_the_wire : record_on_the_wire 32 layout_message_formats fields_message_formats wf_MessageFormats message_formats_of message_formats_num.
Proof. exact iff_message_formats_on_the_wire_pf. Qed.
Print Assumptions iff_message_formats_on_the_wire.

(** C59. The enhanced Mode 1 code record is read from every word, and written, as the layout says; it comes back from the wire if and only if its numbers have room. *)
Theorem iff_mode1_code_on_the_wire : record_on_the_wire 16 layout_mode1_code fields_mode1_code wf_EnhancedMode1Code mode1_code_of mode1_code_num.
Proof. exact iff_mode1_code_on_the_wire_pf. Qed.
Print Assumptions iff_mode1_code_on_the_wire.

(** C59. The Mode 5 transponder supplemental data record is read from every word, and written, as the layout says; it comes back from the wire if and only if its numbers have room. *)
Theorem iff_supplemental_data_on_the_wire : record_on_the_wire 8 layout_supplemental_data fields_supplemental_data wf_SupplementalData supplemental_data_of supplemental_data_num.
Proof. exact iff_supplemental_data_on_the_wire_pf. Qed.
Print Assumptions iff_supplemental_data_on_the_wire.

(** C59. The Mode 5 transponder status record is read from every word, and written, as the layout says; it comes back from the wire if and only if its numbers have room. *)
Theorem iff_m5t_word_on_the_wire : record_on_the_wire 16 layout_m5t_word fields_m5t_word wf_Mode5TransponderStatus m5t_word_of m5t_word_num.
Proof. exact iff_m5t_word_on_the_wire_pf. Qed.
Print Assumptions iff_m5t_word_on_the_wire.

(** C59. The Mode S altitude record is read from every word, and written, as the layout says; it comes back from the wire if and only if its numbers have room. *)
Theorem iff_altitude_word_on_the_wire : record_on_the_wire 16 layout_altitude_word fields_altitude_word wf_ModeSAltitude altitude_word_of altitude_word_num.
Proof. exact iff_altitude_word_on_the_wire_pf. Qed.
Print Assumptions iff_altitude_word_on_the_wire.

(** C59. The Mode S interrogator status record: every other subfield is read and written as the layout says, but malfunction is always read as malfunctioning, because its reader tests a constant. *)
Theorem iff_msi_word_stuck_bit : record_with_stuck_bit 8 layout_msi_word 3 fields_msi_word wf_ModeSInterrogatorStatus msi_word_of msi_word_num.
Proof. exact iff_msi_word_stuck_bit_pf. Qed.
Print Assumptions iff_msi_word_stuck_bit.

(** C59. The Mode S levels present record: every other subfield is read and written as the layout says, but level 4 is always read as present, because its reader tests a constant. *)
Theorem iff_levels_word_stuck_bit : record_with_stuck_bit 8 layout_levels_word 4 fields_levels_word wf_ModeSLevels levels_word_of levels_word_num.
Proof. exact iff_levels_word_stuck_bit_pf. Qed.
Print Assumptions iff_levels_word_stuck_bit.

(** C59. The downlink of aircraft parameters source record: every other subfield is read and written as the layout says, but the source of the track angle rate is always read as a data record, because its reader tests a constant. *)
Theorem iff_dap_word_stuck_bit : record_with_stuck_bit 8 layout_dap_word 4 fields_dap_word wf_DapSource dap_word_of dap_word_num.
Proof. exact iff_dap_word_stuck_bit_pf. Qed.
Print Assumptions iff_dap_word_stuck_bit.

(** C59. The Mode S transponder status record is read from every word, and written, as the layout says; it comes back from the wire if and only if its numbers have room. *)
Theorem iff_mst_word_on_the_wire : record_on_the_wire 16 layout_mst_word fields_mst_word wf_ModeSTransponderStatus mst_word_of mst_word_num.
Proof. exact iff_mst_word_on_the_wire_pf. Qed.
Print Assumptions iff_mst_word_on_the_wire.

(** C59. So three records do not come back from the wire: a healthy Mode S interrogator is read as malfunctioning, a transponder without level 4 as having it, and the track angle rate as having a data record. *)
Theorem iff_constant_bits_refuted : ~ record_on_the_wire 8 layout_msi_word fields_msi_word wf_ModeSInterrogatorStatus msi_word_of msi_word_num /\
  ~ record_on_the_wire 8 layout_levels_word fields_levels_word wf_ModeSLevels levels_word_of levels_word_num /\
  ~ record_on_the_wire 8 layout_dap_word fields_dap_word wf_DapSource dap_word_of dap_word_num.
Proof. exact iff_constant_bits_refuted_pf. Qed.
Print Assumptions iff_constant_bits_refuted.

(** C59. The words that the model of the IFF PDU (C09, C28) keeps are these records: reading a word, and writing the record that was read, gives the word of the PDU model. *)
Theorem iff_words_are_the_records : forall v,
  (u8 v -> change_options_num (change_options_of v) = v) /\
  (u8 v -> system_status_num (system_status_of v) = v) /\
  information_layers_num (information_layers_of v) = bits_of m_layers 0 v /\
  m5i_word_num (m5i_word_of v) = bits_of m_m5i_status 0 v /\
  (u32 v -> message_formats_num (message_formats_of v) = v) /\
  mode1_code_num (mode1_code_of v) = bits_of m_mode1 0 v /\
  supplemental_data_num (supplemental_data_of v) = bits_of m_supplemental 0 v /\
  m5t_word_num (m5t_word_of v) = bits_of m_m5t_status 0 v /\
  altitude_word_num (altitude_word_of v) = bits_of m_altitude 0 v /\
  msi_word_num (msi_word_of v) = bits_of m_msi_status 4 v /\
  levels_word_num (levels_word_of v) = bits_of m_levels 4 v /\
  dap_word_num (dap_word_of v) = bits_of m_dap 8 v /\
  mst_word_num (mst_word_of v) = bits_of m_mst_status 0 v.
Proof. exact iff_words_are_the_records_pf. Qed.
Print Assumptions iff_words_are_the_records.

Example iff_words_example :
  m5t_word_num (MkMode5TransponderStatus 5 Enabled_Yes 2 Presence_Present LatLonAlt_ComputeLocally 1 0 1 OnOff_On Damage_None Malfunction_Some) = 23893 /\
  m5t_word_of 23893 = MkMode5TransponderStatus 5 Enabled_Yes 2 Presence_Present LatLonAlt_ComputeLocally 1 0 1 OnOff_On Damage_None Malfunction_Some /\
  (* an altitude of 2^11 and more loses its high bits; a code element of 8 runs into its neighbour *)
  altitude_word_of (altitude_word_num (MkModeSAltitude 2049 1)) = MkModeSAltitude 1 1 /\
  mode1_code_of (mode1_code_num (MkEnhancedMode1Code 0 8 0 0 OnOff_Off Damage_None Malfunction_None)) = MkEnhancedMode1Code 1 0 0 0 OnOff_Off Damage_None Malfunction_None /\
  (* a healthy interrogator is read as malfunctioning *)
  msi_word_of (msi_word_num (MkModeSInterrogatorStatus OnOff_On 3 Damage_None Malfunction_None)) = MkModeSInterrogatorStatus OnOff_On 3 Damage_None Malfunction_Some.
Proof. repeat split. Qed.
