{
 "claims": [
  {
   "property": "C01",
   "status": "proved",
   "theorems": [
    "C01_lossless",
    "C01_crossref_rows",
    "C01_crossref_refuted"
   ],
   "note": "Generic in the enumeration table, because the SISO-REF-010 XML the tables are generated from is not in the repository. C01_crossref_rows says what happens to each raw value when rows are cross-referenced; C01_crossref_refuted is the instance that shows the loss."
  },
  {
   "property": "C02",
   "status": "proved",
   "theorems": [
    "C02_decoded_values_stable",
    "C02_named_values_survive",
    "C02_unspecified_alias"
   ],
   "note": "Generic in the table."
  },
  {
   "property": "C03",
   "status": "proved",
   "theorems": [
    "C03_decode_encode",
    "C03_full_word",
    "C03_encode_decode",
    "C03_oversized_value_refuted",
    "C03_wide_flag_refuted"
   ],
   "note": "The two refutations show the side conditions cannot be dropped."
  },
  {
   "property": "C04",
   "status": "proved",
   "theorems": [
    "C04_header_round_trip",
    "C04_future_version_status_refuted"
   ],
   "note": "fits_header lists the side conditions: headers built with PduHeader::new_v6 and new_v7 and parsed headers of these versions meet them."
  },
  {
   "property": "C05",
   "status": "proved",
   "theorems": [
    "C05_status_write_parse",
    "C05_status_parse_value",
    "C05_status_parse_write"
   ],
   "note": ""
  },
  {
   "property": "C06",
   "status": "proved",
   "theorems": [
    "C06_serialize_accounting",
    "C06_serialize_exact_types",
    "C06_fitting_pdus_are_sized",
    "C06_attribute_padding_refuted",
    "C06_serialize_exact_refuted"
   ],
   "note": "C06_serialize_accounting is the general statement (size_pdu is computed from the record sizes of the standard, independently of the writer), for PDUs that need not be parseable; C06_fitting_pdus_are_sized says that it covers all PDUs of the round trip C09; C06_serialize_exact_types is the consequence for types without error; C06_serialize_exact_refuted and C06_attribute_padding_refuted the defects."
  },
  {
   "property": "C07",
   "status": "proved",
   "theorems": [
    "C07_insufficient_true_length",
    "C07_insufficient_buffer",
    "C07_insufficient_true_length_refuted"
   ],
   "note": "For the types of C06 with a wrong pdu_length() the report is wrong too: C07_insufficient_true_length_refuted."
  },
  {
   "property": "C08",
   "status": "proved",
   "theorems": [
    "C08_finalize",
    "C08_family_unique"
   ],
   "note": ""
  },
  {
   "property": "C09",
   "status": "proved",
   "theorems": [
    "C09_exact",
    "C09_parse_serialize",
    "C09_parse_serialize_finalized",
    "C09_parse_serialize_refuted"
   ],
   "note": "fits_Pdu collects, per record, what the wire can express (list counts below 256 or 65536, markings ending in an alphanumeric character, record variants matching their discriminant, no Separation parameter or explosion descriptor, Signal data in whole 32-bit words). C09_parse_serialize_refuted shows excluded PDUs that do not round-trip."
  },
  {
   "property": "C10",
   "status": "proved",
   "theorems": [
    "C10_parse_packet",
    "C10_parse_packet_refuted"
   ],
   "note": "C10_parse_packet_refuted: a Signal whose data is not in whole words corrupts its successor."
  },
  {
   "property": "C11",
   "status": "proved",
   "theorems": [
    "C11_version_filter"
   ],
   "note": ""
  },
  {
   "property": "C12",
   "status": "proved",
   "theorems": [
    "C12_checked_panics_iff",
    "C12_datagram_panics_iff",
    "C12_parse_panics_iff",
    "C12_signal_panics_everywhere",
    "C12_parse_no_panic_refuted",
    "C12_parse_overflow_panic_refuted",
    "C12_parse_panic_types"
   ],
   "note": "Termination is that the model's parser is a total function. The intended property (no panic at all) is refuted by C12_parse_no_panic_refuted and, for checked builds, C12_parse_overflow_panic_refuted."
  },
  {
   "property": "C13",
   "status": "proved",
   "theorems": [
    "C13_parse_error_iff",
    "C13_parse_longest_run"
   ],
   "note": ""
  },
  {
   "property": "C14",
   "status": "proved",
   "theorems": [
    "C14_trailing_octets",
    "C14_parse_append"
   ],
   "note": ""
  },
  {
   "property": "C15",
   "status": "proved",
   "theorems": [
    "C15_framing_other",
    "C15_framing_exact",
    "C15_length_field_ignored",
    "C15_framing_refuted"
   ],
   "note": "The property a user expects (the length field frames every PDU) is refuted by C15_framing_refuted and, in general, by C15_length_field_ignored."
  },
  {
   "property": "C16",
   "status": "proved",
   "theorems": [
    "C16_padding",
    "C16_zero_alignment"
   ],
   "note": ""
  },
  {
   "property": "C17",
   "status": "proved",
   "theorems": [
    "C17_parse_standard",
    "C17_variable_datum_aligned",
    "C17_variable_datum_refuted",
    "C17_reported_size_refuted"
   ],
   "note": "The two refutations are general in the datum: they cover every unaligned length, and every aligned length from 8192 on."
  },
  {
   "property": "C18",
   "status": "proved",
   "theorems": [
    "C18_sixteen_octets",
    "C18_round_trip",
    "C18_separation_refuted",
    "C18_separation_value_refuted"
   ],
   "note": "vp_canonical holds the two side conditions. The refutation for Separation is for every value of its fields."
  },
  {
   "property": "C19",
   "status": "proved",
   "theorems": [
    "C19_fire_descriptor",
    "C19_detonation_descriptor",
    "C19_explosion_refuted"
   ],
   "note": "C19_explosion_refuted is general in the descriptor."
  },
  {
   "property": "C20",
   "status": "proved",
   "theorems": [
    "C20_record_set",
    "C20_record_specification",
    "C20_record_set_refuted"
   ],
   "note": "The refutation is general in the record, their number and what follows."
  },
  {
   "property": "C21",
   "status": "proved",
   "theorems": [
    "C21_raw_round_trip",
    "C21_units_round_trip",
    "C21_nanoseconds_refuted",
    "C21_seconds_refuted"
   ],
   "note": "C21_nanoseconds_refuted and C21_seconds_refuted show the wrong constants."
  },
  {
   "property": "C22",
   "status": "proved",
   "theorems": [
    "C22_entity_type_round_trip",
    "C22_entity_type_accepts",
    "C22_entity_type_injective",
    "C22_aggregate_type_round_trip",
    "C22_aggregate_type_accepts",
    "C22_entity_id_text"
   ],
   "note": ""
  },
  {
   "property": "C23",
   "status": "proved",
   "theorems": [
    "uvint8_roundtrip",
    "uvint16_roundtrip",
    "uvint32_roundtrip",
    "uvint_overwritten"
   ],
   "note": "uvint_overwritten keeps the size tag apart from the number (CdisSized.v)."
  },
  {
   "property": "C24",
   "status": "proved",
   "theorems": [
    "svint12_roundtrip",
    "svint13_roundtrip",
    "svint14_roundtrip",
    "svint16_roundtrip",
    "svint24_roundtrip",
    "svint24_roundtrip_refuted",
    "svint_overwritten",
    "svint_out_of_range_refuted"
   ],
   "note": "svint24_roundtrip and svint24_roundtrip_refuted together cover the whole nominal range."
  },
  {
   "property": "C25",
   "status": "proved",
   "theorems": [
    "unsigned_field",
    "signed_field",
    "bad_width_panics",
    "adjacent_fields"
   ],
   "note": ""
  },
  {
   "property": "C26",
   "status": "proved",
   "theorems": [
    "cdis_header_roundtrip",
    "cdis_header_any",
    "cdis_long_header_refuted"
   ],
   "note": "cdis_header_any is the general statement, cdis_header_roundtrip the case where everything fits."
  },
  {
   "property": "C27",
   "status": "proved",
   "theorems": [
    "cdis_body_bits",
    "cdis_body_bits_exact",
    "cdis_body_bits_exact_types",
    "cdis_body_bits_refuted",
    "cdis_signal_emission_bits_refuted",
    "cdis_finalized_length"
   ],
   "note": "excess_cbody is a closed formula in the specification file SpecCdisPdu.v. The declared length is wrong in the code for empty datum lists, Signal, Emission, Transmitter and IFF layers."
  },
  {
   "property": "C28",
   "status": "proved",
   "theorems": [
    "cdis_pdu_roundtrip",
    "cdis_pdu_roundtrip_exact",
    "cdis_packet_roundtrip",
    "cdis_parse_total",
    "cdis_transmitter_refuted",
    "cdis_emission_refuted",
    "cdis_location_refuted",
    "cdis_pdu_roundtrip_iff",
    "cdis_transmitter_never",
    "cdis_emission_never"
   ],
   "note": "The refutations for Transmitter, Emission and location are by instance."
  },
  {
   "property": "C29",
   "status": "proved",
   "theorems": [
    "cdis_flags_read",
    "cdis_pdu_flags_read",
    "cdis_flags_table",
    "cdis_idle_list_flag",
    "cdis_presence_flags",
    "cdis_lone_group_member_refuted"
   ],
   "note": ""
  },
  {
   "property": "C30",
   "status": "proved",
   "theorems": [
    "cdis_full_update_discipline",
    "iff_full_update_flag_refuted",
    "cdis_full_update_timing"
   ],
   "note": "For IFF, full and partial are told apart by the fields carried; iff_full_update_flag_refuted is about the flag."
  },
  {
   "property": "C31",
   "status": "proved",
   "theorems": [
    "cdis_partial_update_inherits",
    "cdis_full_update_stateless",
    "cdis_carried_fields_stateless",
    "cdis_partial_update_marking",
    "cdis_partial_update_unknown",
    "cdis_partial_update_iff",
    "cdis_static_fields_end_to_end",
    "cdis_partial_update_marking_refuted",
    "cdis_partial_update_iff_refuted",
    "cdis_partial_update_relative_location_refuted",
    "cdis_changed_beam_arrives",
    "cdis_emission_end_to_end",
    "cdis_new_beam_parameters_refuted"
   ],
   "note": "The exceptions are stated positively (cdis_partial_update_marking, cdis_partial_update_iff) and as failures of the property."
  },
  {
   "property": "C32",
   "status": "proved",
   "theorems": [
    "cdis_encoder_independence",
    "cdis_decoder_independence",
    "cdis_stateless_types"
   ],
   "note": ""
  },
  {
   "property": "C33",
   "status": "proved",
   "theorems": [
    "cdis_simman_lossless",
    "cdis_simman_narrowing_refuted"
   ],
   "note": "simman_narrow lists what fits."
  },
  {
   "property": "C34",
   "status": "proved",
   "theorems": [
    "gateway_encoder_types",
    "gateway_encoder_survives",
    "gateway_encoder_delivers",
    "gateway_encoder_simman",
    "gateway_encoder_delivers_refuted"
   ],
   "note": ""
  },
  {
   "property": "C35",
   "status": "proved",
   "theorems": [
    "gateway_decoder_drops",
    "gateway_decoder_refuted",
    "gateway_dis_output",
    "empty_pdus_say_nothing",
    "gateway_connects_nothing"
   ],
   "note": "The filter in decode_pdus is inverted. Any supported C-DIS PDU sent to the gateway disappears."
  },
  {
   "property": "C36",
   "status": "proved",
   "theorems": [
    "gateway_encoder_octets",
    "gateway_encoder_fresh",
    "gateway_encoder_fresh_refuted"
   ],
   "note": ""
  },
  {
   "property": "C37",
   "status": "proved",
   "theorems": [
    "gateway_totals",
    "gateway_counts",
    "gateway_aggregates",
    "gateway_aggregates_initial",
    "gateway_compression"
   ],
   "note": ""
  },
  {
   "property": "C38",
   "status": "proved",
   "theorems": [
    "C38_endpoints",
    "C38_emission_receiver"
   ],
   "note": ""
  },
  {
   "property": "C39",
   "status": "proved",
   "theorems": [
    "C39_entity_marking",
    "C39_aggregate_marking",
    "C39_long_marking",
    "C39_parse",
    "C39_parse_stable",
    "C39_parsed_marking_too_long_refuted",
    "C39_trailing_punctuation_refuted",
    "C39_from_str"
   ],
   "note": ""
  },
  {
   "property": "C40",
   "status": "proved",
   "theorems": [
    "C40_parse_header",
    "C40_agrees_with_full_parsing",
    "C40_parse_multiple_header",
    "C40_headers_of_packet",
    "C40_multiple_header_error_refuted"
   ],
   "note": ""
  },
  {
   "property": "C41",
   "status": "proved",
   "theorems": [
    "cdis_encoder_survives",
    "cdis_encoder_marking_panic"
   ],
   "note": ""
  },
  {
   "property": "C42",
   "status": "proved",
   "theorems": [
    "cdis_timestamp_flag",
    "cdis_timestamp_refuted",
    "cdis_timestamp_trip"
   ],
   "note": "cdis_timestamp_refuted is an instance: half past the hour arrives as 43 seconds past."
  },
  {
   "property": "C43",
   "status": "proved",
   "theorems": [
    "gateway_order",
    "gateway_order_at_rest"
   ],
   "note": ""
  },
  {
   "property": "C44",
   "status": "proved",
   "theorems": [
    "gateway_events",
    "gateway_statistics"
   ],
   "note": ""
  },
  {
   "property": "C45",
   "status": "proved",
   "theorems": [
    "gateway_settles",
    "gateway_no_deadlock",
    "gateway_comes_to_rest",
    "gateway_can_deliver"
   ],
   "note": ""
  },
  {
   "property": "C46",
   "status": "proved",
   "theorems": [
    "gateway_down_causes",
    "gateway_overrun",
    "gateway_survives_refuted",
    "gateway_survives"
   ],
   "note": ""
  },
  {
   "property": "C47",
   "status": "proved",
   "theorems": [
    "cdis_collision_content",
    "cdis_fire_content",
    "cdis_detonation_content",
    "cdis_fire_descriptor_refuted",
    "cdis_receiver_content",
    "cdis_signal_content",
    "cdis_entity_state_movement",
    "cdis_entity_state_identity",
    "cdis_marking_content",
    "cdis_designator_aim",
    "cdis_designator_laser",
    "cdis_transmitter_transmission",
    "cdis_transmitter_radio",
    "cdis_iff_content",
    "cdis_emission_content",
    "cdis_iff_parameters_refuted",
    "cdis_iff_navigation_refuted",
    "cdis_iff_system",
    "cdis_other_algorithm_refuted",
    "cdis_capabilities_refuted",
    "cdis_partial_emission_content"
   ],
   "note": "The kept relations (es_kept, fire_kept, iff_kept, ...) in SpecBody.v list the fields of each body and say how each is kept. Simulation management bodies are C33."
  },
  {
   "property": "C48",
   "status": "proved",
   "theorems": [
    "cdis_velocity_precision",
    "cdis_acceleration_precision",
    "cdis_orientation_precision",
    "cdis_coordinates_precision",
    "cdis_turning_precision",
    "cdis_frequency_precision",
    "cdis_hertz_precision",
    "cdis_bandwidth_precision",
    "cdis_force_precision",
    "cdis_parameter_precision",
    "cdis_emission_precision",
    "cdis_interrogation_precision",
    "cdis_pattern_precision",
    "cdis_mass_precision",
    "cdis_beam_precision",
    "cdis_acceleration_refuted",
    "cdis_coordinates_refuted",
    "cdis_frequency_refuted",
    "cdis_force_refuted",
    "cdis_parameter_refuted",
    "cdis_beam_refuted",
    "cdis_power_refuted",
    "cdis_pulse_refuted"
   ],
   "note": "Of a beam only the azimuth centre and sweep sync are kept; the other three angles are lost in the C-DIS writer (cdis_beam_refuted)."
  },
  {
   "property": "C49",
   "status": "proved",
   "theorems": [
    "cdis_velocity_stable",
    "cdis_acceleration_stable",
    "cdis_beam_stable",
    "cdis_hertz_stable",
    "cdis_orientation_stable_refuted",
    "cdis_turning_stable_refuted",
    "cdis_coordinates_stable_refuted",
    "cdis_orientation_drift"
   ],
   "note": ""
  },
  {
   "property": "C50",
   "status": "proved",
   "theorems": [
    "cdis_uncompressed_parameter",
    "cdis_uncompressed_articulation_refuted",
    "cdis_uncompressed_unknown_refuted"
   ],
   "note": ""
  },
  {
   "property": "C51",
   "status": "proved",
   "theorems": [
    "release_serialize_total",
    "release_serialize_example",
    "release_serialize_long_marking_refuted"
   ],
   "note": "Release builds wrap integer overflow, which is what [Wrapping] models. A marking that is too long makes the number of padding octets negative: 2^64-k in a release build, so the call writes until memory runs out."
  },
  {
   "property": "C52",
   "status": "proved",
   "theorems": [
    "cdis_wire_delivers",
    "cdis_wire_header",
    "cdis_collision_crosses",
    "cdis_fire_crosses",
    "cdis_detonation_crosses",
    "cdis_receiver_crosses",
    "cdis_signal_crosses",
    "cdis_entity_state_crosses",
    "cdis_entity_state_full_crosses",
    "cdis_designator_crosses",
    "cdis_designator_full_crosses",
    "cdis_transmitter_crosses",
    "cdis_transmitter_full_crosses",
    "cdis_fire_crosses_refuted",
    "cdis_designator_crosses_refuted",
    "cdis_transmitter_crosses_refuted",
    "cdis_place_crosses_refuted",
    "cdis_emission_crosses",
    "cdis_emission_numbers_refuted",
    "cdis_iff_delivers",
    "cdis_iff_crosses",
    "cdis_iff_partial_crosses_refuted",
    "cdis_iff_partial_lost"
   ],
   "note": "Of the 22 types, the twelve simulation management ones are treated in C33. Electromagnetic Emissions arrive without emitter systems; with some they do not, since the system numbers are missing from the bits (the codec alone is in C47, the bit stream in C28)."
  },
  {
   "property": "C53",
   "status": "proved",
   "theorems": [
    "builds_agree_parse",
    "builds_agree_parse_more",
    "builds_agree_serialize",
    "builds_agree_finalize",
    "builds_agree_cserialize",
    "builds_agree_decode",
    "builds_agree_gateway",
    "builds_agree_seconds",
    "builds_differ_serialize_refuted"
   ],
   "note": ""
  },
  {
   "property": "C54",
   "status": "proved",
   "theorems": [
    "relay_serializes",
    "relay_parses_back",
    "relay_needs_each_refuted"
   ],
   "note": ""
  },
  {
   "property": "C55",
   "status": "proved",
   "theorems": [
    "layout_written",
    "layout_read",
    "layout_understood",
    "layout_written_refuted",
    "layout_read_refuted",
    "layout_any_padding",
    "layout_read_exactly",
    "layout_unambiguous"
   ],
   "note": ""
  },
  {
   "property": "C56",
   "status": "proved",
   "theorems": [
    "config_outcome",
    "config_federation",
    "config_uri_refuted",
    "config_sockets",
    "config_loopback_refuted"
   ],
   "note": ""
  },
  {
   "property": "C57",
   "status": "proved",
   "theorems": [
    "geodesy_place",
    "geodesy_there_and_back",
    "geodesy_back_and_there",
    "geodesy_symmetry",
    "cdis_place_in_metres"
   ],
   "note": "the functions are proved in real arithmetic; rounding of f64 and libm enters the last theorem as an assumption with an example that meets it"
  },
  {
   "property": "C58",
   "status": "proved",
   "theorems": [
    "builders_records",
    "builders_status",
    "builders_lists",
    "builders_simman",
    "builders_logistics",
    "builders_warfare",
    "builders_entity",
    "builders_emission",
    "builders_radio",
    "builders_iff",
    "builders_iff_words",
    "builders_records_reach_all",
    "builders_status_reach_all",
    "builders_lists_reach_all",
    "builders_simman_reach_all",
    "builders_logistics_reach_all",
    "builders_warfare_reach_all",
    "builders_entity_reach_all",
    "builders_emission_reach_all",
    "builders_radio_reach_all",
    "builders_iff_reach_all",
    "builders_iff_words_reach_all",
    "builders_record_set",
    "builders_record_set_uniform",
    "builders_record_set_refuted",
    "builders_header",
    "builders_header_length_refuted",
    "builders_capabilities_refuted",
    "untouched_builders_read_back",
    "defaults_for_every_type",
    "untouched_action_response_r_refuted",
    "untouched_builders_write_zeros",
    "untouched_entity_state_capabilities"
   ],
   "note": "the default of EntityCapabilities (a generated enumeration whose table is not in the repository) is a parameter; the read-back of untouched builders takes it as the reader gives all-zero capabilities"
  },
  {
   "property": "C59",
   "status": "proved",
   "theorems": [
    "iff_change_options_on_the_wire",
    "iff_system_status_on_the_wire",
    "iff_information_layers_on_the_wire",
    "iff_m5i_word_on_the_wire",
    "iff_message_formats_on_the_wire",
    "iff_mode1_code_on_the_wire",
    "iff_supplemental_data_on_the_wire",
    "iff_m5t_word_on_the_wire",
    "iff_altitude_word_on_the_wire",
    "iff_msi_word_stuck_bit",
    "iff_levels_word_stuck_bit",
    "iff_dap_word_stuck_bit",
    "iff_mst_word_on_the_wire",
    "iff_constant_bits_refuted",
    "iff_words_are_the_records"
   ],
   "note": "which bits a subfield has follows the comments in the code, the standard being unavailable here; the three records whose reader tests a constant are stated as such and refuted"
  },
  {
   "property": "C60",
   "status": "proved",
   "theorems": [
    "cdis_relay",
    "cdis_altitude_read",
    "cdis_relay_marking_refuted",
    "cdis_relay_emission_refuted",
    "cdis_relay_transmitter_refuted",
    "cdis_relay_iff_layer3_refuted",
    "cdis_compressed_parameter"
   ],
   "note": "what does not pass on is listed in SpecCdisRelay and, for four of the items, shown on octets; the lossy fields are those of C28"
  },
  {
   "property": "C61",
   "status": "proved",
   "theorems": [
    "site_shows",
    "site_onward",
    "site_load",
    "site_fresh",
    "site_catches_up",
    "site_boxes_grow",
    "site_encoded_shrinks_refuted",
    "site_at_rest",
    "site_encoded_refuted"
   ],
   "note": "the numbers of the panels; how ByteSize and {:.2} print them, HTTP and the configuration page are not modelled; the compression rate is that of C37"
  }
 ]
}