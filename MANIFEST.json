{
 "claims": [
  {
   "property": "C01",
   "status": "proved",
   "theorems": [
    "C01_header_roundtrip"
   ],
   "note": ""
  },
  {
   "property": "C02",
   "status": "proved",
   "theorems": [
    "C02_header_layout"
   ],
   "note": ""
  },
  {
   "property": "C03",
   "status": "proved",
   "theorems": [
    "C03_header_decode_total",
    "C03_header_decode_short"
   ],
   "note": ""
  },
  {
   "property": "C04",
   "status": "proved",
   "theorems": [
    "C04_get_pdu_type",
    "C04_get_pdu_type_only_third_byte"
   ],
   "note": ""
  },
  {
   "property": "C05",
   "status": "proved",
   "theorems": [
    "C05_type_check"
   ],
   "note": ""
  },
  {
   "property": "C06",
   "status": "proved",
   "theorems": [
    "C06_types_and_families",
    "C06_all_of_table",
    "C06_one_class"
   ],
   "note": ""
  },
  {
   "property": "C07",
   "status": "proved",
   "theorems": [
    "C07_serialize_appends_and_stamps"
   ],
   "note": ""
  },
  {
   "property": "C08",
   "status": "proved",
   "theorems": [
    "C08_length_is_bytes_emitted",
    "C08_emitted_size",
    "C08_datum_excess_zero_iff",
    "C08_length_refuted"
   ],
   "note": "C08_length_is_bytes_emitted covers the 48 classes with correct lengths, C08_emitted_size all 66; C08_length_refuted is the counterexample to the unrestricted claim."
  },
  {
   "property": "C09",
   "status": "proved",
   "theorems": [
    "C09_oversize_refused",
    "C09_oversize_iff_bytes"
   ],
   "note": ""
  },
  {
   "property": "C10",
   "status": "proved",
   "theorems": [
    "C10_max_size_refuted",
    "C10_fixed_layout_within_limit",
    "C10_never_above_65535"
   ],
   "note": "The limit of 8192 is not enforced (C10_max_size_refuted); the bounds that do hold are proved."
  },
  {
   "property": "C11",
   "status": "proved",
   "theorems": [
    "C11_fixed_roundtrip"
   ],
   "note": ""
  },
  {
   "property": "C12",
   "status": "proved",
   "theorems": [
    "C12_list_roundtrip_exact",
    "C12_nonempty_lists_lost",
    "C12_list_roundtrip_refuted"
   ],
   "note": "Exact behaviour C12_list_roundtrip_exact; the naive round-trip is refuted."
  },
  {
   "property": "C13",
   "status": "proved",
   "theorems": [
    "C13_stream_roundtrip",
    "C13_stream_refuted"
   ],
   "note": "Proved for fixed-layout classes; refuted for classes with non-empty lists (C13_stream_refuted)."
  },
  {
   "property": "C14",
   "status": "proved",
   "theorems": [
    "C14_panics_iff",
    "C14_bytes_read",
    "C14_panics_iff_short",
    "C14_never_panics_refuted"
   ],
   "note": "C14_panics_iff and C14_bytes_read cover every class."
  },
  {
   "property": "C15",
   "status": "proved",
   "theorems": [
    "C15_serialize_twice"
   ],
   "note": ""
  },
  {
   "property": "C16",
   "status": "proved",
   "theorems": [
    "C16_new",
    "C16_finalize"
   ],
   "note": ""
  },
  {
   "property": "C17",
   "status": "proved",
   "theorems": [
    "C17_default_lengths"
   ],
   "note": ""
  },
  {
   "property": "C18",
   "status": "proved",
   "theorems": [
    "C18_table",
    "C18_codes",
    "C18_values",
    "C18_decode",
    "C18_fields"
   ],
   "note": ""
  },
  {
   "property": "C19",
   "status": "proved",
   "theorems": [
    "C19_decode_encode_decode",
    "C19_reencode_exact_iff"
   ],
   "note": ""
  },
  {
   "property": "C20",
   "status": "proved",
   "theorems": [
    "C20_set_tei",
    "C20_set_lvc",
    "C20_set_cei",
    "C20_set_dti",
    "C20_set_rai",
    "C20_set_iai",
    "C20_set_fti",
    "C20_set_ism",
    "C20_set_aii",
    "C20_getters",
    "C20_to_from_u8"
   ],
   "note": ""
  },
  {
   "property": "C21",
   "status": "proved",
   "theorems": [
    "C21_stop_freeze_roundtrip",
    "C21_stop_freeze_reliable_roundtrip",
    "C21_areal_object_roundtrip",
    "C21_from_bits",
    "C21_field_decoding"
   ],
   "note": ""
  },
  {
   "property": "C22",
   "status": "proved",
   "theorems": [
    "C22_length_constants",
    "C22_marking_length_refuted",
    "C22_records",
    "C22_layout"
   ],
   "note": "C22_marking_length_refuted: EntityMarking is the only declared LENGTH that is wrong."
  },
  {
   "property": "C23",
   "status": "proved",
   "theorems": [
    "C23_counted_roundtrip_iff",
    "C23_decoded_is_counted",
    "C23_declared_length",
    "C23_information_action_roundtrip",
    "C23_information_report_roundtrip"
   ],
   "note": ""
  },
  {
   "property": "C24",
   "status": "proved",
   "theorems": [
    "C24_encoding",
    "C24_padding",
    "C24_decoding",
    "C24_roundtrip_iff_empty",
    "C24_roundtrip_refuted"
   ],
   "note": ""
  },
  {
   "property": "C25",
   "status": "proved",
   "theorems": [
    "C25_element_serialize",
    "C25_well_behaved_iff",
    "C25_never_panics_refuted",
    "C25_transfer_ownership_roundtrip",
    "C25_set_record_roundtrip"
   ],
   "note": ""
  },
  {
   "property": "C26",
   "status": "proved",
   "theorems": [
    "C26_simulation_identifier",
    "C26_roundtrip_refuted"
   ],
   "note": ""
  },
  {
   "property": "C27",
   "status": "proved",
   "theorems": [
    "C27_dead_reckoning"
   ],
   "note": ""
  },
  {
   "property": "C28",
   "status": "proved",
   "theorems": [
    "C28_encoding",
    "C28_decoding",
    "C28_never_roundtrips",
    "C28_entity_state_decode",
    "C28_entity_state_roundtrip"
   ],
   "note": ""
  },
  {
   "property": "C29",
   "status": "proved",
   "theorems": [
    "C29_length_stored",
    "C29_transmitter_decode",
    "C29_transmitter_roundtrip"
   ],
   "note": ""
  },
  {
   "property": "C30",
   "status": "proved",
   "theorems": [
    "C30_axis_roundtrip_iff",
    "C30_declared_length",
    "C30_grid_data_decoding",
    "C30_grid_data_never_roundtrips"
   ],
   "note": ""
  },
  {
   "property": "C31",
   "status": "proved",
   "theorems": [
    "C31_encoding",
    "C31_decoding",
    "C31_never_roundtrips"
   ],
   "note": ""
  },
  {
   "property": "C32",
   "status": "proved",
   "theorems": [
    "C32_without_header",
    "C32_without_header_bytes",
    "C32_header_irrelevant"
   ],
   "note": ""
  },
  {
   "property": "C33",
   "status": "proved",
   "theorems": [
    "C33_live_header_roundtrip",
    "C33_live_header_decode",
    "C33_live_header_short",
    "C33_live_header_prefix",
    "C33_live_header_layout",
    "C33_live_header_new"
   ],
   "note": ""
  },
  {
   "property": "C34",
   "status": "proved",
   "theorems": [
    "C34_timestamp",
    "C34_monotone",
    "C34_torn_read_refuted",
    "C34_strict_refuted",
    "C34_ieee_format_refuted",
    "C34_as_u32"
   ],
   "note": "Rests on the standard library's real numbers (see DESIGN.md)."
  },
  {
   "property": "C35",
   "status": "proved",
   "theorems": [
    "C35_helpers",
    "C35_bit_limit",
    "C35_total_size",
    "C35_marking_not_enforced",
    "C35_size_not_enforced"
   ],
   "note": ""
  },
  {
   "property": "C36",
   "status": "proved",
   "theorems": [
    "C36_operators",
    "C36_constants",
    "C36_operators_nan",
    "C36_commutative",
    "C36_zero_identity",
    "C36_magnitude_sign",
    "C36_normalize_none_iff",
    "C36_normalize_huge",
    "C36_magnitude_accurate",
    "C36_normalize_accurate",
    "C36_dot_accurate",
    "C36_cross_accurate",
    "C36_exact_on_integers",
    "C36_cross_self_refuted",
    "C36_cross_anticommutative_refuted",
    "C36_add_associative_refuted"
   ],
   "note": "Rests on the standard library's real numbers (see DESIGN.md)."
  },
  {
   "property": "C37",
   "status": "proved",
   "theorems": [
    "C37_encoding_injective"
   ],
   "note": ""
  },
  {
   "property": "C38",
   "status": "proved",
   "theorems": [
    "C38_echo",
    "C38_echo_verbatim",
    "C38_client_never_panics",
    "C38_end_to_end",
    "C38_other_reply"
   ],
   "note": ""
  },
  {
   "property": "C39",
   "status": "proved",
   "theorems": [
    "C39_dispatch",
    "C39_history",
    "C39_robust_refuted",
    "C39_end_to_end",
    "C39_client_never_crashes_server"
   ],
   "note": ""
  },
  {
   "property": "C40",
   "status": "proved",
   "theorems": [
    "C40_vec",
    "C40_option",
    "C40_string"
   ],
   "note": ""
  },
  {
   "property": "C41",
   "status": "proved",
   "theorems": [
    "C41_primitives"
   ],
   "note": ""
  },
  {
   "property": "C42",
   "status": "proved",
   "theorems": [
    "C42_every_class",
    "C42_without_header",
    "C42_user_class",
    "C42_decode_local",
    "C42_entity_state_refuted"
   ],
   "note": ""
  },
  {
   "property": "C43",
   "status": "proved",
   "theorems": [
    "C43_maps",
    "C43_encode",
    "C43_decode",
    "C43_fire"
   ],
   "note": ""
  },
  {
   "property": "C44",
   "status": "proved",
   "theorems": [
    "C44_always_panic",
    "C44_no_value"
   ],
   "note": ""
  },
  {
   "property": "C45",
   "status": "proved",
   "theorems": [
    "C45_aggregate_decode",
    "C45_aggregate_roundtrip",
    "C45_count_decoded",
    "C45_count_refuted"
   ],
   "note": ""
  },
  {
   "property": "C46",
   "status": "proved",
   "theorems": [
    "C46_serialize_never_panics",
    "C46_transfer_ownership_panics_iff",
    "C46_set_record_panics_iff"
   ],
   "note": ""
  },
  {
   "property": "C47",
   "status": "proved",
   "theorems": [
    "C47_new_roundtrip"
   ],
   "note": ""
  },
  {
   "property": "C48",
   "status": "proved",
   "theorems": [
    "C48_framing_unique",
    "C48_history_framed",
    "C48_receiver",
    "C48_framing_refuted"
   ],
   "note": "Classes with exact lengths; C48_framing_refuted is the counterexample for EntityState."
  },
  {
   "property": "C49",
   "status": "proved",
   "theorems": [
    "C49_relay_size",
    "C49_relay_faithful",
    "C49_relay_fixpoint",
    "C49_entity_state_refuted",
    "C49_reference_refuted"
   ],
   "note": "Exceptions are refuted by C49_entity_state_refuted and C49_reference_refuted."
  },
  {
   "property": "C50",
   "status": "proved",
   "theorems": [
    "C50_arguments_on_wire",
    "C50_record_specification",
    "C50_empty_constructors"
   ],
   "note": "One conjunct per constructor; argument-less ones in C50_empty_constructors; record specification in C50_record_specification."
  },
  {
   "property": "C51",
   "status": "proved",
   "theorems": [
    "C51_covered",
    "C51_all_types_refuted",
    "C51_unclaimed",
    "C51_claimed"
   ],
   "note": "'Every named type has a class' is refuted by C51_all_types_refuted."
  },
  {
   "property": "C52",
   "status": "proved",
   "theorems": [
    "C52_text_identifies",
    "C52_field_text_refuted",
    "C52_library_texts",
    "C52_wrong_type_text",
    "C52_too_large_text",
    "C52_decimal",
    "C52_constructor_texts",
    "C52_other_texts"
   ],
   "note": "The stronger claim about all fields is refuted by C52_field_text_refuted."
  },
  {
   "property": "C53",
   "status": "proved",
   "theorems": [
    "C53_header_ignored",
    "C53_header_check_refuted"
   ],
   "note": "'Length, family or version are checked' is refuted by C53_header_check_refuted."
  },
  {
   "property": "C54",
   "status": "proved",
   "theorems": [
    "C54_zero_filled",
    "C54_guide_buffer",
    "C54_every_class",
    "C54_sufficient_buffer",
    "C54_list_decoding_refuted"
   ],
   "note": "C54_zero_filled for the ordinary classes, C54_every_class for all 66; C54_list_decoding_refuted is the counterexample for the four classes that decode lists."
  },
  {
   "property": "C55",
   "status": "proved",
   "theorems": [
    "C55_transfer_ownership_trace",
    "C55_set_record_trace",
    "C55_transfer_ownership_torn",
    "C55_set_record_torn",
    "C55_all_or_nothing_refuted",
    "C55_framing_refuted"
   ],
   "note": "Other classes never panic on serialization (C46). 'All or nothing' is refuted by C55_all_or_nothing_refuted."
  },
  {
   "property": "C56",
   "status": "proved",
   "theorems": [
    "C56_unconditional",
    "C56_conditional",
    "C56_conditions_needed"
   ],
   "note": "Conditions are the table `conditions` of SpecInform.v; C56_conditions_needed exhibits a collision for every class of the table. Extends C37 (fixed-layout classes) to all classes."
  },
  {
   "property": "C57",
   "status": "proved",
   "theorems": [
    "C57_fresh_datagram"
   ],
   "note": "EntityState emits 133 bytes and announces 144 (C08)."
  },
  {
   "property": "C58",
   "status": "proved",
   "theorems": [
    "C58_antenna_pattern",
    "C58_modulation_parameters",
    "C58_roundtrip"
   ],
   "note": ""
  },
  {
   "property": "C59",
   "status": "proved",
   "theorems": [
    "C59_exact",
    "C59_floats",
    "C59_vectors",
    "C59_grid",
    "C59_partial_equality",
    "C59_vectors_refuted"
   ],
   "note": "Floats through Flocq's Beqb. 'Reflexive' and 'equal values have equal bytes' fail for vectors: C59_vectors_refuted."
  },
  {
   "property": "C60",
   "status": "proved",
   "theorems": [
    "C60_records",
    "C60_classes",
    "C60_transfer_ownership",
    "C60_set_record",
    "C60_debug_to_release_set_record",
    "C60_debug_to_release_transfer",
    "C60_release_to_debug_refuted"
   ],
   "note": "The converse direction is refuted by C60_release_to_debug_refuted. The timestamp does not overflow in either profile (C34)."
  },
  {
   "property": "C61",
   "status": "proved",
   "theorems": [
    "C61_maps",
    "C61_fields_independent",
    "C61_bytes_independent",
    "C61_one_byte",
    "C61_type_byte"
   ],
   "note": "Enumeration and flag numbers can absorb a corruption (unknown codes become the default)."
  },
  {
   "property": "C62",
   "status": "proved",
   "theorems": [
    "C62_serialize",
    "C62_fields_kept",
    "C62_fixed_class",
    "C62_trailing_fields",
    "C62_any_order",
    "C62_number_after_list",
    "C62_length_annotation",
    "C62_optional_field",
    "C62_field_types",
    "C62_library_fields"
   ],
   "note": "With header PduHeader; other header types in C75. Rust rejects duplicate field names; the annotation theorems assume distinct names."
  },
  {
   "property": "C63",
   "status": "proved",
   "theorems": [
    "C63_encoding",
    "C63_decoding",
    "C63_reencode",
    "C63_exact",
    "C63_roundtrip",
    "C63_plain_types",
    "C63_outcomes",
    "C63_grid_axis",
    "C63_grid_data",
    "C63_transmitter_parameters"
   ],
   "note": "Fixed-size records: C22; datum records: C24; record specifications: C25."
  },
  {
   "property": "C64",
   "status": "proved",
   "theorems": [
    "C64_layouts",
    "C64_datagram"
   ],
   "note": "Element encodings inside the lists: C22, C24, C25, C30, C63."
  },
  {
   "property": "C65",
   "status": "proved",
   "theorems": [
    "C65_decode_iff",
    "C65_entity_state",
    "C65_transmitter",
    "C65_aggregate_state",
    "C65_map_complete",
    "C65_transfer_ownership",
    "C65_set_record",
    "C65_information_action",
    "C65_information_report"
   ],
   "note": "C65_decode_iff covers the 59 classes made of numbers and (never read) lists; one theorem each for the seven irregular classes. C65_map_complete: no number of an ordinary class is missing from its map."
  },
  {
   "property": "C66",
   "status": "proved",
   "theorems": [
    "C66_default_length",
    "C66_every_class_tested",
    "C66_serialize_then_deserialize",
    "C66_integration",
    "C66_get_pdu_type",
    "C66_get_pdu_type_short",
    "C66_get_pdu_type_zeros",
    "C66_sizes",
    "C66_vectors"
   ],
   "note": "The 66 cast_to_any tests concern std::any::Any and are not modelled. C66_vectors uses the standard library's real-number axioms through Flocq; the others are closed."
  },
  {
   "property": "C67",
   "status": "proved",
   "theorems": [
    "C67_new_any_clock",
    "C67_decode_any_clock",
    "C67_header_independent",
    "C67_fresh_differ_in_timestamp"
   ],
   "note": "C67_header_independent is closed; the theorems that mention the clock use the standard library's real-number axioms through Flocq."
  },
  {
   "property": "C68",
   "status": "proved",
   "theorems": [
    "C68_datum_same",
    "C68_specification_same",
    "C68_datum_request",
    "C68_bounded_by_input_refuted",
    "C68_specification_request"
   ],
   "note": "The claim that requests are bounded by the input is refuted (C68_bounded_by_input_refuted); the bounds that do hold are proved. Growth of vectors by push is not modelled."
  },
  {
   "property": "C69",
   "status": "proved",
   "theorems": [
    "C69_receive",
    "C69_error_refuted",
    "C69_send_receive",
    "C69_72_refuted",
    "C69_doc_example"
   ],
   "note": "The guides as printed do not compile against the crate (deserialize takes &mut, EntityId::new takes arguments); modelled is what they say. Two statements of the guides are refuted (C69_error_refuted, C69_72_refuted)."
  },
  {
   "property": "C70",
   "status": "proved",
   "theorems": [
    "C70_exactly",
    "C70_all_differ_refuted",
    "C70_wire",
    "C70_relabel"
   ],
   "note": "The book's claim that no two PDUs have the same fields is refuted by the exact list of pairs."
  },
  {
   "property": "C71",
   "status": "proved",
   "theorems": [
    "C71_zero",
    "C71_other",
    "C71_exceptions"
   ],
   "note": "The expected bytes are written by hand in tools/gen_defaults.py."
  },
  {
   "property": "C72",
   "status": "proved",
   "theorems": [
    "C72_flat_lawful",
    "C72_chunked_lawful",
    "C72_same_bytes_same_result",
    "C72_records",
    "C72_any_buffer",
    "C72_pieces",
    "C72_peeking_is_not_a_program"
   ],
   "note": "The several-pieces buffer follows bytes::Chain and the default get_* of the bytes crate."
  },
  {
   "property": "C73",
   "status": "proved",
   "theorems": [
    "C73_constructors",
    "C73_fields",
    "C73_texts",
    "C73_boxed",
    "C73_text_and_source",
    "C73_text_alone_refuted",
    "C73_report",
    "C73_layers",
    "C73_library_errors"
   ],
   "note": "thiserror's derived source() is modelled by hand from the attributes."
  },
  {
   "property": "C74",
   "status": "proved",
   "theorems": [
    "C74_classes",
    "C74_lists_recovered",
    "C74_announced",
    "C74_iff_parameters",
    "C74_entity_state",
    "C74_entity_state_datagram",
    "C74_aggregate_state",
    "C74_minefield_data",
    "C74_gridded_data",
    "C74_transmitter"
   ],
   "note": "Which classes and lists the general theorems cover is C74_classes; the readers of the elements are the crate's own, for variable data followed by dropping the zeros and the padding (SpecRecover.mended_datum). The irregular classes and the optional lists of MinefieldData and the data of GriddedData have their own theorems. Grid data of 8 or 16 bit values and irregular axes end with padding that takes all that follows (C30): not recoverable."
  },
  {
   "property": "C75",
   "status": "proved",
   "theorems": [
    "C75_headers",
    "C75_with_PduHeader",
    "C75_serialize",
    "C75_fixed_class",
    "C75_announced_length",
    "C75_wrong_length_constant",
    "C75_headers_interoperate",
    "C75_header_as_field"
   ],
   "note": "The crate implements FieldDeserialize for PduHeader only; for LiveEntityPduHeader the missing implementation by its own deserialize is assumed."
  },
  {
   "property": "C76",
   "status": "proved",
   "theorems": [
    "C76_exercise",
    "C76_nobody_crashes",
    "C76_miscounted_refuted",
    "C76_small_buffer_refuted",
    "C76_numbers_kept"
   ],
   "note": ""
  },
  {
   "property": "C77",
   "status": "proved",
   "theorems": [
    "C77_relays",
    "C77_chain",
    "C77_entity_state_chain"
   ],
   "note": "Proved for all schedules with relays (C77_relays) and chains of any length (C77_chain, C77_entity_state_chain); examples show that the hypotheses are met, that the header length does change and that two relays are not enough for an EntityState."
  },
  {
   "property": "C78",
   "status": "proved",
   "theorems": [
    "C78_layouts",
    "C78_encode",
    "C78_decode",
    "C78_entity_state_sent",
    "C78_entity_state_received",
    "C78_records",
    "C78_records_bytes",
    "C78_variable_records",
    "C78_records_refuted"
   ],
   "note": "The standard's layouts are the literal tables of SpecIeee.v, written down independently of the repository (but without the standard at hand); C78_layouts compares them with the field maps of C43. C78_records_refuted: two record types do not have the standard's layout."
  },
  {
   "property": "C79",
   "status": "proved",
   "theorems": [
    "C79_elements_taken_for_pdus",
    "C79_in_sequence_iff",
    "C79_phantoms",
    "C79_one_sent_two_received",
    "C79_by_length",
    "C79_by_length_exact",
    "C79_by_length_refuted"
   ],
   "note": "C79_in_sequence_iff, C79_elements_taken_for_pdus and C79_phantoms for the receiver in sequence; C79_by_length, C79_by_length_exact and C79_by_length_refuted for the receiver by length. Both receivers are programs over the modelled API (SpecBundle.v); examples show that the hypotheses are met."
  },
  {
   "property": "C80",
   "status": "proved",
   "theorems": [
    "C80_chunks_do_not_matter",
    "C80_received_so_far",
    "C80_everything_received",
    "C80_pending_is_bounded",
    "C80_blocked_for_ever",
    "C80_blocked_by_entity_state"
   ],
   "note": "The receiver is a program over the modelled API (SpecBundle.v, SpecStream.v). C80_received_so_far is the claim at every moment; examples show a concrete stream in three chunks and a blocked receiver."
  },
  {
   "property": "C81",
   "status": "proved",
   "theorems": [
    "C81_on_copies",
    "C81_on_copies_none",
    "C81_in_place",
    "C81_in_place_tried_first",
    "C81_in_place_tried_later",
    "C81_in_place_used_up",
    "C81_in_place_refuted",
    "C81_in_place_phantom"
   ],
   "note": "Both receivers are programs over the modelled API (SpecTries.v). C81_on_copies compares with the receiver of C76; C81_in_place and its corollaries; C81_in_place_refuted and C81_in_place_phantom are concrete failures."
  },
  {
   "property": "C82",
   "status": "proved",
   "theorems": [
    "C82_variants",
    "C82_names_one_to_one",
    "C82_no_other_name",
    "C82_siso",
    "C82_decoded_name",
    "C82_unknown_misread",
    "C82_error_text"
   ],
   "note": "EnumNames.v holds the variant names (generated from the source text separately from the discriminants; C82_variants checks the two against each other). SpecEnumNames.v is set down from knowledge of SISO-REF-010, which was not at hand; it covers 662 of 9070 variants. C82_unknown_misread lists enumerations whose default is not an 'other' value."
  },
  {
   "property": "C83",
   "status": "proved",
   "theorems": [
    "C83_downcast",
    "C83_history",
    "C83_emitted",
    "C83_hidden_fields",
    "C83_panics",
    "C83_type_after_serialize",
    "C83_type_of_decoded",
    "C83_type_refuted"
   ],
   "note": "DynPdu.v models the trait object; the concrete type (TypeId) is the position of the class in the list of classes. C83_type_refuted is the counterexample to relying on the header's type."
  },
  {
   "property": "C84",
   "status": "proved",
   "theorems": [
    "C84_names",
    "C84_queries",
    "C84_from_bits",
    "C84_wire",
    "C84_land_accepts",
    "C84_object_drops"
   ],
   "note": "The set operations are those of the bitflags crate, modelled from its documentation (Flags.v). C84_land_accepts and C84_object_drops are the losses; the positions of the standard's fields are from memory of SISO-REF-010."
  },
  {
   "property": "C85",
   "status": "proved",
   "theorems": [
    "C85_newest_wins",
    "C85_final",
    "C85_others_ignored",
    "C85_rollover_refuted",
    "C85_torn_refuted"
   ],
   "note": "For classes of fixed layout (fixed_layout, as in C11). Updates of the positive theorems are made at one clock instant (clean); C85_torn_refuted and C85_rollover_refuted show what happens otherwise. Rests on the standard library's real number axioms through C34."
  },
  {
   "property": "C86",
   "status": "proved",
   "theorems": [
    "C86_any_schedule",
    "C86_all_sent",
    "C86_receiver",
    "C86_poison",
    "C86_recover_refuted"
   ],
   "note": "Threads.v models std's Mutex (exclusion and poisoning); a turn of a thread is one critical section. What a panicking serialize leaves behind is a parameter in the positive theorems and that of C55 in C86_recover_refuted."
  },
  {
   "property": "C87",
   "status": "proved",
   "theorems": [
    "C87_queue",
    "C87_exactly_once",
    "C87_empty_handed",
    "C87_elements_refuted"
   ],
   "note": "Ordinary classes (all but the special ones of C22-C31, C45), PDUs without list elements (plain). C87_elements_refuted is the counterexample with elements; producer and consumer are programs over the modelled API (SpecQueue.v)."
  },
  {
   "property": "C88",
   "status": "proved",
   "theorems": [
    "C88_opening",
    "C88_appending",
    "C88_history",
    "C88_log",
    "C88_survivors",
    "C88_without_truncating"
   ],
   "note": "Sendable PDUs that announce their size (loggable; C79_by_length_exact gives it for classes with exact lengths). C88_history holds for any initial file. C88_without_truncating is the counterexample without the truncation, for all later sessions. The log writer and reader are programs over the modelled API (SpecLog.v); the file system is a list of bytes of which a crash keeps a prefix of what was appended."
  },
  {
   "property": "C89",
   "status": "proved",
   "theorems": [
    "C89_histories",
    "C89_same_bits",
    "C89_order",
    "C89_last_read",
    "C89_shared",
    "C89_dti_seen",
    "C89_checked",
    "C89_generated",
    "C89_specifiers"
   ],
   "note": "The methods that modular-bitfield generates are modelled from the crate's documentation (its source is not in /repo): Header.v for getters and setters, Status.v for the others. `allowed`: the raw setter set_bit4_5 is given a two-bit value; C89_checked says what happens otherwise."
  },
  {
   "property": "C90",
   "status": "proved",
   "theorems": [
    "C90_safe",
    "C90_retry",
    "C90_delivered",
    "C90_forgetful_refuted",
    "C90_same_key_refuted",
    "C90_start_resume_sound",
    "C90_action_sound",
    "C90_start_resume_can_send",
    "C90_management_sound",
    "C90_start_resume",
    "C90_action_without_data"
   ],
   "note": "Generic in the protocol (SpecHandshake.v: classes, key, answer; `sound` says the protocol can work), with instances shown sound: CreateEntity, RemoveEntity, StartResume with Acknowledge, their reliable variants with AcknowledgeReliable, and ActionRequest/ActionResponse. Server and clients are programs over the modelled API."
  }
 ]
}