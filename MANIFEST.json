{
 "claims": [
  {
   "property": "C01",
   "status": "proved",
   "theorems": [
    "C01_checksum",
    "C01_checksum_unique",
    "C01_two_digits",
    "C01_any_order"
   ],
   "note": ""
  },
  {
   "property": "C02",
   "status": "proved",
   "theorems": [
    "C02_substitution",
    "C02_byte_substitution",
    "C02_first_character_refuted"
   ],
   "note": "Holds unless the altered character is a framing character (witness: C02_first_character_refuted)."
  },
  {
   "property": "C03",
   "status": "proved",
   "theorems": [
    "C03_gate",
    "C03_mismatch",
    "C03_ligature_refuted"
   ],
   "note": "str.upper maps ligatures to ASCII letters, so a received checksum need not be two ASCII characters (C03_ligature_refuted)."
  },
  {
   "property": "C04",
   "status": "proved",
   "theorems": [
    "C04_checksum_ignored"
   ],
   "note": ""
  },
  {
   "property": "C05",
   "status": "proved",
   "theorems": [
    "C05_decomposition",
    "C05_unique",
    "C05_succeeds",
    "C05_fails",
    "C05_compose"
   ],
   "note": ""
  },
  {
   "property": "C06",
   "status": "proved",
   "theorems": [
    "C06_malformed",
    "C06_bad_utf8"
   ],
   "note": ""
  },
  {
   "property": "C07",
   "status": "proved",
   "theorems": [
    "C07_exceptions",
    "C07_index_error",
    "C07_refuted"
   ],
   "note": "The exact conditions of the IndexError and ZeroDivisionError that escape are part of the theorem."
  },
  {
   "property": "C08",
   "status": "proved",
   "theorems": [
    "C08_parse_after_serialize",
    "C08_constructed",
    "C08_constructed_checksum"
   ],
   "note": ""
  },
  {
   "property": "C09",
   "status": "proved",
   "theorems": [
    "C09_serialize_after_parse",
    "C09_bytes",
    "C09_brackets_refuted"
   ],
   "note": "PSSNSNC brackets are the only exception (C09_brackets_refuted)."
  },
  {
   "property": "C10",
   "status": "proved",
   "theorems": [
    "C10_serialize",
    "C10_given",
    "C10_none",
    "C10_serialize_fails",
    "C10_checksum_keywords",
    "C10_checksum_payload",
    "C10_checksum_explicit",
    "C10_refuted"
   ],
   "note": "Explicit exceptions: surrogates; messages without definition (C10_none, C10_refuted)."
  },
  {
   "property": "C11",
   "status": "proved",
   "theorems": [
    "C11_accepted",
    "C11_same_definition",
    "C11_unreadable_refuted",
    "C11_comma_refuted",
    "C11_typed",
    "C11_typed_accepted"
   ],
   "note": "Two general theorems with the readability condition, and C11_typed* for well-typed keyword values where it holds by construction."
  },
  {
   "property": "C12",
   "status": "proved",
   "theorems": [
    "C12_plain",
    "C12_settle_other",
    "C12_text",
    "C12_complete",
    "C12_builtin"
   ],
   "note": ""
  },
  {
   "property": "C13",
   "status": "proved",
   "theorems": [
    "C13_complete",
    "C13_builtin_in_order",
    "C13_decoded",
    "C13_builtin",
    "C13_group_slots",
    "C13_indeterminate"
   ],
   "note": ""
  },
  {
   "property": "C14",
   "status": "proved",
   "theorems": [
    "C14_prefix",
    "C14_extra",
    "C14_sign_refuted",
    "C14_prefix_groups",
    "C14_extra_fields",
    "C14_magnitude"
   ],
   "note": "Stated up to the sign of lat/lon (C14_sign_refuted); C14_magnitude: dropping trailing fields changes no attribute's magnitude."
  },
  {
   "property": "C15",
   "status": "proved",
   "theorems": [
    "C15_lat",
    "C15_lon",
    "C15_no_hemisphere"
   ],
   "note": ""
  },
  {
   "property": "C16",
   "status": "proved",
   "theorems": [
    "C16_constructed",
    "C16_recovered"
   ],
   "note": ""
  },
  {
   "property": "C17",
   "status": "proved",
   "theorems": [
    "C17_unknown",
    "C17_numbered"
   ],
   "note": ""
  },
  {
   "property": "C18",
   "status": "proved",
   "theorems": [
    "C18_accepts",
    "C18_rejects",
    "C18_off",
    "C18_talker"
   ],
   "note": ""
  },
  {
   "property": "C19",
   "status": "proved",
   "theorems": [
    "C19_parse",
    "C19_message",
    "C19_accepted",
    "C19_reader"
   ],
   "note": ""
  },
  {
   "property": "C20",
   "status": "proved",
   "theorems": [
    "C20_user_definition",
    "C20_builtin",
    "C20_lower_case",
    "C20_lower_case_refuted"
   ],
   "note": "Lower-case user ids: C20_lower_case_refuted."
  },
  {
   "property": "C21",
   "status": "proved",
   "theorems": [
    "C21_missing_msgId",
    "C21_keyword",
    "C21_prefix",
    "C21_ashr"
   ],
   "note": ""
  },
  {
   "property": "C22",
   "status": "proved",
   "theorems": [
    "C22_keyword_variant",
    "C22_keyword_variants_exist",
    "C22_variant",
    "C22_unknown_variant",
    "C22_variants_exist"
   ],
   "note": ""
  },
  {
   "property": "C23",
   "status": "proved",
   "theorems": [
    "C23_immutable",
    "C23_parsed",
    "C23_delete_refuted",
    "C23_payload_refuted"
   ],
   "note": "Covers assignment sequences; deletion and editing .payload are shown to change the message."
  },
  {
   "property": "C24",
   "status": "proved",
   "theorems": [
    "C24_identity",
    "C24_parsed"
   ],
   "note": ""
  },
  {
   "property": "C25",
   "status": "proved",
   "theorems": [
    "C25_str"
   ],
   "note": ""
  },
  {
   "property": "C26",
   "status": "proved",
   "theorems": [
    "C26_read",
    "C26_slices"
   ],
   "note": ""
  },
  {
   "property": "C27",
   "status": "proved",
   "theorems": [
    "C27_all_delivered",
    "C27_refuted"
   ],
   "note": "A stray '$' hides a sentence: C27_refuted."
  },
  {
   "property": "C28",
   "status": "proved",
   "theorems": [
    "C28_read",
    "C28_iterate"
   ],
   "note": ""
  },
  {
   "property": "C29",
   "status": "proved",
   "theorems": [
    "C29_ignore",
    "C29_handler",
    "C29_log",
    "C29_raise",
    "C29_history",
    "C29_no_escape",
    "C29_escapes",
    "C29_same",
    "C29_other_values"
   ],
   "note": ""
  },
  {
   "property": "C30",
   "status": "proved",
   "theorems": [
    "C30_resync",
    "C30_raise"
   ],
   "note": ""
  },
  {
   "property": "C31",
   "status": "proved",
   "theorems": [
    "C31_no_dollar",
    "C31_skipped",
    "C31_raised",
    "C31_reported",
    "C31_refuted"
   ],
   "note": "The stronger reading (any foreign data is noticed) is refuted."
  },
  {
   "property": "C32",
   "status": "proved",
   "theorems": [
    "C32_truncated",
    "C32_clean_end",
    "C32_complete"
   ],
   "note": ""
  },
  {
   "property": "C33",
   "status": "proved",
   "theorems": [
    "C33_parsed",
    "C33_iterate"
   ],
   "note": ""
  },
  {
   "property": "C34",
   "status": "proved",
   "theorems": [
    "C34_read",
    "C34_failed",
    "C34_enough"
   ],
   "note": ""
  },
  {
   "property": "C35",
   "status": "proved",
   "theorems": [
    "C35_integrity",
    "C35_constructor",
    "C35_from_start"
   ],
   "note": ""
  },
  {
   "property": "C36",
   "status": "proved",
   "theorems": [
    "C36_segmentation",
    "C36_from_start",
    "C36_terminates"
   ],
   "note": ""
  },
  {
   "property": "C37",
   "status": "proved",
   "theorems": [
    "C37_socket_file",
    "C37_refuted"
   ],
   "note": "Proved when every line ends CR LF; refuted for a bare LF."
  },
  {
   "property": "C38",
   "status": "proved",
   "theorems": [
    "C38_decoded",
    "C38_read",
    "C38_lost_segment",
    "C38_stuck",
    "C38_refuted"
   ],
   "note": "Proved for all cuts except the two kinds that lose data, which are shown to (C38_refuted)."
  },
  {
   "property": "C39",
   "status": "proved",
   "theorems": [
    "C39_total",
    "C39_overflow",
    "C39_overflow_refuted",
    "C39_decompress",
    "C39_as_received",
    "C39_readline"
   ],
   "note": "zlib.decompress is an arbitrary function that may fail."
  },
  {
   "property": "C40",
   "status": "proved",
   "theorems": [
    "C40_whole_seconds",
    "C40_decimals",
    "C40_time2str",
    "C40_other_values",
    "C40_round_trip",
    "C40_truncates"
   ],
   "note": ""
  },
  {
   "property": "C41",
   "status": "proved",
   "theorems": [
    "C41_round_trip",
    "C41_long",
    "C41_text",
    "C41_other_values",
    "C41_other_years_refuted"
   ],
   "note": ""
  },
  {
   "property": "C42",
   "status": "proved",
   "theorems": [
    "C42_time",
    "C42_date"
   ],
   "note": ""
  },
  {
   "property": "C43",
   "status": "proved",
   "theorems": [
    "C43_calendar",
    "C43_before",
    "C43_value",
    "C43_defined",
    "C43_monotone",
    "C43_beidou"
   ],
   "note": ""
  },
  {
   "property": "C44",
   "status": "proved",
   "theorems": [
    "C44_week",
    "C44_modular_week",
    "C44_milliseconds",
    "C44_exact",
    "C44_range_refuted"
   ],
   "note": "Exact ranges, including the overrun in the last leap seconds of a week."
  },
  {
   "property": "C45",
   "status": "proved",
   "theorems": [
    "C45_round_trip",
    "C45_exact",
    "C45_default_leap",
    "C45_exact_refuted"
   ],
   "note": "Exceptions shown by C45_exact_refuted."
  },
  {
   "property": "C46",
   "status": "proved",
   "theorems": [
    "C46_terminates",
    "C46_unrolled",
    "C46_rolled",
    "C46_not_future"
   ],
   "note": ""
  },
  {
   "property": "C47",
   "status": "proved",
   "theorems": [
    "C47_latitude",
    "C47_longitude",
    "C47_width",
    "C47_integer",
    "C47_boolean",
    "C47_not_a_number",
    "C47_minutes_below_60_refuted"
   ],
   "note": ""
  },
  {
   "property": "C48",
   "status": "proved",
   "theorems": [
    "C48_latitude",
    "C48_longitude"
   ],
   "note": ""
  },
  {
   "property": "C49",
   "status": "proved",
   "theorems": [
    "C49_total",
    "C49_longitude",
    "C49_parts",
    "C49_no_point",
    "C49_value",
    "C49_unsigned_refuted"
   ],
   "note": ""
  },
  {
   "property": "C50",
   "status": "proved",
   "theorems": [
    "C50_round_trip",
    "C50_limit"
   ],
   "note": ""
  },
  {
   "property": "C51",
   "status": "proved",
   "theorems": [
    "C51_round_trip",
    "C51_injective",
    "C51_plain"
   ],
   "note": ""
  },
  {
   "property": "C52",
   "status": "proved",
   "theorems": [
    "C52_round_trip",
    "C52_only_types"
   ],
   "note": ""
  },
  {
   "property": "C53",
   "status": "proved",
   "theorems": [
    "C53_types",
    "C53_generate",
    "C53_parse",
    "C53_refuted"
   ],
   "note": "DTL cannot be read; FOO is a placeholder."
  },
  {
   "property": "C54",
   "status": "proved",
   "theorems": [
    "C54_distinct",
    "C54_public",
    "C54_counts",
    "C54_groups",
    "C54_one_group"
   ],
   "note": ""
  },
  {
   "property": "C55",
   "status": "proved",
   "theorems": [
    "C55_parse",
    "C55_construct",
    "C55_unreachable",
    "C55_poll_refuted",
    "C55_unbuildable"
   ],
   "note": "The unreachable definitions are listed in the theorem and shown unreachable."
  },
  {
   "property": "C56",
   "status": "proved",
   "theorems": [
    "C56_size",
    "C56_unreadable",
    "C56_indexed",
    "C56_underscore_refuted"
   ],
   "note": ""
  },
  {
   "property": "C57",
   "status": "proved",
   "theorems": [
    "C57_repr",
    "C57_refuted",
    "C57_text",
    "C57_eval",
    "C57_quote_refuted"
   ],
   "note": "The text for every message with quotable talker and msgID; the reconstruction for parsed messages of built-in ids with right checksum and default settings; C57_refuted, C57_quote_refuted otherwise."
  },
  {
   "property": "C58",
   "status": "proved",
   "theorems": [
    "C58_transparent",
    "C58_ascii",
    "C58_content"
   ],
   "note": ""
  },
  {
   "property": "C59",
   "status": "proved",
   "theorems": [
    "C59_text",
    "C59_width",
    "C59_value",
    "C59_wide_refuted"
   ],
   "note": ""
  },
  {
   "property": "C60",
   "status": "proved",
   "theorems": [
    "C60_standard",
    "C60_proprietary",
    "C60_other"
   ],
   "note": ""
  },
  {
   "property": "C61",
   "status": "proved",
   "theorems": [
    "C61_factor",
    "C61_integer",
    "C61_other_unit",
    "C61_long_s_refuted",
    "C61_value",
    "C61_value_whole",
    "C61_value_too_large",
    "C61_boolean",
    "C61_not_finite",
    "C61_not_a_number"
   ],
   "note": ""
  },
  {
   "property": "C62",
   "status": "proved",
   "theorems": [
    "C62_area_is_surface",
    "C62_area_symmetric",
    "C62_area_nonnegative",
    "C62_area_zero",
    "C62_area_turn",
    "C62_area_one_turn_refuted",
    "C62_area_sphere",
    "C62_area_additive",
    "C62_haversine_great_circle",
    "C62_haversine_symmetric",
    "C62_haversine_range",
    "C62_haversine_triangle",
    "C62_haversine_turn",
    "C62_planar_flat",
    "C62_planar_zero",
    "C62_planar_zero_only",
    "C62_planar_turn",
    "C62_planar_symmetric",
    "C62_planar_symmetric_refuted",
    "C62_planar_meridian",
    "C62_planar_equator"
   ],
   "note": "Over ideal real arithmetic; C78 and C79 are the binary64 counterparts (there haversine can raise near antipodal points)."
  },
  {
   "property": "C63",
   "status": "proved",
   "theorems": [
    "C63_range",
    "C63_direction",
    "C63_north",
    "C63_south",
    "C63_east",
    "C63_west",
    "C63_same",
    "C63_turn"
   ],
   "note": "Over ideal real arithmetic; C79 is the binary64 counterpart."
  },
  {
   "property": "C64",
   "status": "proved",
   "theorems": [
    "C64_on_ellipsoid",
    "C64_height",
    "C64_normal",
    "C64_longitude",
    "C64_zero",
    "C64_zero_axis"
   ],
   "note": "Over ideal real arithmetic; C80 is the binary64 counterpart."
  },
  {
   "property": "C65",
   "status": "proved",
   "theorems": [
    "C65_core",
    "C65_zero",
    "C65_total",
    "C65_nominal_iff",
    "C65_equator",
    "C65_reflection",
    "C65_rotation",
    "C65_poles",
    "C65_round_trip",
    "C65_inverse"
   ],
   "note": "Over ideal real arithmetic; the accuracy bound of the truncated iteration is proved. The binary64 computation is C81."
  },
  {
   "property": "C66",
   "status": "proved",
   "theorems": [
    "C66_text",
    "C66_altitude",
    "C66_negative_altitude_refuted",
    "C66_boolean",
    "C66_type"
   ],
   "note": ""
  },
  {
   "property": "C67",
   "status": "proved",
   "theorems": [
    "C67_nominal",
    "C67_builtin",
    "C67_refuted"
   ],
   "note": ""
  },
  {
   "property": "C68",
   "status": "proved",
   "theorems": [
    "C68_built",
    "C68_complete",
    "C68_placed",
    "C68_irrelevant",
    "C68_reserved_refuted",
    "C68_succeeds"
   ],
   "note": ""
  },
  {
   "property": "C69",
   "status": "proved",
   "theorems": [
    "C69_dms",
    "C69_dmm",
    "C69_integer",
    "C69_boolean",
    "C69_pair",
    "C69_not_finite",
    "C69_inverse_dms",
    "C69_inverse_dmm",
    "C69_seconds_below_60_refuted",
    "C69_inverse_refuted",
    "C69_every_dms",
    "C69_every_dmm",
    "C69_total"
   ],
   "note": ""
  },
  {
   "property": "C70",
   "status": "proved",
   "theorems": [
    "C70_clock",
    "C70_bytes_or_str",
    "C70_encoded"
   ],
   "note": ""
  },
  {
   "property": "C71",
   "status": "proved",
   "theorems": [
    "C71_position",
    "C71_read",
    "C71_functional",
    "C71_parsed",
    "C71_typed",
    "C71_attributes",
    "C71_not_an_integer",
    "C71_not_a_decimal",
    "C71_parsed_numbers",
    "C71_python_numerals_refuted"
   ],
   "note": "Specification ValueSpec.v; Python-only numerals are shown to be accepted too."
  },
  {
   "property": "C72",
   "status": "proved",
   "theorems": [
    "C72_written",
    "C72_placed",
    "C72_slots",
    "C72_position_text_refuted"
   ],
   "note": "Specification ValueSpec.v."
  },
  {
   "property": "C73",
   "status": "proved",
   "theorems": [
    "C73_chunked_plain",
    "C73_chunked_file",
    "C73_example"
   ],
   "note": ""
  },
  {
   "property": "C74",
   "status": "proved",
   "theorems": [
    "C74_failure",
    "C74_resume",
    "C74_inside_line_refuted",
    "C74_example"
   ],
   "note": ""
  },
  {
   "property": "C75",
   "status": "proved",
   "theorems": [
    "C75_file",
    "C75_socket",
    "C75_fields",
    "C75_keywords",
    "C75_relay"
   ],
   "note": "File and plain connection; C75_relay for arbitrary input streams."
  },
  {
   "property": "C76",
   "status": "proved",
   "theorems": [
    "C76_resume",
    "C76_file",
    "C76_socket",
    "C76_catch",
    "C76_new_reader_refuted"
   ],
   "note": "Resuming for any stream object; the catching application for files and plain connections."
  },
  {
   "property": "C77",
   "status": "proved",
   "theorems": [
    "C77_origin",
    "C77_lost",
    "C77_eof",
    "C77_overflow"
   ],
   "note": ""
  },
  {
   "property": "C78",
   "status": "proved",
   "theorems": [
    "C78_haversine",
    "C78_never_raises",
    "C78_default_radius",
    "C78_same",
    "C78_antipodal_refuted",
    "C78_example"
   ],
   "note": "The accuracy of the C library (sin, cos, asin, acos, atan2, pow(x, 2) within 1 ulp, and annex F exact cases) is a hypothesis of the theorems, shown to be satisfiable by exact_libm_ok. C78_antipodal_refuted additionally assumes cos within 0.6 ulp."
  },
  {
   "property": "C79",
   "status": "proved",
   "theorems": [
    "C79_overflow",
    "C79_overflow_example",
    "C79_bearing",
    "C79_bearing_same",
    "C79_planar",
    "C79_planar_same",
    "C79_area",
    "C79_area_symmetric",
    "C79_example"
   ],
   "note": "The accuracy of the C library (sin, cos, asin, acos, atan2, pow(x, 2) within 1 ulp, and annex F exact cases) is a hypothesis of the theorems, shown to be satisfiable by exact_libm_ok."
  },
  {
   "property": "C80",
   "status": "proved",
   "theorems": [
    "C80_overflow",
    "C80_llh2ecef",
    "C80_wgs84",
    "C80_example"
   ],
   "note": "The accuracy of the C library (sin, cos, asin, acos, atan2, pow(x, 2) within 1 ulp, and annex F exact cases) is a hypothesis of the theorems, shown to be satisfiable by exact_libm_ok."
  },
  {
   "property": "C81",
   "status": "proved",
   "theorems": [
    "C81_core",
    "C81_total",
    "C81_never_raises",
    "C81_accuracy",
    "C81_round_trip",
    "C81_position",
    "C81_example"
   ],
   "note": "The accuracy of the C library (sin, cos, asin, acos, atan2, pow(x, 2) within 1 ulp, and annex F exact cases) is a hypothesis of the theorems, shown to be satisfiable by exact_libm_ok."
  },
  {
   "property": "C82",
   "status": "proved",
   "theorems": [
    "C82_file",
    "C82_socket",
    "C82_not_called",
    "C82_memoryless",
    "C82_below_limit",
    "C82_at_limit",
    "C82_parsed"
   ],
   "note": "ReaderHandler.v is the loop of Reader.v with a handler that has a memory; C82_memoryless shows that the two models agree on handlers without one."
  },
  {
   "property": "C83",
   "status": "proved",
   "theorems": [
    "C83_values",
    "C83_position",
    "C83_magnitude",
    "C83_conditions"
   ],
   "note": "Hypotheses as in C11 (bundled as `generated`); C83_conditions derives them from conditions on the keywords and the text. The hemisphere fields themselves are C16."
  },
  {
   "property": "C84",
   "status": "proved",
   "theorems": [
    "C84_resolved",
    "C84_default",
    "C84_latest",
    "C84_live_refuted"
   ],
   "note": "C84_live_refuted: a message just received, leap seconds from the table: the result is 19.6 years early. As stated the property excludes this."
  },
  {
   "property": "C85",
   "status": "proved",
   "theorems": [
    "C85_integrity",
    "C85_reports",
    "C85_ready",
    "C85_not_ready",
    "C85_negative"
   ],
   "note": "send() is any function of the data; C35 is the same for read(n >= 0) and readline alone."
  },
  {
   "property": "C86",
   "status": "proved",
   "theorems": [
    "C86_distinct",
    "C86_decoded",
    "C86_signal",
    "C86_systems",
    "C86_constellations",
    "C86_spelling_refuted",
    "C86_status_keys",
    "C86_status_flags",
    "C86_status_text",
    "C86_several_letters_refuted"
   ],
   "note": "C86_spelling_refuted: 'Beidou' against 'BeiDou'; C86_several_letters_refuted: a GNS posMode of several letters, and '01' as a system, spell no key."
  },
  {
   "property": "C87",
   "status": "proved",
   "theorems": [
    "C87_needed",
    "C87_memory",
    "C87_prompt",
    "C87_at_once",
    "C87_bare_lf_refuted"
   ],
   "note": "C87_needed: every history of methods (the `does`/`history` relations of C85). C87_memory: bound of in_waiting from __init__ on. C87_prompt/C87_at_once: NMEAReader on the wrapper; C87_at_once has no condition on the encoding. C87_bare_lf_refuted: a sentence ended by LF alone is delivered only after one more recv()."
  },
  {
   "property": "C88",
   "status": "proved",
   "theorems": [
    "C88_bursts",
    "C88_polled",
    "C88_between_lines",
    "C88_inside_sentence",
    "C88_loop",
    "C88_one_loop_refuted",
    "C88_silent_refuted"
   ],
   "note": "The port (bytes and timeouts) is a model of the stream object, which is not part of the repository (pyserial's read(1)/readline()). C88_bursts: every port is of the form the theorems speak of. C88_one_loop_refuted and C88_silent_refuted show what is not guaranteed."
  },
  {
   "property": "C89",
   "status": "proved",
   "theorems": [
    "C89_bytes",
    "C89_item",
    "C89_text",
    "C89_bytearray",
    "C89_none",
    "C89_text_mode_refuted"
   ],
   "note": "ReaderAny.v is the loop of nmeareader.py over values of four kinds; C89_bytes shows that it agrees with Reader.v on bytes, for every stream object. C89_text_mode_refuted: a text-mode file of good sentences gives nothing, silently, even with ERR_RAISE."
  },
  {
   "property": "C90",
   "status": "proved",
   "theorems": [
    "C90_two",
    "C90_many",
    "C90_loops",
    "C90_noise",
    "C90_no_newline_refuted"
   ],
   "note": "For applications that carry on after an exception (C90_two, C90_many, C90_noise) and for loops that end normally (C90_loops). C90_no_newline_refuted: without the final line end two sentences are lost."
  },
  {
   "property": "C91",
   "status": "proved",
   "theorems": [
    "C91_outcome",
    "C91_message",
    "C91_refused",
    "C91_flags",
    "C91_stream",
    "C91_socket",
    "C91_loop_refuted",
    "C91_private_refuted"
   ],
   "note": "C91_loop_refuted: without validation a corrupted sentence can end a for loop with IndexError and so lose the sentences after it. C91_private_refuted: a definition with a group repeated \"_validate\" times."
  },
  {
   "property": "C92",
   "status": "proved",
   "theorems": [
    "C92_assign",
    "C92_stable",
    "C92_attributes",
    "C92_private",
    "C92_parsed",
    "C92_shared",
    "C92_argument",
    "C92_copies",
    "C92_stale_refuted",
    "C92_argument_refuted"
   ],
   "note": "Objects.v is a heap of lists and objects over the functions of Message.v/Reader.v (deletion restricted to public attributes). C92_stale_refuted: a message built from a list that is edited later serializes with a stale checksum, which parse() refuses; C92_argument_refuted: the constructor edits the caller's list for PSSNSNC."
  },
  {
   "property": "C93",
   "status": "proved",
   "theorems": [
    "C93_locked",
    "C93_turns",
    "C93_any",
    "C93_lost_refuted",
    "C93_torn_refuted"
   ],
   "note": "Threads.v: small-step machine of read(), one step per stream call; read_alone proves that an uninterrupted run is Reader.v's read(). C93_turns: there is a schedule for every order of turns. C93_lost_refuted, C93_torn_refuted: what can go wrong without a lock."
  },
  {
   "property": "C94",
   "status": "proved",
   "theorems": [
    "C94_local",
    "C94_sentences",
    "C94_one_byte",
    "C94_dropped",
    "C94_inserted",
    "C94_detected",
    "C94_line_end_refuted"
   ],
   "note": "What an application that goes on after exceptions sees (as in C76). C94_local is the general statement for arbitrary lines, C94_sentences for sentences and arbitrary damage; C94_detected combines it with C02."
  },
  {
   "property": "C95",
   "status": "proved",
   "theorems": [
    "C95_keywords",
    "C95_payload",
    "C95_reserved",
    "C95_reserved_error",
    "C95_definitions",
    "C95_reserved_refuted"
   ],
   "note": "C95_keywords and C95_payload are equalities of the whole result; C95_definitions is sameness of everything the API shows. C95_reserved, C95_reserved_error: the colliding names."
  },
  {
   "property": "C96",
   "status": "proved",
   "theorems": [
    "C96_detected",
    "C96_undetected",
    "C96_permuted",
    "C96_odd",
    "C96_lost",
    "C96_put_in",
    "C96_two",
    "C96_burst",
    "C96_digit",
    "C96_case",
    "C96_swapped_refuted",
    "C96_odd_bytes_refuted"
   ],
   "note": "C96_detected and C96_undetected are the exact criterion, in terms of the parity of each bit; C96_odd, C96_burst (for bytes of an ASCII sentence, including damage that makes UTF-8 of it), C96_lost, C96_put_in, C96_two, C96_permuted and C96_digit, C96_case are the kinds of damage. C96_swapped_refuted: exchanged digits give another position unnoticed. C96_odd_bytes_refuted: counted in bytes an odd number of flips can pass, because the checksum is taken over decoded characters."
  },
  {
   "property": "C97",
   "status": "proved",
   "theorems": [
    "C97_keywords",
    "C97_message_error",
    "C97_payload_keywords",
    "C97_payload"
   ],
   "note": "C97_keywords, C97_payload: what can escape; C97_message_error: the exact condition, for keywords that are not parameter names of helpers and msgId/msgtype given as text (otherwise NMEATypeError may come first); C97_payload_keywords: keywords beside a payload. Resource exhaustion (MemoryError, RecursionError) and values of other types are outside the model."
  },
  {
   "property": "C98",
   "status": "proved",
   "theorems": [
    "C98_field",
    "C98_rebuilt",
    "C98_sentence",
    "C98_standard",
    "C98_refuted",
    "C98_proprietary",
    "C98_prefix",
    "C98_prefix_definitions",
    "C98_variants",
    "C98_user",
    "C98_special_refuted"
   ],
   "note": "Exact round trip for every sentence whose fields match the definition; zero south/west positions, missing hemispheres, missing trailing fields and group names with an underscore are the exceptions, shown by C98_refuted."
  },
  {
   "property": "C99",
   "status": "proved",
   "theorems": [
    "C99_display",
    "C99_text",
    "C99_sent",
    "C99_tasks",
    "C99_safe",
    "C99_displays",
    "C99_sends",
    "C99_stops",
    "C99_port",
    "C99_file",
    "C99_file_display",
    "C99_left_refuted",
    "C99_join_refuted",
    "C99_noise_refuted"
   ],
   "note": "Every schedule, every port object. The threads' steps are the operations on the queues, the event and the port; the read() inside is the step machine of C93, which refines the reader model."
  },
  {
   "property": "C100",
   "status": "proved",
   "theorems": [
    "C100_ecef_round_trip",
    "C100_listed",
    "C100_default",
    "C100_radius",
    "C100_transform",
    "C100_example"
   ],
   "note": "All 124 entries are decided by computation on their floats; the round trip composes C81 with the error analysis of C80 extended to computed angles slightly beyond 90/180 degrees and a Lipschitz bound for positions."
  },
  {
   "property": "C101",
   "status": "proved",
   "theorems": [
    "C101_written",
    "C101_stops",
    "C101_document",
    "C101_cases",
    "C101_sentence",
    "C101_sentence_time",
    "C101_log",
    "C101_no_fix_refuted"
   ],
   "note": "C101_written and C101_stops describe the file for every log (C101_cases: one of the two applies); C101_document: well-formed iff no exception (XmlSpec.v); C101_sentence, C101_sentence_time: which GGA sentences have what is needed; C101_log: a log of such sentences. C101_no_fix_refuted: a sentence without a fix, a short one and a line without '*' each end the program."
  },
  {
   "property": "C102",
   "status": "proved",
   "theorems": [
    "C102_latest",
    "C102_snapshot",
    "C102_dies",
    "C102_sentences",
    "C102_json",
    "C102_readings",
    "C102_consistent_refuted",
    "C102_nan_refuted",
    "C102_short_refuted"
   ],
   "note": "C102_latest, C102_snapshot, C102_dies, C102_sentences, C102_json, C102_readings. Refuted: entries that belong together (C102_consistent_refuted), JSON for a field such as \"nan\" (C102_nan_refuted), surviving a short sentence (C102_short_refuted)."
  },
  {
   "property": "C103",
   "status": "proved",
   "theorems": [
    "C103_error",
    "C103_form",
    "C103_value",
    "C103_separator_refuted"
   ],
   "note": "C103_form (exactly the texts of the form), C103_error, C103_value. C103_separator_refuted: S or W as a separator also makes the angle negative. Added after a seeded bug (degrees alone refused) that only a concrete example had noticed."
  },
  {
   "property": "C104",
   "status": "proved",
   "theorems": [
    "C104_texts",
    "C104_payload",
    "C104_serialize",
    "C104_checksum",
    "C104_reads",
    "C104_reads_text",
    "C104_plain",
    "C104_unknown",
    "C104_refused",
    "C104_refuted",
    "C104_selector",
    "C104_groups",
    "C104_builtin"
   ],
   "note": "Items.v repeats the payload branch of the constructor for lists of values; C104_texts proves that on lists of texts it is Message.v. C104_payload, C104_checksum and C104_serialize hold for every message id and keyword argument; C104_plain, C104_groups, C104_unknown and C104_refused for ids whose definition does not depend on the value of an item (all but UBX/ASHR-style prefixes, QTMSN, STMDRSENMSG). C104_plain is for definitions without groups, C104_groups and C104_builtin for all well-formed ones (C13's layout). C104_selector: for the others a first item that is not a text is refused. C104_refuted: building does not imply that the message can be serialized (GPHDT with payload [12, 'T'])."
  },
  {
   "property": "C105",
   "status": "proved",
   "theorems": [
    "C105_time",
    "C105_date",
    "C105_otherwise",
    "C105_time_shape",
    "C105_six",
    "C105_malformed_refuted",
    "C105_six_date"
   ],
   "note": "C105_time, C105_date, C105_otherwise: iff, against a grammar of parts with the longest-match rule stated on lists of parts; C105_time_shape, C105_six, C105_six_date: consequences; C105_malformed_refuted: damaged texts read as other times and dates."
  },
  {
   "property": "C106",
   "status": "proved",
   "theorems": [
    "C106_int",
    "C106_float",
    "C106_integer_field",
    "C106_decimal_field",
    "C106_functional",
    "C106_integer_decimal",
    "C106_parsed",
    "C106_unusual_refuted"
   ],
   "note": "C106_int, C106_float: iff, against a grammar; C106_integer_field, C106_decimal_field: fields, with ValueError for the rest; C106_functional, C106_integer_decimal, C106_parsed: consequences; C106_unusual_refuted: texts that are no NMEA numbers but are accepted."
  },
  {
   "property": "C107",
   "status": "proved",
   "theorems": [
    "C107_sent",
    "C107_all_sent",
    "C107_poller",
    "C107_poller_all",
    "C107_quectel",
    "C107_quectel_all",
    "C107_poller_stops",
    "C107_quectel_stops",
    "C107_announced_refuted",
    "C107_announced"
   ],
   "note": "Demos.v models both main programs statement by statement on top of the thread model of C99. C107_sent/C107_all_sent are for every such program, C107_poller, C107_quectel, ..._all for the two. C107_announced_refuted: the six commands never sent; C107_announced: they are what the calls build."
  },
  {
   "property": "C108",
   "status": "proved",
   "theorems": [
    "C108_file",
    "C108_verbatim",
    "C108_unreadable",
    "C108_unknown",
    "C108_confined",
    "C108_gps",
    "C108_all_or_nothing",
    "C108_icon_refuted"
   ],
   "note": "The handler's answer as the status line, content type and body; guess_type of http.server is a parameter; locale encoding UTF-8. The wish that the icon is served is refuted by C108_icon_refuted."
  },
  {
   "property": "C109",
   "status": "proved",
   "theorems": [
    "C109_shown",
    "C109_received",
    "C109_builtin",
    "C109_refuted"
   ],
   "note": "C109_refuted: an empty attribute name in a user definition, and a lone surrogate in a str."
  },
  {
   "property": "C110",
   "status": "proved",
   "theorems": [
    "C110_arguments",
    "C110_prints",
    "C110_missing",
    "C110_all_shown",
    "C110_hidden",
    "C110_pubx_refuted"
   ],
   "note": "C110_pubx_refuted: the line $PUBX*1F hides the rest of the file, and a file name with '=' is refused. Printing is a list of texts; encoding of the terminal is C109."
  },
  {
   "property": "C111",
   "status": "proved",
   "theorems": [
    "C111_faithful_message",
    "C111_faithful",
    "C111_mode_refuted",
    "C111_checksum",
    "C111_repair",
    "C111_talker",
    "C111_msgid",
    "C111_undefined",
    "C111_malformed",
    "C111_attribute",
    "C111_builtin",
    "C111_apart",
    "C111_causes",
    "C111_undecodable",
    "C111_mode",
    "C111_always",
    "C111_prefix",
    "C111_faithful_reader",
    "C111_literal",
    "C111_reader_raise",
    "C111_reader_log",
    "C111_reader_all"
   ],
   "note": "C111_faithful* prove that the functions with texts are the functions of the other properties with the text added; the mode of more than 4300 digits is C111_mode_refuted. Texts of Python's own exceptions are not modelled."
  },
  {
   "property": "C112",
   "status": "proved",
   "theorems": [
    "C112_no_amplification",
    "C112_plain",
    "C112_reader",
    "C112_chunked",
    "C112_chunked_refuted"
   ],
   "note": "The unbounded growth by an unfinished chunk is C112_chunked_refuted."
  },
  {
   "property": "C113",
   "status": "proved",
   "theorems": [
    "C113_file",
    "C113_socket",
    "C113_bytes",
    "C113_salvage",
    "C113_nothing_lost",
    "C113_without_reading"
   ],
   "note": "C113_file, C113_socket: for any handler program that uses read(), the history is a prefix of the happenings of the stream, all of them if the loop ends normally; C113_bytes: pieces of the stream, for handlers that also read from the stream; C113_salvage: who gets which message, exactly; C113_nothing_lost: program and handler share the messages; C113_without_reading: agreement with the model of C82. A chain of handlers as deep as Python's recursion limit is outside the model."
  },
  {
   "property": "C114",
   "status": "proved",
   "theorems": [
    "C114_file",
    "C114_socket",
    "C114_lines",
    "C114_one_each"
   ],
   "note": "C114_file, C114_socket: the program over the bytes does what `served`, a specification over the elements of the stream, says; C114_lines: each line at most once, in order; C114_one_each: one element for each call. A second reader on the bare socket is another matter (C76_new_reader_refuted, C112)."
  },
  {
   "property": "C115",
   "status": "proved",
   "theorems": [
    "C115_given",
    "C115_given_ellipsoid",
    "C115_haversine",
    "C115_planar",
    "C115_area",
    "C115_units",
    "C115_llh2ecef",
    "C115_ecef2llh",
    "C115_round_trip",
    "C115_only_axis",
    "C115_float_haversine",
    "C115_float_planar",
    "C115_float_area",
    "C115_float_given",
    "C115_float_llh2ecef"
   ],
   "note": "Proved over the reals and (C115_float_*) in binary64 with the hypotheses of C78/C79 about the C library. The signatures are modelled in GeoDefaults.v. The overflow of pow() is C79_overflow and C80_overflow."
  },
  {
   "property": "C116",
   "status": "proved",
   "theorems": [
    "C116_steady",
    "C116_interrupted",
    "C116_resume",
    "C116_open",
    "C116_opened",
    "C116_refuted"
   ],
   "note": "C116_interrupted: any connection; C116_resume: whole lines, nothing lost, the loop goes on; C116_steady: without interrupts the model is that of C34-C39; C116_open, C116_opened: the constructor; C116_refuted: within a sentence. Interrupts that Python delivers between two bytecodes (not in recv()) are outside the model."
  },
  {
   "property": "C117",
   "status": "proved",
   "theorems": [
    "C117_arguments",
    "C117_prints",
    "C117_unreachable",
    "C117_seconds",
    "C117_refuted"
   ],
   "note": "C117_arguments, C117_unreachable: command line and connection; C117_prints: what is printed and how it ends; C117_seconds, C117_refuted: the duration. The figures are rationals in the model, not formatted text."
  },
  {
   "property": "C118",
   "status": "proved",
   "theorems": [
    "C118_same",
    "C118_loop",
    "C118_served",
    "C118_lag",
    "C118_prompt",
    "C118_all_fetched",
    "C118_refuted"
   ],
   "note": "BufferedPort.v models io.BufferedReader over Serial by the results of its raw reads; bisimulation with the port of C88. C118_refuted: two bursts of two sentences, the last sentence is not read and the altitude shown is the one before."
  },
  {
   "property": "C119",
   "status": "proved",
   "theorems": [
    "C119_messages",
    "C119_runs",
    "C119_bars",
    "C119_few_refuted",
    "C119_none",
    "C119_clock"
   ],
   "note": "Benchmark.v; induction on the cycles. The figures are rationals, the rounding to two decimals and the texts about the platform are not modelled."
  }
 ]
}