{
 "claims": [
  {
   "property": "C01",
   "status": "proved",
   "theorems": [
    "c01_wrong_checksum_rejected",
    "c01_wrong_checksum_keeps_state"
   ],
   "note": ""
  },
  {
   "property": "C02",
   "status": "proved",
   "theorems": [
    "c02_checksum_optional"
   ],
   "note": ""
  },
  {
   "property": "C03",
   "status": "proved",
   "theorems": [
    "c03_damaged_character_detected",
    "c03_damaged_ascii_detected",
    "c03_blind_exchange",
    "c03_blind_first_character",
    "c03_exactly",
    "c03_blind_same_byte"
   ],
   "note": ""
  },
  {
   "property": "C04",
   "status": "proved",
   "theorems": [
    "c04_no_comma_invalid"
   ],
   "note": ""
  },
  {
   "property": "C05",
   "status": "proved",
   "theorems": [
    "c05_gnss_result_routed",
    "c05_gnss_sentence_routed"
   ],
   "note": ""
  },
  {
   "property": "C06",
   "status": "proved",
   "theorems": [
    "c06_station_and_own_vessel"
   ],
   "note": ""
  },
  {
   "property": "C07",
   "status": "proved",
   "theorems": [
    "c07_unsupported_formatter",
    "c07_unsupported_type",
    "c07_unsupported_message"
   ],
   "note": ""
  },
  {
   "property": "C08",
   "status": "partial",
   "theorems": [
    "c08_panics",
    "c08_well_formed_partial",
    "c08_no_panic_refuted"
   ],
   "note": "False as stated: the code panics on the inputs described by `panics` (short or non-ASCII type field, impossible dates/times in GGA/RMC/GLL, type 4 and 5 messages, overflow in debug builds). The exact set is proved (c08_panics)."
  },
  {
   "property": "C09",
   "status": "proved",
   "theorems": [
    "c09_error_keeps_state",
    "c09_failures_leave_no_trace"
   ],
   "note": ""
  },
  {
   "property": "C10",
   "status": "proved",
   "theorems": [
    "c10_stateless",
    "c10_gnss_stateless",
    "c10_one_fragment_stateless"
   ],
   "note": ""
  },
  {
   "property": "C11",
   "status": "proved",
   "theorems": [
    "c11_fragments_in_order"
   ],
   "note": ""
  },
  {
   "property": "C12",
   "status": "proved",
   "theorems": [
    "c12_fragments_reversed"
   ],
   "note": ""
  },
  {
   "property": "C13",
   "status": "proved",
   "theorems": [
    "c13_at_most_one_half",
    "c13_finished_message_forgotten"
   ],
   "note": ""
  },
  {
   "property": "C14",
   "status": "proved",
   "theorems": [
    "c14_streams_independent",
    "c14_ais_and_gnss_independent",
    "c14_messages_independent",
    "c14_calls_commute"
   ],
   "note": ""
  },
  {
   "property": "C15",
   "status": "partial",
   "theorems": [
    "c15_talkers_kept_apart_refuted",
    "c15_same_message_partial",
    "c15_satellites_one_talker"
   ],
   "note": "False for AIS: halves of any two talkers are joined (c15_talkers_kept_apart_refuted, for all talkers and states). Proved is what remains: joined halves agree in formatter, message number and channel (c15_same_message_partial), and satellite data of different talkers are never combined (c15_satellites_one_talker)."
  },
  {
   "property": "C16",
   "status": "proved",
   "theorems": [
    "c16_unassemblable_incomplete"
   ],
   "note": ""
  },
  {
   "property": "C17",
   "status": "proved",
   "theorems": [
    "c17_armor_decoded",
    "c17_armor_injective"
   ],
   "note": ""
  },
  {
   "property": "C18",
   "status": "partial",
   "theorems": [
    "c18_checked_build_panics",
    "c18_anything_is_decoded",
    "c18_illegal_character_refuted"
   ],
   "note": "False: illegal characters are decoded to bits (release build) or panic (debug build, below '0')."
  },
  {
   "property": "C19",
   "status": "proved",
   "theorems": [
    "c19_unsigned_fields",
    "c19_signed_fields",
    "c19_inside",
    "c19_past_the_end"
   ],
   "note": ""
  },
  {
   "property": "C20",
   "status": "proved",
   "theorems": [
    "c20_text_decoded",
    "c20_text_range"
   ],
   "note": ""
  },
  {
   "property": "C21",
   "status": "proved",
   "theorems": [
    "c21_class_a_position"
   ],
   "note": ""
  },
  {
   "property": "C22",
   "status": "proved",
   "theorems": [
    "c22_base_station"
   ],
   "note": ""
  },
  {
   "property": "C23",
   "status": "partial",
   "theorems": [
    "c23_voyage_one_sentence_partial",
    "c23_voyage_two_sentences_partial",
    "c23_class_a_refuted",
    "c23_draught_refuted"
   ],
   "note": "Everything but the ship class (reported as class B-or-other instead of A) and the unscaled draught holds; see the refuted theorems."
  },
  {
   "property": "C24",
   "status": "proved",
   "theorems": [
    "c24_binary_addressed"
   ],
   "note": ""
  },
  {
   "property": "C25",
   "status": "proved",
   "theorems": [
    "c25_sar_aircraft"
   ],
   "note": ""
  },
  {
   "property": "C26",
   "status": "proved",
   "theorems": [
    "c26_utc_inquiry"
   ],
   "note": ""
  },
  {
   "property": "C27",
   "status": "partial",
   "theorems": [
    "c27_class_b_position_partial",
    "c27_class_b_flags_refuted"
   ],
   "note": "All fields but the class B flags hold; the flags are read one bit early."
  },
  {
   "property": "C28",
   "status": "partial",
   "theorems": [
    "c28_aid_to_navigation_partial",
    "c28_off_position_refuted",
    "c28_name_refuted"
   ],
   "note": "Holds except for the off-position indicator and names ending at the 20th character with a space."
  },
  {
   "property": "C29",
   "status": "proved",
   "theorems": [
    "c29_part_a_then_b",
    "c29_part_b_then_a"
   ],
   "note": ""
  },
  {
   "property": "C30",
   "status": "partial",
   "theorems": [
    "c30_both_parts_refuted",
    "c30_two_part_b_refuted",
    "c30_report_needs_two_sentences_partial"
   ],
   "note": "False: two part As or two part Bs are merged; what is proved is that a report needs two sentences of the vessel."
  },
  {
   "property": "C31",
   "status": "partial",
   "theorems": [
    "c31_long_range_partial",
    "c31_long_range_refuted"
   ],
   "note": "False for latitude, longitude, speed, course and GNSS status; proved for the other fields, with the actual content of the wrong ones."
  },
  {
   "property": "C32",
   "status": "proved",
   "theorems": [
    "c32_nearest_coordinates",
    "c32_coordinates_injective"
   ],
   "note": ""
  },
  {
   "property": "C33",
   "status": "partial",
   "theorems": [
    "c33_in_range_iff",
    "c33_out_of_range_refuted"
   ],
   "note": "Proved with the restriction on the raw value (c33_in_range_iff is an equivalence); the refuted theorem shows that the restriction is needed."
  },
  {
   "property": "C34",
   "status": "proved",
   "theorems": [
    "c34_speed_course_heading"
   ],
   "note": ""
  },
  {
   "property": "C35",
   "status": "partial",
   "theorems": [
    "c35_turn_partial",
    "c35_turn_order",
    "c35_range_refuted"
   ],
   "note": "Sign, symmetry, order and availability proved; the documented range is violated (up to 22376)."
  },
  {
   "property": "C36",
   "status": "partial",
   "theorems": [
    "c36_manoeuvre_partial",
    "c36_not_engaged_refuted"
   ],
   "note": "False: raw 1 gives true and false is never produced."
  },
  {
   "property": "C37",
   "status": "proved",
   "theorems": [
    "c37_trailing_zero_characters"
   ],
   "note": ""
  },
  {
   "property": "C38",
   "status": "proved",
   "theorems": [
    "c38_rest_ignored"
   ],
   "note": ""
  },
  {
   "property": "C39",
   "status": "proved",
   "theorems": [
    "c39_gga"
   ],
   "note": ""
  },
  {
   "property": "C40",
   "status": "proved",
   "theorems": [
    "c40_rmc"
   ],
   "note": ""
  },
  {
   "property": "C41",
   "status": "proved",
   "theorems": [
    "c41_gsa",
    "c41_at_most_twelve"
   ],
   "note": ""
  },
  {
   "property": "C42",
   "status": "proved",
   "theorems": [
    "c42_gll"
   ],
   "note": ""
  },
  {
   "property": "C43",
   "status": "proved",
   "theorems": [
    "c43_vtg"
   ],
   "note": ""
  },
  {
   "property": "C44",
   "status": "proved",
   "theorems": [
    "c44_text_coordinates",
    "c44_refused",
    "c44_mirror"
   ],
   "note": ""
  },
  {
   "property": "C45",
   "status": "partial",
   "theorems": [
    "c45_in_range",
    "c45_legal_text",
    "c45_out_of_range_refuted"
   ],
   "note": "In range exactly for legal texts; the code accepts others."
  },
  {
   "property": "C46",
   "status": "proved",
   "theorems": [
    "c46_integer_fields",
    "c46_round_trip",
    "c46_satellite_numbers",
    "c46_satellite_in_view"
   ],
   "note": ""
  },
  {
   "property": "C47",
   "status": "partial",
   "theorems": [
    "c47_nearest_double",
    "c47_only_numbers",
    "c47_finite_refuted"
   ],
   "note": "Nearest double proved for every decimal text; the refuted theorem shows non-finite results."
  },
  {
   "property": "C48",
   "status": "proved",
   "theorems": [
    "c48_group_any_order",
    "c48_group_interleaved"
   ],
   "note": ""
  },
  {
   "property": "C49",
   "status": "proved",
   "theorems": [
    "c49_blocks",
    "c49_never_fatal"
   ],
   "note": ""
  },
  {
   "property": "C50",
   "status": "partial",
   "theorems": [
    "c50_stray_kept_forever_refuted",
    "c50_in_range_can_leave_partial"
   ],
   "note": "False for stray message numbers, proved for message numbers in range."
  },
  {
   "property": "C51",
   "status": "proved",
   "theorems": [
    "c51_at_most_one_per_call",
    "c51_unbounded"
   ],
   "note": ""
  },
  {
   "property": "C52",
   "status": "partial",
   "theorems": [
    "c52_country_partial",
    "c52_none_for_unallocated",
    "c52_letters",
    "c52_only_the_mid",
    "c52_other_countries_refuted"
   ],
   "note": "Three wrong MIDs (445, 660, 676), everything else proved."
  },
  {
   "property": "C53",
   "status": "partial",
   "theorems": [
    "c53_voyage_partial",
    "c53_voyage_refuted",
    "c53_class_b_partial"
   ],
   "note": "Wrong for tankers (8x) and other (9x), everything else proved."
  },
  {
   "property": "C54",
   "status": "partial",
   "theorems": [
    "c54_eta",
    "c54_none_partial",
    "c54_not_available_refuted",
    "c54_this_year_partial",
    "c54_past_refuted"
   ],
   "note": "Exact behaviour proved (c54_eta); the documented behaviour is violated (seconds from draught bits, current year only)."
  },
  {
   "property": "C55",
   "status": "proved",
   "theorems": [
    "c55_time_of_day",
    "c55_no_time"
   ],
   "note": ""
  },
  {
   "property": "C56",
   "status": "proved",
   "theorems": [
    "c56_date_and_time"
   ],
   "note": ""
  },
  {
   "property": "C57",
   "status": "proved",
   "theorems": [
    "c57_missing_fields",
    "c57_trailing_commas"
   ],
   "note": ""
  },
  {
   "property": "C58",
   "status": "proved",
   "theorems": [
    "c58_modes"
   ],
   "note": ""
  },
  {
   "property": "C59",
   "status": "proved",
   "theorems": [
    "c59_merge_keeps_values",
    "c59_merge_never_fails"
   ],
   "note": ""
  },
  {
   "property": "C60",
   "status": "proved",
   "theorems": [
    "c60_panic_keeps_state",
    "c60_panic_reachable"
   ],
   "note": ""
  },
  {
   "property": "C61",
   "status": "partial",
   "theorems": [
    "c61_damaged_checksum_detected",
    "c61_checksum_digit_star_refuted"
   ],
   "note": "Proved for checksum texts free of '*'; false for a digit damaged into '*'."
  },
  {
   "property": "C62",
   "status": "proved",
   "theorems": [
    "c62_unreadable_fragment_numbers"
   ],
   "note": ""
  },
  {
   "property": "C63",
   "status": "proved",
   "theorems": [
    "c63_builds_agree",
    "c63_differences",
    "c63_runs_agree",
    "c63_panics"
   ],
   "note": ""
  },
  {
   "property": "C64",
   "status": "proved",
   "theorems": [
    "c64_state",
    "c64_only_times",
    "c64_clock_irrelevant",
    "c64_errors",
    "c64_runs"
   ],
   "note": ""
  },
  {
   "property": "C65",
   "status": "proved",
   "theorems": [
    "c65_pending_was_received",
    "c65_report_was_received",
    "c65_satellites_were_received"
   ],
   "note": ""
  },
  {
   "property": "C66",
   "status": "partial",
   "theorems": [
    "c66_repeated_partial",
    "c66_repeated_refuted"
   ],
   "note": "Proved for everything but type 24 parts, for which it is false."
  },
  {
   "property": "C67",
   "status": "proved",
   "theorems": [
    "c67_texts_identify",
    "c67_talker_names",
    "c67_quality_names",
    "c67_fix_names"
   ],
   "note": ""
  },
  {
   "property": "C68",
   "status": "partial",
   "theorems": [
    "c68_ship_and_cargo_texts_partial",
    "c68_aid_names",
    "c68_aids_alike_partial",
    "c68_aids_alike_refuted",
    "c68_ship_and_cargo_texts_refuted"
   ],
   "note": "False for the pairs named; proved that there are no others and that every code has its documented text."
  },
  {
   "property": "C69",
   "status": "proved",
   "theorems": [
    "c69_ais_position",
    "c69_gnss_position",
    "c69_no_position"
   ],
   "note": ""
  },
  {
   "property": "C70",
   "status": "proved",
   "theorems": [
    "c70_numbers_fit"
   ],
   "note": ""
  },
  {
   "property": "C71",
   "status": "partial",
   "theorems": [
    "c71_texts_partial",
    "c71_voyage_name",
    "c71_texts_not_empty",
    "c71_name_length_refuted"
   ],
   "note": "False for names of class B vessels (up to 120 characters); proved for all other texts, and for voyage reports with the documented 20."
  },
  {
   "property": "C72",
   "status": "partial",
   "theorems": [
    "c72_imo_partial",
    "c72_documented_ranges_refuted",
    "c72_heading_partial",
    "c72_heading_refuted"
   ],
   "note": "False at the upper ends (IMO number, heading) and for draught 0; the remaining bounds are proved."
  },
  {
   "property": "C73",
   "status": "partial",
   "theorems": [
    "c73_satellites_partial",
    "c73_station_partial",
    "c73_documented_ranges_refuted"
   ],
   "note": "Proved under the condition that the numbers in the sentences are in range; the refuted theorem shows that nothing is checked."
  },
  {
   "property": "C74",
   "status": "partial",
   "theorems": [
    "c74_mothership_partial",
    "c74_mothership_refuted"
   ],
   "note": "False: both are always reported; the exact relation between them is proved."
  },
  {
   "property": "C75",
   "status": "partial",
   "theorems": [
    "c75_in_order_partial",
    "c75_lost_first_message_refuted",
    "c75_lost_first_fragment_refuted",
    "c75_fragments_in_step_partial",
    "c75_lost_first_half_refuted"
   ],
   "note": "False after a lost first message or fragment, for all transmissions that follow (c75_lost_first_half_refuted for AIS, c75_lost_first_message_refuted for GSV); proved that complete in-order transmissions are reported right unless the last message (second half) of an earlier one waits, also after lost last messages."
  },
  {
   "property": "C76",
   "status": "partial",
   "theorems": [
    "c76_equal_iff",
    "c76_symmetric",
    "c76_transitive",
    "c76_self",
    "c76_ais_self",
    "c76_equal_values",
    "c76_self_refuted"
   ],
   "note": "Self-equality is false for NaN attributes of GNSS reports (c76_self_refuted); everything else is proved."
  },
  {
   "property": "C77",
   "status": "proved",
   "theorems": [
    "c77_gga",
    "c77_rmc",
    "c77_gsa",
    "c77_gll",
    "c77_gsv",
    "c77_vdm"
   ],
   "note": ""
  },
  {
   "property": "C78",
   "status": "proved",
   "theorems": [
    "c78_errors",
    "c78_accepted"
   ],
   "note": ""
  },
  {
   "property": "C79",
   "status": "proved",
   "theorems": [
    "c79_checksum_text",
    "c79_text_identifies",
    "c79_any_checksum_text",
    "c79_shown_unique"
   ],
   "note": ""
  },
  {
   "property": "C80",
   "status": "partial",
   "theorems": [
    "c80_voyage_texts_partial",
    "c80_class_b_texts_partial",
    "c80_class_texts",
    "c80_positioning_texts",
    "c80_documented_ship_texts",
    "c80_tanker_refuted"
   ],
   "note": "Codes 80 to 99 are shown as cargo (c80_tanker_refuted); proved for all others."
  },
  {
   "property": "C81",
   "status": "partial",
   "theorems": [
    "c81_class_a",
    "c81_base_station",
    "c81_aircraft",
    "c81_class_b_partial",
    "c81_inquiry",
    "c81_binary_addressed",
    "c81_class_b_refuted",
    "c81_long_range_partial",
    "c81_long_range_refuted",
    "c81_voyage_partial",
    "c81_aid_partial",
    "c81_static_partial",
    "c81_voyage_refuted",
    "c81_aid_refuted",
    "c81_voyage_sent_partial",
    "c81_aid_sent_partial"
   ],
   "note": "Class B and long range reports drop flags or fields (c81_class_b_refuted, c81_long_range_refuted); the exact relations are c81_class_b_partial and c81_long_range_partial. Voyage and class B static data take tankers and others for cargo ships (c81_voyage_refuted), aids to navigation drop the off-position indicator (c81_aid_refuted); exact relations in c81_voyage_partial, c81_static_partial, c81_aid_partial, and c81_voyage_sent_partial, c81_aid_sent_partial for messages in two sentences."
  },
  {
   "property": "C82",
   "status": "proved",
   "theorems": [
    "c82_incomplete",
    "c82_kind",
    "c82_reports"
   ],
   "note": ""
  },
  {
   "property": "C83",
   "status": "partial",
   "theorems": [
    "c83_data_fields",
    "c83_checksum_refuted",
    "c83_unread_end_partial",
    "c83_ais_end_partial",
    "c83_number_end_refuted",
    "c83_gll_mode_refuted",
    "c83_vtg_mode_refuted"
   ],
   "note": "False for sentences with checksum (`c83_checksum_refuted`: every one becomes CorruptedSentence) and for those ending in a number or mode (`c83_number_end_refuted`, `c83_gll_mode_refuted`, `c83_vtg_mode_refuted`). What holds: `c83_data_fields`, `c83_unread_end_partial`, `c83_ais_end_partial`."
  },
  {
   "property": "C84",
   "status": "partial",
   "theorems": [
    "c84_warnings",
    "c84_nothing_else",
    "c84_unusable_announced",
    "c84_false_alarm_refuted",
    "c84_silent_loss_refuted"
   ],
   "note": "Part of the property is false: `c84_false_alarm_refuted` (all ship codes without cargo digit) and `c84_silent_loss_refuted` (every repeated half). What holds: `c84_warnings`, `c84_nothing_else`, `c84_unusable_announced`."
  },
  {
   "property": "C85",
   "status": "partial",
   "theorems": [
    "c85_lost_character",
    "c85_inserted_character",
    "c85_cut_in_checksum",
    "c85_cut_refuted",
    "c85_gnss_cut_refuted",
    "c85_cut_gnss_partial",
    "c85_cut_ais_partial"
   ],
   "note": "Part of the property is false: `c85_cut_refuted`, `c85_gnss_cut_refuted` (cuts before the checksum). What holds: `c85_lost_character`, `c85_inserted_character`, `c85_cut_in_checksum`, and that data in front of a cut are reported right (`c85_cut_gnss_partial`, `c85_cut_ais_partial`); characters whose code is a multiple of 256 are excluded, they do not contribute to the checksum."
  },
  {
   "property": "C86",
   "status": "partial",
   "theorems": [
    "c86_run_together_partial",
    "c86_run_together_refuted"
   ],
   "note": "False for the listed checksums (`c86_run_together_refuted`, for every AIS sentence with one of them); `c86_run_together_partial` proves that all other pairs are rejected."
  },
  {
   "property": "C87",
   "status": "proved",
   "theorems": [
    "c87_texts",
    "c87_vessels"
   ],
   "note": ""
  },
  {
   "property": "C88",
   "status": "proved",
   "theorems": [
    "c88_positions",
    "c88_motion",
    "c88_text_positions",
    "c88_decimals"
   ],
   "note": ""
  },
  {
   "property": "C89",
   "status": "proved",
   "theorems": [
    "c89_writing"
   ],
   "note": ""
  },
  {
   "property": "C90",
   "status": "proved",
   "theorems": [
    "c90_call",
    "c90_no_sentence_twice",
    "c90_defined"
   ],
   "note": ""
  },
  {
   "property": "C91",
   "status": "proved",
   "theorems": [
    "c91_resent",
    "c91_talker"
   ],
   "note": ""
  },
  {
   "property": "C92",
   "status": "partial",
   "theorems": [
    "c92_call",
    "c92_total",
    "c92_ends",
    "c92_group",
    "c92_proportional_refuted",
    "c92_damaged",
    "c92_at_least",
    "c92_fields",
    "c92_message"
   ],
   "note": "False as stated: one GSV sentence of 19 characters makes the loop of `handle` run 4294967294 rounds in any state (c92_proportional_refuted; c92_group for every announced number). Proved is what remains: steps are at most 9 times the characters received plus twice the announced group sizes (c92_call, c92_total), and every call ends (c92_ends)."
  },
  {
   "property": "C93",
   "status": "partial",
   "theorems": [
    "c93_class_a",
    "c93_class_b",
    "c93_aircraft",
    "c93_base_station",
    "c93_part_a",
    "c93_voyage_partial",
    "c93_voyage_refuted",
    "c93_aid_partial",
    "c93_aid_refuted",
    "c93_long_range_refuted",
    "c93_part_b_refuted",
    "c93_enumerations",
    "c93_class",
    "c93_whole_defaults",
    "c93_remaining_defaults"
   ],
   "note": "False for types 5, 21, 27 and 24 part B (c93_voyage_refuted, c93_aid_refuted, c93_long_range_refuted, c93_part_b_refuted, each for all senders and states). Proved in full for types 1-3, 18, 9, 4 with a valid time, and 24 part A; for 5 and 21 the fields that do agree."
  },
  {
   "property": "C94",
   "status": "proved",
   "theorems": [
    "c94_assembly",
    "c94_every_history",
    "c94_as_one_sentence"
   ],
   "note": ""
  },
  {
   "property": "C95",
   "status": "proved",
   "theorems": [
    "c95_groups",
    "c95_every_history"
   ],
   "note": ""
  },
  {
   "property": "C96",
   "status": "proved",
   "theorems": [
    "c96_pairs",
    "c96_every_history"
   ],
   "note": ""
  },
  {
   "property": "C97",
   "status": "proved",
   "theorems": [
    "c97_memory",
    "c97_every_history",
    "c97_same_future"
   ],
   "note": ""
  },
  {
   "property": "C98",
   "status": "proved",
   "theorems": [
    "c98_ais",
    "c98_ais_sentence",
    "c98_gnss",
    "c98_gnss_sentence",
    "c98_satellites",
    "c98_constructors",
    "c98_satellites_any",
    "c98_satellites_else",
    "c98_satellites_apart"
   ],
   "note": ""
  },
  {
   "property": "C99",
   "status": "proved",
   "theorems": [
    "c99_states",
    "c99_builds",
    "c99_shortest"
   ],
   "note": ""
  },
  {
   "property": "C100",
   "status": "proved",
   "theorems": [
    "c100_answer",
    "c100_one_answer",
    "c100_memory",
    "c100_session"
   ],
   "note": ""
  },
  {
   "property": "C101",
   "status": "proved",
   "theorems": [
    "c101_equal_data",
    "c101_plain",
    "c101_plain_angle",
    "c101_sixteen_digits"
   ],
   "note": ""
  },
  {
   "property": "C102",
   "status": "partial",
   "theorems": [
    "c102_positions",
    "c102_times",
    "c102_decimals",
    "c102_ais_positions",
    "c102_ais_gnss_partial",
    "c102_ais_gnss_refuted",
    "c102_motion_partial",
    "c102_motion_refuted"
   ],
   "note": "AIS and GNSS values of the same fact are not always equal doubles, since they are computed in different steps: `c102_ais_gnss_refuted` (latitude 48 degrees 2.7881 minutes) and `c102_motion_refuted` (speed and course 0.3). They are within 2e-12 of each other (`c102_ais_gnss_partial`, `c102_motion_partial`). Within GNSS sentences and within AIS messages the property holds."
  },
  {
   "property": "C103",
   "status": "partial",
   "theorems": [
    "c103_supported_partial",
    "c103_type19_refuted",
    "c103_systems",
    "c103_standard_talkers_refuted"
   ],
   "note": "Type 19 is listed but always called unsupported: `c103_type19_refuted`. The talkers GB and GQ of the current NMEA standard do not name BeiDou and QZSS: `c103_standard_talkers_refuted` (the code's table of talkers has BD and QZ). Everything else listed is supported (`c103_supported_partial`, `c103_systems`)."
  },
  {
   "property": "C104",
   "status": "proved",
   "theorems": [
    "c104_search",
    "c104_coordinates",
    "c104_refused"
   ],
   "note": ""
  },
  {
   "property": "C105",
   "status": "partial",
   "theorems": [
    "c105_encoding",
    "c105_slices",
    "c105_same_call",
    "c105_checksum_partial",
    "c105_checksum_refuted"
   ],
   "note": "the checksum part holds for ASCII text only: src/lib.rs:178-180 takes the low eight bits of each character (`c as u8`) instead of the bytes, so a sentence with one character U+0080..U+00FF and the correct checksum of its bytes is rejected (c105_checksum_refuted)"
  },
  {
   "property": "C106",
   "status": "proved",
   "theorems": [
    "c106_from_to",
    "c106_like_new"
   ],
   "note": ""
  },
  {
   "property": "C107",
   "status": "partial",
   "theorems": [
    "c107_calendar",
    "c107_days_off",
    "c107_same_day_partial",
    "c107_midnight_refuted",
    "c107_centuries_off",
    "c107_same_century_partial",
    "c107_new_century_refuted"
   ],
   "note": "False as stated: the date (century) is taken from the receiver's clock at the moment of the call, not the one nearest to it (c107_midnight_refuted, c107_new_century_refuted). Exactly when it holds is proved (c107_same_day_partial, c107_same_century_partial)."
  },
  {
   "property": "C108",
   "status": "partial",
   "theorems": [
    "c108_own_bits_partial",
    "c108_all_data",
    "c108_one_bit_partial",
    "c108_eta_refuted",
    "c108_displaced_refuted",
    "c108_common_start_partial",
    "c108_wrong_characters_partial",
    "c108_static_bits_partial",
    "c108_static_name_partial",
    "c108_static_name_refuted"
   ],
   "note": "False for the ETA (5), six flags (18), off-position (21) and position, speed, course, latency (27): c108_eta_refuted, c108_displaced_refuted. Also false for the name of type 24, read beyond its 120 bits (c108_static_name_refuted). Proved for every other datum of these types (c108_own_bits_partial, c108_one_bit_partial) and of type 24 (c108_static_bits_partial); wrong and lost characters: c108_wrong_characters_partial, c108_common_start_partial."
  },
  {
   "property": "C109",
   "status": "proved",
   "theorems": [
    "c109_own_fields",
    "c109_all_data",
    "c109_one_field"
   ],
   "note": ""
  },
  {
   "property": "C110",
   "status": "proved",
   "theorems": [
    "c110_other_side",
    "c110_other_hemisphere",
    "c110_other_turn"
   ],
   "note": ""
  },
  {
   "property": "C111",
   "status": "proved",
   "theorems": [
    "c111_gga",
    "c111_rmc",
    "c111_gll",
    "c111_vtg",
    "c111_gsa",
    "c111_one_number",
    "c111_simulator",
    "c111_sixteen_digits_too_many",
    "c111_gsv",
    "c111_journal",
    "c111_journal_among_ais"
   ],
   "note": ""
  },
  {
   "property": "C112",
   "status": "partial",
   "theorems": [
    "c112_time_between_partial",
    "c112_midnight_refuted",
    "c112_fractions_refuted",
    "c112_comparison",
    "c112_order_of_dates_partial",
    "c112_new_century_refuted",
    "c112_base_station"
   ],
   "note": "False of the code when sentences sent on both sides of midnight (GGA, GLL) or of a change of century (RMC) are received after it (the order turns), and within one second (fractions are dropped). What holds is proved: equally many days off (exactly then), one century, and base station reports without condition."
  },
  {
   "property": "C113",
   "status": "proved",
   "theorems": [
    "c113_parity",
    "c113_odd",
    "c113_burst",
    "c113_reordered"
   ],
   "note": ""
  },
  {
   "property": "C114",
   "status": "proved",
   "theorems": [
    "c114_report",
    "c114_log",
    "c114_bridge",
    "c114_static",
    "c114_ship_log",
    "c114_ship_bridge",
    "c114_noise",
    "c114_fleet"
   ],
   "note": ""
  }
 ]
}