{
 "claims": [
  {
   "property": "C01",
   "status": "proved",
   "theorems": [
    "C01_get_u16",
    "C01_get_u24",
    "C01_get_u32",
    "C01_set_u16",
    "C01_set_u24",
    "C01_set_u32",
    "C01_roundtrip"
   ],
   "note": ""
  },
  {
   "property": "C02",
   "status": "proved",
   "theorems": [
    "C02_header_getters",
    "C02_getters_of_table",
    "C02_adaptation_size",
    "C02_abort_iff_short",
    "C02_null_packet",
    "C02_null_bytes"
   ],
   "note": ""
  },
  {
   "property": "C03",
   "status": "proved",
   "theorems": [
    "C03_setters",
    "C03_header_complete",
    "C03_set_get",
    "C03_out_of_range",
    "C03_set_pid_release_refuted"
   ],
   "note": "The setters are exact for values in range. C03_set_pid_release_refuted: in builds without debug assertions set_pid with a value of 2^13 or more writes into the flag bits."
  },
  {
   "property": "C04",
   "status": "proved",
   "theorems": [
    "C04_payload_offset",
    "C04_doc_contract_refuted"
   ],
   "note": "Exact in both build modes. C04_doc_contract_refuted: the documented result 0 for invalid packets never happens."
  },
  {
   "property": "C05",
   "status": "proved",
   "theorems": [
    "C05_set_pcr",
    "C05_get_pcr",
    "C05_roundtrip",
    "C05_short",
    "C05_bound_tight"
   ],
   "note": ""
  },
  {
   "property": "C06",
   "status": "proved",
   "theorems": [
    "C06_is_pcr",
    "C06_pcr_inside"
   ],
   "note": ""
  },
  {
   "property": "C07",
   "status": "proved",
   "theorems": [
    "C07_pcr_delta",
    "C07_pcr_delta_modular",
    "C07_true_elapsed_refuted",
    "C07_abort"
   ],
   "note": "Exact; C07_true_elapsed_refuted shows the missing tick at the wrap."
  },
  {
   "property": "C08",
   "status": "proved",
   "theorems": [
    "C08_stc_debug",
    "C08_stc_release",
    "C08_stc_constant_rate",
    "C08_to_us",
    "C08_to_ms",
    "C08_bitrate",
    "C08_bitrate_abort"
   ],
   "note": ""
  },
  {
   "property": "C09",
   "status": "proved",
   "theorems": [
    "C09_any",
    "C09_jitter",
    "C09_jitter_zero"
   ],
   "note": ""
  },
  {
   "property": "C10",
   "status": "proved",
   "theorems": [
    "C10_get_pts",
    "C10_get_dts",
    "C10_pts_of_table",
    "C10_dts_of_table",
    "C10_range",
    "C10_abort_iff_short"
   ],
   "note": ""
  },
  {
   "property": "C11",
   "status": "proved",
   "theorems": [
    "C11_accessors"
   ],
   "note": ""
  },
  {
   "property": "C12",
   "status": "proved",
   "theorems": [
    "C12_pts_delta",
    "C12_true_elapsed_refuted",
    "C12_to_ms"
   ],
   "note": "Exact; C12_true_elapsed_refuted shows the missing tick at the wrap."
  },
  {
   "property": "C13",
   "status": "proved",
   "theorems": [
    "C13_bit_serial",
    "C13_polynomial_division",
    "C13_remainder_unique"
   ],
   "note": ""
  },
  {
   "property": "C14",
   "status": "proved",
   "theorems": [
    "C14_residue",
    "C14_append"
   ],
   "note": ""
  },
  {
   "property": "C15",
   "status": "proved",
   "theorems": [
    "C15_burst_detected",
    "C15_three_bits_detected"
   ],
   "note": ""
  },
  {
   "property": "C16",
   "status": "proved",
   "theorems": [
    "C16_from_bcd",
    "C16_to_bcd",
    "C16_round_trip",
    "C16_round_trip_back",
    "C16_to_bcd_u16_exact",
    "C16_range_check_refuted"
   ],
   "note": ""
  },
  {
   "property": "C17",
   "status": "proved",
   "theorems": [
    "C17_to_bcd_time",
    "C17_from_bcd_time",
    "C17_from_bcd_time_any",
    "C17_seconds_round_trip",
    "C17_minutes_round_trip",
    "C17_minutes_refuted"
   ],
   "note": ""
  },
  {
   "property": "C18",
   "status": "proved",
   "theorems": [
    "C18_midnight",
    "C18_day_number",
    "C18_from_mjd",
    "C18_back",
    "C18_datetime",
    "C18_end_refuted"
   ],
   "note": ""
  },
  {
   "property": "C19",
   "status": "proved",
   "theorems": [
    "C19_page_round_trip",
    "C19_utf8_round_trip"
   ],
   "note": ""
  },
  {
   "property": "C20",
   "status": "proved",
   "theorems": [
    "C20_encoding",
    "C20_encoding_unique",
    "C20_unsupported_page",
    "C20_above_bmp",
    "C20_substitute_refuted"
   ],
   "note": ""
  },
  {
   "property": "C21",
   "status": "proved",
   "theorems": [
    "C21_wire_round_trip",
    "C21_from_str_round_trip",
    "C21_assemble"
   ],
   "note": ""
  },
  {
   "property": "C22",
   "status": "proved",
   "theorems": [
    "C22_total",
    "C22_reassembly",
    "C22_reassembly_refuted",
    "C22_display_error",
    "C22_printable_refuted"
   ],
   "note": ""
  },
  {
   "property": "C23",
   "status": "proved",
   "theorems": [
    "C23_display_page",
    "C23_display_safe"
   ],
   "note": ""
  },
  {
   "property": "C24",
   "status": "proved",
   "theorems": [
    "C24_split",
    "C24_split_empty",
    "C24_utf8_whole",
    "C24_utf8_four_bytes_refuted",
    "C24_no_room",
    "C24_no_room_utf8",
    "C24_underflow"
   ],
   "note": ""
  },
  {
   "property": "C25",
   "status": "proved",
   "theorems": [
    "C25_short",
    "C25_long",
    "C25_abort",
    "C25_utf8_refuted"
   ],
   "note": ""
  },
  {
   "property": "C26",
   "status": "proved",
   "theorems": [
    "C26_rows",
    "C26_only_rows",
    "C26_twice",
    "C26_unambiguous"
   ],
   "note": ""
  },
  {
   "property": "C27",
   "status": "proved",
   "theorems": [
    "C27_written",
    "C27_read"
   ],
   "note": ""
  },
  {
   "property": "C28",
   "status": "proved",
   "theorems": [
    "C28_round_trip",
    "C28_exact_needed",
    "C28_round_trip_refuted"
   ],
   "note": "C28_round_trip under `exact`, C28_exact_needed shows that the condition is necessary for typed descriptors, C28_round_trip_refuted is a violating descriptor with all fields in range."
  },
  {
   "property": "C29",
   "status": "proved",
   "theorems": [
    "C29_size",
    "C29_loop_size",
    "C29_items",
    "C29_size_refuted",
    "C29_long_raw"
   ],
   "note": "Exact; C29_size_refuted: extended event descriptors with items."
  },
  {
   "property": "C30",
   "status": "proved",
   "theorems": [
    "C30_assemble",
    "C30_round_trip"
   ],
   "note": ""
  },
  {
   "property": "C31",
   "status": "proved",
   "theorems": [
    "C31_records",
    "C31_one_per_record",
    "C31_unknown_preserved"
   ],
   "note": ""
  },
  {
   "property": "C32",
   "status": "proved",
   "theorems": [
    "C32_record_debug",
    "C32_record_release",
    "C32_loop",
    "C32_safe_tags",
    "C32_never_aborts_refuted"
   ],
   "note": ""
  },
  {
   "property": "C33",
   "status": "proved",
   "theorems": [
    "C33_clone",
    "C33_clone_loop",
    "C33_parse_then_clone_refuted"
   ],
   "note": ""
  },
  {
   "property": "C34",
   "status": "proved",
   "theorems": [
    "C34_finalize",
    "C34_oversize_refuted"
   ],
   "note": ""
  },
  {
   "property": "C35",
   "status": "proved",
   "theorems": [
    "C35_packets",
    "C35_empty_section",
    "C35_empty_refuted"
   ],
   "note": ""
  },
  {
   "property": "C36",
   "status": "proved",
   "theorems": [
    "C36_mux_demux"
   ],
   "note": ""
  },
  {
   "property": "C37",
   "status": "proved",
   "theorems": [
    "C37_any_packetisation",
    "C37_not_before_complete",
    "C37_small_chunks_refuted"
   ],
   "note": ""
  },
  {
   "property": "C38",
   "status": "proved",
   "theorems": [
    "C38_break_clears",
    "C38_lost_not_delivered",
    "C38_start_restarts",
    "C38_orphan_refuted",
    "C38_long_gap_refuted"
   ],
   "note": ""
  },
  {
   "property": "C39",
   "status": "proved",
   "theorems": [
    "C39_completes_previous",
    "C39_previous_visible",
    "C39_next_lost",
    "C39_next_found"
   ],
   "note": ""
  },
  {
   "property": "C40",
   "status": "proved",
   "theorems": [
    "C40_abort_exactly"
   ],
   "note": ""
  },
  {
   "property": "C41",
   "status": "proved",
   "theorems": [
    "C41_bounded",
    "C41_unbounded"
   ],
   "note": ""
  },
  {
   "property": "C42",
   "status": "proved",
   "theorems": [
    "C42_invariant"
   ],
   "note": ""
  },
  {
   "property": "C43",
   "status": "proved",
   "theorems": [
    "C43_equality",
    "C43_reflexive",
    "C43_collision_refuted",
    "C43_abort_exactly",
    "C43_fresh_aborts"
   ],
   "note": ""
  },
  {
   "property": "C44",
   "status": "proved",
   "theorems": [
    "C44_pat",
    "C44_recovered",
    "C44_beyond_253_refuted",
    "C44_read"
   ],
   "note": ""
  },
  {
   "property": "C45",
   "status": "proved",
   "theorems": [
    "C45_pmt",
    "C45_recovered",
    "C45_program_descriptors_refuted",
    "C45_read",
    "C45_read_one_byte_early"
   ],
   "note": "C45_program_descriptors_refuted and C45_read_one_byte_early: parse reads program-level descriptors at offset 11 instead of 12."
  },
  {
   "property": "C46",
   "status": "proved",
   "theorems": [
    "C46_classified",
    "C46_unique"
   ],
   "note": ""
  },
  {
   "property": "C47",
   "status": "proved",
   "theorems": [
    "C47_nit",
    "C47_recovered",
    "C47_read"
   ],
   "note": ""
  },
  {
   "property": "C48",
   "status": "proved",
   "theorems": [
    "C48_sdt",
    "C48_recovered",
    "C48_read"
   ],
   "note": ""
  },
  {
   "property": "C49",
   "status": "proved",
   "theorems": [
    "C49_pf",
    "C49_recovered",
    "C49_read"
   ],
   "note": ""
  },
  {
   "property": "C50",
   "status": "proved",
   "theorems": [
    "C50_schedule",
    "C50_lossless",
    "C50_no_abort",
    "C50_long_refuted"
   ],
   "note": "C50_lossless below 504 events, C50_schedule describes every length exactly, C50_long_refuted is a sorted schedule that loses events."
  },
  {
   "property": "C51",
   "status": "proved",
   "theorems": [
    "C51_placed_refuted",
    "C51_sections",
    "C51_dense",
    "C51_gap_refuted",
    "C51_unsorted_refuted",
    "C51_segment_last_refuted"
   ],
   "note": "The segmentation rule of EN 300 468 is refuted (C51_placed_refuted, C51_gap_refuted, C51_unsorted_refuted, C51_segment_last_refuted); C51_sections and C51_dense state exactly which sections are emitted."
  },
  {
   "property": "C52",
   "status": "proved",
   "theorems": [
    "C52_tdt",
    "C52_tot",
    "C52_tdt_read",
    "C52_tot_read"
   ],
   "note": ""
  },
  {
   "property": "C53",
   "status": "proved",
   "theorems": [
    "C53_pat",
    "C53_pmt",
    "C53_nit",
    "C53_sdt",
    "C53_eit_pf",
    "C53_eit_schedule",
    "C53_oversize_refuted"
   ],
   "note": "C53_oversize_refuted: a service whose descriptors exceed 1024 bytes gives an oversize section behind an empty one."
  },
  {
   "property": "C54",
   "status": "proved",
   "theorems": [
    "C54_pat",
    "C54_pmt",
    "C54_nit",
    "C54_sdt",
    "C54_eit",
    "C54_tot",
    "C54_tdt"
   ],
   "note": ""
  },
  {
   "property": "C55",
   "status": "proved",
   "theorems": [
    "C55_pat",
    "C55_pmt",
    "C55_nit",
    "C55_sdt",
    "C55_eit",
    "C55_tot",
    "C55_tot_inside",
    "C55_tdt",
    "C55_covers",
    "C55_pmt_release",
    "C55_nit_release",
    "C55_sdt_release",
    "C55_eit_release",
    "C55_tot_release",
    "C55_pmt_refuted",
    "C55_nit_refuted",
    "C55_sdt_refuted",
    "C55_eit_refuted",
    "C55_tot_refuted",
    "C55_tdt_refuted",
    "C55_tot_crc_refuted",
    "C55_tot_behind_refuted"
   ],
   "note": "For each table the exact condition on which parse aborts, in both build modes; the refuted theorems exhibit CRC-valid sections that abort."
  },
  {
   "property": "C56",
   "status": "proved",
   "theorems": [
    "C56_stream_unique",
    "C56_schedule_independent",
    "C56_one_read",
    "C56_short_buffer"
   ],
   "note": ""
  },
  {
   "property": "C57",
   "status": "proved",
   "theorems": [
    "C57_aligned",
    "C57_end"
   ],
   "note": ""
  },
  {
   "property": "C58",
   "status": "proved",
   "theorems": [
    "C58_any_schedule",
    "C58_error_first",
    "C58_lossless_refuted",
    "C58_aligned_refuted"
   ],
   "note": ""
  },
  {
   "property": "C59",
   "status": "proved",
   "theorems": [
    "C59_drain_any_reader",
    "C59_drain_reader",
    "C59_drain_error",
    "C59_empty_buffer_refuted"
   ],
   "note": ""
  },
  {
   "property": "C60",
   "status": "proved",
   "theorems": [
    "C60_numeral",
    "C60_text",
    "C60_adaptation",
    "C60_short",
    "C60_readable",
    "C60_complete_refuted",
    "C60_pcr_refuted"
   ],
   "note": "The text is exact; C60_complete_refuted: transport_priority is not shown; C60_pcr_refuted: a PCR is shown where is_pcr says there is none."
  },
  {
   "property": "C61",
   "status": "proved",
   "theorems": [
    "C61_pat",
    "C61_pmt",
    "C61_nit",
    "C61_sdt",
    "C61_eit",
    "C61_tot",
    "C61_tdt",
    "C61_pmt_exact",
    "C61_nit_exact",
    "C61_sdt_exact",
    "C61_eit_exact",
    "C61_tot_exact",
    "C61_tdt_exact",
    "C61_own_packets",
    "C61_no_payload_refuted",
    "C61_split_tdt_refuted"
   ],
   "note": "Exact in both directions with overflow checks; C61_no_payload_refuted and C61_split_tdt_refuted are packet sequences outside the condition that are legal but read twice or abort."
  },
  {
   "property": "C62",
   "status": "proved",
   "theorems": [
    "C62_follow",
    "C62_pat",
    "C62_pmt",
    "C62_nit",
    "C62_sdt",
    "C62_pf",
    "C62_tdt",
    "C62_tot",
    "C62_any_pat",
    "C62_any_pmt",
    "C62_any_nit",
    "C62_any_sdt",
    "C62_any_eit",
    "C62_any_tot",
    "C62_any_tdt"
   ],
   "note": "The driver `follow` (reader, PID filter, mux, parse) is not code of the library. Schedules of EIT: C75_followed."
  },
  {
   "property": "C63",
   "status": "proved",
   "theorems": [
    "C63_pat",
    "C63_pmt",
    "C63_nit",
    "C63_sdt",
    "C63_pf",
    "C63_tot",
    "C63_repeated_refuted",
    "C63_version_refuted"
   ],
   "note": "C63_repeated_refuted and C63_version_refuted show the consequences."
  },
  {
   "property": "C64",
   "status": "proved",
   "theorems": [
    "C64_codes",
    "C64_outer_refuted",
    "C64_distinct",
    "C64_fits",
    "C64_cable",
    "C64_satellite",
    "C64_terrestrial",
    "C64_cable_refuted",
    "C64_packed",
    "C64_packed_refuted",
    "C64_oversize",
    "C64_uses"
   ],
   "note": ""
  },
  {
   "property": "C65",
   "status": "proved",
   "theorems": [
    "C65_access",
    "C65_dispatch_refuted",
    "C65_push",
    "C65_get_mut"
   ],
   "note": ""
  },
  {
   "property": "C66",
   "status": "proved",
   "theorems": [
    "C66_same",
    "C66_needed",
    "C66_loop",
    "C66_always",
    "C66_same_refuted",
    "C66_framing_refuted",
    "C66_long_text_refuted"
   ],
   "note": ""
  },
  {
   "property": "C67",
   "status": "proved",
   "theorems": [
    "C67_pat",
    "C67_pmt",
    "C67_nit",
    "C67_sdt",
    "C67_eit",
    "C67_tot",
    "C67_one_each",
    "C67_state",
    "C67_twice",
    "C67_out_of_step",
    "C67_all_seen_refuted",
    "C67_short_sections_refuted"
   ],
   "note": ""
  },
  {
   "property": "C68",
   "status": "proved",
   "theorems": [
    "C68_collects",
    "C68_end",
    "C68_error",
    "C68_overflow",
    "C68_overflow_size",
    "C68_delivers_refuted"
   ],
   "note": ""
  },
  {
   "property": "C69",
   "status": "proved",
   "theorems": [
    "C69_pat",
    "C69_pmt",
    "C69_nit",
    "C69_sdt",
    "C69_pf",
    "C69_tot",
    "C69_tdt",
    "C69_conditions",
    "C69_language_refuted"
   ],
   "note": ""
  },
  {
   "property": "C70",
   "status": "proved",
   "theorems": [
    "C70_pat",
    "C70_pmt",
    "C70_nit",
    "C70_sdt",
    "C70_eit",
    "C70_tot",
    "C70_own_packets",
    "C70_starts_arrive",
    "C70_sixteen_refuted"
   ],
   "note": ""
  },
  {
   "property": "C71",
   "status": "proved",
   "theorems": [
    "C71_pat",
    "C71_pmt",
    "C71_nit",
    "C71_sdt",
    "C71_eit",
    "C71_tot",
    "C71_indicator_ignored",
    "C71_length_refuted",
    "C71_tdt_refuted"
   ],
   "note": ""
  },
  {
   "property": "C72",
   "status": "proved",
   "theorems": [
    "C72_file",
    "C72_main",
    "C72_two_blanks",
    "C72_number",
    "C72_blank"
   ],
   "note": ""
  },
  {
   "property": "C73",
   "status": "proved",
   "theorems": [
    "C73_text",
    "C73_desc",
    "C73_pmt",
    "C73_nit",
    "C73_sdt",
    "C73_eit",
    "C73_tot",
    "C73_plain",
    "C73_complete",
    "C73_received",
    "C73_own_text",
    "C73_received_refuted"
   ],
   "note": ""
  },
  {
   "property": "C74",
   "status": "proved",
   "theorems": [
    "C74_pat",
    "C74_pmt",
    "C74_nit",
    "C74_sdt",
    "C74_eit",
    "C74_tot",
    "C74_tdt",
    "C74_nothing",
    "C74_change_seen",
    "C74_repetition",
    "C74_change_refuted"
   ],
   "note": ""
  },
  {
   "property": "C75",
   "status": "proved",
   "theorems": [
    "C75_guide",
    "C75_followed",
    "C75_services_refuted",
    "C75_transports_refuted",
    "C75_programs_refuted"
   ],
   "note": ""
  },
  {
   "property": "C76",
   "status": "proved",
   "theorems": [
    "C76_jitter",
    "C76_measured",
    "C76_steady",
    "C76_wrap_refuted",
    "C76_rounded"
   ],
   "note": ""
  },
  {
   "property": "C77",
   "status": "proved",
   "theorems": [
    "C77_pat",
    "C77_pmt",
    "C77_nit",
    "C77_sdt",
    "C77_eit",
    "C77_tot",
    "C77_phantom_refuted"
   ],
   "note": ""
  },
  {
   "property": "C78",
   "status": "proved",
   "theorems": [
    "C78_pat",
    "C78_pmt",
    "C78_nit",
    "C78_sdt",
    "C78_eit",
    "C78_tot",
    "C78_idle",
    "C78_moves",
    "C78_service",
    "C78_stale",
    "C78_moved_refuted"
   ],
   "note": ""
  },
  {
   "property": "C79",
   "status": "proved",
   "theorems": [
    "C79_route",
    "C79_reads",
    "C79_table",
    "C79_blind",
    "C79_shift",
    "C79_renumber",
    "C79_service",
    "C79_merge_refuted",
    "C79_loss_refuted",
    "C79_wrapped_refuted"
   ],
   "note": ""
  },
  {
   "property": "C80",
   "status": "proved",
   "theorems": [
    "C80_restamp",
    "C80_modulo",
    "C80_packet",
    "C80_sections",
    "C80_twice",
    "C80_back",
    "C80_distance",
    "C80_clock",
    "C80_measured",
    "C80_measured_refuted"
   ],
   "note": ""
  },
  {
   "property": "C81",
   "status": "proved",
   "theorems": [
    "C81_program",
    "C81_one_section",
    "C81_split_refuted"
   ],
   "note": ""
  },
  {
   "property": "C82",
   "status": "proved",
   "theorems": [
    "C82_tells",
    "C82_tells_plain",
    "C82_one_line",
    "C82_lines",
    "C82_readable"
   ],
   "note": ""
  },
  {
   "property": "C83",
   "status": "proved",
   "theorems": [
    "C83_pat",
    "C83_pmt",
    "C83_nit",
    "C83_sdt",
    "C83_eit",
    "C83_tot",
    "C83_ends",
    "C83_middle",
    "C83_dropped",
    "C83_lost_refuted"
   ],
   "note": "Exact for every choice of repeated packets; C83_lost_refuted: a PAT in three packets, the second sent twice, is lost."
  },
  {
   "property": "C84",
   "status": "proved",
   "theorems": [
    "C84_held",
    "C84_pat",
    "C84_pmt",
    "C84_nit",
    "C84_sdt",
    "C84_eit",
    "C84_tot",
    "C84_tdt",
    "C84_silent"
   ],
   "note": ""
  },
  {
   "property": "C85",
   "status": "proved",
   "theorems": [
    "C85_pat",
    "C85_pmt",
    "C85_nit",
    "C85_sdt",
    "C85_eit",
    "C85_tot",
    "C85_bytes_refuted"
   ],
   "note": "C85_bytes_refuted: growth is bounded by the number of packets, not by the bytes of sections received."
  },
  {
   "property": "C86",
   "status": "proved",
   "theorems": [
    "C86_players",
    "C86_senders",
    "C86_player_refuted",
    "C86_numbers",
    "C86_packets",
    "C86_texts",
    "C86_descriptors",
    "C86_sections",
    "C86_read",
    "C86_sent",
    "C86_streams",
    "C86_cbr",
    "C86_panics",
    "C86_same_refuted"
   ],
   "note": "Holds for every modelled function with a mode argument; C86_same_refuted: the converse fails."
  },
  {
   "property": "C87",
   "status": "proved",
   "theorems": [
    "C87_packet",
    "C87_any_psi",
    "C87_pat",
    "C87_pmt",
    "C87_nit",
    "C87_sdt",
    "C87_eit",
    "C87_tot",
    "C87_tdt",
    "C87_tdt_cut_refuted"
   ],
   "note": "C87_tdt_cut_refuted: a TDT divided between two packets stops the receiver although both packets and the section are fine."
  },
  {
   "property": "C88",
   "status": "proved",
   "theorems": [
    "C88_descriptor",
    "C88_written",
    "C88_said",
    "C88_pat",
    "C88_pmt",
    "C88_nit",
    "C88_sdt",
    "C88_tot",
    "C88_tdt",
    "C88_eit",
    "C88_fits"
   ],
   "note": "stops_if states both directions and both build profiles; schedule_over follows the sections of a schedule event by event."
  },
  {
   "property": "C89",
   "status": "proved",
   "theorems": [
    "C89_section",
    "C89_pat",
    "C89_pmt",
    "C89_nit",
    "C89_sdt",
    "C89_present",
    "C89_schedule",
    "C89_tdt",
    "C89_tot",
    "C89_tot_over",
    "C89_length_refuted",
    "C89_limit_refuted"
   ],
   "note": "series and starts are stated on bytes; the limits carry the conditions under which they hold, with refutations without them."
  },
  {
   "property": "C90",
   "status": "proved",
   "theorems": [
    "C90_pat",
    "C90_pmt",
    "C90_nit",
    "C90_sdt",
    "C90_eit",
    "C90_tot",
    "C90_range",
    "C90_kept",
    "C90_pat_received",
    "C90_pmt_received",
    "C90_nit_received",
    "C90_sdt_received",
    "C90_pf_received",
    "C90_schedule_received",
    "C90_tot_received",
    "C90_alone_refuted"
   ],
   "note": "the equality of what is sent needs nothing but typed fields; the in-range and received parts name what is not folded (digits, loop_sized)."
  },
  {
   "property": "C91",
   "status": "proved",
   "theorems": [
    "C91_pat",
    "C91_pmt",
    "C91_nit",
    "C91_sdt",
    "C91_pf",
    "C91_schedule",
    "C91_tot",
    "C91_tdt",
    "C91_pat_refuted",
    "C91_name_refuted"
   ],
   "note": "two tables of the same kind are compared; a schedule may stop a debug build, so its equality is between sends that return."
  },
  {
   "property": "C92",
   "status": "proved",
   "theorems": [
    "C92_packets",
    "C92_filling",
    "C92_pmt",
    "C92_nit",
    "C92_sdt",
    "C92_pat",
    "C92_pf",
    "C92_time",
    "C92_tot",
    "C92_order_refuted"
   ],
   "note": "schedules are cut by segments (C51), not as short as possible."
  },
  {
   "property": "C93",
   "status": "proved",
   "theorems": [
    "C93_pat",
    "C93_pmt",
    "C93_nit",
    "C93_sdt",
    "C93_eit",
    "C93_tdt",
    "C93_tot",
    "C93_section",
    "C93_descriptor",
    "C93_descriptors",
    "C93_reads_pat",
    "C93_reads_pmt",
    "C93_reads_nit",
    "C93_reads_sdt",
    "C93_reads_eit",
    "C93_reads_tot",
    "C93_reads_tdt"
   ],
   "note": "unconditional, unlike C35 and C63: also where a value does not fit and where the code panics."
  },
  {
   "property": "C94",
   "status": "proved",
   "theorems": [
    "C94_packets",
    "C94_done",
    "C94_counters",
    "C94_stream",
    "C94_pat",
    "C94_pmt",
    "C94_nit",
    "C94_sdt",
    "C94_eit",
    "C94_tdt",
    "C94_tot",
    "C94_followed",
    "C94_spread"
   ],
   "note": "the driver is not code of the repository; it only calls demux."
  },
  {
   "property": "C95",
   "status": "proved",
   "theorems": [
    "C95_whole",
    "C95_pid",
    "C95_begins",
    "C95_events",
    "C95_refuted"
   ],
   "note": "the driver M_multi is not code of the repository. C95_refuted shows that the bound of 256 sections is needed."
  },
  {
   "property": "C96",
   "status": "proved",
   "theorems": [
    "C96_pat",
    "C96_pmt",
    "C96_nit",
    "C96_sdt",
    "C96_eit",
    "C96_tot",
    "C96_tdt",
    "C96_whole",
    "C96_runs",
    "C96_soon",
    "C96_multi"
   ],
   "note": "That some condition on the gaps is needed is shown by C70. The driver M_multi is not code of the repository."
  },
  {
   "property": "C97",
   "status": "proved",
   "theorems": [
    "C97_services",
    "C97_now",
    "C97_schedule",
    "C97_network",
    "C97_start_refuted",
    "C97_control_refuted",
    "C97_plane_refuted"
   ],
   "note": "The driver M_words (a user of the library who makes descriptors from texts and a viewer who shows them) is not code of the repository. A schedule is what eit_demux has written if it succeeds (as in C50)."
  },
  {
   "property": "C98",
   "status": "proved",
   "theorems": [
    "C98_found",
    "C98_marks",
    "C98_few",
    "C98_one",
    "C98_never_refuted",
    "C98_tables"
   ],
   "note": "TsReader checks one sync byte only; C98_never_refuted shows a stream of any length of which it delivers no packet after one byte is lost."
  },
  {
   "property": "C99",
   "status": "proved",
   "theorems": [
    "C99_pat",
    "C99_pmt",
    "C99_nit",
    "C99_sdt",
    "C99_eit",
    "C99_tot",
    "C99_whole",
    "C99_clean",
    "C99_multi",
    "C99_time_refuted"
   ],
   "note": "C99_time_refuted: a section of the time with a wrong bit is taken as it is."
  },
  {
   "property": "C100",
   "status": "proved",
   "theorems": [
    "C100_services",
    "C100_events",
    "C100_network",
    "C100_part",
    "C100_done",
    "C100_stream"
   ],
   "note": ""
  },
  {
   "property": "C101",
   "status": "proved",
   "theorems": [
    "C101_play",
    "C101_collect",
    "C101_stream",
    "C101_first",
    "C101_first_refuted",
    "C101_elapsed",
    "C101_stops",
    "C101_opens"
   ],
   "note": ""
  },
  {
   "property": "C102",
   "status": "proved",
   "theorems": [
    "C102_route",
    "C102_count",
    "C102_clock",
    "C102_program",
    "C102_clock_refuted"
   ],
   "note": ""
  },
  {
   "property": "C103",
   "status": "proved",
   "theorems": [
    "C103_gather",
    "C103_careful",
    "C103_stream",
    "C103_given",
    "C103_sixteen_refuted",
    "C103_plain_refuted"
   ],
   "note": ""
  },
  {
   "property": "C104",
   "status": "proved",
   "theorems": [
    "C104_found",
    "C104_gaps",
    "C104_fake_refuted"
   ],
   "note": ""
  },
  {
   "property": "C105",
   "status": "proved",
   "theorems": [
    "C105_watch",
    "C105_stream",
    "C105_order_refuted"
   ],
   "note": ""
  },
  {
   "property": "C106",
   "status": "proved",
   "theorems": [
    "C106_due",
    "C106_close",
    "C106_late_refuted"
   ],
   "note": ""
  },
  {
   "property": "C107",
   "status": "proved",
   "theorems": [
    "C107_carry",
    "C107_fewest",
    "C107_play",
    "C107_clock",
    "C107_range",
    "C107_range_refuted"
   ],
   "note": ""
  },
  {
   "property": "C108",
   "status": "proved",
   "theorems": [
    "C108_watch",
    "C108_stream",
    "C108_due"
   ],
   "note": ""
  },
  {
   "property": "C109",
   "status": "proved",
   "theorems": [
    "C109_descriptors",
    "C109_event",
    "C109_event_refuted",
    "C109_text",
    "C109_page",
    "C109_utf8",
    "C109_display_refuted",
    "C109_stream_type"
   ],
   "note": ""
  },
  {
   "property": "C110",
   "status": "proved",
   "theorems": [
    "C110_cbr",
    "C110_fresh",
    "C110_readers",
    "C110_stream_type"
   ],
   "note": ""
  },
  {
   "property": "C111",
   "status": "proved",
   "theorems": [
    "C111_reader",
    "C111_reader_gets",
    "C111_drain",
    "C111_cbr",
    "C111_cbr_refuted"
   ],
   "note": ""
  },
  {
   "property": "C112",
   "status": "proved",
   "theorems": [
    "C112_source",
    "C112_any",
    "C112_tower",
    "C112_again",
    "C112_error",
    "C112_too_many",
    "C112_endless"
   ],
   "note": ""
  },
  {
   "property": "C113",
   "status": "proved",
   "theorems": [
    "C113_along",
    "C113_foreign",
    "C113_own",
    "C113_schedule",
    "C113_schedule_refuted"
   ],
   "note": ""
  },
  {
   "property": "C114",
   "status": "proved",
   "theorems": [
    "C114_routes",
    "C114_back",
    "C114_counts",
    "C114_keeps",
    "C114_order",
    "C114_clock",
    "C114_keeps_refuted"
   ],
   "note": ""
  }
 ]
}