{
 "claims": [
  {
   "property": "C01",
   "status": "proved",
   "theorems": [
    "C01_decode_of_encode",
    "C01_encode_of_decode",
    "C01_no_collision"
   ],
   "note": ""
  },
  {
   "property": "C02",
   "status": "proved",
   "theorems": [
    "C02_decode_iff_grammar",
    "C02_only_mapping_pairs_exception",
    "C02_round_trip",
    "C02_lengths_positive"
   ],
   "note": ""
  },
  {
   "property": "C03",
   "status": "proved",
   "theorems": [
    "C03_negative_lcn_refuted"
   ],
   "note": "the property is false of the code; proved as a refutation with a concrete input"
  },
  {
   "property": "C04",
   "status": "proved",
   "theorems": [
    "C04_open_restores",
    "C04_torn_rejected",
    "C04_protect_round_trip",
    "C04_overlapping_array_refuted"
   ],
   "note": "restoration holds when the array does not overlap the tail of the first sector (usa_off + 2*usa_cnt <= 510); the overlapping placement the code accepts is refuted by C04_overlapping_array_refuted"
  },
  {
   "property": "C05",
   "status": "proved",
   "theorems": [
    "C05_accepted_iff",
    "C05_accepted_protected_iff",
    "C05_only_file_record_exceptions"
   ],
   "note": ""
  },
  {
   "property": "C06",
   "status": "proved",
   "theorems": [
    "C06_attributes",
    "C06_records_increasing_inside",
    "C06_record_inside"
   ],
   "note": ""
  },
  {
   "property": "C07",
   "status": "proved",
   "theorems": [
    "C07_data_runs",
    "C07_each_record_in_place",
    "C07_enumeration_error_escapes",
    "C07_data_size"
   ],
   "note": ""
  },
  {
   "property": "C08",
   "status": "proved",
   "theorems": [
    "C08_merge",
    "C08_merge_error",
    "C08_agrees_with_data_runs",
    "C08_part_without_start_dropped_refuted"
   ],
   "note": "records without a VCN-0 partner are dropped: C08_part_without_start_dropped_refuted"
  },
  {
   "property": "C09",
   "status": "proved",
   "theorems": [
    "C09_history",
    "C09_read_all",
    "C09_errors"
   ],
   "note": ""
  },
  {
   "property": "C10",
   "status": "proved",
   "theorems": [
    "C10_read_past_end_refuted",
    "C10_bounds_partial"
   ],
   "note": "the property is false of the code: C10_read_past_end_refuted; what holds instead is C10_bounds_partial"
  },
  {
   "property": "C11",
   "status": "proved",
   "theorems": [
    "C11_open",
    "C11_file_records",
    "C11_children"
   ],
   "note": ""
  },
  {
   "property": "C12",
   "status": "proved",
   "theorems": [
    "C12_lookup",
    "C12_lookup_child",
    "C12_lookup_error",
    "C12_unique",
    "C12_cut_slot_refuted"
   ],
   "note": "a cut last slot is accepted by number but not enumerated: C12_cut_slot_refuted"
  },
  {
   "property": "C13",
   "status": "proved",
   "theorems": [
    "C13_paths",
    "C13_errors",
    "C13_shape",
    "C13_one_chain",
    "C13_nameless_parent_refuted"
   ],
   "note": "a nameless parent directory makes path building raise: C13_nameless_parent_refuted"
  },
  {
   "property": "C14",
   "status": "proved",
   "theorems": [
    "C14_by_path",
    "C14_root",
    "C14_relative",
    "C14_live_parents_refuted"
   ],
   "note": "the stronger claim about live parent directories is false: C14_live_parents_refuted"
  },
  {
   "property": "C15",
   "status": "proved",
   "theorems": [
    "C15_clean_lookup_partial",
    "C15_hard_link_refuted",
    "C15_damaged_record_refuted",
    "C15_listed_found",
    "C15_round_trip"
   ],
   "note": "the property is false of the code: C15_hard_link_refuted, C15_damaged_record_refuted; what holds instead: C15_clean_lookup_partial, C15_listed_found and C15_round_trip (tables whose records can be decoded and have no name twice)"
  },
  {
   "property": "C16",
   "status": "proved",
   "theorems": [
    "C16_filetime_range",
    "C16_guid_time_range",
    "C16_order",
    "C16_earlier_decodes",
    "C16_error",
    "C16_within_one_microsecond",
    "C16_exact_before_1886"
   ],
   "note": ""
  },
  {
   "property": "C17",
   "status": "proved",
   "theorems": [
    "C17_exact_microseconds_refuted",
    "C17_odd_microseconds_lost_refuted"
   ],
   "note": "the property is false of the code: every odd microsecond between 1886 and 2171 is lost to rounding; the refutation is proved"
  },
  {
   "property": "C18",
   "status": "proved",
   "theorems": [
    "C18_fields",
    "C18_never_raises"
   ],
   "note": ""
  },
  {
   "property": "C19",
   "status": "proved",
   "theorems": [
    "C19_any_bytes",
    "C19_total",
    "C19_round_trip",
    "C19_names"
   ],
   "note": "names may be cut by the end of the value; the walk relation says so"
  },
  {
   "property": "C20",
   "status": "proved",
   "theorems": [
    "C20_accepted",
    "C20_round_trip",
    "C20_overlap_refuted"
   ],
   "note": "restoration holds when the array ends before the first sector tail; the overlapping placement the code accepts is refuted by C20_overlap_refuted"
  },
  {
   "property": "C21",
   "status": "proved",
   "theorems": [
    "C21_entries",
    "C21_deterministic",
    "C21_positions",
    "C21_round_trip"
   ],
   "note": "the walk can end with struct.error when fewer than 14 bytes are left of an entry; the walk relation says when"
  },
  {
   "property": "C22",
   "status": "proved",
   "theorems": [
    "C22_any_bytes",
    "C22_total",
    "C22_round_trip",
    "C22_linux_any_bytes",
    "C22_linux_total",
    "C22_linux_round_trip",
    "C22_linux_short_refuted"
   ],
   "note": "a Linux attribute shorter than nine bytes is dropped: C22_linux_short_refuted"
  },
  {
   "property": "C23",
   "status": "proved",
   "theorems": [
    "C23_accepted",
    "C23_sector_size",
    "C23_cluster_size",
    "C23_record_sizes",
    "C23_locations",
    "C23_errors",
    "C23_boot_code",
    "C23_power_of_two_refuted"
   ],
   "note": "the power-of-two part is false of the code: C23_power_of_two_refuted"
  },
  {
   "property": "C24",
   "status": "proved",
   "theorems": [
    "C24_journal",
    "C24_bytes",
    "C24_names",
    "C24_long_record_lost_refuted"
   ],
   "note": "records longer than the 8192-byte read window are never found: C24_long_record_lost_refuted"
  },
  {
   "property": "C25",
   "status": "proved",
   "theorems": [
    "C25_walk",
    "C25_total",
    "C25_deterministic",
    "C25_getters"
   ],
   "note": ""
  },
  {
   "property": "C26",
   "status": "proved",
   "theorems": [
    "C26_reasons",
    "C26_sources",
    "C26_no_bit_lost",
    "C26_injective"
   ],
   "note": "hex() and the joining string are not modelled: the items are"
  },
  {
   "property": "C27",
   "status": "proved",
   "theorems": [
    "C27_offset_of_lsn",
    "C27_lsn_round_trip",
    "C27_offset_round_trip",
    "C27_out_of_range_refuted"
   ],
   "note": "identity on every LSN; on offsets within the addressable range; refuted beyond it (C27_out_of_range_refuted)"
  },
  {
   "property": "C28",
   "status": "proved",
   "theorems": [
    "C28_accepted_iff",
    "C28_errors",
    "C28_torn_rejected",
    "C28_round_trip",
    "C28_checksum_detects",
    "C28_identity_refuted"
   ],
   "note": "iff characterisation; the identity fails for a block that looks protected by a checksum (C28_identity_refuted)"
  },
  {
   "property": "C29",
   "status": "proved",
   "theorems": [
    "C29_sorted_and_valid",
    "C29_complete",
    "C29_terminates",
    "C29_unaddressable_refuted"
   ],
   "note": "under addressable (file no larger than the offsets an LSN can hold) and arbitrary set order; refuted otherwise (C29_unaddressable_refuted); termination unconditional; completeness C29_complete"
  },
  {
   "property": "C30",
   "status": "proved",
   "theorems": [
    "C30_data",
    "C30_length",
    "C30_errors"
   ],
   "note": "iff with the relational record_data"
  },
  {
   "property": "C31",
   "status": "proved",
   "theorems": [
    "C31_next_sound",
    "C31_next_found",
    "C31_forward_complete",
    "C31_wrap_refuted",
    "C31_long_wrap_refuted"
   ],
   "note": "true within one pass (C31_next_found, C31_forward_complete); false across the wrap (C31_wrap_refuted, C31_long_wrap_refuted)"
  },
  {
   "property": "C32",
   "status": "proved",
   "theorems": [
    "C32_file_unchanged",
    "C32_after_parse",
    "C32_unprepared_refuted"
   ],
   "note": "any history of calls; the methods that write need the documented writable state (without it the file is changed, shown)"
  },
  {
   "property": "C33",
   "status": "proved",
   "theorems": [
    "C33_exfat_open",
    "C33_exfat_chain_iff",
    "C33_exfat_reserved",
    "C33_exfat_terminates",
    "C33_exfat_distinct_and_valid",
    "C33_exfat_successors",
    "C33_exfat_end",
    "C33_exfat_written_chain",
    "C33_chain_iff",
    "C33_terminates",
    "C33_distinct_and_valid",
    "C33_successors",
    "C33_end",
    "C33_written_chain"
   ],
   "note": "FAT and exFAT"
  },
  {
   "property": "C34",
   "status": "proved",
   "theorems": [
    "C34_exfat_entry",
    "C34_exfat_out_of_range",
    "C34_exfat_round_trip",
    "C34_entry_bits",
    "C34_out_of_range",
    "C34_round_trip",
    "C34_entries_independent",
    "C34_allocated"
   ],
   "note": "FAT entries: exact bits, refusals, round trip, independence"
  },
  {
   "property": "C35",
   "status": "proved",
   "theorems": [
    "C35_fat32_iff",
    "C35_fat16_iff",
    "C35_width",
    "C35_exclusive",
    "C35_refusals",
    "C35_count_alone_refuted",
    "C35_own_exception_refuted"
   ],
   "note": "exact acceptance conditions for both layouts; includes two refutations (negative cluster count accepted, TypeError when both FAT sizes are zero)"
  },
  {
   "property": "C36",
   "status": "proved",
   "theorems": [
    "C36_sizes",
    "C36_entries",
    "C36_attached",
    "C36_parts",
    "C36_complete",
    "C36_written",
    "C36_orphan_without_name_refuted"
   ],
   "note": "sound for every buffer, complete for written directories; includes the refutation that orphan entries may have no name"
  },
  {
   "property": "C37",
   "status": "proved",
   "theorems": [
    "C37_exfat_value",
    "C37_exfat_detected",
    "C37_exfat_field",
    "C37_short_checksum_formula",
    "C37_short_name_byte"
   ],
   "note": "FAT and exFAT checksums"
  },
  {
   "property": "C38",
   "status": "proved",
   "theorems": [
    "C38_exfat",
    "C38_exfat_round_trip",
    "C38_date",
    "C38_time",
    "C38_date_injective",
    "C38_nt_byte"
   ],
   "note": "FAT and exFAT dates"
  },
  {
   "property": "C39",
   "status": "proved",
   "theorems": [
    "C39_exfat_walk",
    "C39_exfat_fuel",
    "C39_exfat_errors",
    "C39_exfat_tree",
    "C39_exfat_latest",
    "C39_exfat_size_refuted",
    "C39_exfat_bitmap_refuted",
    "C39_exfat_time_refuted",
    "C39_fat_walk",
    "C39_fat_fuel",
    "C39_fat_errors",
    "C39_fat_tree",
    "C39_later_files_lost_refuted",
    "C39_fat_root",
    "C39_fat_enter",
    "C39_fat_orphan",
    "C39_exfat_enter",
    "C39_exfat_orphan"
   ],
   "note": "FAT and exFAT; the _refuted theorems show what ends a walk early"
  },
  {
   "property": "C40",
   "status": "proved",
   "theorems": [
    "C40_exfat_read",
    "C40_exfat_errors",
    "C40_exfat_length",
    "C40_exfat_contiguous_byte",
    "C40_fat_read",
    "C40_fat_errors",
    "C40_fat_length",
    "C40_fat_byte",
    "C40_fat_layout",
    "C40_fat_areas"
   ],
   "note": "FAT and exFAT"
  },
  {
   "property": "C41",
   "status": "proved",
   "theorems": [
    "C41_detected",
    "C41_ignored",
    "C41_percent",
    "C41_sector_size_refuted"
   ],
   "note": "every changed byte is detected except the excluded ones; refuted for byte 108 (sector size), see C41_sector_size_refuted"
  },
  {
   "property": "C42",
   "status": "proved",
   "theorems": [
    "C42_exact",
    "C42_good",
    "C42_orphan",
    "C42_length",
    "C42_forbidden_refuted",
    "C42_dots_refuted",
    "C42_units_refuted"
   ],
   "note": "exact characterisation; the claim that all forbidden characters are rejected is refuted, see C42_*_refuted"
  },
  {
   "property": "C43",
   "status": "proved",
   "theorems": [
    "C43_timezone",
    "C43_round_trip"
   ],
   "note": ""
  },
  {
   "property": "C44",
   "status": "proved",
   "theorems": [
    "C44_translate",
    "C44_total",
    "C44_check_bitmap",
    "C44_overlay_dropped_refuted"
   ],
   "note": "after any successful selection; overlay precedence refuted for forwarder targets"
  },
  {
   "property": "C45",
   "status": "proved",
   "theorems": [
    "C45_history",
    "C45_not_selected",
    "C45_clipped_refuted",
    "C45_lost_data_refuted",
    "C45_failed_select_refuted"
   ],
   "note": "histories of seek/tell/read; three refutations"
  },
  {
   "property": "C46",
   "status": "proved",
   "theorems": [
    "C46_selected",
    "C46_terminates",
    "C46_loop",
    "C46_loop_refuted"
   ],
   "note": "loops in bitmap chains refute unconditional termination"
  },
  {
   "property": "C47",
   "status": "proved",
   "theorems": [
    "C47_open_one",
    "C47_open_one_ends",
    "C47_open_two_ends",
    "C47_loop_refuted",
    "C47_start_block",
    "C47_invalid_volume",
    "C47_first_control_block",
    "C47_block",
    "C47_control_block"
   ],
   "note": "iff for one volume, termination for both; refutation by a self-linked control block"
  },
  {
   "property": "C48",
   "status": "proved",
   "theorems": [
    "C48_ebr",
    "C48_unique",
    "C48_terminates",
    "C48_later_entry_hides_refuted",
    "C48_zero_start"
   ],
   "note": "an extended partition that starts at sector 0 empties the whole list (C48_later_entry_hides_refuted); sector sizes below 2^30"
  },
  {
   "property": "C49",
   "status": "proved",
   "theorems": [
    "C49_accepted_iff_valid",
    "C49_refusals",
    "C49_fallback",
    "C49_four_bytes",
    "C49_single_byte",
    "C49_array_change",
    "C49_size_byte_refuted"
   ],
   "note": "the size field is not protected (C49_size_byte_refuted)"
  },
  {
   "property": "C50",
   "status": "proved",
   "theorems": [
    "C50_gpt",
    "C50_name_unique",
    "C50_mbr",
    "C50_mbr_short",
    "C50_mbr_signature"
   ],
   "note": ""
  },
  {
   "property": "C51",
   "status": "proved",
   "theorems": [
    "C51_entries",
    "C51_unknown_type",
    "C51_total",
    "C51_slots",
    "C51_timestamp",
    "C51_machine_id",
    "C51_header",
    "C51_later_entries_lost_refuted"
   ],
   "note": "an entry of an unknown type ends the iteration (C51_later_entries_lost_refuted); DecodeString, which depends on code pages, is not modelled"
  },
  {
   "property": "C52",
   "status": "proved",
   "theorems": [
    "C52_carve",
    "C52_unique",
    "C52_only_plausible",
    "C52_complete",
    "C52_type_and_length_refuted",
    "C52_parity_refuted"
   ],
   "note": "C52_carve, C52_unique (iff), C52_only_plausible, C52_complete; refuted: C52_type_and_length_refuted, C52_parity_refuted"
  },
  {
   "property": "C53",
   "status": "proved",
   "theorems": [
    "C53_tail",
    "C53_fast",
    "C53_fast_newer",
    "C53_fast_last_wins",
    "C53_stale_tail_refuted",
    "C53_home_unchecked_refuted"
   ],
   "note": "statement refined; stale tail page and unchecked home shown by counterexamples"
  },
  {
   "property": "C54",
   "status": "proved",
   "theorems": [
    "C54_sizes",
    "C54_exact",
    "C54_sound",
    "C54_failures",
    "C54_counts",
    "C54_written",
    "C54_corrupted",
    "C54_type_byte_refuted",
    "C54_later_files_lost_refuted"
   ],
   "note": "exact reading, soundness, round trip of written directories and detection of corruption; C54_type_byte_refuted and C54_later_files_lost_refuted show the limits"
  },
  {
   "property": "C55",
   "status": "proved",
   "theorems": [
    "C55_record_number",
    "C55_driver_record",
    "C55_offset_in_target",
    "C55_record_parts"
   ],
   "note": ""
  },
  {
   "property": "C56",
   "status": "proved",
   "theorems": [
    "C56_buffer_size",
    "C56_buffers"
   ],
   "note": ""
  },
  {
   "property": "C57",
   "status": "proved",
   "theorems": [
    "C57_unix_time",
    "C57_nearest",
    "C57_metadata"
   ],
   "note": ""
  },
  {
   "property": "C58",
   "status": "proved",
   "theorems": [
    "C58_safe",
    "C58_injective",
    "C58_round_trip",
    "C58_long_names_refuted"
   ],
   "note": "short names safe, injective, read back; long names may contain a slash (refutation)"
  },
  {
   "property": "C59",
   "status": "proved",
   "theorems": [
    "C59_exact",
    "C59_errors",
    "C59_valid_rejected_refuted",
    "C59_find",
    "C59_volume"
   ],
   "note": "exact characterisation of accepted regions; C59_valid_rejected_refuted shows a valid region that is rejected"
  },
  {
   "property": "C60",
   "status": "proved",
   "theorems": [
    "C60_state",
    "C60_round_trip",
    "C60_total",
    "C60_short_refuted"
   ],
   "note": ""
  },
  {
   "property": "C61",
   "status": "proved",
   "theorems": [
    "C61_open_iff",
    "C61_errors",
    "C61_one_page_enough"
   ],
   "note": ""
  },
  {
   "property": "C62",
   "status": "proved",
   "theorems": [
    "C62_items",
    "C62_every_record_once",
    "C62_stops_only_when_bad",
    "C62_complete_checkpoint",
    "C62_open_checkpoint",
    "C62_mixed_checkpoints_refuted",
    "C62_later_records_lost_refuted",
    "C62_no_restart_area_refuted"
   ],
   "note": "mixed checkpoints, short record and missing restart area shown by counterexamples"
  },
  {
   "property": "C63",
   "status": "proved",
   "theorems": [
    "C63_find_name",
    "C63_round_trip",
    "C63_target"
   ],
   "note": ""
  },
  {
   "property": "C65",
   "status": "proved",
   "theorems": [
    "C65_blocks",
    "C65_carve",
    "C65_guess",
    "C65_only_in_range",
    "C65_page_crossing_refuted"
   ],
   "note": "C65_blocks, C65_carve, C65_only_in_range; refuted: C65_page_crossing_refuted"
  },
  {
   "property": "C66",
   "status": "proved",
   "theorems": [
    "C66_located",
    "C66_file",
    "C66_pieces",
    "C66_content",
    "C66_errors",
    "C66_one_segment_refuted"
   ],
   "note": "C66_one_segment_refuted shows a sound table that is rejected"
  },
  {
   "property": "C67",
   "status": "proved",
   "theorems": [
    "C67_file_record",
    "C67_standard_information",
    "C67_standard_information_long",
    "C67_extra_flags",
    "C67_file_name",
    "C67_volume",
    "C67_index_root",
    "C67_index_buffer",
    "C67_index_entry",
    "C67_reparse_point",
    "C67_object_id",
    "C67_object_id_short",
    "C67_boot_sector"
   ],
   "note": ""
  },
  {
   "property": "C68",
   "status": "proved",
   "theorems": [
    "C68_fsinfo",
    "C68_fsinfo_only",
    "C68_bpb",
    "C68_extended",
    "C68_second_element",
    "C68_unusual",
    "C68_exfat"
   ],
   "note": ""
  },
  {
   "property": "C69",
   "status": "proved",
   "theorems": [
    "C69_move_header",
    "C69_move_footer",
    "C69_move_entry",
    "C69_move_guid_times",
    "C69_shadow_block",
    "C69_start_block",
    "C69_items",
    "C69_alignment_refuted"
   ],
   "note": "except alignment of shadow blocks (refuted)"
  },
  {
   "property": "C70",
   "status": "proved",
   "theorems": [
    "C70_mft_report",
    "C70_complete",
    "C70_damaged_record_refuted",
    "C70_omitted_refuted",
    "C70_ads_refuted"
   ],
   "note": "C70_mft_report, C70_complete; three counterexamples"
  },
  {
   "property": "C71",
   "status": "proved",
   "theorems": [
    "C71_columns"
   ],
   "note": "C71_columns"
  },
  {
   "property": "C72",
   "status": "proved",
   "theorems": [
    "C72_usn_report",
    "C72_complete",
    "C72_bad_name_refuted"
   ],
   "note": "C72_usn_report, C72_complete; counterexample"
  },
  {
   "property": "C73",
   "status": "proved",
   "theorems": [
    "C73_indx_report",
    "C73_complete",
    "C73_real_parent_refuted"
   ],
   "note": "C73_indx_report, C73_complete; counterexample"
  },
  {
   "property": "C74",
   "status": "proved",
   "theorems": [
    "C74_dump",
    "C74_injective"
   ],
   "note": "C74_dump, C74_injective"
  },
  {
   "property": "C75",
   "status": "proved",
   "theorems": [
    "C75_memory_report"
   ],
   "note": "C75_memory_report"
  },
  {
   "property": "C76",
   "status": "proved",
   "theorems": [
    "C76_log_report",
    "C76_complete",
    "C76_number_unique",
    "C76_deleted_known",
    "C76_short_entry_refuted",
    "C76_short_value_refuted",
    "C76_bad_name_refuted"
   ],
   "note": "C76_log_report, C76_complete; three counterexamples"
  },
  {
   "property": "C77",
   "status": "proved",
   "theorems": [
    "C77_operation",
    "C77_operation_unique",
    "C77_codes",
    "C77_codes_unique",
    "C77_guid",
    "C77_guid_unique",
    "C77_attributes",
    "C77_attributes_refuted",
    "C77_attributes_named"
   ],
   "note": "operation, codes, GUID texts unique; named attribute bits exact; counterexample for the unnamed bits"
  },
  {
   "property": "C78",
   "status": "proved",
   "theorems": [
    "C78_log",
    "C78_csv",
    "C78_injective",
    "C78_numbers",
    "C78_bytes",
    "C78_mft_file",
    "C78_usn_file",
    "C78_indx_file",
    "C78_mem_file",
    "C78_log_refuted"
   ],
   "note": "csv files read back exactly, injective, columns; counterexample for the log report"
  },
  {
   "property": "C79",
   "status": "proved",
   "theorems": [
    "C79_days",
    "C79_epochs",
    "C79_text",
    "C79_str",
    "C79_decoded",
    "C79_unix",
    "C79_memory"
   ],
   "note": "calendar relation exact; texts of FILETIME, GUID and Unix times read back"
  },
  {
   "property": "C80",
   "status": "proved",
   "theorems": [
    "C80_fat",
    "C80_exfat",
    "C80_columns",
    "C80_file",
    "C80_row_exact",
    "C80_exfat_row_exact"
   ],
   "note": "one row per item, nine fields, file reads back, row determines the facts"
  },
  {
   "property": "C81",
   "status": "proved",
   "theorems": [
    "C81_not_fat",
    "C81_exfat",
    "C81_backup_refuted"
   ],
   "note": "accepted exFAT boot region is rejected as FAT; counterexample with a backup boot region"
  },
  {
   "property": "C82",
   "status": "proved",
   "theorems": [
    "C82_report",
    "C82_sector_size",
    "C82_name",
    "C82_name_exact",
    "C82_exact"
   ],
   "note": ""
  },
  {
   "property": "C83",
   "status": "proved",
   "theorems": [
    "C83_mounted",
    "C83_mounted_two",
    "C83_answers",
    "C83_memoryless",
    "C83_resumed",
    "C83_read",
    "C83_copy",
    "C83_consistent",
    "C83_list",
    "C83_list_ends",
    "C83_exception_refuted"
   ],
   "note": ""
  },
  {
   "property": "C84",
   "status": "proved",
   "theorems": [
    "C84_fresh",
    "C84_table",
    "C84_report",
    "C84_complete",
    "C84_failure"
   ],
   "note": "tables and shadow copies are read as a whole (stated in AllMft.v)"
  },
  {
   "property": "C85",
   "status": "proved",
   "theorems": [
    "C85_encode",
    "C85_encodable",
    "C85_mft",
    "C85_usn",
    "C85_log",
    "C85_indx",
    "C85_all",
    "C85_mem",
    "C85_move",
    "C85_fat"
   ],
   "note": "For FAT and exFAT volumes the code page and str.lower are assumed to give scalar values."
  },
  {
   "property": "C86",
   "status": "proved",
   "theorems": [
    "C86_ntfs_report",
    "C86_fat_report",
    "C86_ntfs_usage",
    "C86_fat_usage",
    "C86_only_output",
    "C86_overwritten",
    "C86_evidence_refuted"
   ],
   "note": "The claim that input files never change is refuted (C86_evidence_refuted); C86_overwritten says what happens then."
  },
  {
   "property": "C87",
   "status": "proved",
   "theorems": [
    "C87_mft",
    "C87_usn",
    "C87_indx",
    "C87_log",
    "C87_fat",
    "C87_move",
    "C87_mem",
    "C87_all",
    "C87_ntfs",
    "C87_fat_parser",
    "C87_all_refuted"
   ],
   "note": "every report ends; --all-mft under the condition that no chain of blocks has a loop (C87_all_refuted without it)"
  },
  {
   "property": "C88",
   "status": "proved",
   "theorems": [
    "C88_one_wish",
    "C88_usage",
    "C88_mount",
    "C88_shown",
    "C88_mount_two",
    "C88_list",
    "C88_no_volume_refuted"
   ],
   "note": "main program of vsc_mount; the FUSE library is not modelled"
  },
  {
   "property": "C89",
   "status": "proved",
   "theorems": [
    "C89_type",
    "C89_type_unique",
    "C89_attributes",
    "C89_known_bits"
   ],
   "note": "texts of codes"
  }
 ]
}