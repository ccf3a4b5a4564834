# Formal model of dfir_ntfs: design

Code under study: msuhanov/dfir_ntfs at the pinned commit in /repo (read as
text, never run). Prover: Coq 8.16.1, logical root `Verif`, sources in
`rocq/theories`. Properties are listed in `properties.jsonl`, their theorems
in `MANIFEST.json`, the mutation tests in `seeded/LOG.jsonl`.

## 1. Modelling conventions

* Python `int` is `Z`. A byte string (`bytes`, `bytearray`) is `list Z`;
  `bytes_ok` says every element is in 0..255. Slices `buf[a:b]` are `slice`
  (structural on the list, counting down in `Z`, so that it computes with
  64-bit offsets taken from the data).
* `struct.unpack('<H' ...)` is `unp`/`u8`/`u16`/`u32`/`u64`, which raise
  `StructError` when the length is not exactly the width; `fld w buf off` is
  the arithmetic value of a field where the length is known. Writers on the
  specification side use `le_bytes`.
* A function that may raise returns `result A := Ok a | Err e`, `e` naming the
  Python exception class. A generator returns the list of items yielded before
  it stopped and how it stopped (`gen A := list A * status`).
* `while` loops are structural recursions over fuel; running out of fuel is
  the distinguished exception `OutOfFuel`, and each such loop comes with a
  theorem that the fuel supplied is enough for *every* input, which is the
  termination theorem for the Python loop. Loops which really can run forever
  have the fuel as a parameter and a `_refuted` theorem saying that no fuel is
  enough for a concrete input.
* A file object is the list of its bytes plus the position when the position
  is observable. A read is `read_at data off len`. Reads of the volume are
  assumed to be served by an ordinary file (no I/O errors, no concurrent
  change). `seek` beyond 2^63 raises `OverflowError` where the offset comes
  from the data.
* Text: UTF-16LE decoding with `errors='replace'` is modelled exactly as a
  function to code points; `str.lower()` is an arbitrary function passed as
  a parameter where it matters; decoding with code pages is an arbitrary
  function; nothing else about Unicode is assumed.
* The iteration order of a Python `set` is an arbitrary function `ord` passed
  as a parameter; theorems hold for every order.
* Model files contain definitions only, each citing the file and lines of
  /repo. `*Spec.v` files contain the independent specifications (grammars,
  relations, writers), `*Proofs.v` the proofs, `Properties_*.v` the property
  theorems, each with an `Example` showing that its hypotheses are met, and
  `Print Assumptions`.
* A property that is false of the code is not weakened silently: a theorem
  with the suffix `_refuted` proves the negation with a concrete input, and
  what holds instead is stated and proved beside it (section 6).

## 2. Plan per property

| Property | What is modelled | How it is proved |
|---|---|---|
| C01 | Encode/Decode reference | shift/mask arithmetic |
| C02, C03 | DecodeMappingPairs byte by byte | inductive grammar of encodings; decoder = grammar in both directions; encoder round trip; C03 by witness (refuted) |
| C04, C05 | FileRecordSegment constructor | loop invariant of the fix-up loop; protect/open round trip |
| C06 | FileRecordSegment.attributes | fuel bound by record length; all yields in bounds |
| C07, C08 | FileRecord.attributes(merge), get_data_runs | invariants of the merge and the contiguity scan, stable sort |
| C09, C10 | FragmentedFile | simulation with the virtual content; C10 refuted by witness, exact bound proved instead |
| C11, C12 | MasterFileTableParser first pass, lookups | invariant over slots |
| C13 | build_full_paths | visited set bounded by the number of slots |
| C14, C15 | get_file_record_by_path | soundness invariant; C15 refuted by a hard-link witness, proved (round trip with C13) when no record has a name twice |
| C16, C17 | DecodeFiletime with the double rounding done in integers | monotonicity of rounding; C17 refuted by witness |
| C18 | StandardInformationPartial | slices |
| C19-C22, C56, C57 | attribute values: lists, INDX, index entries, EA, WSL, names, object IDs | fuel bounds, serializer round trips |
| C23 | BootSector | case analysis |
| C24-C26 | USN | layout induction for completeness; table of codes |
| C27-C31, C61 | log pages, LSN arithmetic, record collection | invariants of collect_lsns for any set order |
| C32, C53, C55, C62, C63 | log parser: file objects, tail/fast pages, client data, restart tables | state machine of the file objects; round trips |
| C33-C40, C58 | FAT | chain invariant (no duplicates bounds fuel), directory entry scanner invariant, walk bounded by ancestors; layout of the areas and rule for entering (deleted) directories stated separately in FatLayoutSpec |
| C33, C34, C37-C43, C54, C59, C60 | exFAT | rotate-add checksum injectivity, same invariants as FAT |
| C44-C47 | ShadowCopy | pointwise specification of the translation; termination refuted by a self-pointing block |
| C48-C50 | PartitionTable | visited set; CRC-32 step injectivity |
| C51 | MoveTable | slots of sectors |
| C52, C65 | SlackSpace.carve, MetadataCarver | fuel bound, iff characterisation of each yield |
| C66 | FileSystemParser.__init__, value_decoded of nonresident records | iff with an inductive description of the growing table, induction over the written pieces |
| C67 | field accessors of NTFS structures | round trip through a description of the layout |
| C68 | BPB and exFAT boot region accessors, dirty flags, cluster count warning | round trip; bit lemmas |
| C69 | move table and shadow block accessors | round trip; counterexample |
| C70-C73 | reports of ntfs_parser on file records, journals and index buffers | relational description of each row; forward simulation of the writer loops; completeness for undamaged input; counterexamples |
| C74 | hexdump of ntfs_parser | a parser of dumps inverts it |
| C75 | report on memory images | from C65 |
| C76 | report of ntfs_parser on logs | relational description of each block; the items of C62; forward simulation, completeness; counterexamples |
| C77 | texts of operations, codes, identifiers and attributes | decoders of the texts |
| C78 | text of the report files (csv quoting, line ends, encoding) | grammar of csv as an inductive relation; parser uniqueness; counterexample for the log report |
| C79 | text of timestamps | independent calendar relation (day by day), closed form of the civil date, decimal texts |
| C80, C81 | report of fat_parser on FAT and exFAT volumes | relational description of each row over the items of C36/C39/C54; boot sector exclusion |
| C82 | report on move tables, code pages of names | relational description of the blocks and of the two code pages; injectivity of the texts |
| C83 | FUSE requests of vsc_mount, list of shadow copies | relation of right answers; invariant that only the position changes; C45 for reads; induction on the requests |
| C84 | process_all_mft | selections do not depend on the state before (C84_fresh); induction on the catalog; C66 and C45 for the two volumes |
| C85 | encoding of the output files | invariant "only scalar values" through all readers and reports; UTF-8 table of the Unicode standard as a relation, unique decoding |
| C86 | main programs of ntfs_parser and fat_parser | machine with named files; jobs asked for by a command line as a relation; frame property |
| C87 | all reports | every loop of the model has a bound that is never reached (`OutOfFuel` is never raised); measures: bytes left, table entries not yet visited, clusters left, blocks of the volume |
| C88 | main program of vsc_mount | forms of the command line as a relation (`wants`); equivalences for each outcome; no seek to a negative position from an offset that is not negative |
| C89 | texts of attribute types and of FAT and exFAT file attributes | tables restated in the spec by position and by bit number; uniqueness from the tables, equality of texts reduced to the six low bits |

The completeness theorems have conditions on whole tables, logs and volumes.
That these conditions can be met is shown by applying the theorems to concrete
images: `Examples_Report.v` (C70, C72, C73), `Examples_LogReport.v` (C76),
`Examples_Log.v` (C29, C31), `Examples_Dirs.v` (C36, C54), `Examples_Volume.v`
(C66), `Properties_PathFound.v` (C15).  `WitnessMft.v` has the boolean checks
used for it.  Doing this showed that two conditions could not be met as first
written (`readable` of C83 and `one_pass` of C31); both were corrected.

## 3. Trusted base

* The kernel of Coq 8.16.1, including its virtual machine: concrete examples
  and witnesses are checked by `vm_compute`. `coqchk`, which does not use the
  virtual machine, accepts all files as well.
* `Print Assumptions` is run after every property theorem, 475 times in the
  `Properties_*.v` files. For every one of them it prints
  "Closed under the global context": no axiom of the standard library and
  none of ours. The development has no `Axiom`, `Parameter`, `Admitted`,
  functor, module type, plugin or disabled check. (`coqchk -o` lists the
  module parameters of the standard library's `ssrunder.v`, which is loaded
  with `lia`'s files; no theorem depends on them.)
* That the definitions in the model files say what the Python code does. Each
  one cites its lines so that they can be compared side by side; the table of
  section 5 lists the lines, and what is not modelled.
* That the statements say what the properties say; the specifications they
  use are in `*Spec.v`, and the mutation tests of `seeded/LOG.jsonl` show which
  wrong programs they exclude.

## 4. Theorems per property and their assumptions

Each is closed under the global context (`Print Assumptions` in the file).

| File | Theorems |
|---|---|
| `Properties_AllMft.v` | C84_fresh, C84_table, C84_report, C84_complete, C84_failure |
| `Properties_Attributes.v` | C18_fields, C18_never_raises, C19_any_bytes, C19_total, C19_round_trip, C19_names, C20_accepted, C20_round_trip, C20_overlap_refuted, C21_entries, C21_deterministic, C21_positions, C21_round_trip, C56_buffer_size, C56_buffers, C22_any_bytes, C22_total, C22_round_trip, C22_linux_any_bytes, C22_linux_total, C22_linux_round_trip, C22_linux_short_refuted, C57_unix_time, C57_nearest, C57_metadata |
| `Properties_Boot.v` | C23_accepted, C23_sector_size, C23_cluster_size, C23_record_sizes, C23_locations, C23_errors, C23_boot_code, C23_power_of_two_refuted |
| `Properties_Carve.v` | C52_carve, C52_unique, C52_only_plausible, C52_complete, C52_type_and_length_refuted, C52_parity_refuted, C65_blocks, C65_carve, C65_guess, C65_only_in_range, C65_page_crossing_refuted |
| `Properties_Ends.v` | C87_mft, C87_usn, C87_indx, C87_log, C87_fat, C87_move, C87_mem, C87_all, C87_ntfs, C87_fat_parser, C87_all_refuted |
| `Properties_ExBasic.v` | C37_exfat_value, C37_exfat_detected, C37_exfat_field, C38_exfat, C38_exfat_round_trip, C43_timezone, C43_round_trip, C42_exact, C42_good, C42_orphan, C42_length, C42_forbidden_refuted, C42_dots_refuted, C42_units_refuted |
| `Properties_ExBoot.v` | C59_exact, C59_errors, C41_detected, C41_ignored, C41_percent, C41_sector_size_refuted, C59_valid_rejected_refuted |
| `Properties_ExDir.v` | C54_sizes, C54_exact, C54_sound, C54_failures, C54_counts, C54_written, C54_corrupted, C54_type_byte_refuted, C54_later_files_lost_refuted |
| `Properties_ExFs.v` | C59_find, C59_volume, C40_exfat_read, C40_exfat_errors, C40_exfat_length, C40_exfat_contiguous_byte, C39_exfat_walk, C39_exfat_fuel, C39_exfat_errors, C39_exfat_tree, C39_exfat_latest, C39_exfat_size_refuted, C39_exfat_bitmap_refuted, C39_exfat_time_refuted |
| `Properties_ExTable.v` | C33_exfat_open, C34_exfat_entry, C34_exfat_out_of_range, C34_exfat_round_trip, C33_exfat_chain_iff, C33_exfat_reserved, C33_exfat_terminates, C33_exfat_distinct_and_valid, C33_exfat_successors, C33_exfat_end, C33_exfat_written_chain, C60_state, C60_round_trip, C60_total, C60_short_refuted |
| `Properties_Fat.v` | C34_entry_bits, C34_out_of_range, C34_round_trip, C34_entries_independent, C33_chain_iff, C33_terminates, C33_distinct_and_valid, C33_successors, C33_end, C33_written_chain, C35_fat32_iff, C35_fat16_iff, C35_width, C35_exclusive, C35_refusals, C35_count_alone_refuted, C35_own_exception_refuted, C37_short_checksum_formula, C37_short_name_byte, C38_date, C38_time, C38_date_injective, C38_nt_byte, C58_safe, C58_injective, C58_round_trip, C58_long_names_refuted |
| `Properties_FatDir.v` | C36_sizes, C36_entries, C36_attached, C36_parts, C36_complete, C36_written, C36_orphan_without_name_refuted |
| `Properties_FatFs.v` | C40_fat_read, C40_fat_errors, C40_fat_length, C40_fat_byte, C39_fat_walk, C39_fat_fuel, C39_fat_errors, C39_fat_tree, C39_later_files_lost_refuted |
| `Properties_FatLayout.v` | C34_allocated, C40_fat_layout, C40_fat_areas, C39_fat_root, C39_fat_enter, C39_fat_orphan, C39_exfat_enter, C39_exfat_orphan, C68_fsinfo, C68_fsinfo_only |
| `Properties_FatReport.v` | C80_fat, C80_exfat, C80_columns, C80_file, C80_row_exact, C80_exfat_row_exact, C81_not_fat, C81_exfat, C81_backup_refuted |
| `Properties_Fields.v` | C67_file_record, C67_standard_information, C67_standard_information_long, C67_extra_flags, C67_file_name, C67_volume, C67_index_root, C67_index_buffer, C67_index_entry, C67_reparse_point, C67_object_id, C67_object_id_short, C67_boot_sector, C69_move_header, C69_move_footer, C69_move_entry, C69_move_guid_times, C69_shadow_block, C69_start_block, C69_items, C69_alignment_refuted, C68_bpb, C68_extended, C68_second_element, C68_unusual, C68_exfat |
| `Properties_FileRecord.v` | C07_data_runs, C07_each_record_in_place, C07_enumeration_error_escapes, C07_data_size, C08_merge, C08_merge_error, C08_agrees_with_data_runs, C08_part_without_start_dropped_refuted |
| `Properties_Filetime.v` | C16_filetime_range, C16_guid_time_range, C16_order, C16_earlier_decodes, C16_error, C16_within_one_microsecond, C16_exact_before_1886, C17_exact_microseconds_refuted, C17_odd_microseconds_lost_refuted |
| `Properties_FragmentedFile.v` | C09_history, C09_read_all, C09_errors, C10_read_past_end_refuted, C10_bounds_partial |
| `Properties_Frs.v` | C04_open_restores, C04_torn_rejected, C04_protect_round_trip, C04_overlapping_array_refuted, C05_accepted_iff, C05_accepted_protected_iff, C05_only_file_record_exceptions, C06_attributes, C06_records_increasing_inside, C06_record_inside |
| `Properties_Log.v` | C27_offset_of_lsn, C27_lsn_round_trip, C27_offset_round_trip, C27_out_of_range_refuted, C28_accepted_iff, C28_errors, C28_torn_rejected, C28_round_trip, C28_checksum_detects, C28_identity_refuted, C61_open_iff, C61_errors, C61_one_page_enough, C29_sorted_and_valid, C29_complete, C29_terminates, C29_unaddressable_refuted, C30_data, C30_length, C30_errors, C31_next_sound, C31_next_found, C31_forward_complete, C31_wrap_refuted, C31_long_wrap_refuted |
| `Properties_LogParse.v` | C32_file_unchanged, C32_after_parse, C32_unprepared_refuted, C53_tail, C53_fast, C53_fast_newer, C53_fast_last_wins, C53_stale_tail_refuted, C53_home_unchecked_refuted, C55_record_number, C55_driver_record, C55_offset_in_target, C55_record_parts, C62_items, C62_every_record_once, C62_stops_only_when_bad, C62_complete_checkpoint, C62_open_checkpoint, C62_mixed_checkpoints_refuted, C62_later_records_lost_refuted, C62_no_restart_area_refuted, C63_find_name, C63_round_trip, C63_target |
| `Properties_LogReport.v` | C76_log_report, C76_complete, C76_number_unique, C76_deleted_known, C76_short_entry_refuted, C76_short_value_refuted, C76_bad_name_refuted, C77_operation, C77_operation_unique, C77_codes, C77_codes_unique, C77_guid, C77_guid_unique, C77_attributes, C77_attributes_refuted, C77_attributes_named |
| `Properties_LogText.v` | C78_log |
| `Properties_Main.v` | C86_ntfs_report, C86_fat_report, C86_ntfs_usage, C86_fat_usage, C86_only_output, C86_overwritten, C86_evidence_refuted |
| `Properties_Mft.v` | C11_open, C11_file_records, C11_children, C12_lookup, C12_lookup_child, C12_lookup_error, C12_unique, C12_cut_slot_refuted, C13_paths, C13_errors, C13_shape, C13_one_chain, C13_nameless_parent_refuted, C14_by_path, C14_root, C14_relative, C14_live_parents_refuted, C15_clean_lookup_partial, C15_hard_link_refuted, C15_damaged_record_refuted |
| `Properties_Mount.v` | C83_mounted, C83_mounted_two, C83_answers, C83_memoryless, C83_resumed, C83_read, C83_copy, C83_consistent, C83_list, C83_list_ends, C83_exception_refuted |
| `Properties_MountMain.v` | C88_one_wish, C88_usage, C88_mount, C88_shown, C88_mount_two, C88_list, C88_no_volume_refuted |
| `Properties_MoveReport.v` | C82_report, C82_sector_size, C82_name, C82_name_exact, C82_exact |
| `Properties_MoveTable.v` | C51_entries, C51_unknown_type, C51_total, C51_slots, C51_timestamp, C51_machine_id, C51_header, C51_later_entries_lost_refuted |
| `Properties_Names.v` | C89_type, C89_type_unique, C89_attributes, C89_known_bits |
| `Properties_Partition.v` | C49_accepted_iff_valid, C49_refusals, C49_fallback, C49_four_bytes, C49_single_byte, C49_array_change, C49_size_byte_refuted, C50_gpt, C50_name_unique, C50_mbr, C50_mbr_short, C50_mbr_signature, C48_ebr, C48_unique, C48_terminates, C48_later_entry_hides_refuted, C48_zero_start |
| `Properties_PathFound.v` | C15_listed_found, C15_round_trip |
| `Properties_Refs.v` | C01_decode_of_encode, C01_encode_of_decode, C01_no_collision, C02_decode_iff_grammar, C02_only_mapping_pairs_exception, C02_round_trip, C02_lengths_positive, C03_negative_lcn_refuted |
| `Properties_Report.v` | C70_mft_report, C70_complete, C70_damaged_record_refuted, C70_omitted_refuted, C70_ads_refuted, C71_columns, C72_usn_report, C72_complete, C72_bad_name_refuted, C73_indx_report, C73_complete, C73_real_parent_refuted, C74_dump, C74_injective, C75_memory_report |
| `Properties_ReportText.v` | C78_csv, C78_injective, C78_numbers, C78_bytes, C78_mft_file, C78_usn_file, C78_indx_file, C78_mem_file, C78_log_refuted, C79_days, C79_epochs, C79_text, C79_str, C79_decoded, C79_unix, C79_memory |
| `Properties_Shadow.v` | C44_translate, C44_total, C44_check_bitmap, C44_overlay_dropped_refuted, C45_history, C45_not_selected, C45_clipped_refuted, C45_lost_data_refuted, C45_failed_select_refuted, C46_selected, C46_terminates, C46_loop, C46_loop_refuted, C47_open_one, C47_open_one_ends, C47_open_two_ends, C47_loop_refuted |
| `Properties_ShadowBlocks.v` | C47_start_block, C47_invalid_volume, C47_first_control_block, C47_block, C47_control_block |
| `Properties_Texts.v` | C85_encode, C85_encodable, C85_mft, C85_usn, C85_log, C85_indx, C85_all, C85_mem, C85_move, C85_fat |
| `Properties_Usn.v` | C24_journal, C24_bytes, C24_names, C25_walk, C25_total, C25_deterministic, C25_getters, C24_long_record_lost_refuted, C26_reasons, C26_sources, C26_no_bit_lost, C26_injective |
| `Properties_Volume.v` | C66_located, C66_file, C66_pieces, C66_content, C66_errors, C66_one_segment_refuted |

## 5. What is modelled

Lines of /repo cited by the definitions of each model file (generated from
the comments).

| Source | Model | Lines |
|---|---|---|
| `Attributes.py` | `Attributes.v` | 175-218, 243-265, 312-338, 357-477, 494-516, 538-584, 637-652, 660-726, 756-780, 872-936, 959-1015, 1025-1064 |
| `Attributes.py` | `FileRecord.v` | 19-21 |
| `Attributes.py` | `Filetime.v` | 153-173 |
| `Attributes.py` | `Getters.v` | 620-626 |
| `Attributes.py` | `LogReport.v` | 86-108, 143-151, 392-447, 497-504 |
| `Attributes.py` | `Mft.v` | 14, 18, 456-477, 884-889 |
| `Attributes.py` | `Names.v` | 12-26, 1089-1105 |
| `Attributes.py` | `Report.v` | 12-15, 20, 25, 83 |
| `Attributes.py` | `Usa.v` | 138, 199-216 |
| `Attributes.py` | `Volume.v` | 13 |
| `BootSector.py` | `BootSector.v` | 23-64, 93-119, 126-129 |
| `FAT.py` | `ClusterRead.v` | 1520-1553 |
| `FAT.py` | `DirWalk.v` | 1569-1650, 1676-1692 |
| `FAT.py` | `FatBasic.v` | 82-88, 100-109, 222-479 |
| `FAT.py` | `FatBoot.v` | 126-180, 518-543, 555-638, 655-662, 669-718, 780-786, 816-857, 862-895, 1491-1498 |
| `FAT.py` | `FatDir.v` | 1102-1104, 1146-1448 |
| `FAT.py` | `FatFs.v` | 1106-1138, 1478-1692 |
| `FAT.py` | `FatReport.v` | 481-506 |
| `FAT.py` | `FatTable.v` | 911-915, 921-989, 1041-1092 |
| `FAT.py` | `Getters.v` | 182-220, 720-778, 788-814, 897-900, 1015-1039 |
| `FAT.py` | `Names.v` | 48-53, 64-71, 90-98 |
| `LogFile.py` | `LogFile.v` | 34-35, 617-1319, 1402-1426, 1441-1548 |
| `LogFile.py` | `LogPage.v` | 12, 18, 134-612 |
| `LogFile.py` | `LogParse.v` | 650-652, 714-716, 1168-1252, 1321-1397 |
| `LogFile.py` | `LogRecord.v` | 66, 81-87, 1553-1960 |
| `LogFile.py` | `LogReport.v` | 38-75, 87-132, 1458-1506 |
| `LogFile.py` | `Usa.v` | 165-182 |
| `MFT.py` | `Carve.v` | 43, 609-612, 619-737, 1589, 1607-1766 |
| `MFT.py` | `FileRecord.v` | 485-563, 741-885 |
| `MFT.py` | `FragmentedFile.v` | 1369-1484 |
| `MFT.py` | `Frs.v` | 10-13, 176-459, 485-598 |
| `MFT.py` | `MappingPairs.v` | 77-88, 110-174 |
| `MFT.py` | `Mft.v` | 48-75, 507-515, 887-905, 915-1364 |
| `MFT.py` | `Names.v` | 90-96 |
| `MFT.py` | `Volume.v` | 565-590, 936-962, 970-1005, 1503-1584 |
| `MoveTable.py` | `Getters.v` | 80-123, 146-149, 197-200, 277-280 |
| `MoveTable.py` | `MoveReport.v` | 30-55 |
| `MoveTable.py` | `MoveTable.v` | 12, 24-30, 63-120, 125-149, 154-282, 304-315, 320-343 |
| `PartitionTable.py` | `PartitionTable.v` | 26, 32-37, 56-219, 233-346 |
| `ShadowCopy.py` | `Getters.v` | 116-149, 194-247, 338-377, 399-451 |
| `ShadowCopy.py` | `Shadow.v` | 11, 55-102, 110-114, 163-192, 219-222, 261-272, 289-315, 320-383, 391-448, 456-470, 485-499, 519-559, 574-609, 642-670, 681-1253, 1281-1417, 1562-1797 |
| `USN.py` | `LogReport.v` | 73-105 |
| `USN.py` | `Usn.v` | 9-414 |
| `WSL.py` | `Wsl.v` | 10-13, 21-67, 73-90 |
| `exFAT.py` | `ClusterRead.v` | 1144-1178 |
| `exFAT.py` | `DirWalk.v` | 1188-1247, 1259-1278 |
| `exFAT.py` | `ExBasic.v` | 73, 118-302, 504-512 |
| `exFAT.py` | `ExBoot.v` | 321-327, 349-598 |
| `exFAT.py` | `ExDir.v` | 698-1016 |
| `exFAT.py` | `ExFs.v` | 296-303, 706-742, 1053-1298 |
| `exFAT.py` | `ExTable.v` | 30-31, 605-686, 1020-1045 |
| `exFAT.py` | `Getters.v` | 329-347 |
| `exFAT.py` | `Names.v` | 34-36, 55-67, 108-116 |
| `fat_parser` | `Main.v` | 60-125 |
| `fat_parser` | `ReportText.v` | 31-38, 72 |
| `ntfs_parser` | `LogReport.v` | 331-727 |
| `ntfs_parser` | `Main.v` | 732-735, 957-1039 |
| `ntfs_parser` | `MoveReport.v` | 893-943 |
| `ntfs_parser` | `Report.v` | 10-14, 64-71 |
| `ntfs_parser` | `ReportText.v` | 10-14, 719-726, 975 |
| `vsc_mount` | `Mount.v` | 13-245, 281, 325, 335-359 |

### Not modelled

* Printing: every `__str__`, `print_information` and the text of exception
  messages (only the class is kept). The `Resolve...` functions are modelled
  (C26, C77, C89).
* The command line scripts: of `ntfs_parser` the reports `process_mft`,
  `process_usn`, `process_log`, `process_indx`, `process_mem`,
  `process_movetable`, `process_all_mft` and `hexdump` are modelled (C70-C76,
  C82, C84); the report of `fat_parser` is modelled (C80, C81), as are the main
  programs of both (C86; `int` of an argument is an arbitrary function, what is
  printed is left out); the request handlers, the list and the main program of `vsc_mount` are
  modelled (C83, C88), but not the FUSE library. The csv
  module is modelled by its documented quoting rule for the
  excel dialect, `strftime` by its documented output for the formats used.
* `uuid.UUID` objects: the raw 16 bytes are kept. `datetime` objects: the
  instant is kept as microseconds or as the civil fields.
* The code page decoding of FAT short names: an arbitrary function.
* Limits of the machine: `MemoryError`, the recursion limit of Python, and
  running time beyond termination.
* I/O errors of the underlying file and concurrent writers.

## 6. Findings: where the code does not do what a user would expect

Each has a theorem with a concrete input (suffix `_refuted`).

| Theorem | Finding |
|---|---|
| C03_negative_lcn | mapping pairs may place a run before the start of the volume |
| C04_overlapping_array, C20_overlap | an update sequence array that reaches the tail of the first sector is accepted, and that tail is then not restored |
| C08_part_without_start_dropped | parts of a stream whose first record is missing are dropped |
| C10_read_past_end | a sized read near the end of a fragmented file returns slack bytes |
| C12_cut_slot | a cut last slot is returned by number but not enumerated |
| C13_nameless_parent | a parent directory without a name makes path building raise |
| C14_live_parents | the parents on a path need not be in use, nor directories |
| C15_hard_link, C15_damaged_record | the second hard link cannot be looked up; one damaged unrelated record makes every lookup fail |
| C17 (two) | odd microseconds are lost to the rounding of a double between 1886 and 2171 |
| C22_linux_short | a Linux attribute shorter than nine bytes is dropped with all after it |
| C23_power_of_two | 1536-byte sectors and 3-sector clusters are accepted |
| C24_long_record_lost | a USN record longer than the window is never found |
| C27_out_of_range, C29_unaddressable | with too few offset bits an LSN leads to another place, and collection may fail |
| C28_identity | a block that looks protected is changed when read raw |
| C31_wrap, C31_long_wrap | the forward walk misses records across the wrap of the log |
| C32_unprepared | the writing methods change the source file if it was not prepared as writable |
| C53_stale_tail, C53_home_unchecked | a stale tail page replaces a valid later page; a home position is not checked |
| C62_mixed_checkpoints, C62_later_records_lost, C62_no_restart_area | tables of different checkpoints are mixed; a short record hides later ones; without a restart area nothing is resolved |
| C35_count_alone, C35_own_exception | a FAT32 layout is FAT32 with any (even negative) cluster count; both table sizes zero raise TypeError |
| C36_orphan_without_name | an orphan long entry may have no name |
| C39 (FAT and exFAT, four) | one damaged directory, size, bitmap or time ends the whole walk |
| C41_sector_size | byte 108 of the exFAT boot region is not detected |
| C42 (three) | forbidden characters and dots are accepted in exFAT names; the length is compared with characters, not units |
| C48_later_entry_hides | an extended partition at sector 0 empties the list |
| C49_size_byte | the GPT header size is not protected by the checksum |
| C51_later_entries_lost | a move table entry of an unknown type hides the later ones |
| C52_type_and_length, C52_parity | a carved name may be cut, and attributes at the other parity are not found |
| C54_type_byte, C54_later_files_lost | the type byte of an exFAT set is not protected; an invalid slot hides the later files |
| C58_long_names | a long FAT name may hold a path separator |
| C59_valid_rejected | a valid exFAT boot region that is rejected |
| C60_short | a bitmap shorter than the volume gives IndexError |
| C65_page_crossing | a file control block crossing a page is not found |
| C66_one_segment | a table with two pieces described in one segment is rejected |
| C69_alignment | shadow blocks at offsets that are not multiples of the block size are accepted: the test never fires |
| C70_damaged_record, C70_omitted, C70_ads | one damaged record ends the report; a file in a directory without a name is left out; the list of streams is ambiguous |
| C72_bad_name | a journal record with a bad name hides all later ones |
| C73_real_parent | a stale index entry is shown in the directory of the index although its name has another parent |
| C76_short_entry, C76_short_value, C76_bad_name | one damaged record ends the log report, and the list of deallocated records is not written |
| C77_attributes | file attribute bits without a name are not shown |
| C78_log | a file name holding a block separator forges a block of the log report |
| C81_backup | an exFAT volume with an overwritten first sector and a sound backup makes fat_parser end with TypeError |
| C86_evidence | if the output path names an input file, that file is emptied before it is read |
| C87_all | a block of the shadow copy catalog that is followed by itself keeps --all-mft in a loop for ever |
| C88_no_volume | vsc_mount with a negative offset reports that the volume image does not exist |
| C44_overlay_dropped | the overlay entries of a forwarder's target are ignored |
| C83 | a damaged store raises an exception in a read of the mounted file, which nothing catches |
| C45 (three) | sized reads pass the end of the volume; a failed read moves the position; a failed selection leaves a mixed state |
| C46_loop, C47_loop | a bitmap or control block that links to itself makes the parser loop forever |

Further observations proved inside other theorems: attribute list names may be
cut by the end of the value (C19); the index entry walk may end with
`struct.error` (C21); `struct.error` may escape the exFAT constructor; exFAT
entries 0xFFFFFFF8..0xFFFFFFFE count as out of range; the result of merging
restart areas depends on the set order; when two control block items have the
same position the first of the last control block wins.
