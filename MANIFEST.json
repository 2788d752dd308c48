{
 "claims": [
  {
   "property": "C01",
   "status": "proved",
   "theorems": [
    "C01_open",
    "C01_geometry_unique"
   ],
   "note": "Exactly the boot sectors that describe a geometry are accepted, with that geometry."
  },
  {
   "property": "C02",
   "status": "proved",
   "theorems": [
    "C02_fixup_restores"
   ],
   "note": ""
  },
  {
   "property": "C03",
   "status": "proved",
   "theorems": [
    "C03_fixup_exact"
   ],
   "note": ""
  },
  {
   "property": "C04",
   "status": "proved",
   "theorems": [
    "C04_fixup_no_panic"
   ],
   "note": "Records of 8 to 65535 bytes, as stated. For records of 64 KiB and more, which Ntfs::new admits, the panic is exhibited by C04_large_record_refuted (a finding, outside the claim)."
  },
  {
   "property": "C05",
   "status": "proved",
   "theorems": [
    "C05_data_runs_decode"
   ],
   "note": ""
  },
  {
   "property": "C06",
   "status": "proved",
   "theorems": [
    "C06_data_runs_end"
   ],
   "note": "Ends, stays ended, errors persist. The comment in the code promises the same error each time: C06_same_error_refuted shows that it may change (a finding, outside the claim)."
  },
  {
   "property": "C07",
   "status": "proved",
   "theorems": [
    "C07_runs_cluster_aligned"
   ],
   "note": ""
  },
  {
   "property": "C08",
   "status": "partial",
   "theorems": [
    "C08_other_clusters_partial",
    "C08_cluster_zero_refuted"
   ],
   "note": "For every extent list: exactly the extents at LCN 0 (or at the LCN of the extent before them) are read as holes, all others are read from their place. The claim for LCN 0 itself is false: C08_cluster_zero_refuted."
  },
  {
   "property": "C09",
   "status": "proved",
   "theorems": [
    "C09_read_returns_content"
   ],
   "note": ""
  },
  {
   "property": "C10",
   "status": "proved",
   "theorems": [
    "C10_seek_exact"
   ],
   "note": ""
  },
  {
   "property": "C11",
   "status": "proved",
   "theorems": [
    "C11_histories_are_a_cursor"
   ],
   "note": ""
  },
  {
   "property": "C12",
   "status": "partial",
   "theorems": [
    "C12_data_position_partial",
    "C12_data_position_refuted"
   ],
   "note": "Missing: positions at an extent end reached by reading, where the code is wrong (C12_data_position_refuted)."
  },
  {
   "property": "C13",
   "status": "partial",
   "theorems": [
    "C13_io_errors_partial",
    "C13_error_consumes_refuted"
   ],
   "note": "Consistency after errors is proved; that a failed read consumes nothing is false (C13_error_consumes_refuted)."
  },
  {
   "property": "C14",
   "status": "partial",
   "theorems": [
    "C14_interrupted_partial",
    "C14_interrupted_refuted"
   ],
   "note": "Interruptions before the first transferred byte. The general claim is false (C14_interrupted_refuted)."
  },
  {
   "property": "C15",
   "status": "partial",
   "theorems": [
    "C15_present_bytes_partial",
    "C15_truncated_refuted"
   ],
   "note": "Histories that stay before the first missing byte see exactly the content. Reads that reach the missing part can deliver wrong bytes: C15_truncated_refuted."
  },
  {
   "property": "C16",
   "status": "proved",
   "theorems": [
    "C16_resident_is_a_cursor"
   ],
   "note": ""
  },
  {
   "property": "C17",
   "status": "proved",
   "theorems": [
    "C17_read_exact",
    "C17_read_exact_resident"
   ],
   "note": ""
  },
  {
   "property": "C38",
   "status": "proved",
   "theorems": [
    "C38_interleaving"
   ],
   "note": ""
  },
  {
   "property": "C39",
   "status": "proved",
   "theorems": [
    "C39_lcn_add",
    "C39_lcn_position",
    "C39_vcn_offset",
    "C39_position_add"
   ],
   "note": ""
  },
  {
   "property": "C18",
   "status": "proved",
   "theorems": [
    "C18_raw_iteration"
   ],
   "note": ""
  },
  {
   "property": "C19",
   "status": "proved",
   "theorems": [
    "C19_names",
    "C19_resident_values",
    "C19_inside"
   ],
   "note": ""
  },
  {
   "property": "C20",
   "status": "partial",
   "theorems": [
    "C20_accessors_partial",
    "C20_short_attribute_refuted"
   ],
   "note": "Attributes whose own header fits into the record. C20_short_attribute_refuted: an attribute of 16 bytes at the end of the record makes value() and value_length() panic."
  },
  {
   "property": "C21",
   "status": "proved",
   "theorems": [
    "C21_lookup_first_match",
    "C21_cases_exclusive"
   ],
   "note": ""
  },
  {
   "property": "C23",
   "status": "proved",
   "theorems": [
    "C23_file_record",
    "C23_stored_unique"
   ],
   "note": ""
  },
  {
   "property": "C24",
   "status": "partial",
   "theorems": [
    "C24_record_in_one_extent_partial",
    "C24_straddling_refuted"
   ],
   "note": "Records inside one MFT extent. C24_straddling_refuted: straddling records are read wrongly."
  },
  {
   "property": "C44",
   "status": "partial",
   "theorems": [
    "C44_resident_position_partial",
    "C44_resident_position_refuted"
   ],
   "note": "The reported position lacks the value offset (C44_resident_position_refuted)."
  },
  {
   "property": "C25",
   "status": "proved",
   "theorems": [
    "C25_file_reference",
    "C25_determines"
   ],
   "note": ""
  },
  {
   "property": "C31",
   "status": "proved",
   "theorems": [
    "C31_lexicographic",
    "C31_total_preorder",
    "C31_needs_table"
   ],
   "note": ""
  },
  {
   "property": "C33",
   "status": "partial",
   "theorems": [
    "C33_round_trip",
    "C33_from_instant_partial",
    "C33_monotone",
    "C33_before_1601_refuted",
    "C33_truncation_refuted"
   ],
   "note": "Missing: the 99 ns before 1601, which are accepted (C33_before_1601_refuted); truncation before 1970 is upwards (C33_truncation_refuted)."
  },
  {
   "property": "C34",
   "status": "partial",
   "theorems": [
    "C34_system_time_partial",
    "C34_overflow_refuted"
   ],
   "note": "Times whose count exceeds 64 bits panic (C34_overflow_refuted)."
  },
  {
   "property": "C41",
   "status": "partial",
   "theorems": [
    "C41_determines",
    "C41_length",
    "C41_canonical_partial",
    "C41_padding_refuted"
   ],
   "note": "The text is 36 characters and determines the GUID; canonical only without leading zeros in a component (C41_padding_refuted: spaces instead of zeros)."
  },
  {
   "property": "C42",
   "status": "partial",
   "theorems": [
    "C42_seek_and_read_partial",
    "C42_aligned",
    "C42_last_sector_refuted",
    "C42_sequential_refuted"
   ],
   "note": "Holds when every read follows a seek and a whole sector follows. C42_sequential_refuted, C42_last_sector_refuted."
  },
  {
   "property": "C35",
   "status": "proved",
   "theorems": [
    "C35_std_info_bytes",
    "C35_std_info_attribute",
    "C35_std_info_resident",
    "C35_file_name_bytes",
    "C35_file_name_attribute",
    "C35_file_name_resident",
    "C35_vol_info_bytes",
    "C35_vol_info_attribute",
    "C35_vol_info_resident",
    "C35_vol_name_bytes",
    "C35_vol_name_attribute",
    "C35_vol_name_resident",
    "C35_object_id_bytes",
    "C35_object_id_attribute",
    "C35_object_id_resident"
   ],
   "note": ""
  },
  {
   "property": "C45",
   "status": "proved",
   "theorems": [
    "C45_info",
    "C45_volume_info",
    "C45_volume_name",
    "C45_unreadable"
   ],
   "note": "For records whose attributes have at least 22 bytes up to the end of the record; the others panic (C20)."
  },
  {
   "property": "C22",
   "status": "proved",
   "theorems": [
    "C22_iteration",
    "C22_to_attribute",
    "C22_find",
    "C22_data",
    "C22_name",
    "C22_cases_exclusive"
   ],
   "note": "name(): for resident $FILE_NAME attributes (the only ones NTFS writes)."
  },
  {
   "property": "C32",
   "status": "proved",
   "theorems": [
    "C32_load",
    "C32_no_data",
    "C32_always_complete"
   ],
   "note": "C32_load for a $UpCase record without attribute list; C32_always_complete for every volume and device."
  },
  {
   "property": "C46",
   "status": "proved",
   "theorems": [
    "C46_resident",
    "C46_nonresident",
    "C46_attribute_list",
    "C46_attribute_list_new"
   ],
   "note": ""
  },
  {
   "property": "C26",
   "status": "partial",
   "theorems": [
    "C26_root_entries",
    "C26_record_entries",
    "C26_node_partial",
    "C26_consecutive",
    "C26_ends_refuted"
   ],
   "note": "For every node content: what is returned, in bounds, consecutive, nothing behind LAST, fused. That it ends (and entries() does not panic) is false for malformed nodes: C26_ends_refuted."
  },
  {
   "property": "C27",
   "status": "proved",
   "theorems": [
    "C27_directory_listing",
    "C27_listing_unique"
   ],
   "note": "Directories without attribute list on a device without faults (short reads allowed)."
  },
  {
   "property": "C28",
   "status": "proved",
   "theorems": [
    "C28_find",
    "C28_file_names",
    "C28_sound_always"
   ],
   "note": "Directories without attribute list on a device without faults; C28_sound_always for every index and device."
  },
  {
   "property": "C29",
   "status": "partial",
   "theorems": [
    "C29_acyclic_partial",
    "C29_listed_partial",
    "C29_cycle_refuted"
   ],
   "note": "For arbitrary nodes and records without reference cycles, also for directories with an attribute list (C29_listed_partial). False with a cycle: C29_cycle_refuted."
  },
  {
   "property": "C30",
   "status": "partial",
   "theorems": [
    "C30_open_partial",
    "C30_iterate_partial",
    "C30_listed_partial",
    "C30_no_panic_refuted"
   ],
   "note": "Also for directories with an attribute list (C30_listed_partial). Outside the cases of C30_no_panic_refuted: $INDEX_ROOT or record entries that end before they start, entries shorter than their header, sizes near 2^32."
  },
  {
   "property": "C40",
   "status": "proved",
   "theorems": [
    "C40_record_from_vcn",
    "C40_record_position"
   ],
   "note": "Record sizes 36..65535; update sequence array clear of the block ends."
  },
  {
   "property": "C47",
   "status": "proved",
   "theorems": [
    "C47_file_record",
    "C47_attribute",
    "C47_attribute_position",
    "C47_index_entry",
    "C47_entry_to_file",
    "C47_index_nodes"
   ],
   "note": ""
  },
  {
   "property": "C48",
   "status": "proved",
   "theorems": [
    "C48_read_exact"
   ],
   "note": ""
  },
  {
   "property": "C36",
   "status": "partial",
   "theorems": [
    "C36_resident_partial",
    "C36_nonresident_partial",
    "C36_walk_unique",
    "C36_ends_refuted",
    "C36_name_offset_refuted",
    "C36_cut_entry_refuted"
   ],
   "note": "Complete for the returned entries, their fields, names, positions and order, for every resident content and for every non-resident list with valid extents on a device that may read short. Missing: the iterator does not end on a list that goes on with bytes that are no entry - it returns the same error for ever (C36_ends_refuted). The name is taken from offset 26 whatever the entry says (C36_name_offset_refuted). A last entry that is cut off is left out of resident lists only (C36_cut_entry_refuted). Device faults: C60_attribute_list."
  },
  {
   "property": "C37",
   "status": "partial",
   "theorems": [
    "C37_resident_list_partial",
    "C37_nonresident_list_partial",
    "C37_base_part_refuted",
    "C37_instance_refuted"
   ],
   "note": "Complete for attributes whose parts all lie in extension records, carry the same type and instance and have nonempty valid extents, for resident and for non-resident lists, every history of reads and seeks, on a device that may read short (and for the data position after every moving seek). False in general: with the first part in the base record, opening the stream gives an empty continuation (C37_base_part_refuted); with parts of different instances the value ends early (C37_instance_refuted)."
  },
  {
   "property": "C43",
   "status": "proved",
   "theorems": [
    "C43_terminates",
    "C43_no_panic"
   ],
   "note": "Every history on every value, mapping pairs and device schedule ends (C43_terminates), and returns a result or an error whenever no decoded run reaches beyond byte 2^64 (C43_no_panic, the bound of the property). C43_panic_refuted shows that the bound is needed: beyond it the checked addition in NtfsDataRun::read panics."
  },
  {
   "property": "C49",
   "status": "proved",
   "theorems": [
    "C49_index_records",
    "C49_walk_unique"
   ],
   "note": "Record sizes 36..65535; update sequence arrays clear of the block ends; the error is an error value (not a panic) if the sizes in the records can be added in 32 bits. Since the iterator does not move on after an error, it cannot get past an unused (zeroed) record."
  },
  {
   "property": "C50",
   "status": "partial",
   "theorems": [
    "C50_iteration_partial",
    "C50_bad_list",
    "C50_same_instance_refuted",
    "C50_behind_bad_list_refuted"
   ],
   "note": "Complete for every file with one well-formed attribute list (resident or non-resident; entries that cannot be followed included), any record contents around it, on a faultless device with short reads. A list which ends in bytes that are no entry: C50_bad_list (the same error for ever, and the attributes behind the list are lost: C50_behind_bad_list_refuted). Missing: more than one attribute list in a record. Device faults: C60_attributes. What the code takes for a continuation need not be one: C50_same_instance_refuted (the general English claim that no listed attribute is lost is false)."
  },
  {
   "property": "C51",
   "status": "proved",
   "theorems": [
    "C51_find",
    "C51_data",
    "C51_name",
    "C51_find_bad_list",
    "C51_data_bad_list",
    "C51_name_bad_list"
   ],
   "note": "For files with one attribute list as in C50, well-formed or ending in bytes that are no entry; in the sense of the views that the iteration shows (C50)."
  },
  {
   "property": "C52",
   "status": "proved",
   "theorems": [
    "C52_session"
   ],
   "note": "All commands. For volumes whose directory entries lead to files of the volume, and without empty names or backslashes in names (see C53). Files and directories may have an attribute list, with names, streams and indexes in other records and in several parts; the list does not end in bytes that are no entry, and type and instance tell its attributes apart. The upper case table has none. The device is read without SectorReader and BufReader. The layout of the printed lines, the help text and the creation of the output file are not modelled; the input lines are C58 and C59."
  },
  {
   "property": "C53",
   "status": "partial",
   "theorems": [
    "C53_no_panic_partial",
    "C53_up_partial",
    "C53_backslash_refuted"
   ],
   "note": "Complete for volumes without backslashes in file names. False in general: with a directory named \"s\\b\", cd .. given twice removes the root directory from the list and the next command panics (C53_backslash_refuted)."
  },
  {
   "property": "C54",
   "status": "proved",
   "theorems": [
    "C54_numbers"
   ],
   "note": ""
  },
  {
   "property": "C55",
   "status": "proved",
   "theorems": [
    "C55_opening",
    "C55_file",
    "C55_attributes",
    "C55_searches",
    "C55_session"
   ],
   "note": "An operation ends if the outcome of the model is the same for every fuel from some fuel on, and is not OutOfFuel (SpecTotal.v). Panics are allowed here (C20 is about them)."
  },
  {
   "property": "C56",
   "status": "proved",
   "theorems": [
    "C56_attributes",
    "C56_attribute_list"
   ],
   "note": "For attributes that are whole (name, value and extents inside the attribute); files with at most one attribute list. In a session: C52."
  },
  {
   "property": "C57",
   "status": "proved",
   "theorems": [
    "C57_fileinfo",
    "C57_fileinfo_list",
    "C52_session"
   ],
   "note": "fsinfo is the case an_fsinfo of C52_session. The flags are printed as numbers, times as nanoseconds since 1970."
  },
  {
   "property": "C58",
   "status": "proved",
   "theorems": [
    "C58_command",
    "C58_commands"
   ],
   "note": "White space as in Unicode (the standard library function of Rust is modelled by its documentation)."
  },
  {
   "property": "C59",
   "status": "proved",
   "theorems": [
    "C59_text_session"
   ],
   "note": "With the restrictions of C52."
  },
  {
   "property": "C60",
   "status": "proved",
   "theorems": [
    "C60_open",
    "C60_upcase_table",
    "C60_file",
    "C60_attributes",
    "C60_attribute_list",
    "C60_data",
    "C60_name",
    "C60_value",
    "C60_read",
    "C60_read_exact",
    "C60_seek",
    "C60_file_name",
    "C60_standard_information",
    "C60_object_id",
    "C60_directory",
    "C60_entries",
    "C60_find",
    "C60_find_any",
    "C60_entry_file",
    "C60_volume_information",
    "C60_volume_name"
   ],
   "note": "Errors of kind Interrupted are left out, since read_exact of the standard library repeats the call after them and the library then reads wrong bytes (C14_interrupted_refuted)."
  },
  {
   "property": "C61",
   "status": "proved",
   "theorems": [
    "C61_command",
    "C61_session",
    "C61_fsinfo_refuted",
    "C61_fuel",
    "C61_fuel_read",
    "C61_fuel_entries",
    "C61_fuel_find",
    "C61_fuel_attributes"
   ],
   "note": "C61_command is for any image, C61_session for stored volumes (restrictions of C52). The exception for fsinfo is shown to occur by C61_fsinfo_refuted. The C61_fuel theorems say that the bound on loops in the model (fuel) does not influence results."
  },
  {
   "property": "C64",
   "status": "proved",
   "theorems": [
    "C64_open",
    "C64_file",
    "C64_upcase_table",
    "C64_attributes",
    "C64_attribute_list",
    "C64_data",
    "C64_name",
    "C64_value",
    "C64_read",
    "C64_read_exact",
    "C64_seek",
    "C64_file_name",
    "C64_standard_information",
    "C64_object_id",
    "C64_directory",
    "C64_entries",
    "C64_find",
    "C64_find_any",
    "C64_entry_file",
    "C64_volume_information",
    "C64_volume_name",
    "C64_command",
    "C64_history",
    "C64_session",
    "C64_direct_session"
   ],
   "note": "For devices without errors (C60 is about errors). Opening a volume, opening a file and sessions without directory walks are equal outright; for the other calls equality holds whenever both calls end (a call that runs for ever on a hostile volume has no result; C43, C55 show which calls always end)."
  },
  {
   "property": "C63",
   "status": "proved",
   "theorems": [
    "C63_preserves",
    "C63_session",
    "C63_faults",
    "C63_leftover_refuted",
    "C63_retry_refuted"
   ],
   "note": "C63_preserves is for any device, C63_session and C63_faults for stored volumes (restrictions of C52). Names on the host are compared unit by unit and writing to the output file does not fail. The refutations are about stronger claims one might expect: a failed get leaves an empty file and cannot be repeated."
  },
  {
   "property": "C62",
   "status": "partial",
   "theorems": [
    "C62_accessors",
    "C62_entry_parts",
    "C62_runs",
    "C62_values",
    "C62_open_partial",
    "C62_open_refuted",
    "C62_record_partial",
    "C62_file_partial",
    "C62_index_record_partial",
    "C62_sector_refuted",
    "C62_array_refuted",
    "C62_index_record_refuted",
    "C62_attributes_partial",
    "C62_attributes_refuted",
    "C62_data_runs_partial",
    "C62_data_runs_refuted",
    "C62_find_partial",
    "C62_find_refuted",
    "C62_index_root_partial",
    "C62_entry_partial",
    "C62_index_refuted",
    "C62_values_partial",
    "C62_values_refuted",
    "C62_list_type",
    "C62_list_partial",
    "C62_nonresident_list_partial",
    "C62_list_refuted",
    "C62_allocation_partial",
    "C62_allocation_refuted"
   ],
   "note": "Proved without exception for the accessors of attributes, the parts of index entries, the first error of data runs, and standard information, volume names and object IDs. The theorems with suffix _partial list the messages that are false (predicates ..._misleading, exchanged), and each of these is shown to occur by a _refuted theorem. Positions of resident structured values are handed over by the caller (C44). For index allocations, records that start in a hole are covered without the position; errors of values spread over several records are not covered."
  },
  {
   "property": "C65",
   "status": "proved",
   "theorems": [
    "C65_open",
    "C65_file",
    "C65_upcase_table",
    "C65_volume",
    "C65_attributes_raw",
    "C65_attributes",
    "C65_attribute_list",
    "C65_searches",
    "C65_directory",
    "C65_session",
    "C65_keyless_refuted"
   ],
   "note": "The shapes are the predicates tame_volume, tame_index and tame_image of SpecPanic.v. That each shape does cause a panic is shown by C04_large_record_refuted, C20_short_attribute_refuted, C43_panic_refuted, C30_no_panic_refuted, C53_backslash_refuted and C65_keyless_refuted."
  },
  {
   "property": "C66",
   "status": "proved",
   "theorems": [
    "C66_attribute",
    "C66_listed_attribute",
    "C66_length",
    "C66_listed_length",
    "C66_history",
    "C66_programs",
    "C66_read_to_end",
    "C66_read_exact",
    "C66_read_to_end_faults",
    "C66_ends",
    "C66_errors"
   ],
   "note": "The loops read_to_end and read_exact of the standard library are modelled from their documentation; how much read_to_end asks for is a parameter."
  },
  {
   "property": "C67",
   "status": "partial",
   "theorems": [
    "C67_device_errors_partial",
    "C67_damaged_partial",
    "C67_listed_partial",
    "C67_listed_damaged_partial",
    "C67_intact_refuted"
   ],
   "note": "Full claim refuted: the entry that refers to an unreadable node is missing too, although its own node has been read (C67_intact_refuted). With this exception (relation holed of SpecHoled.v) the claim is proved, for directories without attribute list and for those whose attributes are spread over several records. Malformed entries inside of nodes that can be read are not covered: there the same error is returned for ever (C26_ends_refuted)."
  },
  {
   "property": "C68",
   "status": "partial",
   "theorems": [
    "C68_damaged_partial",
    "C68_first_pair",
    "C68_failed_seek_refuted"
   ],
   "note": "Full claim refuted: after a failed seek, also seek(Start(0)) succeeds and the read after it returns other bytes (C68_failed_seek_refuted). Otherwise complete (relation allowed of SpecBroken.v): everything up to the first failed seek, and everything after a later seek to a place before the reported position."
  },
  {
   "property": "C69",
   "status": "partial",
   "theorems": [
    "C69_initialised_partial",
    "C69_uninitialised_refuted"
   ],
   "note": "False in general: the initialised size is ignored (C69_uninitialised_refuted). Proved for values whose clusters hold zeros behind the initialised size."
  },
  {
   "property": "C70",
   "status": "partial",
   "theorems": [
    "C70_reference_partial",
    "C70_stale_refuted",
    "C70_list_reference_partial",
    "C70_list_stale_refuted"
   ],
   "note": "The record with the number of the reference is opened. The sequence number is not compared, neither for index entries (C70_stale_refuted) nor for attribute list entries (C70_list_stale_refuted: the stream in a record of another file is taken for one of the file)."
  },
  {
   "property": "C71",
   "status": "partial",
   "theorems": [
    "C71_used_partial",
    "C71_left_over_refuted"
   ],
   "note": "Proved for records with an end mark in their used part. Without one, iteration goes on behind it (C71_left_over_refuted)."
  },
  {
   "property": "C72",
   "status": "partial",
   "theorems": [
    "C72_attribute",
    "C72_resident_list_partial",
    "C72_nonresident_list_partial",
    "C72_listed_refuted"
   ],
   "note": "Complete for values of one record (C72_attribute): any history on any device with any faults. For values in several records it is false (C72_listed_refuted: an error while the next record is read drops this part and all later ones; reads then report the end). For these it is proved that a seek back, once the device works, puts the value in order, after any history on any device."
  },
  {
   "property": "C73",
   "status": "proved",
   "theorems": [
    "C73_find",
    "C73_file_names",
    "C73_listed_find",
    "C73_listed_file_names"
   ],
   "note": "The first two for directories without attribute list, as C28, the other two for directories with one, as C74 (there the lookup may come at any time after opening, and the damaged index needs a nonempty allocation). The way is fixed by the undamaged index and the question, before anything is said about the damaged one. arrays_clear and sizes_small (no update sequence array in odd places; see C30) are needed for damaged nodes on the way only."
  },
  {
   "property": "C74",
   "status": "proved",
   "theorems": [
    "C74_listing",
    "C74_find",
    "C74_file_names",
    "C74_base_part_refuted"
   ],
   "note": "For $INDEX_ALLOCATION stored entirely in the own record, or entirely in other records: a value whose first part is in the own record is not joined with the parts that follow (finding 8): C74_base_part_refuted. Device without faults; short reads are allowed."
  },
  {
   "property": "C75",
   "status": "partial",
   "theorems": [
    "C75_any_program",
    "C75_session",
    "C75_stored",
    "C75_volume",
    "C75_attributes",
    "C75_values",
    "C75_indexes",
    "C75_same_partial",
    "C75_near_the_end",
    "C75_fields",
    "C75_large_field",
    "C75_access_points",
    "C75_open",
    "C75_small_volume_refuted"
   ],
   "note": "The bytes are right for all programs and all devices. That there are no errors is false in the last 12 KiB of the partition (C75_near_the_end, C75_small_volume_refuted), and proved for programs that keep away from there. C75_access_points: the places where the library reads are such accesses. C75_session, C75_volume, C75_attributes, C75_values, C75_indexes: whole sessions of the example program and the operations of the library are such programs, on any contents (image below 2^63 - 1 bytes, a device that never reports Interrupted); C75_stored: with C52 and C61, what a session through the stack prints on a stored volume. C75_fields: structures read field by field, as binrw does, up to the size of the buffer."
  },
  {
   "property": "C76",
   "status": "partial",
   "theorems": [
    "C76_file_records_partial",
    "C76_file_records_refuted",
    "C76_index_records_refuted"
   ],
   "note": "False for both: a boot sector that gives the size of file records in clusters can ask for 254 MiB (C76_file_records_refuted; this is the largest, C76_file_records_partial), an index root for 4 GiB (C76_index_records_refuted). The lower bound holds for file records."
  },
  {
   "property": "C77",
   "status": "proved",
   "theorems": [
    "C77_nonresident",
    "C77_resident",
    "C77_parts",
    "C77_parts_nonresident"
   ],
   "note": "Values in several records under the conditions of C37 (all parts in extension records, same instance)."
  },
  {
   "property": "C78",
   "status": "proved",
   "theorems": [
    "C78_opening",
    "C78_seeking",
    "C78_reading",
    "C78_attributes",
    "C78_lookup",
    "C78_listing"
   ],
   "note": "Values in several records are not counted; lookups and listings are of directories without attribute list."
  }
 ]
}
