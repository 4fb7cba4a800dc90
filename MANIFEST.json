{
 "claims": [
  {
   "property": "C01",
   "status": "proved",
   "theorems": [
    "C01_search_total"
   ],
   "note": ""
  },
  {
   "property": "C02",
   "status": "proved",
   "theorems": [
    "C02_search_genuine"
   ],
   "note": ""
  },
  {
   "property": "C03",
   "status": "proved",
   "theorems": [
    "C03_not_found_iff"
   ],
   "note": ""
  },
  {
   "property": "C04",
   "status": "proved",
   "theorems": [
    "C04_search_verdict"
   ],
   "note": ""
  },
  {
   "property": "C05",
   "status": "proved",
   "theorems": [
    "C05_valid_accepted_iff",
    "C05_valid_accepted_refuted"
   ],
   "note": "Exact acceptance boundary proved; the unconditional claim is refuted with a witness (the remaining length is truncated to 8 bits)."
  },
  {
   "property": "C06",
   "status": "proved",
   "theorems": [
    "C06_prefix_irrelevant",
    "C06_only_first_anchor_tried"
   ],
   "note": ""
  },
  {
   "property": "C07",
   "status": "proved",
   "theorems": [
    "C07_corruption_detected"
   ],
   "note": ""
  },
  {
   "property": "C08",
   "status": "proved",
   "theorems": [
    "C08_accessors"
   ],
   "note": ""
  },
  {
   "property": "C09",
   "status": "proved",
   "theorems": [
    "C09_iteration_inverts_encoding",
    "C09_runs_exactly",
    "C09_decoding_has_a_result"
   ],
   "note": ""
  },
  {
   "property": "C10",
   "status": "proved",
   "theorems": [
    "C10_huge_refuted",
    "C10_framing_sound",
    "C10_framing_unique",
    "C10_long_string_area"
   ],
   "note": ""
  },
  {
   "property": "C11",
   "status": "proved",
   "theorems": [
    "C11_huge_refuted",
    "C11_iteration_terminates",
    "C11_iteration_deterministic"
   ],
   "note": ""
  },
  {
   "property": "C12",
   "status": "proved",
   "theorems": [
    "C12_none_is_final",
    "C12_framing_error_is_final",
    "C12_decoding_error_moves_on",
    "C12_success_moves_on"
   ],
   "note": ""
  },
  {
   "property": "C13",
   "status": "proved",
   "theorems": [
    "C13_end_is_returned_and_stops_v3",
    "C13_end_is_last_v3",
    "C13_end_does_not_stop_v2"
   ],
   "note": ""
  },
  {
   "property": "C14",
   "status": "proved",
   "theorems": [
    "C14_panic_exactly",
    "C14_overread_exactly",
    "C14_never_crashes_refuted"
   ],
   "note": "The exact panic and over-read sets are proved; 'framing never crashes' is refuted with witnesses."
  },
  {
   "property": "C15",
   "status": "proved",
   "theorems": [
    "C15_formatted_area_inside",
    "C15_strings_inside_refuted"
   ],
   "note": "Header and formatted area proved inside; 'strings stay inside' is refuted with a witness."
  },
  {
   "property": "C16",
   "status": "proved",
   "theorems": [
    "C16_bytes_after_table_irrelevant",
    "C16_appended_bytes_irrelevant",
    "C16_appended_bytes_any_memory",
    "C16_unterminated_refuted"
   ],
   "note": "Proved for encoded tables and for every buffer whose iteration does not end in an unterminated-strings error; without that hypothesis it is refuted."
  },
  {
   "property": "C17",
   "status": "proved",
   "theorems": [
    "C17_type_selects_variant",
    "C17_undecoded_is_raw",
    "C17_info_type_number",
    "C17_info_type_injective"
   ],
   "note": ""
  },
  {
   "property": "C18",
   "status": "proved",
   "theorems": [
    "C18_find_string_ok",
    "C18_find_string_err",
    "C18_text_number_unique"
   ],
   "note": ""
  },
  {
   "property": "C19",
   "status": "proved",
   "theorems": [
    "C19_utf8_exact",
    "C19_found_text_valid"
   ],
   "note": ""
  },
  {
   "property": "C20",
   "status": "proved",
   "theorems": [
    "C20_strings_roundtrip",
    "C20_strings_total",
    "C20_strings_enumerate",
    "C20_fused_refuted"
   ],
   "note": "Round trip and enumeration proved; 'the iterator is fused' is refuted."
  },
  {
   "property": "C21",
   "status": "proved",
   "theorems": [
    "C21_get_in_bounds",
    "C21_get_out_of_bounds",
    "C21_get_slice",
    "C21_get_string"
   ],
   "note": ""
  },
  {
   "property": "C22",
   "status": "proved",
   "theorems": [
    "C22_bios_decodes",
    "C22_bios_errors",
    "C22_bios_returns"
   ],
   "note": ""
  },
  {
   "property": "C23",
   "status": "proved",
   "theorems": [
    "C23_basic",
    "C23_extended",
    "C23_panics_exactly",
    "C23_never_panics_refuted"
   ],
   "note": "Exact panic set proved; 'never panics' is refuted with a structure a table can contain."
  },
  {
   "property": "C24",
   "status": "proved",
   "theorems": [
    "C24_system_decodes",
    "C24_system_errors",
    "C24_system_returns"
   ],
   "note": ""
  },
  {
   "property": "C25",
   "status": "proved",
   "theorems": [
    "C25_baseboard_decodes",
    "C25_baseboard_errors",
    "C25_baseboard_returns",
    "C25_chassis_handle_inside_refuted"
   ],
   "note": "The chassis handle is read by a packed read that may leave the formatted area: refuted for short areas."
  },
  {
   "property": "C26",
   "status": "proved",
   "theorems": [
    "C26_enclosure_decodes",
    "C26_enclosure_errors",
    "C26_enclosure_short",
    "C26_enclosure_panics_exactly",
    "C26_enclosure_in_bounds",
    "C26_elements",
    "C26_short_records_overread",
    "C26_short_records_exactly",
    "C26_short_records_flat"
   ],
   "note": ""
  },
  {
   "property": "C27",
   "status": "proved",
   "theorems": [
    "C27_processor_decodes",
    "C27_processor_errors",
    "C27_processor_returns",
    "C27_characteristics_2_5_refuted"
   ],
   "note": "Characteristics at exactly 2.5 are dropped by the code: stated as _refuted."
  },
  {
   "property": "C28",
   "status": "proved",
   "theorems": [
    "C28_cache_decodes",
    "C28_cache_errors",
    "C28_cache_returns",
    "C28_cache_panics_exactly",
    "C28_fields_2_1_refuted",
    "C28_fields_3_1_refuted",
    "C28_configuration",
    "C28_size_bytes",
    "C28_size2_bytes"
   ],
   "note": "Fields at exactly 2.1 and 3.1 are dropped by the code: stated as _refuted."
  },
  {
   "property": "C29",
   "status": "proved",
   "theorems": [
    "C29_port_decodes",
    "C29_port_errors",
    "C29_port_returns"
   ],
   "note": ""
  },
  {
   "property": "C30",
   "status": "proved",
   "theorems": [
    "C30_slots_decodes",
    "C30_slots_errors",
    "C30_slots_returns",
    "C30_peers",
    "C30_function_round_trip",
    "C30_function_back",
    "C30_device_round_trip"
   ],
   "note": ""
  },
  {
   "property": "C31",
   "status": "proved",
   "theorems": [
    "C31_strings_of_unique",
    "C31_oem_strings",
    "C31_options_succeeds",
    "C31_options_content",
    "C31_options_errors",
    "C31_options_returns"
   ],
   "note": ""
  },
  {
   "property": "C32",
   "status": "proved",
   "theorems": [
    "C32_language_decodes",
    "C32_language_succeeds",
    "C32_current_2_0_refuted",
    "C32_languages_start",
    "C32_languages_all",
    "C32_languages_panic",
    "C32_languages_254",
    "C32_languages_cycle",
    "C32_fused_checked_refuted",
    "C32_fused_unchecked_refuted"
   ],
   "note": "The current language at 2.0 is read from the 2.1 position, and the languages iterator is not fused: stated as _refuted."
  },
  {
   "property": "C33",
   "status": "proved",
   "theorems": [
    "C33_group_decodes",
    "C33_group_errors",
    "C33_group_returns",
    "C33_group_short_refuted",
    "C33_items"
   ],
   "note": "A declared length of 4 underflows: stated as _refuted."
  },
  {
   "property": "C34",
   "status": "proved",
   "theorems": [
    "C34_log_decodes",
    "C34_log_errors",
    "C34_log_panics_exactly",
    "C34_log_in_bounds",
    "C34_descriptors",
    "C34_descriptors_size_refuted"
   ],
   "note": "Descriptors ignore the declared descriptor size: stated as _refuted."
  },
  {
   "property": "C35",
   "status": "proved",
   "theorems": [
    "C35_address",
    "C35_log_address"
   ],
   "note": ""
  },
  {
   "property": "C36",
   "status": "proved",
   "theorems": [
    "C36_type_round_trip",
    "C36_format_codes",
    "C36_format_round_trip",
    "C36_descriptor_round_trip",
    "C36_management_codes",
    "C36_management_injective"
   ],
   "note": ""
  },
  {
   "property": "C37",
   "status": "proved",
   "theorems": [
    "C37_array_decodes",
    "C37_array_panics_exactly",
    "C37_array_returns",
    "C37_array_2_1_refuted",
    "C37_extended_2_7_refuted"
   ],
   "note": "Version 2.1 and the extended capacity at 2.7 are not decoded: stated as _refuted."
  },
  {
   "property": "C38",
   "status": "proved",
   "theorems": [
    "C38_device_decodes",
    "C38_device_errors",
    "C38_device_returns",
    "C38_device_short_refuted",
    "C38_device_set_refuted"
   ],
   "note": "Short legal structures are rejected and the device set is never absent: stated as _refuted."
  },
  {
   "property": "C39",
   "status": "proved",
   "theorems": [
    "C39_error32_decodes",
    "C39_error32_errors",
    "C39_error32_returns",
    "C39_array_address_decodes",
    "C39_array_address_errors",
    "C39_array_address_returns",
    "C39_device_address_decodes",
    "C39_device_address_errors",
    "C39_device_address_returns",
    "C39_pointing_decodes",
    "C39_pointing_errors",
    "C39_pointing_returns"
   ],
   "note": ""
  },
  {
   "property": "C40",
   "status": "proved",
   "theorems": [
    "C40_battery_decodes",
    "C40_battery_errors",
    "C40_battery_returns",
    "C40_no_text_refuted"
   ],
   "note": "'Absent text is reported as absent' is refuted."
  },
  {
   "property": "C41",
   "status": "proved",
   "theorems": [
    "C41_date",
    "C41_capacity",
    "C41_capacity_refuted",
    "C41_capacity_unknown"
   ],
   "note": "Exact for products below 65536; refuted above."
  },
  {
   "property": "C42",
   "status": "proved",
   "theorems": [
    "C42_overread_exactly",
    "C42_flat_reads_on",
    "C42_flat_language_reads_on",
    "C42_own_bytes_refuted",
    "C42_fixture_in_bounds_refuted"
   ],
   "note": "Exact over-read sets, in both memory models; 'only own bytes are read' is refuted, also by a firmware dump of the test suite."
  },
  {
   "property": "C43",
   "status": "proved",
   "theorems": [
    "C43_always_returns",
    "C43_other_returns",
    "C43_panics_exactly"
   ],
   "note": ""
  },
  {
   "property": "C44",
   "status": "proved",
   "theorems": [
    "C44_structure_safe",
    "C44_table_safe",
    "C44_run_panics_exactly",
    "C44_run_overreads_exactly",
    "C44_run_safe"
   ],
   "note": ""
  },
  {
   "property": "C45",
   "status": "proved",
   "theorems": [
    "C45_iter_enumerates",
    "C45_flags",
    "C45_short_layout_panics",
    "C45_shipped_layouts"
   ],
   "note": ""
  },
  {
   "property": "C46",
   "status": "proved",
   "theorems": [
    "C46_round_trip",
    "C46_collect",
    "C46_collect_panics_exactly",
    "C46_collect_wraps"
   ],
   "note": ""
  },
  {
   "property": "C47",
   "status": "proved",
   "theorems": [
    "C47_significants",
    "C47_leaves_out_reserved_refuted",
    "C47_shipped_names"
   ],
   "note": "Exact with respect to the layout; two bits the standard reserves are shown as significant (refuted)."
  },
  {
   "property": "C48",
   "status": "proved",
   "theorems": [
    "C48_reserved_ranges",
    "C48_shipped_layouts",
    "C48_reserved_exactly",
    "C48_every_layout_refuted"
   ],
   "note": "Exact reports proved for every layout; the maximal-run reading is refuted in general and proved for all shipped layouts."
  },
  {
   "property": "C49",
   "status": "proved",
   "theorems": [
    "C49_WakeupType_codes",
    "C49_WakeupType_injective",
    "C49_BoardType_codes",
    "C49_BoardType_injective",
    "C49_EnclosureType_codes",
    "C49_EnclosureType_injective",
    "C49_State_codes",
    "C49_State_injective",
    "C49_SecurityStatus_codes",
    "C49_SecurityStatus_injective",
    "C49_ProcessorType_codes",
    "C49_ProcessorType_injective",
    "C49_ProcessorFamily_codes",
    "C49_ProcessorFamily_injective",
    "C49_ProcessorUpgrade_codes",
    "C49_ProcessorUpgrade_injective",
    "C49_CacheErrorCorrectionType_codes",
    "C49_CacheErrorCorrectionType_injective",
    "C49_SystemCacheType_codes",
    "C49_SystemCacheType_injective",
    "C49_CacheAssociativity_codes",
    "C49_CacheAssociativity_injective",
    "C49_ConnectorType_codes",
    "C49_ConnectorType_injective",
    "C49_PortType_codes",
    "C49_PortType_injective",
    "C49_SlotType_codes",
    "C49_SlotWidth_codes",
    "C49_SlotWidth_injective",
    "C49_CurrentUsage_codes",
    "C49_CurrentUsage_injective",
    "C49_SlotLength_codes",
    "C49_SlotLength_injective",
    "C49_EventLogType_codes",
    "C49_EventLogType_injective",
    "C49_LogHeaderFormat_codes",
    "C49_LogHeaderFormat_injective",
    "C49_MemoryArrayLocation_codes",
    "C49_MemoryArrayLocation_injective",
    "C49_MemoryArrayUse_codes",
    "C49_MemoryArrayUse_injective",
    "C49_MemoryArrayErrorCorrectionTypes_codes",
    "C49_MemoryArrayErrorCorrectionTypes_injective",
    "C49_MDErrorGranularity_codes",
    "C49_MDErrorGranularity_injective",
    "C49_MDErrorOperation_codes",
    "C49_MDErrorOperation_injective",
    "C49_MDErrorType_codes",
    "C49_MDErrorType_injective",
    "C49_FormFactor_codes",
    "C49_MemoryTechnology_codes",
    "C49_MemoryTechnology_injective",
    "C49_MemoryType_codes",
    "C49_MEErrorType_codes",
    "C49_MEErrorType_injective",
    "C49_MEErrorGranularity_codes",
    "C49_MEErrorGranularity_injective",
    "C49_MEErrorOperation_codes",
    "C49_MEErrorOperation_injective",
    "C49_PointingDeviceType_codes",
    "C49_PointingDeviceType_injective",
    "C49_PointingDeviceInterface_codes",
    "C49_PointingDeviceInterface_injective",
    "C49_CacheLevel_codes",
    "C49_CacheLevel_injective",
    "C49_CacheLocation_codes",
    "C49_CacheLocation_injective",
    "C49_CacheOperationalMode_codes",
    "C49_CacheOperationalMode_injective",
    "C49_SlotType_collisions",
    "C49_SlotType_standard_iff",
    "C49_SlotType_standard_refuted",
    "C49_FormFactor_collisions",
    "C49_FormFactor_standard_iff",
    "C49_FormFactor_standard_refuted",
    "C49_MemoryType_collisions",
    "C49_MemoryArrayLocation_standard_iff",
    "C49_MemoryArrayLocation_standard_refuted"
   ],
   "note": "One theorem per enumeration; FormFactor and MemoryArrayLocation differ from the standard (exact sets proved, equality refuted)."
  },
  {
   "property": "C50",
   "status": "proved",
   "theorems": [
    "C50_cache_configuration",
    "C50_cache_configuration_injective",
    "C50_cache_size_injective",
    "C50_cache_size2_injective",
    "C50_voltage_injective",
    "C50_enclosure_type_and_lock",
    "C50_function_injective",
    "C50_device_injective"
   ],
   "note": ""
  },
  {
   "property": "C51",
   "status": "proved",
   "theorems": [
    "C51_lexicographic",
    "C51_total_order",
    "C51_from_pair_cuts",
    "C51_from_pair",
    "C51_from_pair_ordered_refuted"
   ],
   "note": "Building a version from a pair cuts both numbers to eight bits, so the order of pairs is not kept (refuted)."
  },
  {
   "property": "C52",
   "status": "proved",
   "theorems": [
    "C52_layout_macro"
   ],
   "note": ""
  },
  {
   "property": "C53",
   "status": "proved",
   "theorems": [
    "C53_distinct",
    "C53_undefined",
    "C53_family",
    "C53_slot_type",
    "C53_event_log_type",
    "C53_event_log_type_plain_refuted",
    "C53_header_format",
    "C53_header_format_plain_refuted",
    "C53_cache",
    "C53_contained_element",
    "C53_chemistry"
   ],
   "note": "Plain texts of event log types and header formats collide (refuted); alternate texts are injective."
  },
  {
   "property": "C54",
   "status": "proved",
   "theorems": [
    "C54_revision",
    "C54_revision_distinct"
   ],
   "note": ""
  },
  {
   "property": "C55",
   "status": "proved",
   "theorems": [
    "C55_date",
    "C55_date_distinct",
    "C55_serial",
    "C55_serial_distinct",
    "C55_device",
    "C55_device_distinct"
   ],
   "note": ""
  },
  {
   "property": "C56",
   "status": "proved",
   "theorems": [
    "C56_pitch_ieee",
    "C56_voltage_ieee",
    "C56_quotient_exact_refuted",
    "C56_voltage",
    "C56_voltage_distinct",
    "C56_legacy_voltage_refuted",
    "C56_pitch",
    "C56_pitch_distinct",
    "C56_pitch_unit_refuted"
   ],
   "note": "Exact tenths proved for every value; the quotient is the binary32 quotient of the standard library's IEEE-754 specification; the unit of pitches and the legacy 5V text are wrong (refuted)."
  },
  {
   "property": "C57",
   "status": "proved",
   "theorems": [
    "C57_entry_error",
    "C57_structure_error"
   ],
   "note": ""
  },
  {
   "property": "C58",
   "status": "proved",
   "theorems": [
    "C58_system_management",
    "C58_system_management_values",
    "C58_variable_data",
    "C58_access_method"
   ],
   "note": ""
  },
  {
   "property": "C59",
   "status": "proved",
   "theorems": [
    "C59_equivalence",
    "C59_hash_agrees",
    "C59_hash_separates",
    "C59_peers_equal",
    "C59_descriptors_equal",
    "C59_descriptors_yield",
    "C59_descriptors_converse_refuted",
    "C59_elements_equal",
    "C59_elements_yield",
    "C59_short_elements_refuted"
   ],
   "note": "The converse for descriptors and the statement for element records below three bytes are refuted."
  },
  {
   "property": "C60",
   "status": "proved",
   "theorems": [
    "C60_errors_accurate",
    "C60_iterator_errors_accurate",
    "C60_source",
    "C60_enclosure_length_refuted",
    "C60_group_length_refuted",
    "C60_event_log_length_refuted",
    "C60_options_index_refuted"
   ],
   "note": "All errors except four kinds are accurate; the four are exhibited as _refuted."
  },
  {
   "property": "C61",
   "status": "proved",
   "theorems": [
    "C61_search_inverts_encoding",
    "C61_end_to_end"
   ],
   "note": "The C05 boundary appears as a hypothesis on what follows the entry point."
  },
  {
   "property": "C62",
   "status": "proved",
   "theorems": [
    "C62_decoders_agree",
    "C62_iterations_agree",
    "C62_values_agree",
    "C62_converse_refuted"
   ],
   "note": "The converse direction is refuted."
  },
  {
   "property": "C63",
   "status": "proved",
   "theorems": [
    "C63_replacement_is_local",
    "C63_damage_is_local",
    "C63_flat_memory_refuted"
   ],
   "note": "Proved where reads past a structure are undefined; where they are tolerated it is refuted with a witness."
  },
  {
   "property": "C64",
   "status": "proved",
   "theorems": [
    "C64_position_independent",
    "C64_tables_concatenate",
    "C64_after_end_refuted"
   ],
   "note": "The concatenation needs that no End structure stops a version 3 reader; without it, refuted."
  },
  {
   "property": "C65",
   "status": "proved",
   "theorems": [
    "C65_shorter_announcement",
    "C65_exactly"
   ],
   "note": ""
  },
  {
   "property": "C66",
   "status": "proved",
   "theorems": [
    "C66_newer_versions_only_add",
    "C66_tables",
    "C66_framing_ignores_version",
    "C66_uuid_refuted",
    "C66_processor_refuted",
    "C66_language_refuted",
    "C66_array_refuted"
   ],
   "note": ""
  },
  {
   "property": "C67",
   "status": "proved",
   "theorems": [
    "C67_group_items_finished",
    "C67_peers_finished",
    "C67_elements_finished",
    "C67_flags_finished",
    "C67_significants_finished",
    "C67_reserved_finished",
    "C67_descriptors_finished",
    "C67_group_items_count",
    "C67_peers_count",
    "C67_elements_count"
   ],
   "note": ""
  },
  {
   "property": "C68",
   "status": "proved",
   "theorems": [
    "C68_count_exact",
    "C68_count_stays",
    "C68_count_refuted",
    "C68_device_overread_exactly",
    "C68_device",
    "C68_peers",
    "C68_element_overread_exactly",
    "C68_element"
   ],
   "note": ""
  },
  {
   "property": "C69",
   "status": "proved",
   "theorems": [
    "C69_handles",
    "C69_handles_refuted",
    "C69_iterator_handles",
    "C69_texts",
    "C69_texts_inside",
    "C69_iterator_texts",
    "C69_strings"
   ],
   "note": ""
  },
  {
   "property": "C70",
   "status": "proved",
   "theorems": [
    "C70_structure_read_back",
    "C70_table_read_back",
    "C70_strings_read_back",
    "C70_unambiguous"
   ],
   "note": ""
  },
  {
   "property": "C71",
   "status": "proved",
   "theorems": [
    "C71_files_read_back",
    "C71_dump_read_back",
    "C71_loop_sees",
    "C71_loop_order",
    "C71_loop_sees_all",
    "C71_dump_opens_exactly",
    "C71_dump_place",
    "C71_dump_place_refuted",
    "C71_dump_fails_exactly",
    "C71_dump_panics_exactly",
    "C71_dump_never_overreads",
    "C71_dump_safe",
    "C71_files_safe"
   ],
   "note": ""
  },
  {
   "property": "C72",
   "status": "proved",
   "theorems": [
    "C72_equal_exactly",
    "C72_decoded_lists_ok",
    "C72_equivalence",
    "C72_hash_agrees",
    "C72_plain_values",
    "C72_every_type",
    "C72_undecoded",
    "C72_copies_equal",
    "C72_copies_flat_refuted"
   ],
   "note": "Proved, with the exact equality relation; 'copies decode to equal structures' is proved for strict memory and refuted where reads past a structure are tolerated."
  },
  {
   "property": "C73",
   "status": "proved",
   "theorems": [
    "C73_value_shows_exactly",
    "C73_lossless",
    "C73_undecoded",
    "C73_lossless_all_refuted"
   ],
   "note": "Proved, with the exact list of fields that a value shows for every type; that nothing is ever lost is refuted for the eight types of which something is."
  },
  {
   "property": "C74",
   "status": "proved",
   "theorems": [
    "C74_names",
    "C74_all_layouts",
    "C74_every_bit",
    "C74_bios",
    "C74_slots",
    "C74_language",
    "C74_log"
   ],
   "note": ""
  },
  {
   "property": "C75",
   "status": "proved",
   "theorems": [
    "C75_names",
    "C75_names_exact",
    "C75_names_refuted",
    "C75_cache",
    "C75_cache_mode_refuted",
    "C75_contained_element",
    "C75_access_method",
    "C75_entry_error",
    "C75_structure_error"
   ],
   "note": "Proved, with the exact list of codes whose text is not the standard's; that every text is the standard's is refuted."
  },
  {
   "property": "C76",
   "status": "proved",
   "theorems": [
    "C76_flags",
    "C76_whole_words",
    "C76_truncate",
    "C76_board",
    "C76_processor",
    "C76_cache",
    "C76_memory_device",
    "C76_status_contains_refuted",
    "C76_status_listed_refuted",
    "C76_reserved_refuted",
    "C76_128_bit_refuted"
   ],
   "note": "Proved for all words; the four expectations that are false are refuted. The operations of the bitflags crate are modelled after its documentation."
  },
  {
   "property": "C77",
   "status": "proved",
   "theorems": [
    "C77_WakeupType",
    "C77_BoardType",
    "C77_EnclosureType",
    "C77_State",
    "C77_SecurityStatus",
    "C77_ProcessorType",
    "C77_ProcessorUpgrade",
    "C77_CacheErrorCorrectionType",
    "C77_SystemCacheType",
    "C77_CacheAssociativity",
    "C77_ConnectorType",
    "C77_PortType",
    "C77_SlotType",
    "C77_SlotWidth",
    "C77_CurrentUsage",
    "C77_SlotLength",
    "C77_MemoryArrayLocation",
    "C77_MemoryArrayUse",
    "C77_MemoryArrayErrorCorrectionTypes",
    "C77_MDErrorGranularity",
    "C77_MDErrorOperation",
    "C77_MDErrorType",
    "C77_FormFactor",
    "C77_MemoryTechnology",
    "C77_MemoryType",
    "C77_MEErrorType",
    "C77_MEErrorGranularity",
    "C77_MEErrorOperation",
    "C77_PointingDeviceType",
    "C77_PointingDeviceInterface",
    "C77_ProcessorFamily",
    "C77_EventLogType",
    "C77_LogHeaderFormat",
    "C77_InfoType",
    "C77_CacheLevel",
    "C77_CacheLocation",
    "C77_CacheOperationalMode",
    "C77_SystemManagementType",
    "C77_VariableDataFormatType",
    "C77_every_name_refuted",
    "C77_Voltage",
    "C77_CacheSize",
    "C77_CacheSize2",
    "C77_ContainedElementType",
    "C77_AccessMethod",
    "C77_DeviceChemistry",
    "C77_DesignCapacity",
    "C77_SerialNumber",
    "C77_ManufactureDate",
    "C77_dates_refuted"
   ],
   "note": "Proved for every enumeration and for the types whose values have parts; that every name can come out, and that packed dates are dates, are refuted."
  },
  {
   "property": "C78",
   "status": "proved",
   "theorems": [
    "C78_counts_the_model",
    "C78_iteration",
    "C78_structure",
    "C78_announced_length_refuted",
    "C78_string",
    "C78_string_exactly",
    "C78_search",
    "C78_search_exactly"
   ],
   "note": "Proved for counting versions of the loops, which are proved to compute what the model computes; that the announced length bounds the work is refuted."
  },
  {
   "property": "C79",
   "status": "proved",
   "theorems": [
    "C79_little_endian",
    "C79_entry_point",
    "C79_structure",
    "C79_same_numbers_refuted",
    "C79_table_refuted"
   ],
   "note": "Proved for entry points and structure headers; that the numbers are the same on every machine is refuted. C84 is about the decoders."
  },
  {
   "property": "C80",
   "status": "proved",
   "theorems": [
    "C80_any_index",
    "C80_resume",
    "C80_past_the_end_refuted",
    "C80_debug",
    "C80_debug_tells",
    "C80_debug_type_refuted"
   ],
   "note": "Proved; that iteration from any index ends, and that the debug text tells everything about a flag, are refuted."
  },
  {
   "property": "C81",
   "status": "proved",
   "theorems": [
    "C81_decoders",
    "C81_next",
    "C81_iterations",
    "C81_slices_fit",
    "C81_accessors",
    "C81_accessors_refuted",
    "C81_positions",
    "C81_positions_refuted",
    "C81_dumps"
   ],
   "note": "Proved; that accessors agree on offsets close to 2^32, and positions from 32 on, is refuted."
  },
  {
   "property": "C82",
   "status": "proved",
   "theorems": [
    "C82_error_text",
    "C82_error_lines",
    "C82_entry_error_text",
    "C82_entry_error_lines",
    "C82_error_told",
    "C82_entry_error_told",
    "C82_reported_errors",
    "C82_program_lines",
    "C82_program_line",
    "C82_program_told",
    "C82_program_stops",
    "C82_search_errors"
   ],
   "note": "Proved. What derive(Debug) and core's formatter do is modelled; escaping of characters above 7Fh is not (no text in an error has any)."
  },
  {
   "property": "C83",
   "status": "proved",
   "theorems": [
    "C83_flags",
    "C83_iterators",
    "C83_fresh",
    "C83_significants_refuted",
    "C83_defaults",
    "C83_default_refuted"
   ],
   "note": "Proved; that iterators yielding the same significant flags compare equal, and that a default iterator is empty, are refuted."
  },
  {
   "property": "C84",
   "status": "proved",
   "theorems": [
    "C84_little_endian",
    "C84_big_endian",
    "C84_unaffected",
    "C84_stored_big",
    "C84_outcome",
    "C84_iteration",
    "C84_elements",
    "C84_peers",
    "C84_same_refuted",
    "C84_device_round_trip_refuted"
   ],
   "note": "Proved; that structures decode alike on every machine, and that peer devices round-trip on a big-endian one, are refuted."
  },
  {
   "property": "C85",
   "status": "proved",
   "theorems": [
    "C85_text_exactly",
    "C85_decoded_fit",
    "C85_decoded_exactly",
    "C85_same_text_equal",
    "C85_equal_same_text",
    "C85_equal_same_text_refuted",
    "C85_one_line",
    "C85_visible_lines",
    "C85_shape",
    "C85_shape_lines",
    "C85_handle",
    "C85_texts",
    "C85_plain_values",
    "C85_raw_values",
    "C85_kinds_as_in_errors",
    "C85_texts_as_in_errors"
   ],
   "note": "Proved for any tables of printable and combining characters; that equal structures always have the same text is refuted (event logs without descriptors). core's formatter, bitflags and uuid are modelled after their documentation."
  },
  {
   "property": "C86",
   "status": "proved",
   "theorems": [
    "C86_texts",
    "C86_exactly",
    "C86_integer_type_refuted",
    "C86_lines",
    "C86_flags",
    "C86_start",
    "C86_next"
   ],
   "note": "Proved for any tables of printable and combining characters and any layout; that the text tells the integer type is refuted. core's formatter is modelled after its documentation."
  },
  {
   "property": "C87",
   "status": "proved",
   "theorems": [
    "C87_structures",
    "C87_any_structure",
    "C87_other_values",
    "C87_codes",
    "C87_status_code_refuted"
   ],
   "note": "Proved for both forms and all enumerations; that the text of a processor's status names the status is refuted. core's formatter, bitflags and uuid are modelled after their documentation."
  },
  {
   "property": "C88",
   "status": "proved",
   "theorems": [
    "C88_noticed",
    "C88_rearranged",
    "C88_elsewhere",
    "C88_cut_off",
    "C88_length_byte_refuted",
    "C88_anchor_refuted",
    "C88_intermediate_refuted"
   ],
   "note": "Proved; two expectations about single bytes and the one about the intermediate anchor and checksum are refuted."
  },
  {
   "property": "C89",
   "status": "proved",
   "theorems": [
    "C89_before",
    "C89_at_the_cut",
    "C89_boundary_refuted"
   ],
   "note": "Proved; that a cut between two structures is harmless is refuted. With readable memory past the slice, short structures can show other bytes (C63)."
  },
  {
   "property": "C90",
   "status": "proved",
   "theorems": [
    "C90_kept",
    "C90_taken",
    "C90_complete_slot",
    "C90_complete_memory_device",
    "C90_elements",
    "C90_tables",
    "C90_one_length_refuted",
    "C90_enclosure_refuted"
   ],
   "note": "Proved; that longer structures are always taken is refuted for seven types and for incomplete enclosures."
  },
  {
   "property": "C91",
   "status": "proved",
   "theorems": [
    "C91_texts",
    "C91_one_string",
    "C91_tables",
    "C91_appended",
    "C91_appended_refuted",
    "C91_readable_refuted"
   ],
   "note": "Proved; that appended strings never change anything, and that strings are never taken for fields where memory past a slice is readable, are refuted."
  },
  {
   "property": "C92",
   "status": "proved",
   "theorems": [
    "C92_each_by_itself",
    "C92_order",
    "C92_removed",
    "C92_added",
    "C92_twice",
    "C92_crash_refuted",
    "C92_end_refuted"
   ],
   "note": "Proved for reads that stay inside their slice; that order never matters is refuted for crashing structures and for End structures from version 3 on."
  },
  {
   "property": "C93",
   "status": "proved",
   "theorems": [
    "C93_memory_device",
    "C93_memory_device_apart_from_set",
    "C93_memory_array",
    "C93_bios",
    "C93_flags",
    "C93_codes",
    "C93_detail",
    "C93_form_factor_refuted"
   ],
   "note": "Proved; that the default form factor is the one the standard calls unknown is refuted."
  },
  {
   "property": "C94",
   "status": "proved",
   "theorems": [
    "C94_printed",
    "C94_printed_iff_set",
    "C94_read_back",
    "C94_read_back_refuted",
    "C94_every_bit",
    "C94_own_table"
   ],
   "note": "Proved; that bits 0 and 1 of the BIOS characteristics can be told apart from what is printed is refuted."
  },
  {
   "property": "C95",
   "status": "proved",
   "theorems": [
    "C95_told_apart",
    "C95_any_structures",
    "C95_decoded_solid",
    "C95_prefix_free",
    "C95_other_values",
    "C95_event_log_refuted",
    "C95_enclosure_refuted",
    "C95_pairs_of_lists_refuted"
   ],
   "note": "Proved; that enclosures with contained elements, event logs with descriptors and pairs of lists of peer devices are free of prefix collisions is refuted."
  },
  {
   "property": "C96",
   "status": "proved",
   "theorems": [
    "C96_same_place_same_rest",
    "C96_one_in_place_of_many",
    "C96_length_byte",
    "C96_longer_inside",
    "C96_only_hides_refuted"
   ],
   "note": "Proved; that a wrong length byte can only hide structures is refuted."
  },
  {
   "property": "C97",
   "status": "proved",
   "theorems": [
    "C97_version_and_length",
    "C97_other_fields",
    "C97_number_and_size_refuted"
   ],
   "note": "Proved; that the announced number and size of structures are limits is refuted."
  },
  {
   "property": "C98",
   "status": "proved",
   "theorems": [
    "C98_in_bounds",
    "C98_no_panic",
    "C98_builds",
    "C98_panics_only",
    "C98_numbers_as_own_types",
    "C98_own_types",
    "C98_own_bytes",
    "C98_same_bytes",
    "C98_told_apart",
    "C98_careful_enough",
    "C98_equality_refuted"
   ],
   "note": "Proved for all client programs as trees of questions and continuations; that == sees no more than what can be read is refuted."
  },
  {
   "property": "C99",
   "status": "proved",
   "theorems": [
    "C99_one_answer",
    "C99_first",
    "C99_stops",
    "C99_from_the_table",
    "C99_written",
    "C99_old_arrays_refuted"
   ],
   "note": "Proved; that memory arrays below version 2.2 are found by their handle is refuted."
  },
  {
   "property": "C100",
   "status": "proved",
   "theorems": [
    "C100_in_turn",
    "C100_one_sequence",
    "C100_structures",
    "C100_fails_alone",
    "C100_texts",
    "C100_group_items",
    "C100_descriptors",
    "C100_languages",
    "C100_peers",
    "C100_elements",
    "C100_flags",
    "C100_equal_iterators",
    "C100_equal_answers_refuted"
   ],
   "note": "Proved for programs as trees of calls; that iterators with the same answers are equal is refuted. derive(Clone) is modelled as copying the state."
  },
  {
   "property": "C101",
   "status": "proved",
   "theorems": [
    "C101_counts_the_model",
    "C101_decoder",
    "C101_iteration",
    "C101_call",
    "C101_strings",
    "C101_languages",
    "C101_languages_linear_refuted",
    "C101_lookups_needed"
   ],
   "note": "Proved on counting versions of the decoders that are proved to return what the decoders return; that languages take linear work is refuted. Steps are bytes looked at by the searches for string ends and by the UTF-8 check; reading fields of fixed size is not counted."
  },
  {
   "property": "C102",
   "status": "proved",
   "theorems": [
    "C102_one_answer",
    "C102_whole",
    "C102_find",
    "C102_find_map",
    "C102_position",
    "C102_any_all",
    "C102_nth",
    "C102_results",
    "C102_structures",
    "C102_written",
    "C102_find_string",
    "C102_languages_refuted"
   ],
   "note": "The provided methods of core::iter::Iterator are modelled as loops over next; that they always come to an end is refuted for the languages. Closures that panic or do not return are not modelled."
  },
  {
   "property": "C103",
   "status": "proved",
   "theorems": [
    "C103_local",
    "C103_complete",
    "C103_distinct",
    "C103_in_tables",
    "C103_needed",
    "C103_decoded_refuted"
   ],
   "note": "Fields behind a list of variable size (contained elements, SKU of an enclosure, peer devices and what follows them, log type descriptors, group items) are given as all bytes from an offset on; C103_needed speaks about the ranges of fixed size. The languages of type 13 keep the whole structure, so that this field depends on all its bytes."
  },
  {
   "property": "C104",
   "status": "proved",
   "theorems": [
    "C104_outcome",
    "C104_decoded",
    "C104_length_alone",
    "C104_in_tables",
    "C104_each_decides"
   ],
   "note": "The place of the SKU number of an enclosure depends on two other deciding bytes; their product is taken in one byte, as the code does without overflow checks (with them the decoder panics when it does not fit)."
  },
  {
   "property": "C105",
   "status": "proved",
   "theorems": [
    "C105_local",
    "C105_in_tables",
    "C105_shows",
    "C105_unused",
    "C105_slot_information_refuted"
   ],
   "note": "Sharpens C103 for the fields that are given there as all bytes from an offset on. That every byte shows is not claimed of the SKU number, which is the number of a string. The length bytes themselves are deciding bytes of C104 for enclosures and logs."
  },
  {
   "property": "C106",
   "status": "proved",
   "theorems": [
    "C106_exactly",
    "C106_tables_exactly",
    "C106_tables",
    "C106_later_versions",
    "C106_standard_refuted"
   ],
   "note": "C66 says what a newer version may add; C106 says exactly between which versions anything changes at all."
  },
  {
   "property": "C107",
   "status": "proved",
   "theorems": [
    "C107_accepted",
    "C107_next",
    "C107_without_errors",
    "C107_tables",
    "C107_tables_exactly",
    "C107_accepted_flat",
    "C107_next_flat",
    "C107_standard_lengths_refuted"
   ],
   "note": "Puts the three kinds of failure of C22-C44 together into one condition for success."
  }
 ]
}