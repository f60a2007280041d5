{
 "claims": [
  {
   "property": "C01",
   "status": "proved",
   "theorems": [
    "C01_vlq_roundtrip"
   ],
   "note": ""
  },
  {
   "property": "C02",
   "status": "proved",
   "theorems": [
    "C02_vlq_shape",
    "C02_vlq_length"
   ],
   "note": ""
  },
  {
   "property": "C03",
   "status": "proved",
   "theorems": [
    "C03_vlq_range"
   ],
   "note": ""
  },
  {
   "property": "C04",
   "status": "proved",
   "theorems": [
    "C04_vlq_sequences",
    "C04_vlq_injective"
   ],
   "note": ""
  },
  {
   "property": "C05",
   "status": "proved",
   "theorems": [
    "C05_base64_table"
   ],
   "note": ""
  },
  {
   "property": "C06",
   "status": "proved",
   "theorems": [
    "C06_array_set_no_duplicates",
    "C06_array_set_add",
    "C06_array_set_from_array"
   ],
   "note": ""
  },
  {
   "property": "C07",
   "status": "proved",
   "theorems": [
    "C07_array_set_lookups"
   ],
   "note": ""
  },
  {
   "property": "C08",
   "status": "proved",
   "theorems": [
    "C08_array_set_stable"
   ],
   "note": ""
  },
  {
   "property": "C09",
   "status": "proved",
   "theorems": [
    "C09_search_safe"
   ],
   "note": ""
  },
  {
   "property": "C10",
   "status": "proved",
   "theorems": [
    "C10_search_greatest_lower"
   ],
   "note": ""
  },
  {
   "property": "C11",
   "status": "proved",
   "theorems": [
    "C11_search_least_upper"
   ],
   "note": ""
  },
  {
   "property": "C12",
   "status": "proved",
   "theorems": [
    "C12_search_first_of_equals"
   ],
   "note": ""
  },
  {
   "property": "C13",
   "status": "proved",
   "theorems": [
    "C13_strcmp_order"
   ],
   "note": ""
  },
  {
   "property": "C14",
   "status": "proved",
   "theorems": [
    "C14_compare_is_mapping_order",
    "C14_mapping_order"
   ],
   "note": ""
  },
  {
   "property": "C15",
   "status": "proved",
   "theorems": [
    "C15_compare_transitive_refuted",
    "C15_compare_overflow"
   ],
   "note": ""
  },
  {
   "property": "C16",
   "status": "proved",
   "theorems": [
    "C16_to_array_sorted_permutation"
   ],
   "note": ""
  },
  {
   "property": "C17",
   "status": "proved",
   "theorems": [
    "C17_to_array_stable",
    "C17_to_array_repeatable"
   ],
   "note": ""
  },
  {
   "property": "C18",
   "status": "proved",
   "theorems": [
    "C18_to_array_order_independent",
    "C18_to_array_order_refuted"
   ],
   "note": ""
  },
  {
   "property": "C19",
   "status": "proved",
   "theorems": [
    "C19_generate_never_panics"
   ],
   "note": ""
  },
  {
   "property": "C20",
   "status": "proved",
   "theorems": [
    "C20_generate_roundtrip"
   ],
   "note": ""
  },
  {
   "property": "C21",
   "status": "proved",
   "theorems": [
    "C21_generate_arrays"
   ],
   "note": ""
  },
  {
   "property": "C22",
   "status": "proved",
   "theorems": [
    "C22_generate_collapsed",
    "C22_no_duplicates_refuted"
   ],
   "note": ""
  },
  {
   "property": "C23",
   "status": "proved",
   "theorems": [
    "C23_json_twice",
    "C23_json_in_the_middle"
   ],
   "note": ""
  },
  {
   "property": "C24",
   "status": "proved",
   "theorems": [
    "C24_generate_line_structure"
   ],
   "note": ""
  },
  {
   "property": "C25",
   "status": "proved",
   "theorems": [
    "C25_contents_alignment",
    "C25_alignment_refuted"
   ],
   "note": ""
  },
  {
   "property": "C26",
   "status": "proved",
   "theorems": [
    "C26_last_content_wins"
   ],
   "note": ""
  },
  {
   "property": "C27",
   "status": "proved",
   "theorems": [
    "C27_flag_irrelevant",
    "C27_add_accepts_all_release",
    "C27_add_accepts_all",
    "C27_no_original_panics",
    "C27_no_original_always_panics_refuted"
   ],
   "note": ""
  },
  {
   "property": "C28",
   "status": "proved",
   "theorems": [
    "C28_never_written",
    "C28_low_line"
   ],
   "note": ""
  },
  {
   "property": "C29",
   "status": "proved",
   "theorems": [
    "C29_json_roundtrip",
    "C29_json_grammar"
   ],
   "note": ""
  },
  {
   "property": "C30",
   "status": "proved",
   "theorems": [
    "C30_create_consumer"
   ],
   "note": ""
  },
  {
   "property": "C31",
   "status": "proved",
   "theorems": [
    "C31_short_source",
    "C31_short_root",
    "C31_short_map_url",
    "C31_short_join",
    "C31_short_relative",
    "C31_short_map_panics"
   ],
   "note": ""
  },
  {
   "property": "C32",
   "status": "proved",
   "theorems": [
    "C32_segment",
    "C32_base"
   ],
   "note": ""
  },
  {
   "property": "C33",
   "status": "proved",
   "theorems": [
    "C33_contract_can_be_met",
    "C33_normal_form",
    "C33_normalises",
    "C33_idempotent",
    "C33_absolute_path",
    "C33_url",
    "C33_scheme_relative"
   ],
   "note": ""
  },
  {
   "property": "C34",
   "status": "proved",
   "theorems": [
    "C34_source_with_host",
    "C34_root_without_path",
    "C34_relative_root",
    "C34_absolute_root",
    "C34_url_root",
    "C34_scheme_relative_root",
    "C34_absolute_source",
    "C34_collapsed_source_panics",
    "C34_slash_and_one_character_panics"
   ],
   "note": ""
  },
  {
   "property": "C35",
   "status": "proved",
   "theorems": [
    "C35_relative_source_loses_markers",
    "C35_with_root_loses_markers",
    "C35_marker_never_survives"
   ],
   "note": ""
  },
  {
   "property": "C36",
   "status": "proved",
   "theorems": [
    "C36_any_source",
    "C36_source_not_relative",
    "C36_source_not_relative_relative_map",
    "C36_relative_map_url",
    "C36_relative_verdict",
    "C36_absolute_path_verdict",
    "C36_absolute_path",
    "C36_url_verdict"
   ],
   "note": ""
  },
  {
   "property": "C37",
   "status": "proved",
   "theorems": [
    "C37_same_host_panics",
    "C37_other_host",
    "C37_set_source_content_same_host",
    "C37_relative_paths_panic",
    "C37_absolute_paths_panic",
    "C37_different_kinds",
    "C37_set_source_content_relative",
    "C37_set_source_content_absolute"
   ],
   "note": ""
  },
  {
   "property": "C38",
   "status": "proved",
   "theorems": [
    "C38_source_lookup"
   ],
   "note": ""
  },
  {
   "property": "C39",
   "status": "proved",
   "theorems": [
    "C39_constructors",
    "C39_same_answers_refuted",
    "C39_created"
   ],
   "note": ""
  },
  {
   "property": "C40",
   "status": "proved",
   "theorems": [
    "C40_contract_can_be_met",
    "C40_original_never_answers",
    "C40_exact_hit_refuted"
   ],
   "note": ""
  },
  {
   "property": "C41",
   "status": "proved",
   "theorems": [
    "C41_refuses",
    "C41_original_position_for"
   ],
   "note": ""
  },
  {
   "property": "C42",
   "status": "proved",
   "theorems": [
    "C42_generated_position_for",
    "C42_source_query_guards"
   ],
   "note": ""
  },
  {
   "property": "C43",
   "status": "proved",
   "theorems": [
    "C43_generated_misreports"
   ],
   "note": ""
  },
  {
   "property": "C44",
   "status": "proved",
   "theorems": [
    "C44_all_generated",
    "C44_asked_line_refuted"
   ],
   "note": ""
  },
  {
   "property": "C45",
   "status": "proved",
   "theorems": [
    "C45_end_to_end",
    "C45_opens"
   ],
   "note": ""
  },
  {
   "property": "C46",
   "status": "proved",
   "theorems": [
    "C46_column_spans"
   ],
   "note": ""
  },
  {
   "property": "C47",
   "status": "proved",
   "theorems": [
    "C47_source_content_for",
    "C47_has_contents"
   ],
   "note": ""
  },
  {
   "property": "C48",
   "status": "proved",
   "theorems": [
    "C48_malformed",
    "C48_bad_character"
   ],
   "note": ""
  },
  {
   "property": "C49",
   "status": "proved",
   "theorems": [
    "C49_any_schedule",
    "C49_only_in_order",
    "C49_same_result",
    "C49_depends_on_map_only_refuted"
   ],
   "note": ""
  },
  {
   "property": "C50",
   "status": "proved",
   "theorems": [
    "C50_in_order"
   ],
   "note": ""
  },
  {
   "property": "C51",
   "status": "proved",
   "theorems": [
    "C51_section_by_offset",
    "C51_reach",
    "C51_odd_position",
    "C51_section",
    "C51_section_start_refuted",
    "C51_generated_position_refuted"
   ],
   "note": ""
  },
  {
   "property": "C52",
   "status": "proved",
   "theorems": [
    "C52_source_content",
    "C52_unknown_section",
    "C52_first_section",
    "C52_default_finds_content_refuted"
   ],
   "note": ""
  },
  {
   "property": "C53",
   "status": "proved",
   "theorems": [
    "C53_sources",
    "C53_resolved_sources_refuted"
   ],
   "note": ""
  },
  {
   "property": "C54",
   "status": "proved",
   "theorems": [
    "C54_reverse_queries_panic"
   ],
   "note": ""
  },
  {
   "property": "C55",
   "status": "proved",
   "theorems": [
    "C55_original_never_answers"
   ],
   "note": ""
  },
  {
   "property": "C56",
   "status": "proved",
   "theorems": [
    "C56_relative_then_join",
    "C56_prefix",
    "C56_other_origin"
   ],
   "note": ""
  },
  {
   "property": "C57",
   "status": "proved",
   "theorems": [
    "C57_listed_sources",
    "C57_relative_map_url_refuted"
   ],
   "note": ""
  },
  {
   "property": "C58",
   "status": "proved",
   "theorems": [
    "C58_each_mapping_generated",
    "C58_each_mapping_original"
   ],
   "note": ""
  },
  {
   "property": "C59",
   "status": "proved",
   "theorems": [
    "C59_has_contents",
    "C59_column_spans"
   ],
   "note": ""
  },
  {
   "property": "C60",
   "status": "proved",
   "theorems": [
    "C60_primitives",
    "C60_urls",
    "C60_generator",
    "C60_basic_consumer",
    "C60_indexed_consumer"
   ],
   "note": ""
  },
  {
   "property": "C61",
   "status": "proved",
   "theorems": [
    "C61_contents_independent",
    "C61_roundtrip",
    "C61_line_structure",
    "C61_only_relative_panics",
    "C61_panics"
   ],
   "note": ""
  },
  {
   "property": "C62",
   "status": "proved",
   "theorems": [
    "C62_contents_by_key"
   ],
   "note": ""
  },
  {
   "property": "C63",
   "status": "proved",
   "theorems": [
    "C63_url_kind",
    "C63_one_kind"
   ],
   "note": ""
  },
  {
   "property": "C64",
   "status": "proved",
   "theorems": [
    "C64_validate_exact"
   ],
   "note": ""
  },
  {
   "property": "C65",
   "status": "proved",
   "theorems": [
    "C65_roundtrip_names",
    "C65_names_kept_refuted"
   ],
   "note": ""
  },
  {
   "property": "C66",
   "status": "proved",
   "theorems": [
    "C66_original_end"
   ],
   "note": ""
  },
  {
   "property": "C67",
   "status": "proved",
   "theorems": [
    "C67_generated_end",
    "C67_name_refuted"
   ],
   "note": ""
  },
  {
   "property": "C68",
   "status": "proved",
   "theorems": [
    "C68_all_generated_end",
    "C68_first_line_refuted"
   ],
   "note": ""
  },
  {
   "property": "C69",
   "status": "proved",
   "theorems": [
    "C69_content_end",
    "C69_content_end_root",
    "C69_own_text_refuted"
   ],
   "note": ""
  },
  {
   "property": "C70",
   "status": "proved",
   "theorems": [
    "C70_last_column",
    "C70_each_last_column",
    "C70_original_order_last_column",
    "C70_all_generated_last_column"
   ],
   "note": ""
  },
  {
   "property": "C71",
   "status": "proved",
   "theorems": [
    "C71_map_url",
    "C71_root_url"
   ],
   "note": ""
  },
  {
   "property": "C72",
   "status": "proved",
   "theorems": [
    "C72_known_by_name",
    "C72_other_source_refuted"
   ],
   "note": ""
  },
  {
   "property": "C73",
   "status": "proved",
   "theorems": [
    "C73_original",
    "C73_sources",
    "C73_contents"
   ],
   "note": ""
  },
  {
   "property": "C74",
   "status": "proved",
   "theorems": [
    "C74_has_contents",
    "C74_bundle_has_contents"
   ],
   "note": ""
  },
  {
   "property": "C75",
   "status": "proved",
   "theorems": [
    "C75_same_text",
    "C75_entry_not_a_string",
    "C75_version_not_an_integer"
   ],
   "note": ""
  },
  {
   "property": "C76",
   "status": "proved",
   "theorems": [
    "C76_join"
   ],
   "note": ""
  },
  {
   "property": "C77",
   "status": "proved",
   "theorems": [
    "C77_source",
    "C77_source_only",
    "C77_relative",
    "C77_written_source",
    "C77_written_root",
    "C77_listed",
    "C77_lookup",
    "C77_same_name_refuted"
   ],
   "note": ""
  },
  {
   "property": "C78",
   "status": "proved",
   "theorems": [
    "C78_history",
    "C78_one_result"
   ],
   "note": ""
  },
  {
   "property": "C79",
   "status": "proved",
   "theorems": [
    "C79_views",
    "C79_consume_basic",
    "C79_consume_indexed",
    "C79_empty_url_refuted"
   ],
   "note": ""
  },
  {
   "property": "C80",
   "status": "proved",
   "theorems": [
    "C80_shortest",
    "C80_size",
    "C80_determined"
   ],
   "note": ""
  },
  {
   "property": "C81",
   "status": "proved",
   "theorems": [
    "C81_lists_grow",
    "C81_text_grows",
    "C81_read_grows",
    "C81_unordered_refuted"
   ],
   "note": ""
  },
  {
   "property": "C82",
   "status": "proved",
   "theorems": [
    "C82_copy"
   ],
   "note": ""
  },
  {
   "property": "C83",
   "status": "proved",
   "theorems": [
    "C83_source",
    "C83_slash_source",
    "C83_root",
    "C83_map_url",
    "C83_join",
    "C83_relative",
    "C83_map_panics",
    "C83_query",
    "C83_content"
   ],
   "note": ""
  },
  {
   "property": "C84",
   "status": "proved",
   "theorems": [
    "C84_scheme_replaced",
    "C84_scheme_lost",
    "C84_relative_root",
    "C84_absolute_root",
    "C84_url_root",
    "C84_relative"
   ],
   "note": ""
  },
  {
   "property": "C85",
   "status": "proved",
   "theorems": [
    "C85_rooted",
    "C85_join"
   ],
   "note": ""
  },
  {
   "property": "C86",
   "status": "proved",
   "theorems": [
    "C86_read_back_exactly_when_near",
    "C86_small_numbers_near",
    "C86_small_numbers_fit"
   ],
   "note": ""
  },
  {
   "property": "C87",
   "status": "proved",
   "theorems": [
    "C87_search_looks_at_few"
   ],
   "note": ""
  },
  {
   "property": "C88",
   "status": "proved",
   "theorems": [
    "C88_opens_alike",
    "C88_answers_alike",
    "C88_first_position_refuted"
   ],
   "note": ""
  },
  {
   "property": "C89",
   "status": "proved",
   "theorems": [
    "C89_opens_exactly"
   ],
   "note": ""
  },
  {
   "property": "C90",
   "status": "proved",
   "theorems": [
    "C90_copy"
   ],
   "note": ""
  },
  {
   "property": "C91",
   "status": "proved",
   "theorems": [
    "C91_source",
    "C91_relative",
    "C91_normal",
    "C91_below",
    "C91_lookup",
    "C91_leading",
    "C91_leading_relative_root",
    "C91_leading_absolute_root",
    "C91_leading_url_root",
    "C91_any_name_refuted"
   ],
   "note": ""
  },
  {
   "property": "C92",
   "status": "proved",
   "theorems": [
    "C92_internal_name",
    "C92_directory",
    "C92_source",
    "C92_verdict",
    "C92_normal_map_url_refuted"
   ],
   "note": ""
  },
  {
   "property": "C93",
   "status": "proved",
   "theorems": [
    "C93_source",
    "C93_source_with_map",
    "C93_root",
    "C93_join_file",
    "C93_join_path",
    "C93_localhost",
    "C93_map_url_verdict"
   ],
   "note": ""
  },
  {
   "property": "C94",
   "status": "proved",
   "theorems": [
    "C94_opens_exactly",
    "C94_directory"
   ],
   "note": ""
  },
  {
   "property": "C95",
   "status": "proved",
   "theorems": [
    "C95_opens_exactly"
   ],
   "note": ""
  },
  {
   "property": "C96",
   "status": "proved",
   "theorems": [
    "C96_relative_verdict",
    "C96_generates_exactly",
    "C96_names"
   ],
   "note": ""
  },
  {
   "property": "C97",
   "status": "proved",
   "theorems": [
    "C97_debug_sorted",
    "C97_add",
    "C97_add_mapping",
    "C97_release",
    "C97_release_order_refuted",
    "C97_unavailable"
   ],
   "note": ""
  },
  {
   "property": "C98",
   "status": "proved",
   "theorems": [
    "C98_source",
    "C98_opens_exactly",
    "C98_opens_indexed",
    "C98_directory"
   ],
   "note": ""
  },
  {
   "property": "C99",
   "status": "proved",
   "theorems": [
    "C99_written_exactly_when",
    "C99_needed",
    "C99_writes",
    "C99_read_back"
   ],
   "note": ""
  },
  {
   "property": "C100",
   "status": "proved",
   "theorems": [
    "C100_opens",
    "C100_reported",
    "C100_original",
    "C100_generated",
    "C100_all_generated"
   ],
   "note": ""
  },
  {
   "property": "C101",
   "status": "proved",
   "theorems": [
    "C101_at_mappings",
    "C101_no_way_back",
    "C101_there_and_back",
    "C101_same_place_refuted"
   ],
   "note": ""
  },
  {
   "property": "C102",
   "status": "proved",
   "theorems": [
    "C102_finds_exactly",
    "C102_written_names",
    "C102_listed_names"
   ],
   "note": ""
  },
  {
   "property": "C103",
   "status": "proved",
   "theorems": [
    "C103_renamed_history",
    "C103_sections",
    "C103_spellings"
   ],
   "note": ""
  },
  {
   "property": "C104",
   "status": "proved",
   "theorems": [
    "C104_generator",
    "C104_each_mapping",
    "C104_original",
    "C104_generated"
   ],
   "note": ""
  },
  {
   "property": "C105",
   "status": "proved",
   "theorems": [
    "C105_names",
    "C105_any_order_refuted",
    "C105_contents_in_root_refuted"
   ],
   "note": ""
  },
  {
   "property": "C106",
   "status": "proved",
   "theorems": [
    "C106_twins"
   ],
   "note": ""
  },
  {
   "property": "C107",
   "status": "proved",
   "theorems": [
    "C107_sections"
   ],
   "note": ""
  },
  {
   "property": "C108",
   "status": "proved",
   "theorems": [
    "C108_opens",
    "C108_answers",
    "C108_at_start"
   ],
   "note": ""
  },
  {
   "property": "C109",
   "status": "proved",
   "theorems": [
    "C109_quiet_calls",
    "C109_same_loud_calls",
    "C109_indexed",
    "C109_own_section"
   ],
   "note": ""
  },
  {
   "property": "C110",
   "status": "proved",
   "theorems": [
    "C110_no_panic",
    "C110_no_panic_indexed",
    "C110_no_trace",
    "C110_as_passing",
    "C110_source_lookup",
    "C110_source_content_for",
    "C110_each_mapping",
    "C110_original_position_for",
    "C110_generated_position_for",
    "C110_all_generated",
    "C110_indexed",
    "C110_indexed_alike",
    "C110_indexed_section"
   ],
   "note": ""
  },
  {
   "property": "C111",
   "status": "proved",
   "theorems": [
    "C111_some_history",
    "C111_no_panic",
    "C111_as_passing",
    "C111_roundtrip",
    "C111_arrays",
    "C111_mappings",
    "C111_release_keeps_all",
    "C111_contents",
    "C111_contents_root",
    "C111_add",
    "C111_debug_sorted",
    "C111_json_panics_again",
    "C111_add_all_or_nothing_refuted"
   ],
   "note": ""
  },
  {
   "property": "C112",
   "status": "proved",
   "theorems": [
    "C112_same_map",
    "C112_same_map_debug",
    "C112_same_reading",
    "C112_original",
    "C112_generated",
    "C112_all_generated",
    "C112_one_place_refuted",
    "C112_generated_refuted"
   ],
   "note": ""
  },
  {
   "property": "C113",
   "status": "proved",
   "theorems": [
    "C113_original",
    "C113_generated",
    "C113_later_calls",
    "C113_all_generated",
    "C113_monotone_refuted"
   ],
   "note": ""
  },
  {
   "property": "C114",
   "status": "proved",
   "theorems": [
    "C114_places",
    "C114_places_new",
    "C114_places_create",
    "C114_texts",
    "C114_texts_new",
    "C114_indexed",
    "C114_indexed_new",
    "C114_sections",
    "C114_sections_new",
    "C114_version_refuted"
   ],
   "note": ""
  },
  {
   "property": "C115",
   "status": "proved",
   "theorems": [
    "C115_same_section",
    "C115_behind",
    "C115_front",
    "C115_one_section",
    "C115_section_or_none"
   ],
   "note": ""
  },
  {
   "property": "C116",
   "status": "proved",
   "theorems": [
    "C116_opens",
    "C116_answers",
    "C116_default_refuted"
   ],
   "note": ""
  },
  {
   "property": "C117",
   "status": "proved",
   "theorems": [
    "C117_original",
    "C117_generated",
    "C117_generated_none",
    "C117_indexed_refuted"
   ],
   "note": ""
  }
 ]
}