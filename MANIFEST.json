{
 "claims": [
  {
   "property": "C01",
   "status": "proved",
   "theorems": [
    "C01_apply_is_splicing",
    "C01_outside_elements_kept",
    "C01_new_values_in_place",
    "C01_length"
   ],
   "note": "Specification: splice1/splice_all/group_in/untouched/net_growth/total_growth in SpecEdit.v, SpecLabels.v."
  },
  {
   "property": "C02",
   "status": "proved",
   "theorems": [
    "C02_inverse_undoes",
    "C02_unguarded_refuted_assertion",
    "C02_unguarded_refuted_order",
    "C02_inverse_total"
   ],
   "note": "Side condition no_touching_deletions; the law without it is refuted (two witnesses) and the behaviour of inverse is characterised in general."
  },
  {
   "property": "C03",
   "status": "proved",
   "theorems": [
    "C03_inverse_inverse"
   ],
   "note": ""
  },
  {
   "property": "C04",
   "status": "proved",
   "theorems": [
    "C04_add_all_accepts"
   ],
   "note": ""
  },
  {
   "property": "C05",
   "status": "proved",
   "theorems": [
    "C05_order_irrelevant",
    "C05_same_position_refuted"
   ],
   "note": "Positive part for distinct positions; dependence on set order otherwise refutes the unguarded claim."
  },
  {
   "property": "C06",
   "status": "proved",
   "theorems": [
    "C06_reversed_replacement_dropped",
    "C06_reversed_span_dropped"
   ],
   "note": ""
  },
  {
   "property": "C07",
   "status": "proved",
   "theorems": [
    "C07_spans_partition",
    "C07_add_all_accepts",
    "C07_joining",
    "C07_tilings_accepted",
    "C07_zero_width_order_refuted",
    "C07_accepted_iff"
   ],
   "note": "Acceptance under reordering refuted for zero-width spans."
  },
  {
   "property": "C08",
   "status": "proved",
   "theorems": [
    "C08_gen_span_group"
   ],
   "note": ""
  },
  {
   "property": "C09",
   "status": "proved",
   "theorems": [
    "C09_gen_replacement_group"
   ],
   "note": ""
  },
  {
   "property": "C10",
   "status": "proved",
   "theorems": [
    "C10_propagate",
    "C10_propagate_total"
   ],
   "note": ""
  },
  {
   "property": "C11",
   "status": "proved",
   "theorems": [
    "C11_get_most_common",
    "C11_get_most_common_except_not_entity",
    "C11_default_transducer",
    "C11_first_mode_unique"
   ],
   "note": ""
  },
  {
   "property": "C12",
   "status": "proved",
   "theorems": [
    "C12_reduce_expand",
    "C12_expand_reduce",
    "C12_incompatible",
    "C12_reduce_values"
   ],
   "note": ""
  },
  {
   "property": "C13",
   "status": "proved",
   "theorems": [
    "C13_forward_zeroes",
    "C13_inverse_raises",
    "C13_tokenizers",
    "C13_others"
   ],
   "note": ""
  },
  {
   "property": "C14",
   "status": "proved",
   "theorems": [
    "C14_label_lengths",
    "C14_inverse_always_succeeds_refuted"
   ],
   "note": ""
  },
  {
   "property": "C15",
   "status": "proved",
   "theorems": [
    "C15_lowercase",
    "C15_idempotent"
   ],
   "note": ""
  },
  {
   "property": "C16",
   "status": "proved",
   "theorems": [
    "C16_runs_to_one_blank",
    "C16_no_adjacent_whitespace",
    "C16_idempotent",
    "C16_other_labels_survive"
   ],
   "note": ""
  },
  {
   "property": "C17",
   "status": "proved",
   "theorems": [
    "C17_strip",
    "C17_back_and_forth",
    "C17_idempotent",
    "C17_after_merge"
   ],
   "note": ""
  },
  {
   "property": "C18",
   "status": "proved",
   "theorems": [
    "C18_int_token",
    "C18_int_token_labels",
    "C18_int_token_with_space",
    "C18_int_token_with_space_labels",
    "C18_num_token_with_space",
    "C18_num_token_with_space_labels",
    "C18_no_number_left",
    "C18_idempotent"
   ],
   "note": ""
  },
  {
   "property": "C19",
   "status": "proved",
   "theorems": [
    "C19_float_token",
    "C19_float_token_labels",
    "C19_float_token_with_space",
    "C19_float_token_with_space_labels",
    "C19_no_number_left",
    "C19_idempotent"
   ],
   "note": ""
  },
  {
   "property": "C20",
   "status": "proved",
   "theorems": [
    "C20_search_is_leftmost",
    "C20_scan_takes_leftmost_matches",
    "C20_any_engine",
    "C20_labels",
    "C20_labels_lost",
    "C20_ends_without_empty_match",
    "C20_empty_match_diverges",
    "C20_always_ends_refuted",
    "C20_construction"
   ],
   "note": ""
  },
  {
   "property": "C21",
   "status": "proved",
   "theorems": [
    "C21_pure_numbers",
    "C21_not_a_string"
   ],
   "note": ""
  },
  {
   "property": "C22",
   "status": "proved",
   "theorems": [
    "C22_punctuation_to_blank",
    "C22_idempotent"
   ],
   "note": ""
  },
  {
   "property": "C23",
   "status": "proved",
   "theorems": [
    "C23_around_cjk",
    "C23_around_punctuation",
    "C23_round_trip",
    "C23_only_blanks_added"
   ],
   "note": ""
  },
  {
   "property": "C24",
   "status": "proved",
   "theorems": [
    "C24_construction",
    "C24_without_words",
    "C24_around_words",
    "C24_segmentation_exists",
    "C24_round_trip",
    "C24_only_blanks_added"
   ],
   "note": ""
  },
  {
   "property": "C25",
   "status": "proved",
   "theorems": [
    "C25_pad",
    "C25_idempotent",
    "C25_round_trip",
    "C25_negative",
    "C25_too_long"
   ],
   "note": ""
  },
  {
   "property": "C26",
   "status": "proved",
   "theorems": [
    "C26_sos_eos",
    "C26_end_token",
    "C26_round_trip",
    "C26_end_token_empty",
    "C26_empty_list",
    "C26_empty_list_order_refuted",
    "C26_same_tokens_refuted",
    "C26_too_long",
    "C26_construction"
   ],
   "note": ""
  },
  {
   "property": "C27",
   "status": "proved",
   "theorems": [
    "C27_construction",
    "C27_indices",
    "C27_range",
    "C27_injective"
   ],
   "note": ""
  },
  {
   "property": "C28",
   "status": "proved",
   "theorems": [
    "C28_construction",
    "C28_indices",
    "C28_range",
    "C28_not_a_string"
   ],
   "note": ""
  },
  {
   "property": "C29",
   "status": "proved",
   "theorems": [
    "C29_pieces",
    "C29_always_succeeds",
    "C29_split_is_unique",
    "C29_pieces_join",
    "C29_empty_tokens_vanish"
   ],
   "note": ""
  },
  {
   "property": "C30",
   "status": "proved",
   "theorems": [
    "C30_labels",
    "C30_round_trip",
    "C30_empty_tokens_refuted"
   ],
   "note": ""
  },
  {
   "property": "C31",
   "status": "proved",
   "theorems": [
    "C31_strip_accents"
   ],
   "note": ""
  },
  {
   "property": "C32",
   "status": "proved",
   "theorems": [
    "C32_only_whitespace_lost",
    "C32_nothing_lost"
   ],
   "note": ""
  },
  {
   "property": "C33",
   "status": "proved",
   "theorems": [
    "C33_char_tokenizer",
    "C33_whitespace_tokenizer",
    "C33_back_and_forth",
    "C33_mode_is_most_common"
   ],
   "note": ""
  },
  {
   "property": "C34",
   "status": "proved",
   "theorems": [
    "C34_construction",
    "C34_exact_search",
    "C34_match_prefix",
    "C34_empty_word_refuted"
   ],
   "note": ""
  },
  {
   "property": "C35",
   "status": "proved",
   "theorems": [
    "C35_construction",
    "C35_without_words",
    "C35_maximal_munch",
    "C35_segmentation_exists"
   ],
   "note": ""
  },
  {
   "property": "C36",
   "status": "proved",
   "theorems": [
    "C36_eng_tokenizer",
    "C36_zh_char_tokenizer",
    "C36_cut_exists"
   ],
   "note": ""
  },
  {
   "property": "C37",
   "status": "proved",
   "theorems": [
    "C37_operators_in_order",
    "C37_first_failure",
    "C37_labels_in_order",
    "C37_labels_in_reverse_order",
    "C37_labels_first_failure",
    "C37_labels_reverse_first_failure",
    "C37_datum"
   ],
   "note": ""
  },
  {
   "property": "C38",
   "status": "proved",
   "theorems": [
    "C38_checkpoint",
    "C38_unknown_name",
    "C38_later_calls_keep_it",
    "C38_added_later",
    "C38_results_are_independent_refuted"
   ],
   "note": ""
  },
  {
   "property": "C39",
   "status": "proved",
   "theorems": [
    "C39_adjacent_types_match",
    "C39_inputs_have_the_right_type",
    "C39_add_op",
    "C39_failed_call_changes_nothing_refuted",
    "C39_no_type_error_refuted",
    "C39_step_slices_refuted",
    "C39_add"
   ],
   "note": ""
  },
  {
   "property": "C40",
   "status": "proved",
   "theorems": [
    "C40_succeeds_iff",
    "C40_errors",
    "C40_one_after_the_other",
    "C40_labels",
    "C40_in_place",
    "C40_in_place_is_concatenation",
    "C40_steps_are_associative",
    "C40_checkpoints",
    "C40_checkpoints_of_added_pipes",
    "C40_right_checkpoints_refuted",
    "C40_associative_refuted",
    "C40_empty_pipe_is_neutral_refuted"
   ],
   "note": ""
  },
  {
   "property": "C41",
   "status": "proved",
   "theorems": [
    "C41_steps",
    "C41_item",
    "C41_with_start_and_stop_succeeds",
    "C41_runs_and_checkpoints",
    "C41_without_start",
    "C41_any_slice",
    "C41_errors",
    "C41_checkpoints",
    "C41_checkpoints_denote_the_same_refuted",
    "C41_negative_start_refuted",
    "C41_without_start_refuted"
   ],
   "note": ""
  },
  {
   "property": "C42",
   "status": "proved",
   "theorems": [
    "C42_round_trip",
    "C42_unregistered_class",
    "C42_fresh_process_refuted",
    "C42_mismatching_steps"
   ],
   "note": ""
  },
  {
   "property": "C43",
   "status": "proved",
   "theorems": [
    "C43_recorded_configuration",
    "C43_equal_iff",
    "C43_equal_operators_behave_alike",
    "C43_round_trip",
    "C43_foreign_text",
    "C43_unregistered_class",
    "C43_equal_pipes_iff",
    "C43_equal_pipes_behave_alike",
    "C43_tuple_round_trip_refuted",
    "C43_same_behaviour_is_equal_refuted"
   ],
   "note": ""
  },
  {
   "property": "C44",
   "status": "proved",
   "theorems": [
    "C44_labels",
    "C44_inverse_never_raises_refuted"
   ],
   "note": ""
  },
  {
   "property": "C45",
   "status": "proved",
   "theorems": [
    "C45_invariant",
    "C45_value_is_text",
    "C45_disjoint",
    "C45_outcomes",
    "C45_any_order_accepted",
    "C45_defaults",
    "C45_entity",
    "C45_entity_overflow",
    "C45_queries",
    "C45_positions_refuted",
    "C45_order_of_empty_refuted"
   ],
   "note": ""
  },
  {
   "property": "C46",
   "status": "proved",
   "theorems": [
    "C46_unpack",
    "C46_label_is_unique",
    "C46_unpack_succeeds",
    "C46_pack",
    "C46_unpack_pack",
    "C46_pack_unpack",
    "C46_pack_overflow",
    "C46_lengths_differ",
    "C46_empty",
    "C46_unpack_any_datum_refuted",
    "C46_negative_start_refuted",
    "C46_pack_unpack_refuted"
   ],
   "note": ""
  },
  {
   "property": "C47",
   "status": "proved",
   "theorems": [
    "C47_all_combinations",
    "C47_sampled",
    "C47_no_entities",
    "C47_candidates",
    "C47_number",
    "C47_candidates_exist",
    "C47_candidates_unique",
    "C47_combinations",
    "C47_each_once",
    "C47_results",
    "C47_original_values",
    "C47_each_once_refuted"
   ],
   "note": ""
  },
  {
   "property": "C48",
   "status": "proved",
   "theorems": [
    "C48_kth",
    "C48_digits",
    "C48_bijection",
    "C48_all",
    "C48_product",
    "C48_overflow",
    "C48_empty_iterable"
   ],
   "note": ""
  },
  {
   "property": "C49",
   "status": "proved",
   "theorems": [
    "C49_partition",
    "C49_outside_refuted"
   ],
   "note": ""
  },
  {
   "property": "C50",
   "status": "proved",
   "theorems": [
    "C50_value",
    "C50_value_rounded",
    "C50_value_near",
    "C50_one_means_identical_rounded",
    "C50_tiny_rate_refuted",
    "C50_doubles",
    "C50_binary64",
    "C50_costs_unique",
    "C50_range",
    "C50_identical",
    "C50_one_means_identical",
    "C50_same_annotation",
    "C50_symmetric",
    "C50_errors",
    "C50_labels",
    "C50_same_labels_as_unpack"
   ],
   "note": ""
  },
  {
   "property": "C51",
   "status": "proved",
   "theorems": [
    "C51_construction",
    "C51_humanize",
    "C51_humanize_unknown",
    "C51_machanize",
    "C51_machanize_humanize",
    "C51_humanize_machanize",
    "C51_distinct_indices",
    "C51_from_raw_dictionary",
    "C51_collision_refuted",
    "C51_learned_collision_refuted"
   ],
   "note": ""
  },
  {
   "property": "C52",
   "status": "proved",
   "theorems": [
    "C52_murmur3",
    "C52_utf8",
    "C52_encoding_is_unique",
    "C52_consistent_hash",
    "C52_hash_range"
   ],
   "note": ""
  },
  {
   "property": "C53",
   "status": "proved",
   "theorems": [
    "C53_tokens",
    "C53_no_whitespace",
    "C53_without_accents",
    "C53_full",
    "C53_word_piece",
    "C53_pipes_exist",
    "C53_vocabulary",
    "C53_no_capitals_refuted",
    "C53_punctuation_alone_refuted"
   ],
   "note": ""
  },
  {
   "property": "C54",
   "status": "proved",
   "theorems": [
    "C54_stopwords",
    "C54_other_labels_survive"
   ],
   "note": ""
  },
  {
   "property": "C55",
   "status": "proved",
   "theorems": [
    "C55_operator",
    "C55_pipe"
   ],
   "note": ""
  },
  {
   "property": "C56",
   "status": "proved",
   "theorems": [
    "C56_entity_equality",
    "C56_datum_equality",
    "C56_entity_equivalence",
    "C56_datum_equivalence",
    "C56_any_order",
    "C56_dict_round_trip",
    "C56_dict",
    "C56_copy_intents"
   ],
   "note": ""
  },
  {
   "property": "C57",
   "status": "proved",
   "theorems": [
    "C57_unique_entities"
   ],
   "note": ""
  },
  {
   "property": "C58",
   "status": "proved",
   "theorems": [
    "C58_add",
    "C58_reading",
    "C58_items",
    "C58_is_empty",
    "C58_wrong_type",
    "C58_done",
    "C58_failed_done",
    "C58_overlap_is_permanent",
    "C58_equality",
    "C58_readable_is_disjoint_refuted",
    "C58_skip_sort_is_disjoint_refuted",
    "C58_failed_done_is_unreadable_refuted",
    "C58_equality_symmetric_refuted"
   ],
   "note": ""
  },
  {
   "property": "C59",
   "status": "proved",
   "theorems": [
    "C59_add",
    "C59_reading",
    "C59_items",
    "C59_count",
    "C59_done",
    "C59_failed_done",
    "C59_overlap_is_permanent",
    "C59_equality",
    "C59_readable_is_tiling_refuted",
    "C59_equal_groups_cut_alike_refuted",
    "C59_done_iff"
   ],
   "note": ""
  },
  {
   "property": "C60",
   "status": "proved",
   "theorems": [
    "C60_round_trip",
    "C60_injective",
    "C60_content",
    "C60_ascii",
    "C60_checked",
    "C60_json",
    "C60_surrogate_pair_refuted",
    "C60_readable_refuted",
    "C60_injective_refuted"
   ],
   "note": ""
  },
  {
   "property": "C61",
   "status": "proved",
   "theorems": [
    "C61_register",
    "C61_lookup",
    "C61_equality"
   ],
   "note": ""
  },
  {
   "property": "C62",
   "status": "proved",
   "theorems": [
    "C62_basic_everyday",
    "C62_full_everyday",
    "C62_basic_agrees",
    "C62_full_agrees",
    "C62_control_refuted",
    "C62_replacement_refuted",
    "C62_separator_refuted",
    "C62_capital_refuted",
    "C62_stroke_refuted",
    "C62_hangul_refuted"
   ],
   "note": ""
  },
  {
   "property": "C63",
   "status": "proved",
   "theorems": [
    "C63_words",
    "C63_pipe"
   ],
   "note": ""
  },
  {
   "property": "C64",
   "status": "proved",
   "theorems": [
    "C64_names",
    "C64_unbound_arguments",
    "C64_passing_style",
    "C64_without_arguments",
    "C64_Pad",
    "C64_AddSosEos",
    "C64_PureNum2Token",
    "C64_AddEndToken",
    "C64_SpanSubwords",
    "C64_ReplaceAwithB",
    "C64_Token2Index",
    "C64_Token2IndexwithHash",
    "C64_words",
    "C64_no_words"
   ],
   "note": ""
  },
  {
   "property": "C65",
   "status": "proved",
   "theorems": [
    "C65_construction",
    "C65_from_dict",
    "C65_stored",
    "C65_foreign_text",
    "C65_equality"
   ],
   "note": ""
  },
  {
   "property": "C66",
   "status": "proved",
   "theorems": [
    "C66_construction",
    "C66_keywords_only",
    "C66_required_by_position",
    "C66_optional_by_position",
    "C66_equality",
    "C66_equality_refuted",
    "C66_reading_back_refuted",
    "C66_same_arguments_refuted"
   ],
   "note": ""
  },
  {
   "property": "C67",
   "status": "proved",
   "theorems": [
    "C67_class_statement",
    "C67_lookup",
    "C67_abstract_classes",
    "C67_failed_statement_leaves_nothing_refuted"
   ],
   "note": ""
  },
  {
   "property": "C68",
   "status": "proved",
   "theorems": [
    "C68_stepwise",
    "C68_chained",
    "C68_failure",
    "C68_no_type_error",
    "C68_checkpoint",
    "C68_unknown_checkpoint",
    "C68_concatenation",
    "C68_concatenation_refused",
    "C68_library_runs",
    "C68_library_add_op",
    "C68_library_concatenation"
   ],
   "note": ""
  },
  {
   "property": "C69",
   "status": "proved",
   "theorems": [
    "C69_lengths",
    "C69_total",
    "C69_wrong_length",
    "C69_round_trip",
    "C69_null_aligner",
    "C69_errors",
    "C69_inverse_errors",
    "C69_every_result_takes_labels_refuted",
    "C69_library_labels"
   ],
   "note": ""
  },
  {
   "property": "C70",
   "status": "proved",
   "theorems": [
    "C70_recognizer",
    "C70_recognizer_labels_lost",
    "C70_recognizer_output",
    "C70_labels_back_refuted",
    "C70_spacer",
    "C70_honest",
    "C70_library"
   ],
   "note": ""
  },
  {
   "property": "C71",
   "status": "proved",
   "theorems": [
    "C71_tokenizer",
    "C71_accepted_tokens",
    "C71_places_unique"
   ],
   "note": ""
  },
  {
   "property": "C72",
   "status": "proved",
   "theorems": [
    "C72_operators",
    "C72_checkpoints",
    "C72_one_name_per_step",
    "C72_all_added_checkpoints",
    "C72_all_checkpoints_refuted",
    "C72_types",
    "C72_totals",
    "C72_lines",
    "C72_printed"
   ],
   "note": ""
  },
  {
   "property": "C73",
   "status": "proved",
   "theorems": [
    "C73_distinguishes",
    "C73_distinguishes_all_refuted",
    "C73_equal_operators_refuted",
    "C73_short",
    "C73_whole",
    "C73_names",
    "C73_visible",
    "C73_nested_dict",
    "C73_long_number",
    "C73_long_text",
    "C73_first_six"
   ],
   "note": ""
  },
  {
   "property": "C74",
   "status": "proved",
   "theorems": [
    "C74_span",
    "C74_replacement",
    "C74_intent",
    "C74_entity_refuted",
    "C74_replacement_repr_places",
    "C74_replacement_repr",
    "C74_replacement_repr_refuted",
    "C74_replacement_group",
    "C74_entity"
   ],
   "note": ""
  },
  {
   "property": "C75",
   "status": "proved",
   "theorems": [
    "C75_operator",
    "C75_pipe",
    "C75_transform",
    "C75_unpack",
    "C75_pack",
    "C75_datum",
    "C75_expand",
    "C75_ratio",
    "C75_confused_refuted",
    "C75_zero_refuted"
   ],
   "note": ""
  },
  {
   "property": "C76",
   "status": "proved",
   "theorems": [
    "C76_whitespace_before_tokenizers",
    "C76_spacing_before_tokenizers",
    "C76_numbers",
    "C76_merge_strip",
    "C76_spacers",
    "C76_lowercase",
    "C76_once_is_enough",
    "C76_pad_again",
    "C76_index_and_pad",
    "C76_index_and_sos_eos",
    "C76_absent_words",
    "C76_words_of_one_character",
    "C76_words_back_refuted",
    "C76_spacer_and_merge_refuted",
    "C76_whole_numbers_refuted",
    "C76_spacer_twice_refuted",
    "C76_pad_again_refuted"
   ],
   "note": ""
  },
  {
   "property": "C77",
   "status": "proved",
   "theorems": [
    "C77_basic",
    "C77_full",
    "C77_word_piece",
    "C77_what_survives",
    "C77_what_survives_word_piece",
    "C77_what_survives_tokenizers",
    "C77_datum",
    "C77_datum_word_piece",
    "C77_everyday",
    "C77_two_words_refuted",
    "C77_parts_of_words_refuted"
   ],
   "note": ""
  },
  {
   "property": "C78",
   "status": "proved",
   "theorems": [
    "C78_reads",
    "C78_unique",
    "C78_written",
    "C78_written_ascii",
    "C78_operator_text",
    "C78_pipe_text",
    "C78_label_text",
    "C78_operator",
    "C78_operator_refused",
    "C78_pipe",
    "C78_pipe_refused",
    "C78_label",
    "C78_user_operator",
    "C78_user_operator_refused",
    "C78_not_json"
   ],
   "note": ""
  },
  {
   "property": "C79",
   "status": "proved",
   "theorems": [
    "C79_others",
    "C79_operators",
    "C79_new",
    "C79_add_op",
    "C79_iadd",
    "C79_plus",
    "C79_copy",
    "C79_slice",
    "C79_run",
    "C79_intermediate_follows",
    "C79_intermediate_keeps",
    "C79_intermediate_snapshot_refuted",
    "C79_set_steps",
    "C79_set_checkpoints",
    "C79_types",
    "C79_types_direct_refuted",
    "C79_intermediate_direct_refuted",
    "C79_late_name_refuted"
   ],
   "note": ""
  },
  {
   "property": "C80",
   "status": "proved",
   "theorems": [
    "C80_made",
    "C80_not_given",
    "C80_configs",
    "C80_token2index",
    "C80_token2index_hash",
    "C80_subwords",
    "C80_others",
    "C80_in_pipes",
    "C80_stored_same_refuted",
    "C80_readable_refuted",
    "C80_equal_same_refuted"
   ],
   "note": ""
  },
  {
   "property": "C81",
   "status": "proved",
   "theorems": [
    "C81_objects",
    "C81_contents",
    "C81_datum_keeps",
    "C81_keeps_all",
    "C81_assign_intent",
    "C81_assign_entity",
    "C81_assign_datum",
    "C81_make_datum",
    "C81_make_objects",
    "C81_expand",
    "C81_expand_itself",
    "C81_pack",
    "C81_machanize",
    "C81_copy_intents",
    "C81_questions",
    "C81_questions_only_ask",
    "C81_valid",
    "C81_shared_refuted",
    "C81_expand_independent_refuted",
    "C81_always_valid_refuted"
   ],
   "note": ""
  },
  {
   "property": "C82",
   "status": "proved",
   "theorems": [
    "C82_dicts_keep",
    "C82_dict_assigned",
    "C82_made",
    "C82_follows",
    "C82_answers",
    "C82_stays_valid_refuted"
   ],
   "note": ""
  },
  {
   "property": "C83",
   "status": "proved",
   "theorems": [
    "C83_lists_keep",
    "C83_lists_change",
    "C83_labels_keep",
    "C83_labels_change",
    "C83_run",
    "C83_items_keep",
    "C83_forward",
    "C83_back",
    "C83_back_not_shorter",
    "C83_back_never_wrong",
    "C83_input_not_needed_refuted",
    "C83_labels_independent_refuted",
    "C83_output_independent_refuted"
   ],
   "note": ""
  },
  {
   "property": "C84",
   "status": "proved",
   "theorems": [
    "C84_constructor",
    "C84_decides",
    "C84_search",
    "C84_widths",
    "C84_greedy",
    "C84_lazy",
    "C84_first_alternative",
    "C84_plus",
    "C84_optional",
    "C84_optional_lazy",
    "C84_once_more",
    "C84_written",
    "C84_groups",
    "C84_behind",
    "C84_repeats",
    "C84_sequences",
    "C84_alternatives",
    "C84_closed_early",
    "C84_not_closed",
    "C84_nothing_to_repeat",
    "C84_source_patterns",
    "C84_operators",
    "C84_replaced",
    "C84_ends",
    "C84_empty_pattern",
    "C84_cpython",
    "C84_grammar",
    "C84_grammar_unique",
    "C84_constructor_grammar"
   ],
   "note": ""
  },
  {
   "property": "C85",
   "status": "proved",
   "theorems": [
    "C85_text",
    "C85_text_unique",
    "C85_character",
    "C85_there_and_back",
    "C85_words",
    "C85_words_unique",
    "C85_stopwords",
    "C85_any_text_refuted",
    "C85_order_refuted",
    "C85_labels_back_refuted"
   ],
   "note": ""
  },
  {
   "property": "C86",
   "status": "proved",
   "theorems": [
    "C86_layout",
    "C86_injective",
    "C86_intents",
    "C86_few_intents",
    "C86_replacements_refuted",
    "C86_utterance_refuted",
    "C86_equal_refuted"
   ],
   "note": ""
  },
  {
   "property": "C87",
   "status": "proved",
   "theorems": [
    "C87_datum",
    "C87_positions",
    "C87_replacements",
    "C87_place_added_refuted",
    "C87_spans",
    "C87_tokens",
    "C87_add_op",
    "C87_iadd",
    "C87_checkpoint",
    "C87_factory",
    "C87_index",
    "C87_token2index",
    "C87_ordinal"
   ],
   "note": ""
  },
  {
   "property": "C88",
   "status": "proved",
   "theorems": [
    "C88_pack_prints",
    "C88_pack_silent",
    "C88_lines_read",
    "C88_beginnings_unique",
    "C88_only_if_packed_refuted",
    "C88_replacement_group",
    "C88_span_group",
    "C88_silent_is_valid_refuted",
    "C88_pipe_add"
   ],
   "note": ""
  },
  {
   "property": "C89",
   "status": "proved",
   "theorems": [
    "C89_operator_errors",
    "C89_operator_succeeds",
    "C89_pipe_errors",
    "C89_datum_errors",
    "C89_total_pipes",
    "C89_total_pipes_datum"
   ],
   "note": ""
  },
  {
   "property": "C90",
   "status": "proved",
   "theorems": [
    "C90_fixed_size",
    "C90_always_fixed_size",
    "C90_readme",
    "C90_readme_output_refuted"
   ],
   "note": ""
  },
  {
   "property": "C91",
   "status": "proved",
   "theorems": [
    "C91_operator",
    "C91_pipe",
    "C91_total",
    "C91_total_datum",
    "C91_readme"
   ],
   "note": ""
  },
  {
   "property": "C92",
   "status": "proved",
   "theorems": [
    "C92_list_steps",
    "C92_tokens_then",
    "C92_numbers_then",
    "C92_numbers_then_iff",
    "C92_merge",
    "C92_int",
    "C92_float",
    "C92_stopwords",
    "C92_strip",
    "C92_endpoint",
    "C92_replace",
    "C92_replace_twice",
    "C92_pad",
    "C92_custom",
    "C92_char",
    "C92_subwords",
    "C92_subwords_twice",
    "C92_others",
    "C92_steps",
    "C92_steps_iff",
    "C92_numbers",
    "C92_steps_after"
   ],
   "note": ""
  },
  {
   "property": "C93",
   "status": "proved",
   "theorems": [
    "C93_operator",
    "C93_operator_back",
    "C93_pipe",
    "C93_pipe_back",
    "C93_bert",
    "C93_word_piece",
    "C93_fixed",
    "C93_fixed_back",
    "C93_any_pipe_refuted",
    "C93_readme",
    "C93_numbers"
   ],
   "note": ""
  },
  {
   "property": "C94",
   "status": "proved",
   "theorems": [
    "C94_labels",
    "C94_tokens",
    "C94_numbers",
    "C94_numbers_iff",
    "C94_bert",
    "C94_word_piece",
    "C94_readme",
    "C94_readme_refuted"
   ],
   "note": ""
  },
  {
   "property": "C95",
   "status": "proved",
   "theorems": [
    "C95_machanize",
    "C95_described",
    "C95_from_dict",
    "C95_from_dict_described",
    "C95_from_raw_dictionary",
    "C95_corpus",
    "C95_text_for_names_refuted"
   ],
   "note": ""
  },
  {
   "property": "C96",
   "status": "proved",
   "theorems": [
    "C96_operators",
    "C96_pipes",
    "C96_datums",
    "C96_without_sos_eos",
    "C96_building",
    "C96_empty_list_differs",
    "C96_always_refuted"
   ],
   "note": ""
  },
  {
   "property": "C97",
   "status": "proved",
   "theorems": [
    "C97_operators",
    "C97_pipes",
    "C97_merge_exactly",
    "C97_strip_exactly",
    "C97_tokens_exactly",
    "C97_bert_basic",
    "C97_bert_full",
    "C97_bert_word_piece",
    "C97_replace",
    "C97_replace_words",
    "C97_replace_anchored_refuted",
    "C97_replace_empty_refuted",
    "C97_line_by_line_refuted",
    "C97_list_parts_refuted"
   ],
   "note": ""
  },
  {
   "property": "C98",
   "status": "proved",
   "theorems": [
    "C98_made",
    "C98_labels",
    "C98_transform",
    "C98_pack",
    "C98_round_trip",
    "C98_expand",
    "C98_partition",
    "C98_ratio",
    "C98_pack_parts_refuted",
    "C98_outside_refuted"
   ],
   "note": ""
  },
  {
   "property": "C99",
   "status": "proved",
   "theorems": [
    "C99_same_kind",
    "C99_unfinished",
    "C99_other_kinds",
    "C99_equal",
    "C99_not_equal",
    "C99_itself",
    "C99_symmetric",
    "C99_transitive",
    "C99_hashable",
    "C99_hash",
    "C99_hash_value",
    "C99_symmetric_refuted",
    "C99_span_refuted",
    "C99_hash_refuted"
   ],
   "note": ""
  },
  {
   "property": "C100",
   "status": "proved",
   "theorems": [
    "C100_tokens_again",
    "C100_text_from_tokens",
    "C100_same_tokens",
    "C100_told_apart",
    "C100_padding",
    "C100_pieces",
    "C100_indices",
    "C100_hash",
    "C100_word_piece",
    "C100_full",
    "C100_basic_again",
    "C100_told_apart_refuted",
    "C100_padding_refuted",
    "C100_pieces_refuted",
    "C100_basic_again_refuted"
   ],
   "note": ""
  },
  {
   "property": "C101",
   "status": "proved",
   "theorems": [
    "C101_operator",
    "C101_reached",
    "C101_spacers",
    "C101_pieces",
    "C101_pipe",
    "C101_word_piece",
    "C101_basic",
    "C101_full"
   ],
   "note": ""
  },
  {
   "property": "C102",
   "status": "proved",
   "theorems": [
    "C102_accepts",
    "C102_refuses",
    "C102_errors",
    "C102_as_integers",
    "C102_numbers",
    "C102_ignored",
    "C102_humanize",
    "C102_machanize",
    "C102_reads",
    "C102_not_json",
    "C102_agrees",
    "C102_stored",
    "C102_any_value_refuted"
   ],
   "note": ""
  },
  {
   "property": "C103",
   "status": "proved",
   "theorems": [
    "C103_constructor",
    "C103_unpack",
    "C103_transform",
    "C103_pack",
    "C103_partition",
    "C103_expand",
    "C103_ratio",
    "C103_unique_entities",
    "C103_to_dict",
    "C103_humanize",
    "C103_machanize",
    "C103_intents_order_refuted"
   ],
   "note": ""
  },
  {
   "property": "C104",
   "status": "proved",
   "theorems": [
    "C104_call",
    "C104_one_outcome",
    "C104_ordinary_parameters",
    "C104_recorded",
    "C104_read_back",
    "C104_round_trip",
    "C104_stored",
    "C104_equality",
    "C104_equal_classes",
    "C104_inherited",
    "C104_different_arguments_refuted",
    "C104_same_arguments_back_refuted",
    "C104_spelled_out_refuted"
   ],
   "note": ""
  },
  {
   "property": "C105",
   "status": "proved",
   "theorems": [
    "C105_words",
    "C105_foreign_words",
    "C105_order",
    "C105_longer_first",
    "C105_pieces",
    "C105_whole_tokens",
    "C105_entries",
    "C105_hashed",
    "C105_known_tokens",
    "C105_pipe",
    "C105_fewer_tokens_refuted",
    "C105_shortest_refuted",
    "C105_still_spelled_refuted",
    "C105_hash_kept_refuted"
   ],
   "note": ""
  },
  {
   "property": "C106",
   "status": "proved",
   "theorems": [
    "C106_operators",
    "C106_pipes",
    "C106_propagate",
    "C106_before",
    "C106_names",
    "C106_datum",
    "C106_back",
    "C106_user_recognizers",
    "C106_user_spacers",
    "C106_user_tokenizers",
    "C106_user_pipes",
    "C106_all_names_refuted",
    "C106_one_piece_refuted",
    "C106_apart_refuted",
    "C106_zero_before_refuted",
    "C106_outside_refuted",
    "C106_user_refuted"
   ],
   "note": ""
  },
  {
   "property": "C107",
   "status": "proved",
   "theorems": [
    "C107_lowercase",
    "C107_merge",
    "C107_strip",
    "C107_endpoint",
    "C107_numbers",
    "C107_stopwords",
    "C107_spacers",
    "C107_tokenizers",
    "C107_characters",
    "C107_custom",
    "C107_pad",
    "C107_end_token",
    "C107_sos_eos",
    "C107_pure_numbers",
    "C107_indices",
    "C107_hashed_indices",
    "C107_pipes",
    "C107_pipe_last",
    "C107_no_digits_refuted",
    "C107_listed_refuted",
    "C107_spaced_already_refuted",
    "C107_numbers_left_refuted",
    "C107_framed_refuted",
    "C107_replaced_refuted"
   ],
   "note": ""
  },
  {
   "property": "C108",
   "status": "proved",
   "theorems": [
    "C108_numbers",
    "C108_spacers",
    "C108_spaced_words",
    "C108_stopwords",
    "C108_endpoint",
    "C108_replace",
    "C108_replace_twice",
    "C108_pad",
    "C108_end_token",
    "C108_sos_eos",
    "C108_subwords",
    "C108_subwords_twice",
    "C108_every_label",
    "C108_tokenizers",
    "C108_list_pipes",
    "C108_token_pipes",
    "C108_basic_pipe",
    "C108_full_pipe",
    "C108_word_piece_pipe",
    "C108_settling_pipes",
    "C108_datums",
    "C108_every_label_refuted",
    "C108_forward_refuted"
   ],
   "note": ""
  },
  {
   "property": "C109",
   "status": "proved",
   "theorems": [
    "C109_built",
    "C109_refused",
    "C109_other_names",
    "C109_tokenizer",
    "C109_recognizer",
    "C109_spacer",
    "C109_library_run",
    "C109_run",
    "C109_run_back",
    "C109_run_error",
    "C109_stops",
    "C109_add",
    "C109_add_effect",
    "C109_fits",
    "C109_add_library",
    "C109_round_trip",
    "C109_pipe_round_trip",
    "C109_equality",
    "C109_library_equality",
    "C109_pipe_equality",
    "C109_built_runs_refuted"
   ],
   "note": ""
  },
  {
   "property": "C110",
   "status": "proved",
   "theorems": [
    "C110_custom_tokenizer",
    "C110_custom_outputs",
    "C110_word_spacer",
    "C110_word_spacer_outputs",
    "C110_subwords_outputs",
    "C110_subwords_in_vocabulary",
    "C110_subwords_all",
    "C110_pieces_pipe",
    "C110_word_piece_pipe",
    "C110_within_maxlen_refuted",
    "C110_long_words_refuted"
   ],
   "note": ""
  },
  {
   "property": "C111",
   "status": "proved",
   "theorems": [
    "C111_home",
    "C111_again",
    "C111_sampled_again",
    "C111_second_round",
    "C111_unique_entities",
    "C111_original",
    "C111_possible",
    "C111_original_refuted",
    "C111_sampled_labels_refuted"
   ],
   "note": ""
  },
  {
   "property": "C112",
   "status": "proved",
   "theorems": [
    "C112_triangle",
    "C112_triangle_rounded",
    "C112_rate",
    "C112_annotation",
    "C112_counts",
    "C112_high_rate_refuted",
    "C112_negative_rate_refuted"
   ],
   "note": ""
  },
  {
   "property": "C113",
   "status": "proved",
   "theorems": [
    "C113_legible",
    "C113_returns",
    "C113_bert",
    "C113_word_piece",
    "C113_nonzero",
    "C113_other_zero",
    "C113_learned",
    "C113_data",
    "C113_data_bert",
    "C113_data_word_piece",
    "C113_data_accepts",
    "C113_data_round",
    "C113_swapped_refuted"
   ],
   "note": ""
  }
 ]
}