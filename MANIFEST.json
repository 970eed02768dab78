{
 "claims": [
  {
   "property": "C01",
   "status": "proved",
   "theorems": [
    "C01_link_symmetry",
    "C01_reachable_wf",
    "C01_step"
   ],
   "note": ""
  },
  {
   "property": "C02",
   "status": "proved",
   "theorems": [
    "C02_insert_next_other_chain",
    "C02_insert_prev_other_chain",
    "C02_insert_next_from_before",
    "C02_insert_next_from_after",
    "C02_insert_prev_from_before",
    "C02_insert_prev_from_after",
    "C02_insert_noop"
   ],
   "note": ""
  },
  {
   "property": "C03",
   "status": "proved",
   "theorems": [
    "C03_replace_next",
    "C03_replace_prev",
    "C03_replace_next_same_chain",
    "C03_replace_prev_same_chain",
    "C03_replace_noop"
   ],
   "note": ""
  },
  {
   "property": "C04",
   "status": "proved",
   "theorems": [
    "C04_take_next",
    "C04_take_prev",
    "C04_take_nothing"
   ],
   "note": ""
  },
  {
   "property": "C05",
   "status": "proved",
   "theorems": [
    "C05_remove_next",
    "C05_remove_prev"
   ],
   "note": ""
  },
  {
   "property": "C06",
   "status": "proved",
   "theorems": [
    "C06_isolate"
   ],
   "note": ""
  },
  {
   "property": "C07",
   "status": "proved",
   "theorems": [
    "C07_payload",
    "C07_links"
   ],
   "note": ""
  },
  {
   "property": "C08",
   "status": "proved",
   "theorems": [
    "C08_histories",
    "C08_replace_next",
    "C08_replace_prev",
    "C08_step",
    "C08_every_node_on_a_chain"
   ],
   "note": ""
  },
  {
   "property": "C09",
   "status": "proved",
   "theorems": [
    "C09_iter_next",
    "C09_iter_prev",
    "C09_first_last",
    "C09_nil",
    "C09_cycle_diverges"
   ],
   "note": ""
  },
  {
   "property": "C10",
   "status": "proved",
   "theorems": [
    "C10_copy_chain",
    "C10_copy_terminates_iff",
    "C10_copy_single",
    "C10_copy_nil"
   ],
   "note": ""
  },
  {
   "property": "C11",
   "status": "proved",
   "theorems": [
    "C11_copy_independent"
   ],
   "note": ""
  },
  {
   "property": "C12",
   "status": "proved",
   "theorems": [
    "C12_combine_next",
    "C12_combine_prev",
    "C12_combine_next_run",
    "C12_combine_nil_receiver"
   ],
   "note": ""
  },
  {
   "property": "C13",
   "status": "proved",
   "theorems": [
    "C13_no_panic_refuted",
    "C13_panic_iff",
    "C13_all_nil_changes_nothing",
    "C13_readers",
    "C13_nil_argument",
    "C13_nil_receiver"
   ],
   "note": ""
  },
  {
   "property": "C14",
   "status": "proved",
   "theorems": [
    "C14_new_nodes",
    "C14_new_nodes_none",
    "C14_new_nodes_lines",
    "C14_new_nodes_lines_right",
    "C14_new_nodes_lines_refuted"
   ],
   "note": ""
  },
  {
   "property": "C15",
   "status": "proved",
   "theorems": [
    "C15_kind_new_spec",
    "C15_class_total",
    "C15_class_functional"
   ],
   "note": ""
  },
  {
   "property": "C16",
   "status": "proved",
   "theorems": [
    "C16_digits_every_byte",
    "C16_operators_every_byte",
    "C16_number_bytes",
    "C16_symbol_bytes"
   ],
   "note": ""
  },
  {
   "property": "C17",
   "status": "proved",
   "theorems": [
    "C17_get_close_spec",
    "C17_get_close_involutive",
    "C17_get_close_else"
   ],
   "note": ""
  },
  {
   "property": "C18",
   "status": "proved",
   "theorems": [
    "C18_fixed_text_recovered",
    "C18_never_pointer_or_address",
    "C18_all_fixed_text_recovered_refuted",
    "C18_fixed_text_injective"
   ],
   "note": ""
  },
  {
   "property": "C19",
   "status": "proved",
   "theorems": [
    "C19_scope_keyword_spec",
    "C19_no_scope_keyword",
    "C19_order_independent",
    "C19_at_most_one_keyword",
    "C19_identifier_taken_for_keyword"
   ],
   "note": ""
  },
  {
   "property": "C20",
   "status": "proved",
   "theorems": [
    "C20_has_suffix_spec",
    "C20_has_prefix_ascii",
    "C20_has_prefix_complete",
    "C20_has_prefix_sound_refuted",
    "C20_has_prefix_exact",
    "C20_has_prefix_runes",
    "C20_rune_starts_total"
   ],
   "note": ""
  },
  {
   "property": "C21",
   "status": "proved",
   "theorems": [
    "C21_tidy_bytewise",
    "C21_tidy_one_line",
    "C21_description_one_line",
    "C21_kind_names_one_line"
   ],
   "note": ""
  },
  {
   "property": "C22",
   "status": "proved",
   "theorems": [
    "C22_append_spec",
    "C22_no_repeat"
   ],
   "note": ""
  },
  {
   "property": "C23",
   "status": "proved",
   "theorems": [
    "C23_new_contain",
    "C23_new_slice_contain",
    "C23_nil_contain"
   ],
   "note": ""
  },
  {
   "property": "C24",
   "status": "proved",
   "theorems": [
    "C24_found_iff",
    "C24_value_of_last_overwrite",
    "C24_value_otherwise_zero",
    "C24_cases",
    "C24_nil_trie",
    "C24_insert_next"
   ],
   "note": ""
  },
  {
   "property": "C25",
   "status": "proved",
   "theorems": [
    "C25_longer_text_keeps_values_refuted",
    "C25_longer_text_resets",
    "C25_other_texts_keep_values",
    "C25_added_is_found"
   ],
   "note": ""
  },
  {
   "property": "C26",
   "status": "proved",
   "theorems": [
    "C26_order_independent",
    "C26_order_independent_refuted"
   ],
   "note": ""
  },
  {
   "property": "C27",
   "status": "proved",
   "theorems": [
    "C27_text_and_byte_agree",
    "C27_reverse_text_and_byte_agree",
    "C27_text_and_byte_agree_refuted",
    "C27_reverse_of_added"
   ],
   "note": ""
  },
  {
   "property": "C28",
   "status": "proved",
   "theorems": [
    "C28_tokeniser_lossless"
   ],
   "note": ""
  },
  {
   "property": "C29",
   "status": "proved",
   "theorems": [
    "C29_tokeniser_terminates",
    "C29_chain_determined"
   ],
   "note": ""
  },
  {
   "property": "C30",
   "status": "proved",
   "theorems": [
    "C30_tokeniser_scans",
    "C30_tokens_unique",
    "C30_tokens_total",
    "C30_first_token_unique"
   ],
   "note": ""
  },
  {
   "property": "C31",
   "status": "proved",
   "theorems": [
    "C31_order_independent"
   ],
   "note": ""
  },
  {
   "property": "C32",
   "status": "proved",
   "theorems": [
    "C32_line",
    "C32_line_cut_off",
    "C32_line_bracket_bounds",
    "C32_line_bracket_after_word",
    "C32_line_refuted"
   ],
   "note": ""
  },
  {
   "property": "C33",
   "status": "proved",
   "theorems": [
    "C33_string_end",
    "C33_raw_string_end",
    "C33_line_comment_end",
    "C33_block_comment_end",
    "C33_string_end_exact",
    "C33_block_comment_end_exact",
    "C33_ends_refuted"
   ],
   "note": ""
  },
  {
   "property": "C34",
   "status": "proved",
   "theorems": [
    "C34_partition"
   ],
   "note": ""
  },
  {
   "property": "C35",
   "status": "proved",
   "theorems": [
    "C35_scope_starts",
    "C35_kind_determined",
    "C35_keyword_refuted"
   ],
   "note": ""
  },
  {
   "property": "C36",
   "status": "proved",
   "theorems": [
    "C36_start_line",
    "C36_first_missed",
    "C36_start_line_refuted"
   ],
   "note": ""
  },
  {
   "property": "C37",
   "status": "proved",
   "theorems": [
    "C37_parse_scope_terminates"
   ],
   "note": ""
  },
  {
   "property": "C38",
   "status": "proved",
   "theorems": [
    "C38_refinement_well_formed",
    "C38_parse_scope_refines"
   ],
   "note": ""
  },
  {
   "property": "C39",
   "status": "proved",
   "theorems": [
    "C39_text_kept"
   ],
   "note": ""
  },
  {
   "property": "C40",
   "status": "proved",
   "theorems": [
    "C40_others_unrefined",
    "C40_scope_kinds"
   ],
   "note": ""
  },
  {
   "property": "C41",
   "status": "proved",
   "theorems": [
    "C41_func_name",
    "C41_func_name_gap"
   ],
   "note": ""
  },
  {
   "property": "C42",
   "status": "proved",
   "theorems": [
    "C42_named_receiver",
    "C42_unnamed_receiver",
    "C42_method_refuted"
   ],
   "note": ""
  },
  {
   "property": "C43",
   "status": "proved",
   "theorems": [
    "C43_type_name",
    "C43_struct_interface_name",
    "C43_type_name_gap"
   ],
   "note": ""
  },
  {
   "property": "C44",
   "status": "proved",
   "theorems": [
    "C44_guarded",
    "C44_func_name",
    "C44_method_receiver",
    "C44_method_name",
    "C44_type_name",
    "C44_struct_name",
    "C44_interface_name",
    "C44_refuted"
   ],
   "note": ""
  },
  {
   "property": "C45",
   "status": "proved",
   "theorems": [
    "C45_package",
    "C45_new_ast",
    "C45_package_clause",
    "C45_package_name_refuted"
   ],
   "note": ""
  },
  {
   "property": "C46",
   "status": "proved",
   "theorems": [
    "C46_save"
   ],
   "note": ""
  },
  {
   "property": "C47",
   "status": "proved",
   "theorems": [
    "C47_save_states",
    "C47_emptied",
    "C47_atomic_refuted"
   ],
   "note": ""
  },
  {
   "property": "C48",
   "status": "proved",
   "theorems": [
    "C48_parse_ast",
    "C48_not_exist"
   ],
   "note": ""
  },
  {
   "property": "C49",
   "status": "proved",
   "theorems": [
    "C49_text_of_parsed",
    "C49_parse_then_save",
    "C49_no_types",
    "C49_unconditional_refuted"
   ],
   "note": ""
  },
  {
   "property": "C50",
   "status": "proved",
   "theorems": [
    "C50_ast_copy"
   ],
   "note": ""
  },
  {
   "property": "C51",
   "status": "proved",
   "theorems": [
    "C51_append_scope",
    "C51_append_apart",
    "C51_set_scope",
    "C51_copy_apart",
    "C51_isolated_refuted"
   ],
   "note": ""
  },
  {
   "property": "C52",
   "status": "proved",
   "theorems": [
    "C52_shown_line_unique",
    "C52_node_description",
    "C52_scope_description",
    "C52_new_scope",
    "C52_scope_description_refuted"
   ],
   "note": ""
  },
  {
   "property": "C53",
   "status": "proved",
   "theorems": [
    "C53_iter_scope",
    "C53_ast_description"
   ],
   "note": ""
  },
  {
   "property": "C54",
   "status": "proved",
   "theorems": [
    "C54_function_kinds",
    "C54_single_identifier_refuted",
    "C54_function_parameter_refuted"
   ],
   "note": ""
  },
  {
   "property": "C55",
   "status": "proved",
   "theorems": [
    "C55_struct_kinds",
    "C55_one_line_refuted",
    "C55_embedded_comment_refuted"
   ],
   "note": ""
  },
  {
   "property": "C56",
   "status": "proved",
   "theorems": [
    "C56_interface_kinds",
    "C56_one_line_refuted",
    "C56_union_refuted"
   ],
   "note": ""
  },
  {
   "property": "C57",
   "status": "proved",
   "theorems": [
    "C57_type_kinds",
    "C57_single_result_refuted"
   ],
   "note": ""
  },
  {
   "property": "C58",
   "status": "proved",
   "theorems": [
    "C58_scope_kind_tables",
    "C58_other_scope_kinds",
    "C58_names_unique",
    "C58_scope_to_kind"
   ],
   "note": ""
  },
  {
   "property": "C59",
   "status": "proved",
   "theorems": [
    "C59_parse_total",
    "C59_text_determines",
    "C59_scope_at_total",
    "C59_scope_local"
   ],
   "note": ""
  },
  {
   "property": "C60",
   "status": "proved",
   "theorems": [
    "C60_concatenation",
    "C60_declarations",
    "C60_edit",
    "C60_unconditional_refuted"
   ],
   "note": ""
  },
  {
   "property": "C61",
   "status": "proved",
   "theorems": [
    "C61_next_kept",
    "C61_prev_kept",
    "C61_strip",
    "C61_strip_first",
    "C61_detached_ends",
    "C61_isolate_each",
    "C61_grow_diverges"
   ],
   "note": ""
  },
  {
   "property": "C62",
   "status": "proved",
   "theorems": [
    "C62_scopes_in_source",
    "C62_lines_ordered"
   ],
   "note": ""
  },
  {
   "property": "C63",
   "status": "proved",
   "theorems": [
    "C63_no_interference",
    "C63_schedule_irrelevant",
    "C63_footprint",
    "C63_shared_nodes_refuted"
   ],
   "note": ""
  },
  {
   "property": "C64",
   "status": "proved",
   "theorems": [
    "C64_nodes_per_token",
    "C64_at_most_one_node_per_byte"
   ],
   "note": ""
  },
  {
   "property": "C65",
   "status": "proved",
   "theorems": [
    "C65_edit",
    "C65_parsed",
    "C65_parse_edit_save",
    "C65_session",
    "C65_move",
    "C65_insert_without_take"
   ],
   "note": ""
  },
  {
   "property": "C66",
   "status": "proved",
   "theorems": [
    "C66_shown",
    "C66_shown_only",
    "C66_unique",
    "C66_reads",
    "C66_call",
    "C66_rules",
    "C66_rules_copy",
    "C66_histories",
    "C66_histories_no_replace",
    "C66_save"
   ],
   "note": ""
  },
  {
   "property": "C67",
   "status": "proved",
   "theorems": [
    "C67_strip",
    "C67_file",
    "C67_only_comments_refuted"
   ],
   "note": ""
  },
  {
   "property": "C68",
   "status": "proved",
   "theorems": [
    "C68_rename_func",
    "C68_rename_type",
    "C68_reproduced"
   ],
   "note": ""
  },
  {
   "property": "C69",
   "status": "proved",
   "theorems": [
    "C69_node_print",
    "C69_parsed_nodes",
    "C69_usecase",
    "C69_usecase_parsed",
    "C69_debug_text"
   ],
   "note": ""
  },
  {
   "property": "C70",
   "status": "proved",
   "theorems": [
    "C70_equal",
    "C70_opposite",
    "C70_reflexive",
    "C70_symmetric",
    "C70_sound",
    "C70_exact",
    "C70_transitive",
    "C70_equal_refuted",
    "C70_nil",
    "C70_nil_refuted",
    "C70_error",
    "C70_panic"
   ],
   "note": ""
  },
  {
   "property": "C71",
   "status": "proved",
   "theorems": [
    "C71_assemble"
   ],
   "note": ""
  },
  {
   "property": "C72",
   "status": "proved",
   "theorems": [
    "C72_tokens",
    "C72_parse",
    "C72_getters",
    "C72_rename_everywhere",
    "C72_literals",
    "C72_any_word_refuted"
   ],
   "note": ""
  },
  {
   "property": "C73",
   "status": "proved",
   "theorems": [
    "C73_chain_or_ring",
    "C73_good_or_bad",
    "C73_ring_for_ever",
    "C73_save",
    "C73_description",
    "C73_copy",
    "C73_returns",
    "C73_package"
   ],
   "note": ""
  },
  {
   "property": "C74",
   "status": "proved",
   "theorems": [
    "C74_read_back",
    "C74_nodes",
    "C74_iff",
    "C74_unambiguous",
    "C74_every_text",
    "C74_separators_matter_refuted"
   ],
   "note": ""
  },
  {
   "property": "C75",
   "status": "proved",
   "theorems": [
    "C75_self_contained",
    "C75_parse",
    "C75_save",
    "C75_getters",
    "C75_names_and_types_refuted",
    "C75_restrictions_refuted"
   ],
   "note": ""
  },
  {
   "property": "C76",
   "status": "proved",
   "theorems": [
    "C76_parsed",
    "C76_saved",
    "C76_determined",
    "C76_select",
    "C76_add",
    "C76_set_text",
    "C76_set_kind",
    "C76_take_next",
    "C76_insert",
    "C76_new_scope",
    "C76_rewrite",
    "C76_reach",
    "C76_make",
    "C76_generate",
    "C76_transform",
    "C76_retext",
    "C76_rename",
    "C76_package",
    "C76_open",
    "C76_save_open",
    "C76_any_tokens_refuted"
   ],
   "note": ""
  },
  {
   "property": "C77",
   "status": "proved",
   "theorems": [
    "C77_save",
    "C77_save_safe",
    "C77_save_only_node",
    "C77_description",
    "C77_copy",
    "C77_iter_scope",
    "C77_package",
    "C77_new_ast",
    "C77_save_like",
    "C77_description_like",
    "C77_package_like",
    "C77_copy_like",
    "C77_snapshot_refuted"
   ],
   "note": ""
  },
  {
   "property": "C78",
   "status": "proved",
   "theorems": [
    "C78_contents",
    "C78_frame",
    "C78_others",
    "C78_result",
    "C78_collect",
    "C78_joined_unique",
    "C78_survives_refuted",
    "C78_copy_refuted"
   ],
   "note": ""
  }
 ]
}