{
 "claims": [
  {
   "property": "C01",
   "status": "proved",
   "theorems": [
    "C01_escaped_data",
    "C01_injective",
    "C01_cdata",
    "C01_display"
   ],
   "note": ""
  },
  {
   "property": "C02",
   "status": "proved",
   "theorems": [
    "C02_length",
    "C02_no_value",
    "C02_escaped_length",
    "C02_cdata_length"
   ],
   "note": ""
  },
  {
   "property": "C03",
   "status": "proved",
   "theorems": [
    "C03_line_ends",
    "C03_no_line_ends",
    "C03_idempotent",
    "C03_not_longer",
    "C03_unchanged"
   ],
   "note": ""
  },
  {
   "property": "C04",
   "status": "proved",
   "theorems": [
    "C04_plain_value",
    "C04_determined"
   ],
   "note": ""
  },
  {
   "property": "C05",
   "status": "proved",
   "theorems": [
    "C05_references_expanded",
    "C05_bad_number_panics"
   ],
   "note": ""
  },
  {
   "property": "C06",
   "status": "proved",
   "theorems": [
    "C06_named_reference_panics",
    "C06_otherwise_returns"
   ],
   "note": ""
  },
  {
   "property": "C07",
   "status": "proved",
   "theorems": [
    "C07_stable",
    "C07_set_value_returns",
    "C07_percent_refuted",
    "C07_white_refuted",
    "C07_line_end_refuted"
   ],
   "note": ""
  },
  {
   "property": "C08",
   "status": "proved",
   "theorems": [
    "C08_accepts",
    "C08_parts_are_ncnames",
    "C08_syntax_error",
    "C08_character_error"
   ],
   "note": ""
  },
  {
   "property": "C09",
   "status": "proved",
   "theorems": [
    "C09_print_parse",
    "C09_reparse",
    "C09_new_ns",
    "C09_print_injective"
   ],
   "note": ""
  },
  {
   "property": "C10",
   "status": "proved",
   "theorems": [
    "C10_panics_iff",
    "C10_returns",
    "C10_calls_panic"
   ],
   "note": ""
  },
  {
   "property": "C11",
   "status": "proved",
   "theorems": [
    "C11_new_ns_ok",
    "C11_errors",
    "C11_bad_name"
   ],
   "note": ""
  },
  {
   "property": "C12",
   "status": "proved",
   "theorems": [
    "C12_namespace_attribute",
    "C12_for_namespace",
    "C12_id_attribute"
   ],
   "note": ""
  },
  {
   "property": "C13",
   "status": "proved",
   "theorems": [
    "C13_set",
    "C13_new",
    "C13_idempotent_commute",
    "C13_none",
    "C13_or_and",
    "C13_display"
   ],
   "note": ""
  },
  {
   "property": "C14",
   "status": "proved",
   "theorems": [
    "C14_accepts",
    "C14_print_injective",
    "C14_version"
   ],
   "note": ""
  },
  {
   "property": "C15",
   "status": "proved",
   "theorems": [
    "C15_quoted",
    "C15_unquoted",
    "C15_unbalanced",
    "C15_single_quote_panics",
    "C15_exhaustive"
   ],
   "note": ""
  },
  {
   "property": "C16",
   "status": "proved",
   "theorems": [
    "C16_slice",
    "C16_clipped",
    "C16_empty",
    "C16_index_size",
    "C16_inside_character",
    "C16_exhaustive"
   ],
   "note": ""
  },
  {
   "property": "C17",
   "status": "proved",
   "theorems": [
    "C17_replace",
    "C17_replace_clipped",
    "C17_replace_past_end",
    "C17_replace_no_value",
    "C17_replace_inside_character",
    "C17_insert",
    "C17_insert_nothing",
    "C17_insert_past_end",
    "C17_delete",
    "C17_delete_clipped",
    "C17_delete_nothing",
    "C17_delete_past_end",
    "C17_append"
   ],
   "note": ""
  },
  {
   "property": "C18",
   "status": "proved",
   "theorems": [
    "C18_insert_delete",
    "C18_insert_substring",
    "C18_delete_insert",
    "C18_delete_tail_insert"
   ],
   "note": ""
  },
  {
   "property": "C19",
   "status": "proved",
   "theorems": [
    "C19_checked_overflow",
    "C19_no_overflow",
    "C19_unchecked_overflow"
   ],
   "note": ""
  },
  {
   "property": "C20",
   "status": "proved",
   "theorems": [
    "C20_alone",
    "C20_in_place"
   ],
   "note": ""
  },
  {
   "property": "C21",
   "status": "proved",
   "theorems": [
    "C21_between_lengths",
    "C21_offset_exists",
    "C21_comment"
   ],
   "note": ""
  },
  {
   "property": "C22",
   "status": "proved",
   "theorems": [
    "C22_child_types"
   ],
   "note": ""
  },
  {
   "property": "C23",
   "status": "proved",
   "theorems": [
    "C23_one_document_element"
   ],
   "note": ""
  },
  {
   "property": "C24",
   "status": "proved",
   "theorems": [
    "C24_identity",
    "C24_identity_api"
   ],
   "note": ""
  },
  {
   "property": "C25",
   "status": "proved",
   "theorems": [
    "C25_same_owner",
    "C25_attributes",
    "C25_document",
    "C25_clone_refuted"
   ],
   "note": ""
  },
  {
   "property": "C26",
   "status": "proved",
   "theorems": [
    "C26_parent_sound",
    "C26_attribute_parent_refuted"
   ],
   "note": ""
  },
  {
   "property": "C27",
   "status": "proved",
   "theorems": [
    "C27_two_way",
    "C27_excluded_calls_refuted"
   ],
   "note": ""
  },
  {
   "property": "C28",
   "status": "proved",
   "theorems": [
    "C28_acyclic",
    "C28_ancestor_cycle",
    "C28_self_insert",
    "C28_ancestor_refuted"
   ],
   "note": ""
  },
  {
   "property": "C29",
   "status": "proved",
   "theorems": [
    "C29_returns_new",
    "C29_append",
    "C29_append_child",
    "C29_before",
    "C29_move_up",
    "C29_move_down",
    "C29_itself",
    "C29_dom_order_refuted"
   ],
   "note": ""
  },
  {
   "property": "C30",
   "status": "proved",
   "theorems": [
    "C30_moves_and_frames",
    "C30_gone_from_old_parent"
   ],
   "note": ""
  },
  {
   "property": "C31",
   "status": "proved",
   "theorems": [
    "C31_error_kind",
    "C31_exactly",
    "C31_returns"
   ],
   "note": ""
  },
  {
   "property": "C32",
   "status": "proved",
   "theorems": [
    "C32_found",
    "C32_not_found"
   ],
   "note": ""
  },
  {
   "property": "C33",
   "status": "proved",
   "theorems": [
    "C33_result",
    "C33_in_place",
    "C33_later_sibling",
    "C33_earlier_sibling",
    "C33_error",
    "C33_dom_refuted"
   ],
   "note": ""
  },
  {
   "property": "C34",
   "status": "proved",
   "theorems": [
    "C34_next",
    "C34_previous",
    "C34_inverse",
    "C34_ends",
    "C34_enumeration",
    "C34_consistent",
    "C34_no_parent"
   ],
   "note": ""
  },
  {
   "property": "C35",
   "status": "proved",
   "theorems": [
    "C35_by_tag_name",
    "C35_by_tag_name_ns",
    "C35_other_nodes",
    "C35_tree_of_iff",
    "C35_once"
   ],
   "note": ""
  },
  {
   "property": "C36",
   "status": "proved",
   "theorems": [
    "C36_document_element",
    "C36_search_from_first_child",
    "C36_search_misses",
    "C36_is_the_element_refuted"
   ],
   "note": ""
  },
  {
   "property": "C37",
   "status": "proved",
   "theorems": [
    "C37_deep",
    "C37_shallow",
    "C37_attributes_shared",
    "C37_independent_copy_refuted",
    "C37_two_way_refuted"
   ],
   "note": ""
  },
  {
   "property": "C38",
   "status": "proved",
   "theorems": [
    "C38_normalize",
    "C38_tidy_untouched",
    "C38_idempotent",
    "C38_returns",
    "C38_whole_subtree_refuted",
    "C38_any_node_refuted"
   ],
   "note": ""
  },
  {
   "property": "C39",
   "status": "proved",
   "theorems": [
    "C39_keyed_by_name"
   ],
   "note": ""
  },
  {
   "property": "C40",
   "status": "proved",
   "theorems": [
    "C40_set_get",
    "C40_any_element_refuted",
    "C40_set_get_ns",
    "C40_has_implies_get_ns_refuted"
   ],
   "note": ""
  },
  {
   "property": "C41",
   "status": "proved",
   "theorems": [
    "C41_remove",
    "C41_any_element_refuted"
   ],
   "note": ""
  },
  {
   "property": "C42",
   "status": "proved",
   "theorems": [
    "C42_owner_element",
    "C42_not_rejected",
    "C42_shared"
   ],
   "note": ""
  },
  {
   "property": "C43",
   "status": "proved",
   "theorems": [
    "C43_forever",
    "C43_again",
    "C43_registers"
   ],
   "note": ""
  },
  {
   "property": "C44",
   "status": "proved",
   "theorems": [
    "C44_node_added_anyway",
    "C44_added_anyway",
    "C44_cause"
   ],
   "note": ""
  },
  {
   "property": "C45",
   "status": "proved",
   "theorems": [
    "C45_function",
    "C45_own",
    "C45_resolve",
    "C45_ends",
    "C45_unaware",
    "C45_returns_refuted"
   ],
   "note": ""
  },
  {
   "property": "C46",
   "status": "proved",
   "theorems": [
    "C46_get_prefix",
    "C46_resolve_prefix",
    "C46_resolves_back_refuted",
    "C46_one_answer_refuted"
   ],
   "note": ""
  },
  {
   "property": "C47",
   "status": "proved",
   "theorems": [
    "C47_recorded",
    "C47_only_two_prefixes",
    "C47_prefix_never_resolves",
    "C47_declared_prefix_refuted",
    "C47_parser_records_nothing",
    "C47_parser_names"
   ],
   "note": ""
  },
  {
   "property": "C48",
   "status": "proved",
   "theorems": [
    "C48_empty",
    "C48_named",
    "C48_fails",
    "C48_create_document"
   ],
   "note": ""
  },
  {
   "property": "C49",
   "status": "proved",
   "theorems": [
    "C49_creates",
    "C49_attribute_with",
    "C49_bad_name",
    "C49_pi_reserved",
    "C49_document_type"
   ],
   "note": ""
  },
  {
   "property": "C50",
   "status": "proved",
   "theorems": [
    "C50_features"
   ],
   "note": ""
  },
  {
   "property": "C51",
   "status": "proved",
   "theorems": [
    "C51_prints",
    "C51_one_document",
    "C51_prints_only",
    "C51_hash_order",
    "C51_no_identities"
   ],
   "note": ""
  },
  {
   "property": "C52",
   "status": "proved",
   "theorems": [
    "C52_read_back",
    "C52_injective",
    "C52_brackets",
    "C52_cdata_refuted",
    "C52_instruction_refuted"
   ],
   "note": ""
  },
  {
   "property": "C53",
   "status": "proved",
   "theorems": [
    "C53_reads",
    "C53_ids",
    "C53_prints",
    "C53_round_trip"
   ],
   "note": ""
  },
  {
   "property": "C54",
   "status": "proved",
   "theorems": [
    "C54_others_unchanged",
    "C54_reachable",
    "C54_closed",
    "C54_tree",
    "C54_acyclic",
    "C54_two_way"
   ],
   "note": ""
  },
  {
   "property": "C55",
   "status": "proved",
   "theorems": [
    "C55_swallowed",
    "C55_unclosed",
    "C55_top_reported",
    "C55_later_reported",
    "C55_attribute_reported",
    "C55_attribute_swallowed",
    "C55_late_declaration",
    "C55_complete_refuted"
   ],
   "note": ""
  },
  {
   "property": "C56",
   "status": "proved",
   "theorems": [
    "C56_drop",
    "C56_never_wrong",
    "C56_owner_document",
    "C56_insert_panics",
    "C56_insert_panics_only"
   ],
   "note": ""
  },
  {
   "property": "C57",
   "status": "proved",
   "theorems": [
    "C57_walks_end",
    "C57_lookups_end",
    "C57_search_never_returns",
    "C57_display_never_returns",
    "C57_clone_never_returns",
    "C57_lookups_never_return"
   ],
   "note": ""
  },
  {
   "property": "C58",
   "status": "proved",
   "theorems": [
    "C58_char_10",
    "C58_char_11",
    "C58_all_chars_refuted",
    "C58_restricted_11",
    "C58_restricted_10",
    "C58_escape_leaves_none",
    "C58_space",
    "C58_name_chars"
   ],
   "note": ""
  },
  {
   "property": "C59",
   "status": "proved",
   "theorems": [
    "C59_nmtoken",
    "C59_nmtokens",
    "C59_name",
    "C59_names",
    "C59_names_grammar",
    "C59_names_refuted"
   ],
   "note": ""
  },
  {
   "property": "C60",
   "status": "proved",
   "theorems": [
    "C60_space_handling",
    "C60_values",
    "C60_printing_refuted"
   ],
   "note": ""
  },
  {
   "property": "C61",
   "status": "proved",
   "theorems": [
    "C61_written",
    "C61_read_back",
    "C61_read_back_refuted"
   ],
   "note": ""
  },
  {
   "property": "C62",
   "status": "proved",
   "theorems": [
    "C62_value",
    "C62_panics",
    "C62_no_error",
    "C62_depth_irrelevant",
    "C62_determined",
    "C62_endless",
    "C62_ends"
   ],
   "note": ""
  },
  {
   "property": "C63",
   "status": "proved",
   "theorems": [
    "C63_locality",
    "C63_no_resurrection",
    "C63_other_documents",
    "C63_normalize_own_children_refuted"
   ],
   "note": ""
  },
  {
   "property": "C64",
   "status": "proved",
   "theorems": [
    "C64_atomic",
    "C64_replace_refuted",
    "C64_duplicate_id_refuted",
    "C64_split_comment_refuted"
   ],
   "note": ""
  },
  {
   "property": "C65",
   "status": "proved",
   "theorems": [
    "C65_kinds",
    "C65_infallible",
    "C65_tight"
   ],
   "note": ""
  },
  {
   "property": "C66",
   "status": "proved",
   "theorems": [
    "C66_is",
    "C66_as",
    "C66_stable",
    "C66_typed"
   ],
   "note": ""
  },
  {
   "property": "C67",
   "status": "proved",
   "theorems": [
    "C67_panics",
    "C67_errors",
    "C67_returns",
    "C67_walks_no_error",
    "C67_walk_panics_only",
    "C67_lookup_panics",
    "C67_print_panics"
   ],
   "note": ""
  },
  {
   "property": "C68",
   "status": "proved",
   "theorems": [
    "C68_calls",
    "C68_read"
   ],
   "note": ""
  },
  {
   "property": "C69",
   "status": "proved",
   "theorems": [
    "C69_fixed",
    "C69_made",
    "C69_first_value",
    "C69_clone",
    "C69_supported",
    "C69_has_attributes",
    "C69_names"
   ],
   "note": ""
  },
  {
   "property": "C70",
   "status": "proved",
   "theorems": [
    "C70_set_node_value",
    "C70_unset_node_value",
    "C70_unset_value",
    "C70_remove_ns",
    "C70_remove_ns_has_refuted",
    "C70_insert_mapping",
    "C70_remove_mapping",
    "C70_mapping_refused",
    "C70_set_prefix",
    "C70_set_prefix_valid_refuted",
    "C70_set_declaration",
    "C70_set_declaration_refused",
    "C70_default_decl"
   ],
   "note": ""
  },
  {
   "property": "C71",
   "status": "proved",
   "theorems": [
    "C71_calls",
    "C71_histories",
    "C71_remove",
    "C71_remove_ns",
    "C71_reads",
    "C71_get",
    "C71_get_ns",
    "C71_prefix",
    "C71_print",
    "C71_remove_refuted",
    "C71_print_refuted"
   ],
   "note": ""
  },
  {
   "property": "C72",
   "status": "proved",
   "theorems": [
    "C72_calls",
    "C72_reads",
    "C72_histories",
    "C72_fits",
    "C72_same_refuted"
   ],
   "note": ""
  },
  {
   "property": "C73",
   "status": "proved",
   "theorems": [
    "C73_history",
    "C73_exact",
    "C73_ends",
    "C73_order",
    "C73_leak_stays",
    "C73_no_cycle",
    "C73_all_freed",
    "C73_append_refuted",
    "C73_attribute_refuted"
   ],
   "note": ""
  },
  {
   "property": "C74",
   "status": "proved",
   "theorems": [
    "C74_reread",
    "C74_same",
    "C74_same_text",
    "C74_values_refuted",
    "C74_white_refuted",
    "C74_text_refuted",
    "C74_panics_refuted",
    "C74_cdata_refuted",
    "C74_data_refuted",
    "C74_targets",
    "C74_lost_refuted",
    "C74_unreadable_refuted"
   ],
   "note": ""
  },
  {
   "property": "C75",
   "status": "proved",
   "theorems": [
    "C75_typed_included",
    "C75_child_types",
    "C75_one_document_element",
    "C75_identity",
    "C75_same_owner",
    "C75_parent_kind",
    "C75_keyed_by_name",
    "C75_names",
    "C75_targets",
    "C75_factory_on_any_node",
    "C75_not_an_element",
    "C75_set_attribute",
    "C75_unset_value",
    "C75_owner_is_document_refuted",
    "C75_doc_type_refuted",
    "C75_parent_lists_child_refuted"
   ],
   "note": ""
  },
  {
   "property": "C76",
   "status": "proved",
   "theorems": [
    "C76_exact",
    "C76_agree",
    "C76_states",
    "C76_panics",
    "C76_read_panics",
    "C76_conflicts"
   ],
   "note": ""
  },
  {
   "property": "C77",
   "status": "proved",
   "theorems": [
    "C77_calls",
    "C77_queries",
    "C77_clients",
    "C77_schedules",
    "C77_untouched"
   ],
   "note": ""
  },
  {
   "property": "C78",
   "status": "proved",
   "theorems": [
    "C78_calls",
    "C78_outcome",
    "C78_exact",
    "C78_more",
    "C78_queries",
    "C78_shared",
    "C78_elsewhere",
    "C78_elsewhere_asked",
    "C78_self",
    "C78_write_self"
   ],
   "note": ""
  },
  {
   "property": "C79",
   "status": "proved",
   "theorems": [
    "C79_error_codes",
    "C79_node_types",
    "C79_codes_determine",
    "C79_messages",
    "C79_parser_messages",
    "C79_binary",
    "C79_binary_determines",
    "C79_display",
    "C79_prefix"
   ],
   "note": ""
  },
  {
   "property": "C80",
   "status": "proved",
   "theorems": [
    "C80_drop",
    "C80_drop_exact",
    "C80_drop_frees",
    "C80_clone",
    "C80_upgrade",
    "C80_unwrap",
    "C80_counts"
   ],
   "note": ""
  },
  {
   "property": "C81",
   "status": "proved",
   "theorems": [
    "C81_types",
    "C81_made",
    "C81_frees_nothing",
    "C81_result",
    "C81_no_leak",
    "C81_program",
    "C81_program_tidy",
    "C81_insert_refuted"
   ],
   "note": ""
  },
  {
   "property": "C82",
   "status": "proved",
   "theorems": [
    "C82_insert_remove",
    "C82_remove_insert",
    "C82_replace_back",
    "C82_move_back",
    "C82_append_twice",
    "C82_swap",
    "C82_split_normalize",
    "C82_listed_refuted",
    "C82_move_back_refuted",
    "C82_root_refuted",
    "C82_no_document_refuted"
   ],
   "note": ""
  },
  {
   "property": "C83",
   "status": "proved",
   "theorems": [
    "C83_rounds",
    "C83_settles",
    "C83_stable",
    "C83_eventually",
    "C83_one",
    "C83_never",
    "C83_total",
    "C83_values_refuted"
   ],
   "note": ""
  },
  {
   "property": "C84",
   "status": "proved",
   "theorems": [
    "C84_final",
    "C84_prefix",
    "C84_fault",
    "C84_ends",
    "C84_adds",
    "C84_nodes",
    "C84_inner_end_refuted",
    "C84_cut_refuted"
   ],
   "note": ""
  },
  {
   "property": "C85",
   "status": "proved",
   "theorems": [
    "C85_insert",
    "C85_append",
    "C85_remove",
    "C85_text",
    "C85_sole",
    "C85_clone",
    "C85_move",
    "C85_text_attribute_refuted",
    "C85_attributes",
    "C85_set_attribute",
    "C85_remove_attribute",
    "C85_replace",
    "C85_attribute_value",
    "C85_set_value"
   ],
   "note": ""
  }
 ]
}