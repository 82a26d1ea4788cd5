{"claims": [
{"property": "C01", "status": "proved", "theorems": ["C01_marking_only_prefixes"], "note": ""},
{"property": "C02", "status": "proved", "theorems": ["C02_marking_reversible"], "note": ""},
{"property": "C03", "status": "proved", "theorems": ["C03_marked_lines_exact", "C03_literals_removed_functional", "C03_package_order_irrelevant"], "note": ""},
{"property": "C04", "status": "proved", "theorems": ["C04_clean_file_identity"], "note": ""},
{"property": "C05", "status": "proved", "theorems": ["C05_masking_keeps_layout", "C05_masking_exact", "C05_longest_first"], "note": ""},
{"property": "C06", "status": "proved", "theorems": ["C06_requirements_no_torch_left", "C06_requirements_is_replacement"], "note": ""},
{"property": "C07", "status": "proved", "theorems": ["C07_requirements_precise_refuted"], "note": "violated by the code; proved as refutation"},
{"property": "C08", "status": "proved", "theorems": ["C08_helpers_once_in_order", "C08_directory_file_content"], "note": ""},
{"property": "C09", "status": "proved", "theorems": ["C09_collision_nontermination_refuted", "C09_collision_duplicate_refuted", "C09_nothing_lost", "C09_loops_iff"], "note": "violated by the code; refutation proved, with what does hold"},
{"property": "C10", "status": "proved", "theorems": ["C10_insertion_keeps_file", "C10_lines_are_lines"], "note": ""},
{"property": "C11", "status": "proved", "theorems": ["C11_insertion_point_after_imports"], "note": ""},
{"property": "C12", "status": "proved", "theorems": ["C12_flush_once"], "note": ""},
{"property": "C13", "status": "proved", "theorems": ["C13_all_jobs_use_first_file", "C13_isolation_refuted"], "note": "violated by the code; refutation proved, with what does hold"},
{"property": "C14", "status": "proved", "theorems": ["C14_names_never_repeat", "C14_names_exact"], "note": ""},
{"property": "C15", "status": "proved", "theorems": ["C15_insertion_exact", "C15_user_statements_kept"], "note": ""},
{"property": "C16", "status": "proved", "theorems": ["C16_recording_again_has_no_effect", "C16_recording_extends"], "note": ""},
{"property": "C17", "status": "proved", "theorems": ["C17_position_after_deletion_refuted", "C17_position_without_earlier_deletion"], "note": "violated by the code; refutation proved, with what does hold"},
{"property": "C18", "status": "proved", "theorems": ["C18_lookup_sound", "C18_lookup_diverges", "C18_lookup_innermost"], "note": ""},
{"property": "C19", "status": "proved", "theorems": ["C19_conversion_pass", "C19_extension_passes", "C19_import_pass"], "note": "guarded visitors that refuse wrong bookkeeping behave as the real ones in all four passes"},
{"property": "C20", "status": "proved", "theorems": ["C20_binding_faithful", "C20_positional_names", "C20_accepted_exactly"], "note": ""},
{"property": "C21", "status": "proved", "theorems": ["C21_never_out_of_range"], "note": ""},
{"property": "C22", "status": "proved", "theorems": ["C22_unsupported_accepted_refuted", "C22_only_after_dropped", "C22_positional_rejected"], "note": "violated by the code; refutation proved, with what does hold"},
{"property": "C23", "status": "proved", "theorems": ["C23_renaming_exact", "C23_renaming_keeps_every_argument"], "note": ""},
{"property": "C24", "status": "proved", "theorems": ["C24_shipped_renaming_collisions", "C24_shipped_renaming_injective"], "note": ""},
{"property": "C25", "status": "proved", "theorems": ["C25_defaults_exact"], "note": ""},
{"property": "C26", "status": "proved", "theorems": ["C26_prefix_change_keeps_arguments", "C26_rename_keeps_arguments"], "note": ""},
{"property": "C27", "status": "proved", "theorems": ["C27_second_star_lost_refuted"], "note": "violated by the code; refutation proved, with what does hold"},
{"property": "C28", "status": "proved", "theorems": ["C28_prefix_change_replaces_package", "C28_shipped_rows", "C28_repeated_package_refuted", "C28_min_mode_keeps_name"], "note": "violated by the code; refutation proved, with what does hold"},
{"property": "C29", "status": "proved", "theorems": ["C29_api_lookup_assertion", "C29_lookups_never_fail_otherwise", "C29_torch_names_find_one_matcher"], "note": ""},
{"property": "C30", "status": "proved", "theorems": ["C30_alias_resolution_idempotent", "C30_alias_and_target_agree"], "note": ""},
{"property": "C31", "status": "proved", "theorems": ["C31_recognised_is_converted_plus_unsupported"], "note": ""},
{"property": "C32", "status": "proved", "theorems": ["C32_returned_pair", "C32_rate"], "note": ""},
{"property": "C33", "status": "proved", "theorems": ["C33_usage_list_refuted", "C33_usage_at_most_recognised", "C33_exact_without_misidentification"], "note": "violated by the code; refutation proved, with what does hold"},
{"property": "C34", "status": "proved", "theorems": ["C34_unaligned_report_refuted", "C34_report_without_the_culprit"], "note": "violated by the code; refutation proved, with what does hold"},
{"property": "C35", "status": "proved", "theorems": ["C35_summary_monotone", "C35_nothing_to_convert_refuted"], "note": "violated by the code; refutation proved, with what does hold"},
{"property": "C36", "status": "proved", "theorems": ["C36_torch_imports_removed"], "note": ""},
{"property": "C37", "status": "proved", "theorems": ["C37_imports_exact", "C37_plain_import_kept", "C37_refuted"], "note": "violated by the code; refutation proved, with what does hold"},
{"property": "C38", "status": "proved", "theorems": ["C38_min_mode_keeps_imports", "C38_min_mode_command"], "note": ""},
{"property": "C39", "status": "proved", "theorems": ["C39_refuted", "C39_refuted_handler", "C39_only_import_blocks_emptied", "C39_if_try_bodies_kept"], "note": "violated by the code; refutation proved, with what does hold"},
{"property": "C40", "status": "proved", "theorems": ["C40_refuted", "C40_renamed_only_if", "C40_from_audiotools"], "note": "violated by the code; refutation proved, with what does hold"},
{"property": "C41", "status": "proved", "theorems": ["C41_refuted", "C41_inserted_at_front"], "note": "violated by the code; refutation proved, with what does hold"},
{"property": "C42", "status": "proved", "theorems": ["C42_import_pass_unchanged", "C42_file_unchanged", "C42_text_only_reformatted", "C42_hasattr_refuted"], "note": "a hasattr/setattr question about a torch package name is the one exception, proved as a refutation; the positive theorems cover all four passes and the text written"},
{"property": "C43", "status": "proved", "theorems": ["C43_expansion_sound", "C43_expression_expanded", "C43_chain_expanded", "C43_other_chains_untouched", "C43_bound_names"], "note": ""},
{"property": "C44", "status": "proved", "theorems": ["C44_output_mirrors_input", "C44_single_file", "C44_stale_directory_refuted"], "note": "needs: neither of input and output inside the other, nothing of another kind at the place of an output file; without the latter refuted"},
{"property": "C45", "status": "proved", "theorems": ["C45_input_untouched", "C45_output_around_input_refuted", "C45_file_into_own_directory_refuted", "C45_projects_untouched"], "note": "proved if neither of input and output is inside the other, at every moment and for every outcome; the stated condition alone is refuted (output around the input)"},
{"property": "C46", "status": "proved", "theorems": ["C46_legacy_flags"], "note": ""},
{"property": "C47", "status": "proved", "theorems": ["C47_names_negated", "C47_compound_not_negated_refuted", "C47_call_unbalanced_refuted"], "note": "violated by the code; refutation proved, with what does hold"},
{"property": "C48", "status": "proved", "theorems": ["C48_extension_name_iff", "C48_extension_name_refuted"], "note": "violated by the code; refutation proved, with what does hold"},
{"property": "C49", "status": "proved", "theorems": ["C49_list_text_exactly", "C49_single_text_exactly", "C49_quotes_lost_refuted"], "note": "violated by the code; refutation proved, with what does hold"},
{"property": "C50", "status": "proved", "theorems": ["C50_form_feed_kept_refuted"], "note": "violated by the code; refutation proved, with what does hold"},
{"property": "C51", "status": "proved", "theorems": ["C51_helpers_before_future_import_refuted"], "note": "violated by the code; refutation proved, with what does hold"},
{"property": "C52", "status": "proved", "theorems": ["C52_unconverted_call_changed_refuted", "C52_only_harmless_removed"], "note": "violated by the code; refutation proved, with what does hold"},
{"property": "C53", "status": "proved", "theorems": ["C53_star_printed_as_keyword_refuted", "C53_stars_refused"], "note": "violated by the code; refutation proved, with what does hold"},
{"property": "C54", "status": "proved", "theorems": ["C54_generic_exact"], "note": ""},
{"property": "C55", "status": "proved", "theorems": ["C55_pin_memory_flag_ignored_refuted"], "note": "violated by the code; refutation proved, with what does hold"},
{"property": "C56", "status": "proved", "theorems": ["C56_min_mode_agrees_with_lookup", "C56_default_mode_keeps_nothing"], "note": ""},
{"property": "C57", "status": "proved", "theorems": ["C57_table_names_are_not_torch", "C57_prefix_change_leaves_torch", "C57_torch_name_generated_refuted"], "note": "violated by the code; refutation proved, with what does hold"},
{"property": "C58", "status": "proved", "theorems": ["C58_generic_rows_accept_minimal_call"], "note": ""},
{"property": "C59", "status": "proved", "theorems": ["C59_matcher_assertions_hold", "C59_row_without_name_refuted"], "note": "violated by the code; refutation proved, with what does hold"},
{"property": "C60", "status": "proved", "theorems": ["C60_import_rewriting_total", "C60_refuted"], "note": "violated by the code; refutation proved, with what does hold"},
{"property": "C61", "status": "proved", "theorems": ["C61_inserted_imports_exact", "C61_order_irrelevant", "C61_shipped_replacements"], "note": ""},
{"property": "C62", "status": "proved", "theorems": ["C62_refuted", "C62_bare_names_exact"], "note": "violated by the code; refutation proved, with what does hold"},
{"property": "C63", "status": "proved", "theorems": ["C63_refuted"], "note": "violated by the code; refutation proved, with what does hold"},
{"property": "C64", "status": "proved", "theorems": ["C64_refuted", "C64_call_results_entered"], "note": "violated by the code; refutation proved, with what does hold"},
{"property": "C65", "status": "proved", "theorems": ["C65_refuted"], "note": "violated by the code; refutation proved, with what does hold"},
{"property": "C66", "status": "proved", "theorems": ["C66_internal_relative_imports"], "note": ""},
{"property": "C67", "status": "proved", "theorems": ["C67_local_modules", "C67_on_disk", "C67_in_a_project", "C67_package_of_the_project_refuted"], "note": "violated by the code; refutation proved, with what does hold"},
{"property": "C68", "status": "proved", "theorems": ["C68_only_expressions_rewritten", "C68_shipped_rows_delete_nothing"], "note": ""},
{"property": "C69", "status": "proved", "theorems": ["C69_output_inside_input_fails"], "note": ""},
{"property": "C70", "status": "proved", "theorems": ["C70_conversion_succeeds"], "note": ""},
{"property": "C71", "status": "proved", "theorems": ["C71_exclusion_depends_on_location_refuted"], "note": "violated by the code; refutation proved, with what does hold"},
{"property": "C72", "status": "proved", "theorems": ["C72_empty_pattern_excludes_everything"], "note": ""},
{"property": "C73", "status": "proved", "theorems": ["C73_project_file_replaced_refuted"], "note": "violated by the code; refutation proved, with what does hold"},
{"property": "C74", "status": "proved", "theorems": ["C74_file_on_the_way_deleted_refuted"], "note": "violated by the code; refutation proved, with what does hold"},
{"property": "C75", "status": "proved", "theorems": ["C75_generation_never_raises", "C75_type_refuted", "C75_onecycle_refuted", "C75_unbound_method_refuted"], "note": "violated by the code; refutation proved, with what does hold"},
{"property": "C76", "status": "proved", "theorems": ["C76_arguments_are_kept", "C76_exceptions_are_real"], "note": ""},
{"property": "C77", "status": "proved", "theorems": ["C77_arguments_written_once", "C77_mark_written_once", "C77_exceptions_are_real"], "note": ""},
{"property": "C78", "status": "proved", "theorems": ["C78_generated_code_is_a_program", "C78_programs_are_balanced", "C78_exceptions_are_real", "C78_mishandled_arguments_refuted"], "note": "violated by the code; refutation proved, with what does hold"},
{"property": "C79", "status": "proved", "theorems": ["C79_only_generated_names_bound", "C79_exceptions_are_real", "C79_variable_overwritten_refuted"], "note": "violated by the code; refutation proved, with what does hold"},
{"property": "C80", "status": "proved", "theorems": ["C80_statements_go_above_their_line", "C80_deleted_line_refuted"], "note": "violated by the code; refutation proved, with what does hold"},
{"property": "C81", "status": "proved", "theorems": ["C81_loop_condition_refuted"], "note": "violated by the code; refutation proved, with what does hold"},
{"property": "C82", "status": "proved", "theorems": ["C82_calls_recognised_exactly", "C82_attributes_recognised_exactly", "C82_one_reading", "C82_variable_named_like_self_refuted"], "note": "violated by the code; refutation proved, with what does hold"},
{"property": "C83", "status": "proved", "theorems": ["C83_effect_of_a_call", "C83_effect_of_a_method_call", "C83_effect_of_an_attribute", "C83_effect_of_a_package_name"], "note": ""},
{"property": "C84", "status": "proved", "theorems": ["C84_exactly_the_remembered_classes_go", "C84_remembered_exactly_when_used", "C84_names_of_extensions", "C84_imports_of_extensions_go", "C84_no_use_left_refuted", "C84_only_that_class_refuted", "C84_torch_function_refuted"], "note": "violated by the code; refutation proved, with what does hold"},
{"property": "C85", "status": "proved", "theorems": ["C85_excluded_exactly"], "note": ""},
{"property": "C86", "status": "proved", "theorems": ["C86_constructor_exact", "C86_shipped_constructors", "C86_choice_of_weights_lost_refuted", "C86_refusals_refuted"], "note": "violated by the code; refutation proved, with what does hold"},
{"property": "C87", "status": "proved", "theorems": ["C87_extension_exact", "C87_extension_refused", "C87_third_argument_refuted"], "note": "violated by the code; refutation proved, with what does hold"},
{"property": "C88", "status": "proved", "theorems": ["C88_extremum_exact", "C88_star_raises_refuted"], "note": "violated by the code; refutation proved, with what does hold"},
{"property": "C89", "status": "proved", "theorems": ["C89_product_exact", "C89_refusals_refuted"], "note": "violated by the code; refutation proved, with what does hold"},
{"property": "C90", "status": "proved", "theorems": ["C90_hub_load_exact", "C90_stft_exact", "C90_pretrained_model_exact"], "note": ""},
{"property": "C91", "status": "proved", "theorems": ["C91_setup_exact", "C91_extension_names_grow", "C91_commands_lost_refuted"], "note": "violated by the code; refutation proved, with what does hold"},
{"property": "C92", "status": "proved", "theorems": ["C92_split_call_left", "C92_split_helper_exactly", "C92_silent_difference_refuted"], "note": "violated by the code; refutation proved, with what does hold"},
{"property": "C93", "status": "proved", "theorems": ["C93_rotary_exact", "C93_unknown_argument_refuted"], "note": "violated by the code; refutation proved, with what does hold"},
{"property": "C94", "status": "proved", "theorems": ["C94_make_tensor_text", "C94_make_tensor_exceptions", "C94_fresh_name_refuted"], "note": "violated by the code; refutation proved, with what does hold"},
{"property": "C95", "status": "proved", "theorems": ["C95_helper_rule", "C95_softmin_text", "C95_softmin_exactly", "C95_softmin_refuted", "C95_log_softmax_refuted"], "note": "violated by the code; refutation proved, with what does hold"},
{"property": "C96", "status": "proved", "theorems": ["C96_device_named", "C96_settled", "C96_by_keyword", "C96_card_zero_refuted"], "note": "violated by the code; refutation proved, with what does hold"},
{"property": "C97", "status": "proved", "theorems": ["C97_along_an_axis", "C97_of_two_tensors", "C97_of_all"], "note": ""},
{"property": "C98", "status": "proved", "theorems": ["C98_list_of_boxes", "C98_tensor_exactly", "C98_order_refuted"], "note": "violated by the code; refutation proved, with what does hold"},
{"property": "C99", "status": "proved", "theorems": ["C99_solution", "C99_batches_refuted", "C99_single_matrices"], "note": "violated by the code; refutation proved, with what does hold"},
{"property": "C100", "status": "proved", "theorems": ["C100_can_cast", "C100_unknown"], "note": ""},
{"property": "C101", "status": "proved", "theorems": ["C101_method_called", "C101_function_called"], "note": ""},
{"property": "C102", "status": "proved", "theorems": ["C102_parts", "C102_uneven", "C102_synchronous", "C102_defaults_refuted"], "note": "violated by the code; refutation proved, with what does hold"},
{"property": "C103", "status": "proved", "theorems": ["C103_routine", "C103_call"], "note": ""},
{"property": "C104", "status": "proved", "theorems": ["C104_mask_shape", "C104_complete_kept", "C104_chunked", "C104_otherwise"], "note": ""},
{"property": "C105", "status": "proved", "theorems": ["C105_reductions", "C105_voc_part", "C105_voc_other_years", "C105_tuples"], "note": ""},
{"property": "C106", "status": "proved", "theorems": ["C106_not_reached", "C106_axes_exchanged", "C106_axes_refused", "C106_scalar_refuted", "C106_index_copy_exactly", "C106_round_cuts_off", "C106_round_refuted", "C106_scaled", "C106_max_along", "C106_max_pairwise", "C106_max_all", "C106_out_refuted", "C106_shapes", "C106_device_number", "C106_converted_device_refuted"], "note": "violated by the code; refutation proved, with what does hold"},
{"property": "C107", "status": "proved", "theorems": ["C107_generic_calls_exact"], "note": ""},
{"property": "C108", "status": "proved", "theorems": ["C108_receiver_kept", "C108_receiver_exact", "C108_receiver_changed_refuted"], "note": "violated by the code; refutation proved, with what does hold"},
{"property": "C109", "status": "proved", "theorems": ["C109_only_uses_of_apis_change", "C109_statements_go_above_their_line"], "note": ""},
{"property": "C110", "status": "proved", "theorems": ["C110_calls_are_rewritten_as_the_row_says", "C110_method_calls_are_rewritten_as_the_row_says", "C110_every_call_has_a_text", "C110_arguments_are_written_as_they_were", "C110_arguments_are_read_as_they_were"], "note": ""},
{"property": "C111", "status": "proved", "theorems": ["C111_reprinted_calls_do_not_raise", "C111_reprinted_method_calls_do_not_raise", "C111_generated_calls_do_not_raise", "C111_generated_method_calls_do_not_raise", "C111_unbound_methods_refuted"], "note": "violated by the code; refutation proved, with what does hold"},
{"property": "C112", "status": "proved", "theorems": ["C112_min_mode_keeps_names", "C112_min_mode_keeps_methods", "C112_min_mode_leaves_calls", "C112_min_mode_drops_keywords_refuted"], "note": "violated by the code; refutation proved, with what does hold"},
{"property": "C113", "status": "proved", "theorems": ["C113_generated_code_computes_the_formula", "C113_logarithmic_functions_are_products", "C113_xlogy_of_zero_refuted"], "note": "violated by the code; refutation proved, with what does hold"},
{"property": "C114", "status": "proved", "theorems": ["C114_adapted_parameters_receive_their_value", "C114_axis_of_softmin", "C114_default_axis_of_softmin_refuted", "C114_wrong_parameters_refuted"], "note": "violated by the code; refutation proved, with what does hold"},
{"property": "C115", "status": "proved", "theorems": ["C115_a_conversion_asks_the_matchers", "C115_temporaries_never_meet"], "note": ""},
{"property": "C116", "status": "proved", "theorems": ["C116_who_asks_for_helper_code", "C116_needed_helpers_are_registered", "C116_other_calls_register_nothing", "C116_names_of_helpers_register", "C116_helper_code_is_kept"], "note": ""},
{"property": "C117", "status": "proved", "theorems": ["C117_the_rule_of_the_api_is_followed", "C117_there_is_an_answer", "C117_one_rule"], "note": ""},
{"property": "C118", "status": "proved", "theorems": ["C118_names_are_replaced", "C118_members_of_names", "C118_members_of_nameless_rows_refuted", "C118_three_sorts_of_attributes", "C118_attributes_that_stay", "C118_attributes_that_become_calls", "C118_attributes_that_get_a_remark", "C118_assigned_attributes_refuted"], "note": "violated by the code; refutation proved, with what does hold"},
{"property": "C119", "status": "proved", "theorems": ["C119_helpers_reach_the_project", "C119_helpers_reach_the_file"], "note": ""},
{"property": "C120", "status": "proved", "theorems": ["C120_text_depends_on_three_things", "C120_other_files", "C120_order_of_listing_refuted"], "note": "violated by the code; refutation proved, with what does hold"},
{"property": "C121", "status": "proved", "theorems": ["C121_what_a_failed_conversion_leaves", "C121_one_bad_file_fails_the_project", "C121_helpers_are_missing_after_a_failure_refuted"], "note": "violated by the code; refutation proved, with what does hold"},
{"property": "C122", "status": "proved", "theorems": ["C122_unformatted_directory", "C122_unformatted_file", "C122_failing_formatters_do_no_harm", "C122_helpers_bring_isort_refuted"], "note": "violated by the code; refutation proved, with what does hold"},
{"property": "C123", "status": "proved", "theorems": ["C123_the_numbers_of_the_summary", "C123_the_numbers_in_markdown", "C123_the_table_of_all_apis", "C123_the_table_of_unsupported_apis", "C123_no_tables_at_level_warning_refuted", "C123_hundred_percent", "C123_hundred_percent_refuted"], "note": "violated by the code; refutation proved, with what does hold"},
{"property": "C124", "status": "proved", "theorems": ["C124_the_last_project_wins", "C124_same_names_refuted", "C124_helpers_in_a_stranger_refuted", "C124_first_file_refuted"], "note": "violated by the code; refutation proved, with what does hold"},
{"property": "C125", "status": "proved", "theorems": ["C125_copied", "C125_same"], "note": ""},
{"property": "C126", "status": "proved", "theorems": ["C126_as_if_alone", "C126_extensions_of_others_refuted", "C126_classes_of_others_refuted"], "note": "violated by the code; refutation proved, with what does hold"},
{"property": "C127", "status": "proved", "theorems": ["C127_rotation", "C127_longer_tables_refuted"], "note": "violated by the code; refutation proved, with what does hold"},
{"property": "C128", "status": "proved", "theorems": ["C128_save_text", "C128_suffix_removed", "C128_no_suffix", "C128_directory_with_dot_refuted"], "note": "violated by the code; refutation proved, with what does hold"},
{"property": "C129", "status": "proved", "theorems": ["C129_thread_texts", "C129_interop_read_back", "C129_threads_are_text_refuted", "C129_interop_unset_refuted"], "note": "violated by the code; refutation proved, with what does hold"},
{"property": "C130", "status": "proved", "theorems": ["C130_environ_texts", "C130_world_size", "C130_local_rank_exactly", "C130_local_rank_refuted"], "note": "violated by the code; refutation proved, with what does hold"},
{"property": "C131", "status": "proved", "theorems": ["C131_names_exist", "C131_decode_jpeg_refuted", "C131_index_copy_refuted", "C131_world_size_refuted"], "note": "violated by the code; refutation proved, with what does hold"},
{"property": "C132", "status": "proved", "theorems": ["C132_all_helpers", "C132_own_definitions", "C132_missing_exactly", "C132_complete_refuted", "C132_brought", "C132_hidden_refuted", "C132_threads_refuted"], "note": "violated by the code; refutation proved, with what does hold"},
{"property": "C133", "status": "proved", "theorems": ["C133_helper_meant", "C133_capture_refuted", "C133_package_refuted"], "note": "violated by the code; refutation proved, with what does hold"},
{"property": "C134", "status": "proved", "theorems": ["C134_text", "C134_one_matrix", "C134_inverse", "C134_batches_refuted", "C134_numbers_refuted"], "note": "violated by the code; refutation proved, with what does hold"},
{"property": "C135", "status": "proved", "theorems": ["C135_imports_settle", "C135_order_refuted", "C135_renamed_refuted", "C135_min_mode_repeats"], "note": "violated by the code; refutation proved, with what does hold"},
{"property": "C136", "status": "proved", "theorems": ["C136_the_summary", "C136_the_number_of_projects", "C136_output_counted_refuted", "C136_no_projects_refuted"], "note": "violated by the code; refutation proved, with what does hold"},
{"property": "C137", "status": "proved", "theorems": ["C137_direction_of_recurrent_layers", "C137_direction_of_the_base", "C137_real_results_of_stft", "C137_the_literals", "C137_flags_refuted"], "note": "violated by the code; refutation proved, with what does hold"},
{"property": "C138", "status": "proved", "theorems": ["C138_only_the_source_matters", "C138_line_ends_are_layout", "C138_read_without_returns", "C138_requirements", "C138_only_utf8", "C138_layout_refuted"], "note": "violated by the code; refutation proved, with what does hold"},
{"property": "C139", "status": "proved", "theorems": ["C139_handwritten_digits", "C139_small_images", "C139_small_images_default", "C139_flowers"], "note": ""},
{"property": "C140", "status": "proved", "theorems": ["C140_two_results", "C140_three_results", "C140_factors", "C140_lu", "C140_triangular_solve", "C140_svd", "C140_slogdet", "C140_inverse", "C140_cholesky", "C140_nothing_wanted", "C140_none_refuted"], "note": "Violated for out=None of six rows: C140_none_refuted holds for every such call. The other theorems state exactly what is generated. torch.svd: for calls without ** and compute_uv."},
{"property": "C141", "status": "proved", "theorems": ["C141_cyclic", "C141_linear", "C141_multiplicative", "C141_constant", "C141_one_cycle", "C141_div_factor_refuted", "C141_epochs_refuted"], "note": "Violated for two kinds of OneCycleLR calls: C141_div_factor_refuted and C141_epochs_refuted hold for every such call. The other theorems state exactly what is generated. CyclicLR and OneCycleLR (rows with unsupported arguments): for calls without ** that do not already use Paddle's names."},
{"property": "C142", "status": "proved", "theorems": ["C142_optimizers"], "note": "For calls without ** that do not use Paddle's names or names with a general meaning (dtype, out, device, ..)."},
{"property": "C143", "status": "proved", "theorems": ["C143_profile", "C143_precision_refuted", "C143_profile_refuted"], "note": "Violated for two kinds of calls: C143_precision_refuted and C143_profile_refuted state exactly what every such call becomes."},
{"property": "C144", "status": "proved", "theorems": ["C144_std_mean", "C144_var_mean", "C144_lu_unpack", "C144_lu_unpack_plain"], "note": "Positional arguments are read by the row's one parameter list; PyTorch's older overloads std_mean(input, unbiased) and var_mean(input, unbiased) are not among its lists."},
{"property": "C145", "status": "proved", "theorems": ["C145_models", "C145_false_refuted"], "note": "Violated for a literal False as weights: C145_false_refuted states it for every such call of all eight models."},
{"property": "C146", "status": "proved", "theorems": ["C146_histogram", "C146_histogram_out", "C146_none_refuted", "C146_histogram_method", "C146_sort"], "note": "Violated for out=None: C146_none_refuted states it for every such call."},
{"property": "C147", "status": "proved", "theorems": ["C147_attention", "C147_probs_refuted", "C147_unpadded", "C147_default_scale", "C147_scale_refuted"], "note": "Violated: C147_probs_refuted for every call asking for probabilities; C147_default_scale and C147_scale_refuted for every call without a scale."},
{"property": "C148", "status": "proved", "theorems": ["C148_sizes", "C148_ratio", "C148_none_refuted"], "note": "Violated for output_ratio=None: C148_none_refuted states it for every such call."},
{"property": "C149", "status": "proved", "theorems": ["C149_flag", "C149_plain", "C149_named", "C149_made_refuted", "C149_alias_refuted"], "note": "Violated: C149_made_refuted (calls as data) and C149_alias_refuted (the value is the data itself). The meaning of the two forms of new code is part of VariableSpec.v."},
{"property": "C150", "status": "proved", "theorems": ["C150_comparison", "C150_negation"], "note": "The receiver is evaluated twice by the new code, which C77 is about."},
{"property": "C151", "status": "proved", "theorems": ["C151_functions", "C151_attributes", "C151_equal", "C151_histc", "C151_type", "C151_type_name"], "note": "That type() names Paddle's type is stated by its text only; the values of dtype are not modelled."},
{"property": "C152", "status": "proved", "theorems": ["C152_initialize", "C152_degrees", "C152_embedding", "C152_init_refuted", "C152_norm"], "note": "The values of the new code are those of its integer expressions (parts, replicas); Python's float division is taken as exact, which holds for world sizes below 2^53."},
{"property": "C153", "status": "proved", "theorems": ["C153_select", "C153_narrow", "C153_nonzero", "C153_buffer", "C153_part_refuted", "C153_export"], "note": "For the functions; the methods select and narrow_copy are C155."},
{"property": "C154", "status": "proved", "theorems": ["C154_load", "C154_object_refuted"], "note": "The value of str() of an object is Python's and not modelled; the theorem states the text."},
{"property": "C155", "status": "proved", "theorems": ["C155_where", "C155_sparse", "C155_select", "C155_narrow", "C155_power", "C155_power_function"], "note": ""},
{"property": "C156", "status": "proved", "theorems": ["C156_bilinear", "C156_bias", "C156_none_refuted", "C156_remote", "C156_decode"], "note": "decode_jpeg without a device reads a name that does not exist (C131)."},
{"property": "C157", "status": "proved", "theorems": ["C157_refused", "C157_sum"], "note": "A name that contains the letters None (as NoneType) counts as None for the code and for the theorem."},
{"property": "C158", "status": "proved", "theorems": ["C158_questions", "C158_bool_refuted", "C158_functions", "C158_adjoint", "C158_axes"], "note": "The values of the new code for is_signed and of the permutation are transcribed in AskSpec.v (not_in_list, swap_last) from its text, which C158_questions and C158_adjoint prove."},
{"property": "C159", "status": "proved", "theorems": ["C159_by_name", "C159_module", "C159_fraction"], "note": "What the helpers do with their arguments is C98 (boxes) and C105 (VOC)."},
{"property": "C160", "status": "proved", "theorems": ["C160_plain", "C160_cast"], "note": "That names made for different calls never collide is C14 and C115."}
]}
