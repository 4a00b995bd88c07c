{
 "claims": [
  {
   "property": "C01",
   "status": "proved",
   "theorems": [
    "C01_strict_rejects_undeclared_keys",
    "C01_rogue_error_only_for_undeclared_keys"
   ],
   "note": ""
  },
  {
   "property": "C02",
   "status": "proved",
   "theorems": [
    "C02_undeclared_keys_have_no_influence",
    "C02_undeclared_keys_have_no_influence_import_data"
   ],
   "note": ""
  },
  {
   "property": "C03",
   "status": "proved",
   "theorems": [
    "C03_error_keys_are_exactly_the_failures",
    "C03_error_payloads",
    "C03_success_iff_nothing_to_report",
    "C03_other_exceptions_come_from_a_field"
   ],
   "note": ""
  },
  {
   "property": "C04",
   "status": "proved",
   "theorems": [
    "C04_supplied_field_is_stored_converted",
    "C04_missing_field_gets_default_or_none",
    "C04_nothing_else_is_stored"
   ],
   "note": ""
  },
  {
   "property": "C05",
   "status": "proved",
   "theorems": [
    "C05_first_present_input_key_wins",
    "C05_empty_names_are_ignored",
    "C05_empty_serialized_names_are_ignored"
   ],
   "note": ""
  },
  {
   "property": "C06",
   "status": "proved",
   "theorems": [
    "C06_required_field_must_be_given",
    "C06_none_is_accepted_otherwise",
    "C06_required_elements_reject_none"
   ],
   "note": ""
  },
  {
   "property": "C07",
   "status": "proved",
   "theorems": [
    "C07_trusted_value_survives"
   ],
   "note": ""
  },
  {
   "property": "C08",
   "status": "proved",
   "theorems": [
    "C08_partial_data_of_a_failed_import",
    "C08_partial_data_has_no_other_keys"
   ],
   "note": ""
  },
  {
   "property": "C09",
   "status": "proved",
   "theorems": [
    "C09_failed_import_data_changes_nothing",
    "C09_lazy_data_is_lost_refuted"
   ],
   "note": "The code does not behave as expected in one respect, shown by C09_lazy_data_is_lost_refuted; the other theorems state what holds."
  },
  {
   "property": "C10",
   "status": "proved",
   "theorems": [
    "C10_supplied_fields_read_as_converted",
    "C10_other_fields_keep_their_value",
    "C10_absent_fields_get_default_or_none",
    "C10_nothing_else_changes"
   ],
   "note": ""
  },
  {
   "property": "C11",
   "status": "proved",
   "theorems": [
    "C11_readable_values_passed_their_validators",
    "C11_validated_at_every_depth",
    "C11_reads_the_conversion_of_what_was_readable",
    "C11_no_unvalidated_data_is_left",
    "C11_construction_with_validation",
    "C11_construction_without_conversion_refuted",
    "C11_errors_of_setters_are_reported",
    "C11_lazy_partial_is_not_validated_refuted"
   ],
   "note": "The code does not behave as expected in one respect, shown by C11_construction_without_conversion_refuted, C11_lazy_partial_is_not_validated_refuted; the other theorems state what holds."
  },
  {
   "property": "C12",
   "status": "proved",
   "theorems": [
    "C12_failure_keeps_earlier_valid_data",
    "C12_failing_field_reads_its_last_valid_value",
    "C12_failure_report_is_exact",
    "C12_other_exception_drops_unvalidated_data"
   ],
   "note": ""
  },
  {
   "property": "C13",
   "status": "proved",
   "theorems": [
    "C13_validation_is_idempotent",
    "C13_conversion_is_idempotent",
    "C13_any_number_of_repetitions",
    "C13_shared_input_names_refuted"
   ],
   "note": "The code does not behave as expected in one respect, shown by C13_shared_input_names_refuted; the other theorems state what holds."
  },
  {
   "property": "C14",
   "status": "proved",
   "theorems": [
    "C14_calls_of_model_level_validators",
    "C14_calls_determine_the_outcome",
    "C14_readonly_validators_only_remove",
    "C14_other_exceptions_propagate"
   ],
   "note": ""
  },
  {
   "property": "C15",
   "status": "proved",
   "theorems": [
    "C15_output_is_what_is_written_in_order",
    "C15_value_under_a_name",
    "C15_names_written",
    "C15_colliding_names_last_wins",
    "C15_raises_exactly",
    "C15_list_elements",
    "C15_dict_entries",
    "C15_at_every_depth",
    "C15_value_at_every_depth"
   ],
   "note": ""
  },
  {
   "property": "C16",
   "status": "proved",
   "theorems": [
    "C16_level_precedence",
    "C16_all_shows_everything",
    "C16_drop_shows_nothing"
   ],
   "note": ""
  },
  {
   "property": "C17",
   "status": "proved",
   "theorems": [
    "C17_hidden_fields_do_not_influence_the_output"
   ],
   "note": ""
  },
  {
   "property": "C18",
   "status": "proved",
   "theorems": [
    "C18_import_of_the_export_restores_the_instance",
    "C18_construct_export_construct",
    "C18_none_in_a_list_of_models_refuted",
    "C18_subclass_instance_refuted"
   ],
   "note": "The code does not behave as expected in one respect, shown by C18_none_in_a_list_of_models_refuted, C18_subclass_instance_refuted; the other theorems state what holds."
  },
  {
   "property": "C19",
   "status": "proved",
   "theorems": [
    "C19_assigned_value_is_read",
    "C19_stored_form",
    "C19_assignment_leaves_other_fields_alone",
    "C19_failed_assignment_changes_nothing",
    "C19_deleted_field_has_no_value",
    "C19_delete_outcome",
    "C19_delete_leaves_other_fields_alone",
    "C19_reading",
    "C19_unknown_names",
    "C19_computed_fields",
    "C19_settable_computed_fields",
    "C19_lazy_assignment_is_hidden_refuted"
   ],
   "note": "The code does not behave as expected in one respect, shown by C19_lazy_assignment_is_hidden_refuted; the other theorems state what holds."
  },
  {
   "property": "C20",
   "status": "proved",
   "theorems": [
    "C20_keys_in_declaration_order",
    "C20_keys_exact",
    "C20_items_keys",
    "C20_items_values",
    "C20_items_are_what_is_read",
    "C20_contains_iff_key",
    "C20_computed_contained_but_no_key_refuted",
    "C20_unknown_name",
    "C20_get_default",
    "C20_get_computed",
    "C20_len",
    "C20_len_differs_refuted"
   ],
   "note": "The code does not behave as expected in one respect, shown by C20_computed_contained_but_no_key_refuted, C20_len_differs_refuted; the other theorems state what holds."
  },
  {
   "property": "C21",
   "status": "proved",
   "theorems": [
    "C21_an_instance_equals_itself",
    "C21_copies_are_equal",
    "C21_meaning_of_equality",
    "C21_meaning_for_lists",
    "C21_meaning_for_dicts",
    "C21_meaning_for_texts_and_integers",
    "C21_meaning_for_simple_values",
    "C21_different_classes_are_unequal",
    "C21_comparison_succeeds",
    "C21_symmetric_on_the_same_fields",
    "C21_unequal_is_the_negation",
    "C21_symmetric_refuted",
    "C21_transitive_refuted",
    "C21_copies_with_nan_refuted"
   ],
   "note": "The code does not behave as expected in one respect, shown by C21_symmetric_refuted, C21_transitive_refuted, C21_copies_with_nan_refuted; the other theorems state what holds."
  },
  {
   "property": "C22",
   "status": "proved",
   "theorems": [
    "C22_succeeds_iff_all_elements_convert",
    "C22_same_length",
    "C22_errors_are_exactly_the_failing_indices",
    "C22_any_rejected_element_fails_the_list",
    "C22_other_values_are_refused"
   ],
   "note": ""
  },
  {
   "property": "C23",
   "status": "proved",
   "theorems": [
    "C23_succeeds_iff_all_entries_convert",
    "C23_distinct_keys_keep_every_entry",
    "C23_errors_are_exactly_the_failing_keys",
    "C23_any_rejected_entry_fails_the_dict",
    "C23_colliding_keys_lose_an_entry_refuted"
   ],
   "note": "The code does not behave as expected in one respect, shown by C23_colliding_keys_lose_an_entry_refuted; the other theorems state what holds."
  },
  {
   "property": "C24",
   "status": "proved",
   "theorems": [
    "C24_list_validation_checks_exactly_the_bounds",
    "C24_the_check_alone",
    "C24_a_violation_is_a_validation_error",
    "C24_the_check_of_an_instance",
    "C24_the_check_of_other_values"
   ],
   "note": ""
  },
  {
   "property": "C25",
   "status": "proved",
   "theorems": [
    "C25_the_first_member_that_does_not_refuse_converts",
    "C25_conversion_error_iff_all_refuse",
    "C25_other_exceptions_of_the_first_open_member_propagate",
    "C25_errors_inside_a_list_member_are_final",
    "C25_accepts_what_a_member_accepts_refuted",
    "C25_model_members_cannot_be_exported",
    "C25_imported_unions_can_be_exported_refuted",
    "C25_members_are_the_declared_ones",
    "C25_same_class_members_are_dropped_refuted",
    "C25_custom_resolver",
    "C25_custom_resolver_answers"
   ],
   "note": "The code does not behave as expected in one respect, shown by C25_accepts_what_a_member_accepts_refuted, C25_imported_unions_can_be_exported_refuted, C25_same_class_members_are_dropped_refuted; the other theorems state what holds."
  },
  {
   "property": "C26",
   "status": "proved",
   "theorems": [
    "C26_only_permitted_classes",
    "C26_choice_of_the_class",
    "C26_ambiguity_and_no_match_are_errors",
    "C26_claim_function_is_trusted_refuted",
    "C26_model_fields_hold_instances_of_their_class",
    "C26_class_of_the_converted_instance",
    "C26_other_values_are_refused"
   ],
   "note": "The code does not behave as expected in one respect, shown by C26_claim_function_is_trusted_refuted; the other theorems state what holds."
  },
  {
   "property": "C27",
   "status": "proved",
   "theorems": [
    "C27_success_iff_all_pass",
    "C27_all_validators_run",
    "C27_stop_validation",
    "C27_other_exceptions_propagate",
    "C27_cases",
    "C27_field_validation",
    "C27_field_validation_without_conversion",
    "C27_union_validation_without_conversion",
    "C27_union_validation"
   ],
   "note": ""
  },
  {
   "property": "C28",
   "status": "proved",
   "theorems": [
    "C28_conversion_is_idempotent",
    "C28_date_and_time_conversion_is_idempotent",
    "C28_enum_conversion_is_idempotent"
   ],
   "note": ""
  },
  {
   "property": "C29",
   "status": "proved",
   "theorems": [
    "C29_integers_are_kept",
    "C29_text_round_trip",
    "C29_text_is_read_as_a_literal",
    "C29_other_text_is_rejected",
    "C29_no_numeric_change",
    "C29_result_is_an_integer",
    "C29_other_values_are_refused"
   ],
   "note": ""
  },
  {
   "property": "C30",
   "status": "proved",
   "theorems": [
    "C30_accepts_exactly_the_range",
    "C30_nan_is_never_rejected",
    "C30_infinities"
   ],
   "note": ""
  },
  {
   "property": "C31",
   "status": "proved",
   "theorems": [
    "C31_accepts_exactly_the_spellings",
    "C31_rejects_everything_else"
   ],
   "note": ""
  },
  {
   "property": "C32",
   "status": "proved",
   "theorems": [
    "C32_accepts_exactly_the_lengths",
    "C32_no_length",
    "C32_accepts_exactly_the_matches",
    "C32_patterns_need_texts"
   ],
   "note": ""
  },
  {
   "property": "C33",
   "status": "proved",
   "theorems": [
    "C33_text_round_trip",
    "C33_text_is_injective",
    "C33_dates_are_exported_as_midnight",
    "C33_utc_text_round_trip",
    "C33_offsets_with_seconds_are_not_read_back",
    "C33_times_of_the_day"
   ],
   "note": ""
  },
  {
   "property": "C34",
   "status": "proved",
   "theorems": [
    "C34_results_obey_the_policy",
    "C34_results_pass_validation",
    "C34_conversion_keeps_the_instant",
    "C34_without_conversion_the_clock_is_kept",
    "C34_naive_datetimes_keep_the_clock",
    "C34_naive_is_accepted_iff",
    "C34_aware_is_accepted_iff",
    "C34_what_validation_accepts",
    "C34_validation_accepts_what_conversion_keeps",
    "C34_validation_fails_with_a_validation_error",
    "C34_validation_of_others_refuted",
    "C34_utc_fields_hold_naive_datetimes",
    "C34_utc_fields_keep_the_instant",
    "C34_timestamp_fields_and_naive_datetimes",
    "C34_timestamp_fields_are_in_utc"
   ],
   "note": "The code does not behave as expected in one respect, shown by C34_validation_of_others_refuted; the other theorems state what holds."
  },
  {
   "property": "C35",
   "status": "proved",
   "theorems": [
    "C35_text_round_trip",
    "C35_short_years_are_not_read_back",
    "C35_dates_and_datetimes",
    "C35_accepted_texts",
    "C35_everything_else_is_refused",
    "C35_datetimes_are_exported_as_dates",
    "C35_first_format_that_fits",
    "C35_no_format_fits",
    "C35_dates_of_the_calendar"
   ],
   "note": ""
  },
  {
   "property": "C36",
   "status": "proved",
   "theorems": [
    "C36_ipv4_accepts_exactly_dotted_quads"
   ],
   "note": ""
  },
  {
   "property": "C37",
   "status": "proved",
   "theorems": [
    "C37_ipv6_accepts_exactly_ipv6_texts",
    "C37_addresses_of_both_versions_are_accepted",
    "C37_accepted_as_ip_of_either_version",
    "C37_only_addresses_are_accepted_refuted"
   ],
   "note": "The code does not behave as expected in one respect, shown by C37_only_addresses_are_accepted_refuted; the other theorems state what holds."
  },
  {
   "property": "C38",
   "status": "proved",
   "theorems": [
    "C38_exported_with_colons",
    "C38_export_depends_on_the_digits_only",
    "C38_export_is_idempotent",
    "C38_exports_are_accepted_again",
    "C38_only_texts_are_exported",
    "C38_accepted_texts",
    "C38_accepted_texts_export_as_addresses_refuted"
   ],
   "note": "The code does not behave as expected in one respect, shown by C38_accepted_texts_export_as_addresses_refuted; the other theorems state what holds."
  },
  {
   "property": "C39",
   "status": "proved",
   "theorems": [
    "C39_field_error_carries_its_messages",
    "C39_field_error_refuses_the_rest",
    "C39_every_path_shows_what_was_raised",
    "C39_raised_errors_are_frozen",
    "C39_collected_exceptions",
    "C39_objects_of_exceptions",
    "C39_compound_errors_take_dictionaries",
    "C39_any_error_is_frozen_refuted",
    "C39_argument_is_left_alone_refuted"
   ],
   "note": "The code does not behave as expected in one respect, shown by C39_any_error_is_frozen_refuted, C39_argument_is_left_alone_refuted; the other theorems state what holds."
  },
  {
   "property": "C40",
   "status": "proved",
   "theorems": [
    "C40_equal_errors_hash_alike",
    "C40_frozen_containers_refuted"
   ],
   "note": "The code does not behave as expected in one respect, shown by C40_frozen_containers_refuted; the other theorems state what holds."
  },
  {
   "property": "C41",
   "status": "proved",
   "theorems": [
    "C41_messages_equal_their_text",
    "C41_text_in_error",
    "C41_compound_errors_are_not_searched",
    "C41_equal_messages_hash_alike",
    "C41_equal_sequences",
    "C41_equal_mappings",
    "C41_comparing_raises_nothing",
    "C41_frozen_lists",
    "C41_frozen_list_with_dictionary_refuted",
    "C41_message_and_text_hash_alike_refuted",
    "C41_equality_is_transitive_refuted",
    "C41_equality_is_symmetric_refuted"
   ],
   "note": "The code does not behave as expected in one respect, shown by C41_frozen_list_with_dictionary_refuted, C41_message_and_text_hash_alike_refuted, C41_equality_is_transitive_refuted, C41_equality_is_symmetric_refuted; the other theorems state what holds."
  },
  {
   "property": "C42",
   "status": "proved",
   "theorems": [
    "C42_branch_differs_where_told",
    "C42_branch_of_unknown_attribute",
    "C42_defaults_do_not_overwrite",
    "C42_context_of_a_loop",
    "C42_stub_contexts",
    "C42_positional_construction",
    "C42_attributes_are_set_once",
    "C42_reading_attributes",
    "C42_attributes_never_change_refuted",
    "C42_import_contexts_branch_so"
   ],
   "note": "The code does not behave as expected in one respect, shown by C42_attributes_never_change_refuted; the other theorems state what holds."
  },
  {
   "property": "C43",
   "status": "proved",
   "theorems": [
    "C43_filter_is_set_membership",
    "C43_names_of_a_role",
    "C43_equality",
    "C43_export_with_a_role"
   ],
   "note": ""
  },
  {
   "property": "C44",
   "status": "proved",
   "theorems": [
    "C44_own_and_inherited_fields",
    "C44_fields_by_creation",
    "C44_own_field_created",
    "C44_inherited_field_created",
    "C44_names_of_a_subclass",
    "C44_fields_are_set_up",
    "C44_other_attributes_do_not_matter",
    "C44_validators",
    "C44_level_from_when_none",
    "C44_level_from_own_option",
    "C44_level_inherited",
    "C44_own_roles",
    "C44_inherited_roles",
    "C44_issubclass",
    "C44_all_subclasses",
    "C44_override_wins_over_original_refuted",
    "C44_roles_of_every_base_refuted"
   ],
   "note": "The code does not behave as expected in one respect, shown by C44_override_wins_over_original_refuted, C44_roles_of_every_base_refuted; the other theorems state what holds."
  },
  {
   "property": "C45",
   "status": "proved",
   "theorems": [
    "C45_other_classes_keep_their_fields",
    "C45_classes_without_elements_are_unchanged",
    "C45_nothing_changes_without_inherited_elements",
    "C45_parent_is_unaffected_refuted",
    "C45_sibling_is_unaffected_refuted"
   ],
   "note": "The code does not behave as expected in one respect, shown by C45_parent_is_unaffected_refuted, C45_sibling_is_unaffected_refuted; the other theorems state what holds."
  },
  {
   "property": "C46",
   "status": "proved",
   "theorems": [
    "C46_limit_does_not_matter_construct",
    "C46_limit_does_not_matter_validate",
    "C46_limit_does_not_matter_import",
    "C46_limit_does_not_matter_export",
    "C46_depth_of_construction",
    "C46_depth_of_validate",
    "C46_depth_of_import",
    "C46_construction_terminates",
    "C46_import_terminates",
    "C46_export_terminates",
    "C46_cyclic_default_never_terminates"
   ],
   "note": ""
  },
  {
   "property": "C47",
   "status": "proved",
   "theorems": [
    "C47_exports_the_validated_state",
    "C47_readable_values_are_kept",
    "C47_state_unchanged_refuted",
    "C47_failure_keeps_data_refuted"
   ],
   "note": "The code does not behave as expected in one respect, shown by C47_state_unchanged_refuted, C47_failure_keeps_data_refuted; the other theorems state what holds."
  },
  {
   "property": "C48",
   "status": "proved",
   "theorems": [
    "C48_lazy_reads_raw_input",
    "C48_lazy_validated",
    "C48_alternative_name_unreadable_refuted",
    "C48_validates_another_value_refuted"
   ],
   "note": "The code does not behave as expected in one respect, shown by C48_alternative_name_unreadable_refuted, C48_validates_another_value_refuted; the other theorems state what holds."
  },
  {
   "property": "C49",
   "status": "proved",
   "theorems": [
    "C49_validated_value_survives_delete",
    "C49_delete_removes_the_value_refuted",
    "C49_delete_without_effect_refuted"
   ],
   "note": "The code does not behave as expected in one respect, shown by C49_delete_removes_the_value_refuted, C49_delete_without_effect_refuted; the other theorems state what holds."
  },
  {
   "property": "C50",
   "status": "proved",
   "theorems": [
    "C50_what_is_stored",
    "C50_existing_value_wins",
    "C50_supplied_value_is_stored_refuted"
   ],
   "note": "The code does not behave as expected in one respect, shown by C50_supplied_value_is_stored_refuted; the other theorems state what holds."
  },
  {
   "property": "C51",
   "status": "proved",
   "theorems": [
    "C51_text_round_trip",
    "C51_texts",
    "C51_usual_forms",
    "C51_only_32_digits_refuted",
    "C51_other_values"
   ],
   "note": "The code does not behave as expected in one respect, shown by C51_only_32_digits_refuted; the other theorems state what holds."
  },
  {
   "property": "C52",
   "status": "proved",
   "theorems": [
    "C52_accepts_literals_of_the_length",
    "C52_hex_digests_are_kept",
    "C52_text_is_never_changed",
    "C52_only_hex_digits_refuted"
   ],
   "note": "The code does not behave as expected in one respect, shown by C52_only_hex_digits_refuted; the other theorems state what holds."
  },
  {
   "property": "C53",
   "status": "proved",
   "theorems": [
    "C53_every_size_is_within_the_limits",
    "C53_succeeds_iff_some_size_is_possible",
    "C53_succeeds_without_upper_limit",
    "C53_mock_text_is_valid",
    "C53_filled_templates_are_valid",
    "C53_mock_integers_are_valid",
    "C53_mock_lists_are_valid",
    "C53_negative_ranges_refuted"
   ],
   "note": "The code does not behave as expected in one respect, shown by C53_negative_ranges_refuted; the other theorems state what holds."
  },
  {
   "property": "C54",
   "status": "proved",
   "theorems": [
    "C54_accepts_exactly_pairs_of_numbers",
    "C54_accepts_exactly_the_range",
    "C54_the_range_check_of_other_values",
    "C54_only_points_refuted"
   ],
   "note": "The code does not behave as expected in one respect, shown by C54_only_points_refuted; the other theorems state what holds."
  },
  {
   "property": "C55",
   "status": "proved",
   "theorems": [
    "C55_only_dictionaries_and_none",
    "C55_first_available_locale",
    "C55_no_locale",
    "C55_unfit_value",
    "C55_every_value_is_measured",
    "C55_every_entry_is_matched",
    "C55_patterns_need_texts",
    "C55_patterns_need_mappings",
    "C55_lengths_need_mappings",
    "C55_locale_names"
   ],
   "note": ""
  },
  {
   "property": "C56",
   "status": "proved",
   "theorems": [
    "C56_accepts_exactly_the_choices",
    "C56_without_choices_everything_passes"
   ],
   "note": ""
  },
  {
   "property": "C57",
   "status": "proved",
   "theorems": [
    "C57_what_is_accepted",
    "C57_encoded_text_is_restored",
    "C57_other_data_is_rejected"
   ],
   "note": ""
  },
  {
   "property": "C58",
   "status": "proved",
   "theorems": [
    "C58_text_round_trip",
    "C58_integers_are_exact",
    "C58_booleans_are_numbers"
   ],
   "note": ""
  },
  {
   "property": "C59",
   "status": "proved",
   "theorems": [
    "C59_names_round_trip",
    "C59_values_round_trip",
    "C59_values_round_trip_refuted",
    "C59_accepts_exactly_members_names_and_values",
    "C59_names_and_aliases_denote_their_member",
    "C59_result_is_a_member"
   ],
   "note": "The code does not behave as expected in one respect, shown by C59_values_round_trip_refuted; the other theorems state what holds."
  },
  {
   "property": "C60",
   "status": "proved",
   "theorems": [
    "C60_errors_of_conversion",
    "C60_only_field_errors_refuted",
    "C60_infinity_is_not_caught",
    "C60_huge_integers_are_not_caught",
    "C60_errors_of_date_and_time_conversion",
    "C60_export_of_unfit_dates",
    "C60_export_of_unfit_durations",
    "C60_day_long_offsets_are_not_caught",
    "C60_instants_before_year_one_are_not_caught",
    "C60_infinite_timestamps_are_not_caught",
    "C60_bytes_are_not_caught",
    "C60_infinite_durations_are_not_caught"
   ],
   "note": "The code does not behave as expected in one respect, shown by C60_only_field_errors_refuted; the other theorems state what holds."
  },
  {
   "property": "C61",
   "status": "proved",
   "theorems": [
    "C61_timestamp_round_trip",
    "C61_timestamp_of_the_instant",
    "C61_timestamps_of_aware_datetimes_keep_the_instant",
    "C61_far_timestamps_refuted",
    "C61_duration_round_trip",
    "C61_booleans_are_numbers",
    "C61_microseconds_are_rounded",
    "C61_milliseconds_refuted",
    "C61_microseconds_refuted"
   ],
   "note": "The code does not behave as expected in one respect, shown by C61_far_timestamps_refuted, C61_milliseconds_refuted, C61_microseconds_refuted; the other theorems state what holds."
  },
  {
   "property": "C62",
   "status": "proved",
   "theorems": [
    "C62_accepted_texts",
    "C62_texts_that_are_no_numbers",
    "C62_first_format_that_fits",
    "C62_external_parser"
   ],
   "note": ""
  },
  {
   "property": "C63",
   "status": "proved",
   "theorems": [
    "C63_ipv4_mock",
    "C63_ipv6_mock",
    "C63_ip_mock",
    "C63_mac_mock",
    "C63_email_mock",
    "C63_url_mock",
    "C63_long_url_mocks_are_accepted_refuted"
   ],
   "note": "The code does not behave as expected in one respect, shown by C63_long_url_mocks_are_accepted_refuted; the other theorems state what holds."
  },
  {
   "property": "C64",
   "status": "proved",
   "theorems": [
    "C64_accepted_emails",
    "C64_malformed_emails_end_the_checks"
   ],
   "note": ""
  },
  {
   "property": "C65",
   "status": "proved",
   "theorems": [
    "C65_accepted_urls",
    "C65_malformed_urls_end_the_checks",
    "C65_no_backslash_is_accepted_refuted"
   ],
   "note": "The code does not behave as expected in one respect, shown by C65_no_backslash_is_accepted_refuted; the other theorems state what holds."
  },
  {
   "property": "C66",
   "status": "proved",
   "theorems": [
    "C66_nested_models_are_constructed_alike",
    "C66_nested_failures_are_reported",
    "C66_lists_of_models_are_constructed_alike",
    "C66_recursive_import_is_import_into_the_nested_instance",
    "C66_mappings_do_not_leak_refuted",
    "C66_nested_instances_hold_their_fields_only_refuted",
    "C66_models_in_unions_are_independent_refuted"
   ],
   "note": "The code does not behave as expected in one respect, shown by C66_mappings_do_not_leak_refuted, C66_nested_instances_hold_their_fields_only_refuted, C66_models_in_unions_are_independent_refuted; the other theorems state what holds."
  },
  {
   "property": "C67",
   "status": "proved",
   "theorems": [
    "C67_which_validators",
    "C67_each_validator_once",
    "C67_ancestors",
    "C67_order_of_validators",
    "C67_validators_of_a_subclass",
    "C67_own_validator",
    "C67_inherited_validator",
    "C67_context_is_optional",
    "C67_what_passes",
    "C67_validators_are_functions",
    "C67_failing_class_statement",
    "C67_mixin_validators_refuted",
    "C67_mixin_override_refuted",
    "C67_bound_methods_refuted",
    "C67_used_again_refuted"
   ],
   "note": "The code does not behave as expected in one respect, shown by C67_mixin_validators_refuted, C67_mixin_override_refuted, C67_bound_methods_refuted, C67_used_again_refuted; the other theorems state what holds."
  },
  {
   "property": "C68",
   "status": "proved",
   "theorems": [
    "C68_which_message",
    "C68_no_message_is_lost",
    "C68_classes_are_not_changed",
    "C68_message_of_the_nearest_class_refuted"
   ],
   "note": "The code does not behave as expected in one respect, shown by C68_message_of_the_nearest_class_refuted; the other theorems state what holds."
  },
  {
   "property": "C69",
   "status": "proved",
   "theorems": [
    "C69_hashes",
    "C69_dates",
    "C69_datetimes",
    "C69_geo_points",
    "C69_floats",
    "C69_decimals",
    "C69_uuids_booleans_and_timedeltas",
    "C69_multilingual_texts_refuted",
    "C69_choices_of_list_elements_refuted"
   ],
   "note": "The code does not behave as expected in one respect, shown by C69_multilingual_texts_refuted, C69_choices_of_list_elements_refuted; the other theorems state what holds."
  },
  {
   "property": "C70",
   "status": "proved",
   "theorems": [
    "C70_depth_is_bounded",
    "C70_more_depth_changes_nothing",
    "C70_what_a_mock_object_is_made_of",
    "C70_fields_with_a_value",
    "C70_fields_without_a_value",
    "C70_required_fields_have_values_refuted",
    "C70_list_elements_are_alike_refuted",
    "C70_creation_errors_do_not_escape",
    "C70_creation_errors_are_reported_refuted"
   ],
   "note": "The code does not behave as expected in one respect, shown by C70_required_fields_have_values_refuted, C70_list_elements_are_alike_refuted, C70_creation_errors_are_reported_refuted; the other theorems state what holds."
  },
  {
   "property": "C71",
   "status": "proved",
   "theorems": [
    "C71_convert_gives_the_same_data",
    "C71_same_data_is_exported_alike",
    "C71_export_with_computed_fields_refuted",
    "C71_nested_validators_refuted",
    "C71_convert_leaves_the_input",
    "C71_validate_leaves_the_input",
    "C71_setters_leave_the_input_refuted",
    "C71_instances_are_read_as_dictionaries",
    "C71_validate_an_instance_refuted"
   ],
   "note": "The code does not behave as expected in one respect, shown by C71_export_with_computed_fields_refuted, C71_nested_validators_refuted, C71_setters_leave_the_input_refuted, C71_validate_an_instance_refuted; the other theorems state what holds."
  },
  {
   "property": "C72",
   "status": "proved",
   "theorems": [
    "C72_steps_in_order",
    "C72_start",
    "C72_data_of_the_steps",
    "C72_callbacks_leave_their_input",
    "C72_all_steps",
    "C72_data_in_every_state",
    "C72_failures_keep_the_state",
    "C72_impossible_steps",
    "C72_possible_steps",
    "C72_can",
    "C72_can_anything",
    "C72_cannot",
    "C72_every_step_applies_its_callback_refuted"
   ],
   "note": "The code does not behave as expected in one respect, shown by C72_every_step_applies_its_callback_refuted; the other theorems state what holds."
  },
  {
   "property": "C73",
   "status": "proved",
   "theorems": [
    "C73_options_from_keywords",
    "C73_options_of_a_list_reach_its_elements",
    "C73_options_of_a_dictionary_reach_its_values",
    "C73_instances_keep_their_options",
    "C73_options_of_the_element_class_are_refused",
    "C73_options_of_a_list",
    "C73_validators_of_a_list_come_in_a_list",
    "C73_required_lists_refuse_none",
    "C73_none_is_left_out_of_lists",
    "C73_choices_of_a_list",
    "C73_choices_are_those_of_the_elements_refuted",
    "C73_options_of_a_union_reach_its_classes",
    "C73_unions_ignore_unknown_options",
    "C73_unions_need_types",
    "C73_unions_are_made_of_types",
    "C73_compounds_need_fields",
    "C73_elements_are_types",
    "C73_model_types_need_a_class",
    "C73_computed_fields_need_a_type",
    "C73_missing_parameters",
    "C73_unknown_options",
    "C73_validators_of_a_union_run_refuted",
    "C73_types_of_computed_fields",
    "C73_computed_fields_keep_the_export_level_refuted",
    "C73_computed_fields_add_validators_refuted",
    "C73_computed_fields_of_classes_and_instances_refuted",
    "C73_required_values",
    "C73_unfit_validators"
   ],
   "note": "The code does not behave as expected in one respect, shown by C73_choices_are_those_of_the_elements_refuted, C73_validators_of_a_union_run_refuted, C73_computed_fields_keep_the_export_level_refuted, C73_computed_fields_add_validators_refuted, C73_computed_fields_of_classes_and_instances_refuted; the other theorems state what holds."
  },
  {
   "property": "C74",
   "status": "proved",
   "theorems": [
    "C74_how_often_a_class_is_considered",
    "C74_once_without_multiple_inheritance",
    "C74_the_only_claimant_is_chosen",
    "C74_two_claimants_are_ambiguous",
    "C74_the_class_itself_if_nobody_claims",
    "C74_classes_defined_later",
    "C74_the_only_claimant_is_chosen_refuted",
    "C74_listed_classes_count_once_refuted"
   ],
   "note": "The code does not behave as expected in one respect, shown by C74_the_only_claimant_is_chosen_refuted, C74_listed_classes_count_once_refuted; the other theorems state what holds."
  },
  {
   "property": "C75",
   "status": "proved",
   "theorems": [
    "C75_what_a_name_imports",
    "C75_names_that_are_not_found",
    "C75_errors_of_modules_are_raised",
    "C75_a_colon_is_a_dot",
    "C75_no_own_name_is_left",
    "C75_no_polymorphic_name_is_left",
    "C75_when_a_class_statement_fails",
    "C75_what_a_field_refers_to",
    "C75_a_mixin_is_not_touched",
    "C75_references_never_change",
    "C75_the_first_use_decides",
    "C75_only_models_have_a_class",
    "C75_a_use_imports_the_name",
    "C75_what_references_refer_to",
    "C75_lists_refer_to_the_own_class_refuted",
    "C75_unions_refer_to_the_own_class_refuted",
    "C75_a_failed_class_leaves_no_trace_refuted"
   ],
   "note": "The code does not behave as expected in one respect, shown by C75_lists_refer_to_the_own_class_refuted, C75_unions_refer_to_the_own_class_refuted, C75_a_failed_class_leaves_no_trace_refuted; the other theorems state what holds."
  },
  {
   "property": "C76",
   "status": "proved",
   "theorems": [
    "C76_exported_data",
    "C76_exported_values",
    "C76_library_types",
    "C76_unions_of_library_types",
    "C76_library_types_native",
    "C76_unions_native",
    "C76_forms_after_construction",
    "C76_forms_after_validation",
    "C76_plain_after_construction",
    "C76_plain_after_validation",
    "C76_union_with_decimal_refuted",
    "C76_assigned_values_refuted",
    "C76_given_instances_refuted"
   ],
   "note": "The code does not behave as expected in one respect, shown by C76_union_with_decimal_refuted, C76_assigned_values_refuted, C76_given_instances_refuted; the other theorems state what holds."
  },
  {
   "property": "C77",
   "status": "proved",
   "theorems": [
    "C77_values_are_read_when_requested",
    "C77_filtered",
    "C77_names_in_order",
    "C77_mapping_not_read_unless_asked",
    "C77_wrong_keys",
    "C77_ended_for_good",
    "C77_filter_exceptions_are_raised",
    "C77_setter_filters"
   ],
   "note": ""
  },
  {
   "property": "C78",
   "status": "proved",
   "theorems": [
    "C78_app_data_everywhere",
    "C78_results_depend_on_the_data_given",
    "C78_model_validators_see_them",
    "C78_converters_see_them",
    "C78_members_of_unions",
    "C78_import_and_validate_refuted",
    "C78_serialize_refuted",
    "C78_serialize_in_two_steps",
    "C78_assigned_dictionaries"
   ],
   "note": "The code does not behave as expected in one respect, shown by C78_import_and_validate_refuted, C78_serialize_refuted; the other theorems state what holds."
  },
  {
   "property": "C79",
   "status": "proved",
   "theorems": [
    "C79_translated_when_raised",
    "C79_messages_are_lazy_by_request",
    "C79_values_are_not_translated",
    "C79_plain_texts_are_not_translated",
    "C79_messages_with_info_follow_the_translator",
    "C79_primitive_form_is_kept"
   ],
   "note": ""
  },
  {
   "property": "C80",
   "status": "proved",
   "theorems": [
    "C80_accepts_exactly",
    "C80_rejects_with_a_conversion_error",
    "C80_results_are_object_ids",
    "C80_text_round_trip"
   ],
   "note": ""
  },
  {
   "property": "C81",
   "status": "proved",
   "theorems": [
    "C81_instances_are_separate_from_their_data",
    "C81_instances_are_separate_from_each_other",
    "C81_instances_of_equal_data_are_equal",
    "C81_exports_are_separate_from_the_instance",
    "C81_validation_replaces_all_containers",
    "C81_separate_for_all_types_refuted",
    "C81_defaults_are_copied_refuted",
    "C81_separate_without_validation_refuted",
    "C81_assignment_copies_refuted"
   ],
   "note": "The code does not behave as expected in one respect, shown by C81_separate_for_all_types_refuted, C81_defaults_are_copied_refuted, C81_separate_without_validation_refuted, C81_assignment_copies_refuted; the other theorems state what holds."
  },
  {
   "property": "C82",
   "status": "proved",
   "theorems": [
    "C82_setters_run_to_the_end_or_raise",
    "C82_values_are_validated_as_the_setters_leave_them",
    "C82_errors_of_setters_are_reported_with_all_others",
    "C82_other_exceptions_of_setters_are_raised",
    "C82_where_other_exceptions_come_from",
    "C82_import_stores_what_is_given_for_a_setter",
    "C82_value_under_the_serialized_name_is_kept_refuted"
   ],
   "note": "The code does not behave as expected in one respect, shown by C82_value_under_the_serialized_name_is_kept_refuted; the other theorems state what holds."
  },
  {
   "property": "C83",
   "status": "proved",
   "theorems": [
    "C83_float_texts",
    "C83_other_float_texts_are_refused",
    "C83_nearest_is_unique",
    "C83_float_bytes",
    "C83_other_bytes_are_refused",
    "C83_floats_are_kept",
    "C83_integers_are_rounded",
    "C83_large_integers_overflow",
    "C83_small_integers_are_exact",
    "C83_booleans_are_integers",
    "C83_decimals_are_rounded",
    "C83_other_values_are_refused",
    "C83_result_is_a_float",
    "C83_decimal_texts",
    "C83_special_decimal_texts",
    "C83_other_decimal_texts_are_refused"
   ],
   "note": ""
  },
  {
   "property": "C84",
   "status": "proved",
   "theorems": [
    "C84_help_text",
    "C84_undocumented_refuted",
    "C84_example_code",
    "C84_example_code_refuted",
    "C84_parameters",
    "C84_parameters_raise",
    "C84_api_docstring",
    "C84_api_docstring_raises"
   ],
   "note": "The code does not behave as expected in one respect, shown by C84_undocumented_refuted, C84_example_code_refuted; the other theorems state what holds."
  },
  {
   "property": "C85",
   "status": "proved",
   "theorems": [
    "C85_format",
    "C85_format_raises",
    "C85_format_exceptions",
    "C85_conversion_texts",
    "C85_validation_texts",
    "C85_plain_texts",
    "C85_export_texts",
    "C85_default_texts",
    "C85_date_messages_refuted",
    "C85_custom_template_refuted",
    "C85_timestamp_texts_refuted",
    "C85_templates_of_the_library"
   ],
   "note": "The code does not behave as expected in one respect, shown by C85_date_messages_refuted, C85_custom_template_refuted, C85_timestamp_texts_refuted; the other theorems state what holds."
  },
  {
   "property": "C86",
   "status": "proved",
   "theorems": [
    "C86_comparison_ends",
    "C86_meaning_of_equality",
    "C86_answers_are_right",
    "C86_no_trace",
    "C86_threads_do_not_interfere",
    "C86_list_cycles_refuted",
    "C86_interleaved_answers",
    "C86_interleaved_end",
    "C86_interleaved_no_trace"
   ],
   "note": "The code does not behave as expected in one respect, shown by C86_list_cycles_refuted; the other theorems state what holds."
  },
  {
   "property": "C87",
   "status": "proved",
   "theorems": [
    "C87_new_field",
    "C87_names",
    "C87_other_fields",
    "C87_other_classes",
    "C87_other_classes_are_unchanged",
    "C87_everything_else_stays",
    "C87_later_classes",
    "C87_later_classes_by_creation",
    "C87_class_statements_leave_other_classes",
    "C87_fields_are_set_up",
    "C87_existing_values_are_exported_as_before",
    "C87_subclasses_get_the_field_refuted",
    "C87_fields_by_creation_refuted",
    "C87_other_classes_export_as_before_refuted"
   ],
   "note": "The code does not behave as expected in one respect, shown by C87_subclasses_get_the_field_refuted, C87_fields_by_creation_refuted, C87_other_classes_export_as_before_refuted; the other theorems state what holds."
  },
  {
   "property": "C88",
   "status": "proved",
   "theorems": [
    "C88_permutation",
    "C88_construction",
    "C88_import_data",
    "C88_validate",
    "C88_assignment",
    "C88_export",
    "C88_import_then_export",
    "C88_library_types",
    "C88_library_types_export",
    "C88_points_refuted",
    "C88_colliding_keys_refuted"
   ],
   "note": "The code does not behave as expected in one respect, shown by C88_points_refuted, C88_colliding_keys_refuted; the other theorems state what holds."
  },
  {
   "property": "C89",
   "status": "proved",
   "theorems": [
    "C89_construction",
    "C89_import_data",
    "C89_validate",
    "C89_lazy_instances_refuted"
   ],
   "note": "The code does not behave as expected in one respect, shown by C89_lazy_instances_refuted; the other theorems state what holds."
  },
  {
   "property": "C90",
   "status": "proved",
   "theorems": [
    "C90_validate",
    "C90_after_import",
    "C90_nested_models_refuted",
    "C90_import_and_validate_refuted"
   ],
   "note": "The code does not behave as expected in one respect, shown by C90_nested_models_refuted, C90_import_and_validate_refuted; the other theorems state what holds."
  },
  {
   "property": "C91",
   "status": "proved",
   "theorems": [
    "C91_attributes_and_subscription",
    "C91_assignment",
    "C91_deleting_nothing",
    "C91_slots",
    "C91_setting",
    "C91_deleting",
    "C91_contents",
    "C91_dictionary_methods",
    "C91_construction",
    "C91_update",
    "C91_defaults",
    "C91_copy",
    "C91_copies_are_equal",
    "C91_to_dict",
    "C91_to_dict_answers",
    "C91_to_dict_of_cycles",
    "C91_equality",
    "C91_equality_answers",
    "C91_update_by_keywords_refuted",
    "C91_reserved_keywords_refuted",
    "C91_attributes_hide_methods",
    "C91_method_names_refuted",
    "C91_to_dict_in_lists_refuted"
   ],
   "note": "The code does not behave as expected in one respect, shown by C91_update_by_keywords_refuted, C91_reserved_keywords_refuted, C91_method_names_refuted, C91_to_dict_in_lists_refuted; the other theorems state what holds."
  },
  {
   "property": "C92",
   "status": "proved",
   "theorems": [
    "C92_construction",
    "C92_copy",
    "C92_validate",
    "C92_reads",
    "C92_reads_same",
    "C92_new_fields",
    "C92_used_key_refuted",
    "C92_nothing_to_validate_refuted"
   ],
   "note": "The code does not behave as expected in one respect, shown by C92_used_key_refuted, C92_nothing_to_validate_refuted; the other theorems state what holds."
  },
  {
   "property": "C93",
   "status": "proved",
   "theorems": [
    "C93_construction",
    "C93_copy",
    "C93_validate",
    "C93_reads",
    "C93_reads_same",
    "C93_drops_the_rest",
    "C93_strict_refuted",
    "C93_nothing_to_validate_refuted"
   ],
   "note": "The code does not behave as expected in one respect, shown by C93_strict_refuted, C93_nothing_to_validate_refuted; the other theorems state what holds."
  },
  {
   "property": "C94",
   "status": "proved",
   "theorems": [
    "C94_construction",
    "C94_validate",
    "C94_import_data",
    "C94_assignment",
    "C94_only_data_error",
    "C94_validate_only_data_error",
    "C94_types_for_json",
    "C94_types_for_any_data",
    "C94_library_validators",
    "C94_top_level_refuted",
    "C94_import_and_validate_refuted",
    "C94_types_refuted"
   ],
   "note": "The code does not behave as expected in one respect, shown by C94_top_level_refuted, C94_import_and_validate_refuted, C94_types_refuted; the other theorems state what holds."
  },
  {
   "property": "C95",
   "status": "proved",
   "theorems": [
    "C95_upgrade",
    "C95_downgrade",
    "C95_there_and_back",
    "C95_new_values_survive_refuted"
   ],
   "note": "The code does not behave as expected in one respect, shown by C95_new_values_survive_refuted; the other theorems state what holds."
  },
  {
   "property": "C96",
   "status": "proved",
   "theorems": [
    "C96_construction",
    "C96_validate",
    "C96_import_data",
    "C96_assignment",
    "C96_export",
    "C96_validators_on_construction",
    "C96_validators_on_import",
    "C96_validators_on_assignment",
    "C96_validators_on_export",
    "C96_union_member_types_refuted"
   ],
   "note": "The code does not behave as expected in one respect, shown by C96_union_member_types_refuted; the other theorems state what holds."
  },
  {
   "property": "C97",
   "status": "proved",
   "theorems": [
    "C97_two_steps_are_one",
    "C97_merged_dictionaries",
    "C97_data_can_be_split",
    "C97_either_order",
    "C97_again",
    "C97_later_key_wins_refuted",
    "C97_recursive_refuted"
   ],
   "note": "The code does not behave as expected in one respect, shown by C97_later_key_wins_refuted, C97_recursive_refuted; the other theorems state what holds."
  },
  {
   "property": "C98",
   "status": "proved",
   "theorems": [
    "C98_construction",
    "C98_copy",
    "C98_import_data",
    "C98_validate",
    "C98_reading",
    "C98_assignment",
    "C98_export",
    "C98_in_and_out",
    "C98_unvalidated_refuted"
   ],
   "note": "The code does not behave as expected in one respect, shown by C98_unvalidated_refuted; the other theorems state what holds."
  },
  {
   "property": "C99",
   "status": "proved",
   "theorems": [
    "C99_shows_less",
    "C99_values",
    "C99_any_role",
    "C99_roles",
    "C99_levels",
    "C99_entries_of_a_part",
    "C99_shared_name_refuted"
   ],
   "note": "The code does not behave as expected in one respect, shown by C99_shared_name_refuted; the other theorems state what holds."
  },
  {
   "property": "C100",
   "status": "proved",
   "theorems": [
    "C100_always",
    "C100_what_is_read",
    "C100_construction",
    "C100_import_errors",
    "C100_validation_errors",
    "C100_values",
    "C100_exports_of_any_instance",
    "C100_names_refuted"
   ],
   "note": "The code does not behave as expected in one respect, shown by C100_names_refuted; the other theorems state what holds."
  },
  {
   "property": "C101",
   "status": "proved",
   "theorems": [
    "C101_one_object",
    "C101_call_always",
    "C101_loaded",
    "C101_no_order",
    "C101_no_least",
    "C101_old_pickles_refuted",
    "C101_own_instance_refuted"
   ],
   "note": "The code does not behave as expected in one respect, shown by C101_old_pickles_refuted, C101_own_instance_refuted; the other theorems state what holds."
  },
  {
   "property": "C102",
   "status": "proved",
   "theorems": [
    "C102_plain_data",
    "C102_construction",
    "C102_construction_trusted",
    "C102_import_data",
    "C102_validate",
    "C102_assignment",
    "C102_made_fit",
    "C102_import_then_validate",
    "C102_export",
    "C102_import_then_export",
    "C102_lists_refuted",
    "C102_same_names_refuted"
   ],
   "note": "The code does not behave as expected in one respect, shown by C102_lists_refuted, C102_same_names_refuted; the other theorems state what holds."
  },
  {
   "property": "C103",
   "status": "proved",
   "theorems": [
    "C103_errors",
    "C103_values",
    "C103_partial_data",
    "C103_list_value_refuted",
    "C103_shared_name_refuted",
    "C103_validation_refuted"
   ],
   "note": "The code does not behave as expected in one respect, shown by C103_list_value_refuted, C103_shared_name_refuted, C103_validation_refuted; the other theorems state what holds."
  },
  {
   "property": "C104",
   "status": "proved",
   "theorems": [
    "C104_parts",
    "C104_every_part",
    "C104_no_influence",
    "C104_parts_of_values",
    "C104_no_influence_on_values",
    "C104_positions_refuted",
    "C104_value_roles_refuted"
   ],
   "note": "The code does not behave as expected in one respect, shown by C104_positions_refuted, C104_value_roles_refuted; the other theorems state what holds."
  },
  {
   "property": "C105",
   "status": "proved",
   "theorems": [
    "C105_made_of_data",
    "C105_validated",
    "C105_library_types",
    "C105_none_among_dates_refuted",
    "C105_none_among_lists_refuted",
    "C105_none_among_numbers_refuted",
    "C105_far_time_zones_refuted"
   ],
   "note": "The code does not behave as expected in one respect, shown by C105_none_among_dates_refuted, C105_none_among_lists_refuted, C105_none_among_numbers_refuted, C105_far_time_zones_refuted; the other theorems state what holds."
  },
  {
   "property": "C106",
   "status": "proved",
   "theorems": [
    "C106_init",
    "C106_init_validate",
    "C106_import_data",
    "C106_renamed_data_exist",
    "C106_nested_names_refuted"
   ],
   "note": "The code does not behave as expected in one respect, shown by C106_nested_names_refuted; the other theorems state what holds."
  },
  {
   "property": "C107",
   "status": "proved",
   "theorems": [
    "C107_names_found",
    "C107_names_known",
    "C107_nested_mappings",
    "C107_spelling_does_not_matter",
    "C107_field_called_model_mapping_refuted",
    "C107_names_in_a_dictionary_refuted",
    "C107_names_as_bytes_refuted"
   ],
   "note": "The code does not behave as expected in one respect, shown by C107_field_called_model_mapping_refuted, C107_names_in_a_dictionary_refuted, C107_names_as_bytes_refuted; the other theorems state what holds."
  },
  {
   "property": "C108",
   "status": "proved",
   "theorems": [
    "C108_construction",
    "C108_import_data",
    "C108_validate",
    "C108_serialize",
    "C108_comparison",
    "C108_convert_refuted",
    "C108_validate_refuted",
    "C108_serialize_refuted",
    "C108_get_refuted"
   ],
   "note": "The code does not behave as expected in one respect, shown by C108_convert_refuted, C108_validate_refuted, C108_serialize_refuted, C108_get_refuted; the other theorems state what holds."
  },
  {
   "property": "C109",
   "status": "proved",
   "theorems": [
    "C109_converts",
    "C109_requires",
    "C109_validates",
    "C109_exports",
    "C109_assignment",
    "C109_appended",
    "C109_inherited",
    "C109_limits_refuted",
    "C109_base_change_refuted"
   ],
   "note": "The code does not behave as expected in one respect, shown by C109_limits_refuted, C109_base_change_refuted; the other theorems state what holds."
  },
  {
   "property": "C110",
   "status": "proved",
   "theorems": [
    "C110_new_class",
    "C110_names_of_a_class",
    "C110_assignment",
    "C110_stays",
    "C110_assigned_names",
    "C110_assigned_names_with_mapping",
    "C110_exports",
    "C110_round_trip_refuted",
    "C110_own_name_refuted"
   ],
   "note": "The code does not behave as expected in one respect, shown by C110_round_trip_refuted, C110_own_name_refuted; the other theorems state what holds."
  },
  {
   "property": "C111",
   "status": "proved",
   "theorems": [
    "C111_fields_of_a_class",
    "C111_setter",
    "C111_stays",
    "C111_base_and_derived_class",
    "C111_setter_in_a_class_body_refuted",
    "C111_instances_of_the_base_refuted"
   ],
   "note": "The code does not behave as expected in one respect, shown by C111_setter_in_a_class_body_refuted, C111_instances_of_the_base_refuted; the other theorems state what holds."
  },
  {
   "property": "C112",
   "status": "proved",
   "theorems": [
    "C112_programs",
    "C112_added_field",
    "C112_other_fields",
    "C112_values",
    "C112_members_can_be_read_refuted",
    "C112_derived_class",
    "C112_base_and_derived_class_agree_refuted"
   ],
   "note": "The code does not behave as expected in one respect, shown by C112_members_can_be_read_refuted, C112_base_and_derived_class_agree_refuted; the other theorems state what holds."
  },
  {
   "property": "C113",
   "status": "proved",
   "theorems": [
    "C113_copy_and_original",
    "C113_operations",
    "C113_new_instances",
    "C113_new_instance",
    "C113_deepcopy_of_instances_refuted"
   ],
   "note": "The code does not behave as expected in one respect, shown by C113_deepcopy_of_instances_refuted; the other theorems state what holds."
  },
  {
   "property": "C114",
   "status": "proved",
   "theorems": [
    "C114_no_request_for_bad_urls",
    "C114_parts",
    "C114_host",
    "C114_quoting",
    "C114_plain_requests",
    "C114_request",
    "C114_urls_that_exist_pass_refuted",
    "C114_users_have_no_influence"
   ],
   "note": "The code does not behave as expected in one respect, shown by C114_urls_that_exist_pass_refuted; the other theorems state what holds."
  },
  {
   "property": "C115",
   "status": "proved",
   "theorems": [
    "C115_reads",
    "C115_assignment",
    "C115_derived_fields_keep_attributes_refuted",
    "C115_serialized_name",
    "C115_export_level",
    "C115_assigned_level_is_used_refuted",
    "C115_copies_work_refuted"
   ],
   "note": "The code does not behave as expected in one respect, shown by C115_derived_fields_keep_attributes_refuted, C115_assigned_level_is_used_refuted, C115_copies_work_refuted; the other theorems state what holds."
  },
  {
   "property": "C116",
   "status": "proved",
   "theorems": [
    "C116_exports_without_such_names",
    "C116_conversions_without_such_names",
    "C116_mocks_without_such_names",
    "C116_exports",
    "C116_nested_instances",
    "C116_fields_refuted",
    "C116_whole_export_refuted",
    "C116_export_refuted",
    "C116_convert_refuted",
    "C116_mock_refuted"
   ],
   "note": "The code does not behave as expected in one respect, shown by C116_fields_refuted, C116_whole_export_refuted, C116_export_refuted, C116_convert_refuted, C116_mock_refuted; the other theorems state what holds."
  },
  {
   "property": "C117",
   "status": "proved",
   "theorems": [
    "C117_shown",
    "C117_shown_assignment",
    "C117_shown_membership",
    "C117_shown_serialize",
    "C117_construction",
    "C117_validated_construction",
    "C117_validation",
    "C117_serialize_fails",
    "C117_serialize",
    "C117_nothing_to_validate",
    "C117_import",
    "C117_plain_import",
    "C117_assignment",
    "C117_other_assignments",
    "C117_membership",
    "C117_other_membership",
    "C117_values_kept_refuted"
   ],
   "note": "The code does not behave as expected in one respect, shown by C117_values_kept_refuted; the other theorems state what holds."
  }
 ]
}
