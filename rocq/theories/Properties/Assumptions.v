(** * What the theorems named in MANIFEST.json rest on (generated by tools/gen_assumptions.py)
    Every line of the build's output for this file has to be "Closed under the global context". *)
From Verif Require Properties.OrmProps Properties.DecProps Properties.TimeProps Properties.EncProps Properties.DriverProps Properties.Demo Properties.LintProps Properties.CompProps Properties.ParserProps Properties.MeterProps Properties.TxProps Properties.CtxProps Properties.RandProps Properties.ExecProps Properties.LockProps Properties.DetProps Properties.SubmitProps Properties.ClientProps Properties.InterfaceProps Properties.HashProps Properties.DecMoreProps Properties.ClientCallProps Properties.DumpProps Properties.DeleteProps Properties.ReadsProps Properties.AdmitProps Properties.EndsProps Properties.TimeOpsProps Properties.RandomProps Properties.HeapProps Properties.DecOpsProps Properties.ImportProps Properties.TextProps Properties.ClientAttrProps Properties.IsolationProps Properties.TokenProps Properties.ClientObjectProps Properties.ProcessProps Properties.ReportProps Properties.DefaultProps Properties.SubmissionProps Properties.DryProps Properties.StampProps Properties.BatchProps Properties.FlushProps Properties.CompilesProps Properties.AnswerProps Properties.OwnerProps Properties.EventProps Properties.TracerProps Properties.AttributeProps Properties.ScopeProps Properties.DateObjectProps Properties.ClosureProps Properties.SetProps Properties.SchemaProps Properties.IndexProps Properties.ClientVarProps.
Print Assumptions Properties.DriverProps.C01_bypass_refuted.
Print Assumptions Properties.DriverProps.C01_lookup_order.
Print Assumptions Properties.DriverProps.C01_read_your_writes.
Print Assumptions Properties.DriverProps.C02_delete_invisible_refuted.
Print Assumptions Properties.DriverProps.C02_pending_only_partial.
Print Assumptions Properties.DriverProps.C02_refuted.
Print Assumptions Properties.DriverProps.C03_commit_durable.
Print Assumptions Properties.DriverProps.C03_commit_succeeds.
Print Assumptions Properties.DriverProps.C03_separate_keys.
Print Assumptions Properties.DriverProps.C04_rollback.
Print Assumptions Properties.DriverProps.C05_refuted.
Print Assumptions Properties.DriverProps.C05_rollback_to_time_refuted.
Print Assumptions Properties.DriverProps.C06_hard_apply.
Print Assumptions Properties.DriverProps.C06_hard_apply_succeeds.
Print Assumptions Properties.DriverProps.C07_crash.
Print Assumptions Properties.DriverProps.C08_raises_halfway_refuted.
Print Assumptions Properties.DriverProps.C08_refuted.
Print Assumptions Properties.DriverProps.C08_single_key_partial.
Print Assumptions Properties.OrmProps.C09_commit_partial.
Print Assumptions Properties.OrmProps.C09_different_places_partial.
Print Assumptions Properties.OrmProps.C09_empty_refuted.
Print Assumptions Properties.OrmProps.C09_slash_general_refuted.
Print Assumptions Properties.OrmProps.C09_slash_refuted.
Print Assumptions Properties.HeapProps.C100_failed_transaction_restores_pending.
Print Assumptions Properties.HeapProps.C100_pending_keys_read_as_before.
Print Assumptions Properties.DecOpsProps.C101_arithmetic_partial.
Print Assumptions Properties.DecOpsProps.C101_comparison_partial.
Print Assumptions Properties.DecOpsProps.C101_odd_numbers_refuted.
Print Assumptions Properties.DecOpsProps.C101_other_types.
Print Assumptions Properties.ImportProps.C102_binds_contracts.
Print Assumptions Properties.ImportProps.C102_plain_imports_partial.
Print Assumptions Properties.ImportProps.C102_runs_python_refuted.
Print Assumptions Properties.ImportProps.C102_top_level_refuted.
Print Assumptions Properties.ClientAttrProps.C103_attrs_partial.
Print Assumptions Properties.ClientAttrProps.C103_committed_refuted.
Print Assumptions Properties.ClientAttrProps.C103_own_first_refuted.
Print Assumptions Properties.ClientAttrProps.C103_refuted.
Print Assumptions Properties.IsolationProps.C104_fee_elsewhere.
Print Assumptions Properties.IsolationProps.C104_foreign_code_cannot_write.
Print Assumptions Properties.IsolationProps.C104_history.
Print Assumptions Properties.TokenProps.C104_linted_code_refuted.
Print Assumptions Properties.IsolationProps.C104_transaction.
Print Assumptions Properties.IsolationProps.C105_fresh_stays_fresh_partial.
Print Assumptions Properties.IsolationProps.C105_no_module_outlives_partial.
Print Assumptions Properties.TokenProps.C105_raised_refuted.
Print Assumptions Properties.TokenProps.C106_fee_destroyed.
Print Assumptions Properties.TokenProps.C106_supply_conserved.
Print Assumptions Properties.TokenProps.C106_supply_never_grows.
Print Assumptions Properties.ClientObjectProps.C107_calls_partial.
Print Assumptions Properties.ClientObjectProps.C107_environment_refuted.
Print Assumptions Properties.ClientObjectProps.C107_executor_refuted.
Print Assumptions Properties.ClientObjectProps.C107_name_refuted.
Print Assumptions Properties.ClientObjectProps.C107_now_refuted.
Print Assumptions Properties.ClientObjectProps.C107_own_attributes_partial.
Print Assumptions Properties.ClientObjectProps.C107_signer_refuted.
Print Assumptions Properties.ProcessProps.C108_at_rest.
Print Assumptions Properties.ProcessProps.C108_independent_partial.
Print Assumptions Properties.ProcessProps.C108_refuted.
Print Assumptions Properties.ProcessProps.C108_shared_time_refuted.
Print Assumptions Properties.ReportProps.C109_at_first.
Print Assumptions Properties.ReportProps.C109_calm_partial.
Print Assumptions Properties.ReportProps.C109_commit_refuted.
Print Assumptions Properties.ReportProps.C109_hard_apply_keeps_partial.
Print Assumptions Properties.ReportProps.C109_later_refuted.
Print Assumptions Properties.ReportProps.C109_rollback_refuted.
Print Assumptions Properties.OrmProps.C10_committed_invisible_refuted.
Print Assumptions Properties.OrmProps.C10_hash_listing_partial.
Print Assumptions Properties.OrmProps.C10_invented_refuted.
Print Assumptions Properties.OrmProps.C10_reachable.
Print Assumptions Properties.OrmProps.C10_refuted.
Print Assumptions Properties.OrmProps.C10_stale_refuted.
Print Assumptions Properties.ReportProps.C110_float_refuted.
Print Assumptions Properties.ReportProps.C110_no_floats_partial.
Print Assumptions Properties.ReportProps.C110_only_floats_partial.
Print Assumptions Properties.DefaultProps.C111_defaults_partial.
Print Assumptions Properties.DefaultProps.C111_in_place_refuted.
Print Assumptions Properties.DefaultProps.C111_refuted.
Print Assumptions Properties.SubmissionProps.C112_client_arguments.
Print Assumptions Properties.SubmissionProps.C112_client_partial.
Print Assumptions Properties.SubmissionProps.C112_import_time_refuted.
Print Assumptions Properties.SubmissionProps.C112_time_refuted.
Print Assumptions Properties.SubmissionProps.C112_transaction_partial.
Print Assumptions Properties.DryProps.C113_no_trace_partial.
Print Assumptions Properties.DryProps.C113_pending_refuted.
Print Assumptions Properties.DryProps.C113_raised_refuted.
Print Assumptions Properties.DryProps.C113_stuck_refuted.
Print Assumptions Properties.StampProps.C114_cut_off_differs.
Print Assumptions Properties.StampProps.C114_higher_limit.
Print Assumptions Properties.StampProps.C114_limit_unobservable.
Print Assumptions Properties.StampProps.C114_lower_limit.
Print Assumptions Properties.StampProps.C114_not_let_in_differs.
Print Assumptions Properties.BatchProps.C115_commit_points_partial.
Print Assumptions Properties.BatchProps.C115_delete_refuted.
Print Assumptions Properties.BatchProps.C115_saving_succeeds_partial.
Print Assumptions Properties.BatchProps.C115_shared_place_refuted.
Print Assumptions Properties.BatchProps.C115_tuple_refuted.
Print Assumptions Properties.FlushProps.C116_flush_cache.
Print Assumptions Properties.FlushProps.C116_flush_file.
Print Assumptions Properties.FlushProps.C116_flush_file_cached_refuted.
Print Assumptions Properties.FlushProps.C116_flush_file_pending_refuted.
Print Assumptions Properties.FlushProps.C116_flush_full.
Print Assumptions Properties.FlushProps.C116_flushed_reads_none_partial.
Print Assumptions Properties.CompilesProps.C117_client_partial.
Print Assumptions Properties.CompilesProps.C117_compiles_partial.
Print Assumptions Properties.CompilesProps.C117_lint_answers.
Print Assumptions Properties.CompilesProps.C117_refuted.
Print Assumptions Properties.AnswerProps.C118_base_exception_refuted.
Print Assumptions Properties.AnswerProps.C118_fails.
Print Assumptions Properties.AnswerProps.C118_full_output_refuted.
Print Assumptions Properties.AnswerProps.C118_plain_calls.
Print Assumptions Properties.AnswerProps.C118_production_refuted.
Print Assumptions Properties.AnswerProps.C118_raises_partial.
Print Assumptions Properties.AnswerProps.C118_returns.
Print Assumptions Properties.OwnerProps.C119_owner_stays_partial.
Print Assumptions Properties.OwnerProps.C119_seized_refuted.
Print Assumptions Properties.OwnerProps.C119_who_is_let_in.
Print Assumptions Properties.OrmProps.C11_cleared_partial.
Print Assumptions Properties.OrmProps.C11_durable_survives_refuted.
Print Assumptions Properties.OrmProps.C11_only_own_entries.
Print Assumptions Properties.OrmProps.C11_refuted.
Print Assumptions Properties.TracerProps.C120_charged_partial.
Print Assumptions Properties.TracerProps.C120_leftover_refuted.
Print Assumptions Properties.TracerProps.C120_library_partial.
Print Assumptions Properties.TracerProps.C120_library_refuted.
Print Assumptions Properties.TracerProps.C120_memory_refuted.
Print Assumptions Properties.TracerProps.C120_spend.
Print Assumptions Properties.AttributeProps.C121_library_keeps_it.
Print Assumptions Properties.AttributeProps.C121_others_call_the_last_assigned.
Print Assumptions Properties.AttributeProps.C121_own_calls_partial.
Print Assumptions Properties.AttributeProps.C121_refuted.
Print Assumptions Properties.AttributeProps.C121_unassigned_partial.
Print Assumptions Properties.ScopeProps.C122_charged.
Print Assumptions Properties.ScopeProps.C122_environment_refuted.
Print Assumptions Properties.ScopeProps.C122_forgotten_partial.
Print Assumptions Properties.ScopeProps.C122_meaning.
Print Assumptions Properties.ScopeProps.C122_refuted.
Print Assumptions Properties.ScopeProps.C122_restricted_partial.
Print Assumptions Properties.ScopeProps.C122_stays.
Print Assumptions Properties.DateObjectProps.C123_by_the_instant.
Print Assumptions Properties.DateObjectProps.C123_compared_as_before.
Print Assumptions Properties.DateObjectProps.C123_refuted.
Print Assumptions Properties.DateObjectProps.C123_shared_refuted.
Print Assumptions Properties.DateObjectProps.C123_stored_as_assigned.
Print Assumptions Properties.DateObjectProps.C123_sums.
Print Assumptions Properties.DateObjectProps.C123_unreadable_refuted.
Print Assumptions Properties.DateObjectProps.C123_untouched_partial.
Print Assumptions Properties.ClosureProps.C124_linted.
Print Assumptions Properties.ClosureProps.C124_no_source.
Print Assumptions Properties.ClosureProps.C124_nothing_else.
Print Assumptions Properties.ClosureProps.C124_refused.
Print Assumptions Properties.ClosureProps.C124_the_body.
Print Assumptions Properties.SchemaProps.C125_changed_refuted.
Print Assumptions Properties.SchemaProps.C125_refuted.
Print Assumptions Properties.SchemaProps.C125_unchanged_partial.
Print Assumptions Properties.IndexProps.C126_date_raises.
Print Assumptions Properties.IndexProps.C126_dates_refuted.
Print Assumptions Properties.IndexProps.C126_different_numbers.
Print Assumptions Properties.IndexProps.C126_equal_decimals_partial.
Print Assumptions Properties.IndexProps.C126_refuted.
Print Assumptions Properties.IndexProps.C126_whole_partial.
Print Assumptions Properties.IndexProps.C126_zero_refuted.
Print Assumptions Properties.ClientVarProps.C127_alias_refuted.
Print Assumptions Properties.ClientVarProps.C127_get_is_quiet.
Print Assumptions Properties.ClientVarProps.C127_reads.
Print Assumptions Properties.ClientVarProps.C127_reads_variable.
Print Assumptions Properties.ClientVarProps.C127_writes.
Print Assumptions Properties.DriverProps.C12_cache_independent_partial.
Print Assumptions Properties.DriverProps.C12_refuted.
Print Assumptions Properties.EncProps.C13_round_trip.
Print Assumptions Properties.EncProps.C14_constant_keys_become_text.
Print Assumptions Properties.EncProps.C14_exactly.
Print Assumptions Properties.EncProps.C14_int_key_becomes_text.
Print Assumptions Properties.EncProps.C14_keys_merge_refuted.
Print Assumptions Properties.EncProps.C14_other_keys_refused.
Print Assumptions Properties.EncProps.C14_reserved_examples.
Print Assumptions Properties.EncProps.C14_reserved_key.
Print Assumptions Properties.EncProps.C14_reserved_time.
Print Assumptions Properties.EncProps.C14_tuple_becomes_list.
Print Assumptions Properties.EncProps.C15_no_raw_big_int_partial.
Print Assumptions Properties.EncProps.C15_refuted.
Print Assumptions Properties.EncProps.C16_equal_decimals.
Print Assumptions Properties.EncProps.C16_equal_decimals_refuted.
Print Assumptions Properties.EncProps.C16_text.
Print Assumptions Properties.EncProps.C17_convert_dict_partial.
Print Assumptions Properties.EncProps.C17_refuted.
Print Assumptions Properties.DecProps.C18_on_grid_and_in_range.
Print Assumptions Properties.DecMoreProps.C18_pow.
Print Assumptions Properties.DecMoreProps.C18_pow_exact.
Print Assumptions Properties.DecMoreProps.C18_round_refuted.
Print Assumptions Properties.DecProps.C19_arithmetic_exact_rounded_down.
Print Assumptions Properties.DecProps.C19_int_operand.
Print Assumptions Properties.DecProps.C20_add_then_subtract.
Print Assumptions Properties.DecProps.C20_clamped_transfer_refuted.
Print Assumptions Properties.DecProps.C20_transfer_conserves.
Print Assumptions Properties.DecProps.C21_text_round_trip.
Print Assumptions Properties.DecProps.C22_floats.
Print Assumptions Properties.DecProps.C22_ints.
Print Assumptions Properties.DecProps.C22_small_negative_floats_refuted.
Print Assumptions Properties.DecProps.C22_text_misread_refuted.
Print Assumptions Properties.DecProps.C23_large_int_refuted.
Print Assumptions Properties.DecProps.C23_negative_is_falsy_refuted.
Print Assumptions Properties.DecProps.C23_order.
Print Assumptions Properties.DecProps.C23_order_int.
Print Assumptions Properties.DecProps.C24_by_zero.
Print Assumptions Properties.DecProps.C24_floordiv_mod.
Print Assumptions Properties.TimeProps.C25_add_then_difference.
Print Assumptions Properties.TimeProps.C25_instant_unique.
Print Assumptions Properties.TimeProps.C25_order.
Print Assumptions Properties.TimeProps.C26_arithmetic.
Print Assumptions Properties.TimeProps.C26_construct.
Print Assumptions Properties.TimeProps.C26_inverse.
Print Assumptions Properties.TimeProps.C26_order.
Print Assumptions Properties.TimeProps.C26_product_refuted.
Print Assumptions Properties.TimeProps.C26_units.
Print Assumptions Properties.TimeProps.C27_difference_floor.
Print Assumptions Properties.TimeProps.C27_microseconds_lost_refuted.
Print Assumptions Properties.TimeProps.C27_round_trip_partial.
Print Assumptions Properties.OrmProps.C28_accepted.
Print Assumptions Properties.OrmProps.C28_hash_keys.
Print Assumptions Properties.OrmProps.C29_aliases_refuted.
Print Assumptions Properties.OrmProps.C29_no_interference.
Print Assumptions Properties.OrmProps.C29_tuples_distinct.
Print Assumptions Properties.OrmProps.C30_default.
Print Assumptions Properties.OrmProps.C30_read_back.
Print Assumptions Properties.OrmProps.C30_reads_are_pure.
Print Assumptions Properties.OrmProps.C31_declarations_separate.
Print Assumptions Properties.OrmProps.C31_dot_refuted.
Print Assumptions Properties.LintProps.C32_declared_partial.
Print Assumptions Properties.CompProps.C32_refuted.
Print Assumptions Properties.OrmProps.C33_default_refuted.
Print Assumptions Properties.OrmProps.C33_read_only.
Print Assumptions Properties.OrmProps.C33_reads_partial.
Print Assumptions Properties.OrmProps.C34_float_refuted.
Print Assumptions Properties.OrmProps.C34_tuple_refuted.
Print Assumptions Properties.OrmProps.C34_typed_partial.
Print Assumptions Properties.OrmProps.C35_bad_declarations.
Print Assumptions Properties.EventProps.C35_declared_signer.
Print Assumptions Properties.OrmProps.C35_events.
Print Assumptions Properties.EventProps.C35_signer_refuted.
Print Assumptions Properties.CtxProps.C36_C38_undecorated_refuted.
Print Assumptions Properties.CtxProps.C36_context_partial.
Print Assumptions Properties.CtxProps.C36_entry_alias_refuted.
Print Assumptions Properties.CtxProps.C37_call_restores.
Print Assumptions Properties.CtxProps.C37_refused_owner_leaks_refuted.
Print Assumptions Properties.CtxProps.C37_refuted.
Print Assumptions Properties.CtxProps.C37_stuck_forever.
Print Assumptions Properties.CtxProps.C37_top_level_refuted.
Print Assumptions Properties.CtxProps.C37_transaction_partial.
Print Assumptions Properties.CtxProps.C38_let_in.
Print Assumptions Properties.CtxProps.C38_owner_partial.
Print Assumptions Properties.CtxProps.C38_sender_let_in.
Print Assumptions Properties.CtxProps.C39_refuted.
Print Assumptions Properties.MeterProps.C40_completed_within.
Print Assumptions Properties.MeterProps.C40_line_charged.
Print Assumptions Properties.MeterProps.C40_line_raises.
Print Assumptions Properties.MeterProps.C40_transaction.
Print Assumptions Properties.MeterProps.C40_write_raises.
Print Assumptions Properties.MeterProps.C41_bytes_counted.
Print Assumptions Properties.MeterProps.C41_write.
Print Assumptions Properties.MeterProps.C42_metering_switched_off_refuted.
Print Assumptions Properties.MeterProps.C42_signal_ends_execution_partial.
Print Assumptions Properties.TxProps.C43_fee.
Print Assumptions Properties.TxProps.C44_not_admitted_charged_refuted.
Print Assumptions Properties.TxProps.C44_paid_in_full_partial.
Print Assumptions Properties.TxProps.C44_refuted.
Print Assumptions Properties.TxProps.C45_base_exception_refuted.
Print Assumptions Properties.TxProps.C45_failed_transaction.
Print Assumptions Properties.TxProps.C45_fee_error_refuted.
Print Assumptions Properties.TxProps.C45_when_it_raises.
Print Assumptions Properties.TxProps.C46_failed_transaction_partial.
Print Assumptions Properties.TxProps.C46_other_driver_writes_refuted.
Print Assumptions Properties.TxProps.C46_refuted.
Print Assumptions Properties.TxProps.C47_committed_survives_partial.
Print Assumptions Properties.TxProps.C47_pending_lost_refuted.
Print Assumptions Properties.TxProps.C47_refuted.
Print Assumptions Properties.TxProps.C48_clear_refuted.
Print Assumptions Properties.TxProps.C48_exactly_partial.
Print Assumptions Properties.TxProps.C48_reported.
Print Assumptions Properties.TxProps.C49_events.
Print Assumptions Properties.DetProps.C50_committing_partial.
Print Assumptions Properties.DetProps.C50_deterministic_partial.
Print Assumptions Properties.DetProps.C50_history_partial.
Print Assumptions Properties.SetProps.C50_language_refuted.
Print Assumptions Properties.DetProps.C50_pending_refuted.
Print Assumptions Properties.DetProps.C50_refuted.
Print Assumptions Properties.DetProps.C50_same_storage.
Print Assumptions Properties.CompProps.C51_compiled.
Print Assumptions Properties.TxProps.C51_refused.
Print Assumptions Properties.ExecProps.C52_entry_partial.
Print Assumptions Properties.ExecProps.C52_not_stored_partial.
Print Assumptions Properties.ExecProps.C52_refuted.
Print Assumptions Properties.LintProps.C53_clean_partial.
Print Assumptions Properties.LintProps.C53_except_star_refuted.
Print Assumptions Properties.LintProps.C53_rejected.
Print Assumptions Properties.LintProps.C53_submodule_refuted.
Print Assumptions Properties.LintProps.C54_deny_list_partial.
Print Assumptions Properties.LintProps.C54_refuted.
Print Assumptions Properties.LintProps.C55.
Print Assumptions Properties.LintProps.C56_direct_partial.
Print Assumptions Properties.LintProps.C56_refuted.
Print Assumptions Properties.LintProps.C57_args_partial.
Print Assumptions Properties.LintProps.C57_no_args_refuted.
Print Assumptions Properties.LintProps.C57_refuted.
Print Assumptions Properties.CompProps.C58_exports.
Print Assumptions Properties.CompProps.C58_no_floats.
Print Assumptions Properties.CompProps.C58_orm.
Print Assumptions Properties.CompProps.C58_partial.
Print Assumptions Properties.CompProps.C58_refuted.
Print Assumptions Properties.CompProps.C59_not_orm_partial.
Print Assumptions Properties.CompProps.C59_refuted.
Print Assumptions Properties.ParserProps.C60_partial.
Print Assumptions Properties.ParserProps.C60_refuted.
Print Assumptions Properties.SubmitProps.C61_alias_refuted.
Print Assumptions Properties.SubmitProps.C61_bypass_refuted.
Print Assumptions Properties.SubmitProps.C61_foreign_write_refuted.
Print Assumptions Properties.SubmitProps.C61_history_partial.
Print Assumptions Properties.SubmitProps.C61_transaction_partial.
Print Assumptions Properties.SubmitProps.C62_contracts_cannot.
Print Assumptions Properties.SubmitProps.C62_nested_refuted.
Print Assumptions Properties.SubmitProps.C62_replaced_refuted.
Print Assumptions Properties.SubmitProps.C62_submit_partial.
Print Assumptions Properties.SubmitProps.C63_names_partial.
Print Assumptions Properties.SubmitProps.C63_refuted.
Print Assumptions Properties.SubmitProps.C63_transaction_partial.
Print Assumptions Properties.SubmitProps.C64_change_developer.
Print Assumptions Properties.ClientProps.C65_not_listed_refuted.
Print Assumptions Properties.ClientProps.C65_refuted.
Print Assumptions Properties.ClientProps.C65_uncommitted_partial.
Print Assumptions Properties.ExecProps.C66_import_module.
Print Assumptions Properties.ExecProps.C66_loaded.
Print Assumptions Properties.ExecProps.C66_run.
Print Assumptions Properties.ExecProps.C66_shadow_refuted.
Print Assumptions Properties.ExecProps.C66_statement.
Print Assumptions Properties.ExecProps.C66_top_level_refuted.
Print Assumptions Properties.ExecProps.C66_transaction_partial.
Print Assumptions Properties.InterfaceProps.C67_contract_func.
Print Assumptions Properties.InterfaceProps.C67_contract_private.
Print Assumptions Properties.InterfaceProps.C67_contract_var.
Print Assumptions Properties.InterfaceProps.C67_enforce.
Print Assumptions Properties.InterfaceProps.C67_raises.
Print Assumptions Properties.InterfaceProps.C67_refuted.
Print Assumptions Properties.RandProps.C68_history_partial.
Print Assumptions Properties.RandProps.C68_refuted.
Print Assumptions Properties.RandProps.C68_seed_first.
Print Assumptions Properties.RandProps.C68_unseeded_raises.
Print Assumptions Properties.RandProps.C69_seed.
Print Assumptions Properties.RandProps.C69_stream.
Print Assumptions Properties.RandProps.C70_fixed_lengths_partial.
Print Assumptions Properties.RandProps.C70_refuted.
Print Assumptions Properties.LockProps.C71_answers.
Print Assumptions Properties.LockProps.C71_exclusive.
Print Assumptions Properties.LockProps.C71_final.
Print Assumptions Properties.LockProps.C71_last_write.
Print Assumptions Properties.LockProps.C71_serial.
Print Assumptions Properties.LockProps.C71_told.
Print Assumptions Properties.LockProps.C72_no_invention.
Print Assumptions Properties.LockProps.C72_partial.
Print Assumptions Properties.LockProps.C72_refuted.
Print Assumptions Properties.CompProps.C73_fresh_partial.
Print Assumptions Properties.CompProps.C73_refuted.
Print Assumptions Properties.ParserProps.C74_before_functions_partial.
Print Assumptions Properties.ParserProps.C74_refuted.
Print Assumptions Properties.LockProps.C75_completes.
Print Assumptions Properties.LockProps.C75_no_deadlock.
Print Assumptions Properties.LockProps.C75_terminates.
Print Assumptions Properties.ClientProps.C76_raised_refuted.
Print Assumptions Properties.ClientProps.C76_refuted.
Print Assumptions Properties.ClientProps.C76_returned_partial.
Print Assumptions Properties.ClientCallProps.C77_environment.
Print Assumptions Properties.ClientProps.C77_first_call_partial.
Print Assumptions Properties.ClientProps.C77_frozen_refuted.
Print Assumptions Properties.ClientProps.C77_refuted.
Print Assumptions Properties.ClientProps.C78_commits_others_refuted.
Print Assumptions Properties.ClientProps.C78_quick_write_partial.
Print Assumptions Properties.ClientProps.C79_committed_refuted.
Print Assumptions Properties.ClientProps.C79_listing.
Print Assumptions Properties.ClientProps.C79_pending_partial.
Print Assumptions Properties.ClientProps.C79_refuted.
Print Assumptions Properties.ClientProps.C80_flush.
Print Assumptions Properties.HashProps.C81_case_refuted.
Print Assumptions Properties.HashProps.C81_hash.
Print Assumptions Properties.HashProps.C81_raises.
Print Assumptions Properties.HashProps.C81_refuted.
Print Assumptions Properties.HashProps.C81_rehash.
Print Assumptions Properties.HashProps.C81_texts_partial.
Print Assumptions Properties.HashProps.C82_exactly.
Print Assumptions Properties.HashProps.C82_keys_partial.
Print Assumptions Properties.HashProps.C82_refuted.
Print Assumptions Properties.HashProps.C83_raises.
Print Assumptions Properties.HashProps.C83_refuted.
Print Assumptions Properties.HashProps.C83_verify_partial.
Print Assumptions Properties.DecMoreProps.C84_not_seeded.
Print Assumptions Properties.DecMoreProps.C84_refuted.
Print Assumptions Properties.DecMoreProps.C84_value.
Print Assumptions Properties.DecMoreProps.C85_digits_partial.
Print Assumptions Properties.DecMoreProps.C85_int.
Print Assumptions Properties.DecMoreProps.C85_raises.
Print Assumptions Properties.DecMoreProps.C85_refuted.
Print Assumptions Properties.DecMoreProps.C85_whole.
Print Assumptions Properties.DecMoreProps.C86_refuted.
Print Assumptions Properties.DecMoreProps.C86_small_partial.
Print Assumptions Properties.ClientCallProps.C87_clash_refuted.
Print Assumptions Properties.ClientCallProps.C87_default_refuted.
Print Assumptions Properties.ClientCallProps.C87_exact_partial.
Print Assumptions Properties.ClientCallProps.C87_passed.
Print Assumptions Properties.CompProps.C88_alias_refuted.
Print Assumptions Properties.CompProps.C88_chain_refuted.
Print Assumptions Properties.CompProps.C88_declared_partial.
Print Assumptions Properties.CompProps.C88_no_alias_partial.
Print Assumptions Properties.CompProps.C88_refuted.
Print Assumptions Properties.DumpProps.C89_current_partial.
Print Assumptions Properties.DumpProps.C89_dump_partial.
Print Assumptions Properties.DumpProps.C89_pending_refuted.
Print Assumptions Properties.DumpProps.C89_refuted.
Print Assumptions Properties.DumpProps.C90_dump_partial.
Print Assumptions Properties.DumpProps.C90_refuted.
Print Assumptions Properties.DumpProps.C90_relative_refuted.
Print Assumptions Properties.DumpProps.C91_names_partial.
Print Assumptions Properties.DumpProps.C91_refuted.
Print Assumptions Properties.DeleteProps.C92_committed_refuted.
Print Assumptions Properties.DeleteProps.C92_delete_partial.
Print Assumptions Properties.DeleteProps.C92_new_file_refuted.
Print Assumptions Properties.DeleteProps.C92_pending_partial.
Print Assumptions Properties.DeleteProps.C92_prefix_refuted.
Print Assumptions Properties.DeleteProps.C92_refuted.
Print Assumptions Properties.ReadsProps.C93_auto_refuted.
Print Assumptions Properties.ReadsProps.C93_created_refuted.
Print Assumptions Properties.ReadsProps.C93_first_partial.
Print Assumptions Properties.ReadsProps.C93_listing_refuted.
Print Assumptions Properties.ReadsProps.C93_reads_partial.
Print Assumptions Properties.ReadsProps.C93_stale_refuted.
Print Assumptions Properties.AdmitProps.C94_check_partial.
Print Assumptions Properties.AdmitProps.C94_range_refuted.
Print Assumptions Properties.AdmitProps.C94_refused_partial.
Print Assumptions Properties.AdmitProps.C94_who_is_metered.
Print Assumptions Properties.EndsProps.C95_bounded_partial.
Print Assumptions Properties.EndsProps.C95_loading_refuted.
Print Assumptions Properties.TimeOpsProps.C96_arithmetic_partial.
Print Assumptions Properties.TimeOpsProps.C96_comparison_partial.
Print Assumptions Properties.TimeOpsProps.C96_duration_minus_date_refuted.
Print Assumptions Properties.TimeOpsProps.C96_equality_refuted.
Print Assumptions Properties.TimeOpsProps.C96_in_list.
Print Assumptions Properties.TimeOpsProps.C96_minus_duration_refuted.
Print Assumptions Properties.TimeOpsProps.C96_number_times_duration_refuted.
Print Assumptions Properties.TimeOpsProps.C96_rejected.
Print Assumptions Properties.RandomProps.C97_choice.
Print Assumptions Properties.RandomProps.C97_choice_uniform.
Print Assumptions Properties.RandomProps.C97_choices.
Print Assumptions Properties.RandomProps.C97_choices_every.
Print Assumptions Properties.RandomProps.C97_not_seeded.
Print Assumptions Properties.RandomProps.C97_number_uniform.
Print Assumptions Properties.RandomProps.C97_randint.
Print Assumptions Properties.RandomProps.C97_randrange.
Print Assumptions Properties.RandomProps.C97_shuffle.
Print Assumptions Properties.RandomProps.C97_shuffle_uniform.
Print Assumptions Properties.TextProps.C98_errors.
Print Assumptions Properties.TextProps.C98_full_width.
Print Assumptions Properties.TextProps.C98_round_trip.
Print Assumptions Properties.TextProps.C98_sound.
Print Assumptions Properties.TextProps.C98_two_formats_needed.
Print Assumptions Properties.HeapProps.C99_cache_loss_is_invisible_refuted.
Print Assumptions Properties.HeapProps.C99_careful_code_partial.
Print Assumptions Properties.HeapProps.C99_failed_transaction_leaves_no_trace_refuted.
Print Assumptions Properties.HeapProps.C99_stored_size_is_charged_refuted.
Print Assumptions Properties.HeapProps.C99_values_are_shared_refuted.
Print Assumptions Properties.CtxProps.submission_decorated.
