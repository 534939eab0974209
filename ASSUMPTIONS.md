# What Print Assumptions lists

Written by tools/assumptions.py from Coq's answers, for every theorem named in MANIFEST.json.

## Closed under the global context (627)

* `C01_accounting_exact` (Props_MemCache.v)
* `C02_bound` (Props_MemCache.v)
* `C03_transparent` (Props_MemCache.v)
* `C03_failures` (Props_MemCache.v)
* `C04_lru_order` (Props_MemCache.v)
* `C04_lru_minimal` (Props_MemCache.v)
* `C05_largest_order` (Props_MemCache.v)
* `C05_largest_minimal_partial` (Props_MemCache.v)
* `C65_exact_fit_refuted` (Props_MemCache.v)
* `C06_strict` (Props_MemCache.v)
* `C07_statistics` (Props_MemCache.v)
* `C08_off` (Props_MemCache.v)
* `C08_unlimited` (Props_MemCache.v)
* `C09_follows_config` (Props_MemCache.v)
* `C09_accepts` (Props_MemCache.v)
* `C10_inventories_isolated_refuted` (Props_MemCache.v)
* `C10_isolated_after_clear_partial` (Props_MemCache.v)
* `C100_array` (Props_Api.v)
* `C100_fields` (Props_Api.v)
* `C100_input_grid` (Props_Api.v)
* `C100_refused` (Props_Api.v)
* `C100_backend_refused` (Props_Api.v)
* `C100_option_refused` (Props_Api.v)
* `C101_trace` (Props_ApiLocal.v)
* `C101_array_partial` (Props_ApiLocal.v)
* `C101_fields_partial` (Props_ApiLocal.v)
* `C101_refused_partial` (Props_ApiLocal.v)
* `C101_refuted` (Props_ApiLocal.v)
* `C102_page_partial` (Props_Pages.v)
* `C102_healpix_refuted` (Props_Pages.v)
* `C102_method_refuted` (Props_Pages.v)
* `C102_order_refuted` (Props_Pages.v)
* `C102_abandoned_refuted` (Props_Pages.v)
* `C102_default_ordering_refuted` (Props_Pages.v)
* `C103_trace` (Props_ApiRemote.v)
* `C103_array_origin` (Props_ApiRemote.v)
* `C103_array_partial` (Props_ApiRemote.v)
* `C103_fields_partial` (Props_ApiRemote.v)
* `C103_steady_array_partial` (Props_ApiRemote2.v)
* `C103_steady_fields_partial` (Props_ApiRemote2.v)
* `C103_answered_partial` (Props_ApiRemote2.v)
* `C103_refused_partial` (Props_ApiRemote2.v)
* `C103_refuted` (Props_ApiRemote2.v)
* `C104_entries` (Props_Disk.v)
* `C104_refuted` (Props_Disk.v)
* `C105_local` (Props_Bytes.v)
* `C105_public` (Props_Bytes.v)
* `C106_trace` (Props_Every.v)
* `C106_array_origin` (Props_Every.v)
* `C106_array_partial` (Props_Every.v)
* `C106_unchanged_partial` (Props_Every.v)
* `C106_nothing` (Props_Every.v)
* `C106_fields_partial` (Props_Every.v)
* `C106_answered_partial` (Props_Every3.v)
* `C106_refused_partial` (Props_Every3.v)
* `C106_fields_answered_partial` (Props_Every3.v)
* `C106_fields_refused_partial` (Props_Every3.v)
* `C106_refuted` (Props_Every2.v)
* `C106_replaced_refuted` (Props_Every2.v)
* `C107_label` (Props_BuildDb.v)
* `C107_ids` (Props_BuildDb.v)
* `C107_json` (Props_BuildDb.v)
* `C107_own_partial` (Props_BuildDb.v)
* `C107_stale_refuted` (Props_BuildDb.v)
* `C108_jobs` (Props_BuildDb.v)
* `C108_once` (Props_BuildDb.v)
* `C108_refuted` (Props_BuildDb.v)
* `C109_placed_partial` (Props_BuildDb.v)
* `C109_local_partial` (Props_BuildDb.v)
* `C109_db_partial` (Props_BuildDb.v)
* `C109_refuted` (Props_BuildDb.v)
* `C109_linked_partial` (Props_BuildDb.v)
* `C109_linked_refuted` (Props_BuildDb.v)
* `C109_nothing_to_link` (Props_BuildDb.v)
* `C11_oversize_refuted` (Props_MemCache.v)
* `C11_largest_oversize_partial` (Props_MemCache.v)
* `C110_array_partial` (Props_XarrayApi.v)
* `C110_set_partial` (Props_XarrayApi.v)
* `C110_left_refuted` (Props_XarrayApi.v)
* `C111_array_partial` (Props_XarrayEvery.v)
* `C111_set_partial` (Props_XarrayEvery.v)
* `C111_delivered` (Props_XarrayEvery.v)
* `C112_data` (Props_BuildDb2.v)
* `C112_json` (Props_BuildDb2.v)
* `C112_flags` (Props_BuildDb2.v)
* `C112_class_refuted` (Props_BuildDb2.v)
* `C113_tidy` (Props_Docs.v)
* `C113_private` (Props_Docs.v)
* `C113_page_partial` (Props_Docs.v)
* `C113_env` (Props_Docs.v)
* `C113_user_refuted` (Props_Docs.v)
* `C113_home_refuted` (Props_Docs.v)
* `C114_with` (Props_Helpers.v)
* `C114_once` (Props_Helpers.v)
* `C114_own_partial` (Props_Helpers.v)
* `C114_foreign_refuted` (Props_Helpers.v)
* `C115_restored` (Props_Helpers.v)
* `C115_inserted` (Props_Helpers.v)
* `C115_refuted` (Props_Helpers.v)
* `C116_delivered` (Props_Helpers.v)
* `C116_stale_refuted` (Props_Helpers.v)
* `C117_coord_partial` (Props_Helpers.v)
* `C117_numbers_refuted` (Props_Helpers.v)
* `C117_grid_refuted` (Props_Helpers.v)
* `C117_order` (Props_Helpers.v)
* `C117_sizes` (Props_Helpers.v)
* `C117_nn_refuted` (Props_Helpers.v)
* `C117_column_refuted` (Props_Helpers.v)
* `C119_existing` (Props_Startup.v)
* `C119_unreadable` (Props_Startup.v)
* `C119_fails_partial` (Props_Startup.v)
* `C119_fails_refuted` (Props_Startup.v)
* `C119_others` (Props_Startup.v)
* `C119_kept` (Props_Startup.v)
* `C119_first` (Props_Startup.v)
* `C119_migrated` (Props_Startup.v)
* `C119_no_place` (Props_Startup.v)
* `C119_again` (Props_Startup.v)
* `C119_umask_partial` (Props_Startup.v)
* `C119_umask_refuted` (Props_Startup.v)
* `C119_continues` (Props_Startup.v)
* `C119_continues_files` (Props_Startup.v)
* `C12_unusable_limit_refuted` (Props_MemCache.v)
* `C12_refused_limit_stays_refuted` (Props_MemCache.v)
* `C12_unusable_limit_partial` (Props_MemCache.v)
* `C120_killed_partial` (Props_Startup.v)
* `C120_lost_refuted` (Props_Startup.v)
* `C121_same_table` (Props_Show.v)
* `C121_table` (Props_Show.v)
* `C121_rows` (Props_Show.v)
* `C122_lines` (Props_Show.v)
* `C122_text_partial` (Props_Show.v)
* `C122_text_refuted` (Props_Show.v)
* `C122_environment_refuted` (Props_Show.v)
* `C122_dump` (Props_Show.v)
* `C122_dump_refuted` (Props_Show.v)
* `C123_table_partial` (Props_Show.v)
* `C123_markup_refuted` (Props_Show.v)
* `C123_cache_refuted` (Props_Show.v)
* `C123_cache_empty_partial` (Props_Show.v)
* `C124_plain` (Props_Show.v)
* `C124_titled` (Props_Show.v)
* `C124_open` (Props_Show.v)
* `C124_unknown_refuted` (Props_Show.v)
* `C124_fails_only_so` (Props_Show.v)
* `C13_linearisable` (Props_MemCacheConc.v)
* `C13_progress` (Props_MemCacheConc.v)
* `C13_threads_transparent` (Props_MemCacheConc.v)
* `C13_threads_bound` (Props_MemCacheConc.v)
* `C130_array_partial` (Props_XarrayTotal.v)
* `C130_set_partial` (Props_XarrayTotal.v)
* `C131_partial` (Props_Limits.v)
* `C131_refuted` (Props_Limits.v)
* `C131_forgets_refuted` (Props_Limits.v)
* `C132_message` (Props_MirCalls.v)
* `C132_fields` (Props_MirCalls.v)
* `C132_field` (Props_MirCalls.v)
* `C132_array` (Props_MirCalls.v)
* `C132_refused` (Props_MirCalls.v)
* `C132_inventory` (Props_MirCalls.v)
* `C133_no_disk` (Props_Off.v)
* `C133_origin` (Props_Off.v)
* `C133_nothing` (Props_Off.v)
* `C133_answered` (Props_Off.v)
* `C133_refused` (Props_Off.v)
* `C133_same_name_refuted` (Props_Off.v)
* `C134_refuted` (Props_Off.v)
* `C134_found_partial` (Props_Off.v)
* `C135_lost_refuted` (Props_DbConc.v)
* `C135_changed_refuted` (Props_DbConc.v)
* `C135_locked` (Props_DbConc.v)
* `C135_any_partial` (Props_DbConc.v)
* `C135_never_wrong` (Props_DbConc.v)
* `C135_loaded` (Props_DbConc.v)
* `C136_seen_refuted` (Props_ConfigConc.v)
* `C136_popped_refuted` (Props_ConfigConc.v)
* `C136_lost_refuted` (Props_ConfigConc.v)
* `C136_reset_refuted` (Props_ConfigConc.v)
* `C136_depth` (Props_ConfigConc.v)
* `C136_none_left` (Props_ConfigConc.v)
* `C136_finished` (Props_ConfigConc.v)
* `C136_base_kept` (Props_ConfigConc.v)
* `C136_read_again` (Props_ConfigConc.v)
* `C136_inside` (Props_ConfigConc.v)
* `C136_ends` (Props_ConfigConc.v)
* `C136_beside_readers_partial` (Props_ConfigConc.v)
* `C137_mixed_refuted` (Props_SaveConc.v)
* `C137_read_refuted` (Props_SaveConc.v)
* `C137_one_at_a_time_partial` (Props_SaveConc.v)
* `C137_no_mixture_partial` (Props_SaveConc.v)
* `C137_saved_partial` (Props_SaveConc.v)
* `C137_whole_partial` (Props_SaveConc.v)
* `C137_bytes` (Props_SaveConc.v)
* `C137_can_finish` (Props_SaveConc.v)
* `C138_in_force` (Props_SettingsConc.v)
* `C138_ended` (Props_SettingsConc.v)
* `C138_bounded` (Props_SettingsConc.v)
* `C138_faults` (Props_SettingsConc.v)
* `C138_no_faults` (Props_SettingsConc.v)
* `C138_can_finish` (Props_SettingsConc.v)
* `C138_alone` (Props_SettingsConc.v)
* `C138_mixture_refuted` (Props_SettingsConc.v)
* `C138_reader_refuted` (Props_SettingsConc.v)
* `C138_at_once_refuted` (Props_SettingsConc.v)
* `C139_returned` (Props_FileConc.v)
* `C139_raised` (Props_FileConc.v)
* `C139_others` (Props_FileConc.v)
* `C139_rows_partial` (Props_FileConc.v)
* `C139_steady` (Props_FileConc.v)
* `C139_steady_failed` (Props_FileConc.v)
* `C139_steady_off` (Props_FileConc.v)
* `C139_asserted_refuted` (Props_FileConc.v)
* `C139_prefix_refuted` (Props_FileConc.v)
* `C139_unregistered_refuted` (Props_FileConc.v)
* `C139_force_refuted` (Props_FileConc.v)
* `C139_record_refuted` (Props_FileConc.v)
* `C139_gone_refuted` (Props_FileConc.v)
* `C14_temporary_restores` (Props_Config.v)
* `C14_temporary_restores_partial` (Props_Config.v)
* `C14_temporary_no_file` (Props_Config.v)
* `C14_nested_failure_refuted` (Props_Config.v)
* `C140_directory` (Props_PolicyConc.v)
* `C140_manager` (Props_PolicyConc.v)
* `C140_class_partial` (Props_PolicyConc.v)
* `C140_can_finish` (Props_PolicyConc.v)
* `C140_alone` (Props_PolicyConc.v)
* `C140_class_refuted` (Props_PolicyConc.v)
* `C140_stale_refuted` (Props_PolicyConc.v)
* `C140_untold_refuted` (Props_PolicyConc.v)
* `C140_fault_refuted` (Props_PolicyConc.v)
* `C141_spreads` (Props_Missing.v)
* `C141_kept` (Props_Missing.v)
* `C142_zero_sign_refuted` (Props_Missing.v)
* `C142_infinite_refuted` (Props_Missing.v)
* `C143_refused` (Props_Scripts.v)
* `C143_local` (Props_Scripts.v)
* `C143_system_refuted` (Props_Scripts.v)
* `C143_system_partial` (Props_Scripts.v)
* `C143_download` (Props_Scripts.v)
* `C143_dry` (Props_Scripts.v)
* `C143_dry_refuted` (Props_Scripts.v)
* `C143_again_refuted` (Props_Scripts.v)
* `C143_subset_refuted` (Props_Scripts.v)
* `C143_subset_exit` (Props_Scripts.v)
* `C143_subset_dry` (Props_Scripts.v)
* `C143_subset_failed` (Props_Scripts.v)
* `C143_subset_strict` (Props_Scripts.v)
* `C143_subset_made` (Props_Scripts.v)
* `C144_never_wrong` (Props_RemoteConc.v)
* `C144_ends` (Props_RemoteConc.v)
* `C144_locked` (Props_RemoteConc.v)
* `C144_loaded` (Props_RemoteConc.v)
* `C144_cached` (Props_RemoteConc.v)
* `C144_missed_refuted` (Props_RemoteConc.v)
* `C144_lost_refuted` (Props_RemoteConc.v)
* `C144_gone_refuted` (Props_RemoteConc.v)
* `C145_right` (Props_MakerConc.v)
* `C145_ends` (Props_MakerConc.v)
* `C145_once` (Props_MakerConc.v)
* `C145_alone` (Props_MakerConc.v)
* `C145_settled` (Props_MakerConc.v)
* `C145_two_refuted` (Props_MakerConc.v)
* `C145_changes_refuted` (Props_MakerConc.v)
* `C146_alone` (Props_FlagConc.v)
* `C146_answers` (Props_FlagConc.v)
* `C146_known` (Props_FlagConc.v)
* `C146_not_global` (Props_FlagConc.v)
* `C146_settled` (Props_FlagConc.v)
* `C146_locked` (Props_FlagConc.v)
* `C146_ends` (Props_FlagConc.v)
* `C146_early_refuted` (Props_FlagConc.v)
* `C147_right` (Props_PairConc.v)
* `C147_ends` (Props_PairConc.v)
* `C147_once` (Props_PairConc.v)
* `C147_settled` (Props_PairConc.v)
* `C147_bad` (Props_PairConc.v)
* `C147_reduced` (Props_PairConc.v)
* `C147_healpix` (Props_PairConc.v)
* `C148_first` (Props_Installed.v)
* `C148_all` (Props_Installed.v)
* `C148_load` (Props_Installed.v)
* `C148_broken_refuted` (Props_Installed.v)
* `C149_temporary` (Props_Guide.v)
* `C149_set` (Props_Guide.v)
* `C149_reset` (Props_Guide.v)
* `C149_environment` (Props_Guide.v)
* `C15_failed_entry_refuted` (Props_Config.v)
* `C15_refused_arguments_partial` (Props_Config.v)
* `C150_policies` (Props_Guide.v)
* `C150_short` (Props_Guide.v)
* `C150_limit` (Props_Guide.v)
* `C150_largest_refuted` (Props_Guide.v)
* `C151_twice` (Props_Guide2.v)
* `C151_hits` (Props_Guide2.v)
* `C151_too_large` (Props_Guide2.v)
* `C151_unlimited` (Props_Guide2.v)
* `C151_off` (Props_Guide2.v)
* `C151_clear` (Props_Guide2.v)
* `C16_set_stores` (Props_Config.v)
* `C16_set_accepts` (Props_Config.v)
* `C16_set_rejects` (Props_Config.v)
* `C16_unknown_name` (Props_Config.v)
* `C16_meaning_unique` (Props_Config.v)
* `C17_multi_set_refuted` (Props_Config.v)
* `C17_set_many_prefix_partial` (Props_Config.v)
* `C17_set_keywords_prefix_partial` (Props_Config.v)
* `C18_environment_wins` (Props_Config.v)
* `C18_others_unaffected` (Props_Config.v)
* `C18_variable_names` (Props_Config.v)
* `C18_no_collision` (Props_Config.v)
* `C19_set_survives_partial` (Props_Config.v)
* `C19_save_as_survives_partial` (Props_Config.v)
* `C19_objects_refuted` (Props_Config.v)
* `C20_text_refuted` (Props_Config.v)
* `C20_booleans_partial` (Props_Config.v)
* `C21_characters` (Props_Humanize.v)
* `C21_value` (Props_Humanize.v)
* `C21_bytes` (Props_Humanize.v)
* `C21_seconds` (Props_Humanize.v)
* `C21_percent` (Props_Humanize.v)
* `C21_otherwise` (Props_Humanize.v)
* `C21_none` (Props_Humanize.v)
* `C21_unambiguous` (Props_Humanize.v)
* `C21_printed` (Props_Humanize.v)
* `C21_unknown_unit_refuted` (Props_Humanize.v)
* `C22_change_notifies` (Props_Config.v)
* `C22_temporary_notifies` (Props_Config.v)
* `C23_contents` (Props_Grid.v)
* `C23_table` (Props_Grid.v)
* `C23_key_order` (Props_Grid.v)
* `C23_key_order_matching` (Props_Grid.v)
* `C23_tuples` (Props_Grid.v)
* `C23_idempotent` (Props_Grid.v)
* `C24_at_most_one` (Props_Grid.v)
* `C24_inferred_partial` (Props_Grid.v)
* `C24_refused_partial` (Props_Grid.v)
* `C24_no_grid` (Props_Grid.v)
* `C24_explicit` (Props_Grid.v)
* `C24_explicit_unknown` (Props_Grid.v)
* `C24_newline_refuted` (Props_Grid.v)
* `C26_symmetric_refuted` (Props_Grid.v)
* `C26_transitive_refuted` (Props_Grid.v)
* `C26_transitive_shape_refuted` (Props_Grid.v)
* `C27_never_ends_refuted` (Props_Grid.v)
* `C27_inexact_refuted` (Props_Grid.v)
* `C29_type` (Props_Grid.v)
* `C29_names` (Props_Grid.v)
* `C29_flags` (Props_Grid.v)
* `C29_shape` (Props_Grid.v)
* `C29_order` (Props_Grid.v)
* `C29_band_refuted` (Props_Grid.v)
* `C30_history` (Props_Index.v)
* `C30_found` (Props_Index.v)
* `C30_nothing` (Props_Index.v)
* `C30_complete` (Props_Index.v)
* `C30_method` (Props_Index.v)
* `C30_method_object` (Props_Index.v)
* `C71_alias` (Props_Index.v)
* `C31_version` (Props_Index.v)
* `C31_other_version` (Props_Index.v)
* `C31_no_matrix` (Props_Index.v)
* `C31_entries` (Props_Index.v)
* `C31_supported` (Props_Index.v)
* `C32_round_trip` (Props_Index.v)
* `C32_written` (Props_Index.v)
* `C32_subset` (Props_Index.v)
* `C32_subset_answers_partial` (Props_Index.v)
* `C32_subset_answers_refuted` (Props_Index.v)
* `C33_discovered` (Props_Index.v)
* `C33_local` (Props_Index.v)
* `C33_once` (Props_Index.v)
* `C33_forced` (Props_Index.v)
* `C33_forced_once` (Props_Index.v)
* `C33_forced_hides` (Props_Index.v)
* `C34_stays_partial` (Props_Index.v)
* `C34_later_version_refuted` (Props_Index.v)
* `C34_cache_lost_refuted` (Props_Index.v)
* `C35_directories_partial` (Props_Index.v)
* `C35_paths_partial` (Props_Index.v)
* `C35_path` (Props_Index.v)
* `C35_directories_refuted` (Props_Index.v)
* `C35_absolute_refuted` (Props_Index.v)
* `C36_weighted_sum` (Props_Regrid.v)
* `C36_linear` (Props_Regrid.v)
* `C36_shape` (Props_Regrid.v)
* `C36_computed` (Props_Regrid.v)
* `C36_input_shape` (Props_Regrid.v)
* `C37_constant` (Props_Regrid.v)
* `C37_bounds` (Props_Regrid.v)
* `C37_rounding_refuted` (Props_Regrid.v)
* `C38_no_weights` (Props_Regrid.v)
* `C38_wrong_size` (Props_Regrid.v)
* `C38_returns` (Props_Regrid.v)
* `C38_lookup_fails` (Props_Regrid.v)
* `C38_interpolate` (Props_Regrid.v)
* `C39_grib` (Props_Dispatch.v)
* `C39_array` (Props_Dispatch.v)
* `C39_array_empty` (Props_Dispatch.v)
* `C39_array_target` (Props_Dispatch.v)
* `C39_in_turn` (Props_Dispatch.v)
* `C39_failure` (Props_Dispatch.v)
* `C40_own_handler` (Props_Dispatch.v)
* `C40_refused` (Props_Dispatch.v)
* `C40_chosen` (Props_Dispatch.v)
* `C41_grib` (Props_Dispatch.v)
* `C41_array_partial` (Props_Dispatch.v)
* `C41_unknown_option` (Props_Dispatch.v)
* `C41_array_refuted` (Props_Dispatch.v)
* `C42_objects` (Props_Dispatch.v)
* `C42_failures` (Props_Dispatch.v)
* `C42_unknown` (Props_Dispatch.v)
* `C42_default_refuted` (Props_Dispatch.v)
* `C43_complete_partial` (Props_Protocol.v)
* `C43_no_leftover_partial` (Props_Protocol.v)
* `C43_returned_partial` (Props_Protocol.v)
* `C43_opened_partial` (Props_Protocol.v)
* `C43_window_refuted` (Props_Protocol.v)
* `C43_write` (Props_Numpy.v)
* `C44_lookup` (Props_CacheFile.v)
* `C44_hit` (Props_CacheFile.v)
* `C44_miss` (Props_CacheFile.v)
* `C44_raise` (Props_CacheFile.v)
* `C44_forced` (Props_CacheFile.v)
* `C44_calls` (Props_CacheFile.v)
* `C44_locked_refuted` (Props_CacheFile.v)
* `C45_bound_partial` (Props_Disk.v)
* `C45_no_orphans_partial` (Props_Disk.v)
* `C45_orphans_refuted` (Props_Disk.v)
* `C45_undeletable_refuted` (Props_Disk.v)
* `C46_order` (Props_Disk.v)
* `C46_protected` (Props_Disk.v)
* `C46_newest` (Props_Disk.v)
* `C46_child_refuted` (Props_Disk.v)
* `C47_matching` (Props_Disk.v)
* `C47_all_partial` (Props_Disk.v)
* `C47_empty_refuted` (Props_Disk.v)
* `C48_inside` (Props_Disk.v)
* `C49_text` (Props_Key.v)
* `C49_different_files` (Props_Key.v)
* `C49_same_file` (Props_Key.v)
* `C49_urls` (Props_Key.v)
* `C49_refuted` (Props_Key.v)
* `C50_one_creator_partial` (Props_Protocol.v)
* `C50_not_again_partial` (Props_Protocol.v)
* `C50_once_partial` (Props_Protocol.v)
* `C50_window_refuted` (Props_Protocol.v)
* `C51_served_partial` (Props_Manager.v)
* `C63_completes_partial` (Props_Manager.v)
* `C63_matcher_refuted` (Props_Manager.v)
* `C63_exit_refuted` (Props_Manager.v)
* `C52_follows_partial` (Props_Policy.v)
* `C52_size_managed_partial` (Props_Policy.v)
* `C52_manager_partial` (Props_Policy.v)
* `C52_agree_partial` (Props_Policy.v)
* `C52_kept_partial` (Props_Policy.v)
* `C52_one_temporary_directory` (Props_Policy.v)
* `C52_programs_partial` (Props_Policy.v)
* `C52_off_root_refuted` (Props_Policy.v)
* `C52_off_lost_refuted` (Props_Policy.v)
* `C52_manager_refuted` (Props_Policy.v)
* `C52_empty_root_refused` (Props_Policy.v)
* `C53_fresh_partial` (Props_CacheFile.v)
* `C53_fresh_names_partial` (Props_Key.v)
* `C53_text` (Props_Key.v)
* `C53_shape` (Props_Key.v)
* `C53_refuted` (Props_CacheFile.v)
* `C54_summary_partial` (Props_Disk.v)
* `C54_refuted` (Props_Disk.v)
* `C55_roundtrip_partial` (Props_Stream.v)
* `C55_exactly_partial` (Props_Stream.v)
* `C55_objects_partial` (Props_Stream.v)
* `C55_refuted` (Props_Stream.v)
* `C55_objects_refuted` (Props_Stream.v)
* `C55_marks_partial` (Props_Stream.v)
* `C55_marks_refuted` (Props_Stream.v)
* `C56_numbers_partial` (Props_Stream.v)
* `C56_only_last_partial` (Props_Stream.v)
* `C56_matrix` (Props_Stream.v)
* `C56_refuted` (Props_Stream.v)
* `C57_decoded_partial` (Props_Stream.v)
* `C57_sizes_refuted` (Props_Stream.v)
* `C58_complete_partial` (Props_Mir.v)
* `C58_text_partial` (Props_Mir.v)
* `C58_killed_refuted` (Props_Mir.v)
* `C58_array_refuted` (Props_Mir.v)
* `C58_files_differ` (Props_Mir.v)
* `C58_where` (Props_Mir.v)
* `C58_refused` (Props_Mir.v)
* `C59_refuted` (Props_Builder.v)
* `C59_raises_refuted` (Props_Builder.v)
* `C59_built_partial` (Props_Builder.v)
* `C59_succeeds_partial` (Props_Builder.v)
* `C59_octahedral_partial` (Props_Builder.v)
* `C59_o1_refuted` (Props_Builder.v)
* `C59_undeclared_refuted` (Props_Builder.v)
* `C59_increments_refuted` (Props_Builder.v)
* `C59_recorded_global` (Props_Builder.v)
* `C60_constant_partial` (Props_Dispatch.v)
* `C60_first_partial` (Props_Dispatch.v)
* `C60_sound_refuted` (Props_Dispatch.v)
* `C61_levenshtein` (Props_Humanize.v)
* `C61_metric` (Props_Humanize.v)
* `C61_nearest` (Props_Humanize.v)
* `C61_always_answers` (Props_Humanize.v)
* `C62_1024_refuted` (Props_HumanBytes.v)
* `C62_large_refuted` (Props_HumanBytes.v)
* `C62_infinite_refuted` (Props_HumanBytes2.v)
* `C63_no_deadlock_partial` (Props_Manager.v)
* `C63_every_schedule_ends_partial` (Props_Manager.v)
* `C64_refresh` (Props_CacheFile.v)
* `C64_given` (Props_CacheFile.v)
* `C64_local` (Props_CacheFile.v)
* `C65_kept_partial` (Props_MemCache.v)
* `C66_get_total_partial` (Props_Config.v)
* `C66_environment_refuted` (Props_Config.v)
* `C67_memory_cache_in_sync_partial` (Props_Config.v)
* `C67_failed_set_refuted` (Props_Config.v)
* `C68_reset_one` (Props_Config.v)
* `C68_reset_all` (Props_Config.v)
* `C69_list_to_human` (Props_Humanize.v)
* `C70_repeatable_partial` (Props_Grid.v)
* `C70_after_exception_refuted` (Props_Grid.v)
* `C71_same_answer` (Props_Index.v)
* `C72_local` (Props_Regrid.v)
* `C73_backend` (Props_Dispatch.v)
* `C73_no_backend` (Props_Dispatch.v)
* `C74_system` (Props_Dispatch.v)
* `C74_url` (Props_Dispatch.v)
* `C74_path` (Props_Dispatch.v)
* `C74_empty` (Props_Dispatch.v)
* `C75_values` (Props_Dispatch.v)
* `C75_lat_lon` (Props_Dispatch.v)
* `C75_refused` (Props_Dispatch.v)
* `C76_precedence` (Props_Dispatch.v)
* `C76_refused` (Props_Dispatch.v)
* `C76_explicit_partial` (Props_Dispatch.v)
* `C76_explicit_refuted` (Props_Dispatch.v)
* `C77_never_fails` (Props_Disk.v)
* `C77_tidy` (Props_Disk.v)
* `C78_accounted_partial` (Props_Disk.v)
* `C78_purged_refuted` (Props_Disk.v)
* `C79_housekeeping` (Props_Disk2.v)
* `C80_new` (Props_Disk2.v)
* `C80_again` (Props_Disk2.v)
* `C80_recent_last` (Props_Disk2.v)
* `C81_usage` (Props_Disk2.v)
* `C81_quiet` (Props_Disk2.v)
* `C82_holder_alive` (Props_Protocol.v)
* `C82_gives_back` (Props_Protocol.v)
* `C82_next_gets_it` (Props_Protocol.v)
* `C82_crash` (Props_Protocol.v)
* `C83_memory_keys` (Props_Key.v)
* `C83_texts_refuted` (Props_Key.v)
* `C83_spelling_refuted` (Props_Key.v)
* `C84_exists_partial` (Props_CacheFile.v)
* `C84_retry_refuted` (Props_CacheFile.v)
* `C84_orphan_refuted` (Props_CacheFile.v)
* `C85_off_leaves_user_directory` (Props_Policy.v)
* `C85_temporary_refuted` (Props_Policy.v)
* `C86_one_thread_partial` (Props_Manager.v)
* `C86_two_threads_refuted` (Props_Manager.v)
* `C87_npz_partial` (Props_Mir.v)
* `C87_mat_partial` (Props_Mir.v)
* `C87_refused` (Props_Mir.v)
* `C87_returns_partial` (Props_Mir.v)
* `C87_none_refuted` (Props_Mir.v)
* `C87_str_refuted` (Props_Mir.v)
* `C87_to_file_refuted` (Props_Mir.v)
* `C87_suffix` (Props_Mir.v)
* `C88_uid_partial` (Props_Builder.v)
* `C88_gridbox_refuted` (Props_Builder.v)
* `C89_written` (Props_Inventory.v)
* `C89_success_partial` (Props_Inventory.v)
* `C89_answers` (Props_Inventory.v)
* `C89_quiet` (Props_Inventory.v)
* `C89_copy` (Props_Inventory.v)
* `C89_overlap_refuted` (Props_Inventory.v)
* `C89_version_refuted` (Props_Inventory.v)
* `C90_self_contained` (Props_Inventory.v)
* `C90_found` (Props_Inventory.v)
* `C90_made` (Props_Inventory.v)
* `C90_failure` (Props_Inventory.v)
* `C90_strict` (Props_Inventory.v)
* `C91_same_partial` (Props_Inventory.v)
* `C91_alias_refuted` (Props_Inventory.v)
* `C92_origin` (Props_System.v)
* `C92_end_to_end_partial` (Props_System.v)
* `C92_answered_partial` (Props_System.v)
* `C92_refused_partial` (Props_System.v)
* `C92_exact` (Props_System.v)
* `C92_refuted` (Props_System.v)
* `C93_origin` (Props_Remote.v)
* `C93_end_to_end_partial` (Props_Remote.v)
* `C93_steady_partial` (Props_Remote.v)
* `C93_answered_partial` (Props_Remote.v)
* `C93_refused_partial` (Props_Remote.v)
* `C93_fresh_partial` (Props_Remote.v)
* `C93_refuted` (Props_Remote.v)
* `C93_mixed_refuted` (Props_Remote.v)
* `C94_slices_partial` (Props_Xarray.v)
* `C94_total_partial` (Props_Xarray.v)
* `C94_empty_refuted` (Props_Xarray.v)
* `C94_dtype_refuted` (Props_Xarray.v)
* `C94_numpy_accepts` (Props_Numpy.v)
* `C94_numpy_values` (Props_Numpy.v)
* `C95_located_partial` (Props_Xarray.v)
* `C95_located_set_partial` (Props_Xarray.v)
* `C95_kept` (Props_Xarray.v)
* `C95_curved_refuted` (Props_Xarray.v)
* `C95_narrow_refuted` (Props_Xarray.v)
* `C95_slanted_refuted` (Props_Xarray.v)
* `C95_out_dims_refuted` (Props_Xarray.v)
* `C96_variables_partial` (Props_Xarray.v)
* `C96_other_variable_refuted` (Props_Xarray.v)
* `C96_dims` (Props_Xarray.v)
* `C97_refuted` (Props_Xarray.v)
* `C98_missed_partial` (Props_Current.v)
* `C98_listed_partial` (Props_Current.v)
* `C98_refuted` (Props_Current.v)
* `C98_moved_refuted` (Props_Current.v)
* `C99_array` (Props_Api.v)
* `C99_first_array` (Props_Api.v)
* `C99_first_regrid` (Props_Api.v)
* `C99_first_interpolate` (Props_Api.v)
* `C99_option_refused` (Props_Api.v)
* `C99_backend_refused` (Props_Api.v)
* `C99_inventory_refuted` (Props_Api.v)

## `ClassicalDedekindReals.sig_forall_dec`, `FunctionalExtensionality.functional_extensionality_dep` (1)

* `C118_same_near` (Props_End.v)

## `ClassicalDedekindReals.sig_forall_dec`, `ClassicalDedekindReals.sig_not_dec`, `Classical_Prop.classic`, `FunctionalExtensionality.functional_extensionality_dep` (62)

* `C118_compared` (Props_End.v)
* `C118_sound` (Props_End.v)
* `C118_answered` (Props_End.v)
* `C118_first_call` (Props_End.v)
* `C118_refused` (Props_End.v)
* `C118_example` (Props_End.v)
* `C125_sound` (Props_EndRemote.v)
* `C125_answered` (Props_EndRemote.v)
* `C125_refused` (Props_EndRemote.v)
* `C125_example` (Props_EndRemote.v)
* `C126_array` (Props_EndApi.v)
* `C126_fields` (Props_EndApi.v)
* `C126_answered` (Props_EndApi.v)
* `C126_refused` (Props_EndApi.v)
* `C126_example` (Props_EndApi.v)
* `C127_array` (Props_EndLocal.v)
* `C127_fields` (Props_EndLocal.v)
* `C127_answered` (Props_EndLocal.v)
* `C127_refused` (Props_EndLocal.v)
* `C127_interpolate` (Props_EndLocal.v)
* `C127_example` (Props_EndLocal.v)
* `C128_array` (Props_EndEvery.v)
* `C128_fields` (Props_EndEvery.v)
* `C128_answered` (Props_EndEvery3.v)
* `C128_refused` (Props_EndEvery3.v)
* `C128_fields_answered` (Props_EndEvery3.v)
* `C128_fields_refused` (Props_EndEvery3.v)
* `C129_array` (Props_EndXarray.v)
* `C129_set` (Props_EndXarray.v)
* `C130_array_answered` (Props_EndXarray2.v)
* `C130_array_refused` (Props_EndXarray2.v)
* `C130_set_answered` (Props_EndXarray2.v)
* `C130_set_refused` (Props_EndXarray2.v)
* `C141_cause` (Props_Missing.v)
* `C141_exactly` (Props_Missing.v)
* `C141_zero_refuted` (Props_Missing.v)
* `C141_overflow_refuted` (Props_Missing.v)
* `C142_copied_partial` (Props_Missing.v)
* `C142_zeros_partial` (Props_Missing.v)
* `C142_classes` (Props_Missing.v)
* `C25_self_match` (Props_Grid.v)
* `C26_symmetric_partial` (Props_Grid.v)
* `C26_named` (Props_Grid.v)
* `C27_normalise_partial` (Props_Grid.v)
* `C27_exact_partial` (Props_Grid.v)
* `C27_overflow_refuted` (Props_Grid.v)
* `C28_global_lat_lon` (Props_Grid.v)
* `C28_global_gaussian` (Props_Grid.v)
* `C29_increments` (Props_Grid.v)
* `C29_limits_lat_lon` (Props_Grid.v)
* `C29_limits_gaussian_partial` (Props_Grid.v)
* `C36_rounding` (Props_RegridFloat.v)
* `C36_rounding_simple` (Props_RegridFloat.v)
* `C37_rounding_bounds` (Props_RegridFloat.v)
* `C37_rounding_constant` (Props_RegridFloat.v)
* `C59_found_partial` (Props_Builder.v)
* `C62_exact_partial` (Props_HumanBytes.v)
* `C62_total_partial` (Props_HumanBytes.v)
* `C62_negative_refuted` (Props_HumanBytes.v)
* `C62_float_partial` (Props_HumanBytes2.v)
* `C62_float_large_refuted` (Props_HumanBytes2.v)
* `C88_refuted` (Props_Builder.v)

