#!/usr/bin/env python3
"""Writes /verif/MANIFEST.json from the table below, checking that every theorem exists."""
import glob, json, os, re
here = os.path.dirname(os.path.abspath(__file__))
root = os.path.dirname(here)
C = []
def claim(prop, status, theorems, note=""):
    C.append({"property": prop, "status": status, "theorems": theorems.split(), "note": note})

claim("C01", "proved", "C01_accounting_exact", "every history, raising operations included")
claim("C02", "proved", "C02_bound", "histories in which no configuration update raised (see C12_refused_limit_stays_refuted for why)")
claim("C03", "proved", "C03_transparent C03_failures", "")
claim("C04", "proved", "C04_lru_order C04_lru_minimal", "minimality for announced size = real size")
claim("C05", "partial", "C05_largest_order C05_largest_minimal_partial C65_exact_fit_refuted", "REFUTED at exact fit: order proved; minimality fails only when the announced size equals the maximum exactly")
claim("C06", "proved", "C06_strict", "")
claim("C07", "proved", "C07_statistics", "")
claim("C08", "proved", "C08_off C08_unlimited", "")
claim("C09", "proved", "C09_follows_config C09_accepts", "")
claim("C10", "partial", "C10_inventories_isolated_refuted C10_isolated_after_clear_partial", "REFUTED: the cache key omits the inventory; holds after a clear")
claim("C11", "partial", "C11_oversize_refuted C11_largest_oversize_partial", "REFUTED for lru (an oversize matrix empties the cache); proved for largest")
claim("C12", "partial", "C12_unusable_limit_refuted C12_refused_limit_stays_refuted C12_unusable_limit_partial", "REFUTED: None raises TypeError and later gets fail; a refused 0 stays in force; ValueError proved for maxima <= 0")
claim("C13", "proved", "C13_linearisable C13_progress C13_threads_transparent C13_threads_bound", "linearisability incl. real-time order, for any number of threads and any schedule")
claim("C14","partial","C14_temporary_restores C14_temporary_restores_partial C14_temporary_no_file C14_nested_failure_refuted","proved whenever no entry notification raises; REFUTED otherwise: a temporary() whose entry fails inside the body keeps the outer values after exit")
claim("C15","partial","C15_failed_entry_refuted C15_refused_arguments_partial","REFUTED: an observer that raises on entry leaves the temporary configuration in force; refused arguments leave no trace (proved)")
claim("C16","proved","C16_set_stores C16_set_accepts C16_set_rejects C16_unknown_name C16_meaning_unique","")
claim("C17","partial","C17_multi_set_refuted C17_set_many_prefix_partial C17_set_keywords_prefix_partial","REFUTED: options before the bad one are stored; exact characterisation proved")
claim("C18","proved","C18_environment_wins C18_others_unaffected C18_variable_names C18_no_collision","")
claim("C19","partial","C19_set_survives_partial C19_save_as_survives_partial C19_objects_refuted","proved for values YAML reads back; REFUTED for other objects, which lose every setting at the next start")
claim("C20","partial","C20_text_refuted C20_booleans_partial","REFUTED: the text False turns the flag on, by set and by environment; proved for booleans")
claim("C22","proved","C22_change_notifies C22_temporary_notifies","")
claim("C66","partial","C66_get_total_partial C66_environment_refuted","proved without environment variables and for files with readable values; REFUTED with an environment variable that is no quantity")
claim("C67","partial","C67_memory_cache_in_sync_partial C67_failed_set_refuted","proved as long as no call raises and the environment stays fixed; REFUTED after a failing multi-option set")
claim("C68","proved","C68_reset_one C68_reset_all","")
claim("C69","proved","C69_list_to_human","")
claim("C23","proved","C23_contents C23_table C23_key_order C23_key_order_matching C23_tuples C23_idempotent","the argument is unchanged by construction: the model, like the code, copies it")
claim("C24","partial","C24_at_most_one C24_inferred_partial C24_refused_partial C24_no_grid C24_explicit C24_explicit_unknown C24_newline_refuted","REFUTED only by an ORCA name followed by a newline, which is accepted; everything else proved")
claim("C25","proved","C25_self_match","")
claim("C26","partial","C26_symmetric_refuted C26_transitive_refuted C26_transitive_shape_refuted C26_symmetric_partial C26_named","REFUTED: the tolerances are neither symmetric nor transitive, a missing shape matches any; symmetry proved apart from increments within tolerance; on named HEALPix and ORCA grids matching is equality of kind, name, ordering, flags and of the shapes where both are given")
claim("C27","partial","C27_normalise_partial C27_exact_partial C27_never_ends_refuted C27_inexact_refuted C27_overflow_refuted","proved for |lon| <= 2^52 up to 2^-43 (exactly for lon >= 0); REFUTED: never terminates at 2^63, OverflowError for integers from 2^1024 on, inexact for tiny negatives; minimum 0, the only one the code uses")
claim("C28","proved","C28_global_lat_lon C28_global_gaussian","with explicit tolerances, for |limits| <= 2^52")
claim("C29","partial","C29_type C29_names C29_increments C29_flags C29_shape C29_order C29_limits_lat_lon C29_limits_gaussian_partial C29_band_refuted","REFUTED for reduced Gaussian grids of full longitude, whose northern and southern limits are not compared; all the rest proved")
claim("C70","partial","C70_repeatable_partial C70_after_exception_refuted","proved whenever the first comparison answers; REFUTED after an exception, which leaves a wrong memo")
claim("C30","proved","C30_history C30_found C30_nothing C30_complete C30_method C30_method_object C71_alias","for lookups in which no comparison raises; the memos left by earlier lookups are covered by C30_history")
claim("C31","proved","C31_version C31_other_version C31_no_matrix C31_entries C31_supported","names are unique because they are JSON keys")
claim("C32","partial","C32_round_trip C32_written C32_subset C32_subset_answers_partial C32_subset_answers_refuted","re-loading proved; a subset answers as the full index when a single entry answers; REFUTED in general: the subset is ordered by the filters, so a request near two entries gets the other one")
claim("C33","proved","C33_discovered C33_local C33_once C33_forced C33_forced_once C33_forced_hides","assumes that the published text and the cached one do not share a checksum. Histories are of requests; a forced reload of the accessor, which only tests call, is described by C33_forced and C33_forced_once, and C33_forced_hides shows that it keeps new entries from a process that has loaded the index")
claim("C34","partial","C34_stays_partial C34_later_version_refuted C34_cache_lost_refuted","proved while every index that can be downloaded is good; REFUTED when a later-version index is published (index emptied for good) and across restarts (cached index deleted before the new download succeeds)")
claim("C35","partial","C35_directories_partial C35_paths_partial C35_path C35_directories_refuted C35_absolute_refuted","proved for engines and versions without underscores and names without slash in front; REFUTED otherwise")
claim("C71","proved","C71_alias C71_same_answer","")
claim("C36","proved","C36_weighted_sum C36_linear C36_shape C36_computed C36_input_shape C36_rounding C36_rounding_simple","weighted sum and linearity in exact rational arithmetic; which products are added, in which order, shape and independence of the input shape for any arithmetic; in doubles, no overflow and an explicit rounding error bound for rows of any length")
claim("C37","partial","C37_constant C37_bounds C37_rounding_refuted C37_rounding_bounds C37_rounding_constant","proved for exact arithmetic; REFUTED bit for bit: rounding can leave the range by an ulp. In doubles the range holds up to the distance of the sum of the weights from one plus an explicit rounding term, for rows of any length.")
claim("C38","proved","C38_no_weights C38_wrong_size C38_returns C38_lookup_fails C38_interpolate","")
claim("C39","proved","C39_grib C39_array C39_array_empty C39_array_target C39_in_turn C39_failure","array path: for backends that return the target grid unchanged, as the precomputed one does (C38_returns)")
claim("C40","proved","C40_own_handler C40_refused C40_chosen","a value of several kinds goes to the first handler it matches")
claim("C41","partial","C41_grib C41_array_partial C41_unknown_option C41_array_refuted","GRIB input proved; REFUTED for arrays: every option but interpolation, grid and area is dropped")
claim("C42","partial","C42_objects C42_failures C42_unknown C42_default_refuted","proved for the arguments as given; REFUTED only for the default inventory spelled out, which gives another object for the same database")
claim("C60","partial","C60_constant_partial C60_first_partial C60_sound_refuted","REFUTED: evenly spaced rows are accepted as constant; constant rows are accepted and the first values returned")
claim("C72","proved","C72_local","")
claim("C73","proved","C73_backend C73_no_backend","")
claim("C74","proved","C74_system C74_url C74_path C74_empty","")
claim("C75","proved","C75_values C75_lat_lon C75_refused","")
claim("C76","partial","C76_precedence C76_refused C76_explicit_partial C76_explicit_refuted","REFUTED: the attribute of the data goes first and the grid of the caller is then left among the options")
claim("C45","partial","C45_bound_partial C45_no_orphans_partial C45_orphans_refuted C45_undeletable_refuted","with files that can be deleted, the total after the check is at most the maximum plus the size of what housekeeping found during the check, or only protected entries are left; with nothing to find, at most the maximum. REFUTED: the excess is computed before orphans are looked for, so the maximum can be exceeded although entries could go; files that cannot be deleted are forgotten and counted as freed")
claim("C46","partial","C46_order C46_protected C46_newest C46_child_refuted","orphans first, then by last access, exactly the evicted entries and what is below them, no more than needed, enough or nothing evictable left; the newest entry without parent is kept. REFUTED: a newest entry that has a parent goes with it")
claim("C47","partial","C47_matching C47_all_partial C47_empty_refuted","purge with a matcher is exact; purge() leaves only empty files. REFUTED: empty files stay")
claim("C48","proved","C48_inside","in every reachable state of the table and directory")
claim("C54","partial","C54_summary_partial C54_refuted","REFUTED: raises TypeError whenever a matching entry has no size yet")
claim("C77","proved","C77_never_fails C77_tidy","")
claim("C78","partial","C78_accounted_partial C78_purged_refuted","REFUTED: purge() drops the entry of a download in progress, whose file is then in the directory without entry")
claim("C79","proved","C79_housekeeping","")
claim("C80","proved","C80_new C80_again C80_recent_last","")
claim("C81","proved","C81_usage C81_quiet","exact arithmetic for the number of bytes to free; files that can be deleted")
claim("C43","partial","C43_complete_partial C43_no_leftover_partial C43_returned_partial C43_opened_partial C43_window_refuted C43_write","for any number of processes, every interleaving, crash and failure, and both versions of the lock package, as long as the file is not deleted while a process is about to give up the lock. REFUTED when it is: the lock file is deleted after it is released, so that two processes write the same temporary file and an incomplete one is put in place")
claim("C50","partial","C50_one_creator_partial C50_not_again_partial C50_once_partial C50_window_refuted","as C43. REFUTED when the file is deleted (forced download, eviction) between the release of the lock and the deletion of the lock file")
claim("C82","proved","C82_holder_alive C82_gives_back C82_next_gets_it C82_crash","")
claim("C49","partial","C49_text C49_different_files C49_same_file C49_urls C49_refuted","Equal file names mean equal requests (up to the order of dictionary items) or a SHA-256 collision, and equal requests share their file. REFUTED for arguments that are bare numbers: the four texts are hashed without separators, so args 1 with extra 23 and args 12 with extra 3 share a file. Proved for arguments that are lists or dictionaries (all callers) and owners without [ { and -.")
claim("C83","proved","C83_memory_keys C83_texts_refuted C83_spelling_refuted","The argument tuple is always a list. C83_texts_refuted shows make_sha itself confuses a text with a value printing as it; C83_spelling_refuted shows 1 and 1.0 give two keys for one grid.")
claim("C44","proved","C44_lookup C44_hit C44_miss C44_raise C44_forced C44_calls C44_locked_refuted","For arbitrary creation and force functions that keep the table in order and leave this file alone. C44_locked_refuted: a renewal asked for by force silently does not happen if the old file cannot be deleted.")
claim("C53","partial","C53_fresh_partial C53_fresh_names_partial C53_text C53_shape C53_refuted","REFUTED: two calls in the same microsecond that draw the same random number share a path, and the second gets what the first wrote. Proved: names of calls that differ in time or number differ (or collide under SHA-256), and a call whose name is free creates its file once and reuses nothing.")
claim("C64","proved","C64_refresh C64_given C64_local","C64_local: for addresses that are local files download_and_cache returns None and does nothing.")
claim("C84","partial","C84_exists_partial C44_hit C84_retry_refuted C84_orphan_refuted","REFUTED twice: the check of the size at the end of cache_file can delete the file just created, if its entry was left by an earlier failure (so is not the newest), or if a stray file is found and registered as newer. Proved: the file and its entry are there if the entry is the newest and nothing stray is found, or if the limits are kept.")
claim("C52","partial","C52_follows_partial C52_size_managed_partial C52_manager_partial C52_agree_partial C52_kept_partial C52_one_temporary_directory C52_programs_partial C52_off_root_refuted C52_off_lost_refuted C52_manager_refuted C52_empty_root_refused","REFUTED for cache-policy off: temporary-directory-root is not among CACHE_KEYS, so it is not honoured and, once set, every configuration change throws the directory away (C52_off_root_refuted, C52_off_lost_refuted); and for the manager if an option cannot be read at some time (C52_manager_refuted). Proved: after any history, policy, directory and limits are the configured ones (root of off excepted); manager, database and limits follow if options can be read; the directory is kept by unrelated changes; at most one temporary directory exists; and the same for whole programs over Config.v that do not raise.")
claim("C85","partial","C85_off_leaves_user_directory C85_temporary_refuted","REFUTED for temporary: TmpCachePolicy.__init__ runs UserCachePolicy.__init__, which makes the user cache directory and fails if it cannot. Proved for off.")
claim("C62","partial","C62_exact_partial C62_total_partial C62_negative_refuted C62_1024_refuted C62_large_refuted C62_float_partial C62_float_large_refuted C62_infinite_refuted","REFUTED: negative sizes get two signs, no unit and lose a tenth (every n from -99999 to -1); just below each unit boundary the number is 1024; from 1024^9 on (and a little below) IndexError. Proved: for 0 <= n < 2^49 right unit and the nearest tenth; for 1024 <= n <= 2^90-2^37 the call returns and the number is within 0.051 of the true one; the same for every float from 0 up to 2^90, with the right unit. Floats from 2^90 on raise IndexError and the infinite one does not end.")
claim("C51","partial","C51_served_partial C63_completes_partial C63_matcher_refuted C63_exit_refuted","REFUTED for a matcher given to purge that uses the cache or ends the thread: its request and those after it never get a result. Proved for all others, any number of clients and any schedule: begun in order of arrival, at most once, each result stored is one the request can give, and goes to the one who asked (a result that is itself an exception object is raised by Future.result); all are served (C63).")
claim("C63","partial","C63_no_deadlock_partial C63_every_schedule_ends_partial C63_completes_partial C63_matcher_refuted C63_exit_refuted","REFUTED for a matcher (cache.purge(matcher=...)) that calls the cache or raises SystemExit: the caller waits for ever holding _manager_lock. Proved for all other requests, any number of threads: when nobody can move all have ended and all requests are served; no schedule goes on for ever.")
claim("C86","partial","C86_one_thread_partial C86_two_threads_refuted","REFUTED for two threads that change the configuration: the manager is told of None and the change raises AttributeError. Proved if one thread only changes it.")
claim("C55","partial","C55_roundtrip_partial C55_exactly_partial C55_objects_partial C55_refuted C55_objects_refuted C55_marks_partial C55_marks_refuted","REFUTED: doubles and long longs are written and can never be read; negative numbers and 64-bit numbers above 2^32-1 raise after part of them is in the stream. Proved for every sequence of the other values, byte for byte; C55_exactly_partial says which values of each type come back.")
claim("C56","partial","C56_numbers_partial C56_only_last_partial C56_matrix C56_refuted","REFUTED for strings and characters: cut inside its payload the last value is returned too short. Every other truncation raises, and a truncated file of weights is never taken for a matrix.")
claim("C57","partial","C57_decoded_partial C57_sizes_refuted","Proved for 4-byte indices and 4- or 8-byte weights, both byte orders, any sizes. REFUTED for other sizes of index or weight: KeyError.")
claim("C58","partial","C58_complete_partial C58_text_partial C58_killed_refuted C58_array_refuted C58_files_differ C58_where C58_refused","REFUTED twice: a killed process leaves the beginning of the file under its final name for ever; numpy arrays of more than 1000 points are named after their first and last three numbers. Proved without these, up to a collision of MD5.")
claim("C87","partial","C87_npz_partial C87_mat_partial C87_refused C87_returns_partial C87_none_refuted C87_str_refuted C87_to_file_refuted C87_suffix","REFUTED: without output the call always raises; with a .npz name given as a string it raises AttributeError after MIR ran and leaves the intermediate file. Proved for paths.")
claim("C59","partial","C59_refuted C59_raises_refuted C59_built_partial C59_succeeds_partial C59_found_partial C59_octahedral_partial C59_o1_refuted C59_undeclared_refuted C59_increments_refuted C59_recorded_global","REFUTED: the builder always raises (AttributeError on a str) before adding anything. With that call repaired, what is written and that it is found by the natural specification of its grids are proved; still REFUTED for O1 (stored as N1), for global grids not declared global with a rounded box, and for increments outside the table.")
claim("C88","partial","C88_refuted C88_uid_partial C88_gridbox_refuted","REFUTED: with an entry of other options first in the index, a request by name gets it although the default entry is there. Proved: which entries carry a _uid, except grid-box-average given by name with other options.")
claim("C89","partial","C89_written C89_success_partial C89_answers C89_quiet C89_copy C89_overlap_refuted C89_version_refuted","REFUTED: with a name in both indexes it raises AssertionError after writing a result that is complete; the version of the new index is not looked at, so that entries of another version come in. Proved: what is written, success without common names, and the answers of the merged index.")
claim("C90","proved","C90_self_contained C90_found C90_made C90_failure C90_strict","for entries whose paths are plain (C35); the script's import of earthkit.regrid.db, a module that does not exist, taken as repaired")
claim("C91","partial","C91_same_partial C91_alias_refuted","REFUTED: filters do not know the aliases nn and nearest-neighbor, which lookups accept. Proved for all other methods.")
claim("C92","partial","C92_origin C92_end_to_end_partial C92_answered_partial C92_refused_partial C92_exact C92_refuted","REFUTED: the memory cache is shared by all inventories, so a request made before to another inventory is answered with that inventory's weights. Proved if the same request went to no other inventory since the memory cache was last cleared (or the SHA-256 of two request texts collides). Suppositions: grids without nested tuples, no comparison with an entry raises, float texts as json writes them, files unchanged.")
claim("C93","partial","C93_origin C93_end_to_end_partial C93_steady_partial C93_answered_partial C93_refused_partial C93_fresh_partial C93_refuted C93_mixed_refuted","REFUTED: with the default settings a matrix in the cache directory is applied although the server changed it and tells so; and a new index can be combined with an old matrix. Proved: the weights come from an index and a matrix that were served for the inventory at some time (C93_origin, C93_end_to_end_partial); those on the server if it serves the same all the time (C93_steady_partial); the current matrix if both settings about stale files are on, the server tells which files changed and the memory cache is empty (C93_fresh_partial). Answered and refused calls: without limits on the cache directory. Suppositions as for C92; keys of cache files do not collide or the collision is named; URLs are not local files.")
claim("C94","partial","C94_slices_partial C94_total_partial C94_empty_refuted C94_dtype_refuted C94_numpy_accepts C94_numpy_values","REFUTED: numbers are stored with the type of the input, so that the mean of the whole numbers 0 and 1 becomes 0 (regridding the array gives one half); and a DataArray with another dimension of size zero is always refused. Proved: dimensions, sizes, and every number up to its conversion to the type of the input, for any backend that delivers arrays of the shape of the target grid; the call succeeds for one-dimensional and regular target grids. Arrays in memory only (no dask).")
claim("C95","partial","C95_located_partial C95_located_set_partial C95_kept C95_curved_refuted C95_narrow_refuted C95_slanted_refuted C95_out_dims_refuted","REFUTED: a DataArray is never regridded to a curved grid or to a regular one with one row or one column (its coordinates would lie along y and x, which the result does not have); slanted rows of evenly spaced points are taken for regular ones and get wrong positions; names for the output dimensions other than the fixed ones always fail. Proved for one-dimensional and regular grids with at least two rows and columns.")
claim("C96","partial","C96_variables_partial C96_other_variable_refuted C96_dims","REFUTED: a variable without the geographical dimensions makes the whole call fail. Proved: in a successful call every variable, in order, as in C94.")
claim("C97","partial","C97_refuted","REFUTED: the result never has the attribute gridspec; regridding it again without naming the grid raises ValueError unless the accessor of earthkit works it out.")
claim("C98","partial","C98_missed_partial C98_listed_partial C98_refuted C98_moved_refuted","REFUTED: a process compares its index with the server's once; a matrix added after that is not found before a restart. And a request found in a stored index is not compared: if the matrix was moved on the server, the call fails though the server's index lists the new name. Proved for the first call for an inventory in a process, for any server, history, limits and settings: a miss means that none is listed in an index whose text is the server's, or was served once and has the server's checksum; the files of the index can be deleted.")
claim("C99","partial","C99_array C99_first_array C99_first_regrid C99_first_interpolate C99_option_refused C99_backend_refused C99_inventory_refuted","REFUTED: an inventory given to the default backend is silently ignored. The rest is proved, for any behaviour of the databases.")
claim("C100","proved","C100_array C100_fields C100_input_grid C100_refused C100_backend_refused C100_option_refused","")
claim("C101","partial","C101_trace C101_array_partial C101_fields_partial C101_refused_partial C101_refuted","REFUTED: the memory cache does not know inventories, so a request that went to another inventory before is answered with its weights. Proved if the same request went to no other inventory since the memory cache was cleared; collisions of the hash are an alternative in the conclusion, about requests actually made.")
claim("C102","partial","C102_page_partial C102_healpix_refuted C102_method_refuted C102_order_refuted C102_abandoned_refuted C102_default_ordering_refuted","REFUTED: the two HEALPix pages are empty whatever the index holds, because match looks for an attribute ordering that no specification has. An entry whose method is an object of type linear answers linear requests and is on no page. One grid whose keys come in two orders has two blocks, each with a part of its targets. One source such as N32x, or one HEALPix target without an ordering, and the page is not made at all. Proved for the other four pages, when they are made, for what the index has under the method string linear; a collision of the hash of two source grids is an alternative in the statement.")
claim("C103","partial","C103_trace C103_array_origin C103_array_partial C103_fields_partial C103_steady_array_partial C103_steady_fields_partial C103_answered_partial C103_refused_partial C103_refuted","REFUTED: the memory cache does not know inventories, so that the weights of another inventory asked before in the same process are applied, although the server never changes. Proved if the same request went to no other inventory since the memory cache was empty, or requests collide under SHA-256: the weights applied were served for the inventory; if the server stays the same they are its current ones, a call for which it has weights is answered (without limits on the cache directory) and one for which it has none is refused.")
claim("C104","partial","C104_entries C104_refuted","REFUTED for the statistics, which count the size of a file that vanished. Proved: the listed entries are the rows whose file exists, each once.")
claim("C105","proved","C105_local C105_public","For programs of calls with local inventories and for histories of public calls with inventories on servers (no disk-cache limits): elements of matrices take 8 bytes and their indices 4 (the arrays scipy makes for matrices of fewer than 2^31 elements).")
claim("C106","partial","C106_trace C106_array_origin C106_array_partial C106_unchanged_partial C106_nothing C106_fields_partial C106_answered_partial C106_refused_partial C106_fields_answered_partial C106_fields_refused_partial C106_refuted C106_replaced_refuted","REFUTED: the memory cache knows neither inventories nor files, so that after a request to a server the same request to a directory applies the server's weights, and a matrix replaced in a directory is not used as long as the old one is in memory. Proved: the weights applied are ones that some inventory, asked for the same since the memory cache was empty, had; if no other inventory was asked for it, the inventory named had them during one of these calls (the index as it was during a call with that inventory, the matrix as it was during a call since), and a directory that did not change has them now; or requests collide under SHA-256. Nothing is found in a directory only if its index, as it is now, has no answer (no condition on other inventories). With inventories that do not change and a disk cache without limits: weights that the inventory asked has are applied, for arrays and for each field of a list, and a request for weights that it has not is refused.")
claim("C107","partial","C107_label C107_ids C107_json C107_own_partial C107_stale_refuted","REFUTED: a JSON file of an earlier run is used whatever made it (another version of MIR, other data); MIR does not run. Proved without such files, for labels without dashes and slashes (all that make_grid_id makes of numbers, whose labels differ); in general two names have one label just if they agree up to n/N, o/O, f/F and slash/x, so that two spellings of a grid share one matrix.")
claim("C108","partial","C108_jobs C108_once C108_refuted C107_own_partial","REFUTED: builder.make_matrix of the package always raises (C59), so the scripts stop at the first matrix and no index changes. Proved: the jobs are exactly the wanted ones, each once (without extra pairs), and are done in order up to the first failure.")
claim("C109","partial","C109_placed_partial C109_local_partial C109_db_partial C109_refuted C109_linked_partial C109_linked_refuted C109_nothing_to_link","With builder.make_matrix repaired (see C59, C108). REFUTED for build_db.py, whose matrices are one directory (matrices_METHOD) further down than its index says, and for test_db.py, which links no directory of grid-box-average. Proved for build_local_test_db.py, and for the links to the matrices of linear and nn.")
claim("C110","partial","C110_array_partial C110_set_partial C110_left_refuted","REFUTED: if the object has a grid, a grid_spec given by the caller is passed on to the backend, and the precomputed backend refuses every such call. Proved for calls that return, of objects without empty dimensions, if the arrays returned have the shape of the target grid (otherwise numpy repeats values or raises).")
claim("C111","partial","C111_array_partial C111_set_partial C111_delivered","For calls that return, if the same was asked of no other inventory (see C106, REFUTED without) or requests collide under SHA-256; the shapes in the inventory must be those of the target grid (C111_delivered). The numbers are stored with the type of the input (C94).")
claim("C112","partial","C112_data C112_json C112_flags C112_class_refuted","REFUTED for spellings: n2560 and o2560 are asked of the operational experiment and stored under the name of N2560 and O2560, which then use these data. Proved for all names as they are written.")
claim("C113","partial","C113_tidy C113_private C113_page_partial C113_env C113_user_refuted C113_home_refuted","REFUTED: a user whose name begins regrid has a page that shows a directory that does not exist (~/.cache/earthkit-${USER}); without a known home directory tidy calls itself for ever and the page is not made. Proved for all others.")
claim("C114","partial","C114_with C114_once C114_own_partial C114_foreign_refuted","REFUTED: if the file was deleted before the block ended, the object keeps its name and later deletes a file that another made under it. Proved otherwise.")
claim("C115","partial","C115_restored C115_inserted C115_refuted","REFUTED: if sphinx cannot tell the source line the handler uses variables that have no value and the directive raises. The rest is proved.")
claim("C116","partial","C116_delivered C116_stale_refuted","REFUTED: a file that is there is never looked at, so that one left incomplete by a killed run is used for ever. Proved: files missing before are as served, others stay.")
claim("C117","partial","C117_coord_partial C117_numbers_refuted C117_grid_refuted C117_order C117_sizes C117_nn_refuted C117_column_refuted","REFUTED: numeric coordinates are compared with themselves, so that any reference of the same length is accepted, and two-dimensional ones are refused even if they agree; for nearest neighbours the last row of the result is compared with the first row of the reference, so the last row of the reference plays no part and a reference may be refused against itself. Proved for strings, times, orders and sizes.")
claim("C118","proved","C118_compared C118_same_near C118_sound C118_answered C118_first_call C118_refused C118_example","Stated without the model's from_dict, comparison, lookup or paths: grids are described by real numbers (EndSpec.v, GridDecide.v). After earlier requests the answer is up to a collision of the hash among the requests, and in strict mode the weights may be refused as too large. What is exact and what is close: same_grid and near_grid (C118_same_near). Local inventories; longitudes of the areas within reach of the unrolling of normalise.")
claim("C119","partial","C119_existing C119_unreadable C119_fails_partial C119_fails_refuted C119_others C119_kept C119_first C119_migrated C119_no_place C119_again C119_umask_partial C119_umask_refuted C119_continues C119_continues_files","REFUTED: a key that is no text makes every import of the package fail with TypeError; if the directory cannot be made (also for a file named without a directory) the umask of the process stays 077. Proved otherwise: which file, which values, what is written, that a second start gives the same.")
claim("C120","partial","C120_killed_partial C120_lost_refuted","REFUTED: the file is emptied before it is written, so a process killed then leaves every later start with the defaults. Proved: exactly which options survive, if entries are written whole.")
claim("C121","proved","C121_same_table C121_table C121_rows","values are None, booleans, integers and texts (not other objects, whose repr is arbitrary); names of entries have no <")
claim("C122","partial","C122_lines C122_text_partial C122_text_refuted C122_environment_refuted C122_dump C122_dump_refuted","REFUTED: the text None and the value None print alike, a value can imitate a variable of the environment, and dump leaves the environment out. Proved: one line for each entry in order; without newlines equal prints mean equal str of the values; dump lists what is stored.")
claim("C123","partial","C123_table_partial C123_markup_refuted C123_cache_refuted C123_cache_empty_partial","REFUTED: values are put into the table as they are, so markup in them is not shown but obeyed; the listing of a cache with entries is never well formed (rows open with td and close with tr). Proved for configurations whose texts have no <.")
claim("C124","partial","C124_plain C124_titled C124_open C124_unknown_refuted C124_fails_only_so","REFUTED: an unknown target is a KeyError, which stops the documentation. Proved for every title and target; caption_ref_re is taken to be explicit_title_re of Sphinx.")
claim("C125","proved","C125_sound C125_answered C125_refused C125_example","In the terms of C118 (real numbers, no from_dict, comparison or lookup of the model; EndRemoteSpec.v). For a server that has the same files all the time and one inventory; no other file of the server has the same SHA-256 request name as one of the inventory's; after earlier requests up to a collision of the hash among the requests for the same grids. C125_answered and C125_refused: without limits on the cache directory; in strict mode the weights may be refused as too large.")
claim("C126","proved","C126_array C126_fields C126_answered C126_refused C126_example","As C125, for the public functions (EndApiSpec.v); all calls are for the same inventory (C103_refuted shows why); between the calls: changes of the memory cache, new processes, purges. That calls are answered or refused is stated for arrays, without limits on the cache directory.")
claim("C127","proved","C127_array C127_fields C127_answered C127_refused C127_interpolate C127_example","As C118, for the public functions (EndLocalSpec.v); C101_refuted shows that the hypothesis on other inventories is needed. That calls are answered or refused is stated for arrays.")
claim("C128","proved","C128_array C128_fields C128_answered C128_refused C128_fields_answered C128_fields_refused","As C126 and C127 for one process with inventories of both kinds (EndEverySpec.v).")
claim("C129","proved","C129_array C129_set","C110/C111 with the hypotheses of C128 in terms of the geometry of grids; two requests with the same SHA-256 are excluded by hypothesis; the weights that may be meant must be for the shape of the target grid.")
claim("C130","proved","C130_array_answered C130_array_refused C130_set_answered C130_set_refused C130_array_partial C130_set_partial","C130_array_partial and C130_set_partial are for any method of regridding slices (out_dims not given); the others for inventories, in terms of the geometry of grids as C128 and C129; two requests with the same SHA-256 are excluded by hypothesis.")
claim("C131","partial","C131_partial C131_refuted C131_forgets_refuted","REFUTED: the file of the index is registered before the compressed index that is downloaded to make it, so when the size or the use of the disk is above its limit at the check that follows, the file just made is the one deleted first. C131_refuted: while the limits are exceeded every call to the inventory, in this and later processes, raises FileNotFoundError, whatever the server has. In the code the check is done by another thread: the file is deleted in any case, the exception is raised if the check comes before the file is opened, as in the model (the limits are off by default). C131_forgets_refuted: when the server's index changed and one call came while the disk was too full, the process says ValueError (no weights) from then on. Proved for all limits (C131_partial): a call whose weights are on a steady server applies exactly them, or raises WeightsTooLarge in strict mode, FileNotFoundError, or ValueError after a load of the index failed in this process.")
claim("C132","proved","C132_message C132_fields C132_field C132_array C132_refused C132_inventory","MIR is arbitrary, but a function of what it is given; it is taken to be installed. An empty list of fields is returned whatever the options are (C132_refused is for others).")
claim("C133","proved","C133_no_disk C133_origin C133_nothing C133_answered C133_refused C133_same_name_refuted","C133_same_name_refuted: the condition on the names is needed; a call whose draw repeats an earlier one of the process is given the file of that one. Collisions of the keys of the memory cache with those of the other requests since it was emptied are an alternative in the conclusions.")
claim("C134","partial","C134_refuted C134_found_partial","REFUTED: the index of an inventory is kept for the life of the process and only read again when a request is not in it; if a matrix got another name on the server, calls for it fail although the server has it. Proved: a call is answered, or too large in strict mode, if each index that the server had during earlier calls of the process has no answer or names a matrix that is still there.")
claim("C135","partial","C135_lost_refuted C135_changed_refuted C135_locked C135_any_partial C135_never_wrong C135_loaded","REFUTED with the memory cache off, when lookups are made without a lock: _load_index stores an empty index and fills it afterwards, so threads that use an inventory for the first time together may be told that there are no weights (ValueError) or raise RuntimeError (dictionary changed size during iteration) though all their weights are there. Proved for all schedules: with the memory cache on (lookups under its lock) every call gets the right answer; with or without it no call gets wrong weights and every call can finish; with the index loaded before and weights for all calls, every call gets them without a lock.")
claim("C136","partial","C136_seen_refuted C136_popped_refuted C136_lost_refuted C136_reset_refuted C136_depth C136_none_left C136_finished C136_base_kept C136_read_again C136_inside C136_ends C136_beside_readers_partial","REFUTED: the stack of temporary configurations belongs to the module, not to a thread, and there is no lock. Schedules are given in which a thread that never touches the settings reads another thread's temporary value, in which the end of one block takes away the configuration of another thread that is still in its block, in which a set() made outside any block is neither in force nor in the file once all is done, without an exception, and in which a reset() made outside any block resets another thread's block. Proved for all schedules: there are as many temporary configurations as open blocks, so none is left at the end; a thread in a block never changes CONFIG; every thread ends after four steps of its own per statement; if settings are changed only in blocks, CONFIG and its file never change and are read again once no block is open; beside threads that only read, a thread reads, sets, saves and raises exactly what it would alone (as the sequential model does). Missing: two threads that both use blocks, for which the first clause is false.")
claim("C137","partial","C137_mixed_refuted C137_read_refuted C137_one_at_a_time_partial C137_no_mixture_partial C137_saved_partial C137_whole_partial C137_bytes C137_can_finish","REFUTED: save_config deletes the lock file after releasing it, when another process may have locked it already; the next save makes a new lock file and both write. A schedule of three saves by two processes is given, for both versions of the lock package, in which nothing fails and the file ends up as no beginning of any of the texts. Also, nobody locks the file to read it, and it is emptied before it is written: a process that starts meanwhile finds it empty. Proved for all schedules, texts, failures and crashes, if there are at most two saves altogether or the lock file is never deleted: one writer at a time, the file holds what it held or a beginning of one text, the whole text when nobody writes and nothing failed, and the text of a process when it has closed the file. Without any condition: every byte comes from that place of what was there or of one of the texts, or is zero; and from every state every save can be brought to its end, with its text in the file if it had not begun. Missing: any number of saves with the lock file deleted, for which it is false.")
claim("C138","partial","C138_in_force C138_ended C138_bounded C138_faults C138_no_faults C138_can_finish C138_alone C138_mixture_refuted C138_reader_refuted C138_at_once_refuted",
  "REFUTED: a thread that changes to settings which are accepted alone can get a TypeError, because update reads the limit of one configuration and the policy of another (C138_mixture_refuted), and a thread that only asks for matrices gets it too until the next update (C138_reader_refuted). Proved for all programs and schedules: once nobody is telling the cache about a change it works with the settings in force even after such exceptions (C138_in_force, C138_ended); limits and sizes are respected whenever the lock is free (C138_bounded); exceptions of an update come only from such a mixture (C138_faults), so there are none if every limit goes with every policy (C138_no_faults); nobody waits for ever (C138_can_finish); a thread nobody disturbs does what its calls do one after the other (C138_alone).")
claim("C139","partial","C139_returned C139_raised C139_others C139_rows_partial C139_steady C139_steady_failed C139_steady_off C139_asserted_refuted C139_prefix_refuted C139_unregistered_refuted C139_force_refuted C139_record_refuted C139_gone_refuted",
  "REFUTED: cache_file asks for the policy again at every step. A change of directory while the file is made ends the call with AssertionError though the file is there (C139_asserted_refuted); the test of the directory compares the beginnings of strings, so the row of a file of /ab gets into the table of /a (C139_prefix_refuted); with the policy switched off in between the file has no row (C139_unregistered_refuted), a forced file is not made again (C139_force_refuted) and a force function gives TypeError (C139_record_refuted); a removed temporary directory gives FileNotFoundError (C139_gone_refuted). Proved for all changes at all moments: what is returned is a complete file, the old or the new one (C139_returned); no other exceptions (C139_raised); other files and rows stay (C139_others); rows are in the table of the file's directory if no directory's name begins a path in another (C139_rows_partial); with steady settings the property holds in full (C139_steady, C139_steady_failed, C139_steady_off).")
claim("C140","partial","C140_directory C140_manager C140_class_partial C140_can_finish C140_alone C140_class_refuted C140_stale_refuted C140_untold_refuted C140_fault_refuted",
  "REFUTED: the name of the policy is read twice when a policy is made, so a user policy can stay in force with off configured (C140_class_refuted); update() works without a lock, so a thread can store a limit that another thread has replaced (C140_stale_refuted); it compares one reading and stores another, so the manager may never be told of a limit (C140_untold_refuted); a change of a limit during a change of directory can give AttributeError (C140_fault_refuted, see C86). Proved for all programs and schedules: once nobody is telling the cache about a change, the directory of the policy is the configured one for its class and so is its policy name (C140_directory), and the manager has a copy of that policy with that directory (C140_manager); the class is right if nobody changes the name (C140_class_partial); nobody waits for ever (C140_can_finish); a change made while nobody else makes one has its full effect, limits included (C140_alone).")
claim("C141","partial","C141_spreads C141_kept C141_cause C141_exactly C141_zero_refuted C141_overflow_refuted",
  "REFUTED: a weight of zero that is stored in the file spreads missing values as any other does (C141_zero_refuted), and a constant field near the largest double can have a missing result though the weights sum to one (C141_overflow_refuted). Proved: a missing point reaches every target point with a stored weight for it, the others are bit for bit independent of it, every missing result has one of four causes, and for finite weights and values that cannot overflow the missing results are exactly those with a stored weight for a missing point.")
claim("C142","partial","C142_copied_partial C142_zeros_partial C142_classes C142_zero_sign_refuted C142_infinite_refuted",
  "REFUTED: a negative zero becomes zero (C142_zero_sign_refuted); a stored weight of zero for an infinite value makes the result missing (C142_infinite_refuted). Proved for every double up to the sign of zero, also beside weights of zero for finite values; fields of classes stay so.")
claim("C143","partial","C143_refused C143_local C143_system_refuted C143_system_partial C143_download C143_dry C143_dry_refuted C143_again_refuted C143_subset_refuted C143_subset_exit C143_subset_dry C143_subset_failed C143_subset_strict C143_subset_made",
  "REFUTED: both scripts import from earthkit.regrid.db, a module that the package does not have, so that system mode and subset_remote_db.py never work (C143_system_refuted, C143_subset_refuted). A dry run of merge_index.py makes the output directory and downloads to it (C143_dry_refuted); system mode in place fails when repeated (C143_again_refuted). Proved: local mode as it is; the rest with the module repaired.")
claim("C144","partial","C144_never_wrong C144_ends C144_locked C144_loaded C144_cached C144_missed_refuted C144_lost_refuted C144_gone_refuted",
  "REFUTED with the memory cache off: a thread is told that there are no weights because another has noted that the server was checked before it has the new index (C144_missed_refuted), even for weights that were in memory all the time (C144_lost_refuted); a thread opens the index file after another has deleted it (C144_gone_refuted). Proved: with the memory cache on (its lock held) every answer is right in every schedule, and a cached index that has all that is asked for stays and is used; without the lock if nothing is missed; never other weights; no deadlock.")
claim("C145","partial","C145_right C145_ends C145_once C145_alone C145_settled C145_two_refuted C145_changes_refuted",
  "REFUTED: there is no lock, so that two threads get different objects (C145_two_refuted), and one thread different objects for a repeated request (C145_changes_refuted). Proved: every answer is right; at most one object per thread and request; one object for a thread alone, and for all threads once nobody is making it.")
claim("C146","partial","C146_alone C146_answers C146_known C146_not_global C146_settled C146_locked C146_ends C146_early_refuted",
  "REFUTED: is_global_ew stores False before it tests, so that another thread is told that a global grid is not global, and its request does not match the entry (C146_early_refuted). Proved: the only wrong answer is such a False; right answers if the memo is set or the grid is not global; right answers with one call at a time, as under the lock of the memory cache; no wrong answer stays once nobody is inside.")
claim("C147","proved","C147_right C147_ends C147_once C147_settled C147_bad C147_reduced C147_healpix","")
claim("C148","partial","C148_first C148_all C148_load C148_broken_refuted",
  "REFUTED: an earthkit.data whose import fails otherwise than with ImportError breaks the import of the helpers, where mir is guarded (C148_broken_refuted). Proved: exactly when the helpers load, and that the flags are then right.")
claim("C149","proved","C149_temporary C149_set C149_reset C149_environment","the examples that set or print an option assume that its environment variable is not set, as the guide does; observers return and print nothing")
claim("C150","partial","C150_policies C150_short C150_limit C150_largest_refuted","REFUTED: the example of the policy largest sets the policy user, which raises ValueError in every state; the other three, and largest with its own name, run as written, and so does the call of set in the example of the limit")
claim("C151","proved","C151_twice C151_hits C151_too_large C151_unlimited C151_off C151_clear","of regrid() only the request to the memory cache")
claim("C21","partial","C21_characters C21_value C21_bytes C21_seconds C21_percent C21_otherwise C21_none C21_unambiguous C21_printed C21_unknown_unit_refuted","exact reading of every string; REFUTED: a unit is judged by its first letter only, so unknown units such as ms are accepted (5ms is 5 minutes)")
claim("C61","proved","C61_levenshtein C61_metric C61_nearest C61_always_answers","")
claim("C65", "partial", "C65_exact_fit_refuted C65_kept_partial", "REFUTED at exact fit; proved for lru below the maximum")

text = "\n".join(open(f).read() for f in glob.glob(root + "/rocq/theories/*.v"))
names = set(re.findall(r"^\s*(?:Theorem|Lemma|Corollary)\s+([\w']+)", text, re.M))
props = {json.loads(l)["id"] for l in open(root + "/properties.jsonl")}
for c in C:
    assert c["property"] in props, c
    for t in c["theorems"]:
        assert t in names, t
C.sort(key=lambda c: c["property"])
json.dump({"claims": C}, open(root + "/MANIFEST.json", "w"), indent=1)
print("claims", len(C), "missing", sorted(props - {c["property"] for c in C}))
