{
 "claims": [
  {
   "property": "C01",
   "status": "proved",
   "theorems": [
    "C01_solver_accepts_exactly"
   ],
   "note": "iff, for every list of targets and every iteration order of Python sets"
  },
  {
   "property": "C02",
   "status": "proved",
   "theorems": [
    "C02_unknown_target_exact",
    "C02_unknown_target_names_missing",
    "C02_no_independent_target_exact",
    "C02_circular_error_is_a_cycle",
    "C02_connectivity_error_lists_unreachable",
    "C02_no_other_error"
   ],
   "note": "exactness of each error, and no other error can occur"
  },
  {
   "property": "C03",
   "status": "proved",
   "theorems": [
    "C03_dependencies_finish_first"
   ],
   "note": "for every reachable state of the asyncio transition system, every task behaviour and thread count"
  },
  {
   "property": "C04",
   "status": "proved",
   "theorems": [
    "C04_at_most_once",
    "C04_exactly_once_on_success"
   ],
   "note": "at most once in every execution; exactly once when exec() returns True"
  },
  {
   "property": "C05",
   "status": "proved",
   "theorems": [
    "C05_parallelism_bound"
   ],
   "note": "number of calls in progress, read off the trace"
  },
  {
   "property": "C06",
   "status": "proved",
   "theorems": [
    "C06_nothing_started_after_failure",
    "C06_dependents_of_failed_never_run"
   ],
   "note": "nothing starts after a False; transitive dependents of the failed target never start"
  },
  {
   "property": "C07",
   "status": "proved",
   "theorems": [
    "C07_result_is_faithful"
   ],
   "note": "returned value decided exactly by whether a what_to_do returned False"
  },
  {
   "property": "C08",
   "status": "proved",
   "theorems": [
    "C08_no_deadlock",
    "C08_bounded_number_of_steps"
   ],
   "note": "progress in every reachable state plus a bound of 2n+1 scheduling steps"
  },
  {
   "property": "C09",
   "status": "proved",
   "theorems": [
    "C09_nothing_running_at_return"
   ],
   "note": "also after a failure"
  },
  {
   "property": "C10",
   "status": "proved",
   "theorems": [
    "C10_no_internal_assertion_in_workers",
    "C10_no_assertion_in_exec"
   ],
   "note": "depcount assert, task_done ValueError, and the three asserts of exec()"
  },
  {
   "property": "C11",
   "status": "partial",
   "theorems": [
    "C11_refuted",
    "C11_raise_never_returns",
    "C11_raise_always_hangs"
   ],
   "note": "REFUTED: a raising what_to_do makes exec() hang, for every graph and thread count (theorems C11_raise_*)"
  },
  {
   "property": "C12",
   "status": "partial",
   "theorems": [
    "C12_refuted",
    "C12_without_threads_always_hangs"
   ],
   "note": "REFUTED: with count_of_threads <= 0 exec() hangs at once, for every graph"
  },
  {
   "property": "C13",
   "status": "proved",
   "theorems": [
    "C13_workers_leave_only_when_done",
    "C13_all_workers_stay_available"
   ],
   "note": "no worker leaves before everything is done; an idle worker can take any queued target"
  },
  {
   "property": "C14",
   "status": "proved",
   "theorems": [
    "C14_schedule_independent"
   ],
   "note": "every complete execution ends in the state of any sequential dependency order, given commuting independent actions"
  },
  {
   "property": "C15",
   "status": "proved",
   "theorems": [
    "C15_invert_is_relation_inversion",
    "C15_invert_twice_is_identity",
    "C15_invert_keyerror_exact"
   ],
   "note": "any key type with decidable equality; includes the involution and the KeyError iff"
  },
  {
   "property": "C16",
   "status": "proved",
   "theorems": [
    "C16_get_returns_what_was_added",
    "C16_add_leaves_other_names",
    "C16_get_by_name_or_canonical_path",
    "C16_get_exits_exactly_when_unregistered",
    "C16_has_exactly_when_get_succeeds"
   ],
   "note": "every canonicalisation function and history of add/has/depends_as_set"
  },
  {
   "property": "C17",
   "status": "partial",
   "theorems": [
    "C17_refuted",
    "C17_has_is_invisible_partial"
   ],
   "note": "REFUTED: has() inserts an alias that survives re-registration; invisible as long as the canonical name is not registered again"
  },
  {
   "property": "C18",
   "status": "proved",
   "theorems": [
    "C18_depends_as_set_is_the_closure"
   ],
   "note": "every registry, cyclic or not; list strictly sorted, members exactly the closure, exit iff something reachable is unregistered"
  },
  {
   "property": "C19",
   "status": "proved",
   "theorems": [
    "C19_never_stale"
   ],
   "note": "answer equals that of a core never asked before (the cache is written under a key that is never read)"
  },
  {
   "property": "C20",
   "status": "partial",
   "theorems": [
    "C20_need_update_is_right",
    "C20_evaluation_succeeds",
    "C20_reregistration_refuted"
   ],
   "note": "for registrations followed by any number of evaluations; totality on healthy registries; REFUTED for a target registered again between evaluations (cached_deplist)"
  },
  {
   "property": "C21",
   "status": "partial",
   "theorems": [
    "C21_broken_elsewhere_refuted",
    "C21_cycle_elsewhere_refuted",
    "C21_recurse_update_unaffected_partial",
    "C21_out_of_date_unaffected_partial"
   ],
   "note": "REFUTED: an unregistered dependency or a cycle outside the cone breaks every action; what holds: recurse_update's input and out-of-dateness in the cone are unaffected by unrelated registrations"
  },
  {
   "property": "C22",
   "status": "partial",
   "theorems": [
    "C22_updates_exactly_what_is_out_of_date",
    "C22_update_starts_after_dependencies_ended",
    "C22_direct_call_refuted",
    "C22_unusable_target_excludes_success"
   ],
   "note": "after an evaluation: exact set, once, dependency order; REFUTED for recurse_update called directly without evaluation (hangs)"
  },
  {
   "property": "C23",
   "status": "proved",
   "theorems": [
    "C23_exits_exactly_when_unregistered",
    "C23_exit_names_the_unregistered",
    "C23_rejects_exactly_cycles",
    "C23_rejection_is_about_cycles",
    "C23_runs_exactly_healthy_cones"
   ],
   "note": "five iffs; distinct target names"
  },
  {
   "property": "C24",
   "status": "partial",
   "theorems": [
    "C24_refuted",
    "C24_default_action_fails_without_threads",
    "C24_default_action_runs_with_threads_partial"
   ],
   "note": "REFUTED: TypeError on every core without runtime['threads']; works when threads is set"
  },
  {
   "property": "C25",
   "status": "partial",
   "theorems": [
    "C25_refuted",
    "C25_do_returns_nothing",
    "C25_unknown_action",
    "C25_known_action"
   ],
   "note": "REFUTED: core.do drops the result of the action. An action that the target does not have is no error either (C25_unknown_action)."
  },
  {
   "property": "C26",
   "status": "proved",
   "theorems": [
    "C26_list_is_sequence",
    "C26_default_action_of_each_target"
   ],
   "note": "nested lists, any state and exceptions"
  },
  {
   "property": "C27",
   "status": "proved",
   "theorems": [
    "C27_file_out_of_date",
    "C27_directory_out_of_date",
    "C27_update_if_returns",
    "C27_need_update_of_a_build"
   ],
   "note": "single target and whole build; any registry with a truthful cache"
  },
  {
   "property": "C28",
   "status": "proved",
   "theorems": [
    "C28_second_build_in_the_same_process",
    "C28_second_build_in_a_new_process"
   ],
   "note": "same process and new process (any registry for the same project)"
  },
  {
   "property": "C29",
   "status": "proved",
   "theorems": [
    "C29_only_what_was_needed_changes"
   ],
   "note": "any reachable state, also with partial outputs; directories created where nothing was are the only other change"
  },
  {
   "property": "C30",
   "status": "partial",
   "theorems": [
    "C30_incremental_builds_are_right",
    "C30_as_a_clean_build",
    "C30_partial_outputs_refuted"
   ],
   "note": "any history of edits, deletions, complete, failed and killed builds; REFUTED when failing rules leave partial outputs"
  },
  {
   "property": "C31",
   "status": "proved",
   "theorems": [
    "C31_unfinished_files_still_need_an_update",
    "C31_the_next_process_sees_them"
   ],
   "note": "any reachable state of the build; flags of the next process"
  },
  {
   "property": "C32",
   "status": "partial",
   "theorems": [
    "C32_failed_rule_is_run_again_partial",
    "C32_partial_output_refuted",
    "C32_missing_directory_refuted"
   ],
   "note": "holds for targets that were out of date, rules leaving no partial output; REFUTED otherwise (two witnesses)"
  },
  {
   "property": "C33",
   "status": "partial",
   "theorems": [
    "C33_registration_ends",
    "C33_outputs_are_registered",
    "C33_every_missing_directory_has_a_target",
    "C33_directories_exist_when_a_rule_starts",
    "C33_name_clash_refuted",
    "C33_trailing_slash_refuted"
   ],
   "note": "for every script of the modelled calls, every disk and every schedule, provided outputs end in a file name without '*' and no other target has the name of a missing directory; both provisos are needed (REFUTED without them)"
  },
  {
   "property": "C34",
   "status": "partial",
   "theorems": [
    "C34_clean_removes_the_generated_files",
    "C34_stale_cache_refuted"
   ],
   "note": "exactly the generated regular files of the cone; REFUTED with a stale file cache"
  },
  {
   "property": "C35",
   "status": "partial",
   "theorems": [
    "C35_rm_removes_the_target_partial",
    "C35_cp_writes_the_target_partial",
    "C35_blank_refuted",
    "C35_semicolon_refuted",
    "C35_cp_refuted",
    "C35_cp_into_a_directory",
    "C35_cp_directory_refuted",
    "C35_last_status_refuted"
   ],
   "note": "REFUTED: names are not quoted, so a blank or ';' makes rm act on other files; holds for names made of [A-Za-z0-9_./-+,:@%=] (sources not starting with '-'); copying to an existing directory copies into it, and the status of several commands is that of the last one"
  },
  {
   "property": "C36",
   "status": "partial",
   "theorems": [
    "C36_no_infinite_run",
    "C36_returns_if_the_output_fits_partial",
    "C36_returns_exactly_if_the_output_fits",
    "C36_can_return_iff",
    "C36_refuted",
    "C36_background_refuted",
    "C36_result",
    "C36_all_output_is_collected",
    "C36_utf8",
    "C36_undecodable_refuted"
   ],
   "note": "REFUTED: do_execute waits for the command before reading its pipes, so more output than a pipe holds blocks for ever, as does a background process; output that is not UTF-8 raises. Returns in every schedule iff the output fits (exact for commands without background processes); the printed text and the result are then right"
  },
  {
   "property": "C37",
   "status": "partial",
   "theorems": [
    "C37_last_look",
    "C37_never_looked",
    "C37_second_build_refuted"
   ],
   "note": "cache laws over all histories; REFUTED: edits between two builds of one process are not noticed"
  },
  {
   "property": "C38",
   "status": "proved",
   "theorems": [
    "C38_mtime_of_a_file_set",
    "C38_mtime_returns"
   ],
   "note": "any acyclic nesting"
  },
  {
   "property": "C39",
   "status": "partial",
   "theorems": [
    "C39_usable_in_the_default_core_partial",
    "C39_source_is_missing_in_other_cores",
    "C39_refuted"
   ],
   "note": "REFUTED: with any core but the default one the source is not registered in that core (theorem for all arguments and a witness); in the default core everything the copies need is registered"
  },
  {
   "property": "C40",
   "status": "partial",
   "theorems": [
    "C40_refuted",
    "C40_missing_source_partial"
   ],
   "note": "REFUTED: build of a missing source only warns; holds if some rule cannot do without the source"
  },
  {
   "property": "C41",
   "status": "proved",
   "theorems": [
    "C41_last_registration_is_found",
    "C41_other_lookups",
    "C41_registered_or_not",
    "C41_default",
    "C41_same_object_each_time",
    "C41_different_objects",
    "C41_registering_succeeds"
   ],
   "note": "over every history of module/implementation/default/lookup calls; also that registering never fails and that different (name, impl) are different objects"
  },
  {
   "property": "C42",
   "status": "proved",
   "theorems": [
    "C42_all_needed_modules",
    "C42_only_needed_modules",
    "C42_each_name_once",
    "C42_library_unchanged"
   ],
   "note": "includes string-valued mdepends (taken character by character) and the creation of __none__ modules on the way"
  },
  {
   "property": "C43",
   "status": "proved",
   "theorems": [
    "C43_no_conflict_in_a_result",
    "C43_failing_ends_the_program"
   ],
   "note": "stated as: a result has no contradiction; every failure of a library with proper mdepends ends the program"
  },
  {
   "property": "C44",
   "status": "partial",
   "theorems": [
    "C44_refuted",
    "C44_terminates_partial",
    "C44_explicit_cycles_never_succeed"
   ],
   "note": "refuted by two modules that request each other's implementation explicitly (RecursionError in CPython); proved: terminates when there is no cycle of explicit requests, and never succeeds when a collected module is on one"
  },
  {
   "property": "C45",
   "status": "proved",
   "theorems": [
    "C45_no_option_appears_or_vanishes",
    "C45_fixed_options",
    "C45_lists_only_grow",
    "C45_libs_and_defines",
    "C45_flags",
    "C45_standards",
    "C45_whole_module"
   ],
   "note": "for every sequence of includes; also for the whole of modmake (includes and collected modules); C45_standards needs that no included value is of a foreign class called str"
  },
  {
   "property": "C46",
   "status": "partial",
   "theorems": [
    "C46_sources",
    "C46_application",
    "C46_exactly_once_refuted"
   ],
   "note": "own sources, then those of included modules, then those of collected modules, each joined to the directory and srcdir of its module; exactly these are compiled and linked; refuted: a collected module that requires the root by name makes the root's sources count twice"
  },
  {
   "property": "C47",
   "status": "partial",
   "theorems": [
    "C47_never_appended",
    "C47_no_target_with_submodules",
    "C47_refuted"
   ],
   "note": "refuted for every module with a non-empty modules option: given by name AttributeError, as objects the result contains a nested list and the options, so linking and filesets raise TypeError"
  },
  {
   "property": "C48",
   "status": "partial",
   "theorems": [
    "C48_relative_inside_partial",
    "C48_absolute_inside_partial",
    "C48_extension_partial",
    "C48_relative_collisions_partial",
    "C48_absolute_collisions_partial",
    "C48_distinct_refuted",
    "C48_inside_refuted"
   ],
   "note": "proved inside the build directory for relative sources, and for absolute ones without '..' and a non-empty builddir; collisions only between sources of the same directory that differ in the extension (sources without '..'); refuted in general by a.c/a.cpp, ../x.c and __/x.c, /a.c and a.c, /../x.c, x..c"
  },
  {
   "property": "C49",
   "status": "partial",
   "theorems": [
    "C49_accepted_partial",
    "C49_refused",
    "C49_merging",
    "C49_merging_succeeds",
    "C49_class_names_refuted",
    "C49_merging_accepted_refuted"
   ],
   "note": "acceptance is exact when no value is of a foreign class with the same name (refuted without); merging well-formed options with plain elements succeeds and is well-formed; refuted: elements of lists are not checked, so accepted options can fail to merge"
  },
  {
   "property": "C50",
   "status": "proved",
   "theorems": [
    "C50_queue_is_fifo"
   ],
   "note": "answers of every call sequence are those of a list-based FIFO; get on empty raises"
  },
  {
   "property": "C51",
   "status": "partial",
   "theorems": [
    "C51_first_value_is_kept",
    "C51_equal_exactly_for_the_same_path",
    "C51_idempotent",
    "C51_spellings_after_chdir_refuted"
   ],
   "note": "holds for every path while the current directory does not change; with os.chdir between queries the memo is stale (REFUTED part)"
  },
  {
   "property": "C52",
   "status": "partial",
   "theorems": [
    "C52_reads_the_names_back_partial",
    "C52_missing_or_empty_file",
    "C52_other_characters_refuted"
   ],
   "note": "exact for names made of [A-Za-z0-9_/.-]; REFUTED for other characters, e.g. '+': c++/v1 is cut into pieces"
  },
  {
   "property": "C53",
   "status": "proved",
   "theorems": [
    "C53_filled_literally",
    "C53_only_well_written_templates",
    "C53_missing_field_raises",
    "C53_missing_attribute_raises",
    "C53_positions_raise"
   ],
   "note": "templates made of literal text, doubled braces and {field}; exactly the templates that format accepts; missing name raises KeyError, missing attribute AttributeError, positions IndexError"
  },
  {
   "property": "C54",
   "status": "partial",
   "theorems": [
    "C54_only_what_is_asked",
    "C54_unambiguous",
    "C54_what_is_asked_runs",
    "C54_anything_else_exits",
    "C54_builtin_actions_callable",
    "C54_routine_action_refuted"
   ],
   "note": "exactly which command lines run something, and what; every other one exits with an error. REFUTED corner: a word after a routine's name is always an argument, even if it names a declared action"
  },
  {
   "property": "C55",
   "status": "partial",
   "theorems": [
    "C55_refuted",
    "C55_one_word_becomes_characters",
    "C55_one_character_arrives",
    "C55_more_words_raise",
    "C55_routines_partial"
   ],
   "note": "REFUTED: one extra word is spread into its characters, two or more raise TypeError; routines receive the words, a one-character word arrives"
  },
  {
   "property": "C56",
   "status": "partial",
   "theorems": [
    "C56_refuted",
    "C56_status_zero_partial",
    "C56_other_statuses"
   ],
   "note": "REFUTED: the result of the command is dropped, so a failed build exits with status 0; proved: exit status of every other case, including 255 for errors of licant and 1 for Ctrl-C"
  },
  {
   "property": "C57",
   "status": "proved",
   "theorems": [
    "C57_each_library_once",
    "C57_first_path_wins",
    "C57_one_script_each",
    "C57_recursive_includes_end"
   ],
   "note": "every program of scripts (interaction trees over any script globals), every include graph; termination for scripts that only include a finite set of libraries"
  },
  {
   "property": "C58",
   "status": "partial",
   "theorems": [
    "C58_exceptions_of_scripts",
    "C58_lexical_directories_partial",
    "C58_refuted"
   ],
   "note": "REFUTED: when a script catches the exit of a script it included, the stack of scripts keeps an entry and directory() is wrong from then on; proved for scripts that let such exceptions pass"
  },
  {
   "property": "C59",
   "status": "partial",
   "theorems": [
    "C59_add",
    "C59_add_directory",
    "C59_missing_path",
    "C59_remove_never_removes",
    "C59_remove_refuted",
    "C59_user_entries_win",
    "C59_files",
    "C59_added_library_is_included"
   ],
   "note": "add, add-directory and precedence proved on the JSON text itself (ASCII registries); REFUTED for -r, which never removes anything (proved for every registry)"
  },
  {
   "property": "C60",
   "status": "partial",
   "theorems": [
    "C60_interrupted_registry_is_lost",
    "C60_refuted",
    "C60_old_or_new_or_unreadable_partial"
   ],
   "note": "REFUTED: the file is truncated and rewritten in place; proved: every interrupted write leaves an unreadable file, after which licant-libs and all includes fail"
  },
  {
   "property": "C61",
   "status": "partial",
   "theorems": [
    "C61_prefix",
    "C61_prefix_places",
    "C61_no_path",
    "C61_usr_local_bin",
    "C61_otherwise_disabled_partial",
    "C61_backslashes",
    "C61_disabled_calls_do_nothing",
    "C61_refuted"
   ],
   "note": "REFUTED: with PATH=/usr/bin:/bin the directory is found but installing is disabled; proved when PREFIX is set or an entry is exactly /usr/local/bin, and exactly what happens otherwise (disabled, or UnboundLocalError on import)"
  },
  {
   "property": "C62",
   "status": "partial",
   "theorems": [
    "C62_uninstall_removes_nothing",
    "C62_refuted"
   ],
   "note": "REFUTED: the uninstall target never removes anything (proved for every library, registry and disk)"
  },
  {
   "property": "C63",
   "status": "partial",
   "theorems": [
    "C63_refuted",
    "C63_others_right_partial"
   ],
   "note": "REFUTED: missing comma in Routine.__actions__; the other declared actions exist"
  },
  {
   "property": "C64",
   "status": "proved",
   "theorems": [
    "C64_normpath_is_normal",
    "C64_normal_paths_are_kept",
    "C64_normpath_idempotent",
    "C64_normpath_means_the_same",
    "C64_split",
    "C64_split_then_join",
    "C64_dirname_is_the_parent",
    "C64_join_associative",
    "C64_root_and_extension",
    "C64_changeext",
    "C64_flag_prefix"
   ],
   "note": "normpath, realpath, dirname, basename, join, splitext, changeext over all strings"
  },
  {
   "property": "C65",
   "status": "partial",
   "theorems": [
    "C65_refuted",
    "C65_rule_declared_first_partial"
   ],
   "note": "REFUTED: a leftover output on the disk turns a dependency into a plain source and its rule is no longer used; holds when the target is registered before anything mentions the file"
  },
  {
   "property": "C66",
   "status": "partial",
   "theorems": [
    "C66_refuted",
    "C66_included_from_partial"
   ],
   "note": "refuted: the root is named for every module found by name, and a request by name for a module already collected is not recorded; proved: everything named except the root asks for it, and every explicit request is recorded"
  },
  {
   "property": "C67",
   "status": "partial",
   "theorems": [
    "C67_declared_module_is_built_partial",
    "C67_refuted"
   ],
   "note": "proved for calls without impl or with default=True; refuted otherwise: the default implementation is built, or the program ends if there is none"
  },
  {
   "property": "C68",
   "status": "partial",
   "theorems": [
    "C68_nested_includes_are_objects",
    "C68_refuted"
   ],
   "note": "refuted: names in include_modules of an included module raise AttributeError, and a module that includes itself is included for ever; proved: whenever a module is made, all nested includes are submodule objects and are walked in order"
  },
  {
   "property": "C69",
   "status": "proved",
   "theorems": [
    "C69_commands"
   ],
   "note": "for modules without submodules (C47); asm sources are compiled with the C compiler and cc_flags"
  },
  {
   "property": "C70",
   "status": "proved",
   "theorems": [
    "C70_objects_depend_on_their_headers",
    "C70_listed_headers"
   ],
   "note": "for modules without submodules; which names are read from a dependency file is C52"
  },
  {
   "property": "C71",
   "status": "partial",
   "theorems": [
    "C71_refuted",
    "C71_first_argv_rules_partial"
   ],
   "note": "REFUTED: the options parsed first are kept for the whole process; proved: the first argv rules all later calls"
  },
  {
   "property": "C72",
   "status": "proved",
   "theorems": [
    "C72_threads",
    "C72_option"
   ],
   "note": "every command, every registry; 0 and negative numbers included"
  },
  {
   "property": "C73",
   "status": "proved",
   "theorems": [
    "C73_command_builds"
   ],
   "note": "composition of the command line, invoke and recurse_update with the theorems on builds"
  },
  {
   "property": "C74",
   "status": "partial",
   "theorems": [
    "C74_routine_arguments_partial",
    "C74_refuted"
   ],
   "note": "REFUTED: arguments stored by an invocation are reused when the routine later runs as a dependency; proved for routines never invoked with arguments before"
  },
  {
   "property": "C75",
   "status": "partial",
   "theorems": [
    "C75_unnamed_application_breaks_everything",
    "C75_refuted"
   ],
   "note": "REFUTED: without tgt the file set depends on itself and no action of any target works any more (proved for every registry)"
  },
  {
   "property": "C76",
   "status": "partial",
   "theorems": [
    "C76_headers_keep_their_relative_path",
    "C76_relative_paths_lead_back",
    "C76_library_keeps_its_file_name",
    "C76_shared_library",
    "C76_refuted"
   ],
   "note": "relative header paths proved; REFUTED for two libraries with one header directory, where the first installs the headers of the second"
  },
  {
   "property": "C77",
   "status": "proved",
   "theorems": [
    "C77_registry_is_the_project",
    "C77_declared_names_are_found",
    "C77_mentioned_names_are_found"
   ],
   "note": "For scripts made of source, makefile, copy and fileset calls and of other targets (core.target, core.updtarget, routines) on the default core, including what import licant registers; in_order is the explicit condition. Scripts that break it: C33, C39, C40, C81 refutations."
  },
  {
   "property": "C78",
   "status": "proved",
   "theorems": [
    "C78_building_starts",
    "C78_reading_ends"
   ],
   "note": "The hypotheses are those of C77; reading ends for any script of these statements."
  },
  {
   "property": "C79",
   "status": "proved",
   "theorems": [
    "C79_files_are_right"
   ],
   "note": "Rules are functions of the contents of their declared inputs (reads_only); failing rules leave no torn output (partial = false), see C30 and C32 for what happens otherwise; times: a build writes with dates later than the time it started, see DESIGN.md."
  },
  {
   "property": "C80",
   "status": "proved",
   "theorems": [
    "C80_goes_on_until_success",
    "C80_bounded",
    "C80_only_rules_fail"
   ],
   "note": "Rules end (a rule that never returns is not modelled). dirs_free: no regular file where a directory has to be."
  },
  {
   "property": "C81",
   "status": "partial",
   "theorems": [
    "C81_refuted",
    "C81_import_keeps_the_project_partial",
    "C81_plain_target_excludes_success"
   ],
   "note": "The full claim is refuted: a file called binutils, m, cxxm or l that a rule depends on is taken for the built-in target of that name; the first build hangs, later evaluations raise AttributeError. The positive theorem holds for scripts clear of the four names."
  },
  {
   "property": "C82",
   "status": "partial",
   "theorems": [
    "C82_objects_follow_their_headers",
    "C82_files_are_right",
    "C82_cut_lists_refuted"
   ],
   "note": "Assumptions in the record honest: the list command looks at the source and at the headers it lists and lists at least something, the compiler looks at nothing else; generated headers are declared dependencies (local_headers, depends). Headers that are not listed (system headers, which -MM omits; a new file earlier in the include path) are outside. An interrupted list command may leave an empty list; if it may leave the beginning of a list, the claim is false (C82_cut_lists_refuted). The script is in order for each process."
  },
  {
   "property": "C83",
   "status": "proved",
   "theorems": [
    "C83_calls_of_modules_are_items"
   ],
   "note": "Proved for task, which the four functions call. The meaning of shell commands is a parameter."
  },
  {
   "property": "C84",
   "status": "proved",
   "theorems": [
    "C84_only_what_needs_it",
    "C84_exactly_what_needs_it",
    "C84_nothing_to_do",
    "C84_after_changes",
    "C84_second_process_is_idle",
    "C84_exceptions",
    "C84_second_process_with_headers_is_idle",
    "C84_after_changes_with_headers"
   ],
   "note": "C84_exceptions: forced rules and registered sources that do not exist. With headers the assumptions are those of C82, and changes in between must leave the lists alone."
  },
  {
   "property": "C85",
   "status": "partial",
   "theorems": [
    "C85_edited_script",
    "C85_cleaned",
    "C85_script_named",
    "C85_object_left_out_refuted",
    "C85_changed_command_refuted"
   ],
   "note": "The property as wished, for all edits, is false: C85_object_left_out_refuted, C85_changed_command_refuted. C85_edited_script holds under the stated condition on each file."
  },
  {
   "property": "C86",
   "status": "partial",
   "theorems": [
    "C86_options_obey",
    "C86_given_toolchain",
    "C86_modules_keep_the_default",
    "C86_functions_keep_the_default",
    "C86_given_options",
    "C86_executable_command",
    "C86_option_ignored_refuted"
   ],
   "note": "The property as wished, that the options choose the compilers of modules, is false: C86_option_ignored_refuted."
  },
  {
   "property": "C87",
   "status": "partial",
   "theorems": [
    "C87_list_all",
    "C87_list_first_character",
    "C87_list_special",
    "C87_print_and_collect_fail",
    "C87_collect_one_character_partial",
    "C87_included_from_and_finalopts_fail",
    "C87_included_from_one_character_partial",
    "C87_finalopts_of_a_target",
    "C87_disasm_raises",
    "C87_list_refuted",
    "C87_print_refuted"
   ],
   "note": "The property as wished, that words are passed on whole, is false: C87_list_refuted, C87_print_refuted. C87_collect_one_character_partial is about names of one character only, the others fail by C87_print_and_collect_fail; C87_included_from_one_character_partial and C87_included_from_and_finalopts_fail say the same for included_from and finalopts."
  },
  {
   "property": "C88",
   "status": "partial",
   "theorems": [
    "C88_commands",
    "C88_javac_ignores_target",
    "C88_default_options",
    "C88_javac_sources_may_be_missing",
    "C88_files_are_right",
    "C88_dex_runs_once",
    "C88_dex_stale_refuted"
   ],
   "note": "The property as wished, that files are right with the default dependencies of dex, is false: C88_dex_stale_refuted. C88_files_are_right assumes that commands read only the files they name as input, and do write their target."
  },
  {
   "property": "C89",
   "status": "partial",
   "theorems": [
    "C89_calls_are_items",
    "C89_calls_in_sequence",
    "C89_static_and_shared",
    "C89_same_object",
    "C89_shared_source_not_in_order",
    "C89_last_rule_counts",
    "C89_first_rule_if_existing",
    "C89_shared_source_refuted"
   ],
   "note": "The property as wished, that every program is made with its own options, is false when two programs compile a common source in one build directory: C89_shared_source_refuted. C89_same_object is about calls without submodules and qt_moc. static_and_shared always declares the objects twice, so it is never in order, and C82 to C84 do not cover it; C89_last_rule_counts and C89_first_rule_if_existing say what its registry holds."
  },
  {
   "property": "C90",
   "status": "partial",
   "theorems": [
    "C90_only_what_is_asked",
    "C90_command_starts",
    "C90_command_is_a_build",
    "C90_build_is_a_command",
    "C90_files_are_right",
    "C90_goes_on",
    "C90_no_threads_hangs",
    "C90_clean",
    "C90_clean_runs",
    "C90_word_depends_on_disk_refuted",
    "C90_clr_spares_sources",
    "C90_clr_of_a_file"
   ],
   "note": "The property as wished, that the meaning of a word depends on the script only, is false: C90_word_depends_on_disk_refuted. The other theorems are about commands that make or clean a declared file or file set; clr is in C90_clr_of_a_file and C90_clr_spares_sources; the words recurse_update, update, build and the like are covered by C90_only_what_is_asked only. cf_default_action asks that the action is not the name of a file or directory of the script."
  },
  {
   "property": "C91",
   "status": "partial",
   "theorems": [
    "C91_as_if_killed_later",
    "C91_caught_by_a_worker_hangs",
    "C91_only_running_rules",
    "C91_interrupted_build_is_history",
    "C91_interrupted_command_is_history",
    "C91_next_command_is_right",
    "C91_half_written_output_refuted"
   ],
   "note": "The property as wished, that the next build is right whatever killed commands leave behind, is false: C91_half_written_output_refuted. The signal strikes while the event loop waits (interrupted), or in a worker coroutine between two statements before task_done (caught); inside a statement, or while the script is read, is not modelled. A call still running either comes to its end, never begins, or its commands are killed, in one go each."
  },
  {
   "property": "C92",
   "status": "proved",
   "theorems": [
    "C92_no_words_is_default",
    "C92_only_what_needs_it",
    "C92_exactly_what_needs_it",
    "C92_nothing_to_do",
    "C92_files_are_right",
    "C92_objects_follow_their_headers",
    "C92_after_changes",
    "C92_second_command_is_idle"
   ],
   "note": "The histories and hypotheses are those of C82 and C84, with commands instead of builds and with cleaning commands. A list command that is killed leaves an empty list or nothing (cut lists: C82_cut_lists_refuted). Idleness asks that no forced rule and no missing source is needed, as in C84."
  },
  {
   "property": "C93",
   "status": "partial",
   "theorems": [
    "C93_finds_exactly",
    "C93_hide_by_component",
    "C93_hidden_below",
    "C93_each_once",
    "C93_top_down",
    "C93_no_such_root",
    "C93_scripts_started",
    "C93_headers_exactly",
    "C93_headers_once",
    "C93_patterns",
    "C93_extensions",
    "C93_anywhere_refuted",
    "C93_extension_refuted"
   ],
   "note": "Exact contents, no duplicates and order of the files found, for all trees (os.walk is modelled; links to directories are not entered). hide is compared with the whole path, so C93_anywhere_refuted: a project below a directory whose name contains hide loses all its scripts; C93_extension_refuted: backups such as x.g.py~ are executed too. The scripts that are started must not start others (C93_scripts_started); fnmatch is modelled without brackets (C93_patterns), and a parameter of the theorems about headers."
  },
  {
   "property": "C94",
   "status": "partial",
   "theorems": [
    "C94_library_is_installed",
    "C94_application_is_installed",
    "C94_changed_headers_are_installed",
    "C94_removed_header_stays_refuted"
   ],
   "note": "Composition of C93 (which files), C47/C75 (what is declared) and C86/C85 (what commands leave). The places are absolute, the script is in order (C77) and its functions read only their inputs. C94_removed_header_stays_refuted: a successful install after the deletion of a header leaves its old copy below the include directory."
  },
  {
   "property": "C95",
   "status": "partial",
   "theorems": [
    "C95_registry_is_the_project",
    "C95_declared_names_are_found",
    "C95_mentioned_names_are_found",
    "C95_building_starts",
    "C95_files_are_right",
    "C95_goes_on_until_success",
    "C95_bounded",
    "C95_only_rules_fail",
    "C95_existing_dependency_refuted",
    "C95_directory_name_refuted"
   ],
   "note": "C77-C80 for cores other than the default core, where directories are registered by dirkeep under relative names and has() adds names. C95_existing_dependency_refuted: expand_globs indexes existing dependencies in the default core only, so recurse_update raises for a target of a MakeCore that depends on an undeclared existing file. C95_directory_name_refuted: dirkeep takes a file set called like the missing directory for the directory."
  },
  {
   "property": "C96",
   "status": "partial",
   "theorems": [
    "C96_routines_find_right_files",
    "C96_files_are_right",
    "C96_files_run_no_routine",
    "C96_starts",
    "C96_goes_on",
    "C96_bounded",
    "C96_only_rules_fail",
    "C96_after_another_routine_refuted"
   ],
   "note": "C79 and C80 for processes that run routines. Proved by taking routines for file sets: up to the end of the first routine, such a process is a build of that other script. C96_after_another_routine_refuted: what is out of date is decided before anything runs, so a routine that writes a source makes a file stale which a second routine, depending on both, then finds out of date although nothing failed."
  },
  {
   "property": "C97",
   "status": "proved",
   "theorems": [
    "C97_made_targets_are_right",
    "C97_right_during_the_next",
    "C97_starts",
    "C97_goes_on",
    "C97_only_rules_fail",
    "C97_bounded",
    "C97_nothing_is_made_twice",
    "C97_clean_removes_what_was_made",
    "C97_clean_starts",
    "C97_later_processes_are_right"
   ],
   "note": "C79 and C80 for processes that call core.do more than once. Cleanings (core.do(x, 'clean')) may come in between. The main invariant is that what the file cache says about every registered target is true between builds, also after cleanings and after builds that returned False (a build in which an update method raised does not return, C11). Assumed: runtime['threads'] is set and files are not edited between the builds of one process (C37_second_build_refuted shows that such edits are missed)."
  },
  {
   "property": "C98",
   "status": "partial",
   "theorems": [
    "C98_default_core",
    "C98_programs_go_elsewhere",
    "C98_objects_go_elsewhere",
    "C98_objects_cannot_be_made",
    "C98_refuted"
   ],
   "note": "False for every core but the default one, whatever the call: prepare_targets ignores its argument core, so programs and libraries are registered in the default core only, and of objects the given core gets a file set whose objects it does not know, so that no build of it can start. With the default core the call is the one that C77 to C92 are about."
  },
  {
   "property": "C99",
   "status": "proved",
   "theorems": [
    "C99_as_if_at_one_moment",
    "C99_inputs_are_settled",
    "C99_scripts_as_if_at_one_moment",
    "C99_nothing_half_made_at_the_end",
    "C99_at_one_moment_is_possible",
    "C99_files_are_right",
    "C99_goes_on",
    "C99_bounded",
    "C99_declarations_matter",
    "C99_cxx_as_if_at_one_moment",
    "C99_cxx_histories",
    "C99_cxx_files_are_right",
    "C99_objects_follow_their_headers"
   ],
   "note": "Proved by simulation in both directions: all other theorems about builds, whose calls act at one moment, therefore also hold for calls that take time. Directories, sources and file sets are handled at one moment. Processes of fine_history end or are killed while no rule is running; those of fine_cxx_history are killed at any moment and leave old contents, nothing or junk (empty lists). C99_declarations_matter: without the assumption on reads the simulation fails."
  },
  {
   "property": "C100",
   "status": "partial",
   "theorems": [
    "C100_next_build_is_right",
    "C100_scripts_next_build_is_right",
    "C100_what_is_not_older_is_right",
    "C100_order_as_if_alone",
    "C100_goes_on",
    "C100_two_at_once_refuted",
    "C100_edit_during_a_call_refuted"
   ],
   "note": "The part about hanging is false: two processes that begin at once both find a directory missing, os.makedirs raises in the second one and it waits for ever (C100_two_at_once_refuted); proved is that a process goes on unless something was raised in it. Calls read and write at one moment here; if they take time, an edit between a rule's reading and its end is never noticed again (C100_edit_during_a_call_refuted). Dates of changed files are assumed to be later than all earlier ones."
  },
  {
   "property": "C101",
   "status": "partial",
   "theorems": [
    "C101_as_if_alone",
    "C101_files_are_right",
    "C101_goes_on",
    "C101_two_processes",
    "C101_different_files_refuted"
   ],
   "note": "Belonging to a target includes the directories it needs: two processes whose files are all different but need a common missing directory do disturb each other, the second one waits for ever (C101_different_files_refuted). Calls happen at one moment each."
  },
  {
   "property": "C102",
   "status": "partial",
   "theorems": [
    "C102_same_as_updtarget",
    "C102_last_one_is_found",
    "C102_names_keep_functions",
    "C102_scripts_run",
    "C102_other_objects_are_dropped",
    "C102_callables_refuted",
    "C102_documented_refuted"
   ],
   "note": "Only for functions made by def or lambda: other objects given to routine(...) are dropped silently (C102_callables_refuted, C102_other_objects_are_dropped), and the keywords core and dependable, which the comment of routine names, raise TypeError (C102_documented_refuted). The names of the routines are relative (a routine named like an absolute path may be replaced by a source)."
  },
  {
   "property": "C103",
   "status": "partial",
   "theorems": [
    "C103_import_star",
    "C103_licant_star_refuted",
    "C103_missing_names",
    "C103_attributes",
    "C103_system"
   ],
   "note": "Of licant itself the property is false: four names of __all__ do not exist, so from licant import * raises AttributeError (C103_licant_star_refuted, C103_missing_names). The lists of names are transcribed from __init__.py."
  },
  {
   "property": "C104",
   "status": "partial",
   "theorems": [
    "C104_as_if_alone",
    "C104_cxx_as_if_alone",
    "C104_cxx_files_are_right",
    "C104_objects_fit_their_lists",
    "C104_headers_refuted",
    "C104_two_processes"
   ],
   "note": "Generalises C101 from declared inputs to a set of files that contains all that the commands look at. For C++ scripts the set is that of the headers listed in states of the undisturbed build, whose commands are assumed not to fail. Keeping off the files of the targets alone is not enough, since headers belong to no target before the first list is read (C104_headers_refuted). Calls happen at one moment each."
  },
  {
   "property": "C105",
   "status": "partial",
   "theorems": [
    "C105_explicit_requests_partial",
    "C105_requests_by_name",
    "C105_by_name_refuted"
   ],
   "note": "The order of the list is that of the sort keys, which a module gets anew each time it is asked for explicitly. The first part holds for requests that name an implementation (C105_explicit_requests_partial); for requests by name it is false (C105_by_name_refuted), and the weaker order of C105_requests_by_name holds."
  },
  {
   "property": "C106",
   "status": "proved",
   "theorems": [
    "C106_options_of_a_module",
    "C106_starts_with",
    "C106_prepared"
   ],
   "note": "C46 is about sources, objects and the files of Qt; this claim is about all other options, the final include_paths included. For the standards no value may be an object of a class that is itself called str."
  },
  {
   "property": "C107",
   "status": "partial",
   "theorems": [
    "C107_output_only",
    "C107_what_is_gone_through",
    "C107_by_name_partial",
    "C107_each_once_refuted"
   ],
   "note": "Holds where all requests are by name, except that the root is gone through again when something asks for it (C107_by_name_partial). With requests for implementations a module is gone through once for each path to it: 2(n+1) modules give 2^(n+1)-1 passes (C107_each_once_refuted). C107_what_is_gone_through says exactly what is gone through in general; the passes are those printed under the runtime option trace."
  },
  {
   "property": "C108",
   "status": "partial",
   "theorems": [
    "C108_tools",
    "C108_prefix",
    "C108_binutils_refuted"
   ],
   "note": "C108_tools holds for every rule; the prefix is in C108_prefix for compilers, linkers and archivers. For the other tools it is false (C108_binutils_refuted): make_gcc_binutils leaves moc and uic out, so that None is called, and objcopy is the one of the host."
  },
  {
   "property": "C109",
   "status": "partial",
   "theorems": [
    "C109_one_link",
    "C109_objects",
    "C109_library",
    "C109_two_files_refuted"
   ],
   "note": "Programs in C109_one_link, sets of objects in C109_objects, library in C109_library. The sentence about static_and_shared is false when a target is given (C109_two_files_refuted): both libraries are then one file."
  },
  {
   "property": "C110",
   "status": "partial",
   "theorems": [
    "C110_program",
    "C110_modules_refuted"
   ],
   "note": "C110_program holds for the depends of the program itself. The last sentence is false for required modules (C110_modules_refuted): their depends are dropped, and not even the objects of their own sources wait for the files."
  }
 ]
}