{
 "claims": [
  {
   "property": "C01",
   "status": "proved",
   "theorems": [
    "c01_combine_is_pointwise_join",
    "c01_pair_form_is_pointwise_join",
    "c01_join_is_unique",
    "c01_only_pairs_are_accepted"
   ],
   "note": ""
  },
  {
   "property": "C02",
   "status": "proved",
   "theorems": [
    "c02_clash_exactly_when_rejected",
    "c02_pair_form_clash",
    "c02_pair_form_total",
    "c02_clash_symmetric"
   ],
   "note": ""
  },
  {
   "property": "C03",
   "status": "proved",
   "theorems": [
    "c03_combining_is_least_upper_bound",
    "c03_least_upper_bound_unique",
    "c03_order_and_duplicates_irrelevant",
    "c03_grouping_irrelevant",
    "c03_success_is_least_upper_bound"
   ],
   "note": ""
  },
  {
   "property": "C04",
   "status": "partial",
   "theorems": [
    "c04_float_versions_refuted",
    "c04_float_versions_partial"
   ],
   "note": "False of the code (3.3 becomes 3.2): see the refutation; the partial theorem says exactly for which Python 2/3 versions it holds. vermin itself never passes floats."
  },
  {
   "property": "C05",
   "status": "proved",
   "theorems": [
    "c05_version_strings_format",
    "c05_version_strings_injective",
    "c05_any_list"
   ],
   "note": ""
  },
  {
   "property": "C06",
   "status": "proved",
   "theorems": [
    "c06_accepts_exactly_the_targets",
    "c06_roundtrip"
   ],
   "note": ""
  },
  {
   "property": "C07",
   "status": "proved",
   "theorems": [
    "c07_any_targets",
    "c07_counted",
    "c07_compare_requirements_iff",
    "c07_two_targets_of_one_major_refuted"
   ],
   "note": "Proved as stated (one entry per major). The extra refutation shows the condition matters: with two targets of the same major, which add_target allows, all but the last are ignored."
  },
  {
   "property": "C08",
   "status": "proved",
   "theorems": [
    "c08_dotted_name_joins_names",
    "c08_nesting_irrelevant",
    "c08_none_skipped",
    "c08_string_untouched"
   ],
   "note": ""
  },
  {
   "property": "C09",
   "status": "partial",
   "theorems": [
    "c09_rounding",
    "c09_position_binary64_partial",
    "c09_parsable_binary64_partial",
    "c09_far_lines_refuted",
    "c09_sort_by_position_refuted",
    "c09_sort_by_position_partial",
    "c09_sort_by_position_parsable_partial"
   ],
   "note": "False of the code for columns >= 1000; proved for all lines and all columns below 1000 with exact keys, and for the keys in binary64, as Python computes them, up to four million lines; refuted for lines beyond 2^53."
  },
  {
   "property": "C10",
   "status": "partial",
   "theorems": [
    "c10_keys_binary64",
    "c10_parsable_keys_binary64",
    "c10_distinct_keys_refuted",
    "c10_distinct_keys_partial"
   ],
   "note": "False of the code (anagrams collide); the partial theorem characterises exactly when two texts collide, and rounding to binary64 adds no collision."
  },
  {
   "property": "C11",
   "status": "proved",
   "theorems": [
    "c11_removes_exactly_whitespace",
    "c11_idempotent"
   ],
   "note": ""
  },
  {
   "property": "C12",
   "status": "proved",
   "theorems": [
    "c12_listings_align"
   ],
   "note": ""
  },
  {
   "property": "C13",
   "status": "proved",
   "theorems": [
    "c13_module_rules_wf",
    "c13_member_rules_wf",
    "c13_kwarg_rules_wf",
    "c13_other_rules_wf",
    "c13_module_keys_unique",
    "c13_member_keys_unique",
    "c13_kwarg_keys_unique",
    "c13_other_keys_unique",
    "c13_rules_name_known_backports"
   ],
   "note": ""
  },
  {
   "property": "C14",
   "status": "proved",
   "theorems": [
    "c14_newest_enabled_variant",
    "c14_other_backports_irrelevant",
    "c14_version_suffix",
    "c14_rules_read"
   ],
   "note": ""
  },
  {
   "property": "C15",
   "status": "partial",
   "theorems": [
    "c15_backport_never_raises_refuted",
    "c15_module_rules_partial",
    "c15_member_rules",
    "c15_kwarg_rules"
   ],
   "note": "False of the code for the module typing_extensions (enabling its backport adds the requirement !2, 3.7 or later where there was none); proved for every other module rule and for all member and keyword rules."
  },
  {
   "property": "C16",
   "status": "proved",
   "theorems": [
    "c16_at_most_two_sorted",
    "c16_targets_given",
    "c16_add_target_answer"
   ],
   "note": ""
  },
  {
   "property": "C17",
   "status": "proved",
   "theorems": [
    "c17_excluded_since_clear",
    "c17_spelled_forms",
    "c17_listed_sorted_once"
   ],
   "note": ""
  },
  {
   "property": "C18",
   "status": "proved",
   "theorems": [
    "c18_only_known",
    "c18_processes_positive",
    "c18_backports_since_clear",
    "c18_features_since_clear",
    "c18_unknown_backport_refused",
    "c18_unknown_feature_refused"
   ],
   "note": ""
  },
  {
   "property": "C19",
   "status": "partial",
   "theorems": [
    "c19_parsable_settings_refuted",
    "c19_format_argument",
    "c19_config_file_partial",
    "c19_format_sets_settings",
    "c19_settings_kept_partial"
   ],
   "note": "False of the code: with the format set in a config file, -v, --no-ignore or --show-tips on the command line undo its settings. Proved whenever the command line names the format, and for config files when no option lowers a setting."
  },
  {
   "property": "C20",
   "status": "partial",
   "theorems": [
    "c20_override_equal_refuted",
    "c20_override_equal_partial",
    "c20_objects_refine_values",
    "c20_independent_refuted",
    "c20_independent_partial",
    "c20_separate_objects_independent"
   ],
   "note": "Both halves are false of the code. Equality fails when the other configuration lowered the parsable format's settings afterwards; proved otherwise. Independence fails because backports, features, targets and the format object are shared; proved for all other calls and for objects not joined by override_from, over an object (heap) model that refines the value model."
  },
  {
   "property": "C21",
   "status": "proved",
   "theorems": [
    "c21_config_is_what_file_says",
    "c21_fails_only_when_nothing_said",
    "c21_every_option_has_a_default",
    "c21_empty_section_is_default"
   ],
   "note": ""
  },
  {
   "property": "C22",
   "status": "proved",
   "theorems": [
    "c22_nearest_config_file",
    "c22_never_above_boundary"
   ],
   "note": ""
  },
  {
   "property": "C23",
   "status": "partial",
   "theorems": [
    "c23_options_then_paths_partial",
    "c23_invalid_option_refused",
    "c23_operand_reread_refuted",
    "c23_no_config_file_is_a_path_refuted"
   ],
   "note": "Proved for operands that do not start with a dash. False otherwise: operands are read again as options; and --no-config-file itself stays among the paths."
  },
  {
   "property": "C24",
   "status": "partial",
   "theorems": [
    "c24_every_path_refuted",
    "c24_paths_exactly_partial"
   ],
   "note": "False of the code: a path before an option is dropped. The partial theorem gives exactly the arguments that become paths for options and paths in any order."
  },
  {
   "property": "C25",
   "status": "proved",
   "theorems": [
    "c25_checks_hold",
    "c25_refused_iff"
   ],
   "note": ""
  },
  {
   "property": "C26",
   "status": "proved",
   "theorems": [
    "c26_options_override_file",
    "c26_named_file_wins",
    "c26_conflict_refused",
    "c26_broken_file_stops"
   ],
   "note": ""
  },
  {
   "property": "C27",
   "status": "partial",
   "theorems": [
    "c27_protected_refuted",
    "c27_help_refuted",
    "c27_no_config_file_partial",
    "c27_help_partial"
   ],
   "note": "False of the code: detection runs before the arguments are read and can raise DuplicateOptionError, DuplicateSectionError or UnicodeDecodeError. Proved for every run in which detection does not raise."
  },
  {
   "property": "C28",
   "status": "proved",
   "theorems": [
    "c28_sound_complete",
    "c28_fails_iff",
    "c28_terminates"
   ],
   "note": ""
  },
  {
   "property": "C29",
   "status": "proved",
   "theorems": [
    "c29_sorted",
    "c29_order_independent",
    "c29_processes",
    "c29_schedules_agree",
    "c29_imap_in_order"
   ],
   "note": ""
  },
  {
   "property": "C30",
   "status": "partial",
   "theorems": [
    "c30_hidden_given_refuted",
    "c30_dot_refuted",
    "c30_given_file_partial",
    "c30_given_folder_partial"
   ],
   "note": "False of the code without absolute paths: a hidden file given directly is dropped and '.' yields nothing, since its entries begin with './'. Proved for absolute paths, the default."
  },
  {
   "property": "C31",
   "status": "proved",
   "theorems": [
    "c31_definite",
    "c31_refused",
    "c31_magic_line",
    "c31_ds_store_refuted"
   ],
   "note": "Proved; the refuted theorem only records that the table entry DS_Store can never match, since extensions are lower-cased."
  },
  {
   "property": "C32",
   "status": "proved",
   "theorems": [
    "c32_excluded_lines",
    "c32_switched_off",
    "c32_prefixed_string_refuted",
    "c32_first_line_refuted"
   ],
   "note": "The exact set of excluded lines is proved for all token streams. The refuted theorems record two limits of the code: prefixed triple-quoted strings and an indented comment on the first line."
  },
  {
   "property": "C33",
   "status": "proved",
   "theorems": [
    "c33_verdict",
    "c33_only_the_verdict",
    "c33_message"
   ],
   "note": ""
  },
  {
   "property": "C34",
   "status": "partial",
   "theorems": [
    "c34_file",
    "c34_run_partial",
    "c34_detect_partial",
    "c34_refuted"
   ],
   "note": "Proved for every syntax tree (any settings of verbosity, format, targets, violations, dump). False for a source that does not parse and whose error text spans a line break: the parsable format escapes the text before it is matched against a type alias (c34_refuted); runs and the API are proved if the format is the same or the error text has no line break."
  },
  {
   "property": "C35",
   "status": "proved",
   "theorems": [
    "c35_join",
    "c35_per_major",
    "c35_total",
    "c35_raises_iff",
    "c35_ignored",
    "c35_verdict_ok"
   ],
   "note": ""
  },
  {
   "property": "C36",
   "status": "proved",
   "theorems": [
    "c36_documented",
    "c36_table",
    "c36_alone",
    "c36_nothing"
   ],
   "note": ""
  },
  {
   "property": "C37",
   "status": "proved",
   "theorems": [
    "c37_present",
    "c37_absent"
   ],
   "note": ""
  },
  {
   "property": "C38",
   "status": "partial",
   "theorems": [
    "c38_seen_partial",
    "c38_await_element_refuted",
    "c38_keyword_refuted",
    "c38_annotated_refuted",
    "c38_names",
    "c38_dict_comprehension_refuted",
    "c38_dotted_call_refuted",
    "c38_walrus_refuted"
   ],
   "note": "Proved for every construct at any depth that the analysis comes to (reached) and that nothing else in the source can disguise (shown), for all 53 features a tree can show, including those that depend on the statements around (async generators, await in comprehensions, continue in finally, parenthesised with, module __dir__/__getattr__); c61_verdict gives the effect on the minimum. False of the code for the values of keyword arguments for functions of the source's own, without --eval-annotations the values of annotated variables, and awaits in the element of a comprehension (refuted). c38_names adds the constructs that depend on what names stand for: unions and merges of dicts, unions of types and builtin generics by variables, imported, renamed and dotted names. Refuted for unions of dict comprehensions, of calls by dotted names and of variables from named expressions."
  },
  {
   "property": "C39",
   "status": "proved",
   "theorems": [
    "c39_excluded"
   ],
   "note": ""
  },
  {
   "property": "C40",
   "status": "partial",
   "theorems": [
    "c40_defined_partial",
    "c40_loop_refuted"
   ],
   "note": "Proved for functions, classes, renamed imports and assignments of every form that do not stand in a statement with a scope of its own, whatever the order of definition and use. False of the code for definitions in the bodies of for, with and except at module level (refuted)."
  },
  {
   "property": "C41",
   "status": "partial",
   "theorems": [
    "c41_statement",
    "c41_erased_partial",
    "c41_refuted"
   ],
   "note": "An excluded node is skipped as a whole (c41_statement), and dropping excluded statements leaves the verdict as it is (c41_erased_partial) except directly in class bodies, where the code visits the contents of the statements a second time without the test (c41_refuted)."
  },
  {
   "property": "C42",
   "status": "partial",
   "theorems": [
    "c42_balanced",
    "c42_scopes",
    "c42_functions",
    "c42_kept",
    "c42_calls_partial",
    "c42_calls_shrink",
    "c42_class_refuted",
    "c42_calls_refuted"
   ],
   "note": "The loop, depth and try bookkeeping is proved balanced over every tree, and no scope leaks names, for functions, lambdas, comprehensions, for, with and except. Refuted for class bodies (arguments of methods leak) and for the stack of called functions when a call is neither by name nor by attribute."
  },
  {
   "property": "C43",
   "status": "partial",
   "theorems": [
    "c43_renamed_refuted",
    "c43_sound",
    "c43_own_refuted",
    "c43_lost_refuted"
   ],
   "note": "Proved: a keyword is only looked up for functions whose call it stands in. Refuted: it is also looked up for the enclosing calls, not at all after a nested call of a call, and not at all if the function is called by a new name from its import. c61_keywords has when it is found."
  },
  {
   "property": "C44",
   "status": "partial",
   "theorems": [
    "c44_tour",
    "c44_file_partial",
    "c44_detect_partial",
    "c44_detect_comments_partial",
    "c44_refuted"
   ],
   "note": "False of the code: strftime given a literal that is no text, a complex number in an argument annotation, and a codecs function given a literal encoding that is no text end in TypeError, IndexError and AttributeError. Proved that these places (and a failing f-string heuristic, and violations without targets) are the only ones."
  },
  {
   "property": "C45",
   "status": "proved",
   "theorems": [
    "c45_same_versions",
    "c45_same_text"
   ],
   "note": ""
  },
  {
   "property": "C46",
   "status": "partial",
   "theorems": [
    "c46_by_name_partial",
    "c46_covers",
    "c46_by_name_refuted"
   ],
   "note": "False of the code: a rule's name that stands alone is also triggered by its parts ('x', '' for hex). Proved for every other name; c46_covers gives the exact rule."
  },
  {
   "property": "C47",
   "status": "proved",
   "theorems": [
    "c47_fields",
    "c47_injective"
   ],
   "note": ""
  },
  {
   "property": "C48",
   "status": "proved",
   "theorems": [
    "c48_default_line",
    "c48_file_block"
   ],
   "note": ""
  },
  {
   "property": "C49",
   "status": "partial",
   "theorems": [
    "c49_shown_iff_above",
    "c49_off_shows_all",
    "c49_same_major_refuted",
    "c49_no_targets_refuted"
   ],
   "note": "Proved for one target, and for two of different majors. Refuted for two targets of one major (the first is compared with the version required of Python 2) and for no targets, where the program ends in an error."
  },
  {
   "property": "C50",
   "status": "partial",
   "theorems": [
    "c50_sorted_binary64_partial",
    "c50_exactly_once",
    "c50_dump_keeps_all",
    "c50_text_is_lines",
    "c50_sorted_text",
    "c50_sorted_position",
    "c50_order_independent_partial",
    "c50_order_independent_refuted"
   ],
   "note": "Proved that no line comes twice, none is lost and positions ascend; the order in which lines were produced is proved not to matter when no two lines share a sort key (or below full verbosity), and refuted by two lines that do. Sorting by the keys in binary64 is proved to give the same list for lines of ordinary positions."
  },
  {
   "property": "C51",
   "status": "proved",
   "theorems": [
    "c51_summary",
    "c51_clash",
    "c51_not_python"
   ],
   "note": ""
  },
  {
   "property": "C52",
   "status": "partial",
   "theorems": [
    "c52_process_count",
    "c52_completion_order",
    "c52_ends",
    "c52_process_count_refuted",
    "c52_worker_lines_refuted"
   ],
   "note": "Result and output are proved equal for every process count and every pool schedule when no file ends in an exception. Refuted: a too deep file drops all results with one process but only the later ones with more; lines that workers print themselves come in completion order."
  },
  {
   "property": "C53",
   "status": "partial",
   "theorems": [
    "c53_order_partial",
    "c53_order_hints",
    "c53_order_refuted",
    "c53_command_line"
   ],
   "note": "False of the code when files clash (the first one wins). Proved for all orders and repetitions otherwise; with clashes everything but the minimum versions is still independent of the order, and within one run the command line order never matters."
  },
  {
   "property": "C54",
   "status": "partial",
   "theorems": [
    "c54_exit_code",
    "c54_no_files",
    "c54_interrupted",
    "c54_main",
    "c54_same_major_refuted",
    "c54_any_targets",
    "c54_one_per_major"
   ],
   "note": "The exit code is proved for every command line and all targets, with the target of each major version that counts (c54_any_targets). That all targets count is refuted for two of the same major."
  },
  {
   "property": "C55",
   "status": "partial",
   "theorems": [
    "c55_minimum",
    "c55_applies",
    "c55_no_known_reason_refuted",
    "c55_python2_refuted"
   ],
   "note": "Proved for every summary a run under Python 3 can produce. Refuted: the 'no known reason' note can never be printed, and under a Python 2 interpreter with pessimistic syntax '~2' stands for Python 3."
  },
  {
   "property": "C56",
   "status": "proved",
   "theorems": [
    "c56_quiet",
    "c56_parse",
    "c56_violations",
    "c56_no_violations",
    "c56_main"
   ],
   "note": ""
  },
  {
   "property": "C57",
   "status": "proved",
   "theorems": [
    "c57_end_to_end"
   ],
   "note": ""
  },
  {
   "property": "C58",
   "status": "partial",
   "theorems": [
    "c58_failing_partial",
    "c58_interrupted_tour_refuted",
    "c58_visitor_exception_refuted",
    "c58_too_deep_refuted"
   ],
   "note": "Proved for files that cannot be read, decoded or parsed, and interruptions before the tour, at any place in any list, whatever the other files do. Refuted for an interrupted tour, an exception in the visitor and a too deep tree."
  },
  {
   "property": "C59",
   "status": "proved",
   "theorems": [
    "c59_modules",
    "c59_members"
   ],
   "note": ""
  },
  {
   "property": "C60",
   "status": "proved",
   "theorems": [
    "c60_strftime",
    "c60_bytes",
    "c60_typecodes",
    "c60_codecs",
    "c60_decorators"
   ],
   "note": ""
  },
  {
   "property": "C61",
   "status": "proved",
   "theorems": [
    "c61_modules",
    "c61_members",
    "c61_arguments",
    "c61_decorators",
    "c61_keywords",
    "c61_verdict",
    "c61_run"
   ],
   "note": "Proved for every use the analysis comes to (the values of unevaluated annotations, and of keyword arguments for functions of the source's own, are not looked at, see C38), also under names that earlier imports in the same or an enclosing block give: modules, members, keyword arguments, directives, type codes, codec arguments, decorators, up to the minimum of a source and of a run."
  },
  {
   "property": "C62",
   "status": "proved",
   "theorems": [
    "c62_others_kept",
    "c62_last_given",
    "c62_reset",
    "c62_patterns_since_clear"
   ],
   "note": ""
  },
  {
   "property": "C63",
   "status": "partial",
   "theorems": [
    "c63_lines_true",
    "c63_explained_partial",
    "c63_read_partial",
    "c63_violations_partial",
    "c63_long_refuted"
   ],
   "note": "Proved for all trees and configurations at full verbosity, for sources without the Python 2 name `long`; refuted for `long`, whose line names no versions (c63_long_refuted). Below full verbosity lines are left out on purpose."
  },
  {
   "property": "C64",
   "status": "partial",
   "theorems": [
    "c64_used_there",
    "c64_each_keyword",
    "c64_keyword_line_refuted",
    "c64_in_source",
    "c64_each_said",
    "c64_feature_line_refuted",
    "c64_module_line_refuted",
    "c64_column_refuted"
   ],
   "note": "Proved: every position is one in the source, and those of library findings are lines where the text is used, for every tree and configuration at full verbosity. False of the code (refuted): the line of a feature need not be its own, a module takes the position of an encoding with the same text, the column of a module is that of the first one imported. A keyword argument is reported at a line of something in a call (or class definition) that has it, proved for trees with keyword arguments where the grammar has them; it need not be the line of the argument itself (refuted)."
  },
  {
   "property": "C65",
   "status": "partial",
   "theorems": [
    "c65_as_written",
    "c65_no_section",
    "c65_round_trip",
    "c65_found_and_read",
    "c65_found_readable",
    "c65_readable_found_refuted",
    "c65_percent_refuted",
    "c65_blank_line_refuted",
    "c65_indented_refuted",
    "c65_default_section",
    "c65_default_alone",
    "c65_default_yes_refuted"
   ],
   "note": "Proved for every text of the grammar and every configuration that can be written down (round trip of all nineteen settings). False of the code (refuted): a single percent sign refuses the file; so does a blank line within a list of backports or features; an indented option is swallowed by the one before it; a file with a valueless option elsewhere is readable but not detected. A value that tells nothing falls back to what DEFAULT says, and there only the text True means yes. Sections named DEFAULT are covered."
  },
  {
   "property": "C66",
   "status": "partial",
   "theorems": [
    "c66_records_partial",
    "c66_fails_alike_partial",
    "c66_detect_partial",
    "c66_run_partial",
    "c66_keyword_refuted",
    "c66_other_refuted"
   ],
   "note": "Proved for all exclusions except of keyword arguments (visits, single sources, whole runs). False of the code (refuted): excluding a keyword argument can raise the verdict, since its value is not visited any more; excluding a module loses names found through it that are not excluded."
  },
  {
   "property": "C67",
   "status": "partial",
   "theorems": [
    "c67_records_partial",
    "c67_detect_partial",
    "c67_run_partial",
    "c67_extensions_refuted",
    "c67_annotations_refuted"
   ],
   "note": "Proved for all backports except typing_extensions, all features, and all exclusions except of keyword arguments (visits, single sources, whole runs). False of the code (refuted): the typing_extensions backport gives a module without requirements one, and so raises the verdict; not evaluating annotations can raise it too."
  },
  {
   "property": "C68",
   "status": "partial",
   "theorems": [
    "c68_named_partial",
    "c68_found_partial",
    "c68_dash_refuted",
    "c68_format_refuted"
   ],
   "note": "Proved of whole runs (text and exit code) for all configurations whose exclusions do not begin with '-'; behind a parsable format only files and folders may follow, otherwise any arguments but the choice of a config file. False of the code (refuted): exclusions beginning with '-', and options after a parsable format."
  },
  {
   "property": "C69",
   "status": "proved",
   "theorems": [
    "c69_refused",
    "c69_accepted",
    "c69_config_file",
    "c69_failing"
   ],
   "note": ""
  },
  {
   "property": "C70",
   "status": "partial",
   "theorems": [
    "c70_shown",
    "c70_documented_partial",
    "c70_documented_refuted",
    "c70_undocumented_partial",
    "c70_alone_partial",
    "c70_undocumented_refuted",
    "c70_default",
    "c70_not_default",
    "c70_listed",
    "c70_extensions",
    "c70_config_files",
    "c70_processes"
   ],
   "note": "Proved for all command lines but for two arguments. False of the code (refuted): --no-config-file is documented but also kept as a path; whatever begins with -v is taken as a verbosity though only repeated v is documented. The descriptions of the options in words are not compared."
  },
  {
   "property": "C71",
   "status": "partial",
   "theorems": [
    "c71_one_reading",
    "c71_findings",
    "c71_main_partial",
    "c71_paths",
    "c71_syntax",
    "c71_unreadable_refuted",
    "c71_no_files_refuted"
   ],
   "note": "Proved of the whole output apart from the lines workers write themselves about syntax errors (c71_syntax, under assumptions on the texts of the error), if visits are not printed, no exclusion file is unreadable and every file found can be read. That findings add up to the versions of a file is for verbosity 3 without violations mode, which the format sets, and without the Python 2 type `long` (C59). False of the code (refuted): what is said of a file that cannot be read does not end its line; the text for no files found is not of the format."
  },
  {
   "property": "C72",
   "status": "partial",
   "theorems": [
    "c72_annotations",
    "c72_backports",
    "c72_modules",
    "c72_comments",
    "c72_no_other",
    "c72_options_backports",
    "c72_options_flags",
    "c72_backports_taken_partial",
    "c72_comments_taken_partial",
    "c72_comments_refuted",
    "c72_extensions_refuted"
   ],
   "note": "When tips are printed and what they name is proved for the default format without quiet mode. Taking the tip on backports is proved for runs without incompatible files and names other than typing_extensions; taking the tip on comments for runs where no file uses them. False of the code (refuted): the tip on comments is given though a file with contradictory findings uses them; taking the tip on typing_extensions makes the verdict stricter."
  },
  {
   "property": "C73",
   "status": "proved",
   "theorems": [
    "c73_files",
    "c73_report",
    "c73_main"
   ],
   "note": "For runs in which every file was analysed, on Python 3. Of several targets for one major version the last counts (C07). What workers print themselves about files that cannot be parsed is C33."
  },
  {
   "property": "C74",
   "status": "partial",
   "theorems": [
    "c74_file",
    "c74_parse",
    "c74_run",
    "c74_verbose_partial",
    "c74_verbose_refuted"
   ],
   "note": "All but the verbosity is proved for every config file and command line. False of the code (refuted): with a negative verbosity in the [DEFAULT] section and an empty one in the [vermin] section the verbosity is negative. It is not otherwise."
  },
  {
   "property": "C75",
   "status": "proved",
   "theorems": [
    "c75_found",
    "c75_verdict",
    "c75_files",
    "c75_verdict_refuted",
    "c75_files_refuted"
   ],
   "note": "The same surrounding (configuration, comments, source text) is assumed for both sources. The two refuted theorems show that the exceptions are needed: a module defined later in the code, and files that clash."
  },
  {
   "property": "C76",
   "status": "proved",
   "theorems": [
    "c76_tells",
    "c76_same",
    "c76_lines",
    "c76_shows"
   ],
   "note": "Targets are shown as parse_target returns them; one added as a version tuple is a list and would have square brackets. The order in which Python lists a set is a parameter."
  },
  {
   "property": "C77",
   "status": "partial",
   "theorems": [
    "c77_tree",
    "c77_detect",
    "c77_comments",
    "c77_top_partial",
    "c77_api_partial",
    "c77_run_partial",
    "c77_top_refuted"
   ],
   "note": "Proved for every layout in which the text shows except* and with-parentheses at the same parts. Lines on top: proved unless a with statement has its parenthesis more than ten lines further down (refuted: c77_top_refuted) or the file starts with an indented comment (c32_first_line_refuted)."
  },
  {
   "property": "C78",
   "status": "partial",
   "theorems": [
    "c78_work",
    "c78_once",
    "c78_linear_refuted"
   ],
   "note": "The bound by nesting is proved; that the work is linear is false of the code (c78_linear_refuted): it doubles with every finally in a finally. Work is counted by the lines that --dump prints, one for each visited part."
  },
  {
   "property": "C79",
   "status": "partial",
   "theorems": [
    "c79_recognized_partial",
    "c79_sound",
    "c79_source_partial",
    "c79_source_sound",
    "c79_all_refuted",
    "c79_only_refuted"
   ],
   "note": "Proved for names, dotted names, usual literals, operators, comparisons, conditionals, displays, comprehensions with one loop, items and simple calls, with any blanks and parentheses. False for strings in single quotes, calls with more arguments, slices and renamed modules (c79_all_refuted); f'a={a}' is taken for one (c79_only_refuted)."
  },
  {
   "property": "C80",
   "status": "proved",
   "theorems": [
    "c80_findings",
    "c80_printed",
    "c80_formats",
    "c80_verbosity",
    "c80_lowered_refuted"
   ],
   "note": "Both analyses have to succeed: where incompatible versions end one of them, it prints no findings. c80_lowered_refuted is about the command line: with a config file that asks for the parsable format, -v lowers the verbosity below what that format is for, and no findings are printed (see C19)."
  },
  {
   "property": "C81",
   "status": "proved",
   "theorems": [
    "c81_moved",
    "c81_program",
    "c81_files",
    "c81_main",
    "c81_failing_refuted"
   ],
   "note": "The verdict of the library is that of detect(). Files that cannot be read and texts that are no Python count for nothing in the statement for many files. The statement for one file asks that reading the text ends in a tree or in a SyntaxError, ValueError or TypeError; c81_failing_refuted shows that it is false for other failures: the library raises, the program goes on as if the file had no requirements."
  },
  {
   "property": "C82",
   "status": "partial",
   "theorems": [
    "c82_file_partial",
    "c82_run_partial",
    "c82_silent_partial",
    "c82_exact_refuted",
    "c82_verbosity_refuted",
    "c82_pessimistic_refuted",
    "c82_torn_refuted"
   ],
   "note": "Proved for verbosity 3 and more, targets that are upper bounds (one, or one for each major), files without `long`, files that do not clash, and without --pessimistic; quiet or not, in either format. Each of these is needed: c82_exact_refuted (an exact target fails silently), c82_verbosity_refuted (True and False are told of from -vvv on only), c82_pessimistic_refuted (exit code 0 although Python 3 is ruled out), c82_torn_refuted (a file that contradicts itself does not count), c63_long_refuted."
  },
  {
   "property": "C83",
   "status": "partial",
   "theorems": [
    "c83_same_files",
    "c83_listed",
    "c83_union",
    "c83_main",
    "c83_spelling_refuted"
   ],
   "note": "Proved for all file systems whose folders list plain names (not empty, \".\" or \"..\", no slash), which is needed only when paths are made absolute. c83_spelling_refuted: with --no-make-paths-absolute, one file in two spellings is analysed twice; so there a path names only the file that is spelled the same."
  },
  {
   "property": "C84",
   "status": "proved",
   "theorems": [
    "c84_report",
    "c84_least",
    "c84_higher",
    "c84_each",
    "c84_violations"
   ],
   "note": "For runs that are not interrupted, under Python 3, in the same format (the format can change the verdict, c34_refuted) and with the same analysis settings."
  },
  {
   "property": "C85",
   "status": "proved",
   "theorems": [
    "c85_tree",
    "c85_layout",
    "c85_detect",
    "c85_run"
   ],
   "note": "Bytes, True, False and ... are not among these statements, since they have requirements of their own (c85_not_idle). Layout as in C77."
  },
  {
   "property": "C86",
   "status": "partial",
   "theorems": [
    "c86_tree_partial",
    "c86_layout_partial",
    "c86_detect_partial",
    "c86_run_partial",
    "c86_argument_refuted",
    "c86_method_refuted",
    "c86_attribute_refuted"
   ],
   "note": "Proved for annotations of variables and results of functions that do not stand directly in a class, in any block at any depth. The rest is false: annotations of arguments are visited (c86_argument_refuted), and what stands directly in a class is visited twice, the second time with annotations (c86_method_refuted, c86_attribute_refuted). Layout as in C77."
  },
  {
   "property": "C87",
   "status": "proved",
   "theorems": [
    "c87_tree",
    "c87_detect",
    "c87_exclusion",
    "c87_backport",
    "c87_run"
   ],
   "note": "A name is one that the source may be about when each of its parts stands in the tree as an identifier or part of a module name, or is the name of the type of a literal. Exclusions of codecs names (ceh=, ce=) are about constants and must be the same."
  },
  {
   "property": "C88",
   "status": "proved",
   "theorems": [
    "c88_tree",
    "c88_detect",
    "c88_self_documenting",
    "c88_union_types",
    "c88_annotations",
    "c88_run"
   ],
   "note": "A subscripted attribute counts if its last part is the end of such a name. Without the condition on subscripts it is false: x = dict[str, int] is no annotation but counts if annotations are evaluated (c88_there)."
  },
  {
   "property": "C89",
   "status": "proved",
   "theorems": [
    "c89_more",
    "c89_only",
    "c89_same",
    "c89_detect",
    "c89_files",
    "c89_main",
    "c89_no_less"
   ],
   "note": "The patterns are any list and what they match is any relation. Files clash when one is for Python 2 only and another one for Python 3 only and that is not ignored (c75_files_refuted shows that the run can then require less)."
  },
  {
   "property": "C90",
   "status": "proved",
   "theorems": [
    "c90_found",
    "c90_analysis",
    "c90_main",
    "c90_new_file"
   ],
   "note": "Exclusion files, config files and their detection are taken to be the same on both machines."
  },
  {
   "property": "C91",
   "status": "proved",
   "theorems": [
    "c91_rules",
    "c91_source",
    "c91_detect",
    "c91_file",
    "c91_run",
    "c91_newest",
    "c91_each"
   ],
   "note": "3.12 is the newest release the rules speak of at this commit. The last sentence is c91_newest; without violations mode, as in C84."
  }
 ]
}