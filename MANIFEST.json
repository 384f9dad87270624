{
 "claims": [
  {
   "property": "C01",
   "status": "proved",
   "theorems": [
    "C01_unescape_escape",
    "C01_escape_charwise",
    "C01_escape_no_slash",
    "C01_escape_injective",
    "C01_unescape_tokens"
   ],
   "note": ""
  },
  {
   "property": "C02",
   "status": "proved",
   "theorems": [
    "C02_parts_of_pointer",
    "C02_relaxed_parts",
    "C02_strict_raises"
   ],
   "note": ""
  },
  {
   "property": "C03",
   "status": "proved",
   "theorems": [
    "C03_resolve_is_reaching",
    "C03_reaches_functional",
    "C03_decimal_index"
   ],
   "note": ""
  },
  {
   "property": "C04",
   "status": "partial",
   "theorems": [
    "C04_set_then_resolve_refuted",
    "C04_set_then_resolve",
    "C04_set_written"
   ],
   "note": "REFUTED in full: set_jsonpointer([1,2], '/-5', 7) appends 7, and resolving '/-5' then fails. Proved for pointers indexing lists from the front, and the written document is characterised in all cases."
  },
  {
   "property": "C05",
   "status": "proved",
   "theorems": [
    "C05_set_frame"
   ],
   "note": "Unrelated = the two pointers diverge at a dict by key or at a list by slot."
  },
  {
   "property": "C06",
   "status": "partial",
   "theorems": [
    "C06_only_RefResolutionError_refuted",
    "C06_scalar_document_refuted",
    "C06_set_errors",
    "C06_error_leaves_document"
   ],
   "note": "REFUTED in full: the empty pointer raises UnboundLocalError and scalar documents raise TypeError. Proved for container documents and non-empty pointers; the document is unmodified in every failing case."
  },
  {
   "property": "C07",
   "status": "proved",
   "theorems": [
    "C07_join_paths_meaning",
    "C07_walks_total"
   ],
   "note": ""
  },
  {
   "property": "C08",
   "status": "proved",
   "theorems": [
    "C08_join_paths_normal",
    "C08_join_paths_idempotent",
    "C08_join_paths_canonical"
   ],
   "note": ""
  },
  {
   "property": "C09",
   "status": "proved",
   "theorems": [
    "C09_merge_assoc",
    "C09_merge_unit",
    "C09_merge_idempotent",
    "C09_merge_wf"
   ],
   "note": "Well-formed trees: keys of every level are distinct, as in any OrderedDict."
  },
  {
   "property": "C10",
   "status": "proved",
   "theorems": [
    "C10_merge_overrides"
   ],
   "note": ""
  },
  {
   "property": "C11",
   "status": "proved",
   "theorems": [
    "C11_alias_meaning",
    "C11_descend_agrees",
    "C11_descend_raises"
   ],
   "note": ""
  },
  {
   "property": "C12",
   "status": "partial",
   "theorems": [
    "C12_no_mapping_identity_refuted",
    "C12_map_path_identity"
   ],
   "note": "REFUTED in full: with no mapping at all, map_path('/a~1b') is '/a/b' and map_path('/a/') is '/a'. Proved for absolute paths whose steps need no escaping."
  },
  {
   "property": "C13",
   "status": "proved",
   "theorems": [
    "C13_map_path_stepwise",
    "C13_map_path_raises"
   ],
   "note": ""
  },
  {
   "property": "C14",
   "status": "proved",
   "theorems": [
    "C14_last_declared_alias",
    "C14_declared_paths_only",
    "C14_raises",
    "C14_counted_total",
    "C14_result_wf"
   ],
   "note": ""
  },
  {
   "property": "C15",
   "status": "proved",
   "theorems": [
    "C15_regexes_by_last_mention",
    "C15_later_regex_wins",
    "C15_tilde_digit_regex_refuted"
   ],
   "note": "Proved as stated, within its quantifier. Beyond it, stronger forms are REFUTED that every ~-step is a regex: '~1.*' and '~0.*' are unescaped first and become plain names. Proved otherwise: order and precedence, for every list of tuples."
  },
  {
   "property": "C16",
   "status": "proved",
   "theorems": [
    "C16_colname_inverse",
    "C16_every_name_one_column",
    "C16_case_irrelevant",
    "C16_rows",
    "C16_coords2Cell_resolves"
   ],
   "note": ""
  },
  {
   "property": "C17",
   "status": "partial",
   "theorems": [
    "C17_row_resolves",
    "C17_col_resolves",
    "C17_cell_resolves",
    "C17_only_ValueError",
    "C17_empty_column_refuted"
   ],
   "note": "REFUTED in full: the empty column text resolves to the last column (index -1) instead of failing. Proved for every other text."
  },
  {
   "property": "C18",
   "status": "partial",
   "theorems": [
    "C18_never_negative_refuted",
    "C18_nonneg",
    "C18_counting_back"
   ],
   "note": "REFUTED in full: counting back beyond the first row or column resolves to a negative coordinate. Proved for coordinates that do not count back beyond the start."
  },
  {
   "property": "C19",
   "status": "proved",
   "theorems": [
    "C19_tight_box",
    "C19_empty",
    "C19_is_margin"
   ],
   "note": ""
  },
  {
   "property": "C20",
   "status": "proved",
   "theorems": [
    "C20_first_full",
    "C20_empty_capture",
    "C20_no_other_outcome",
    "C20_negative_landing"
   ],
   "note": "Landing cells with non-negative coordinates; for negative ones the outcome is always EmptyCapture. The bottom-right margin is any one that is_margin, as the computed ones are."
  },
  {
   "property": "C21",
   "status": "proved",
   "theorems": [
    "C21_end_of_runs",
    "C21_always_succeeds",
    "C21_order_irrelevant",
    "C21_not_from_empty"
   ],
   "note": ""
  },
  {
   "property": "C22",
   "status": "proved",
   "theorems": [
    "C22_terminates",
    "C22_does_the_groups",
    "C22_grows_onto_data",
    "C22_contains",
    "C22_directions",
    "C22_in_sheet"
   ],
   "note": "Termination and sortedness hold for every rect; the exact meaning for rects with non-negative coordinates."
  },
  {
   "property": "C23",
   "status": "proved",
   "theorems": [
    "C23_fixpoint",
    "C23_count",
    "C23_model_group"
   ],
   "note": ""
  },
  {
   "property": "C24",
   "status": "proved",
   "theorems": [
    "C24_sorted_or_refused",
    "C24_one_edge"
   ],
   "note": "Edges whose moves are among the twelve of the grammar; all coordinates, also negative ones."
  },
  {
   "property": "C25",
   "status": "proved",
   "theorems": [
    "C25_plain_edges",
    "C25_dependent_2nd_edge"
   ],
   "note": ""
  },
  {
   "property": "C26",
   "status": "partial",
   "theorems": [
    "C26_full_landing_stays_refuted",
    "C26_modifiers_refuted",
    "C26_captured_cell_is_full",
    "C26_corner_may_be_empty_refuted"
   ],
   "note": "REFUTED as stated: without modifier a full landing stays, '?' does not matter on an empty landing, '+' goes to the end of the run; and with two moves and '+' the captured corner may be empty. Proved otherwise: the captured cell is full. The documented table is C57."
  },
  {
   "property": "C27",
   "status": "partial",
   "theorems": [
    "C27_print_parse",
    "C27_empty_sheet",
    "C27_coordinates",
    "C27_bang_in_filter_refuted"
   ],
   "note": "REFUTED in full: in A1:[\"!:\"] the '!' in the filter is taken for the end of a sheet-name. Proved for every fragment written by the grammar of Parse_Spec.v that is readable: the sheet name does not start with a space; without sheet, what follows a '!' in the filters cannot be taken for edges. json.loads is an arbitrary function."
  },
  {
   "property": "C28",
   "status": "partial",
   "theorems": [
    "C28_accepted_iff_grammar",
    "C28_accepted_parts",
    "C28_edges_meaningful",
    "C28_capturing_ends",
    "C28_expansions_meaningful_refuted"
   ],
   "note": "REFUTED for expansions: 'A1::1L' is accepted by the grammar, but parse_expansion_moves raises ValueError on '1L'. Proved for edges and targeting."
  },
  {
   "property": "C29",
   "status": "partial",
   "theorems": [
    "C29_moves_mean_what_they_spell",
    "C29_all_other_texts",
    "C29_only_ValueError",
    "C29_question_mark_refuted",
    "C29_newline_refuted"
   ],
   "note": "REFUTED in full: '?' beside digits is read as a repeat count ('U1?' runs 11 rounds, 'L?2' 12) and a trailing newline is accepted. Proved: every text without newline is accepted exactly when it is spelled, with the groups it spells, and the only error is ValueError."
  },
  {
   "property": "C30",
   "status": "proved",
   "theorems": [
    "C30_call_specs",
    "C30_others_are_value_errors",
    "C30_order_of_arguments"
   ],
   "note": ""
  },
  {
   "property": "C31",
   "status": "partial",
   "theorems": [
    "C31_same_values",
    "C31_equal_values",
    "C31_number_of_values",
    "C31_texts",
    "C31_ragged",
    "C31_mixed_values_refuted",
    "C31_up_dims",
    "C31_down_dims",
    "C31_down_succeeds",
    "C31_down_refuted",
    "C31_transposed",
    "C31_by_rect",
    "C31_null"
   ],
   "note": "REFUTED in full: numbers mixed with texts become texts (np.asarray's common type), and lowering a (1,1,2,1) array to 2 dimensions raises. Proved: same cells in the same order for cells of one kind or with an empty cell, exact dimensions when raising, lowering succeeds up to 3 dimensions, transposition."
  },
  {
   "property": "C32",
   "status": "proved",
   "theorems": [
    "C32_sequential",
    "C32_empty_pipe",
    "C32_pipes_compose",
    "C32_failure_stops",
    "C32_pipe_of_one"
   ],
   "note": ""
  },
  {
   "property": "C33",
   "status": "proved",
   "theorems": [
    "C33_visits_and_replaces",
    "C33_failure",
    "C33_succeeds",
    "C33_bad_calls",
    "C33_depth_zero",
    "C33_negative_depth",
    "C33_nothing_processed"
   ],
   "note": "For element functions that process values by an arbitrary function of the value, without sub-filters; identity of depth 0 and of functions that process nothing also with sub-filters and arbitrary functions."
  },
  {
   "property": "C34",
   "status": "proved",
   "theorems": [
    "C34_never_closed",
    "C34_proper_dicts",
    "C34_fetched"
   ],
   "note": "Closing a sheet does not fail; list(set(keys)) has any order."
  },
  {
   "property": "C35",
   "status": "partial",
   "theorems": [
    "C35_added",
    "C35_addable",
    "C35_fetched_again",
    "C35_sibling_fetched_again",
    "C35_opened_once",
    "C35_base_itself",
    "C35_no_workbook",
    "C35_failed_fetch",
    "C35_fetched_again_refuted",
    "C35_no_workbook_refuted"
   ],
   "note": "REFUTED for an empty workbook-id, and without any: nothing is cached under them, each fetch opens the sheet again. Proved for all other ids and every cache."
  },
  {
   "property": "C36",
   "status": "partial",
   "theorems": [
    "C36_unrelated_stay",
    "C36_related_closed",
    "C36_only_its_keys",
    "C36_default_ids_refuted",
    "C36_respelled_closes_base_refuted"
   ],
   "note": "REFUTED: with the default sh_ids two sheets of one workbook share the key (workbook, None), so adding the second closes and forgets the first; fetching a sheet by a textual index closes the base sheet that wraps the same sheet. Proved: exactly the sheets under some of the ids added are closed, all others stay."
  },
  {
   "property": "C37",
   "status": "proved",
   "theorems": [
    "C37_lasso_closes_its_own",
    "C37_lasso_keeps_given",
    "C37_lasso_result",
    "C37_factory_close",
    "C37_all_closed"
   ],
   "note": ""
  },
  {
   "property": "C38",
   "status": "proved",
   "theorems": [
    "C38_winner",
    "C38_fails",
    "C38_opens",
    "C38_open_fails"
   ],
   "note": ""
  },
  {
   "property": "C39",
   "status": "partial",
   "theorems": [
    "C39_array_clipped",
    "C39_array_inside",
    "C39_array_single",
    "C39_array_empty",
    "C39_array_beyond_refuted",
    "C39_xlrd_placed",
    "C39_xlrd_reads",
    "C39_xlrd_fails",
    "C39_xlrd_single",
    "C39_single_beyond_refuted",
    "C39_negative_refuted"
   ],
   "note": "REFUTED: ArraySheet truncates rects beyond the limits; a single cell beyond the limits raises IndexError; negative coordinates wrap around. Proved: the exact part read of arrays, and the full property for rects of Excel sheets."
  },
  {
   "property": "C40",
   "status": "partial",
   "theorems": [
    "C40_merge_two",
    "C40_winner",
    "C40_last_non_null",
    "C40_last_string",
    "C40_united",
    "C40_mergeable",
    "C40_consistent",
    "C40_nulls_refuted",
    "C40_null_in_list_refuted",
    "C40_string_over_list_refuted"
   ],
   "note": "REFUTED: null meeting null raises ValidationError, so do nulls in lists; a string over a list is taken apart into characters. Proved otherwise: last non-null value wins at every path, keys united, exact condition for two documents to be mergeable, and success for consistent sub-models."
  },
  {
   "property": "C41",
   "status": "partial",
   "theorems": [
    "C41_top_kept",
    "C41_no_defaults_partial",
    "C41_exact",
    "C41_default_wins_refuted"
   ],
   "note": "REFUTED: pre-validation fills defaults into every sub-model, so the default of the upper one overrides the value given in the lower one. Proved for values of the top sub-model; and exactly, that only a default filled into an upper sub-model by the pre-validation can take the place of a value (C41_exact), hence never where the pre-validation schema declares no default at their path or above it."
  },
  {
   "property": "C42",
   "status": "proved",
   "theorems": [
    "C42_one_notice",
    "C42_prevalidation_stops",
    "C42_merging_stops",
    "C42_validation_stops",
    "C42_curation",
    "C42_success",
    "C42_raised",
    "C42_curation_raised",
    "C42_first_error"
   ],
   "note": ""
  },
  {
   "property": "C43",
   "status": "partial",
   "theorems": [
    "C43_forest",
    "C43_same_step",
    "C43_rename_keeps",
    "C43_graft_keeps",
    "C43_assignable",
    "C43_same_step_blank_refuted",
    "C43_rename_blank_refuted"
   ],
   "note": "REFUTED for blank texts: a child with an empty text is recreated on each reference; after renaming a child to '' merely reading the attribute undoes the renaming and loses its descendants. Proved otherwise, for every history: a reference gives the same step until the attribute is assigned (C43_same_step), renaming and grafting keep children, locks, tags and mappings, and histories that assign no step below itself leave a forest."
  },
  {
   "property": "C44",
   "status": "partial",
   "theorems": [
    "C44_names_fixed",
    "C44_locking",
    "C44_fix_and_lock",
    "C44_locks_kept",
    "C44_rename_refuted",
    "C44_path_refuted"
   ],
   "note": "REFUTED: assigning a string to a locked child raises nothing and gives a renamed step that is still marked LOCKED; the path of a locked step also changes when an ancestor is renamed. Proved: text and original name of a step never change, locking raises exactly when the lock forbids the present text, and the texts go against no lock in histories where no copy is named against the lock."
  },
  {
   "property": "C45",
   "status": "partial",
   "theorems": [
    "C45_mappings_kept",
    "C45_refuted"
   ],
   "note": "REFUTED: assigning a string below a step that has children sets the alias of the step's own mappings object, which is a node of the Pmod given at construction: p=pmods.step(); p.a; p.b='X' puts everything under X. Proved: mappings mean the same after every history without such an assignment."
  },
  {
   "property": "C46",
   "status": "partial",
   "theorems": [
    "C46_paths",
    "C46_paths_defined",
    "C46_paths_always",
    "C46_map_tuples",
    "C46_map_tuples_always",
    "C46_tagging",
    "C46_loop_refuted"
   ],
   "note": "REFUTED for loops: p.a = p makes the copy its own child and _paths() recurses forever. Proved: whenever the listing ends it is strictly ascending and lists exactly the joined texts of the ways to leaves (or tagged steps), with or without original names; it ends exactly when all ways down end, hence after every history that assigns no step below itself; the same for _derrive_map_tuples."
  },
  {
   "property": "C47",
   "status": "partial",
   "theorems": [
    "C47_what_is_ensured",
    "C47_ends_and_prefix",
    "C47_kept",
    "C47_idempotent",
    "C47_idempotent_refuted",
    "C47_other_extension_refuted",
    "C47_regex_idempotent",
    "C47_regex_what_is_ensured",
    "C47_regex_refuted",
    "C47_empty_names"
   ],
   "note": "REFUTED in full: ensure_file_ext is not idempotent for extensions with an inner dot ('tar.gz') nor for names ending in a separator, and any extension ending with the asked one is accepted ('foo.xbar' for 'bar'). Proved: what is ensured for every name and extensions, and idempotence for extensions of one part."
  },
  {
   "property": "C48",
   "status": "partial",
   "theorems": [
    "C48_first_free_name",
    "C48_terminates",
    "C48_distinct_names",
    "C48_generator_refuted"
   ],
   "note": "REFUTED in full: the filegen argument is ignored (the code always asks the default generator), see C48_generator_refuted. Proved for the default generator and every set of existing files."
  },
  {
   "property": "C49",
   "status": "partial",
   "theorems": [
    "C49_without_options",
    "C49_with_options",
    "C49_fields_from_context",
    "C49_fields_when_lassoing",
    "C49_default_options",
    "C49_given_options",
    "C49_defaults_refuted",
    "C49_overlay_refuted"
   ],
   "note": "REFUTED twice: the options of the xl-ref replace the base options altogether (C49_overlay_refuted), and base options given to lasso replace the default ones rather than override them item by item (C49_defaults_refuted). Proved: without options in the xl-ref the base options hold, else exactly those of the xl-ref; the other fields override those of the context; get_default_opts overrides item by item; lasso uses just what it is given, and the defaults if that is None or empty."
  },
  {
   "property": "C50",
   "status": "partial",
   "theorems": [
    "C50_lax_failure_keeps_lasso",
    "C50_strict_failure_raises",
    "C50_success",
    "C50_outcomes",
    "C50_lax_non_lasso_refuted",
    "C50_lax_verbose_refuted",
    "C50_elementwise_lax_refuted",
    "C50_elementwise_in_place_refuted"
   ],
   "note": "REFUTED in full: a lax filter returning no Lasso replaces the lasso by what it returned; when verbose, a failing filter without docs raises TypeError even if lax; lax of sub-filters of element-wise filters holds for the first processed element only; a failing element-wise filter has changed the values in place. Proved otherwise, for every filter, lasso and call."
  },
  {
   "property": "C51",
   "status": "partial",
   "theorems": [
    "C51_encased_parse",
    "C51_encased_with_filters_refuted",
    "C51_encased_never_lassoed",
    "C51_encased_lasso_refuted"
   ],
   "note": "REFUTED: lassoing an encased xl-ref always fails, since the parsed fields contain the spurious key 'xl-ref' (C51_encased_never_lassoed, C51_encased_lasso_refuted). While parsing the equivalence is proved, when the encased fragment cannot be taken for one with filters; REFUTED with filters."
  },
  {
   "property": "C52",
   "status": "partial",
   "theorems": [
    "C52_depends_on_mappings",
    "C52_rebuild",
    "C52_rebuild_unmapped",
    "C52_assembly",
    "C52_union",
    "C52_failure",
    "C52_paths",
    "C52_added_by_hand",
    "C52_name",
    "C52_rebuild_refuted",
    "C52_blank_root_refuted"
   ],
   "note": "REFUTED as stated: a cfunc that assigns a string to a step rewrites the Pmod it was built with (components.py:216-228 hands the same object to every build), so rebuilding lists other paths (C52_rebuild_refuted: 'R/X', then 'X/X'); and a root of blank name is falsy, so that _fetch_all_paths drops all its paths (C52_blank_root_refuted). Proved otherwise: what a component or nested assembly lists, or how it fails, depends on the mappings only, whatever else the heap holds (C52_depends_on_mappings); rebuilding gives the same for every program that assigns no strings (C52_rebuild) and for every program at all when no Pmod is shared (C52_rebuild_unmapped); assemblies list the ascending duplicate-free union of their components, built in turn (C52_assembly) or alone (C52_union); the first failure is the assembly's (C52_failure); a component lists its manual paths, then the leaves below pinp/pout (C52_paths); names (C52_name). Component functions are arbitrary interaction programs over pinp/pout steps."
  },
  {
   "property": "C53",
   "status": "partial",
   "theorems": [
    "C53_labels",
    "C53_not_labels",
    "C53_parentheses_refuted"
   ],
   "note": "REFUTED in full: units between angles may not contain ')' ('speed <m/(s)>' is rejected). Proved: the accepted texts, names and units are exactly those of the spec."
  },
  {
   "property": "C54",
   "status": "partial",
   "theorems": [
    "C54_present_kept",
    "C54_only_defaults",
    "C54_missing_filled",
    "C54_missing_left",
    "C54_null_filled",
    "C54_null_removed",
    "C54_null_kept",
    "C54_undeclared_left",
    "C54_all_filled",
    "C54_keyword_ignored_refuted"
   ],
   "note": "REFUTED for schemas that switch autoDefault on while all parameters of PandelVisitor are off: the rule is not installed then. Proved in all the other cases."
  },
  {
   "property": "C55",
   "status": "partial",
   "theorems": [
    "C55_extends_resolve_jsonpointer",
    "C55_absolute_from_root",
    "C55_outcomes",
    "C55_empty_root_ignored_refuted",
    "C55_inner_root_is_current_refuted"
   ],
   "note": "REFUTED for an empty root document (it is ignored) and for '//' inside a path without root (it restarts at the current element). The three claims are proved for a truthy root."
  },
  {
   "property": "C56",
   "status": "proved",
   "theorems": [
    "C56_paths_are_leaves"
   ],
   "note": ""
  },
  {
   "property": "C57",
   "status": "proved",
   "theorems": [
    "C57_first_edge",
    "C57_second_edge",
    "C57_table_is_a_function"
   ],
   "note": "For landings with non-negative coordinates; see C58 for the others."
  },
  {
   "property": "C58",
   "status": "partial",
   "theorems": [
    "C58_negative_landing_refuted",
    "C58_landing_beyond_end",
    "C58_negative_and_wrapped_empty"
   ],
   "note": "REFUTED for landings before the first row or column: they wrap around. Proved for landings beyond the other end."
  },
  {
   "property": "C59",
   "status": "proved",
   "theorems": [
    "C59_url_and_fragment",
    "C59_no_fragment"
   ],
   "note": ""
  },
  {
   "property": "C60",
   "status": "proved",
   "theorems": [
    "C60_false_words"
   ],
   "note": ""
  },
  {
   "property": "C61",
   "status": "proved",
   "theorems": [
    "C61_word_breaks",
    "C61_single_letters",
    "C61_idempotent",
    "C61_command_names"
   ],
   "note": ""
  },
  {
   "property": "C62",
   "status": "partial",
   "theorems": [
    "C62_message_and_ending",
    "C62_one_ending_refuted"
   ],
   "note": "REFUTED in full: a message ending in \\n\\r\\n loses two line-endings. Proved for every message whose body does not end at a line-ending."
  },
  {
   "property": "C63",
   "status": "proved",
   "theorems": [
    "C63_first_line",
    "C63_no_line"
   ],
   "note": ""
  },
  {
   "property": "C64",
   "status": "partial",
   "theorems": [
    "C64_cells_of_tables",
    "C64_with_pandas",
    "C64_with_pandas_refuted",
    "C64_flat_row_refuted"
   ],
   "note": "REFUTED when pandas is installed (all elements are told to be at the first cell), and for flat lists captured from a row. Proved for tables without pandas."
  },
  {
   "property": "C65",
   "status": "proved",
   "theorems": [
    "C65_no_xlrefs",
    "C65_texts_without_hash",
    "C65_xlref_replaced",
    "C65_bad_xlref_raises"
   ],
   "note": ""
  },
  {
   "property": "C66",
   "status": "partial",
   "theorems": [
    "C66_errors",
    "C66_intermediate_lasso",
    "C66_empty_capture",
    "C66_values_read",
    "C66_documented_errors_refuted"
   ],
   "note": "REFUTED for a lone 1st edge (C66_documented_errors_refuted): when resolving it fails other than by capturing nothing, building the error message adds a text to the edge, a tuple, so that TypeError is raised instead of ValueError. C66_errors proves that this is the only other error, and the rest as stated."
  },
  {
   "property": "C67",
   "status": "partial",
   "theorems": [
    "C67_array",
    "C67_array_full",
    "C67_array_bounding_box",
    "C67_array_empty",
    "C67_xlrd",
    "C67_xlrd_full",
    "C67_xlrd_is_margin",
    "C67_xlrd_tight",
    "C67_xlrd_empty",
    "C67_xlrd_trailing_blank_refuted"
   ],
   "note": "REFUTED for Excel sheets: the bottom-right margin is the last row and column of the sheet, also when blank. Proved for array sheets, for Excel sheets without trailing blanks, and that no full cell is beyond the margin."
  },
  {
   "property": "C68",
   "status": "proved",
   "theorems": [
    "C68_numbers",
    "C68_none",
    "C68_texts",
    "C68_booleans",
    "C68_errors",
    "C68_dates",
    "C68_fails"
   ],
   "note": ""
  },
  {
   "property": "C69",
   "status": "proved",
   "theorems": [
    "C69_default_first",
    "C69_index",
    "C69_name",
    "C69_textual_index",
    "C69_unknown",
    "C69_out_of_range"
   ],
   "note": ""
  },
  {
   "property": "C70",
   "status": "partial",
   "theorems": [
    "C70_base_itself",
    "C70_workbook",
    "C70_no_workbook",
    "C70_sibling_never",
    "C70_sibling_refuted"
   ],
   "note": "REFUTED: the sibling branch always raises (UnboundLocalError, the opened sheet is not assigned). Proved for the other branches."
  },
  {
   "property": "C71",
   "status": "partial",
   "theorems": [
    "C71_get_refuted",
    "C71_get_partial"
   ],
   "note": "REFUTED: the value resolved is dropped, None is returned always. Proved: it raises exactly if the pointer does not resolve."
  },
  {
   "property": "C72",
   "status": "partial",
   "theorems": [
    "C72_operations_refuted",
    "C72_operations_partial"
   ],
   "note": "REFUTED: the initial context is a list (AttributeError), and the result of _replace is dropped. Proved: the operations given are installed as they are."
  },
  {
   "property": "C73",
   "status": "partial",
   "theorems": [
    "C73_enum_refuted",
    "C73_enum_partial",
    "C73_exact"
   ],
   "note": "REFUTED: True is accepted by enum [1], False by [0]. Proved exactly which atoms are accepted (C73_exact): those listed, and booleans whose number is listed."
  },
  {
   "property": "C74",
   "status": "partial",
   "theorems": [
    "C74_paths_partial",
    "C74_resolve",
    "C74_paths_refuted"
   ],
   "note": "REFUTED: names are not escaped, so the pointers may not resolve; what only has alternatives is listed as a leaf, too. Proved: exactly the pointers of the routes to what has no properties; those of names that need no escaping resolve in every instance that has what they lead to (C74_resolve)."
  },
  {
   "property": "C75",
   "status": "partial",
   "theorems": [
    "C75_order_partial",
    "C75_value",
    "C75_errors_partial",
    "C75_exact",
    "C75_moved",
    "C75_order_refuted"
   ],
   "note": "REFUTED: a required property filled by a default is reported missing if `required` comes before `properties`. Proved: whatever the defaults and parameters, the order, also inside properties, does not change what comes out; nor the errors, if there are no defaults, or if what asks for the contents of a dict comes after `properties`; exactly, keywords before `properties` are asked of the instance given and those after of what was made of it (C75_exact), so that errors differ only by keywords moved over `properties` (C75_moved)."
  },
  {
   "property": "C76",
   "status": "partial",
   "theorems": [
    "C76_exact",
    "C76_pandel",
    "C76_again_refuted"
   ],
   "note": "REFUTED with auto_remove_nulls: the second validation fills what the first removed. Characterised exactly, for any parameters and schema: a second validation changes nothing, whatever the value, unless some property has a default, disallows null, and has its nulls removed and its absence (but not its nulls) filled."
  },
  {
   "property": "C77",
   "status": "partial",
   "theorems": [
    "C77_submodels_refuted",
    "C77_shared_refuted",
    "C77_submodels_partial"
   ],
   "note": "REFUTED: pre-validation fills the defaults in the given sub-models; and the validation of the model writes into the inner dictionaries it shares with them. Proved, with objects shared in any way and no curating functions: when no schema has defaults, all that objects lose is nulls."
  },
  {
   "property": "C78",
   "status": "partial",
   "theorems": [
    "C78_visitors",
    "C78_built",
    "C78_accepts",
    "C78_built_partial",
    "C78_exact",
    "C78_built_refuted"
   ],
   "note": "REFUTED: keywords before `properties` are checked before the defaults are filled, so the model may break them; required nulls may be removed. Proved: without filling, exactly the conforming instances are accepted; with filling, built models conform exactly if they satisfy also the other keywords that come before properties (C78_exact), hence always to schemas whose keywords other than types and required come after the properties, unless these have no defaults. The visitor of this claim and the one with sub-schemas (C126) agree on what they leave and on the errors (C78_visitors)."
  },
  {
   "property": "C79",
   "status": "partial",
   "theorems": [
    "C79_mappings_exist",
    "C79_reference",
    "C79_chain",
    "C79_bad_maps",
    "C79_chain_refuted"
   ],
   "note": "REFUTED for chains in general: an alias that is a path ('/sub/path', '../x', './x') is taken literally by steps but resolved by map_path. Proved: each reference has the alias and the mappings below its name, raising exactly when the expansion of the alias raises; chains spell the mapped path when aliases are made of plain names."
  },
  {
   "property": "C80",
   "status": "partial",
   "theorems": [
    "C80_relocatable",
    "C80_absolute_refuted",
    "C80_relative_refuted"
   ],
   "note": "REFUTED for aliases below the root that are absolute or relative paths (C80_absolute_refuted: 'r//y/b' listed where map_path gives '/y/b'; C80_relative_refuted: 'r/../y/b' for 'r/y/b'). Proved otherwise: for straight-line cfuncs by plain names, with plain aliases (roots may have absolute ones)."
  },
  {
   "property": "C81",
   "status": "partial",
   "theorems": [
    "C81_call",
    "C81_first_root",
    "C81_same_root",
    "C81_class",
    "C81_by_hand_refuted"
   ],
   "note": "REFUTED for paths added by hand as the docs tell to (C81_by_hand_refuted: each call appends them again). Proved otherwise, for cfuncs that only refer to steps of non-blank text and do not catch errors."
  },
  {
   "property": "C82",
   "status": "partial",
   "theorems": [
    "C82_equal_nodes",
    "C82_equivalence",
    "C82_merge",
    "C82_maps_alike",
    "C82_many_paths",
    "C82_maps_alike_names",
    "C82_tuples_in_any_order",
    "C82_maps_alike_refuted"
   ],
   "note": "REFUTED that equal mappings map alike (C82_maps_alike_refuted): dicts compare regardless of order, but the last matching regex wins. Proved: the equivalence, its meaning, merging, tuples in any order, and that equal mappings map alike when their regexes come in the same order or there are none."
  },
  {
   "property": "C83",
   "status": "partial",
   "theorems": [
    "C83_index_filled",
    "C83_index_filled_headers",
    "C83_shown",
    "C83_refused_header",
    "C83_refused_keywords",
    "C83_columns_number",
    "C83_lasso",
    "C83_lasso_refuted",
    "C83_columns_text_refuted",
    "C83_no_header_refuted",
    "C83_unsupported_refuted",
    "C83_skiprows_refuted",
    "C83_headers_filled"
   ],
   "note": "REFUTED in five corners (C83_*_refuted): index columns are filled from row header+1 even when rows are skipped, so that the header's text may become an index; header=None with index columns is a TypeError; textual usecols are a NameError (no _range2cols in the module); the documented exclusion of `converters` refuses 'converted' instead; the empty table gives a bare DataFrame, no lasso. Proved otherwise. pandas' own functions (_fill_mi_header, _pop_header_name, TextParser) are oracles."
  },
  {
   "property": "C84",
   "status": "partial",
   "theorems": [
    "C84_same_place",
    "C84_canonical",
    "C84_keeps_slash",
    "C84_adds_no_slash",
    "C84_idempotent",
    "C84_abspath",
    "C84_keeps_slash_refuted",
    "C84_idempotent_refuted",
    "C84_adds_no_slash_refuted"
   ],
   "note": "REFUTED: 'a//' loses its last slash (C84_keeps_slash_refuted); 'a\\\\' gets a slash and loses it again (C84_idempotent_refuted); 'a/<newline>' gets a slash (C84_adds_no_slash_refuted). Proved for paths without backslashes and line-ends; same place and canonicity for all paths. POSIX; posixpath is modelled from Python's sources."
  },
  {
   "property": "C85",
   "status": "partial",
   "theorems": [
    "C85_round_trip",
    "C85_last_slash",
    "C85_unreserved",
    "C85_long_refuted",
    "C85_backslash_refuted",
    "C85_prefix_refuted",
    "C85_surrogate_refuted",
    "C85_reads",
    "C85_not_utf8"
   ],
   "note": "REFUTED: paths of more than 200 characters get the UNC prefix appended (C85_long_refuted), 'a\\\\' gets a slash (C85_backslash_refuted), of the UNC prefix a backslash is left (C85_prefix_refuted), and surrogates raise (C85_surrogate_refuted). The round trip is proved for all other paths. POSIX; quote/unquote and UTF-8 are modelled, lossy decoding is an oracle."
  },
  {
   "property": "C86",
   "status": "partial",
   "theorems": [
    "C86_search",
    "C86_extras",
    "C86_schema",
    "C86_forbidden",
    "C86_allowed",
    "C86_sorted",
    "C86_not_object",
    "C86_names",
    "C86_empty_pattern_refuted",
    "C86_reference",
    "C86_unknown_group",
    "C86_reference_refuted",
    "C86_number_key_refuted"
   ],
   "note": "REFUTED: an empty pattern alone is ignored (C86_empty_pattern_refuted); patterns are joined into one, so that back-references mean groups of other patterns and a matched key is reported (C86_reference_refuted); numeric keys raise TypeError (C86_number_key_refuted). Proved for text keys and all non-empty patterns of characters, repetitions of them, groups, alternatives and anchors, on a model of re (parser and matcher). Sub-validation is an oracle."
  },
  {
   "property": "C87",
   "status": "partial",
   "theorems": [
    "C87_plugins",
    "C87_stable",
    "C87_none",
    "C87_xlrd",
    "C87_filters",
    "C87_same_text_refuted"
   ],
   "note": "REFUTED for entry-points of the same text: they share one stage, so that a failed one may count as installed (C87_same_text_refuted). Proved for all others. Loading and installing are oracles that may depend on the history of events; exceptions that are not Exceptions are not modelled."
  },
  {
   "property": "C88",
   "status": "proved",
   "theorems": [
    "C88_references",
    "C88_local",
    "C88_stable",
    "C88_idempotent",
    "C88_remote",
    "C88_drive",
    "C88_backslash",
    "C88_prefix",
    "C88_no_users",
    "C88_vars",
    "C88_empty",
    "C88_users_refuted",
    "C88_hash_refuted",
    "C88_space_refuted",
    "C88_colon_refuted",
    "C88_doubled_refuted",
    "C88_remote_refuted",
    "C88_drive_refuted"
   ],
   "note": "Proved as stated, within its quantifier. Beyond it, stronger forms are REFUTED for home folders (never expanded), names with number signs, leading spaces or colons, doubled slashes, remote URLs without a path, and going up from a drive (C88_users_refuted, C88_hash_refuted, C88_space_refuted, C88_colon_refuted, C88_doubled_refuted, C88_remote_refuted, C88_drive_refuted). Proved for all other paths (local_path, remote_url). POSIX only; urllib.parse of Python 3.11 is modelled; the checks of hosts in brackets or of other than ASCII characters, and expandvars, are oracles."
  },
  {
   "property": "C89",
   "status": "proved",
   "theorems": [
    "C89_open",
    "C89_bid",
    "C89_download",
    "C89_percent_refuted",
    "C89_long_refuted",
    "C89_params_refuted",
    "C89_bid_refuted"
   ],
   "note": "Proved as stated, within its quantifier. Beyond it, stronger forms are REFUTED for names with percent signs, paths of more than 200 characters, URLs with parameters, and folders named like books (C89_percent_refuted, C89_long_refuted, C89_params_refuted, C89_bid_refuted). Proved for all other local paths, and for remote URLs. The reading of books and the download are not modelled; word characters other than ASCII are an oracle."
  },
  {
   "property": "C90",
   "status": "partial",
   "theorems": [
    "C90_bumped",
    "C90_dry",
    "C90_print",
    "C90_same",
    "C90_commands",
    "C90_message",
    "C90_message_whole",
    "C90_message_cut",
    "C90_shown",
    "C90_aligned",
    "C90_search",
    "C90_replace",
    "C90_words_refuted",
    "C90_date_refuted",
    "C90_again_refuted",
    "C90_message_refuted",
    "C90_tag_refuted",
    "C90_newlines_refuted",
    "C90_well",
    "C90_lines"
   ],
   "note": "REFUTED for texts that contain the version inside another one, versions that are parts of the date, a second run in one process, versions that share only a part of their first component, empty messages of tags, and the ends of lines of other systems (C90_words_refuted, C90_date_refuted, C90_again_refuted, C90_message_refuted, C90_tag_refuted, C90_newlines_refuted). Proved for fresh processes and apart versions and dates. Tests and git are oracles; files have no encoding errors or links."
  },
  {
   "property": "C91",
   "status": "partial",
   "theorems": [
    "C91_vars",
    "C91_flags",
    "C91_plain",
    "C91_expanded",
    "C91_share",
    "C91_home",
    "C91_share_refuted",
    "C91_mark_refuted",
    "C91_home_refuted"
   ],
   "note": "REFUTED: a variable right before the dollar of a share ($A$\\x) is not expanded since the mark lengthens its name (C91_share_refuted); the text _UNC_PATH_HERE_ in a path becomes $\\ (C91_mark_refuted); dollars of the home directory are expanded as variables (C91_home_refuted). Proved: expansion = relation 'expands' (C91_vars), no flags / nothing to expand (C91_flags, C91_plain), variables (C91_expanded), shares (C91_share), homes (C91_home)."
  },
  {
   "property": "C92",
   "status": "partial",
   "theorems": [
    "C92_found",
    "C92_variable",
    "C92_first",
    "C92_none",
    "C92_exit_code",
    "C92_command",
    "C92_name_refuted",
    "C92_com_refuted",
    "C92_twice_refuted",
    "C92_path_refuted"
   ],
   "note": "REFUTED: the extension list holds 'com' without dot, so on POSIX which('tele') finds 'telecom' (C92_name_refuted) and on Windows no .com is ever found (C92_com_refuted); an absolute program is found once per folder (C92_twice_refuted); without PATH it raises KeyError (C92_path_refuted). Proved: what is found (C92_found), which one first (C92_first), none (C92_none), variable (C92_variable), Windows command (C92_command)."
  },
  {
   "property": "C93",
   "status": "partial",
   "theorems": [
    "C93_ensured",
    "C93_only",
    "C93_file",
    "C93_race",
    "C93_race_refuted",
    "C93_mode_refuted"
   ],
   "note": "REFUTED: if another process creates a FILE meanwhile, it returns silently without folder (C93_race_refuted); folders above do not get the mode (C93_mode_refuted). Proved: C93_ensured, C93_only, C93_file, C93_race."
  },
  {
   "property": "C94",
   "status": "proved",
   "theorems": [
    "C94_pairs",
    "C94_texts",
    "C94_total",
    "C94_objects_refuted"
   ],
   "note": "Proved as stated, within its quantifier. Beyond it, stronger forms are REFUTED: obj2bool of true non-texts (True, 1) raises ValueError although 'anything' is documented (C94_objects_refuted). Proved: alignment (C94_pairs), texts (C94_texts, C94_total)."
  },
  {
   "property": "C95",
   "status": "proved",
   "theorems": [
    "C95_pyeval",
    "C95_raises",
    "C95_tolerant",
    "C95_no_texts",
    "C95_py",
    "C95_lasso_refuted"
   ],
   "note": "Proved as stated, within its quantifier. Beyond it, stronger forms are REFUTED: nothing but the values is kept of a Lasso returned by a pyeval expression, against its documentation (C95_lasso_refuted). Proved: C95_pyeval, C95_raises, C95_tolerant, C95_no_texts, C95_py."
  },
  {
   "property": "C96",
   "status": "proved",
   "theorems": [
    "C96_gather",
    "C96_gather_all",
    "C96_gather_refuted",
    "C96_remove_all",
    "C96_remove_others",
    "C96_remove_first",
    "C96_remove_refuted",
    "C96_import",
    "C96_import_all",
    "C96_case_refuted",
    "C96_document_refuted"
   ],
   "note": "Proved as stated, within its quantifier. Beyond it, stronger forms are REFUTED: names to remove are a map-iterator spent by the first module, so that _remove_vba_modules(comps, 'b') leaves b when it is second (C96_remove_refuted); files of the same stem are lost (C96_gather_refuted), of stems differing in case replace each other (C96_case_refuted); a document of that name makes the import fail and leaves the module under another name (C96_document_refuted). Proved: C96_gather, C96_gather_all, C96_remove_all, C96_remove_others, C96_remove_first, C96_import."
  },
  {
   "property": "C97",
   "status": "partial",
   "theorems": [
    "C97_saving",
    "C97_saved_beside",
    "C97_run",
    "C97_main",
    "C97_new_name_refuted",
    "C97_format_refuted",
    "C97_empty_refuted"
   ],
   "note": "REFUTED: a new name gets no extension though documented (C97_new_name_refuted); any extension ending in m passes, e.g. .htm (C97_format_refuted); an empty new name saves nothing (C97_empty_refuted). Proved: C97_saving, C97_run, C97_main."
  },
  {
   "property": "C98",
   "status": "partial",
   "theorems": [
    "C98_calendar",
    "C98_ordinal",
    "C98_serial",
    "C98_serial_1904",
    "C98_order",
    "C98_leap_refuted",
    "C98_read",
    "C98_read_1904",
    "C98_early",
    "C98_early_by",
    "C98_1904_refuted"
   ],
   "note": "REFUTED for books whose dates count from 1904: opened sheets are never told (XlrdSheet is made without epoch1904), so that all their dates are read 4 years and a day early (C98_early, C98_early_by, C98_1904_refuted); day 60 is read like day 59 (C98_leap_refuted). Proved for books from 1900, and for sheets told to count from 1904. Floats are fractions; datetime and xldate_as_datetime are modelled from their sources, the calendar for all years."
  },
  {
   "property": "C99",
   "status": "proved",
   "theorems": [
    "C99_rectangle",
    "C99_cell",
    "C99_sibling",
    "C99_folder_refuted",
    "C99_semicolon_refuted",
    "C99_names_refuted",
    "C99_empty_refuted",
    "C99_beyond_refuted"
   ],
   "note": "Proved as stated, within its quantifier. Beyond it, stronger forms are REFUTED: relative paths are cached as written and after a change of folder give the cells of the previous file (C99_folder_refuted); a semicolon at the end of a path is lost and another file is read (C99_semicolon_refuted); sheets with typographic double-quotes or tabs in their names are not found (C99_names_refuted); rectangles of sheets without cells are an empty list (C99_empty_refuted); lone cells beyond the limits fail (C99_beyond_refuted). Assumes filters that open no sheets and files that do not change."
  },
  {
   "property": "C100",
   "status": "partial",
   "theorems": [
    "C100_text",
    "C100_bytes",
    "C100_decoded",
    "C100_object",
    "C100_plain",
    "C100_version",
    "C100_document",
    "C100_int",
    "C100_refuted"
   ],
   "note": "REFUTED as stated (C100_refuted): binascii.b2a_qp writes text, so every line end of the pickle (LF, or CR LF) becomes one of the kind of the first; the number 657933, whose pickle holds the bytes 13 10 10, is encoded but cannot be decoded. Proved: which bytes are read back for any pickle (C100_text, C100_decoded), the bytes are kept exactly if the line ends are of one kind (C100_bytes), such objects come back (C100_object), and so do all whole numbers below 657933 (C100_int, with pickle modelled). Also: plain documents (C100_plain), the version is ignored (C100_version). pickle (outside C100_int) and the JSON text are assumed to round-trip."
  },
  {
   "property": "C101",
   "status": "partial",
   "theorems": [
    "C101_rows",
    "C101_nested_refuted",
    "C101_method_refuted",
    "C101_column_refuted",
    "C101_relative_refuted"
   ],
   "note": "REFUTED as stated: a path of two steps puts the attributes on another, spurious child (C101_nested_refuted); rows named as attributes of str are refused, or lost when there are no other columns (C101_method_refuted); columns named fix, lock or schema are refused (C101_column_refuted); paths without a slash lose their first character (C101_relative_refuted). Proved for all programs before it (C101_rows): a table whose paths are a slash and one plain name, and whose columns are no attributes of steps, gives exactly its rows and its values, and touches nothing else."
  },
  {
   "property": "C102",
   "status": "proved",
   "theorems": [
    "C102_capture",
    "C102_file",
    "C102_all",
    "C102_before_refuted"
   ],
   "note": "Proved as stated, within its quantifier (C102_file, from C102_capture, and the whole sheet in C102_all). Beyond it, a stronger form is REFUTED: coordinates that count back beyond the first row start again from the last one (C102_before_refuted). The underscore stands for the last row or column of the sheet, even if blank (see C67). Assumes filters that open no sheets and files that do not change."
  },
  {
   "property": "C103",
   "status": "proved",
   "theorems": [
    "C103_merge_keeps",
    "C103_merge_all_keeps",
    "C103_merge_tree"
   ],
   "note": ""
  },
  {
   "property": "C104",
   "status": "proved",
   "theorems": [
    "C104_built",
    "C104_shared_refuted"
   ],
   "note": "Proved as stated, within its quantifier. Beyond it REFUTED: a dictionary found under two keys gets the defaults of both."
  },
  {
   "property": "C105",
   "status": "partial",
   "theorems": [
    "C105_others_partial",
    "C105_schema_refuted"
   ],
   "note": "REFUTED: a default that is a dictionary is assigned itself and then filled, in the schema. Proved, without curating functions: objects to which neither sub-models nor defaults lead are unchanged."
  },
  {
   "property": "C106",
   "status": "partial",
   "theorems": [
    "C106_cloned_refuted",
    "C106_fresh_partial",
    "C106_exact"
   ],
   "note": "REFUTED: a dictionary that only one of the two has is not cloned. Proved: which objects of the merged model are new, exactly (C106_exact): where both have a value the merged object is new; what only one has under a key of such a dictionary is shared with it."
  },
  {
   "property": "C107",
   "status": "partial",
   "theorems": [
    "C107_first_partial",
    "C107_both_partial",
    "C107_printed_refuted",
    "C107_lone"
   ],
   "note": "REFUTED: the style is chosen by the column alone, so cells of the RC style with a symbol for column and a negative row (or a dot, in the 1st edge) are printed in A1 style, which cannot write them: R-1C^ is printed ^-1, which is refused. Proved: read back exactly if the column is a number or the cell fits the A1 style; for one edge, and for both with expansions."
  },
  {
   "property": "C108",
   "status": "proved",
   "theorems": [
    "C108_texts",
    "C108_one_value",
    "C108_endless"
   ],
   "note": ""
  },
  {
   "property": "C109",
   "status": "partial",
   "theorems": [
    "C109_forward",
    "C109_first",
    "C109_again",
    "C109_current_refuted",
    "C109_torn_refuted",
    "C109_back_refuted",
    "C109_deleted_refuted"
   ],
   "note": "REFUTED: (1) a file changed after being lassoed is not seen again by the same xl-ref; (2) sheets of one workbook may be of different moments; (3) relative and absolute paths to one file, in a folder whose name needs quoting, have different URLs, so the older content may come back after the newer; (4) after the file is deleted one spelling fails while another still gives the past. Proved: every result without filters is of some moment up to then; moments only go forward for paths that lead the same way from every folder; first and repeated lassos."
  },
  {
   "property": "C110",
   "status": "partial",
   "theorems": [
    "C110_two",
    "C110_stack",
    "C110_series",
    "C110_header",
    "C110_kept_partial",
    "C110_top_partial",
    "C110_plain",
    "C110_rows_refuted",
    "C110_header_refuted",
    "C110_order_refuted",
    "C110_changed_refuted"
   ],
   "note": "REFUTED in four ways: rows of upper tables that the lowest has not are dropped (C110_rows_refuted); over a table without rows (a header), values of its columns are lost (C110_header_refuted); a lone table may come out with its columns in another order, that of a set (C110_order_refuted); a table inside a dictionary is not cloned but written into by the merge of the next sub-model (C110_changed_refuted). Proved: within the rows of the lowest table the top-most value wins, for two tables (C110_two) and stacks (C110_stack), which are left unchanged; exactly what becomes of headers (C110_header); series need no restriction (C110_series); merging trees writes only into tables of the lower model where the upper has something, too (C110_kept_partial), hence never into those of the top-most only (C110_top_partial). Without tables it is the merging of C40 (C110_plain). The semantics of pandas 0.24 is part of the model."
  },
  {
   "property": "C111",
   "status": "partial",
   "theorems": [
    "C111_steady",
    "C111_frozen",
    "C111_agree",
    "C111_same",
    "C111_live",
    "C111_stale_refuted",
    "C111_scribble_refuted",
    "C111_xlrd",
    "C111_put_refuted"
   ],
   "note": "REFUTED in three ways: after the array is written on, states and margins are the old ones and values the new ones (C111_stale_refuted; documented as caching); the states given out are those remembered, so writing on them changes later answers but not the margins (C111_scribble_refuted); a cell put later into an xlrd-sheet has a value when read alone and none when read in a rectangle (C111_put_refuted). Proved for all histories: without writing all answers are of the cells; all answers from the first one given on are of the cells as they were then, margins fit the states, and empty sheets are refused until they have cells; values are always those of the moment; xlrd-sheets answer as new ones."
  },
  {
   "property": "C112",
   "status": "partial",
   "theorems": [
    "C112_labels",
    "C112_values",
    "C112_whole",
    "C112_accepted",
    "C112_cells",
    "C112_lost_refuted",
    "C112_kinds_refuted",
    "C112_single_refuted"
   ],
   "note": "REFUTED in three ways: rows with a repeated label are lost but the last (C112_lost_refuted), labels of different kinds are the same when equal as numbers (C112_kinds_refuted), and texts of two characters pass for rows (C112_single_refuted). Proved: labels are the first of their kind, in order and apart; values are those of the last row; without repeated labels the table is kept row by row; which lists are accepted, and the errors otherwise."
  },
  {
   "property": "C113",
   "status": "partial",
   "theorems": [
    "C113_told",
    "C113_exists",
    "C113_set",
    "C113_only",
    "C113_apart",
    "C113_fresh",
    "C113_shared_refuted",
    "C113_looking_refuted",
    "C113_unset_refuted",
    "C113_names_refuted"
   ],
   "note": "REFUTED in four ways: clones of a step share its schema if that was looked at before (C113_shared_refuted), so merely looking at it matters (C113_looking_refuted); unset attributes are tuples and, once copied, in the schema (C113_unset_refuted); names are not checked although documented (C113_names_refuted). Proved: the schema of a step has what was last said to anyone of its family, for all histories; so without clones exactly what was last set on it, whatever is done to others; a clone of a step never looked at is apart from it."
  },
  {
   "property": "C114",
   "status": "partial",
   "theorems": [
    "C114_url",
    "C114_back",
    "C114_round_trip",
    "C114_any_slashes",
    "C114_prefix_refuted",
    "C114_library_prefix",
    "C114_long_refuted",
    "C114_relative_refuted",
    "C114_streams_refuted"
   ],
   "note": "REFUTED in four ways: paths with the prefix of long paths raise OSError or name another place (C114_prefix_refuted), long paths get this prefix at their end (C114_long_refuted), paths relative to a drive's folder start from its root (C114_relative_refuted), and streams of files are read but not written (C114_streams_refuted). Proved for all paths of drives, shares, the root and the current folder of up to 200 characters: the URL path, its reading from any spelling, the round trip but for the capital of the drive, and any number of slashes before a drive."
  },
  {
   "property": "C115",
   "status": "partial",
   "theorems": [
    "C115_listed",
    "C115_only",
    "C115_atoms",
    "C115_exact",
    "C115_nested_refuted"
   ],
   "note": "REFUTED: inside lists and dicts booleans equal numbers, so [true] is accepted where [1] is listed (C115_nested_refuted; true itself where 1 is listed is in C73). Proved: listed values are always accepted (C115_listed), atoms that are no booleans are accepted exactly when listed (C115_atoms), so are all values if no booleans stand where numbers do (C115_only); and exactly which are accepted otherwise (C115_exact)."
  },
  {
   "property": "C116",
   "status": "partial",
   "theorems": [
    "C116_same_place",
    "C116_canonical",
    "C116_backslashes",
    "C116_keeps",
    "C116_adds_none",
    "C116_idempotent",
    "C116_folder_refuted",
    "C116_drivelike_refuted",
    "C116_keeps_refuted"
   ],
   "note": "REFUTED in three ways: c:x/../ (the current folder of a drive) becomes c:\\ (C116_folder_refuted), ./c:x becomes the path c:x of a drive (C116_drivelike_refuted), and two separators at the end are not kept (C116_keeps_refuted). Proved for legal paths (no colon among the first two characters of names outside drives) without line ends: same place unless the path is but the current folder of a drive (C116_same_place), canonical (C116_canonical), only backslashes (C116_backslashes), last separator (C116_keeps, C116_adds_none), idempotent (C116_idempotent). ntpath.normpath is the one written in Python."
  },
  {
   "property": "C117",
   "status": "partial",
   "theorems": [
    "C117_roles",
    "C117_listed",
    "C117_unchanged",
    "C117_again",
    "C117_description",
    "C117_roles_refuted",
    "C117_lines_refuted",
    "C117_literals_refuted",
    "C117_colon_refuted"
   ],
   "note": "REFUTED: roles broken over lines remain, as does one made up by the end of another role's text; literals showing roles are garbled. Proved: lines without roles and listed markup are unchanged; in lines where backticks follow colons in roles only, and texts of roles end in no colon, all roles are replaced, none is left and cleaning again changes nothing; one listed directive or value in such a line is replaced."
  },
  {
   "property": "C118",
   "status": "partial",
   "theorems": [
    "C118_children",
    "C118_dir",
    "C118_got",
    "C118_assigned",
    "C118_got_refuted",
    "C118_lock",
    "C118_message",
    "C118_lock_refuted"
   ],
   "note": "REFUTED in two ways: a child assigned under the name of a method (or `Series`, `get_values`) is listed, but reading the attribute gives the method (or raises) (C118_got_refuted); a refused CAN_RENAME is reported as LOCKED (C118_lock_refuted). Proved: the children are listed each once with their names (C118_children), dir() lists exactly them and what any object has (C118_dir), what is assigned is listed (C118_assigned), children listed under other names with some text are read as they are (C118_got), and the other locks are named rightly (C118_lock). The tag given to _steps is never looked at."
  },
  {
   "property": "C119",
   "status": "partial",
   "theorems": [
    "C119_merge",
    "C119_kept",
    "C119_mapped",
    "C119_built",
    "C119_program",
    "C119_apart_refuted"
   ],
   "note": "REFUTED in its last sentence (C119_apart_refuted): when the first operand has no steps, the merged mapping uses the dictionary of the second, so a step appended to the merged mapping is appended to the operand. The class documents that merged mappings must not be changed; no code of the project does. The rest is proved unbounded: C119_merge, C119_kept (any heap, even with loops), C119_mapped, C119_built, and C119_program for whole programs."
  },
  {
   "property": "C120",
   "status": "partial",
   "theorems": [
    "C120_tells",
    "C120_ends",
    "C120_digits",
    "C120_cut_refuted"
   ],
   "note": "REFUTED for long patterns (C120_cut_refuted): Python cuts the text of a compiled pattern after 200 characters, so mappings whose patterns differ later have the same text. Proved (C120_tells, C120_ends) whenever the text of every pattern, with quotes and escapes, has at most 200 characters. Which characters are printable, and the flags that Python writes after patterns that set them inline, are any functions."
  },
  {
   "property": "C121",
   "status": "partial",
   "theorems": [
    "C121_json",
    "C121_documented",
    "C121_only",
    "C121_ndim_refuted",
    "C121_null",
    "C121_nan_refuted",
    "C121_scalars",
    "C121_numbers",
    "C121_texts",
    "C121_apart_refuted"
   ],
   "note": "REFUTED for arrays of other dimensions (C121_ndim_refuted): they are arrays too, though the documentation says one dimension only; for not-a-numbers of Python other than np.nan (C121_nan_refuted), which are not null because 'is float(\"nan\")' compares with a new object; and for types excluding each other (C121_apart_refuted): a series of one not-a-number is null, an array and an object. Everything else is proved, with the exact set of nulls (C121_null)."
  },
  {
   "property": "C122",
   "status": "partial",
   "theorems": [
    "C122_filled",
    "C122_missing",
    "C122_kept",
    "C122_others",
    "C122_many",
    "C122_blank",
    "C122_nulls_refuted",
    "C122_empty_refuted",
    "C122_succeeds",
    "C122_fails",
    "C122_crash_refuted",
    "C122_wrong",
    "C122_defaults_refuted"
   ],
   "note": "REFUTED for nulls in tables of two rows and more (C122_nulls_refuted), which are neither replaced nor removed, while those of one row are (C122_blank, C122_many give the exact effect); for failures (C122_crash_refuted): a list default of another length than the table gives a ValueError of pandas; and for validity (C122_defaults_refuted): a default number of type number is filled in and then rejected, because a column is an array. Filling, keeping, order and failures are proved exactly. Columns are of numbers or of objects, defaults numbers or lists of numbers; tables without rows are excluded; in them a list makes rows in which columns filled before stay blank (C122_empty_refuted)."
  },
  {
   "property": "C123",
   "status": "partial",
   "theorems": [
    "C123_names",
    "C123_newline_refuted",
    "C123_bid",
    "C123_same_refuted",
    "C123_local",
    "C123_remote",
    "C123_call_refuted"
   ],
   "note": "REFUTED for names that end with a newline after the extension (C123_newline_refuted), for the backend bidding for the same names (C123_same_refuted: it also bids for a.xls.txt), and for calls of normalize_local_url as documented (C123_call_refuted: it has a stray parameter self). Proved: the exact set of names, that the backend bids for all of them, and normalization."
  },
  {
   "property": "C124",
   "status": "partial",
   "theorems": [
    "C124_once",
    "C124_project",
    "C124_saved",
    "C124_works",
    "C124_refused",
    "C124_half_refuted",
    "C124_lost_refuted"
   ],
   "note": "REFUTED for errors while a shortcut is filled in (C124_half_refuted: it is saved without its target, because saving is in a finally clause; C124_lost_refuted: the error is lost if saving fails, too). Proved: Excel is asked for once; which projects are given out; that shortcuts are saved once and last, complete if there is no error, and not at all if they cannot be created."
  },
  {
   "property": "C125",
   "status": "partial",
   "theorems": [
    "C125_lines",
    "C125_path",
    "C125_quote_refuted",
    "C125_module",
    "C125_module_refuted",
    "C125_cell_refuted"
   ],
   "note": "REFUTED for paths with quotes, of which Python reads only what comes before the quote (C125_quote_refuted), for workbooks whose name is no name of Python (C125_module_refuted) and for cells of several lines (C125_cell_refuted). Proved for all other paths and cells. Of cells only the text is modelled."
  },
  {
   "property": "C126",
   "status": "proved",
   "theorems": [
    "C126_conforms",
    "C126_levels",
    "C126_levels_conforms",
    "C126_enough"
   ],
   "note": ""
  },
  {
   "property": "C127",
   "status": "partial",
   "theorems": [
    "C127_right",
    "C127_placed",
    "C127_names_refuted",
    "C127_kinds",
    "C127_context",
    "C127_values"
   ],
   "note": "REFUTED for errors of names, whose path lacks the name (C127_names_refuted). Proved for all errors: the path leads to the instance or to the object whose name it is, the schema path to a keyword the instance does not satisfy, and so on for contexts; with defaults, to what the instance has become. Rules of jsonschema itself are modelled from its documentation."
  },
  {
   "property": "C128",
   "status": "proved",
   "theorems": [
    "C128_grown",
    "C128_paths",
    "C128_filled"
   ],
   "note": ""
  },
  {
   "property": "C129",
   "status": "partial",
   "theorems": [
    "C129_alternatives_refuted",
    "C129_traces_refuted",
    "C129_defaultless"
   ],
   "note": "REFUTED: a failing alternative leaves its defaults, which may make the next one fail (C129_alternatives_refuted, C129_traces_refuted). Proved: without defaults and removals the parameters make no difference, whatever the schema."
  },
  {
   "property": "C130",
   "status": "partial",
   "theorems": [
    "C130_properties",
    "C130_boolean_refuted",
    "C130_otherwise"
   ],
   "note": "REFUTED: boolean schemas of named properties raise TypeError with automatic defaults, always (C130_properties, C130_boolean_refuted). Proved: nothing else does."
  },
  {
   "property": "C131",
   "status": "partial",
   "theorems": [
    "C131_passes_refuted",
    "C131_changes_refuted",
    "C131_again",
    "C131_conforms"
   ],
   "note": "REFUTED: defaults filled in may break a rule that was applied before (enum), null properties may be removed after they were counted as given, and a property that was removed gets its default the next time. Proved for parameters that do not remove nulls and schemas, with references and at any depth, whose rules look at types, bounds, scalar enumerations, or one property or item at a time, each once: what passes is left such that it conforms, and passes again unchanged."
  },
  {
   "property": "C132",
   "status": "partial",
   "theorems": [
    "C132_single",
    "C132_line",
    "C132_by_position",
    "C132_table",
    "C132_mixed_refuted"
   ],
   "note": "REFUTED: numbers and booleans next to texts become texts, also where the shape stays, as numpy has one type per array. Shapes, values and order are proved for cells of one kind, or with an empty one among them."
  },
  {
   "property": "C133",
   "status": "partial",
   "theorems": [
    "C133_file",
    "C133_opens",
    "C133_opened",
    "C133_fails",
    "C133_rectangle",
    "C133_names_refuted"
   ],
   "note": "REFUTED: a listed name with an exclamation mark cannot be written in an xl-ref, and a listed name with a leading space gives the cells of the sheet named without it. Proved: listing gives the names of the file, each of which opens the sheet at its place; whatever opens is listed; listing fails as opening does; rectangles of listed sheets with names that can be written are theirs."
  },
  {
   "property": "C134",
   "status": "partial",
   "theorems": [
    "C134_cells",
    "C134_edges",
    "C134_made",
    "C134_case",
    "C134_sheets",
    "C134_cells_case",
    "C134_models",
    "C134_empty_refuted"
   ],
   "note": "REFUTED: a cell with empty base coordinates is represented like one without any. Proved: cells have the same representation exactly if they agree in their coordinates and in their bases, or have none; edges made by Edge_new have it exactly if they are equal, sheets exactly if they agree in URL, name and place; Edge_new gives equal edges exactly for texts differing in case only, modifiers being taken as they are, or for the default."
  },
  {
   "property": "C135",
   "status": "partial",
   "theorems": [
    "C135_names_found",
    "C135_right_sheet",
    "C135_fails_only_if_closed",
    "C135_fails_exactly",
    "C135_after_close",
    "C135_third_spelling_refuted",
    "C135_name_after_close_refuted",
    "C135_wrong_sheet_after_close_refuted"
   ],
   "note": "REFUTED: a sheet fetched by its name and then by its index as text is replaced in the cache; the first is closed, which unloads the sheet in the book, and a third spelling such as '-1' fails. After closing the factory even the name fails, or finds another sheet if it looks like a number. Proved: until the factory is closed, fetching by name, or by integer counted from the start, always succeeds; whatever is fetched is the sheet meant; a fetch fails exactly if there is no such sheet, or if it was closed before and its id is not cached; after closing the factory all sheets are found if none was closed on its own. The behaviour of xlrd's unload_sheet, release_resources and sheet_by_index is assumed as described in DESIGN.md."
  },
  {
   "property": "C136",
   "status": "partial",
   "theorems": [
    "C136_lines",
    "C136_any_depth",
    "C136_windows_lines",
    "C136_first_line_refuted",
    "C136_form_feed_refuted"
   ],
   "note": "REFUTED: a description whose text starts on its first line, as of many docstrings, keeps the margin of the others, so that its depth shows; other ends of lines, such as form feeds (but not those of Windows), get spaces within the lines. Proved for texts without such characters: blank lines are emptied, the others lose exactly the longest margin common to them and get four spaces; descriptions indented deeper as a whole give the same help."
  }
 ]
}