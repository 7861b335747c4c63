{
 "claims": [
  {
   "property": "C01",
   "status": "proved",
   "theorems": [
    "C01_extraction_genuine",
    "C01_extraction_exact"
   ],
   "note": "Model: `Checks.v`, `Patterns.v`. Specification: `SpecText.v`: `Statement`, `Extracted`, `Misspelt`. Proof: scan theorems of C52 and induction on the text."
  },
  {
   "property": "C02",
   "status": "proved",
   "theorems": [
    "C02_runs_to_last_paren"
   ],
   "note": "Model: `Checks.v`, `Patterns.v`. Specification: `SpecText.v`: `Statement`, `Extracted`, `Misspelt`. Proof: scan theorems of C52 and induction on the text."
  },
  {
   "property": "C03",
   "status": "proved",
   "theorems": [
    "C03_lines"
   ],
   "note": "Model: `Checks.v`, `Patterns.v`. Specification: `SpecText.v`: `Statement`, `Extracted`, `Misspelt`. Proof: scan theorems of C52 and induction on the text."
  },
  {
   "property": "C04",
   "status": "proved",
   "theorems": [
    "C04_absent_or_misspelt"
   ],
   "note": "Model: `Checks.v`, `Patterns.v`. Specification: `SpecText.v`: `Statement`, `Extracted`, `Misspelt`. Proof: scan theorems of C52 and induction on the text."
  },
  {
   "property": "C05",
   "status": "proved",
   "theorems": [
    "C05_parsed_text_legal",
    "C05_illegal_characters"
   ],
   "note": "Model: `Checks.v`. Specification: `SpecText.v`: parity, counting, `Relationship`. Proof: equivalence of the check with the predicate."
  },
  {
   "property": "C06",
   "status": "proved",
   "theorems": [
    "C06_bracket_parity",
    "C06_balance_refuted"
   ],
   "note": "Model: `Checks.v`. Specification: `SpecText.v`: parity, counting, `Relationship`. Proof: equivalence of the check with the predicate. The theorems ending in _refuted show, by a case, that a stronger expectation fails."
  },
  {
   "property": "C07",
   "status": "proved",
   "theorems": [
    "C07_relationships_found",
    "C07_relationships_unique",
    "C07_check_any_statements",
    "C07_missing_bracket_refuted",
    "C07_written_relationships",
    "C07_one_statement",
    "C07_relationship_check",
    "C07_rest_unchecked",
    "C07_every_statement_checked_refuted"
   ],
   "note": "Model: `Checks.v`. Specification: `SpecText.v`: parity, counting, `Relationship`. Proof: equivalence of the check with the predicate. The theorems ending in _refuted show, by a case, that a stronger expectation fails. Model: `Checks.v`, `Statements.v`. Specification: `SpecChecks.v`: relationships, property lists, accepted lists, verdict. Proof: the greedy match is computed for every body of a relationship; scans are unique. The theorems ending in _refuted show, by a case, that a stronger expectation fails."
  },
  {
   "property": "C08",
   "status": "proved",
   "theorems": [
    "C08_property_lists_found",
    "C08_check_any_statements",
    "C08_check_error",
    "C08_comma_colon_count",
    "C08_outside_lists",
    "C08_outside_lists_exists"
   ],
   "note": "Model: `Checks.v`. Specification: `SpecText.v`: parity, counting, `Relationship`. Proof: equivalence of the check with the predicate. Model: `Checks.v`, `Statements.v`. Specification: `SpecChecks.v`: relationships, property lists, accepted lists, verdict. Proof: the greedy match is computed for every body of a relationship; scans are unique."
  },
  {
   "property": "C09",
   "status": "proved",
   "theorems": [
    "C09_patterns_read",
    "C09_make_round_trip",
    "C09_find_round_trip"
   ],
   "note": "Model: `Statements.v`. Specification: `SpecPattern.v`, `SpecGrammar.v`: written patterns and their text. Proof: language of the pattern expression + uniqueness of the preferred match."
  },
  {
   "property": "C10",
   "status": "proved",
   "theorems": [
    "C10_nothing_passed_over",
    "C10_parsed_is_in_text",
    "C10_node_labels",
    "C10_words",
    "C10_parsed_names"
   ],
   "note": "Model: `Statements.v`. Specification: `SpecPattern.v`, `SpecGrammar.v`: written patterns and their text. Proof: language of the pattern expression + uniqueness of the preferred match."
  },
  {
   "property": "C11",
   "status": "proved",
   "theorems": [
    "C11_one_pattern",
    "C11_make_duplicates",
    "C11_parsed_distinct"
   ],
   "note": "Model: `Statements.v`. Specification: handles as lists. Proof: case analysis over the five pieces."
  },
  {
   "property": "C12",
   "status": "proved",
   "theorems": [
    "C12_make_keyword_case",
    "C12_find_keyword_case"
   ],
   "note": "Model: `Statements.v`. Specification: handles as lists. Proof: case analysis over the five pieces."
  },
  {
   "property": "C13",
   "status": "proved",
   "theorems": [
    "C13_exactly_one_type",
    "C13_no_assignment_error"
   ],
   "note": "Model: `Props.v`, `Literal.v`. Specification: `SpecValue.v`: written values, their text and their meaning. Proof: induction on the list of properties / elements."
  },
  {
   "property": "C14",
   "status": "proved",
   "theorems": [
    "C14_properties_are_stored",
    "C14_repeated_keys",
    "C14_reserved_words_refused",
    "C14_long_number_refused",
    "C14_prefix_of_a_value_refuted"
   ],
   "note": "Model: `Props.v`, `Literal.v`. Specification: `SpecValue.v`: written values, their text and their meaning. Proof: induction on the list of properties / elements. The theorems ending in _refuted show, by a case, that a stronger expectation fails."
  },
  {
   "property": "C15",
   "status": "proved",
   "theorems": [
    "C15_strings_are_trimmed",
    "C15_blank_behind_keeps_the_quote",
    "C15_quotes_and_blanks_are_lost"
   ],
   "note": "Model: `Props.v`, `Literal.v`. Specification: `SpecValue.v`: written values, their text and their meaning. Proof: induction on the list of properties / elements."
  },
  {
   "property": "C16",
   "status": "proved",
   "theorems": [
    "C16_lists_are_stored",
    "C16_literal_words_in_strings_are_altered",
    "C16_bare_word_is_a_ValueError",
    "C16_long_number_refused",
    "C16_empty_list_refuted"
   ],
   "note": "Model: `Props.v`, `Literal.v`. Specification: `SpecValue.v`: written values, their text and their meaning. Proof: induction on the list of properties / elements. The theorems ending in _refuted show, by a case, that a stronger expectation fails."
  },
  {
   "property": "C17",
   "status": "proved",
   "theorems": [
    "C17_left_relationship_direction",
    "C17_right_relationship_direction",
    "C17_two_heads_refused",
    "C17_blank_behind_arrow_refuted"
   ],
   "note": "Model: `Make.v`, `Data.v`. Specification: `SpecMake.v`: numbers, links, entries; `SpecHistory.v`. Proof: induction on the pattern list; histories by induction. The theorems ending in _refuted show, by a case, that a stronger expectation fails."
  },
  {
   "property": "C18",
   "status": "proved",
   "theorems": [
    "C18_numbers_consecutive",
    "C18_numbers_counted",
    "C18_each_number_once"
   ],
   "note": "Model: `Make.v`, `Data.v`. Specification: `SpecMake.v`: numbers, links, entries; `SpecHistory.v`. Proof: induction on the pattern list; histories by induction."
  },
  {
   "property": "C19",
   "status": "proved",
   "theorems": [
    "C19_right_node_lost"
   ],
   "note": "Model: `Make.v`, `Data.v`. Specification: `SpecMake.v`: numbers, links, entries; `SpecHistory.v`. Proof: induction on the pattern list; histories by induction."
  },
  {
   "property": "C20",
   "status": "proved",
   "theorems": [
    "C20_nodes_list_their_own",
    "C20_ends_stored_unless_right_node"
   ],
   "note": "Model: `Make.v`, `Data.v`. Specification: `SpecMake.v`: numbers, links, entries; `SpecHistory.v`. Proof: induction on the pattern list; histories by induction."
  },
  {
   "property": "C21",
   "status": "proved",
   "theorems": [
    "C21_bad_pattern_changes_nothing",
    "C21_unacceptable_changes_nothing",
    "C21_taken_number_changes_nothing",
    "C21_unreadable_counter_changes_nothing",
    "C21_unreadable_database_changes_nothing"
   ],
   "note": "Model: `Make.v`, `Data.v`. Specification: `SpecMake.v`: numbers, links, entries; `SpecHistory.v`. Proof: induction on the pattern list; histories by induction."
  },
  {
   "property": "C22",
   "status": "proved",
   "theorems": [
    "C22_successful_make_effect",
    "C22_make_succeeds"
   ],
   "note": "Model: `Make.v`, `Data.v`. Specification: `SpecMake.v`: numbers, links, entries; `SpecHistory.v`. Proof: induction on the pattern list; histories by induction."
  },
  {
   "property": "C23",
   "status": "proved",
   "theorems": [
    "C23_no_relationship_corrupts_index",
    "C23_only_half_done_cases"
   ],
   "note": "Model: `Make.v`, `Data.v`. Specification: `SpecMake.v`: numbers, links, entries; `SpecHistory.v`. Proof: induction on the pattern list; histories by induction."
  },
  {
   "property": "C24",
   "status": "proved",
   "theorems": [
    "C24_wedged",
    "C24_next_make_node_exists"
   ],
   "note": "Model: `Make.v`, `Data.v`. Specification: `SpecMake.v`: numbers, links, entries; `SpecHistory.v`. Proof: induction on the pattern list; histories by induction."
  },
  {
   "property": "C25",
   "status": "proved",
   "theorems": [
    "C25_nodes_never_lost"
   ],
   "note": "Model: `Make.v`, `Data.v`. Specification: `SpecMake.v`: numbers, links, entries; `SpecHistory.v`. Proof: induction on the pattern list; histories by induction."
  },
  {
   "property": "C26",
   "status": "proved",
   "theorems": [
    "C26_taken_number_refused",
    "C26_new_numbers_added"
   ],
   "note": "Model: `Store.v`, `FS.v`. Specification: `SpecStore.v`: what a well-formed graph is. Proof: symbolic execution of the file programs."
  },
  {
   "property": "C27",
   "status": "proved",
   "theorems": [
    "C27_make_with_unwritable_value",
    "C27_unwritable_item_destroys_database"
   ],
   "note": "Model: `Store.v`, `FS.v`. Specification: `SpecStore.v`: what a well-formed graph is. Proof: symbolic execution of the file programs."
  },
  {
   "property": "C28",
   "status": "proved",
   "theorems": [
    "C28_new_text_not_shorter",
    "C28_no_residue",
    "C28_foreign_file_refuted"
   ],
   "note": "Model: `Store.v`, `FS.v`. Specification: `SpecStore.v`: what a well-formed graph is. Proof: symbolic execution of the file programs. The theorems ending in _refuted show, by a case, that a stronger expectation fails."
  },
  {
   "property": "C29",
   "status": "proved",
   "theorems": [
    "C29_round_trip",
    "C29_not_shorter",
    "C29_not_longer",
    "C29_injective",
    "C29_surrogates_refuted"
   ],
   "note": "Model: `Json.v`. Specification: `SpecJson.v`. Proof: mutual induction on values, with arbitrary following text. The theorems ending in _refuted show, by a case, that a stronger expectation fails."
  },
  {
   "property": "C30",
   "status": "proved",
   "theorems": [
    "C30_counter_round_trip",
    "C30_empty_counter_refused"
   ],
   "note": "Model: `Store.v`, `FS.v`. Specification: `SpecStore.v`: what a well-formed graph is. Proof: symbolic execution of the file programs."
  },
  {
   "property": "C31",
   "status": "proved",
   "theorems": [
    "C31_labels_union",
    "C31_names_union",
    "C31_relationships_union",
    "C31_add_twice",
    "C31_add_names_twice",
    "C31_add_relationships_twice",
    "C31_no_relationships_refuted",
    "C31_text_never_shorter"
   ],
   "note": "Model: `Store.v`, `FS.v`. Specification: `SpecStore.v`: what a well-formed graph is. Proof: symbolic execution of the file programs. The theorems ending in _refuted show, by a case, that a stronger expectation fails."
  },
  {
   "property": "C32",
   "status": "proved",
   "theorems": [
    "C32_wipe_needs_confirmation",
    "C32_wipe_database",
    "C32_wipe_one_index"
   ],
   "note": "Model: `Store.v`, `FS.v`. Specification: `SpecStore.v`: what a well-formed graph is. Proof: symbolic execution of the file programs."
  },
  {
   "property": "C33",
   "status": "proved",
   "theorems": [
    "C33_crash_states",
    "C33_readable_database_is_old_or_new",
    "C33_database_can_tear_anywhere"
   ],
   "note": "Model: crash interpreter of `FS.v`. Specification: `SpecCrash.v`. Proof: case analysis over the crash points of the program."
  },
  {
   "property": "C34",
   "status": "proved",
   "theorems": [
    "C34_crash_wedges",
    "C34_half_done_is_stuck",
    "C34_next_make_node_exists",
    "C34_empty_counter_is_stuck",
    "C34_every_make_can_wedge",
    "C34_torn_counter_reuses_numbers_refuted"
   ],
   "note": "Model: crash interpreter of `FS.v`. Specification: `SpecCrash.v`. Proof: case analysis over the crash points of the program. The theorems ending in _refuted show, by a case, that a stronger expectation fails."
  },
  {
   "property": "C35",
   "status": "proved",
   "theorems": [
    "C35_find_changes_no_file",
    "C35_report_does_nothing",
    "C35_query_without_make_changes_no_file"
   ],
   "note": "Model: `Find.v`. Specification: `SpecFind.v`. Proof: case analysis; reachable graphs by induction."
  },
  {
   "property": "C36",
   "status": "proved",
   "theorems": [
    "C36_two_node_find_raises",
    "C36_two_node_query_fails",
    "C36_parsed_patterns"
   ],
   "note": "Model: `Find.v`. Specification: `SpecFind.v`. Proof: case analysis; reachable graphs by induction."
  },
  {
   "property": "C37",
   "status": "proved",
   "theorems": [
    "C37_stored_label_found",
    "C37_unknown_label_not_found",
    "C37_found_is_stored_refuted"
   ],
   "note": "Model: `Find.v`. Specification: `SpecFind.v`. Proof: case analysis; reachable graphs by induction. The theorems ending in _refuted show, by a case, that a stronger expectation fails."
  },
  {
   "property": "C38",
   "status": "proved",
   "theorems": [
    "C38_find_outcome",
    "C38_made_names_are_not_found"
   ],
   "note": "Model: `Find.v`. Specification: `SpecFind.v`. Proof: case analysis; reachable graphs by induction."
  },
  {
   "property": "C39",
   "status": "proved",
   "theorems": [
    "C39_right_node_looked_up_wrongly",
    "C39_right_node_ignored"
   ],
   "note": "Model: `Find.v`. Specification: `SpecFind.v`. Proof: case analysis; reachable graphs by induction."
  },
  {
   "property": "C40",
   "status": "proved",
   "theorems": [
    "C40_first_pattern_decides",
    "C40_written_patterns",
    "C40_no_pattern_raises"
   ],
   "note": "Model: `Statements.v`. Specification: `SpecPattern.v`, `SpecGrammar.v`: written patterns and their text. Proof: language of the pattern expression + uniqueness of the preferred match."
  },
  {
   "property": "C41",
   "status": "proved",
   "theorems": [
    "C41_report_accepted_iff",
    "C41_no_report"
   ],
   "note": "Model: `Query.v`. Specification: as above. Proof: composition."
  },
  {
   "property": "C42",
   "status": "proved",
   "theorems": [
    "C42_two_finds",
    "C42_two_reports"
   ],
   "note": "Model: `Query.v`. Specification: as above. Proof: composition."
  },
  {
   "property": "C43",
   "status": "proved",
   "theorems": [
    "C43_without_find_nothing_happens"
   ],
   "note": "Model: `Query.v`. Specification: as above. Proof: composition."
  },
  {
   "property": "C44",
   "status": "proved",
   "theorems": [
    "C44_unparsable_nothing_happens",
    "C44_make_then_find",
    "C44_find_alone",
    "C44_atomic_refuted"
   ],
   "note": "Model: `Query.v`. Specification: as above. Proof: composition. The theorems ending in _refuted show, by a case, that a stronger expectation fails."
  },
  {
   "property": "C45",
   "status": "proved",
   "theorems": [
    "C45_with_a_blank_always_fails",
    "C45_make_takes_the_line",
    "C45_without_blank_the_find_is_made"
   ],
   "note": "Model: `Statements.v`. Specification: `SpecPattern.v`, `SpecGrammar.v`: written patterns and their text. Proof: language of the pattern expression + uniqueness of the preferred match."
  },
  {
   "property": "C46",
   "status": "proved",
   "theorems": [
    "C46_shell_is_a_session",
    "C46_session_unique",
    "C46_ends_with_q_or_input",
    "C46_help_is_not_executed"
   ],
   "note": "Model: `Query.v` (shell). Specification: `SpecShell.v`: `Session` as a relation. Proof: induction on the input lines."
  },
  {
   "property": "C47",
   "status": "proved",
   "theorems": [
    "C47_new_graph_is_empty_and_well_formed",
    "C47_new_graph_by_dialogue"
   ],
   "note": "Model: `Gdbms.v`. Specification: `SpecGdbms.v`. Proof: symbolic execution; sorting and glob lemmas."
  },
  {
   "property": "C48",
   "status": "proved",
   "theorems": [
    "C48_taken_name_is_refused",
    "C48_creation_keeps_everything",
    "C48_first_dialogue_keeps_everything",
    "C48_refused_creation_leaves_a_file_refuted"
   ],
   "note": "Model: `Gdbms.v`. Specification: `SpecGdbms.v`. Proof: symbolic execution; sorting and glob lemmas. The theorems ending in _refuted show, by a case, that a stronger expectation fails."
  },
  {
   "property": "C49",
   "status": "proved",
   "theorems": [
    "C49_menu_is_unique",
    "C49_menu_shown",
    "C49_letter_selects",
    "C49_only_the_first_26",
    "C49_dialogue_bound_suffices"
   ],
   "note": "Model: `Gdbms.v`. Specification: `SpecGdbms.v`. Proof: symbolic execution; sorting and glob lemmas."
  },
  {
   "property": "C50",
   "status": "proved",
   "theorems": [
    "C50_delete_removes_the_folder_only",
    "C50_delete_missing_raises",
    "C50_star_deletes_all_refuted",
    "C50_brackets_cannot_be_deleted_refuted",
    "C50_empty_name_deletes_in_root_refuted",
    "C50_hidden_file_stops_deletion_refuted"
   ],
   "note": "Model: `Gdbms.v`. Specification: `SpecGdbms.v`. Proof: symbolic execution; sorting and glob lemmas. The theorems ending in _refuted show, by a case, that a stronger expectation fails."
  },
  {
   "property": "C51",
   "status": "proved",
   "theorems": [
    "C51_overlap_loses_one",
    "C51_no_overlap_is_sequential",
    "C51_schedules_are_interleavings",
    "C51_both_succeed_one_lost_refuted",
    "C51_both_succeed_unreadable_refuted"
   ],
   "note": "Model: interleaving interpreter of `FS.v`. Specification: `SpecConc.v`. Proof: invariants over all schedules. The theorems ending in _refuted show, by a case, that a stronger expectation fails."
  },
  {
   "property": "C52",
   "status": "proved",
   "theorems": [
    "C52_match_iff_language",
    "C52_match_is_preferred",
    "C52_priority_list_complete",
    "C52_scan",
    "C52_scan_covers",
    "C52_search"
   ],
   "note": "Model: `Regex.v`. Specification: `RegexSpec.v`: language of an expression, priority list. Proof: matcher = first element of the priority list; the list is sound and complete for the language; induction on fuel, with fuel shown adequate."
  },
  {
   "property": "C53",
   "status": "proved",
   "theorems": [
    "C53_created_at_is_import_time"
   ],
   "note": "Model: `Make.v`, `Data.v`. Specification: `SpecMake.v`: numbers, links, entries; `SpecHistory.v`. Proof: induction on the pattern list; histories by induction."
  },
  {
   "property": "C54",
   "status": "proved",
   "theorems": [
    "C54_plain_name_paths",
    "C54_different_names_different_files",
    "C54_absolute_name_ignores_folder",
    "C54_empty_name_is_in_the_root"
   ],
   "note": "Model: `Gdbms.v`. Specification: `SpecGdbms.v`. Proof: symbolic execution; sorting and glob lemmas."
  },
  {
   "property": "C55",
   "status": "proved",
   "theorems": [
    "C55_query_touches_own_files",
    "C55_make_touches_own_files",
    "C55_session_touches_own_files",
    "C55_crash_touches_own_files",
    "C55_graphs_do_not_interfere"
   ],
   "note": "Model: interleaving interpreter of `FS.v`. Specification: `SpecConc.v`. Proof: invariants over all schedules."
  },
  {
   "property": "C56",
   "status": "proved",
   "theorems": [
    "C56_written_make_is_stored"
   ],
   "note": "Model: everything from the text to the files. Specification: `SpecWhole.v`. Proof: composition of C09, C14-C16, C22."
  },
  {
   "property": "C57",
   "status": "proved",
   "theorems": [
    "C57_query_stores_and_answers"
   ],
   "note": "Model: `Query.v`. Specification: as above. Proof: composition."
  },
  {
   "property": "C58",
   "status": "proved",
   "theorems": [
    "C58_a_new_graph_is_sound",
    "C58_queries_keep_a_graph_sound",
    "C58_every_end_is_stored_refuted"
   ],
   "note": "Model: query histories. Specification: `SpecSound.v`. Proof: invariant by induction on the list of queries. The theorems ending in _refuted show, by a case, that a stronger expectation fails."
  },
  {
   "property": "C59",
   "status": "proved",
   "theorems": [
    "C59_verdict",
    "C59_accepted"
   ],
   "note": "Model: `Checks.v`, `Statements.v`. Specification: `SpecChecks.v`: relationships, property lists, accepted lists, verdict. Proof: the greedy match is computed for every body of a relationship; scans are unique."
  },
  {
   "property": "C60",
   "status": "proved",
   "theorems": [
    "C60_any_text",
    "C60_one_reading",
    "C60_no_colon",
    "C60_number_cut",
    "C60_null_cut",
    "C60_bool_cut",
    "C60_empty_list"
   ],
   "note": "Model: `Props.v`. Specification: `SpecProps.v`: a reader without regular expressions, the values it gives. Proof: each part of the expression is shown to be computed by the reader (first element of its list of matches), then the scan; the cut values are corollaries."
  },
  {
   "property": "C61",
   "status": "proved",
   "theorems": [
    "C61_without_criteria",
    "C61_answer_unchanged",
    "C61_when_refused",
    "C61_conditions"
   ],
   "note": "Model: `Criteria.v`: FIND with its optional argument. Specification: `SpecCriteria.v`: usable criteria, merged conditions. Proof: step-by-step comparison of the two transformations; exact condition by inversion."
  },
  {
   "property": "C62",
   "status": "proved",
   "theorems": [
    "C62_all_or_nothing",
    "C62_answered_is_there",
    "C62_unreadable_for_ever",
    "C62_answered_lost_refuted"
   ],
   "note": "Model: `Query.v`, `FS.v`: runs and crashes of whole queries. Specification: `SpecDurable.v`: histories of answered, failed and cut-off queries, what each left behind. Proof: a crash of a MAKE seen from the database alone (any contents of the other two files), then induction over the history. The theorems ending in _refuted show, by a case, that a stronger expectation fails."
  },
  {
   "property": "C63",
   "status": "proved",
   "theorems": [
    "C63_make_is_not_disturbed",
    "C63_query_without_make_disturbs_none",
    "C63_find_answer",
    "C63_beside_a_successful_make",
    "C63_before_or_after_refuted"
   ],
   "note": "Model: `Find.v`, `Make.v`, `FS.v`: interleavings of whole file operations. Specification: `SpecBeside.v`: an index met before, after or unreadable; the answer for given labels and names. Proof: every moment of a MAKE leaves the indexes file untouched, grown or spoilt (needs: the text of an index never gets shorter, `IndexText.v`), then the two reads of the FIND. The theorems ending in _refuted show, by a case, that a stronger expectation fails."
  },
  {
   "property": "C64",
   "status": "proved",
   "theorems": [
    "C64_old_nodes_and_whole_makes",
    "C64_same_counter_one_survives",
    "C64_answered_lost_refuted"
   ],
   "note": "Model: `Query.v`, `FS.v`: a list of programs, one operation of one of them at a time. Specification: `SpecMany.v`: `together` (any order, any moment), `made_by`, `reads_first`. Proof: invariant over all processes: each is quiet, about to read the counter, about to read the database, or about to write what it read plus its own nodes; every text of the database ends in a brace, so a shorter text over a longer one cannot be read. The theorems ending in _refuted show, by a case, that a stronger expectation fails."
  },
  {
   "property": "C65",
   "status": "proved",
   "theorems": [
    "C65_executed_lines",
    "C65_a_run",
    "C65_first_run",
    "C65_runs_accumulate"
   ],
   "note": "Model: `Gdbms.v`: `start_wiggle_shell` as a whole (dialogue, then loop). Specification: `SpecRuns.v`: `Executed` lines, `offered`, `runs` (several runs, other files free in between). Proof: programs ignore the terminal output (induction on programs); the loop equals `session` on the executed lines; induction over runs with C49, C58."
  },
  {
   "property": "C66",
   "status": "proved",
   "theorems": [
    "C66_same_errors",
    "C66_same_property_errors",
    "C66_message_explains",
    "C66_no_message",
    "C66_refused_property",
    "C66_unfinished_make",
    "C66_suggestion_refuted",
    "C66_upper_case"
   ],
   "note": "Model: `Messages.v`: every check, the clause parsers and the property parser again, with the text of each message. Specification: `SpecMessages.v`: `explains` (a message and the fault in the query it names), `refused` (a message and the property it is about); `SpecLine.v`: `in_upper_case`. Proof: erasing the messages gives the other model (the set order of the handles does not matter); case analysis with the scans' specifications. The theorems ending in _refuted show, by a case, that a stronger expectation fails."
  },
  {
   "property": "C67",
   "status": "proved",
   "theorems": [
    "C67_lines_stored_then_answered",
    "C67_unmentioned_handle_no_effect",
    "C67_lone_nodes_break_the_graph"
   ],
   "note": "Model: `query` on the text of a list of lines. Specification: `SpecLines.v`: lines of the three kinds in any order (`query_drawn`, `asks`, `made`), what is answered (`hit`, `answers`). Proof: extraction per line (`lines_extracted`), round trips of the statements, C56's stored objects for patterns spread over statements, `find_outcome`."
  },
  {
   "property": "C68",
   "status": "proved",
   "theorems": [
    "C68_same_run",
    "C68_message_explains",
    "C68_no_message",
    "C68_never_raised",
    "C68_intact_failure",
    "C68_shell_talks",
    "C68_talk_is_session",
    "C68_list_shown",
    "C68_text_shown",
    "C68_shown_lists_differ",
    "C68_exception_line"
   ],
   "note": "Model: `MessagesRun.v`: `query` and everything below it again, with the text of each message, `repr` of strings and lists, `__str__` of the exceptions and the shell's answers. Specification: `SpecMessagesRun.v`: `failure` (a message and the reason in query and files), `Talk` (sessions with answers); `SpecShown.v`: `shows` (one character in quotes), `shows_text`; `SpecLine.v`: `project_exceptions`, `message_reads` (the line of an exception). Proof: every function of the second model runs as the first one and keeps the reason (`run_query_same`, `query_failure`), induction over the lines of a session; a decoder for shown texts."
  },
  {
   "property": "C69",
   "status": "proved",
   "theorems": [
    "C69_only_entries",
    "C69_can_be_stored",
    "C69_query_refuted"
   ],
   "note": "Model: `Query.v`, `Make.v`, `Props.v`, `Literal.v`. Specification: `SpecSchema.v`: `entry`, `storable`, `can_be_written`, and the law `rt_lists` of `literal_eval`. Proof: from C62 (what is left behind), C09/C10 (characters of a property text), C60 (values of any text); conversely from C56 with a text built for the object. The theorems ending in _refuted show, by a case, that a stronger expectation fails."
  },
  {
   "property": "C70",
   "status": "proved",
   "theorems": [
    "C70_pieces_alone",
    "C70_make_is_not_disturbed",
    "C70_find_answer",
    "C70_every_tear_is_met",
    "C70_find_after_crash",
    "C70_only_made_labels_found_refuted",
    "C70_only_made_labels_found_beside_refuted",
    "C70_whole_makes_refuted"
   ],
   "note": "Model: `FS.v`, `Find.v`, `Make.v`. Specification: `SpecPieces.v`: `in_pieces` (some writes cut), `taken` (what a reader makes of a text), `index_met` (from `SpecCrash.v`). Proof: a cut program passes exactly the states of `crash`, so C33 describes what a reader meets; the two examples by running the model. The theorems ending in _refuted show, by a case, that a stronger expectation fails."
  },
  {
   "property": "C71",
   "status": "proved",
   "theorems": [
    "C71_join",
    "C71_split",
    "C71_any_part_refuted"
   ],
   "note": "Model: `Make.v`. Specification: `SpecSplit.v`: `in_turn`, `same_graph`, `has_relationship`. Proof: C22 in both directions; the entries, owners, labels and numbers of joined lists of patterns; induction on the number of parts. The theorems ending in _refuted show, by a case, that a stronger expectation fails."
  },
  {
   "property": "C72",
   "status": "proved",
   "theorems": [
    "C72_handles_do_not_matter"
   ],
   "note": "Model: `Make.v`. Specification: `SpecSplit.v`: `same_drawing`. Proof: the two transformations give results that differ in handles and property texts only, step by step; the rest of MAKE does not look at these."
  },
  {
   "property": "C73",
   "status": "proved",
   "theorems": [
    "C73_relationship_built",
    "C73_node_built",
    "C73_export",
    "C73_made_export",
    "C73_read_back",
    "C73_read_back_elsewhere",
    "C73_no_metadata_is_a_KeyError",
    "C73_read_is_proper",
    "C73_self_relationship_named",
    "C73_made_nodes",
    "C73_database_of_nodes",
    "C73_names",
    "C73_ends",
    "C73_node_printed",
    "C73_relationship_printed",
    "C73_relationship_without_name_refuted",
    "C73_partial_export_forgets_the_time_refuted"
   ],
   "note": "Model: `Objects`: Node/Relationship/metadata objects with the set of given fields, their constructors, `dict()` with both options, reading from a dictionary, the index export. Specification: `SpecObjects`: proper objects, what each field of an export is, entry = node. Proof: case analysis over fields; reading back computed field by field and compared; database entries by C69. The theorems ending in _refuted show, by a case, that a stronger expectation fails."
  },
  {
   "property": "C74",
   "status": "proved",
   "theorems": [
    "C74_all_or_nothing",
    "C74_answered_is_there",
    "C74_unreadable_for_ever",
    "C74_only_entries",
    "C74_queries_keep_a_graph_sound",
    "C74_runs_accumulate",
    "C74_old_nodes_and_whole_makes",
    "C74_same_counter_one_survives"
   ],
   "note": "Model: C62, C69, C58, C65 and C64 again, each query (run, program) with a runtime of its own. Specification: `SpecProc`: `process` (laws, same floats), histories, sessions, runs and programs with a process each. Proof: what the files hold does not depend on the runtime beyond floats (induction over JSON values and the JSON reader), then the inductions of those properties with the step lemmas at each process's runtime."
  },
  {
   "property": "C75",
   "status": "proved",
   "theorems": [
    "C75_same_answers",
    "C75_graph_alike",
    "C75_same_graph",
    "C75_same_message_refuted"
   ],
   "note": "Model: two sequences of the same queries (`session_of`), each query with a runtime of its own, from two files states. Specification: `SpecTwin`: `start_of` (same tables and floats, any set order and time), `timeless`, `same_index`, `alike`. Proof: parsing and FIND do not depend on set orders or time (the tokenizer by induction), MAKE's entries only through `import_time`, its index only up to order; a relation between the two worlds kept by each query, also by one that fails half way. The theorems ending in _refuted show, by a case, that a stronger expectation fails."
  },
  {
   "property": "C76",
   "status": "proved",
   "theorems": [
    "C76_same_runs",
    "C76_same_moments",
    "C76_same_queries",
    "C76_same_stores",
    "C76_debug_writes_all",
    "C76_shipped_log",
    "C76_shipped_history",
    "C76_log_counts",
    "C76_one_count",
    "C76_log_tells",
    "C76_answered_log",
    "C76_log_errors",
    "C76_loading",
    "C76_unlogged_nodes_refuted",
    "C76_shipped_log_counts_refuted",
    "C76_password_in_clear_refuted",
    "C76_values_recorded"
   ],
   "note": "Model: `Log`: every function that logs, with its records, as a program with an extra step for a record; runs and runs up to any moment give the records so far; `written`: the records a logger of a given level writes, DEBUG in `graph_logger.py`, WARNING once `query.py` is loaded. Specification: `SpecLog`: `both_empty`, `quiet` and `same_program`, `tally` (counting), `in_clear`, `told`, `damaged`, `make_log`, `find_log`; `SpecLogValue`: `recorded`. Proof: erasing the records gives the modelled program, function by function; a history theorem along C62 with the records of each query; the log of an answered query computed piece by piece; which programs log no error and no count, by structure; the records of level ERROR of finished and cut off queries picked out (`LogLevel`). The theorems ending in _refuted show, by a case, that a stronger expectation fails."
  },
  {
   "property": "C77",
   "status": "proved",
   "theorems": [
    "C77_queries_as_modelled",
    "C77_sessions_as_modelled",
    "C77_creation_as_modelled",
    "C77_deletion_as_modelled",
    "C77_programs_as_modelled",
    "C77_first_dialogue_keeps_everything",
    "C77_creation_keeps_everything",
    "C77_dotdot_lies_outside",
    "C77_over_255_bytes",
    "C77_over_241_bytes",
    "C77_over_237_bytes",
    "C77_long_name_ends_the_program",
    "C77_slash_ends_the_program",
    "C77_long_graph_cannot_be_chosen",
    "C77_half_made_graph_refuted",
    "C77_delete_dotdot_refuted"
   ],
   "note": "Model: `OsNames`: the same programs, run by an operating system that walks along a path: `..` leads up, every folder on the way must exist, a name of more than 255 bytes of UTF-8 is refused. Specification: `SpecOsNames`: `octets` (the length of the UTF-8 encoding, written out), `ordinary`, `way_there`, `good_name`, `names_allowed`, `grown`. Proof: a program whose commands touch only ordinary paths runs alike (induction on programs, with the folders that exist as the invariant); symbolic execution for the other names. The theorems ending in _refuted show, by a case, that a stronger expectation fails."
  },
  {
   "property": "C78",
   "status": "proved",
   "theorems": [
    "C78_query_undisturbed",
    "C78_query_cut_undisturbed",
    "C78_session_undisturbed",
    "C78_creation_undisturbed",
    "C78_creation_cut_undisturbed",
    "C78_deletion_undisturbed",
    "C78_two_creations",
    "C78_creation_beside_query",
    "C78_same_name_loses_answered_nodes_refuted"
   ],
   "note": "Model: the queries, sessions, creations and deletions of the other rows, with the rest of the machine changing the world before each of their operations. Specification: `SpecAmid`: `amid`, `amid_cut`, `leaves`, `leaves_folder`, `orderly`, `own`. Proof: two worlds that agree on the paths a program looks at give the same results and stay in agreement (induction on programs); the deletion lists other folders too, so it is followed step by step; an interleaving is a run amid the other program's steps. The theorems ending in _refuted show, by a case, that a stronger expectation fails."
  },
  {
   "property": "C79",
   "status": "proved",
   "theorems": [
    "C79_creation_cut",
    "C79_every_moment_can_be_the_last",
    "C79_creation_again",
    "C79_delete_and_create_again",
    "C79_incomplete_graph_not_chosen",
    "C79_counter_without_text",
    "C79_counter_with_text",
    "C79_dialogue_cut_keeps_everything",
    "C79_deletion_cut",
    "C79_chosen_but_useless_refuted"
   ],
   "note": "Model: `crash` of `get_new_gdbms_file_paths`, `delete_gdbms` and `select_gdbms`. Specification: `SpecCut`: `moment`, `texts`, `only_graph_differs`; `kept`. Proof: all crash states by symbolic execution of the operations, each shown to be reachable; then the theorems about creation (C47, C48) and deletion (C50) apply to them; a deletion that was cut off has removed a prefix of the list of files. The theorems ending in _refuted show, by a case, that a stronger expectation fails."
  },
  {
   "property": "C80",
   "status": "proved",
   "theorems": [
    "C80_each_as_if_alone",
    "C80_midway_as_if_alone",
    "C80_nothing_else",
    "C80_done_or_goes_on",
    "C80_wildcard_hits_others_refuted"
   ],
   "note": "Model: `query`, `get_new_gdbms_file_paths` and `delete_gdbms`, in lists of jobs per person; any number of such programs at once. Specification: `SpecUsers`: `do_job`, `do_jobs`, `programs`; `together` of `SpecMany`; `own` of `SpecAmid`. Proof: every command of a person is about their own folder; in two worlds that look the same around it (entries and order of its list) such a command has the same result, and commands of the others do not change the look; induction on the schedule. The theorems ending in _refuted show, by a case, that a stronger expectation fails."
  },
  {
   "property": "C81",
   "status": "proved",
   "theorems": [
    "C81_deletion_by_pattern",
    "C81_matching",
    "C81_plain_fits_itself"
   ],
   "note": "Model: `delete_gdbms` with `glob_star`, `fnmatch` and the parsing of patterns. Specification: `SpecWild`: `fits`, `items`, `stands`, `brackets`, `strikes`, `struck`. Proof: the parser of patterns meets the inductive rules (induction on its fuel, which is enough); the list of files the deletion computes is exactly the struck ones that exist, without repetition."
  },
  {
   "property": "C82",
   "status": "proved",
   "theorems": [
    "C82_same_answers",
    "C82_order_and_repetition",
    "C82_more_made_more_found_refuted"
   ],
   "note": "Model: `find` and `make`. Specification: `reached` of `SpecFind`; `label_drawn`, `name_drawn` of `SpecMake`. Proof: both graphs' indexes hold exactly the labels and names made (C37, C38), and the outcome of FIND is a function of which of them are known. The theorems ending in _refuted show, by a case, that a stronger expectation fails."
  },
  {
   "property": "C83",
   "status": "proved",
   "theorems": [
    "C83_answered_alike",
    "C83_printed_alike",
    "C83_sent_twice",
    "C83_series_twice_refuted"
   ],
   "note": "Model: `query` with `make` and `find`. Specification: `SpecDepend`: `same_words`, `until_damage`; `session`, `corrupting` of `SpecSound`. Proof: turning patterns into nodes with another counter gives the same nodes with shifted numbers or the same exception (`ShiftFacts`), so MAKE has the same one of its four outcomes in both graphs and adds the same words; FIND as in C82; induction over the series. The theorems ending in _refuted show, by a case, that a stronger expectation fails."
  },
  {
   "property": "C84",
   "status": "proved",
   "theorems": [
    "C84_order_of_lines",
    "C84_one_query_or_several",
    "C84_order_of_makes_refuted"
   ],
   "note": "Model: `query`, `extract_all_statements`. Specification: `SpecOrder`: `rearranged`, `linking`; `SpecLines`, `SpecSplit`, `session` of `SpecSound`. Proof: the statements taken from a drawn query are its lines of each kind (C67), so rearranged queries are parsed alike; the effects of the parts compose to the effect of the whole (as in C71). The theorems ending in _refuted show, by a case, that a stronger expectation fails."
  },
  {
   "property": "C85",
   "status": "proved",
   "theorems": [
    "C85_prompts_and_answers",
    "C85_visit",
    "C85_same_program",
    "C85_names_the_files",
    "C85_first_visit"
   ],
   "note": "Model: `Terminal`: `start_wiggle_shell_t` and the functions below it that call `input`, with prompts; `gdbms_text`. Specification: `SpecTerminal`: `on_screen`, `wrote`, `prompts`, `typed`, `using_line`, `Naming`, `Picking`, `Choosing`, `Chat`, `Visit`, `abridged`. Proof: runs yield lists of events; laws of `trun` over `tbind`; induction on the rounds; simulation of `start_wiggle_shell`."
  },
  {
   "property": "C86",
   "status": "proved",
   "theorems": [
    "C86_never_refuses",
    "C86_if_switched_on",
    "C86_what_passes",
    "C86_any_case_passes",
    "C86_answered_passes_refuted",
    "C86_passing_is_query_refuted"
   ],
   "note": "Model: `WordTest`: `valid_query`, `split_blank`, the query with its test and the constant that switches it off. Specification: `SpecWords`: `known_words`, `stands_in`, `in_some_case`. Proof: induction on the text for `split`; the rest by cases. The theorems ending in _refuted show, by a case, that a stronger expectation fails."
  },
  {
   "property": "C87",
   "status": "proved",
   "theorems": [
    "C87_examples_answered_refuted",
    "C87_why",
    "C87_lines_answered_refuted",
    "C87_session_changes_nothing"
   ],
   "note": "Model: `Query` and the shell of C46. Specification: `SpecExamples`: the texts of the example files, `documented`, `documented_lines`; `Session`. Proof: parsing computed by the kernel with the runtime, the graph and the disk left as variables; the long MAKEs by C43; induction over the session. The theorems ending in _refuted show, by a case, that a stronger expectation fails."
  },
  {
   "property": "C88",
   "status": "proved",
   "theorems": [
    "C88_written_counts",
    "C88_any_text",
    "C88_make_counts",
    "C88_always_a_node_refuted",
    "C88_counted_are_stored_refuted"
   ],
   "note": "Model: `PatternCount`: `number_of_nodes`, `number_of_relationships`, `pattern_repr` of a parsed pattern. Specification: `SpecCount`: `nodes_written`, `rels_written`, `line_written`, `total`, `third`. Proof: the reading of written statements of C09, the shape of any pattern of C10, the effect of a MAKE of C22; induction over the patterns. The theorems ending in _refuted show, by a case, that a stronger expectation fails."
  }
 ]
}