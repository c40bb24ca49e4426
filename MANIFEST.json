{
 "claims": [
  {
   "property": "C01",
   "status": "proved",
   "theorems": [
    "C01_said_determinism",
    "C01_said_depends_on_content_only",
    "C01_conflicting_frames_refuted"
   ],
   "note": "Exception (conflicting frame metadata) shown by the _refuted theorem."
  },
  {
   "property": "C02",
   "status": "proved",
   "theorems": [
    "C02_bundle_is_box_content"
   ],
   "note": ""
  },
  {
   "property": "C03",
   "status": "proved",
   "theorems": [
    "C03_generated_saids_verify",
    "C03_validator_reports_no_said_error",
    "C03_verdict_is_conditions",
    "C03_condition_error_hides_said_errors_refuted"
   ],
   "note": "The refuted theorem records that a condition error hides SAID errors."
  },
  {
   "property": "C04",
   "status": "proved",
   "theorems": [
    "C04_tamper_evidence",
    "C04_tamper_evidence_capture_base",
    "C04_tamper_evidence_overlay"
   ],
   "note": "Collision-extracting statement."
  },
  {
   "property": "C05",
   "status": "proved",
   "theorems": [
    "C05_never_panics",
    "C05_round_trip",
    "C05_mappings_refuted",
    "C05_category_labels_refuted"
   ],
   "note": "Round trip and panic freedom for every API-reachable box; what is lost (mappings, category labels) is shown by the _refuted theorems."
  },
  {
   "property": "C06",
   "status": "proved",
   "theorems": [
    "C06_round_trip",
    "C06_generated",
    "C06_group_order_refuted",
    "C06_reserved_meta_key_refuted",
    "C06_second_mapping_refuted"
   ],
   "note": ""
  },
  {
   "property": "C07",
   "status": "proved",
   "theorems": [
    "C07_round_trip",
    "C07_links_refuted",
    "C07_framings_refuted",
    "C07_flags_refuted",
    "C07_lang_key_refuted",
    "C07_language_panics"
   ],
   "note": "to_ast modelled in ToAst.v. Round trip for boxes without links, framings, flags, mappings, category labels (C05 shows the last two are lost already by load), languages with a two-letter code, no meta key lang; each exclusion is shown necessary by a _refuted theorem."
  },
  {
   "property": "C08",
   "status": "proved",
   "theorems": [
    "C08_condition_encoding_lossless"
   ],
   "note": ""
  },
  {
   "property": "C09",
   "status": "proved",
   "theorems": [
    "C09_condition_evaluates_original",
    "C09_condition_errors",
    "C09_no_condition"
   ],
   "note": ""
  },
  {
   "property": "C10",
   "status": "proved",
   "theorems": [
    "C10_newer_facts_kept",
    "C10_older_facts_kept",
    "C10_labels_type_flag",
    "C10_first_value_wins",
    "C10_merge_self",
    "C10_associative",
    "C10_panics_iff_names_differ",
    "C10_overwrite_rule_refuted"
   ],
   "note": "Exceptions proved as C10_overwrite_rule_refuted."
  },
  {
   "property": "C11",
   "status": "proved",
   "theorems": [
    "C11_attribute_types",
    "C11_overlay_commands_keep_types"
   ],
   "note": ""
  },
  {
   "property": "C12",
   "status": "proved",
   "theorems": [
    "C12_errors_exactly",
    "C12_success_exactly",
    "C12_error_lines"
   ],
   "note": ""
  },
  {
   "property": "C13",
   "status": "proved",
   "theorems": [
    "C13_step_chain",
    "C13_last_step_is_result"
   ],
   "note": "Last-step equality needs consistent frame metadata (see C01)."
  },
  {
   "property": "C14",
   "status": "proved",
   "theorems": [
    "C14_removed_is_gone",
    "C14_others_untouched",
    "C14_readd_is_fresh",
    "C14_dangling_dependency_refuted"
   ],
   "note": "The refuted theorem records that a dangling dependency makes the validator panic."
  },
  {
   "property": "C15",
   "status": "proved",
   "theorems": [
    "C15_accepts",
    "C15_rejects",
    "C15_other_kinds",
    "C15_assembly",
    "C15_stack_is_capture_base",
    "C15_from_base_refuted",
    "C15_read_file"
   ],
   "note": ""
  },
  {
   "property": "C16",
   "status": "proved",
   "theorems": [
    "C16_named_values_set",
    "C16_other_attributes_unchanged",
    "C16_frame",
    "C16_meta",
    "C16_rejected_exactly",
    "C16_accepted_only_known",
    "C16_unit_readd_refuted"
   ],
   "note": ""
  },
  {
   "property": "C17",
   "status": "proved",
   "theorems": [
    "C17_parse",
    "C17_round_trip",
    "C17_injective",
    "C17_text"
   ],
   "note": "all 21 kinds, all version texts; regex digit class is a parameter"
  },
  {
   "property": "C18",
   "status": "proved",
   "theorems": [
    "C18_decode_encode",
    "C18_encode_decode",
    "C18_injective"
   ],
   "note": ""
  },
  {
   "property": "C19",
   "status": "proved",
   "theorems": [
    "C19_round_trip",
    "C19_injective",
    "C19_no_panic",
    "C19_kind",
    "C19_version_refuted",
    "C19_mapping_refuted",
    "C19_text_refuted"
   ],
   "note": "iff characterisation; failures shown by the _refuted theorems"
  },
  {
   "property": "C20",
   "status": "proved",
   "theorems": [
    "C20_attr_round_trip",
    "C20_attr_back",
    "C20_attr_panic",
    "C20_ref",
    "C20_ref_injective",
    "C20_type"
   ],
   "note": ""
  },
  {
   "property": "C21",
   "status": "proved",
   "theorems": [
    "C21_record_round_trip",
    "C21_encodes_iff_short",
    "C21_long_said_panics",
    "C21_relation_table",
    "C21_earlier_relations_kept",
    "C21_after_files"
   ],
   "note": "Codec round trip and, for every history of builds (also of files through the facade), the exact relation table; SAIDs over 255 bytes panic."
  },
  {
   "property": "C22",
   "status": "proved",
   "theorems": [
    "C22_history_replay",
    "C22_commands_replay",
    "C22_unchanged_step_refuted",
    "C22_revisited_state_refuted"
   ],
   "note": "History read back equals the steps built, and replaying gives the bundle; the two cases where the code breaks it (no-op step, revisited state) are proved as refutations."
  },
  {
   "property": "C23",
   "status": "proved",
   "theorems": [
    "C23_build_then_fetch",
    "C23_unknown_said",
    "C23_consistent",
    "C23_result_fetchable"
   ],
   "note": "Every SAID a build stored is fetchable as the bundle built; unknown SAIDs give None; consistency of the store is kept over any history."
  },
  {
   "property": "C24",
   "status": "proved",
   "theorems": [
    "C24_dependency_closure",
    "C24_terminates",
    "C24_succeeds_iff_all_present",
    "C24_cycle_never_succeeds"
   ],
   "note": "Dependency fetch returns exactly the reachable bundles, terminates on acyclic graphs, never on cycles."
  },
  {
   "property": "C25",
   "status": "proved",
   "theorems": [
    "C25_resolves",
    "C25_unknown_name",
    "C25_names_registered",
    "C25_facade_resolves",
    "C25_nested_array_refuted"
   ],
   "note": "Resolution = replacing every resolvable name by its SAID and nothing else; fails exactly on an unknown name; the facade's table is the names of its history; nested arrays are left (refuted)."
  },
  {
   "property": "C26",
   "status": "proved",
   "theorems": [
    "C26_builds_on_stored_base",
    "C26_any_base",
    "C26_any_base_met",
    "C26_later_from_rejected",
    "C26_unknown_base_ignored",
    "C26_unknown_base_refuted",
    "C26_named_base_panics"
   ],
   "note": "A FROM of a stored bundle, followed by commands, builds the same bundle (up to the entry-code order the JSON text loses) as the earlier commands followed by the new ones; C26_any_base: for any base left by a history of validations and builds (also one built FROM a base); later FROM commands are rejected; an unknown SAID base is silently ignored (finding, refuted); a FROM by name panics (finding)."
  },
  {
   "property": "C27",
   "status": "proved",
   "theorems": [
    "C27_memory",
    "C27_sled",
    "C27_files",
    "C27_unopened",
    "C27_files_listing_refuted",
    "C27_namespaces"
   ],
   "note": ""
  },
  {
   "property": "C28",
   "status": "proved",
   "theorems": [
    "C28_page",
    "C28_walk",
    "C28_page_zero_refuted"
   ],
   "note": ""
  },
  {
   "property": "C29",
   "status": "proved",
   "theorems": [
    "C29_insert",
    "C29_never_changes",
    "C29_contents",
    "C29_search_index"
   ],
   "note": ""
  },
  {
   "property": "C30",
   "status": "proved",
   "theorems": [
    "C30_version_dag",
    "C30_builds",
    "C30_base_is_not_parent_refuted",
    "C30_second_link_refuted"
   ],
   "note": "All step sequences; findings: FROM base missing as parent, links share a line."
  },
  {
   "property": "C31",
   "status": "proved",
   "theorems": [
    "C31_encoding",
    "C31_graph",
    "C31_long_names_panic"
   ],
   "note": "All add sequences."
  },
  {
   "property": "C32",
   "status": "proved",
   "theorems": [
    "C32_success_exactly",
    "C32_operations_recorded",
    "C32_record_determines",
    "C32_agrees_with_build",
    "C32_errors_never_reported",
    "C32_failed_command_discards",
    "C32_failed_command_refuted",
    "C32_failure_keeps_earlier_steps",
    "C32_long_command_panics",
    "C32_no_commands_panic",
    "C32_closed_store",
    "C32_from_resumes",
    "C32_from_unresolved"
   ],
   "note": "No FROM: success exactly characterised, one chained record per command, other keys untouched, same result as the ordinary build. The expectation that a rejected command keeps the state is refuted (C32_failed_command_refuted; general law C32_failed_command_discards). FROM resumes a stored build."
  },
  {
   "property": "C33",
   "status": "proved",
   "theorems": [
    "C33_accepts_iff_translated",
    "C33_validator_uses_it",
    "C33_validator_adds_nothing",
    "C33_unexpected_exact",
    "C33_missing_exact",
    "C33_missing_key_exact",
    "C33_no_languages"
   ],
   "note": ""
  },
  {
   "property": "C34",
   "status": "proved",
   "theorems": [
    "C34_file",
    "C34_table",
    "C34_build",
    "C34_removed_unique",
    "C34_tag_dropped",
    "C34_said_covers",
    "C34_only_content_counts",
    "C34_link_is_rename_refuted",
    "C34_tag_inside_refuted",
    "C34_json_round_trip",
    "C34_command_json_round_trip",
    "C34_byte_codec",
    "C34_from_refuted",
    "C34_arrow_refuted",
    "C34_comment_in_continuation_refuted",
    "C34_generate_refuted"
   ],
   "note": "Parser for any laid-out transformation file, the build for every AST, SAID coverage, JSON codecs; findings as _refuted theorems"
  },
  {
   "property": "C35",
   "status": "proved",
   "theorems": [
    "C35_dispatch",
    "C35_plain_text",
    "C35_build_from_text",
    "C35_facade_build",
    "C35_dashes_refuted",
    "C35_said_dashes_refuted",
    "C35_value_switches_parser_refuted",
    "C35_quoted_precompiler_refuted",
    "C35_collect",
    "C35_encode",
    "C35_said_covers",
    "C35_round_trip"
   ],
   "note": "Dispatch for every text made of text without '--' outside comments and well-formed metadata statements; findings show what other '--' texts do; bundle collection, SAID and round trip"
  },
  {
   "property": "C36",
   "status": "proved",
   "theorems": [
    "C36_type_rule",
    "C36_type_in_command",
    "C36_type_text_injective",
    "C36_reference_by_name_refuted"
   ],
   "note": "Grammar (pest rules as a PEG), extractor and generator modelled; refn: types cannot be written (finding)."
  },
  {
   "property": "C37",
   "status": "proved",
   "theorems": [
    "C37_incremental_build"
   ],
   "note": "Outcome equality of incremental and direct builds, for agreeing framings."
  },
  {
   "property": "C38",
   "status": "proved",
   "theorems": [
    "C38_panics_exactly",
    "C38_no_base"
   ],
   "note": ""
  },
  {
   "property": "C39",
   "status": "proved",
   "theorems": [
    "C39_classification",
    "C39_flags_come_from_base",
    "C39_flagged_attributes_ignored_refuted"
   ],
   "note": ""
  },
  {
   "property": "C40",
   "status": "proved",
   "theorems": [
    "C40_round_trip",
    "C40_injective",
    "C40_long_parent_panics"
   ],
   "note": "Operation record stored per build step decodes to itself; encoding is injective; a parent SAID over 255 bytes panics."
  },
  {
   "property": "C41",
   "status": "proved",
   "theorems": [
    "C41_round_trip",
    "C41_accepted_again",
    "C41_same_said",
    "C41_framing_round_trip",
    "C41_framing_accepted_again",
    "C41_framing_same_build",
    "C41_framing_settles",
    "C41_framing_hypotheses_met",
    "C41_name_characters",
    "C41_word_characters",
    "C41_more_words",
    "C41_language_characters",
    "C41_plain_quotable",
    "C41_from_refuted",
    "C41_quotes_refuted",
    "C41_flagged_refuted",
    "C41_remove_overlay_refuted",
    "C41_meta_order_refuted",
    "C41_metadata_refuted",
    "C41_attributes_and_classification_refuted",
    "C41_framing_capitals_refuted",
    "C41_framing_merge_refuted"
   ],
   "note": "Printable commands characterised in Spec_OcaFile, its character classes spelled out in Props_Chars; the command kinds that do not survive are proved as refutations. ATTR_FRAMING commands, written on several lines, are covered by the framing theorems (Spec_Framing)."
  },
  {
   "property": "C42",
   "status": "proved",
   "theorems": [
    "C42_layout",
    "C42_framing_layout",
    "C42_comments_do_not_matter",
    "C42_transformation_name_characters",
    "C42_blank_characters",
    "C42_comment_characters",
    "C42_comment_in_continuation_refuted",
    "C42_line_number_refuted",
    "C42_flagged_names_refuted",
    "C42_remove_meta_refuted",
    "C42_metadata_value_refuted",
    "C42_blank_after_framing_refuted"
   ],
   "note": "Lines as in Spec_OcaFile.fline, and ATTR_FRAMING commands over several lines as the generator writes them (Spec_Framing.gline); other continuation lines only through the findings; the characters spelled out in Props_Chars."
  },
  {
   "property": "C43",
   "status": "proved",
   "theorems": [
    "C43_objects",
    "C43_unknown_object",
    "C43_step_object_panics",
    "C43_listing",
    "C43_capture_listing",
    "C43_search",
    "C43_indexed",
    "C43_results_of_files",
    "C43_stored_objects_refuted",
    "C43_empty_file_panics"
   ],
   "note": "A search engine is an oracle that returns rows of the index; C43_hypotheses_met gives a history of two builds."
  },
  {
   "property": "C44",
   "status": "proved",
   "theorems": [
    "C44_writes_are_the_build",
    "C44_writes_are_the_file_build",
    "C44_stop_keeps_bundles",
    "C44_stop_keeps_histories",
    "C44_redo",
    "C44_redo_file",
    "C44_relations_of_builds",
    "C44_listed_not_stored_refuted",
    "C44_record_before_bundle_refuted",
    "C44_named_not_stored_refuted",
    "C44_own_name_refuted"
   ],
   "note": "Traced writes of the facade build; any stop, any number of stopped attempts, then a full run. Four refuted claims record what a stop does expose."
  },
  {
   "property": "C45",
   "status": "proved",
   "theorems": [
    "C45_stored_graph",
    "C45_record_unique",
    "C45_bundle_record"
   ],
   "note": "Record of every node after a build; C45_hypotheses_met shows a build of four steps."
  },
  {
   "property": "C46",
   "status": "proved",
   "theorems": [
    "C46_build_succeeds",
    "C46_file_build_succeeds"
   ],
   "note": "For every history of file validations and builds: build = validate for errors, otherwise success. Assumes plain_digest (44-character SAIDs) and no digest collision between the built objects."
  },
  {
   "property": "C47",
   "status": "proved",
   "theorems": [
    "C47_history_rebuilds",
    "C47_text_builds",
    "C47_export_builds",
    "C47_file_export",
    "C47_bundle_export",
    "C47_framing_text_builds",
    "C47_framing_export_builds",
    "C47_framing_file_export"
   ],
   "note": "History replay (any run), text export (parser accepts iff the commands can stand in one file), single-file export, export of a bundle through its AST; C47_framing_* the same with ATTR_FRAMING commands, which are written on several lines. Findings: C47_readded_attribute_refuted, C47_classification_refuted. C47_hypotheses_met, C47_bundle_example and C47_framing_hypotheses_met show concrete cases."
  },
  {
   "property": "C48",
   "status": "proved",
   "theorems": [
    "C48_reading_ends",
    "C48_no_panic",
    "C48_commands",
    "C48_build_ends",
    "C48_validate_ends",
    "C48_overlay_removal_aborts",
    "C48_language_region_refuted",
    "C48_empty_file_refuted",
    "C48_remove_label_refuted",
    "C48_bad_link_refuted",
    "C48_lang_property_refuted",
    "C48_comment_in_frame_refuted"
   ],
   "note": "Panic of the reader is confined to texts with a backslash between braces (shown to happen: a comment among frames). The forms are an inductive specification (Spec_Read). For the facade the base must load and registered names must be SAIDs (C25)."
  },
  {
   "property": "C49",
   "status": "proved",
   "theorems": [
    "C49_transformation_reads",
    "C49_transformation_builds",
    "C49_any_file_reads",
    "C49_file_builds",
    "C49_history_builds",
    "C49_no_target_refuted",
    "C49_kind_only_refuted"
   ],
   "note": "Storability of the steps in the store (C06, C22) and no digest collision are hypotheses."
  },
  {
   "property": "C50",
   "status": "proved",
   "theorems": [
    "C50_read_own",
    "C50_read_other",
    "C50_confined",
    "C50_contract",
    "C50_history_on_files",
    "C50_absolute_name_escapes_refuted",
    "C50_dotted_name_overwrites_refuted",
    "C50_dotted_directory_refuted",
    "C50_long_name_refuted"
   ],
   "note": "Simplifications: no symbolic links, permissions or full disk, writing one file is one step. The history theorem is about the inserts of the facade, replayed on the disk; its own reads are those of the in-memory stores (equal for keys that are file names)."
  },
  {
   "property": "C51",
   "status": "proved",
   "theorems": [
    "C51_error_lines",
    "C51_error_lines_on_base",
    "C51_errors_name_lines",
    "C51_report_of_validation",
    "C51_unknown_base_lines_refuted",
    "C51_continuation_refuted"
   ],
   "note": "files laid out in lines (C42's kinds plus FROM and one flagged attribute per line)"
  },
  {
   "property": "C52",
   "status": "proved",
   "theorems": [
    "C52_free_and_facade",
    "C52_external_references",
    "C52_known_names",
    "C52_from_refuted",
    "C52_names_refuted"
   ],
   "note": "the caller's References is a table"
  },
  {
   "property": "C53",
   "status": "proved",
   "theorems": [
    "C53_building_extends",
    "C53_texts_are_storable",
    "C53_history_builds",
    "C53_texts_are_sound",
    "C53_fetch",
    "C53_history",
    "C53_objects_and_listing",
    "C53_hypotheses_met"
   ],
   "note": "Histories of texts rather than of ASTs: the storability conditions of C22, C23, C43, C47, C49 are derived from what the reader yields. Hypotheses left: services (JSON text round trip, digest form), no collision among the bundles of the history, agreement of ATTR_FRAMING metadata for one frame, different SAIDs of the steps for the history (its necessity is refuted under C22)."
  },
  {
   "property": "C54",
   "status": "proved",
   "theorems": [
    "C54_pattern_match",
    "C54_reading_settles",
    "C54_namespaces",
    "C54_ietf",
    "C54_iso",
    "C54_iso_letters_refuted",
    "C54_overlay_round_trip",
    "C54_hypotheses_met",
    "C54_iso_full",
    "C54_any_dot_refuted",
    "C54_iso_full_met"
   ],
   "note": "urn crate is an oracle (any function); ASCII lower-casing; a character is a byte"
  },
  {
   "property": "C55",
   "status": "proved",
   "theorems": [
    "C55_scope",
    "C55_scope_values",
    "C55_search",
    "C55_parenthesis_refuted",
    "C55_search_parenthesis_refuted",
    "C55_parentheses_refuted",
    "C55_lines_refuted",
    "C55_hypotheses_met"
   ],
   "note": "patterns within the fragment of Regex.v (others an oracle); a character is a byte; SQLite's matching and snippets are oracles"
  },
  {
   "property": "C56",
   "status": "proved",
   "theorems": [
    "C56_reading",
    "C56_unambiguous",
    "C56_writing",
    "C56_injective",
    "C56_round_trip",
    "C56_serves",
    "C56_layout",
    "C56_bundle_text",
    "C56_load",
    "C56_load_facade",
    "C56_deep_bundle_refuted",
    "C56_deep_type_refuted",
    "C56_hypotheses_met",
    "C56_load_met"
   ],
   "note": "serde_json is modelled from knowledge of the dependency (natural numbers only, no UTF-8 check); C56_reading: read exactly the texts of the grammar within the nesting limit"
  },
  {
   "property": "C57",
   "status": "proved",
   "theorems": [
    "C57_rewriting",
    "C57_same_bundle",
    "C57_double_quotes",
    "C57_whole_lines",
    "C57_plain_files",
    "C57_hypotheses_met",
    "C57_lost_refuted"
   ],
   "note": "Rewriting keeps the commands and the build, for every text whose commands are not on the explicit list; every exclusion but one (a single-quoted classification, which does come back) is shown to be lost on a concrete text."
  },
  {
   "property": "C58",
   "status": "proved",
   "theorems": [
    "C58_from_json",
    "C58_from_file",
    "C58_to_file",
    "C58_json_round_trip",
    "C58_depth_json",
    "C58_depth_text",
    "C58_hypotheses_met"
   ],
   "note": "The stack machine of the recursion crate with the closures of the code ends on every input with what the recursive functions used elsewhere in the model give; the crate's loop is written from knowledge of the crate (it is not in the repository)."
  },
  {
   "property": "C59",
   "status": "proved",
   "theorems": [
    "C59_equal_iff_reordered",
    "C59_equivalence",
    "C59_same_effect",
    "C59_same_build",
    "C59_rewritten_equal",
    "C59_equal_saids_refuted",
    "C59_equal_outcomes_refuted",
    "C59_equal_hash",
    "C59_capture_hash_refuted",
    "C59_set_keeps_equal_refuted",
    "C59_relation_sets",
    "C59_json_tells",
    "C59_json_shape",
    "C59_hypotheses_met"
   ],
   "note": "Equality of commands is reordering at every depth; equal ASTs build the same bundle (grouped entry codes excepted: refuted), shown for accepted commands (refuted for error against panic); hashing consistent except for capture bases (refuted); relation sets and the JSON of objects."
  },
  {
   "property": "C60",
   "status": "proved",
   "theorems": [
    "C60_exchange",
    "C60_same_error",
    "C60_rearranged_build",
    "C60_any_order",
    "C60_same_slot_refuted",
    "C60_declare_first_refuted",
    "C60_hypotheses_met"
   ],
   "note": "Independent commands commute: same state, same errors; rearranged builds give the same bundle, the same messages or panic alike; any permutation of pairwise independent commands. Same slot and declaration order: refuted."
  },
  {
   "property": "C61",
   "status": "proved",
   "theorems": [
    "C61_bundle_states_size",
    "C61_transformation_states_size",
    "C61_bundle_text",
    "C61_bundle_verifies",
    "C61_accepted_verifies",
    "C61_transformation_verifies",
    "C61_tampered_text",
    "C61_tampered_bundle",
    "C61_stored_texts_verify",
    "C61_serves",
    "C61_reader",
    "C61_published_loads",
    "C61_different_bundles",
    "C61_fetch",
    "C61_one_version",
    "C61_one_reading",
    "C61_unsigned_refuted",
    "C61_large_refuted",
    "C61_large_exists",
    "C61_hypotheses_met"
   ],
   "note": "Version strings and published bytes, with Blake3 any 44-character hash of bytes; the said crate is modelled from outside /repo"
  },
  {
   "property": "C62",
   "status": "proved",
   "theorems": [
    "C62_reads",
    "C62_unambiguous",
    "C62_same_commands",
    "C62_printed",
    "C62_generated",
    "C62_edited",
    "C62_hypotheses_met",
    "C62_hypotheses_met_rest",
    "C62_edited_hypotheses_met",
    "C62_unit_tab_refuted",
    "C62_code_blanks_refuted",
    "C62_indented_refuted",
    "C62_class_quotes_refuted",
    "C62_type_case_refuted"
   ],
   "note": "Hand-written texts cover every command the parser builds but ATTR_FRAMING; comments and empty lines inside a continued command, backslashes inside single-quoted texts and several metadata pairs on one line are left out (the first is refuted in C42). C62_printed needs ENTRY pairs apart (set_apart): the generator writes an entry object right behind the value before it. C62_indented_refuted and its neighbours are counterexamples"
  },
  {
   "property": "C63",
   "status": "proved",
   "theorems": [
    "C63_last_word",
    "C63_first_word",
    "C63_frames",
    "C63_no_other_overlays",
    "C63_capture_base",
    "C63_same_words_same_bundle",
    "C63_any_text",
    "C63_hand_written",
    "C63_same_words_same_text",
    "C63_hypotheses_met",
    "C63_from",
    "C63_from_shape",
    "C63_from_hypotheses_met",
    "C63_stored_history",
    "C63_stored_texts",
    "C63_stored_history_met",
    "C63_said_again",
    "C63_said_again_met"
   ],
   "note": "from scratch, from any text or hand-written file, through chains of FROM (there up to the copies of frame metadata and the order of entry codes), and for whatever the store holds after a history of builds"
  }
 ]
}