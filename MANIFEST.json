{
 "claims": [
  {
   "property": "C01",
   "status": "proved",
   "theorems": [
    "C01_scanner_found",
    "C01_scanner_nothing",
    "C01_scanner_unclosed"
   ],
   "note": "all three outcomes of the scanner characterised for every text"
  },
  {
   "property": "C02",
   "status": "proved",
   "theorems": [
    "C02_plain_text"
   ],
   "note": ""
  },
  {
   "property": "C03",
   "status": "proved",
   "theorems": [
    "C03_escape_round_trip"
   ],
   "note": "JSON library assumed only to write strings with a leading double quote and read them back"
  },
  {
   "property": "C04",
   "status": "proved",
   "theorems": [
    "C04_one_reading",
    "C04_interpolate_meaning"
   ],
   "note": "evaluator is an arbitrary stateful function, so order and multiplicity of evaluation are part of the statement"
  },
  {
   "property": "C05",
   "status": "proved",
   "theorems": [
    "C05_single_reference",
    "C05_otherwise_text"
   ],
   "note": ""
  },
  {
   "property": "C06",
   "status": "proved",
   "theorems": [
    "C06_pass_through",
    "C06_failures"
   ],
   "note": "requirements are assumed to have a string class and a list-of-strings expressionLib; JS engine only raises Exception subclasses"
  },
  {
   "property": "C07",
   "status": "proved",
   "theorems": [
    "C07_no_javascript",
    "C07_expression_lib",
    "C07_other_text"
   ],
   "note": ""
  },
  {
   "property": "C08",
   "status": "proved",
   "theorems": [
    "C08_old_versions",
    "C08_new_versions"
   ],
   "note": ""
  },
  {
   "property": "C09",
   "status": "partial",
   "theorems": [
    "C09_reference_is_lookup",
    "C09_reference_end_to_end",
    "C09_runtime",
    "C09_null",
    "C09_bracket_in_key_refuted"
   ],
   "note": "proved for every path whose quoted keys do not contain the closing quote-bracket pair; refuted for those keys"
  },
  {
   "property": "C10",
   "status": "partial",
   "theorems": [
    "C10_reference_fails_cleanly_partial",
    "C10_index_error_iff",
    "C10_zero_of_empty_refuted"
   ],
   "note": "element 0 of an empty list escapes as IndexError; every other unresolvable path fails as stated"
  },
  {
   "property": "C11",
   "status": "proved",
   "theorems": [
    "C11_format_subclass_is_reachability"
   ],
   "note": ""
  },
  {
   "property": "C12",
   "status": "partial",
   "theorems": [
    "C12_first_file_checked_partial",
    "C12_later_files_unchecked_refuted"
   ],
   "note": "finding: check_format returns after the first file that matches, later files are never looked at; what is checked is proved for the first non-empty file"
  },
  {
   "property": "C18",
   "status": "proved",
   "theorems": [
    "C18_keeps_exactly_the_used",
    "C18_when_it_succeeds",
    "C18_reference_name"
   ],
   "note": ""
  },
  {
   "property": "C19",
   "status": "partial",
   "theorems": [
    "C19_schema_partial",
    "C19_null_type_refuted"
   ],
   "note": "finding: an input of type null is listed as required; proved for every other input list with distinct names"
  },
  {
   "property": "C20",
   "status": "partial",
   "theorems": [
    "C20_map_to_list_and_back",
    "C20_list_to_map_and_back",
    "C20_already_normal",
    "C20_rejections",
    "C20_duplicate_keys_refuted"
   ],
   "note": "finding: list sections with repeated keys silently lose entries; proved for distinct keys"
  },
  {
   "property": "C46",
   "status": "partial",
   "theorems": [
    "C46_bytes_decoded_partial",
    "C46_nothing_else_changed",
    "C46_invalid_bytes",
    "C46_rest_of_list_refuted"
   ],
   "note": "finding: only the first element of a list is converted"
  },
  {
   "property": "C47",
   "status": "partial",
   "theorems": [
    "C47_meaning_kept_partial",
    "C47_nested_arrays_refuted"
   ],
   "note": "finding: nested array shorthands collapse to one level"
  },
  {
   "property": "C50",
   "status": "proved",
   "theorems": [
    "C50_pascal_case_letters",
    "C50_pascal_case_words",
    "C50_pascal_case_stable"
   ],
   "note": "letter case of ASCII letters only"
  },
  {
   "property": "C13",
   "status": "partial",
   "theorems": [
    "C13_assignment_decides_the_relation",
    "C13_types_connect_to_themselves",
    "C13_strict_is_sound_refuted",
    "C13_strict_is_sound_partial",
    "C13_enum_between_ports_refuted",
    "C13_field_names"
   ],
   "note": "the relation is decided exactly; findings: strictness is lost below a union, and enums of different port kinds never compare equal"
  },
  {
   "property": "C14",
   "status": "proved",
   "theorems": [
    "C14_verdicts",
    "C14_value_from_passes",
    "C14_unknown_merge_rejected",
    "C14_merge_is_determined"
   ],
   "note": ""
  },
  {
   "property": "C15",
   "status": "partial",
   "theorems": [
    "C15_links_reported_v1_0_v1_1",
    "C15_links_reported_v1_2_partial",
    "C15_shared_loop_source_refuted",
    "C15_shared_conditional_source_refuted",
    "C15_report_partial"
   ],
   "note": "full for v1.0/v1.1; v1.2 when outputs of collecting steps are used once and the links from an output of a conditional step agree whether they expect null; C15_report_partial says it of the workflow as written (distinct ports, existing sources); findings: types are rewritten in place, so a shared loop source is wrapped twice and what is said of a shared conditional source depends on the order of the links"
  },
  {
   "property": "C16",
   "status": "partial",
   "theorems": [
    "C16_incompatible_links_rejected_v1_0_v1_1",
    "C16_incompatible_links_rejected_v1_2_partial",
    "C16_unknown_step_output_rejected",
    "C16_unfed_required_input_refuted",
    "C16_external_tool_refuted",
    "C16_unknown_source_in_list_refuted",
    "C16_empty_source_list_refuted",
    "C16_unknown_version_rejected",
    "C16_unknown_source_rejected",
    "C16_unknown_single_source",
    "C16_unfed_inputs_reported",
    "C16_static_checker_partial"
   ],
   "note": "C16_static_checker_partial: rejected exactly if a step output does not exist or a link does not fit, said of the workflow as written, for all versions (v1.2: shared sources as in C15); findings: unfed required inputs alone are not rejected; inputs of tools in other files are not checked; unknown sources in a list end in KeyError"
  },
  {
   "property": "C17",
   "status": "proved",
   "theorems": [
    "C17_step_output_nesting",
    "C17_nesting_is_determined",
    "C17_unknown_step_output",
    "C17_step_input",
    "C17_step_input_any"
   ],
   "note": "step inputs: when the tool input has the same fragment (see C16_external_tool_refuted)"
  },
  {
   "property": "C48",
   "status": "proved",
   "theorems": [
    "C48_source_names"
   ],
   "note": "steps have non-empty fragments"
  },
  {
   "property": "C49",
   "status": "partial",
   "theorems": [
    "C49_one_parameter",
    "C49_several_parameters_partial",
    "C49_types_after_an_array_refuted",
    "C49_type_after_a_record_refuted",
    "C49_missing_source_refuted",
    "C49_scattered_twin_refuted",
    "C49_record_types_compared",
    "C49_scattered_source_partial"
   ],
   "note": "findings: _compare_type matches type1 against itself"
  },
  {
   "property": "C21",
   "status": "partial",
   "theorems": [
    "C21_packed_self_contained_partial",
    "C77_self_contained_partial",
    "C21_import_remains_refuted"
   ],
   "note": "C77_self_contained_partial says it of what the packing command writes; proved when no imported file has an import as its whole contents; finding: such an import stays in the packed document"
  },
  {
   "property": "C22",
   "status": "proved",
   "theorems": [
    "C22_packed_version_highest",
    "C22_packed_version_declared"
   ],
   "note": "for files whose class fields are texts and a total version order"
  },
  {
   "property": "C23",
   "status": "proved",
   "theorems": [
    "C23_subworkflow_listed",
    "C23_added_exactly"
   ],
   "note": "for files whose class fields are texts"
  },
  {
   "property": "C24",
   "status": "proved",
   "theorems": [
    "C24_sources_normalised",
    "C24_normalising_twice",
    "C24_graph_unchanged"
   ],
   "note": "source lists are not touched, as stated"
  },
  {
   "property": "C25",
   "status": "proved",
   "theorems": [
    "C25_inlined",
    "C25_packed_ports",
    "C25_unknown_rejected",
    "C25_recursive_type_never_ends"
   ],
   "note": "recursive types do not terminate, so the success hypothesis fails for them"
  },
  {
   "property": "C26",
   "status": "partial",
   "theorems": [
    "C26_names_distinct_partial",
    "C26_all_names_distinct_partial",
    "C26_names_refuted"
   ],
   "note": "proved when no user type is named like a generated name (ending in _ and digits); finding: otherwise names collide"
  },
  {
   "property": "C51",
   "status": "partial",
   "theorems": [
    "C51_incomplete_types_refuted",
    "C51_missing_type_reported"
   ],
   "note": "finding: for arrays and records AttributeError is raised instead, always"
  },
  {
   "property": "C52",
   "status": "partial",
   "theorems": [
    "C52_imports_in_place_partial",
    "C52_nested_import_refuted"
   ],
   "note": "proved when imported files contain no further imports; finding: nested imports are resolved against the importing document"
  },
  {
   "property": "C27",
   "status": "partial",
   "theorems": [
    "C27_processes_moved_partial",
    "C27_file_contents_partial",
    "C27_references_kept",
    "C27_run_names_the_file",
    "C27_not_packed",
    "C27_valid_workflow_rejected_refuted",
    "C27_one_file_each_refuted",
    "C27_run_main_refuted",
    "C27_optional_type_refuted",
    "C27_type_in_same_file_refuted"
   ],
   "note": "findings: list outputSource makes splitting fail; ids differing in .cwl share a file; run: #main dangles; type references in unions and between types of one file keep packed names"
  },
  {
   "property": "C28",
   "status": "partial",
   "theorems": [
    "C28_extracted_exactly",
    "C28_ends",
    "C28_step_hints_refuted",
    "C28_port_untagged_refuted"
   ],
   "note": "exact for the loaded objects; finding: hints of a workflow step are loaded as plain data, so a DockerRequirement there is never extracted; requirements of a step get no tag"
  },
  {
   "property": "C29",
   "status": "partial",
   "theorems": [
    "C29_extracted_exactly",
    "C29_ends",
    "C29_printed",
    "C29_step_hints_refuted"
   ],
   "note": "exact for the loaded objects; finding: hints of a workflow step are loaded as plain data and missed"
  },
  {
   "property": "C30",
   "status": "partial",
   "theorems": [
    "C30_singularity_names_partial",
    "C30_docker_names_partial",
    "C30_names_clash_refuted",
    "C30_singularity_cached",
    "C30_singularity_pulled",
    "C30_docker_saved",
    "C30_docker_cache_refuted",
    "C30_run_pulls_once",
    "C30_singularity_needs_a_directory",
    "C30_run_docker",
    "C30_clash_serves_other_image_refuted"
   ],
   "note": "no separator in names, exact clash conditions, Singularity caching; findings: names clash, Docker always pulls again and a forced first download fails"
  },
  {
   "property": "C31",
   "status": "proved",
   "theorems": [
    "C31_answers",
    "C31_ordered",
    "C31_asked_once",
    "C31_single_number_refuted"
   ],
   "note": "for all printed versions; aside: a version of one number raises IndexError"
  },
  {
   "property": "C32",
   "status": "partial",
   "theorems": [
    "C32_load_iff",
    "C32_target_unique",
    "C32_not_a_mapping",
    "C32_version_required",
    "C32_missing_target",
    "C32_hash_never_found",
    "C32_load_document_partial",
    "C32_cwl_version",
    "C32_text_load_all_refuted"
   ],
   "note": "exact for YAML values; findings: load_document of a text ignores load_all; an id given with # is never found"
  },
  {
   "property": "C33",
   "status": "partial",
   "theorems": [
    "C33_newest_version",
    "C33_newest_unique",
    "C33_other_lists",
    "C33_mapping",
    "C33_no_version_refuted",
    "C33_dev_version_refuted"
   ],
   "note": "proved when the declared versions are released ones and at least one is declared; findings: no declared version and development versions raise ValueError"
  },
  {
   "property": "C34",
   "status": "proved",
   "theorems": [
    "C34_v1_0",
    "C34_v1_1",
    "C34_v1_2",
    "C34_no_shortcuts_left",
    "C34_idempotent",
    "C34_refused",
    "C34_streams_separate"
   ],
   "note": ""
  },
  {
   "property": "C35",
   "status": "proved",
   "theorems": [
    "C35_v1_2",
    "C35_v1_0",
    "C35_text_v1_2",
    "C35_text_v1_0_partial",
    "C35_text_v1_0_ascii_partial",
    "C35_text_v1_0_refuted"
   ],
   "note": "for bytes; aside: as text, v1.0 and v1.1 fail if a multi-byte character lies across the limit"
  },
  {
   "property": "C53",
   "status": "partial",
   "theorems": [
    "C53_plain_path_partial",
    "C53_plain_path_fragment_partial",
    "C53_file_uri",
    "C53_file_host",
    "C53_file_case",
    "C53_path_object",
    "C53_path_characters_refuted",
    "C53_path_object_fragment_refuted"
   ],
   "note": "proved for file URIs, Path objects without # and paths without special characters; findings: + ? ; % : in a path name another file; a Path with a fragment reads a file whose name includes the fragment"
  },
  {
   "property": "C36",
   "status": "partial",
   "theorems": [
    "C36_type_shorthand_partial",
    "C36_type_list_partial",
    "C36_any_text_partial",
    "C36_type_in_full",
    "C36_later_rules",
    "C36_nested_refuted",
    "C36_marks_refuted",
    "C36_salad_version",
    "C36_mixed_list_partial"
   ],
   "note": "exact for every text; findings: a nested [] is kept as plain text where a type may be a text, not rejected; a ? before [] or another ? becomes part of the referenced name"
  },
  {
   "property": "C37",
   "status": "partial",
   "theorems": [
    "C37_map_is_list",
    "C37_map_refused",
    "C37_map_accepted",
    "C37_hints_refuted",
    "C37_hints_loader_refuted"
   ],
   "note": "exact for every loader; finding: the parsers give the text None as value key where there is none, so that a hint that is no mapping is kept under the key None instead of being rejected"
  },
  {
   "property": "C38",
   "status": "proved",
   "theorems": [
    "C38_secondary_files",
    "C38_secondary_files_refused",
    "C38_one_meaning"
   ],
   "note": ""
  },
  {
   "property": "C39",
   "status": "proved",
   "theorems": [
    "C39_deterministic",
    "C39_union_first_match",
    "C39_union_refused",
    "C39_union_other_error",
    "C39_array",
    "C39_element",
    "C39_array_refused",
    "C39_array_only_lists",
    "C39_mapping",
    "C39_mapping_only"
   ],
   "note": ""
  },
  {
   "property": "C54",
   "status": "proved",
   "theorems": [
    "C54_scoped_identifier",
    "C54_identifiers_distinct",
    "C54_scoped_reference",
    "C54_absolute",
    "C54_twice",
    "C54_expression_kept",
    "C54_term_kept",
    "C54_identifier_anywhere",
    "C54_reference_anywhere",
    "C54_prefix",
    "C54_term_in_full",
    "C54_prefixed_term",
    "C54_no_term",
    "C54_relative"
   ],
   "note": "for bases with any scheme, host, path and query; joining of relative references is the fetcher's"
  },
  {
   "property": "C55",
   "status": "proved",
   "theorems": [
    "C55_object",
    "C55_not_object",
    "C55_required",
    "C55_unknown_field",
    "C55_other_class",
    "C55_fields",
    "C55_settings",
    "C55_any",
    "C55_root_only"
   ],
   "note": "for any table of classes"
  },
  {
   "property": "C56",
   "status": "partial",
   "theorems": [
    "C56_values_partial",
    "C56_other_values_partial",
    "C56_integer_refuted",
    "C56_enumeration"
   ],
   "note": "finding: booleans are accepted for integers"
  },
  {
   "property": "C57",
   "status": "proved",
   "theorems": [
    "C57_dispatch",
    "C57_class_loaded",
    "C57_class_needed"
   ],
   "note": "over the tables read from the three generated parsers"
  },
  {
   "property": "C58",
   "status": "proved",
   "theorems": [
    "C58_version_checked",
    "C58_other_version",
    "C58_loaded_or_refused"
   ],
   "note": "over the tables read from the three generated parsers; the fetcher raises at most validation errors"
  },
  {
   "property": "C59",
   "status": "partial",
   "theorems": [
    "C59_type_schema",
    "C59_input_object",
    "C59_values_accepted_partial",
    "C59_record_definition",
    "C59_overlap_refuted",
    "C59_null_field_refuted",
    "C59_same_name_refuted",
    "C59_supported_types",
    "C59_definitions",
    "C59_generated"
   ],
   "note": "exact description proved; findings: overlapping alternatives of a union reject their common values, optional record fields reject null, record types with the same last name share a definition"
  },
  {
   "property": "C40",
   "status": "partial",
   "theorems": [
    "C40_own_output",
    "C40_beginning_of_own_output",
    "C40_private_processes",
    "C40_starts_on_a_live_process",
    "C40_ascii_partial",
    "C40_can_answer",
    "C40_next_evaluations_refuted"
   ],
   "note": "for every interleaving of threads, engine processes, timers and process deaths; finding: when a read ends in the middle of a UTF-8 character the evaluation raises a decoding error and the process is kept although its answer is unread, so later evaluations on it get the answer of the script before them"
  },
  {
   "property": "C41",
   "status": "partial",
   "theorems": [
    "C41_timeout_reported_partial",
    "C41_values",
    "C41_endless_script",
    "C41_can_end",
    "C41_killed_process_refuted"
   ],
   "note": "finding: when the timer has killed the process but its death is not yet seen, the output so far is taken for the answer, and a prefix of a JSON number is a JSON number"
  },
  {
   "property": "C42",
   "status": "partial",
   "theorems": [
    "C42_version",
    "C42_start",
    "C42_any_world",
    "C42_older_first_refuted",
    "C42_prerelease_refuted"
   ],
   "note": "the start-up is characterised exactly; findings: a local Node.js that qualifies is not used when an older one comes first in the search, and a pre-release version text raises ValueError even when a container is available"
  },
  {
   "property": "C43",
   "status": "proved",
   "theorems": [
    "C43_exact",
    "C43_inert",
    "C43_unchanged",
    "C43_original_refuted"
   ],
   "note": "aside: nothing undoes the escaping, so the evaluated text differs from the original"
  },
  {
   "property": "C44",
   "status": "partial",
   "theorems": [
    "C44_replace_input",
    "C44_rename",
    "C44_rename_raises",
    "C44_rename_outputs_refuted"
   ],
   "note": "replacement of inputs exact; renaming exact for step inputs; finding: for outputs the step part of the name is ignored, a source without a step raises IndexError and a list AttributeError"
  },
  {
   "property": "C45",
   "status": "partial",
   "theorems": [
    "C45_frame",
    "C45_zero",
    "C45_one",
    "C45_unsupported",
    "C45_single",
    "C45_codes",
    "C45_contents",
    "C45_all_outputs_refuted"
   ],
   "note": "exact codes and files; finding: documents with the same name in different directories overwrite each other, with code 0"
  },
  {
   "property": "C60",
   "status": "partial",
   "theorems": [
    "C60_none",
    "C60_code_block",
    "C60_single",
    "C60_interpolated_partial",
    "C60_parameter_references_refuted",
    "C60_code_refuted",
    "C60_white_space_refuted",
    "C60_interpolated_refuted"
   ],
   "note": "exact for every text; findings: runtime references count as JavaScript, a text starting with a reference and ending with a bracket is taken for one reference, white space around a reference turns its value into a text, quotes in plain text are not escaped"
  },
  {
   "property": "C61",
   "status": "partial",
   "theorems": [
    "C61_converted_body",
    "C61_block_body",
    "C61_block_refuted",
    "C61_script_partial",
    "C61_brackets_refuted",
    "C61_backslashes_refuted",
    "C61_old_versions_refuted",
    "C61_library_refuted"
   ],
   "note": "findings: a code block loses the character before its closing bracket; in scripts dollar-bracket pairs get a slash, double backslashes are halved, under old versions backslashes vanish, and libraries are not escaped"
  },
  {
   "property": "C62",
   "status": "partial",
   "theorems": [
    "C62_last_declaration",
    "C62_step_expression",
    "C62_tool_expression_partial",
    "C62_tool_expression_refuted"
   ],
   "note": "about the requirement that is put first in the new tool; the requirements copied from the tool come after it, and C84 says which one counts. Finding: for expressions of a tool the library of the workflow is preferred there, and without ExpressionTools that of the tool is lost"
  },
  {
   "property": "C63",
   "status": "proved",
   "theorems": [
    "C63_sources_exist",
    "C63_steps_kept",
    "C63_interface_kept",
    "C63_unmodified",
    "C63_ends",
    "C63_unmodified_loaded",
    "C63_input_expressions"
   ],
   "note": "for every behaviour of the expression evaluation, the type lookup and the loading of referenced files; subworkflows are not followed by the code either"
  },
  {
   "property": "C64",
   "status": "proved",
   "theorems": [
    "C64_packed_meaning",
    "C64_types_written_out",
    "C64_links_followed",
    "C64_texts_followed",
    "C64_imports_replaced",
    "C64_ports_mapping_refuted"
   ],
   "note": "versions are left to C22; imports inside imported files are looked up beside the importing document (C52); aside: a file of ports in mapping form is refused because its keys are taken for types"
  },
  {
   "property": "C65",
   "status": "partial",
   "theorems": [
    "C65_value_from",
    "C65_when",
    "C65_value_kept_partial",
    "C65_inputs_lost",
    "C65_own_name_refuted",
    "C65_suffix_refuted",
    "C65_default_refuted",
    "C65_self_refuted",
    "C65_self_default_refuted",
    "C65_merge_refuted",
    "C65_scatter_refuted",
    "C65_when_refuted",
    "C65_target",
    "C65_target_refuted"
   ],
   "note": "exact description of the new steps and of what they see; the value is kept under stated conditions; findings: the expression no longer sees its own input, inputs whose names end with its name, inputs with only a default; self is lost for inputs named f, lf, elf and for defaults, links are not merged for it; neighbours are not scattered; when together with an input that has only a valueFrom is refused; an expression in an input that the tool does not have, which CWL allows, is refused (C65_target says it always is)"
  },
  {
   "property": "C66",
   "status": "partial",
   "theorems": [
    "C66_env",
    "C66_resources",
    "C66_listing",
    "C66_entries",
    "C66_inputs_lost",
    "C66_value_kept_partial",
    "C66_inputs_refuted",
    "C66_resources_refuted",
    "C66_twice_refuted",
    "C66_reference_refuted",
    "C66_entry_evaluation",
    "C66_entry_refused"
   ],
   "note": "exact description of what is added for environment variables, resources and listings; the value of an expression that looks at no input is kept; findings: the new steps see none of the inputs, amounts without expressions are dropped, a step with a requirement of its own gets a second one of the same class, the link to a listing lacks its closing bracket, an expression in the entry of a listing makes refactoring fail"
  },
  {
   "property": "C67",
   "status": "partial",
   "theorems": [
    "C67_tool_texts",
    "C67_binding_stays",
    "C67_value_kept_partial",
    "C67_underscores_lost",
    "C67_scatter_refuted",
    "C67_argument_refuted",
    "C67_javascript_refuted"
   ],
   "note": "exact description of the tool and the new steps afterwards, also inside the workflows made for outputEval; the value is kept under stated conditions; findings: the expressions of input bindings and globs stay in the tool while its InlineJavascriptRequirement is removed, a plain argument is linked to an input that does not exist, the new steps are not scattered, inputs whose names begin with an underscore are lost; outputEval is C69"
  },
  {
   "property": "C68",
   "status": "partial",
   "theorems": [
    "C68_tool_requirements",
    "C68_env_refused",
    "C68_entry_refuted",
    "C68_listing_refuted",
    "C68_code_refuted"
   ],
   "note": "exact description of every requirement afterwards, for ids with at most one #; findings: an expression in an environment variable cannot be refactored (TypeError), expressions that are listings or entries see no input, the reference to an entry lacks its closing bracket, a listing that is one expression becomes a tuple, the code made for an entry with a name is broken if the name is an expression or the entry a body"
  },
  {
   "property": "C69",
   "status": "partial",
   "theorems": [
    "C69_output_evals",
    "C69_outputs_kept",
    "C69_value_kept_partial",
    "C69_underscores_lost",
    "C69_twice_refuted",
    "C69_stdout_refuted",
    "C69_when_refuted",
    "C69_default_refused",
    "C69_valueFrom_refuted",
    "C69_glob_refuted"
   ],
   "note": "exact description of the nested workflows and of the tool inside; the inputs the expression sees are those of the tool under stated conditions; findings: of two outputEvals the second stays in the tool and is applied twice, inputs that begin with an underscore (results of other expressions, the condition) have no source inside, a valueFrom that stays is evaluated again inside, a step input without a source is an AttributeError, the input for a later glob does not get inside; types of outputs are not modelled"
  },
  {
   "property": "C70",
   "status": "partial",
   "theorems": [
    "C70_names_apart_partial",
    "C70_plain_names",
    "C70_names_apart_refuted",
    "C70_inputs_apart_refuted"
   ],
   "note": "names of all steps of the result differ whenever those of the document keep apart (names of steps without underscores and not called workflow, distinct places in each step; weaker conditions in NamesApart); findings: step a with input b_c against step a_b with input c, an input called stdout against the stdout of the tool, a step called workflow against a requirement of the workflow, a document refactored before; step inputs made for a requirement of the tool and of the workflow share a name, as do two entries of one listing"
  },
  {
   "property": "C71",
   "status": "partial",
   "theorems": [
    "C71_reference",
    "C71_missing",
    "C71_no_address",
    "C71_references",
    "C71_no_reference",
    "C71_list_refuted"
   ],
   "note": "exact; finding: targets of references given in a list are not looked up"
  },
  {
   "property": "C72",
   "status": "partial",
   "theorems": [
    "C72_import",
    "C72_text_refuted",
    "C72_include",
    "C72_unreadable",
    "C72_no_file",
    "C72_other",
    "C72_document",
    "C72_prefix",
    "C72_list",
    "C72_by_name",
    "C72_no_document"
   ],
   "note": "imports with a fragment, and the table by which a file imported twice is loaded once, are in C80; finding: a file that holds only the name of another file cannot be imported"
  },
  {
   "property": "C73",
   "status": "partial",
   "theorems": [
    "C73_ends_partial",
    "C73_loaded_or_refused_partial",
    "C73_import_refuted"
   ],
   "note": "for all documents without imports; finding: a file that imports itself is loaded without end"
  },
  {
   "property": "C74",
   "status": "partial",
   "theorems": [
    "C74_object_partial",
    "C74_object_named_partial",
    "C74_document_partial",
    "C74_document_named_partial",
    "C74_graph_partial",
    "C74_blank_refuted",
    "C74_same_id_refuted",
    "C74_packed_namespaces_refuted"
   ],
   "note": "for values that fit (SaveSpec.Fits: texts stand for themselves, identifiers in a list differ, values are of no alternative tried before); that every loaded value fits is not proved, and not true: findings: two spellings of one identifier in a list are loaded but refused when saved, a packed document with $namespaces is refused when saved, names made up for nameless objects change"
  },
  {
   "property": "C75",
   "status": "partial",
   "theorems": [
    "C75_inputs_partial",
    "C75_plain_partial",
    "C75_only_mappings",
    "C75_version",
    "C75_named_file",
    "C75_part_refuted",
    "C75_path",
    "C75_file_uri",
    "C75_text",
    "C75_loaded_or_refused_partial",
    "C75_same_id_refuted",
    "C75_misspelt_refuted",
    "C75_format_refuted",
    "C75_default_lists_refuted",
    "C75_default_missing_refuted"
   ],
   "note": "for the input files that InputSpec.Inputs describes (known fields only, addresses in full or plain relative names, no $import, ids in a list distinct); findings: records with the same id in a list are refused, a description with an unknown field is kept as a mapping, a format with a prefix becomes an address in the input file, a part of a file cannot be named; as a default in a document nested lists are flattened and a file that does not exist is silently kept as a mapping"
  },
  {
   "property": "C76",
   "status": "partial",
   "theorems": [
    "C76_zero",
    "C76_unsupported",
    "C76_codes",
    "C76_frame",
    "C76_stops",
    "C76_output",
    "C76_self_contained_partial",
    "C76_same_name_refuted",
    "C76_truncated_refuted",
    "C76_graph_refuted",
    "C76_linked_step_refuted",
    "C76_independent_refuted"
   ],
   "note": "the upgrader, the v1.2 parser, traverse and save are parameters; self-contained under the hypotheses of C21; findings: two documents of the same file name overwrite each other, a value JSON cannot express leaves a truncated file, a $graph document always fails unless refactoring is off, a workflow with a linked step always fails when it is off, type names depend on the documents before"
  },
  {
   "property": "C77",
   "status": "proved",
   "theorems": [
    "C77_file",
    "C77_stdout",
    "C77_failure",
    "C77_frame"
   ],
   "note": "what the written document is like is in C21 (C77_self_contained_partial), C22-C26 and C51"
  },
  {
   "property": "C78",
   "status": "partial",
   "theorems": [
    "C78_packed_again_partial",
    "C78_hashes_refuted",
    "C78_links_refuted"
   ],
   "note": "proved when the packed document has no link left, no source starting with # and an id on a single port; findings: a source with two # loses one each time, an import of an import stays and is followed only the second time, from another place"
  },
  {
   "property": "C79",
   "status": "partial",
   "theorems": [
    "C79_located",
    "C79_missing",
    "C79_zero",
    "C79_two",
    "C79_one",
    "C79_codes",
    "C79_frame",
    "C79_printed",
    "C79_accepts_partial",
    "C79_emptied_refuted",
    "C79_relative_refuted",
    "C79_same_file_refuted"
   ],
   "note": "acceptance under the side conditions of C59; findings: a failing run empties the output file that was there before, a relative path always ends with ValueError, a document named as its own output is lost before it is read"
  },
  {
   "property": "C80",
   "status": "partial",
   "theorems": [
    "C80_same_partial",
    "C80_anew",
    "C80_once",
    "C80_latest",
    "C80_selects",
    "C80_alone",
    "C80_alone_same",
    "C80_two_types_refuted",
    "C80_shadow_refuted",
    "C80_packed_refuted"
   ],
   "note": "sameness only where, reading every import anew, an address with something written under it is answered with just that, and without fragments and files that hold only a text; findings: a file imported as an input and again as an output stays an input parameter, an identifier equal to the address of a file replaces the file, a tool in a packed file cannot be imported for a step"
  },
  {
   "property": "C81",
   "status": "partial",
   "theorems": [
    "C81_interface",
    "C81_expressions",
    "C81_unmodified",
    "C81_left_alone",
    "C81_ends",
    "C81_values",
    "C81_format_refused",
    "C81_stdout_lost",
    "C81_stdout_lost_workflow",
    "C81_stdout_refuted"
   ],
   "note": "values for inputs whose names do not begin with an underscore; finding: an output of type stdout becomes a File without an outputBinding (it is given to the discarded original, there as loadContents), so the standard output is lost; tools with an expression in the format or secondaryFiles of an input are refused (C81_format_refused)"
  },
  {
   "property": "C82",
   "status": "partial",
   "theorems": [
    "C82_signature",
    "C82_block_partial",
    "C82_reference_partial",
    "C82_plain_reference_refuted",
    "C82_library_refuted",
    "C82_in_workflow_refuted"
   ],
   "note": "code without double backslashes and without what looks like a reference; findings: a reference that needs no JavaScript becomes a program that returns nothing, the same for every reference in a step of a workflow, and the expressionLib of the tool is lost"
  },
  {
   "property": "C83",
   "status": "partial",
   "theorems": [
    "C83_added_inputs",
    "C83_same_command_partial"
   ],
   "note": "excluded: arguments that are texts with expressions (C67_argument_refuted), outputEval with expressions (C69), outputs of type stdout (C81_stdout_refuted), entries of listings (C68), inputs whose names start with an underscore and expressions that use inputs as a whole. What an expression means and that an expression tool gives the value of its expression are hypotheses (Meaning, Computes, Solves): C60, C61 and C82 are about them"
  },
  {
   "property": "C84",
   "status": "partial",
   "theorems": [
    "C84_javascript",
    "C84_library_partial",
    "C84_tool_library_refuted",
    "C84_replaced_library_refuted",
    "C84_own_library_refuted",
    "C84_output_library",
    "C84_no_files"
   ],
   "note": "JavaScript is always there; the library is the right one if the workflow declares it and no step or tool another one, or if there is none. For an outputEval it is always that of the workflow, otherwise of the step, otherwise of the tool. Findings: the first argument that is extracted takes the InlineJavascriptRequirement from the tool, so later expressions lose its library; when ExpressionTools are replaced the library of a tool is lost for all its expressions; the valueFrom of a step is evaluated with the library of the tool it runs, an outputEval with that of the workflow. Steps made for a when are visited again; the program they run may be moved when ExpressionTools are replaced, and they are left out then"
  },
  {
   "property": "C85",
   "status": "partial",
   "theorems": [
    "C85_outputs",
    "C85_value",
    "C85_script",
    "C85_merge_refuted"
   ],
   "note": "for outputs whose linked value is a list; PickSpec has a grammar and a semantics of the part of JavaScript the three texts use. Finding: linkMerge of the output is not done before picking, it stays with the output"
  },
  {
   "property": "C86",
   "status": "partial",
   "theorems": [
    "C86_same_scope",
    "C86_object_partial",
    "C86_document_partial",
    "C86_graph_partial",
    "C86_run_refuted",
    "C86_array_refuted"
   ],
   "note": "C86_same_scope is complete. The round trip needs each address to be restored where it is read (restored, in ShortSpec); what save_relative_uri and prefix_url do with one text is outside /repo and a parameter. Findings, v1.1 and v1.2: the id of a process inside a step is read in the scope <step>/run but written relative to the step, so <step>/run/inner becomes <step>/run/run/inner; the made-up name of an array type becomes an address in the parameter. Packed documents: without namespaces (C74 says why)"
  },
  {
   "property": "C87",
   "status": "partial",
   "theorems": [
    "C87_process_partial",
    "C87_unversioned",
    "C87_list_partial",
    "C87_declared",
    "C87_pick_partial",
    "C87_missing",
    "C87_main_refuted"
   ],
   "note": "Partial as C86 is: each address must be restored where it is read, and the document has no $import, $include or $mixin. Findings: a packed document whose main process is found loads no more after saving with the default base address, because ids are written as full addresses and load_document_by_yaml looks for main (C87_main_refuted); a process without cwlVersion, such as one taken out of a step, is saved to a document that is refused (C87_unversioned)"
  },
  {
   "property": "C88",
   "status": "proved",
   "theorems": [
    "C88_v1_1",
    "C88_v1_0",
    "C88_tool_v1_1",
    "C88_tool_v1_0",
    "C88_stays",
    "C88_connected"
   ],
   "note": "Functions whose text is the same in the three modules share one definition; that their text is the same was established by comparing the files. The WorkflowException that v1.0 raises for a parameter without type is part of the parameter that looks up types. C88_case_pick and C88_case_ids show that both conditions are needed."
  },
  {
   "property": "C89",
   "status": "partial",
   "theorems": [
    "C89_references",
    "C89_again_partial",
    "C89_glob_refuted",
    "C89_binding_refuted",
    "C89_entry_refuted"
   ],
   "note": "Proved for tools without expressions in inputBinding.valueFrom, glob, outputEval and plain-text listing entries, and for texts of which it does not depend on the example inputs whether they are expressions (plain text and code; not references to inputs); requirements of the workflow are not restricted. A step for a glob or an inputBinding is made again, with the same name (C89_glob_refuted, C89_binding_refuted); after an entry of a listing was moved, the second run fails, since the reference has no closing bracket (C89_entry_refuted). Missing: when, pickValue, nested workflows, references to inputs."
  },
  {
   "property": "C90",
   "status": "partial",
   "theorems": [
    "C90_process_inputs",
    "C90_workflow_inputs",
    "C90_step_inputs",
    "C90_step_total",
    "C90_output_self",
    "C90_unset_input",
    "C90_type_refuted",
    "C90_array_refuted",
    "C90_file_names_refuted"
   ],
   "note": "The statement is proved as it stands; what a user expects beyond it does not hold. Findings: the example for long, float, double, arrays and every other type is null, which is no value of the type; the base name of the example file is not its root followed by its extension; a workflow in which an input of a step has no value at all, or only a default such as 0, false or an empty text, cannot be refactored, even without any expression, since the type of no source is looked up (C90_unset_input, under the hypothesis that this lookup is a TypeError, as parser/utils.py:275 makes it). The lookup of source types is a parameter of the model; C49 is about it."
  }
 ]
}