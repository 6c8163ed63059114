{"id": "C01", "title": "The expression scanner finds exactly the first reference or escape", "statement": "For every text, scanning terminates and yields (start, end) exactly when the text splits as plain prefix + region + rest, where the prefix contains neither a backslash nor the start of a reference, and the region is either a backslash with the character after it or a $(...) / ${...} block whose parentheses (braces) and quoted strings are balanced; it reports 'nothing' exactly when no such start occurs in the text, and raises a substitution error exactly when the first start is a reference that is never closed.", "quantifier": "all strings", "why_tests_cant": "tests sample a handful of nestings and quotings; correctness is about every nesting depth, quoting and escape combination", "anchors": ["src/cwl_utils/expression.py:scanner"]}
{"id": "C02", "title": "Plain text is interpolated to itself", "statement": "Interpolating a text that contains no backslash and no $( or ${ returns the text itself (after trimming surrounding whitespace when asked to), never evaluates anything and never fails.", "quantifier": "all strings, both escaping behaviours, all evaluation contexts", "why_tests_cant": "universal over texts", "anchors": ["src/cwl_utils/expression.py:interpolate", "src/cwl_utils/expression.py:scanner"]}
{"id": "C03", "title": "Escaping makes any text literal", "statement": "For every text there is an escaped form (each backslash doubled and each $( and ${ prefixed by a backslash) whose interpolation under CWL v1.2 rules, without trimming, is exactly the original text, with no evaluation.", "quantifier": "all strings", "why_tests_cant": "round-trip law over all strings, including adjacent dollars, trailing backslashes and nested brackets", "anchors": ["src/cwl_utils/expression.py:interpolate", "src/cwl_utils/expression.py:scanner"]}
{"id": "C04", "title": "Interpolation is the concatenation of literals, escapes and evaluated references", "statement": "Interpolation terminates on every text; if the text is the concatenation of literal runs, escapes and references, the result is the concatenation, in the same order, of the literals unchanged, the meaning of the escapes under the selected escaping behaviour, and the text of each reference's value (a string value itself, anything else as JSON); each reference is evaluated exactly once, left to right, with exactly the text between $ and the closing bracket, and the first failing reference aborts the whole interpolation with its error.", "quantifier": "all strings, all evaluators, both escaping behaviours", "why_tests_cant": "refinement over unbounded token sequences and arbitrary evaluators", "anchors": ["src/cwl_utils/expression.py:interpolate", "src/cwl_utils/expression.py:scanner"]}
{"id": "C05", "title": "A text that is just one reference keeps its value's type", "statement": "If a (trimmed) text consists of exactly one reference then interpolation returns the evaluated value itself (null, number, boolean, list, object or string) and not its textual form; in every other case interpolation returns a string.", "quantifier": "all strings, all evaluators", "why_tests_cant": "all texts and all values", "anchors": ["src/cwl_utils/expression.py:interpolate"]}
{"id": "C06", "title": "Values that are not expressions are passed through evaluation unchanged", "statement": "do_eval returns its argument unchanged whenever it is not a string or is a string containing neither $( nor ${, whatever the inputs, requirements, context and version; every failure while evaluating an expression surfaces as a WorkflowException.", "quantifier": "all CWL values, inputs, requirement lists, versions and evaluators", "why_tests_cant": "universal over values and over all failure modes", "anchors": ["src/cwl_utils/expression.py:do_eval", "src/cwl_utils/expression.py:needs_parsing"]}
{"id": "C07", "title": "JavaScript runs only when InlineJavascriptRequirement is present", "statement": "If no requirement of class InlineJavascriptRequirement is listed, evaluating any expression never calls the JavaScript engine: each reference is either resolved as a parameter reference or fails with an error; if it is present, the expressionLib of the last one listed is used.", "quantifier": "all expressions, inputs, requirement lists", "why_tests_cant": "safety property over every input and every engine behaviour", "anchors": ["src/cwl_utils/expression.py:do_eval", "src/cwl_utils/expression.py:evaluator"]}
{"id": "C08", "title": "Escaping rules follow the document's CWL version", "statement": "In texts that contain $( or ${ (all others are returned as they are), do_eval drops the backslash of every backslash escape for v1.0, v1.1 and the early v1.1/v1.2 development versions, and for every other version keeps a backslash except before $(, ${ and another backslash.", "quantifier": "all version strings and all texts", "why_tests_cant": "universal over version strings and texts", "anchors": ["src/cwl_utils/expression.py:do_eval", "src/cwl_utils/expression.py:interpolate", "src/cwl_utils/expression.py:OLD_ESCAPE_CWL_VERSIONS"]}
{"id": "C09", "title": "A parameter reference evaluates to the field or element it names", "statement": "For every path of field names and list indices, writing the path as a parameter reference (.name, ['name'], [\"name\"] or [n]) on inputs, self or runtime and evaluating it yields exactly the value found by walking that path from the root value, and $(null) yields null; .length as last segment on a list yields its length.", "quantifier": "all paths of any length, all key spellings expressible in the grammar (keys free of ] after the closing quote), all context values", "why_tests_cant": "round trip over unbounded paths and values", "anchors": ["src/cwl_utils/sandboxjs.py:NodeJSEngine.regex_eval", "src/cwl_utils/sandboxjs.py:segment_re", "src/cwl_utils/sandboxjs.py:param_re", "src/cwl_utils/expression.py:evaluator"]}
{"id": "C10", "title": "A parameter reference that names nothing fails cleanly", "statement": "If walking the path fails at some step (missing field, field of a non-object, index of a non-list, index out of range), evaluation without JavaScript raises a JavaScript/Workflow exception naming the problem, and with JavaScript enabled falls back to the engine; no other kind of failure escapes.", "quantifier": "all paths and context values", "why_tests_cant": "all error paths, including empty containers", "anchors": ["src/cwl_utils/sandboxjs.py:NodeJSEngine.regex_eval", "src/cwl_utils/expression.py:evaluator"]}
{"id": "C11", "title": "Format subclassing is reachability in the ontology", "statement": "formatSubclassOf(fmt, cls, ontology) is true exactly when the two are equal or cls is reachable from fmt through subclass and (symmetric) equivalence links, and it terminates for every finite ontology, including cyclic ones.", "quantifier": "all finite ontologies, all pairs of formats", "why_tests_cant": "needs induction over paths; cycles of any length", "anchors": ["src/cwl_utils/file_formats.py:formatSubclassOf"]}
{"id": "C12", "title": "Every file offered to a format-constrained input is checked", "statement": "check_format accepts a file or list of files only if every file in it has a format that is equal to, or a subclass of, one of the accepted formats, and otherwise raises a validation error.", "quantifier": "all file lists, format lists, ontologies", "why_tests_cant": "lists of any length", "anchors": ["src/cwl_utils/file_formats.py:check_format"]}
{"id": "C13", "title": "Type assignability matches the CWL connection rules", "statement": "can_assign_src_to_sink decides the documented relation: Any connects to everything; arrays compare by items; records compare field by field, a field missing from the source counting as null; in strict mode every source alternative and in non-strict mode some non-null source alternative must be accepted; a union sink accepts what one alternative accepts; otherwise types must be equal.", "quantifier": "all type expressions of any nesting, strict or not", "why_tests_cant": "infinite family of nested types", "anchors": ["src/cwl_utils/parser/utils.py:can_assign_src_to_sink", "src/cwl_utils/parser/utils.py:_compare_records"]}
{"id": "C14", "title": "Connection checks yield pass, warning or exception consistently", "statement": "check_types returns 'pass' exactly when strict assignment succeeds (or a valueFrom is present), 'warning' exactly when only non-strict assignment succeeds, 'exception' otherwise; merge_nested checks an array of the source type, merge_flattened the flattened source type, any other linkMerge value is rejected with a validation error.", "quantifier": "all types, linkMerge values and valueFrom settings", "why_tests_cant": "universal over types", "anchors": ["src/cwl_utils/parser/utils.py:check_types", "src/cwl_utils/parser/utils.py:merge_flatten_type"]}
{"id": "C15", "title": "Every link of a workflow is checked and reported faithfully", "statement": "Checking all sinks reports, for each declared source of each sink, an exception entry exactly when the link's types are incompatible and a compatibility warning exactly when they are only possibly compatible, and reports nothing else apart from the documented pickValue/conditional warnings.", "quantifier": "all workflows (any number of steps, sinks, sources)", "why_tests_cant": "workflows of any size, any graph of links", "anchors": ["src/cwl_utils/parser/cwl_v1_2_utils.py:check_all_types", "src/cwl_utils/parser/cwl_v1_1_utils.py:check_all_types", "src/cwl_utils/parser/cwl_v1_0_utils.py:check_all_types"]}
{"id": "C16", "title": "The static checker rejects exactly the invalid workflows", "statement": "static_checker raises a validation error if and only if some link has incompatible types or some required step input has neither source, default nor valueFrom.", "quantifier": "all workflows", "why_tests_cant": "workflows of any size", "anchors": ["src/cwl_utils/parser/utils.py:static_checker"]}
{"id": "C17", "title": "Scatter adds exactly the documented array nesting", "statement": "The type of a step output under scatter is wrapped in one array for dotproduct and flat_crossproduct and in one array per scattered input for nested_crossproduct; a scattered step input is an array of the tool's input type; unscattered ports keep their declared type.", "quantifier": "all types, any number of scatter variables, all scatter methods", "why_tests_cant": "any depth of nesting", "anchors": ["src/cwl_utils/parser/cwl_v1_2_utils.py:type_for_step_output", "src/cwl_utils/parser/cwl_v1_2_utils.py:type_for_step_input"]}
{"id": "C18", "title": "Slimmed JSON schemas keep exactly the definitions in use", "statement": "Slimming a generated JSON schema keeps exactly the definitions reachable from the inputs through references (through other definitions too), unchanged, leaves every other part of the schema unchanged, and leaves no dangling reference that was not dangling before.", "quantifier": "all schemas, all reference graphs including cyclic ones", "why_tests_cant": "graph reachability over arbitrary definitions", "anchors": ["src/cwl_utils/inputs_schema_gen.py:slim_definitions", "src/cwl_utils/inputs_schema_gen.py:get_property_dependencies", "src/cwl_utils/inputs_schema_gen.py:_recursive_search"]}
{"id": "C19", "title": "The generated input schema requires exactly the mandatory inputs", "statement": "The JSON schema generated for a workflow or tool has one property per input and lists as required exactly those inputs that are neither optional (null-able) nor defaulted; optional inputs accept null.", "quantifier": "all processes with any inputs", "why_tests_cant": "any number and nesting of input types", "anchors": ["src/cwl_utils/inputs_schema_gen.py:cwl_to_jsonschema", "src/cwl_utils/inputs_schema_gen.py:JSONSchemaProperty", "src/cwl_utils/inputs_schema_gen.py:get_is_required_from_input_parameter"]}
{"id": "C20", "title": "Map and list forms of CWL sections are interchangeable", "statement": "Normalising a map section to a list and the list back to a map returns the same entries; normalising a list to a list (or map to map) changes nothing; non-conforming entries are rejected with an error.", "quantifier": "all maps and lists", "why_tests_cant": "sections of any size", "anchors": ["src/cwl_utils/utils.py:normalize_to_list", "src/cwl_utils/utils.py:normalize_to_map"]}
{"id": "C21", "title": "A packed workflow is self-contained", "statement": "After packing, every step of the workflow and of every nested sub-workflow carries its process inline (never a file reference), inputs, outputs, requirements, steps and step inputs are in list form, no SchemaDefRequirement remains, and no $import or $include remains.", "quantifier": "all documents and file systems for which packing succeeds", "why_tests_cant": "unbounded nesting of workflows and imports", "anchors": ["src/cwl_utils/pack.py:pack", "src/cwl_utils/pack.py:pack_process", "src/cwl_utils/pack.py:resolve_steps", "src/cwl_utils/pack.py:resolve_imports", "src/cwl_utils/pack.py:listify_everything", "src/cwl_utils/pack.py:load_schemadefs"]}
{"id": "C22", "title": "A packed workflow declares the highest CWL version it contains", "statement": "After packing, the version declared by a workflow is at least the version declared by every process nested in it at any depth, and is one of the declared versions.", "quantifier": "all documents, any nesting depth", "why_tests_cant": "unbounded nesting", "anchors": ["src/cwl_utils/pack.py:resolve_steps"]}
{"id": "C23", "title": "Packing adds the subworkflow requirement exactly when needed", "statement": "After packing, a workflow lists SubworkflowFeatureRequirement if some step runs a workflow; the requirement is added at most once, never added to other processes, and all other requirements keep their order and content.", "quantifier": "all documents", "why_tests_cant": "any number of steps and requirements", "anchors": ["src/cwl_utils/pack.py:add_missing_requirements"]}
{"id": "C24", "title": "Source references are normalised without changing their meaning", "statement": "Packing removes exactly one leading # from step sources and output sources written as a string and changes nothing else; documents already carrying a $graph are returned unchanged; normalising twice equals normalising once for references with at most one leading #.", "quantifier": "all workflows", "why_tests_cant": "any number of steps", "anchors": ["src/cwl_utils/pack.py:normalize_sources", "src/cwl_utils/pack.py:pack"]}
{"id": "C25", "title": "Inlined port types refer to no user-defined name", "statement": "If inlining the types of a process's ports succeeds, the result mentions only built-in types and structural types (array, record, enum), at every depth; a reference to an unknown name is rejected with an error.", "quantifier": "all type expressions and all tables of user-defined types", "why_tests_cant": "nested types of any depth", "anchors": ["src/cwl_utils/schemadef.py:inline_types", "src/cwl_utils/schemadef.py:_inline_type", "src/cwl_utils/schemadef.py:build_user_defined_type_dict"]}
{"id": "C26", "title": "Inlined copies of a user type get distinct names", "statement": "Two inlined occurrences of user-defined types in one run never carry the same record/enum name.", "quantifier": "all histories of inlining", "why_tests_cant": "depends on the whole history of generated names", "anchors": ["src/cwl_utils/schemadef.py:_inline_type"]}
{"id": "C27", "title": "Splitting a packed document rewrites its internal references consistently", "statement": "After splitting, every process of $graph is written to exactly one file, ids lose the '#process/' prefix, references to other processes of the graph become references to the file written for them, and references inside a process resolve to the same objects as before.", "quantifier": "all packed documents", "why_tests_cant": "any number of processes and references; name clashes", "anchors": ["src/cwl_utils/graph_split.py:graph_split", "src/cwl_utils/graph_split.py:rewrite", "src/cwl_utils/graph_split.py:rewrite_id", "src/cwl_utils/graph_split.py:rewrite_import"]}
{"id": "C28", "title": "Every Docker image in a workflow is extracted", "statement": "The docker extractor yields exactly the DockerRequirements appearing in the requirements or hints of the given process, of its steps, and of the processes run by its steps at any depth, and nothing else.", "quantifier": "all process trees", "why_tests_cant": "unbounded nesting of sub-workflows", "anchors": ["src/cwl_utils/docker_extract.py:traverse", "src/cwl_utils/docker_extract.py:extract_docker_reqs", "src/cwl_utils/docker_extract.py:traverse_workflow", "src/cwl_utils/docker_extract.py:get_process_from_step"]}
{"id": "C29", "title": "Every software citation in a workflow is extracted", "statement": "The citation extractor yields exactly the SoftwareRequirements in requirements or hints of the process, its steps and the processes they run, at any depth.", "quantifier": "all process trees", "why_tests_cant": "unbounded nesting", "anchors": ["src/cwl_utils/cite_extract.py:traverse", "src/cwl_utils/cite_extract.py:extract_software_reqs", "src/cwl_utils/cite_extract.py:traverse_workflow"]}
{"id": "C30", "title": "Image downloads land in distinct, predictable files and are not repeated", "statement": "The saved image's file name depends only on the image reference and contains no path separator; two different images never share a file; an image already saved is not downloaded again unless a pull is forced, in which case it is downloaded.", "quantifier": "all image references, all directory states", "why_tests_cant": "injectivity over all names; all file-system states", "anchors": ["src/cwl_utils/image_puller.py:ImagePuller.get_image_name", "src/cwl_utils/image_puller.py:SingularityImagePuller.save_docker_image", "src/cwl_utils/image_puller.py:DockerImagePuller.save_docker_image"]}
{"id": "C31", "title": "Singularity version tests are consistent", "statement": "The version predicates are monotone: 3.4-or-newer implies 3.1-or-newer implies 3-or-newer, 2.6 is reported only for 2.6 releases, and Apptainer 1.x counts as newer than all of them; the version is determined once and reused.", "quantifier": "all version strings the tool can print", "why_tests_cant": "all versions", "anchors": ["src/cwl_utils/singularity.py:get_version", "src/cwl_utils/singularity.py:is_version_2_6", "src/cwl_utils/singularity.py:is_version_3_or_newer", "src/cwl_utils/singularity.py:is_version_3_1_or_newer", "src/cwl_utils/singularity.py:is_version_3_4_or_newer", "src/cwl_utils/singularity.py:is_apptainer_1_or_newer"]}
{"id": "C32", "title": "Documents are loaded by the parser of their declared version", "statement": "Loading a document dispatches to the parser of its cwlVersion (v1.0, v1.1, v1.2), failing with a validation error for any other or missing version; from a $graph document exactly the process whose id matches (main by default) is returned unless all are requested.", "quantifier": "all documents and ids", "why_tests_cant": "all graphs and ids", "anchors": ["src/cwl_utils/parser/__init__.py:load_document_by_yaml", "src/cwl_utils/parser/__init__.py:cwl_version", "src/cwl_utils/parser/__init__.py:_get_id_from_graph"]}
{"id": "C33", "title": "Saving several processes declares a version able to hold them all", "statement": "Saving a list of processes yields one document whose $graph holds each of them in order and whose cwlVersion is the newest of their versions.", "quantifier": "all non-empty lists of processes", "why_tests_cant": "lists of any length and version mix", "anchors": ["src/cwl_utils/parser/__init__.py:save"]}
{"id": "C34", "title": "Standard-stream shortcuts are fully expanded", "statement": "Converting stream shortcuts leaves no output of type stdout/stderr and no input of type stdin (v1.1 and later); each former shortcut is a File captured from exactly the file the stream is redirected to; other ports are untouched; converting twice equals converting once; a shortcut with an explicit binding is rejected.", "quantifier": "all command line tools with any number of ports", "why_tests_cant": "any number of ports, all orders", "anchors": ["src/cwl_utils/parser/cwl_v1_2_utils.py:convert_stdstreams_to_files", "src/cwl_utils/parser/cwl_v1_1_utils.py:convert_stdstreams_to_files", "src/cwl_utils/parser/cwl_v1_0_utils.py:convert_stdstreams_to_files"]}
{"id": "C35", "title": "loadContents obeys the 64 KiB limit of the document's version", "statement": "In v1.2 reading returns the whole file exactly when it has at most 65536 bytes and raises otherwise; in v1.0 and v1.1 it returns exactly the first min(65536, size) bytes and never fails because of the size.", "quantifier": "all byte files of any size", "why_tests_cant": "all lengths including the boundary", "anchors": ["src/cwl_utils/parser/cwl_v1_2_utils.py:content_limit_respected_read_bytes", "src/cwl_utils/parser/cwl_v1_1_utils.py:content_limit_respected_read_bytes", "src/cwl_utils/parser/cwl_v1_0_utils.py:content_limit_respected_read_bytes"]}
{"id": "C36", "title": "Type shorthands expand to the type they abbreviate", "statement": "A type name followed by any sequence of [] (and an optional trailing ?) loads as the corresponding nested array (made optional), the base name being resolved once; under the older rules nested [] is left unexpanded so that it is reported as an error.", "quantifier": "all names and any number of [] suffixes", "why_tests_cant": "unbounded suffixes", "anchors": ["src/cwl_utils/parser/cwl_v1_2.py:_TypeDSLLoader.resolve", "src/cwl_utils/parser/cwl_v1_2.py:_TypeDSLLoader.load"]}
{"id": "C37", "title": "Identifier maps and lists load alike", "statement": "Loading a mapping {id: body} gives the same result as loading the list of bodies each extended with its id, in order; a shorthand body is placed under the field's value key; without a value key it is rejected.", "quantifier": "all mappings", "why_tests_cant": "any size", "anchors": ["src/cwl_utils/parser/cwl_v1_2.py:_IdMapLoader.load"]}
{"id": "C38", "title": "secondaryFiles shorthands expand correctly", "statement": "A secondaryFiles pattern ending in ? becomes a non-required pattern without the ?, any other pattern keeps its text; lists are expanded element-wise in order; malformed entries are rejected with a validation error.", "quantifier": "all patterns and lists", "why_tests_cant": "any strings/lists", "anchors": ["src/cwl_utils/parser/cwl_v1_2.py:_SecondaryDSLLoader.load"]}
{"id": "C39", "title": "Union fields load as their first matching alternative", "statement": "A union field loads exactly as the first alternative that accepts the value, independently of later alternatives, and fails only if every alternative fails; an array field loads element-wise in order with nested arrays flattened, and fails if any element fails.", "quantifier": "all loaders and documents", "why_tests_cant": "arbitrary combinations of alternatives", "anchors": ["src/cwl_utils/parser/cwl_v1_2.py:_UnionLoader.load", "src/cwl_utils/parser/cwl_v1_2.py:_ArrayLoader.load"]}
{"id": "C40", "title": "JavaScript evaluations do not contaminate each other", "statement": "Over any history of evaluations on one or several threads, each evaluation reads only the output its own script produced: an engine process is shared only by evaluations of the same thread, engine kind and context, a dead process is never reused, and what is returned is exactly what the script printed before the end marker.", "quantifier": "all histories, thread interleavings and process deaths", "why_tests_cant": "all schedules, chunkings and crash points", "anchors": ["src/cwl_utils/sandboxjs.py:NodeJSEngine.exec_js_process"]}
{"id": "C41", "title": "A script that does not finish in time is reported as an error", "statement": "If a script does not complete before the timeout the evaluation ends with a JavaScript exception mentioning the timeout; it never returns a value from a killed process.", "quantifier": "all schedules and timings", "why_tests_cant": "race between completion, timeout and process death", "anchors": ["src/cwl_utils/sandboxjs.py:NodeJSEngine.exec_js_process", "src/cwl_utils/sandboxjs.py:NodeJSEngine.eval"]}
{"id": "C42", "title": "Only sufficiently recent Node.js is accepted", "statement": "A Node.js binary is accepted exactly when its version, compared component by component, is at least the minimum; when no local binary qualifies a container is tried, and an error is raised if neither is available.", "quantifier": "all version numbers and all combinations of available engines", "why_tests_cant": "all versions and availability combinations", "anchors": ["src/cwl_utils/sandboxjs.py:NodeJSEngine.check_js_threshold_version", "src/cwl_utils/sandboxjs.py:NodeJSEngine.new_js_proc"]}
{"id": "C43", "title": "Escaped expression text is inert", "statement": "Escaping an expression field yields a text that contains no reference start, so evaluating it runs no expression.", "quantifier": "all strings", "why_tests_cant": "all strings", "anchors": ["src/cwl_utils/cwl_v1_2_expression_refactor.py:escape_expression_field"]}
{"id": "C44", "title": "Expression refactoring redirects references precisely", "statement": "Replacing a workflow-input reference by a step output changes exactly the step sources that name that input, everywhere, and nothing else; renaming a step changes exactly the sources that name it.", "quantifier": "all workflows", "why_tests_cant": "any number of steps and sources", "anchors": ["src/cwl_utils/cwl_v1_2_expression_refactor.py:replace_wf_input_ref_with_step_output", "src/cwl_utils/cwl_v1_2_expression_refactor.py:rename_step_source"]}
{"id": "C45", "title": "The refactoring tools report failure through their exit status", "statement": "The refactoring command returns 0 exactly when every document was rewritten or (among several) copied because it needed no change, 1 exactly when all were handled but some failed, 7 exactly when the only document needed no change and -1 when it meets an unsupported version; each document's result is in its own file in the output directory, and no other file is written.", "quantifier": "all argument lists", "why_tests_cant": "all sequences of files", "anchors": ["src/cwl_utils/expression_refactor.py:refactor"]}
{"id": "C46", "title": "Every byte string in the evaluation context is decoded", "statement": "Converting the evaluation context turns every byte string, at any depth, into text and changes nothing else.", "quantifier": "all nested values", "why_tests_cant": "any nesting and list length", "anchors": ["src/cwl_utils/utils.py:bytes2str_in_dicts"]}
{"id": "C47", "title": "Schema field types keep their meaning when sanitised", "statement": "Sanitising a schema field preserves the set of values the type denotes: optionality and array nesting are kept.", "quantifier": "all type spellings", "why_tests_cant": "any nesting of suffixes", "anchors": ["src/cwl_utils/utils.py:sanitise_schema_field"]}
{"id": "C48", "title": "A source name finds exactly the parameters it denotes", "statement": "Looking up source names returns exactly, in order, the workflow inputs and step outputs whose identifiers match, one parameter alone and several as a list, and raises a workflow error if there is none; scatter information is recorded for each found parameter.", "quantifier": "all processes, parents and source lists", "why_tests_cant": "any number of steps and outputs", "anchors": ["src/cwl_utils/parser/utils.py:param_for_source_id"]}
{"id": "C49", "title": "The type of merged sources is computed from all of them", "statement": "The type computed for a list of sources is the union of the distinct types of the sources (each wrapped by its scatter), then merged per linkMerge and unwrapped per pickValue.", "quantifier": "all source lists and types", "why_tests_cant": "any number of sources and any types", "anchors": ["src/cwl_utils/parser/cwl_v1_2_utils.py:type_for_source", "src/cwl_utils/parser/cwl_v1_2_utils.py:_compare_type"]}
{"id": "C50", "title": "Generated type names are valid and stable", "statement": "Converting a name to PascalCase removes every - and _, keeps all other characters in order up to letter case, and converting the result again only affects letter case.", "quantifier": "all names", "why_tests_cant": "all strings", "anchors": ["src/cwl_utils/utils.py:to_pascal_case"]}
{"id": "C51", "title": "An incomplete type is reported as such", "statement": "Inlining an array type without items raises ArrayMissingItems, a record type without fields raises RecordMissingFields, and a type without a type name raises MissingTypeName.", "quantifier": "all type objects, tables and histories", "why_tests_cant": "any surrounding document", "anchors": ["src/cwl_utils/schemadef.py:_inline_type"]}
{"id": "C52", "title": "Imports are expanded relative to the file they stand in", "statement": "Resolving imports replaces each $import by the expanded contents of the file it names, and each $include by that file's text, a link being resolved against the file that contains it, and changes nothing else.", "quantifier": "all documents, file systems and base locations", "why_tests_cant": "unbounded nesting of imports", "anchors": ["src/cwl_utils/pack.py:resolve_imports"]}
{"id": "C53", "title": "A document is loaded from the file its path names", "statement": "Loading by a local path or by the file URI of a path reads exactly the file of that name, whatever characters the name has, and a fragment after # selects the process of that name.", "quantifier": "all local paths, file URIs and fragments", "why_tests_cant": "all characters a file name may have", "anchors": ["src/cwl_utils/parser/__init__.py:load_document_by_uri"]}
{"id": "C54", "title": "Identifiers and references resolve by scope", "statement": "A name loads as the identifier of its enclosing scope extended by the name, so that different names in a scope have different identifiers; a reference resolves by leaving its number of scopes; absolute identifiers, expressions and vocabulary terms stand for themselves, so resolving twice changes nothing.", "quantifier": "all file bases, scopes and names", "why_tests_cant": "unbounded nesting of scopes, all names", "anchors": ["src/cwl_utils/parser/cwl_v1_2.py:_expand_url"]}
{"id": "C55", "title": "An object loads exactly if its class and fields are right", "statement": "A mapping loads as an object of a class exactly if its class field names the class, every required field is there and not null, every field that is there loads with the field's loader, and every other key is an extension field with a colon; the object then has every field of the class, null when absent, the identifier in full and the extension fields under their full names.", "quantifier": "all classes, documents, bases and loading options", "why_tests_cant": "arbitrary documents and nesting", "anchors": ["src/cwl_utils/parser/cwl_v1_2.py:_RecordLoader.load", "src/cwl_utils/parser/cwl_v1_2.py:CommandLineTool.fromDoc", "src/cwl_utils/parser/cwl_v1_2.py:WorkflowStep.fromDoc"]}
{"id": "C56", "title": "A field accepts only values of its type", "statement": "A field of a plain type accepts exactly the values of that type, and an enumeration exactly its symbols.", "quantifier": "all values", "why_tests_cant": "all values", "anchors": ["src/cwl_utils/parser/cwl_v1_2.py:_PrimitiveLoader.load", "src/cwl_utils/parser/cwl_v1_2.py:_EnumLoader.load"]}
{"id": "C57", "title": "The class field decides what a document loads as", "statement": "Each of the parsers for CWL v1.0, v1.1 and v1.2 loads a document whose class field is a vocabulary term exactly by the rules of that process class of its version, whatever the other fields; the result is an object of that class; a document with another class, or without class, is not loaded.", "quantifier": "all documents, bases and loading options with the standard vocabulary, for each of the three versions", "why_tests_cant": "arbitrary documents", "anchors": ["src/cwl_utils/parser/cwl_v1_2.py:CommandLineTool.fromDoc", "src/cwl_utils/parser/cwl_v1_2.py:load_document", "src/cwl_utils/parser/cwl_v1_0.py:load_document", "src/cwl_utils/parser/cwl_v1_1.py:load_document"]}
{"id": "C58", "title": "Each parser accepts its own CWL version only, and refuses with a validation error", "statement": "A document whose cwlVersion is a vocabulary term other than the parser's version is not loaded; loading a document without imports either succeeds or raises a validation error, never another exception.", "quantifier": "all documents, bases and loading options, for each of the three versions", "why_tests_cant": "arbitrary documents, all error paths", "anchors": ["src/cwl_utils/parser/cwl_v1_2.py:CWLVersionLoader", "src/cwl_utils/parser/cwl_v1_2.py:load_document", "src/cwl_utils/parser/cwl_v1_0.py:CWLVersionLoader", "src/cwl_utils/parser/cwl_v1_1.py:CWLVersionLoader"]}
{"id": "C59", "title": "The generated input schema accepts the values of the input types", "statement": "The JSON schema generated for a process accepts an input object exactly when it gives every mandatory input and each given value belongs to the declared type of its input, for primitive types, arrays, enumerations, records, unions and named record types.", "quantifier": "all processes with any inputs and record types, all candidate input objects", "why_tests_cant": "arbitrary nesting of types and arbitrary values", "anchors": ["src/cwl_utils/inputs_schema_gen.py:cwl_to_jsonschema", "src/cwl_utils/inputs_schema_gen.py:JSONSchemaProperty", "src/cwl_utils/inputs_schema_gen.py:generate_definition_from_schema"]}
{"id": "C60", "title": "Texts that need JavaScript become an equivalent expression", "statement": "An expression is extracted from a field exactly when its text has a code block or a reference that cannot be evaluated without JavaScript; a code block is taken unchanged, a text that is one reference becomes code returning it, and any other text becomes the concatenation of its pieces with every piece of plain text as a string literal.", "quantifier": "all field values, inputs and contexts", "why_tests_cant": "all texts and all nestings of quotes, brackets and escapes", "anchors": ["src/cwl_utils/cwl_v1_2_expression_refactor.py:get_expression", "src/cwl_utils/expression.py:interpolate"]}
{"id": "C61", "title": "Generated tools run the code that was written", "statement": "The ExpressionTool made for an expression contains the code of the expression complete, and the script of a generated CommandLineTool, after its references are evaluated, is the library followed by exactly the code that was written.", "quantifier": "all expressions, libraries, inputs and versions", "why_tests_cant": "all code texts", "anchors": ["src/cwl_utils/cwl_v1_2_expression_refactor.py:etool_to_cltool", "src/cwl_utils/cwl_v1_2_expression_refactor.py:generate_etool_from_expr", "src/cwl_utils/cwl_v1_2_expression_refactor.py:generate_etool_from_expr2"]}
{"id": "C62", "title": "Extracted expressions keep their expression library", "statement": "An extracted expression gets the expression library that applied where it stood: that of the innermost of tool, step and workflow that declares JavaScript.", "quantifier": "all tools, steps and workflows with any requirements", "why_tests_cant": "all combinations of declarations", "anchors": ["src/cwl_utils/expression_refactor.py:find_expressionLib", "src/cwl_utils/expression_refactor.py:generate_etool_from_expr2", "src/cwl_utils/cwl_v1_2_expression_refactor.py:replace_step_clt_expr_with_etool", "src/cwl_utils/cwl_v1_2_expression_refactor.py:replace_step_valueFrom_expr_with_etool"]}
{"id": "C63", "title": "A refactored workflow is connected around the original one", "statement": "When the tool refactors a workflow it ends, and in the result the workflow's inputs and outputs are the same, the original steps are there in their order with their ids, inputs and scatter, every other step is a generated one with the single output result, and every source of a step input or output is a source of the original or the result of an existing step; when it reports no modification, steps and outputs are as they were.", "quantifier": "all workflows, types, expressions and options", "why_tests_cant": "all combinations of steps and expressions", "anchors": ["src/cwl_utils/cwl_v1_2_expression_refactor.py:traverse_workflow", "src/cwl_utils/cwl_v1_2_expression_refactor.py:traverse_step", "src/cwl_utils/cwl_v1_2_expression_refactor.py:traverse_CommandLineTool", "src/cwl_utils/cwl_v1_2_expression_refactor.py:process_workflow_reqs_and_hints", "src/cwl_utils/cwl_v1_2_expression_refactor.py:process_level_reqs"]}
{"id": "C64", "title": "A packed document means what the original means", "statement": "Packing returns the original document with sections in list form, the first # of sources removed, every step's process replaced by the packed contents of the file its link leads to (resolved against the file the link stands in, following the one-line links GitHub serves), every port type replaced by its definition - found by file and name, the file part of a name and the names inside a definition resolved against the file they stand in, sugar spelled out, types of the enclosing document winning over its own - imports and includes replaced by what they name, schema definitions removed, possibly one requirement added; everything else is unchanged.", "quantifier": "all documents, file systems, remote worlds, bases, types and depths for which packing succeeds; classes are texts", "why_tests_cant": "the relation between a document and its packed form ranges over all nestings of files, links, types and imports", "anchors": ["src/cwl_utils/pack.py:pack", "src/cwl_utils/pack.py:pack_process", "src/cwl_utils/schemadef.py:inline_types", "src/cwl_utils/schemadef.py:_inline_type", "src/cwl_utils/schemadef.py:build_user_defined_type_dict", "src/cwl_utils/utils.py:load_linked_file", "src/cwl_utils/utils.py:resolved_path"]}
{"id": "C65", "title": "Step expressions are computed by a step of their own in the same context", "statement": "When a workflow is refactored, every step input whose valueFrom holds no expression is unchanged, and every other is linked to the result of a new step that runs exactly that expression, with self bound to the value the input had and inputs holding the values the step's inputs had, so that the input's value is the same as before; likewise the condition of a step becomes the result of a new step, and scattering is kept.", "quantifier": "all workflows, types, expressions, links and options for which refactoring succeeds", "why_tests_cant": "the context of an expression depends on all inputs of its step, their names, links and defaults", "anchors": ["src/cwl_utils/cwl_v1_2_expression_refactor.py:traverse_step", "src/cwl_utils/cwl_v1_2_expression_refactor.py:replace_step_valueFrom_expr_with_etool", "src/cwl_utils/cwl_v1_2_expression_refactor.py:replace_step_when_expr_with_etool", "src/cwl_utils/cwl_v1_2_expression_refactor.py:workflow_step_to_WorkflowInputParameters"]}
{"id": "C66", "title": "Requirements of a workflow that hold expressions are computed by steps of their own", "statement": "When a workflow is refactored, each expression in its environment variables, resource amounts and working-directory listing is computed by one new step running exactly that expression with the inputs of the workflow, and every step whose process would inherit the requirement gets it with the expression replaced by a link to that result; parts without expressions stay as they were.", "quantifier": "all workflows with any requirements, steps, types, expressions and options for which refactoring succeeds", "why_tests_cant": "the result depends on all requirements and all steps at once, and on the order of both", "anchors": ["src/cwl_utils/cwl_v1_2_expression_refactor.py:process_workflow_reqs_and_hints", "src/cwl_utils/cwl_v1_2_expression_refactor.py:traverse_workflow"]}
{"id": "C67", "title": "Expressions of a command line tool are computed by steps of their own", "statement": "When a workflow is refactored, each expression in the arguments, stdout, stderr, input bindings and output globs of a CommandLineTool run by one of its steps is computed by one new step running exactly that expression with the inputs of the tool, the expression is replaced by a reference to a new input of the tool and step linked to that result, and its value is the value it had in its place; everything without expressions stays as it was.", "quantifier": "all workflows, tools (inline or loaded), expressions, links and options for which refactoring succeeds", "why_tests_cant": "the context of an expression depends on all inputs of tool and step, and on the expressions refactored before it", "anchors": ["src/cwl_utils/cwl_v1_2_expression_refactor.py:traverse_CommandLineTool", "src/cwl_utils/cwl_v1_2_expression_refactor.py:replace_step_clt_expr_with_etool", "src/cwl_utils/cwl_v1_2_expression_refactor.py:cltool_inputs_to_etool_inputs"]}
{"id": "C68", "title": "Requirements of a tool that hold expressions are computed by steps of their own", "statement": "When a workflow is refactored, each expression in the environment variables, resource amounts and working-directory listing of a CommandLineTool run by one of its steps is computed by one new step running exactly that expression with the inputs of the tool, and the requirement refers to the result through a new input of the tool and step; all other requirements and all parts without expressions stay as they were.", "quantifier": "all workflows, tools with any requirements (inline or loaded), expressions and options for which refactoring succeeds", "why_tests_cant": "the result depends on all requirements of the tool in order, and on everything refactored before", "anchors": ["src/cwl_utils/cwl_v1_2_expression_refactor.py:process_level_reqs", "src/cwl_utils/cwl_v1_2_expression_refactor.py:replace_clt_hintreq_expr_with_etool"]}
{"id": "C69", "title": "outputEval is computed by a step of its own", "statement": "When a workflow is refactored, a CommandLineTool whose outputs have outputEval expressions is replaced, in the step that runs it, by a workflow with the same inputs and outputs in which one step runs the tool without the expression and another runs exactly that expression with the inputs of the tool and, as self, what the tool collected for the output; the output is the result of that step, so its value is the one it had before, and a tool without such expressions keeps its place.", "quantifier": "all workflows, tools (inline or loaded), outputs, expressions, links and options for which refactoring succeeds", "why_tests_cant": "the result depends on all outputs in order, on all inputs of tool and step and on the expressions refactored before", "anchors": ["src/cwl_utils/cwl_v1_2_expression_refactor.py:traverse_CommandLineTool", "src/cwl_utils/cwl_v1_2_expression_refactor.py:cltool_step_outputs_to_workflow_outputs", "src/cwl_utils/cwl_v1_2_expression_refactor.py:process_CommandLineTool_output", "src/cwl_utils/cwl_v1_2_expression_refactor.py:generate_etool_from_expr2"]}
{"id": "C70", "title": "Steps of a refactored workflow have names of their own", "statement": "When a workflow whose steps have different names is refactored, all steps of the result, old and new, have different names, so every link to a step's output leads to one step; likewise the inputs of each step have different names.", "quantifier": "all workflows, tools, expressions and options for which refactoring succeeds", "why_tests_cant": "new names are put together from names of the document; whether two of them meet depends on all names of the workflow at once", "anchors": ["src/cwl_utils/cwl_v1_2_expression_refactor.py:traverse_workflow", "src/cwl_utils/cwl_v1_2_expression_refactor.py:traverse_step", "src/cwl_utils/cwl_v1_2_expression_refactor.py:process_level_reqs", "src/cwl_utils/cwl_v1_2_expression_refactor.py:traverse_CommandLineTool", "src/cwl_utils/cwl_v1_2_expression_refactor.py:process_workflow_reqs_and_hints"]}
{"id": "C71", "title": "References are replaced by addresses, and missing targets are noticed", "statement": "Where a document refers to something, the loaded object has the full address the reference stands for; unless links are not to be checked (by the field or by the settings), a reference whose target is known to be missing is refused with a ValidationException; other values stay as they are.", "quantifier": "all references, bases, settings, vocabularies, fetchers and field types; single references and lists", "why_tests_cant": "the answer depends on the scope, the vocabulary and what the fetcher knows of the target", "anchors": ["src/cwl_utils/parser/cwl_v1_2.py:_URILoader", "src/cwl_utils/parser/cwl_v1_2.py:_expand_url"]}
{"id": "C72", "title": "Imports, inclusions and whole documents", "statement": "A field {$import: f} is loaded as the document in the file f (relative to the importing file), {$include: f} as the text of f; a document is loaded relative to its $base, with the prefixes of its $namespaces, as the list under $graph or else as the object it holds besides $base, $namespaces and $schemas; a document given by name is that of its file; anything else, and a file that cannot be read, is refused.", "quantifier": "all documents, nested imports, bases, prefixes, fetchers, YAML readers and field types", "why_tests_cant": "files import files to any depth, and each changes the base and the prefixes for what it holds", "anchors": ["src/cwl_utils/parser/cwl_v1_2.py:_load_field", "src/cwl_utils/parser/cwl_v1_2.py:_document_load", "src/cwl_utils/parser/cwl_v1_2.py:_document_load_by_url"]}
{"id": "C73", "title": "Loading comes to an end", "statement": "Given any CWL document, the parser of each version comes to an end: it returns the loaded object or refuses the document with a ValidationException; it does not go on for ever.", "quantifier": "all documents, however deep, in all spellings and shorthands; bases, settings, vocabularies and versions", "why_tests_cant": "shorthands make the document larger while it is loaded, types and processes contain one another, and alternatives are tried again at every level", "anchors": ["src/cwl_utils/parser/cwl_v1_2.py:_document_load", "src/cwl_utils/parser/cwl_v1_2.py:_UnionLoader", "src/cwl_utils/parser/cwl_v1_2.py:_ArrayLoader", "src/cwl_utils/parser/cwl_v1_2.py:_TypeDSLLoader", "src/cwl_utils/parser/cwl_v1_2.py:_SecondaryDSLLoader", "src/cwl_utils/parser/cwl_v1_2.py:_IdMapLoader", "src/cwl_utils/parser/cwl_v1_2.py:_document_load_by_url"]}
{"id": "C74", "title": "What is saved is loaded again as the same document", "statement": "A process or packed document that was loaded is saved as a document which, loaded at the same place, yields the same objects: all fields, types, references, classes and extension fields are kept; only names that the parser made up for objects without a name may differ.", "quantifier": "all loaded values of each version's classes, nested to any depth, with extensions, namespaces and schemas; bases, settings and link checks", "why_tests_cant": "each value of each field of each class has to be written in a form that the loader reads back as the same value, in the context of every alternative tried before it", "anchors": ["src/cwl_utils/parser/cwl_v1_2.py:save", "src/cwl_utils/parser/cwl_v1_2.py:CommandLineTool", "src/cwl_utils/parser/cwl_v1_2.py:Workflow", "src/cwl_utils/parser/cwl_v1_2.py:fromDoc", "src/cwl_utils/parser/cwl_v1_2.py:_UnionLoader", "src/cwl_utils/parser/cwl_v1_2.py:_URILoader", "src/cwl_utils/parser/cwl_v1_2.py:_TypeDSLLoader", "src/cwl_utils/parser/cwl_v1_2.py:_SecondaryDSLLoader", "src/cwl_utils/parser/__init__.py:save"]}
{"id": "C75", "title": "The values of an input file are loaded as they are", "statement": "Loading an input file for a CWL version yields one value per input, each the very value of the file: numbers, texts, nested lists and records unchanged, and each description of a File or Directory as an object with its fields, its addresses being relative to the input file. Whether the files exist does not matter. Whatever is no mapping, or is for an unknown version, is refused; a path and its file URI load the same file.", "quantifier": "all input files with values nested to any depth, all versions, addresses of the file, and any file system", "why_tests_cant": "values nest without bound and each is tried against many alternatives, some of which also accept it", "anchors": ["src/cwl_utils/parser/utils.py:load_inputfile", "src/cwl_utils/parser/utils.py:load_inputfile_by_uri", "src/cwl_utils/parser/utils.py:load_inputfile_by_string", "src/cwl_utils/parser/utils.py:load_inputfile_by_yaml", "src/cwl_utils/parser/cwl_v1_2_utils.py:load_inputfile", "src/cwl_utils/parser/cwl_v1_2_utils.py:load_inputfile_by_string", "src/cwl_utils/parser/cwl_v1_2_utils.py:load_inputfile_by_yaml", "src/cwl_utils/parser/cwl_v1_2_utils.py:_inputfile_load"]}
{"id": "C76", "title": "Normalizing writes each document under its name, in order", "statement": "A run of the normalizer returns 0 exactly when every document could be brought to v1.2, refactored (unless this is switched off), packed and written as JSON to the chosen directory under its own file name; it returns -1 at the first document of an unsupported version, with those before it written and the rest untouched; an error stops it at one document; no other file is written. Every written document is a $graph or needs no other file.", "quantifier": "all lists of documents, contents, versions, flags, file systems, and all behaviours of the upgrader, the parser and the refactoring", "why_tests_cant": "it relates every file of every directory before and after runs of any length that may stop anywhere", "anchors": ["src/cwl_utils/normalizer.py:run", "src/cwl_utils/normalizer.py:main", "src/cwl_utils/pack.py:pack", "src/cwl_utils/cwl_v1_2_expression_refactor.py:traverse"]}
{"id": "C77", "title": "The packing command writes the whole packed document or nothing", "statement": "The packing command either writes the JSON text of the packed document and a newline to the chosen file (or to the standard output) and returns 0, or it fails and leaves every file and the output as they were; it writes no other file.", "quantifier": "all documents, linked files, output files, indents and failures", "why_tests_cant": "a failure may happen at any depth of packing or in writing any value", "anchors": ["src/cwl_utils/pack_cli.py:run", "src/cwl_utils/pack_cli.py:main", "src/cwl_utils/pack.py:pack"]}
{"id": "C78", "title": "Packing a packed document changes nothing and reads nothing", "statement": "A document that was packed is given back unchanged when it is packed again, wherever it lies and whatever other files there are: no file besides it is read, no type is renamed, no requirement added, no version raised.", "quantifier": "all documents, linked files and types, all places the packed document may be put, and all states of the naming counter", "why_tests_cant": "it relates two runs over arbitrarily nested documents, the second in any other file system", "anchors": ["src/cwl_utils/pack.py:pack", "src/cwl_utils/pack.py:pack_process", "src/cwl_utils/pack.py:normalize_sources", "src/cwl_utils/pack.py:resolve_imports", "src/cwl_utils/pack.py:add_missing_requirements", "src/cwl_utils/schemadef.py:inline_types"]}
{"id": "C79", "title": "The schema command writes the whole schema or says that it did not", "statement": "The command that generates a JSON schema ends with 0 exactly when the document was found and loaded and its schema is, complete and followed by a newline, in the chosen output; the schema accepts exactly the input objects of the process. It ends with 1 exactly when the loaded document has no schema and with 2 exactly when the output cannot be opened. For a path or URI with nothing behind it the command ends with FileNotFoundError. No other file is written and nothing is printed unless the whole schema is.", "quantifier": "all documents, URLs and paths, file systems, answers of servers and output files", "why_tests_cant": "the output is opened before the document is looked for, so every failure, at every later point, leaves a trace; the documents are unbounded", "anchors": ["src/cwl_utils/inputs_schema_gen.py:get_cwl_url", "src/cwl_utils/inputs_schema_gen.py:run", "src/cwl_utils/inputs_schema_gen.py:arg_parser", "src/cwl_utils/inputs_schema_gen.py:cwl_to_jsonschema", "src/cwl_utils/utils.py:is_uri", "src/cwl_utils/utils.py:is_local_uri"]}
{"id": "C80", "title": "A file imported several times is read once and means the same each time", "statement": "Loading a document with the index of loaded documents gives the same object or the same error as reading every import anew, as long as each address stands for one thing. A file is never read for an address that is known already, an import gives what was loaded last from its address, and an address with a fragment gives the object with that identifier. A document without imports asks for no address.", "quantifier": "all documents, files, loaders, nestings of imports and histories of the index", "why_tests_cant": "the index is shared by a document and everything it imports, and written at every object with an identifier; whether a look-up changes the result depends on the whole history before it", "anchors": ["src/cwl_utils/parser/cwl_v1_2.py:_document_load", "src/cwl_utils/parser/cwl_v1_2.py:_document_load_by_url", "src/cwl_utils/parser/cwl_v1_2.py:_load_field", "src/cwl_utils/parser/cwl_v1_2.py:CommandLineTool.fromDoc", "src/cwl_utils/parser/cwl_v1_1.py:_document_load_by_url", "src/cwl_utils/parser/cwl_v1_0.py:_document_load_by_url"]}
{"id": "C81", "title": "A command line tool on its own becomes a workflow around it", "statement": "When a CommandLineTool document is refactored and something had to be changed, the result is a workflow with the inputs and outputs of the tool in their order, whose step main runs the tool once, each input of the tool taking the workflow's input of the same name and each output of the workflow the tool's output of that name; the expressions of the tool are computed by steps that see the inputs of the tool with the same values. When nothing had to be changed the tool is returned as it was. An output of type stdout is still the standard output of the tool. Processes of other kinds, and tools inside other processes, are left alone.", "quantifier": "all tools, inputs, outputs, types, formats, options and values of inputs", "why_tests_cant": "the wrapping is done before anything is known about the expressions; that it keeps the meaning of the tool depends on the whole refactoring that follows", "anchors": ["src/cwl_utils/cwl_v1_2_expression_refactor.py:traverse", "src/cwl_utils/cwl_v1_2_expression_refactor.py:expand_stream_shortcuts", "src/cwl_utils/cwl_v1_2_expression_refactor.py:traverse_workflow"]}
{"id": "C82", "title": "An ExpressionTool becomes a command that runs its code", "statement": "When an ExpressionTool is to be replaced, the result is a CommandLineTool with the same inputs and outputs, which writes and runs a program that computes the value of the expression with the inputs and the runtime values and prints it: the code of a code block, with the library the tool declares, or a function that returns the reference.", "quantifier": "all ExpressionTools, expressions, inputs, resources and versions with the newer escaping rules", "why_tests_cant": "the code goes through normalization, escaping and evaluation as an entry of a working directory before it is run; all texts must survive this", "anchors": ["src/cwl_utils/cwl_v1_2_expression_refactor.py:traverse", "src/cwl_utils/cwl_v1_2_expression_refactor.py:etool_to_cltool", "src/cwl_utils/cwl_v1_2_expression_refactor.py:get_expression", "src/cwl_utils/cwl_v1_2_expression_refactor.py:traverse_workflow"]}
{"id": "C83", "title": "A refactored tool runs the same command", "statement": "When a CommandLineTool is refactored, the step of the resulting workflow that runs it gets the inputs of the tool and inputs fed by the results of the expression steps, and nothing else. If the expression steps give the values of the expressions they were made for, then every argument, stdout, stderr, inputBinding, glob, outputEval, resource and environment variable of the refactored tool has the value it had in the original tool, and every input of the tool has its original value.", "quantifier": "all CommandLineTools, all inputs and values of them, all evaluators of expressions and all refactoring options", "why_tests_cant": "it joins renaming, rewriting and wiring of every place where an expression may stand, for all combinations of such places and all values", "anchors": ["src/cwl_utils/cwl_v1_2_expression_refactor.py:traverse", "src/cwl_utils/cwl_v1_2_expression_refactor.py:traverse_CommandLineTool", "src/cwl_utils/cwl_v1_2_expression_refactor.py:process_level_reqs", "src/cwl_utils/cwl_v1_2_expression_refactor.py:add_input_to_process", "src/cwl_utils/cwl_v1_2_expression_refactor.py:replace_step_clt_expr_with_etool", "src/cwl_utils/cwl_v1_2_expression_refactor.py:traverse_step"]}
{"id": "C84", "title": "Extracted expressions are evaluated with JavaScript and the library that applied", "statement": "Every step that refactoring adds for an expression, and every expression tool inside a sub-workflow it makes for an outputEval, evaluates the expression with JavaScript. The expression library it is evaluated with is the one that applied to the expression in the original document: the library of the tool or step the expression stands in, or that of the workflow if there is none. An ExpressionTool that is made stages no files, whatever the tool stages that its expression was taken from.", "quantifier": "all workflows, all combinations of libraries declared by workflow, steps and tools, all evaluators and refactoring options", "why_tests_cant": "which declaration a new tool gets depends on every requirement of the workflow, the step and the tool, and on which expressions were extracted before", "anchors": ["src/cwl_utils/cwl_v1_2_expression_refactor.py:generate_etool_from_expr", "src/cwl_utils/cwl_v1_2_expression_refactor.py:replace_step_clt_expr_with_etool", "src/cwl_utils/cwl_v1_2_expression_refactor.py:replace_step_valueFrom_expr_with_etool", "src/cwl_utils/cwl_v1_2_expression_refactor.py:replace_step_when_expr_with_etool", "src/cwl_utils/cwl_v1_2_expression_refactor.py:traverse_CommandLineTool", "src/cwl_utils/cwl_v1_2_expression_refactor.py:generate_etool_from_expr2", "src/cwl_utils/cwl_v1_2_expression_refactor.py:etool_to_cltool", "src/cwl_utils/expression_refactor.py:find_expressionLib", "src/cwl_utils/expression_refactor.py:remove_JSReq"]}
{"id": "C85", "title": "An output with pickValue becomes a step that picks the same value", "statement": "Refactoring leaves outputs without pickValue as they are. An output with pickValue is linked to the result of a new step instead and loses its pickValue; the step is given what the output was given, and its JavaScript code returns, for every list of values, exactly what pickValue picks from it, and throws exactly where pickValue is an error: the first value that is not null, the only one, or all of them in their order. Values like 0, false and the empty text are not null.", "quantifier": "all workflows, all lists of values of any length, all three pickValue methods, all refactoring options", "why_tests_cant": "the code is JavaScript text that loops over lists of any length; tests try a few lists", "anchors": ["src/cwl_utils/cwl_v1_2_expression_refactor.py:process_workflow_inputs_and_outputs", "src/cwl_utils/cwl_v1_2_expression_refactor.py:replace_expr_with_etool", "src/cwl_utils/cwl_v1_2_expression_refactor.py:generate_etool_from_expr", "src/cwl_utils/cwl_v1_2_expression_refactor.py:PICKVALUE_FIRST_NON_NULL_EXPR", "src/cwl_utils/cwl_v1_2_expression_refactor.py:PICKVALUE_THE_ONLY_NON_NULL_EXPR", "src/cwl_utils/cwl_v1_2_expression_refactor.py:PICKVALUE_ALL_NON_NULL_EXPR"]}
{"id": "C86", "title": "Saving with relative references, the default, and loading again yields the same object", "statement": "Saving with relative references writes every field in the scope it is loaded in: the identifier relative to the address around the object, every other reference relative to the identifier, with the same scoped_id and ref_scope the loader has, for every class of v1.0, v1.1 and v1.2. So if every address of an object, shortened this way, expands to itself where it will be loaded, saving succeeds and loading the saved text yields the same object, whatever base address it was saved relative to; and the same holds for whole documents with their header.", "quantifier": "all classes of the three versions and all their fields; all objects and documents of any depth; all base addresses; all functions that join addresses, shorten addresses and prefix the names of extension fields", "why_tests_cant": "the save methods are generated for every class and each must agree with its loader in every field; objects nest without bound", "anchors": ["src/cwl_utils/parser/cwl_v1_2.py:save", "src/cwl_utils/parser/cwl_v1_2.py:fromDoc", "src/cwl_utils/parser/cwl_v1_2.py:WorkflowStep", "src/cwl_utils/parser/cwl_v1_2.py:WorkflowStepInput", "src/cwl_utils/parser/cwl_v1_2.py:CommandLineTool", "src/cwl_utils/parser/__init__.py:save"]}
{"id": "C87", "title": "What the package saves, the package loads again: processes by their version, packed lists whole or by name", "statement": "A loaded process that declares its cwlVersion is saved by cwl_utils.parser.save to a document that load_document_by_yaml sends to the parser of that version and that yields the same process, whatever id and load_all are. A saved list of processes loads with load_all as the same list, each process declaring the version; without load_all it yields the first process whose written id is the id asked for (main by default), and is refused with GraphTargetMissingException if there is none. A process that declares no version is saved to a document that is always refused.", "quantifier": "the three versions; all processes and lists of processes that fit the loader of their version; all base addresses, ids and load_all flags; all functions that join addresses, shorten addresses and prefix the names of extension fields", "why_tests_cant": "it needs the version dispatch, the graph target and the generated save and load methods to agree for every process of any depth", "anchors": ["src/cwl_utils/parser/__init__.py:save", "src/cwl_utils/parser/__init__.py:load_document_by_yaml", "src/cwl_utils/parser/__init__.py:cwl_version", "src/cwl_utils/parser/__init__.py:_get_id_from_graph", "src/cwl_utils/parser/__init__.py:version_split"]}
{"id": "C88", "title": "The refactoring modules for v1.0 and v1.1 do what the one for v1.2 does", "statement": "For a workflow without when and pickValue (the fields of v1.2) the expression refactoring of v1.1 gives the same workflow, the same report of a modification or the same error as that of v1.2, and so does the one of v1.0 if the inputs of the steps have ids; likewise for a tool on its own. The result has no when and no pickValue either, so it is still a document of its version, its outputs are unchanged, and it is connected as C63 says.", "quantifier": "all workflows without when and pickValue, all tools, all expressions, types and options, all behaviours of the evaluator and of loading referenced documents", "why_tests_cant": "the three modules are copies of two thousand lines each, kept equal by hand: that they agree is about all documents", "anchors": ["src/cwl_utils/cwl_v1_1_expression_refactor.py:traverse_workflow", "src/cwl_utils/cwl_v1_1_expression_refactor.py:traverse_step", "src/cwl_utils/cwl_v1_1_expression_refactor.py:traverse", "src/cwl_utils/cwl_v1_1_expression_refactor.py:replace_step_valueFrom_expr_with_etool", "src/cwl_utils/cwl_v1_1_expression_refactor.py:process_workflow_inputs_and_outputs", "src/cwl_utils/cwl_v1_0_expression_refactor.py:traverse_workflow", "src/cwl_utils/cwl_v1_0_expression_refactor.py:traverse_step", "src/cwl_utils/cwl_v1_0_expression_refactor.py:traverse", "src/cwl_utils/cwl_v1_0_expression_refactor.py:replace_step_valueFrom_expr_with_etool", "src/cwl_utils/cwl_v1_0_expression_refactor.py:process_workflow_inputs_and_outputs"]}
{"id": "C89", "title": "Refactoring a refactored workflow changes nothing", "statement": "When the expression refactoring is applied to a workflow that it produced, it reports that nothing was modified and gives the same workflow: the same inputs, outputs, steps and requirements. The references that it writes in place of the expressions are not taken for expressions themselves.", "quantifier": "all workflows without when and pickValue whose steps run command line tools, all texts, requirements and types, with both kinds of generated tools and all options", "why_tests_cant": "it is a statement about two runs on every document, and about every text that the first run leaves or writes", "anchors": ["src/cwl_utils/cwl_v1_2_expression_refactor.py:traverse_workflow", "src/cwl_utils/cwl_v1_2_expression_refactor.py:traverse_step", "src/cwl_utils/cwl_v1_2_expression_refactor.py:traverse_CommandLineTool", "src/cwl_utils/cwl_v1_2_expression_refactor.py:process_level_reqs", "src/cwl_utils/cwl_v1_2_expression_refactor.py:process_workflow_reqs_and_hints", "src/cwl_utils/cwl_v1_2_expression_refactor.py:get_expression"]}
{"id": "C90", "title": "Expressions are tried on example inputs that fit the declared types", "statement": "To find out which texts are expressions, the refactoring makes up input objects. That of a process or workflow has an entry for each of its inputs, under the name after the last #, and no other; the value is of the type that the last input of that name declares if the type is null, boolean, int, string, File or Directory, and null for every other type. That of a step has, under the name after the last slash, a text for an input that valueFrom computes, the default of an input without a source, and otherwise an example for the type of the source, or no entry if the source is not known; it is always made unless an input is left without any value. For an outputEval, self is a list of one file, which has contents exactly if loadContents is set.", "quantifier": "all lists of inputs with all ids, types and defaults, all steps, all behaviours of the lookup of source types", "why_tests_cant": "it is about every list of inputs, with repeated names and unknown sources among them, and every type", "anchors": ["src/cwl_utils/cwl_v1_2_expression_refactor.py:empty_inputs", "src/cwl_utils/cwl_v1_2_expression_refactor.py:example_input", "src/cwl_utils/cwl_v1_2_expression_refactor.py:traverse_step", "src/cwl_utils/cwl_v1_2_expression_refactor.py:traverse_CommandLineTool"]}
