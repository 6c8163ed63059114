# Formal model of cwl-utils in Rocq — design

## Approach

`/repo` is read as text; the model under `rocq/theories` mirrors the Python
functions branch by branch as total, computable Gallina functions.  Every model
definition carries a comment with the file and lines it models and says where it
simplifies.  Exceptions are values (`result A := Ok a | Err e`, with the Python
exception class as `e`).  Unbounded `while`/recursive functions take fuel and
return a distinguished out-of-fuel value; the theorems show that value is never
returned for the fuel stated, or exclude it explicitly.  Calls leaving the code
base (JavaScript engine, file system, network, schema-salad, rdflib, container
engines) are parameters of the functions (explicit arguments of the theorems),
never axioms.

File layout, per area `X`:

* `XModel.v`  – executable model with citations, no proofs;
* `XSpec.v`   – the small independent specification the theorems refer to;
* `XProofs.v` – lemmas;
* `XProps.v`  – only the property theorems (`exact lemma`), each followed by
  `Print Assumptions` and an `Example` showing that the hypotheses are met by a
  concrete non-trivial case.

Where the faithful model violates the English property the theorem is named
`..._refuted` and gives a concrete witness; the strongest true variant is proved
next to it as `..._partial`.

## Data representation

* Python `str` is Coq `string` (a list of 8-bit characters; read it as the UTF-8
  encoding of the text). The modelled functions only inspect ASCII characters;
  the exceptions (`\w`, `str.strip`, `str.capitalize`, which Python applies to all
  of Unicode) are modelled on ASCII only and say so.
* JSON/YAML values are `json` (null, bool, int, float as its printed text, string,
  list, dict), dicts are insertion-ordered association lists with Python update
  semantics (`dget`, `dset`, `dpop`).
* In-place mutation is modelled by returning the new value; aliasing between
  sub-objects of one document is not modelled unless stated.

## Per-property plan

| id | modelled code | how proved |
|---|---|---|
| C01 | `scanner` as a stack machine on (remaining text, index, stack) | grammar of balanced regions as inductive predicates; soundness by induction on the run, completeness by induction on derivations |
| C02–C05, C08 | `interpolate` with evaluator as parameter | token grammar; induction on tokens; fuel = length |
| C06, C07 | `do_eval`, `evaluator`, engine as a logged oracle | case analysis; JS-call log shown empty |
| C09, C10 | `param_re`/`segment_re` as backtracking matchers, `regex_eval` | induction on path; renderer/lookup specification |
| C11, C12 | `formatSubclassOf` DFS with shared visited set, `check_format` | DFS invariant (white-path style), reachability as inductive relation |
| C13, C14 | `can_assign_src_to_sink`, `_compare_records`, `check_types`, `merge_flatten_type` | inductive assignability relation; mutual induction on types |
| C15, C16 | `check_all_types` (v1.0/v1.1/v1.2), `static_checker` | induction over sinks/sources with an invariant on the rewritten types; CheckerSpec.v restates links, types and steps from the workflow alone |
| C17 | `type_for_step_input/output` | computation of nesting depth, any depth |
| C18 | `_recursive_search`, `get_property_dependencies`, `slim_definitions` | DFS invariant, reachability |
| C19 | `cwl_to_jsonschema`, `JSONSchemaProperty` | induction over inputs |
| C20 | `normalize_to_list`, `normalize_to_map` | round trip by induction |
| C21–C24 | `pack.py` with a file-system oracle | induction on fuel (nesting depth) |
| C25, C26 | `schemadef.py` | induction on fuel; refutations by witness |
| C27 | `graph_split.py` | structural induction on documents |
| C28, C29 | `docker_extract.py`, `cite_extract.py` | induction on process trees |
| C30, C31 | `image_puller.py`, `singularity.py` | algebra on names and versions |
| C32, C33 | `parser/__init__.py` | case analysis; maximum over lists |
| C34, C35 | `cwl_v1_x_utils.py` | induction over ports; length arithmetic |
| C36–C39 | loaders of `parser/cwl_v1_2.py` | induction on suffixes / maps / alternatives |
| C40, C41 | `exec_js_process`, `eval`, and the three JavaScript programs the engine process runs, as a transition system (`NodeModel.v`): threads, engine processes with their pipes, timers, process deaths; any step may happen at any time | invariant over all reachable states; runs built step by step show that the good endings are reachable; findings by exhibited runs |
| C42 | `check_js_threshold_version`, `new_js_proc` (`StartModel.v`); the results of the programs run are arbitrary and may depend on what was run before | case analysis on the whole start-up; findings by witness |
| C43, C44 | `escape_expression_field`, `replace_wf_input_ref_with_step_output`, `rename_step_source` (`RefactorModel.v`) | induction on texts and on the wiring of a workflow; independent description of the redirected sources |
| C45 | `refactor` with the version modules' `traverse`, YAML and `save` as parameters, files as a map from paths to contents | induction over the documents; exact exit codes, frame and contents |
| C60 | `get_expression`, `interpolate(convert_to_expression=True)` | the same decomposition of texts into pieces as C01–C05; findings by witness |
| C61, C62 | texts made by `etool_to_cltool`, `generate_etool_from_expr`; `find_expressionLib` and its uses | evaluation of the script with the model of `do_eval`; induction over the list of processes |
| C63 | `traverse_workflow` and all it calls on workflows, steps and command line tools (FlowModel), evaluation, type lookup and loading as parameters | invariants of every loop: names and sources of generated steps, the step being rewritten; a measure for the loop that appends to its own list |
| C64 | all of `pack` (PackModel) against an independent relational specification (MeaningSpec): files and links, meaning of types, table of types, imports, processes | refinement: each stage of packing satisfies its relation; induction on the fuel for types, imports, links and nested processes |
| C65 | the same functions; the values of sources and the meaning of JavaScript as parameters (FlowValueSpec) | the way of each step through the loops (FlowTrace); exact contents of the steps made for valueFrom and when; equality of contexts; counterexamples run through the whole model |
| C66 | process_workflow_reqs_and_hints inside the whole of traverse_workflow | each of the three loops described exactly (FlowReqSpec), then carried through the loops over the steps; counterexamples run through the whole model; hypotheses: the JSON library reads back what it wrote, no attribute text holds a # |
| C67 | traverse_CommandLineTool inside the whole of traverse_workflow | each loop described exactly (FlowToolSpec) relative to the step as it is at that moment, then shown stable under all that happens later; values compared through the inputs the tool declares |
| C68 | process_level_reqs inside the whole of traverse_workflow | invariant of the loop over the requirements and their entries, feeding of the new inputs, then carried to the end; hypotheses: step ids with at most one #, no attribute text holds a # |
| C69 | output_loop and sub_workflow inside traverse_workflow | invariant of the loop over outputs: the workflows made so far are layers around the tool, stable under later inputs; outputs kept by induction over layers; findings by evaluation |
| C70 | names of steps made by traverse_workflow | each phase adds a sublist of the possible names of its places; all names of the result are, up to order, among those bound to loaded steps, outputs and requirements; disjointness of name families; findings by evaluation |
| C71 | _URILoader, _expand_url | addresses as a record of five parts (AddressSpec.v), urlsplit and urlunsplit inverse on them; the loader as expansion, link check and inner load; finding by an instance |
| C72 | _load_field, _document_load, _document_load_by_url | equivalences between the loads before and after each directive, whatever the fuel; prefixes of a document as lookups in the vocabulary |
| C73 | the loaders of the three parsers, with their tables | by induction over the document: after each shorthand only parts of the document, texts, and mappings of texts are left, and no table leads from a shorthand to another one on the text it made (checked by computation); a file importing itself has no result with any fuel |
| C74 | the generated `save` methods (`relative_uris=False`), `save` of the parser package, the loaders and the tables of the three parsers | by induction over a specification of the values a loader yields (`SaveSpec.Fits`): what such a value is saved as is loaded as that value, up to blank names (`Renamed`), and refused by the alternatives before; a boolean checker of `Fits`, proved sound, shows that loaded examples meet it; three refutations by computation |
| C75 | `load_inputfile*` of the package and of the versions, `_inputfile_load`, with the loaders and tables of the parsers | the values of an input file are specified inductively (`InputSpec.Value`), and loaded as specified by induction over them: the alternatives tried before refuse, the right one accepts; path and URI forms by the address lemmas; six refutations |
| C76 | `normalizer.run` over a file system, with `pack` as modelled and the upgrader, the parser, `traverse` and `save` as parameters | the loop is shown equal to an inductive relation (`NormalSpec.Normalised`), by induction over the documents; frame by induction; findings by computation on arbitrary states |
| C77 | `pack_cli.run` over a file system | by cases on the modelled function |
| C78 | `pack` as modelled for C21-C26, in two file systems | what the first run returns is shown (induction over the nesting) to be of a form that each stage of the second run leaves alone; versions by the order of versions |
| C79 | `inputs_schema_gen.py`: `get_cwl_url`, `run`, `arg_parser`; loading, servers and `json.dumps` are parameters | case analysis of the run against an independent description of places and outputs; acceptance through C59 |
| C80 | the loaders of C36-C39 and C54-C56 once more with `loadingOptions.idx` as a history of writes, openings and answers (`IndexModel.v`) | simulation of three ways of loading by induction on the recursion; invariants of the history; `alone` by the preservation of self-contained documents |
| C81 | `traverse` and `expand_stream_shortcuts` on top of the model of workflows (`TraverseModel.v`) | instances of the theorems about workflows (C63, C65, C67, C68) for the workflow around the tool, with its own spec `Around` |
| C82 | the same model as C81 with the program text of C61 | composition with the evaluation of the program text (C61) and the extraction of expressions (C60) |
| C83 | the same model as C81; SameSpec says what a command is, for an arbitrary evaluation of texts | every added input is one of a fixed list of shapes, a reference in the tool determines the step behind it, and C81_expressions and C81_values give its value |
| C84 | the same model as C63; LibSpec says which declaration counts (the last, C05) and what evaluating with a library means for the two kinds of tools | an invariant of all traversal functions: every declaration in a generated tool comes from the workflow, the step or the tool |
| C85 | the same model as C63; PickSpec has words, grammar and a big-step semantics for the part of JavaScript in the texts, and pickValue as CWL defines it | the texts are the words of three programs (by computation); the programs pick the value by induction over the list; the semantics is deterministic, so they do nothing else |
| C86 | the save methods as tables, read from the text by tools/gen_save_tables.py, and one function that walks an object by its table; the loaders of C36-C39 | both tables agree (by computation over all classes); induction over objects that fit a loader at an address; counterexamples by computation |
| C87 | load_document_by_yaml of the package with the three generated loaders in it; save of C86 | C32 (dispatch) composed with C86 (round trip); the version and id a saved process has follow from the save tables; counterexample by computation |
| C88 | the functions of the two older modules whose text differs from the v1.2 module, and those that call them (FlowOldModel) | equality by induction over the inputs of a step and over the steps visited; generated steps have names the loop skips and no when |
| C89 | the same model, run twice | every place is shown to be quiet after the first run, from C65, C67, C68 and C69 and an induction for the requirements of the workflow; a run over quiet places is the identity |
| C90 | the example inputs of FlowModel.v (`tool_mock`, `wf_mock`, `step_mock`, `eval_self`) | induction over the list of inputs; the failing case through the loop over the steps |
| C46, C47, C50 | `utils.py` | structural induction; refutations by witness |
| C54–C56 | `_expand_url`, `_RecordLoader`, generated `fromDoc`, `_PrimitiveLoader`, `_EnumLoader` | URL algebra; independent description of objects, equivalence at every amount of fuel |
| C57, C58 | tables of `cwl_v1_0.py`, `cwl_v1_1.py`, `cwl_v1_2.py` (read by `tools/gen_tables.py`) | checks of the tables by computation; induction on fuel for the errors |
| C59 | JSON Schema acceptance of the generated schemas (`JsonSpec.v`) | induction on types; exact characterisation, then soundness for separate unions |
| C53 | `parser/__init__.py`, `urllib.parse` | algebra on texts; refutations by witness |
| C51, C52 | `schemadef.py`, `pack.py` | decision rules; mutual induction on expansion; refutations by witness |
| C48, C49 | `param_for_source_id`, `type_for_source` | induction over sources |

## Trusted base

1. **Coq.** The kernel of Coq 8.16.1, including `vm_compute`, which some proofs about concrete
   documents and about the generated tables use.  No axiom is added, no check is switched off, and
   nothing is left unproved.
2. **Axioms.** `Print Assumptions` says `Closed under the global context` for every theorem named in
   `MANIFEST.json` (the list is at the end of this file; the command follows each theorem in the
   `*Props*.v` files).  The whole-library list of the checker also shows seven constants
   `Coq.ssr.ssrunder.Under_rel.*` (`Under_rel`, `Under_rel_from_rel`, `Under_relE`, `Over_rel`,
   `over_rel`, `over_rel_done`, `under_rel_done`): these are the fields of a sealed module of the
   standard library that is loaded with it; no theorem here uses them.
3. **The reading of the code.** The model was written by hand from the Python text.  The field tables
   of the three generated parsers (`CwlTablesV1_0.v`, `CwlTablesV1_1.v`, `CwlTablesV1_2.v`) were
   written by `tools/gen_tables.py` from the text of `parser/cwl_v1_{0,1,2}.py`, and the tables of
   their `save` methods (`SaveTables.v`) by `tools/gen_save_tables.py`.
4. **What is outside the code base** appears as parameters of the functions, so each theorem holds
   for every behaviour of them, except where a hypothesis of the theorem says otherwise.

### Parameters: what may behave in any way

| area | parameters |
|---|---|
| expressions (`ExprModel`, `EvalModel`) | the JavaScript engine with its own state, `json.dumps`, `json.loads` of a quoted text |
| packing (`PackModel`, `MeaningModel`, `AgainSpec`) | reading files, fetching URLs, `urllib.parse` (scheme, path, `urljoin`), the YAML parser, version parsing and comparison |
| loading (`LoaderModel`, `IndexModel`, `InputModel`, `TripModel`, `ParserModel`) | `urljoin`, the schemes the fetcher knows, existence checks, fetching, the YAML parser, generated blank names (`uuid`), the tables (instantiated with those of the code) |
| saving (`SaveModel`, `ShortModel`) | `save` and `save_relative_uri` of `schema_salad.runtime`, which are not in /repo: assumed to leave texts alone, to go through lists and mappings and to call the method of objects; with relative references (`ShortModel`), what `save_relative_uri` writes for an address and `prefix_url` for the name of an extension field |
| refactoring (`RefactorModel`, `FlowModel`, `TraverseModel`) | evaluation of expressions, example values of sources, loading of `run` references, rendering of YAML, the names made up for the files of shortcut outputs (`digest`) |
| commands (`NormalModel`, `CommandModel`) | cwlupgrader, loading, `traverse`, `save`, the JSON and YAML encoders, temporary names, whether files can be opened, servers |
| images (`ImageModel`) | the container engines with a world of their own, the output of `singularity --version`, loading |
| JavaScript processes (`NodeModel`, `StartModel`) | what a script does (any outcome, also never ending), when threads, timers and processes take their steps, which programs are installed and what they print |

### Hypotheses on the environment that theorems state

* C22, C78: versions are ordered (`ordered`): the comparison of parsed versions is transitive and irreflexive.
* C21, C64, C76: no file is itself an import (`no_file_is_an_import`), classes are texts; C64: a URL scheme holds no slash.
* C36–C39, C54–C56, C71–C75: `urljoin` of an absolute address gives that address; schemes as in `urllib.parse`; C74, C75, C86, C87: the `joins` and `checks` hypotheses say what `urljoin` and existence checks answer for the ids at hand; C87 `version_stays`: a version such as `v1.2` is written as it is.
* C65: sources are found (`params_found`) and steps are told apart by name (`by_name`); C66: the JSON library reads back what it wrote (`json_library_ok`) and no attribute text holds a `#`; C67, C68, C70: ids with at most one `#`.
* C83: what a text means (`Meaning`), that a tool made for an expression gives the value of that expression (`Computes`; C60, C61 and C82 are about this) and that the values in the workflow are those its steps and links give (`Solves`, `Links`).
* C79: a file can be opened only in a directory that is there; for the acceptance theorem, the JSON library reads back what it wrote.

### What is modelled

| file of /repo/src/cwl_utils | model | left out |
|---|---|---|
| `expression.py` | `ExprModel`, `EvalModel` | the texts of error messages, Unicode beyond ASCII in `\w` |
| `sandboxjs.py` | `NodeModel`, `StartModel`, `EvalModel` | the text of error messages; the console output of scripts that is only logged |
| `file_formats.py` | `FormatModel` | parsing of ontologies (rdflib): the graph is given |
| `utils.py` | `UtilsModel`, `PackModel` (linked files), `SchemaModel`, `CommandModel` (URIs) | `yaml_dumps`, `singularity_supports_userns` (a parameter of `StartModel`) |
| `pack.py`, `schemadef.py` | `PackModel` | log messages |
| `graph_split.py` | `GraphModel` | how YAML and JSON are printed; line numbers in errors |
| `docker_extract.py`, `cite_extract.py`, `image_puller.py`, `singularity.py` | `ImageModel` | log messages |
| `inputs_schema_gen.py` | `SchemaModel`, `CommandModel` | log messages |
| `normalizer.py`, `pack_cli.py` | `NormalModel` | parsing of arguments, log messages |
| `expression_refactor.py` | `RefactorModel` | parsing of arguments |
| `cwl_v1_2_expression_refactor.py` | `RefactorModel` (texts, wiring, libraries), `FlowModel` (`traverse_workflow` and all it calls), `TraverseModel` (`traverse`, `expand_stream_shortcuts`, `etool_to_cltool`) | what follows a successful evaluation of an entry of a workflow's InitialWorkDirRequirement (lines 905–970), which is never reached (`C66_entry_refused`) |
| `cwl_v1_0_expression_refactor.py`, `cwl_v1_1_expression_refactor.py` | `FlowOldModel` for the functions that differ, the same models for the others | see below |
| `parser/__init__.py`, `parser/utils.py` | `ParserModel`, `TypeModel`, `InputModel`, `TripModel` | conversion through `convert_stdstreams` only as far as C34 and C35 say |
| `parser/cwl_v1_{0,1,2}.py` | `LoaderModel`, `IndexModel` (the index of loaded documents), `SaveModel`, `ShortModel`, `VersionModel`, tables | positions for messages, the order of attributes of Python objects |
| `parser/cwl_v1_{0,1,2}_utils.py` | `ParserModel`, `TypeModel` | – |
| `errors.py`, `types.py`, `loghandler.py`, `__init__.py`, `__meta__.py`, `parser/latest.py` | names only | no behaviour of their own |

The three modules `cwl_v1_x_expression_refactor.py` were compared line by line.  After renaming the
module they differ only in this: v1.0 and v1.1 have no `pickValue` and no `when`, so the code for
these is absent; v1.0 has `InputParameter` for `WorkflowInputParameter`; in v1.0 the expression of a
secondary file is the entry itself and not its `pattern`; in v1.0 an empty type ends in a
WorkflowException in two more places, and steps inputs without an id are not skipped.  The theorems of C63–C70 are stated for
the v1.2 code; C88 proves that on workflows without `when` and `pickValue` the other two modules give
the same result.  That the remaining functions have the same text is by reading: they share one
definition in the model.

### Findings

The faithful model violates the English property in these places; each is a theorem whose name ends
in `_refuted`, with a concrete document or run.  What is missing in partial claims is in the same
notes.

* **C09** (A parameter reference evaluates to the field or element it names): proved for every path whose quoted keys do not contain the closing quote-bracket pair; refuted for those keys
* **C10** (A parameter reference that names nothing fails cleanly): element 0 of an empty list escapes as IndexError; every other unresolvable path fails as stated
* **C12** (Every file offered to a format-constrained input is checked): finding: check_format returns after the first file that matches, later files are never looked at; what is checked is proved for the first non-empty file
* **C19** (The generated input schema requires exactly the mandatory inputs): finding: an input of type null is listed as required; proved for every other input list with distinct names
* **C20** (Map and list forms of CWL sections are interchangeable): finding: list sections with repeated keys silently lose entries; proved for distinct keys
* **C46** (Every byte string in the evaluation context is decoded): finding: only the first element of a list is converted
* **C47** (Schema field types keep their meaning when sanitised): finding: nested array shorthands collapse to one level
* **C13** (Type assignability matches the CWL connection rules): the relation is decided exactly; findings: strictness is lost below a union, and enums of different port kinds never compare equal
* **C15** (Every link of a workflow is checked and reported faithfully): full for v1.0/v1.1; v1.2 when outputs of collecting steps are used once and the links from an output of a conditional step agree whether they expect null; C15_report_partial says it of the workflow as written (distinct ports, existing sources); findings: types are rewritten in place, so a shared loop source is wrapped twice and what is said of a shared conditional source depends on the order of the links
* **C16** (The static checker rejects exactly the invalid workflows): C16_static_checker_partial: rejected exactly if a step output does not exist or a link does not fit, said of the workflow as written, for all versions (v1.2: shared sources as in C15); findings: unfed required inputs alone are not rejected; inputs of tools in other files are not checked; unknown sources in a list end in KeyError
* **C49** (The type of merged sources is computed from all of them): findings: _compare_type matches type1 against itself
* **C21** (A packed workflow is self-contained): C77_self_contained_partial says it of what the packing command writes; proved when no imported file has an import as its whole contents; finding: such an import stays in the packed document
* **C26** (Inlined copies of a user type get distinct names): proved when no user type is named like a generated name (ending in _ and digits); finding: otherwise names collide
* **C51** (An incomplete type is reported as such): finding: for arrays and records AttributeError is raised instead, always
* **C52** (Imports are expanded relative to the file they stand in): proved when imported files contain no further imports; finding: nested imports are resolved against the importing document
* **C27** (Splitting a packed document rewrites its internal references consistently): findings: list outputSource makes splitting fail; ids differing in .cwl share a file; run: #main dangles; type references in unions and between types of one file keep packed names
* **C28** (Every Docker image in a workflow is extracted): exact for the loaded objects; finding: hints of a workflow step are loaded as plain data, so a DockerRequirement there is never extracted; requirements of a step get no tag
* **C29** (Every software citation in a workflow is extracted): exact for the loaded objects; finding: hints of a workflow step are loaded as plain data and missed
* **C30** (Image downloads land in distinct, predictable files and are not repeated): no separator in names, exact clash conditions, Singularity caching; findings: names clash, Docker always pulls again and a forced first download fails
* **C31** (Singularity version tests are consistent): for all printed versions; aside: a version of one number raises IndexError
* **C32** (Documents are loaded by the parser of their declared version): exact for YAML values; findings: load_document of a text ignores load_all; an id given with # is never found
* **C33** (Saving several processes declares a version able to hold them all): proved when the declared versions are released ones and at least one is declared; findings: no declared version and development versions raise ValueError
* **C35** (loadContents obeys the 64 KiB limit of the document's version): for bytes; aside: as text, v1.0 and v1.1 fail if a multi-byte character lies across the limit
* **C53** (A document is loaded from the file its path names): proved for file URIs, Path objects without # and paths without special characters; findings: + ? ; % : in a path name another file; a Path with a fragment reads a file whose name includes the fragment
* **C36** (Type shorthands expand to the type they abbreviate): exact for every text; findings: a nested [] is kept as plain text where a type may be a text, not rejected; a ? before [] or another ? becomes part of the referenced name
* **C37** (Identifier maps and lists load alike): exact for every loader; finding: the parsers give the text None as value key where there is none, so that a hint that is no mapping is kept under the key None instead of being rejected
* **C56** (A field accepts only values of its type): finding: booleans are accepted for integers
* **C59** (The generated input schema accepts the values of the input types): exact description proved; findings: overlapping alternatives of a union reject their common values, optional record fields reject null, record types with the same last name share a definition
* **C40** (JavaScript evaluations do not contaminate each other): for every interleaving of threads, engine processes, timers and process deaths; finding: when a read ends in the middle of a UTF-8 character the evaluation raises a decoding error and the process is kept although its answer is unread, so later evaluations on it get the answer of the script before them
* **C41** (A script that does not finish in time is reported as an error): finding: when the timer has killed the process but its death is not yet seen, the output so far is taken for the answer, and a prefix of a JSON number is a JSON number
* **C42** (Only sufficiently recent Node.js is accepted): the start-up is characterised exactly; findings: a local Node.js that qualifies is not used when an older one comes first in the search, and a pre-release version text raises ValueError even when a container is available
* **C43** (Escaped expression text is inert): aside: nothing undoes the escaping, so the evaluated text differs from the original
* **C44** (Expression refactoring redirects references precisely): replacement of inputs exact; renaming exact for step inputs; finding: for outputs the step part of the name is ignored, a source without a step raises IndexError and a list AttributeError
* **C45** (The refactoring tools report failure through their exit status): exact codes and files; finding: documents with the same name in different directories overwrite each other, with code 0
* **C60** (Texts that need JavaScript become an equivalent expression): exact for every text; findings: runtime references count as JavaScript, a text starting with a reference and ending with a bracket is taken for one reference, white space around a reference turns its value into a text, quotes in plain text are not escaped
* **C61** (Generated tools run the code that was written): findings: a code block loses the character before its closing bracket; in scripts dollar-bracket pairs get a slash, double backslashes are halved, under old versions backslashes vanish, and libraries are not escaped
* **C62** (Extracted expressions keep their expression library): about the requirement that is put first in the new tool; the requirements copied from the tool come after it, and C84 says which one counts. Finding: for expressions of a tool the library of the workflow is preferred there, and without ExpressionTools that of the tool is lost
* **C64** (A packed document means what the original means): versions are left to C22; imports inside imported files are looked up beside the importing document (C52); aside: a file of ports in mapping form is refused because its keys are taken for types
* **C65** (Step expressions are computed by a step of their own in the same context): exact description of the new steps and of what they see; the value is kept under stated conditions; findings: the expression no longer sees its own input, inputs whose names end with its name, inputs with only a default; self is lost for inputs named f, lf, elf and for defaults, links are not merged for it; neighbours are not scattered; when together with an input that has only a valueFrom is refused; an expression in an input that the tool does not have, which CWL allows, is refused (C65_target says it always is)
* **C66** (Requirements of a workflow that hold expressions are computed by steps of their own): exact description of what is added for environment variables, resources and listings; the value of an expression that looks at no input is kept; findings: the new steps see none of the inputs, amounts without expressions are dropped, a step with a requirement of its own gets a second one of the same class, the link to a listing lacks its closing bracket, an expression in the entry of a listing makes refactoring fail
* **C67** (Expressions of a command line tool are computed by steps of their own): exact description of the tool and the new steps afterwards, also inside the workflows made for outputEval; the value is kept under stated conditions; findings: the expressions of input bindings and globs stay in the tool while its InlineJavascriptRequirement is removed, a plain argument is linked to an input that does not exist, the new steps are not scattered, inputs whose names begin with an underscore are lost; outputEval is C69
* **C68** (Requirements of a tool that hold expressions are computed by steps of their own): exact description of every requirement afterwards, for ids with at most one #; findings: an expression in an environment variable cannot be refactored (TypeError), expressions that are listings or entries see no input, the reference to an entry lacks its closing bracket, a listing that is one expression becomes a tuple, the code made for an entry with a name is broken if the name is an expression or the entry a body
* **C69** (outputEval is computed by a step of its own): exact description of the nested workflows and of the tool inside; the inputs the expression sees are those of the tool under stated conditions; findings: of two outputEvals the second stays in the tool and is applied twice, inputs that begin with an underscore (results of other expressions, the condition) have no source inside, a valueFrom that stays is evaluated again inside, a step input without a source is an AttributeError, the input for a later glob does not get inside; types of outputs are not modelled
* **C70** (Steps of a refactored workflow have names of their own): names of all steps of the result differ whenever those of the document keep apart (names of steps without underscores and not called workflow, distinct places in each step; weaker conditions in NamesApart); findings: step a with input b_c against step a_b with input c, an input called stdout against the stdout of the tool, a step called workflow against a requirement of the workflow, a document refactored before; step inputs made for a requirement of the tool and of the workflow share a name, as do two entries of one listing
* **C71** (References are replaced by addresses, and missing targets are noticed): exact; finding: targets of references given in a list are not looked up
* **C72** (Imports, inclusions and whole documents): imports with a fragment, and the table by which a file imported twice is loaded once, are in C80; finding: a file that holds only the name of another file cannot be imported
* **C73** (Loading comes to an end): for all documents without imports; finding: a file that imports itself is loaded without end
* **C74** (What is saved is loaded again as the same document): for values that fit (SaveSpec.Fits: texts stand for themselves, identifiers in a list differ, values are of no alternative tried before); that every loaded value fits is not proved, and not true: findings: two spellings of one identifier in a list are loaded but refused when saved, a packed document with $namespaces is refused when saved, names made up for nameless objects change
* **C75** (The values of an input file are loaded as they are): for the input files that InputSpec.Inputs describes (known fields only, addresses in full or plain relative names, no $import, ids in a list distinct); findings: records with the same id in a list are refused, a description with an unknown field is kept as a mapping, a format with a prefix becomes an address in the input file, a part of a file cannot be named; as a default in a document nested lists are flattened and a file that does not exist is silently kept as a mapping
* **C76** (Normalizing writes each document under its name, in order): the upgrader, the v1.2 parser, traverse and save are parameters; self-contained under the hypotheses of C21; findings: two documents of the same file name overwrite each other, a value JSON cannot express leaves a truncated file, a $graph document always fails unless refactoring is off, a workflow with a linked step always fails when it is off, type names depend on the documents before
* **C78** (Packing a packed document changes nothing and reads nothing): proved when the packed document has no link left, no source starting with # and an id on a single port; findings: a source with two # loses one each time, an import of an import stays and is followed only the second time, from another place
* **C79** (The schema command writes the whole schema or says that it did not): acceptance under the side conditions of C59; findings: a failing run empties the output file that was there before, a relative path always ends with ValueError, a document named as its own output is lost before it is read
* **C80** (A file imported several times is read once and means the same each time): sameness only where, reading every import anew, an address with something written under it is answered with just that, and without fragments and files that hold only a text; findings: a file imported as an input and again as an output stays an input parameter, an identifier equal to the address of a file replaces the file, a tool in a packed file cannot be imported for a step
* **C81** (A command line tool on its own becomes a workflow around it): values for inputs whose names do not begin with an underscore; finding: an output of type stdout becomes a File without an outputBinding (it is given to the discarded original, there as loadContents), so the standard output is lost; tools with an expression in the format or secondaryFiles of an input are refused (C81_format_refused)
* **C82** (An ExpressionTool becomes a command that runs its code): code without double backslashes and without what looks like a reference; findings: a reference that needs no JavaScript becomes a program that returns nothing, the same for every reference in a step of a workflow, and the expressionLib of the tool is lost
* **C83** (A refactored tool runs the same command): excluded: arguments that are texts with expressions (C67_argument_refuted), outputEval with expressions (C69), outputs of type stdout (C81_stdout_refuted), entries of listings (C68), inputs whose names start with an underscore and expressions that use inputs as a whole. What an expression means and that an expression tool gives the value of its expression are hypotheses (Meaning, Computes, Solves): C60, C61 and C82 are about them
* **C84** (Extracted expressions are evaluated with JavaScript and the library that applied): JavaScript is always there; the library is the right one if the workflow declares it and no step or tool another one, or if there is none. For an outputEval it is always that of the workflow, otherwise of the step, otherwise of the tool. Findings: the first argument that is extracted takes the InlineJavascriptRequirement from the tool, so later expressions lose its library; when ExpressionTools are replaced the library of a tool is lost for all its expressions; the valueFrom of a step is evaluated with the library of the tool it runs, an outputEval with that of the workflow. Steps made for a when are visited again; the program they run may be moved when ExpressionTools are replaced, and they are left out then
* **C85** (An output with pickValue becomes a step that picks the same value): for outputs whose linked value is a list; PickSpec has a grammar and a semantics of the part of JavaScript the three texts use. Finding: linkMerge of the output is not done before picking, it stays with the output
* **C86** (Saving with relative references, the default, and loading again yields the same object): C86_same_scope is complete. The round trip needs each address to be restored where it is read (restored, in ShortSpec); what save_relative_uri and prefix_url do with one text is outside /repo and a parameter. Findings, v1.1 and v1.2: the id of a process inside a step is read in the scope <step>/run but written relative to the step, so <step>/run/inner becomes <step>/run/run/inner; the made-up name of an array type becomes an address in the parameter. Packed documents: without namespaces (C74 says why)
* **C87** (What the package saves, the package loads again: processes by their version, packed lists whole or by name): Partial as C86 is: each address must be restored where it is read, and the document has no $import, $include or $mixin. Findings: a packed document whose main process is found loads no more after saving with the default base address, because ids are written as full addresses and load_document_by_yaml looks for main (C87_main_refuted); a process without cwlVersion, such as one taken out of a step, is saved to a document that is refused (C87_unversioned)
* **C89** (Refactoring a refactored workflow changes nothing): Proved for tools without expressions in inputBinding.valueFrom, glob, outputEval and plain-text listing entries, and for texts of which it does not depend on the example inputs whether they are expressions (plain text and code; not references to inputs); requirements of the workflow are not restricted. A step for a glob or an inputBinding is made again, with the same name (C89_glob_refuted, C89_binding_refuted); after an entry of a listing was moved, the second run fails, since the reference has no closing bracket (C89_entry_refuted). Missing: when, pickValue, nested workflows, references to inputs.
* **C90** (Expressions are tried on example inputs that fit the declared types): The statement is proved as it stands; what a user expects beyond it does not hold. Findings: the example for long, float, double, arrays and every other type is null, which is no value of the type; the base name of the example file is not its root followed by its extension; a workflow in which an input of a step has no value at all, or only a default such as 0, false or an empty text, cannot be refactored, even without any expression, since the type of no source is looked up (C90_unset_input, under the hypothesis that this lookup is a TypeError, as parser/utils.py:275 makes it). The lookup of source types is a parameter of the model; C49 is about it.

### Print Assumptions, per theorem

| property | theorems, each `Closed under the global context` |
|---|---|
| C01 | `C01_scanner_found`, `C01_scanner_nothing`, `C01_scanner_unclosed` |
| C02 | `C02_plain_text` |
| C03 | `C03_escape_round_trip` |
| C04 | `C04_one_reading`, `C04_interpolate_meaning` |
| C05 | `C05_single_reference`, `C05_otherwise_text` |
| C06 | `C06_pass_through`, `C06_failures` |
| C07 | `C07_no_javascript`, `C07_expression_lib`, `C07_other_text` |
| C08 | `C08_old_versions`, `C08_new_versions` |
| C09 | `C09_reference_is_lookup`, `C09_reference_end_to_end`, `C09_runtime`, `C09_null`, `C09_bracket_in_key_refuted` |
| C10 | `C10_reference_fails_cleanly_partial`, `C10_index_error_iff`, `C10_zero_of_empty_refuted` |
| C11 | `C11_format_subclass_is_reachability` |
| C12 | `C12_first_file_checked_partial`, `C12_later_files_unchecked_refuted` |
| C18 | `C18_keeps_exactly_the_used`, `C18_when_it_succeeds`, `C18_reference_name` |
| C19 | `C19_schema_partial`, `C19_null_type_refuted` |
| C20 | `C20_map_to_list_and_back`, `C20_list_to_map_and_back`, `C20_already_normal`, `C20_rejections`, `C20_duplicate_keys_refuted` |
| C46 | `C46_bytes_decoded_partial`, `C46_nothing_else_changed`, `C46_invalid_bytes`, `C46_rest_of_list_refuted` |
| C47 | `C47_meaning_kept_partial`, `C47_nested_arrays_refuted` |
| C50 | `C50_pascal_case_letters`, `C50_pascal_case_words`, `C50_pascal_case_stable` |
| C13 | `C13_assignment_decides_the_relation`, `C13_types_connect_to_themselves`, `C13_strict_is_sound_refuted`, `C13_strict_is_sound_partial`, `C13_enum_between_ports_refuted`, `C13_field_names` |
| C14 | `C14_verdicts`, `C14_value_from_passes`, `C14_unknown_merge_rejected`, `C14_merge_is_determined` |
| C15 | `C15_links_reported_v1_0_v1_1`, `C15_links_reported_v1_2_partial`, `C15_shared_loop_source_refuted`, `C15_shared_conditional_source_refuted`, `C15_report_partial` |
| C16 | `C16_incompatible_links_rejected_v1_0_v1_1`, `C16_incompatible_links_rejected_v1_2_partial`, `C16_unknown_step_output_rejected`, `C16_unfed_required_input_refuted`, `C16_external_tool_refuted`, `C16_unknown_source_in_list_refuted`, `C16_empty_source_list_refuted`, `C16_unknown_version_rejected`, `C16_unknown_source_rejected`, `C16_unknown_single_source`, `C16_unfed_inputs_reported`, `C16_static_checker_partial` |
| C17 | `C17_step_output_nesting`, `C17_nesting_is_determined`, `C17_unknown_step_output`, `C17_step_input`, `C17_step_input_any` |
| C48 | `C48_source_names` |
| C49 | `C49_one_parameter`, `C49_several_parameters_partial`, `C49_types_after_an_array_refuted`, `C49_type_after_a_record_refuted`, `C49_missing_source_refuted`, `C49_scattered_twin_refuted`, `C49_record_types_compared`, `C49_scattered_source_partial` |
| C21 | `C21_packed_self_contained_partial`, `C77_self_contained_partial`, `C21_import_remains_refuted` |
| C22 | `C22_packed_version_highest`, `C22_packed_version_declared` |
| C23 | `C23_subworkflow_listed`, `C23_added_exactly` |
| C24 | `C24_sources_normalised`, `C24_normalising_twice`, `C24_graph_unchanged` |
| C25 | `C25_inlined`, `C25_packed_ports`, `C25_unknown_rejected`, `C25_recursive_type_never_ends` |
| C26 | `C26_names_distinct_partial`, `C26_all_names_distinct_partial`, `C26_names_refuted` |
| C51 | `C51_incomplete_types_refuted`, `C51_missing_type_reported` |
| C52 | `C52_imports_in_place_partial`, `C52_nested_import_refuted` |
| C27 | `C27_processes_moved_partial`, `C27_file_contents_partial`, `C27_references_kept`, `C27_run_names_the_file`, `C27_not_packed`, `C27_valid_workflow_rejected_refuted`, `C27_one_file_each_refuted`, `C27_run_main_refuted`, `C27_optional_type_refuted`, `C27_type_in_same_file_refuted` |
| C28 | `C28_extracted_exactly`, `C28_ends`, `C28_step_hints_refuted`, `C28_port_untagged_refuted` |
| C29 | `C29_extracted_exactly`, `C29_ends`, `C29_printed`, `C29_step_hints_refuted` |
| C30 | `C30_singularity_names_partial`, `C30_docker_names_partial`, `C30_names_clash_refuted`, `C30_singularity_cached`, `C30_singularity_pulled`, `C30_docker_saved`, `C30_docker_cache_refuted`, `C30_run_pulls_once`, `C30_singularity_needs_a_directory`, `C30_run_docker`, `C30_clash_serves_other_image_refuted` |
| C31 | `C31_answers`, `C31_ordered`, `C31_asked_once`, `C31_single_number_refuted` |
| C32 | `C32_load_iff`, `C32_target_unique`, `C32_not_a_mapping`, `C32_version_required`, `C32_missing_target`, `C32_hash_never_found`, `C32_load_document_partial`, `C32_cwl_version`, `C32_text_load_all_refuted` |
| C33 | `C33_newest_version`, `C33_newest_unique`, `C33_other_lists`, `C33_mapping`, `C33_no_version_refuted`, `C33_dev_version_refuted` |
| C34 | `C34_v1_0`, `C34_v1_1`, `C34_v1_2`, `C34_no_shortcuts_left`, `C34_idempotent`, `C34_refused`, `C34_streams_separate` |
| C35 | `C35_v1_2`, `C35_v1_0`, `C35_text_v1_2`, `C35_text_v1_0_partial`, `C35_text_v1_0_ascii_partial`, `C35_text_v1_0_refuted` |
| C53 | `C53_plain_path_partial`, `C53_plain_path_fragment_partial`, `C53_file_uri`, `C53_file_host`, `C53_file_case`, `C53_path_object`, `C53_path_characters_refuted`, `C53_path_object_fragment_refuted` |
| C36 | `C36_type_shorthand_partial`, `C36_type_list_partial`, `C36_any_text_partial`, `C36_type_in_full`, `C36_later_rules`, `C36_nested_refuted`, `C36_marks_refuted`, `C36_salad_version`, `C36_mixed_list_partial` |
| C37 | `C37_map_is_list`, `C37_map_refused`, `C37_map_accepted`, `C37_hints_refuted`, `C37_hints_loader_refuted` |
| C38 | `C38_secondary_files`, `C38_secondary_files_refused`, `C38_one_meaning` |
| C39 | `C39_deterministic`, `C39_union_first_match`, `C39_union_refused`, `C39_union_other_error`, `C39_array`, `C39_element`, `C39_array_refused`, `C39_array_only_lists`, `C39_mapping`, `C39_mapping_only` |
| C54 | `C54_scoped_identifier`, `C54_identifiers_distinct`, `C54_scoped_reference`, `C54_absolute`, `C54_twice`, `C54_expression_kept`, `C54_term_kept`, `C54_identifier_anywhere`, `C54_reference_anywhere`, `C54_prefix`, `C54_term_in_full`, `C54_prefixed_term`, `C54_no_term`, `C54_relative` |
| C55 | `C55_object`, `C55_not_object`, `C55_required`, `C55_unknown_field`, `C55_other_class`, `C55_fields`, `C55_settings`, `C55_any`, `C55_root_only` |
| C56 | `C56_values_partial`, `C56_other_values_partial`, `C56_integer_refuted`, `C56_enumeration` |
| C57 | `C57_dispatch`, `C57_class_loaded`, `C57_class_needed` |
| C58 | `C58_version_checked`, `C58_other_version`, `C58_loaded_or_refused` |
| C59 | `C59_type_schema`, `C59_input_object`, `C59_values_accepted_partial`, `C59_record_definition`, `C59_overlap_refuted`, `C59_null_field_refuted`, `C59_same_name_refuted`, `C59_supported_types`, `C59_definitions`, `C59_generated` |
| C40 | `C40_own_output`, `C40_beginning_of_own_output`, `C40_private_processes`, `C40_starts_on_a_live_process`, `C40_ascii_partial`, `C40_can_answer`, `C40_next_evaluations_refuted` |
| C41 | `C41_timeout_reported_partial`, `C41_values`, `C41_endless_script`, `C41_can_end`, `C41_killed_process_refuted` |
| C42 | `C42_version`, `C42_start`, `C42_any_world`, `C42_older_first_refuted`, `C42_prerelease_refuted` |
| C43 | `C43_exact`, `C43_inert`, `C43_unchanged`, `C43_original_refuted` |
| C44 | `C44_replace_input`, `C44_rename`, `C44_rename_raises`, `C44_rename_outputs_refuted` |
| C45 | `C45_frame`, `C45_zero`, `C45_one`, `C45_unsupported`, `C45_single`, `C45_codes`, `C45_contents`, `C45_all_outputs_refuted` |
| C60 | `C60_none`, `C60_code_block`, `C60_single`, `C60_interpolated_partial`, `C60_parameter_references_refuted`, `C60_code_refuted`, `C60_white_space_refuted`, `C60_interpolated_refuted` |
| C61 | `C61_converted_body`, `C61_block_body`, `C61_block_refuted`, `C61_script_partial`, `C61_brackets_refuted`, `C61_backslashes_refuted`, `C61_old_versions_refuted`, `C61_library_refuted` |
| C62 | `C62_last_declaration`, `C62_step_expression`, `C62_tool_expression_partial`, `C62_tool_expression_refuted` |
| C63 | `C63_sources_exist`, `C63_steps_kept`, `C63_interface_kept`, `C63_unmodified`, `C63_ends`, `C63_unmodified_loaded`, `C63_input_expressions` |
| C64 | `C64_packed_meaning`, `C64_types_written_out`, `C64_links_followed`, `C64_texts_followed`, `C64_imports_replaced`, `C64_ports_mapping_refuted` |
| C65 | `C65_value_from`, `C65_when`, `C65_value_kept_partial`, `C65_inputs_lost`, `C65_own_name_refuted`, `C65_suffix_refuted`, `C65_default_refuted`, `C65_self_refuted`, `C65_self_default_refuted`, `C65_merge_refuted`, `C65_scatter_refuted`, `C65_when_refuted`, `C65_target`, `C65_target_refuted` |
| C66 | `C66_env`, `C66_resources`, `C66_listing`, `C66_entries`, `C66_inputs_lost`, `C66_value_kept_partial`, `C66_inputs_refuted`, `C66_resources_refuted`, `C66_twice_refuted`, `C66_reference_refuted`, `C66_entry_evaluation`, `C66_entry_refused` |
| C67 | `C67_tool_texts`, `C67_binding_stays`, `C67_value_kept_partial`, `C67_underscores_lost`, `C67_scatter_refuted`, `C67_argument_refuted`, `C67_javascript_refuted` |
| C68 | `C68_tool_requirements`, `C68_env_refused`, `C68_entry_refuted`, `C68_listing_refuted`, `C68_code_refuted` |
| C69 | `C69_output_evals`, `C69_outputs_kept`, `C69_value_kept_partial`, `C69_underscores_lost`, `C69_twice_refuted`, `C69_stdout_refuted`, `C69_when_refuted`, `C69_default_refused`, `C69_valueFrom_refuted`, `C69_glob_refuted` |
| C70 | `C70_names_apart_partial`, `C70_plain_names`, `C70_names_apart_refuted`, `C70_inputs_apart_refuted` |
| C71 | `C71_reference`, `C71_missing`, `C71_no_address`, `C71_references`, `C71_no_reference`, `C71_list_refuted` |
| C72 | `C72_import`, `C72_text_refuted`, `C72_include`, `C72_unreadable`, `C72_no_file`, `C72_other`, `C72_document`, `C72_prefix`, `C72_list`, `C72_by_name`, `C72_no_document` |
| C73 | `C73_ends_partial`, `C73_loaded_or_refused_partial`, `C73_import_refuted` |
| C74 | `C74_object_partial`, `C74_object_named_partial`, `C74_document_partial`, `C74_document_named_partial`, `C74_graph_partial`, `C74_blank_refuted`, `C74_same_id_refuted`, `C74_packed_namespaces_refuted` |
| C75 | `C75_inputs_partial`, `C75_plain_partial`, `C75_only_mappings`, `C75_version`, `C75_named_file`, `C75_part_refuted`, `C75_path`, `C75_file_uri`, `C75_text`, `C75_loaded_or_refused_partial`, `C75_same_id_refuted`, `C75_misspelt_refuted`, `C75_format_refuted`, `C75_default_lists_refuted`, `C75_default_missing_refuted` |
| C76 | `C76_zero`, `C76_unsupported`, `C76_codes`, `C76_frame`, `C76_stops`, `C76_output`, `C76_self_contained_partial`, `C76_same_name_refuted`, `C76_truncated_refuted`, `C76_graph_refuted`, `C76_linked_step_refuted`, `C76_independent_refuted` |
| C77 | `C77_file`, `C77_stdout`, `C77_failure`, `C77_frame` |
| C78 | `C78_packed_again_partial`, `C78_hashes_refuted`, `C78_links_refuted` |
| C79 | `C79_located`, `C79_missing`, `C79_zero`, `C79_two`, `C79_one`, `C79_codes`, `C79_frame`, `C79_printed`, `C79_accepts_partial`, `C79_emptied_refuted`, `C79_relative_refuted`, `C79_same_file_refuted` |
| C80 | `C80_same_partial`, `C80_anew`, `C80_once`, `C80_latest`, `C80_selects`, `C80_alone`, `C80_alone_same`, `C80_two_types_refuted`, `C80_shadow_refuted`, `C80_packed_refuted` |
| C81 | `C81_interface`, `C81_expressions`, `C81_unmodified`, `C81_left_alone`, `C81_ends`, `C81_values`, `C81_format_refused`, `C81_stdout_lost`, `C81_stdout_lost_workflow`, `C81_stdout_refuted` |
| C82 | `C82_signature`, `C82_block_partial`, `C82_reference_partial`, `C82_plain_reference_refuted`, `C82_library_refuted`, `C82_in_workflow_refuted` |
| C83 | `C83_added_inputs`, `C83_same_command_partial` |
| C84 | `C84_javascript`, `C84_library_partial`, `C84_tool_library_refuted`, `C84_replaced_library_refuted`, `C84_own_library_refuted`, `C84_output_library`, `C84_no_files` |
| C85 | `C85_outputs`, `C85_value`, `C85_script`, `C85_merge_refuted` |
| C86 | `C86_same_scope`, `C86_object_partial`, `C86_document_partial`, `C86_graph_partial`, `C86_run_refuted`, `C86_array_refuted` |
| C87 | `C87_process_partial`, `C87_unversioned`, `C87_list_partial`, `C87_declared`, `C87_pick_partial`, `C87_missing`, `C87_main_refuted` |
| C88 | `C88_v1_1`, `C88_v1_0`, `C88_tool_v1_1`, `C88_tool_v1_0`, `C88_stays`, `C88_connected` |
| C89 | `C89_references`, `C89_again_partial`, `C89_glob_refuted`, `C89_binding_refuted`, `C89_entry_refuted` |
| C90 | `C90_process_inputs`, `C90_workflow_inputs`, `C90_step_inputs`, `C90_step_total`, `C90_output_self`, `C90_unset_input`, `C90_type_refuted`, `C90_array_refuted`, `C90_file_names_refuted` |
