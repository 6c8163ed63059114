(** * How the save methods of src/cwl_utils/parser/cwl_v1_0.py, cwl_v1_1.py and cwl_v1_2.py write their fields
      Written by tools/gen_save_tables.py; the numbers are lines of these files. *)
From Verif Require Import PyBase ShortModel.

(** ** cwl_v1_0.py *)
Definition saved_v1_0 : list (string * saving) := [
  ("CWLArraySchema", (* line 1026 *) Saving None [("items", (Some (false, Some 2)), false); ("type", None, false)]);
  ("CWLRecordField", (* line 1290 *) Saving (Some "name") [("name", (Some (true, None)), false); ("doc", None, true); ("type", None, true)]);
  ("CWLRecordSchema", (* line 1492 *) Saving None [("fields", None, false); ("type", None, false)]);
  ("File", (* line 2213 *) Saving None [("class", (Some (false, None)), false); ("location", (Some (false, None)), false); ("path", (Some (false, None)), false); ("basename", None, false); ("dirname", None, false); ("nameroot", None, false); ("nameext", None, false); ("checksum", None, false); ("size", None, false); ("secondaryFiles", None, false); ("format", (Some (true, None)), false); ("contents", None, false)]);
  ("Directory", (* line 2621 *) Saving None [("class", (Some (false, None)), false); ("location", (Some (false, None)), false); ("path", (Some (false, None)), false); ("basename", None, false); ("listing", None, false)]);
  ("InputRecordField", (* line 3035 *) Saving (Some "name") [("name", (Some (true, None)), false); ("doc", None, true); ("type", None, true); ("inputBinding", None, true); ("label", None, true)]);
  ("InputRecordSchema", (* line 3367 *) Saving (Some "name") [("name", (Some (true, None)), false); ("fields", None, true); ("type", None, true); ("label", None, true)]);
  ("InputEnumSchema", (* line 3744 *) Saving (Some "name") [("name", (Some (true, None)), false); ("symbols", (Some (true, None)), true); ("type", None, true); ("label", None, true); ("inputBinding", None, true)]);
  ("InputArraySchema", (* line 4064 *) Saving None [("items", (Some (false, Some 2)), false); ("type", None, false); ("label", None, false); ("inputBinding", None, false)]);
  ("OutputRecordField", (* line 4392 *) Saving (Some "name") [("name", (Some (true, None)), false); ("doc", None, true); ("type", None, true); ("outputBinding", None, true)]);
  ("OutputRecordSchema", (* line 4657 *) Saving None [("fields", None, false); ("type", None, false); ("label", None, false)]);
  ("OutputEnumSchema", (* line 5031 *) Saving (Some "name") [("name", (Some (true, None)), false); ("symbols", (Some (true, None)), true); ("type", None, true); ("label", None, true); ("outputBinding", None, true)]);
  ("OutputArraySchema", (* line 5351 *) Saving None [("items", (Some (false, Some 2)), false); ("type", None, false); ("label", None, false); ("outputBinding", None, false)]);
  ("InputParameter", (* line 5945 *) Saving (Some "id") [("id", (Some (true, None)), false); ("label", None, true); ("secondaryFiles", None, true); ("streamable", None, true); ("doc", None, true); ("format", (Some (true, None)), true); ("inputBinding", None, true); ("default", None, true); ("type", None, true)]);
  ("OutputParameter", (* line 6470 *) Saving (Some "id") [("id", (Some (true, None)), false); ("label", None, true); ("secondaryFiles", None, true); ("streamable", None, true); ("doc", None, true); ("outputBinding", None, true); ("format", (Some (true, None)), true)]);
  ("InlineJavascriptRequirement", (* line 6701 *) Saving None [("class", (Some (false, None)), false); ("expressionLib", None, false)]);
  ("SchemaDefRequirement", (* line 6882 *) Saving None [("class", (Some (false, None)), false); ("types", None, false)]);
  ("EnvironmentDef", (* line 7095 *) Saving None [("envName", None, false); ("envValue", None, false)]);
  ("CommandLineBinding", (* line 7584 *) Saving None [("loadContents", None, false); ("position", None, false); ("prefix", None, false); ("separate", None, false); ("itemSeparator", None, false); ("valueFrom", None, false); ("shellQuote", None, false)]);
  ("CommandOutputBinding", (* line 7890 *) Saving None [("glob", None, false); ("loadContents", None, false); ("outputEval", None, false)]);
  ("CommandInputRecordField", (* line 8267 *) Saving (Some "name") [("name", (Some (true, None)), false); ("doc", None, true); ("type", None, true); ("inputBinding", None, true); ("label", None, true)]);
  ("CommandInputRecordSchema", (* line 8599 *) Saving (Some "name") [("name", (Some (true, None)), false); ("fields", None, true); ("type", None, true); ("label", None, true)]);
  ("CommandInputEnumSchema", (* line 8976 *) Saving (Some "name") [("name", (Some (true, None)), false); ("symbols", (Some (true, None)), true); ("type", None, true); ("label", None, true); ("inputBinding", None, true)]);
  ("CommandInputArraySchema", (* line 9296 *) Saving None [("items", (Some (false, Some 2)), false); ("type", None, false); ("label", None, false); ("inputBinding", None, false)]);
  ("CommandOutputRecordField", (* line 9624 *) Saving (Some "name") [("name", (Some (true, None)), false); ("doc", None, true); ("type", None, true); ("outputBinding", None, true)]);
  ("CommandOutputRecordSchema", (* line 9952 *) Saving (Some "name") [("name", (Some (true, None)), false); ("fields", None, true); ("type", None, true); ("label", None, true)]);
  ("CommandOutputEnumSchema", (* line 10329 *) Saving (Some "name") [("name", (Some (true, None)), false); ("symbols", (Some (true, None)), true); ("type", None, true); ("label", None, true); ("outputBinding", None, true)]);
  ("CommandOutputArraySchema", (* line 10649 *) Saving None [("items", (Some (false, Some 2)), false); ("type", None, false); ("label", None, false); ("outputBinding", None, false)]);
  ("CommandInputParameter", (* line 11248 *) Saving (Some "id") [("id", (Some (true, None)), false); ("label", None, true); ("secondaryFiles", None, true); ("streamable", None, true); ("doc", None, true); ("format", (Some (true, None)), true); ("inputBinding", None, true); ("default", None, true); ("type", None, true)]);
  ("CommandOutputParameter", (* line 11830 *) Saving (Some "id") [("id", (Some (true, None)), false); ("label", None, true); ("secondaryFiles", None, true); ("streamable", None, true); ("doc", None, true); ("outputBinding", None, true); ("format", (Some (true, None)), true); ("type", None, true)]);
  ("CommandLineTool", (* line 12845 *) Saving (Some "id") [("id", (Some (true, None)), false); ("class", (Some (false, None)), true); ("inputs", None, true); ("outputs", None, true); ("requirements", None, true); ("hints", None, true); ("label", None, true); ("doc", None, true); ("cwlVersion", (Some (false, None)), true); ("baseCommand", None, true); ("arguments", None, true); ("stdin", None, true); ("stderr", None, true); ("stdout", None, true); ("successCodes", None, true); ("temporaryFailCodes", None, true); ("permanentFailCodes", None, true)]);
  ("DockerRequirement", (* line 13398 *) Saving None [("class", (Some (false, None)), false); ("dockerPull", None, false); ("dockerLoad", None, false); ("dockerFile", None, false); ("dockerImport", None, false); ("dockerImageId", None, false); ("dockerOutputDirectory", None, false)]);
  ("SoftwareRequirement", (* line 13624 *) Saving None [("class", (Some (false, None)), false); ("packages", None, false)]);
  ("SoftwarePackage", (* line 13883 *) Saving None [("package", None, false); ("version", None, false); ("specs", (Some (false, None)), false)]);
  ("Dirent", (* line 14144 *) Saving None [("entryname", None, false); ("entry", None, false); ("writable", None, false)]);
  ("InitialWorkDirRequirement", (* line 14323 *) Saving None [("class", (Some (false, None)), false); ("listing", None, false)]);
  ("EnvVarRequirement", (* line 14501 *) Saving None [("class", (Some (false, None)), false); ("envDef", None, false)]);
  ("ShellCommandRequirement", (* line 14626 *) Saving None [("class", (Some (false, None)), false)]);
  ("ResourceRequirement", (* line 15183 *) Saving None [("class", (Some (false, None)), false); ("coresMin", None, false); ("coresMax", None, false); ("ramMin", None, false); ("ramMax", None, false); ("tmpdirMin", None, false); ("tmpdirMax", None, false); ("outdirMin", None, false); ("outdirMax", None, false)]);
  ("ExpressionToolOutputParameter", (* line 15771 *) Saving (Some "id") [("id", (Some (true, None)), false); ("label", None, true); ("secondaryFiles", None, true); ("streamable", None, true); ("doc", None, true); ("outputBinding", None, true); ("format", (Some (true, None)), true); ("type", None, true)]);
  ("ExpressionTool", (* line 16423 *) Saving (Some "id") [("id", (Some (true, None)), false); ("class", (Some (false, None)), true); ("inputs", None, true); ("outputs", None, true); ("requirements", None, true); ("hints", None, true); ("label", None, true); ("doc", None, true); ("cwlVersion", (Some (false, None)), true); ("expression", None, true)]);
  ("WorkflowOutputParameter", (* line 17117 *) Saving (Some "id") [("id", (Some (true, None)), false); ("label", None, true); ("secondaryFiles", None, true); ("streamable", None, true); ("doc", None, true); ("outputBinding", None, true); ("format", (Some (true, None)), true); ("outputSource", (Some (false, Some 1)), true); ("linkMerge", None, true); ("type", None, true)]);
  ("WorkflowStepInput", (* line 17566 *) Saving (Some "id") [("id", (Some (true, None)), false); ("source", (Some (false, Some 2)), true); ("linkMerge", None, true); ("default", None, true); ("valueFrom", None, true)]);
  ("WorkflowStepOutput", (* line 17741 *) Saving None [("id", (Some (true, None)), false)]);
  ("WorkflowStep", (* line 18406 *) Saving (Some "id") [("id", (Some (true, None)), false); ("in", None, true); ("out", (Some (true, None)), true); ("requirements", None, true); ("hints", None, true); ("label", None, true); ("doc", None, true); ("run", (Some (false, None)), true); ("scatter", (Some (false, Some 0)), true); ("scatterMethod", (Some (false, None)), true)]);
  ("Workflow", (* line 19083 *) Saving (Some "id") [("id", (Some (true, None)), false); ("class", (Some (false, None)), true); ("inputs", None, true); ("outputs", None, true); ("requirements", None, true); ("hints", None, true); ("label", None, true); ("doc", None, true); ("cwlVersion", (Some (false, None)), true); ("steps", None, true)]);
  ("SubworkflowFeatureRequirement", (* line 19254 *) Saving None [("class", (Some (false, None)), false)]);
  ("ScatterFeatureRequirement", (* line 19375 *) Saving None [("class", (Some (false, None)), false)]);
  ("MultipleInputFeatureRequirement", (* line 19496 *) Saving None [("class", (Some (false, None)), false)]);
  ("StepInputExpressionRequirement", (* line 19617 *) Saving None [("class", (Some (false, None)), false)]);
  ("LoadListingRequirement", (* line 19788 *) Saving None [("class", (Some (false, None)), false); ("loadListing", None, false)]);
  ("InplaceUpdateRequirement", (* line 19967 *) Saving None [("class", (Some (false, None)), false); ("inplaceUpdate", None, false)]);
  ("Secrets", (* line 20143 *) Saving None [("class", (Some (false, None)), false); ("secrets", (Some (false, Some 0)), false)]);
  ("TimeLimit", (* line 20322 *) Saving None [("class", (Some (false, None)), false); ("timelimit", None, false)]);
  ("WorkReuse", (* line 20507 *) Saving None [("class", (Some (false, None)), false); ("enableReuse", None, false)]);
  ("NetworkAccess", (* line 20697 *) Saving None [("class", (Some (false, None)), false); ("networkAccess", None, false)]);
  ("ProcessGenerator", (* line 21311 *) Saving (Some "id") [("id", (Some (true, None)), false); ("class", (Some (false, None)), true); ("inputs", None, true); ("outputs", None, true); ("requirements", None, true); ("hints", None, true); ("label", None, true); ("doc", None, true); ("cwlVersion", (Some (false, None)), true); ("run", (Some (false, None)), true)]);
  ("MPIRequirement", (* line 21536 *) Saving None [("class", (Some (false, None)), false); ("processes", None, false)]);
  ("CUDARequirement", (* line 21882 *) Saving None [("class", (Some (false, None)), false); ("cudaComputeCapability", None, false); ("cudaDeviceCountMax", None, false); ("cudaDeviceCountMin", None, false); ("cudaVersionMin", None, false)]);
  ("ShmSize", (* line 22087 *) Saving None [("class", (Some (false, None)), false); ("shmSize", None, false)])
].
(** ** cwl_v1_1.py *)
Definition saved_v1_1 : list (string * saving) := [
  ("CWLArraySchema", (* line 1026 *) Saving None [("items", (Some (false, Some 2)), false); ("type", None, false)]);
  ("CWLRecordField", (* line 1290 *) Saving (Some "name") [("name", (Some (true, None)), false); ("doc", None, true); ("type", None, true)]);
  ("CWLRecordSchema", (* line 1492 *) Saving None [("fields", None, false); ("type", None, false)]);
  ("File", (* line 2213 *) Saving None [("class", (Some (false, None)), false); ("location", (Some (false, None)), false); ("path", (Some (false, None)), false); ("basename", None, false); ("dirname", None, false); ("nameroot", None, false); ("nameext", None, false); ("checksum", None, false); ("size", None, false); ("secondaryFiles", None, false); ("format", (Some (true, None)), false); ("contents", None, false)]);
  ("Directory", (* line 2621 *) Saving None [("class", (Some (false, None)), false); ("location", (Some (false, None)), false); ("path", (Some (false, None)), false); ("basename", None, false); ("listing", None, false)]);
  ("InputBinding", (* line 2824 *) Saving None [("loadContents", None, false)]);
  ("InputRecordField", (* line 3418 *) Saving (Some "name") [("name", (Some (true, None)), false); ("doc", None, true); ("type", None, true); ("label", None, true); ("secondaryFiles", None, true); ("streamable", None, true); ("format", (Some (true, None)), true); ("loadContents", None, true); ("loadListing", None, true)]);
  ("InputRecordSchema", (* line 3835 *) Saving (Some "name") [("name", (Some (true, None)), false); ("fields", None, true); ("type", None, true); ("label", None, true); ("doc", None, true)]);
  ("InputEnumSchema", (* line 4216 *) Saving (Some "name") [("name", (Some (true, None)), false); ("symbols", (Some (true, None)), true); ("type", None, true); ("label", None, true); ("doc", None, true)]);
  ("InputArraySchema", (* line 4596 *) Saving (Some "name") [("name", (Some (true, None)), false); ("items", (Some (false, Some 2)), true); ("type", None, true); ("label", None, true); ("doc", None, true)]);
  ("OutputRecordField", (* line 5087 *) Saving (Some "name") [("name", (Some (true, None)), false); ("doc", None, true); ("type", None, true); ("label", None, true); ("secondaryFiles", None, true); ("streamable", None, true); ("format", (Some (true, None)), true)]);
  ("OutputRecordSchema", (* line 5480 *) Saving (Some "name") [("name", (Some (true, None)), false); ("fields", None, true); ("type", None, true); ("label", None, true); ("doc", None, true)]);
  ("OutputEnumSchema", (* line 5861 *) Saving (Some "name") [("name", (Some (true, None)), false); ("symbols", (Some (true, None)), true); ("type", None, true); ("label", None, true); ("doc", None, true)]);
  ("OutputArraySchema", (* line 6241 *) Saving (Some "name") [("name", (Some (true, None)), false); ("items", (Some (false, Some 2)), true); ("type", None, true); ("label", None, true); ("doc", None, true)]);
  ("InlineJavascriptRequirement", (* line 6455 *) Saving None [("class", (Some (false, None)), false); ("expressionLib", None, false)]);
  ("SchemaDefRequirement", (* line 6640 *) Saving None [("class", (Some (false, None)), false); ("types", None, false)]);
  ("SecondaryFileSchema", (* line 6847 *) Saving None [("pattern", None, false); ("required", None, false)]);
  ("LoadListingRequirement", (* line 7020 *) Saving None [("class", (Some (false, None)), false); ("loadListing", None, false)]);
  ("EnvironmentDef", (* line 7236 *) Saving None [("envName", None, false); ("envValue", None, false)]);
  ("CommandLineBinding", (* line 7725 *) Saving None [("loadContents", None, false); ("position", None, false); ("prefix", None, false); ("separate", None, false); ("itemSeparator", None, false); ("valueFrom", None, false); ("shellQuote", None, false)]);
  ("CommandOutputBinding", (* line 8082 *) Saving None [("loadContents", None, false); ("loadListing", None, false); ("glob", None, false); ("outputEval", None, false)]);
  ("CommandInputRecordField", (* line 8740 *) Saving (Some "name") [("name", (Some (true, None)), false); ("doc", None, true); ("type", None, true); ("label", None, true); ("secondaryFiles", None, true); ("streamable", None, true); ("format", (Some (true, None)), true); ("loadContents", None, true); ("loadListing", None, true); ("inputBinding", None, true)]);
  ("CommandInputRecordSchema", (* line 9227 *) Saving (Some "name") [("name", (Some (true, None)), false); ("fields", None, true); ("type", None, true); ("label", None, true); ("doc", None, true); ("inputBinding", None, true)]);
  ("CommandInputEnumSchema", (* line 9675 *) Saving (Some "name") [("name", (Some (true, None)), false); ("symbols", (Some (true, None)), true); ("type", None, true); ("label", None, true); ("doc", None, true); ("inputBinding", None, true)]);
  ("CommandInputArraySchema", (* line 10117 *) Saving (Some "name") [("name", (Some (true, None)), false); ("items", (Some (false, Some 2)), true); ("type", None, true); ("label", None, true); ("doc", None, true); ("inputBinding", None, true)]);
  ("CommandOutputRecordField", (* line 10667 *) Saving (Some "name") [("name", (Some (true, None)), false); ("doc", None, true); ("type", None, true); ("label", None, true); ("secondaryFiles", None, true); ("streamable", None, true); ("format", (Some (true, None)), true); ("outputBinding", None, true)]);
  ("CommandOutputRecordSchema", (* line 11076 *) Saving (Some "name") [("name", (Some (true, None)), false); ("fields", None, true); ("type", None, true); ("label", None, true); ("doc", None, true)]);
  ("CommandOutputEnumSchema", (* line 11457 *) Saving (Some "name") [("name", (Some (true, None)), false); ("symbols", (Some (true, None)), true); ("type", None, true); ("label", None, true); ("doc", None, true)]);
  ("CommandOutputArraySchema", (* line 11837 *) Saving (Some "name") [("name", (Some (true, None)), false); ("items", (Some (false, Some 2)), true); ("type", None, true); ("label", None, true); ("doc", None, true)]);
  ("CommandInputParameter", (* line 12541 *) Saving (Some "id") [("id", (Some (true, None)), false); ("label", None, true); ("secondaryFiles", None, true); ("streamable", None, true); ("doc", None, true); ("format", (Some (true, None)), true); ("loadContents", None, true); ("loadListing", None, true); ("default", None, true); ("type", None, true); ("inputBinding", None, true)]);
  ("CommandOutputParameter", (* line 13140 *) Saving (Some "id") [("id", (Some (true, None)), false); ("label", None, true); ("secondaryFiles", None, true); ("streamable", None, true); ("doc", None, true); ("format", (Some (true, None)), true); ("type", None, true); ("outputBinding", None, true)]);
  ("CommandLineTool", (* line 14155 *) Saving (Some "id") [("id", (Some (true, None)), false); ("class", (Some (false, None)), true); ("label", None, true); ("doc", None, true); ("inputs", None, true); ("outputs", None, true); ("requirements", None, true); ("hints", None, true); ("cwlVersion", (Some (false, None)), true); ("baseCommand", None, true); ("arguments", None, true); ("stdin", None, true); ("stderr", None, true); ("stdout", None, true); ("successCodes", None, true); ("temporaryFailCodes", None, true); ("permanentFailCodes", None, true)]);
  ("DockerRequirement", (* line 14712 *) Saving None [("class", (Some (false, None)), false); ("dockerPull", None, false); ("dockerLoad", None, false); ("dockerFile", None, false); ("dockerImport", None, false); ("dockerImageId", None, false); ("dockerOutputDirectory", None, false)]);
  ("SoftwareRequirement", (* line 14938 *) Saving None [("class", (Some (false, None)), false); ("packages", None, false)]);
  ("SoftwarePackage", (* line 15197 *) Saving None [("package", None, false); ("version", None, false); ("specs", (Some (false, None)), false)]);
  ("Dirent", (* line 15458 *) Saving None [("entryname", None, false); ("entry", None, false); ("writable", None, false)]);
  ("InitialWorkDirRequirement", (* line 15637 *) Saving None [("class", (Some (false, None)), false); ("listing", None, false)]);
  ("EnvVarRequirement", (* line 15815 *) Saving None [("class", (Some (false, None)), false); ("envDef", None, false)]);
  ("ShellCommandRequirement", (* line 15940 *) Saving None [("class", (Some (false, None)), false)]);
  ("ResourceRequirement", (* line 16497 *) Saving None [("class", (Some (false, None)), false); ("coresMin", None, false); ("coresMax", None, false); ("ramMin", None, false); ("ramMax", None, false); ("tmpdirMin", None, false); ("tmpdirMax", None, false); ("outdirMin", None, false); ("outdirMax", None, false)]);
  ("WorkReuse", (* line 16731 *) Saving None [("class", (Some (false, None)), false); ("enableReuse", None, false)]);
  ("NetworkAccess", (* line 16921 *) Saving None [("class", (Some (false, None)), false); ("networkAccess", None, false)]);
  ("InplaceUpdateRequirement", (* line 17113 *) Saving None [("class", (Some (false, None)), false); ("inplaceUpdate", None, false)]);
  ("ToolTimeLimit", (* line 17296 *) Saving None [("class", (Some (false, None)), false); ("timelimit", None, false)]);
  ("ExpressionToolOutputParameter", (* line 17784 *) Saving (Some "id") [("id", (Some (true, None)), false); ("label", None, true); ("secondaryFiles", None, true); ("streamable", None, true); ("doc", None, true); ("format", (Some (true, None)), true); ("type", None, true)]);
  ("WorkflowInputParameter", (* line 18497 *) Saving (Some "id") [("id", (Some (true, None)), false); ("label", None, true); ("secondaryFiles", None, true); ("streamable", None, true); ("doc", None, true); ("format", (Some (true, None)), true); ("loadContents", None, true); ("loadListing", None, true); ("default", None, true); ("type", None, true); ("inputBinding", None, true)]);
  ("ExpressionTool", (* line 19170 *) Saving (Some "id") [("id", (Some (true, None)), false); ("class", (Some (false, None)), true); ("label", None, true); ("doc", None, true); ("inputs", None, true); ("outputs", None, true); ("requirements", None, true); ("hints", None, true); ("cwlVersion", (Some (false, None)), true); ("expression", None, true)]);
  ("WorkflowOutputParameter", (* line 19813 *) Saving (Some "id") [("id", (Some (true, None)), false); ("label", None, true); ("secondaryFiles", None, true); ("streamable", None, true); ("doc", None, true); ("format", (Some (true, None)), true); ("outputSource", (Some (false, Some 1)), true); ("linkMerge", None, true); ("type", None, true)]);
  ("WorkflowStepInput", (* line 20416 *) Saving (Some "id") [("id", (Some (true, None)), false); ("source", (Some (false, Some 2)), true); ("linkMerge", None, true); ("loadContents", None, true); ("loadListing", None, true); ("label", None, true); ("default", None, true); ("valueFrom", None, true)]);
  ("WorkflowStepOutput", (* line 20620 *) Saving None [("id", (Some (true, None)), false)]);
  ("WorkflowStep", (* line 21287 *) Saving (Some "id") [("id", (Some (true, None)), false); ("label", None, true); ("doc", None, true); ("in", None, true); ("out", (Some (true, None)), true); ("requirements", None, true); ("hints", None, true); ("run", (Some (false, None)), true); ("scatter", (Some (false, Some 0)), true); ("scatterMethod", (Some (false, None)), true)]);
  ("Workflow", (* line 21964 *) Saving (Some "id") [("id", (Some (true, None)), false); ("class", (Some (false, None)), true); ("label", None, true); ("doc", None, true); ("inputs", None, true); ("outputs", None, true); ("requirements", None, true); ("hints", None, true); ("cwlVersion", (Some (false, None)), true); ("steps", None, true)]);
  ("SubworkflowFeatureRequirement", (* line 22135 *) Saving None [("class", (Some (false, None)), false)]);
  ("ScatterFeatureRequirement", (* line 22256 *) Saving None [("class", (Some (false, None)), false)]);
  ("MultipleInputFeatureRequirement", (* line 22377 *) Saving None [("class", (Some (false, None)), false)]);
  ("StepInputExpressionRequirement", (* line 22498 *) Saving None [("class", (Some (false, None)), false)]);
  ("Secrets", (* line 22667 *) Saving None [("class", (Some (false, None)), false); ("secrets", (Some (false, Some 0)), false)]);
  ("ProcessGenerator", (* line 23279 *) Saving (Some "id") [("id", (Some (true, None)), false); ("class", (Some (false, None)), true); ("label", None, true); ("doc", None, true); ("inputs", None, true); ("outputs", None, true); ("requirements", None, true); ("hints", None, true); ("cwlVersion", (Some (false, None)), true); ("run", (Some (false, None)), true)]);
  ("MPIRequirement", (* line 23504 *) Saving None [("class", (Some (false, None)), false); ("processes", None, false)]);
  ("CUDARequirement", (* line 23850 *) Saving None [("class", (Some (false, None)), false); ("cudaComputeCapability", None, false); ("cudaDeviceCountMax", None, false); ("cudaDeviceCountMin", None, false); ("cudaVersionMin", None, false)]);
  ("ShmSize", (* line 24055 *) Saving None [("class", (Some (false, None)), false); ("shmSize", None, false)])
].
(** ** cwl_v1_2.py *)
Definition saved_v1_2 : list (string * saving) := [
  ("CWLArraySchema", (* line 1026 *) Saving None [("items", (Some (false, Some 2)), false); ("type", None, false)]);
  ("CWLRecordField", (* line 1290 *) Saving (Some "name") [("name", (Some (true, None)), false); ("doc", None, true); ("type", None, true)]);
  ("CWLRecordSchema", (* line 1492 *) Saving None [("fields", None, false); ("type", None, false)]);
  ("File", (* line 2213 *) Saving None [("class", (Some (false, None)), false); ("location", (Some (false, None)), false); ("path", (Some (false, None)), false); ("basename", None, false); ("dirname", None, false); ("nameroot", None, false); ("nameext", None, false); ("checksum", None, false); ("size", None, false); ("secondaryFiles", None, false); ("format", (Some (true, None)), false); ("contents", None, false)]);
  ("Directory", (* line 2621 *) Saving None [("class", (Some (false, None)), false); ("location", (Some (false, None)), false); ("path", (Some (false, None)), false); ("basename", None, false); ("listing", None, false)]);
  ("InputBinding", (* line 2824 *) Saving None [("loadContents", None, false)]);
  ("InputRecordField", (* line 3418 *) Saving (Some "name") [("name", (Some (true, None)), false); ("doc", None, true); ("type", None, true); ("label", None, true); ("secondaryFiles", None, true); ("streamable", None, true); ("format", (Some (true, None)), true); ("loadContents", None, true); ("loadListing", None, true)]);
  ("InputRecordSchema", (* line 3835 *) Saving (Some "name") [("name", (Some (true, None)), false); ("fields", None, true); ("type", None, true); ("label", None, true); ("doc", None, true)]);
  ("InputEnumSchema", (* line 4216 *) Saving (Some "name") [("name", (Some (true, None)), false); ("symbols", (Some (true, None)), true); ("type", None, true); ("label", None, true); ("doc", None, true)]);
  ("InputArraySchema", (* line 4596 *) Saving (Some "name") [("name", (Some (true, None)), false); ("items", (Some (false, Some 2)), true); ("type", None, true); ("label", None, true); ("doc", None, true)]);
  ("OutputRecordField", (* line 5087 *) Saving (Some "name") [("name", (Some (true, None)), false); ("doc", None, true); ("type", None, true); ("label", None, true); ("secondaryFiles", None, true); ("streamable", None, true); ("format", (Some (true, None)), true)]);
  ("OutputRecordSchema", (* line 5480 *) Saving (Some "name") [("name", (Some (true, None)), false); ("fields", None, true); ("type", None, true); ("label", None, true); ("doc", None, true)]);
  ("OutputEnumSchema", (* line 5861 *) Saving (Some "name") [("name", (Some (true, None)), false); ("symbols", (Some (true, None)), true); ("type", None, true); ("label", None, true); ("doc", None, true)]);
  ("OutputArraySchema", (* line 6241 *) Saving (Some "name") [("name", (Some (true, None)), false); ("items", (Some (false, Some 2)), true); ("type", None, true); ("label", None, true); ("doc", None, true)]);
  ("InlineJavascriptRequirement", (* line 6455 *) Saving None [("class", (Some (false, None)), false); ("expressionLib", None, false)]);
  ("SchemaDefRequirement", (* line 6644 *) Saving None [("class", (Some (false, None)), false); ("types", None, false)]);
  ("SecondaryFileSchema", (* line 6863 *) Saving None [("pattern", None, false); ("required", None, false)]);
  ("LoadListingRequirement", (* line 7036 *) Saving None [("class", (Some (false, None)), false); ("loadListing", None, false)]);
  ("EnvironmentDef", (* line 7252 *) Saving None [("envName", None, false); ("envValue", None, false)]);
  ("CommandLineBinding", (* line 7741 *) Saving None [("loadContents", None, false); ("position", None, false); ("prefix", None, false); ("separate", None, false); ("itemSeparator", None, false); ("valueFrom", None, false); ("shellQuote", None, false)]);
  ("CommandOutputBinding", (* line 8098 *) Saving None [("loadContents", None, false); ("loadListing", None, false); ("glob", None, false); ("outputEval", None, false)]);
  ("CommandInputRecordField", (* line 8756 *) Saving (Some "name") [("name", (Some (true, None)), false); ("doc", None, true); ("type", None, true); ("label", None, true); ("secondaryFiles", None, true); ("streamable", None, true); ("format", (Some (true, None)), true); ("loadContents", None, true); ("loadListing", None, true); ("inputBinding", None, true)]);
  ("CommandInputRecordSchema", (* line 9243 *) Saving (Some "name") [("name", (Some (true, None)), false); ("fields", None, true); ("type", None, true); ("label", None, true); ("doc", None, true); ("inputBinding", None, true)]);
  ("CommandInputEnumSchema", (* line 9691 *) Saving (Some "name") [("name", (Some (true, None)), false); ("symbols", (Some (true, None)), true); ("type", None, true); ("label", None, true); ("doc", None, true); ("inputBinding", None, true)]);
  ("CommandInputArraySchema", (* line 10133 *) Saving (Some "name") [("name", (Some (true, None)), false); ("items", (Some (false, Some 2)), true); ("type", None, true); ("label", None, true); ("doc", None, true); ("inputBinding", None, true)]);
  ("CommandOutputRecordField", (* line 10683 *) Saving (Some "name") [("name", (Some (true, None)), false); ("doc", None, true); ("type", None, true); ("label", None, true); ("secondaryFiles", None, true); ("streamable", None, true); ("format", (Some (true, None)), true); ("outputBinding", None, true)]);
  ("CommandOutputRecordSchema", (* line 11092 *) Saving (Some "name") [("name", (Some (true, None)), false); ("fields", None, true); ("type", None, true); ("label", None, true); ("doc", None, true)]);
  ("CommandOutputEnumSchema", (* line 11473 *) Saving (Some "name") [("name", (Some (true, None)), false); ("symbols", (Some (true, None)), true); ("type", None, true); ("label", None, true); ("doc", None, true)]);
  ("CommandOutputArraySchema", (* line 11853 *) Saving (Some "name") [("name", (Some (true, None)), false); ("items", (Some (false, Some 2)), true); ("type", None, true); ("label", None, true); ("doc", None, true)]);
  ("CommandInputParameter", (* line 12557 *) Saving (Some "id") [("id", (Some (true, None)), false); ("label", None, true); ("secondaryFiles", None, true); ("streamable", None, true); ("doc", None, true); ("format", (Some (true, None)), true); ("loadContents", None, true); ("loadListing", None, true); ("default", None, true); ("type", None, true); ("inputBinding", None, true)]);
  ("CommandOutputParameter", (* line 13156 *) Saving (Some "id") [("id", (Some (true, None)), false); ("label", None, true); ("secondaryFiles", None, true); ("streamable", None, true); ("doc", None, true); ("format", (Some (true, None)), true); ("type", None, true); ("outputBinding", None, true)]);
  ("CommandLineTool", (* line 14223 *) Saving (Some "id") [("id", (Some (true, None)), false); ("class", (Some (false, None)), true); ("label", None, true); ("doc", None, true); ("inputs", None, true); ("outputs", None, true); ("requirements", None, true); ("hints", None, true); ("cwlVersion", (Some (false, None)), true); ("intent", (Some (true, None)), true); ("baseCommand", None, true); ("arguments", None, true); ("stdin", None, true); ("stderr", None, true); ("stdout", None, true); ("successCodes", None, true); ("temporaryFailCodes", None, true); ("permanentFailCodes", None, true)]);
  ("DockerRequirement", (* line 14784 *) Saving None [("class", (Some (false, None)), false); ("dockerPull", None, false); ("dockerLoad", None, false); ("dockerFile", None, false); ("dockerImport", None, false); ("dockerImageId", None, false); ("dockerOutputDirectory", None, false)]);
  ("SoftwareRequirement", (* line 15010 *) Saving None [("class", (Some (false, None)), false); ("packages", None, false)]);
  ("SoftwarePackage", (* line 15269 *) Saving None [("package", None, false); ("version", None, false); ("specs", (Some (false, None)), false)]);
  ("Dirent", (* line 15532 *) Saving None [("entryname", None, false); ("entry", None, false); ("writable", None, false)]);
  ("InitialWorkDirRequirement", (* line 15711 *) Saving None [("class", (Some (false, None)), false); ("listing", None, false)]);
  ("EnvVarRequirement", (* line 15889 *) Saving None [("class", (Some (false, None)), false); ("envDef", None, false)]);
  ("ShellCommandRequirement", (* line 16014 *) Saving None [("class", (Some (false, None)), false)]);
  ("ResourceRequirement", (* line 16573 *) Saving None [("class", (Some (false, None)), false); ("coresMin", None, false); ("coresMax", None, false); ("ramMin", None, false); ("ramMax", None, false); ("tmpdirMin", None, false); ("tmpdirMax", None, false); ("outdirMin", None, false); ("outdirMax", None, false)]);
  ("WorkReuse", (* line 16807 *) Saving None [("class", (Some (false, None)), false); ("enableReuse", None, false)]);
  ("NetworkAccess", (* line 16997 *) Saving None [("class", (Some (false, None)), false); ("networkAccess", None, false)]);
  ("InplaceUpdateRequirement", (* line 17189 *) Saving None [("class", (Some (false, None)), false); ("inplaceUpdate", None, false)]);
  ("ToolTimeLimit", (* line 17372 *) Saving None [("class", (Some (false, None)), false); ("timelimit", None, false)]);
  ("ExpressionToolOutputParameter", (* line 17860 *) Saving (Some "id") [("id", (Some (true, None)), false); ("label", None, true); ("secondaryFiles", None, true); ("streamable", None, true); ("doc", None, true); ("format", (Some (true, None)), true); ("type", None, true)]);
  ("WorkflowInputParameter", (* line 18573 *) Saving (Some "id") [("id", (Some (true, None)), false); ("label", None, true); ("secondaryFiles", None, true); ("streamable", None, true); ("doc", None, true); ("format", (Some (true, None)), true); ("loadContents", None, true); ("loadListing", None, true); ("default", None, true); ("type", None, true); ("inputBinding", None, true)]);
  ("ExpressionTool", (* line 19298 *) Saving (Some "id") [("id", (Some (true, None)), false); ("class", (Some (false, None)), true); ("label", None, true); ("doc", None, true); ("inputs", None, true); ("outputs", None, true); ("requirements", None, true); ("hints", None, true); ("cwlVersion", (Some (false, None)), true); ("intent", (Some (true, None)), true); ("expression", None, true)]);
  ("WorkflowOutputParameter", (* line 19999 *) Saving (Some "id") [("id", (Some (true, None)), false); ("label", None, true); ("secondaryFiles", None, true); ("streamable", None, true); ("doc", None, true); ("format", (Some (true, None)), true); ("outputSource", (Some (false, Some 1)), true); ("linkMerge", None, true); ("pickValue", None, true); ("type", None, true)]);
  ("WorkflowStepInput", (* line 20708 *) Saving (Some "id") [("id", (Some (true, None)), false); ("source", (Some (false, Some 2)), true); ("linkMerge", None, true); ("pickValue", None, true); ("loadContents", None, true); ("loadListing", None, true); ("label", None, true); ("default", None, true); ("valueFrom", None, true)]);
  ("WorkflowStepOutput", (* line 20917 *) Saving None [("id", (Some (true, None)), false)]);
  ("WorkflowStep", (* line 21647 *) Saving (Some "id") [("id", (Some (true, None)), false); ("label", None, true); ("doc", None, true); ("in", None, true); ("out", (Some (true, None)), true); ("requirements", None, true); ("hints", None, true); ("run", (Some (false, None)), true); ("when", None, true); ("scatter", (Some (false, Some 0)), true); ("scatterMethod", (Some (false, None)), true)]);
  ("Workflow", (* line 22383 *) Saving (Some "id") [("id", (Some (true, None)), false); ("class", (Some (false, None)), true); ("label", None, true); ("doc", None, true); ("inputs", None, true); ("outputs", None, true); ("requirements", None, true); ("hints", None, true); ("cwlVersion", (Some (false, None)), true); ("intent", (Some (true, None)), true); ("steps", None, true)]);
  ("SubworkflowFeatureRequirement", (* line 22558 *) Saving None [("class", (Some (false, None)), false)]);
  ("ScatterFeatureRequirement", (* line 22679 *) Saving None [("class", (Some (false, None)), false)]);
  ("MultipleInputFeatureRequirement", (* line 22800 *) Saving None [("class", (Some (false, None)), false)]);
  ("StepInputExpressionRequirement", (* line 22921 *) Saving None [("class", (Some (false, None)), false)]);
  ("OperationInputParameter", (* line 23563 *) Saving (Some "id") [("id", (Some (true, None)), false); ("label", None, true); ("secondaryFiles", None, true); ("streamable", None, true); ("doc", None, true); ("format", (Some (true, None)), true); ("loadContents", None, true); ("loadListing", None, true); ("default", None, true); ("type", None, true)]);
  ("OperationOutputParameter", (* line 24102 *) Saving (Some "id") [("id", (Some (true, None)), false); ("label", None, true); ("secondaryFiles", None, true); ("streamable", None, true); ("doc", None, true); ("format", (Some (true, None)), true); ("type", None, true)]);
  ("Operation", (* line 24737 *) Saving (Some "id") [("id", (Some (true, None)), false); ("class", (Some (false, None)), true); ("label", None, true); ("doc", None, true); ("inputs", None, true); ("outputs", None, true); ("requirements", None, true); ("hints", None, true); ("cwlVersion", (Some (false, None)), true); ("intent", (Some (true, None)), true)]);
  ("Secrets", (* line 24955 *) Saving None [("class", (Some (false, None)), false); ("secrets", (Some (false, Some 0)), false)]);
  ("ProcessGenerator", (* line 25619 *) Saving (Some "id") [("id", (Some (true, None)), false); ("class", (Some (false, None)), true); ("label", None, true); ("doc", None, true); ("inputs", None, true); ("outputs", None, true); ("requirements", None, true); ("hints", None, true); ("cwlVersion", (Some (false, None)), true); ("intent", (Some (true, None)), true); ("run", (Some (false, None)), true)]);
  ("MPIRequirement", (* line 25848 *) Saving None [("class", (Some (false, None)), false); ("processes", None, false)]);
  ("CUDARequirement", (* line 26194 *) Saving None [("class", (Some (false, None)), false); ("cudaComputeCapability", None, false); ("cudaDeviceCountMax", None, false); ("cudaDeviceCountMin", None, false); ("cudaVersionMin", None, false)]);
  ("LoopInput", (* line 26658 *) Saving (Some "id") [("id", (Some (true, None)), false); ("default", None, true); ("linkMerge", None, true); ("loopSource", (Some (false, Some 1)), true); ("pickValue", None, true); ("valueFrom", None, true)]);
  ("Loop", (* line 26961 *) Saving None [("class", (Some (false, None)), false); ("loop", None, false); ("loopWhen", None, false); ("outputMethod", None, false)]);
  ("ShmSize", (* line 27147 *) Saving None [("class", (Some (false, None)), false); ("shmSize", None, false)])
].
