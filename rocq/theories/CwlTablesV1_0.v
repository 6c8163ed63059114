(** * The loaders, classes and terms of src/cwl_utils/parser/cwl_v1_0.py
      Written by tools/gen_tables.py; the numbers are lines of that file.
      [CWLObjectTypeLoader], a union that contains itself, is a named loader here. *)
From Verif Require Import PyBase LoaderModel.

(** line 22347 *)
Definition strtype : loader := LPrim PStr.
(** line 22348 *)
Definition inttype : loader := LPrim PInt.
(** line 22349 *)
Definition floattype : loader := LPrim PFloat.
(** line 22350 *)
Definition booltype : loader := LPrim PBool.
(** line 22351 *)
Definition None_type : loader := LPrim PNull.
(** line 22352 *)
Definition Any_type : loader := LAny.
(** line 22353 *)
Definition DocumentedProxyLoader : loader := LProxy "DocumentedLoader".
(** line 22354 *)
Definition PrimitiveTypeLoader : loader := LEnum ["null"; "boolean"; "int"; "long"; "float"; "double"; "string"].
(** line 22385 *)
Definition AnyLoader : loader := LEnum ["Any"].
(** line 22389 *)
Definition RecordFieldLoader : loader := LRecord "schema_salad.metaschema.RecordField" None None.
(** line 22392 *)
Definition RecordSchemaLoader : loader := LRecord "schema_salad.metaschema.RecordSchema" None None.
(** line 22395 *)
Definition EnumSchemaLoader : loader := LRecord "schema_salad.metaschema.EnumSchema" None None.
(** line 22396 *)
Definition ArraySchemaLoader : loader := LRecord "schema_salad.metaschema.ArraySchema" None None.
(** line 22399 *)
Definition MapSchemaLoader : loader := LRecord "schema_salad.metaschema.MapSchema" None None.
(** line 22400 *)
Definition UnionSchemaLoader : loader := LRecord "schema_salad.metaschema.UnionSchema" None None.
(** line 22403 *)
Definition CWLTypeLoader : loader := LEnum ["null"; "boolean"; "int"; "long"; "float"; "double"; "string"; "File"; "Directory"].
(** line 22424 *)
Definition CWLArraySchemaLoader : loader := LRecord "CWLArraySchema" None None.
(** line 22425 *)
Definition CWLRecordFieldLoader : loader := LRecord "CWLRecordField" None None.
(** line 22426 *)
Definition CWLRecordSchemaLoader : loader := LRecord "CWLRecordSchema" None None.
(** line 22427 *)
Definition FileLoader : loader := LRecord "File" None None.
(** line 22428 *)
Definition DirectoryLoader : loader := LRecord "Directory" None None.
(** line 22430 *)
Definition union_of_None_type_or_CWLObjectTypeLoader : loader := LUnion [None_type; (LProxy "CWLObjectTypeLoader")].
(** line 22436 *)
Definition array_of_union_of_None_type_or_CWLObjectTypeLoader : loader := LArray union_of_None_type_or_CWLObjectTypeLoader.
(** line 22439 *)
Definition map_of_union_of_None_type_or_CWLObjectTypeLoader : loader := LMap union_of_None_type_or_CWLObjectTypeLoader (Some "@list") (Some true).
(** line 22443 *)
Definition CWLVersionLoader : loader := LEnum ["v1.0"].
(** line 22447 *)
Definition SchemaBaseProxyLoader : loader := LProxy "SchemaBaseLoader".
(** line 22448 *)
Definition ParameterProxyLoader : loader := LProxy "ParameterLoader".
(** line 22449 *)
Definition ExpressionLoader : loader := LExpression.
(** line 22450 *)
Definition InputBindingProxyLoader : loader := LProxy "InputBindingLoader".
(** line 22451 *)
Definition OutputBindingProxyLoader : loader := LProxy "OutputBindingLoader".
(** line 22452 *)
Definition InputSchemaProxyLoader : loader := LProxy "InputSchemaLoader".
(** line 22453 *)
Definition OutputSchemaProxyLoader : loader := LProxy "OutputSchemaLoader".
(** line 22454 *)
Definition InputRecordFieldLoader : loader := LRecord "InputRecordField" None None.
(** line 22455 *)
Definition InputRecordSchemaLoader : loader := LRecord "InputRecordSchema" None None.
(** line 22456 *)
Definition InputEnumSchemaLoader : loader := LRecord "InputEnumSchema" None None.
(** line 22457 *)
Definition InputArraySchemaLoader : loader := LRecord "InputArraySchema" None None.
(** line 22458 *)
Definition OutputRecordFieldLoader : loader := LRecord "OutputRecordField" None None.
(** line 22459 *)
Definition OutputRecordSchemaLoader : loader := LRecord "OutputRecordSchema" None None.
(** line 22460 *)
Definition OutputEnumSchemaLoader : loader := LRecord "OutputEnumSchema" None None.
(** line 22461 *)
Definition OutputArraySchemaLoader : loader := LRecord "OutputArraySchema" None None.
(** line 22462 *)
Definition InputParameterLoader : loader := LRecord "InputParameter" None None.
(** line 22463 *)
Definition OutputParameterLoader : loader := LRecord "OutputParameter" None None.
(** line 22464 *)
Definition ProcessRequirementProxyLoader : loader := LProxy "ProcessRequirementLoader".
(** line 22465 *)
Definition ProcessProxyLoader : loader := LProxy "ProcessLoader".
(** line 22466 *)
Definition InlineJavascriptRequirementLoader : loader := LRecord "InlineJavascriptRequirement" None None.
(** line 22469 *)
Definition SchemaDefRequirementLoader : loader := LRecord "SchemaDefRequirement" None None.
(** line 22470 *)
Definition EnvironmentDefLoader : loader := LRecord "EnvironmentDef" None None.
(** line 22471 *)
Definition CommandLineBindingLoader : loader := LRecord "CommandLineBinding" None None.
(** line 22472 *)
Definition CommandOutputBindingLoader : loader := LRecord "CommandOutputBinding" None None.
(** line 22473 *)
Definition CommandInputRecordFieldLoader : loader := LRecord "CommandInputRecordField" None None.
(** line 22476 *)
Definition CommandInputRecordSchemaLoader : loader := LRecord "CommandInputRecordSchema" None None.
(** line 22479 *)
Definition CommandInputEnumSchemaLoader : loader := LRecord "CommandInputEnumSchema" None None.
(** line 22480 *)
Definition CommandInputArraySchemaLoader : loader := LRecord "CommandInputArraySchema" None None.
(** line 22483 *)
Definition CommandOutputRecordFieldLoader : loader := LRecord "CommandOutputRecordField" None None.
(** line 22486 *)
Definition CommandOutputRecordSchemaLoader : loader := LRecord "CommandOutputRecordSchema" None None.
(** line 22489 *)
Definition CommandOutputEnumSchemaLoader : loader := LRecord "CommandOutputEnumSchema" None None.
(** line 22492 *)
Definition CommandOutputArraySchemaLoader : loader := LRecord "CommandOutputArraySchema" None None.
(** line 22495 *)
Definition CommandInputParameterLoader : loader := LRecord "CommandInputParameter" None None.
(** line 22496 *)
Definition CommandOutputParameterLoader : loader := LRecord "CommandOutputParameter" None None.
(** line 22497 *)
Definition stdoutLoader : loader := LEnum ["stdout"].
(** line 22548 *)
Definition stderrLoader : loader := LEnum ["stderr"].
(** line 22599 *)
Definition CommandLineToolLoader : loader := LRecord "CommandLineTool" None None.
(** line 22600 *)
Definition DockerRequirementLoader : loader := LRecord "DockerRequirement" None None.
(** line 22601 *)
Definition SoftwareRequirementLoader : loader := LRecord "SoftwareRequirement" None None.
(** line 22602 *)
Definition SoftwarePackageLoader : loader := LRecord "SoftwarePackage" None None.
(** line 22603 *)
Definition DirentLoader : loader := LRecord "Dirent" None None.
(** line 22604 *)
Definition InitialWorkDirRequirementLoader : loader := LRecord "InitialWorkDirRequirement" None None.
(** line 22607 *)
Definition EnvVarRequirementLoader : loader := LRecord "EnvVarRequirement" None None.
(** line 22608 *)
Definition ShellCommandRequirementLoader : loader := LRecord "ShellCommandRequirement" None None.
(** line 22611 *)
Definition ResourceRequirementLoader : loader := LRecord "ResourceRequirement" None None.
(** line 22612 *)
Definition ExpressionToolOutputParameterLoader : loader := LRecord "ExpressionToolOutputParameter" None None.
(** line 22615 *)
Definition ExpressionToolLoader : loader := LRecord "ExpressionTool" None None.
(** line 22616 *)
Definition LinkMergeMethodLoader : loader := LEnum ["merge_nested"; "merge_flattened"].
(** line 22626 *)
Definition WorkflowOutputParameterLoader : loader := LRecord "WorkflowOutputParameter" None None.
(** line 22629 *)
Definition SinkProxyLoader : loader := LProxy "SinkLoader".
(** line 22630 *)
Definition WorkflowStepInputLoader : loader := LRecord "WorkflowStepInput" None None.
(** line 22631 *)
Definition WorkflowStepOutputLoader : loader := LRecord "WorkflowStepOutput" None None.
(** line 22632 *)
Definition ScatterMethodLoader : loader := LEnum ["dotproduct"; "nested_crossproduct"; "flat_crossproduct"].
(** line 22643 *)
Definition WorkflowStepLoader : loader := LRecord "WorkflowStep" None None.
(** line 22644 *)
Definition WorkflowLoader : loader := LRecord "Workflow" None None.
(** line 22645 *)
Definition SubworkflowFeatureRequirementLoader : loader := LRecord "SubworkflowFeatureRequirement" None None.
(** line 22648 *)
Definition ScatterFeatureRequirementLoader : loader := LRecord "ScatterFeatureRequirement" None None.
(** line 22651 *)
Definition MultipleInputFeatureRequirementLoader : loader := LRecord "MultipleInputFeatureRequirement" None None.
(** line 22654 *)
Definition StepInputExpressionRequirementLoader : loader := LRecord "StepInputExpressionRequirement" None None.
(** line 22657 *)
Definition LoadListingRequirementLoader : loader := LRecord "LoadListingRequirement" None None.
(** line 22658 *)
Definition InplaceUpdateRequirementLoader : loader := LRecord "InplaceUpdateRequirement" None None.
(** line 22661 *)
Definition SecretsLoader : loader := LRecord "Secrets" None None.
(** line 22662 *)
Definition TimeLimitLoader : loader := LRecord "TimeLimit" None None.
(** line 22663 *)
Definition WorkReuseLoader : loader := LRecord "WorkReuse" None None.
(** line 22664 *)
Definition NetworkAccessLoader : loader := LRecord "NetworkAccess" None None.
(** line 22665 *)
Definition ProcessGeneratorLoader : loader := LRecord "ProcessGenerator" None None.
(** line 22666 *)
Definition MPIRequirementLoader : loader := LRecord "MPIRequirement" None None.
(** line 22667 *)
Definition CUDARequirementLoader : loader := LRecord "CUDARequirement" None None.
(** line 22668 *)
Definition ShmSizeLoader : loader := LRecord "ShmSize" None None.
(** line 22669 *)
Definition array_of_strtype : loader := LArray strtype.
(** line 22670 *)
Definition union_of_None_type_or_strtype_or_array_of_strtype : loader := LUnion [None_type; strtype; array_of_strtype].
(** line 22677 *)
Definition uri_strtype_True_False_None_None : loader := LUri strtype true false None None.
(** line 22678 *)
Definition union_of_PrimitiveTypeLoader_or_RecordSchemaLoader_or_EnumSchemaLoader_or_ArraySchemaLoader_or_MapSchemaLoader_or_UnionSchemaLoader_or_strtype : loader := LUnion [PrimitiveTypeLoader; RecordSchemaLoader; EnumSchemaLoader; ArraySchemaLoader; MapSchemaLoader; UnionSchemaLoader; strtype].
(** line 22691 *)
Definition array_of_union_of_PrimitiveTypeLoader_or_RecordSchemaLoader_or_EnumSchemaLoader_or_ArraySchemaLoader_or_MapSchemaLoader_or_UnionSchemaLoader_or_strtype : loader := LArray union_of_PrimitiveTypeLoader_or_RecordSchemaLoader_or_EnumSchemaLoader_or_ArraySchemaLoader_or_MapSchemaLoader_or_UnionSchemaLoader_or_strtype.
(** line 22696 *)
Definition union_of_PrimitiveTypeLoader_or_RecordSchemaLoader_or_EnumSchemaLoader_or_ArraySchemaLoader_or_MapSchemaLoader_or_UnionSchemaLoader_or_strtype_or_array_of_union_of_PrimitiveTypeLoader_or_RecordSchemaLoader_or_EnumSchemaLoader_or_ArraySchemaLoader_or_MapSchemaLoader_or_UnionSchemaLoader_or_strtype : loader := LUnion [PrimitiveTypeLoader; RecordSchemaLoader; EnumSchemaLoader; ArraySchemaLoader; MapSchemaLoader; UnionSchemaLoader; strtype; array_of_union_of_PrimitiveTypeLoader_or_RecordSchemaLoader_or_EnumSchemaLoader_or_ArraySchemaLoader_or_MapSchemaLoader_or_UnionSchemaLoader_or_strtype].
(** line 22710 *)
Definition typedsl_union_of_PrimitiveTypeLoader_or_RecordSchemaLoader_or_EnumSchemaLoader_or_ArraySchemaLoader_or_MapSchemaLoader_or_UnionSchemaLoader_or_strtype_or_array_of_union_of_PrimitiveTypeLoader_or_RecordSchemaLoader_or_EnumSchemaLoader_or_ArraySchemaLoader_or_MapSchemaLoader_or_UnionSchemaLoader_or_strtype_2 : loader := LTypeDSL union_of_PrimitiveTypeLoader_or_RecordSchemaLoader_or_EnumSchemaLoader_or_ArraySchemaLoader_or_MapSchemaLoader_or_UnionSchemaLoader_or_strtype_or_array_of_union_of_PrimitiveTypeLoader_or_RecordSchemaLoader_or_EnumSchemaLoader_or_ArraySchemaLoader_or_MapSchemaLoader_or_UnionSchemaLoader_or_strtype (Some 2) "v1.1".
(** line 22717 *)
Definition array_of_RecordFieldLoader : loader := LArray RecordFieldLoader.
(** line 22718 *)
Definition union_of_None_type_or_array_of_RecordFieldLoader : loader := LUnion [None_type; array_of_RecordFieldLoader].
(** line 22724 *)
Definition idmap_fields_union_of_None_type_or_array_of_RecordFieldLoader : loader := LIdMap union_of_None_type_or_array_of_RecordFieldLoader "name" (Some "type").
(** line 22727 *)
Definition Record_nameLoader : loader := LEnum ["record"].
(** line 22728 *)
Definition typedsl_Record_nameLoader_2 : loader := LTypeDSL Record_nameLoader (Some 2) "v1.1".
(** line 22729 *)
Definition union_of_None_type_or_strtype : loader := LUnion [None_type; strtype].
(** line 22735 *)
Definition uri_union_of_None_type_or_strtype_True_False_None_None : loader := LUri union_of_None_type_or_strtype true false None None.
(** line 22738 *)
Definition uri_array_of_strtype_True_False_None_None : loader := LUri array_of_strtype true false None None.
(** line 22741 *)
Definition Enum_nameLoader : loader := LEnum ["enum"].
(** line 22742 *)
Definition typedsl_Enum_nameLoader_2 : loader := LTypeDSL Enum_nameLoader (Some 2) "v1.1".
(** line 22743 *)
Definition uri_union_of_PrimitiveTypeLoader_or_RecordSchemaLoader_or_EnumSchemaLoader_or_ArraySchemaLoader_or_MapSchemaLoader_or_UnionSchemaLoader_or_strtype_or_array_of_union_of_PrimitiveTypeLoader_or_RecordSchemaLoader_or_EnumSchemaLoader_or_ArraySchemaLoader_or_MapSchemaLoader_or_UnionSchemaLoader_or_strtype_False_True_2_None : loader := LUri union_of_PrimitiveTypeLoader_or_RecordSchemaLoader_or_EnumSchemaLoader_or_ArraySchemaLoader_or_MapSchemaLoader_or_UnionSchemaLoader_or_strtype_or_array_of_union_of_PrimitiveTypeLoader_or_RecordSchemaLoader_or_EnumSchemaLoader_or_ArraySchemaLoader_or_MapSchemaLoader_or_UnionSchemaLoader_or_strtype false true (Some 2) None.
(** line 22752 *)
Definition Array_nameLoader : loader := LEnum ["array"].
(** line 22753 *)
Definition typedsl_Array_nameLoader_2 : loader := LTypeDSL Array_nameLoader (Some 2) "v1.1".
(** line 22754 *)
Definition Map_nameLoader : loader := LEnum ["map"].
(** line 22755 *)
Definition typedsl_Map_nameLoader_2 : loader := LTypeDSL Map_nameLoader (Some 2) "v1.1".
(** line 22756 *)
Definition Union_nameLoader : loader := LEnum ["union"].
(** line 22757 *)
Definition typedsl_Union_nameLoader_2 : loader := LTypeDSL Union_nameLoader (Some 2) "v1.1".
(** line 22758 *)
Definition union_of_PrimitiveTypeLoader_or_CWLRecordSchemaLoader_or_EnumSchemaLoader_or_CWLArraySchemaLoader_or_strtype : loader := LUnion [PrimitiveTypeLoader; CWLRecordSchemaLoader; EnumSchemaLoader; CWLArraySchemaLoader; strtype].
(** line 22769 *)
Definition array_of_union_of_PrimitiveTypeLoader_or_CWLRecordSchemaLoader_or_EnumSchemaLoader_or_CWLArraySchemaLoader_or_strtype : loader := LArray union_of_PrimitiveTypeLoader_or_CWLRecordSchemaLoader_or_EnumSchemaLoader_or_CWLArraySchemaLoader_or_strtype.
(** line 22774 *)
Definition union_of_PrimitiveTypeLoader_or_CWLRecordSchemaLoader_or_EnumSchemaLoader_or_CWLArraySchemaLoader_or_strtype_or_array_of_union_of_PrimitiveTypeLoader_or_CWLRecordSchemaLoader_or_EnumSchemaLoader_or_CWLArraySchemaLoader_or_strtype : loader := LUnion [PrimitiveTypeLoader; CWLRecordSchemaLoader; EnumSchemaLoader; CWLArraySchemaLoader; strtype; array_of_union_of_PrimitiveTypeLoader_or_CWLRecordSchemaLoader_or_EnumSchemaLoader_or_CWLArraySchemaLoader_or_strtype].
(** line 22786 *)
Definition uri_union_of_PrimitiveTypeLoader_or_CWLRecordSchemaLoader_or_EnumSchemaLoader_or_CWLArraySchemaLoader_or_strtype_or_array_of_union_of_PrimitiveTypeLoader_or_CWLRecordSchemaLoader_or_EnumSchemaLoader_or_CWLArraySchemaLoader_or_strtype_False_True_2_None : loader := LUri union_of_PrimitiveTypeLoader_or_CWLRecordSchemaLoader_or_EnumSchemaLoader_or_CWLArraySchemaLoader_or_strtype_or_array_of_union_of_PrimitiveTypeLoader_or_CWLRecordSchemaLoader_or_EnumSchemaLoader_or_CWLArraySchemaLoader_or_strtype false true (Some 2) None.
(** line 22795 *)
Definition typedsl_union_of_PrimitiveTypeLoader_or_CWLRecordSchemaLoader_or_EnumSchemaLoader_or_CWLArraySchemaLoader_or_strtype_or_array_of_union_of_PrimitiveTypeLoader_or_CWLRecordSchemaLoader_or_EnumSchemaLoader_or_CWLArraySchemaLoader_or_strtype_2 : loader := LTypeDSL union_of_PrimitiveTypeLoader_or_CWLRecordSchemaLoader_or_EnumSchemaLoader_or_CWLArraySchemaLoader_or_strtype_or_array_of_union_of_PrimitiveTypeLoader_or_CWLRecordSchemaLoader_or_EnumSchemaLoader_or_CWLArraySchemaLoader_or_strtype (Some 2) "v1.1".
(** line 22802 *)
Definition array_of_CWLRecordFieldLoader : loader := LArray CWLRecordFieldLoader.
(** line 22803 *)
Definition union_of_None_type_or_array_of_CWLRecordFieldLoader : loader := LUnion [None_type; array_of_CWLRecordFieldLoader].
(** line 22809 *)
Definition idmap_fields_union_of_None_type_or_array_of_CWLRecordFieldLoader : loader := LIdMap union_of_None_type_or_array_of_CWLRecordFieldLoader "name" (Some "type").
(** line 22812 *)
Definition File_classLoader : loader := LEnum ["File"].
(** line 22813 *)
Definition uri_File_classLoader_False_True_None_None : loader := LUri File_classLoader false true None None.
(** line 22816 *)
Definition uri_union_of_None_type_or_strtype_False_False_None_None : loader := LUri union_of_None_type_or_strtype false false None None.
(** line 22819 *)
Definition union_of_None_type_or_inttype : loader := LUnion [None_type; inttype].
(** line 22825 *)
Definition union_of_FileLoader_or_DirectoryLoader : loader := LUnion [FileLoader; DirectoryLoader].
(** line 22831 *)
Definition array_of_union_of_FileLoader_or_DirectoryLoader : loader := LArray union_of_FileLoader_or_DirectoryLoader.
(** line 22834 *)
Definition union_of_None_type_or_array_of_union_of_FileLoader_or_DirectoryLoader : loader := LUnion [None_type; array_of_union_of_FileLoader_or_DirectoryLoader].
(** line 22842 *)
Definition uri_union_of_None_type_or_strtype_True_False_None_True : loader := LUri union_of_None_type_or_strtype true false None (Some true).
(** line 22845 *)
Definition Directory_classLoader : loader := LEnum ["Directory"].
(** line 22846 *)
Definition uri_Directory_classLoader_False_True_None_None : loader := LUri Directory_classLoader false true None None.
(** line 22849 *)
Definition union_of_strtype_or_ExpressionLoader : loader := LUnion [strtype; ExpressionLoader].
(** line 22855 *)
Definition array_of_union_of_strtype_or_ExpressionLoader : loader := LArray union_of_strtype_or_ExpressionLoader.
(** line 22858 *)
Definition union_of_None_type_or_strtype_or_ExpressionLoader_or_array_of_union_of_strtype_or_ExpressionLoader : loader := LUnion [None_type; strtype; ExpressionLoader; array_of_union_of_strtype_or_ExpressionLoader].
(** line 22868 *)
Definition union_of_None_type_or_booltype : loader := LUnion [None_type; booltype].
(** line 22874 *)
Definition union_of_CWLTypeLoader_or_InputRecordSchemaLoader_or_InputEnumSchemaLoader_or_InputArraySchemaLoader_or_strtype : loader := LUnion [CWLTypeLoader; InputRecordSchemaLoader; InputEnumSchemaLoader; InputArraySchemaLoader; strtype].
(** line 22885 *)
Definition array_of_union_of_CWLTypeLoader_or_InputRecordSchemaLoader_or_InputEnumSchemaLoader_or_InputArraySchemaLoader_or_strtype : loader := LArray union_of_CWLTypeLoader_or_InputRecordSchemaLoader_or_InputEnumSchemaLoader_or_InputArraySchemaLoader_or_strtype.
(** line 22890 *)
Definition union_of_CWLTypeLoader_or_InputRecordSchemaLoader_or_InputEnumSchemaLoader_or_InputArraySchemaLoader_or_strtype_or_array_of_union_of_CWLTypeLoader_or_InputRecordSchemaLoader_or_InputEnumSchemaLoader_or_InputArraySchemaLoader_or_strtype : loader := LUnion [CWLTypeLoader; InputRecordSchemaLoader; InputEnumSchemaLoader; InputArraySchemaLoader; strtype; array_of_union_of_CWLTypeLoader_or_InputRecordSchemaLoader_or_InputEnumSchemaLoader_or_InputArraySchemaLoader_or_strtype].
(** line 22902 *)
Definition typedsl_union_of_CWLTypeLoader_or_InputRecordSchemaLoader_or_InputEnumSchemaLoader_or_InputArraySchemaLoader_or_strtype_or_array_of_union_of_CWLTypeLoader_or_InputRecordSchemaLoader_or_InputEnumSchemaLoader_or_InputArraySchemaLoader_or_strtype_2 : loader := LTypeDSL union_of_CWLTypeLoader_or_InputRecordSchemaLoader_or_InputEnumSchemaLoader_or_InputArraySchemaLoader_or_strtype_or_array_of_union_of_CWLTypeLoader_or_InputRecordSchemaLoader_or_InputEnumSchemaLoader_or_InputArraySchemaLoader_or_strtype (Some 2) "v1.1".
(** line 22909 *)
Definition union_of_None_type_or_CommandLineBindingLoader : loader := LUnion [None_type; CommandLineBindingLoader].
(** line 22915 *)
Definition array_of_InputRecordFieldLoader : loader := LArray InputRecordFieldLoader.
(** line 22916 *)
Definition union_of_None_type_or_array_of_InputRecordFieldLoader : loader := LUnion [None_type; array_of_InputRecordFieldLoader].
(** line 22922 *)
Definition idmap_fields_union_of_None_type_or_array_of_InputRecordFieldLoader : loader := LIdMap union_of_None_type_or_array_of_InputRecordFieldLoader "name" (Some "type").
(** line 22925 *)
Definition uri_union_of_CWLTypeLoader_or_InputRecordSchemaLoader_or_InputEnumSchemaLoader_or_InputArraySchemaLoader_or_strtype_or_array_of_union_of_CWLTypeLoader_or_InputRecordSchemaLoader_or_InputEnumSchemaLoader_or_InputArraySchemaLoader_or_strtype_False_True_2_None : loader := LUri union_of_CWLTypeLoader_or_InputRecordSchemaLoader_or_InputEnumSchemaLoader_or_InputArraySchemaLoader_or_strtype_or_array_of_union_of_CWLTypeLoader_or_InputRecordSchemaLoader_or_InputEnumSchemaLoader_or_InputArraySchemaLoader_or_strtype false true (Some 2) None.
(** line 22934 *)
Definition union_of_CWLTypeLoader_or_OutputRecordSchemaLoader_or_OutputEnumSchemaLoader_or_OutputArraySchemaLoader_or_strtype : loader := LUnion [CWLTypeLoader; OutputRecordSchemaLoader; OutputEnumSchemaLoader; OutputArraySchemaLoader; strtype].
(** line 22945 *)
Definition array_of_union_of_CWLTypeLoader_or_OutputRecordSchemaLoader_or_OutputEnumSchemaLoader_or_OutputArraySchemaLoader_or_strtype : loader := LArray union_of_CWLTypeLoader_or_OutputRecordSchemaLoader_or_OutputEnumSchemaLoader_or_OutputArraySchemaLoader_or_strtype.
(** line 22950 *)
Definition union_of_CWLTypeLoader_or_OutputRecordSchemaLoader_or_OutputEnumSchemaLoader_or_OutputArraySchemaLoader_or_strtype_or_array_of_union_of_CWLTypeLoader_or_OutputRecordSchemaLoader_or_OutputEnumSchemaLoader_or_OutputArraySchemaLoader_or_strtype : loader := LUnion [CWLTypeLoader; OutputRecordSchemaLoader; OutputEnumSchemaLoader; OutputArraySchemaLoader; strtype; array_of_union_of_CWLTypeLoader_or_OutputRecordSchemaLoader_or_OutputEnumSchemaLoader_or_OutputArraySchemaLoader_or_strtype].
(** line 22962 *)
Definition typedsl_union_of_CWLTypeLoader_or_OutputRecordSchemaLoader_or_OutputEnumSchemaLoader_or_OutputArraySchemaLoader_or_strtype_or_array_of_union_of_CWLTypeLoader_or_OutputRecordSchemaLoader_or_OutputEnumSchemaLoader_or_OutputArraySchemaLoader_or_strtype_2 : loader := LTypeDSL union_of_CWLTypeLoader_or_OutputRecordSchemaLoader_or_OutputEnumSchemaLoader_or_OutputArraySchemaLoader_or_strtype_or_array_of_union_of_CWLTypeLoader_or_OutputRecordSchemaLoader_or_OutputEnumSchemaLoader_or_OutputArraySchemaLoader_or_strtype (Some 2) "v1.1".
(** line 22969 *)
Definition union_of_None_type_or_CommandOutputBindingLoader : loader := LUnion [None_type; CommandOutputBindingLoader].
(** line 22975 *)
Definition array_of_OutputRecordFieldLoader : loader := LArray OutputRecordFieldLoader.
(** line 22976 *)
Definition union_of_None_type_or_array_of_OutputRecordFieldLoader : loader := LUnion [None_type; array_of_OutputRecordFieldLoader].
(** line 22982 *)
Definition idmap_fields_union_of_None_type_or_array_of_OutputRecordFieldLoader : loader := LIdMap union_of_None_type_or_array_of_OutputRecordFieldLoader "name" (Some "type").
(** line 22985 *)
Definition uri_union_of_CWLTypeLoader_or_OutputRecordSchemaLoader_or_OutputEnumSchemaLoader_or_OutputArraySchemaLoader_or_strtype_or_array_of_union_of_CWLTypeLoader_or_OutputRecordSchemaLoader_or_OutputEnumSchemaLoader_or_OutputArraySchemaLoader_or_strtype_False_True_2_None : loader := LUri union_of_CWLTypeLoader_or_OutputRecordSchemaLoader_or_OutputEnumSchemaLoader_or_OutputArraySchemaLoader_or_strtype_or_array_of_union_of_CWLTypeLoader_or_OutputRecordSchemaLoader_or_OutputEnumSchemaLoader_or_OutputArraySchemaLoader_or_strtype false true (Some 2) None.
(** line 22994 *)
Definition union_of_None_type_or_strtype_or_array_of_strtype_or_ExpressionLoader : loader := LUnion [None_type; strtype; array_of_strtype; ExpressionLoader].
(** line 23004 *)
Definition uri_union_of_None_type_or_strtype_or_array_of_strtype_or_ExpressionLoader_True_False_None_True : loader := LUri union_of_None_type_or_strtype_or_array_of_strtype_or_ExpressionLoader true false None (Some true).
(** line 23013 *)
Definition union_of_None_type_or_CWLTypeLoader_or_InputRecordSchemaLoader_or_InputEnumSchemaLoader_or_InputArraySchemaLoader_or_strtype_or_array_of_union_of_CWLTypeLoader_or_InputRecordSchemaLoader_or_InputEnumSchemaLoader_or_InputArraySchemaLoader_or_strtype : loader := LUnion [None_type; CWLTypeLoader; InputRecordSchemaLoader; InputEnumSchemaLoader; InputArraySchemaLoader; strtype; array_of_union_of_CWLTypeLoader_or_InputRecordSchemaLoader_or_InputEnumSchemaLoader_or_InputArraySchemaLoader_or_strtype].
(** line 23026 *)
Definition typedsl_union_of_None_type_or_CWLTypeLoader_or_InputRecordSchemaLoader_or_InputEnumSchemaLoader_or_InputArraySchemaLoader_or_strtype_or_array_of_union_of_CWLTypeLoader_or_InputRecordSchemaLoader_or_InputEnumSchemaLoader_or_InputArraySchemaLoader_or_strtype_2 : loader := LTypeDSL union_of_None_type_or_CWLTypeLoader_or_InputRecordSchemaLoader_or_InputEnumSchemaLoader_or_InputArraySchemaLoader_or_strtype_or_array_of_union_of_CWLTypeLoader_or_InputRecordSchemaLoader_or_InputEnumSchemaLoader_or_InputArraySchemaLoader_or_strtype (Some 2) "v1.1".
(** line 23033 *)
Definition union_of_None_type_or_strtype_or_ExpressionLoader : loader := LUnion [None_type; strtype; ExpressionLoader].
(** line 23040 *)
Definition uri_union_of_None_type_or_strtype_or_ExpressionLoader_True_False_None_True : loader := LUri union_of_None_type_or_strtype_or_ExpressionLoader true false None (Some true).
(** line 23045 *)
Definition array_of_InputParameterLoader : loader := LArray InputParameterLoader.
(** line 23046 *)
Definition idmap_inputs_array_of_InputParameterLoader : loader := LIdMap array_of_InputParameterLoader "id" (Some "type").
(** line 23049 *)
Definition array_of_OutputParameterLoader : loader := LArray OutputParameterLoader.
(** line 23050 *)
Definition idmap_outputs_array_of_OutputParameterLoader : loader := LIdMap array_of_OutputParameterLoader "id" (Some "type").
(** line 23053 *)
Definition union_of_InlineJavascriptRequirementLoader_or_SchemaDefRequirementLoader_or_DockerRequirementLoader_or_SoftwareRequirementLoader_or_InitialWorkDirRequirementLoader_or_EnvVarRequirementLoader_or_ShellCommandRequirementLoader_or_ResourceRequirementLoader_or_SubworkflowFeatureRequirementLoader_or_ScatterFeatureRequirementLoader_or_MultipleInputFeatureRequirementLoader_or_StepInputExpressionRequirementLoader_or_LoadListingRequirementLoader_or_InplaceUpdateRequirementLoader_or_SecretsLoader_or_TimeLimitLoader_or_WorkReuseLoader_or_NetworkAccessLoader_or_MPIRequirementLoader_or_CUDARequirementLoader_or_ShmSizeLoader : loader := LUnion [InlineJavascriptRequirementLoader; SchemaDefRequirementLoader; DockerRequirementLoader; SoftwareRequirementLoader; InitialWorkDirRequirementLoader; EnvVarRequirementLoader; ShellCommandRequirementLoader; ResourceRequirementLoader; SubworkflowFeatureRequirementLoader; ScatterFeatureRequirementLoader; MultipleInputFeatureRequirementLoader; StepInputExpressionRequirementLoader; LoadListingRequirementLoader; InplaceUpdateRequirementLoader; SecretsLoader; TimeLimitLoader; WorkReuseLoader; NetworkAccessLoader; MPIRequirementLoader; CUDARequirementLoader; ShmSizeLoader].
(** line 23080 *)
Definition array_of_ProcessRequirement : loader := LArray ProcessRequirementProxyLoader.
(** line 23081 *)
Definition union_of_None_type_or_array_of_ProcessRequirement : loader := LUnion [None_type; array_of_ProcessRequirement].
(** line 23087 *)
Definition idmap_requirements_union_of_None_type_or_array_of_ProcessRequirement : loader := LIdMap union_of_None_type_or_array_of_ProcessRequirement "class" (Some "None").
(** line 23090 *)
Definition union_of_InlineJavascriptRequirementLoader_or_SchemaDefRequirementLoader_or_DockerRequirementLoader_or_SoftwareRequirementLoader_or_InitialWorkDirRequirementLoader_or_EnvVarRequirementLoader_or_ShellCommandRequirementLoader_or_ResourceRequirementLoader_or_SubworkflowFeatureRequirementLoader_or_ScatterFeatureRequirementLoader_or_MultipleInputFeatureRequirementLoader_or_StepInputExpressionRequirementLoader_or_LoadListingRequirementLoader_or_InplaceUpdateRequirementLoader_or_SecretsLoader_or_TimeLimitLoader_or_WorkReuseLoader_or_NetworkAccessLoader_or_MPIRequirementLoader_or_CUDARequirementLoader_or_ShmSizeLoader_or_Any_type : loader := LUnion [InlineJavascriptRequirementLoader; SchemaDefRequirementLoader; DockerRequirementLoader; SoftwareRequirementLoader; InitialWorkDirRequirementLoader; EnvVarRequirementLoader; ShellCommandRequirementLoader; ResourceRequirementLoader; SubworkflowFeatureRequirementLoader; ScatterFeatureRequirementLoader; MultipleInputFeatureRequirementLoader; StepInputExpressionRequirementLoader; LoadListingRequirementLoader; InplaceUpdateRequirementLoader; SecretsLoader; TimeLimitLoader; WorkReuseLoader; NetworkAccessLoader; MPIRequirementLoader; CUDARequirementLoader; ShmSizeLoader; Any_type].
(** line 23118 *)
Definition array_of_union_of_InlineJavascriptRequirementLoader_or_SchemaDefRequirementLoader_or_DockerRequirementLoader_or_SoftwareRequirementLoader_or_InitialWorkDirRequirementLoader_or_EnvVarRequirementLoader_or_ShellCommandRequirementLoader_or_ResourceRequirementLoader_or_SubworkflowFeatureRequirementLoader_or_ScatterFeatureRequirementLoader_or_MultipleInputFeatureRequirementLoader_or_StepInputExpressionRequirementLoader_or_LoadListingRequirementLoader_or_InplaceUpdateRequirementLoader_or_SecretsLoader_or_TimeLimitLoader_or_WorkReuseLoader_or_NetworkAccessLoader_or_MPIRequirementLoader_or_CUDARequirementLoader_or_ShmSizeLoader_or_Any_type : loader := LArray union_of_InlineJavascriptRequirementLoader_or_SchemaDefRequirementLoader_or_DockerRequirementLoader_or_SoftwareRequirementLoader_or_InitialWorkDirRequirementLoader_or_EnvVarRequirementLoader_or_ShellCommandRequirementLoader_or_ResourceRequirementLoader_or_SubworkflowFeatureRequirementLoader_or_ScatterFeatureRequirementLoader_or_MultipleInputFeatureRequirementLoader_or_StepInputExpressionRequirementLoader_or_LoadListingRequirementLoader_or_InplaceUpdateRequirementLoader_or_SecretsLoader_or_TimeLimitLoader_or_WorkReuseLoader_or_NetworkAccessLoader_or_MPIRequirementLoader_or_CUDARequirementLoader_or_ShmSizeLoader_or_Any_type.
(** line 23123 *)
Definition union_of_None_type_or_array_of_union_of_InlineJavascriptRequirementLoader_or_SchemaDefRequirementLoader_or_DockerRequirementLoader_or_SoftwareRequirementLoader_or_InitialWorkDirRequirementLoader_or_EnvVarRequirementLoader_or_ShellCommandRequirementLoader_or_ResourceRequirementLoader_or_SubworkflowFeatureRequirementLoader_or_ScatterFeatureRequirementLoader_or_MultipleInputFeatureRequirementLoader_or_StepInputExpressionRequirementLoader_or_LoadListingRequirementLoader_or_InplaceUpdateRequirementLoader_or_SecretsLoader_or_TimeLimitLoader_or_WorkReuseLoader_or_NetworkAccessLoader_or_MPIRequirementLoader_or_CUDARequirementLoader_or_ShmSizeLoader_or_Any_type : loader := LUnion [None_type; array_of_union_of_InlineJavascriptRequirementLoader_or_SchemaDefRequirementLoader_or_DockerRequirementLoader_or_SoftwareRequirementLoader_or_InitialWorkDirRequirementLoader_or_EnvVarRequirementLoader_or_ShellCommandRequirementLoader_or_ResourceRequirementLoader_or_SubworkflowFeatureRequirementLoader_or_ScatterFeatureRequirementLoader_or_MultipleInputFeatureRequirementLoader_or_StepInputExpressionRequirementLoader_or_LoadListingRequirementLoader_or_InplaceUpdateRequirementLoader_or_SecretsLoader_or_TimeLimitLoader_or_WorkReuseLoader_or_NetworkAccessLoader_or_MPIRequirementLoader_or_CUDARequirementLoader_or_ShmSizeLoader_or_Any_type].
(** line 23131 *)
Definition idmap_hints_union_of_None_type_or_array_of_union_of_InlineJavascriptRequirementLoader_or_SchemaDefRequirementLoader_or_DockerRequirementLoader_or_SoftwareRequirementLoader_or_InitialWorkDirRequirementLoader_or_EnvVarRequirementLoader_or_ShellCommandRequirementLoader_or_ResourceRequirementLoader_or_SubworkflowFeatureRequirementLoader_or_ScatterFeatureRequirementLoader_or_MultipleInputFeatureRequirementLoader_or_StepInputExpressionRequirementLoader_or_LoadListingRequirementLoader_or_InplaceUpdateRequirementLoader_or_SecretsLoader_or_TimeLimitLoader_or_WorkReuseLoader_or_NetworkAccessLoader_or_MPIRequirementLoader_or_CUDARequirementLoader_or_ShmSizeLoader_or_Any_type : loader := LIdMap union_of_None_type_or_array_of_union_of_InlineJavascriptRequirementLoader_or_SchemaDefRequirementLoader_or_DockerRequirementLoader_or_SoftwareRequirementLoader_or_InitialWorkDirRequirementLoader_or_EnvVarRequirementLoader_or_ShellCommandRequirementLoader_or_ResourceRequirementLoader_or_SubworkflowFeatureRequirementLoader_or_ScatterFeatureRequirementLoader_or_MultipleInputFeatureRequirementLoader_or_StepInputExpressionRequirementLoader_or_LoadListingRequirementLoader_or_InplaceUpdateRequirementLoader_or_SecretsLoader_or_TimeLimitLoader_or_WorkReuseLoader_or_NetworkAccessLoader_or_MPIRequirementLoader_or_CUDARequirementLoader_or_ShmSizeLoader_or_Any_type "class" (Some "None").
(** line 23138 *)
Definition union_of_None_type_or_CWLVersionLoader : loader := LUnion [None_type; CWLVersionLoader].
(** line 23144 *)
Definition uri_union_of_None_type_or_CWLVersionLoader_False_True_None_None : loader := LUri union_of_None_type_or_CWLVersionLoader false true None None.
(** line 23147 *)
Definition InlineJavascriptRequirement_classLoader : loader := LEnum ["InlineJavascriptRequirement"].
(** line 23150 *)
Definition uri_InlineJavascriptRequirement_classLoader_False_True_None_None : loader := LUri InlineJavascriptRequirement_classLoader false true None None.
(** line 23153 *)
Definition union_of_None_type_or_array_of_strtype : loader := LUnion [None_type; array_of_strtype].
(** line 23159 *)
Definition SchemaDefRequirement_classLoader : loader := LEnum ["SchemaDefRequirement"].
(** line 23162 *)
Definition uri_SchemaDefRequirement_classLoader_False_True_None_None : loader := LUri SchemaDefRequirement_classLoader false true None None.
(** line 23165 *)
Definition union_of_InputRecordSchemaLoader_or_InputEnumSchemaLoader_or_InputArraySchemaLoader : loader := LUnion [InputRecordSchemaLoader; InputEnumSchemaLoader; InputArraySchemaLoader].
(** line 23174 *)
Definition array_of_InputSchema : loader := LArray InputSchemaProxyLoader.
(** line 23175 *)
Definition union_of_None_type_or_strtype_or_ExpressionLoader_or_array_of_strtype : loader := LUnion [None_type; strtype; ExpressionLoader; array_of_strtype].
(** line 23185 *)
Definition union_of_CWLTypeLoader_or_CommandInputRecordSchemaLoader_or_CommandInputEnumSchemaLoader_or_CommandInputArraySchemaLoader_or_strtype : loader := LUnion [CWLTypeLoader; CommandInputRecordSchemaLoader; CommandInputEnumSchemaLoader; CommandInputArraySchemaLoader; strtype].
(** line 23196 *)
Definition array_of_union_of_CWLTypeLoader_or_CommandInputRecordSchemaLoader_or_CommandInputEnumSchemaLoader_or_CommandInputArraySchemaLoader_or_strtype : loader := LArray union_of_CWLTypeLoader_or_CommandInputRecordSchemaLoader_or_CommandInputEnumSchemaLoader_or_CommandInputArraySchemaLoader_or_strtype.
(** line 23201 *)
Definition union_of_CWLTypeLoader_or_CommandInputRecordSchemaLoader_or_CommandInputEnumSchemaLoader_or_CommandInputArraySchemaLoader_or_strtype_or_array_of_union_of_CWLTypeLoader_or_CommandInputRecordSchemaLoader_or_CommandInputEnumSchemaLoader_or_CommandInputArraySchemaLoader_or_strtype : loader := LUnion [CWLTypeLoader; CommandInputRecordSchemaLoader; CommandInputEnumSchemaLoader; CommandInputArraySchemaLoader; strtype; array_of_union_of_CWLTypeLoader_or_CommandInputRecordSchemaLoader_or_CommandInputEnumSchemaLoader_or_CommandInputArraySchemaLoader_or_strtype].
(** line 23213 *)
Definition typedsl_union_of_CWLTypeLoader_or_CommandInputRecordSchemaLoader_or_CommandInputEnumSchemaLoader_or_CommandInputArraySchemaLoader_or_strtype_or_array_of_union_of_CWLTypeLoader_or_CommandInputRecordSchemaLoader_or_CommandInputEnumSchemaLoader_or_CommandInputArraySchemaLoader_or_strtype_2 : loader := LTypeDSL union_of_CWLTypeLoader_or_CommandInputRecordSchemaLoader_or_CommandInputEnumSchemaLoader_or_CommandInputArraySchemaLoader_or_strtype_or_array_of_union_of_CWLTypeLoader_or_CommandInputRecordSchemaLoader_or_CommandInputEnumSchemaLoader_or_CommandInputArraySchemaLoader_or_strtype (Some 2) "v1.1".
(** line 23220 *)
Definition array_of_CommandInputRecordFieldLoader : loader := LArray CommandInputRecordFieldLoader.
(** line 23223 *)
Definition union_of_None_type_or_array_of_CommandInputRecordFieldLoader : loader := LUnion [None_type; array_of_CommandInputRecordFieldLoader].
(** line 23229 *)
Definition idmap_fields_union_of_None_type_or_array_of_CommandInputRecordFieldLoader : loader := LIdMap union_of_None_type_or_array_of_CommandInputRecordFieldLoader "name" (Some "type").
(** line 23234 *)
Definition uri_union_of_CWLTypeLoader_or_CommandInputRecordSchemaLoader_or_CommandInputEnumSchemaLoader_or_CommandInputArraySchemaLoader_or_strtype_or_array_of_union_of_CWLTypeLoader_or_CommandInputRecordSchemaLoader_or_CommandInputEnumSchemaLoader_or_CommandInputArraySchemaLoader_or_strtype_False_True_2_None : loader := LUri union_of_CWLTypeLoader_or_CommandInputRecordSchemaLoader_or_CommandInputEnumSchemaLoader_or_CommandInputArraySchemaLoader_or_strtype_or_array_of_union_of_CWLTypeLoader_or_CommandInputRecordSchemaLoader_or_CommandInputEnumSchemaLoader_or_CommandInputArraySchemaLoader_or_strtype false true (Some 2) None.
(** line 23243 *)
Definition union_of_CWLTypeLoader_or_CommandOutputRecordSchemaLoader_or_CommandOutputEnumSchemaLoader_or_CommandOutputArraySchemaLoader_or_strtype : loader := LUnion [CWLTypeLoader; CommandOutputRecordSchemaLoader; CommandOutputEnumSchemaLoader; CommandOutputArraySchemaLoader; strtype].
(** line 23254 *)
Definition array_of_union_of_CWLTypeLoader_or_CommandOutputRecordSchemaLoader_or_CommandOutputEnumSchemaLoader_or_CommandOutputArraySchemaLoader_or_strtype : loader := LArray union_of_CWLTypeLoader_or_CommandOutputRecordSchemaLoader_or_CommandOutputEnumSchemaLoader_or_CommandOutputArraySchemaLoader_or_strtype.
(** line 23259 *)
Definition union_of_CWLTypeLoader_or_CommandOutputRecordSchemaLoader_or_CommandOutputEnumSchemaLoader_or_CommandOutputArraySchemaLoader_or_strtype_or_array_of_union_of_CWLTypeLoader_or_CommandOutputRecordSchemaLoader_or_CommandOutputEnumSchemaLoader_or_CommandOutputArraySchemaLoader_or_strtype : loader := LUnion [CWLTypeLoader; CommandOutputRecordSchemaLoader; CommandOutputEnumSchemaLoader; CommandOutputArraySchemaLoader; strtype; array_of_union_of_CWLTypeLoader_or_CommandOutputRecordSchemaLoader_or_CommandOutputEnumSchemaLoader_or_CommandOutputArraySchemaLoader_or_strtype].
(** line 23271 *)
Definition typedsl_union_of_CWLTypeLoader_or_CommandOutputRecordSchemaLoader_or_CommandOutputEnumSchemaLoader_or_CommandOutputArraySchemaLoader_or_strtype_or_array_of_union_of_CWLTypeLoader_or_CommandOutputRecordSchemaLoader_or_CommandOutputEnumSchemaLoader_or_CommandOutputArraySchemaLoader_or_strtype_2 : loader := LTypeDSL union_of_CWLTypeLoader_or_CommandOutputRecordSchemaLoader_or_CommandOutputEnumSchemaLoader_or_CommandOutputArraySchemaLoader_or_strtype_or_array_of_union_of_CWLTypeLoader_or_CommandOutputRecordSchemaLoader_or_CommandOutputEnumSchemaLoader_or_CommandOutputArraySchemaLoader_or_strtype (Some 2) "v1.1".
(** line 23278 *)
Definition array_of_CommandOutputRecordFieldLoader : loader := LArray CommandOutputRecordFieldLoader.
(** line 23281 *)
Definition union_of_None_type_or_array_of_CommandOutputRecordFieldLoader : loader := LUnion [None_type; array_of_CommandOutputRecordFieldLoader].
(** line 23287 *)
Definition idmap_fields_union_of_None_type_or_array_of_CommandOutputRecordFieldLoader : loader := LIdMap union_of_None_type_or_array_of_CommandOutputRecordFieldLoader "name" (Some "type").
(** line 23292 *)
Definition uri_union_of_CWLTypeLoader_or_CommandOutputRecordSchemaLoader_or_CommandOutputEnumSchemaLoader_or_CommandOutputArraySchemaLoader_or_strtype_or_array_of_union_of_CWLTypeLoader_or_CommandOutputRecordSchemaLoader_or_CommandOutputEnumSchemaLoader_or_CommandOutputArraySchemaLoader_or_strtype_False_True_2_None : loader := LUri union_of_CWLTypeLoader_or_CommandOutputRecordSchemaLoader_or_CommandOutputEnumSchemaLoader_or_CommandOutputArraySchemaLoader_or_strtype_or_array_of_union_of_CWLTypeLoader_or_CommandOutputRecordSchemaLoader_or_CommandOutputEnumSchemaLoader_or_CommandOutputArraySchemaLoader_or_strtype false true (Some 2) None.
(** line 23301 *)
Definition union_of_None_type_or_CWLTypeLoader_or_CommandInputRecordSchemaLoader_or_CommandInputEnumSchemaLoader_or_CommandInputArraySchemaLoader_or_strtype_or_array_of_union_of_CWLTypeLoader_or_CommandInputRecordSchemaLoader_or_CommandInputEnumSchemaLoader_or_CommandInputArraySchemaLoader_or_strtype : loader := LUnion [None_type; CWLTypeLoader; CommandInputRecordSchemaLoader; CommandInputEnumSchemaLoader; CommandInputArraySchemaLoader; strtype; array_of_union_of_CWLTypeLoader_or_CommandInputRecordSchemaLoader_or_CommandInputEnumSchemaLoader_or_CommandInputArraySchemaLoader_or_strtype].
(** line 23314 *)
Definition typedsl_union_of_None_type_or_CWLTypeLoader_or_CommandInputRecordSchemaLoader_or_CommandInputEnumSchemaLoader_or_CommandInputArraySchemaLoader_or_strtype_or_array_of_union_of_CWLTypeLoader_or_CommandInputRecordSchemaLoader_or_CommandInputEnumSchemaLoader_or_CommandInputArraySchemaLoader_or_strtype_2 : loader := LTypeDSL union_of_None_type_or_CWLTypeLoader_or_CommandInputRecordSchemaLoader_or_CommandInputEnumSchemaLoader_or_CommandInputArraySchemaLoader_or_strtype_or_array_of_union_of_CWLTypeLoader_or_CommandInputRecordSchemaLoader_or_CommandInputEnumSchemaLoader_or_CommandInputArraySchemaLoader_or_strtype (Some 2) "v1.1".
(** line 23321 *)
Definition union_of_None_type_or_CWLTypeLoader_or_stdoutLoader_or_stderrLoader_or_CommandOutputRecordSchemaLoader_or_CommandOutputEnumSchemaLoader_or_CommandOutputArraySchemaLoader_or_strtype_or_array_of_union_of_CWLTypeLoader_or_CommandOutputRecordSchemaLoader_or_CommandOutputEnumSchemaLoader_or_CommandOutputArraySchemaLoader_or_strtype : loader := LUnion [None_type; CWLTypeLoader; stdoutLoader; stderrLoader; CommandOutputRecordSchemaLoader; CommandOutputEnumSchemaLoader; CommandOutputArraySchemaLoader; strtype; array_of_union_of_CWLTypeLoader_or_CommandOutputRecordSchemaLoader_or_CommandOutputEnumSchemaLoader_or_CommandOutputArraySchemaLoader_or_strtype].
(** line 23336 *)
Definition typedsl_union_of_None_type_or_CWLTypeLoader_or_stdoutLoader_or_stderrLoader_or_CommandOutputRecordSchemaLoader_or_CommandOutputEnumSchemaLoader_or_CommandOutputArraySchemaLoader_or_strtype_or_array_of_union_of_CWLTypeLoader_or_CommandOutputRecordSchemaLoader_or_CommandOutputEnumSchemaLoader_or_CommandOutputArraySchemaLoader_or_strtype_2 : loader := LTypeDSL union_of_None_type_or_CWLTypeLoader_or_stdoutLoader_or_stderrLoader_or_CommandOutputRecordSchemaLoader_or_CommandOutputEnumSchemaLoader_or_CommandOutputArraySchemaLoader_or_strtype_or_array_of_union_of_CWLTypeLoader_or_CommandOutputRecordSchemaLoader_or_CommandOutputEnumSchemaLoader_or_CommandOutputArraySchemaLoader_or_strtype (Some 2) "v1.1".
(** line 23343 *)
Definition CommandLineTool_classLoader : loader := LEnum ["CommandLineTool"].
(** line 23346 *)
Definition uri_CommandLineTool_classLoader_False_True_None_None : loader := LUri CommandLineTool_classLoader false true None None.
(** line 23349 *)
Definition array_of_CommandInputParameterLoader : loader := LArray CommandInputParameterLoader.
(** line 23350 *)
Definition idmap_inputs_array_of_CommandInputParameterLoader : loader := LIdMap array_of_CommandInputParameterLoader "id" (Some "type").
(** line 23353 *)
Definition array_of_CommandOutputParameterLoader : loader := LArray CommandOutputParameterLoader.
(** line 23356 *)
Definition idmap_outputs_array_of_CommandOutputParameterLoader : loader := LIdMap array_of_CommandOutputParameterLoader "id" (Some "type").
(** line 23359 *)
Definition union_of_strtype_or_ExpressionLoader_or_CommandLineBindingLoader : loader := LUnion [strtype; ExpressionLoader; CommandLineBindingLoader].
(** line 23366 *)
Definition array_of_union_of_strtype_or_ExpressionLoader_or_CommandLineBindingLoader : loader := LArray union_of_strtype_or_ExpressionLoader_or_CommandLineBindingLoader.
(** line 23369 *)
Definition union_of_None_type_or_array_of_union_of_strtype_or_ExpressionLoader_or_CommandLineBindingLoader : loader := LUnion [None_type; array_of_union_of_strtype_or_ExpressionLoader_or_CommandLineBindingLoader].
(** line 23377 *)
Definition array_of_inttype : loader := LArray inttype.
(** line 23378 *)
Definition union_of_None_type_or_array_of_inttype : loader := LUnion [None_type; array_of_inttype].
(** line 23384 *)
Definition DockerRequirement_classLoader : loader := LEnum ["DockerRequirement"].
(** line 23387 *)
Definition uri_DockerRequirement_classLoader_False_True_None_None : loader := LUri DockerRequirement_classLoader false true None None.
(** line 23390 *)
Definition SoftwareRequirement_classLoader : loader := LEnum ["SoftwareRequirement"].
(** line 23393 *)
Definition uri_SoftwareRequirement_classLoader_False_True_None_None : loader := LUri SoftwareRequirement_classLoader false true None None.
(** line 23396 *)
Definition array_of_SoftwarePackageLoader : loader := LArray SoftwarePackageLoader.
(** line 23397 *)
Definition idmap_packages_array_of_SoftwarePackageLoader : loader := LIdMap array_of_SoftwarePackageLoader "package" (Some "specs").
(** line 23400 *)
Definition uri_union_of_None_type_or_array_of_strtype_False_False_None_True : loader := LUri union_of_None_type_or_array_of_strtype false false None (Some true).
(** line 23403 *)
Definition InitialWorkDirRequirement_classLoader : loader := LEnum ["InitialWorkDirRequirement"].
(** line 23406 *)
Definition uri_InitialWorkDirRequirement_classLoader_False_True_None_None : loader := LUri InitialWorkDirRequirement_classLoader false true None None.
(** line 23409 *)
Definition union_of_FileLoader_or_DirectoryLoader_or_DirentLoader_or_strtype_or_ExpressionLoader : loader := LUnion [FileLoader; DirectoryLoader; DirentLoader; strtype; ExpressionLoader].
(** line 23420 *)
Definition array_of_union_of_FileLoader_or_DirectoryLoader_or_DirentLoader_or_strtype_or_ExpressionLoader : loader := LArray union_of_FileLoader_or_DirectoryLoader_or_DirentLoader_or_strtype_or_ExpressionLoader.
(** line 23425 *)
Definition union_of_array_of_union_of_FileLoader_or_DirectoryLoader_or_DirentLoader_or_strtype_or_ExpressionLoader_or_strtype_or_ExpressionLoader : loader := LUnion [array_of_union_of_FileLoader_or_DirectoryLoader_or_DirentLoader_or_strtype_or_ExpressionLoader; strtype; ExpressionLoader].
(** line 23434 *)
Definition EnvVarRequirement_classLoader : loader := LEnum ["EnvVarRequirement"].
(** line 23437 *)
Definition uri_EnvVarRequirement_classLoader_False_True_None_None : loader := LUri EnvVarRequirement_classLoader false true None None.
(** line 23440 *)
Definition array_of_EnvironmentDefLoader : loader := LArray EnvironmentDefLoader.
(** line 23441 *)
Definition idmap_envDef_array_of_EnvironmentDefLoader : loader := LIdMap array_of_EnvironmentDefLoader "envName" (Some "envValue").
(** line 23444 *)
Definition ShellCommandRequirement_classLoader : loader := LEnum ["ShellCommandRequirement"].
(** line 23447 *)
Definition uri_ShellCommandRequirement_classLoader_False_True_None_None : loader := LUri ShellCommandRequirement_classLoader false true None None.
(** line 23450 *)
Definition ResourceRequirement_classLoader : loader := LEnum ["ResourceRequirement"].
(** line 23453 *)
Definition uri_ResourceRequirement_classLoader_False_True_None_None : loader := LUri ResourceRequirement_classLoader false true None None.
(** line 23456 *)
Definition union_of_None_type_or_inttype_or_strtype_or_ExpressionLoader : loader := LUnion [None_type; inttype; strtype; ExpressionLoader].
(** line 23464 *)
Definition union_of_None_type_or_CWLTypeLoader_or_OutputRecordSchemaLoader_or_OutputEnumSchemaLoader_or_OutputArraySchemaLoader_or_strtype_or_array_of_union_of_CWLTypeLoader_or_OutputRecordSchemaLoader_or_OutputEnumSchemaLoader_or_OutputArraySchemaLoader_or_strtype : loader := LUnion [None_type; CWLTypeLoader; OutputRecordSchemaLoader; OutputEnumSchemaLoader; OutputArraySchemaLoader; strtype; array_of_union_of_CWLTypeLoader_or_OutputRecordSchemaLoader_or_OutputEnumSchemaLoader_or_OutputArraySchemaLoader_or_strtype].
(** line 23477 *)
Definition typedsl_union_of_None_type_or_CWLTypeLoader_or_OutputRecordSchemaLoader_or_OutputEnumSchemaLoader_or_OutputArraySchemaLoader_or_strtype_or_array_of_union_of_CWLTypeLoader_or_OutputRecordSchemaLoader_or_OutputEnumSchemaLoader_or_OutputArraySchemaLoader_or_strtype_2 : loader := LTypeDSL union_of_None_type_or_CWLTypeLoader_or_OutputRecordSchemaLoader_or_OutputEnumSchemaLoader_or_OutputArraySchemaLoader_or_strtype_or_array_of_union_of_CWLTypeLoader_or_OutputRecordSchemaLoader_or_OutputEnumSchemaLoader_or_OutputArraySchemaLoader_or_strtype (Some 2) "v1.1".
(** line 23484 *)
Definition ExpressionTool_classLoader : loader := LEnum ["ExpressionTool"].
(** line 23487 *)
Definition uri_ExpressionTool_classLoader_False_True_None_None : loader := LUri ExpressionTool_classLoader false true None None.
(** line 23490 *)
Definition array_of_ExpressionToolOutputParameterLoader : loader := LArray ExpressionToolOutputParameterLoader.
(** line 23493 *)
Definition idmap_outputs_array_of_ExpressionToolOutputParameterLoader : loader := LIdMap array_of_ExpressionToolOutputParameterLoader "id" (Some "type").
(** line 23496 *)
Definition uri_union_of_None_type_or_strtype_or_array_of_strtype_False_False_1_None : loader := LUri union_of_None_type_or_strtype_or_array_of_strtype false false (Some 1) None.
(** line 23499 *)
Definition union_of_None_type_or_LinkMergeMethodLoader : loader := LUnion [None_type; LinkMergeMethodLoader].
(** line 23505 *)
Definition uri_union_of_None_type_or_strtype_or_array_of_strtype_False_False_2_None : loader := LUri union_of_None_type_or_strtype_or_array_of_strtype false false (Some 2) None.
(** line 23508 *)
Definition array_of_WorkflowStepInputLoader : loader := LArray WorkflowStepInputLoader.
(** line 23509 *)
Definition idmap_in__array_of_WorkflowStepInputLoader : loader := LIdMap array_of_WorkflowStepInputLoader "id" (Some "source").
(** line 23512 *)
Definition union_of_strtype_or_WorkflowStepOutputLoader : loader := LUnion [strtype; WorkflowStepOutputLoader].
(** line 23518 *)
Definition array_of_union_of_strtype_or_WorkflowStepOutputLoader : loader := LArray union_of_strtype_or_WorkflowStepOutputLoader.
(** line 23521 *)
Definition union_of_array_of_union_of_strtype_or_WorkflowStepOutputLoader : loader := LUnion [array_of_union_of_strtype_or_WorkflowStepOutputLoader].
(** line 23524 *)
Definition uri_union_of_array_of_union_of_strtype_or_WorkflowStepOutputLoader_True_False_None_None : loader := LUri union_of_array_of_union_of_strtype_or_WorkflowStepOutputLoader true false None None.
(** line 23533 *)
Definition array_of_Any_type : loader := LArray Any_type.
(** line 23534 *)
Definition union_of_None_type_or_array_of_Any_type : loader := LUnion [None_type; array_of_Any_type].
(** line 23540 *)
Definition idmap_hints_union_of_None_type_or_array_of_Any_type : loader := LIdMap union_of_None_type_or_array_of_Any_type "class" (Some "None").
(** line 23543 *)
Definition union_of_strtype_or_CommandLineToolLoader_or_ExpressionToolLoader_or_WorkflowLoader_or_ProcessGeneratorLoader : loader := LUnion [strtype; CommandLineToolLoader; ExpressionToolLoader; WorkflowLoader; ProcessGeneratorLoader].
(** line 23554 *)
Definition uri_union_of_strtype_or_CommandLineToolLoader_or_ExpressionToolLoader_or_WorkflowLoader_or_ProcessGeneratorLoader_False_False_None_None : loader := LUri union_of_strtype_or_CommandLineToolLoader_or_ExpressionToolLoader_or_WorkflowLoader_or_ProcessGeneratorLoader false false None None.
(** line 23563 *)
Definition uri_union_of_None_type_or_strtype_or_array_of_strtype_False_False_0_None : loader := LUri union_of_None_type_or_strtype_or_array_of_strtype false false (Some 0) None.
(** line 23566 *)
Definition union_of_None_type_or_ScatterMethodLoader : loader := LUnion [None_type; ScatterMethodLoader].
(** line 23572 *)
Definition uri_union_of_None_type_or_ScatterMethodLoader_False_True_None_None : loader := LUri union_of_None_type_or_ScatterMethodLoader false true None None.
(** line 23575 *)
Definition Workflow_classLoader : loader := LEnum ["Workflow"].
(** line 23576 *)
Definition uri_Workflow_classLoader_False_True_None_None : loader := LUri Workflow_classLoader false true None None.
(** line 23579 *)
Definition array_of_WorkflowOutputParameterLoader : loader := LArray WorkflowOutputParameterLoader.
(** line 23582 *)
Definition idmap_outputs_array_of_WorkflowOutputParameterLoader : loader := LIdMap array_of_WorkflowOutputParameterLoader "id" (Some "type").
(** line 23585 *)
Definition array_of_WorkflowStepLoader : loader := LArray WorkflowStepLoader.
(** line 23586 *)
Definition union_of_array_of_WorkflowStepLoader : loader := LUnion [array_of_WorkflowStepLoader].
(** line 23589 *)
Definition idmap_steps_union_of_array_of_WorkflowStepLoader : loader := LIdMap union_of_array_of_WorkflowStepLoader "id" (Some "None").
(** line 23592 *)
Definition SubworkflowFeatureRequirement_classLoader : loader := LEnum ["SubworkflowFeatureRequirement"].
(** line 23595 *)
Definition uri_SubworkflowFeatureRequirement_classLoader_False_True_None_None : loader := LUri SubworkflowFeatureRequirement_classLoader false true None None.
(** line 23598 *)
Definition ScatterFeatureRequirement_classLoader : loader := LEnum ["ScatterFeatureRequirement"].
(** line 23601 *)
Definition uri_ScatterFeatureRequirement_classLoader_False_True_None_None : loader := LUri ScatterFeatureRequirement_classLoader false true None None.
(** line 23604 *)
Definition MultipleInputFeatureRequirement_classLoader : loader := LEnum ["MultipleInputFeatureRequirement"].
(** line 23607 *)
Definition uri_MultipleInputFeatureRequirement_classLoader_False_True_None_None : loader := LUri MultipleInputFeatureRequirement_classLoader false true None None.
(** line 23610 *)
Definition StepInputExpressionRequirement_classLoader : loader := LEnum ["StepInputExpressionRequirement"].
(** line 23613 *)
Definition uri_StepInputExpressionRequirement_classLoader_False_True_None_None : loader := LUri StepInputExpressionRequirement_classLoader false true None None.
(** line 23616 *)
Definition uri_strtype_False_True_None_None : loader := LUri strtype false true None None.
(** line 23617 *)
Definition LoadListingEnumLoader : loader := LEnum ["no_listing"; "shallow_listing"; "deep_listing"].
(** line 23625 *)
Definition union_of_LoadListingEnumLoader : loader := LUnion [LoadListingEnumLoader].
(** line 23626 *)
Definition uri_array_of_strtype_False_False_0_None : loader := LUri array_of_strtype false false (Some 0) None.
(** line 23629 *)
Definition union_of_inttype_or_strtype : loader := LUnion [inttype; strtype].
(** line 23635 *)
Definition union_of_booltype_or_strtype : loader := LUnion [booltype; strtype].
(** line 23641 *)
Definition union_of_inttype_or_ExpressionLoader : loader := LUnion [inttype; ExpressionLoader].
(** line 23647 *)
Definition union_of_strtype_or_array_of_strtype : loader := LUnion [strtype; array_of_strtype].
(** line 23653 *)
Definition union_of_None_type_or_inttype_or_ExpressionLoader : loader := LUnion [None_type; inttype; ExpressionLoader].
(** line 23660 *)
Definition union_of_CommandLineToolLoader_or_ExpressionToolLoader_or_WorkflowLoader_or_ProcessGeneratorLoader : loader := LUnion [CommandLineToolLoader; ExpressionToolLoader; WorkflowLoader; ProcessGeneratorLoader].
(** line 23670 *)
Definition array_of_union_of_CommandLineToolLoader_or_ExpressionToolLoader_or_WorkflowLoader_or_ProcessGeneratorLoader : loader := LArray union_of_CommandLineToolLoader_or_ExpressionToolLoader_or_WorkflowLoader_or_ProcessGeneratorLoader.
(** line 23675 *)
Definition union_of_CommandLineToolLoader_or_ExpressionToolLoader_or_WorkflowLoader_or_ProcessGeneratorLoader_or_array_of_union_of_CommandLineToolLoader_or_ExpressionToolLoader_or_WorkflowLoader_or_ProcessGeneratorLoader : loader := LUnion [CommandLineToolLoader; ExpressionToolLoader; WorkflowLoader; ProcessGeneratorLoader; array_of_union_of_CommandLineToolLoader_or_ExpressionToolLoader_or_WorkflowLoader_or_ProcessGeneratorLoader].

(** line 885 *)
Definition CWLArraySchema_class : class := Class "CWLArraySchema" None None [Field "items" true uri_union_of_PrimitiveTypeLoader_or_CWLRecordSchemaLoader_or_EnumSchemaLoader_or_CWLArraySchemaLoader_or_strtype_or_array_of_union_of_PrimitiveTypeLoader_or_CWLRecordSchemaLoader_or_EnumSchemaLoader_or_CWLArraySchemaLoader_or_strtype_False_True_2_None false; Field "type" true typedsl_Array_nameLoader_2 false].
(** line 1092 *)
Definition CWLRecordField_class : class := Class "CWLRecordField" (Some ("name", true, uri_strtype_True_False_None_None)) None [Field "doc" false union_of_None_type_or_strtype_or_array_of_strtype false; Field "type" true typedsl_union_of_PrimitiveTypeLoader_or_CWLRecordSchemaLoader_or_EnumSchemaLoader_or_CWLArraySchemaLoader_or_strtype_or_array_of_union_of_PrimitiveTypeLoader_or_CWLRecordSchemaLoader_or_EnumSchemaLoader_or_CWLArraySchemaLoader_or_strtype_2 false].
(** line 1352 *)
Definition CWLRecordSchema_class : class := Class "CWLRecordSchema" None None [Field "fields" false idmap_fields_union_of_None_type_or_array_of_CWLRecordFieldLoader false; Field "type" true typedsl_Record_nameLoader_2 false].
(** line 1625 *)
Definition File_class : class := Class "File" None (Some uri_File_classLoader_False_True_None_None) [Field "location" false uri_union_of_None_type_or_strtype_False_False_None_None false; Field "path" false uri_union_of_None_type_or_strtype_False_False_None_None false; Field "basename" false union_of_None_type_or_strtype false; Field "dirname" false union_of_None_type_or_strtype false; Field "nameroot" false union_of_None_type_or_strtype false; Field "nameext" false union_of_None_type_or_strtype false; Field "checksum" false union_of_None_type_or_strtype false; Field "size" false union_of_None_type_or_inttype false; Field "secondaryFiles" false union_of_None_type_or_array_of_union_of_FileLoader_or_DirectoryLoader false; Field "format" false uri_union_of_None_type_or_strtype_True_False_None_True false; Field "contents" false union_of_None_type_or_strtype false].
(** line 2369 *)
Definition Directory_class : class := Class "Directory" None (Some uri_Directory_classLoader_False_True_None_None) [Field "location" false uri_union_of_None_type_or_strtype_False_False_None_None false; Field "path" false uri_union_of_None_type_or_strtype_False_False_None_None false; Field "basename" false union_of_None_type_or_strtype false; Field "listing" false union_of_None_type_or_array_of_union_of_FileLoader_or_DirectoryLoader false].
(** line 2741 *)
Definition InputRecordField_class : class := Class "InputRecordField" (Some ("name", true, uri_strtype_True_False_None_None)) None [Field "doc" false union_of_None_type_or_strtype_or_array_of_strtype false; Field "type" true typedsl_union_of_CWLTypeLoader_or_InputRecordSchemaLoader_or_InputEnumSchemaLoader_or_InputArraySchemaLoader_or_strtype_or_array_of_union_of_CWLTypeLoader_or_InputRecordSchemaLoader_or_InputEnumSchemaLoader_or_InputArraySchemaLoader_or_strtype_2 false; Field "inputBinding" false union_of_None_type_or_CommandLineBindingLoader false; Field "label" false union_of_None_type_or_strtype false].
(** line 3121 *)
Definition InputRecordSchema_class : class := Class "InputRecordSchema" (Some ("name", false, uri_union_of_None_type_or_strtype_True_False_None_None)) None [Field "fields" false idmap_fields_union_of_None_type_or_array_of_InputRecordFieldLoader false; Field "type" true typedsl_Record_nameLoader_2 false; Field "label" false union_of_None_type_or_strtype false].
(** line 3449 *)
Definition InputEnumSchema_class : class := Class "InputEnumSchema" (Some ("name", false, uri_union_of_None_type_or_strtype_True_False_None_None)) None [Field "symbols" true uri_array_of_strtype_True_False_None_None false; Field "type" true typedsl_Enum_nameLoader_2 false; Field "label" false union_of_None_type_or_strtype false; Field "inputBinding" false union_of_None_type_or_CommandLineBindingLoader false].
(** line 3827 *)
Definition InputArraySchema_class : class := Class "InputArraySchema" None None [Field "items" true uri_union_of_CWLTypeLoader_or_InputRecordSchemaLoader_or_InputEnumSchemaLoader_or_InputArraySchemaLoader_or_strtype_or_array_of_union_of_CWLTypeLoader_or_InputRecordSchemaLoader_or_InputEnumSchemaLoader_or_InputArraySchemaLoader_or_strtype_False_True_2_None false; Field "type" true typedsl_Array_nameLoader_2 false; Field "label" false union_of_None_type_or_strtype false; Field "inputBinding" false union_of_None_type_or_CommandLineBindingLoader false].
(** line 4146 *)
Definition OutputRecordField_class : class := Class "OutputRecordField" (Some ("name", true, uri_strtype_True_False_None_None)) None [Field "doc" false union_of_None_type_or_strtype_or_array_of_strtype false; Field "type" true typedsl_union_of_CWLTypeLoader_or_OutputRecordSchemaLoader_or_OutputEnumSchemaLoader_or_OutputArraySchemaLoader_or_strtype_or_array_of_union_of_CWLTypeLoader_or_OutputRecordSchemaLoader_or_OutputEnumSchemaLoader_or_OutputArraySchemaLoader_or_strtype_2 false; Field "outputBinding" false union_of_None_type_or_CommandOutputBindingLoader false].
(** line 4469 *)
Definition OutputRecordSchema_class : class := Class "OutputRecordSchema" None None [Field "fields" false idmap_fields_union_of_None_type_or_array_of_OutputRecordFieldLoader false; Field "type" true typedsl_Record_nameLoader_2 false; Field "label" false union_of_None_type_or_strtype false].
(** line 4736 *)
Definition OutputEnumSchema_class : class := Class "OutputEnumSchema" (Some ("name", false, uri_union_of_None_type_or_strtype_True_False_None_None)) None [Field "symbols" true uri_array_of_strtype_True_False_None_None false; Field "type" true typedsl_Enum_nameLoader_2 false; Field "label" false union_of_None_type_or_strtype false; Field "outputBinding" false union_of_None_type_or_CommandOutputBindingLoader false].
(** line 5114 *)
Definition OutputArraySchema_class : class := Class "OutputArraySchema" None None [Field "items" true uri_union_of_CWLTypeLoader_or_OutputRecordSchemaLoader_or_OutputEnumSchemaLoader_or_OutputArraySchemaLoader_or_strtype_or_array_of_union_of_CWLTypeLoader_or_OutputRecordSchemaLoader_or_OutputEnumSchemaLoader_or_OutputArraySchemaLoader_or_strtype_False_True_2_None false; Field "type" true typedsl_Array_nameLoader_2 false; Field "label" false union_of_None_type_or_strtype false; Field "outputBinding" false union_of_None_type_or_CommandOutputBindingLoader false].
(** line 5460 *)
Definition InputParameter_class : class := Class "InputParameter" (Some ("id", true, uri_strtype_True_False_None_None)) None [Field "label" false union_of_None_type_or_strtype false; Field "secondaryFiles" false union_of_None_type_or_strtype_or_ExpressionLoader_or_array_of_union_of_strtype_or_ExpressionLoader false; Field "streamable" false union_of_None_type_or_booltype false; Field "doc" false union_of_None_type_or_strtype_or_array_of_strtype false; Field "format" false uri_union_of_None_type_or_strtype_or_array_of_strtype_or_ExpressionLoader_True_False_None_True false; Field "inputBinding" false union_of_None_type_or_CommandLineBindingLoader false; Field "default" false union_of_None_type_or_CWLObjectTypeLoader false; Field "type" false typedsl_union_of_None_type_or_CWLTypeLoader_or_InputRecordSchemaLoader_or_InputEnumSchemaLoader_or_InputArraySchemaLoader_or_strtype_or_array_of_union_of_CWLTypeLoader_or_InputRecordSchemaLoader_or_InputEnumSchemaLoader_or_InputArraySchemaLoader_or_strtype_2 false].
(** line 6081 *)
Definition OutputParameter_class : class := Class "OutputParameter" (Some ("id", true, uri_strtype_True_False_None_None)) None [Field "label" false union_of_None_type_or_strtype false; Field "secondaryFiles" false union_of_None_type_or_strtype_or_ExpressionLoader_or_array_of_union_of_strtype_or_ExpressionLoader false; Field "streamable" false union_of_None_type_or_booltype false; Field "doc" false union_of_None_type_or_strtype_or_array_of_strtype false; Field "outputBinding" false union_of_None_type_or_CommandOutputBindingLoader false; Field "format" false uri_union_of_None_type_or_strtype_or_ExpressionLoader_True_False_None_True false].
(** line 6593 *)
Definition InlineJavascriptRequirement_class : class := Class "InlineJavascriptRequirement" None (Some uri_InlineJavascriptRequirement_classLoader_False_True_None_None) [Field "expressionLib" false union_of_None_type_or_array_of_strtype false].
(** line 6773 *)
Definition SchemaDefRequirement_class : class := Class "SchemaDefRequirement" None (Some uri_SchemaDefRequirement_classLoader_False_True_None_None) [Field "types" true array_of_InputSchema false].
(** line 6954 *)
Definition EnvironmentDef_class : class := Class "EnvironmentDef" None None [Field "envName" true strtype false; Field "envValue" true union_of_strtype_or_ExpressionLoader false].
(** line 7205 *)
Definition CommandLineBinding_class : class := Class "CommandLineBinding" None None [Field "loadContents" false union_of_None_type_or_booltype false; Field "position" false union_of_None_type_or_inttype false; Field "prefix" false union_of_None_type_or_strtype false; Field "separate" false union_of_None_type_or_booltype false; Field "itemSeparator" false union_of_None_type_or_strtype false; Field "valueFrom" false union_of_None_type_or_strtype_or_ExpressionLoader false; Field "shellQuote" false union_of_None_type_or_booltype false].
(** line 7703 *)
Definition CommandOutputBinding_class : class := Class "CommandOutputBinding" None None [Field "glob" false union_of_None_type_or_strtype_or_ExpressionLoader_or_array_of_strtype false; Field "loadContents" false union_of_None_type_or_booltype false; Field "outputEval" false union_of_None_type_or_strtype_or_ExpressionLoader false].
(** line 7973 *)
Definition CommandInputRecordField_class : class := Class "CommandInputRecordField" (Some ("name", true, uri_strtype_True_False_None_None)) None [Field "doc" false union_of_None_type_or_strtype_or_array_of_strtype false; Field "type" true typedsl_union_of_CWLTypeLoader_or_CommandInputRecordSchemaLoader_or_CommandInputEnumSchemaLoader_or_CommandInputArraySchemaLoader_or_strtype_or_array_of_union_of_CWLTypeLoader_or_CommandInputRecordSchemaLoader_or_CommandInputEnumSchemaLoader_or_CommandInputArraySchemaLoader_or_strtype_2 false; Field "inputBinding" false union_of_None_type_or_CommandLineBindingLoader false; Field "label" false union_of_None_type_or_strtype false].
(** line 8353 *)
Definition CommandInputRecordSchema_class : class := Class "CommandInputRecordSchema" (Some ("name", false, uri_union_of_None_type_or_strtype_True_False_None_None)) None [Field "fields" false idmap_fields_union_of_None_type_or_array_of_CommandInputRecordFieldLoader false; Field "type" true typedsl_Record_nameLoader_2 false; Field "label" false union_of_None_type_or_strtype false].
(** line 8681 *)
Definition CommandInputEnumSchema_class : class := Class "CommandInputEnumSchema" (Some ("name", false, uri_union_of_None_type_or_strtype_True_False_None_None)) None [Field "symbols" true uri_array_of_strtype_True_False_None_None false; Field "type" true typedsl_Enum_nameLoader_2 false; Field "label" false union_of_None_type_or_strtype false; Field "inputBinding" false union_of_None_type_or_CommandLineBindingLoader false].
(** line 9059 *)
Definition CommandInputArraySchema_class : class := Class "CommandInputArraySchema" None None [Field "items" true uri_union_of_CWLTypeLoader_or_CommandInputRecordSchemaLoader_or_CommandInputEnumSchemaLoader_or_CommandInputArraySchemaLoader_or_strtype_or_array_of_union_of_CWLTypeLoader_or_CommandInputRecordSchemaLoader_or_CommandInputEnumSchemaLoader_or_CommandInputArraySchemaLoader_or_strtype_False_True_2_None false; Field "type" true typedsl_Array_nameLoader_2 false; Field "label" false union_of_None_type_or_strtype false; Field "inputBinding" false union_of_None_type_or_CommandLineBindingLoader false].
(** line 9378 *)
Definition CommandOutputRecordField_class : class := Class "CommandOutputRecordField" (Some ("name", true, uri_strtype_True_False_None_None)) None [Field "doc" false union_of_None_type_or_strtype_or_array_of_strtype false; Field "type" true typedsl_union_of_CWLTypeLoader_or_CommandOutputRecordSchemaLoader_or_CommandOutputEnumSchemaLoader_or_CommandOutputArraySchemaLoader_or_strtype_or_array_of_union_of_CWLTypeLoader_or_CommandOutputRecordSchemaLoader_or_CommandOutputEnumSchemaLoader_or_CommandOutputArraySchemaLoader_or_strtype_2 false; Field "outputBinding" false union_of_None_type_or_CommandOutputBindingLoader false].
(** line 9706 *)
Definition CommandOutputRecordSchema_class : class := Class "CommandOutputRecordSchema" (Some ("name", false, uri_union_of_None_type_or_strtype_True_False_None_None)) None [Field "fields" false idmap_fields_union_of_None_type_or_array_of_CommandOutputRecordFieldLoader false; Field "type" true typedsl_Record_nameLoader_2 false; Field "label" false union_of_None_type_or_strtype false].
(** line 10034 *)
Definition CommandOutputEnumSchema_class : class := Class "CommandOutputEnumSchema" (Some ("name", false, uri_union_of_None_type_or_strtype_True_False_None_None)) None [Field "symbols" true uri_array_of_strtype_True_False_None_None false; Field "type" true typedsl_Enum_nameLoader_2 false; Field "label" false union_of_None_type_or_strtype false; Field "outputBinding" false union_of_None_type_or_CommandOutputBindingLoader false].
(** line 10412 *)
Definition CommandOutputArraySchema_class : class := Class "CommandOutputArraySchema" None None [Field "items" true uri_union_of_CWLTypeLoader_or_CommandOutputRecordSchemaLoader_or_CommandOutputEnumSchemaLoader_or_CommandOutputArraySchemaLoader_or_strtype_or_array_of_union_of_CWLTypeLoader_or_CommandOutputRecordSchemaLoader_or_CommandOutputEnumSchemaLoader_or_CommandOutputArraySchemaLoader_or_strtype_False_True_2_None false; Field "type" true typedsl_Array_nameLoader_2 false; Field "label" false union_of_None_type_or_strtype false; Field "outputBinding" false union_of_None_type_or_CommandOutputBindingLoader false].
(** line 10763 *)
Definition CommandInputParameter_class : class := Class "CommandInputParameter" (Some ("id", true, uri_strtype_True_False_None_None)) None [Field "label" false union_of_None_type_or_strtype false; Field "secondaryFiles" false union_of_None_type_or_strtype_or_ExpressionLoader_or_array_of_union_of_strtype_or_ExpressionLoader false; Field "streamable" false union_of_None_type_or_booltype false; Field "doc" false union_of_None_type_or_strtype_or_array_of_strtype false; Field "format" false uri_union_of_None_type_or_strtype_or_array_of_strtype_or_ExpressionLoader_True_False_None_True false; Field "inputBinding" false union_of_None_type_or_CommandLineBindingLoader false; Field "default" false union_of_None_type_or_CWLObjectTypeLoader false; Field "type" false typedsl_union_of_None_type_or_CWLTypeLoader_or_CommandInputRecordSchemaLoader_or_CommandInputEnumSchemaLoader_or_CommandInputArraySchemaLoader_or_strtype_or_array_of_union_of_CWLTypeLoader_or_CommandInputRecordSchemaLoader_or_CommandInputEnumSchemaLoader_or_CommandInputArraySchemaLoader_or_strtype_2 false].
(** line 11393 *)
Definition CommandOutputParameter_class : class := Class "CommandOutputParameter" (Some ("id", true, uri_strtype_True_False_None_None)) None [Field "label" false union_of_None_type_or_strtype false; Field "secondaryFiles" false union_of_None_type_or_strtype_or_ExpressionLoader_or_array_of_union_of_strtype_or_ExpressionLoader false; Field "streamable" false union_of_None_type_or_booltype false; Field "doc" false union_of_None_type_or_strtype_or_array_of_strtype false; Field "outputBinding" false union_of_None_type_or_CommandOutputBindingLoader false; Field "format" false uri_union_of_None_type_or_strtype_or_ExpressionLoader_True_False_None_True false; Field "type" false typedsl_union_of_None_type_or_CWLTypeLoader_or_stdoutLoader_or_stderrLoader_or_CommandOutputRecordSchemaLoader_or_CommandOutputEnumSchemaLoader_or_CommandOutputArraySchemaLoader_or_strtype_or_array_of_union_of_CWLTypeLoader_or_CommandOutputRecordSchemaLoader_or_CommandOutputEnumSchemaLoader_or_CommandOutputArraySchemaLoader_or_strtype_2 false].
(** line 12005 *)
Definition CommandLineTool_class : class := Class "CommandLineTool" (Some ("id", false, uri_union_of_None_type_or_strtype_True_False_None_None)) (Some uri_CommandLineTool_classLoader_False_True_None_None) [Field "inputs" true idmap_inputs_array_of_CommandInputParameterLoader false; Field "outputs" true idmap_outputs_array_of_CommandOutputParameterLoader false; Field "requirements" false idmap_requirements_union_of_None_type_or_array_of_ProcessRequirement false; Field "hints" false idmap_hints_union_of_None_type_or_array_of_union_of_InlineJavascriptRequirementLoader_or_SchemaDefRequirementLoader_or_DockerRequirementLoader_or_SoftwareRequirementLoader_or_InitialWorkDirRequirementLoader_or_EnvVarRequirementLoader_or_ShellCommandRequirementLoader_or_ResourceRequirementLoader_or_SubworkflowFeatureRequirementLoader_or_ScatterFeatureRequirementLoader_or_MultipleInputFeatureRequirementLoader_or_StepInputExpressionRequirementLoader_or_LoadListingRequirementLoader_or_InplaceUpdateRequirementLoader_or_SecretsLoader_or_TimeLimitLoader_or_WorkReuseLoader_or_NetworkAccessLoader_or_MPIRequirementLoader_or_CUDARequirementLoader_or_ShmSizeLoader_or_Any_type false; Field "label" false union_of_None_type_or_strtype false; Field "doc" false union_of_None_type_or_strtype false; Field "cwlVersion" false uri_union_of_None_type_or_CWLVersionLoader_False_True_None_None false; Field "baseCommand" false union_of_None_type_or_strtype_or_array_of_strtype false; Field "arguments" false union_of_None_type_or_array_of_union_of_strtype_or_ExpressionLoader_or_CommandLineBindingLoader false; Field "stdin" false union_of_None_type_or_strtype_or_ExpressionLoader false; Field "stderr" false union_of_None_type_or_strtype_or_ExpressionLoader false; Field "stdout" false union_of_None_type_or_strtype_or_ExpressionLoader false; Field "successCodes" false union_of_None_type_or_array_of_inttype false; Field "temporaryFailCodes" false union_of_None_type_or_array_of_inttype false; Field "permanentFailCodes" false union_of_None_type_or_array_of_inttype false].
(** line 13050 *)
Definition DockerRequirement_class : class := Class "DockerRequirement" None (Some uri_DockerRequirement_classLoader_False_True_None_None) [Field "dockerPull" false union_of_None_type_or_strtype false; Field "dockerLoad" false union_of_None_type_or_strtype false; Field "dockerFile" false union_of_None_type_or_strtype false; Field "dockerImport" false union_of_None_type_or_strtype false; Field "dockerImageId" false union_of_None_type_or_strtype false; Field "dockerOutputDirectory" false union_of_None_type_or_strtype false].
(** line 13515 *)
Definition SoftwareRequirement_class : class := Class "SoftwareRequirement" None (Some uri_SoftwareRequirement_classLoader_False_True_None_None) [Field "packages" true idmap_packages_array_of_SoftwarePackageLoader false].
(** line 13695 *)
Definition SoftwarePackage_class : class := Class "SoftwarePackage" None None [Field "package" true strtype false; Field "version" false union_of_None_type_or_array_of_strtype false; Field "specs" false uri_union_of_None_type_or_array_of_strtype_False_False_None_True false].
(** line 13956 *)
Definition Dirent_class : class := Class "Dirent" None None [Field "entryname" false union_of_None_type_or_strtype_or_ExpressionLoader false; Field "entry" true union_of_strtype_or_ExpressionLoader false; Field "writable" false union_of_None_type_or_booltype false].
(** line 14214 *)
Definition InitialWorkDirRequirement_class : class := Class "InitialWorkDirRequirement" None (Some uri_InitialWorkDirRequirement_classLoader_False_True_None_None) [Field "listing" true union_of_array_of_union_of_FileLoader_or_DirectoryLoader_or_DirentLoader_or_strtype_or_ExpressionLoader_or_strtype_or_ExpressionLoader false].
(** line 14392 *)
Definition EnvVarRequirement_class : class := Class "EnvVarRequirement" None (Some uri_EnvVarRequirement_classLoader_False_True_None_None) [Field "envDef" true idmap_envDef_array_of_EnvironmentDefLoader false].
(** line 14568 *)
Definition ShellCommandRequirement_class : class := Class "ShellCommandRequirement" None (Some uri_ShellCommandRequirement_classLoader_False_True_None_None) [].
(** line 14739 *)
Definition ResourceRequirement_class : class := Class "ResourceRequirement" None (Some uri_ResourceRequirement_classLoader_False_True_None_None) [Field "coresMin" false union_of_None_type_or_inttype_or_strtype_or_ExpressionLoader false; Field "coresMax" false union_of_None_type_or_inttype_or_strtype_or_ExpressionLoader false; Field "ramMin" false union_of_None_type_or_inttype_or_strtype_or_ExpressionLoader false; Field "ramMax" false union_of_None_type_or_inttype_or_strtype_or_ExpressionLoader false; Field "tmpdirMin" false union_of_None_type_or_inttype_or_strtype_or_ExpressionLoader false; Field "tmpdirMax" false union_of_None_type_or_inttype_or_strtype_or_ExpressionLoader false; Field "outdirMin" false union_of_None_type_or_inttype_or_strtype_or_ExpressionLoader false; Field "outdirMax" false union_of_None_type_or_inttype_or_strtype_or_ExpressionLoader false].
(** line 15334 *)
Definition ExpressionToolOutputParameter_class : class := Class "ExpressionToolOutputParameter" (Some ("id", true, uri_strtype_True_False_None_None)) None [Field "label" false union_of_None_type_or_strtype false; Field "secondaryFiles" false union_of_None_type_or_strtype_or_ExpressionLoader_or_array_of_union_of_strtype_or_ExpressionLoader false; Field "streamable" false union_of_None_type_or_booltype false; Field "doc" false union_of_None_type_or_strtype_or_array_of_strtype false; Field "outputBinding" false union_of_None_type_or_CommandOutputBindingLoader false; Field "format" false uri_union_of_None_type_or_strtype_or_ExpressionLoader_True_False_None_True false; Field "type" false typedsl_union_of_None_type_or_CWLTypeLoader_or_OutputRecordSchemaLoader_or_OutputEnumSchemaLoader_or_OutputArraySchemaLoader_or_strtype_or_array_of_union_of_CWLTypeLoader_or_OutputRecordSchemaLoader_or_OutputEnumSchemaLoader_or_OutputArraySchemaLoader_or_strtype_2 false].
(** line 15918 *)
Definition ExpressionTool_class : class := Class "ExpressionTool" (Some ("id", false, uri_union_of_None_type_or_strtype_True_False_None_None)) (Some uri_ExpressionTool_classLoader_False_True_None_None) [Field "inputs" true idmap_inputs_array_of_InputParameterLoader false; Field "outputs" true idmap_outputs_array_of_ExpressionToolOutputParameterLoader false; Field "requirements" false idmap_requirements_union_of_None_type_or_array_of_ProcessRequirement false; Field "hints" false idmap_hints_union_of_None_type_or_array_of_union_of_InlineJavascriptRequirementLoader_or_SchemaDefRequirementLoader_or_DockerRequirementLoader_or_SoftwareRequirementLoader_or_InitialWorkDirRequirementLoader_or_EnvVarRequirementLoader_or_ShellCommandRequirementLoader_or_ResourceRequirementLoader_or_SubworkflowFeatureRequirementLoader_or_ScatterFeatureRequirementLoader_or_MultipleInputFeatureRequirementLoader_or_StepInputExpressionRequirementLoader_or_LoadListingRequirementLoader_or_InplaceUpdateRequirementLoader_or_SecretsLoader_or_TimeLimitLoader_or_WorkReuseLoader_or_NetworkAccessLoader_or_MPIRequirementLoader_or_CUDARequirementLoader_or_ShmSizeLoader_or_Any_type false; Field "label" false union_of_None_type_or_strtype false; Field "doc" false union_of_None_type_or_strtype false; Field "cwlVersion" false uri_union_of_None_type_or_CWLVersionLoader_False_True_None_None false; Field "expression" true union_of_strtype_or_ExpressionLoader false].
(** line 16584 *)
Definition WorkflowOutputParameter_class : class := Class "WorkflowOutputParameter" (Some ("id", true, uri_strtype_True_False_None_None)) None [Field "label" false union_of_None_type_or_strtype false; Field "secondaryFiles" false union_of_None_type_or_strtype_or_ExpressionLoader_or_array_of_union_of_strtype_or_ExpressionLoader false; Field "streamable" false union_of_None_type_or_booltype false; Field "doc" false union_of_None_type_or_strtype_or_array_of_strtype false; Field "outputBinding" false union_of_None_type_or_CommandOutputBindingLoader false; Field "format" false uri_union_of_None_type_or_strtype_or_ExpressionLoader_True_False_None_True false; Field "outputSource" false uri_union_of_None_type_or_strtype_or_array_of_strtype_False_False_1_None false; Field "linkMerge" false union_of_None_type_or_LinkMergeMethodLoader false; Field "type" false typedsl_union_of_None_type_or_CWLTypeLoader_or_OutputRecordSchemaLoader_or_OutputEnumSchemaLoader_or_OutputArraySchemaLoader_or_strtype_or_array_of_union_of_CWLTypeLoader_or_OutputRecordSchemaLoader_or_OutputEnumSchemaLoader_or_OutputArraySchemaLoader_or_strtype_2 false].
(** line 17273 *)
Definition WorkflowStepInput_class : class := Class "WorkflowStepInput" (Some ("id", true, uri_strtype_True_False_None_None)) None [Field "source" false uri_union_of_None_type_or_strtype_or_array_of_strtype_False_False_2_None false; Field "linkMerge" false union_of_None_type_or_LinkMergeMethodLoader false; Field "default" false union_of_None_type_or_CWLObjectTypeLoader false; Field "valueFrom" false union_of_None_type_or_strtype_or_ExpressionLoader false].
(** line 17642 *)
Definition WorkflowStepOutput_class : class := Class "WorkflowStepOutput" (Some ("id", true, uri_strtype_True_False_None_None)) None [].
(** line 17870 *)
Definition WorkflowStep_class : class := Class "WorkflowStep" (Some ("id", true, uri_strtype_True_False_None_None)) None [Field "in" true idmap_in__array_of_WorkflowStepInputLoader false; Field "out" true uri_union_of_array_of_union_of_strtype_or_WorkflowStepOutputLoader_True_False_None_None false; Field "requirements" false idmap_requirements_union_of_None_type_or_array_of_ProcessRequirement false; Field "hints" false idmap_hints_union_of_None_type_or_array_of_Any_type false; Field "label" false union_of_None_type_or_strtype false; Field "doc" false union_of_None_type_or_strtype false; Field "run" true uri_union_of_strtype_or_CommandLineToolLoader_or_ExpressionToolLoader_or_WorkflowLoader_or_ProcessGeneratorLoader_False_False_None_None false; Field "scatter" false uri_union_of_None_type_or_strtype_or_array_of_strtype_False_False_0_None false; Field "scatterMethod" false uri_union_of_None_type_or_ScatterMethodLoader_False_True_None_None false].
(** line 18578 *)
Definition Workflow_class : class := Class "Workflow" (Some ("id", false, uri_union_of_None_type_or_strtype_True_False_None_None)) (Some uri_Workflow_classLoader_False_True_None_None) [Field "inputs" true idmap_inputs_array_of_InputParameterLoader false; Field "outputs" true idmap_outputs_array_of_WorkflowOutputParameterLoader false; Field "requirements" false idmap_requirements_union_of_None_type_or_array_of_ProcessRequirement false; Field "hints" false idmap_hints_union_of_None_type_or_array_of_union_of_InlineJavascriptRequirementLoader_or_SchemaDefRequirementLoader_or_DockerRequirementLoader_or_SoftwareRequirementLoader_or_InitialWorkDirRequirementLoader_or_EnvVarRequirementLoader_or_ShellCommandRequirementLoader_or_ResourceRequirementLoader_or_SubworkflowFeatureRequirementLoader_or_ScatterFeatureRequirementLoader_or_MultipleInputFeatureRequirementLoader_or_StepInputExpressionRequirementLoader_or_LoadListingRequirementLoader_or_InplaceUpdateRequirementLoader_or_SecretsLoader_or_TimeLimitLoader_or_WorkReuseLoader_or_NetworkAccessLoader_or_MPIRequirementLoader_or_CUDARequirementLoader_or_ShmSizeLoader_or_Any_type false; Field "label" false union_of_None_type_or_strtype false; Field "doc" false union_of_None_type_or_strtype false; Field "cwlVersion" false uri_union_of_None_type_or_CWLVersionLoader_False_True_None_None false; Field "steps" true idmap_steps_union_of_array_of_WorkflowStepLoader false].
(** line 19196 *)
Definition SubworkflowFeatureRequirement_class : class := Class "SubworkflowFeatureRequirement" None (Some uri_SubworkflowFeatureRequirement_classLoader_False_True_None_None) [].
(** line 19317 *)
Definition ScatterFeatureRequirement_class : class := Class "ScatterFeatureRequirement" None (Some uri_ScatterFeatureRequirement_classLoader_False_True_None_None) [].
(** line 19438 *)
Definition MultipleInputFeatureRequirement_class : class := Class "MultipleInputFeatureRequirement" None (Some uri_MultipleInputFeatureRequirement_classLoader_False_True_None_None) [].
(** line 19559 *)
Definition StepInputExpressionRequirement_class : class := Class "StepInputExpressionRequirement" None (Some uri_StepInputExpressionRequirement_classLoader_False_True_None_None) [].
(** line 19679 *)
Definition LoadListingRequirement_class : class := Class "LoadListingRequirement" None (Some uri_strtype_False_True_None_None) [Field "loadListing" true union_of_LoadListingEnumLoader false].
(** line 19858 *)
Definition InplaceUpdateRequirement_class : class := Class "InplaceUpdateRequirement" None (Some uri_strtype_False_True_None_None) [Field "inplaceUpdate" true booltype false].
(** line 20034 *)
Definition Secrets_class : class := Class "Secrets" None (Some uri_strtype_False_True_None_None) [Field "secrets" true uri_array_of_strtype_False_False_0_None false].
(** line 20213 *)
Definition TimeLimit_class : class := Class "TimeLimit" None (Some uri_strtype_False_True_None_None) [Field "timelimit" true union_of_inttype_or_strtype false].
(** line 20398 *)
Definition WorkReuse_class : class := Class "WorkReuse" None (Some uri_strtype_False_True_None_None) [Field "enableReuse" true union_of_booltype_or_strtype false].
(** line 20588 *)
Definition NetworkAccess_class : class := Class "NetworkAccess" None (Some uri_strtype_False_True_None_None) [Field "networkAccess" true union_of_booltype_or_strtype false].
(** line 20806 *)
Definition ProcessGenerator_class : class := Class "ProcessGenerator" (Some ("id", false, uri_union_of_None_type_or_strtype_True_False_None_None)) (Some uri_strtype_False_True_None_None) [Field "inputs" true idmap_inputs_array_of_InputParameterLoader false; Field "outputs" true idmap_outputs_array_of_ExpressionToolOutputParameterLoader false; Field "requirements" false idmap_requirements_union_of_None_type_or_array_of_ProcessRequirement false; Field "hints" false idmap_hints_union_of_None_type_or_array_of_union_of_InlineJavascriptRequirementLoader_or_SchemaDefRequirementLoader_or_DockerRequirementLoader_or_SoftwareRequirementLoader_or_InitialWorkDirRequirementLoader_or_EnvVarRequirementLoader_or_ShellCommandRequirementLoader_or_ResourceRequirementLoader_or_SubworkflowFeatureRequirementLoader_or_ScatterFeatureRequirementLoader_or_MultipleInputFeatureRequirementLoader_or_StepInputExpressionRequirementLoader_or_LoadListingRequirementLoader_or_InplaceUpdateRequirementLoader_or_SecretsLoader_or_TimeLimitLoader_or_WorkReuseLoader_or_NetworkAccessLoader_or_MPIRequirementLoader_or_CUDARequirementLoader_or_ShmSizeLoader_or_Any_type false; Field "label" false union_of_None_type_or_strtype false; Field "doc" false union_of_None_type_or_strtype false; Field "cwlVersion" false uri_union_of_None_type_or_CWLVersionLoader_False_True_None_None false; Field "run" true uri_union_of_strtype_or_CommandLineToolLoader_or_ExpressionToolLoader_or_WorkflowLoader_or_ProcessGeneratorLoader_False_False_None_None false].
(** line 21427 *)
Definition MPIRequirement_class : class := Class "MPIRequirement" None (Some uri_strtype_False_True_None_None) [Field "processes" true union_of_inttype_or_ExpressionLoader false].
(** line 21628 *)
Definition CUDARequirement_class : class := Class "CUDARequirement" None (Some uri_strtype_False_True_None_None) [Field "cudaComputeCapability" true union_of_strtype_or_array_of_strtype false; Field "cudaDeviceCountMax" false union_of_None_type_or_inttype_or_ExpressionLoader false; Field "cudaDeviceCountMin" false union_of_None_type_or_inttype_or_ExpressionLoader false; Field "cudaVersionMin" true strtype false].
(** line 21978 *)
Definition ShmSize_class : class := Class "ShmSize" None (Some uri_strtype_False_True_None_None) [Field "shmSize" true strtype false].

(** The classes by their names *)
Definition all_classes : list (string * class) := [("CWLArraySchema", CWLArraySchema_class); ("CWLRecordField", CWLRecordField_class); ("CWLRecordSchema", CWLRecordSchema_class); ("File", File_class); ("Directory", Directory_class); ("InputRecordField", InputRecordField_class); ("InputRecordSchema", InputRecordSchema_class); ("InputEnumSchema", InputEnumSchema_class); ("InputArraySchema", InputArraySchema_class); ("OutputRecordField", OutputRecordField_class); ("OutputRecordSchema", OutputRecordSchema_class); ("OutputEnumSchema", OutputEnumSchema_class); ("OutputArraySchema", OutputArraySchema_class); ("InputParameter", InputParameter_class); ("OutputParameter", OutputParameter_class); ("InlineJavascriptRequirement", InlineJavascriptRequirement_class); ("SchemaDefRequirement", SchemaDefRequirement_class); ("EnvironmentDef", EnvironmentDef_class); ("CommandLineBinding", CommandLineBinding_class); ("CommandOutputBinding", CommandOutputBinding_class); ("CommandInputRecordField", CommandInputRecordField_class); ("CommandInputRecordSchema", CommandInputRecordSchema_class); ("CommandInputEnumSchema", CommandInputEnumSchema_class); ("CommandInputArraySchema", CommandInputArraySchema_class); ("CommandOutputRecordField", CommandOutputRecordField_class); ("CommandOutputRecordSchema", CommandOutputRecordSchema_class); ("CommandOutputEnumSchema", CommandOutputEnumSchema_class); ("CommandOutputArraySchema", CommandOutputArraySchema_class); ("CommandInputParameter", CommandInputParameter_class); ("CommandOutputParameter", CommandOutputParameter_class); ("CommandLineTool", CommandLineTool_class); ("DockerRequirement", DockerRequirement_class); ("SoftwareRequirement", SoftwareRequirement_class); ("SoftwarePackage", SoftwarePackage_class); ("Dirent", Dirent_class); ("InitialWorkDirRequirement", InitialWorkDirRequirement_class); ("EnvVarRequirement", EnvVarRequirement_class); ("ShellCommandRequirement", ShellCommandRequirement_class); ("ResourceRequirement", ResourceRequirement_class); ("ExpressionToolOutputParameter", ExpressionToolOutputParameter_class); ("ExpressionTool", ExpressionTool_class); ("WorkflowOutputParameter", WorkflowOutputParameter_class); ("WorkflowStepInput", WorkflowStepInput_class); ("WorkflowStepOutput", WorkflowStepOutput_class); ("WorkflowStep", WorkflowStep_class); ("Workflow", Workflow_class); ("SubworkflowFeatureRequirement", SubworkflowFeatureRequirement_class); ("ScatterFeatureRequirement", ScatterFeatureRequirement_class); ("MultipleInputFeatureRequirement", MultipleInputFeatureRequirement_class); ("StepInputExpressionRequirement", StepInputExpressionRequirement_class); ("LoadListingRequirement", LoadListingRequirement_class); ("InplaceUpdateRequirement", InplaceUpdateRequirement_class); ("Secrets", Secrets_class); ("TimeLimit", TimeLimit_class); ("WorkReuse", WorkReuse_class); ("NetworkAccess", NetworkAccess_class); ("ProcessGenerator", ProcessGenerator_class); ("MPIRequirement", MPIRequirement_class); ("CUDARequirement", CUDARequirement_class); ("ShmSize", ShmSize_class)].
(** [_loaders], line 23687, and the loader that contains itself, line 23700; entries that are None are left out *)
Definition named : list (string * loader) := [("InputSchemaLoader", union_of_InputRecordSchemaLoader_or_InputEnumSchemaLoader_or_InputArraySchemaLoader); ("ProcessRequirementLoader", union_of_InlineJavascriptRequirementLoader_or_SchemaDefRequirementLoader_or_DockerRequirementLoader_or_SoftwareRequirementLoader_or_InitialWorkDirRequirementLoader_or_EnvVarRequirementLoader_or_ShellCommandRequirementLoader_or_ResourceRequirementLoader_or_SubworkflowFeatureRequirementLoader_or_ScatterFeatureRequirementLoader_or_MultipleInputFeatureRequirementLoader_or_StepInputExpressionRequirementLoader_or_LoadListingRequirementLoader_or_InplaceUpdateRequirementLoader_or_SecretsLoader_or_TimeLimitLoader_or_WorkReuseLoader_or_NetworkAccessLoader_or_MPIRequirementLoader_or_CUDARequirementLoader_or_ShmSizeLoader); ("CWLObjectTypeLoader", (LUnion [booltype; inttype; floattype; strtype; FileLoader; DirectoryLoader; array_of_union_of_None_type_or_CWLObjectTypeLoader; map_of_union_of_None_type_or_CWLObjectTypeLoader]))].
(** [_vocab] and [_rvocab] *)
Definition terms : list (string * string) := [("Any", "https://w3id.org/cwl/salad#Any"); ("ArraySchema", "https://w3id.org/cwl/salad#ArraySchema"); ("CUDARequirement", "http://commonwl.org/cwltool#CUDARequirement"); ("CWLArraySchema", "https://w3id.org/cwl/cwl#CWLArraySchema"); ("CWLInputFile", "https://w3id.org/cwl/cwl#CWLInputFile"); ("CWLObjectType", "https://w3id.org/cwl/cwl#CWLObjectType"); ("CWLRecordField", "https://w3id.org/cwl/cwl#CWLRecordField"); ("CWLRecordSchema", "https://w3id.org/cwl/cwl#CWLRecordSchema"); ("CWLType", "https://w3id.org/cwl/cwl#CWLType"); ("CWLVersion", "https://w3id.org/cwl/cwl#CWLVersion"); ("CommandInputArraySchema", "https://w3id.org/cwl/cwl#CommandInputArraySchema"); ("CommandInputEnumSchema", "https://w3id.org/cwl/cwl#CommandInputEnumSchema"); ("CommandInputParameter", "https://w3id.org/cwl/cwl#CommandInputParameter"); ("CommandInputRecordField", "https://w3id.org/cwl/cwl#CommandInputRecordField"); ("CommandInputRecordSchema", "https://w3id.org/cwl/cwl#CommandInputRecordSchema"); ("CommandLineBinding", "https://w3id.org/cwl/cwl#CommandLineBinding"); ("CommandLineTool", "https://w3id.org/cwl/cwl#CommandLineTool"); ("CommandOutputArraySchema", "https://w3id.org/cwl/cwl#CommandOutputArraySchema"); ("CommandOutputBinding", "https://w3id.org/cwl/cwl#CommandOutputBinding"); ("CommandOutputEnumSchema", "https://w3id.org/cwl/cwl#CommandOutputEnumSchema"); ("CommandOutputParameter", "https://w3id.org/cwl/cwl#CommandOutputParameter"); ("CommandOutputRecordField", "https://w3id.org/cwl/cwl#CommandOutputRecordField"); ("CommandOutputRecordSchema", "https://w3id.org/cwl/cwl#CommandOutputRecordSchema"); ("Directory", "https://w3id.org/cwl/cwl#Directory"); ("Dirent", "https://w3id.org/cwl/cwl#Dirent"); ("DockerRequirement", "https://w3id.org/cwl/cwl#DockerRequirement"); ("Documented", "https://w3id.org/cwl/salad#Documented"); ("EnumSchema", "https://w3id.org/cwl/salad#EnumSchema"); ("EnvVarRequirement", "https://w3id.org/cwl/cwl#EnvVarRequirement"); ("EnvironmentDef", "https://w3id.org/cwl/cwl#EnvironmentDef"); ("Expression", "https://w3id.org/cwl/cwl#Expression"); ("ExpressionPlaceholder", "https://w3id.org/cwl/cwl#ExpressionPlaceholder"); ("ExpressionTool", "https://w3id.org/cwl/cwl#ExpressionTool"); ("ExpressionToolOutputParameter", "https://w3id.org/cwl/cwl#ExpressionToolOutputParameter"); ("File", "https://w3id.org/cwl/cwl#File"); ("InitialWorkDirRequirement", "https://w3id.org/cwl/cwl#InitialWorkDirRequirement"); ("InlineJavascriptRequirement", "https://w3id.org/cwl/cwl#InlineJavascriptRequirement"); ("InplaceUpdateRequirement", "http://commonwl.org/cwltool#InplaceUpdateRequirement"); ("InputArraySchema", "https://w3id.org/cwl/cwl#InputArraySchema"); ("InputBinding", "https://w3id.org/cwl/cwl#InputBinding"); ("InputEnumSchema", "https://w3id.org/cwl/cwl#InputEnumSchema"); ("InputParameter", "https://w3id.org/cwl/cwl#InputParameter"); ("InputRecordField", "https://w3id.org/cwl/cwl#InputRecordField"); ("InputRecordSchema", "https://w3id.org/cwl/cwl#InputRecordSchema"); ("InputSchema", "https://w3id.org/cwl/cwl#InputSchema"); ("LinkMergeMethod", "https://w3id.org/cwl/cwl#LinkMergeMethod"); ("LoadListingRequirement", "http://commonwl.org/cwltool#LoadListingRequirement"); ("MPIRequirement", "http://commonwl.org/cwltool#MPIRequirement"); ("MapSchema", "https://w3id.org/cwl/salad#MapSchema"); ("MultipleInputFeatureRequirement", "https://w3id.org/cwl/cwl#MultipleInputFeatureRequirement"); ("NetworkAccess", "http://commonwl.org/cwltool#NetworkAccess"); ("OutputArraySchema", "https://w3id.org/cwl/cwl#OutputArraySchema"); ("OutputBinding", "https://w3id.org/cwl/cwl#OutputBinding"); ("OutputEnumSchema", "https://w3id.org/cwl/cwl#OutputEnumSchema"); ("OutputParameter", "https://w3id.org/cwl/cwl#OutputParameter"); ("OutputRecordField", "https://w3id.org/cwl/cwl#OutputRecordField"); ("OutputRecordSchema", "https://w3id.org/cwl/cwl#OutputRecordSchema"); ("OutputSchema", "https://w3id.org/cwl/cwl#OutputSchema"); ("Parameter", "https://w3id.org/cwl/cwl#Parameter"); ("PrimitiveType", "https://w3id.org/cwl/salad#PrimitiveType"); ("Process", "https://w3id.org/cwl/cwl#Process"); ("ProcessGenerator", "http://commonwl.org/cwltool#ProcessGenerator"); ("ProcessRequirement", "https://w3id.org/cwl/cwl#ProcessRequirement"); ("RecordField", "https://w3id.org/cwl/salad#RecordField"); ("RecordSchema", "https://w3id.org/cwl/salad#RecordSchema"); ("ResourceRequirement", "https://w3id.org/cwl/cwl#ResourceRequirement"); ("ScatterFeatureRequirement", "https://w3id.org/cwl/cwl#ScatterFeatureRequirement"); ("ScatterMethod", "https://w3id.org/cwl/cwl#ScatterMethod"); ("SchemaBase", "https://w3id.org/cwl/cwl#SchemaBase"); ("SchemaDefRequirement", "https://w3id.org/cwl/cwl#SchemaDefRequirement"); ("Secrets", "http://commonwl.org/cwltool#Secrets"); ("ShellCommandRequirement", "https://w3id.org/cwl/cwl#ShellCommandRequirement"); ("ShmSize", "http://commonwl.org/cwltool#ShmSize"); ("Sink", "https://w3id.org/cwl/cwl#Sink"); ("SoftwarePackage", "https://w3id.org/cwl/cwl#SoftwarePackage"); ("SoftwareRequirement", "https://w3id.org/cwl/cwl#SoftwareRequirement"); ("StepInputExpressionRequirement", "https://w3id.org/cwl/cwl#StepInputExpressionRequirement"); ("SubworkflowFeatureRequirement", "https://w3id.org/cwl/cwl#SubworkflowFeatureRequirement"); ("TimeLimit", "http://commonwl.org/cwltool#TimeLimit"); ("UnionSchema", "https://w3id.org/cwl/salad#UnionSchema"); ("WorkReuse", "http://commonwl.org/cwltool#WorkReuse"); ("Workflow", "https://w3id.org/cwl/cwl#Workflow"); ("WorkflowOutputParameter", "https://w3id.org/cwl/cwl#WorkflowOutputParameter"); ("WorkflowStep", "https://w3id.org/cwl/cwl#WorkflowStep"); ("WorkflowStepInput", "https://w3id.org/cwl/cwl#WorkflowStepInput"); ("WorkflowStepOutput", "https://w3id.org/cwl/cwl#WorkflowStepOutput"); ("array", "https://w3id.org/cwl/salad#array"); ("boolean", "http://www.w3.org/2001/XMLSchema#boolean"); ("deep_listing", "http://commonwl.org/cwltool#LoadListingRequirement/loadListing/LoadListingEnum/deep_listing"); ("dotproduct", "https://w3id.org/cwl/cwl#ScatterMethod/dotproduct"); ("double", "http://www.w3.org/2001/XMLSchema#double"); ("enum", "https://w3id.org/cwl/salad#enum"); ("flat_crossproduct", "https://w3id.org/cwl/cwl#ScatterMethod/flat_crossproduct"); ("float", "http://www.w3.org/2001/XMLSchema#float"); ("int", "http://www.w3.org/2001/XMLSchema#int"); ("long", "http://www.w3.org/2001/XMLSchema#long"); ("map", "https://w3id.org/cwl/salad#map"); ("merge_flattened", "https://w3id.org/cwl/cwl#LinkMergeMethod/merge_flattened"); ("merge_nested", "https://w3id.org/cwl/cwl#LinkMergeMethod/merge_nested"); ("nested_crossproduct", "https://w3id.org/cwl/cwl#ScatterMethod/nested_crossproduct"); ("no_listing", "http://commonwl.org/cwltool#LoadListingRequirement/loadListing/LoadListingEnum/no_listing"); ("null", "https://w3id.org/cwl/salad#null"); ("record", "https://w3id.org/cwl/salad#record"); ("shallow_listing", "http://commonwl.org/cwltool#LoadListingRequirement/loadListing/LoadListingEnum/shallow_listing"); ("stderr", "https://w3id.org/cwl/cwl#stderr"); ("stdout", "https://w3id.org/cwl/cwl#stdout"); ("string", "http://www.w3.org/2001/XMLSchema#string"); ("union", "https://w3id.org/cwl/salad#union"); ("v1.0", "https://w3id.org/cwl/cwl#v1.0")].
Definition terms_back : list (string * string) := [("https://w3id.org/cwl/salad#Any", "Any"); ("https://w3id.org/cwl/salad#ArraySchema", "ArraySchema"); ("http://commonwl.org/cwltool#CUDARequirement", "CUDARequirement"); ("https://w3id.org/cwl/cwl#CWLArraySchema", "CWLArraySchema"); ("https://w3id.org/cwl/cwl#CWLInputFile", "CWLInputFile"); ("https://w3id.org/cwl/cwl#CWLObjectType", "CWLObjectType"); ("https://w3id.org/cwl/cwl#CWLRecordField", "CWLRecordField"); ("https://w3id.org/cwl/cwl#CWLRecordSchema", "CWLRecordSchema"); ("https://w3id.org/cwl/cwl#CWLType", "CWLType"); ("https://w3id.org/cwl/cwl#CWLVersion", "CWLVersion"); ("https://w3id.org/cwl/cwl#CommandInputArraySchema", "CommandInputArraySchema"); ("https://w3id.org/cwl/cwl#CommandInputEnumSchema", "CommandInputEnumSchema"); ("https://w3id.org/cwl/cwl#CommandInputParameter", "CommandInputParameter"); ("https://w3id.org/cwl/cwl#CommandInputRecordField", "CommandInputRecordField"); ("https://w3id.org/cwl/cwl#CommandInputRecordSchema", "CommandInputRecordSchema"); ("https://w3id.org/cwl/cwl#CommandLineBinding", "CommandLineBinding"); ("https://w3id.org/cwl/cwl#CommandLineTool", "CommandLineTool"); ("https://w3id.org/cwl/cwl#CommandOutputArraySchema", "CommandOutputArraySchema"); ("https://w3id.org/cwl/cwl#CommandOutputBinding", "CommandOutputBinding"); ("https://w3id.org/cwl/cwl#CommandOutputEnumSchema", "CommandOutputEnumSchema"); ("https://w3id.org/cwl/cwl#CommandOutputParameter", "CommandOutputParameter"); ("https://w3id.org/cwl/cwl#CommandOutputRecordField", "CommandOutputRecordField"); ("https://w3id.org/cwl/cwl#CommandOutputRecordSchema", "CommandOutputRecordSchema"); ("https://w3id.org/cwl/cwl#Directory", "Directory"); ("https://w3id.org/cwl/cwl#Dirent", "Dirent"); ("https://w3id.org/cwl/cwl#DockerRequirement", "DockerRequirement"); ("https://w3id.org/cwl/salad#Documented", "Documented"); ("https://w3id.org/cwl/salad#EnumSchema", "EnumSchema"); ("https://w3id.org/cwl/cwl#EnvVarRequirement", "EnvVarRequirement"); ("https://w3id.org/cwl/cwl#EnvironmentDef", "EnvironmentDef"); ("https://w3id.org/cwl/cwl#Expression", "Expression"); ("https://w3id.org/cwl/cwl#ExpressionPlaceholder", "ExpressionPlaceholder"); ("https://w3id.org/cwl/cwl#ExpressionTool", "ExpressionTool"); ("https://w3id.org/cwl/cwl#ExpressionToolOutputParameter", "ExpressionToolOutputParameter"); ("https://w3id.org/cwl/cwl#File", "File"); ("https://w3id.org/cwl/cwl#InitialWorkDirRequirement", "InitialWorkDirRequirement"); ("https://w3id.org/cwl/cwl#InlineJavascriptRequirement", "InlineJavascriptRequirement"); ("http://commonwl.org/cwltool#InplaceUpdateRequirement", "InplaceUpdateRequirement"); ("https://w3id.org/cwl/cwl#InputArraySchema", "InputArraySchema"); ("https://w3id.org/cwl/cwl#InputBinding", "InputBinding"); ("https://w3id.org/cwl/cwl#InputEnumSchema", "InputEnumSchema"); ("https://w3id.org/cwl/cwl#InputParameter", "InputParameter"); ("https://w3id.org/cwl/cwl#InputRecordField", "InputRecordField"); ("https://w3id.org/cwl/cwl#InputRecordSchema", "InputRecordSchema"); ("https://w3id.org/cwl/cwl#InputSchema", "InputSchema"); ("https://w3id.org/cwl/cwl#LinkMergeMethod", "LinkMergeMethod"); ("http://commonwl.org/cwltool#LoadListingRequirement", "LoadListingRequirement"); ("http://commonwl.org/cwltool#MPIRequirement", "MPIRequirement"); ("https://w3id.org/cwl/salad#MapSchema", "MapSchema"); ("https://w3id.org/cwl/cwl#MultipleInputFeatureRequirement", "MultipleInputFeatureRequirement"); ("http://commonwl.org/cwltool#NetworkAccess", "NetworkAccess"); ("https://w3id.org/cwl/cwl#OutputArraySchema", "OutputArraySchema"); ("https://w3id.org/cwl/cwl#OutputBinding", "OutputBinding"); ("https://w3id.org/cwl/cwl#OutputEnumSchema", "OutputEnumSchema"); ("https://w3id.org/cwl/cwl#OutputParameter", "OutputParameter"); ("https://w3id.org/cwl/cwl#OutputRecordField", "OutputRecordField"); ("https://w3id.org/cwl/cwl#OutputRecordSchema", "OutputRecordSchema"); ("https://w3id.org/cwl/cwl#OutputSchema", "OutputSchema"); ("https://w3id.org/cwl/cwl#Parameter", "Parameter"); ("https://w3id.org/cwl/salad#PrimitiveType", "PrimitiveType"); ("https://w3id.org/cwl/cwl#Process", "Process"); ("http://commonwl.org/cwltool#ProcessGenerator", "ProcessGenerator"); ("https://w3id.org/cwl/cwl#ProcessRequirement", "ProcessRequirement"); ("https://w3id.org/cwl/salad#RecordField", "RecordField"); ("https://w3id.org/cwl/salad#RecordSchema", "RecordSchema"); ("https://w3id.org/cwl/cwl#ResourceRequirement", "ResourceRequirement"); ("https://w3id.org/cwl/cwl#ScatterFeatureRequirement", "ScatterFeatureRequirement"); ("https://w3id.org/cwl/cwl#ScatterMethod", "ScatterMethod"); ("https://w3id.org/cwl/cwl#SchemaBase", "SchemaBase"); ("https://w3id.org/cwl/cwl#SchemaDefRequirement", "SchemaDefRequirement"); ("http://commonwl.org/cwltool#Secrets", "Secrets"); ("https://w3id.org/cwl/cwl#ShellCommandRequirement", "ShellCommandRequirement"); ("http://commonwl.org/cwltool#ShmSize", "ShmSize"); ("https://w3id.org/cwl/cwl#Sink", "Sink"); ("https://w3id.org/cwl/cwl#SoftwarePackage", "SoftwarePackage"); ("https://w3id.org/cwl/cwl#SoftwareRequirement", "SoftwareRequirement"); ("https://w3id.org/cwl/cwl#StepInputExpressionRequirement", "StepInputExpressionRequirement"); ("https://w3id.org/cwl/cwl#SubworkflowFeatureRequirement", "SubworkflowFeatureRequirement"); ("http://commonwl.org/cwltool#TimeLimit", "TimeLimit"); ("https://w3id.org/cwl/salad#UnionSchema", "UnionSchema"); ("http://commonwl.org/cwltool#WorkReuse", "WorkReuse"); ("https://w3id.org/cwl/cwl#Workflow", "Workflow"); ("https://w3id.org/cwl/cwl#WorkflowOutputParameter", "WorkflowOutputParameter"); ("https://w3id.org/cwl/cwl#WorkflowStep", "WorkflowStep"); ("https://w3id.org/cwl/cwl#WorkflowStepInput", "WorkflowStepInput"); ("https://w3id.org/cwl/cwl#WorkflowStepOutput", "WorkflowStepOutput"); ("https://w3id.org/cwl/salad#array", "array"); ("http://www.w3.org/2001/XMLSchema#boolean", "boolean"); ("http://commonwl.org/cwltool#LoadListingRequirement/loadListing/LoadListingEnum/deep_listing", "deep_listing"); ("https://w3id.org/cwl/cwl#ScatterMethod/dotproduct", "dotproduct"); ("http://www.w3.org/2001/XMLSchema#double", "double"); ("https://w3id.org/cwl/salad#enum", "enum"); ("https://w3id.org/cwl/cwl#ScatterMethod/flat_crossproduct", "flat_crossproduct"); ("http://www.w3.org/2001/XMLSchema#float", "float"); ("http://www.w3.org/2001/XMLSchema#int", "int"); ("http://www.w3.org/2001/XMLSchema#long", "long"); ("https://w3id.org/cwl/salad#map", "map"); ("https://w3id.org/cwl/cwl#LinkMergeMethod/merge_flattened", "merge_flattened"); ("https://w3id.org/cwl/cwl#LinkMergeMethod/merge_nested", "merge_nested"); ("https://w3id.org/cwl/cwl#ScatterMethod/nested_crossproduct", "nested_crossproduct"); ("http://commonwl.org/cwltool#LoadListingRequirement/loadListing/LoadListingEnum/no_listing", "no_listing"); ("https://w3id.org/cwl/salad#null", "null"); ("https://w3id.org/cwl/salad#record", "record"); ("http://commonwl.org/cwltool#LoadListingRequirement/loadListing/LoadListingEnum/shallow_listing", "shallow_listing"); ("https://w3id.org/cwl/cwl#stderr", "stderr"); ("https://w3id.org/cwl/cwl#stdout", "stdout"); ("http://www.w3.org/2001/XMLSchema#string", "string"); ("https://w3id.org/cwl/salad#union", "union"); ("https://w3id.org/cwl/cwl#v1.0", "v1.0")].

Definition classes (s : string) : option class := dget s all_classes.
Definition proxies (s : string) : option loader := dget s named.
(** The loader of [load_document], line 23714 *)
Definition top : loader := union_of_CommandLineToolLoader_or_ExpressionToolLoader_or_WorkflowLoader_or_ProcessGeneratorLoader_or_array_of_union_of_CommandLineToolLoader_or_ExpressionToolLoader_or_WorkflowLoader_or_ProcessGeneratorLoader.
