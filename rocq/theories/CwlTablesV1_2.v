(** * The loaders, classes and terms of src/cwl_utils/parser/cwl_v1_2.py
      Written by tools/gen_tables.py; the numbers are lines of that file.
      [CWLObjectTypeLoader], a union that contains itself, is a named loader here. *)
From Verif Require Import PyBase LoaderModel.

(** line 27453 *)
Definition strtype : loader := LPrim PStr.
(** line 27454 *)
Definition inttype : loader := LPrim PInt.
(** line 27455 *)
Definition floattype : loader := LPrim PFloat.
(** line 27456 *)
Definition booltype : loader := LPrim PBool.
(** line 27457 *)
Definition None_type : loader := LPrim PNull.
(** line 27458 *)
Definition Any_type : loader := LAny.
(** line 27459 *)
Definition DocumentedProxyLoader : loader := LProxy "DocumentedLoader".
(** line 27460 *)
Definition PrimitiveTypeLoader : loader := LEnum ["null"; "boolean"; "int"; "long"; "float"; "double"; "string"].
(** line 27491 *)
Definition AnyLoader : loader := LEnum ["Any"].
(** line 27495 *)
Definition RecordFieldLoader : loader := LRecord "schema_salad.metaschema.RecordField" None None.
(** line 27498 *)
Definition RecordSchemaLoader : loader := LRecord "schema_salad.metaschema.RecordSchema" None None.
(** line 27501 *)
Definition EnumSchemaLoader : loader := LRecord "schema_salad.metaschema.EnumSchema" None None.
(** line 27502 *)
Definition ArraySchemaLoader : loader := LRecord "schema_salad.metaschema.ArraySchema" None None.
(** line 27505 *)
Definition MapSchemaLoader : loader := LRecord "schema_salad.metaschema.MapSchema" None None.
(** line 27506 *)
Definition UnionSchemaLoader : loader := LRecord "schema_salad.metaschema.UnionSchema" None None.
(** line 27509 *)
Definition CWLTypeLoader : loader := LEnum ["null"; "boolean"; "int"; "long"; "float"; "double"; "string"; "File"; "Directory"].
(** line 27530 *)
Definition CWLArraySchemaLoader : loader := LRecord "CWLArraySchema" None None.
(** line 27531 *)
Definition CWLRecordFieldLoader : loader := LRecord "CWLRecordField" None None.
(** line 27532 *)
Definition CWLRecordSchemaLoader : loader := LRecord "CWLRecordSchema" None None.
(** line 27533 *)
Definition FileLoader : loader := LRecord "File" None None.
(** line 27534 *)
Definition DirectoryLoader : loader := LRecord "Directory" None None.
(** line 27536 *)
Definition union_of_None_type_or_CWLObjectTypeLoader : loader := LUnion [None_type; (LProxy "CWLObjectTypeLoader")].
(** line 27542 *)
Definition array_of_union_of_None_type_or_CWLObjectTypeLoader : loader := LArray union_of_None_type_or_CWLObjectTypeLoader.
(** line 27545 *)
Definition map_of_union_of_None_type_or_CWLObjectTypeLoader : loader := LMap union_of_None_type_or_CWLObjectTypeLoader None None.
(** line 27548 *)
Definition InlineJavascriptRequirementLoader : loader := LRecord "InlineJavascriptRequirement" None None.
(** line 27551 *)
Definition SchemaDefRequirementLoader : loader := LRecord "SchemaDefRequirement" None None.
(** line 27552 *)
Definition LoadListingRequirementLoader : loader := LRecord "LoadListingRequirement" None None.
(** line 27553 *)
Definition DockerRequirementLoader : loader := LRecord "DockerRequirement" None None.
(** line 27554 *)
Definition SoftwareRequirementLoader : loader := LRecord "SoftwareRequirement" None None.
(** line 27555 *)
Definition InitialWorkDirRequirementLoader : loader := LRecord "InitialWorkDirRequirement" None None.
(** line 27558 *)
Definition EnvVarRequirementLoader : loader := LRecord "EnvVarRequirement" None None.
(** line 27559 *)
Definition ShellCommandRequirementLoader : loader := LRecord "ShellCommandRequirement" None None.
(** line 27562 *)
Definition ResourceRequirementLoader : loader := LRecord "ResourceRequirement" None None.
(** line 27563 *)
Definition WorkReuseLoader : loader := LRecord "WorkReuse" None None.
(** line 27564 *)
Definition NetworkAccessLoader : loader := LRecord "NetworkAccess" None None.
(** line 27565 *)
Definition InplaceUpdateRequirementLoader : loader := LRecord "InplaceUpdateRequirement" None None.
(** line 27568 *)
Definition ToolTimeLimitLoader : loader := LRecord "ToolTimeLimit" None None.
(** line 27569 *)
Definition SubworkflowFeatureRequirementLoader : loader := LRecord "SubworkflowFeatureRequirement" None None.
(** line 27572 *)
Definition ScatterFeatureRequirementLoader : loader := LRecord "ScatterFeatureRequirement" None None.
(** line 27575 *)
Definition MultipleInputFeatureRequirementLoader : loader := LRecord "MultipleInputFeatureRequirement" None None.
(** line 27578 *)
Definition StepInputExpressionRequirementLoader : loader := LRecord "StepInputExpressionRequirement" None None.
(** line 27581 *)
Definition SecretsLoader : loader := LRecord "Secrets" None None.
(** line 27582 *)
Definition MPIRequirementLoader : loader := LRecord "MPIRequirement" None None.
(** line 27583 *)
Definition CUDARequirementLoader : loader := LRecord "CUDARequirement" None None.
(** line 27584 *)
Definition LoopLoader : loader := LRecord "Loop" None None.
(** line 27585 *)
Definition ShmSizeLoader : loader := LRecord "ShmSize" None None.
(** line 27586 *)
Definition union_of_InlineJavascriptRequirementLoader_or_SchemaDefRequirementLoader_or_LoadListingRequirementLoader_or_DockerRequirementLoader_or_SoftwareRequirementLoader_or_InitialWorkDirRequirementLoader_or_EnvVarRequirementLoader_or_ShellCommandRequirementLoader_or_ResourceRequirementLoader_or_WorkReuseLoader_or_NetworkAccessLoader_or_InplaceUpdateRequirementLoader_or_ToolTimeLimitLoader_or_SubworkflowFeatureRequirementLoader_or_ScatterFeatureRequirementLoader_or_MultipleInputFeatureRequirementLoader_or_StepInputExpressionRequirementLoader_or_SecretsLoader_or_MPIRequirementLoader_or_CUDARequirementLoader_or_LoopLoader_or_ShmSizeLoader : loader := LUnion [InlineJavascriptRequirementLoader; SchemaDefRequirementLoader; LoadListingRequirementLoader; DockerRequirementLoader; SoftwareRequirementLoader; InitialWorkDirRequirementLoader; EnvVarRequirementLoader; ShellCommandRequirementLoader; ResourceRequirementLoader; WorkReuseLoader; NetworkAccessLoader; InplaceUpdateRequirementLoader; ToolTimeLimitLoader; SubworkflowFeatureRequirementLoader; ScatterFeatureRequirementLoader; MultipleInputFeatureRequirementLoader; StepInputExpressionRequirementLoader; SecretsLoader; MPIRequirementLoader; CUDARequirementLoader; LoopLoader; ShmSizeLoader].
(** line 27614 *)
Definition ProcessRequirementProxyLoader : loader := LProxy "ProcessRequirementLoader".
(** line 27615 *)
Definition array_of_ProcessRequirement : loader := LArray ProcessRequirementProxyLoader.
(** line 27616 *)
Definition union_of_None_type_or_array_of_ProcessRequirement_or_CWLObjectTypeLoader : loader := LUnion [None_type; array_of_ProcessRequirement; (LProxy "CWLObjectTypeLoader")].
(** line 27625 *)
Definition map_of_union_of_None_type_or_array_of_ProcessRequirement_or_CWLObjectTypeLoader : loader := LMap union_of_None_type_or_array_of_ProcessRequirement_or_CWLObjectTypeLoader (Some "@list") (Some true).
(** line 27636 *)
Definition CWLVersionLoader : loader := LEnum ["v1.2"].
(** line 27640 *)
Definition LabeledProxyLoader : loader := LProxy "LabeledLoader".
(** line 27641 *)
Definition IdentifiedProxyLoader : loader := LProxy "IdentifiedLoader".
(** line 27642 *)
Definition IdentifierRequiredProxyLoader : loader := LProxy "IdentifierRequiredLoader".
(** line 27643 *)
Definition LoadListingEnumLoader : loader := LEnum ["no_listing"; "shallow_listing"; "deep_listing"].
(** line 27660 *)
Definition LoadContentsProxyLoader : loader := LProxy "LoadContentsLoader".
(** line 27661 *)
Definition FieldBaseProxyLoader : loader := LProxy "FieldBaseLoader".
(** line 27662 *)
Definition InputFormatProxyLoader : loader := LProxy "InputFormatLoader".
(** line 27663 *)
Definition OutputFormatProxyLoader : loader := LProxy "OutputFormatLoader".
(** line 27664 *)
Definition ParameterProxyLoader : loader := LProxy "ParameterLoader".
(** line 27665 *)
Definition ExpressionLoader : loader := LExpression.
(** line 27666 *)
Definition InputBindingLoader : loader := LRecord "InputBinding" None None.
(** line 27667 *)
Definition IOSchemaProxyLoader : loader := LProxy "IOSchemaLoader".
(** line 27668 *)
Definition InputSchemaProxyLoader : loader := LProxy "InputSchemaLoader".
(** line 27669 *)
Definition OutputSchemaProxyLoader : loader := LProxy "OutputSchemaLoader".
(** line 27670 *)
Definition InputRecordFieldLoader : loader := LRecord "InputRecordField" None None.
(** line 27671 *)
Definition InputRecordSchemaLoader : loader := LRecord "InputRecordSchema" None None.
(** line 27672 *)
Definition InputEnumSchemaLoader : loader := LRecord "InputEnumSchema" None None.
(** line 27673 *)
Definition InputArraySchemaLoader : loader := LRecord "InputArraySchema" None None.
(** line 27674 *)
Definition OutputRecordFieldLoader : loader := LRecord "OutputRecordField" None None.
(** line 27675 *)
Definition OutputRecordSchemaLoader : loader := LRecord "OutputRecordSchema" None None.
(** line 27676 *)
Definition OutputEnumSchemaLoader : loader := LRecord "OutputEnumSchema" None None.
(** line 27677 *)
Definition OutputArraySchemaLoader : loader := LRecord "OutputArraySchema" None None.
(** line 27678 *)
Definition InputParameterProxyLoader : loader := LProxy "InputParameterLoader".
(** line 27679 *)
Definition OutputParameterProxyLoader : loader := LProxy "OutputParameterLoader".
(** line 27680 *)
Definition ProcessProxyLoader : loader := LProxy "ProcessLoader".
(** line 27681 *)
Definition CommandInputSchemaProxyLoader : loader := LProxy "CommandInputSchemaLoader".
(** line 27682 *)
Definition SecondaryFileSchemaLoader : loader := LRecord "SecondaryFileSchema" None None.
(** line 27683 *)
Definition EnvironmentDefLoader : loader := LRecord "EnvironmentDef" None None.
(** line 27684 *)
Definition CommandLineBindingLoader : loader := LRecord "CommandLineBinding" None None.
(** line 27685 *)
Definition CommandOutputBindingLoader : loader := LRecord "CommandOutputBinding" None None.
(** line 27686 *)
Definition CommandLineBindableProxyLoader : loader := LProxy "CommandLineBindableLoader".
(** line 27687 *)
Definition CommandInputRecordFieldLoader : loader := LRecord "CommandInputRecordField" None None.
(** line 27690 *)
Definition CommandInputRecordSchemaLoader : loader := LRecord "CommandInputRecordSchema" None None.
(** line 27693 *)
Definition CommandInputEnumSchemaLoader : loader := LRecord "CommandInputEnumSchema" None None.
(** line 27694 *)
Definition CommandInputArraySchemaLoader : loader := LRecord "CommandInputArraySchema" None None.
(** line 27697 *)
Definition CommandOutputRecordFieldLoader : loader := LRecord "CommandOutputRecordField" None None.
(** line 27700 *)
Definition CommandOutputRecordSchemaLoader : loader := LRecord "CommandOutputRecordSchema" None None.
(** line 27703 *)
Definition CommandOutputEnumSchemaLoader : loader := LRecord "CommandOutputEnumSchema" None None.
(** line 27706 *)
Definition CommandOutputArraySchemaLoader : loader := LRecord "CommandOutputArraySchema" None None.
(** line 27709 *)
Definition CommandInputParameterLoader : loader := LRecord "CommandInputParameter" None None.
(** line 27710 *)
Definition CommandOutputParameterLoader : loader := LRecord "CommandOutputParameter" None None.
(** line 27711 *)
Definition stdinLoader : loader := LEnum ["stdin"].
(** line 27735 *)
Definition stdoutLoader : loader := LEnum ["stdout"].
(** line 27789 *)
Definition stderrLoader : loader := LEnum ["stderr"].
(** line 27840 *)
Definition CommandLineToolLoader : loader := LRecord "CommandLineTool" None None.
(** line 27841 *)
Definition SoftwarePackageLoader : loader := LRecord "SoftwarePackage" None None.
(** line 27842 *)
Definition DirentLoader : loader := LRecord "Dirent" None None.
(** line 27843 *)
Definition ExpressionToolOutputParameterLoader : loader := LRecord "ExpressionToolOutputParameter" None None.
(** line 27846 *)
Definition WorkflowInputParameterLoader : loader := LRecord "WorkflowInputParameter" None None.
(** line 27847 *)
Definition ExpressionToolLoader : loader := LRecord "ExpressionTool" None None.
(** line 27848 *)
Definition LinkMergeMethodLoader : loader := LEnum ["merge_nested"; "merge_flattened"].
(** line 27858 *)
Definition PickValueMethodLoader : loader := LEnum ["first_non_null"; "the_only_non_null"; "all_non_null"].
(** line 27869 *)
Definition WorkflowOutputParameterLoader : loader := LRecord "WorkflowOutputParameter" None None.
(** line 27872 *)
Definition SinkProxyLoader : loader := LProxy "SinkLoader".
(** line 27873 *)
Definition WorkflowStepInputLoader : loader := LRecord "WorkflowStepInput" None None.
(** line 27874 *)
Definition WorkflowStepOutputLoader : loader := LRecord "WorkflowStepOutput" None None.
(** line 27875 *)
Definition ScatterMethodLoader : loader := LEnum ["dotproduct"; "nested_crossproduct"; "flat_crossproduct"].
(** line 27886 *)
Definition WorkflowStepLoader : loader := LRecord "WorkflowStep" None None.
(** line 27887 *)
Definition WorkflowLoader : loader := LRecord "Workflow" None None.
(** line 27888 *)
Definition OperationInputParameterLoader : loader := LRecord "OperationInputParameter" None None.
(** line 27891 *)
Definition OperationOutputParameterLoader : loader := LRecord "OperationOutputParameter" None None.
(** line 27894 *)
Definition OperationLoader : loader := LRecord "Operation" None None.
(** line 27895 *)
Definition ProcessGeneratorLoader : loader := LRecord "ProcessGenerator" None None.
(** line 27896 *)
Definition LoopInputLoader : loader := LRecord "LoopInput" None None.
(** line 27897 *)
Definition array_of_strtype : loader := LArray strtype.
(** line 27898 *)
Definition union_of_None_type_or_strtype_or_array_of_strtype : loader := LUnion [None_type; strtype; array_of_strtype].
(** line 27905 *)
Definition uri_strtype_True_False_None_None : loader := LUri strtype true false None None.
(** line 27906 *)
Definition union_of_PrimitiveTypeLoader_or_RecordSchemaLoader_or_EnumSchemaLoader_or_ArraySchemaLoader_or_MapSchemaLoader_or_UnionSchemaLoader_or_strtype : loader := LUnion [PrimitiveTypeLoader; RecordSchemaLoader; EnumSchemaLoader; ArraySchemaLoader; MapSchemaLoader; UnionSchemaLoader; strtype].
(** line 27919 *)
Definition array_of_union_of_PrimitiveTypeLoader_or_RecordSchemaLoader_or_EnumSchemaLoader_or_ArraySchemaLoader_or_MapSchemaLoader_or_UnionSchemaLoader_or_strtype : loader := LArray union_of_PrimitiveTypeLoader_or_RecordSchemaLoader_or_EnumSchemaLoader_or_ArraySchemaLoader_or_MapSchemaLoader_or_UnionSchemaLoader_or_strtype.
(** line 27924 *)
Definition union_of_PrimitiveTypeLoader_or_RecordSchemaLoader_or_EnumSchemaLoader_or_ArraySchemaLoader_or_MapSchemaLoader_or_UnionSchemaLoader_or_strtype_or_array_of_union_of_PrimitiveTypeLoader_or_RecordSchemaLoader_or_EnumSchemaLoader_or_ArraySchemaLoader_or_MapSchemaLoader_or_UnionSchemaLoader_or_strtype : loader := LUnion [PrimitiveTypeLoader; RecordSchemaLoader; EnumSchemaLoader; ArraySchemaLoader; MapSchemaLoader; UnionSchemaLoader; strtype; array_of_union_of_PrimitiveTypeLoader_or_RecordSchemaLoader_or_EnumSchemaLoader_or_ArraySchemaLoader_or_MapSchemaLoader_or_UnionSchemaLoader_or_strtype].
(** line 27938 *)
Definition typedsl_union_of_PrimitiveTypeLoader_or_RecordSchemaLoader_or_EnumSchemaLoader_or_ArraySchemaLoader_or_MapSchemaLoader_or_UnionSchemaLoader_or_strtype_or_array_of_union_of_PrimitiveTypeLoader_or_RecordSchemaLoader_or_EnumSchemaLoader_or_ArraySchemaLoader_or_MapSchemaLoader_or_UnionSchemaLoader_or_strtype_2 : loader := LTypeDSL union_of_PrimitiveTypeLoader_or_RecordSchemaLoader_or_EnumSchemaLoader_or_ArraySchemaLoader_or_MapSchemaLoader_or_UnionSchemaLoader_or_strtype_or_array_of_union_of_PrimitiveTypeLoader_or_RecordSchemaLoader_or_EnumSchemaLoader_or_ArraySchemaLoader_or_MapSchemaLoader_or_UnionSchemaLoader_or_strtype (Some 2) "v1.1".
(** line 27945 *)
Definition array_of_RecordFieldLoader : loader := LArray RecordFieldLoader.
(** line 27946 *)
Definition union_of_None_type_or_array_of_RecordFieldLoader : loader := LUnion [None_type; array_of_RecordFieldLoader].
(** line 27952 *)
Definition idmap_fields_union_of_None_type_or_array_of_RecordFieldLoader : loader := LIdMap union_of_None_type_or_array_of_RecordFieldLoader "name" (Some "type").
(** line 27955 *)
Definition Record_nameLoader : loader := LEnum ["record"].
(** line 27956 *)
Definition typedsl_Record_nameLoader_2 : loader := LTypeDSL Record_nameLoader (Some 2) "v1.1".
(** line 27957 *)
Definition union_of_None_type_or_strtype : loader := LUnion [None_type; strtype].
(** line 27963 *)
Definition uri_union_of_None_type_or_strtype_True_False_None_None : loader := LUri union_of_None_type_or_strtype true false None None.
(** line 27966 *)
Definition uri_array_of_strtype_True_False_None_None : loader := LUri array_of_strtype true false None None.
(** line 27969 *)
Definition Enum_nameLoader : loader := LEnum ["enum"].
(** line 27970 *)
Definition typedsl_Enum_nameLoader_2 : loader := LTypeDSL Enum_nameLoader (Some 2) "v1.1".
(** line 27971 *)
Definition uri_union_of_PrimitiveTypeLoader_or_RecordSchemaLoader_or_EnumSchemaLoader_or_ArraySchemaLoader_or_MapSchemaLoader_or_UnionSchemaLoader_or_strtype_or_array_of_union_of_PrimitiveTypeLoader_or_RecordSchemaLoader_or_EnumSchemaLoader_or_ArraySchemaLoader_or_MapSchemaLoader_or_UnionSchemaLoader_or_strtype_False_True_2_None : loader := LUri union_of_PrimitiveTypeLoader_or_RecordSchemaLoader_or_EnumSchemaLoader_or_ArraySchemaLoader_or_MapSchemaLoader_or_UnionSchemaLoader_or_strtype_or_array_of_union_of_PrimitiveTypeLoader_or_RecordSchemaLoader_or_EnumSchemaLoader_or_ArraySchemaLoader_or_MapSchemaLoader_or_UnionSchemaLoader_or_strtype false true (Some 2) None.
(** line 27980 *)
Definition Array_nameLoader : loader := LEnum ["array"].
(** line 27981 *)
Definition typedsl_Array_nameLoader_2 : loader := LTypeDSL Array_nameLoader (Some 2) "v1.1".
(** line 27982 *)
Definition Map_nameLoader : loader := LEnum ["map"].
(** line 27983 *)
Definition typedsl_Map_nameLoader_2 : loader := LTypeDSL Map_nameLoader (Some 2) "v1.1".
(** line 27984 *)
Definition Union_nameLoader : loader := LEnum ["union"].
(** line 27985 *)
Definition typedsl_Union_nameLoader_2 : loader := LTypeDSL Union_nameLoader (Some 2) "v1.1".
(** line 27986 *)
Definition union_of_PrimitiveTypeLoader_or_CWLRecordSchemaLoader_or_EnumSchemaLoader_or_CWLArraySchemaLoader_or_strtype : loader := LUnion [PrimitiveTypeLoader; CWLRecordSchemaLoader; EnumSchemaLoader; CWLArraySchemaLoader; strtype].
(** line 27997 *)
Definition array_of_union_of_PrimitiveTypeLoader_or_CWLRecordSchemaLoader_or_EnumSchemaLoader_or_CWLArraySchemaLoader_or_strtype : loader := LArray union_of_PrimitiveTypeLoader_or_CWLRecordSchemaLoader_or_EnumSchemaLoader_or_CWLArraySchemaLoader_or_strtype.
(** line 28002 *)
Definition union_of_PrimitiveTypeLoader_or_CWLRecordSchemaLoader_or_EnumSchemaLoader_or_CWLArraySchemaLoader_or_strtype_or_array_of_union_of_PrimitiveTypeLoader_or_CWLRecordSchemaLoader_or_EnumSchemaLoader_or_CWLArraySchemaLoader_or_strtype : loader := LUnion [PrimitiveTypeLoader; CWLRecordSchemaLoader; EnumSchemaLoader; CWLArraySchemaLoader; strtype; array_of_union_of_PrimitiveTypeLoader_or_CWLRecordSchemaLoader_or_EnumSchemaLoader_or_CWLArraySchemaLoader_or_strtype].
(** line 28014 *)
Definition uri_union_of_PrimitiveTypeLoader_or_CWLRecordSchemaLoader_or_EnumSchemaLoader_or_CWLArraySchemaLoader_or_strtype_or_array_of_union_of_PrimitiveTypeLoader_or_CWLRecordSchemaLoader_or_EnumSchemaLoader_or_CWLArraySchemaLoader_or_strtype_False_True_2_None : loader := LUri union_of_PrimitiveTypeLoader_or_CWLRecordSchemaLoader_or_EnumSchemaLoader_or_CWLArraySchemaLoader_or_strtype_or_array_of_union_of_PrimitiveTypeLoader_or_CWLRecordSchemaLoader_or_EnumSchemaLoader_or_CWLArraySchemaLoader_or_strtype false true (Some 2) None.
(** line 28023 *)
Definition typedsl_union_of_PrimitiveTypeLoader_or_CWLRecordSchemaLoader_or_EnumSchemaLoader_or_CWLArraySchemaLoader_or_strtype_or_array_of_union_of_PrimitiveTypeLoader_or_CWLRecordSchemaLoader_or_EnumSchemaLoader_or_CWLArraySchemaLoader_or_strtype_2 : loader := LTypeDSL union_of_PrimitiveTypeLoader_or_CWLRecordSchemaLoader_or_EnumSchemaLoader_or_CWLArraySchemaLoader_or_strtype_or_array_of_union_of_PrimitiveTypeLoader_or_CWLRecordSchemaLoader_or_EnumSchemaLoader_or_CWLArraySchemaLoader_or_strtype (Some 2) "v1.1".
(** line 28030 *)
Definition array_of_CWLRecordFieldLoader : loader := LArray CWLRecordFieldLoader.
(** line 28031 *)
Definition union_of_None_type_or_array_of_CWLRecordFieldLoader : loader := LUnion [None_type; array_of_CWLRecordFieldLoader].
(** line 28037 *)
Definition idmap_fields_union_of_None_type_or_array_of_CWLRecordFieldLoader : loader := LIdMap union_of_None_type_or_array_of_CWLRecordFieldLoader "name" (Some "type").
(** line 28040 *)
Definition File_classLoader : loader := LEnum ["File"].
(** line 28041 *)
Definition uri_File_classLoader_False_True_None_None : loader := LUri File_classLoader false true None None.
(** line 28044 *)
Definition uri_union_of_None_type_or_strtype_False_False_None_None : loader := LUri union_of_None_type_or_strtype false false None None.
(** line 28047 *)
Definition union_of_None_type_or_inttype : loader := LUnion [None_type; inttype].
(** line 28053 *)
Definition union_of_FileLoader_or_DirectoryLoader : loader := LUnion [FileLoader; DirectoryLoader].
(** line 28059 *)
Definition array_of_union_of_FileLoader_or_DirectoryLoader : loader := LArray union_of_FileLoader_or_DirectoryLoader.
(** line 28062 *)
Definition union_of_None_type_or_array_of_union_of_FileLoader_or_DirectoryLoader : loader := LUnion [None_type; array_of_union_of_FileLoader_or_DirectoryLoader].
(** line 28070 *)
Definition secondaryfilesdsl_union_of_None_type_or_array_of_union_of_FileLoader_or_DirectoryLoader : loader := LUnion [(LSecondary union_of_None_type_or_array_of_union_of_FileLoader_or_DirectoryLoader); union_of_None_type_or_array_of_union_of_FileLoader_or_DirectoryLoader].
(** line 28080 *)
Definition uri_union_of_None_type_or_strtype_True_False_None_True : loader := LUri union_of_None_type_or_strtype true false None (Some true).
(** line 28083 *)
Definition Directory_classLoader : loader := LEnum ["Directory"].
(** line 28084 *)
Definition uri_Directory_classLoader_False_True_None_None : loader := LUri Directory_classLoader false true None None.
(** line 28087 *)
Definition union_of_None_type_or_booltype : loader := LUnion [None_type; booltype].
(** line 28093 *)
Definition union_of_None_type_or_LoadListingEnumLoader : loader := LUnion [None_type; LoadListingEnumLoader].
(** line 28099 *)
Definition array_of_SecondaryFileSchemaLoader : loader := LArray SecondaryFileSchemaLoader.
(** line 28100 *)
Definition union_of_None_type_or_SecondaryFileSchemaLoader_or_array_of_SecondaryFileSchemaLoader : loader := LUnion [None_type; SecondaryFileSchemaLoader; array_of_SecondaryFileSchemaLoader].
(** line 28109 *)
Definition secondaryfilesdsl_union_of_None_type_or_SecondaryFileSchemaLoader_or_array_of_SecondaryFileSchemaLoader : loader := LUnion [(LSecondary union_of_None_type_or_SecondaryFileSchemaLoader_or_array_of_SecondaryFileSchemaLoader); union_of_None_type_or_SecondaryFileSchemaLoader_or_array_of_SecondaryFileSchemaLoader].
(** line 28119 *)
Definition union_of_None_type_or_strtype_or_array_of_strtype_or_ExpressionLoader : loader := LUnion [None_type; strtype; array_of_strtype; ExpressionLoader].
(** line 28129 *)
Definition uri_union_of_None_type_or_strtype_or_array_of_strtype_or_ExpressionLoader_True_False_None_True : loader := LUri union_of_None_type_or_strtype_or_array_of_strtype_or_ExpressionLoader true false None (Some true).
(** line 28138 *)
Definition union_of_None_type_or_strtype_or_ExpressionLoader : loader := LUnion [None_type; strtype; ExpressionLoader].
(** line 28145 *)
Definition uri_union_of_None_type_or_strtype_or_ExpressionLoader_True_False_None_True : loader := LUri union_of_None_type_or_strtype_or_ExpressionLoader true false None (Some true).
(** line 28150 *)
Definition union_of_CWLTypeLoader_or_InputRecordSchemaLoader_or_InputEnumSchemaLoader_or_InputArraySchemaLoader_or_strtype : loader := LUnion [CWLTypeLoader; InputRecordSchemaLoader; InputEnumSchemaLoader; InputArraySchemaLoader; strtype].
(** line 28161 *)
Definition array_of_union_of_CWLTypeLoader_or_InputRecordSchemaLoader_or_InputEnumSchemaLoader_or_InputArraySchemaLoader_or_strtype : loader := LArray union_of_CWLTypeLoader_or_InputRecordSchemaLoader_or_InputEnumSchemaLoader_or_InputArraySchemaLoader_or_strtype.
(** line 28166 *)
Definition union_of_CWLTypeLoader_or_InputRecordSchemaLoader_or_InputEnumSchemaLoader_or_InputArraySchemaLoader_or_strtype_or_array_of_union_of_CWLTypeLoader_or_InputRecordSchemaLoader_or_InputEnumSchemaLoader_or_InputArraySchemaLoader_or_strtype : loader := LUnion [CWLTypeLoader; InputRecordSchemaLoader; InputEnumSchemaLoader; InputArraySchemaLoader; strtype; array_of_union_of_CWLTypeLoader_or_InputRecordSchemaLoader_or_InputEnumSchemaLoader_or_InputArraySchemaLoader_or_strtype].
(** line 28178 *)
Definition typedsl_union_of_CWLTypeLoader_or_InputRecordSchemaLoader_or_InputEnumSchemaLoader_or_InputArraySchemaLoader_or_strtype_or_array_of_union_of_CWLTypeLoader_or_InputRecordSchemaLoader_or_InputEnumSchemaLoader_or_InputArraySchemaLoader_or_strtype_2 : loader := LTypeDSL union_of_CWLTypeLoader_or_InputRecordSchemaLoader_or_InputEnumSchemaLoader_or_InputArraySchemaLoader_or_strtype_or_array_of_union_of_CWLTypeLoader_or_InputRecordSchemaLoader_or_InputEnumSchemaLoader_or_InputArraySchemaLoader_or_strtype (Some 2) "v1.1".
(** line 28185 *)
Definition array_of_InputRecordFieldLoader : loader := LArray InputRecordFieldLoader.
(** line 28186 *)
Definition union_of_None_type_or_array_of_InputRecordFieldLoader : loader := LUnion [None_type; array_of_InputRecordFieldLoader].
(** line 28192 *)
Definition idmap_fields_union_of_None_type_or_array_of_InputRecordFieldLoader : loader := LIdMap union_of_None_type_or_array_of_InputRecordFieldLoader "name" (Some "type").
(** line 28195 *)
Definition uri_union_of_CWLTypeLoader_or_InputRecordSchemaLoader_or_InputEnumSchemaLoader_or_InputArraySchemaLoader_or_strtype_or_array_of_union_of_CWLTypeLoader_or_InputRecordSchemaLoader_or_InputEnumSchemaLoader_or_InputArraySchemaLoader_or_strtype_False_True_2_None : loader := LUri union_of_CWLTypeLoader_or_InputRecordSchemaLoader_or_InputEnumSchemaLoader_or_InputArraySchemaLoader_or_strtype_or_array_of_union_of_CWLTypeLoader_or_InputRecordSchemaLoader_or_InputEnumSchemaLoader_or_InputArraySchemaLoader_or_strtype false true (Some 2) None.
(** line 28204 *)
Definition union_of_CWLTypeLoader_or_OutputRecordSchemaLoader_or_OutputEnumSchemaLoader_or_OutputArraySchemaLoader_or_strtype : loader := LUnion [CWLTypeLoader; OutputRecordSchemaLoader; OutputEnumSchemaLoader; OutputArraySchemaLoader; strtype].
(** line 28215 *)
Definition array_of_union_of_CWLTypeLoader_or_OutputRecordSchemaLoader_or_OutputEnumSchemaLoader_or_OutputArraySchemaLoader_or_strtype : loader := LArray union_of_CWLTypeLoader_or_OutputRecordSchemaLoader_or_OutputEnumSchemaLoader_or_OutputArraySchemaLoader_or_strtype.
(** line 28220 *)
Definition union_of_CWLTypeLoader_or_OutputRecordSchemaLoader_or_OutputEnumSchemaLoader_or_OutputArraySchemaLoader_or_strtype_or_array_of_union_of_CWLTypeLoader_or_OutputRecordSchemaLoader_or_OutputEnumSchemaLoader_or_OutputArraySchemaLoader_or_strtype : loader := LUnion [CWLTypeLoader; OutputRecordSchemaLoader; OutputEnumSchemaLoader; OutputArraySchemaLoader; strtype; array_of_union_of_CWLTypeLoader_or_OutputRecordSchemaLoader_or_OutputEnumSchemaLoader_or_OutputArraySchemaLoader_or_strtype].
(** line 28232 *)
Definition typedsl_union_of_CWLTypeLoader_or_OutputRecordSchemaLoader_or_OutputEnumSchemaLoader_or_OutputArraySchemaLoader_or_strtype_or_array_of_union_of_CWLTypeLoader_or_OutputRecordSchemaLoader_or_OutputEnumSchemaLoader_or_OutputArraySchemaLoader_or_strtype_2 : loader := LTypeDSL union_of_CWLTypeLoader_or_OutputRecordSchemaLoader_or_OutputEnumSchemaLoader_or_OutputArraySchemaLoader_or_strtype_or_array_of_union_of_CWLTypeLoader_or_OutputRecordSchemaLoader_or_OutputEnumSchemaLoader_or_OutputArraySchemaLoader_or_strtype (Some 2) "v1.1".
(** line 28239 *)
Definition array_of_OutputRecordFieldLoader : loader := LArray OutputRecordFieldLoader.
(** line 28240 *)
Definition union_of_None_type_or_array_of_OutputRecordFieldLoader : loader := LUnion [None_type; array_of_OutputRecordFieldLoader].
(** line 28246 *)
Definition idmap_fields_union_of_None_type_or_array_of_OutputRecordFieldLoader : loader := LIdMap union_of_None_type_or_array_of_OutputRecordFieldLoader "name" (Some "type").
(** line 28249 *)
Definition uri_union_of_CWLTypeLoader_or_OutputRecordSchemaLoader_or_OutputEnumSchemaLoader_or_OutputArraySchemaLoader_or_strtype_or_array_of_union_of_CWLTypeLoader_or_OutputRecordSchemaLoader_or_OutputEnumSchemaLoader_or_OutputArraySchemaLoader_or_strtype_False_True_2_None : loader := LUri union_of_CWLTypeLoader_or_OutputRecordSchemaLoader_or_OutputEnumSchemaLoader_or_OutputArraySchemaLoader_or_strtype_or_array_of_union_of_CWLTypeLoader_or_OutputRecordSchemaLoader_or_OutputEnumSchemaLoader_or_OutputArraySchemaLoader_or_strtype false true (Some 2) None.
(** line 28258 *)
Definition union_of_CommandInputParameterLoader_or_WorkflowInputParameterLoader_or_OperationInputParameterLoader : loader := LUnion [CommandInputParameterLoader; WorkflowInputParameterLoader; OperationInputParameterLoader].
(** line 28267 *)
Definition array_of_InputParameter : loader := LArray InputParameterProxyLoader.
(** line 28268 *)
Definition idmap_inputs_array_of_InputParameter : loader := LIdMap array_of_InputParameter "id" (Some "type").
(** line 28271 *)
Definition union_of_CommandOutputParameterLoader_or_ExpressionToolOutputParameterLoader_or_WorkflowOutputParameterLoader_or_OperationOutputParameterLoader : loader := LUnion [CommandOutputParameterLoader; ExpressionToolOutputParameterLoader; WorkflowOutputParameterLoader; OperationOutputParameterLoader].
(** line 28281 *)
Definition array_of_OutputParameter : loader := LArray OutputParameterProxyLoader.
(** line 28282 *)
Definition idmap_outputs_array_of_OutputParameter : loader := LIdMap array_of_OutputParameter "id" (Some "type").
(** line 28285 *)
Definition union_of_None_type_or_array_of_ProcessRequirement : loader := LUnion [None_type; array_of_ProcessRequirement].
(** line 28291 *)
Definition idmap_requirements_union_of_None_type_or_array_of_ProcessRequirement : loader := LIdMap union_of_None_type_or_array_of_ProcessRequirement "class" (Some "None").
(** line 28294 *)
Definition union_of_InlineJavascriptRequirementLoader_or_SchemaDefRequirementLoader_or_LoadListingRequirementLoader_or_DockerRequirementLoader_or_SoftwareRequirementLoader_or_InitialWorkDirRequirementLoader_or_EnvVarRequirementLoader_or_ShellCommandRequirementLoader_or_ResourceRequirementLoader_or_WorkReuseLoader_or_NetworkAccessLoader_or_InplaceUpdateRequirementLoader_or_ToolTimeLimitLoader_or_SubworkflowFeatureRequirementLoader_or_ScatterFeatureRequirementLoader_or_MultipleInputFeatureRequirementLoader_or_StepInputExpressionRequirementLoader_or_SecretsLoader_or_MPIRequirementLoader_or_CUDARequirementLoader_or_LoopLoader_or_ShmSizeLoader_or_Any_type : loader := LUnion [InlineJavascriptRequirementLoader; SchemaDefRequirementLoader; LoadListingRequirementLoader; DockerRequirementLoader; SoftwareRequirementLoader; InitialWorkDirRequirementLoader; EnvVarRequirementLoader; ShellCommandRequirementLoader; ResourceRequirementLoader; WorkReuseLoader; NetworkAccessLoader; InplaceUpdateRequirementLoader; ToolTimeLimitLoader; SubworkflowFeatureRequirementLoader; ScatterFeatureRequirementLoader; MultipleInputFeatureRequirementLoader; StepInputExpressionRequirementLoader; SecretsLoader; MPIRequirementLoader; CUDARequirementLoader; LoopLoader; ShmSizeLoader; Any_type].
(** line 28323 *)
Definition array_of_union_of_InlineJavascriptRequirementLoader_or_SchemaDefRequirementLoader_or_LoadListingRequirementLoader_or_DockerRequirementLoader_or_SoftwareRequirementLoader_or_InitialWorkDirRequirementLoader_or_EnvVarRequirementLoader_or_ShellCommandRequirementLoader_or_ResourceRequirementLoader_or_WorkReuseLoader_or_NetworkAccessLoader_or_InplaceUpdateRequirementLoader_or_ToolTimeLimitLoader_or_SubworkflowFeatureRequirementLoader_or_ScatterFeatureRequirementLoader_or_MultipleInputFeatureRequirementLoader_or_StepInputExpressionRequirementLoader_or_SecretsLoader_or_MPIRequirementLoader_or_CUDARequirementLoader_or_LoopLoader_or_ShmSizeLoader_or_Any_type : loader := LArray union_of_InlineJavascriptRequirementLoader_or_SchemaDefRequirementLoader_or_LoadListingRequirementLoader_or_DockerRequirementLoader_or_SoftwareRequirementLoader_or_InitialWorkDirRequirementLoader_or_EnvVarRequirementLoader_or_ShellCommandRequirementLoader_or_ResourceRequirementLoader_or_WorkReuseLoader_or_NetworkAccessLoader_or_InplaceUpdateRequirementLoader_or_ToolTimeLimitLoader_or_SubworkflowFeatureRequirementLoader_or_ScatterFeatureRequirementLoader_or_MultipleInputFeatureRequirementLoader_or_StepInputExpressionRequirementLoader_or_SecretsLoader_or_MPIRequirementLoader_or_CUDARequirementLoader_or_LoopLoader_or_ShmSizeLoader_or_Any_type.
(** line 28328 *)
Definition union_of_None_type_or_array_of_union_of_InlineJavascriptRequirementLoader_or_SchemaDefRequirementLoader_or_LoadListingRequirementLoader_or_DockerRequirementLoader_or_SoftwareRequirementLoader_or_InitialWorkDirRequirementLoader_or_EnvVarRequirementLoader_or_ShellCommandRequirementLoader_or_ResourceRequirementLoader_or_WorkReuseLoader_or_NetworkAccessLoader_or_InplaceUpdateRequirementLoader_or_ToolTimeLimitLoader_or_SubworkflowFeatureRequirementLoader_or_ScatterFeatureRequirementLoader_or_MultipleInputFeatureRequirementLoader_or_StepInputExpressionRequirementLoader_or_SecretsLoader_or_MPIRequirementLoader_or_CUDARequirementLoader_or_LoopLoader_or_ShmSizeLoader_or_Any_type : loader := LUnion [None_type; array_of_union_of_InlineJavascriptRequirementLoader_or_SchemaDefRequirementLoader_or_LoadListingRequirementLoader_or_DockerRequirementLoader_or_SoftwareRequirementLoader_or_InitialWorkDirRequirementLoader_or_EnvVarRequirementLoader_or_ShellCommandRequirementLoader_or_ResourceRequirementLoader_or_WorkReuseLoader_or_NetworkAccessLoader_or_InplaceUpdateRequirementLoader_or_ToolTimeLimitLoader_or_SubworkflowFeatureRequirementLoader_or_ScatterFeatureRequirementLoader_or_MultipleInputFeatureRequirementLoader_or_StepInputExpressionRequirementLoader_or_SecretsLoader_or_MPIRequirementLoader_or_CUDARequirementLoader_or_LoopLoader_or_ShmSizeLoader_or_Any_type].
(** line 28336 *)
Definition idmap_hints_union_of_None_type_or_array_of_union_of_InlineJavascriptRequirementLoader_or_SchemaDefRequirementLoader_or_LoadListingRequirementLoader_or_DockerRequirementLoader_or_SoftwareRequirementLoader_or_InitialWorkDirRequirementLoader_or_EnvVarRequirementLoader_or_ShellCommandRequirementLoader_or_ResourceRequirementLoader_or_WorkReuseLoader_or_NetworkAccessLoader_or_InplaceUpdateRequirementLoader_or_ToolTimeLimitLoader_or_SubworkflowFeatureRequirementLoader_or_ScatterFeatureRequirementLoader_or_MultipleInputFeatureRequirementLoader_or_StepInputExpressionRequirementLoader_or_SecretsLoader_or_MPIRequirementLoader_or_CUDARequirementLoader_or_LoopLoader_or_ShmSizeLoader_or_Any_type : loader := LIdMap union_of_None_type_or_array_of_union_of_InlineJavascriptRequirementLoader_or_SchemaDefRequirementLoader_or_LoadListingRequirementLoader_or_DockerRequirementLoader_or_SoftwareRequirementLoader_or_InitialWorkDirRequirementLoader_or_EnvVarRequirementLoader_or_ShellCommandRequirementLoader_or_ResourceRequirementLoader_or_WorkReuseLoader_or_NetworkAccessLoader_or_InplaceUpdateRequirementLoader_or_ToolTimeLimitLoader_or_SubworkflowFeatureRequirementLoader_or_ScatterFeatureRequirementLoader_or_MultipleInputFeatureRequirementLoader_or_StepInputExpressionRequirementLoader_or_SecretsLoader_or_MPIRequirementLoader_or_CUDARequirementLoader_or_LoopLoader_or_ShmSizeLoader_or_Any_type "class" (Some "None").
(** line 28343 *)
Definition union_of_None_type_or_CWLVersionLoader : loader := LUnion [None_type; CWLVersionLoader].
(** line 28349 *)
Definition uri_union_of_None_type_or_CWLVersionLoader_False_True_None_None : loader := LUri union_of_None_type_or_CWLVersionLoader false true None None.
(** line 28352 *)
Definition union_of_None_type_or_array_of_strtype : loader := LUnion [None_type; array_of_strtype].
(** line 28358 *)
Definition uri_union_of_None_type_or_array_of_strtype_True_False_None_None : loader := LUri union_of_None_type_or_array_of_strtype true false None None.
(** line 28361 *)
Definition InlineJavascriptRequirement_classLoader : loader := LEnum ["InlineJavascriptRequirement"].
(** line 28364 *)
Definition uri_InlineJavascriptRequirement_classLoader_False_True_None_None : loader := LUri InlineJavascriptRequirement_classLoader false true None None.
(** line 28367 *)
Definition SchemaDefRequirement_classLoader : loader := LEnum ["SchemaDefRequirement"].
(** line 28370 *)
Definition uri_SchemaDefRequirement_classLoader_False_True_None_None : loader := LUri SchemaDefRequirement_classLoader false true None None.
(** line 28373 *)
Definition union_of_CommandInputRecordSchemaLoader_or_CommandInputEnumSchemaLoader_or_CommandInputArraySchemaLoader : loader := LUnion [CommandInputRecordSchemaLoader; CommandInputEnumSchemaLoader; CommandInputArraySchemaLoader].
(** line 28382 *)
Definition array_of_CommandInputSchema : loader := LArray CommandInputSchemaProxyLoader.
(** line 28383 *)
Definition union_of_strtype_or_ExpressionLoader : loader := LUnion [strtype; ExpressionLoader].
(** line 28389 *)
Definition union_of_None_type_or_booltype_or_ExpressionLoader : loader := LUnion [None_type; booltype; ExpressionLoader].
(** line 28396 *)
Definition LoadListingRequirement_classLoader : loader := LEnum ["LoadListingRequirement"].
(** line 28399 *)
Definition uri_LoadListingRequirement_classLoader_False_True_None_None : loader := LUri LoadListingRequirement_classLoader false true None None.
(** line 28402 *)
Definition union_of_None_type_or_inttype_or_ExpressionLoader : loader := LUnion [None_type; inttype; ExpressionLoader].
(** line 28409 *)
Definition union_of_None_type_or_strtype_or_ExpressionLoader_or_array_of_strtype : loader := LUnion [None_type; strtype; ExpressionLoader; array_of_strtype].
(** line 28419 *)
Definition union_of_None_type_or_ExpressionLoader : loader := LUnion [None_type; ExpressionLoader].
(** line 28425 *)
Definition union_of_None_type_or_CommandLineBindingLoader : loader := LUnion [None_type; CommandLineBindingLoader].
(** line 28431 *)
Definition union_of_CWLTypeLoader_or_CommandInputRecordSchemaLoader_or_CommandInputEnumSchemaLoader_or_CommandInputArraySchemaLoader_or_strtype : loader := LUnion [CWLTypeLoader; CommandInputRecordSchemaLoader; CommandInputEnumSchemaLoader; CommandInputArraySchemaLoader; strtype].
(** line 28442 *)
Definition array_of_union_of_CWLTypeLoader_or_CommandInputRecordSchemaLoader_or_CommandInputEnumSchemaLoader_or_CommandInputArraySchemaLoader_or_strtype : loader := LArray union_of_CWLTypeLoader_or_CommandInputRecordSchemaLoader_or_CommandInputEnumSchemaLoader_or_CommandInputArraySchemaLoader_or_strtype.
(** line 28447 *)
Definition union_of_CWLTypeLoader_or_CommandInputRecordSchemaLoader_or_CommandInputEnumSchemaLoader_or_CommandInputArraySchemaLoader_or_strtype_or_array_of_union_of_CWLTypeLoader_or_CommandInputRecordSchemaLoader_or_CommandInputEnumSchemaLoader_or_CommandInputArraySchemaLoader_or_strtype : loader := LUnion [CWLTypeLoader; CommandInputRecordSchemaLoader; CommandInputEnumSchemaLoader; CommandInputArraySchemaLoader; strtype; array_of_union_of_CWLTypeLoader_or_CommandInputRecordSchemaLoader_or_CommandInputEnumSchemaLoader_or_CommandInputArraySchemaLoader_or_strtype].
(** line 28459 *)
Definition typedsl_union_of_CWLTypeLoader_or_CommandInputRecordSchemaLoader_or_CommandInputEnumSchemaLoader_or_CommandInputArraySchemaLoader_or_strtype_or_array_of_union_of_CWLTypeLoader_or_CommandInputRecordSchemaLoader_or_CommandInputEnumSchemaLoader_or_CommandInputArraySchemaLoader_or_strtype_2 : loader := LTypeDSL union_of_CWLTypeLoader_or_CommandInputRecordSchemaLoader_or_CommandInputEnumSchemaLoader_or_CommandInputArraySchemaLoader_or_strtype_or_array_of_union_of_CWLTypeLoader_or_CommandInputRecordSchemaLoader_or_CommandInputEnumSchemaLoader_or_CommandInputArraySchemaLoader_or_strtype (Some 2) "v1.1".
(** line 28466 *)
Definition array_of_CommandInputRecordFieldLoader : loader := LArray CommandInputRecordFieldLoader.
(** line 28469 *)
Definition union_of_None_type_or_array_of_CommandInputRecordFieldLoader : loader := LUnion [None_type; array_of_CommandInputRecordFieldLoader].
(** line 28475 *)
Definition idmap_fields_union_of_None_type_or_array_of_CommandInputRecordFieldLoader : loader := LIdMap union_of_None_type_or_array_of_CommandInputRecordFieldLoader "name" (Some "type").
(** line 28480 *)
Definition uri_union_of_CWLTypeLoader_or_CommandInputRecordSchemaLoader_or_CommandInputEnumSchemaLoader_or_CommandInputArraySchemaLoader_or_strtype_or_array_of_union_of_CWLTypeLoader_or_CommandInputRecordSchemaLoader_or_CommandInputEnumSchemaLoader_or_CommandInputArraySchemaLoader_or_strtype_False_True_2_None : loader := LUri union_of_CWLTypeLoader_or_CommandInputRecordSchemaLoader_or_CommandInputEnumSchemaLoader_or_CommandInputArraySchemaLoader_or_strtype_or_array_of_union_of_CWLTypeLoader_or_CommandInputRecordSchemaLoader_or_CommandInputEnumSchemaLoader_or_CommandInputArraySchemaLoader_or_strtype false true (Some 2) None.
(** line 28489 *)
Definition union_of_CWLTypeLoader_or_CommandOutputRecordSchemaLoader_or_CommandOutputEnumSchemaLoader_or_CommandOutputArraySchemaLoader_or_strtype : loader := LUnion [CWLTypeLoader; CommandOutputRecordSchemaLoader; CommandOutputEnumSchemaLoader; CommandOutputArraySchemaLoader; strtype].
(** line 28500 *)
Definition array_of_union_of_CWLTypeLoader_or_CommandOutputRecordSchemaLoader_or_CommandOutputEnumSchemaLoader_or_CommandOutputArraySchemaLoader_or_strtype : loader := LArray union_of_CWLTypeLoader_or_CommandOutputRecordSchemaLoader_or_CommandOutputEnumSchemaLoader_or_CommandOutputArraySchemaLoader_or_strtype.
(** line 28505 *)
Definition union_of_CWLTypeLoader_or_CommandOutputRecordSchemaLoader_or_CommandOutputEnumSchemaLoader_or_CommandOutputArraySchemaLoader_or_strtype_or_array_of_union_of_CWLTypeLoader_or_CommandOutputRecordSchemaLoader_or_CommandOutputEnumSchemaLoader_or_CommandOutputArraySchemaLoader_or_strtype : loader := LUnion [CWLTypeLoader; CommandOutputRecordSchemaLoader; CommandOutputEnumSchemaLoader; CommandOutputArraySchemaLoader; strtype; array_of_union_of_CWLTypeLoader_or_CommandOutputRecordSchemaLoader_or_CommandOutputEnumSchemaLoader_or_CommandOutputArraySchemaLoader_or_strtype].
(** line 28517 *)
Definition typedsl_union_of_CWLTypeLoader_or_CommandOutputRecordSchemaLoader_or_CommandOutputEnumSchemaLoader_or_CommandOutputArraySchemaLoader_or_strtype_or_array_of_union_of_CWLTypeLoader_or_CommandOutputRecordSchemaLoader_or_CommandOutputEnumSchemaLoader_or_CommandOutputArraySchemaLoader_or_strtype_2 : loader := LTypeDSL union_of_CWLTypeLoader_or_CommandOutputRecordSchemaLoader_or_CommandOutputEnumSchemaLoader_or_CommandOutputArraySchemaLoader_or_strtype_or_array_of_union_of_CWLTypeLoader_or_CommandOutputRecordSchemaLoader_or_CommandOutputEnumSchemaLoader_or_CommandOutputArraySchemaLoader_or_strtype (Some 2) "v1.1".
(** line 28524 *)
Definition union_of_None_type_or_CommandOutputBindingLoader : loader := LUnion [None_type; CommandOutputBindingLoader].
(** line 28530 *)
Definition array_of_CommandOutputRecordFieldLoader : loader := LArray CommandOutputRecordFieldLoader.
(** line 28533 *)
Definition union_of_None_type_or_array_of_CommandOutputRecordFieldLoader : loader := LUnion [None_type; array_of_CommandOutputRecordFieldLoader].
(** line 28539 *)
Definition idmap_fields_union_of_None_type_or_array_of_CommandOutputRecordFieldLoader : loader := LIdMap union_of_None_type_or_array_of_CommandOutputRecordFieldLoader "name" (Some "type").
(** line 28544 *)
Definition uri_union_of_CWLTypeLoader_or_CommandOutputRecordSchemaLoader_or_CommandOutputEnumSchemaLoader_or_CommandOutputArraySchemaLoader_or_strtype_or_array_of_union_of_CWLTypeLoader_or_CommandOutputRecordSchemaLoader_or_CommandOutputEnumSchemaLoader_or_CommandOutputArraySchemaLoader_or_strtype_False_True_2_None : loader := LUri union_of_CWLTypeLoader_or_CommandOutputRecordSchemaLoader_or_CommandOutputEnumSchemaLoader_or_CommandOutputArraySchemaLoader_or_strtype_or_array_of_union_of_CWLTypeLoader_or_CommandOutputRecordSchemaLoader_or_CommandOutputEnumSchemaLoader_or_CommandOutputArraySchemaLoader_or_strtype false true (Some 2) None.
(** line 28553 *)
Definition union_of_CWLTypeLoader_or_stdinLoader_or_CommandInputRecordSchemaLoader_or_CommandInputEnumSchemaLoader_or_CommandInputArraySchemaLoader_or_strtype_or_array_of_union_of_CWLTypeLoader_or_CommandInputRecordSchemaLoader_or_CommandInputEnumSchemaLoader_or_CommandInputArraySchemaLoader_or_strtype : loader := LUnion [CWLTypeLoader; stdinLoader; CommandInputRecordSchemaLoader; CommandInputEnumSchemaLoader; CommandInputArraySchemaLoader; strtype; array_of_union_of_CWLTypeLoader_or_CommandInputRecordSchemaLoader_or_CommandInputEnumSchemaLoader_or_CommandInputArraySchemaLoader_or_strtype].
(** line 28566 *)
Definition typedsl_union_of_CWLTypeLoader_or_stdinLoader_or_CommandInputRecordSchemaLoader_or_CommandInputEnumSchemaLoader_or_CommandInputArraySchemaLoader_or_strtype_or_array_of_union_of_CWLTypeLoader_or_CommandInputRecordSchemaLoader_or_CommandInputEnumSchemaLoader_or_CommandInputArraySchemaLoader_or_strtype_2 : loader := LTypeDSL union_of_CWLTypeLoader_or_stdinLoader_or_CommandInputRecordSchemaLoader_or_CommandInputEnumSchemaLoader_or_CommandInputArraySchemaLoader_or_strtype_or_array_of_union_of_CWLTypeLoader_or_CommandInputRecordSchemaLoader_or_CommandInputEnumSchemaLoader_or_CommandInputArraySchemaLoader_or_strtype (Some 2) "v1.1".
(** line 28573 *)
Definition union_of_CWLTypeLoader_or_stdoutLoader_or_stderrLoader_or_CommandOutputRecordSchemaLoader_or_CommandOutputEnumSchemaLoader_or_CommandOutputArraySchemaLoader_or_strtype_or_array_of_union_of_CWLTypeLoader_or_CommandOutputRecordSchemaLoader_or_CommandOutputEnumSchemaLoader_or_CommandOutputArraySchemaLoader_or_strtype : loader := LUnion [CWLTypeLoader; stdoutLoader; stderrLoader; CommandOutputRecordSchemaLoader; CommandOutputEnumSchemaLoader; CommandOutputArraySchemaLoader; strtype; array_of_union_of_CWLTypeLoader_or_CommandOutputRecordSchemaLoader_or_CommandOutputEnumSchemaLoader_or_CommandOutputArraySchemaLoader_or_strtype].
(** line 28587 *)
Definition typedsl_union_of_CWLTypeLoader_or_stdoutLoader_or_stderrLoader_or_CommandOutputRecordSchemaLoader_or_CommandOutputEnumSchemaLoader_or_CommandOutputArraySchemaLoader_or_strtype_or_array_of_union_of_CWLTypeLoader_or_CommandOutputRecordSchemaLoader_or_CommandOutputEnumSchemaLoader_or_CommandOutputArraySchemaLoader_or_strtype_2 : loader := LTypeDSL union_of_CWLTypeLoader_or_stdoutLoader_or_stderrLoader_or_CommandOutputRecordSchemaLoader_or_CommandOutputEnumSchemaLoader_or_CommandOutputArraySchemaLoader_or_strtype_or_array_of_union_of_CWLTypeLoader_or_CommandOutputRecordSchemaLoader_or_CommandOutputEnumSchemaLoader_or_CommandOutputArraySchemaLoader_or_strtype (Some 2) "v1.1".
(** line 28594 *)
Definition CommandLineTool_classLoader : loader := LEnum ["CommandLineTool"].
(** line 28597 *)
Definition uri_CommandLineTool_classLoader_False_True_None_None : loader := LUri CommandLineTool_classLoader false true None None.
(** line 28600 *)
Definition array_of_CommandInputParameterLoader : loader := LArray CommandInputParameterLoader.
(** line 28601 *)
Definition idmap_inputs_array_of_CommandInputParameterLoader : loader := LIdMap array_of_CommandInputParameterLoader "id" (Some "type").
(** line 28604 *)
Definition array_of_CommandOutputParameterLoader : loader := LArray CommandOutputParameterLoader.
(** line 28607 *)
Definition idmap_outputs_array_of_CommandOutputParameterLoader : loader := LIdMap array_of_CommandOutputParameterLoader "id" (Some "type").
(** line 28610 *)
Definition union_of_strtype_or_ExpressionLoader_or_CommandLineBindingLoader : loader := LUnion [strtype; ExpressionLoader; CommandLineBindingLoader].
(** line 28617 *)
Definition array_of_union_of_strtype_or_ExpressionLoader_or_CommandLineBindingLoader : loader := LArray union_of_strtype_or_ExpressionLoader_or_CommandLineBindingLoader.
(** line 28620 *)
Definition union_of_None_type_or_array_of_union_of_strtype_or_ExpressionLoader_or_CommandLineBindingLoader : loader := LUnion [None_type; array_of_union_of_strtype_or_ExpressionLoader_or_CommandLineBindingLoader].
(** line 28628 *)
Definition array_of_inttype : loader := LArray inttype.
(** line 28629 *)
Definition union_of_None_type_or_array_of_inttype : loader := LUnion [None_type; array_of_inttype].
(** line 28635 *)
Definition DockerRequirement_classLoader : loader := LEnum ["DockerRequirement"].
(** line 28638 *)
Definition uri_DockerRequirement_classLoader_False_True_None_None : loader := LUri DockerRequirement_classLoader false true None None.
(** line 28641 *)
Definition SoftwareRequirement_classLoader : loader := LEnum ["SoftwareRequirement"].
(** line 28644 *)
Definition uri_SoftwareRequirement_classLoader_False_True_None_None : loader := LUri SoftwareRequirement_classLoader false true None None.
(** line 28647 *)
Definition array_of_SoftwarePackageLoader : loader := LArray SoftwarePackageLoader.
(** line 28648 *)
Definition idmap_packages_array_of_SoftwarePackageLoader : loader := LIdMap array_of_SoftwarePackageLoader "package" (Some "specs").
(** line 28651 *)
Definition uri_union_of_None_type_or_array_of_strtype_False_False_None_True : loader := LUri union_of_None_type_or_array_of_strtype false false None (Some true).
(** line 28654 *)
Definition InitialWorkDirRequirement_classLoader : loader := LEnum ["InitialWorkDirRequirement"].
(** line 28657 *)
Definition uri_InitialWorkDirRequirement_classLoader_False_True_None_None : loader := LUri InitialWorkDirRequirement_classLoader false true None None.
(** line 28660 *)
Definition union_of_None_type_or_DirentLoader_or_ExpressionLoader_or_FileLoader_or_DirectoryLoader_or_array_of_union_of_FileLoader_or_DirectoryLoader : loader := LUnion [None_type; DirentLoader; ExpressionLoader; FileLoader; DirectoryLoader; array_of_union_of_FileLoader_or_DirectoryLoader].
(** line 28672 *)
Definition array_of_union_of_None_type_or_DirentLoader_or_ExpressionLoader_or_FileLoader_or_DirectoryLoader_or_array_of_union_of_FileLoader_or_DirectoryLoader : loader := LArray union_of_None_type_or_DirentLoader_or_ExpressionLoader_or_FileLoader_or_DirectoryLoader_or_array_of_union_of_FileLoader_or_DirectoryLoader.
(** line 28677 *)
Definition union_of_ExpressionLoader_or_array_of_union_of_None_type_or_DirentLoader_or_ExpressionLoader_or_FileLoader_or_DirectoryLoader_or_array_of_union_of_FileLoader_or_DirectoryLoader : loader := LUnion [ExpressionLoader; array_of_union_of_None_type_or_DirentLoader_or_ExpressionLoader_or_FileLoader_or_DirectoryLoader_or_array_of_union_of_FileLoader_or_DirectoryLoader].
(** line 28685 *)
Definition EnvVarRequirement_classLoader : loader := LEnum ["EnvVarRequirement"].
(** line 28688 *)
Definition uri_EnvVarRequirement_classLoader_False_True_None_None : loader := LUri EnvVarRequirement_classLoader false true None None.
(** line 28691 *)
Definition array_of_EnvironmentDefLoader : loader := LArray EnvironmentDefLoader.
(** line 28692 *)
Definition idmap_envDef_array_of_EnvironmentDefLoader : loader := LIdMap array_of_EnvironmentDefLoader "envName" (Some "envValue").
(** line 28695 *)
Definition ShellCommandRequirement_classLoader : loader := LEnum ["ShellCommandRequirement"].
(** line 28698 *)
Definition uri_ShellCommandRequirement_classLoader_False_True_None_None : loader := LUri ShellCommandRequirement_classLoader false true None None.
(** line 28701 *)
Definition ResourceRequirement_classLoader : loader := LEnum ["ResourceRequirement"].
(** line 28704 *)
Definition uri_ResourceRequirement_classLoader_False_True_None_None : loader := LUri ResourceRequirement_classLoader false true None None.
(** line 28707 *)
Definition union_of_None_type_or_inttype_or_floattype_or_ExpressionLoader : loader := LUnion [None_type; inttype; floattype; ExpressionLoader].
(** line 28715 *)
Definition WorkReuse_classLoader : loader := LEnum ["WorkReuse"].
(** line 28716 *)
Definition uri_WorkReuse_classLoader_False_True_None_None : loader := LUri WorkReuse_classLoader false true None None.
(** line 28719 *)
Definition union_of_booltype_or_ExpressionLoader : loader := LUnion [booltype; ExpressionLoader].
(** line 28725 *)
Definition NetworkAccess_classLoader : loader := LEnum ["NetworkAccess"].
(** line 28728 *)
Definition uri_NetworkAccess_classLoader_False_True_None_None : loader := LUri NetworkAccess_classLoader false true None None.
(** line 28731 *)
Definition InplaceUpdateRequirement_classLoader : loader := LEnum ["InplaceUpdateRequirement"].
(** line 28734 *)
Definition uri_InplaceUpdateRequirement_classLoader_False_True_None_None : loader := LUri InplaceUpdateRequirement_classLoader false true None None.
(** line 28737 *)
Definition ToolTimeLimit_classLoader : loader := LEnum ["ToolTimeLimit"].
(** line 28740 *)
Definition uri_ToolTimeLimit_classLoader_False_True_None_None : loader := LUri ToolTimeLimit_classLoader false true None None.
(** line 28743 *)
Definition union_of_inttype_or_ExpressionLoader : loader := LUnion [inttype; ExpressionLoader].
(** line 28749 *)
Definition union_of_None_type_or_InputBindingLoader : loader := LUnion [None_type; InputBindingLoader].
(** line 28755 *)
Definition ExpressionTool_classLoader : loader := LEnum ["ExpressionTool"].
(** line 28758 *)
Definition uri_ExpressionTool_classLoader_False_True_None_None : loader := LUri ExpressionTool_classLoader false true None None.
(** line 28761 *)
Definition array_of_WorkflowInputParameterLoader : loader := LArray WorkflowInputParameterLoader.
(** line 28764 *)
Definition idmap_inputs_array_of_WorkflowInputParameterLoader : loader := LIdMap array_of_WorkflowInputParameterLoader "id" (Some "type").
(** line 28767 *)
Definition array_of_ExpressionToolOutputParameterLoader : loader := LArray ExpressionToolOutputParameterLoader.
(** line 28770 *)
Definition idmap_outputs_array_of_ExpressionToolOutputParameterLoader : loader := LIdMap array_of_ExpressionToolOutputParameterLoader "id" (Some "type").
(** line 28773 *)
Definition uri_union_of_None_type_or_strtype_or_array_of_strtype_False_False_1_None : loader := LUri union_of_None_type_or_strtype_or_array_of_strtype false false (Some 1) None.
(** line 28776 *)
Definition union_of_None_type_or_LinkMergeMethodLoader : loader := LUnion [None_type; LinkMergeMethodLoader].
(** line 28782 *)
Definition union_of_None_type_or_PickValueMethodLoader : loader := LUnion [None_type; PickValueMethodLoader].
(** line 28788 *)
Definition uri_union_of_None_type_or_strtype_or_array_of_strtype_False_False_2_None : loader := LUri union_of_None_type_or_strtype_or_array_of_strtype false false (Some 2) None.
(** line 28791 *)
Definition array_of_WorkflowStepInputLoader : loader := LArray WorkflowStepInputLoader.
(** line 28792 *)
Definition idmap_in__array_of_WorkflowStepInputLoader : loader := LIdMap array_of_WorkflowStepInputLoader "id" (Some "source").
(** line 28795 *)
Definition union_of_strtype_or_WorkflowStepOutputLoader : loader := LUnion [strtype; WorkflowStepOutputLoader].
(** line 28801 *)
Definition array_of_union_of_strtype_or_WorkflowStepOutputLoader : loader := LArray union_of_strtype_or_WorkflowStepOutputLoader.
(** line 28804 *)
Definition union_of_array_of_union_of_strtype_or_WorkflowStepOutputLoader : loader := LUnion [array_of_union_of_strtype_or_WorkflowStepOutputLoader].
(** line 28807 *)
Definition uri_union_of_array_of_union_of_strtype_or_WorkflowStepOutputLoader_True_False_None_None : loader := LUri union_of_array_of_union_of_strtype_or_WorkflowStepOutputLoader true false None None.
(** line 28816 *)
Definition array_of_Any_type : loader := LArray Any_type.
(** line 28817 *)
Definition union_of_None_type_or_array_of_Any_type : loader := LUnion [None_type; array_of_Any_type].
(** line 28823 *)
Definition idmap_hints_union_of_None_type_or_array_of_Any_type : loader := LIdMap union_of_None_type_or_array_of_Any_type "class" (Some "None").
(** line 28826 *)
Definition union_of_strtype_or_CommandLineToolLoader_or_ExpressionToolLoader_or_WorkflowLoader_or_OperationLoader_or_ProcessGeneratorLoader : loader := LUnion [strtype; CommandLineToolLoader; ExpressionToolLoader; WorkflowLoader; OperationLoader; ProcessGeneratorLoader].
(** line 28838 *)
Definition uri_union_of_strtype_or_CommandLineToolLoader_or_ExpressionToolLoader_or_WorkflowLoader_or_OperationLoader_or_ProcessGeneratorLoader_False_False_None_None : loader := LUri union_of_strtype_or_CommandLineToolLoader_or_ExpressionToolLoader_or_WorkflowLoader_or_OperationLoader_or_ProcessGeneratorLoader false false None None.
(** line 28847 *)
Definition uri_union_of_None_type_or_strtype_or_array_of_strtype_False_False_0_None : loader := LUri union_of_None_type_or_strtype_or_array_of_strtype false false (Some 0) None.
(** line 28850 *)
Definition union_of_None_type_or_ScatterMethodLoader : loader := LUnion [None_type; ScatterMethodLoader].
(** line 28856 *)
Definition uri_union_of_None_type_or_ScatterMethodLoader_False_True_None_None : loader := LUri union_of_None_type_or_ScatterMethodLoader false true None None.
(** line 28859 *)
Definition Workflow_classLoader : loader := LEnum ["Workflow"].
(** line 28860 *)
Definition uri_Workflow_classLoader_False_True_None_None : loader := LUri Workflow_classLoader false true None None.
(** line 28863 *)
Definition array_of_WorkflowOutputParameterLoader : loader := LArray WorkflowOutputParameterLoader.
(** line 28866 *)
Definition idmap_outputs_array_of_WorkflowOutputParameterLoader : loader := LIdMap array_of_WorkflowOutputParameterLoader "id" (Some "type").
(** line 28869 *)
Definition array_of_WorkflowStepLoader : loader := LArray WorkflowStepLoader.
(** line 28870 *)
Definition union_of_array_of_WorkflowStepLoader : loader := LUnion [array_of_WorkflowStepLoader].
(** line 28873 *)
Definition idmap_steps_union_of_array_of_WorkflowStepLoader : loader := LIdMap union_of_array_of_WorkflowStepLoader "id" (Some "None").
(** line 28876 *)
Definition SubworkflowFeatureRequirement_classLoader : loader := LEnum ["SubworkflowFeatureRequirement"].
(** line 28879 *)
Definition uri_SubworkflowFeatureRequirement_classLoader_False_True_None_None : loader := LUri SubworkflowFeatureRequirement_classLoader false true None None.
(** line 28882 *)
Definition ScatterFeatureRequirement_classLoader : loader := LEnum ["ScatterFeatureRequirement"].
(** line 28885 *)
Definition uri_ScatterFeatureRequirement_classLoader_False_True_None_None : loader := LUri ScatterFeatureRequirement_classLoader false true None None.
(** line 28888 *)
Definition MultipleInputFeatureRequirement_classLoader : loader := LEnum ["MultipleInputFeatureRequirement"].
(** line 28891 *)
Definition uri_MultipleInputFeatureRequirement_classLoader_False_True_None_None : loader := LUri MultipleInputFeatureRequirement_classLoader false true None None.
(** line 28894 *)
Definition StepInputExpressionRequirement_classLoader : loader := LEnum ["StepInputExpressionRequirement"].
(** line 28897 *)
Definition uri_StepInputExpressionRequirement_classLoader_False_True_None_None : loader := LUri StepInputExpressionRequirement_classLoader false true None None.
(** line 28900 *)
Definition Operation_classLoader : loader := LEnum ["Operation"].
(** line 28901 *)
Definition uri_Operation_classLoader_False_True_None_None : loader := LUri Operation_classLoader false true None None.
(** line 28904 *)
Definition array_of_OperationInputParameterLoader : loader := LArray OperationInputParameterLoader.
(** line 28907 *)
Definition idmap_inputs_array_of_OperationInputParameterLoader : loader := LIdMap array_of_OperationInputParameterLoader "id" (Some "type").
(** line 28910 *)
Definition array_of_OperationOutputParameterLoader : loader := LArray OperationOutputParameterLoader.
(** line 28913 *)
Definition idmap_outputs_array_of_OperationOutputParameterLoader : loader := LIdMap array_of_OperationOutputParameterLoader "id" (Some "type").
(** line 28916 *)
Definition uri_strtype_False_True_None_None : loader := LUri strtype false true None None.
(** line 28917 *)
Definition uri_array_of_strtype_False_False_0_None : loader := LUri array_of_strtype false false (Some 0) None.
(** line 28920 *)
Definition union_of_strtype_or_array_of_strtype : loader := LUnion [strtype; array_of_strtype].
(** line 28926 *)
Definition union_of_None_type_or_Any_type : loader := LUnion [None_type; Any_type].
(** line 28932 *)
Definition array_of_LoopInputLoader : loader := LArray LoopInputLoader.
(** line 28933 *)
Definition idmap_loop_array_of_LoopInputLoader : loader := LIdMap array_of_LoopInputLoader "id" (Some "loopSource").
(** line 28936 *)
Definition LoopOutputModesLoader : loader := LEnum ["last"; "all"].
(** line 28943 *)
Definition union_of_CommandLineToolLoader_or_ExpressionToolLoader_or_WorkflowLoader_or_OperationLoader_or_ProcessGeneratorLoader : loader := LUnion [CommandLineToolLoader; ExpressionToolLoader; WorkflowLoader; OperationLoader; ProcessGeneratorLoader].
(** line 28954 *)
Definition array_of_union_of_CommandLineToolLoader_or_ExpressionToolLoader_or_WorkflowLoader_or_OperationLoader_or_ProcessGeneratorLoader : loader := LArray union_of_CommandLineToolLoader_or_ExpressionToolLoader_or_WorkflowLoader_or_OperationLoader_or_ProcessGeneratorLoader.
(** line 28959 *)
Definition union_of_CommandLineToolLoader_or_ExpressionToolLoader_or_WorkflowLoader_or_OperationLoader_or_ProcessGeneratorLoader_or_array_of_union_of_CommandLineToolLoader_or_ExpressionToolLoader_or_WorkflowLoader_or_OperationLoader_or_ProcessGeneratorLoader : loader := LUnion [CommandLineToolLoader; ExpressionToolLoader; WorkflowLoader; OperationLoader; ProcessGeneratorLoader; array_of_union_of_CommandLineToolLoader_or_ExpressionToolLoader_or_WorkflowLoader_or_OperationLoader_or_ProcessGeneratorLoader].

(** line 885 *)
Definition CWLArraySchema_class : class := Class "CWLArraySchema" None None [Field "items" true uri_union_of_PrimitiveTypeLoader_or_CWLRecordSchemaLoader_or_EnumSchemaLoader_or_CWLArraySchemaLoader_or_strtype_or_array_of_union_of_PrimitiveTypeLoader_or_CWLRecordSchemaLoader_or_EnumSchemaLoader_or_CWLArraySchemaLoader_or_strtype_False_True_2_None false; Field "type" true typedsl_Array_nameLoader_2 false].
(** line 1092 *)
Definition CWLRecordField_class : class := Class "CWLRecordField" (Some ("name", true, uri_strtype_True_False_None_None)) None [Field "doc" false union_of_None_type_or_strtype_or_array_of_strtype false; Field "type" true typedsl_union_of_PrimitiveTypeLoader_or_CWLRecordSchemaLoader_or_EnumSchemaLoader_or_CWLArraySchemaLoader_or_strtype_or_array_of_union_of_PrimitiveTypeLoader_or_CWLRecordSchemaLoader_or_EnumSchemaLoader_or_CWLArraySchemaLoader_or_strtype_2 false].
(** line 1352 *)
Definition CWLRecordSchema_class : class := Class "CWLRecordSchema" None None [Field "fields" false idmap_fields_union_of_None_type_or_array_of_CWLRecordFieldLoader false; Field "type" true typedsl_Record_nameLoader_2 false].
(** line 1625 *)
Definition File_class : class := Class "File" None (Some uri_File_classLoader_False_True_None_None) [Field "location" false uri_union_of_None_type_or_strtype_False_False_None_None false; Field "path" false uri_union_of_None_type_or_strtype_False_False_None_None false; Field "basename" false union_of_None_type_or_strtype false; Field "dirname" false union_of_None_type_or_strtype false; Field "nameroot" false union_of_None_type_or_strtype false; Field "nameext" false union_of_None_type_or_strtype false; Field "checksum" false union_of_None_type_or_strtype false; Field "size" false union_of_None_type_or_inttype false; Field "secondaryFiles" false secondaryfilesdsl_union_of_None_type_or_array_of_union_of_FileLoader_or_DirectoryLoader false; Field "format" false uri_union_of_None_type_or_strtype_True_False_None_True false; Field "contents" false union_of_None_type_or_strtype false].
(** line 2369 *)
Definition Directory_class : class := Class "Directory" None (Some uri_Directory_classLoader_False_True_None_None) [Field "location" false uri_union_of_None_type_or_strtype_False_False_None_None false; Field "path" false uri_union_of_None_type_or_strtype_False_False_None_None false; Field "basename" false union_of_None_type_or_strtype false; Field "listing" false union_of_None_type_or_array_of_union_of_FileLoader_or_DirectoryLoader false].
(** line 2733 *)
Definition InputBinding_class : class := Class "InputBinding" None None [Field "loadContents" false union_of_None_type_or_booltype false].
(** line 2932 *)
Definition InputRecordField_class : class := Class "InputRecordField" (Some ("name", true, uri_strtype_True_False_None_None)) None [Field "doc" false union_of_None_type_or_strtype_or_array_of_strtype false; Field "type" true typedsl_union_of_CWLTypeLoader_or_InputRecordSchemaLoader_or_InputEnumSchemaLoader_or_InputArraySchemaLoader_or_strtype_or_array_of_union_of_CWLTypeLoader_or_InputRecordSchemaLoader_or_InputEnumSchemaLoader_or_InputArraySchemaLoader_or_strtype_2 false; Field "label" false union_of_None_type_or_strtype false; Field "secondaryFiles" false secondaryfilesdsl_union_of_None_type_or_SecondaryFileSchemaLoader_or_array_of_SecondaryFileSchemaLoader false; Field "streamable" false union_of_None_type_or_booltype false; Field "format" false uri_union_of_None_type_or_strtype_or_array_of_strtype_or_ExpressionLoader_True_False_None_True false; Field "loadContents" false union_of_None_type_or_booltype false; Field "loadListing" false union_of_None_type_or_LoadListingEnumLoader false].
(** line 3541 *)
Definition InputRecordSchema_class : class := Class "InputRecordSchema" (Some ("name", false, uri_union_of_None_type_or_strtype_True_False_None_None)) None [Field "fields" false idmap_fields_union_of_None_type_or_array_of_InputRecordFieldLoader false; Field "type" true typedsl_Record_nameLoader_2 false; Field "label" false union_of_None_type_or_strtype false; Field "doc" false union_of_None_type_or_strtype_or_array_of_strtype false].
(** line 3921 *)
Definition InputEnumSchema_class : class := Class "InputEnumSchema" (Some ("name", false, uri_union_of_None_type_or_strtype_True_False_None_None)) None [Field "symbols" true uri_array_of_strtype_True_False_None_None false; Field "type" true typedsl_Enum_nameLoader_2 false; Field "label" false union_of_None_type_or_strtype false; Field "doc" false union_of_None_type_or_strtype_or_array_of_strtype false].
(** line 4301 *)
Definition InputArraySchema_class : class := Class "InputArraySchema" (Some ("name", false, uri_union_of_None_type_or_strtype_True_False_None_None)) None [Field "items" true uri_union_of_CWLTypeLoader_or_InputRecordSchemaLoader_or_InputEnumSchemaLoader_or_InputArraySchemaLoader_or_strtype_or_array_of_union_of_CWLTypeLoader_or_InputRecordSchemaLoader_or_InputEnumSchemaLoader_or_InputArraySchemaLoader_or_strtype_False_True_2_None false; Field "type" true typedsl_Array_nameLoader_2 false; Field "label" false union_of_None_type_or_strtype false; Field "doc" false union_of_None_type_or_strtype_or_array_of_strtype false].
(** line 4697 *)
Definition OutputRecordField_class : class := Class "OutputRecordField" (Some ("name", true, uri_strtype_True_False_None_None)) None [Field "doc" false union_of_None_type_or_strtype_or_array_of_strtype false; Field "type" true typedsl_union_of_CWLTypeLoader_or_OutputRecordSchemaLoader_or_OutputEnumSchemaLoader_or_OutputArraySchemaLoader_or_strtype_or_array_of_union_of_CWLTypeLoader_or_OutputRecordSchemaLoader_or_OutputEnumSchemaLoader_or_OutputArraySchemaLoader_or_strtype_2 false; Field "label" false union_of_None_type_or_strtype false; Field "secondaryFiles" false secondaryfilesdsl_union_of_None_type_or_SecondaryFileSchemaLoader_or_array_of_SecondaryFileSchemaLoader false; Field "streamable" false union_of_None_type_or_booltype false; Field "format" false uri_union_of_None_type_or_strtype_or_ExpressionLoader_True_False_None_True false].
(** line 5186 *)
Definition OutputRecordSchema_class : class := Class "OutputRecordSchema" (Some ("name", false, uri_union_of_None_type_or_strtype_True_False_None_None)) None [Field "fields" false idmap_fields_union_of_None_type_or_array_of_OutputRecordFieldLoader false; Field "type" true typedsl_Record_nameLoader_2 false; Field "label" false union_of_None_type_or_strtype false; Field "doc" false union_of_None_type_or_strtype_or_array_of_strtype false].
(** line 5566 *)
Definition OutputEnumSchema_class : class := Class "OutputEnumSchema" (Some ("name", false, uri_union_of_None_type_or_strtype_True_False_None_None)) None [Field "symbols" true uri_array_of_strtype_True_False_None_None false; Field "type" true typedsl_Enum_nameLoader_2 false; Field "label" false union_of_None_type_or_strtype false; Field "doc" false union_of_None_type_or_strtype_or_array_of_strtype false].
(** line 5946 *)
Definition OutputArraySchema_class : class := Class "OutputArraySchema" (Some ("name", false, uri_union_of_None_type_or_strtype_True_False_None_None)) None [Field "items" true uri_union_of_CWLTypeLoader_or_OutputRecordSchemaLoader_or_OutputEnumSchemaLoader_or_OutputArraySchemaLoader_or_strtype_or_array_of_union_of_CWLTypeLoader_or_OutputRecordSchemaLoader_or_OutputEnumSchemaLoader_or_OutputArraySchemaLoader_or_strtype_False_True_2_None false; Field "type" true typedsl_Array_nameLoader_2 false; Field "label" false union_of_None_type_or_strtype false; Field "doc" false union_of_None_type_or_strtype_or_array_of_strtype false].
(** line 6347 *)
Definition InlineJavascriptRequirement_class : class := Class "InlineJavascriptRequirement" None (Some uri_InlineJavascriptRequirement_classLoader_False_True_None_None) [Field "expressionLib" false union_of_None_type_or_array_of_strtype false].
(** line 6535 *)
Definition SchemaDefRequirement_class : class := Class "SchemaDefRequirement" None (Some uri_SchemaDefRequirement_classLoader_False_True_None_None) [Field "types" true array_of_CommandInputSchema false].
(** line 6723 *)
Definition SecondaryFileSchema_class : class := Class "SecondaryFileSchema" None None [Field "pattern" true union_of_strtype_or_ExpressionLoader false; Field "required" false union_of_None_type_or_booltype_or_ExpressionLoader false].
(** line 6928 *)
Definition LoadListingRequirement_class : class := Class "LoadListingRequirement" None (Some uri_LoadListingRequirement_classLoader_False_True_None_None) [Field "loadListing" false union_of_None_type_or_LoadListingEnumLoader false].
(** line 7111 *)
Definition EnvironmentDef_class : class := Class "EnvironmentDef" None None [Field "envName" true strtype false; Field "envValue" true union_of_strtype_or_ExpressionLoader false].
(** line 7362 *)
Definition CommandLineBinding_class : class := Class "CommandLineBinding" None None [Field "loadContents" false union_of_None_type_or_booltype false; Field "position" false union_of_None_type_or_inttype_or_ExpressionLoader false; Field "prefix" false union_of_None_type_or_strtype false; Field "separate" false union_of_None_type_or_booltype false; Field "itemSeparator" false union_of_None_type_or_strtype false; Field "valueFrom" false union_of_None_type_or_strtype_or_ExpressionLoader false; Field "shellQuote" false union_of_None_type_or_booltype false].
(** line 7863 *)
Definition CommandOutputBinding_class : class := Class "CommandOutputBinding" None None [Field "loadContents" false union_of_None_type_or_booltype false; Field "loadListing" false union_of_None_type_or_LoadListingEnumLoader false; Field "glob" false union_of_None_type_or_strtype_or_ExpressionLoader_or_array_of_strtype false; Field "outputEval" false union_of_None_type_or_ExpressionLoader false].
(** line 8222 *)
Definition CommandInputRecordField_class : class := Class "CommandInputRecordField" (Some ("name", true, uri_strtype_True_False_None_None)) None [Field "doc" false union_of_None_type_or_strtype_or_array_of_strtype false; Field "type" true typedsl_union_of_CWLTypeLoader_or_CommandInputRecordSchemaLoader_or_CommandInputEnumSchemaLoader_or_CommandInputArraySchemaLoader_or_strtype_or_array_of_union_of_CWLTypeLoader_or_CommandInputRecordSchemaLoader_or_CommandInputEnumSchemaLoader_or_CommandInputArraySchemaLoader_or_strtype_2 false; Field "label" false union_of_None_type_or_strtype false; Field "secondaryFiles" false secondaryfilesdsl_union_of_None_type_or_SecondaryFileSchemaLoader_or_array_of_SecondaryFileSchemaLoader false; Field "streamable" false union_of_None_type_or_booltype false; Field "format" false uri_union_of_None_type_or_strtype_or_array_of_strtype_or_ExpressionLoader_True_False_None_True false; Field "loadContents" false union_of_None_type_or_booltype false; Field "loadListing" false union_of_None_type_or_LoadListingEnumLoader false; Field "inputBinding" false union_of_None_type_or_CommandLineBindingLoader false].
(** line 8901 *)
Definition CommandInputRecordSchema_class : class := Class "CommandInputRecordSchema" (Some ("name", false, uri_union_of_None_type_or_strtype_True_False_None_None)) None [Field "fields" false idmap_fields_union_of_None_type_or_array_of_CommandInputRecordFieldLoader false; Field "type" true typedsl_Record_nameLoader_2 false; Field "label" false union_of_None_type_or_strtype false; Field "doc" false union_of_None_type_or_strtype_or_array_of_strtype false; Field "inputBinding" false union_of_None_type_or_CommandLineBindingLoader false].
(** line 9348 *)
Definition CommandInputEnumSchema_class : class := Class "CommandInputEnumSchema" (Some ("name", false, uri_union_of_None_type_or_strtype_True_False_None_None)) None [Field "symbols" true uri_array_of_strtype_True_False_None_None false; Field "type" true typedsl_Enum_nameLoader_2 false; Field "label" false union_of_None_type_or_strtype false; Field "doc" false union_of_None_type_or_strtype_or_array_of_strtype false; Field "inputBinding" false union_of_None_type_or_CommandLineBindingLoader false].
(** line 9790 *)
Definition CommandInputArraySchema_class : class := Class "CommandInputArraySchema" (Some ("name", false, uri_union_of_None_type_or_strtype_True_False_None_None)) None [Field "items" true uri_union_of_CWLTypeLoader_or_CommandInputRecordSchemaLoader_or_CommandInputEnumSchemaLoader_or_CommandInputArraySchemaLoader_or_strtype_or_array_of_union_of_CWLTypeLoader_or_CommandInputRecordSchemaLoader_or_CommandInputEnumSchemaLoader_or_CommandInputArraySchemaLoader_or_strtype_False_True_2_None false; Field "type" true typedsl_Array_nameLoader_2 false; Field "label" false union_of_None_type_or_strtype false; Field "doc" false union_of_None_type_or_strtype_or_array_of_strtype false; Field "inputBinding" false union_of_None_type_or_CommandLineBindingLoader false].
(** line 10245 *)
Definition CommandOutputRecordField_class : class := Class "CommandOutputRecordField" (Some ("name", true, uri_strtype_True_False_None_None)) None [Field "doc" false union_of_None_type_or_strtype_or_array_of_strtype false; Field "type" true typedsl_union_of_CWLTypeLoader_or_CommandOutputRecordSchemaLoader_or_CommandOutputEnumSchemaLoader_or_CommandOutputArraySchemaLoader_or_strtype_or_array_of_union_of_CWLTypeLoader_or_CommandOutputRecordSchemaLoader_or_CommandOutputEnumSchemaLoader_or_CommandOutputArraySchemaLoader_or_strtype_2 false; Field "label" false union_of_None_type_or_strtype false; Field "secondaryFiles" false secondaryfilesdsl_union_of_None_type_or_SecondaryFileSchemaLoader_or_array_of_SecondaryFileSchemaLoader false; Field "streamable" false union_of_None_type_or_booltype false; Field "format" false uri_union_of_None_type_or_strtype_or_ExpressionLoader_True_False_None_True false; Field "outputBinding" false union_of_None_type_or_CommandOutputBindingLoader false].
(** line 10798 *)
Definition CommandOutputRecordSchema_class : class := Class "CommandOutputRecordSchema" (Some ("name", false, uri_union_of_None_type_or_strtype_True_False_None_None)) None [Field "fields" false idmap_fields_union_of_None_type_or_array_of_CommandOutputRecordFieldLoader false; Field "type" true typedsl_Record_nameLoader_2 false; Field "label" false union_of_None_type_or_strtype false; Field "doc" false union_of_None_type_or_strtype_or_array_of_strtype false].
(** line 11178 *)
Definition CommandOutputEnumSchema_class : class := Class "CommandOutputEnumSchema" (Some ("name", false, uri_union_of_None_type_or_strtype_True_False_None_None)) None [Field "symbols" true uri_array_of_strtype_True_False_None_None false; Field "type" true typedsl_Enum_nameLoader_2 false; Field "label" false union_of_None_type_or_strtype false; Field "doc" false union_of_None_type_or_strtype_or_array_of_strtype false].
(** line 11558 *)
Definition CommandOutputArraySchema_class : class := Class "CommandOutputArraySchema" (Some ("name", false, uri_union_of_None_type_or_strtype_True_False_None_None)) None [Field "items" true uri_union_of_CWLTypeLoader_or_CommandOutputRecordSchemaLoader_or_CommandOutputEnumSchemaLoader_or_CommandOutputArraySchemaLoader_or_strtype_or_array_of_union_of_CWLTypeLoader_or_CommandOutputRecordSchemaLoader_or_CommandOutputEnumSchemaLoader_or_CommandOutputArraySchemaLoader_or_strtype_False_True_2_None false; Field "type" true typedsl_Array_nameLoader_2 false; Field "label" false union_of_None_type_or_strtype false; Field "doc" false union_of_None_type_or_strtype_or_array_of_strtype false].
(** line 11975 *)
Definition CommandInputParameter_class : class := Class "CommandInputParameter" (Some ("id", true, uri_strtype_True_False_None_None)) None [Field "label" false union_of_None_type_or_strtype false; Field "secondaryFiles" false secondaryfilesdsl_union_of_None_type_or_SecondaryFileSchemaLoader_or_array_of_SecondaryFileSchemaLoader false; Field "streamable" false union_of_None_type_or_booltype false; Field "doc" false union_of_None_type_or_strtype_or_array_of_strtype false; Field "format" false uri_union_of_None_type_or_strtype_or_array_of_strtype_or_ExpressionLoader_True_False_None_True false; Field "loadContents" false union_of_None_type_or_booltype false; Field "loadListing" false union_of_None_type_or_LoadListingEnumLoader false; Field "default" false union_of_None_type_or_CWLObjectTypeLoader false; Field "type" true typedsl_union_of_CWLTypeLoader_or_stdinLoader_or_CommandInputRecordSchemaLoader_or_CommandInputEnumSchemaLoader_or_CommandInputArraySchemaLoader_or_strtype_or_array_of_union_of_CWLTypeLoader_or_CommandInputRecordSchemaLoader_or_CommandInputEnumSchemaLoader_or_CommandInputArraySchemaLoader_or_strtype_2 false; Field "inputBinding" false union_of_None_type_or_CommandLineBindingLoader false].
(** line 12718 *)
Definition CommandOutputParameter_class : class := Class "CommandOutputParameter" (Some ("id", true, uri_strtype_True_False_None_None)) None [Field "label" false union_of_None_type_or_strtype false; Field "secondaryFiles" false secondaryfilesdsl_union_of_None_type_or_SecondaryFileSchemaLoader_or_array_of_SecondaryFileSchemaLoader false; Field "streamable" false union_of_None_type_or_booltype false; Field "doc" false union_of_None_type_or_strtype_or_array_of_strtype false; Field "format" false uri_union_of_None_type_or_strtype_or_ExpressionLoader_True_False_None_True false; Field "type" true typedsl_union_of_CWLTypeLoader_or_stdoutLoader_or_stderrLoader_or_CommandOutputRecordSchemaLoader_or_CommandOutputEnumSchemaLoader_or_CommandOutputArraySchemaLoader_or_strtype_or_array_of_union_of_CWLTypeLoader_or_CommandOutputRecordSchemaLoader_or_CommandOutputEnumSchemaLoader_or_CommandOutputArraySchemaLoader_or_strtype_2 false; Field "outputBinding" false union_of_None_type_or_CommandOutputBindingLoader false].
(** line 13335 *)
Definition CommandLineTool_class : class := Class "CommandLineTool" (Some ("id", false, uri_union_of_None_type_or_strtype_True_False_None_None)) (Some uri_CommandLineTool_classLoader_False_True_None_None) [Field "label" false union_of_None_type_or_strtype false; Field "doc" false union_of_None_type_or_strtype_or_array_of_strtype false; Field "inputs" true idmap_inputs_array_of_CommandInputParameterLoader false; Field "outputs" true idmap_outputs_array_of_CommandOutputParameterLoader false; Field "requirements" false idmap_requirements_union_of_None_type_or_array_of_ProcessRequirement false; Field "hints" false idmap_hints_union_of_None_type_or_array_of_union_of_InlineJavascriptRequirementLoader_or_SchemaDefRequirementLoader_or_LoadListingRequirementLoader_or_DockerRequirementLoader_or_SoftwareRequirementLoader_or_InitialWorkDirRequirementLoader_or_EnvVarRequirementLoader_or_ShellCommandRequirementLoader_or_ResourceRequirementLoader_or_WorkReuseLoader_or_NetworkAccessLoader_or_InplaceUpdateRequirementLoader_or_ToolTimeLimitLoader_or_SubworkflowFeatureRequirementLoader_or_ScatterFeatureRequirementLoader_or_MultipleInputFeatureRequirementLoader_or_StepInputExpressionRequirementLoader_or_SecretsLoader_or_MPIRequirementLoader_or_CUDARequirementLoader_or_LoopLoader_or_ShmSizeLoader_or_Any_type false; Field "cwlVersion" false uri_union_of_None_type_or_CWLVersionLoader_False_True_None_None false; Field "intent" false uri_union_of_None_type_or_array_of_strtype_True_False_None_None false; Field "baseCommand" false union_of_None_type_or_strtype_or_array_of_strtype false; Field "arguments" false union_of_None_type_or_array_of_union_of_strtype_or_ExpressionLoader_or_CommandLineBindingLoader false; Field "stdin" false union_of_None_type_or_strtype_or_ExpressionLoader false; Field "stderr" false union_of_None_type_or_strtype_or_ExpressionLoader false; Field "stdout" false union_of_None_type_or_strtype_or_ExpressionLoader false; Field "successCodes" false union_of_None_type_or_array_of_inttype false; Field "temporaryFailCodes" false union_of_None_type_or_array_of_inttype false; Field "permanentFailCodes" false union_of_None_type_or_array_of_inttype false].
(** line 14436 *)
Definition DockerRequirement_class : class := Class "DockerRequirement" None (Some uri_DockerRequirement_classLoader_False_True_None_None) [Field "dockerPull" false union_of_None_type_or_strtype false; Field "dockerLoad" false union_of_None_type_or_strtype false; Field "dockerFile" false union_of_None_type_or_strtype false; Field "dockerImport" false union_of_None_type_or_strtype false; Field "dockerImageId" false union_of_None_type_or_strtype false; Field "dockerOutputDirectory" false union_of_None_type_or_strtype false].
(** line 14901 *)
Definition SoftwareRequirement_class : class := Class "SoftwareRequirement" None (Some uri_SoftwareRequirement_classLoader_False_True_None_None) [Field "packages" true idmap_packages_array_of_SoftwarePackageLoader false].
(** line 15081 *)
Definition SoftwarePackage_class : class := Class "SoftwarePackage" None None [Field "package" true strtype false; Field "version" false union_of_None_type_or_array_of_strtype false; Field "specs" false uri_union_of_None_type_or_array_of_strtype_False_False_None_True false].
(** line 15344 *)
Definition Dirent_class : class := Class "Dirent" None None [Field "entryname" false union_of_None_type_or_strtype_or_ExpressionLoader false; Field "entry" true union_of_strtype_or_ExpressionLoader false; Field "writable" false union_of_None_type_or_booltype false].
(** line 15602 *)
Definition InitialWorkDirRequirement_class : class := Class "InitialWorkDirRequirement" None (Some uri_InitialWorkDirRequirement_classLoader_False_True_None_None) [Field "listing" true union_of_ExpressionLoader_or_array_of_union_of_None_type_or_DirentLoader_or_ExpressionLoader_or_FileLoader_or_DirectoryLoader_or_array_of_union_of_FileLoader_or_DirectoryLoader false].
(** line 15780 *)
Definition EnvVarRequirement_class : class := Class "EnvVarRequirement" None (Some uri_EnvVarRequirement_classLoader_False_True_None_None) [Field "envDef" true idmap_envDef_array_of_EnvironmentDefLoader false].
(** line 15956 *)
Definition ShellCommandRequirement_class : class := Class "ShellCommandRequirement" None (Some uri_ShellCommandRequirement_classLoader_False_True_None_None) [].
(** line 16129 *)
Definition ResourceRequirement_class : class := Class "ResourceRequirement" None (Some uri_ResourceRequirement_classLoader_False_True_None_None) [Field "coresMin" false union_of_None_type_or_inttype_or_floattype_or_ExpressionLoader false; Field "coresMax" false union_of_None_type_or_inttype_or_floattype_or_ExpressionLoader false; Field "ramMin" false union_of_None_type_or_inttype_or_floattype_or_ExpressionLoader false; Field "ramMax" false union_of_None_type_or_inttype_or_floattype_or_ExpressionLoader false; Field "tmpdirMin" false union_of_None_type_or_inttype_or_floattype_or_ExpressionLoader false; Field "tmpdirMax" false union_of_None_type_or_inttype_or_floattype_or_ExpressionLoader false; Field "outdirMin" false union_of_None_type_or_inttype_or_floattype_or_ExpressionLoader false; Field "outdirMax" false union_of_None_type_or_inttype_or_floattype_or_ExpressionLoader false].
(** line 16698 *)
Definition WorkReuse_class : class := Class "WorkReuse" None (Some uri_WorkReuse_classLoader_False_True_None_None) [Field "enableReuse" true union_of_booltype_or_ExpressionLoader false].
(** line 16888 *)
Definition NetworkAccess_class : class := Class "NetworkAccess" None (Some uri_NetworkAccess_classLoader_False_True_None_None) [Field "networkAccess" true union_of_booltype_or_ExpressionLoader false].
(** line 17080 *)
Definition InplaceUpdateRequirement_class : class := Class "InplaceUpdateRequirement" None (Some uri_InplaceUpdateRequirement_classLoader_False_True_None_None) [Field "inplaceUpdate" true booltype false].
(** line 17263 *)
Definition ToolTimeLimit_class : class := Class "ToolTimeLimit" None (Some uri_ToolTimeLimit_classLoader_False_True_None_None) [Field "timelimit" true union_of_inttype_or_ExpressionLoader false].
(** line 17470 *)
Definition ExpressionToolOutputParameter_class : class := Class "ExpressionToolOutputParameter" (Some ("id", true, uri_strtype_True_False_None_None)) None [Field "label" false union_of_None_type_or_strtype false; Field "secondaryFiles" false secondaryfilesdsl_union_of_None_type_or_SecondaryFileSchemaLoader_or_array_of_SecondaryFileSchemaLoader false; Field "streamable" false union_of_None_type_or_booltype false; Field "doc" false union_of_None_type_or_strtype_or_array_of_strtype false; Field "format" false uri_union_of_None_type_or_strtype_or_ExpressionLoader_True_False_None_True false; Field "type" true typedsl_union_of_CWLTypeLoader_or_OutputRecordSchemaLoader_or_OutputEnumSchemaLoader_or_OutputArraySchemaLoader_or_strtype_or_array_of_union_of_CWLTypeLoader_or_OutputRecordSchemaLoader_or_OutputEnumSchemaLoader_or_OutputArraySchemaLoader_or_strtype_2 false].
(** line 17991 *)
Definition WorkflowInputParameter_class : class := Class "WorkflowInputParameter" (Some ("id", true, uri_strtype_True_False_None_None)) None [Field "label" false union_of_None_type_or_strtype false; Field "secondaryFiles" false secondaryfilesdsl_union_of_None_type_or_SecondaryFileSchemaLoader_or_array_of_SecondaryFileSchemaLoader false; Field "streamable" false union_of_None_type_or_booltype false; Field "doc" false union_of_None_type_or_strtype_or_array_of_strtype false; Field "format" false uri_union_of_None_type_or_strtype_or_array_of_strtype_or_ExpressionLoader_True_False_None_True false; Field "loadContents" false union_of_None_type_or_booltype false; Field "loadListing" false union_of_None_type_or_LoadListingEnumLoader false; Field "default" false union_of_None_type_or_CWLObjectTypeLoader false; Field "type" true typedsl_union_of_CWLTypeLoader_or_InputRecordSchemaLoader_or_InputEnumSchemaLoader_or_InputArraySchemaLoader_or_strtype_or_array_of_union_of_CWLTypeLoader_or_InputRecordSchemaLoader_or_InputEnumSchemaLoader_or_InputArraySchemaLoader_or_strtype_2 false; Field "inputBinding" false union_of_None_type_or_InputBindingLoader false].
(** line 18745 *)
Definition ExpressionTool_class : class := Class "ExpressionTool" (Some ("id", false, uri_union_of_None_type_or_strtype_True_False_None_None)) (Some uri_ExpressionTool_classLoader_False_True_None_None) [Field "label" false union_of_None_type_or_strtype false; Field "doc" false union_of_None_type_or_strtype_or_array_of_strtype false; Field "inputs" true idmap_inputs_array_of_WorkflowInputParameterLoader false; Field "outputs" true idmap_outputs_array_of_ExpressionToolOutputParameterLoader false; Field "requirements" false idmap_requirements_union_of_None_type_or_array_of_ProcessRequirement false; Field "hints" false idmap_hints_union_of_None_type_or_array_of_union_of_InlineJavascriptRequirementLoader_or_SchemaDefRequirementLoader_or_LoadListingRequirementLoader_or_DockerRequirementLoader_or_SoftwareRequirementLoader_or_InitialWorkDirRequirementLoader_or_EnvVarRequirementLoader_or_ShellCommandRequirementLoader_or_ResourceRequirementLoader_or_WorkReuseLoader_or_NetworkAccessLoader_or_InplaceUpdateRequirementLoader_or_ToolTimeLimitLoader_or_SubworkflowFeatureRequirementLoader_or_ScatterFeatureRequirementLoader_or_MultipleInputFeatureRequirementLoader_or_StepInputExpressionRequirementLoader_or_SecretsLoader_or_MPIRequirementLoader_or_CUDARequirementLoader_or_LoopLoader_or_ShmSizeLoader_or_Any_type false; Field "cwlVersion" false uri_union_of_None_type_or_CWLVersionLoader_False_True_None_None false; Field "intent" false uri_union_of_None_type_or_array_of_strtype_True_False_None_None false; Field "expression" true ExpressionLoader false].
(** line 19465 *)
Definition WorkflowOutputParameter_class : class := Class "WorkflowOutputParameter" (Some ("id", true, uri_strtype_True_False_None_None)) None [Field "label" false union_of_None_type_or_strtype false; Field "secondaryFiles" false secondaryfilesdsl_union_of_None_type_or_SecondaryFileSchemaLoader_or_array_of_SecondaryFileSchemaLoader false; Field "streamable" false union_of_None_type_or_booltype false; Field "doc" false union_of_None_type_or_strtype_or_array_of_strtype false; Field "format" false uri_union_of_None_type_or_strtype_or_ExpressionLoader_True_False_None_True false; Field "outputSource" false uri_union_of_None_type_or_strtype_or_array_of_strtype_False_False_1_None false; Field "linkMerge" false union_of_None_type_or_LinkMergeMethodLoader false; Field "pickValue" false union_of_None_type_or_PickValueMethodLoader false; Field "type" true typedsl_union_of_CWLTypeLoader_or_OutputRecordSchemaLoader_or_OutputEnumSchemaLoader_or_OutputArraySchemaLoader_or_strtype_or_array_of_union_of_CWLTypeLoader_or_OutputRecordSchemaLoader_or_OutputEnumSchemaLoader_or_OutputArraySchemaLoader_or_strtype_2 false].
(** line 20223 *)
Definition WorkflowStepInput_class : class := Class "WorkflowStepInput" (Some ("id", true, uri_strtype_True_False_None_None)) None [Field "source" false uri_union_of_None_type_or_strtype_or_array_of_strtype_False_False_2_None false; Field "linkMerge" false union_of_None_type_or_LinkMergeMethodLoader false; Field "pickValue" false union_of_None_type_or_PickValueMethodLoader false; Field "loadContents" false union_of_None_type_or_booltype false; Field "loadListing" false union_of_None_type_or_LoadListingEnumLoader false; Field "label" false union_of_None_type_or_strtype false; Field "default" false union_of_None_type_or_CWLObjectTypeLoader false; Field "valueFrom" false union_of_None_type_or_strtype_or_ExpressionLoader false].
(** line 20818 *)
Definition WorkflowStepOutput_class : class := Class "WorkflowStepOutput" (Some ("id", true, uri_strtype_True_False_None_None)) None [].
(** line 21061 *)
Definition WorkflowStep_class : class := Class "WorkflowStep" (Some ("id", true, uri_strtype_True_False_None_None)) None [Field "label" false union_of_None_type_or_strtype false; Field "doc" false union_of_None_type_or_strtype_or_array_of_strtype false; Field "in" true idmap_in__array_of_WorkflowStepInputLoader false; Field "out" true uri_union_of_array_of_union_of_strtype_or_WorkflowStepOutputLoader_True_False_None_None false; Field "requirements" false idmap_requirements_union_of_None_type_or_array_of_ProcessRequirement false; Field "hints" false idmap_hints_union_of_None_type_or_array_of_Any_type false; Field "run" true uri_union_of_strtype_or_CommandLineToolLoader_or_ExpressionToolLoader_or_WorkflowLoader_or_OperationLoader_or_ProcessGeneratorLoader_False_False_None_None true; Field "when" false union_of_None_type_or_ExpressionLoader false; Field "scatter" false uri_union_of_None_type_or_strtype_or_array_of_strtype_False_False_0_None false; Field "scatterMethod" false uri_union_of_None_type_or_ScatterMethodLoader_False_True_None_None false].
(** line 21830 *)
Definition Workflow_class : class := Class "Workflow" (Some ("id", false, uri_union_of_None_type_or_strtype_True_False_None_None)) (Some uri_Workflow_classLoader_False_True_None_None) [Field "label" false union_of_None_type_or_strtype false; Field "doc" false union_of_None_type_or_strtype_or_array_of_strtype false; Field "inputs" true idmap_inputs_array_of_WorkflowInputParameterLoader false; Field "outputs" true idmap_outputs_array_of_WorkflowOutputParameterLoader false; Field "requirements" false idmap_requirements_union_of_None_type_or_array_of_ProcessRequirement false; Field "hints" false idmap_hints_union_of_None_type_or_array_of_union_of_InlineJavascriptRequirementLoader_or_SchemaDefRequirementLoader_or_LoadListingRequirementLoader_or_DockerRequirementLoader_or_SoftwareRequirementLoader_or_InitialWorkDirRequirementLoader_or_EnvVarRequirementLoader_or_ShellCommandRequirementLoader_or_ResourceRequirementLoader_or_WorkReuseLoader_or_NetworkAccessLoader_or_InplaceUpdateRequirementLoader_or_ToolTimeLimitLoader_or_SubworkflowFeatureRequirementLoader_or_ScatterFeatureRequirementLoader_or_MultipleInputFeatureRequirementLoader_or_StepInputExpressionRequirementLoader_or_SecretsLoader_or_MPIRequirementLoader_or_CUDARequirementLoader_or_LoopLoader_or_ShmSizeLoader_or_Any_type false; Field "cwlVersion" false uri_union_of_None_type_or_CWLVersionLoader_False_True_None_None false; Field "intent" false uri_union_of_None_type_or_array_of_strtype_True_False_None_None false; Field "steps" true idmap_steps_union_of_array_of_WorkflowStepLoader false].
(** line 22500 *)
Definition SubworkflowFeatureRequirement_class : class := Class "SubworkflowFeatureRequirement" None (Some uri_SubworkflowFeatureRequirement_classLoader_False_True_None_None) [].
(** line 22621 *)
Definition ScatterFeatureRequirement_class : class := Class "ScatterFeatureRequirement" None (Some uri_ScatterFeatureRequirement_classLoader_False_True_None_None) [].
(** line 22742 *)
Definition MultipleInputFeatureRequirement_class : class := Class "MultipleInputFeatureRequirement" None (Some uri_MultipleInputFeatureRequirement_classLoader_False_True_None_None) [].
(** line 22863 *)
Definition StepInputExpressionRequirement_class : class := Class "StepInputExpressionRequirement" None (Some uri_StepInputExpressionRequirement_classLoader_False_True_None_None) [].
(** line 23029 *)
Definition OperationInputParameter_class : class := Class "OperationInputParameter" (Some ("id", true, uri_strtype_True_False_None_None)) None [Field "label" false union_of_None_type_or_strtype false; Field "secondaryFiles" false secondaryfilesdsl_union_of_None_type_or_SecondaryFileSchemaLoader_or_array_of_SecondaryFileSchemaLoader false; Field "streamable" false union_of_None_type_or_booltype false; Field "doc" false union_of_None_type_or_strtype_or_array_of_strtype false; Field "format" false uri_union_of_None_type_or_strtype_or_array_of_strtype_or_ExpressionLoader_True_False_None_True false; Field "loadContents" false union_of_None_type_or_booltype false; Field "loadListing" false union_of_None_type_or_LoadListingEnumLoader false; Field "default" false union_of_None_type_or_CWLObjectTypeLoader false; Field "type" true typedsl_union_of_CWLTypeLoader_or_InputRecordSchemaLoader_or_InputEnumSchemaLoader_or_InputArraySchemaLoader_or_strtype_or_array_of_union_of_CWLTypeLoader_or_InputRecordSchemaLoader_or_InputEnumSchemaLoader_or_InputArraySchemaLoader_or_strtype_2 false].
(** line 23712 *)
Definition OperationOutputParameter_class : class := Class "OperationOutputParameter" (Some ("id", true, uri_strtype_True_False_None_None)) None [Field "label" false union_of_None_type_or_strtype false; Field "secondaryFiles" false secondaryfilesdsl_union_of_None_type_or_SecondaryFileSchemaLoader_or_array_of_SecondaryFileSchemaLoader false; Field "streamable" false union_of_None_type_or_booltype false; Field "doc" false union_of_None_type_or_strtype_or_array_of_strtype false; Field "format" false uri_union_of_None_type_or_strtype_or_ExpressionLoader_True_False_None_True false; Field "type" true typedsl_union_of_CWLTypeLoader_or_OutputRecordSchemaLoader_or_OutputEnumSchemaLoader_or_OutputArraySchemaLoader_or_strtype_or_array_of_union_of_CWLTypeLoader_or_OutputRecordSchemaLoader_or_OutputEnumSchemaLoader_or_OutputArraySchemaLoader_or_strtype_2 false].
(** line 24233 *)
Definition Operation_class : class := Class "Operation" (Some ("id", false, uri_union_of_None_type_or_strtype_True_False_None_None)) (Some uri_Operation_classLoader_False_True_None_None) [Field "label" false union_of_None_type_or_strtype false; Field "doc" false union_of_None_type_or_strtype_or_array_of_strtype false; Field "inputs" true idmap_inputs_array_of_OperationInputParameterLoader false; Field "outputs" true idmap_outputs_array_of_OperationOutputParameterLoader false; Field "requirements" false idmap_requirements_union_of_None_type_or_array_of_ProcessRequirement false; Field "hints" false idmap_hints_union_of_None_type_or_array_of_union_of_InlineJavascriptRequirementLoader_or_SchemaDefRequirementLoader_or_LoadListingRequirementLoader_or_DockerRequirementLoader_or_SoftwareRequirementLoader_or_InitialWorkDirRequirementLoader_or_EnvVarRequirementLoader_or_ShellCommandRequirementLoader_or_ResourceRequirementLoader_or_WorkReuseLoader_or_NetworkAccessLoader_or_InplaceUpdateRequirementLoader_or_ToolTimeLimitLoader_or_SubworkflowFeatureRequirementLoader_or_ScatterFeatureRequirementLoader_or_MultipleInputFeatureRequirementLoader_or_StepInputExpressionRequirementLoader_or_SecretsLoader_or_MPIRequirementLoader_or_CUDARequirementLoader_or_LoopLoader_or_ShmSizeLoader_or_Any_type false; Field "cwlVersion" false uri_union_of_None_type_or_CWLVersionLoader_False_True_None_None false; Field "intent" false uri_union_of_None_type_or_array_of_strtype_True_False_None_None false].
(** line 24846 *)
Definition Secrets_class : class := Class "Secrets" None (Some uri_strtype_False_True_None_None) [Field "secrets" true uri_array_of_strtype_False_False_0_None false].
(** line 25064 *)
Definition ProcessGenerator_class : class := Class "ProcessGenerator" (Some ("id", false, uri_union_of_None_type_or_strtype_True_False_None_None)) (Some uri_strtype_False_True_None_None) [Field "label" false union_of_None_type_or_strtype false; Field "doc" false union_of_None_type_or_strtype_or_array_of_strtype false; Field "inputs" true idmap_inputs_array_of_WorkflowInputParameterLoader false; Field "outputs" true idmap_outputs_array_of_ExpressionToolOutputParameterLoader false; Field "requirements" false idmap_requirements_union_of_None_type_or_array_of_ProcessRequirement false; Field "hints" false idmap_hints_union_of_None_type_or_array_of_union_of_InlineJavascriptRequirementLoader_or_SchemaDefRequirementLoader_or_LoadListingRequirementLoader_or_DockerRequirementLoader_or_SoftwareRequirementLoader_or_InitialWorkDirRequirementLoader_or_EnvVarRequirementLoader_or_ShellCommandRequirementLoader_or_ResourceRequirementLoader_or_WorkReuseLoader_or_NetworkAccessLoader_or_InplaceUpdateRequirementLoader_or_ToolTimeLimitLoader_or_SubworkflowFeatureRequirementLoader_or_ScatterFeatureRequirementLoader_or_MultipleInputFeatureRequirementLoader_or_StepInputExpressionRequirementLoader_or_SecretsLoader_or_MPIRequirementLoader_or_CUDARequirementLoader_or_LoopLoader_or_ShmSizeLoader_or_Any_type false; Field "cwlVersion" false uri_union_of_None_type_or_CWLVersionLoader_False_True_None_None false; Field "intent" false uri_union_of_None_type_or_array_of_strtype_True_False_None_None false; Field "run" true uri_union_of_strtype_or_CommandLineToolLoader_or_ExpressionToolLoader_or_WorkflowLoader_or_OperationLoader_or_ProcessGeneratorLoader_False_False_None_None true].
(** line 25739 *)
Definition MPIRequirement_class : class := Class "MPIRequirement" None (Some uri_strtype_False_True_None_None) [Field "processes" true union_of_inttype_or_ExpressionLoader false].
(** line 25940 *)
Definition CUDARequirement_class : class := Class "CUDARequirement" None (Some uri_strtype_False_True_None_None) [Field "cudaComputeCapability" true union_of_strtype_or_array_of_strtype false; Field "cudaDeviceCountMax" false union_of_None_type_or_inttype_or_ExpressionLoader false; Field "cudaDeviceCountMin" false union_of_None_type_or_inttype_or_ExpressionLoader false; Field "cudaVersionMin" true strtype false].
(** line 26317 *)
Definition LoopInput_class : class := Class "LoopInput" (Some ("id", false, uri_union_of_None_type_or_strtype_True_False_None_None)) None [Field "default" false union_of_None_type_or_Any_type false; Field "linkMerge" false union_of_None_type_or_LinkMergeMethodLoader false; Field "loopSource" false uri_union_of_None_type_or_strtype_or_array_of_strtype_False_False_1_None false; Field "pickValue" false union_of_None_type_or_PickValueMethodLoader false; Field "valueFrom" false union_of_None_type_or_strtype_or_ExpressionLoader false].
(** line 26754 *)
Definition Loop_class : class := Class "Loop" None (Some uri_strtype_False_True_None_None) [Field "loop" true idmap_loop_array_of_LoopInputLoader false; Field "loopWhen" true ExpressionLoader false; Field "outputMethod" true LoopOutputModesLoader false].
(** line 27038 *)
Definition ShmSize_class : class := Class "ShmSize" None (Some uri_strtype_False_True_None_None) [Field "shmSize" true strtype false].

(** The classes by their names *)
Definition all_classes : list (string * class) := [("CWLArraySchema", CWLArraySchema_class); ("CWLRecordField", CWLRecordField_class); ("CWLRecordSchema", CWLRecordSchema_class); ("File", File_class); ("Directory", Directory_class); ("InputBinding", InputBinding_class); ("InputRecordField", InputRecordField_class); ("InputRecordSchema", InputRecordSchema_class); ("InputEnumSchema", InputEnumSchema_class); ("InputArraySchema", InputArraySchema_class); ("OutputRecordField", OutputRecordField_class); ("OutputRecordSchema", OutputRecordSchema_class); ("OutputEnumSchema", OutputEnumSchema_class); ("OutputArraySchema", OutputArraySchema_class); ("InlineJavascriptRequirement", InlineJavascriptRequirement_class); ("SchemaDefRequirement", SchemaDefRequirement_class); ("SecondaryFileSchema", SecondaryFileSchema_class); ("LoadListingRequirement", LoadListingRequirement_class); ("EnvironmentDef", EnvironmentDef_class); ("CommandLineBinding", CommandLineBinding_class); ("CommandOutputBinding", CommandOutputBinding_class); ("CommandInputRecordField", CommandInputRecordField_class); ("CommandInputRecordSchema", CommandInputRecordSchema_class); ("CommandInputEnumSchema", CommandInputEnumSchema_class); ("CommandInputArraySchema", CommandInputArraySchema_class); ("CommandOutputRecordField", CommandOutputRecordField_class); ("CommandOutputRecordSchema", CommandOutputRecordSchema_class); ("CommandOutputEnumSchema", CommandOutputEnumSchema_class); ("CommandOutputArraySchema", CommandOutputArraySchema_class); ("CommandInputParameter", CommandInputParameter_class); ("CommandOutputParameter", CommandOutputParameter_class); ("CommandLineTool", CommandLineTool_class); ("DockerRequirement", DockerRequirement_class); ("SoftwareRequirement", SoftwareRequirement_class); ("SoftwarePackage", SoftwarePackage_class); ("Dirent", Dirent_class); ("InitialWorkDirRequirement", InitialWorkDirRequirement_class); ("EnvVarRequirement", EnvVarRequirement_class); ("ShellCommandRequirement", ShellCommandRequirement_class); ("ResourceRequirement", ResourceRequirement_class); ("WorkReuse", WorkReuse_class); ("NetworkAccess", NetworkAccess_class); ("InplaceUpdateRequirement", InplaceUpdateRequirement_class); ("ToolTimeLimit", ToolTimeLimit_class); ("ExpressionToolOutputParameter", ExpressionToolOutputParameter_class); ("WorkflowInputParameter", WorkflowInputParameter_class); ("ExpressionTool", ExpressionTool_class); ("WorkflowOutputParameter", WorkflowOutputParameter_class); ("WorkflowStepInput", WorkflowStepInput_class); ("WorkflowStepOutput", WorkflowStepOutput_class); ("WorkflowStep", WorkflowStep_class); ("Workflow", Workflow_class); ("SubworkflowFeatureRequirement", SubworkflowFeatureRequirement_class); ("ScatterFeatureRequirement", ScatterFeatureRequirement_class); ("MultipleInputFeatureRequirement", MultipleInputFeatureRequirement_class); ("StepInputExpressionRequirement", StepInputExpressionRequirement_class); ("OperationInputParameter", OperationInputParameter_class); ("OperationOutputParameter", OperationOutputParameter_class); ("Operation", Operation_class); ("Secrets", Secrets_class); ("ProcessGenerator", ProcessGenerator_class); ("MPIRequirement", MPIRequirement_class); ("CUDARequirement", CUDARequirement_class); ("LoopInput", LoopInput_class); ("Loop", Loop_class); ("ShmSize", ShmSize_class)].
(** [_loaders], line 28972, and the loader that contains itself, line 28994; entries that are None are left out *)
Definition named : list (string * loader) := [("ProcessRequirementLoader", union_of_InlineJavascriptRequirementLoader_or_SchemaDefRequirementLoader_or_LoadListingRequirementLoader_or_DockerRequirementLoader_or_SoftwareRequirementLoader_or_InitialWorkDirRequirementLoader_or_EnvVarRequirementLoader_or_ShellCommandRequirementLoader_or_ResourceRequirementLoader_or_WorkReuseLoader_or_NetworkAccessLoader_or_InplaceUpdateRequirementLoader_or_ToolTimeLimitLoader_or_SubworkflowFeatureRequirementLoader_or_ScatterFeatureRequirementLoader_or_MultipleInputFeatureRequirementLoader_or_StepInputExpressionRequirementLoader_or_SecretsLoader_or_MPIRequirementLoader_or_CUDARequirementLoader_or_LoopLoader_or_ShmSizeLoader); ("InputParameterLoader", union_of_CommandInputParameterLoader_or_WorkflowInputParameterLoader_or_OperationInputParameterLoader); ("OutputParameterLoader", union_of_CommandOutputParameterLoader_or_ExpressionToolOutputParameterLoader_or_WorkflowOutputParameterLoader_or_OperationOutputParameterLoader); ("CommandInputSchemaLoader", union_of_CommandInputRecordSchemaLoader_or_CommandInputEnumSchemaLoader_or_CommandInputArraySchemaLoader); ("CWLObjectTypeLoader", (LUnion [booltype; inttype; floattype; strtype; FileLoader; DirectoryLoader; array_of_union_of_None_type_or_CWLObjectTypeLoader; map_of_union_of_None_type_or_CWLObjectTypeLoader]))].
(** [_vocab] and [_rvocab] *)
Definition terms : list (string * string) := [("Any", "https://w3id.org/cwl/salad#Any"); ("ArraySchema", "https://w3id.org/cwl/salad#ArraySchema"); ("CUDARequirement", "http://commonwl.org/cwltool#CUDARequirement"); ("CWLArraySchema", "https://w3id.org/cwl/cwl#CWLArraySchema"); ("CWLInputFile", "https://w3id.org/cwl/cwl#CWLInputFile"); ("CWLObjectType", "https://w3id.org/cwl/cwl#CWLObjectType"); ("CWLRecordField", "https://w3id.org/cwl/cwl#CWLRecordField"); ("CWLRecordSchema", "https://w3id.org/cwl/cwl#CWLRecordSchema"); ("CWLType", "https://w3id.org/cwl/cwl#CWLType"); ("CWLVersion", "https://w3id.org/cwl/cwl#CWLVersion"); ("CommandInputArraySchema", "https://w3id.org/cwl/cwl#CommandInputArraySchema"); ("CommandInputEnumSchema", "https://w3id.org/cwl/cwl#CommandInputEnumSchema"); ("CommandInputParameter", "https://w3id.org/cwl/cwl#CommandInputParameter"); ("CommandInputRecordField", "https://w3id.org/cwl/cwl#CommandInputRecordField"); ("CommandInputRecordSchema", "https://w3id.org/cwl/cwl#CommandInputRecordSchema"); ("CommandInputSchema", "https://w3id.org/cwl/cwl#CommandInputSchema"); ("CommandLineBindable", "https://w3id.org/cwl/cwl#CommandLineBindable"); ("CommandLineBinding", "https://w3id.org/cwl/cwl#CommandLineBinding"); ("CommandLineTool", "https://w3id.org/cwl/cwl#CommandLineTool"); ("CommandOutputArraySchema", "https://w3id.org/cwl/cwl#CommandOutputArraySchema"); ("CommandOutputBinding", "https://w3id.org/cwl/cwl#CommandOutputBinding"); ("CommandOutputEnumSchema", "https://w3id.org/cwl/cwl#CommandOutputEnumSchema"); ("CommandOutputParameter", "https://w3id.org/cwl/cwl#CommandOutputParameter"); ("CommandOutputRecordField", "https://w3id.org/cwl/cwl#CommandOutputRecordField"); ("CommandOutputRecordSchema", "https://w3id.org/cwl/cwl#CommandOutputRecordSchema"); ("Directory", "https://w3id.org/cwl/cwl#Directory"); ("Dirent", "https://w3id.org/cwl/cwl#Dirent"); ("DockerRequirement", "https://w3id.org/cwl/cwl#DockerRequirement"); ("Documented", "https://w3id.org/cwl/salad#Documented"); ("EnumSchema", "https://w3id.org/cwl/salad#EnumSchema"); ("EnvVarRequirement", "https://w3id.org/cwl/cwl#EnvVarRequirement"); ("EnvironmentDef", "https://w3id.org/cwl/cwl#EnvironmentDef"); ("Expression", "https://w3id.org/cwl/cwl#Expression"); ("ExpressionPlaceholder", "https://w3id.org/cwl/cwl#ExpressionPlaceholder"); ("ExpressionTool", "https://w3id.org/cwl/cwl#ExpressionTool"); ("ExpressionToolOutputParameter", "https://w3id.org/cwl/cwl#ExpressionToolOutputParameter"); ("FieldBase", "https://w3id.org/cwl/cwl#FieldBase"); ("File", "https://w3id.org/cwl/cwl#File"); ("IOSchema", "https://w3id.org/cwl/cwl#IOSchema"); ("Identified", "https://w3id.org/cwl/cwl#Identified"); ("IdentifierRequired", "https://w3id.org/cwl/cwl#IdentifierRequired"); ("InitialWorkDirRequirement", "https://w3id.org/cwl/cwl#InitialWorkDirRequirement"); ("InlineJavascriptRequirement", "https://w3id.org/cwl/cwl#InlineJavascriptRequirement"); ("InplaceUpdateRequirement", "https://w3id.org/cwl/cwl#InplaceUpdateRequirement"); ("InputArraySchema", "https://w3id.org/cwl/cwl#InputArraySchema"); ("InputBinding", "https://w3id.org/cwl/cwl#InputBinding"); ("InputEnumSchema", "https://w3id.org/cwl/cwl#InputEnumSchema"); ("InputFormat", "https://w3id.org/cwl/cwl#InputFormat"); ("InputParameter", "https://w3id.org/cwl/cwl#InputParameter"); ("InputRecordField", "https://w3id.org/cwl/cwl#InputRecordField"); ("InputRecordSchema", "https://w3id.org/cwl/cwl#InputRecordSchema"); ("InputSchema", "https://w3id.org/cwl/cwl#InputSchema"); ("Labeled", "https://w3id.org/cwl/cwl#Labeled"); ("LinkMergeMethod", "https://w3id.org/cwl/cwl#LinkMergeMethod"); ("LoadContents", "https://w3id.org/cwl/cwl#LoadContents"); ("LoadListingEnum", "https://w3id.org/cwl/cwl#LoadListingEnum"); ("LoadListingRequirement", "https://w3id.org/cwl/cwl#LoadListingRequirement"); ("Loop", "http://commonwl.org/cwltool#Loop"); ("LoopInput", "http://commonwl.org/cwltool#LoopInput"); ("MPIRequirement", "http://commonwl.org/cwltool#MPIRequirement"); ("MapSchema", "https://w3id.org/cwl/salad#MapSchema"); ("MultipleInputFeatureRequirement", "https://w3id.org/cwl/cwl#MultipleInputFeatureRequirement"); ("NetworkAccess", "https://w3id.org/cwl/cwl#NetworkAccess"); ("Operation", "https://w3id.org/cwl/cwl#Operation"); ("OperationInputParameter", "https://w3id.org/cwl/cwl#OperationInputParameter"); ("OperationOutputParameter", "https://w3id.org/cwl/cwl#OperationOutputParameter"); ("OutputArraySchema", "https://w3id.org/cwl/cwl#OutputArraySchema"); ("OutputEnumSchema", "https://w3id.org/cwl/cwl#OutputEnumSchema"); ("OutputFormat", "https://w3id.org/cwl/cwl#OutputFormat"); ("OutputParameter", "https://w3id.org/cwl/cwl#OutputParameter"); ("OutputRecordField", "https://w3id.org/cwl/cwl#OutputRecordField"); ("OutputRecordSchema", "https://w3id.org/cwl/cwl#OutputRecordSchema"); ("OutputSchema", "https://w3id.org/cwl/cwl#OutputSchema"); ("Parameter", "https://w3id.org/cwl/cwl#Parameter"); ("PickValueMethod", "https://w3id.org/cwl/cwl#PickValueMethod"); ("PrimitiveType", "https://w3id.org/cwl/salad#PrimitiveType"); ("Process", "https://w3id.org/cwl/cwl#Process"); ("ProcessGenerator", "http://commonwl.org/cwltool#ProcessGenerator"); ("ProcessRequirement", "https://w3id.org/cwl/cwl#ProcessRequirement"); ("RecordField", "https://w3id.org/cwl/salad#RecordField"); ("RecordSchema", "https://w3id.org/cwl/salad#RecordSchema"); ("ResourceRequirement", "https://w3id.org/cwl/cwl#ResourceRequirement"); ("ScatterFeatureRequirement", "https://w3id.org/cwl/cwl#ScatterFeatureRequirement"); ("ScatterMethod", "https://w3id.org/cwl/cwl#ScatterMethod"); ("SchemaDefRequirement", "https://w3id.org/cwl/cwl#SchemaDefRequirement"); ("SecondaryFileSchema", "https://w3id.org/cwl/cwl#SecondaryFileSchema"); ("Secrets", "http://commonwl.org/cwltool#Secrets"); ("ShellCommandRequirement", "https://w3id.org/cwl/cwl#ShellCommandRequirement"); ("ShmSize", "http://commonwl.org/cwltool#ShmSize"); ("Sink", "https://w3id.org/cwl/cwl#Sink"); ("SoftwarePackage", "https://w3id.org/cwl/cwl#SoftwarePackage"); ("SoftwareRequirement", "https://w3id.org/cwl/cwl#SoftwareRequirement"); ("StepInputExpressionRequirement", "https://w3id.org/cwl/cwl#StepInputExpressionRequirement"); ("SubworkflowFeatureRequirement", "https://w3id.org/cwl/cwl#SubworkflowFeatureRequirement"); ("ToolTimeLimit", "https://w3id.org/cwl/cwl#ToolTimeLimit"); ("UnionSchema", "https://w3id.org/cwl/salad#UnionSchema"); ("WorkReuse", "https://w3id.org/cwl/cwl#WorkReuse"); ("Workflow", "https://w3id.org/cwl/cwl#Workflow"); ("WorkflowInputParameter", "https://w3id.org/cwl/cwl#WorkflowInputParameter"); ("WorkflowOutputParameter", "https://w3id.org/cwl/cwl#WorkflowOutputParameter"); ("WorkflowStep", "https://w3id.org/cwl/cwl#WorkflowStep"); ("WorkflowStepInput", "https://w3id.org/cwl/cwl#WorkflowStepInput"); ("WorkflowStepOutput", "https://w3id.org/cwl/cwl#WorkflowStepOutput"); ("all", "http://commonwl.org/cwltool#Loop/outputMethod/LoopOutputModes/all"); ("all_non_null", "https://w3id.org/cwl/cwl#PickValueMethod/all_non_null"); ("array", "https://w3id.org/cwl/salad#array"); ("boolean", "http://www.w3.org/2001/XMLSchema#boolean"); ("deep_listing", "https://w3id.org/cwl/cwl#LoadListingEnum/deep_listing"); ("dotproduct", "https://w3id.org/cwl/cwl#ScatterMethod/dotproduct"); ("double", "http://www.w3.org/2001/XMLSchema#double"); ("enum", "https://w3id.org/cwl/salad#enum"); ("first_non_null", "https://w3id.org/cwl/cwl#PickValueMethod/first_non_null"); ("flat_crossproduct", "https://w3id.org/cwl/cwl#ScatterMethod/flat_crossproduct"); ("float", "http://www.w3.org/2001/XMLSchema#float"); ("int", "http://www.w3.org/2001/XMLSchema#int"); ("last", "http://commonwl.org/cwltool#Loop/outputMethod/LoopOutputModes/last"); ("long", "http://www.w3.org/2001/XMLSchema#long"); ("map", "https://w3id.org/cwl/salad#map"); ("merge_flattened", "https://w3id.org/cwl/cwl#LinkMergeMethod/merge_flattened"); ("merge_nested", "https://w3id.org/cwl/cwl#LinkMergeMethod/merge_nested"); ("nested_crossproduct", "https://w3id.org/cwl/cwl#ScatterMethod/nested_crossproduct"); ("no_listing", "https://w3id.org/cwl/cwl#LoadListingEnum/no_listing"); ("null", "https://w3id.org/cwl/salad#null"); ("record", "https://w3id.org/cwl/salad#record"); ("shallow_listing", "https://w3id.org/cwl/cwl#LoadListingEnum/shallow_listing"); ("stderr", "https://w3id.org/cwl/cwl#stderr"); ("stdin", "https://w3id.org/cwl/cwl#stdin"); ("stdout", "https://w3id.org/cwl/cwl#stdout"); ("string", "http://www.w3.org/2001/XMLSchema#string"); ("the_only_non_null", "https://w3id.org/cwl/cwl#PickValueMethod/the_only_non_null"); ("union", "https://w3id.org/cwl/salad#union"); ("v1.2", "https://w3id.org/cwl/cwl#v1.2")].
Definition terms_back : list (string * string) := [("https://w3id.org/cwl/salad#Any", "Any"); ("https://w3id.org/cwl/salad#ArraySchema", "ArraySchema"); ("http://commonwl.org/cwltool#CUDARequirement", "CUDARequirement"); ("https://w3id.org/cwl/cwl#CWLArraySchema", "CWLArraySchema"); ("https://w3id.org/cwl/cwl#CWLInputFile", "CWLInputFile"); ("https://w3id.org/cwl/cwl#CWLObjectType", "CWLObjectType"); ("https://w3id.org/cwl/cwl#CWLRecordField", "CWLRecordField"); ("https://w3id.org/cwl/cwl#CWLRecordSchema", "CWLRecordSchema"); ("https://w3id.org/cwl/cwl#CWLType", "CWLType"); ("https://w3id.org/cwl/cwl#CWLVersion", "CWLVersion"); ("https://w3id.org/cwl/cwl#CommandInputArraySchema", "CommandInputArraySchema"); ("https://w3id.org/cwl/cwl#CommandInputEnumSchema", "CommandInputEnumSchema"); ("https://w3id.org/cwl/cwl#CommandInputParameter", "CommandInputParameter"); ("https://w3id.org/cwl/cwl#CommandInputRecordField", "CommandInputRecordField"); ("https://w3id.org/cwl/cwl#CommandInputRecordSchema", "CommandInputRecordSchema"); ("https://w3id.org/cwl/cwl#CommandInputSchema", "CommandInputSchema"); ("https://w3id.org/cwl/cwl#CommandLineBindable", "CommandLineBindable"); ("https://w3id.org/cwl/cwl#CommandLineBinding", "CommandLineBinding"); ("https://w3id.org/cwl/cwl#CommandLineTool", "CommandLineTool"); ("https://w3id.org/cwl/cwl#CommandOutputArraySchema", "CommandOutputArraySchema"); ("https://w3id.org/cwl/cwl#CommandOutputBinding", "CommandOutputBinding"); ("https://w3id.org/cwl/cwl#CommandOutputEnumSchema", "CommandOutputEnumSchema"); ("https://w3id.org/cwl/cwl#CommandOutputParameter", "CommandOutputParameter"); ("https://w3id.org/cwl/cwl#CommandOutputRecordField", "CommandOutputRecordField"); ("https://w3id.org/cwl/cwl#CommandOutputRecordSchema", "CommandOutputRecordSchema"); ("https://w3id.org/cwl/cwl#Directory", "Directory"); ("https://w3id.org/cwl/cwl#Dirent", "Dirent"); ("https://w3id.org/cwl/cwl#DockerRequirement", "DockerRequirement"); ("https://w3id.org/cwl/salad#Documented", "Documented"); ("https://w3id.org/cwl/salad#EnumSchema", "EnumSchema"); ("https://w3id.org/cwl/cwl#EnvVarRequirement", "EnvVarRequirement"); ("https://w3id.org/cwl/cwl#EnvironmentDef", "EnvironmentDef"); ("https://w3id.org/cwl/cwl#Expression", "Expression"); ("https://w3id.org/cwl/cwl#ExpressionPlaceholder", "ExpressionPlaceholder"); ("https://w3id.org/cwl/cwl#ExpressionTool", "ExpressionTool"); ("https://w3id.org/cwl/cwl#ExpressionToolOutputParameter", "ExpressionToolOutputParameter"); ("https://w3id.org/cwl/cwl#FieldBase", "FieldBase"); ("https://w3id.org/cwl/cwl#File", "File"); ("https://w3id.org/cwl/cwl#IOSchema", "IOSchema"); ("https://w3id.org/cwl/cwl#Identified", "Identified"); ("https://w3id.org/cwl/cwl#IdentifierRequired", "IdentifierRequired"); ("https://w3id.org/cwl/cwl#InitialWorkDirRequirement", "InitialWorkDirRequirement"); ("https://w3id.org/cwl/cwl#InlineJavascriptRequirement", "InlineJavascriptRequirement"); ("https://w3id.org/cwl/cwl#InplaceUpdateRequirement", "InplaceUpdateRequirement"); ("https://w3id.org/cwl/cwl#InputArraySchema", "InputArraySchema"); ("https://w3id.org/cwl/cwl#InputBinding", "InputBinding"); ("https://w3id.org/cwl/cwl#InputEnumSchema", "InputEnumSchema"); ("https://w3id.org/cwl/cwl#InputFormat", "InputFormat"); ("https://w3id.org/cwl/cwl#InputParameter", "InputParameter"); ("https://w3id.org/cwl/cwl#InputRecordField", "InputRecordField"); ("https://w3id.org/cwl/cwl#InputRecordSchema", "InputRecordSchema"); ("https://w3id.org/cwl/cwl#InputSchema", "InputSchema"); ("https://w3id.org/cwl/cwl#Labeled", "Labeled"); ("https://w3id.org/cwl/cwl#LinkMergeMethod", "LinkMergeMethod"); ("https://w3id.org/cwl/cwl#LoadContents", "LoadContents"); ("https://w3id.org/cwl/cwl#LoadListingEnum", "LoadListingEnum"); ("https://w3id.org/cwl/cwl#LoadListingRequirement", "LoadListingRequirement"); ("http://commonwl.org/cwltool#Loop", "Loop"); ("http://commonwl.org/cwltool#LoopInput", "LoopInput"); ("http://commonwl.org/cwltool#MPIRequirement", "MPIRequirement"); ("https://w3id.org/cwl/salad#MapSchema", "MapSchema"); ("https://w3id.org/cwl/cwl#MultipleInputFeatureRequirement", "MultipleInputFeatureRequirement"); ("https://w3id.org/cwl/cwl#NetworkAccess", "NetworkAccess"); ("https://w3id.org/cwl/cwl#Operation", "Operation"); ("https://w3id.org/cwl/cwl#OperationInputParameter", "OperationInputParameter"); ("https://w3id.org/cwl/cwl#OperationOutputParameter", "OperationOutputParameter"); ("https://w3id.org/cwl/cwl#OutputArraySchema", "OutputArraySchema"); ("https://w3id.org/cwl/cwl#OutputEnumSchema", "OutputEnumSchema"); ("https://w3id.org/cwl/cwl#OutputFormat", "OutputFormat"); ("https://w3id.org/cwl/cwl#OutputParameter", "OutputParameter"); ("https://w3id.org/cwl/cwl#OutputRecordField", "OutputRecordField"); ("https://w3id.org/cwl/cwl#OutputRecordSchema", "OutputRecordSchema"); ("https://w3id.org/cwl/cwl#OutputSchema", "OutputSchema"); ("https://w3id.org/cwl/cwl#Parameter", "Parameter"); ("https://w3id.org/cwl/cwl#PickValueMethod", "PickValueMethod"); ("https://w3id.org/cwl/salad#PrimitiveType", "PrimitiveType"); ("https://w3id.org/cwl/cwl#Process", "Process"); ("http://commonwl.org/cwltool#ProcessGenerator", "ProcessGenerator"); ("https://w3id.org/cwl/cwl#ProcessRequirement", "ProcessRequirement"); ("https://w3id.org/cwl/salad#RecordField", "RecordField"); ("https://w3id.org/cwl/salad#RecordSchema", "RecordSchema"); ("https://w3id.org/cwl/cwl#ResourceRequirement", "ResourceRequirement"); ("https://w3id.org/cwl/cwl#ScatterFeatureRequirement", "ScatterFeatureRequirement"); ("https://w3id.org/cwl/cwl#ScatterMethod", "ScatterMethod"); ("https://w3id.org/cwl/cwl#SchemaDefRequirement", "SchemaDefRequirement"); ("https://w3id.org/cwl/cwl#SecondaryFileSchema", "SecondaryFileSchema"); ("http://commonwl.org/cwltool#Secrets", "Secrets"); ("https://w3id.org/cwl/cwl#ShellCommandRequirement", "ShellCommandRequirement"); ("http://commonwl.org/cwltool#ShmSize", "ShmSize"); ("https://w3id.org/cwl/cwl#Sink", "Sink"); ("https://w3id.org/cwl/cwl#SoftwarePackage", "SoftwarePackage"); ("https://w3id.org/cwl/cwl#SoftwareRequirement", "SoftwareRequirement"); ("https://w3id.org/cwl/cwl#StepInputExpressionRequirement", "StepInputExpressionRequirement"); ("https://w3id.org/cwl/cwl#SubworkflowFeatureRequirement", "SubworkflowFeatureRequirement"); ("https://w3id.org/cwl/cwl#ToolTimeLimit", "ToolTimeLimit"); ("https://w3id.org/cwl/salad#UnionSchema", "UnionSchema"); ("https://w3id.org/cwl/cwl#WorkReuse", "WorkReuse"); ("https://w3id.org/cwl/cwl#Workflow", "Workflow"); ("https://w3id.org/cwl/cwl#WorkflowInputParameter", "WorkflowInputParameter"); ("https://w3id.org/cwl/cwl#WorkflowOutputParameter", "WorkflowOutputParameter"); ("https://w3id.org/cwl/cwl#WorkflowStep", "WorkflowStep"); ("https://w3id.org/cwl/cwl#WorkflowStepInput", "WorkflowStepInput"); ("https://w3id.org/cwl/cwl#WorkflowStepOutput", "WorkflowStepOutput"); ("http://commonwl.org/cwltool#Loop/outputMethod/LoopOutputModes/all", "all"); ("https://w3id.org/cwl/cwl#PickValueMethod/all_non_null", "all_non_null"); ("https://w3id.org/cwl/salad#array", "array"); ("http://www.w3.org/2001/XMLSchema#boolean", "boolean"); ("https://w3id.org/cwl/cwl#LoadListingEnum/deep_listing", "deep_listing"); ("https://w3id.org/cwl/cwl#ScatterMethod/dotproduct", "dotproduct"); ("http://www.w3.org/2001/XMLSchema#double", "double"); ("https://w3id.org/cwl/salad#enum", "enum"); ("https://w3id.org/cwl/cwl#PickValueMethod/first_non_null", "first_non_null"); ("https://w3id.org/cwl/cwl#ScatterMethod/flat_crossproduct", "flat_crossproduct"); ("http://www.w3.org/2001/XMLSchema#float", "float"); ("http://www.w3.org/2001/XMLSchema#int", "int"); ("http://commonwl.org/cwltool#Loop/outputMethod/LoopOutputModes/last", "last"); ("http://www.w3.org/2001/XMLSchema#long", "long"); ("https://w3id.org/cwl/salad#map", "map"); ("https://w3id.org/cwl/cwl#LinkMergeMethod/merge_flattened", "merge_flattened"); ("https://w3id.org/cwl/cwl#LinkMergeMethod/merge_nested", "merge_nested"); ("https://w3id.org/cwl/cwl#ScatterMethod/nested_crossproduct", "nested_crossproduct"); ("https://w3id.org/cwl/cwl#LoadListingEnum/no_listing", "no_listing"); ("https://w3id.org/cwl/salad#null", "null"); ("https://w3id.org/cwl/salad#record", "record"); ("https://w3id.org/cwl/cwl#LoadListingEnum/shallow_listing", "shallow_listing"); ("https://w3id.org/cwl/cwl#stderr", "stderr"); ("https://w3id.org/cwl/cwl#stdin", "stdin"); ("https://w3id.org/cwl/cwl#stdout", "stdout"); ("http://www.w3.org/2001/XMLSchema#string", "string"); ("https://w3id.org/cwl/cwl#PickValueMethod/the_only_non_null", "the_only_non_null"); ("https://w3id.org/cwl/salad#union", "union"); ("https://w3id.org/cwl/cwl#v1.2", "v1.2")].

Definition classes (s : string) : option class := dget s all_classes.
Definition proxies (s : string) : option loader := dget s named.
(** The loader of [load_document], line 29008 *)
Definition top : loader := union_of_CommandLineToolLoader_or_ExpressionToolLoader_or_WorkflowLoader_or_OperationLoader_or_ProcessGeneratorLoader_or_array_of_union_of_CommandLineToolLoader_or_ExpressionToolLoader_or_WorkflowLoader_or_OperationLoader_or_ProcessGeneratorLoader.
