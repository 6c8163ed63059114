(** * The loaders, classes and terms of src/cwl_utils/parser/cwl_v1_1.py
      Written by tools/gen_tables.py; the numbers are lines of that file.
      [CWLObjectTypeLoader], a union that contains itself, is a named loader here. *)
From Verif Require Import PyBase LoaderModel.

(** line 24339 *)
Definition strtype : loader := LPrim PStr.
(** line 24340 *)
Definition inttype : loader := LPrim PInt.
(** line 24341 *)
Definition floattype : loader := LPrim PFloat.
(** line 24342 *)
Definition booltype : loader := LPrim PBool.
(** line 24343 *)
Definition None_type : loader := LPrim PNull.
(** line 24344 *)
Definition Any_type : loader := LAny.
(** line 24345 *)
Definition DocumentedProxyLoader : loader := LProxy "DocumentedLoader".
(** line 24346 *)
Definition PrimitiveTypeLoader : loader := LEnum ["null"; "boolean"; "int"; "long"; "float"; "double"; "string"].
(** line 24377 *)
Definition AnyLoader : loader := LEnum ["Any"].
(** line 24381 *)
Definition RecordFieldLoader : loader := LRecord "schema_salad.metaschema.RecordField" None None.
(** line 24384 *)
Definition RecordSchemaLoader : loader := LRecord "schema_salad.metaschema.RecordSchema" None None.
(** line 24387 *)
Definition EnumSchemaLoader : loader := LRecord "schema_salad.metaschema.EnumSchema" None None.
(** line 24388 *)
Definition ArraySchemaLoader : loader := LRecord "schema_salad.metaschema.ArraySchema" None None.
(** line 24391 *)
Definition MapSchemaLoader : loader := LRecord "schema_salad.metaschema.MapSchema" None None.
(** line 24392 *)
Definition UnionSchemaLoader : loader := LRecord "schema_salad.metaschema.UnionSchema" None None.
(** line 24395 *)
Definition CWLTypeLoader : loader := LEnum ["null"; "boolean"; "int"; "long"; "float"; "double"; "string"; "File"; "Directory"].
(** line 24416 *)
Definition CWLArraySchemaLoader : loader := LRecord "CWLArraySchema" None None.
(** line 24417 *)
Definition CWLRecordFieldLoader : loader := LRecord "CWLRecordField" None None.
(** line 24418 *)
Definition CWLRecordSchemaLoader : loader := LRecord "CWLRecordSchema" None None.
(** line 24419 *)
Definition FileLoader : loader := LRecord "File" None None.
(** line 24420 *)
Definition DirectoryLoader : loader := LRecord "Directory" None None.
(** line 24422 *)
Definition union_of_None_type_or_CWLObjectTypeLoader : loader := LUnion [None_type; (LProxy "CWLObjectTypeLoader")].
(** line 24428 *)
Definition array_of_union_of_None_type_or_CWLObjectTypeLoader : loader := LArray union_of_None_type_or_CWLObjectTypeLoader.
(** line 24431 *)
Definition map_of_union_of_None_type_or_CWLObjectTypeLoader : loader := LMap union_of_None_type_or_CWLObjectTypeLoader None None.
(** line 24434 *)
Definition InlineJavascriptRequirementLoader : loader := LRecord "InlineJavascriptRequirement" None None.
(** line 24437 *)
Definition SchemaDefRequirementLoader : loader := LRecord "SchemaDefRequirement" None None.
(** line 24438 *)
Definition LoadListingRequirementLoader : loader := LRecord "LoadListingRequirement" None None.
(** line 24439 *)
Definition DockerRequirementLoader : loader := LRecord "DockerRequirement" None None.
(** line 24440 *)
Definition SoftwareRequirementLoader : loader := LRecord "SoftwareRequirement" None None.
(** line 24441 *)
Definition InitialWorkDirRequirementLoader : loader := LRecord "InitialWorkDirRequirement" None None.
(** line 24444 *)
Definition EnvVarRequirementLoader : loader := LRecord "EnvVarRequirement" None None.
(** line 24445 *)
Definition ShellCommandRequirementLoader : loader := LRecord "ShellCommandRequirement" None None.
(** line 24448 *)
Definition ResourceRequirementLoader : loader := LRecord "ResourceRequirement" None None.
(** line 24449 *)
Definition WorkReuseLoader : loader := LRecord "WorkReuse" None None.
(** line 24450 *)
Definition NetworkAccessLoader : loader := LRecord "NetworkAccess" None None.
(** line 24451 *)
Definition InplaceUpdateRequirementLoader : loader := LRecord "InplaceUpdateRequirement" None None.
(** line 24454 *)
Definition ToolTimeLimitLoader : loader := LRecord "ToolTimeLimit" None None.
(** line 24455 *)
Definition SubworkflowFeatureRequirementLoader : loader := LRecord "SubworkflowFeatureRequirement" None None.
(** line 24458 *)
Definition ScatterFeatureRequirementLoader : loader := LRecord "ScatterFeatureRequirement" None None.
(** line 24461 *)
Definition MultipleInputFeatureRequirementLoader : loader := LRecord "MultipleInputFeatureRequirement" None None.
(** line 24464 *)
Definition StepInputExpressionRequirementLoader : loader := LRecord "StepInputExpressionRequirement" None None.
(** line 24467 *)
Definition SecretsLoader : loader := LRecord "Secrets" None None.
(** line 24468 *)
Definition MPIRequirementLoader : loader := LRecord "MPIRequirement" None None.
(** line 24469 *)
Definition CUDARequirementLoader : loader := LRecord "CUDARequirement" None None.
(** line 24470 *)
Definition ShmSizeLoader : loader := LRecord "ShmSize" None None.
(** line 24471 *)
Definition union_of_InlineJavascriptRequirementLoader_or_SchemaDefRequirementLoader_or_LoadListingRequirementLoader_or_DockerRequirementLoader_or_SoftwareRequirementLoader_or_InitialWorkDirRequirementLoader_or_EnvVarRequirementLoader_or_ShellCommandRequirementLoader_or_ResourceRequirementLoader_or_WorkReuseLoader_or_NetworkAccessLoader_or_InplaceUpdateRequirementLoader_or_ToolTimeLimitLoader_or_SubworkflowFeatureRequirementLoader_or_ScatterFeatureRequirementLoader_or_MultipleInputFeatureRequirementLoader_or_StepInputExpressionRequirementLoader_or_SecretsLoader_or_MPIRequirementLoader_or_CUDARequirementLoader_or_ShmSizeLoader : loader := LUnion [InlineJavascriptRequirementLoader; SchemaDefRequirementLoader; LoadListingRequirementLoader; DockerRequirementLoader; SoftwareRequirementLoader; InitialWorkDirRequirementLoader; EnvVarRequirementLoader; ShellCommandRequirementLoader; ResourceRequirementLoader; WorkReuseLoader; NetworkAccessLoader; InplaceUpdateRequirementLoader; ToolTimeLimitLoader; SubworkflowFeatureRequirementLoader; ScatterFeatureRequirementLoader; MultipleInputFeatureRequirementLoader; StepInputExpressionRequirementLoader; SecretsLoader; MPIRequirementLoader; CUDARequirementLoader; ShmSizeLoader].
(** line 24498 *)
Definition ProcessRequirementProxyLoader : loader := LProxy "ProcessRequirementLoader".
(** line 24499 *)
Definition array_of_ProcessRequirement : loader := LArray ProcessRequirementProxyLoader.
(** line 24500 *)
Definition union_of_None_type_or_array_of_ProcessRequirement_or_CWLObjectTypeLoader : loader := LUnion [None_type; array_of_ProcessRequirement; (LProxy "CWLObjectTypeLoader")].
(** line 24509 *)
Definition map_of_union_of_None_type_or_array_of_ProcessRequirement_or_CWLObjectTypeLoader : loader := LMap union_of_None_type_or_array_of_ProcessRequirement_or_CWLObjectTypeLoader (Some "@list") (Some true).
(** line 24520 *)
Definition CWLVersionLoader : loader := LEnum ["v1.1"].
(** line 24524 *)
Definition LabeledProxyLoader : loader := LProxy "LabeledLoader".
(** line 24525 *)
Definition IdentifiedProxyLoader : loader := LProxy "IdentifiedLoader".
(** line 24526 *)
Definition IdentifierRequiredProxyLoader : loader := LProxy "IdentifierRequiredLoader".
(** line 24527 *)
Definition LoadListingEnumLoader : loader := LEnum ["no_listing"; "shallow_listing"; "deep_listing"].
(** line 24544 *)
Definition LoadContentsProxyLoader : loader := LProxy "LoadContentsLoader".
(** line 24545 *)
Definition FieldBaseProxyLoader : loader := LProxy "FieldBaseLoader".
(** line 24546 *)
Definition InputFormatProxyLoader : loader := LProxy "InputFormatLoader".
(** line 24547 *)
Definition OutputFormatProxyLoader : loader := LProxy "OutputFormatLoader".
(** line 24548 *)
Definition ParameterProxyLoader : loader := LProxy "ParameterLoader".
(** line 24549 *)
Definition ExpressionLoader : loader := LExpression.
(** line 24550 *)
Definition InputBindingLoader : loader := LRecord "InputBinding" None None.
(** line 24551 *)
Definition IOSchemaProxyLoader : loader := LProxy "IOSchemaLoader".
(** line 24552 *)
Definition InputSchemaProxyLoader : loader := LProxy "InputSchemaLoader".
(** line 24553 *)
Definition OutputSchemaProxyLoader : loader := LProxy "OutputSchemaLoader".
(** line 24554 *)
Definition InputRecordFieldLoader : loader := LRecord "InputRecordField" None None.
(** line 24555 *)
Definition InputRecordSchemaLoader : loader := LRecord "InputRecordSchema" None None.
(** line 24556 *)
Definition InputEnumSchemaLoader : loader := LRecord "InputEnumSchema" None None.
(** line 24557 *)
Definition InputArraySchemaLoader : loader := LRecord "InputArraySchema" None None.
(** line 24558 *)
Definition OutputRecordFieldLoader : loader := LRecord "OutputRecordField" None None.
(** line 24559 *)
Definition OutputRecordSchemaLoader : loader := LRecord "OutputRecordSchema" None None.
(** line 24560 *)
Definition OutputEnumSchemaLoader : loader := LRecord "OutputEnumSchema" None None.
(** line 24561 *)
Definition OutputArraySchemaLoader : loader := LRecord "OutputArraySchema" None None.
(** line 24562 *)
Definition InputParameterProxyLoader : loader := LProxy "InputParameterLoader".
(** line 24563 *)
Definition OutputParameterProxyLoader : loader := LProxy "OutputParameterLoader".
(** line 24564 *)
Definition ProcessProxyLoader : loader := LProxy "ProcessLoader".
(** line 24565 *)
Definition CommandInputSchemaProxyLoader : loader := LProxy "CommandInputSchemaLoader".
(** line 24566 *)
Definition SecondaryFileSchemaLoader : loader := LRecord "SecondaryFileSchema" None None.
(** line 24567 *)
Definition EnvironmentDefLoader : loader := LRecord "EnvironmentDef" None None.
(** line 24568 *)
Definition CommandLineBindingLoader : loader := LRecord "CommandLineBinding" None None.
(** line 24569 *)
Definition CommandOutputBindingLoader : loader := LRecord "CommandOutputBinding" None None.
(** line 24570 *)
Definition CommandLineBindableProxyLoader : loader := LProxy "CommandLineBindableLoader".
(** line 24571 *)
Definition CommandInputRecordFieldLoader : loader := LRecord "CommandInputRecordField" None None.
(** line 24574 *)
Definition CommandInputRecordSchemaLoader : loader := LRecord "CommandInputRecordSchema" None None.
(** line 24577 *)
Definition CommandInputEnumSchemaLoader : loader := LRecord "CommandInputEnumSchema" None None.
(** line 24578 *)
Definition CommandInputArraySchemaLoader : loader := LRecord "CommandInputArraySchema" None None.
(** line 24581 *)
Definition CommandOutputRecordFieldLoader : loader := LRecord "CommandOutputRecordField" None None.
(** line 24584 *)
Definition CommandOutputRecordSchemaLoader : loader := LRecord "CommandOutputRecordSchema" None None.
(** line 24587 *)
Definition CommandOutputEnumSchemaLoader : loader := LRecord "CommandOutputEnumSchema" None None.
(** line 24590 *)
Definition CommandOutputArraySchemaLoader : loader := LRecord "CommandOutputArraySchema" None None.
(** line 24593 *)
Definition CommandInputParameterLoader : loader := LRecord "CommandInputParameter" None None.
(** line 24594 *)
Definition CommandOutputParameterLoader : loader := LRecord "CommandOutputParameter" None None.
(** line 24595 *)
Definition stdinLoader : loader := LEnum ["stdin"].
(** line 24619 *)
Definition stdoutLoader : loader := LEnum ["stdout"].
(** line 24670 *)
Definition stderrLoader : loader := LEnum ["stderr"].
(** line 24721 *)
Definition CommandLineToolLoader : loader := LRecord "CommandLineTool" None None.
(** line 24722 *)
Definition SoftwarePackageLoader : loader := LRecord "SoftwarePackage" None None.
(** line 24723 *)
Definition DirentLoader : loader := LRecord "Dirent" None None.
(** line 24724 *)
Definition ExpressionToolOutputParameterLoader : loader := LRecord "ExpressionToolOutputParameter" None None.
(** line 24727 *)
Definition WorkflowInputParameterLoader : loader := LRecord "WorkflowInputParameter" None None.
(** line 24728 *)
Definition ExpressionToolLoader : loader := LRecord "ExpressionTool" None None.
(** line 24729 *)
Definition LinkMergeMethodLoader : loader := LEnum ["merge_nested"; "merge_flattened"].
(** line 24739 *)
Definition WorkflowOutputParameterLoader : loader := LRecord "WorkflowOutputParameter" None None.
(** line 24742 *)
Definition SinkProxyLoader : loader := LProxy "SinkLoader".
(** line 24743 *)
Definition WorkflowStepInputLoader : loader := LRecord "WorkflowStepInput" None None.
(** line 24744 *)
Definition WorkflowStepOutputLoader : loader := LRecord "WorkflowStepOutput" None None.
(** line 24745 *)
Definition ScatterMethodLoader : loader := LEnum ["dotproduct"; "nested_crossproduct"; "flat_crossproduct"].
(** line 24756 *)
Definition WorkflowStepLoader : loader := LRecord "WorkflowStep" None None.
(** line 24757 *)
Definition WorkflowLoader : loader := LRecord "Workflow" None None.
(** line 24758 *)
Definition ProcessGeneratorLoader : loader := LRecord "ProcessGenerator" None None.
(** line 24759 *)
Definition array_of_strtype : loader := LArray strtype.
(** line 24760 *)
Definition union_of_None_type_or_strtype_or_array_of_strtype : loader := LUnion [None_type; strtype; array_of_strtype].
(** line 24767 *)
Definition uri_strtype_True_False_None_None : loader := LUri strtype true false None None.
(** line 24768 *)
Definition union_of_PrimitiveTypeLoader_or_RecordSchemaLoader_or_EnumSchemaLoader_or_ArraySchemaLoader_or_MapSchemaLoader_or_UnionSchemaLoader_or_strtype : loader := LUnion [PrimitiveTypeLoader; RecordSchemaLoader; EnumSchemaLoader; ArraySchemaLoader; MapSchemaLoader; UnionSchemaLoader; strtype].
(** line 24781 *)
Definition array_of_union_of_PrimitiveTypeLoader_or_RecordSchemaLoader_or_EnumSchemaLoader_or_ArraySchemaLoader_or_MapSchemaLoader_or_UnionSchemaLoader_or_strtype : loader := LArray union_of_PrimitiveTypeLoader_or_RecordSchemaLoader_or_EnumSchemaLoader_or_ArraySchemaLoader_or_MapSchemaLoader_or_UnionSchemaLoader_or_strtype.
(** line 24786 *)
Definition union_of_PrimitiveTypeLoader_or_RecordSchemaLoader_or_EnumSchemaLoader_or_ArraySchemaLoader_or_MapSchemaLoader_or_UnionSchemaLoader_or_strtype_or_array_of_union_of_PrimitiveTypeLoader_or_RecordSchemaLoader_or_EnumSchemaLoader_or_ArraySchemaLoader_or_MapSchemaLoader_or_UnionSchemaLoader_or_strtype : loader := LUnion [PrimitiveTypeLoader; RecordSchemaLoader; EnumSchemaLoader; ArraySchemaLoader; MapSchemaLoader; UnionSchemaLoader; strtype; array_of_union_of_PrimitiveTypeLoader_or_RecordSchemaLoader_or_EnumSchemaLoader_or_ArraySchemaLoader_or_MapSchemaLoader_or_UnionSchemaLoader_or_strtype].
(** line 24800 *)
Definition typedsl_union_of_PrimitiveTypeLoader_or_RecordSchemaLoader_or_EnumSchemaLoader_or_ArraySchemaLoader_or_MapSchemaLoader_or_UnionSchemaLoader_or_strtype_or_array_of_union_of_PrimitiveTypeLoader_or_RecordSchemaLoader_or_EnumSchemaLoader_or_ArraySchemaLoader_or_MapSchemaLoader_or_UnionSchemaLoader_or_strtype_2 : loader := LTypeDSL union_of_PrimitiveTypeLoader_or_RecordSchemaLoader_or_EnumSchemaLoader_or_ArraySchemaLoader_or_MapSchemaLoader_or_UnionSchemaLoader_or_strtype_or_array_of_union_of_PrimitiveTypeLoader_or_RecordSchemaLoader_or_EnumSchemaLoader_or_ArraySchemaLoader_or_MapSchemaLoader_or_UnionSchemaLoader_or_strtype (Some 2) "v1.1".
(** line 24807 *)
Definition array_of_RecordFieldLoader : loader := LArray RecordFieldLoader.
(** line 24808 *)
Definition union_of_None_type_or_array_of_RecordFieldLoader : loader := LUnion [None_type; array_of_RecordFieldLoader].
(** line 24814 *)
Definition idmap_fields_union_of_None_type_or_array_of_RecordFieldLoader : loader := LIdMap union_of_None_type_or_array_of_RecordFieldLoader "name" (Some "type").
(** line 24817 *)
Definition Record_nameLoader : loader := LEnum ["record"].
(** line 24818 *)
Definition typedsl_Record_nameLoader_2 : loader := LTypeDSL Record_nameLoader (Some 2) "v1.1".
(** line 24819 *)
Definition union_of_None_type_or_strtype : loader := LUnion [None_type; strtype].
(** line 24825 *)
Definition uri_union_of_None_type_or_strtype_True_False_None_None : loader := LUri union_of_None_type_or_strtype true false None None.
(** line 24828 *)
Definition uri_array_of_strtype_True_False_None_None : loader := LUri array_of_strtype true false None None.
(** line 24831 *)
Definition Enum_nameLoader : loader := LEnum ["enum"].
(** line 24832 *)
Definition typedsl_Enum_nameLoader_2 : loader := LTypeDSL Enum_nameLoader (Some 2) "v1.1".
(** line 24833 *)
Definition uri_union_of_PrimitiveTypeLoader_or_RecordSchemaLoader_or_EnumSchemaLoader_or_ArraySchemaLoader_or_MapSchemaLoader_or_UnionSchemaLoader_or_strtype_or_array_of_union_of_PrimitiveTypeLoader_or_RecordSchemaLoader_or_EnumSchemaLoader_or_ArraySchemaLoader_or_MapSchemaLoader_or_UnionSchemaLoader_or_strtype_False_True_2_None : loader := LUri union_of_PrimitiveTypeLoader_or_RecordSchemaLoader_or_EnumSchemaLoader_or_ArraySchemaLoader_or_MapSchemaLoader_or_UnionSchemaLoader_or_strtype_or_array_of_union_of_PrimitiveTypeLoader_or_RecordSchemaLoader_or_EnumSchemaLoader_or_ArraySchemaLoader_or_MapSchemaLoader_or_UnionSchemaLoader_or_strtype false true (Some 2) None.
(** line 24842 *)
Definition Array_nameLoader : loader := LEnum ["array"].
(** line 24843 *)
Definition typedsl_Array_nameLoader_2 : loader := LTypeDSL Array_nameLoader (Some 2) "v1.1".
(** line 24844 *)
Definition Map_nameLoader : loader := LEnum ["map"].
(** line 24845 *)
Definition typedsl_Map_nameLoader_2 : loader := LTypeDSL Map_nameLoader (Some 2) "v1.1".
(** line 24846 *)
Definition Union_nameLoader : loader := LEnum ["union"].
(** line 24847 *)
Definition typedsl_Union_nameLoader_2 : loader := LTypeDSL Union_nameLoader (Some 2) "v1.1".
(** line 24848 *)
Definition union_of_PrimitiveTypeLoader_or_CWLRecordSchemaLoader_or_EnumSchemaLoader_or_CWLArraySchemaLoader_or_strtype : loader := LUnion [PrimitiveTypeLoader; CWLRecordSchemaLoader; EnumSchemaLoader; CWLArraySchemaLoader; strtype].
(** line 24859 *)
Definition array_of_union_of_PrimitiveTypeLoader_or_CWLRecordSchemaLoader_or_EnumSchemaLoader_or_CWLArraySchemaLoader_or_strtype : loader := LArray union_of_PrimitiveTypeLoader_or_CWLRecordSchemaLoader_or_EnumSchemaLoader_or_CWLArraySchemaLoader_or_strtype.
(** line 24864 *)
Definition union_of_PrimitiveTypeLoader_or_CWLRecordSchemaLoader_or_EnumSchemaLoader_or_CWLArraySchemaLoader_or_strtype_or_array_of_union_of_PrimitiveTypeLoader_or_CWLRecordSchemaLoader_or_EnumSchemaLoader_or_CWLArraySchemaLoader_or_strtype : loader := LUnion [PrimitiveTypeLoader; CWLRecordSchemaLoader; EnumSchemaLoader; CWLArraySchemaLoader; strtype; array_of_union_of_PrimitiveTypeLoader_or_CWLRecordSchemaLoader_or_EnumSchemaLoader_or_CWLArraySchemaLoader_or_strtype].
(** line 24876 *)
Definition uri_union_of_PrimitiveTypeLoader_or_CWLRecordSchemaLoader_or_EnumSchemaLoader_or_CWLArraySchemaLoader_or_strtype_or_array_of_union_of_PrimitiveTypeLoader_or_CWLRecordSchemaLoader_or_EnumSchemaLoader_or_CWLArraySchemaLoader_or_strtype_False_True_2_None : loader := LUri union_of_PrimitiveTypeLoader_or_CWLRecordSchemaLoader_or_EnumSchemaLoader_or_CWLArraySchemaLoader_or_strtype_or_array_of_union_of_PrimitiveTypeLoader_or_CWLRecordSchemaLoader_or_EnumSchemaLoader_or_CWLArraySchemaLoader_or_strtype false true (Some 2) None.
(** line 24885 *)
Definition typedsl_union_of_PrimitiveTypeLoader_or_CWLRecordSchemaLoader_or_EnumSchemaLoader_or_CWLArraySchemaLoader_or_strtype_or_array_of_union_of_PrimitiveTypeLoader_or_CWLRecordSchemaLoader_or_EnumSchemaLoader_or_CWLArraySchemaLoader_or_strtype_2 : loader := LTypeDSL union_of_PrimitiveTypeLoader_or_CWLRecordSchemaLoader_or_EnumSchemaLoader_or_CWLArraySchemaLoader_or_strtype_or_array_of_union_of_PrimitiveTypeLoader_or_CWLRecordSchemaLoader_or_EnumSchemaLoader_or_CWLArraySchemaLoader_or_strtype (Some 2) "v1.1".
(** line 24892 *)
Definition array_of_CWLRecordFieldLoader : loader := LArray CWLRecordFieldLoader.
(** line 24893 *)
Definition union_of_None_type_or_array_of_CWLRecordFieldLoader : loader := LUnion [None_type; array_of_CWLRecordFieldLoader].
(** line 24899 *)
Definition idmap_fields_union_of_None_type_or_array_of_CWLRecordFieldLoader : loader := LIdMap union_of_None_type_or_array_of_CWLRecordFieldLoader "name" (Some "type").
(** line 24902 *)
Definition File_classLoader : loader := LEnum ["File"].
(** line 24903 *)
Definition uri_File_classLoader_False_True_None_None : loader := LUri File_classLoader false true None None.
(** line 24906 *)
Definition uri_union_of_None_type_or_strtype_False_False_None_None : loader := LUri union_of_None_type_or_strtype false false None None.
(** line 24909 *)
Definition union_of_None_type_or_inttype : loader := LUnion [None_type; inttype].
(** line 24915 *)
Definition union_of_FileLoader_or_DirectoryLoader : loader := LUnion [FileLoader; DirectoryLoader].
(** line 24921 *)
Definition array_of_union_of_FileLoader_or_DirectoryLoader : loader := LArray union_of_FileLoader_or_DirectoryLoader.
(** line 24924 *)
Definition union_of_None_type_or_array_of_union_of_FileLoader_or_DirectoryLoader : loader := LUnion [None_type; array_of_union_of_FileLoader_or_DirectoryLoader].
(** line 24932 *)
Definition secondaryfilesdsl_union_of_None_type_or_array_of_union_of_FileLoader_or_DirectoryLoader : loader := LUnion [(LSecondary union_of_None_type_or_array_of_union_of_FileLoader_or_DirectoryLoader); union_of_None_type_or_array_of_union_of_FileLoader_or_DirectoryLoader].
(** line 24942 *)
Definition uri_union_of_None_type_or_strtype_True_False_None_True : loader := LUri union_of_None_type_or_strtype true false None (Some true).
(** line 24945 *)
Definition Directory_classLoader : loader := LEnum ["Directory"].
(** line 24946 *)
Definition uri_Directory_classLoader_False_True_None_None : loader := LUri Directory_classLoader false true None None.
(** line 24949 *)
Definition union_of_None_type_or_booltype : loader := LUnion [None_type; booltype].
(** line 24955 *)
Definition union_of_None_type_or_LoadListingEnumLoader : loader := LUnion [None_type; LoadListingEnumLoader].
(** line 24961 *)
Definition array_of_SecondaryFileSchemaLoader : loader := LArray SecondaryFileSchemaLoader.
(** line 24962 *)
Definition union_of_None_type_or_SecondaryFileSchemaLoader_or_array_of_SecondaryFileSchemaLoader : loader := LUnion [None_type; SecondaryFileSchemaLoader; array_of_SecondaryFileSchemaLoader].
(** line 24971 *)
Definition secondaryfilesdsl_union_of_None_type_or_SecondaryFileSchemaLoader_or_array_of_SecondaryFileSchemaLoader : loader := LUnion [(LSecondary union_of_None_type_or_SecondaryFileSchemaLoader_or_array_of_SecondaryFileSchemaLoader); union_of_None_type_or_SecondaryFileSchemaLoader_or_array_of_SecondaryFileSchemaLoader].
(** line 24981 *)
Definition union_of_None_type_or_strtype_or_array_of_strtype_or_ExpressionLoader : loader := LUnion [None_type; strtype; array_of_strtype; ExpressionLoader].
(** line 24991 *)
Definition uri_union_of_None_type_or_strtype_or_array_of_strtype_or_ExpressionLoader_True_False_None_True : loader := LUri union_of_None_type_or_strtype_or_array_of_strtype_or_ExpressionLoader true false None (Some true).
(** line 25000 *)
Definition union_of_None_type_or_strtype_or_ExpressionLoader : loader := LUnion [None_type; strtype; ExpressionLoader].
(** line 25007 *)
Definition uri_union_of_None_type_or_strtype_or_ExpressionLoader_True_False_None_True : loader := LUri union_of_None_type_or_strtype_or_ExpressionLoader true false None (Some true).
(** line 25012 *)
Definition union_of_CWLTypeLoader_or_InputRecordSchemaLoader_or_InputEnumSchemaLoader_or_InputArraySchemaLoader_or_strtype : loader := LUnion [CWLTypeLoader; InputRecordSchemaLoader; InputEnumSchemaLoader; InputArraySchemaLoader; strtype].
(** line 25023 *)
Definition array_of_union_of_CWLTypeLoader_or_InputRecordSchemaLoader_or_InputEnumSchemaLoader_or_InputArraySchemaLoader_or_strtype : loader := LArray union_of_CWLTypeLoader_or_InputRecordSchemaLoader_or_InputEnumSchemaLoader_or_InputArraySchemaLoader_or_strtype.
(** line 25028 *)
Definition union_of_CWLTypeLoader_or_InputRecordSchemaLoader_or_InputEnumSchemaLoader_or_InputArraySchemaLoader_or_strtype_or_array_of_union_of_CWLTypeLoader_or_InputRecordSchemaLoader_or_InputEnumSchemaLoader_or_InputArraySchemaLoader_or_strtype : loader := LUnion [CWLTypeLoader; InputRecordSchemaLoader; InputEnumSchemaLoader; InputArraySchemaLoader; strtype; array_of_union_of_CWLTypeLoader_or_InputRecordSchemaLoader_or_InputEnumSchemaLoader_or_InputArraySchemaLoader_or_strtype].
(** line 25040 *)
Definition typedsl_union_of_CWLTypeLoader_or_InputRecordSchemaLoader_or_InputEnumSchemaLoader_or_InputArraySchemaLoader_or_strtype_or_array_of_union_of_CWLTypeLoader_or_InputRecordSchemaLoader_or_InputEnumSchemaLoader_or_InputArraySchemaLoader_or_strtype_2 : loader := LTypeDSL union_of_CWLTypeLoader_or_InputRecordSchemaLoader_or_InputEnumSchemaLoader_or_InputArraySchemaLoader_or_strtype_or_array_of_union_of_CWLTypeLoader_or_InputRecordSchemaLoader_or_InputEnumSchemaLoader_or_InputArraySchemaLoader_or_strtype (Some 2) "v1.1".
(** line 25047 *)
Definition array_of_InputRecordFieldLoader : loader := LArray InputRecordFieldLoader.
(** line 25048 *)
Definition union_of_None_type_or_array_of_InputRecordFieldLoader : loader := LUnion [None_type; array_of_InputRecordFieldLoader].
(** line 25054 *)
Definition idmap_fields_union_of_None_type_or_array_of_InputRecordFieldLoader : loader := LIdMap union_of_None_type_or_array_of_InputRecordFieldLoader "name" (Some "type").
(** line 25057 *)
Definition uri_union_of_CWLTypeLoader_or_InputRecordSchemaLoader_or_InputEnumSchemaLoader_or_InputArraySchemaLoader_or_strtype_or_array_of_union_of_CWLTypeLoader_or_InputRecordSchemaLoader_or_InputEnumSchemaLoader_or_InputArraySchemaLoader_or_strtype_False_True_2_None : loader := LUri union_of_CWLTypeLoader_or_InputRecordSchemaLoader_or_InputEnumSchemaLoader_or_InputArraySchemaLoader_or_strtype_or_array_of_union_of_CWLTypeLoader_or_InputRecordSchemaLoader_or_InputEnumSchemaLoader_or_InputArraySchemaLoader_or_strtype false true (Some 2) None.
(** line 25066 *)
Definition union_of_CWLTypeLoader_or_OutputRecordSchemaLoader_or_OutputEnumSchemaLoader_or_OutputArraySchemaLoader_or_strtype : loader := LUnion [CWLTypeLoader; OutputRecordSchemaLoader; OutputEnumSchemaLoader; OutputArraySchemaLoader; strtype].
(** line 25077 *)
Definition array_of_union_of_CWLTypeLoader_or_OutputRecordSchemaLoader_or_OutputEnumSchemaLoader_or_OutputArraySchemaLoader_or_strtype : loader := LArray union_of_CWLTypeLoader_or_OutputRecordSchemaLoader_or_OutputEnumSchemaLoader_or_OutputArraySchemaLoader_or_strtype.
(** line 25082 *)
Definition union_of_CWLTypeLoader_or_OutputRecordSchemaLoader_or_OutputEnumSchemaLoader_or_OutputArraySchemaLoader_or_strtype_or_array_of_union_of_CWLTypeLoader_or_OutputRecordSchemaLoader_or_OutputEnumSchemaLoader_or_OutputArraySchemaLoader_or_strtype : loader := LUnion [CWLTypeLoader; OutputRecordSchemaLoader; OutputEnumSchemaLoader; OutputArraySchemaLoader; strtype; array_of_union_of_CWLTypeLoader_or_OutputRecordSchemaLoader_or_OutputEnumSchemaLoader_or_OutputArraySchemaLoader_or_strtype].
(** line 25094 *)
Definition typedsl_union_of_CWLTypeLoader_or_OutputRecordSchemaLoader_or_OutputEnumSchemaLoader_or_OutputArraySchemaLoader_or_strtype_or_array_of_union_of_CWLTypeLoader_or_OutputRecordSchemaLoader_or_OutputEnumSchemaLoader_or_OutputArraySchemaLoader_or_strtype_2 : loader := LTypeDSL union_of_CWLTypeLoader_or_OutputRecordSchemaLoader_or_OutputEnumSchemaLoader_or_OutputArraySchemaLoader_or_strtype_or_array_of_union_of_CWLTypeLoader_or_OutputRecordSchemaLoader_or_OutputEnumSchemaLoader_or_OutputArraySchemaLoader_or_strtype (Some 2) "v1.1".
(** line 25101 *)
Definition array_of_OutputRecordFieldLoader : loader := LArray OutputRecordFieldLoader.
(** line 25102 *)
Definition union_of_None_type_or_array_of_OutputRecordFieldLoader : loader := LUnion [None_type; array_of_OutputRecordFieldLoader].
(** line 25108 *)
Definition idmap_fields_union_of_None_type_or_array_of_OutputRecordFieldLoader : loader := LIdMap union_of_None_type_or_array_of_OutputRecordFieldLoader "name" (Some "type").
(** line 25111 *)
Definition uri_union_of_CWLTypeLoader_or_OutputRecordSchemaLoader_or_OutputEnumSchemaLoader_or_OutputArraySchemaLoader_or_strtype_or_array_of_union_of_CWLTypeLoader_or_OutputRecordSchemaLoader_or_OutputEnumSchemaLoader_or_OutputArraySchemaLoader_or_strtype_False_True_2_None : loader := LUri union_of_CWLTypeLoader_or_OutputRecordSchemaLoader_or_OutputEnumSchemaLoader_or_OutputArraySchemaLoader_or_strtype_or_array_of_union_of_CWLTypeLoader_or_OutputRecordSchemaLoader_or_OutputEnumSchemaLoader_or_OutputArraySchemaLoader_or_strtype false true (Some 2) None.
(** line 25120 *)
Definition union_of_CommandInputParameterLoader_or_WorkflowInputParameterLoader : loader := LUnion [CommandInputParameterLoader; WorkflowInputParameterLoader].
(** line 25128 *)
Definition array_of_InputParameter : loader := LArray InputParameterProxyLoader.
(** line 25129 *)
Definition idmap_inputs_array_of_InputParameter : loader := LIdMap array_of_InputParameter "id" (Some "type").
(** line 25132 *)
Definition union_of_CommandOutputParameterLoader_or_ExpressionToolOutputParameterLoader_or_WorkflowOutputParameterLoader : loader := LUnion [CommandOutputParameterLoader; ExpressionToolOutputParameterLoader; WorkflowOutputParameterLoader].
(** line 25141 *)
Definition array_of_OutputParameter : loader := LArray OutputParameterProxyLoader.
(** line 25142 *)
Definition idmap_outputs_array_of_OutputParameter : loader := LIdMap array_of_OutputParameter "id" (Some "type").
(** line 25145 *)
Definition union_of_None_type_or_array_of_ProcessRequirement : loader := LUnion [None_type; array_of_ProcessRequirement].
(** line 25151 *)
Definition idmap_requirements_union_of_None_type_or_array_of_ProcessRequirement : loader := LIdMap union_of_None_type_or_array_of_ProcessRequirement "class" (Some "None").
(** line 25154 *)
Definition union_of_InlineJavascriptRequirementLoader_or_SchemaDefRequirementLoader_or_LoadListingRequirementLoader_or_DockerRequirementLoader_or_SoftwareRequirementLoader_or_InitialWorkDirRequirementLoader_or_EnvVarRequirementLoader_or_ShellCommandRequirementLoader_or_ResourceRequirementLoader_or_WorkReuseLoader_or_NetworkAccessLoader_or_InplaceUpdateRequirementLoader_or_ToolTimeLimitLoader_or_SubworkflowFeatureRequirementLoader_or_ScatterFeatureRequirementLoader_or_MultipleInputFeatureRequirementLoader_or_StepInputExpressionRequirementLoader_or_SecretsLoader_or_MPIRequirementLoader_or_CUDARequirementLoader_or_ShmSizeLoader_or_Any_type : loader := LUnion [InlineJavascriptRequirementLoader; SchemaDefRequirementLoader; LoadListingRequirementLoader; DockerRequirementLoader; SoftwareRequirementLoader; InitialWorkDirRequirementLoader; EnvVarRequirementLoader; ShellCommandRequirementLoader; ResourceRequirementLoader; WorkReuseLoader; NetworkAccessLoader; InplaceUpdateRequirementLoader; ToolTimeLimitLoader; SubworkflowFeatureRequirementLoader; ScatterFeatureRequirementLoader; MultipleInputFeatureRequirementLoader; StepInputExpressionRequirementLoader; SecretsLoader; MPIRequirementLoader; CUDARequirementLoader; ShmSizeLoader; Any_type].
(** line 25182 *)
Definition array_of_union_of_InlineJavascriptRequirementLoader_or_SchemaDefRequirementLoader_or_LoadListingRequirementLoader_or_DockerRequirementLoader_or_SoftwareRequirementLoader_or_InitialWorkDirRequirementLoader_or_EnvVarRequirementLoader_or_ShellCommandRequirementLoader_or_ResourceRequirementLoader_or_WorkReuseLoader_or_NetworkAccessLoader_or_InplaceUpdateRequirementLoader_or_ToolTimeLimitLoader_or_SubworkflowFeatureRequirementLoader_or_ScatterFeatureRequirementLoader_or_MultipleInputFeatureRequirementLoader_or_StepInputExpressionRequirementLoader_or_SecretsLoader_or_MPIRequirementLoader_or_CUDARequirementLoader_or_ShmSizeLoader_or_Any_type : loader := LArray union_of_InlineJavascriptRequirementLoader_or_SchemaDefRequirementLoader_or_LoadListingRequirementLoader_or_DockerRequirementLoader_or_SoftwareRequirementLoader_or_InitialWorkDirRequirementLoader_or_EnvVarRequirementLoader_or_ShellCommandRequirementLoader_or_ResourceRequirementLoader_or_WorkReuseLoader_or_NetworkAccessLoader_or_InplaceUpdateRequirementLoader_or_ToolTimeLimitLoader_or_SubworkflowFeatureRequirementLoader_or_ScatterFeatureRequirementLoader_or_MultipleInputFeatureRequirementLoader_or_StepInputExpressionRequirementLoader_or_SecretsLoader_or_MPIRequirementLoader_or_CUDARequirementLoader_or_ShmSizeLoader_or_Any_type.
(** line 25187 *)
Definition union_of_None_type_or_array_of_union_of_InlineJavascriptRequirementLoader_or_SchemaDefRequirementLoader_or_LoadListingRequirementLoader_or_DockerRequirementLoader_or_SoftwareRequirementLoader_or_InitialWorkDirRequirementLoader_or_EnvVarRequirementLoader_or_ShellCommandRequirementLoader_or_ResourceRequirementLoader_or_WorkReuseLoader_or_NetworkAccessLoader_or_InplaceUpdateRequirementLoader_or_ToolTimeLimitLoader_or_SubworkflowFeatureRequirementLoader_or_ScatterFeatureRequirementLoader_or_MultipleInputFeatureRequirementLoader_or_StepInputExpressionRequirementLoader_or_SecretsLoader_or_MPIRequirementLoader_or_CUDARequirementLoader_or_ShmSizeLoader_or_Any_type : loader := LUnion [None_type; array_of_union_of_InlineJavascriptRequirementLoader_or_SchemaDefRequirementLoader_or_LoadListingRequirementLoader_or_DockerRequirementLoader_or_SoftwareRequirementLoader_or_InitialWorkDirRequirementLoader_or_EnvVarRequirementLoader_or_ShellCommandRequirementLoader_or_ResourceRequirementLoader_or_WorkReuseLoader_or_NetworkAccessLoader_or_InplaceUpdateRequirementLoader_or_ToolTimeLimitLoader_or_SubworkflowFeatureRequirementLoader_or_ScatterFeatureRequirementLoader_or_MultipleInputFeatureRequirementLoader_or_StepInputExpressionRequirementLoader_or_SecretsLoader_or_MPIRequirementLoader_or_CUDARequirementLoader_or_ShmSizeLoader_or_Any_type].
(** line 25195 *)
Definition idmap_hints_union_of_None_type_or_array_of_union_of_InlineJavascriptRequirementLoader_or_SchemaDefRequirementLoader_or_LoadListingRequirementLoader_or_DockerRequirementLoader_or_SoftwareRequirementLoader_or_InitialWorkDirRequirementLoader_or_EnvVarRequirementLoader_or_ShellCommandRequirementLoader_or_ResourceRequirementLoader_or_WorkReuseLoader_or_NetworkAccessLoader_or_InplaceUpdateRequirementLoader_or_ToolTimeLimitLoader_or_SubworkflowFeatureRequirementLoader_or_ScatterFeatureRequirementLoader_or_MultipleInputFeatureRequirementLoader_or_StepInputExpressionRequirementLoader_or_SecretsLoader_or_MPIRequirementLoader_or_CUDARequirementLoader_or_ShmSizeLoader_or_Any_type : loader := LIdMap union_of_None_type_or_array_of_union_of_InlineJavascriptRequirementLoader_or_SchemaDefRequirementLoader_or_LoadListingRequirementLoader_or_DockerRequirementLoader_or_SoftwareRequirementLoader_or_InitialWorkDirRequirementLoader_or_EnvVarRequirementLoader_or_ShellCommandRequirementLoader_or_ResourceRequirementLoader_or_WorkReuseLoader_or_NetworkAccessLoader_or_InplaceUpdateRequirementLoader_or_ToolTimeLimitLoader_or_SubworkflowFeatureRequirementLoader_or_ScatterFeatureRequirementLoader_or_MultipleInputFeatureRequirementLoader_or_StepInputExpressionRequirementLoader_or_SecretsLoader_or_MPIRequirementLoader_or_CUDARequirementLoader_or_ShmSizeLoader_or_Any_type "class" (Some "None").
(** line 25202 *)
Definition union_of_None_type_or_CWLVersionLoader : loader := LUnion [None_type; CWLVersionLoader].
(** line 25208 *)
Definition uri_union_of_None_type_or_CWLVersionLoader_False_True_None_None : loader := LUri union_of_None_type_or_CWLVersionLoader false true None None.
(** line 25211 *)
Definition InlineJavascriptRequirement_classLoader : loader := LEnum ["InlineJavascriptRequirement"].
(** line 25214 *)
Definition uri_InlineJavascriptRequirement_classLoader_False_True_None_None : loader := LUri InlineJavascriptRequirement_classLoader false true None None.
(** line 25217 *)
Definition union_of_None_type_or_array_of_strtype : loader := LUnion [None_type; array_of_strtype].
(** line 25223 *)
Definition SchemaDefRequirement_classLoader : loader := LEnum ["SchemaDefRequirement"].
(** line 25226 *)
Definition uri_SchemaDefRequirement_classLoader_False_True_None_None : loader := LUri SchemaDefRequirement_classLoader false true None None.
(** line 25229 *)
Definition union_of_CommandInputRecordSchemaLoader_or_CommandInputEnumSchemaLoader_or_CommandInputArraySchemaLoader : loader := LUnion [CommandInputRecordSchemaLoader; CommandInputEnumSchemaLoader; CommandInputArraySchemaLoader].
(** line 25238 *)
Definition array_of_CommandInputSchema : loader := LArray CommandInputSchemaProxyLoader.
(** line 25239 *)
Definition union_of_strtype_or_ExpressionLoader : loader := LUnion [strtype; ExpressionLoader].
(** line 25245 *)
Definition union_of_None_type_or_booltype_or_ExpressionLoader : loader := LUnion [None_type; booltype; ExpressionLoader].
(** line 25252 *)
Definition LoadListingRequirement_classLoader : loader := LEnum ["LoadListingRequirement"].
(** line 25255 *)
Definition uri_LoadListingRequirement_classLoader_False_True_None_None : loader := LUri LoadListingRequirement_classLoader false true None None.
(** line 25258 *)
Definition union_of_None_type_or_inttype_or_ExpressionLoader : loader := LUnion [None_type; inttype; ExpressionLoader].
(** line 25265 *)
Definition union_of_None_type_or_strtype_or_ExpressionLoader_or_array_of_strtype : loader := LUnion [None_type; strtype; ExpressionLoader; array_of_strtype].
(** line 25275 *)
Definition union_of_None_type_or_ExpressionLoader : loader := LUnion [None_type; ExpressionLoader].
(** line 25281 *)
Definition union_of_None_type_or_CommandLineBindingLoader : loader := LUnion [None_type; CommandLineBindingLoader].
(** line 25287 *)
Definition union_of_CWLTypeLoader_or_CommandInputRecordSchemaLoader_or_CommandInputEnumSchemaLoader_or_CommandInputArraySchemaLoader_or_strtype : loader := LUnion [CWLTypeLoader; CommandInputRecordSchemaLoader; CommandInputEnumSchemaLoader; CommandInputArraySchemaLoader; strtype].
(** line 25298 *)
Definition array_of_union_of_CWLTypeLoader_or_CommandInputRecordSchemaLoader_or_CommandInputEnumSchemaLoader_or_CommandInputArraySchemaLoader_or_strtype : loader := LArray union_of_CWLTypeLoader_or_CommandInputRecordSchemaLoader_or_CommandInputEnumSchemaLoader_or_CommandInputArraySchemaLoader_or_strtype.
(** line 25303 *)
Definition union_of_CWLTypeLoader_or_CommandInputRecordSchemaLoader_or_CommandInputEnumSchemaLoader_or_CommandInputArraySchemaLoader_or_strtype_or_array_of_union_of_CWLTypeLoader_or_CommandInputRecordSchemaLoader_or_CommandInputEnumSchemaLoader_or_CommandInputArraySchemaLoader_or_strtype : loader := LUnion [CWLTypeLoader; CommandInputRecordSchemaLoader; CommandInputEnumSchemaLoader; CommandInputArraySchemaLoader; strtype; array_of_union_of_CWLTypeLoader_or_CommandInputRecordSchemaLoader_or_CommandInputEnumSchemaLoader_or_CommandInputArraySchemaLoader_or_strtype].
(** line 25315 *)
Definition typedsl_union_of_CWLTypeLoader_or_CommandInputRecordSchemaLoader_or_CommandInputEnumSchemaLoader_or_CommandInputArraySchemaLoader_or_strtype_or_array_of_union_of_CWLTypeLoader_or_CommandInputRecordSchemaLoader_or_CommandInputEnumSchemaLoader_or_CommandInputArraySchemaLoader_or_strtype_2 : loader := LTypeDSL union_of_CWLTypeLoader_or_CommandInputRecordSchemaLoader_or_CommandInputEnumSchemaLoader_or_CommandInputArraySchemaLoader_or_strtype_or_array_of_union_of_CWLTypeLoader_or_CommandInputRecordSchemaLoader_or_CommandInputEnumSchemaLoader_or_CommandInputArraySchemaLoader_or_strtype (Some 2) "v1.1".
(** line 25322 *)
Definition array_of_CommandInputRecordFieldLoader : loader := LArray CommandInputRecordFieldLoader.
(** line 25325 *)
Definition union_of_None_type_or_array_of_CommandInputRecordFieldLoader : loader := LUnion [None_type; array_of_CommandInputRecordFieldLoader].
(** line 25331 *)
Definition idmap_fields_union_of_None_type_or_array_of_CommandInputRecordFieldLoader : loader := LIdMap union_of_None_type_or_array_of_CommandInputRecordFieldLoader "name" (Some "type").
(** line 25336 *)
Definition uri_union_of_CWLTypeLoader_or_CommandInputRecordSchemaLoader_or_CommandInputEnumSchemaLoader_or_CommandInputArraySchemaLoader_or_strtype_or_array_of_union_of_CWLTypeLoader_or_CommandInputRecordSchemaLoader_or_CommandInputEnumSchemaLoader_or_CommandInputArraySchemaLoader_or_strtype_False_True_2_None : loader := LUri union_of_CWLTypeLoader_or_CommandInputRecordSchemaLoader_or_CommandInputEnumSchemaLoader_or_CommandInputArraySchemaLoader_or_strtype_or_array_of_union_of_CWLTypeLoader_or_CommandInputRecordSchemaLoader_or_CommandInputEnumSchemaLoader_or_CommandInputArraySchemaLoader_or_strtype false true (Some 2) None.
(** line 25345 *)
Definition union_of_CWLTypeLoader_or_CommandOutputRecordSchemaLoader_or_CommandOutputEnumSchemaLoader_or_CommandOutputArraySchemaLoader_or_strtype : loader := LUnion [CWLTypeLoader; CommandOutputRecordSchemaLoader; CommandOutputEnumSchemaLoader; CommandOutputArraySchemaLoader; strtype].
(** line 25356 *)
Definition array_of_union_of_CWLTypeLoader_or_CommandOutputRecordSchemaLoader_or_CommandOutputEnumSchemaLoader_or_CommandOutputArraySchemaLoader_or_strtype : loader := LArray union_of_CWLTypeLoader_or_CommandOutputRecordSchemaLoader_or_CommandOutputEnumSchemaLoader_or_CommandOutputArraySchemaLoader_or_strtype.
(** line 25361 *)
Definition union_of_CWLTypeLoader_or_CommandOutputRecordSchemaLoader_or_CommandOutputEnumSchemaLoader_or_CommandOutputArraySchemaLoader_or_strtype_or_array_of_union_of_CWLTypeLoader_or_CommandOutputRecordSchemaLoader_or_CommandOutputEnumSchemaLoader_or_CommandOutputArraySchemaLoader_or_strtype : loader := LUnion [CWLTypeLoader; CommandOutputRecordSchemaLoader; CommandOutputEnumSchemaLoader; CommandOutputArraySchemaLoader; strtype; array_of_union_of_CWLTypeLoader_or_CommandOutputRecordSchemaLoader_or_CommandOutputEnumSchemaLoader_or_CommandOutputArraySchemaLoader_or_strtype].
(** line 25373 *)
Definition typedsl_union_of_CWLTypeLoader_or_CommandOutputRecordSchemaLoader_or_CommandOutputEnumSchemaLoader_or_CommandOutputArraySchemaLoader_or_strtype_or_array_of_union_of_CWLTypeLoader_or_CommandOutputRecordSchemaLoader_or_CommandOutputEnumSchemaLoader_or_CommandOutputArraySchemaLoader_or_strtype_2 : loader := LTypeDSL union_of_CWLTypeLoader_or_CommandOutputRecordSchemaLoader_or_CommandOutputEnumSchemaLoader_or_CommandOutputArraySchemaLoader_or_strtype_or_array_of_union_of_CWLTypeLoader_or_CommandOutputRecordSchemaLoader_or_CommandOutputEnumSchemaLoader_or_CommandOutputArraySchemaLoader_or_strtype (Some 2) "v1.1".
(** line 25380 *)
Definition union_of_None_type_or_CommandOutputBindingLoader : loader := LUnion [None_type; CommandOutputBindingLoader].
(** line 25386 *)
Definition array_of_CommandOutputRecordFieldLoader : loader := LArray CommandOutputRecordFieldLoader.
(** line 25389 *)
Definition union_of_None_type_or_array_of_CommandOutputRecordFieldLoader : loader := LUnion [None_type; array_of_CommandOutputRecordFieldLoader].
(** line 25395 *)
Definition idmap_fields_union_of_None_type_or_array_of_CommandOutputRecordFieldLoader : loader := LIdMap union_of_None_type_or_array_of_CommandOutputRecordFieldLoader "name" (Some "type").
(** line 25400 *)
Definition uri_union_of_CWLTypeLoader_or_CommandOutputRecordSchemaLoader_or_CommandOutputEnumSchemaLoader_or_CommandOutputArraySchemaLoader_or_strtype_or_array_of_union_of_CWLTypeLoader_or_CommandOutputRecordSchemaLoader_or_CommandOutputEnumSchemaLoader_or_CommandOutputArraySchemaLoader_or_strtype_False_True_2_None : loader := LUri union_of_CWLTypeLoader_or_CommandOutputRecordSchemaLoader_or_CommandOutputEnumSchemaLoader_or_CommandOutputArraySchemaLoader_or_strtype_or_array_of_union_of_CWLTypeLoader_or_CommandOutputRecordSchemaLoader_or_CommandOutputEnumSchemaLoader_or_CommandOutputArraySchemaLoader_or_strtype false true (Some 2) None.
(** line 25409 *)
Definition union_of_CWLTypeLoader_or_stdinLoader_or_CommandInputRecordSchemaLoader_or_CommandInputEnumSchemaLoader_or_CommandInputArraySchemaLoader_or_strtype_or_array_of_union_of_CWLTypeLoader_or_CommandInputRecordSchemaLoader_or_CommandInputEnumSchemaLoader_or_CommandInputArraySchemaLoader_or_strtype : loader := LUnion [CWLTypeLoader; stdinLoader; CommandInputRecordSchemaLoader; CommandInputEnumSchemaLoader; CommandInputArraySchemaLoader; strtype; array_of_union_of_CWLTypeLoader_or_CommandInputRecordSchemaLoader_or_CommandInputEnumSchemaLoader_or_CommandInputArraySchemaLoader_or_strtype].
(** line 25422 *)
Definition typedsl_union_of_CWLTypeLoader_or_stdinLoader_or_CommandInputRecordSchemaLoader_or_CommandInputEnumSchemaLoader_or_CommandInputArraySchemaLoader_or_strtype_or_array_of_union_of_CWLTypeLoader_or_CommandInputRecordSchemaLoader_or_CommandInputEnumSchemaLoader_or_CommandInputArraySchemaLoader_or_strtype_2 : loader := LTypeDSL union_of_CWLTypeLoader_or_stdinLoader_or_CommandInputRecordSchemaLoader_or_CommandInputEnumSchemaLoader_or_CommandInputArraySchemaLoader_or_strtype_or_array_of_union_of_CWLTypeLoader_or_CommandInputRecordSchemaLoader_or_CommandInputEnumSchemaLoader_or_CommandInputArraySchemaLoader_or_strtype (Some 2) "v1.1".
(** line 25429 *)
Definition union_of_CWLTypeLoader_or_stdoutLoader_or_stderrLoader_or_CommandOutputRecordSchemaLoader_or_CommandOutputEnumSchemaLoader_or_CommandOutputArraySchemaLoader_or_strtype_or_array_of_union_of_CWLTypeLoader_or_CommandOutputRecordSchemaLoader_or_CommandOutputEnumSchemaLoader_or_CommandOutputArraySchemaLoader_or_strtype : loader := LUnion [CWLTypeLoader; stdoutLoader; stderrLoader; CommandOutputRecordSchemaLoader; CommandOutputEnumSchemaLoader; CommandOutputArraySchemaLoader; strtype; array_of_union_of_CWLTypeLoader_or_CommandOutputRecordSchemaLoader_or_CommandOutputEnumSchemaLoader_or_CommandOutputArraySchemaLoader_or_strtype].
(** line 25443 *)
Definition typedsl_union_of_CWLTypeLoader_or_stdoutLoader_or_stderrLoader_or_CommandOutputRecordSchemaLoader_or_CommandOutputEnumSchemaLoader_or_CommandOutputArraySchemaLoader_or_strtype_or_array_of_union_of_CWLTypeLoader_or_CommandOutputRecordSchemaLoader_or_CommandOutputEnumSchemaLoader_or_CommandOutputArraySchemaLoader_or_strtype_2 : loader := LTypeDSL union_of_CWLTypeLoader_or_stdoutLoader_or_stderrLoader_or_CommandOutputRecordSchemaLoader_or_CommandOutputEnumSchemaLoader_or_CommandOutputArraySchemaLoader_or_strtype_or_array_of_union_of_CWLTypeLoader_or_CommandOutputRecordSchemaLoader_or_CommandOutputEnumSchemaLoader_or_CommandOutputArraySchemaLoader_or_strtype (Some 2) "v1.1".
(** line 25450 *)
Definition CommandLineTool_classLoader : loader := LEnum ["CommandLineTool"].
(** line 25453 *)
Definition uri_CommandLineTool_classLoader_False_True_None_None : loader := LUri CommandLineTool_classLoader false true None None.
(** line 25456 *)
Definition array_of_CommandInputParameterLoader : loader := LArray CommandInputParameterLoader.
(** line 25457 *)
Definition idmap_inputs_array_of_CommandInputParameterLoader : loader := LIdMap array_of_CommandInputParameterLoader "id" (Some "type").
(** line 25460 *)
Definition array_of_CommandOutputParameterLoader : loader := LArray CommandOutputParameterLoader.
(** line 25463 *)
Definition idmap_outputs_array_of_CommandOutputParameterLoader : loader := LIdMap array_of_CommandOutputParameterLoader "id" (Some "type").
(** line 25466 *)
Definition union_of_strtype_or_ExpressionLoader_or_CommandLineBindingLoader : loader := LUnion [strtype; ExpressionLoader; CommandLineBindingLoader].
(** line 25473 *)
Definition array_of_union_of_strtype_or_ExpressionLoader_or_CommandLineBindingLoader : loader := LArray union_of_strtype_or_ExpressionLoader_or_CommandLineBindingLoader.
(** line 25476 *)
Definition union_of_None_type_or_array_of_union_of_strtype_or_ExpressionLoader_or_CommandLineBindingLoader : loader := LUnion [None_type; array_of_union_of_strtype_or_ExpressionLoader_or_CommandLineBindingLoader].
(** line 25484 *)
Definition array_of_inttype : loader := LArray inttype.
(** line 25485 *)
Definition union_of_None_type_or_array_of_inttype : loader := LUnion [None_type; array_of_inttype].
(** line 25491 *)
Definition DockerRequirement_classLoader : loader := LEnum ["DockerRequirement"].
(** line 25494 *)
Definition uri_DockerRequirement_classLoader_False_True_None_None : loader := LUri DockerRequirement_classLoader false true None None.
(** line 25497 *)
Definition SoftwareRequirement_classLoader : loader := LEnum ["SoftwareRequirement"].
(** line 25500 *)
Definition uri_SoftwareRequirement_classLoader_False_True_None_None : loader := LUri SoftwareRequirement_classLoader false true None None.
(** line 25503 *)
Definition array_of_SoftwarePackageLoader : loader := LArray SoftwarePackageLoader.
(** line 25504 *)
Definition idmap_packages_array_of_SoftwarePackageLoader : loader := LIdMap array_of_SoftwarePackageLoader "package" (Some "specs").
(** line 25507 *)
Definition uri_union_of_None_type_or_array_of_strtype_False_False_None_True : loader := LUri union_of_None_type_or_array_of_strtype false false None (Some true).
(** line 25510 *)
Definition InitialWorkDirRequirement_classLoader : loader := LEnum ["InitialWorkDirRequirement"].
(** line 25513 *)
Definition uri_InitialWorkDirRequirement_classLoader_False_True_None_None : loader := LUri InitialWorkDirRequirement_classLoader false true None None.
(** line 25516 *)
Definition union_of_None_type_or_FileLoader_or_array_of_union_of_FileLoader_or_DirectoryLoader_or_DirectoryLoader_or_DirentLoader_or_ExpressionLoader : loader := LUnion [None_type; FileLoader; array_of_union_of_FileLoader_or_DirectoryLoader; DirectoryLoader; DirentLoader; ExpressionLoader].
(** line 25528 *)
Definition array_of_union_of_None_type_or_FileLoader_or_array_of_union_of_FileLoader_or_DirectoryLoader_or_DirectoryLoader_or_DirentLoader_or_ExpressionLoader : loader := LArray union_of_None_type_or_FileLoader_or_array_of_union_of_FileLoader_or_DirectoryLoader_or_DirectoryLoader_or_DirentLoader_or_ExpressionLoader.
(** line 25533 *)
Definition union_of_array_of_union_of_None_type_or_FileLoader_or_array_of_union_of_FileLoader_or_DirectoryLoader_or_DirectoryLoader_or_DirentLoader_or_ExpressionLoader_or_ExpressionLoader : loader := LUnion [array_of_union_of_None_type_or_FileLoader_or_array_of_union_of_FileLoader_or_DirectoryLoader_or_DirectoryLoader_or_DirentLoader_or_ExpressionLoader; ExpressionLoader].
(** line 25541 *)
Definition EnvVarRequirement_classLoader : loader := LEnum ["EnvVarRequirement"].
(** line 25544 *)
Definition uri_EnvVarRequirement_classLoader_False_True_None_None : loader := LUri EnvVarRequirement_classLoader false true None None.
(** line 25547 *)
Definition array_of_EnvironmentDefLoader : loader := LArray EnvironmentDefLoader.
(** line 25548 *)
Definition idmap_envDef_array_of_EnvironmentDefLoader : loader := LIdMap array_of_EnvironmentDefLoader "envName" (Some "envValue").
(** line 25551 *)
Definition ShellCommandRequirement_classLoader : loader := LEnum ["ShellCommandRequirement"].
(** line 25554 *)
Definition uri_ShellCommandRequirement_classLoader_False_True_None_None : loader := LUri ShellCommandRequirement_classLoader false true None None.
(** line 25557 *)
Definition ResourceRequirement_classLoader : loader := LEnum ["ResourceRequirement"].
(** line 25560 *)
Definition uri_ResourceRequirement_classLoader_False_True_None_None : loader := LUri ResourceRequirement_classLoader false true None None.
(** line 25563 *)
Definition WorkReuse_classLoader : loader := LEnum ["WorkReuse"].
(** line 25564 *)
Definition uri_WorkReuse_classLoader_False_True_None_None : loader := LUri WorkReuse_classLoader false true None None.
(** line 25567 *)
Definition union_of_booltype_or_ExpressionLoader : loader := LUnion [booltype; ExpressionLoader].
(** line 25573 *)
Definition NetworkAccess_classLoader : loader := LEnum ["NetworkAccess"].
(** line 25576 *)
Definition uri_NetworkAccess_classLoader_False_True_None_None : loader := LUri NetworkAccess_classLoader false true None None.
(** line 25579 *)
Definition InplaceUpdateRequirement_classLoader : loader := LEnum ["InplaceUpdateRequirement"].
(** line 25582 *)
Definition uri_InplaceUpdateRequirement_classLoader_False_True_None_None : loader := LUri InplaceUpdateRequirement_classLoader false true None None.
(** line 25585 *)
Definition ToolTimeLimit_classLoader : loader := LEnum ["ToolTimeLimit"].
(** line 25588 *)
Definition uri_ToolTimeLimit_classLoader_False_True_None_None : loader := LUri ToolTimeLimit_classLoader false true None None.
(** line 25591 *)
Definition union_of_inttype_or_ExpressionLoader : loader := LUnion [inttype; ExpressionLoader].
(** line 25597 *)
Definition union_of_None_type_or_InputBindingLoader : loader := LUnion [None_type; InputBindingLoader].
(** line 25603 *)
Definition ExpressionTool_classLoader : loader := LEnum ["ExpressionTool"].
(** line 25606 *)
Definition uri_ExpressionTool_classLoader_False_True_None_None : loader := LUri ExpressionTool_classLoader false true None None.
(** line 25609 *)
Definition array_of_WorkflowInputParameterLoader : loader := LArray WorkflowInputParameterLoader.
(** line 25612 *)
Definition idmap_inputs_array_of_WorkflowInputParameterLoader : loader := LIdMap array_of_WorkflowInputParameterLoader "id" (Some "type").
(** line 25615 *)
Definition array_of_ExpressionToolOutputParameterLoader : loader := LArray ExpressionToolOutputParameterLoader.
(** line 25618 *)
Definition idmap_outputs_array_of_ExpressionToolOutputParameterLoader : loader := LIdMap array_of_ExpressionToolOutputParameterLoader "id" (Some "type").
(** line 25621 *)
Definition uri_union_of_None_type_or_strtype_or_array_of_strtype_False_False_1_None : loader := LUri union_of_None_type_or_strtype_or_array_of_strtype false false (Some 1) None.
(** line 25624 *)
Definition union_of_None_type_or_LinkMergeMethodLoader : loader := LUnion [None_type; LinkMergeMethodLoader].
(** line 25630 *)
Definition uri_union_of_None_type_or_strtype_or_array_of_strtype_False_False_2_None : loader := LUri union_of_None_type_or_strtype_or_array_of_strtype false false (Some 2) None.
(** line 25633 *)
Definition array_of_WorkflowStepInputLoader : loader := LArray WorkflowStepInputLoader.
(** line 25634 *)
Definition idmap_in__array_of_WorkflowStepInputLoader : loader := LIdMap array_of_WorkflowStepInputLoader "id" (Some "source").
(** line 25637 *)
Definition union_of_strtype_or_WorkflowStepOutputLoader : loader := LUnion [strtype; WorkflowStepOutputLoader].
(** line 25643 *)
Definition array_of_union_of_strtype_or_WorkflowStepOutputLoader : loader := LArray union_of_strtype_or_WorkflowStepOutputLoader.
(** line 25646 *)
Definition union_of_array_of_union_of_strtype_or_WorkflowStepOutputLoader : loader := LUnion [array_of_union_of_strtype_or_WorkflowStepOutputLoader].
(** line 25649 *)
Definition uri_union_of_array_of_union_of_strtype_or_WorkflowStepOutputLoader_True_False_None_None : loader := LUri union_of_array_of_union_of_strtype_or_WorkflowStepOutputLoader true false None None.
(** line 25658 *)
Definition array_of_Any_type : loader := LArray Any_type.
(** line 25659 *)
Definition union_of_None_type_or_array_of_Any_type : loader := LUnion [None_type; array_of_Any_type].
(** line 25665 *)
Definition idmap_hints_union_of_None_type_or_array_of_Any_type : loader := LIdMap union_of_None_type_or_array_of_Any_type "class" (Some "None").
(** line 25668 *)
Definition union_of_strtype_or_CommandLineToolLoader_or_ExpressionToolLoader_or_WorkflowLoader_or_ProcessGeneratorLoader : loader := LUnion [strtype; CommandLineToolLoader; ExpressionToolLoader; WorkflowLoader; ProcessGeneratorLoader].
(** line 25679 *)
Definition uri_union_of_strtype_or_CommandLineToolLoader_or_ExpressionToolLoader_or_WorkflowLoader_or_ProcessGeneratorLoader_False_False_None_None : loader := LUri union_of_strtype_or_CommandLineToolLoader_or_ExpressionToolLoader_or_WorkflowLoader_or_ProcessGeneratorLoader false false None None.
(** line 25688 *)
Definition uri_union_of_None_type_or_strtype_or_array_of_strtype_False_False_0_None : loader := LUri union_of_None_type_or_strtype_or_array_of_strtype false false (Some 0) None.
(** line 25691 *)
Definition union_of_None_type_or_ScatterMethodLoader : loader := LUnion [None_type; ScatterMethodLoader].
(** line 25697 *)
Definition uri_union_of_None_type_or_ScatterMethodLoader_False_True_None_None : loader := LUri union_of_None_type_or_ScatterMethodLoader false true None None.
(** line 25700 *)
Definition Workflow_classLoader : loader := LEnum ["Workflow"].
(** line 25701 *)
Definition uri_Workflow_classLoader_False_True_None_None : loader := LUri Workflow_classLoader false true None None.
(** line 25704 *)
Definition array_of_WorkflowOutputParameterLoader : loader := LArray WorkflowOutputParameterLoader.
(** line 25707 *)
Definition idmap_outputs_array_of_WorkflowOutputParameterLoader : loader := LIdMap array_of_WorkflowOutputParameterLoader "id" (Some "type").
(** line 25710 *)
Definition array_of_WorkflowStepLoader : loader := LArray WorkflowStepLoader.
(** line 25711 *)
Definition union_of_array_of_WorkflowStepLoader : loader := LUnion [array_of_WorkflowStepLoader].
(** line 25714 *)
Definition idmap_steps_union_of_array_of_WorkflowStepLoader : loader := LIdMap union_of_array_of_WorkflowStepLoader "id" (Some "None").
(** line 25717 *)
Definition SubworkflowFeatureRequirement_classLoader : loader := LEnum ["SubworkflowFeatureRequirement"].
(** line 25720 *)
Definition uri_SubworkflowFeatureRequirement_classLoader_False_True_None_None : loader := LUri SubworkflowFeatureRequirement_classLoader false true None None.
(** line 25723 *)
Definition ScatterFeatureRequirement_classLoader : loader := LEnum ["ScatterFeatureRequirement"].
(** line 25726 *)
Definition uri_ScatterFeatureRequirement_classLoader_False_True_None_None : loader := LUri ScatterFeatureRequirement_classLoader false true None None.
(** line 25729 *)
Definition MultipleInputFeatureRequirement_classLoader : loader := LEnum ["MultipleInputFeatureRequirement"].
(** line 25732 *)
Definition uri_MultipleInputFeatureRequirement_classLoader_False_True_None_None : loader := LUri MultipleInputFeatureRequirement_classLoader false true None None.
(** line 25735 *)
Definition StepInputExpressionRequirement_classLoader : loader := LEnum ["StepInputExpressionRequirement"].
(** line 25738 *)
Definition uri_StepInputExpressionRequirement_classLoader_False_True_None_None : loader := LUri StepInputExpressionRequirement_classLoader false true None None.
(** line 25741 *)
Definition uri_strtype_False_True_None_None : loader := LUri strtype false true None None.
(** line 25742 *)
Definition uri_array_of_strtype_False_False_0_None : loader := LUri array_of_strtype false false (Some 0) None.
(** line 25745 *)
Definition union_of_strtype_or_array_of_strtype : loader := LUnion [strtype; array_of_strtype].
(** line 25751 *)
Definition union_of_CommandLineToolLoader_or_ExpressionToolLoader_or_WorkflowLoader_or_ProcessGeneratorLoader : loader := LUnion [CommandLineToolLoader; ExpressionToolLoader; WorkflowLoader; ProcessGeneratorLoader].
(** line 25761 *)
Definition array_of_union_of_CommandLineToolLoader_or_ExpressionToolLoader_or_WorkflowLoader_or_ProcessGeneratorLoader : loader := LArray union_of_CommandLineToolLoader_or_ExpressionToolLoader_or_WorkflowLoader_or_ProcessGeneratorLoader.
(** line 25766 *)
Definition union_of_CommandLineToolLoader_or_ExpressionToolLoader_or_WorkflowLoader_or_ProcessGeneratorLoader_or_array_of_union_of_CommandLineToolLoader_or_ExpressionToolLoader_or_WorkflowLoader_or_ProcessGeneratorLoader : loader := LUnion [CommandLineToolLoader; ExpressionToolLoader; WorkflowLoader; ProcessGeneratorLoader; array_of_union_of_CommandLineToolLoader_or_ExpressionToolLoader_or_WorkflowLoader_or_ProcessGeneratorLoader].

(** line 885 *)
Definition CWLArraySchema_class : class := Class "CWLArraySchema" None None [Field "items" true uri_union_of_PrimitiveTypeLoader_or_CWLRecordSchemaLoader_or_EnumSchemaLoader_or_CWLArraySchemaLoader_or_strtype_or_array_of_union_of_PrimitiveTypeLoader_or_CWLRecordSchemaLoader_or_EnumSchemaLoader_or_CWLArraySchemaLoader_or_strtype_False_True_2_None false; Field "type" true typedsl_Array_nameLoader_2 false].
(** line 1092 *)
Definition CWLRecordField_class : class := Class "CWLRecordField" (Some ("name", true, uri_strtype_True_False_None_None)) None [Field "doc" false union_of_None_type_or_strtype_or_array_of_strtype false; Field "type" true typedsl_union_of_PrimitiveTypeLoader_or_CWLRecordSchemaLoader_or_EnumSchemaLoader_or_CWLArraySchemaLoader_or_strtype_or_array_of_union_of_PrimitiveTypeLoader_or_CWLRecordSchemaLoader_or_EnumSchemaLoader_or_CWLArraySchemaLoader_or_strtype_2 false].
(** line 1352 *)
Definition CWLRecordSchema_class : class := Class "CWLRecordSchema" None None [Field "fields" false idmap_fields_union_of_None_type_or_array_of_CWLRecordFieldLoader false; Field "type" true typedsl_Record_nameLoader_2 false].
(** line 1625 *)
Definition File_class : class := Class "File" None (Some uri_File_classLoader_False_True_None_None) [Field "location" false uri_union_of_None_type_or_strtype_False_False_None_None false; Field "path" false uri_union_of_None_type_or_strtype_False_False_None_None false; Field "basename" false union_of_None_type_or_strtype false; Field "dirname" false union_of_None_type_or_strtype false; Field "nameroot" false union_of_None_type_or_strtype false; Field "nameext" false union_of_None_type_or_strtype false; Field "checksum" false union_of_None_type_or_strtype false; Field "size" false union_of_None_type_or_inttype false; Field "secondaryFiles" false secondaryfilesdsl_union_of_None_type_or_array_of_union_of_FileLoader_or_DirectoryLoader false; Field "format" false uri_union_of_None_type_or_strtype_True_False_None_True false; Field "contents" false union_of_None_type_or_strtype false].
(** line 2369 *)
Definition Directory_class : class := Class "Directory" None (Some uri_Directory_classLoader_False_True_None_None) [Field "location" false uri_union_of_None_type_or_strtype_False_False_None_None false; Field "path" false uri_union_of_None_type_or_strtype_False_False_None_None false; Field "basename" false union_of_None_type_or_strtype false; Field "listing" false union_of_None_type_or_array_of_union_of_FileLoader_or_DirectoryLoader false].
(** line 2733 *)
Definition InputBinding_class : class := Class "InputBinding" None None [Field "loadContents" false union_of_None_type_or_booltype false].
(** line 2932 *)
Definition InputRecordField_class : class := Class "InputRecordField" (Some ("name", true, uri_strtype_True_False_None_None)) None [Field "doc" false union_of_None_type_or_strtype_or_array_of_strtype false; Field "type" true typedsl_union_of_CWLTypeLoader_or_InputRecordSchemaLoader_or_InputEnumSchemaLoader_or_InputArraySchemaLoader_or_strtype_or_array_of_union_of_CWLTypeLoader_or_InputRecordSchemaLoader_or_InputEnumSchemaLoader_or_InputArraySchemaLoader_or_strtype_2 false; Field "label" false union_of_None_type_or_strtype false; Field "secondaryFiles" false secondaryfilesdsl_union_of_None_type_or_SecondaryFileSchemaLoader_or_array_of_SecondaryFileSchemaLoader false; Field "streamable" false union_of_None_type_or_booltype false; Field "format" false uri_union_of_None_type_or_strtype_or_array_of_strtype_or_ExpressionLoader_True_False_None_True false; Field "loadContents" false union_of_None_type_or_booltype false; Field "loadListing" false union_of_None_type_or_LoadListingEnumLoader false].
(** line 3541 *)
Definition InputRecordSchema_class : class := Class "InputRecordSchema" (Some ("name", false, uri_union_of_None_type_or_strtype_True_False_None_None)) None [Field "fields" false idmap_fields_union_of_None_type_or_array_of_InputRecordFieldLoader false; Field "type" true typedsl_Record_nameLoader_2 false; Field "label" false union_of_None_type_or_strtype false; Field "doc" false union_of_None_type_or_strtype_or_array_of_strtype false].
(** line 3921 *)
Definition InputEnumSchema_class : class := Class "InputEnumSchema" (Some ("name", false, uri_union_of_None_type_or_strtype_True_False_None_None)) None [Field "symbols" true uri_array_of_strtype_True_False_None_None false; Field "type" true typedsl_Enum_nameLoader_2 false; Field "label" false union_of_None_type_or_strtype false; Field "doc" false union_of_None_type_or_strtype_or_array_of_strtype false].
(** line 4301 *)
Definition InputArraySchema_class : class := Class "InputArraySchema" (Some ("name", false, uri_union_of_None_type_or_strtype_True_False_None_None)) None [Field "items" true uri_union_of_CWLTypeLoader_or_InputRecordSchemaLoader_or_InputEnumSchemaLoader_or_InputArraySchemaLoader_or_strtype_or_array_of_union_of_CWLTypeLoader_or_InputRecordSchemaLoader_or_InputEnumSchemaLoader_or_InputArraySchemaLoader_or_strtype_False_True_2_None false; Field "type" true typedsl_Array_nameLoader_2 false; Field "label" false union_of_None_type_or_strtype false; Field "doc" false union_of_None_type_or_strtype_or_array_of_strtype false].
(** line 4697 *)
Definition OutputRecordField_class : class := Class "OutputRecordField" (Some ("name", true, uri_strtype_True_False_None_None)) None [Field "doc" false union_of_None_type_or_strtype_or_array_of_strtype false; Field "type" true typedsl_union_of_CWLTypeLoader_or_OutputRecordSchemaLoader_or_OutputEnumSchemaLoader_or_OutputArraySchemaLoader_or_strtype_or_array_of_union_of_CWLTypeLoader_or_OutputRecordSchemaLoader_or_OutputEnumSchemaLoader_or_OutputArraySchemaLoader_or_strtype_2 false; Field "label" false union_of_None_type_or_strtype false; Field "secondaryFiles" false secondaryfilesdsl_union_of_None_type_or_SecondaryFileSchemaLoader_or_array_of_SecondaryFileSchemaLoader false; Field "streamable" false union_of_None_type_or_booltype false; Field "format" false uri_union_of_None_type_or_strtype_or_ExpressionLoader_True_False_None_True false].
(** line 5186 *)
Definition OutputRecordSchema_class : class := Class "OutputRecordSchema" (Some ("name", false, uri_union_of_None_type_or_strtype_True_False_None_None)) None [Field "fields" false idmap_fields_union_of_None_type_or_array_of_OutputRecordFieldLoader false; Field "type" true typedsl_Record_nameLoader_2 false; Field "label" false union_of_None_type_or_strtype false; Field "doc" false union_of_None_type_or_strtype_or_array_of_strtype false].
(** line 5566 *)
Definition OutputEnumSchema_class : class := Class "OutputEnumSchema" (Some ("name", false, uri_union_of_None_type_or_strtype_True_False_None_None)) None [Field "symbols" true uri_array_of_strtype_True_False_None_None false; Field "type" true typedsl_Enum_nameLoader_2 false; Field "label" false union_of_None_type_or_strtype false; Field "doc" false union_of_None_type_or_strtype_or_array_of_strtype false].
(** line 5946 *)
Definition OutputArraySchema_class : class := Class "OutputArraySchema" (Some ("name", false, uri_union_of_None_type_or_strtype_True_False_None_None)) None [Field "items" true uri_union_of_CWLTypeLoader_or_OutputRecordSchemaLoader_or_OutputEnumSchemaLoader_or_OutputArraySchemaLoader_or_strtype_or_array_of_union_of_CWLTypeLoader_or_OutputRecordSchemaLoader_or_OutputEnumSchemaLoader_or_OutputArraySchemaLoader_or_strtype_False_True_2_None false; Field "type" true typedsl_Array_nameLoader_2 false; Field "label" false union_of_None_type_or_strtype false; Field "doc" false union_of_None_type_or_strtype_or_array_of_strtype false].
(** line 6347 *)
Definition InlineJavascriptRequirement_class : class := Class "InlineJavascriptRequirement" None (Some uri_InlineJavascriptRequirement_classLoader_False_True_None_None) [Field "expressionLib" false union_of_None_type_or_array_of_strtype false].
(** line 6531 *)
Definition SchemaDefRequirement_class : class := Class "SchemaDefRequirement" None (Some uri_SchemaDefRequirement_classLoader_False_True_None_None) [Field "types" true array_of_CommandInputSchema false].
(** line 6707 *)
Definition SecondaryFileSchema_class : class := Class "SecondaryFileSchema" None None [Field "pattern" true union_of_strtype_or_ExpressionLoader false; Field "required" false union_of_None_type_or_booltype_or_ExpressionLoader false].
(** line 6912 *)
Definition LoadListingRequirement_class : class := Class "LoadListingRequirement" None (Some uri_LoadListingRequirement_classLoader_False_True_None_None) [Field "loadListing" false union_of_None_type_or_LoadListingEnumLoader false].
(** line 7095 *)
Definition EnvironmentDef_class : class := Class "EnvironmentDef" None None [Field "envName" true strtype false; Field "envValue" true union_of_strtype_or_ExpressionLoader false].
(** line 7346 *)
Definition CommandLineBinding_class : class := Class "CommandLineBinding" None None [Field "loadContents" false union_of_None_type_or_booltype false; Field "position" false union_of_None_type_or_inttype_or_ExpressionLoader false; Field "prefix" false union_of_None_type_or_strtype false; Field "separate" false union_of_None_type_or_booltype false; Field "itemSeparator" false union_of_None_type_or_strtype false; Field "valueFrom" false union_of_None_type_or_strtype_or_ExpressionLoader false; Field "shellQuote" false union_of_None_type_or_booltype false].
(** line 7847 *)
Definition CommandOutputBinding_class : class := Class "CommandOutputBinding" None None [Field "loadContents" false union_of_None_type_or_booltype false; Field "loadListing" false union_of_None_type_or_LoadListingEnumLoader false; Field "glob" false union_of_None_type_or_strtype_or_ExpressionLoader_or_array_of_strtype false; Field "outputEval" false union_of_None_type_or_ExpressionLoader false].
(** line 8206 *)
Definition CommandInputRecordField_class : class := Class "CommandInputRecordField" (Some ("name", true, uri_strtype_True_False_None_None)) None [Field "doc" false union_of_None_type_or_strtype_or_array_of_strtype false; Field "type" true typedsl_union_of_CWLTypeLoader_or_CommandInputRecordSchemaLoader_or_CommandInputEnumSchemaLoader_or_CommandInputArraySchemaLoader_or_strtype_or_array_of_union_of_CWLTypeLoader_or_CommandInputRecordSchemaLoader_or_CommandInputEnumSchemaLoader_or_CommandInputArraySchemaLoader_or_strtype_2 false; Field "label" false union_of_None_type_or_strtype false; Field "secondaryFiles" false secondaryfilesdsl_union_of_None_type_or_SecondaryFileSchemaLoader_or_array_of_SecondaryFileSchemaLoader false; Field "streamable" false union_of_None_type_or_booltype false; Field "format" false uri_union_of_None_type_or_strtype_or_array_of_strtype_or_ExpressionLoader_True_False_None_True false; Field "loadContents" false union_of_None_type_or_booltype false; Field "loadListing" false union_of_None_type_or_LoadListingEnumLoader false; Field "inputBinding" false union_of_None_type_or_CommandLineBindingLoader false].
(** line 8885 *)
Definition CommandInputRecordSchema_class : class := Class "CommandInputRecordSchema" (Some ("name", false, uri_union_of_None_type_or_strtype_True_False_None_None)) None [Field "fields" false idmap_fields_union_of_None_type_or_array_of_CommandInputRecordFieldLoader false; Field "type" true typedsl_Record_nameLoader_2 false; Field "label" false union_of_None_type_or_strtype false; Field "doc" false union_of_None_type_or_strtype_or_array_of_strtype false; Field "inputBinding" false union_of_None_type_or_CommandLineBindingLoader false].
(** line 9332 *)
Definition CommandInputEnumSchema_class : class := Class "CommandInputEnumSchema" (Some ("name", false, uri_union_of_None_type_or_strtype_True_False_None_None)) None [Field "symbols" true uri_array_of_strtype_True_False_None_None false; Field "type" true typedsl_Enum_nameLoader_2 false; Field "label" false union_of_None_type_or_strtype false; Field "doc" false union_of_None_type_or_strtype_or_array_of_strtype false; Field "inputBinding" false union_of_None_type_or_CommandLineBindingLoader false].
(** line 9774 *)
Definition CommandInputArraySchema_class : class := Class "CommandInputArraySchema" (Some ("name", false, uri_union_of_None_type_or_strtype_True_False_None_None)) None [Field "items" true uri_union_of_CWLTypeLoader_or_CommandInputRecordSchemaLoader_or_CommandInputEnumSchemaLoader_or_CommandInputArraySchemaLoader_or_strtype_or_array_of_union_of_CWLTypeLoader_or_CommandInputRecordSchemaLoader_or_CommandInputEnumSchemaLoader_or_CommandInputArraySchemaLoader_or_strtype_False_True_2_None false; Field "type" true typedsl_Array_nameLoader_2 false; Field "label" false union_of_None_type_or_strtype false; Field "doc" false union_of_None_type_or_strtype_or_array_of_strtype false; Field "inputBinding" false union_of_None_type_or_CommandLineBindingLoader false].
(** line 10229 *)
Definition CommandOutputRecordField_class : class := Class "CommandOutputRecordField" (Some ("name", true, uri_strtype_True_False_None_None)) None [Field "doc" false union_of_None_type_or_strtype_or_array_of_strtype false; Field "type" true typedsl_union_of_CWLTypeLoader_or_CommandOutputRecordSchemaLoader_or_CommandOutputEnumSchemaLoader_or_CommandOutputArraySchemaLoader_or_strtype_or_array_of_union_of_CWLTypeLoader_or_CommandOutputRecordSchemaLoader_or_CommandOutputEnumSchemaLoader_or_CommandOutputArraySchemaLoader_or_strtype_2 false; Field "label" false union_of_None_type_or_strtype false; Field "secondaryFiles" false secondaryfilesdsl_union_of_None_type_or_SecondaryFileSchemaLoader_or_array_of_SecondaryFileSchemaLoader false; Field "streamable" false union_of_None_type_or_booltype false; Field "format" false uri_union_of_None_type_or_strtype_or_ExpressionLoader_True_False_None_True false; Field "outputBinding" false union_of_None_type_or_CommandOutputBindingLoader false].
(** line 10782 *)
Definition CommandOutputRecordSchema_class : class := Class "CommandOutputRecordSchema" (Some ("name", false, uri_union_of_None_type_or_strtype_True_False_None_None)) None [Field "fields" false idmap_fields_union_of_None_type_or_array_of_CommandOutputRecordFieldLoader false; Field "type" true typedsl_Record_nameLoader_2 false; Field "label" false union_of_None_type_or_strtype false; Field "doc" false union_of_None_type_or_strtype_or_array_of_strtype false].
(** line 11162 *)
Definition CommandOutputEnumSchema_class : class := Class "CommandOutputEnumSchema" (Some ("name", false, uri_union_of_None_type_or_strtype_True_False_None_None)) None [Field "symbols" true uri_array_of_strtype_True_False_None_None false; Field "type" true typedsl_Enum_nameLoader_2 false; Field "label" false union_of_None_type_or_strtype false; Field "doc" false union_of_None_type_or_strtype_or_array_of_strtype false].
(** line 11542 *)
Definition CommandOutputArraySchema_class : class := Class "CommandOutputArraySchema" (Some ("name", false, uri_union_of_None_type_or_strtype_True_False_None_None)) None [Field "items" true uri_union_of_CWLTypeLoader_or_CommandOutputRecordSchemaLoader_or_CommandOutputEnumSchemaLoader_or_CommandOutputArraySchemaLoader_or_strtype_or_array_of_union_of_CWLTypeLoader_or_CommandOutputRecordSchemaLoader_or_CommandOutputEnumSchemaLoader_or_CommandOutputArraySchemaLoader_or_strtype_False_True_2_None false; Field "type" true typedsl_Array_nameLoader_2 false; Field "label" false union_of_None_type_or_strtype false; Field "doc" false union_of_None_type_or_strtype_or_array_of_strtype false].
(** line 11959 *)
Definition CommandInputParameter_class : class := Class "CommandInputParameter" (Some ("id", true, uri_strtype_True_False_None_None)) None [Field "label" false union_of_None_type_or_strtype false; Field "secondaryFiles" false secondaryfilesdsl_union_of_None_type_or_SecondaryFileSchemaLoader_or_array_of_SecondaryFileSchemaLoader false; Field "streamable" false union_of_None_type_or_booltype false; Field "doc" false union_of_None_type_or_strtype_or_array_of_strtype false; Field "format" false uri_union_of_None_type_or_strtype_or_array_of_strtype_or_ExpressionLoader_True_False_None_True false; Field "loadContents" false union_of_None_type_or_booltype false; Field "loadListing" false union_of_None_type_or_LoadListingEnumLoader false; Field "default" false union_of_None_type_or_CWLObjectTypeLoader false; Field "type" true typedsl_union_of_CWLTypeLoader_or_stdinLoader_or_CommandInputRecordSchemaLoader_or_CommandInputEnumSchemaLoader_or_CommandInputArraySchemaLoader_or_strtype_or_array_of_union_of_CWLTypeLoader_or_CommandInputRecordSchemaLoader_or_CommandInputEnumSchemaLoader_or_CommandInputArraySchemaLoader_or_strtype_2 false; Field "inputBinding" false union_of_None_type_or_CommandLineBindingLoader false].
(** line 12702 *)
Definition CommandOutputParameter_class : class := Class "CommandOutputParameter" (Some ("id", true, uri_strtype_True_False_None_None)) None [Field "label" false union_of_None_type_or_strtype false; Field "secondaryFiles" false secondaryfilesdsl_union_of_None_type_or_SecondaryFileSchemaLoader_or_array_of_SecondaryFileSchemaLoader false; Field "streamable" false union_of_None_type_or_booltype false; Field "doc" false union_of_None_type_or_strtype_or_array_of_strtype false; Field "format" false uri_union_of_None_type_or_strtype_or_ExpressionLoader_True_False_None_True false; Field "type" true typedsl_union_of_CWLTypeLoader_or_stdoutLoader_or_stderrLoader_or_CommandOutputRecordSchemaLoader_or_CommandOutputEnumSchemaLoader_or_CommandOutputArraySchemaLoader_or_strtype_or_array_of_union_of_CWLTypeLoader_or_CommandOutputRecordSchemaLoader_or_CommandOutputEnumSchemaLoader_or_CommandOutputArraySchemaLoader_or_strtype_2 false; Field "outputBinding" false union_of_None_type_or_CommandOutputBindingLoader false].
(** line 13315 *)
Definition CommandLineTool_class : class := Class "CommandLineTool" (Some ("id", false, uri_union_of_None_type_or_strtype_True_False_None_None)) (Some uri_CommandLineTool_classLoader_False_True_None_None) [Field "label" false union_of_None_type_or_strtype false; Field "doc" false union_of_None_type_or_strtype_or_array_of_strtype false; Field "inputs" true idmap_inputs_array_of_CommandInputParameterLoader false; Field "outputs" true idmap_outputs_array_of_CommandOutputParameterLoader false; Field "requirements" false idmap_requirements_union_of_None_type_or_array_of_ProcessRequirement false; Field "hints" false idmap_hints_union_of_None_type_or_array_of_union_of_InlineJavascriptRequirementLoader_or_SchemaDefRequirementLoader_or_LoadListingRequirementLoader_or_DockerRequirementLoader_or_SoftwareRequirementLoader_or_InitialWorkDirRequirementLoader_or_EnvVarRequirementLoader_or_ShellCommandRequirementLoader_or_ResourceRequirementLoader_or_WorkReuseLoader_or_NetworkAccessLoader_or_InplaceUpdateRequirementLoader_or_ToolTimeLimitLoader_or_SubworkflowFeatureRequirementLoader_or_ScatterFeatureRequirementLoader_or_MultipleInputFeatureRequirementLoader_or_StepInputExpressionRequirementLoader_or_SecretsLoader_or_MPIRequirementLoader_or_CUDARequirementLoader_or_ShmSizeLoader_or_Any_type false; Field "cwlVersion" false uri_union_of_None_type_or_CWLVersionLoader_False_True_None_None false; Field "baseCommand" false union_of_None_type_or_strtype_or_array_of_strtype false; Field "arguments" false union_of_None_type_or_array_of_union_of_strtype_or_ExpressionLoader_or_CommandLineBindingLoader false; Field "stdin" false union_of_None_type_or_strtype_or_ExpressionLoader false; Field "stderr" false union_of_None_type_or_strtype_or_ExpressionLoader false; Field "stdout" false union_of_None_type_or_strtype_or_ExpressionLoader false; Field "successCodes" false union_of_None_type_or_array_of_inttype false; Field "temporaryFailCodes" false union_of_None_type_or_array_of_inttype false; Field "permanentFailCodes" false union_of_None_type_or_array_of_inttype false].
(** line 14364 *)
Definition DockerRequirement_class : class := Class "DockerRequirement" None (Some uri_DockerRequirement_classLoader_False_True_None_None) [Field "dockerPull" false union_of_None_type_or_strtype false; Field "dockerLoad" false union_of_None_type_or_strtype false; Field "dockerFile" false union_of_None_type_or_strtype false; Field "dockerImport" false union_of_None_type_or_strtype false; Field "dockerImageId" false union_of_None_type_or_strtype false; Field "dockerOutputDirectory" false union_of_None_type_or_strtype false].
(** line 14829 *)
Definition SoftwareRequirement_class : class := Class "SoftwareRequirement" None (Some uri_SoftwareRequirement_classLoader_False_True_None_None) [Field "packages" true idmap_packages_array_of_SoftwarePackageLoader false].
(** line 15009 *)
Definition SoftwarePackage_class : class := Class "SoftwarePackage" None None [Field "package" true strtype false; Field "version" false union_of_None_type_or_array_of_strtype false; Field "specs" false uri_union_of_None_type_or_array_of_strtype_False_False_None_True false].
(** line 15270 *)
Definition Dirent_class : class := Class "Dirent" None None [Field "entryname" false union_of_None_type_or_strtype_or_ExpressionLoader false; Field "entry" true union_of_strtype_or_ExpressionLoader false; Field "writable" false union_of_None_type_or_booltype false].
(** line 15528 *)
Definition InitialWorkDirRequirement_class : class := Class "InitialWorkDirRequirement" None (Some uri_InitialWorkDirRequirement_classLoader_False_True_None_None) [Field "listing" true union_of_array_of_union_of_None_type_or_FileLoader_or_array_of_union_of_FileLoader_or_DirectoryLoader_or_DirectoryLoader_or_DirentLoader_or_ExpressionLoader_or_ExpressionLoader false].
(** line 15706 *)
Definition EnvVarRequirement_class : class := Class "EnvVarRequirement" None (Some uri_EnvVarRequirement_classLoader_False_True_None_None) [Field "envDef" true idmap_envDef_array_of_EnvironmentDefLoader false].
(** line 15882 *)
Definition ShellCommandRequirement_class : class := Class "ShellCommandRequirement" None (Some uri_ShellCommandRequirement_classLoader_False_True_None_None) [].
(** line 16053 *)
Definition ResourceRequirement_class : class := Class "ResourceRequirement" None (Some uri_ResourceRequirement_classLoader_False_True_None_None) [Field "coresMin" false union_of_None_type_or_inttype_or_ExpressionLoader false; Field "coresMax" false union_of_None_type_or_inttype_or_ExpressionLoader false; Field "ramMin" false union_of_None_type_or_inttype_or_ExpressionLoader false; Field "ramMax" false union_of_None_type_or_inttype_or_ExpressionLoader false; Field "tmpdirMin" false union_of_None_type_or_inttype_or_ExpressionLoader false; Field "tmpdirMax" false union_of_None_type_or_inttype_or_ExpressionLoader false; Field "outdirMin" false union_of_None_type_or_inttype_or_ExpressionLoader false; Field "outdirMax" false union_of_None_type_or_inttype_or_ExpressionLoader false].
(** line 16622 *)
Definition WorkReuse_class : class := Class "WorkReuse" None (Some uri_WorkReuse_classLoader_False_True_None_None) [Field "enableReuse" true union_of_booltype_or_ExpressionLoader false].
(** line 16812 *)
Definition NetworkAccess_class : class := Class "NetworkAccess" None (Some uri_NetworkAccess_classLoader_False_True_None_None) [Field "networkAccess" true union_of_booltype_or_ExpressionLoader false].
(** line 17004 *)
Definition InplaceUpdateRequirement_class : class := Class "InplaceUpdateRequirement" None (Some uri_InplaceUpdateRequirement_classLoader_False_True_None_None) [Field "inplaceUpdate" true booltype false].
(** line 17187 *)
Definition ToolTimeLimit_class : class := Class "ToolTimeLimit" None (Some uri_ToolTimeLimit_classLoader_False_True_None_None) [Field "timelimit" true union_of_inttype_or_ExpressionLoader false].
(** line 17394 *)
Definition ExpressionToolOutputParameter_class : class := Class "ExpressionToolOutputParameter" (Some ("id", true, uri_strtype_True_False_None_None)) None [Field "label" false union_of_None_type_or_strtype false; Field "secondaryFiles" false secondaryfilesdsl_union_of_None_type_or_SecondaryFileSchemaLoader_or_array_of_SecondaryFileSchemaLoader false; Field "streamable" false union_of_None_type_or_booltype false; Field "doc" false union_of_None_type_or_strtype_or_array_of_strtype false; Field "format" false uri_union_of_None_type_or_strtype_or_ExpressionLoader_True_False_None_True false; Field "type" true typedsl_union_of_CWLTypeLoader_or_OutputRecordSchemaLoader_or_OutputEnumSchemaLoader_or_OutputArraySchemaLoader_or_strtype_or_array_of_union_of_CWLTypeLoader_or_OutputRecordSchemaLoader_or_OutputEnumSchemaLoader_or_OutputArraySchemaLoader_or_strtype_2 false].
(** line 17915 *)
Definition WorkflowInputParameter_class : class := Class "WorkflowInputParameter" (Some ("id", true, uri_strtype_True_False_None_None)) None [Field "label" false union_of_None_type_or_strtype false; Field "secondaryFiles" false secondaryfilesdsl_union_of_None_type_or_SecondaryFileSchemaLoader_or_array_of_SecondaryFileSchemaLoader false; Field "streamable" false union_of_None_type_or_booltype false; Field "doc" false union_of_None_type_or_strtype_or_array_of_strtype false; Field "format" false uri_union_of_None_type_or_strtype_or_array_of_strtype_or_ExpressionLoader_True_False_None_True false; Field "loadContents" false union_of_None_type_or_booltype false; Field "loadListing" false union_of_None_type_or_LoadListingEnumLoader false; Field "default" false union_of_None_type_or_CWLObjectTypeLoader false; Field "type" true typedsl_union_of_CWLTypeLoader_or_InputRecordSchemaLoader_or_InputEnumSchemaLoader_or_InputArraySchemaLoader_or_strtype_or_array_of_union_of_CWLTypeLoader_or_InputRecordSchemaLoader_or_InputEnumSchemaLoader_or_InputArraySchemaLoader_or_strtype_2 false; Field "inputBinding" false union_of_None_type_or_InputBindingLoader false].
(** line 18665 *)
Definition ExpressionTool_class : class := Class "ExpressionTool" (Some ("id", false, uri_union_of_None_type_or_strtype_True_False_None_None)) (Some uri_ExpressionTool_classLoader_False_True_None_None) [Field "label" false union_of_None_type_or_strtype false; Field "doc" false union_of_None_type_or_strtype_or_array_of_strtype false; Field "inputs" true idmap_inputs_array_of_WorkflowInputParameterLoader false; Field "outputs" true idmap_outputs_array_of_ExpressionToolOutputParameterLoader false; Field "requirements" false idmap_requirements_union_of_None_type_or_array_of_ProcessRequirement false; Field "hints" false idmap_hints_union_of_None_type_or_array_of_union_of_InlineJavascriptRequirementLoader_or_SchemaDefRequirementLoader_or_LoadListingRequirementLoader_or_DockerRequirementLoader_or_SoftwareRequirementLoader_or_InitialWorkDirRequirementLoader_or_EnvVarRequirementLoader_or_ShellCommandRequirementLoader_or_ResourceRequirementLoader_or_WorkReuseLoader_or_NetworkAccessLoader_or_InplaceUpdateRequirementLoader_or_ToolTimeLimitLoader_or_SubworkflowFeatureRequirementLoader_or_ScatterFeatureRequirementLoader_or_MultipleInputFeatureRequirementLoader_or_StepInputExpressionRequirementLoader_or_SecretsLoader_or_MPIRequirementLoader_or_CUDARequirementLoader_or_ShmSizeLoader_or_Any_type false; Field "cwlVersion" false uri_union_of_None_type_or_CWLVersionLoader_False_True_None_None false; Field "expression" true ExpressionLoader false].
(** line 19327 *)
Definition WorkflowOutputParameter_class : class := Class "WorkflowOutputParameter" (Some ("id", true, uri_strtype_True_False_None_None)) None [Field "label" false union_of_None_type_or_strtype false; Field "secondaryFiles" false secondaryfilesdsl_union_of_None_type_or_SecondaryFileSchemaLoader_or_array_of_SecondaryFileSchemaLoader false; Field "streamable" false union_of_None_type_or_booltype false; Field "doc" false union_of_None_type_or_strtype_or_array_of_strtype false; Field "format" false uri_union_of_None_type_or_strtype_or_ExpressionLoader_True_False_None_True false; Field "outputSource" false uri_union_of_None_type_or_strtype_or_array_of_strtype_False_False_1_None false; Field "linkMerge" false union_of_None_type_or_LinkMergeMethodLoader false; Field "type" true typedsl_union_of_CWLTypeLoader_or_OutputRecordSchemaLoader_or_OutputEnumSchemaLoader_or_OutputArraySchemaLoader_or_strtype_or_array_of_union_of_CWLTypeLoader_or_OutputRecordSchemaLoader_or_OutputEnumSchemaLoader_or_OutputArraySchemaLoader_or_strtype_2 false].
(** line 19979 *)
Definition WorkflowStepInput_class : class := Class "WorkflowStepInput" (Some ("id", true, uri_strtype_True_False_None_None)) None [Field "source" false uri_union_of_None_type_or_strtype_or_array_of_strtype_False_False_2_None false; Field "linkMerge" false union_of_None_type_or_LinkMergeMethodLoader false; Field "loadContents" false union_of_None_type_or_booltype false; Field "loadListing" false union_of_None_type_or_LoadListingEnumLoader false; Field "label" false union_of_None_type_or_strtype false; Field "default" false union_of_None_type_or_CWLObjectTypeLoader false; Field "valueFrom" false union_of_None_type_or_strtype_or_ExpressionLoader false].
(** line 20521 *)
Definition WorkflowStepOutput_class : class := Class "WorkflowStepOutput" (Some ("id", true, uri_strtype_True_False_None_None)) None [].
(** line 20749 *)
Definition WorkflowStep_class : class := Class "WorkflowStep" (Some ("id", true, uri_strtype_True_False_None_None)) None [Field "label" false union_of_None_type_or_strtype false; Field "doc" false union_of_None_type_or_strtype_or_array_of_strtype false; Field "in" true idmap_in__array_of_WorkflowStepInputLoader false; Field "out" true uri_union_of_array_of_union_of_strtype_or_WorkflowStepOutputLoader_True_False_None_None false; Field "requirements" false idmap_requirements_union_of_None_type_or_array_of_ProcessRequirement false; Field "hints" false idmap_hints_union_of_None_type_or_array_of_Any_type false; Field "run" true uri_union_of_strtype_or_CommandLineToolLoader_or_ExpressionToolLoader_or_WorkflowLoader_or_ProcessGeneratorLoader_False_False_None_None true; Field "scatter" false uri_union_of_None_type_or_strtype_or_array_of_strtype_False_False_0_None false; Field "scatterMethod" false uri_union_of_None_type_or_ScatterMethodLoader_False_True_None_None false].
(** line 21459 *)
Definition Workflow_class : class := Class "Workflow" (Some ("id", false, uri_union_of_None_type_or_strtype_True_False_None_None)) (Some uri_Workflow_classLoader_False_True_None_None) [Field "label" false union_of_None_type_or_strtype false; Field "doc" false union_of_None_type_or_strtype_or_array_of_strtype false; Field "inputs" true idmap_inputs_array_of_WorkflowInputParameterLoader false; Field "outputs" true idmap_outputs_array_of_WorkflowOutputParameterLoader false; Field "requirements" false idmap_requirements_union_of_None_type_or_array_of_ProcessRequirement false; Field "hints" false idmap_hints_union_of_None_type_or_array_of_union_of_InlineJavascriptRequirementLoader_or_SchemaDefRequirementLoader_or_LoadListingRequirementLoader_or_DockerRequirementLoader_or_SoftwareRequirementLoader_or_InitialWorkDirRequirementLoader_or_EnvVarRequirementLoader_or_ShellCommandRequirementLoader_or_ResourceRequirementLoader_or_WorkReuseLoader_or_NetworkAccessLoader_or_InplaceUpdateRequirementLoader_or_ToolTimeLimitLoader_or_SubworkflowFeatureRequirementLoader_or_ScatterFeatureRequirementLoader_or_MultipleInputFeatureRequirementLoader_or_StepInputExpressionRequirementLoader_or_SecretsLoader_or_MPIRequirementLoader_or_CUDARequirementLoader_or_ShmSizeLoader_or_Any_type false; Field "cwlVersion" false uri_union_of_None_type_or_CWLVersionLoader_False_True_None_None false; Field "steps" true idmap_steps_union_of_array_of_WorkflowStepLoader false].
(** line 22077 *)
Definition SubworkflowFeatureRequirement_class : class := Class "SubworkflowFeatureRequirement" None (Some uri_SubworkflowFeatureRequirement_classLoader_False_True_None_None) [].
(** line 22198 *)
Definition ScatterFeatureRequirement_class : class := Class "ScatterFeatureRequirement" None (Some uri_ScatterFeatureRequirement_classLoader_False_True_None_None) [].
(** line 22319 *)
Definition MultipleInputFeatureRequirement_class : class := Class "MultipleInputFeatureRequirement" None (Some uri_MultipleInputFeatureRequirement_classLoader_False_True_None_None) [].
(** line 22440 *)
Definition StepInputExpressionRequirement_class : class := Class "StepInputExpressionRequirement" None (Some uri_StepInputExpressionRequirement_classLoader_False_True_None_None) [].
(** line 22558 *)
Definition Secrets_class : class := Class "Secrets" None (Some uri_strtype_False_True_None_None) [Field "secrets" true uri_array_of_strtype_False_False_0_None false].
(** line 22772 *)
Definition ProcessGenerator_class : class := Class "ProcessGenerator" (Some ("id", false, uri_union_of_None_type_or_strtype_True_False_None_None)) (Some uri_strtype_False_True_None_None) [Field "label" false union_of_None_type_or_strtype false; Field "doc" false union_of_None_type_or_strtype_or_array_of_strtype false; Field "inputs" true idmap_inputs_array_of_WorkflowInputParameterLoader false; Field "outputs" true idmap_outputs_array_of_ExpressionToolOutputParameterLoader false; Field "requirements" false idmap_requirements_union_of_None_type_or_array_of_ProcessRequirement false; Field "hints" false idmap_hints_union_of_None_type_or_array_of_union_of_InlineJavascriptRequirementLoader_or_SchemaDefRequirementLoader_or_LoadListingRequirementLoader_or_DockerRequirementLoader_or_SoftwareRequirementLoader_or_InitialWorkDirRequirementLoader_or_EnvVarRequirementLoader_or_ShellCommandRequirementLoader_or_ResourceRequirementLoader_or_WorkReuseLoader_or_NetworkAccessLoader_or_InplaceUpdateRequirementLoader_or_ToolTimeLimitLoader_or_SubworkflowFeatureRequirementLoader_or_ScatterFeatureRequirementLoader_or_MultipleInputFeatureRequirementLoader_or_StepInputExpressionRequirementLoader_or_SecretsLoader_or_MPIRequirementLoader_or_CUDARequirementLoader_or_ShmSizeLoader_or_Any_type false; Field "cwlVersion" false uri_union_of_None_type_or_CWLVersionLoader_False_True_None_None false; Field "run" true uri_union_of_strtype_or_CommandLineToolLoader_or_ExpressionToolLoader_or_WorkflowLoader_or_ProcessGeneratorLoader_False_False_None_None true].
(** line 23395 *)
Definition MPIRequirement_class : class := Class "MPIRequirement" None (Some uri_strtype_False_True_None_None) [Field "processes" true union_of_inttype_or_ExpressionLoader false].
(** line 23596 *)
Definition CUDARequirement_class : class := Class "CUDARequirement" None (Some uri_strtype_False_True_None_None) [Field "cudaComputeCapability" true union_of_strtype_or_array_of_strtype false; Field "cudaDeviceCountMax" false union_of_None_type_or_inttype_or_ExpressionLoader false; Field "cudaDeviceCountMin" false union_of_None_type_or_inttype_or_ExpressionLoader false; Field "cudaVersionMin" true strtype false].
(** line 23946 *)
Definition ShmSize_class : class := Class "ShmSize" None (Some uri_strtype_False_True_None_None) [Field "shmSize" true strtype false].

(** The classes by their names *)
Definition all_classes : list (string * class) := [("CWLArraySchema", CWLArraySchema_class); ("CWLRecordField", CWLRecordField_class); ("CWLRecordSchema", CWLRecordSchema_class); ("File", File_class); ("Directory", Directory_class); ("InputBinding", InputBinding_class); ("InputRecordField", InputRecordField_class); ("InputRecordSchema", InputRecordSchema_class); ("InputEnumSchema", InputEnumSchema_class); ("InputArraySchema", InputArraySchema_class); ("OutputRecordField", OutputRecordField_class); ("OutputRecordSchema", OutputRecordSchema_class); ("OutputEnumSchema", OutputEnumSchema_class); ("OutputArraySchema", OutputArraySchema_class); ("InlineJavascriptRequirement", InlineJavascriptRequirement_class); ("SchemaDefRequirement", SchemaDefRequirement_class); ("SecondaryFileSchema", SecondaryFileSchema_class); ("LoadListingRequirement", LoadListingRequirement_class); ("EnvironmentDef", EnvironmentDef_class); ("CommandLineBinding", CommandLineBinding_class); ("CommandOutputBinding", CommandOutputBinding_class); ("CommandInputRecordField", CommandInputRecordField_class); ("CommandInputRecordSchema", CommandInputRecordSchema_class); ("CommandInputEnumSchema", CommandInputEnumSchema_class); ("CommandInputArraySchema", CommandInputArraySchema_class); ("CommandOutputRecordField", CommandOutputRecordField_class); ("CommandOutputRecordSchema", CommandOutputRecordSchema_class); ("CommandOutputEnumSchema", CommandOutputEnumSchema_class); ("CommandOutputArraySchema", CommandOutputArraySchema_class); ("CommandInputParameter", CommandInputParameter_class); ("CommandOutputParameter", CommandOutputParameter_class); ("CommandLineTool", CommandLineTool_class); ("DockerRequirement", DockerRequirement_class); ("SoftwareRequirement", SoftwareRequirement_class); ("SoftwarePackage", SoftwarePackage_class); ("Dirent", Dirent_class); ("InitialWorkDirRequirement", InitialWorkDirRequirement_class); ("EnvVarRequirement", EnvVarRequirement_class); ("ShellCommandRequirement", ShellCommandRequirement_class); ("ResourceRequirement", ResourceRequirement_class); ("WorkReuse", WorkReuse_class); ("NetworkAccess", NetworkAccess_class); ("InplaceUpdateRequirement", InplaceUpdateRequirement_class); ("ToolTimeLimit", ToolTimeLimit_class); ("ExpressionToolOutputParameter", ExpressionToolOutputParameter_class); ("WorkflowInputParameter", WorkflowInputParameter_class); ("ExpressionTool", ExpressionTool_class); ("WorkflowOutputParameter", WorkflowOutputParameter_class); ("WorkflowStepInput", WorkflowStepInput_class); ("WorkflowStepOutput", WorkflowStepOutput_class); ("WorkflowStep", WorkflowStep_class); ("Workflow", Workflow_class); ("SubworkflowFeatureRequirement", SubworkflowFeatureRequirement_class); ("ScatterFeatureRequirement", ScatterFeatureRequirement_class); ("MultipleInputFeatureRequirement", MultipleInputFeatureRequirement_class); ("StepInputExpressionRequirement", StepInputExpressionRequirement_class); ("Secrets", Secrets_class); ("ProcessGenerator", ProcessGenerator_class); ("MPIRequirement", MPIRequirement_class); ("CUDARequirement", CUDARequirement_class); ("ShmSize", ShmSize_class)].
(** [_loaders], line 25778, and the loader that contains itself, line 25800; entries that are None are left out *)
Definition named : list (string * loader) := [("ProcessRequirementLoader", union_of_InlineJavascriptRequirementLoader_or_SchemaDefRequirementLoader_or_LoadListingRequirementLoader_or_DockerRequirementLoader_or_SoftwareRequirementLoader_or_InitialWorkDirRequirementLoader_or_EnvVarRequirementLoader_or_ShellCommandRequirementLoader_or_ResourceRequirementLoader_or_WorkReuseLoader_or_NetworkAccessLoader_or_InplaceUpdateRequirementLoader_or_ToolTimeLimitLoader_or_SubworkflowFeatureRequirementLoader_or_ScatterFeatureRequirementLoader_or_MultipleInputFeatureRequirementLoader_or_StepInputExpressionRequirementLoader_or_SecretsLoader_or_MPIRequirementLoader_or_CUDARequirementLoader_or_ShmSizeLoader); ("InputParameterLoader", union_of_CommandInputParameterLoader_or_WorkflowInputParameterLoader); ("OutputParameterLoader", union_of_CommandOutputParameterLoader_or_ExpressionToolOutputParameterLoader_or_WorkflowOutputParameterLoader); ("CommandInputSchemaLoader", union_of_CommandInputRecordSchemaLoader_or_CommandInputEnumSchemaLoader_or_CommandInputArraySchemaLoader); ("CWLObjectTypeLoader", (LUnion [booltype; inttype; floattype; strtype; FileLoader; DirectoryLoader; array_of_union_of_None_type_or_CWLObjectTypeLoader; map_of_union_of_None_type_or_CWLObjectTypeLoader]))].
(** [_vocab] and [_rvocab] *)
Definition terms : list (string * string) := [("Any", "https://w3id.org/cwl/salad#Any"); ("ArraySchema", "https://w3id.org/cwl/salad#ArraySchema"); ("CUDARequirement", "http://commonwl.org/cwltool#CUDARequirement"); ("CWLArraySchema", "https://w3id.org/cwl/cwl#CWLArraySchema"); ("CWLInputFile", "https://w3id.org/cwl/cwl#CWLInputFile"); ("CWLObjectType", "https://w3id.org/cwl/cwl#CWLObjectType"); ("CWLRecordField", "https://w3id.org/cwl/cwl#CWLRecordField"); ("CWLRecordSchema", "https://w3id.org/cwl/cwl#CWLRecordSchema"); ("CWLType", "https://w3id.org/cwl/cwl#CWLType"); ("CWLVersion", "https://w3id.org/cwl/cwl#CWLVersion"); ("CommandInputArraySchema", "https://w3id.org/cwl/cwl#CommandInputArraySchema"); ("CommandInputEnumSchema", "https://w3id.org/cwl/cwl#CommandInputEnumSchema"); ("CommandInputParameter", "https://w3id.org/cwl/cwl#CommandInputParameter"); ("CommandInputRecordField", "https://w3id.org/cwl/cwl#CommandInputRecordField"); ("CommandInputRecordSchema", "https://w3id.org/cwl/cwl#CommandInputRecordSchema"); ("CommandInputSchema", "https://w3id.org/cwl/cwl#CommandInputSchema"); ("CommandLineBindable", "https://w3id.org/cwl/cwl#CommandLineBindable"); ("CommandLineBinding", "https://w3id.org/cwl/cwl#CommandLineBinding"); ("CommandLineTool", "https://w3id.org/cwl/cwl#CommandLineTool"); ("CommandOutputArraySchema", "https://w3id.org/cwl/cwl#CommandOutputArraySchema"); ("CommandOutputBinding", "https://w3id.org/cwl/cwl#CommandOutputBinding"); ("CommandOutputEnumSchema", "https://w3id.org/cwl/cwl#CommandOutputEnumSchema"); ("CommandOutputParameter", "https://w3id.org/cwl/cwl#CommandOutputParameter"); ("CommandOutputRecordField", "https://w3id.org/cwl/cwl#CommandOutputRecordField"); ("CommandOutputRecordSchema", "https://w3id.org/cwl/cwl#CommandOutputRecordSchema"); ("Directory", "https://w3id.org/cwl/cwl#Directory"); ("Dirent", "https://w3id.org/cwl/cwl#Dirent"); ("DockerRequirement", "https://w3id.org/cwl/cwl#DockerRequirement"); ("Documented", "https://w3id.org/cwl/salad#Documented"); ("EnumSchema", "https://w3id.org/cwl/salad#EnumSchema"); ("EnvVarRequirement", "https://w3id.org/cwl/cwl#EnvVarRequirement"); ("EnvironmentDef", "https://w3id.org/cwl/cwl#EnvironmentDef"); ("Expression", "https://w3id.org/cwl/cwl#Expression"); ("ExpressionPlaceholder", "https://w3id.org/cwl/cwl#ExpressionPlaceholder"); ("ExpressionTool", "https://w3id.org/cwl/cwl#ExpressionTool"); ("ExpressionToolOutputParameter", "https://w3id.org/cwl/cwl#ExpressionToolOutputParameter"); ("FieldBase", "https://w3id.org/cwl/cwl#FieldBase"); ("File", "https://w3id.org/cwl/cwl#File"); ("IOSchema", "https://w3id.org/cwl/cwl#IOSchema"); ("Identified", "https://w3id.org/cwl/cwl#Identified"); ("IdentifierRequired", "https://w3id.org/cwl/cwl#IdentifierRequired"); ("InitialWorkDirRequirement", "https://w3id.org/cwl/cwl#InitialWorkDirRequirement"); ("InlineJavascriptRequirement", "https://w3id.org/cwl/cwl#InlineJavascriptRequirement"); ("InplaceUpdateRequirement", "https://w3id.org/cwl/cwl#InplaceUpdateRequirement"); ("InputArraySchema", "https://w3id.org/cwl/cwl#InputArraySchema"); ("InputBinding", "https://w3id.org/cwl/cwl#InputBinding"); ("InputEnumSchema", "https://w3id.org/cwl/cwl#InputEnumSchema"); ("InputFormat", "https://w3id.org/cwl/cwl#InputFormat"); ("InputParameter", "https://w3id.org/cwl/cwl#InputParameter"); ("InputRecordField", "https://w3id.org/cwl/cwl#InputRecordField"); ("InputRecordSchema", "https://w3id.org/cwl/cwl#InputRecordSchema"); ("InputSchema", "https://w3id.org/cwl/cwl#InputSchema"); ("Labeled", "https://w3id.org/cwl/cwl#Labeled"); ("LinkMergeMethod", "https://w3id.org/cwl/cwl#LinkMergeMethod"); ("LoadContents", "https://w3id.org/cwl/cwl#LoadContents"); ("LoadListingEnum", "https://w3id.org/cwl/cwl#LoadListingEnum"); ("LoadListingRequirement", "https://w3id.org/cwl/cwl#LoadListingRequirement"); ("MPIRequirement", "http://commonwl.org/cwltool#MPIRequirement"); ("MapSchema", "https://w3id.org/cwl/salad#MapSchema"); ("MultipleInputFeatureRequirement", "https://w3id.org/cwl/cwl#MultipleInputFeatureRequirement"); ("NetworkAccess", "https://w3id.org/cwl/cwl#NetworkAccess"); ("OutputArraySchema", "https://w3id.org/cwl/cwl#OutputArraySchema"); ("OutputEnumSchema", "https://w3id.org/cwl/cwl#OutputEnumSchema"); ("OutputFormat", "https://w3id.org/cwl/cwl#OutputFormat"); ("OutputParameter", "https://w3id.org/cwl/cwl#OutputParameter"); ("OutputRecordField", "https://w3id.org/cwl/cwl#OutputRecordField"); ("OutputRecordSchema", "https://w3id.org/cwl/cwl#OutputRecordSchema"); ("OutputSchema", "https://w3id.org/cwl/cwl#OutputSchema"); ("Parameter", "https://w3id.org/cwl/cwl#Parameter"); ("PrimitiveType", "https://w3id.org/cwl/salad#PrimitiveType"); ("Process", "https://w3id.org/cwl/cwl#Process"); ("ProcessGenerator", "http://commonwl.org/cwltool#ProcessGenerator"); ("ProcessRequirement", "https://w3id.org/cwl/cwl#ProcessRequirement"); ("RecordField", "https://w3id.org/cwl/salad#RecordField"); ("RecordSchema", "https://w3id.org/cwl/salad#RecordSchema"); ("ResourceRequirement", "https://w3id.org/cwl/cwl#ResourceRequirement"); ("ScatterFeatureRequirement", "https://w3id.org/cwl/cwl#ScatterFeatureRequirement"); ("ScatterMethod", "https://w3id.org/cwl/cwl#ScatterMethod"); ("SchemaDefRequirement", "https://w3id.org/cwl/cwl#SchemaDefRequirement"); ("SecondaryFileSchema", "https://w3id.org/cwl/cwl#SecondaryFileSchema"); ("Secrets", "http://commonwl.org/cwltool#Secrets"); ("ShellCommandRequirement", "https://w3id.org/cwl/cwl#ShellCommandRequirement"); ("ShmSize", "http://commonwl.org/cwltool#ShmSize"); ("Sink", "https://w3id.org/cwl/cwl#Sink"); ("SoftwarePackage", "https://w3id.org/cwl/cwl#SoftwarePackage"); ("SoftwareRequirement", "https://w3id.org/cwl/cwl#SoftwareRequirement"); ("StepInputExpressionRequirement", "https://w3id.org/cwl/cwl#StepInputExpressionRequirement"); ("SubworkflowFeatureRequirement", "https://w3id.org/cwl/cwl#SubworkflowFeatureRequirement"); ("ToolTimeLimit", "https://w3id.org/cwl/cwl#ToolTimeLimit"); ("UnionSchema", "https://w3id.org/cwl/salad#UnionSchema"); ("WorkReuse", "https://w3id.org/cwl/cwl#WorkReuse"); ("Workflow", "https://w3id.org/cwl/cwl#Workflow"); ("WorkflowInputParameter", "https://w3id.org/cwl/cwl#WorkflowInputParameter"); ("WorkflowOutputParameter", "https://w3id.org/cwl/cwl#WorkflowOutputParameter"); ("WorkflowStep", "https://w3id.org/cwl/cwl#WorkflowStep"); ("WorkflowStepInput", "https://w3id.org/cwl/cwl#WorkflowStepInput"); ("WorkflowStepOutput", "https://w3id.org/cwl/cwl#WorkflowStepOutput"); ("array", "https://w3id.org/cwl/salad#array"); ("boolean", "http://www.w3.org/2001/XMLSchema#boolean"); ("deep_listing", "https://w3id.org/cwl/cwl#LoadListingEnum/deep_listing"); ("dotproduct", "https://w3id.org/cwl/cwl#ScatterMethod/dotproduct"); ("double", "http://www.w3.org/2001/XMLSchema#double"); ("enum", "https://w3id.org/cwl/salad#enum"); ("flat_crossproduct", "https://w3id.org/cwl/cwl#ScatterMethod/flat_crossproduct"); ("float", "http://www.w3.org/2001/XMLSchema#float"); ("int", "http://www.w3.org/2001/XMLSchema#int"); ("long", "http://www.w3.org/2001/XMLSchema#long"); ("map", "https://w3id.org/cwl/salad#map"); ("merge_flattened", "https://w3id.org/cwl/cwl#LinkMergeMethod/merge_flattened"); ("merge_nested", "https://w3id.org/cwl/cwl#LinkMergeMethod/merge_nested"); ("nested_crossproduct", "https://w3id.org/cwl/cwl#ScatterMethod/nested_crossproduct"); ("no_listing", "https://w3id.org/cwl/cwl#LoadListingEnum/no_listing"); ("null", "https://w3id.org/cwl/salad#null"); ("record", "https://w3id.org/cwl/salad#record"); ("shallow_listing", "https://w3id.org/cwl/cwl#LoadListingEnum/shallow_listing"); ("stderr", "https://w3id.org/cwl/cwl#stderr"); ("stdin", "https://w3id.org/cwl/cwl#stdin"); ("stdout", "https://w3id.org/cwl/cwl#stdout"); ("string", "http://www.w3.org/2001/XMLSchema#string"); ("union", "https://w3id.org/cwl/salad#union"); ("v1.1", "https://w3id.org/cwl/cwl#v1.1")].
Definition terms_back : list (string * string) := [("https://w3id.org/cwl/salad#Any", "Any"); ("https://w3id.org/cwl/salad#ArraySchema", "ArraySchema"); ("http://commonwl.org/cwltool#CUDARequirement", "CUDARequirement"); ("https://w3id.org/cwl/cwl#CWLArraySchema", "CWLArraySchema"); ("https://w3id.org/cwl/cwl#CWLInputFile", "CWLInputFile"); ("https://w3id.org/cwl/cwl#CWLObjectType", "CWLObjectType"); ("https://w3id.org/cwl/cwl#CWLRecordField", "CWLRecordField"); ("https://w3id.org/cwl/cwl#CWLRecordSchema", "CWLRecordSchema"); ("https://w3id.org/cwl/cwl#CWLType", "CWLType"); ("https://w3id.org/cwl/cwl#CWLVersion", "CWLVersion"); ("https://w3id.org/cwl/cwl#CommandInputArraySchema", "CommandInputArraySchema"); ("https://w3id.org/cwl/cwl#CommandInputEnumSchema", "CommandInputEnumSchema"); ("https://w3id.org/cwl/cwl#CommandInputParameter", "CommandInputParameter"); ("https://w3id.org/cwl/cwl#CommandInputRecordField", "CommandInputRecordField"); ("https://w3id.org/cwl/cwl#CommandInputRecordSchema", "CommandInputRecordSchema"); ("https://w3id.org/cwl/cwl#CommandInputSchema", "CommandInputSchema"); ("https://w3id.org/cwl/cwl#CommandLineBindable", "CommandLineBindable"); ("https://w3id.org/cwl/cwl#CommandLineBinding", "CommandLineBinding"); ("https://w3id.org/cwl/cwl#CommandLineTool", "CommandLineTool"); ("https://w3id.org/cwl/cwl#CommandOutputArraySchema", "CommandOutputArraySchema"); ("https://w3id.org/cwl/cwl#CommandOutputBinding", "CommandOutputBinding"); ("https://w3id.org/cwl/cwl#CommandOutputEnumSchema", "CommandOutputEnumSchema"); ("https://w3id.org/cwl/cwl#CommandOutputParameter", "CommandOutputParameter"); ("https://w3id.org/cwl/cwl#CommandOutputRecordField", "CommandOutputRecordField"); ("https://w3id.org/cwl/cwl#CommandOutputRecordSchema", "CommandOutputRecordSchema"); ("https://w3id.org/cwl/cwl#Directory", "Directory"); ("https://w3id.org/cwl/cwl#Dirent", "Dirent"); ("https://w3id.org/cwl/cwl#DockerRequirement", "DockerRequirement"); ("https://w3id.org/cwl/salad#Documented", "Documented"); ("https://w3id.org/cwl/salad#EnumSchema", "EnumSchema"); ("https://w3id.org/cwl/cwl#EnvVarRequirement", "EnvVarRequirement"); ("https://w3id.org/cwl/cwl#EnvironmentDef", "EnvironmentDef"); ("https://w3id.org/cwl/cwl#Expression", "Expression"); ("https://w3id.org/cwl/cwl#ExpressionPlaceholder", "ExpressionPlaceholder"); ("https://w3id.org/cwl/cwl#ExpressionTool", "ExpressionTool"); ("https://w3id.org/cwl/cwl#ExpressionToolOutputParameter", "ExpressionToolOutputParameter"); ("https://w3id.org/cwl/cwl#FieldBase", "FieldBase"); ("https://w3id.org/cwl/cwl#File", "File"); ("https://w3id.org/cwl/cwl#IOSchema", "IOSchema"); ("https://w3id.org/cwl/cwl#Identified", "Identified"); ("https://w3id.org/cwl/cwl#IdentifierRequired", "IdentifierRequired"); ("https://w3id.org/cwl/cwl#InitialWorkDirRequirement", "InitialWorkDirRequirement"); ("https://w3id.org/cwl/cwl#InlineJavascriptRequirement", "InlineJavascriptRequirement"); ("https://w3id.org/cwl/cwl#InplaceUpdateRequirement", "InplaceUpdateRequirement"); ("https://w3id.org/cwl/cwl#InputArraySchema", "InputArraySchema"); ("https://w3id.org/cwl/cwl#InputBinding", "InputBinding"); ("https://w3id.org/cwl/cwl#InputEnumSchema", "InputEnumSchema"); ("https://w3id.org/cwl/cwl#InputFormat", "InputFormat"); ("https://w3id.org/cwl/cwl#InputParameter", "InputParameter"); ("https://w3id.org/cwl/cwl#InputRecordField", "InputRecordField"); ("https://w3id.org/cwl/cwl#InputRecordSchema", "InputRecordSchema"); ("https://w3id.org/cwl/cwl#InputSchema", "InputSchema"); ("https://w3id.org/cwl/cwl#Labeled", "Labeled"); ("https://w3id.org/cwl/cwl#LinkMergeMethod", "LinkMergeMethod"); ("https://w3id.org/cwl/cwl#LoadContents", "LoadContents"); ("https://w3id.org/cwl/cwl#LoadListingEnum", "LoadListingEnum"); ("https://w3id.org/cwl/cwl#LoadListingRequirement", "LoadListingRequirement"); ("http://commonwl.org/cwltool#MPIRequirement", "MPIRequirement"); ("https://w3id.org/cwl/salad#MapSchema", "MapSchema"); ("https://w3id.org/cwl/cwl#MultipleInputFeatureRequirement", "MultipleInputFeatureRequirement"); ("https://w3id.org/cwl/cwl#NetworkAccess", "NetworkAccess"); ("https://w3id.org/cwl/cwl#OutputArraySchema", "OutputArraySchema"); ("https://w3id.org/cwl/cwl#OutputEnumSchema", "OutputEnumSchema"); ("https://w3id.org/cwl/cwl#OutputFormat", "OutputFormat"); ("https://w3id.org/cwl/cwl#OutputParameter", "OutputParameter"); ("https://w3id.org/cwl/cwl#OutputRecordField", "OutputRecordField"); ("https://w3id.org/cwl/cwl#OutputRecordSchema", "OutputRecordSchema"); ("https://w3id.org/cwl/cwl#OutputSchema", "OutputSchema"); ("https://w3id.org/cwl/cwl#Parameter", "Parameter"); ("https://w3id.org/cwl/salad#PrimitiveType", "PrimitiveType"); ("https://w3id.org/cwl/cwl#Process", "Process"); ("http://commonwl.org/cwltool#ProcessGenerator", "ProcessGenerator"); ("https://w3id.org/cwl/cwl#ProcessRequirement", "ProcessRequirement"); ("https://w3id.org/cwl/salad#RecordField", "RecordField"); ("https://w3id.org/cwl/salad#RecordSchema", "RecordSchema"); ("https://w3id.org/cwl/cwl#ResourceRequirement", "ResourceRequirement"); ("https://w3id.org/cwl/cwl#ScatterFeatureRequirement", "ScatterFeatureRequirement"); ("https://w3id.org/cwl/cwl#ScatterMethod", "ScatterMethod"); ("https://w3id.org/cwl/cwl#SchemaDefRequirement", "SchemaDefRequirement"); ("https://w3id.org/cwl/cwl#SecondaryFileSchema", "SecondaryFileSchema"); ("http://commonwl.org/cwltool#Secrets", "Secrets"); ("https://w3id.org/cwl/cwl#ShellCommandRequirement", "ShellCommandRequirement"); ("http://commonwl.org/cwltool#ShmSize", "ShmSize"); ("https://w3id.org/cwl/cwl#Sink", "Sink"); ("https://w3id.org/cwl/cwl#SoftwarePackage", "SoftwarePackage"); ("https://w3id.org/cwl/cwl#SoftwareRequirement", "SoftwareRequirement"); ("https://w3id.org/cwl/cwl#StepInputExpressionRequirement", "StepInputExpressionRequirement"); ("https://w3id.org/cwl/cwl#SubworkflowFeatureRequirement", "SubworkflowFeatureRequirement"); ("https://w3id.org/cwl/cwl#ToolTimeLimit", "ToolTimeLimit"); ("https://w3id.org/cwl/salad#UnionSchema", "UnionSchema"); ("https://w3id.org/cwl/cwl#WorkReuse", "WorkReuse"); ("https://w3id.org/cwl/cwl#Workflow", "Workflow"); ("https://w3id.org/cwl/cwl#WorkflowInputParameter", "WorkflowInputParameter"); ("https://w3id.org/cwl/cwl#WorkflowOutputParameter", "WorkflowOutputParameter"); ("https://w3id.org/cwl/cwl#WorkflowStep", "WorkflowStep"); ("https://w3id.org/cwl/cwl#WorkflowStepInput", "WorkflowStepInput"); ("https://w3id.org/cwl/cwl#WorkflowStepOutput", "WorkflowStepOutput"); ("https://w3id.org/cwl/salad#array", "array"); ("http://www.w3.org/2001/XMLSchema#boolean", "boolean"); ("https://w3id.org/cwl/cwl#LoadListingEnum/deep_listing", "deep_listing"); ("https://w3id.org/cwl/cwl#ScatterMethod/dotproduct", "dotproduct"); ("http://www.w3.org/2001/XMLSchema#double", "double"); ("https://w3id.org/cwl/salad#enum", "enum"); ("https://w3id.org/cwl/cwl#ScatterMethod/flat_crossproduct", "flat_crossproduct"); ("http://www.w3.org/2001/XMLSchema#float", "float"); ("http://www.w3.org/2001/XMLSchema#int", "int"); ("http://www.w3.org/2001/XMLSchema#long", "long"); ("https://w3id.org/cwl/salad#map", "map"); ("https://w3id.org/cwl/cwl#LinkMergeMethod/merge_flattened", "merge_flattened"); ("https://w3id.org/cwl/cwl#LinkMergeMethod/merge_nested", "merge_nested"); ("https://w3id.org/cwl/cwl#ScatterMethod/nested_crossproduct", "nested_crossproduct"); ("https://w3id.org/cwl/cwl#LoadListingEnum/no_listing", "no_listing"); ("https://w3id.org/cwl/salad#null", "null"); ("https://w3id.org/cwl/salad#record", "record"); ("https://w3id.org/cwl/cwl#LoadListingEnum/shallow_listing", "shallow_listing"); ("https://w3id.org/cwl/cwl#stderr", "stderr"); ("https://w3id.org/cwl/cwl#stdin", "stdin"); ("https://w3id.org/cwl/cwl#stdout", "stdout"); ("http://www.w3.org/2001/XMLSchema#string", "string"); ("https://w3id.org/cwl/salad#union", "union"); ("https://w3id.org/cwl/cwl#v1.1", "v1.1")].

Definition classes (s : string) : option class := dget s all_classes.
Definition proxies (s : string) : option loader := dget s named.
(** The loader of [load_document], line 25814 *)
Definition top : loader := union_of_CommandLineToolLoader_or_ExpressionToolLoader_or_WorkflowLoader_or_ProcessGeneratorLoader_or_array_of_union_of_CommandLineToolLoader_or_ExpressionToolLoader_or_WorkflowLoader_or_ProcessGeneratorLoader.
