(** The class statements of aas_test_engines/test_cases/v3_0/model.py (and the enumeration
    DataTypeDefXsd of data_types.py): names, bases, decorators, annotations and class
    attributes.  Methods are modelled in ConstraintModel. *)
From Coq Require Import String List NArith Bool.
From Verif Require Import PyStr PyBase PyVal Regex DataTypesModel ReflectModel.
Import ListNotations.
Local Open Scope list_scope.

Definition M_model : str := lit "aas_test_engines.test_cases.v3_0.model".
Definition M_data_types : str := lit "aas_test_engines.data_types".

(** model.py:106.  The pattern is applied with [re.fullmatch], so [^] and [$] add nothing. *)
Definition c_token : list (N * N) :=
  [(33, 33); (35, 35); (36, 36); (37, 37); (38, 38); (39, 39); (42, 42); (43, 43); (45, 45); (46, 46);
   (94, 94); (95, 95); (96, 96); (124, 124); (126, 126); (48, 57); (97, 122); (65, 90)]%N.
Definition r_token : re := rplus (RCls c_token).
Definition r_ows : re := RStar (RCls [(32, 32); (9, 9)]%N).
Definition r_obs : re := RCls [(128, 255)]%N.
Definition r_quoted : re :=
  rseq [rstr [34%N];
        RStar (ralts [ralts [RCls [(9, 9); (32, 32); (33, 33); (35, 91); (93, 126)]%N; r_obs];
                      rseq [rstr [92%N]; ralts [RCls [(9, 9); (32, 32); (33, 126)]%N; r_obs]]]);
        rstr [34%N]].
Definition r_content_type : re :=
  rseq [r_token; r_lit "/"; r_token;
        RStar (rseq [r_ows; r_lit ";"; r_ows; r_token; r_lit "="; ralts [r_token; r_quoted]])].
Definition content_type_text : str :=
  lit "^([!#$%&'*+\-.^_`|~0-9a-zA-Z])+/([!#$%&'*+\-.^_`|~0-9a-zA-Z])+([        \t]*;[ \t]*([!#$%&'*+\-.^_`|~0-9a-zA-Z])+=(([!#$%&'*+\-.^_`|~0-9a-zA-Z])+|\""(([\t        !#-\[\]-~]|[\x80-"
  ++ [255%N] ++ lit "])|\\([\t !-~]|[\x80-" ++ [255%N] ++ lit "]))*\""))*$".
(** model.py:178; the language is that of the pattern for xs:duration in data_types.py *)
Definition duration_text : str :=
  lit "-?P((([0-9]+Y([0-9]+M)?([0-9]+D)?|([0-9]+M)([0-9]+D)?|([0-9]+D))(T(([0-9]+H)([0-9]+M)?([0-9]+(\.[0-9]+)?S)?|([0-9]+M)([0-9]+(\.[0-9]+)?S)?|([0-9]+(\.[0-9]+)?S)))?)|(T(([0-9]+H)([0-9]+M)?([0-9]+(\.[0-9]+)?S)?|([0-9]+M)([0-9]+(\.[0-9]+)?S)?|([0-9]+(\.[0-9]+)?S))))".

(** Positions of the classes in the list [model_classes] *)
Definition k_DataTypeDefXsd : nat := 0.
Definition k_LangStringSet : nat := 1.
Definition k_MultiLanguageNameType : nat := 2.
Definition k_MultiLanguageTextType : nat := 3.
Definition k_BlobString : nat := 4.
Definition k_ContentType : nat := 5.
Definition k_IdentifierString : nat := 6.
Definition k_LabelString : nat := 7.
Definition k_MessageTopicString : nat := 8.
Definition k_NameTypeString : nat := 9.
Definition k_PathString : nat := 10.
Definition k_RevisionString : nat := 11.
Definition k_VersionString : nat := 12.
Definition k_ValueDataType : nat := 13.
Definition k_DateTime : nat := 14.
Definition k_DateTimeUtc : nat := 15.
Definition k_Duration : nat := 16.
Definition k_DataType : nat := 17.
Definition k_ValueType : nat := 18.
Definition k_KeyType : nat := 19.
Definition k_Key : nat := 20.
Definition k_ReferenceType : nat := 21.
Definition k_Reference : nat := 22.
Definition k_DataSpecificationContent : nat := 23.
Definition k_EmbeddedDataSpecification : nat := 24.
Definition k_HasDataSpecification : nat := 25.
Definition k_ValueReferencePair : nat := 26.
Definition k_ValueList : nat := 27.
Definition k_LevelType : nat := 28.
Definition k_DataTypeIec61360 : nat := 29.
Definition k_DefinitionTypeIec61360 : nat := 30.
Definition k_PreferredNameTypeIec61360 : nat := 31.
Definition k_ShortNameTypeIec61360 : nat := 32.
Definition k_ValueTypeIec61360 : nat := 33.
Definition k_NonEmptyString : nat := 34.
Definition k_DataSpecificationIec61360 : nat := 35.
Definition k_HasSemantics : nat := 36.
Definition k_Extension : nat := 37.
Definition k_HasExtensions : nat := 38.
Definition k_Referable : nat := 39.
Definition k_ModellingKind : nat := 40.
Definition k_HasKind : nat := 41.
Definition k_AdministrativeInformation : nat := 42.
Definition k_Identifiable : nat := 43.
Definition k_QualifierKind : nat := 44.
Definition k_Qualifier : nat := 45.
Definition k_Qualifiable : nat := 46.
Definition k_SpecificAssetId : nat := 47.
Definition k_Resource : nat := 48.
Definition k_AssetKind : nat := 49.
Definition k_AssetInformation : nat := 50.
Definition k_SubmodelElement : nat := 51.
Definition k_DataElement : nat := 52.
Definition k_RelationshipElement : nat := 53.
Definition k_AnnotatedRelationshipElement : nat := 54.
Definition k_EventElement : nat := 55.
Definition k_StateOfEvent : nat := 56.
Definition k_Direction : nat := 57.
Definition k_BasicEventElement : nat := 58.
Definition k_Blob : nat := 59.
Definition k_Capability : nat := 60.
Definition k_EntityType : nat := 61.
Definition k_Entity : nat := 62.
Definition k_File : nat := 63.
Definition k_MultiLanguageProperty : nat := 64.
Definition k_OperationVariable : nat := 65.
Definition k_Operation : nat := 66.
Definition k_Property : nat := 67.
Definition k_Range : nat := 68.
Definition k_ReferenceElement : nat := 69.
Definition k_SubmodelElementCollection : nat := 70.
Definition k_SubmodelElementList : nat := 71.
Definition k_AssetAdministrationShell : nat := 72.
Definition k_Submodel : nat := 73.
Definition k_ConceptDescription : nat := 74.
Definition k_Environment : nat := 75.

(** data_types.py:326-356 *)
Definition d_DataTypeDefXsd : classdecl :=
  Class M_data_types (lit "DataTypeDefXsd") []
    (KEnum [(lit "anyURI", lit "xs:anyURI"); (lit "base64Binary", lit "xs:base64Binary");
     (lit "boolean", lit "xs:boolean"); (lit "byte", lit "xs:byte");
     (lit "date", lit "xs:date"); (lit "dateTime", lit "xs:dateTime");
     (lit "decimal", lit "xs:decimal"); (lit "double", lit "xs:double");
     (lit "duration", lit "xs:duration"); (lit "float", lit "xs:float");
     (lit "gDay", lit "xs:gDay"); (lit "gMonth", lit "xs:gMonth");
     (lit "gMonthDay", lit "xs:gMonthDay"); (lit "gYear", lit "xs:gYear");
     (lit "gYearMonth", lit "xs:gYearMonth"); (lit "hexBinary", lit "xs:hexBinary");
     (lit "int", lit "xs:int"); (lit "integer", lit "xs:integer");
     (lit "long", lit "xs:long"); (lit "negativeInteger", lit "xs:negativeInteger");
     (lit "nonNegativeInteger", lit "xs:nonNegativeInteger"); (lit "nonPositiveInteger", lit "xs:nonPositiveInteger");
     (lit "positiveInteger", lit "xs:positiveInteger"); (lit "short", lit "xs:short");
     (lit "string", lit "xs:string"); (lit "time", lit "xs:time");
     (lit "unsignedByte", lit "xs:unsignedByte"); (lit "unsignedInt", lit "xs:unsignedInt");
     (lit "unsignedLong", lit "xs:unsignedLong"); (lit "unsignedShort", lit "xs:unsignedShort")])
    false false.

(** model.py:65-68 *)
Definition d_LangStringSet : classdecl :=
  Class M_model (lit "LangStringSet") []
    (KData [Field (lit "language") (AStr) None None;
     Field (lit "text") (AStr) None None])
    false false.

(** model.py:91-91 *)
Definition d_MultiLanguageNameType : classdecl :=
  Class M_model (lit "MultiLanguageNameType") [k_LangStringSet]
    (KPlain)
    false false.

(** model.py:95-95 *)
Definition d_MultiLanguageTextType : classdecl :=
  Class M_model (lit "MultiLanguageTextType") [k_LangStringSet]
    (KPlain)
    false false.

(** model.py:99-100 *)
Definition d_BlobString : classdecl :=
  Class M_model (lit "BlobString") []
    (KSfv (Sfv (Some 1%N) None None (None) false))
    false false.

(** model.py:103-106 *)
Definition d_ContentType : classdecl :=
  Class M_model (lit "ContentType") []
    (KSfv (Sfv (Some 1%N) (Some 100%N) (Some (content_type_text, r_content_type)) (None) false))
    false false.

(** model.py:109-111 *)
Definition d_IdentifierString : classdecl :=
  Class M_model (lit "IdentifierString") []
    (KSfv (Sfv (Some 1%N) (Some 2000%N) None (None) false))
    false false.

(** model.py:114-116 *)
Definition d_LabelString : classdecl :=
  Class M_model (lit "LabelString") []
    (KSfv (Sfv (Some 1%N) (Some 64%N) None (None) false))
    false false.

(** model.py:119-121 *)
Definition d_MessageTopicString : classdecl :=
  Class M_model (lit "MessageTopicString") []
    (KSfv (Sfv (Some 1%N) (Some 255%N) None (None) false))
    false false.

(** model.py:124-126 *)
Definition d_NameTypeString : classdecl :=
  Class M_model (lit "NameTypeString") []
    (KSfv (Sfv (Some 1%N) (Some 128%N) None (None) false))
    false false.

(** model.py:129-136 *)
Definition d_PathString : classdecl :=
  Class M_model (lit "PathString") []
    (KSfv (Sfv (Some 1%N) (Some 2000%N) None (Some ((fun s => Val (is_any_uri s)), lit "Not a valid path")) false))
    false false.

(** model.py:139-142 *)
Definition d_RevisionString : classdecl :=
  Class M_model (lit "RevisionString") []
    (KSfv (Sfv (Some 1%N) (Some 4%N) (Some (lit "(0|[1-9][0-9]*)", r_version)) (None) false))
    false false.

(** model.py:148-151 *)
Definition d_VersionString : classdecl :=
  Class M_model (lit "VersionString") []
    (KSfv (Sfv (Some 1%N) (Some 4%N) (Some (lit "(0|[1-9][0-9]*)", r_version)) (None) false))
    false false.

(** model.py:154-155 *)
Definition d_ValueDataType : classdecl :=
  Class M_model (lit "ValueDataType") []
    (KSfv (Sfv None None None (None) false))
    false false.

(** model.py:158-164 *)
Definition d_DateTime : classdecl :=
  Class M_model (lit "DateTime") []
    (KSfv (Sfv (Some 1%N) None None (Some (is_xs_date_time, lit "Not an xs:dateTime")) false))
    false false.

(** model.py:167-173 *)
Definition d_DateTimeUtc : classdecl :=
  Class M_model (lit "DateTimeUtc") []
    (KSfv (Sfv (Some 1%N) None None (Some (is_xs_date_time_utc, lit "Not an xs:dateTimeUtc")) false))
    false false.

(** model.py:176-178 *)
Definition d_Duration : classdecl :=
  Class M_model (lit "Duration") []
    (KSfv (Sfv (Some 1%N) None (Some (duration_text, r_duration)) (None) false))
    false false.

(** model.py:181-182 *)
Definition d_DataType : classdecl :=
  Class M_model (lit "DataType") []
    (KSfv (Sfv (Some 1%N) None None (None) false))
    false false.

(** model.py:185-186 *)
Definition d_ValueType : classdecl :=
  Class M_model (lit "ValueType") []
    (KSfv (Sfv (Some 1%N) None None (None) false))
    false false.

(** model.py:210-234 *)
Definition d_KeyType : classdecl :=
  Class M_model (lit "KeyType") []
    (KEnum [(lit "AnnotatedRelationshipElement", lit "AnnotatedRelationshipElement"); (lit "AssetAdministrationShell", lit "AssetAdministrationShell");
     (lit "BasicEventElement", lit "BasicEventElement"); (lit "Blob", lit "Blob");
     (lit "Capability", lit "Capability"); (lit "ConceptDescription", lit "ConceptDescription");
     (lit "DataElement", lit "DataElement"); (lit "Entity", lit "Entity");
     (lit "EventElement", lit "EventElement"); (lit "File", lit "File");
     (lit "FragmentReference", lit "FragmentReference"); (lit "GlobalReference", lit "GlobalReference");
     (lit "Identifiable", lit "Identifiable"); (lit "MultiLanguageProperty", lit "MultiLanguageProperty");
     (lit "Operation", lit "Operation"); (lit "Property", lit "Property");
     (lit "Range", lit "Range"); (lit "Referable", lit "Referable");
     (lit "ReferenceElement", lit "ReferenceElement"); (lit "RelationshipElement", lit "RelationshipElement");
     (lit "Submodel", lit "Submodel"); (lit "SubmodelElement", lit "SubmodelElement");
     (lit "SubmodelElementCollection", lit "SubmodelElementCollection"); (lit "SubmodelElementList", lit "SubmodelElementList")])
    false false.

(** model.py:280-283 *)
Definition d_Key : classdecl :=
  Class M_model (lit "Key") []
    (KData [Field (lit "type") (ACls k_KeyType) None None;
     Field (lit "value") (ACls k_IdentifierString) None None])
    false false.

(** model.py:292-294 *)
Definition d_ReferenceType : classdecl :=
  Class M_model (lit "ReferenceType") []
    (KEnum [(lit "ExternalReference", lit "ExternalReference"); (lit "ModelReference", lit "ModelReference")])
    false false.

(** model.py:297-301 *)
Definition d_Reference : classdecl :=
  Class M_model (lit "Reference") []
    (KData [Field (lit "type") (ACls k_ReferenceType) None None;
     Field (lit "referred_semantic_id") (AOpt (AFwd (lit "Reference"))) None None;
     Field (lit "keys") (ANonEmpty (ACls k_Key)) None None])
    false false.

(** model.py:427-429 *)
Definition d_DataSpecificationContent : classdecl :=
  Class M_model (lit "DataSpecificationContent") []
    (KData [])
    true false.

(** model.py:433-436 *)
Definition d_EmbeddedDataSpecification : classdecl :=
  Class M_model (lit "EmbeddedDataSpecification") []
    (KData [Field (lit "data_specification") (ACls k_Reference) None None;
     Field (lit "data_specification_content") (ACls k_DataSpecificationContent) None None])
    false false.

(** model.py:459-461 *)
Definition d_HasDataSpecification : classdecl :=
  Class M_model (lit "HasDataSpecification") []
    (KData [Field (lit "embedded_data_specifications") (AOpt (ANonEmpty (ACls k_EmbeddedDataSpecification))) None None])
    false false.

(** model.py:464-467 *)
Definition d_ValueReferencePair : classdecl :=
  Class M_model (lit "ValueReferencePair") []
    (KData [Field (lit "value") (ACls k_IdentifierString) None None;
     Field (lit "value_id") (ACls k_Reference) None None])
    false false.

(** model.py:470-472 *)
Definition d_ValueList : classdecl :=
  Class M_model (lit "ValueList") []
    (KData [Field (lit "value_reference_pairs") (ANonEmpty (ACls k_ValueReferencePair)) None None])
    false false.

(** model.py:475-480 *)
Definition d_LevelType : classdecl :=
  Class M_model (lit "LevelType") []
    (KData [Field (lit "min") (ABool) None None;
     Field (lit "nom") (ABool) None None;
     Field (lit "typ") (ABool) None None;
     Field (lit "max") (ABool) None None])
    false false.

(** model.py:483-502 *)
Definition d_DataTypeIec61360 : classdecl :=
  Class M_model (lit "DataTypeIec61360") []
    (KEnum [(lit "BLOB", lit "BLOB"); (lit "BOOLEAN", lit "BOOLEAN");
     (lit "DATE", lit "DATE"); (lit "FILE", lit "FILE");
     (lit "HTML", lit "HTML"); (lit "INTEGER_COUNT", lit "INTEGER_COUNT");
     (lit "INTEGER_CURRENCY", lit "INTEGER_CURRENCY"); (lit "INTEGER_MEASURE", lit "INTEGER_MEASURE");
     (lit "IRDI", lit "IRDI"); (lit "IRI", lit "IRI");
     (lit "RATIONAL", lit "RATIONAL"); (lit "RATIONAL_MEASURE", lit "RATIONAL_MEASURE");
     (lit "REAL_COUNT", lit "REAL_COUNT"); (lit "REAL_CURRENCY", lit "REAL_CURRENCY");
     (lit "REAL_MEASURE", lit "REAL_MEASURE"); (lit "STRING", lit "STRING");
     (lit "STRING_TRANSLATABLE", lit "STRING_TRANSLATABLE"); (lit "TIME", lit "TIME");
     (lit "TIMESTAMP", lit "TIMESTAMP")])
    false false.

(** model.py:505-505 *)
Definition d_DefinitionTypeIec61360 : classdecl :=
  Class M_model (lit "DefinitionTypeIec61360") [k_LangStringSet]
    (KPlain)
    false false.

(** model.py:509-509 *)
Definition d_PreferredNameTypeIec61360 : classdecl :=
  Class M_model (lit "PreferredNameTypeIec61360") [k_LangStringSet]
    (KPlain)
    false false.

(** model.py:513-513 *)
Definition d_ShortNameTypeIec61360 : classdecl :=
  Class M_model (lit "ShortNameTypeIec61360") [k_LangStringSet]
    (KPlain)
    false false.

(** model.py:517-519 *)
Definition d_ValueTypeIec61360 : classdecl :=
  Class M_model (lit "ValueTypeIec61360") []
    (KSfv (Sfv (Some 1%N) (Some 2000%N) None (None) false))
    false false.

(** model.py:522-523 *)
Definition d_NonEmptyString : classdecl :=
  Class M_model (lit "NonEmptyString") []
    (KSfv (Sfv (Some 1%N) None None (None) false))
    false false.

(** model.py:526-539 *)
Definition d_DataSpecificationIec61360 : classdecl :=
  Class M_model (lit "DataSpecificationIec61360") [k_DataSpecificationContent]
    (KData [Field (lit "preferred_name") (ANonEmpty (ACls k_PreferredNameTypeIec61360)) None None;
     Field (lit "short_name") (AOpt (ANonEmpty (ACls k_ShortNameTypeIec61360))) None None;
     Field (lit "unit") (AOpt (ACls k_NonEmptyString)) None None;
     Field (lit "unit_id") (AOpt (ACls k_Reference)) None None;
     Field (lit "source_of_definition") (AOpt (ACls k_NonEmptyString)) None None;
     Field (lit "symbol") (AOpt (ACls k_NonEmptyString)) None None;
     Field (lit "data_type") (AOpt (ACls k_DataTypeIec61360)) None None;
     Field (lit "definition") (AOpt (ANonEmpty (ACls k_DefinitionTypeIec61360))) None None;
     Field (lit "value_format") (AOpt (ACls k_NonEmptyString)) None None;
     Field (lit "value_list") (AOpt (ACls k_ValueList)) None None;
     Field (lit "value") (AOpt (ACls k_ValueTypeIec61360)) None None;
     Field (lit "level_type") (AOpt (ACls k_LevelType)) None None])
    false false.

(** model.py:580-585 *)
Definition d_HasSemantics : classdecl :=
  Class M_model (lit "HasSemantics") []
    (KData [Field (lit "semantic_id") (AOpt (ACls k_Reference)) None None;
     Field (lit "supplemental_semantic_ids") (AOpt (ANonEmpty (ACls k_Reference))) None None])
    false false.

(** model.py:602-609 *)
Definition d_Extension : classdecl :=
  Class M_model (lit "Extension") [k_HasSemantics]
    (KData [Field (lit "name") (ACls k_NameTypeString) None None;
     Field (lit "value_type") (AOpt (ACls k_DataTypeDefXsd)) None None;
     Field (lit "value") (AOpt (ACls k_ValueDataType)) None None;
     Field (lit "refers_to") (AOpt (ANonEmpty (ACls k_Reference))) None None])
    false false.

(** model.py:616-618 *)
Definition d_HasExtensions : classdecl :=
  Class M_model (lit "HasExtensions") []
    (KData [Field (lit "extensions") (AOpt (ANonEmpty (ACls k_Extension))) None None])
    false false.

(** model.py:624-630 *)
Definition d_Referable : classdecl :=
  Class M_model (lit "Referable") [k_HasExtensions]
    (KData [Field (lit "category") (AOpt (ACls k_NameTypeString)) None None;
     Field (lit "id_short") (AOpt (ACls k_NameTypeString)) None None;
     Field (lit "display_name") (AOpt (ANonEmpty (ACls k_MultiLanguageNameType))) None None;
     Field (lit "description") (AOpt (ANonEmpty (ACls k_MultiLanguageTextType))) None None])
    false false.

(** model.py:644-646 *)
Definition d_ModellingKind : classdecl :=
  Class M_model (lit "ModellingKind") []
    (KEnum [(lit "Instance", lit "Instance"); (lit "Template", lit "Template")])
    false false.

(** model.py:649-651 *)
Definition d_HasKind : classdecl :=
  Class M_model (lit "HasKind") []
    (KData [Field (lit "kind") (AOpt (ACls k_ModellingKind)) None None])
    false false.

(** model.py:657-662 *)
Definition d_AdministrativeInformation : classdecl :=
  Class M_model (lit "AdministrativeInformation") [k_HasDataSpecification]
    (KData [Field (lit "version") (AOpt (ACls k_VersionString)) None None;
     Field (lit "revision") (AOpt (ACls k_RevisionString)) None None;
     Field (lit "creator") (AOpt (ACls k_Reference)) None None;
     Field (lit "template_id") (AOpt (ACls k_IdentifierString)) None None])
    false false.

(** model.py:677-681 *)
Definition d_Identifiable : classdecl :=
  Class M_model (lit "Identifiable") [k_Referable]
    (KData [Field (lit "administration") (AOpt (ACls k_AdministrativeInformation)) None None;
     Field (lit "id") (ACls k_IdentifierString) None None])
    false true.

(** model.py:687-690 *)
Definition d_QualifierKind : classdecl :=
  Class M_model (lit "QualifierKind") []
    (KEnum [(lit "ConceptQualifier", lit "ConceptQualifier"); (lit "TemplateQualifier", lit "TemplateQualifier");
     (lit "ValueQualifier", lit "ValueQualifier")])
    false false.

(** model.py:693-701 *)
Definition d_Qualifier : classdecl :=
  Class M_model (lit "Qualifier") [k_HasSemantics]
    (KData [Field (lit "kind") (AOpt (ACls k_QualifierKind)) None None;
     Field (lit "type") (ACls k_NameTypeString) None None;
     Field (lit "value_type") (ACls k_DataTypeDefXsd) None None;
     Field (lit "value") (AOpt (ACls k_ValueDataType)) None None;
     Field (lit "value_id") (AOpt (ACls k_Reference)) None None])
    false false.

(** model.py:724-726 *)
Definition d_Qualifiable : classdecl :=
  Class M_model (lit "Qualifiable") []
    (KData [Field (lit "qualifiers") (AOpt (ANonEmpty (ACls k_Qualifier))) None None])
    false false.

(** model.py:732-736 *)
Definition d_SpecificAssetId : classdecl :=
  Class M_model (lit "SpecificAssetId") [k_HasSemantics]
    (KData [Field (lit "name") (ACls k_LabelString) None None;
     Field (lit "value") (ACls k_IdentifierString) None None;
     Field (lit "external_subject_id") (AOpt (ACls k_Reference)) None None])
    false false.

(** model.py:747-750 *)
Definition d_Resource : classdecl :=
  Class M_model (lit "Resource") []
    (KData [Field (lit "path") (ACls k_PathString) None None;
     Field (lit "content_type") (AOpt (ACls k_ContentType)) None None])
    false false.

(** model.py:753-756 *)
Definition d_AssetKind : classdecl :=
  Class M_model (lit "AssetKind") []
    (KEnum [(lit "INSTANCE", lit "Instance"); (lit "NOT_APPLICABLE", lit "NotApplicable");
     (lit "TYPE", lit "Type")])
    false false.

(** model.py:759-765 *)
Definition d_AssetInformation : classdecl :=
  Class M_model (lit "AssetInformation") []
    (KData [Field (lit "asset_kind") (ACls k_AssetKind) None None;
     Field (lit "global_asset_id") (AOpt (ACls k_IdentifierString)) None None;
     Field (lit "specific_asset_ids") (AOpt (ANonEmpty (ACls k_SpecificAssetId))) None None;
     Field (lit "asset_type") (AOpt (ACls k_IdentifierString)) None None;
     Field (lit "default_thumbnail") (AOpt (ACls k_Resource)) None None])
    false false.

(** model.py:811-814 *)
Definition d_SubmodelElement : classdecl :=
  Class M_model (lit "SubmodelElement") [k_Referable; k_HasSemantics; k_Qualifiable; k_HasDataSpecification]
    (KData [Field (lit "id_short_path") (AOther (lit "IdShortPath")) (Some VNone) None])
    true false.

(** model.py:834-836 *)
Definition d_DataElement : classdecl :=
  Class M_model (lit "DataElement") [k_SubmodelElement]
    (KData [])
    true false.

(** model.py:853-856 *)
Definition d_RelationshipElement : classdecl :=
  Class M_model (lit "RelationshipElement") [k_SubmodelElement]
    (KData [Field (lit "first") (ACls k_Reference) None None;
     Field (lit "second") (ACls k_Reference) None None])
    false false.

(** model.py:862-864 *)
Definition d_AnnotatedRelationshipElement : classdecl :=
  Class M_model (lit "AnnotatedRelationshipElement") [k_RelationshipElement]
    (KData [Field (lit "annotations") (AOpt (ANonEmpty (ACls k_DataElement))) None None])
    false false.

(** model.py:873-874 *)
Definition d_EventElement : classdecl :=
  Class M_model (lit "EventElement") [k_SubmodelElement]
    (KData [])
    false false.

(** model.py:881-883 *)
Definition d_StateOfEvent : classdecl :=
  Class M_model (lit "StateOfEvent") []
    (KEnum [(lit "OFF", lit "off"); (lit "ON", lit "on")])
    false false.

(** model.py:886-888 *)
Definition d_Direction : classdecl :=
  Class M_model (lit "Direction") []
    (KEnum [(lit "INPUT", lit "input"); (lit "OUTPUT", lit "output")])
    false false.

(** model.py:891-900 *)
Definition d_BasicEventElement : classdecl :=
  Class M_model (lit "BasicEventElement") [k_EventElement]
    (KData [Field (lit "observed") (ACls k_Reference) None None;
     Field (lit "direction") (ACls k_Direction) None None;
     Field (lit "state") (ACls k_StateOfEvent) None None;
     Field (lit "message_topic") (AOpt (ACls k_MessageTopicString)) None None;
     Field (lit "message_broker") (AOpt (ACls k_Reference)) None None;
     Field (lit "last_update") (AOpt (ACls k_DateTime)) None None;
     Field (lit "min_interval") (AOpt (ACls k_Duration)) None None;
     Field (lit "max_interval") (AOpt (ACls k_Duration)) None None])
    false false.

(** model.py:918-921 *)
Definition d_Blob : classdecl :=
  Class M_model (lit "Blob") [k_DataElement]
    (KData [Field (lit "value") (AOpt (ACls k_BlobString)) None None;
     Field (lit "content_type") (ACls k_ContentType) None None])
    false false.

(** model.py:927-928 *)
Definition d_Capability : classdecl :=
  Class M_model (lit "Capability") [k_SubmodelElement]
    (KData [])
    false false.

(** model.py:935-937 *)
Definition d_EntityType : classdecl :=
  Class M_model (lit "EntityType") []
    (KEnum [(lit "CoManagedEntity", lit "CoManagedEntity"); (lit "SelfManagedEntity", lit "SelfManagedEntity")])
    false false.

(** model.py:940-945 *)
Definition d_Entity : classdecl :=
  Class M_model (lit "Entity") [k_SubmodelElement]
    (KData [Field (lit "statements") (AOpt (ANonEmpty (ACls k_SubmodelElement))) None None;
     Field (lit "entity_type") (ACls k_EntityType) None None;
     Field (lit "global_asset_id") (AOpt (ACls k_IdentifierString)) None None;
     Field (lit "specific_asset_ids") (AOpt (ANonEmpty (ACls k_SpecificAssetId))) None None])
    false false.

(** model.py:970-973 *)
Definition d_File : classdecl :=
  Class M_model (lit "File") [k_DataElement]
    (KData [Field (lit "value") (AOpt (ACls k_PathString)) None None;
     Field (lit "content_type") (ACls k_ContentType) None None])
    false false.

(** model.py:979-983 *)
Definition d_MultiLanguageProperty : classdecl :=
  Class M_model (lit "MultiLanguageProperty") [k_DataElement]
    (KData [Field (lit "value") (AOpt (ANonEmpty (ACls k_MultiLanguageTextType))) None None;
     Field (lit "value_id") (AOpt (ACls k_Reference)) None None])
    false false.

(** model.py:998-1000 *)
Definition d_OperationVariable : classdecl :=
  Class M_model (lit "OperationVariable") []
    (KData [Field (lit "value") (ACls k_SubmodelElement) None None])
    false false.

(** model.py:1011-1015 *)
Definition d_Operation : classdecl :=
  Class M_model (lit "Operation") [k_SubmodelElement]
    (KData [Field (lit "input_variables") (AOpt (ANonEmpty (ACls k_OperationVariable))) None None;
     Field (lit "output_variables") (AOpt (ANonEmpty (ACls k_OperationVariable))) None None;
     Field (lit "inoutput_variables") (AOpt (ANonEmpty (ACls k_OperationVariable))) None None])
    false false.

(** model.py:1043-1048 *)
Definition d_Property : classdecl :=
  Class M_model (lit "Property") [k_DataElement]
    (KData [Field (lit "value_type") (ACls k_DataTypeDefXsd) None None;
     Field (lit "value") (AOpt (ACls k_ValueDataType)) None None;
     Field (lit "value_id") (AOpt (ACls k_Reference)) None None])
    false false.

(** model.py:1067-1071 *)
Definition d_Range : classdecl :=
  Class M_model (lit "Range") [k_DataElement]
    (KData [Field (lit "value_type") (ACls k_DataTypeDefXsd) None None;
     Field (lit "min") (AOpt (ACls k_ValueDataType)) None None;
     Field (lit "max") (AOpt (ACls k_ValueDataType)) None None])
    false false.

(** model.py:1085-1087 *)
Definition d_ReferenceElement : classdecl :=
  Class M_model (lit "ReferenceElement") [k_DataElement]
    (KData [Field (lit "value") (AOpt (ACls k_Reference)) None None])
    false false.

(** model.py:1093-1095 *)
Definition d_SubmodelElementCollection : classdecl :=
  Class M_model (lit "SubmodelElementCollection") [k_SubmodelElement]
    (KData [Field (lit "value") (AOpt (ANonEmpty (ACls k_SubmodelElement))) None None])
    false false.

(** model.py:1119-1127 *)
Definition d_SubmodelElementList : classdecl :=
  Class M_model (lit "SubmodelElementList") [k_SubmodelElement]
    (KData [Field (lit "order_relevant") (AOpt (ABool)) None None;
     Field (lit "semantic_id_list_element") (AOpt (ACls k_Reference)) None None;
     Field (lit "type_value_list_element") (ACls k_KeyType) None None;
     Field (lit "value_type_list_element") (AOpt (ACls k_DataTypeDefXsd)) None None;
     Field (lit "value") (AOpt (ANonEmpty (ACls k_SubmodelElement))) None None])
    false false.

(** model.py:1243-1247 *)
Definition d_AssetAdministrationShell : classdecl :=
  Class M_model (lit "AssetAdministrationShell") [k_Identifiable; k_HasDataSpecification]
    (KData [Field (lit "derived_from") (AOpt (ACls k_Reference)) None None;
     Field (lit "asset_information") (ACls k_AssetInformation) None None;
     Field (lit "submodels") (AOpt (ANonEmpty (ACls k_Reference))) None None])
    false false.

(** model.py:1267-1269 *)
Definition d_Submodel : classdecl :=
  Class M_model (lit "Submodel") [k_Identifiable; k_HasKind; k_HasSemantics; k_Qualifiable; k_HasDataSpecification]
    (KData [Field (lit "submodel_elements") (AOpt (ANonEmpty (ACls k_SubmodelElement))) None None])
    false false.

(** model.py:1328-1331 *)
Definition d_ConceptDescription : classdecl :=
  Class M_model (lit "ConceptDescription") [k_Identifiable; k_HasDataSpecification]
    (KData [Field (lit "is_case_of") (AOpt (ANonEmpty (ACls k_Reference))) None None])
    false false.

(** model.py:1462-1466 *)
Definition d_Environment : classdecl :=
  Class M_model (lit "Environment") []
    (KData [Field (lit "asset_administration_shells") (AOpt (ANonEmpty (ACls k_AssetAdministrationShell))) None None;
     Field (lit "submodels") (AOpt (ANonEmpty (ACls k_Submodel))) None None;
     Field (lit "concept_descriptions") (AOpt (ANonEmpty (ACls k_ConceptDescription))) None None])
    false false.

(** All class statements in the order of their execution.  Classes without annotations that are not
    part of the meta model (IdShortPath) are left out. *)
Definition model_classes : list classdecl :=
  [d_DataTypeDefXsd; d_LangStringSet; d_MultiLanguageNameType; d_MultiLanguageTextType;
   d_BlobString; d_ContentType; d_IdentifierString; d_LabelString;
   d_MessageTopicString; d_NameTypeString; d_PathString; d_RevisionString;
   d_VersionString; d_ValueDataType; d_DateTime; d_DateTimeUtc;
   d_Duration; d_DataType; d_ValueType; d_KeyType;
   d_Key; d_ReferenceType; d_Reference; d_DataSpecificationContent;
   d_EmbeddedDataSpecification; d_HasDataSpecification; d_ValueReferencePair; d_ValueList;
   d_LevelType; d_DataTypeIec61360; d_DefinitionTypeIec61360; d_PreferredNameTypeIec61360;
   d_ShortNameTypeIec61360; d_ValueTypeIec61360; d_NonEmptyString; d_DataSpecificationIec61360;
   d_HasSemantics; d_Extension; d_HasExtensions; d_Referable;
   d_ModellingKind; d_HasKind; d_AdministrativeInformation; d_Identifiable;
   d_QualifierKind; d_Qualifier; d_Qualifiable; d_SpecificAssetId;
   d_Resource; d_AssetKind; d_AssetInformation; d_SubmodelElement;
   d_DataElement; d_RelationshipElement; d_AnnotatedRelationshipElement; d_EventElement;
   d_StateOfEvent; d_Direction; d_BasicEventElement; d_Blob;
   d_Capability; d_EntityType; d_Entity; d_File;
   d_MultiLanguageProperty; d_OperationVariable; d_Operation; d_Property;
   d_Range; d_ReferenceElement; d_SubmodelElementCollection; d_SubmodelElementList;
   d_AssetAdministrationShell; d_Submodel; d_ConceptDescription; d_Environment].

(** globals() of model.py: the names that may be used in forward references *)
Definition model_globals : list (str * nat) :=
  List.map (fun c => (c_name (fst c), snd c)) (combine model_classes (seq 0 (length model_classes))).
