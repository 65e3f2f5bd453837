(** The AAS meta model, part 1, V3.0 (IDTA-01001-3-0), written down from the specification:
    classes, JSON attribute names, optionality, types, enumeration literals, concrete subclasses. *)
From Coq Require Import String List NArith Bool.
From Verif Require Import PyStr PyBase DataTypesModel DataTypesSpec PyVal ReflectModel ParseModel.
Import ListNotations.
Local Open Scope list_scope.

(** * Types *)
Inductive format :=
| FAny                 (* no further restriction *)
| FContentType         (* MIME type: type "/" subtype, parameters *)
| FVersion             (* 0 or a number without leading zeros *)
| FXsd (t : xsd)       (* lexical space of an XSD type; claims C59-C69 are about these *)
| FUtc                 (* xs:dateTime in UTC *)
| FLang                (* language tag according to BCP 47; claim C67 *).
(** Strings of XML 1.0 characters (AASd-130) with a minimal and a maximal length. *)
Record text := Text { t_min : N; t_max : option N; t_format : format }.

Inductive gtype :=
| GText (t : text)
| GPlain                         (* any string *)
| GBool
| GEnum (literals : list str)
| GObj (class : str)             (* an instance of the class or of a concrete subclass *)
| GList (item : gtype).          (* at least one item *)

Record gattr := GAttr { g_name : str; g_required : bool; g_type : gtype }.
Record gclass := GClass {
  gc_name : str;
  gc_abstract : bool;
  gc_tagged : bool;              (* modelType is mandatory in JSON *)
  gc_attrs : list gattr;
  gc_subclasses : list str       (* concrete subclasses *)
}.

(** ** Meaning of the string types *)
Definition XmlChar (c : N) : Prop :=
  (c = 9 \/ c = 10 \/ c = 13 \/ (32 <= c /\ c <= 55295) \/ (57344 <= c /\ c <= 65533) \/ (65536 <= c /\ c <= 1114111))%N.

(** RFC 7230/7231: token, quoted-string, parameter, media-type *)
Definition TokenChar (c : N) : Prop := In c (lit "!#$%&'*+-.^_`|~") \/ AlphaNum c.
Definition MimeToken (s : str) : Prop := s <> [] /\ Forall TokenChar s.
Definition Blanks (s : str) : Prop := Forall (fun c => c = 32%N \/ c = 9%N) s.
Definition ObsText (c : N) : Prop := (128 <= c /\ c <= 255)%N.
Definition QdText (s : str) : Prop :=
  exists c, s = [c] /\ (c = 9 \/ c = 32 \/ c = 33 \/ (35 <= c /\ c <= 91) \/ (93 <= c /\ c <= 126) \/ ObsText c)%N.
Definition QuotedPair (s : str) : Prop :=
  exists c, s = [92%N; c] /\ (c = 9 \/ (32 <= c /\ c <= 126) \/ ObsText c)%N.
Definition QuotedString (s : str) : Prop :=
  exists l, s = [34%N] ++ List.concat l ++ [34%N] /\ Forall (fun x => QdText x \/ QuotedPair x) l.
Definition MimeParameter (s : str) : Prop :=
  exists w1 w2 n v, s = w1 ++ lit ";" ++ w2 ++ n ++ lit "=" ++ v /\
    Blanks w1 /\ Blanks w2 /\ MimeToken n /\ (MimeToken v \/ QuotedString v).
Definition MediaType (s : str) : Prop :=
  exists a b l, s = a ++ lit "/" ++ b ++ List.concat l /\ MimeToken a /\ MimeToken b /\ Forall MimeParameter l.

Definition format_ok (f : format) (s : str) : Prop :=
  match f with
  | FAny => True
  | FContentType => MediaType s
  | FVersion => VersionText s
  | FXsd t => validate_xsd t s = Val true
  | FUtc => is_xs_date_time_utc s = Val true
  | FLang => is_bcp_lang_string s = true
  end.
Definition text_ok (t : text) (s : str) : Prop :=
  Forall XmlChar s /\ (t_min t <= N.of_nat (length s))%N /\
  match t_max t with Some m => (N.of_nat (length s) <= m)%N | None => True end /\
  format_ok (t_format t) s.

(** * Primitive types (5.3.11.2) *)
Definition s_identifier := GText (Text 1 (Some 2000%N) FAny).
Definition s_label := GText (Text 1 (Some 64%N) FAny).
Definition s_topic := GText (Text 1 (Some 255%N) FAny).
Definition s_name := GText (Text 1 (Some 128%N) FAny).
Definition s_content_type := GText (Text 1 (Some 100%N) FContentType).
Definition s_path := GText (Text 1 (Some 2000%N) (FXsd X_anyURI)).
Definition s_version := GText (Text 1 (Some 4%N) FVersion).
Definition s_value := GText (Text 0 None FAny).
Definition s_nonempty := GText (Text 1 None FAny).
Definition s_value_iec := GText (Text 1 (Some 2000%N) FAny).
Definition s_duration := GText (Text 1 None (FXsd X_duration)).
Definition s_date_time_utc := GText (Text 1 None FUtc).
Definition s_blob := GText (Text 0 None (FXsd X_base64Binary)).
Definition s_language := GText (Text 1 None FLang).
Definition s_text (n : N) := GText (Text 1 (Some n) FAny).

(** * Enumerations *)
Definition lits (l : list string) : list str := List.map lit l.
Definition submodel_element_keys : list string :=
  ["AnnotatedRelationshipElement"; "BasicEventElement"; "Blob"; "Capability"; "DataElement"; "Entity"; "EventElement";
   "File"; "MultiLanguageProperty"; "Operation"; "Property"; "Range"; "ReferenceElement"; "RelationshipElement";
   "SubmodelElement"; "SubmodelElementCollection"; "SubmodelElementList"]%string.
Definition key_types : list string :=
  submodel_element_keys ++
  ["AssetAdministrationShell"; "ConceptDescription"; "Submodel"; "Identifiable"; "Referable";
   "GlobalReference"; "FragmentReference"]%string.
Definition e_key_types := GEnum (lits key_types).
Definition e_aas_submodel_elements := GEnum (lits submodel_element_keys).
Definition e_reference_types := GEnum (lits ["ExternalReference"; "ModelReference"]%string).
Definition e_modelling_kind := GEnum (lits ["Instance"; "Template"]%string).
Definition e_qualifier_kind := GEnum (lits ["ConceptQualifier"; "TemplateQualifier"; "ValueQualifier"]%string).
Definition e_asset_kind := GEnum (lits ["Type"; "Instance"; "NotApplicable"]%string).
Definition e_entity_type := GEnum (lits ["CoManagedEntity"; "SelfManagedEntity"]%string).
Definition e_direction := GEnum (lits ["input"; "output"]%string).
Definition e_state := GEnum (lits ["on"; "off"]%string).
Definition e_xsd := GEnum (lits
  ["xs:anyURI"; "xs:base64Binary"; "xs:boolean"; "xs:byte"; "xs:date"; "xs:dateTime"; "xs:decimal"; "xs:double";
   "xs:duration"; "xs:float"; "xs:gDay"; "xs:gMonth"; "xs:gMonthDay"; "xs:gYear"; "xs:gYearMonth"; "xs:hexBinary";
   "xs:int"; "xs:integer"; "xs:long"; "xs:negativeInteger"; "xs:nonNegativeInteger"; "xs:nonPositiveInteger";
   "xs:positiveInteger"; "xs:short"; "xs:string"; "xs:time"; "xs:unsignedByte"; "xs:unsignedInt";
   "xs:unsignedLong"; "xs:unsignedShort"]%string).
Definition e_iec_type := GEnum (lits
  ["DATE"; "STRING"; "STRING_TRANSLATABLE"; "INTEGER_MEASURE"; "INTEGER_COUNT"; "INTEGER_CURRENCY"; "REAL_MEASURE";
   "REAL_COUNT"; "REAL_CURRENCY"; "BOOLEAN"; "IRI"; "IRDI"; "RATIONAL"; "RATIONAL_MEASURE"; "TIME"; "TIMESTAMP";
   "HTML"; "BLOB"; "FILE"]%string).

(** * Classes *)
Definition req (n : string) (t : gtype) := GAttr (lit n) true t.
Definition opt (n : string) (t : gtype) := GAttr (lit n) false t.
Definition obj (n : string) := GObj (lit n).
Definition ref := obj "Reference".

(** ** Abstract classes: attributes they contribute *)
Definition has_semantics := [opt "semanticId" ref; opt "supplementalSemanticIds" (GList ref)].
Definition has_extensions := [opt "extensions" (GList (obj "Extension"))].
Definition has_kind := [opt "kind" e_modelling_kind].
Definition has_data_specification := [opt "embeddedDataSpecifications" (GList (obj "EmbeddedDataSpecification"))].
Definition qualifiable := [opt "qualifiers" (GList (obj "Qualifier"))].
Definition referable := has_extensions ++
  [opt "category" s_name; opt "idShort" s_name;
   opt "displayName" (GList (obj "LangStringNameType")); opt "description" (GList (obj "LangStringTextType"))].
Definition identifiable := referable ++
  [opt "administration" (obj "AdministrativeInformation"); req "id" s_identifier].
Definition submodel_element := referable ++ has_semantics ++ qualifiable ++ has_data_specification.
Definition relationship_element := submodel_element ++ [req "first" ref; req "second" ref].

Definition data_elements : list string :=
  ["Blob"; "File"; "MultiLanguageProperty"; "Property"; "Range"; "ReferenceElement"]%string.
Definition submodel_elements : list string :=
  (data_elements ++ ["AnnotatedRelationshipElement"; "BasicEventElement"; "Capability"; "Entity"; "Operation";
   "RelationshipElement"; "SubmodelElementCollection"; "SubmodelElementList"]%string)%list.

Definition concrete (n : string) (attrs : list gattr) := GClass (lit n) false false attrs [].
Definition tagged (n : string) (attrs : list gattr) := GClass (lit n) false true attrs [].

Definition lang_string (n : string) (max : N) := concrete n [req "language" s_language; req "text" (s_text max)].

Definition aas_v3_0 : list gclass := [
  concrete "Environment"
    [opt "assetAdministrationShells" (GList (obj "AssetAdministrationShell"));
     opt "submodels" (GList (obj "Submodel")); opt "conceptDescriptions" (GList (obj "ConceptDescription"))];
  (* identifiables *)
  tagged "AssetAdministrationShell" (identifiable ++ has_data_specification ++
    [opt "derivedFrom" ref; req "assetInformation" (obj "AssetInformation"); opt "submodels" (GList ref)]);
  tagged "Submodel" (identifiable ++ has_kind ++ has_semantics ++ qualifiable ++ has_data_specification ++
    [opt "submodelElements" (GList (obj "SubmodelElement"))]);
  tagged "ConceptDescription" (identifiable ++ has_data_specification ++ [opt "isCaseOf" (GList ref)]);
  (* assets *)
  concrete "AssetInformation"
    [req "assetKind" e_asset_kind; opt "globalAssetId" s_identifier; opt "assetType" s_identifier;
     opt "specificAssetIds" (GList (obj "SpecificAssetId")); opt "defaultThumbnail" (obj "Resource")];
  concrete "Resource" [req "path" s_path; opt "contentType" s_content_type];
  concrete "SpecificAssetId" (has_semantics ++
    [req "name" s_label; req "value" s_identifier; opt "externalSubjectId" ref]);
  (* common *)
  concrete "AdministrativeInformation" (has_data_specification ++
    [opt "version" s_version; opt "revision" s_version; opt "creator" ref; opt "templateId" s_identifier]);
  concrete "Extension" (has_semantics ++
    [req "name" s_name; opt "valueType" e_xsd; opt "value" s_value; opt "refersTo" (GList ref)]);
  concrete "Qualifier" (has_semantics ++
    [opt "kind" e_qualifier_kind; req "type" s_name; req "valueType" e_xsd; opt "value" s_value; opt "valueId" ref]);
  concrete "Reference" [req "type" e_reference_types; opt "referredSemanticId" ref; req "keys" (GList (obj "Key"))];
  concrete "Key" [req "type" e_key_types; req "value" s_identifier];
  lang_string "LangStringNameType" 128; lang_string "LangStringTextType" 1023;
  (* submodel elements *)
  GClass (lit "SubmodelElement") true false submodel_element (lits submodel_elements);
  GClass (lit "DataElement") true false submodel_element (lits data_elements);
  GClass (lit "RelationshipElement") false true relationship_element (lits ["AnnotatedRelationshipElement"]%string);
  tagged "AnnotatedRelationshipElement" (relationship_element ++ [opt "annotations" (GList (obj "DataElement"))]);
  tagged "BasicEventElement" (submodel_element ++
    [req "observed" ref; req "direction" e_direction; req "state" e_state; opt "messageTopic" s_topic;
     opt "messageBroker" ref; opt "lastUpdate" s_date_time_utc; opt "minInterval" s_duration; opt "maxInterval" s_duration]);
  tagged "Blob" (submodel_element ++ [opt "value" s_blob; req "contentType" s_content_type]);
  tagged "Capability" submodel_element;
  tagged "Entity" (submodel_element ++
    [opt "statements" (GList (obj "SubmodelElement")); req "entityType" e_entity_type;
     opt "globalAssetId" s_identifier; opt "specificAssetIds" (GList (obj "SpecificAssetId"))]);
  tagged "File" (submodel_element ++ [opt "value" s_path; req "contentType" s_content_type]);
  tagged "MultiLanguageProperty" (submodel_element ++
    [opt "value" (GList (obj "LangStringTextType")); opt "valueId" ref]);
  tagged "Operation" (submodel_element ++
    [opt "inputVariables" (GList (obj "OperationVariable")); opt "outputVariables" (GList (obj "OperationVariable"));
     opt "inoutputVariables" (GList (obj "OperationVariable"))]);
  concrete "OperationVariable" [req "value" (obj "SubmodelElement")];
  tagged "Property" (submodel_element ++ [req "valueType" e_xsd; opt "value" s_value; opt "valueId" ref]);
  tagged "Range" (submodel_element ++ [req "valueType" e_xsd; opt "min" s_value; opt "max" s_value]);
  tagged "ReferenceElement" (submodel_element ++ [opt "value" ref]);
  tagged "SubmodelElementCollection" (submodel_element ++ [opt "value" (GList (obj "SubmodelElement"))]);
  tagged "SubmodelElementList" (submodel_element ++
    [opt "orderRelevant" GBool; opt "semanticIdListElement" ref; req "typeValueListElement" e_aas_submodel_elements;
     opt "valueTypeListElement" e_xsd; opt "value" (GList (obj "SubmodelElement"))]);
  (* data specifications *)
  concrete "EmbeddedDataSpecification"
    [req "dataSpecification" ref; req "dataSpecificationContent" (obj "DataSpecificationContent")];
  GClass (lit "DataSpecificationContent") true false [] (lits ["DataSpecificationIec61360"]%string);
  tagged "DataSpecificationIec61360"
    [req "preferredName" (GList (obj "LangStringPreferredNameTypeIec61360"));
     opt "shortName" (GList (obj "LangStringShortNameTypeIec61360")); opt "unit" s_nonempty; opt "unitId" ref;
     opt "sourceOfDefinition" s_nonempty; opt "symbol" s_nonempty; opt "dataType" e_iec_type;
     opt "definition" (GList (obj "LangStringDefinitionTypeIec61360")); opt "valueFormat" s_nonempty;
     opt "valueList" (obj "ValueList"); opt "value" s_value_iec; opt "levelType" (obj "LevelType")];
  concrete "ValueList" [req "valueReferencePairs" (GList (obj "ValueReferencePair"))];
  concrete "ValueReferencePair" [req "value" s_value_iec; req "valueId" ref];
  concrete "LevelType" [req "min" GBool; req "nom" GBool; req "typ" GBool; req "max" GBool];
  lang_string "LangStringPreferredNameTypeIec61360" 255; lang_string "LangStringShortNameTypeIec61360" 18;
  lang_string "LangStringDefinitionTypeIec61360" 1023
].

(** * Where the checker's schema deviates *)

(** Names of classes that differ (they do not occur in documents). *)
Definition spec_name (n : str) : str :=
  match find (fun p => str_eqb (lit (fst p)) n)
    [("MultiLanguageNameType", "LangStringNameType"); ("MultiLanguageTextType", "LangStringTextType");
     ("PreferredNameTypeIec61360", "LangStringPreferredNameTypeIec61360");
     ("ShortNameTypeIec61360", "LangStringShortNameTypeIec61360");
     ("DefinitionTypeIec61360", "LangStringDefinitionTypeIec61360")]%string with
  | Some p => lit (snd p)
  | None => n
  end.

Definition change_class (n : string) (f : gclass -> gclass) (l : list gclass) : list gclass :=
  List.map (fun c => if str_eqb (gc_name c) (lit n) then f c else c) l.
Definition change_attr (c a : string) (t : gtype) : list gclass -> list gclass :=
  change_class c (fun k => GClass (gc_name k) (gc_abstract k) (gc_tagged k)
    (List.map (fun x => if str_eqb (g_name x) (lit a) then GAttr (g_name x) (g_required x) t else x) (gc_attrs k))
    (gc_subclasses k)).

Definition lang_classes : list string :=
  ["LangStringNameType"; "LangStringTextType"; "LangStringPreferredNameTypeIec61360";
   "LangStringShortNameTypeIec61360"; "LangStringDefinitionTypeIec61360"]%string.
(** The meta model as the checker implements it:
    - EventElement is a concrete class without attributes of its own;
    - BasicEventElement/lastUpdate is an xs:dateTime in any timezone;
    - Blob/value is any non-empty string, not only base64;
    - SubmodelElementList/typeValueListElement is any KeyTypes (constraint checks restrict it);
    - language and text of language strings are any strings (constraint checks restrict them);
    - modelType is mandatory only for identifiables, unless it selects a subclass. *)
Definition aas_v3_0_checked : list gclass :=
  let l := aas_v3_0 in
  let l := change_attr "BasicEventElement" "lastUpdate" (GText (Text 1 None (FXsd X_dateTime))) l in
  let l := change_attr "Blob" "value" s_nonempty l in
  let l := change_attr "SubmodelElementList" "typeValueListElement" e_key_types l in
  let l := fold_left (fun l c => change_attr c "language" GPlain (change_attr c "text" GPlain l)) lang_classes l in
  let l := change_class "SubmodelElement" (fun k => GClass (gc_name k) (gc_abstract k) (gc_tagged k) (gc_attrs k)
             (lit "EventElement" :: gc_subclasses k)) l in
  let l := fold_left (fun l c => change_class c (fun k => GClass (gc_name k) (gc_abstract k) false (gc_attrs k) (gc_subclasses k)) l)
             ("DataSpecificationIec61360"%string :: submodel_elements) l in
  l ++ [GClass (lit "EventElement") false false submodel_element (lits ["BasicEventElement"]%string)].

(** * A symbol table describes a meta model *)

(** Names of python attributes: an upper case letter becomes an underscore and a lower case letter. *)
Definition snake_case (s : str) : str :=
  flat_map (fun c => if (N.leb 65 c && N.leb c 90)%bool then [95; c + 32]%N else [c]) s.

Section Fits.
  Variable P : list classdecl.
  Variable T : table.

  Inductive Fits : nat -> gtype -> Prop :=
  | Fits_text i k c f t : nth_error T i = Some (k, RSfv c) -> kind_of P c = KSfv f ->
      (forall s, sfv_construct f s = Built <-> text_ok t s) -> Fits i (GText t)
  | Fits_plain i k : nth_error T i = Some (k, RString) -> Fits i GPlain
  | Fits_bool i k : nth_error T i = Some (k, RBool) -> Fits i GBool
  | Fits_enum i k c ms l : nth_error T i = Some (k, REnum c) -> kind_of P c = KEnum ms ->
      (forall x, In x (List.map snd ms) <-> In x l) -> Fits i (GEnum l)
  | Fits_obj i k c attrs static subs n : nth_error T i = Some (k, RClass c attrs static subs) ->
      spec_name (name_of P c) = n -> Fits i (GObj n)
  | Fits_list i k j g : nth_error T i = Some (k, RList j false) -> Fits j g -> Fits i (GList g).

  Definition AttrFits (a : attribute nat) (g : gattr) : Prop :=
    json_name a = g_name g /\ a_name a = snake_case (g_name g) /\
    a_required a = g_required g /\ Fits (a_type a) (g_type g).

  Inductive ClassFits : nat -> gclass -> Prop :=
  | Class_fits i k c attrs static subs g : nth_error T i = Some (k, RClass c attrs static subs) ->
      gc_name g = spec_name (name_of P c) ->
      gc_abstract g = is_abstract P c ->
      gc_tagged g = has_requires_model_type P c ->
      NoDup (List.map json_name attrs) -> NoDup (List.map g_name (gc_attrs g)) ->
      (forall a, In a attrs -> exists x, In x (gc_attrs g) /\ AttrFits a x) ->
      (forall x, In x (gc_attrs g) -> exists a, In a attrs /\ AttrFits a x) ->
      (forall n, In n (gc_subclasses g) <->
                 exists j k' d at_ st su, In j subs /\ nth_error T j = Some (k', RClass d at_ st su) /\
                                         name_of P d = n) ->
      (* the names that occur in documents are those of the specification *)
      (gc_tagged g = true -> name_of P c = gc_name g) ->
      (forall n, In n (gc_subclasses g) -> spec_name n = n) ->
      (* the only other attribute of objects is the path of submodel elements *)
      (static = [] \/ static = [(lit "id_short_path", VNone)]) ->
      NoDup (List.map a_name attrs ++ List.map fst static) ->
      ClassFits i g.

  (** The table describes exactly the classes of a meta model. *)
  Definition Describes_meta_model (M : list gclass) : Prop :=
    (forall g, In g M -> exists i, ClassFits i g) /\
    (forall i k c attrs static subs, nth_error T i = Some (k, RClass c attrs static subs) ->
       exists g, In g M /\ ClassFits i g).
End Fits.
