(** The constraints of "Specification of the Asset Administration Shell, Part 1" V3.0 and
    "Part 3a" (IEC 61360), stated about objects.  Nothing in here refers to the methods of
    model.py. *)
From Coq Require Import PeanoNat String List NArith ZArith Bool.
From Verif Require Import PyStr PyBase PyVal DataTypesModel DataTypesSpec ResultModel.
Import ListNotations.
Local Open Scope list_scope.

(** * Reading objects *)
Definition attr (x : pyval) (n : string) : pyval :=
  match x with VObj _ kvs => match lookup (lit n) kvs with Some y => y | None => VNone end | _ => VNone end.
Definition Absent (x : pyval) (n : string) : Prop := attr x n = VNone.
Definition Present (x : pyval) (n : string) : Prop := attr x n <> VNone.
(** the elements of a list; an absent list has none *)
Definition items (x : pyval) (n : string) : list pyval := match attr x n with VList l => l | _ => [] end.
(** the characters of a string *)
Definition chars (v : pyval) : str := match v with VSfv _ s => s | VStr s => s | _ => [] end.
Definition text (x : pyval) (n : string) : str := chars (attr x n).
(** an attribute is the member of an enumeration with this value *)
Definition Is (x : pyval) (n : string) (value : string) : Prop := exists c m, attr x n = VEnum c m (lit value).
Definition IsOneOf (x : pyval) (n : string) (values : list string) : Prop := exists v, In v values /\ Is x n v.
Definition class_of_obj (x : pyval) : str := match x with VObj c _ => c | _ => [] end.

(** * Keys and references *)
Definition AasIdentifiables : list string :=
  ["AssetAdministrationShell"; "ConceptDescription"; "Identifiable"; "Submodel"]%string.
Definition GenericGloballyIdentifiables : list string := ["GlobalReference"]%string.
Definition GenericFragmentKeys : list string := ["FragmentReference"]%string.
Definition AasSubmodelElements : list string :=
  ["AnnotatedRelationshipElement"; "BasicEventElement"; "Blob"; "Capability"; "DataElement"; "Entity";
   "EventElement"; "File"; "MultiLanguageProperty"; "Operation"; "Property"; "Range"; "ReferenceElement";
   "RelationshipElement"; "SubmodelElement"; "SubmodelElementCollection"; "SubmodelElementList"]%string.
Definition FragmentKeys : list string := GenericFragmentKeys ++ AasSubmodelElements.

Definition External (r : pyval) : Prop := Is r "type" "ExternalReference".
Definition Model (r : pyval) : Prop := Is r "type" "ModelReference".
Definition KeyAt (r : pyval) (i : nat) (k : pyval) : Prop := nth_error (items r "keys") i = Some k.
Definition FirstKey (r k : pyval) : Prop := KeyAt r 0 k.
Definition LastKey (r k : pyval) : Prop := KeyAt r (length (items r "keys") - 1) k.
Definition KeyIn (k : pyval) (types : list string) : Prop := IsOneOf k "type" types.

Definition AASd_121 (r : pyval) : Prop :=
  forall k, FirstKey r k -> KeyIn k (AasIdentifiables ++ GenericGloballyIdentifiables).
Definition AASd_122 (r : pyval) : Prop :=
  External r -> forall k, FirstKey r k -> KeyIn k GenericGloballyIdentifiables.
Definition AASd_123 (r : pyval) : Prop :=
  Model r -> forall k, FirstKey r k -> KeyIn k AasIdentifiables.
Definition AASd_124 (r : pyval) : Prop :=
  External r -> forall k, LastKey r k -> KeyIn k (GenericGloballyIdentifiables ++ GenericFragmentKeys).
Definition AASd_125 (r : pyval) : Prop :=
  Model r -> forall i k, KeyAt r (S i) k -> KeyIn k FragmentKeys.
(** only the last key may be a generic fragment key *)
Definition AASd_126 (r : pyval) : Prop :=
  Model r -> forall i k, KeyAt r i k -> KeyIn k GenericFragmentKeys -> S i = length (items r "keys").
Definition AASd_127 (r : pyval) : Prop :=
  Model r -> (1 < length (items r "keys"))%nat -> forall i k, KeyAt r i k -> Is k "type" "FragmentReference" ->
  exists j p, i = S j /\ KeyAt r j p /\ KeyIn p ["File"; "Blob"]%string.
(** [position s]: the text denotes a position in a list *)
Definition AASd_128 (position : str -> Prop) (r : pyval) : Prop :=
  Model r -> forall i k k', KeyAt r i k -> Is k "type" "SubmodelElementList" -> KeyAt r (S i) k' -> position (text k' "value").
Definition ReferenceConstraints (position : str -> Prop) (r : pyval) : Prop :=
  AASd_121 r /\ AASd_122 r /\ AASd_123 r /\ AASd_124 r /\ AASd_125 r /\ AASd_126 r /\ AASd_127 r /\ AASd_128 position r.
(** a non-negative integer literal *)
Definition DecimalPosition (s : str) : Prop := exists ds v, XsdInteger s ds v /\ (0 <= v)%Z.
(** a text that python reads as a non-negative integer *)
Definition PyPosition (s : str) : Prop := exists v, PyInteger s v /\ (0 <= v)%Z.

(** Identical references: the same type and the same keys *)
Definition SameEnum (x y : pyval) (n : string) : Prop :=
  exists c m m' v, attr x n = VEnum c m v /\ attr y n = VEnum c m' v.
Definition SameKey (a b : pyval) : Prop := SameEnum a b "type" /\ text a "value" = text b "value".
Definition SameReference (a b : pyval) : Prop := SameEnum a b "type" /\ Forall2 SameKey (items a "keys") (items b "keys").

(** * idShorts *)
Definition AllHaveIdShort (l : list pyval) : Prop := forall x, In x l -> Present x "id_short".
Definition NoneHasIdShort (l : list pyval) : Prop := forall x, In x l -> Absent x "id_short".
(** different elements have different idShorts *)
Definition UniqueIdShorts (l : list pyval) : Prop :=
  forall i j x y, nth_error l i = Some x -> nth_error l j = Some y -> Present x "id_short" -> Present y "id_short" ->
  text x "id_short" = text y "id_short" -> i = j.

(** * Submodel element lists *)
(** [conforms el t]: the element has the type [t] of submodel elements *)
Definition AASd_107 (l : pyval) : Prop :=
  Present l "semantic_id_list_element" -> forall x, In x (items l "value") -> Present x "semantic_id" ->
  SameReference (attr x "semantic_id") (attr l "semantic_id_list_element").
Definition AASd_108 (conforms : pyval -> str -> Prop) (l : pyval) : Prop :=
  forall x c m t, In x (items l "value") -> attr l "type_value_list_element" = VEnum c m t -> conforms x t.
Definition AASd_109 (l : pyval) : Prop :=
  IsOneOf l "type_value_list_element" ["Property"; "Range"]%string ->
  Present l "value_type_list_element" /\ forall x, In x (items l "value") -> 
  exists c m m' v, attr x "value_type" = VEnum c m v /\ attr l "value_type_list_element" = VEnum c m' v.
Definition AASd_114 (l : pyval) : Prop :=
  forall x y, In x (items l "value") -> In y (items l "value") -> Present x "semantic_id" -> Present y "semantic_id" ->
  SameReference (attr x "semantic_id") (attr y "semantic_id").
Definition AASd_120 (l : pyval) : Prop := NoneHasIdShort (items l "value").

(** * Assets *)
Definition AASd_014 (e : pyval) : Prop :=
  (Is e "entity_type" "SelfManagedEntity" -> Present e "global_asset_id" \/ Present e "specific_asset_ids") /\
  (~ Is e "entity_type" "SelfManagedEntity" -> Absent e "global_asset_id" /\ Absent e "specific_asset_ids").
Definition AASd_131 (a : pyval) : Prop := Present a "global_asset_id" \/ Present a "specific_asset_ids".
(** "globalAssetId" (case-insensitive) is a reserved name: the value must be the global asset id *)
Definition lower (s : str) : str := List.map lower_ascii s.
Definition AASd_116 (a : pyval) : Prop :=
  forall s, In s (items a "specific_asset_ids") -> lower (text s "name") = lower (lit "globalAssetId") ->
  Present a "global_asset_id" /\ text s "value" = text a "global_asset_id".
Definition AASd_133 (s : pyval) : Prop := Present s "external_subject_id" -> External (attr s "external_subject_id").

(** * Qualifiers *)
Definition HasTemplateQualifier (x : pyval) : Prop := exists q, In q (items x "qualifiers") /\ Is q "kind" "TemplateQualifier".
Definition AASd_119 (s : pyval) : Prop := HasTemplateQualifier s -> Is s "kind" "Template".
(** [below s x]: the element [x] is part of the submodel [s] *)
Definition AASd_129 (below : pyval -> pyval -> Prop) (s : pyval) : Prop :=
  forall x, below s x -> HasTemplateQualifier x -> Is s "kind" "Template".
Definition AASd_021 (x : pyval) : Prop :=
  forall i j a b, nth_error (items x "qualifiers") i = Some a -> nth_error (items x "qualifiers") j = Some b ->
  text a "type" = text b "type" -> i = j.
Definition AASd_077 (x : pyval) : Prop :=
  forall i j a b, nth_error (items x "extensions") i = Some a -> nth_error (items x "extensions") j = Some b ->
  text a "name" = text b "name" -> i = j.

(** * Further structural constraints *)
Definition AASd_005 (a : pyval) : Prop := Absent a "version" -> Absent a "revision".
Definition AASd_118 (x : pyval) : Prop := Present x "supplemental_semantic_ids" -> Present x "semantic_id".
Definition AASd_134 (o : pyval) : Prop :=
  UniqueIdShorts (List.map (fun v => attr v "value")
    (items o "input_variables" ++ items o "output_variables" ++ items o "inoutput_variables")).
Definition AASd_090 (x : pyval) : Prop :=
  Present x "category" -> In (text x "category") (List.map lit ["CONSTANT"; "PARAMETER"; "VARIABLE"]%string).
(** [a-zA-Z][a-zA-Z0-9_]* *)
Definition IdShort (s : str) : Prop := exists c t, s = c :: t /\ Alpha c /\ Forall (fun d => AlphaNum d \/ d = 95%N) t.
Definition AASd_002 (x : pyval) : Prop := Present x "id_short" -> IdShort (text x "id_short").

(** * Values and their types *)
(** [typed t s]: the text [s] is a value of type [t] *)
Definition ValueHasType (typed : str -> str -> Prop) (x : pyval) (n : string) : Prop :=
  Present x n -> forall c m t, attr x "value_type" = VEnum c m t -> typed t (text x n).

(** * IEC 61360 (part 3a) *)
(** a tag of the English language; tags are case-insensitive (RFC 5646, 2.1.1) *)
Definition English (s : str) : Prop :=
  exists l r, s = l ++ r /\ lower l = lit "en" /\ (r = [] \/ exists t, r = lit "-" ++ t).
Definition HasEnglish (english : str -> Prop) (l : list pyval) : Prop := exists x, In x l /\ english (text x "language").
Definition AASc_002 (english : str -> Prop) (d : pyval) : Prop := HasEnglish english (items d "preferred_name").
Definition AASc_009 (d : pyval) : Prop :=
  IsOneOf d "data_type" ["INTEGER_MEASURE"; "REAL_MEASURE"; "RATIONAL_MEASURE"; "INTEGER_CURRENCY"; "REAL_CURRENCY"]%string ->
  Present d "unit" \/ Present d "unit_id".
Definition AASc_010 (d : pyval) : Prop := Present d "value" -> Absent d "value_list".
Definition Category (c : pyval) (names : list string) : Prop :=
  Present c "category" /\ In (text c "category") (List.map lit names).
Definition IecContent (c d : pyval) : Prop :=
  exists e, In e (items c "embedded_data_specifications") /\ d = attr e "data_specification_content" /\
  class_of_obj d = lit "DataSpecificationIec61360".
Definition DataTypeIn (d : pyval) (types : list string) : Prop := IsOneOf d "data_type" types.
Definition AASc_004 (c : pyval) : Prop := Category c ["PROPERTY"; "VALUE"]%string -> forall d, IecContent c d ->
  DataTypeIn d ["DATE"; "STRING"; "STRING_TRANSLATABLE"; "INTEGER_MEASURE"; "INTEGER_COUNT"; "INTEGER_CURRENCY"; "REAL_MEASURE";
   "REAL_COUNT"; "REAL_CURRENCY"; "BOOLEAN"; "RATIONAL"; "RATIONAL_MEASURE"; "TIME"; "TIMESTAMP"]%string.
Definition AASc_005 (c : pyval) : Prop := Category c ["REFERENCE"]%string -> forall d, IecContent c d ->
  DataTypeIn d ["STRING"; "IRI"; "IRDI"]%string.
Definition AASc_006 (c : pyval) : Prop := Category c ["DOCUMENT"]%string -> forall d, IecContent c d ->
  DataTypeIn d ["FILE"; "BLOB"; "HTML"]%string.
Definition AASc_007 (c : pyval) : Prop := Category c ["QUALIFIER_TYPE"]%string -> forall d, IecContent c d -> Present d "data_type".
(** except for the description of a value *)
Definition AASc_008 (english : str -> Prop) (c : pyval) : Prop := forall d, IecContent c d -> Absent d "value" ->
  HasEnglish english (items d "definition").

(** * Constraints that model.py states differently, or in addition *)
(** a language string is tagged and has a text of at most the length given for its class *)
Definition text_limits : list (string * N) :=
  [("MultiLanguageNameType", 128%N); ("MultiLanguageTextType", 1023%N); ("DefinitionTypeIec61360", 1023%N);
   ("PreferredNameTypeIec61360", 255%N); ("ShortNameTypeIec61360", 18%N)]%string.
Definition TaggedText (x : pyval) : Prop := UpToLineFeed WellFormedTagCased (text x "language").
Definition LimitedText (x : pyval) : Prop :=
  text x "text" <> [] /\ exists c n, class_of_obj x = lit c /\ In (c, n) text_limits /\ (N.of_nat (length (text x "text")) <= n)%N.
(** the data specification is the one for IEC 61360 *)
Definition SpecifiesIec61360 (e : pyval) : Prop :=
  exists k, items (attr e "data_specification") "keys" = [k] /\
  text k "value" = lit "https://admin-shell.io/DataSpecificationTemplates/DataSpecificationIec61360/3".
(** no specific asset id is called globalAssetId *)
Definition NoGlobalAssetId (a : pyval) : Prop :=
  forall s, In s (items a "specific_asset_ids") -> text s "name" <> lit "globalAssetId".
Definition IsModelReference (x : pyval) (n : string) : Prop := Present x n -> Model (attr x n).
Definition SubmodelReferences (a : pyval) : Prop := forall r, In r (items a "submodels") -> Model r.
Definition ValueHasIdShort (v : pyval) : Prop := Present (attr v "value") "id_short".
Definition ListsSubmodelElements (l : pyval) : Prop := IsOneOf l "type_value_list_element" AasSubmodelElements.
Definition SameClass (x : pyval) (t : str) : Prop := class_of_obj x = t.
(** AASd-109 for the properties and ranges that are in the list *)
Definition AASd_109_items (l : pyval) : Prop :=
  forall x, In x (items l "value") -> In (class_of_obj x) (List.map lit ["Property"; "Range"]%string) ->
  exists c m m' v, attr x "value_type" = VEnum c m v /\ attr l "value_type_list_element" = VEnum c m' v.
(** AASd-129 for the elements directly below the submodel *)
Definition AASd_129_top (s : pyval) : Prop := AASd_129 (fun s x => In x (items s "submodel_elements")) s.
(** concept descriptions of a category must not have IEC 61360 content *)
Definition NoContent (categories : list string) (c : pyval) : Prop := Category c categories -> forall d, ~ IecContent c d.
(** "en" or "EN", possibly followed by "-" and a line *)
Definition EnTag (s : str) : Prop :=
  exists l r, s = l ++ r /\ (l = lit "en" \/ l = lit "EN") /\
  (r = [] \/ exists t, r = lit "-" ++ t /\ Forall (fun c => (c < 1114112)%N /\ c <> 10%N) t).
Definition EnTagged (s : str) : Prop := UpToLineFeed EnTag s.
(** the lexical space that is implemented for a value type, and the texts on which the
    implementation raises a ValueError *)
Definition Validated (t s : str) : Prop := exists x, In (x, t) xsd_members /\ validate_xsd x s = Val true.
Definition Unvalidated (t s : str) : Prop := exists x, In (x, t) xsd_members /\ validate_xsd x s = Raise ValueError.
Definition ValueUnvalidated (x : pyval) (n : string) : Prop :=
  Present x n /\ exists c m t, attr x "value_type" = VEnum c m t /\ Unvalidated t (text x n).
(** AASd-127 for the keys behind the first one *)
Definition AASd_127_tail (r : pyval) : Prop :=
  Model r -> forall i k, KeyAt r (S i) k -> Is k "type" "FragmentReference" ->
  exists p, KeyAt r i p /\ KeyIn p ["File"; "Blob"]%string.

(** * The constraints that are checked *)
(** The instances of a class, and of those derived from it, are checked.  [k_raises]: the check
    raises [k_exn] instead of reporting a finding. *)
Record constraint := Constraint {
  k_class : string; k_name : string; k_level : level; k_holds : pyval -> Prop;
  k_exn : exn; k_raises : pyval -> Prop
}.
Definition always (x : pyval) : Prop := True.
Definition never (x : pyval) : Prop := False.
Definition error (c n : string) (holds : pyval -> Prop) : constraint := Constraint c n ERROR holds AttributeError never.
(** violations raise an AttributeError *)
Definition crashing (c n : string) (holds : pyval -> Prop) : constraint :=
  Constraint c n ERROR holds AttributeError (fun x => ~ holds x).
Definition typed_value (c n : string) : constraint :=
  Constraint c (String.append "type of " n) ERROR (fun x => ValueHasType Validated x n) ValueError (fun x => ValueUnvalidated x n).
Local Open Scope string_scope.
Definition constraints : list constraint := [
  error "LangStringSet" "language" TaggedText;
  error "LangStringSet" "text" LimitedText;
  error "Reference" "AASd-121" AASd_121;
  error "Reference" "AASd-122" AASd_122;
  error "Reference" "AASd-123" AASd_123;
  error "Reference" "AASd-124" AASd_124;
  error "Reference" "AASd-125" AASd_125;
  error "Reference" "AASd-126" AASd_126;
  error "Reference" "AASd-127" AASd_127_tail;
  error "Reference" "AASd-128" (AASd_128 PyPosition);
  Constraint "EmbeddedDataSpecification" "data specification" WARNING SpecifiesIec61360 AttributeError never;
  error "DataSpecificationIec61360" "AASc-3a-002" (AASc_002 EnTagged);
  error "DataSpecificationIec61360" "AASc-3a-009" AASc_009;
  error "DataSpecificationIec61360" "AASc-3a-010" AASc_010;
  error "HasSemantics" "AASd-118" AASd_118;
  typed_value "Extension" "value";
  error "Referable" "AASd-002" AASd_002;
  error "AdministrativeInformation" "AASd-005" AASd_005;
  error "Qualifier" "AASd-006" always;
  error "Qualifier" "AASd-020" always;
  typed_value "Qualifier" "value";
  error "SpecificAssetId" "AASd-133" AASd_133;
  error "AssetInformation" "AASd-131" AASd_131;
  error "AssetInformation" "AASd-116" NoGlobalAssetId;
  error "SubmodelElement" "AASc-3a-050" always;
  error "DataElement" "AASd-090" AASd_090;
  error "AnnotatedRelationshipElement" "AASd-117" (fun x => AllHaveIdShort (items x "annotations"));
  error "BasicEventElement" "observed" (fun x => IsModelReference x "observed");
  error "BasicEventElement" "message broker" (fun x => IsModelReference x "message_broker");
  error "Entity" "AASd-014" AASd_014;
  error "Entity" "AASd-117" (fun x => AllHaveIdShort (items x "statements"));
  error "MultiLanguageProperty" "AASd-012" always;
  crashing "OperationVariable" "AASd-117" ValueHasIdShort;
  error "Operation" "AASd-134" AASd_134;
  error "Property" "AASd-007" always;
  typed_value "Property" "value";
  typed_value "Range" "min";
  typed_value "Range" "max";
  error "SubmodelElementCollection" "AASd-022" (fun x => UniqueIdShorts (items x "value"));
  error "SubmodelElementCollection" "AASd-117" (fun x => AllHaveIdShort (items x "value"));
  error "SubmodelElementList" "typeValueListElement" ListsSubmodelElements;
  error "SubmodelElementList" "AASd-107" AASd_107;
  error "SubmodelElementList" "AASd-114" AASd_114;
  error "SubmodelElementList" "AASd-115" always;
  error "SubmodelElementList" "AASd-108" (AASd_108 SameClass);
  error "SubmodelElementList" "AASd-109" AASd_109_items;
  error "SubmodelElementList" "AASd-120" AASd_120;
  crashing "AssetAdministrationShell" "derivedFrom" (fun x => IsModelReference x "derived_from");
  crashing "AssetAdministrationShell" "submodels" SubmodelReferences;
  error "Submodel" "AASd-022" (fun x => UniqueIdShorts (items x "submodel_elements"));
  error "Submodel" "AASd-117" (fun x => AllHaveIdShort (items x "submodel_elements"));
  error "Submodel" "AASd-119" AASd_119;
  error "Submodel" "AASd-129" AASd_129_top;
  error "ConceptDescription" "AASc-3a-004" (NoContent ["PROPERTY"; "VALUE"]);
  error "ConceptDescription" "AASc-3a-005" (NoContent ["REFERENCE"]);
  error "ConceptDescription" "AASc-3a-006" (NoContent ["DOCUMENT"]);
  error "ConceptDescription" "AASc-3a-007" AASc_007;
  error "ConceptDescription" "AASc-3a-008" (AASc_008 EnTagged);
  error "ConceptDescription" "AASc-3a-003" always
].
Local Close Scope string_scope.
