(** Properties C48 - C56: what the constraint checks of the classes decide.

    [Passes names y]: the check methods with these names find nothing wrong with the object
    [y].  [Inst cls y]: [y] is an object of the class [cls], or of one derived from it, with
    attributes of the declared types.  By C47 exactly these checks are applied to all objects of
    a document. *)
From Coq Require Import PeanoNat Lia String List NArith ZArith Bool.
From Verif Require Import PyStr PyStrFacts PyBase PyXml PyVal DataTypesModel DataTypesSpec.
From Verif Require Import ResultModel ResultFacts ReflectModel ReflectFacts MetaModel MetaSpec MetaFacts AdapterModel ParseModel ParseSpec ParseFacts ParseFacts2 ParseSim ParseFacts3 ParseFacts4 P_Parse.
From Verif Require Import TypeSpec TypeFacts TypeFacts2 ConstraintModel CheckModel ConstraintSpec ConstraintFacts ConstraintFacts2 ConstraintFacts3 ConstraintFacts4 ConstraintFacts5 ConstraintFacts6 ConstraintFacts7 ConstraintFacts8.
From Verif Require Import P_DataTypes P_Constraint.
Import ListNotations.
Local Open Scope list_scope.
Local Opaque aas_v3_0_checked model_classes model_table model_types model_symbols model_supers own_methods.
Local Open Scope string_scope.

(** The objects of documents are instances of their classes. *)
Theorem C48_instances : forall x q c kvs cls, FromDocument x -> Occurs x q (VObj c kvs) ->
  is_a model_classes c (lit cls) = true -> Inst cls (VObj c kvs).
Proof.
  intros x q c kvs cls D O A. destruct (document_typed x D) as (t & T). destruct (occurs_typed _ _ _ O _ T) as (u & U).
  exists c, kvs. split; [reflexivity|]. split; [exact A|]. eapply typed_any_obj. exact U.
Qed.
Print Assumptions C48_instances.

(** A document with its object: it passes the meta model check, and is accepted or not. *)
Definition Example_of (n : string) (v : json) (x : pyval) (accepted : bool) : Prop :=
  forall show repr, meta_check_json show repr (lit n) v = Val (x, []) /\
  (if accepted then Accepted (check_json show repr (lit n) v) else ~ Accepted (check_json show repr (lit n) v)).
Notation Run n v b := (Example_of n v (object_of n v) b).
Ltac example := let E := fresh "E" in
  match goal with |- Example_of ?n ?v ?x ?b => intros show repr;
    assert (E : meta_check_json show repr (lit n) v = Val (x, [])) by runs;
    split; [exact E|]; first [eapply accepted_run | eapply rejected_run]; [exact E|vm_compute; reflexivity|vm_compute; reflexivity]
  end.
Definition texts := text_doc.
Definition obj (t : list (string * string)) (l : list (string * json)) : json :=
  JObj (text_doc t ++ List.map (fun kv => (lit (fst kv), snd kv)) l).
Definition key (t v : string) : json := obj [("type", t); ("value", v)] [].
Definition reference (t : string) (keys : list json) : json := obj [("type", t)] [("keys", JArr keys)].

(** * C48: references *)
Definition reference_checks : list string :=
  ["check_aasd_121"; "check_aasd_122"; "check_aasd_123"; "check_aasd_124"; "check_aasd_125"; "check_aasd_126"; "check_aasd_127"; "check_aasd_128"].
Theorem C48_references : forall r, Inst "Reference" r -> Passes reference_checks r <-> ReferenceConstraints PyPosition r.
Proof.
  intros r H. passes "Reference" reference_checks H. unfold ReferenceConstraints. pose proof (aasd_127_tail r H). tauto.
Qed.
Print Assumptions C48_references.
(** There are no other checks of references. *)
Theorem C48_all_checks : List.map fst (model_methods (lit "Reference")) = List.map lit reference_checks.
Proof. vm_compute. reflexivity. Qed.
Print Assumptions C48_all_checks.
(** The position of AASd-128 is an integer for python: "1_0" is one. *)
Definition position_doc (p : string) : json := reference "ModelReference" [key "Submodel" "urn:s"; key "SubmodelElementList" "l"; key "Property" p].
Definition position_obj (p : string) : pyval := object_of "Reference" (position_doc p).
Definition underscore_obj : pyval := Eval vm_compute in position_obj "1_0".
Ltac enum := eexists _, _; vm_compute; reflexivity.
Lemma no_literal s ds v : In 95%N s -> ~ XsdInteger s ds v.
Proof.
  intros I (sg & neg & E & S & [_ D] & _). rewrite E in I. apply in_app_or in I as [I|I].
  - destruct S as [[_ [->| ->]]|[_ ->]]; vm_compute in I; intuition discriminate.
  - rewrite Forall_forall in D. apply D in I. unfold Digit in I. lia.
Qed.
Theorem C48_refuted : Example_of "Reference" (position_doc "1_0") underscore_obj true /\ ~ ReferenceConstraints DecimalPosition underscore_obj.
Proof.
  split; [example|]. intros (_ & _ & _ & _ & _ & _ & _ & H).
  destruct (H ltac:(enum) 1 (nth 1 (items underscore_obj "keys") VNone) (nth 2 (items underscore_obj "keys") VNone)) as (ds & v & X & _).
  - vm_compute. reflexivity.
  - enum.
  - vm_compute. reflexivity.
  - revert X. apply no_literal. vm_compute. auto.
Qed.
Print Assumptions C48_refuted.
(** Apart from such texts, references are checked as published.  The meta model check limits the
    length of key values to 2000. *)
Definition Plain (s : str) : Prop := Forall (fun c => (c < 127)%N /\ ~ AsciiSpace c /\ c <> 95%N) s /\ (N.of_nat (length s) <= 4300)%N.
Definition PlainPositions (r : pyval) : Prop :=
  forall i k k', KeyAt r i k -> Is k "type" "SubmodelElementList" -> KeyAt r (S i) k' -> Plain (text k' "value").
Lemma plain_position s : Plain s -> PyPosition s <-> DecimalPosition s.
Proof.
  intros [P L]. assert (V : validate_xsd X_nonNegativeInteger s = Val true <-> PyPosition s).
  { rewrite (C64_accepted_exact X_nonNegativeInteger _ s eq_refl). unfold PyPosition, in_range. cbn [fst snd].
    split; intros (v & I & B); exists v; (split; [exact I|tauto]). }
  assert (B : forall ds v, XsdInteger s ds v -> (N.of_nat (length ds) <= 4300)%N).
  { intros ds v (sg & neg & E & _). rewrite E, app_length in L. lia. }
  rewrite <- V. split.
  - intros H. destruct (C64_plain_literals X_nonNegativeInteger _ s eq_refl P H) as (ds & v & X). exists ds, v. split; [exact X|].
    apply (C63_ranges X_nonNegativeInteger _ s ds v eq_refl X (B _ _ X)) in H. apply H.
  - intros (ds & v & X & Nn). apply (C63_ranges X_nonNegativeInteger _ s ds v eq_refl X (B _ _ X)). split; [exact Nn|exact I].
Qed.
Theorem C48_partial : forall r, Inst "Reference" r -> PlainPositions r -> Passes reference_checks r <-> ReferenceConstraints DecimalPosition r.
Proof.
  intros r H P. rewrite (C48_references r H). unfold ReferenceConstraints.
  assert (E : AASd_128 PyPosition r <-> AASd_128 DecimalPosition r); [|tauto].
  split; intros X M i k k' K S K'; apply (plain_position _ (P i k k' K S K')); exact (X M i k k' K S K').
Qed.
Print Assumptions C48_partial.
Definition good_ref_obj : pyval := Eval vm_compute in position_obj "10".
Example C48_example : Example_of "Reference" (position_doc "10") good_ref_obj true /\
  Example_of "Reference" (position_doc "-1") (position_obj "-1") false /\
  Run "Reference" (reference "ExternalReference" [key "Submodel" "urn:s"]) false /\
  Run "Reference" (reference "ModelReference" [key "Submodel" "urn:s"; key "FragmentReference" "f"; key "Property" "p"]) false.
Proof. repeat match goal with |- _ /\ _ => split end; example. Qed.

(** * C49: idShorts *)
Theorem C49_submodel : forall s, Inst "Submodel" s -> Passes ["check_aasd_117"; "check_aasd_022"] s <->
  AllHaveIdShort (items s "submodel_elements") /\ UniqueIdShorts (items s "submodel_elements").
Proof. intros s H. passes "Submodel" ["check_aasd_117"; "check_aasd_022"] H. tauto. Qed.
Print Assumptions C49_submodel.
Theorem C49_collection : forall c, Inst "SubmodelElementCollection" c -> Passes ["check_aasd_117"; "check_aasd_022"] c <->
  AllHaveIdShort (items c "value") /\ UniqueIdShorts (items c "value").
Proof. intros s H. passes "SubmodelElementCollection" ["check_aasd_117"; "check_aasd_022"] H. tauto. Qed.
Print Assumptions C49_collection.
Theorem C49_entity : forall e, Inst "Entity" e -> Passes ["check_aad_117"] e <-> AllHaveIdShort (items e "statements").
Proof. intros s H. passes "Entity" ["check_aad_117"] H. tauto. Qed.
Print Assumptions C49_entity.
Theorem C49_annotations : forall e, Inst "AnnotatedRelationshipElement" e -> Passes ["check_aasd_117"] e <-> AllHaveIdShort (items e "annotations").
Proof. intros s H. passes "AnnotatedRelationshipElement" ["check_aasd_117"] H. tauto. Qed.
Print Assumptions C49_annotations.
Theorem C49_variable : forall e, Inst "OperationVariable" e -> Passes ["check_aasd_117"] e <-> ValueHasIdShort e.
Proof. intros s H. passes "OperationVariable" ["check_aasd_117"] H. tauto. Qed.
Print Assumptions C49_variable.
Theorem C49_list : forall l, Inst "SubmodelElementList" l -> Passes ["check_aasd_120"] l <-> AASd_120 l.
Proof. intros s H. passes "SubmodelElementList" ["check_aasd_120"] H. tauto. Qed.
Print Assumptions C49_list.
(** The idShorts of the statements of an entity, and of annotations, may be ambiguous. *)
Definition prop (i : string) : json := obj [("modelType", "Property"); ("idShort", i); ("valueType", "xs:int")] [].
Definition entity_doc (l : list json) : json := obj [("modelType", "Entity"); ("idShort", "e"); ("entityType", "CoManagedEntity")] [("statements", JArr l)].
Definition ambiguous_entity : pyval := Eval vm_compute in object_of "Entity" (entity_doc [prop "p"; prop "p"]).
Definition annotated_doc (l : list json) : json :=
  obj [("modelType", "AnnotatedRelationshipElement"); ("idShort", "r")] [("first", model_ref_doc); ("second", model_ref_doc); ("annotations", JArr l)].
Definition ambiguous_annotations : pyval := Eval vm_compute in object_of "AnnotatedRelationshipElement" (annotated_doc [prop "p"; prop "p"]).
Ltac ambiguous H := specialize (H 0 1 _ _ eq_refl eq_refl); cut (0 = 1); [discriminate|]; apply H; [vm_compute; discriminate|vm_compute; discriminate|vm_compute; reflexivity].
Theorem C49_refuted :
  Example_of "Entity" (entity_doc [prop "p"; prop "p"]) ambiguous_entity true /\ ~ UniqueIdShorts (items ambiguous_entity "statements") /\
  Example_of "AnnotatedRelationshipElement" (annotated_doc [prop "p"; prop "p"]) ambiguous_annotations true /\
  ~ UniqueIdShorts (items ambiguous_annotations "annotations").
Proof. repeat match goal with |- _ /\ _ => split end; first [example | intros H; ambiguous H]. Qed.
Print Assumptions C49_refuted.
Definition coll_doc (l : list json) : json := obj [("modelType", "SubmodelElementCollection"); ("idShort", "c")] [("value", JArr l)].
Definition nameless : json := obj [("modelType", "Capability")] [].
Example C49_example :
  Run "SubmodelElementCollection" (coll_doc [prop "p"; prop "q"; coll_doc [prop "p"]]) true /\
  Run "SubmodelElementCollection" (coll_doc [prop "p"; coll_doc [prop "p"; prop "p"]]) false /\
  Run "SubmodelElementCollection" (coll_doc [prop "p"; nameless]) false /\
  Run "Entity" (entity_doc [nameless]) false.
Proof. repeat match goal with |- _ /\ _ => split end; example. Qed.

(** * C50: lists *)
Definition list_checks : list string := ["check_aasd_107"; "check_aasd_108"; "check_aasd_109"; "check_aasd_114"].
Theorem C50_lists : forall l, Inst "SubmodelElementList" l -> Passes list_checks l <->
  AASd_107 l /\ AASd_108 SameClass l /\ AASd_109_items l /\ AASd_114 l.
Proof. intros s H. passes "SubmodelElementList" list_checks H. tauto. Qed.
Print Assumptions C50_lists.
(** As published, an element has the type if it is an instance of the class. *)
Definition InstanceOf (x : pyval) (t : str) : Prop := is_a model_classes (class_of_obj x) t = true.
Definition ListConstraints (l : pyval) : Prop := AASd_107 l /\ AASd_108 InstanceOf l /\ AASd_109 l /\ AASd_114 l.
Definition list_of (t : string) (a : list (string * string)) (l : list json) : json :=
  obj ([("modelType", "SubmodelElementList"); ("idShort", "l"); ("typeValueListElement", t)] ++ a) (match l with [] => [] | _ => [("value", JArr l)] end).
Definition no_id : json := obj [("modelType", "Property"); ("valueType", "xs:int")] [].
Definition data_list : pyval := Eval vm_compute in object_of "SubmodelElementList" (list_of "DataElement" [("valueTypeListElement", "xs:int")] [no_id]).
Definition untyped_list : pyval := Eval vm_compute in object_of "SubmodelElementList" (list_of "Property" [] []).
(** A list of data elements with a property is rejected; a list of properties without the value
    type is accepted if it is empty. *)
Theorem C50_refuted :
  Example_of "SubmodelElementList" (list_of "DataElement" [("valueTypeListElement", "xs:int")] [no_id]) data_list false /\ ListConstraints data_list /\
  Example_of "SubmodelElementList" (list_of "Property" [] []) untyped_list true /\ ~ ListConstraints untyped_list.
Proof.
  split; [example|]. split; [|split; [example|]].
  - split; [|split; [|split]].
    + intros P. exfalso. apply P. vm_compute. reflexivity.
    + intros x c m t [<-|[]] E. assert (t = lit "DataElement") as ->.
      { assert (E' : attr data_list "type_value_list_element" = VEnum (lit "KeyType") (lit "DataElement") (lit "DataElement")) by (vm_compute; reflexivity).
        rewrite E' in E. now injection E. }
      vm_compute. reflexivity.
    + intros _. split; [vm_compute; discriminate|]. intros x [<-|[]]. eexists _, _, _, _. split; vm_compute; reflexivity.
    + intros x y [<-|[]] _ P. exfalso. apply P. vm_compute. reflexivity.
  - intros (_ & _ & H & _). destruct H as [P _]; [exists "Property"; split; [now left|enum]|]. apply P. vm_compute. reflexivity.
Qed.
Print Assumptions C50_refuted.
(** For classes without subclasses, and lists that are not empty, the check is as published. *)
Definition LeafTypes : list string :=
  ["AnnotatedRelationshipElement"; "BasicEventElement"; "Blob"; "Capability"; "Entity"; "File"; "MultiLanguageProperty"; "Operation"; "Property"; "Range";
   "ReferenceElement"; "SubmodelElementCollection"; "SubmodelElementList"].
Definition leaf_ok (e : str * pfields) : bool :=
  forallb (fun t => if str_in (lit t) (supers (fst e)) then str_eqb (fst e) (lit t) else true) LeafTypes &&
  str_in (fst e) (supers (fst e)).
Lemma leaves_ok : forallb leaf_ok model_types = true. Proof. vm_compute. reflexivity. Qed.
Lemma leaf_class c fs t : In (c, fs) model_types -> In t LeafTypes -> is_a model_classes c (lit t) = true <-> c = lit t.
Proof.
  intros I J. pose proof (proj1 (forallb_forall _ _) leaves_ok _ I) as F. unfold leaf_ok in F. cbn [fst] in F. apply andb_true_iff in F as [F S].
  unfold is_a. rewrite (supers_eq _ _ I). split.
  - intros A. pose proof (proj1 (forallb_forall _ _) F _ J) as E. cbv beta in E. rewrite A in E. now apply str_eqb_spec in E.
  - intros <-. exact S.
Qed.
Theorem C50_partial : forall l, Inst "SubmodelElementList" l -> IsOneOf l "type_value_list_element" LeafTypes -> items l "value" <> [] ->
  Passes list_checks l <-> ListConstraints l.
Proof.
  intros l H (t & It & (c & m & E)) NE. rewrite (C50_lists l H). unfold ListConstraints.
  assert (Cls : forall x, In x (items l "value") -> exists fs, In (class_of_obj x, fs) model_types).
  { intros x I. fldk H "SubmodelElementList" "value" (AOptK (AListK true (AInst "SubmodelElement"))) G K. cbn [Holds] in K. unfold items in I.
    destruct K as [K|(xs & K & _ & F)]; rewrite K in I; [destruct I|]. destruct (F x I) as (d & kvs & -> & _ & T).
    destruct (typed_field _ _ _ T) as (fs & J & _). exists fs. exact J. }
  assert (A108 : AASd_108 SameClass l <-> AASd_108 InstanceOf l).
  { split; intros X x c' m' t' I E'; destruct (Cls x I) as (fs & J); rewrite E in E'; assert (t' = lit t) as -> by congruence.
    - apply (leaf_class _ _ _ J It). exact (X x c m _ I E).
    - apply (leaf_class _ _ _ J It). exact (X x c m _ I E). }
  assert (A109 : AASd_108 SameClass l -> (AASd_109_items l <-> AASd_109 l)).
  { intros A. assert (Ty' : forall x, In x (items l "value") -> class_of_obj x = lit t) by (intros x I; exact (A x c m _ I E)).
    assert (Q : IsOneOf l "type_value_list_element" ["Property"; "Range"] <-> In (lit t) (List.map lit ["Property"; "Range"])).
    { split.
      - intros (t' & I & (c' & m' & E')). rewrite E in E'. assert (lit t = lit t') as -> by congruence. now apply in_map.
      - intros I. apply in_map_iff in I as (t' & Et & I). exists t'. split; [exact I|]. exists c, m. now rewrite E, Et. }
    split.
    - intros X Y. apply Q in Y. assert (Z : forall x, In x (items l "value") -> exists c m m' v, attr x "value_type" = VEnum c m v /\ attr l "value_type_list_element" = VEnum c m' v).
      { intros x I. apply X; [exact I|]. now rewrite (Ty' x I). }
      split; [|exact Z]. destruct (items l "value") as [|x r]; [now destruct NE|]. destruct (Z x (or_introl eq_refl)) as (? & ? & ? & ? & _ & V).
      unfold Present. rewrite V. discriminate.
    - intros X x I J. apply X; [|exact I]. apply Q. now rewrite <- (Ty' x I). }
  tauto.
Qed.
Print Assumptions C50_partial.
Example C50_example :
  Run "SubmodelElementList" (list_of "Property" [("valueTypeListElement", "xs:int")] [no_id; no_id]) true /\
  Run "SubmodelElementList" (list_of "Property" [("valueTypeListElement", "xs:long")] [no_id; no_id]) false /\
  Run "SubmodelElementList" (list_of "Property" [("valueTypeListElement", "xs:int")] [no_id; nameless]) false.
Proof. repeat match goal with |- _ /\ _ => split end; example. Qed.

(** * C51: assets *)
Theorem C51_entity : forall e, Inst "Entity" e -> Passes ["check_aasd_014"] e <-> AASd_014 e.
Proof. intros s H. passes "Entity" ["check_aasd_014"] H. tauto. Qed.
Print Assumptions C51_entity.
Theorem C51_asset_information : forall a, Inst "AssetInformation" a -> Passes ["check_aasd_131"; "check_aasd_116"] a <-> AASd_131 a /\ NoGlobalAssetId a.
Proof. intros s H. passes "AssetInformation" ["check_aasd_131"; "check_aasd_116"] H. tauto. Qed.
Print Assumptions C51_asset_information.
Theorem C51_specific_asset_id : forall a, Inst "SpecificAssetId" a -> Passes ["check_aasd_133"] a <-> AASd_133 a.
Proof. intros s H. passes "SpecificAssetId" ["check_aasd_133"] H. tauto. Qed.
Print Assumptions C51_specific_asset_id.
Definition asset_info (name value : string) : json := obj [("assetKind", "Instance"); ("globalAssetId", "urn:g")]
  [("specificAssetIds", JArr [obj [("name", name); ("value", value)] []])].
Definition same_asset : pyval := Eval vm_compute in object_of "AssetInformation" (asset_info "globalAssetId" "urn:g").
Definition upper_asset : pyval := Eval vm_compute in object_of "AssetInformation" (asset_info "GLOBALASSETID" "urn:other").
(** AASd-116: the reserved name is rejected even with the right value, and in upper case it is
    accepted with the wrong one. *)
Theorem C51_refuted :
  Example_of "AssetInformation" (asset_info "globalAssetId" "urn:g") same_asset false /\ AASd_116 same_asset /\ AASd_131 same_asset /\
  Example_of "AssetInformation" (asset_info "GLOBALASSETID" "urn:other") upper_asset true /\ ~ AASd_116 upper_asset.
Proof.
  split; [example|]. split; [|split; [|split; [example|]]].
  - intros s [<-|[]] _. split; vm_compute; [discriminate|reflexivity].
  - left. vm_compute. discriminate.
  - intros H. destruct (H (nth 0 (items upper_asset "specific_asset_ids") VNone)) as [_ E].
    + left. reflexivity.
    + vm_compute. reflexivity.
    + vm_compute in E. discriminate.
Qed.
Print Assumptions C51_refuted.
(** What is accepted satisfies AASd-116, unless the name is written in another case. *)
Theorem C51_partial : forall a, NoGlobalAssetId a ->
  (forall s, In s (items a "specific_asset_ids") -> lower (text s "name") = lower (lit "globalAssetId") -> text s "name" = lit "globalAssetId") -> AASd_116 a.
Proof. intros a N C s I L. exfalso. exact (N s I (C s I L)). Qed.
Print Assumptions C51_partial.
Definition entity_with (t : string) (l : list (string * string)) : json := obj ([("modelType", "Entity"); ("entityType", t)] ++ l) [].
Example C51_example :
  Run "Entity" (entity_with "SelfManagedEntity" [("globalAssetId", "urn:g")]) true /\
  Run "Entity" (entity_with "SelfManagedEntity" []) false /\
  Run "Entity" (entity_with "CoManagedEntity" [("globalAssetId", "urn:g")]) false /\
  Run "AssetInformation" (obj [("assetKind", "Instance")] []) false.
Proof. repeat match goal with |- _ /\ _ => split end; example. Qed.

(** * C52: qualifiers *)
Theorem C52_submodel : forall s, Inst "Submodel" s -> Passes ["check_aasd_119"; "check_aasd_129"] s <->
  AASd_119 s /\ forall x, In x (items s "submodel_elements") -> HasTemplateQualifier x -> Is s "kind" "Template".
Proof. intros s H. passes "Submodel" ["check_aasd_119"; "check_aasd_129"] H. unfold AASd_129_top, AASd_129. tauto. Qed.
Print Assumptions C52_submodel.
Definition qualifier (t : string) : json := obj [("kind", t); ("type", "q"); ("valueType", "xs:int")] [].
Definition qualified (t : string) (n : nat) : json := obj [("modelType", "Capability"); ("idShort", "c")] [("qualifiers", JArr (repeat (qualifier t) n))].
Definition sm_doc (l : list json) : json := obj [("modelType", "Submodel"); ("id", "urn:s")] [("submodelElements", JArr l)].
Definition nested_template : pyval := Eval vm_compute in object_of "Submodel" (sm_doc [coll_doc [qualified "TemplateQualifier" 1]]).
Definition twice_qualified : pyval := Eval vm_compute in object_of "Capability" (qualified "ConceptQualifier" 2).
Definition extended_doc : json := obj [("modelType", "Capability")] [("extensions", JArr [obj [("name", "n")] []; obj [("name", "n")] []])].
Definition twice_extended : pyval := Eval vm_compute in object_of "Capability" extended_doc.
(** AASd-129 is only checked for the top level elements; AASd-021 and AASd-077 are not checked. *)
Theorem C52_refuted :
  Example_of "Submodel" (sm_doc [coll_doc [qualified "TemplateQualifier" 1]]) nested_template true /\
  (exists q x, Occurs nested_template q x /\ HasTemplateQualifier x) /\ Absent nested_template "kind" /\
  Example_of "Capability" (qualified "ConceptQualifier" 2) twice_qualified true /\ ~ AASd_021 twice_qualified /\
  Example_of "Capability" extended_doc twice_extended true /\ ~ AASd_077 twice_extended.
Proof.
  split; [example|]. split; [|split; [vm_compute; reflexivity|split; [example|split; [|split; [example|]]]]].
  - exists [SKey (lit "submodel_elements"); SIdx 0; SKey (lit "value"); SIdx 0], (nth 0 (items (nth 0 (items nested_template "submodel_elements") VNone) "value") VNone). split.
    + eapply (Oc_item _ _ _ (items nested_template "submodel_elements") 0); [apply lookup_In; vm_compute; reflexivity|vm_compute; reflexivity|].
      eapply (Oc_item _ _ _ (items (nth 0 (items nested_template "submodel_elements") VNone) "value") 0); [apply lookup_In; vm_compute; reflexivity|vm_compute; reflexivity|]. constructor.
    + eexists. split; [left; reflexivity|]. enum.
  - intros H. cut (0 = 1); [discriminate|]. eapply H; [reflexivity|reflexivity|vm_compute; reflexivity].
  - intros H. cut (0 = 1); [discriminate|]. eapply H; [reflexivity|reflexivity|vm_compute; reflexivity].
Qed.
Print Assumptions C52_refuted.
(** Without elements in elements, AASd-129 is checked as published. *)
Example C52_example :
  Run "Submodel" (sm_doc [qualified "TemplateQualifier" 1]) false /\
  Run "Submodel" (sm_doc [qualified "ConceptQualifier" 1]) true.
Proof. repeat match goal with |- _ /\ _ => split end; example. Qed.

(** * C53: further structural constraints *)
Theorem C53_administration : forall a, Inst "AdministrativeInformation" a -> Passes ["check_constraint_aasd_005"] a <-> AASd_005 a.
Proof. intros s H. passes "AdministrativeInformation" ["check_constraint_aasd_005"] H. tauto. Qed.
Print Assumptions C53_administration.
Theorem C53_semantics : forall a, Inst "HasSemantics" a -> Passes ["check_aasd_118"] a <-> AASd_118 a.
Proof. intros s H. passes "HasSemantics" ["check_aasd_118"] H. tauto. Qed.
Print Assumptions C53_semantics.
Theorem C53_operation : forall a, Inst "Operation" a -> Passes ["check_aasd_134"] a <-> AASd_134 a.
Proof. intros s H. passes "Operation" ["check_aasd_134"] H. tauto. Qed.
Print Assumptions C53_operation.
Theorem C53_category : forall a, Inst "DataElement" a -> Passes ["check_aasd_090"] a <-> AASd_090 a.
Proof. intros s H. passes "DataElement" ["check_aasd_090"] H. tauto. Qed.
Print Assumptions C53_category.
Theorem C53_id_short : forall a, Inst "Referable" a -> Passes ["check_constraint_aasd_002"] a <-> AASd_002 a.
Proof. intros s H. passes "Referable" ["check_constraint_aasd_002"] H. tauto. Qed.
Print Assumptions C53_id_short.
Definition op_doc (a b : string) : json := obj [("modelType", "Operation")]
  [("inputVariables", JArr [obj [] [("value", prop a)]]); ("inoutputVariables", JArr [obj [] [("value", prop b)]])].
Example C53_example :
  Run "Operation" (op_doc "a" "b") true /\
  Run "Operation" (op_doc "a" "a") false /\
  Run "Property" (prop "1a") false /\
  Run "AdministrativeInformation" (obj [("revision", "1")] []) false.
Proof. repeat match goal with |- _ /\ _ => split end; example. Qed.

(** * C54: concept descriptions *)
Definition iec_checks : list string := ["check_aasc_3a_002"; "check_aasc_3a_009"; "check_aasc_3a_010"].
Definition concept_checks : list string := ["check_aasc_3a_004"; "check_aasc_3a_005"; "check_aasc_3a_006"; "check_aasc_3a_007"; "check_aasc_3a_008"].
Theorem C54_content : forall d, Inst "DataSpecificationIec61360" d -> Passes iec_checks d <-> AASc_002 EnTagged d /\ AASc_009 d /\ AASc_010 d.
Proof. intros s H. passes "DataSpecificationIec61360" iec_checks H. tauto. Qed.
Print Assumptions C54_content.
Theorem C54_concept : forall c, Inst "ConceptDescription" c -> Passes concept_checks c <->
  NoContent ["PROPERTY"; "VALUE"] c /\ NoContent ["REFERENCE"] c /\ NoContent ["DOCUMENT"] c /\ AASc_007 c /\ AASc_008 EnTagged c.
Proof. intros s H. passes "ConceptDescription" concept_checks H. tauto. Qed.
Print Assumptions C54_concept.
(** What is accepted satisfies the constraints on data types. *)
Theorem C54_sound : forall c, Inst "ConceptDescription" c -> Passes concept_checks c -> AASc_004 c /\ AASc_005 c /\ AASc_006 c /\ AASc_007 c.
Proof.
  intros c H P. apply (C54_concept c H) in P as (A & B & C & D & _).
  split; [|split; [|split; [|exact D]]]; intros X d Y; exfalso; [exact (A X d Y)|exact (B X d Y)|exact (C X d Y)].
Qed.
Print Assumptions C54_sound.
Definition iec_doc (dt lang : string) : json := obj [("modelType", "DataSpecificationIec61360"); ("dataType", dt)]
  [("preferredName", JArr [obj [("language", lang); ("text", "n")] []]); ("definition", JArr [obj [("language", lang); ("text", "d")] []])].
Definition concept (cat : string) (content : json) : json := obj [("modelType", "ConceptDescription"); ("id", "urn:c"); ("category", cat)]
  [("embeddedDataSpecifications", JArr [obj [] [("dataSpecification", reference "ExternalReference"
      [key "GlobalReference" "https://admin-shell.io/DataSpecificationTemplates/DataSpecificationIec61360/3"]); ("dataSpecificationContent", content)]])].
Definition property_concept : pyval := Eval vm_compute in object_of "ConceptDescription" (concept "PROPERTY" (iec_doc "STRING" "en")).
Definition mixed_case : pyval := Eval vm_compute in object_of "DataSpecificationIec61360" (iec_doc "STRING" "En").
Lemma one_content d : IecContent property_concept d -> d = attr (nth 0 (items property_concept "embedded_data_specifications") VNone) "data_specification_content".
Proof. intros (e & I & -> & _). destruct I as [<-|[]]. reflexivity. Qed.
(** A description of the category PROPERTY is rejected, whatever its data type; the language tag
    "En" is not recognised as English. *)
Theorem C54_refuted :
  Example_of "ConceptDescription" (concept "PROPERTY" (iec_doc "STRING" "en")) property_concept false /\
  (AASc_004 property_concept /\ AASc_005 property_concept /\ AASc_006 property_concept /\ AASc_007 property_concept /\ AASc_008 English property_concept) /\
  Example_of "DataSpecificationIec61360" (iec_doc "STRING" "En") mixed_case false /\ AASc_002 English mixed_case.
Proof.
  split; [example|]. split; [|split; [example|]].
  - split; [|split; [|split; [|split]]].
    + intros _ d C. apply one_content in C as ->. exists "STRING". split; [right; now left|]. enum.
    + intros [_ [E|[]]]. exfalso. vm_compute in E. discriminate.
    + intros [_ [E|[]]]. exfalso. vm_compute in E. discriminate.
    + intros [_ [E|[]]]. exfalso. vm_compute in E. discriminate.
    + intros d C _. apply one_content in C as ->. eexists. split; [left; reflexivity|]. exists (lit "en"), []. split; [vm_compute; reflexivity|]. auto.
  - eexists. split; [left; reflexivity|]. exists (lit "En"), []. split; [vm_compute; reflexivity|]. auto.
Qed.
Print Assumptions C54_refuted.
Example C54_example :
  Run "ConceptDescription" (concept "OTHER" (iec_doc "STRING" "en-US")) true /\
  Run "ConceptDescription" (concept "OTHER" (iec_doc "STRING" "de")) false /\
  Run "ConceptDescription" (concept "OTHER" (iec_doc "INTEGER_MEASURE" "en")) false.
Proof. repeat match goal with |- _ /\ _ => split end; example. Qed.
