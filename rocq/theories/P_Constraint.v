(** Properties C47 and C57: the check of the constraints. *)
From Coq Require Import PeanoNat Lia String List NArith ZArith Bool.
From Verif Require Import PyStr PyStrFacts PyBase PyXml PyVal DataTypesModel DataTypesSpec.
From Verif Require Import ResultModel ResultFacts ReflectModel ReflectFacts MetaModel MetaSpec MetaFacts AdapterModel ParseModel ParseSpec ParseFacts ParseFacts2 ParseSim ParseFacts3 ParseFacts4 P_Parse.
From Verif Require Import TypeSpec TypeFacts TypeFacts2 ConstraintModel CheckModel ConstraintSpec ConstraintFacts ConstraintFacts2 ConstraintFacts3 ConstraintFacts4 ConstraintFacts5 ConstraintFacts6 ConstraintFacts7 ConstraintFacts8.
From Verif Require Import XmlSpec XmlFacts XmlFacts2 XmlFacts3 P_Xml.
Import ListNotations.
Local Open Scope list_scope.
Local Opaque aas_v3_0_checked model_classes model_table model_types model_symbols model_supers own_methods.

(** * C47: every object is checked *)
(** A document is accepted exactly if it passes the meta model check and all constraints of
    severity ERROR of the table [constraints] hold for all objects that occur in it. *)
Theorem C47_json : forall show repr n v, Accepted (check_json show repr n v) <->
  exists x, meta_check_json show repr n v = Val (x, []) /\ Satisfies x.
Proof.
  intros show repr n v. unfold check_json. rewrite parse_and_check_ok. split.
  - intros (x & cs & E & H). exists x. split; [exact E|]. destruct (json_typed _ _ _ _ _ E) as (t & T). apply (accepted_spec t x T). eauto.
  - intros (x & E & S). destruct (json_typed _ _ _ _ _ E) as (t & T). apply (accepted_spec t x T) in S as (cs & C & F). eauto.
Qed.
Print Assumptions C47_json.
Theorem C47_xml : forall repr n e, Accepted (check_xml repr n e) <->
  exists x, meta_check_xml repr n e = Val (x, []) /\ Satisfies x.
Proof.
  intros repr n v. unfold check_xml. rewrite parse_and_check_ok. split.
  - intros (x & cs & E & H). exists x. split; [exact E|]. destruct (xml_typed _ _ _ _ E) as (t & T). apply (accepted_spec t x T). eauto.
  - intros (x & E & S). destruct (xml_typed _ _ _ _ E) as (t & T). apply (accepted_spec t x T) in S as (cs & C & F). eauto.
Qed.
Print Assumptions C47_xml.
(** The findings are exactly the violations, with the severity of the constraint and the
    position of the object. *)
Definition FromDocument (x : pyval) : Prop :=
  (exists show repr n v, meta_check_json show repr n v = Val (x, [])) \/ (exists repr n e, meta_check_xml repr n e = Val (x, [])).
Lemma document_typed x : FromDocument x -> exists t, Ty t x.
Proof. intros [(s & r & n & v & E)|(r & n & e & E)]; [eapply json_typed; eauto|eapply xml_typed; eauto]. Qed.
Theorem C47_findings : forall x fs, FromDocument x -> check_constraints model_methods x [] = Val fs ->
  forall q l, Violated x q l <-> exists m, In (CFinding l m q) fs.
Proof.
  intros x fs D E. destruct (document_typed x D) as (t & T). pose proof (check_findings t x T) as F. rewrite E in F. apply F.
Qed.
Print Assumptions C47_findings.
(** If a constraint check raises, it is because of a constraint that is violated. *)
Theorem C47_raises_violated : forall x q e, Raising x q e -> Violated x q ERROR.
Proof.
  intros x q e (y & k & O & K & A & _ & R). destruct (raises_violates k y K R) as [V L]. exists y, k. auto.
Qed.
Print Assumptions C47_raises_violated.

(** The objects are those of the document, at any depth. *)
Definition checked_flat : bool := forallb flat_class aas_v3_0_checked.
Lemma checked_flat_ok : checked_flat = true. Proof. vm_compute. reflexivity. Qed.
Lemma flat_attrs c a : In c aas_v3_0_checked -> In a (gc_attrs c) -> flat_type (g_type a) = true.
Proof. intros I J. pose proof (proj1 (forallb_forall _ _) checked_flat_ok _ I) as F. exact (proj1 (forallb_forall _ _) F _ J). Qed.
Section Positions.
  Variable V : Type. Variable W : view V.
  Lemma checked_expected n v c c' : Expected W aas_v3_0_checked n v c -> Expected W aas_v3_0_checked n v c' -> c = c'.
  Proof. exact (expected_fun V aas_v3_0_checked W model_names n v c c'). Qed.
  Lemma objects_of_document v x cn t : Carries W aas_v3_0_checked (GObj cn) v x -> Ty t x ->
    (forall q n w, At W aas_v3_0_checked (GObj cn) v q (GObj n) w -> exists y, Occurs x (attr_path q) y /\ Carries W aas_v3_0_checked (GObj n) w y) /\
    (forall q c kvs, Occurs x q (VObj c kvs) -> exists p n w, At W aas_v3_0_checked (GObj cn) v p (GObj n) w /\ q = attr_path p /\
       Carries W aas_v3_0_checked (GObj n) w (VObj c kvs)).
  Proof.
    intros C T. split.
    - intros q n w A. exact (at_occurs V W _ checked_expected flat_attrs _ _ _ _ _ A eq_refl n x eq_refl C).
    - intros q c kvs O. eapply (occurs_at V W _ checked_expected flat_attrs _ _ _ O t (GObj cn) v T); [discriminate|exact C|eauto].
  Qed.
End Positions.
Theorem C47_json_objects : forall show repr n cn v x, Names n (GObj cn) -> meta_check_json show repr n v = Val (x, []) ->
  (forall q m w, At json_view aas_v3_0_checked (GObj cn) v q (GObj m) w ->
     exists y, Occurs x (attr_path q) y /\ Carries json_view aas_v3_0_checked (GObj m) w y) /\
  (forall q c kvs, Occurs x q (VObj c kvs) -> exists p m w, At json_view aas_v3_0_checked (GObj cn) v p (GObj m) w /\ q = attr_path p /\
     Carries json_view aas_v3_0_checked (GObj m) w (VObj c kvs)).
Proof.
  intros show repr n cn v x N E. destruct (json_typed _ _ _ _ _ E) as (t & T).
  pose proof (C34_sound show repr _ _ _ _ N E) as C. destruct (C35_complete show repr _ _ v N C) as (y & E' & Ca). rewrite E in E'. injection E' as <-.
  exact (objects_of_document json json_view v x cn t Ca T).
Qed.
Print Assumptions C47_json_objects.
Theorem C47_xml_objects : forall repr n cn e x, Names n (GObj cn) -> well_named e -> meta_check_xml repr n e = Val (x, []) ->
  (forall q m w, At xml_seen aas_v3_0_checked (GObj cn) e q (GObj m) w ->
     exists y, Occurs x (attr_path q) y /\ Carries xml_seen aas_v3_0_checked (GObj m) w y) /\
  (forall q c kvs, Occurs x q (VObj c kvs) -> exists p m w, At xml_seen aas_v3_0_checked (GObj cn) e p (GObj m) w /\ q = attr_path p /\
     Carries xml_seen aas_v3_0_checked (GObj m) w (VObj c kvs)).
Proof.
  intros repr n cn e x N W E. destruct (xml_typed _ _ _ _ E) as (t & T).
  destruct (xml_check_correct repr n _ e N W) as (y & fs & E' & _ & Ca & _). rewrite E in E'. simpl in E'. injection E' as <- <-.
  exact (objects_of_document xml xml_seen e x cn t (Ca eq_refl) T).
Qed.
Print Assumptions C47_xml_objects.

(** ** Running examples *)
Definition object_of (n : string) (v : json) : pyval :=
  match symbol_lookup model_table (lit n) with
  | Val i => match parse json (json_adapter no_show) model_classes model_table quoted model_post_parse (S (json_depth v)) i [] v [] with
             | Val (x, []) => x | _ => VNone end
  | Raise _ => VNone
  end.
Ltac runs := let L := fresh "L" in
  match goal with |- meta_check_json ?show ?repr ?n ?v = _ =>
    let i := eval vm_compute in (match symbol_lookup model_table n with Val i => i | Raise _ => 0 end) in
    assert (L : symbol_lookup model_table n = Val i) by (vm_compute; reflexivity);
    eapply eq_trans; [exact (check_run show repr n v i L)|]; vm_compute; reflexivity
  end.
Lemma accepted_run show repr n v x cs : meta_check_json show repr n v = Val (x, []) -> check_model x = Val cs -> forallb ok cs = true ->
  Accepted (check_json show repr n v).
Proof.
  intros E C F. apply parse_and_check_ok. exists x, cs. split; [exact E|]. split; [exact C|]. apply Forall_forall. now apply forallb_forall.
Qed.
Lemma rejected_run show repr n v x cs : meta_check_json show repr n v = Val (x, []) -> check_model x = Val cs -> forallb ok cs = false ->
  ~ Accepted (check_json show repr n v).
Proof.
  intros E C F A. apply parse_and_check_ok in A as (y & ds & E' & C' & G). rewrite E in E'. injection E' as <-.
  assert (ds = cs) as -> by congruence. apply Bool.not_true_iff_false in F. apply F. apply forallb_forall. now apply Forall_forall.
Qed.
Lemma raising_run show repr n v x e : meta_check_json show repr n v = Val (x, []) -> check_model x = Raise e ->
  check_json show repr n v = Raise e.
Proof. intros E C. unfold check_json. rewrite E, C39_executed, C. reflexivity. Qed.
Definition findings_of (x : pyval) : list (ResultModel.level * path) :=
  match check_constraints model_methods x [] with Val fs => List.map (fun f => (cf_level f, cf_path f)) fs | Raise _ => [] end.

(** A list in a submodel, with an element that has an idShort. *)
Definition deep_doc : json := env_doc [submodel_doc [property_doc; JObj [(lit "modelType", JStr (lit "SubmodelElementList")); (lit "idShort", JStr (lit "l"));
  (lit "typeValueListElement", JStr (lit "Property")); (lit "valueTypeListElement", JStr (lit "xs:int")); (lit "value", JArr [property_doc])]]].
Definition deep_obj : pyval := Eval vm_compute in object_of "Environment" deep_doc.
Example C47_example : (forall show repr, meta_check_json show repr (lit "Environment") deep_doc = Val (deep_obj, [])) /\
  findings_of deep_obj = [(ERROR, [SKey (lit "submodels"); SIdx 0; SKey (lit "submodel_elements"); SIdx 1])] /\
  (forall show repr, ~ Accepted (check_json show repr (lit "Environment") deep_doc)) /\
  forall show repr, Accepted (check_json show repr (lit "Environment") good_doc).
Proof.
  assert (E : forall show repr, meta_check_json show repr (lit "Environment") deep_doc = Val (deep_obj, [])) by (intros; runs).
  split; [exact E|]. split; [vm_compute; reflexivity|]. split.
  - intros show repr. eapply rejected_run; [apply E|vm_compute; reflexivity|vm_compute; reflexivity].
  - intros show repr. eapply (accepted_run show repr _ good_doc (object_of "Environment" good_doc)); [|vm_compute; reflexivity|reflexivity].
    eapply eq_trans; [exact (check_run show repr (lit "Environment") good_doc _ env_lookup)|]. vm_compute. reflexivity.
Qed.

(** * C57: exceptions *)
(** The check of the constraints raises exactly for the violations that are listed with an exception. *)
Theorem C57_exact : forall x, FromDocument x ->
  ((exists e, check_model x = Raise e) <-> exists q e, Raising x q e) /\
  forall e, check_model x = Raise e -> exists q, Raising x q e.
Proof.
  intros x D. destruct (document_typed x D) as (t & T). pose proof (check_findings t x T) as F. unfold check_model.
  destruct (check_constraints model_methods x []) as [fs|e]; cbn [obind].
  - split; [|discriminate]. destruct F as [F _]. split; [intros (e & Z); discriminate|]. intros (q & e & R). now apply F in R.
  - destruct F as (q & R). split; [split; eauto|]. intros e' [= <-]. eauto.
Qed.
Print Assumptions C57_exact.
(** These are: operation variables without idShort, shells that are derived from, or refer to,
    something other than a model reference (all AttributeError); and values for which the
    validation of the value type raises a ValueError. *)
Theorem C57_causes : forall x q e, Raising x q e -> exists y c kvs, Occurs x q y /\ y = VObj c kvs /\
  ((e = AttributeError /\
      (is_a model_classes c (lit "OperationVariable") = true /\ ~ ValueHasIdShort y \/
       is_a model_classes c (lit "AssetAdministrationShell") = true /\ ~ IsModelReference y "derived_from" \/
       is_a model_classes c (lit "AssetAdministrationShell") = true /\ ~ SubmodelReferences y)) \/
   (e = ValueError /\ exists d a, In (d, a) [("Extension", "value"); ("Qualifier", "value"); ("Property", "value"); ("Range", "min"); ("Range", "max")]%string /\
       is_a model_classes c (lit d) = true /\ ValueUnvalidated y a)).
Proof.
  intros x q e (y & k & O & K & (c & kvs & Ey & A) & E & R). exists y, c, kvs. split; [exact O|]. split; [exact Ey|].
  unfold constraints in K. cbn [In] in K.
  repeat (destruct K as [K|K]; [subst k; first [exfalso; exact R | idtac]; cbn [k_class k_exn k_raises crashing typed_value] in *; subst e|]); [..|destruct K].
  - right. split; [reflexivity|]. exists "Extension"%string, "value"%string. cbn [In]. auto.
  - right. split; [reflexivity|]. exists "Qualifier"%string, "value"%string. cbn [In]. auto.
  - left. split; [reflexivity|]. left. auto.
  - right. split; [reflexivity|]. exists "Property"%string, "value"%string. cbn [In]. auto.
  - right. split; [reflexivity|]. exists "Range"%string, "min"%string. cbn [In]. auto 6.
  - right. split; [reflexivity|]. exists "Range"%string, "max"%string. cbn [In]. auto 8.
  - left. split; [reflexivity|]. right. left. auto.
  - left. split; [reflexivity|]. right. right. auto.
Qed.
Print Assumptions C57_causes.
(** Hence documents without these return a report. *)
Theorem C57_partial : forall x, FromDocument x ->
  (forall q c kvs, Occurs x q (VObj c kvs) ->
     (is_a model_classes c (lit "OperationVariable") = true -> ValueHasIdShort (VObj c kvs)) /\
     (is_a model_classes c (lit "AssetAdministrationShell") = true -> IsModelReference (VObj c kvs) "derived_from" /\ SubmodelReferences (VObj c kvs)) /\
     forall a, ~ ValueUnvalidated (VObj c kvs) a) ->
  exists cs, check_model x = Val cs.
Proof.
  intros x D H. destruct (check_model x) as [cs|e] eqn:E; [eauto|]. exfalso.
  destruct (proj2 (C57_exact x D) e E) as (q & R). destruct (C57_causes x q e R) as (y & c & kvs & O & -> & C).
  destruct (H q c kvs O) as (H1 & H2 & H3). destruct C as [[_ [[A N]|[[A N]|[A N]]]]|(_ & d & a & _ & _ & U)].
  - exact (N (H1 A)).
  - exact (N (proj1 (H2 A))).
  - exact (N (proj2 (H2 A))).
  - exact (H3 a U).
Qed.
Print Assumptions C57_partial.
(** A shell derived from an external reference. *)
Definition asset_doc : json := JObj (text_doc [("assetKind", "Instance"); ("globalAssetId", "urn:g")]%string).
Definition shell_doc (l : list (str * json)) : json := JObj ([(lit "modelType", JStr (lit "AssetAdministrationShell")); (lit "id", JStr (lit "urn:a"));
  (lit "assetInformation", asset_doc)] ++ l).
Definition derived_doc : json := shell_doc [(lit "derivedFrom", ref_doc)].
Definition submodels_doc : json := shell_doc [(lit "submodels", JArr [ref_doc])].
Definition variable_doc : json := JObj [(lit "value", JObj (text_doc [("modelType", "Property"); ("valueType", "xs:int")]%string))].
Theorem C57_refuted : forall show repr,
  check_json show repr (lit "AssetAdministrationShell") derived_doc = Raise AttributeError /\
  check_json show repr (lit "AssetAdministrationShell") submodels_doc = Raise AttributeError /\
  check_json show repr (lit "OperationVariable") variable_doc = Raise AttributeError /\
  Conforms json_view aas_v3_0 (GObj (lit "AssetAdministrationShell")) derived_doc /\
  Conforms json_view aas_v3_0 (GObj (lit "AssetAdministrationShell")) submodels_doc /\
  Conforms json_view aas_v3_0 (GObj (lit "OperationVariable")) variable_doc.
Proof.
  intros show repr. split; [|split; [|split; [|split; [|split]]]]; try (apply (conformsb_ok _ 6); vm_compute; reflexivity).
  - eapply (raising_run show repr _ derived_doc (object_of "AssetAdministrationShell" derived_doc)); [|vm_compute; reflexivity]. runs.
  - eapply (raising_run show repr _ submodels_doc (object_of "AssetAdministrationShell" submodels_doc)); [|vm_compute; reflexivity]. runs.
  - eapply (raising_run show repr _ variable_doc (object_of "OperationVariable" variable_doc)); [|vm_compute; reflexivity]. runs.
Qed.
Print Assumptions C57_refuted.
(** A shell without derivedFrom that refers to a submodel. *)
Definition model_ref_doc : json := JObj [(lit "type", JStr (lit "ModelReference"));
  (lit "keys", JArr [JObj (text_doc [("type", "Submodel"); ("value", "urn:s")]%string)])].
Example C57_example : forall show repr, Accepted (check_json show repr (lit "AssetAdministrationShell") (shell_doc [(lit "submodels", JArr [model_ref_doc])])).
Proof.
  intros show repr. eapply (accepted_run show repr _ _ (object_of "AssetAdministrationShell" (shell_doc [(lit "submodels", JArr [model_ref_doc])])));
    [runs|vm_compute; reflexivity|reflexivity].
Qed.
