(** Property C58: the paths of submodel elements. *)
From Coq Require Import PeanoNat Lia String List NArith ZArith Bool.
From Verif Require Import PyStr PyStrFacts PyBase PyXml PyVal DataTypesModel DataTypesSpec.
From Verif Require Import ResultModel ResultFacts ReflectModel ReflectFacts MetaModel MetaSpec MetaFacts AdapterModel ParseModel ParseSpec ParseFacts ParseFacts2 ParseSim ParseFacts3 ParseFacts4 P_Parse.
From Verif Require Import TypeSpec TypeFacts TypeFacts2 ConstraintModel CheckModel ConstraintSpec ConstraintFacts ConstraintFacts2 ConstraintFacts3 ConstraintFacts4 ConstraintFacts5 ConstraintFacts6 ConstraintFacts7 ConstraintFacts8.
From Verif Require Import P_Constraint P_Constraint2 PathSpec PathFacts.
Import ListNotations.
Local Open Scope list_scope.

Definition id_type (e : str * pfields) : bool :=
  match lookup (lit "id_short") (snd e) with Some (TyOpt TyText) | None => true | _ => false end.
Lemma id_types : forallb id_type model_types = true. Proof. vm_compute. reflexivity. Qed.
Local Opaque aas_v3_0_checked model_classes model_table model_types model_symbols model_supers own_methods.

(** [x] is the object of a document that was checked against the model type [n]. *)
Definition Checked (n : str) (x : pyval) : Prop :=
  (exists show repr v, meta_check_json show repr n v = Val (x, [])) \/ (exists repr e, meta_check_xml repr n e = Val (x, [])).

Lemma table_safe n i : symbol_lookup model_table n = Val i -> safe 2 i = true.
Proof. intros L. apply (proj1 (forallb_forall _ _) all_safe). apply in_seq. pose proof (lookup_below _ _ _ L). lia. Qed.
Lemma checked_known n x : Checked n x -> AllKnown x.
Proof.
  intros [(show & repr & v & E)|(repr & e & E)].
  - unfold meta_check_json in E. rewrite model_symbols_eq in E. cbn [obind] in E.
    destruct (symbol_lookup model_table n) as [i|] eqn:L; cbn [obind] in E; [|discriminate].
    destruct (parse_known json (json_adapter show) repr (json_nonempty show) _ _ _ _ _ E) as [_ B]. exact (B (table_safe n i L)).
  - unfold meta_check_xml in E. rewrite model_symbols_eq in E. cbn [obind] in E.
    destruct (symbol_lookup model_table n) as [i|] eqn:L; cbn [obind] in E; [|discriminate].
    destruct (parse_known xml xml_adapter repr xml_nonempty _ _ _ _ _ E) as [_ B]. exact (B (table_safe n i L)).
Qed.

(** Elements of collections and lists, at any depth, know their path.  The full statement is the
    one with [Holds] instead of [Contains]. *)
Theorem C58_partial : forall n x q s ts e, Checked n x -> Occurs x q s -> Of_class s "Submodel" ->
  Addressed Contains s ts e -> Knows s ts e.
Proof.
  intros n x q s ts e C O K A. pose proof (checked_known n x C) as L. unfold Of_class in K.
  destruct s as [| | | | | | |c kvs| |]; try discriminate K. cbn [class_of_obj] in K. change (lit "Submodel") with n_submodel in *. subst c.
  exact (L x q kvs (or_introl eq_refl) O ts e A).
Qed.
Print Assumptions C58_partial.

(** In an accepted document these paths consist of idShorts and indices, and lead to one element. *)
Lemma occurs_trans x q y q' z : Occurs x q y -> Occurs y q' z -> Occurs x (q ++ q') z.
Proof.
  induction 1 as [x|c kvs k x q y I N O IH|c kvs k l i x q y I N O IH]; intros P; cbn [app]; [exact P| |].
  - eapply Oc_attr; eauto.
  - eapply Oc_item; eauto.
Qed.
Lemma items_in c kvs n e : In e (items (VObj c kvs) n) -> exists l i, In (lit n, VList l) kvs /\ nth_error l i = Some e.
Proof.
  unfold items, attr. destruct (lookup (lit n) kvs) as [v|] eqn:L; [|intros []]. destruct v; try (intros []).
  intros I. apply In_nth_error in I as [i I]. apply lookup_In in L. eauto.
Qed.
Lemma item_occurs x q y n e : Occurs x q y -> In e (items y n) -> exists q', Occurs x q' e.
Proof.
  intros O I. destruct y as [| | | | | | |c kvs| |]; try (destruct I; fail). destruct (items_in _ _ _ _ I) as (l & i & A & B).
  exists (q ++ [SKey (lit n); SIdx i]). eapply occurs_trans; [exact O|]. eapply Oc_item; [exact A|exact B|constructor].
Qed.
Lemma contains_in x t e : Contains x t e -> In e (items x "value").
Proof. intros [e' _ I|i e' _ I]; [exact I|eapply nth_error_In; exact I]. Qed.
Lemma has_name t x e : Ty t x -> (exists q, Occurs x q e) -> Present e "id_short" -> exists s, id_token e = TName s /\ text e "id_short" = s.
Proof.
  intros T (q & O) P. unfold Present in P. destruct e as [| | | | | | |c kvs| |]; try (now contradiction P).
  destruct (occurs_typed _ _ _ O _ T) as (t' & T'). apply typed_any_obj in T'. destruct (typed_field _ _ _ T') as (fs & If & _ & K & M).
  pose proof (proj1 (forallb_forall _ _) id_types _ If) as D. unfold id_type in D. cbn [snd] in D.
  unfold id_token, text. unfold attr in *. destruct (lookup (lit "id_short") kvs) as [v|] eqn:L; [|now contradiction P].
  apply lookup_In in L. assert (Ik : In (lit "id_short") (List.map fst fs)) by (rewrite <- K; apply in_map_iff; exists (lit "id_short", v); auto).
  apply in_map_iff in Ik as ([k' u] & E & Ik). cbn [fst] in E. subst k'. specialize (M _ _ _ Ik L).
  apply lookup_nodup in Ik; [|eapply types_nodup; eauto]. rewrite Ik in D. destruct u as [| | | | | |[]|]; try discriminate D.
  apply typed_opt in M as [->|M]; [now contradiction P|]. inversion M; subst. cbn [chars]. eauto.
Qed.
Lemma submodel_self : is_a model_classes (lit "Submodel") (lit "Submodel") = true. Proof. exact submodel_is. Qed.
Definition in_constraints (cls name : string) : nat :=
  (fix go l i := match l with [] => i | k :: r => if (String.eqb (k_class k) cls && String.eqb (k_name k) name)%bool then i else go r (S i) end) constraints 0.
(** the elements of a container have unique names *)
Definition Named (l : list pyval) : Prop := AllHaveIdShort l /\ UniqueIdShorts l.
Lemma submodel_named x q s : Satisfies x -> Occurs x q s -> Of_class s "Submodel" -> Named (items s "submodel_elements").
Proof.
  intros S O C. unfold Of_class in C. destruct s as [| | | | | | |c kvs| |]; try discriminate C. cbn [class_of_obj] in C. subst c. split.
  - apply (S q _ (error "Submodel" "AASd-117" (fun x => AllHaveIdShort (items x "submodel_elements"))) O); [|exists (lit "Submodel"), kvs; split; [reflexivity|exact submodel_is]|reflexivity].
    apply (nth_error_In _ (in_constraints "Submodel" "AASd-117")). reflexivity.
  - apply (S q _ (error "Submodel" "AASd-022" (fun x => UniqueIdShorts (items x "submodel_elements"))) O); [|exists (lit "Submodel"), kvs; split; [reflexivity|exact submodel_is]|reflexivity].
    apply (nth_error_In _ (in_constraints "Submodel" "AASd-022")). reflexivity.
Qed.
Lemma collection_named x q s : Satisfies x -> Occurs x q s -> Of_class s "SubmodelElementCollection" -> Named (items s "value").
Proof.
  intros S O C. unfold Of_class in C. destruct s as [| | | | | | |c kvs| |]; try discriminate C. cbn [class_of_obj] in C. subst c. split.
  - apply (S q _ (error "SubmodelElementCollection" "AASd-117" (fun x => AllHaveIdShort (items x "value"))) O); [|exists (lit "SubmodelElementCollection"), kvs; split; [reflexivity|exact collection_is]|reflexivity].
    apply (nth_error_In _ (in_constraints "SubmodelElementCollection" "AASd-117")). reflexivity.
  - apply (S q _ (error "SubmodelElementCollection" "AASd-022" (fun x => UniqueIdShorts (items x "value"))) O); [|exists (lit "SubmodelElementCollection"), kvs; split; [reflexivity|exact collection_is]|reflexivity].
    apply (nth_error_In _ (in_constraints "SubmodelElementCollection" "AASd-022")). reflexivity.
Qed.
Lemma named_same t x l e e' : Ty t x -> (forall e, In e l -> exists q, Occurs x q e) -> Named l -> In e l -> In e' l -> id_token e = id_token e' -> e = e'.
Proof.
  intros T O [A U] I I' E. destruct (has_name t x e T (O e I) (A e I)) as (s & E1 & T1). destruct (has_name t x e' T (O e' I') (A e' I')) as (s' & E2 & T2).
  assert (s = s') by congruence. subst s'. apply In_nth_error in I as [i Hi]. apply In_nth_error in I' as [j Hj].
  assert (i = j) by (apply (U i j e e' Hi Hj); [apply A; eapply nth_error_In; eauto|apply A; eapply nth_error_In; eauto|congruence]). congruence.
Qed.
Lemma two_classes y : Of_class y "SubmodelElementCollection" -> Of_class y "SubmodelElementList" -> False.
Proof. unfold Of_class. intros -> H. vm_compute in H. discriminate H. Qed.
Lemma below_same t x ts : Ty t x -> Satisfies x -> forall q y e e', Occurs x q y -> Below Contains y ts e -> Below Contains y ts e' -> e = e'.
Proof.
  intros T S. induction ts as [|tk ts IH]; intros q y e e' O B B'.
  - inversion B; subst. inversion B'; subst. reflexivity.
  - inversion B as [|t1 z ts1 e1 C1 D1]; subst. inversion B' as [|t2 z' ts2 e2 C2 D2]; subst.
    assert (z = z').
    { assert (Oc : forall e, In e (items y "value") -> exists q, Occurs x q e) by (intros e0 I0; eapply item_occurs; eauto).
      inversion C1 as [e0 K0 I0 Eq0|i0 e0 K0 I0 Eq0]; subst; inversion C2 as [e3 K3 I3 Eq3|i3 e3 K3 I3 Eq3]; subst.
      - exact (named_same t x _ z z' T Oc (collection_named x q y S O K0) I0 I3 (eq_sym Eq3)).
      - destruct (two_classes y K0 K3).
      - destruct (two_classes y K3 K0).
      - congruence. }
    subst z'. destruct (item_occurs x q y "value" z O (contains_in _ _ _ C1)) as (q' & O'). eapply IH; eauto.
Qed.
Theorem C58_unique : forall n x q s ts e e', Checked n x -> Satisfies x -> Occurs x q s -> Of_class s "Submodel" ->
  Addressed Contains s ts e -> Addressed Contains s ts e' -> e = e'.
Proof.
  intros n x q s ts e e' C S O K A A'.
  assert (D : FromDocument x) by (destruct C as [(show & repr & v & E)|(repr & v & E)]; [left|right]; eauto 6).
  destruct (document_typed x D) as (t & T). pose proof (submodel_named x q s S O K) as N.
  inversion A as [y ts1 e1 I1 B1]; subst. inversion A' as [y' ts2 e2 I2 B2 Eq]; subst.
  assert (Oc : forall e, In e (items s "submodel_elements") -> exists q, Occurs x q e) by (intros e0 I0; eapply item_occurs; eauto).
  assert (y' = y) by (eapply (named_same t x _ y' y T Oc N); auto). subst y'.
  destruct (Oc y I1) as (q' & O'). eapply (below_same t x ts1 T S q' y); eauto.
Qed.
Print Assumptions C58_unique.
Lemma below_named t x ts : Ty t x -> Satisfies x -> forall q y e, Occurs x q y -> Below Contains y ts e -> ~ In TNone ts.
Proof.
  intros T S. induction ts as [|tk ts IH]; intros q y e O B; [intros []|]. inversion B as [|t1 z ts1 e1 C1 D1]; subst.
  destruct (item_occurs x q y "value" z O (contains_in _ _ _ C1)) as (q' & O').
  intros [E|I]; [|exact (IH q' z e O' D1 I)]. inversion C1 as [e0 K0 I0 Eq0|i0 e0 K0 I0 Eq0]; subst; [|discriminate].
  destruct (collection_named x q y S O K0) as [Al _].
  destruct (has_name t x z T (ex_intro _ q' O') (Al z I0)) as (s & E1 & _). congruence.
Qed.
Theorem C58_named : forall n x q s ts e, Checked n x -> Satisfies x -> Occurs x q s -> Of_class s "Submodel" ->
  Addressed Contains s ts e -> ~ In TNone ts.
Proof.
  intros n x q s ts e C S O K A.
  assert (D : FromDocument x) by (destruct C as [(show & repr & v & E)|(repr & v & E)]; [left|right]; eauto 6).
  destruct (document_typed x D) as (t & T). destruct (submodel_named x q s S O K) as [Al _].
  inversion A as [y ts1 e1 I1 B1]; subst. destruct (item_occurs x q s "submodel_elements" y O I1) as (q' & O').
  intros [E|I]; [|exact (below_named t x ts1 T S q' y e O' B1 I)].
  destruct (has_name t x y T (ex_intro _ q' O') (Al y I1)) as (m & E1 & _). congruence.
Qed.
Print Assumptions C58_named.

Local Open Scope string_scope.
(** Statements of entities have no path. *)
Definition submodel_doc (l : list json) : json := obj [("modelType", "Submodel"); ("idShort", "sm"); ("id", "urn:s")] [("submodelElements", JArr l)].
Definition named_coll (i : string) (l : list json) : json := obj [("modelType", "SubmodelElementCollection"); ("idShort", i)] [("value", JArr l)].
Definition prop_list (i : string) (l : list json) : json :=
  obj [("modelType", "SubmodelElementList"); ("idShort", i); ("typeValueListElement", "Property"); ("valueTypeListElement", "xs:int")] [("value", JArr l)].
Definition in_entity : pyval := Eval vm_compute in object_of "Submodel" (submodel_doc [entity_doc [prop "p"]]).
Theorem C58_refuted : Example_of "Submodel" (submodel_doc [entity_doc [prop "p"]]) in_entity true /\
  exists e, Addressed Holds in_entity [TName (lit "e"); TName (lit "p")] e /\ ~ Knows in_entity [TName (lit "e"); TName (lit "p")] e.
Proof.
  split; [example|].
  set (en := nth 0 (items in_entity "submodel_elements") VNone). set (p := nth 0 (items en "statements") VNone).
  exists p. split; [|intros K; vm_compute in K; discriminate].
  change (TName (lit "e")) with (id_token en). apply Ad_below; [left; reflexivity|].
  eapply Be_step; [|apply Be_here]. change (TName (lit "p")) with (id_token p). apply Ho_statement; [reflexivity|left; reflexivity].
Qed.
Print Assumptions C58_refuted.
(** The property in a list in a collection, and how its path is written. *)
Definition nested : pyval := Eval vm_compute in object_of "Submodel" (submodel_doc [prop "a"; named_coll "c" [prop "x"; prop_list "l" [no_id; no_id]]]).
Example C58_example :
  Example_of "Submodel" (submodel_doc [prop "a"; named_coll "c" [prop "x"; prop_list "l" [no_id; no_id]]]) nested true /\
  exists e, Addressed Contains nested [TName (lit "c"); TName (lit "l"); TIndex 1] e /\
  show_path (attr e "id_short_path") = lit "c.l.1 in Submodel sm[urn:s]".
Proof.
  split; [example|]. set (c := nth 1 (items nested "submodel_elements") VNone). set (l := nth 1 (items c "value") VNone).
  exists (nth 1 (items l "value") VNone). split; [|vm_compute; reflexivity].
  change (TName (lit "c")) with (id_token c). apply Ad_below; [right; left; reflexivity|].
  eapply Be_step; [change (TName (lit "l")) with (id_token l); apply Con_collection; [reflexivity|right; left; reflexivity]|].
  eapply Be_step; [apply Con_list; [reflexivity|reflexivity]|apply Be_here].
Qed.
