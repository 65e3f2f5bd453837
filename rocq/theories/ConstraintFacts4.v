(** The check methods of model.py on instances: values, idShorts, lists, identifiables. *)
From Coq Require Import PeanoNat Lia String List NArith ZArith Bool.
From Verif Require Import PyStr PyStrFacts PyBase PyVal Regex DataTypesModel DataTypesSpec DataTypesFacts DataTypesFacts2 DataTypesFacts3 DataTypesFacts4 DataTypesFacts5 P_DataTypes.
From Verif Require Import ResultModel ReflectModel MetaModel MetaFacts ParseModel ParseFacts ParseFacts2 TypeSpec TypeFacts TypeFacts2 ConstraintModel ConstraintSpec ConstraintFacts ConstraintFacts2 ConstraintFacts3.
Import ListNotations.
Local Open Scope list_scope.
Local Open Scope string_scope.
Local Open Scope list_scope.
Local Opaque model_types model_classes model_supers.

(** ** Values *)
Definition is_xsd (s : str) : bool := existsb (fun m => str_eqb (snd m) s) xsd_members.
Definition AXsd : akind := AEnum "DataTypeDefXsd" is_xsd.
Definition members_ok : bool :=
  forallb (fun a => forallb (fun b => if str_eqb (snd a) (snd b) then if xsd_eq_dec (fst a) (fst b) then true else false else true) xsd_members) xsd_members.
Lemma members_are_ok : members_ok = true. Proof. vm_compute. reflexivity. Qed.
Lemma members_same x y t : In (x, t) xsd_members -> In (y, t) xsd_members -> x = y.
Proof.
  intros I J. pose proof (proj1 (forallb_forall _ _) members_are_ok _ I) as A. cbn beta in A.
  pose proof (proj1 (forallb_forall _ _) A _ J) as B. cbn [fst snd] in B.
  rewrite (proj2 (str_eqb_spec t t) eq_refl) in B. destruct (xsd_eq_dec x y); [assumption|discriminate].
Qed.
Lemma validate_answers c n t s p : is_xsd t = true -> Answers ERROR ValueError (Validated t s) (Unvalidated t s) (validate s (VEnum c n t) p).
Proof.
  intros X. unfold validate. apply existsb_exists in X as ([x u] & I & E). cbn [snd] in E.
  destruct (find (fun m => str_eqb (snd m) t) xsd_members) as [[y w]|] eqn:F;
    [|pose proof (find_none _ _ F _ I) as Z; cbn [snd] in Z; congruence].
  apply find_some in F as [J W]. cbn [snd fst] in *. apply str_eqb_spec in E, W. subst u w. clear x I. cbn [fst].
  assert (V : Validated t s <-> validate_xsd y s = Val true).
  { split; [intros (x & I & A); now rewrite (members_same y x t J I)|intros A; exists y; auto]. }
  assert (U : Unvalidated t s <-> validate_xsd y s = Raise ValueError).
  { split; [intros (x & I & A); now rewrite (members_same y x t J I)|intros A; exists y; auto]. }
  unfold Answers. destruct (validate_xsd y s) as [[|]|e] eqn:R; cbn [obind].
  - right. left. split; [rewrite U; discriminate|]. split; [now apply V|reflexivity].
  - right. right. split; [rewrite U; discriminate|]. split; [rewrite V; discriminate|eexists; reflexivity].
  - left. apply C70_total in R as [-> _]. split; [now apply U|reflexivity].
Qed.
Lemma answers_iff l e S R S' R' v : (S <-> S') -> (R <-> R') -> Answers l e S R v -> Answers l e S' R' v.
Proof. unfold Answers. tauto. Qed.
Definition ValueAnswers (n : string) (x : pyval) (v : verdict) : Prop :=
  Answers ERROR ValueError (ValueHasType Validated x n) (ValueUnvalidated x n) v.
Lemma value_absent n x : Absent x n -> ValueAnswers n x fine.
Proof.
  intros A. right. left. unfold ValueUnvalidated, ValueHasType. split; [intros [P _]; now elim P|]. split; [intros P; now elim P|reflexivity].
Qed.
Lemma value_typed n x c m t s p : Present x n -> text x n = s -> attr x "value_type" = VEnum c m t -> is_xsd t = true ->
  ValueAnswers n x (validate s (VEnum c m t) p).
Proof.
  intros P T V X. eapply answers_iff; [| |apply validate_answers; exact X]; unfold ValueHasType, ValueUnvalidated; rewrite T, V.
  - split; [intros Z _ c' m' t' [= <- <- <-]; exact Z|]. intros Z. now apply (Z P c m t).
  - split; [intros Z; split; [exact P|]; eauto|]. intros (_ & c' & m' & t' & [= <- <- <-] & Z). exact Z.
Qed.
Lemma ext_value_type_answers x : Inst "Extension" x -> ValueAnswers "value" x (ext_value_type x).
Proof.
  intros H. fldk H "Extension" "value" (AOptK AText) G1 K1. fldk H "Extension" "value_type" (AOptK AXsd) G2 K2.
  unfold ext_value_type. rewrite G1, G2. cbn [obind].
  apply opt_text in K1 as [[A K]|[P (c & s & K & T)]].
  - rewrite K. now apply value_absent.
  - rewrite K. destruct K2 as [K2|(m & v & K2 & X)]; rewrite K2; cbn [truthy andb obind raw_value].
    + right. left. unfold ValueUnvalidated, ValueHasType. rewrite K2. split; [intros (_ & c' & m' & t' & Z & _); discriminate|].
      split; [intros _ c' m' t' Z; discriminate|reflexivity].
    + now apply value_typed.
Qed.
Lemma qual_value_type_answers x : Inst "Qualifier" x -> ValueAnswers "value" x (qual_value_type x).
Proof.
  intros H. fldk H "Qualifier" "value" (AOptK AText) G1 K1. fldk H "Qualifier" "value_type" AXsd G2 K2.
  unfold qual_value_type. rewrite G1, G2. cbn [obind]. destruct K2 as (m & v & K2 & X). rewrite K2.
  apply opt_text in K1 as [[A K]|[P (c & s & K & T)]]; rewrite K; cbn [truthy negb obind raw_value].
  - now apply value_absent.
  - now apply value_typed.
Qed.
Lemma value_type_of_answers cls n x : field_ok cls n (AOptK AText) = true -> field_ok cls "value_type" AXsd = true -> derives cls "SubmodelElement" = true ->
  Inst cls x -> ValueAnswers n x (value_type_of n x).
Proof.
  intros F1 F2 F3 H. destruct (inst_attr _ _ _ _ F1 H) as [G1 K1]. destruct (inst_attr _ _ _ _ F2 H) as [G2 K2].
  unfold value_type_of. rewrite G1, G2. cbn [obind]. destruct K2 as (m & v & K2 & X). rewrite K2.
  destruct (path_shown x) as (p & Gp); [now apply (inst_derives cls)|]. rewrite Gp. cbn [obind].
  apply opt_text in K1 as [[A K]|[P (c & s & K & T)]]; rewrite K; cbn [truthy negb obind raw_value].
  - now apply value_absent.
  - now apply value_typed.
Qed.
Lemma prop_value_answers x : Inst "Property" x -> ValueAnswers "value" x (value_type_of "value" x).
Proof. apply value_type_of_answers; vm_compute; reflexivity. Qed.
Lemma range_min_answers x : Inst "Range" x -> ValueAnswers "min" x (value_type_of "min" x).
Proof. apply value_type_of_answers; vm_compute; reflexivity. Qed.
Lemma range_max_answers x : Inst "Range" x -> ValueAnswers "max" x (value_type_of "max" x).
Proof. apply value_type_of_answers; vm_compute; reflexivity. Qed.

(** ** idShorts *)
Definition AElements : akind := AOptK (AListK true (AInst "Referable")).
Lemma id_short_of x : Inst "Referable" x -> getattr x (lit "id_short") = Val (attr x "id_short") /\
  ((Absent x "id_short" /\ attr x "id_short" = VNone) \/ (Present x "id_short" /\ exists c s, attr x "id_short" = VSfv c s /\ text x "id_short" = s)).
Proof. intros H. fldk H "Referable" "id_short" (AOptK AText) G K. split; [exact G|]. now apply opt_text. Qed.
Lemma have_id_shorts_dec x n p : Holds AElements (attr x n) -> Dec (ensure_have_id_shorts (attr x n) p) (AllHaveIdShort (items x n)).
Proof.
  intros K. unfold ensure_have_id_shorts, AllHaveIdShort. apply opt_list in K as [(A & K & I)|(P & K & N & J)]; rewrite K; cbn [is_none].
  - rewrite I. apply dec_fine. intros y [].
  - cbn [as_items obind]. apply dec_each. intros i y E. destruct (id_short_of y) as [G D]; [apply J; eapply nth_error_In; eauto|].
    rewrite G. cbn [obind]. apply dec_ifn. apply none_present.
Qed.
(** the idShorts are different, and not among those seen *)
Definition Fresh (l : list pyval) (seen : list str) : Prop :=
  UniqueIdShorts l /\ forall x, In x l -> Present x "id_short" -> ~ In (text x "id_short") seen.
Lemma fresh_nil seen : Fresh [] seen.
Proof. split; [intros [|i] j x y; discriminate|intros x []]. Qed.
Lemma unique_tail x l : UniqueIdShorts (x :: l) -> UniqueIdShorts l.
Proof. intros U i j y z Ey Ez Py Pz T. specialize (U (S i) (S j) y z Ey Ez Py Pz T). congruence. Qed.
Lemma fresh_absent x l seen : Absent x "id_short" -> Fresh (x :: l) seen <-> Fresh l seen.
Proof.
  intros A. split; intros [U N].
  - split; [now apply unique_tail in U|]. intros y I. apply N. now right.
  - split.
    + intros [|i] [|j] y z Ey Ez Py Pz T; try reflexivity.
      * injection Ey as <-. now elim Py.
      * injection Ez as <-. now elim Pz.
      * f_equal. exact (U i j y z Ey Ez Py Pz T).
    + intros y [<-|I] P; [now elim P|now apply N].
Qed.
Lemma fresh_present x l seen : Present x "id_short" ->
  Fresh (x :: l) seen <-> ~ In (text x "id_short") seen /\ Fresh l (text x "id_short" :: seen).
Proof.
  intros P. split.
  - intros [U N]. split; [apply N; [now left|exact P]|]. split; [now apply unique_tail in U|].
    intros y I Py [E|J].
    + apply In_nth_error in I as [i Ei]. specialize (U 0%nat (S i) x y eq_refl Ei P Py E). discriminate.
    + revert J. apply N; [now right|exact Py].
  - intros [N0 [U N]]. split.
    + intros [|i] [|j] y z Ey Ez Py Pz T; try reflexivity.
      * injection Ey as <-. exfalso. apply (N z); [eapply nth_error_In; eauto|exact Pz|]. now left.
      * injection Ez as <-. exfalso. apply (N y); [eapply nth_error_In; eauto|exact Py|]. now left.
      * f_equal. exact (U i j y z Ey Ez Py Pz T).
    + intros y [<-|I] Py; [exact N0|]. intros J. apply (N y I Py). now right.
Qed.
Lemma fresh_seen l s s' : (forall t, In t s <-> In t s') -> Fresh l s <-> Fresh l s'.
Proof. intros E. unfold Fresh. split; intros [U N]; (split; [exact U|]); intros x I P J; apply (N x I P); now apply E. Qed.
Lemma str_in_spec s l : str_in s l = true <-> In s l.
Proof. unfold str_in. rewrite existsb_exists. split; [intros (x & I & E); apply str_eqb_spec in E; now subst|]. intros I. exists s. split; [exact I|now apply str_eqb_spec]. Qed.
Lemma unique_id_shorts_dec l : (forall x, In x l -> Inst "Referable" x) -> forall seen, Dec (unique_id_shorts l seen) (Fresh l seen).
Proof.
  induction l as [|x l IH]; intros H seen; cbn [unique_id_shorts]; [apply dec_fine, fresh_nil|].
  destruct (id_short_of x (H x (or_introl eq_refl))) as [G [[A K]|[P (c & s & K & T)]]]; rewrite G, K; cbn [obind is_none raw_value].
  - eapply decides_iff; [symmetry; apply fresh_absent; exact A|]. apply IH. intros y I. apply H. now right.
  - rewrite <- T. eapply decides_iff; [symmetry; apply fresh_present; exact P|].
    destruct (str_in (text x "id_short") seen) eqn:E.
    + apply dec_bad. apply str_in_spec in E. tauto.
    + eapply decides_iff; [|apply IH; intros y I; apply H; now right]. split; [|tauto]. intros F. split; [|exact F].
      rewrite <- str_in_spec. congruence.
Qed.
Lemma fresh_unique l : Fresh l [] <-> UniqueIdShorts l.
Proof. unfold Fresh. split; [tauto|]. intros U. split; [exact U|]. intros x _ _ []. Qed.
Lemma ensure_unique_dec x n : Holds AElements (attr x n) -> Dec (ensure_unique_id_shorts (attr x n)) (UniqueIdShorts (items x n)).
Proof.
  intros K. unfold ensure_unique_id_shorts. apply opt_list in K as [(A & K & I)|(P & K & N & J)]; rewrite K; cbn [is_none].
  - rewrite I. apply dec_fine. apply (proj1 (fresh_unique [])). apply fresh_nil.
  - cbn [as_items obind]. eapply decides_iff; [apply fresh_unique|]. now apply unique_id_shorts_dec.
Qed.

(** ** Submodel elements *)
Lemma data_090_dec x : Inst "DataElement" x -> Dec (data_090 x) (AASd_090 x).
Proof.
  intros H. fldk H "DataElement" "category" (AOptK AText) G K. unfold data_090, AASd_090. rewrite G. cbn [obind].
  apply opt_text in K as [[A K]|[P (c & s & K & T)]]; rewrite K; cbn [is_none obind raw_value].
  - apply dec_fine. intros P. now elim P.
  - upto H "SubmodelElement". destruct (path_shown x H) as (p & Gp). rewrite Gp. cbn [obind]. rewrite T. apply dec_if. rewrite str_in_spec. tauto.
Qed.
Lemma are_117_dec x : Inst "AnnotatedRelationshipElement" x -> Dec (are_117 x) (AllHaveIdShort (items x "annotations")).
Proof.
  intros H. fldk H "AnnotatedRelationshipElement" "annotations" AElements G K. unfold are_117. rewrite G. cbn [obind].
  upto H "SubmodelElement". destruct (path_shown x H) as (p & Gp). rewrite Gp. cbn [obind]. now apply have_id_shorts_dec.
Qed.
Lemma ent_117_dec x : Inst "Entity" x -> Dec (ent_117 x) (AllHaveIdShort (items x "statements")).
Proof.
  intros H. fldk H "Entity" "statements" AElements G K. unfold ent_117. rewrite G. cbn [obind].
  upto H "SubmodelElement". destruct (path_shown x H) as (p & Gp). rewrite Gp. cbn [obind]. now apply have_id_shorts_dec.
Qed.
Lemma coll_117_dec x : Inst "SubmodelElementCollection" x -> Dec (coll_117 x) (AllHaveIdShort (items x "value")).
Proof.
  intros H. fldk H "SubmodelElementCollection" "value" AElements G K. unfold coll_117. rewrite G. cbn [obind].
  upto H "SubmodelElement". destruct (path_shown x H) as (p & Gp). rewrite Gp. cbn [obind]. now apply have_id_shorts_dec.
Qed.
Lemma coll_022_dec x : Inst "SubmodelElementCollection" x -> Dec (coll_022 x) (UniqueIdShorts (items x "value")).
Proof.
  intros H. fldk H "SubmodelElementCollection" "value" AElements G K. unfold coll_022. rewrite G. cbn [obind]. now apply ensure_unique_dec.
Qed.
Lemma sm_117_dec x : Inst "Submodel" x -> Dec (sm_117 x) (AllHaveIdShort (items x "submodel_elements")).
Proof.
  intros H. fldk H "Submodel" "submodel_elements" AElements G K. unfold sm_117. rewrite G. cbn [obind]. now apply have_id_shorts_dec.
Qed.
Lemma sm_022_dec x : Inst "Submodel" x -> Dec (sm_022 x) (UniqueIdShorts (items x "submodel_elements")).
Proof.
  intros H. fldk H "Submodel" "submodel_elements" AElements G K. unfold sm_022. rewrite G. cbn [obind]. now apply ensure_unique_dec.
Qed.
Lemma ev_observed_dec x : Inst "BasicEventElement" x -> Dec (ev_observed x) (IsModelReference x "observed").
Proof.
  intros H. fldk H "BasicEventElement" "observed" (AInst "Reference") G K. unfold ev_observed, IsModelReference. rewrite G. cbn [obind].
  upto H "SubmodelElement". destruct (path_shown x H) as (p & Gp). rewrite Gp. cbn [obind]. rewrite (ref_type _ _ K). cbn [obind].
  apply dec_if. rewrite enum_is_spec. unfold Model. split; [tauto|]. intros X. apply X. unfold Present. destruct K as (c & kvs & E & _). rewrite E. discriminate.
Qed.
Lemma ev_broker_dec x : Inst "BasicEventElement" x -> Dec (ev_message_broker x) (IsModelReference x "message_broker").
Proof.
  intros H. fldk H "BasicEventElement" "message_broker" (AOptK (AInst "Reference")) G K. unfold ev_message_broker, IsModelReference. rewrite G. cbn [obind].
  upto H "SubmodelElement". destruct (path_shown x H) as (p & Gp). rewrite Gp. cbn [obind].
  apply opt_inst in K as [[A K]|[P K]].
  - rewrite K. apply dec_fine. intros P. now elim P.
  - rewrite (truthy_inst _ _ K). cbn [negb]. rewrite (ref_type _ _ K). cbn [obind]. apply dec_if. rewrite enum_is_spec. unfold Model. tauto.
Qed.
Lemma bool_negb (a b : bool) : (a = true <-> b = false) -> a = negb b.
Proof. destruct a, b; cbn; intros [H1 H2]; try reflexivity; [now discriminate H1|now discriminate H2]. Qed.
Lemma ent_014_dec x : Inst "Entity" x -> Dec (ent_014 x) (AASd_014 x).
Proof.
  intros H. fldk H "Entity" "entity_type" (AEnum "EntityType" any_value) G1 K1. fldk H "Entity" "global_asset_id" (AOptK AText) G2 K2.
  fldk H "Entity" "specific_asset_ids" (AOptK (AListK true (AInst "SpecificAssetId"))) G3 K3. unfold ent_014, AASd_014. rewrite G1, G2, G3. cbn [obind].
  upto H "SubmodelElement". destruct (path_shown x H) as (p & Gp). rewrite Gp. cbn [obind].
  pose proof (text_truthy _ _ K2) as T2. pose proof (list_truthy _ _ _ K3) as T3.
  assert (E2 : truthy (attr x "global_asset_id") = negb (is_none (attr x "global_asset_id"))).
  { apply bool_negb. now rewrite none_present. }
  assert (E3 : truthy (attr x "specific_asset_ids") = negb (is_none (attr x "specific_asset_ids"))).
  { apply bool_negb. now rewrite none_present. }
  rewrite E2, E3. clear. 
  assert (Q : AASd_014 x <-> (enum_is (attr x "entity_type") "SelfManagedEntity" = true -> is_none (attr x "global_asset_id") = false \/ is_none (attr x "specific_asset_ids") = false) /\
    (enum_is (attr x "entity_type") "SelfManagedEntity" = false -> is_none (attr x "global_asset_id") = true /\ is_none (attr x "specific_asset_ids") = true)).
  { unfold AASd_014. rewrite enum_is_spec, enum_is_false, !none_present, !none_absent. tauto. }
  eapply decides_iff; [symmetry; exact Q|]. clear Q.
  destruct (enum_is _ _); apply dec_ifn;
    destruct (is_none (attr x "global_asset_id")), (is_none (attr x "specific_asset_ids")); cbn; intuition congruence.
Qed.
Lemma no_path cls x : no_attr cls "id_short_path" = true -> Inst cls x -> id_short_path_of x = Raise AttributeError.
Proof. apply inst_no_attr. Qed.
Lemma opv_117_crashes x : Inst "OperationVariable" x -> Crashes AttributeError (opv_117 x) (ValueHasIdShort x).
Proof.
  intros H. fldk H "OperationVariable" "value" (AInst "Referable") G K. unfold opv_117, ValueHasIdShort. rewrite G. cbn [obind].
  destruct (id_short_of _ K) as [Gi _]. rewrite Gi. cbn [obind].
  rewrite (no_path "OperationVariable" x) by (first [exact H|vm_compute; reflexivity]). cbn [obind].
  destruct (is_none (attr (attr x "value") "id_short")) eqn:E.
  - right. split; [|reflexivity]. rewrite <- none_present. congruence.
  - left. split; [now apply none_present|reflexivity].
Qed.

(** *** AASd-134 *)
Definition value_of (v : pyval) : pyval := attr v "value".
Lemma op_list_spec l p : (forall x, In x l -> Inst "OperationVariable" x) -> forall seen,
  (Fresh (List.map value_of l) seen /\ exists seen', op_check_list l p seen = Val (None, seen') /\
     forall r, Fresh r seen' <-> Fresh (List.map value_of l ++ r) seen)
  \/ (~ Fresh (List.map value_of l) seen /\ (forall r, ~ Fresh (List.map value_of l ++ r) seen) /\ exists m s, op_check_list l p seen = Val (Some m, s)).
Proof.
  induction l as [|x l IH]; intros H seen; cbn [op_check_list List.map app].
  - left. split; [apply fresh_nil|]. exists seen. split; [reflexivity|tauto].
  - pose proof (H x (or_introl eq_refl)) as Hx. fldk Hx "OperationVariable" "value" (AInst "Referable") G K. rewrite G. cbn [obind].
    assert (H' : forall y, In y l -> Inst "OperationVariable" y) by (intros y I; apply H; now right).
    destruct (id_short_of _ K) as [Gi [[A Ki]|[P (c & s & Ki & T)]]]; rewrite Gi, Ki; cbn [obind is_none raw_value].
    + unfold value_of at 1 3 4 6. destruct (IH H' seen) as [[F (s' & E & Q)]|(F & Q & m & s & E)].
      * left. split; [now apply fresh_absent|]. exists s'. split; [exact E|]. intros r. rewrite Q. symmetry. now apply fresh_absent.
      * right. split; [now rewrite fresh_absent|]. split; [intros r; rewrite fresh_absent by exact A; apply Q|]. eauto.
    + change (attr x "value") with (value_of x) in *. rewrite <- T. destruct (str_in (text (value_of x) "id_short") seen) eqn:E.
      * apply str_in_spec in E. right. split; [rewrite fresh_present by exact P; tauto|].
        split; [intros r; rewrite fresh_present by exact P; tauto|]. eauto.
      * assert (N : ~ In (text (value_of x) "id_short") seen) by (rewrite <- str_in_spec; congruence).
        destruct (IH H' (text (value_of x) "id_short" :: seen)) as [[F (s' & E' & Q)]|(F & Q & m & s' & E')].
        -- left. split; [now apply fresh_present|]. exists s'. split; [exact E'|]. intros r. rewrite Q, fresh_present by exact P. tauto.
        -- right. split; [rewrite fresh_present by exact P; tauto|]. split; [intros r; rewrite fresh_present by exact P; intros [_ Z]; now apply (Q r)|]. eauto.
Qed.
Definition AVariables : akind := AOptK (AListK true (AInst "OperationVariable")).
Lemma op_lists_dec x p ns : (forall n, In n ns -> Holds AVariables (attr x n)) -> forall seen,
  Dec (op_check_lists (List.map (attr x) ns) p seen) (Fresh (List.map value_of (List.concat (List.map (items x) ns))) seen).
Proof.
  induction ns as [|n ns IH]; intros H seen; cbn [List.map List.concat op_check_lists]; [apply dec_fine, fresh_nil|].
  assert (H' : forall m, In m ns -> Holds AVariables (attr x m)) by (intros m I; apply H; now right).
  destruct (opt_list _ _ _ _ (H n (or_introl eq_refl))) as [(A & K & I)|(P & K & N & J)].
  - rewrite K, I. cbn [is_none app]. now apply IH.
  - rewrite K. cbn [is_none as_items obind]. rewrite map_app.
    destruct (op_list_spec (items x n) p J seen) as [[F (s' & E & Q)]|(F & Q & m & s' & E)]; rewrite E; cbn [obind].
    + eapply decides_iff; [apply Q|]. now apply IH.
    + apply dec_bad. apply Q.
Qed.
Lemma op_134_dec x : Inst "Operation" x -> Dec (op_134 x) (AASd_134 x).
Proof.
  intros H. fldk H "Operation" "input_variables" AVariables G1 K1. fldk H "Operation" "output_variables" AVariables G2 K2.
  fldk H "Operation" "inoutput_variables" AVariables G3 K3. unfold op_134. rewrite G1, G2, G3. cbn [obind].
  upto H "SubmodelElement". destruct (path_shown x H) as (p & Gp). rewrite Gp. cbn [obind].
  eapply decides_iff; [|apply (op_lists_dec x p ["input_variables"; "output_variables"; "inoutput_variables"])].
  - rewrite fresh_unique. cbn [List.map List.concat]. rewrite app_nil_r. reflexivity.
  - intros n [<-|[<-|[<-|[]]]]; assumption.
Qed.
