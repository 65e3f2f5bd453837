(** The check methods of model.py on instances: lists, shells, submodels, concept descriptions. *)
From Coq Require Import PeanoNat Lia String List NArith ZArith Bool.
From Verif Require Import PyStr PyStrFacts PyBase PyVal Regex DataTypesModel DataTypesSpec.
From Verif Require Import ResultModel ReflectModel MetaModel MetaFacts ParseModel ParseFacts ParseFacts2 TypeSpec TypeFacts TypeFacts2 ConstraintModel ConstraintSpec ConstraintFacts ConstraintFacts2 ConstraintFacts3 ConstraintFacts4.
Import ListNotations.
Local Open Scope list_scope.
Local Open Scope string_scope.
Local Open Scope list_scope.
Local Opaque model_types model_classes model_supers.

(** ** Equality of references *)
Definition ARefType : akind := AEnum "ReferenceType" any_value.
Lemma enum_eq_spec x y n c ok ok' : Holds (AEnum c ok) (attr x n) -> Holds (AEnum c ok') (attr y n) ->
  exists b, scalar_eq (attr x n) (attr y n) = Val b /\ (b = true <-> SameEnum x y n).
Proof.
  intros (m & v & E & _) (m' & v' & E' & _). unfold SameEnum. rewrite E, E'. cbn [scalar_eq]. eexists. split; [reflexivity|].
  rewrite (proj2 (str_eqb_spec (lit c) (lit c)) eq_refl). cbn [andb]. rewrite str_eqb_spec. split.
  - intros ->. eauto 10.
  - intros (c1 & m1 & m2 & w & A & B). congruence.
Qed.
Lemma key_eq_spec a b : Inst "Key" a -> Inst "Key" b -> exists t, key_eq a b = Val t /\ (t = true <-> SameKey a b).
Proof.
  intros Ha Hb. fldk Ha "Key" "type" AKeyType G1 K1. fldk Hb "Key" "type" AKeyType G2 K2. unfold key_eq, SameKey. rewrite G1, G2. cbn [obind].
  destruct (enum_eq_spec _ _ _ _ _ _ K1 K2) as (t & E & T). rewrite E. cbn [obind]. destruct t.
  - destruct (key_value_eq a Ha) as (c & s & Ga & Ta). destruct (key_value_eq b Hb) as (d & u & Gb & Tb). rewrite Ga, Gb. cbn [obind scalar_eq].
    eexists. split; [reflexivity|]. rewrite str_eqb_spec, Ta, Tb. tauto.
  - exists false. split; [reflexivity|]. split; [discriminate|]. intros [Q _]. now apply T in Q.
Qed.
Lemma keys_eq_spec la : forall lb, length la = length lb -> (forall x, In x la -> Inst "Key" x) -> (forall x, In x lb -> Inst "Key" x) ->
  exists t, keys_eq la lb = Val t /\ (t = true <-> Forall2 SameKey la lb).
Proof.
  induction la as [|x la IH]; intros [|y lb] L Ha Hb; try discriminate L; cbn [keys_eq].
  - exists true. split; [reflexivity|]. split; constructor.
  - destruct (key_eq_spec x y) as (t & E & T); [apply Ha; now left|apply Hb; now left|]. rewrite E. cbn [obind]. destruct t.
    + destruct (IH lb) as (t & E' & T'); [now injection L|intros z I; apply Ha; now right|intros z I; apply Hb; now right|].
      exists t. split; [exact E'|]. rewrite T'. split; [intros F; constructor; [now apply T|exact F]|]. intros F. now inversion F.
    + exists false. split; [reflexivity|]. split; [discriminate|]. intros F. inversion F; subst. now apply T.
Qed.
Lemma same_length {X Y} (R : X -> Y -> Prop) l l' : Forall2 R l l' -> length l = length l'.
Proof. induction 1; cbn; congruence. Qed.
Lemma ref_eq_spec a b : Inst "Reference" a -> Inst "Reference" b -> exists t, ref_eq a b = Val t /\ (t = true <-> SameReference a b).
Proof.
  intros Ha Hb. fldk Ha "Reference" "type" ARefType G1 K1. fldk Hb "Reference" "type" ARefType G2 K2. unfold ref_eq, SameReference. rewrite G1, G2. cbn [obind].
  destruct (enum_eq_spec _ _ _ _ _ _ K1 K2) as (t & E & T). rewrite E. cbn [obind]. destruct t; cbn [negb].
  - destruct (ref_keys a Ha) as (k & l & Ga & Ia & Aa). destruct (ref_keys b Hb) as (k' & l' & Gb & Ib & Ab). rewrite Ga, Gb, Ia, Ib. cbn [obind as_items].
    destruct (Nat.eqb_spec (length (k :: l)) (length (k' :: l'))) as [L|L]; cbn [negb].
    + destruct (keys_eq_spec (k :: l) (k' :: l') L Aa Ab) as (t & E' & T'). exists t. split; [exact E'|]. rewrite T'. tauto.
    + exists false. split; [reflexivity|]. split; [discriminate|]. intros [_ F]. apply same_length in F. congruence.
  - exists false. split; [reflexivity|]. split; [discriminate|]. intros [Q _]. now apply T in Q.
Qed.
Lemma omap_val {X Y} (f : X -> outcome Y) l : (forall x, In x l -> exists y, f x = Val y) -> exists ys, omap f l = Val ys.
Proof.
  induction l as [|x l IH]; intros H; cbn [omap]; [eauto|]. destruct (H x (or_introl eq_refl)) as (y & E). rewrite E. cbn [obind].
  destruct IH as (ys & E'); [intros z I; apply H; now right|]. rewrite E'. cbn [obind]. eauto.
Qed.
Lemma ref_text_val r : Inst "Reference" r -> exists s, ref_text r = Val s.
Proof.
  intros H. fldk H "Reference" "type" ARefType G K. destruct (ref_keys r H) as (k & l & Gk & Ik & A). unfold ref_text. rewrite G, Gk. cbn [obind as_items].
  destruct (omap_val key_text (k :: l)) as (ys & E).
  { intros x I. destruct (key_value_eq x (A x I)) as (c & s & Gv & _). unfold key_text. rewrite Gv. cbn. eauto. }
  rewrite E. cbn [obind]. eauto.
Qed.
Lemma same_enum_sym x y n : SameEnum x y n -> SameEnum y x n.
Proof. intros (c & m & m' & v & A & B). exists c, m', m, v. auto. Qed.
Lemma same_enum_trans x y z n : SameEnum x y n -> SameEnum y z n -> SameEnum x z n.
Proof. intros (c & m & m' & v & A & B) (c2 & m2 & m3 & v2 & A2 & B2). exists c, m, m3, v. split; [exact A|]. rewrite B2. congruence. Qed.
Lemma same_ref_sym a b : SameReference a b -> SameReference b a.
Proof.
  intros [E F]. split; [now apply same_enum_sym|]. revert F. generalize (items a "keys") (items b "keys"). induction 1 as [|x y l l' [Q T] F IH]; constructor; auto.
  split; [now apply same_enum_sym|now symmetry].
Qed.
Lemma same_ref_trans a b c : SameReference a b -> SameReference b c -> SameReference a c.
Proof.
  intros [E F] [E' F']. split; [now apply (same_enum_trans a b)|]. revert F F'. generalize (items a "keys") (items b "keys") (items c "keys").
  intros la lb lc F. revert lc. induction F as [|x y l l' [Q T] F IH]; intros lc F'; inversion F' as [|? z ? l2 [Q' T'] F2]; subst; constructor; auto.
  split; [now apply (same_enum_trans x y)|congruence].
Qed.
Lemma same_ref_refl a : Inst "Reference" a -> SameReference a a.
Proof.
  intros H. fldk H "Reference" "type" ARefType G K. destruct (ref_keys a H) as (k & l & Gk & Ik & A). split.
  - destruct K as (m & v & E & _). unfold SameEnum. rewrite E. eauto 10.
  - rewrite Ik. clear Gk Ik. induction (k :: l) as [|x r IH]; constructor.
    + pose proof (A x (or_introl eq_refl)) as Hx. fldk Hx "Key" "type" AKeyType Gx Kx. split; [|reflexivity].
      destruct Kx as (m & v & E & _). unfold SameEnum. rewrite E. eauto 10.
    + apply IH. intros y I. apply A. now right.
Qed.

(** ** Lists *)

Definition AListItems : akind := AOptK (AListK true (AInst "SubmodelElement")).
Lemma list_path x : Inst "SubmodelElementList" x -> exists p, id_short_path_of x = Val p.
Proof. intros H. upto H "SubmodelElement". now apply path_shown. Qed.
Lemma list_type_dec x : Inst "SubmodelElementList" x -> Dec (list_type x) (ListsSubmodelElements x).
Proof.
  intros H. fldk H "SubmodelElementList" "type_value_list_element" AKeyType G K. unfold list_type, ListsSubmodelElements. rewrite G. cbn [obind].
  destruct (list_path x H) as (p & E). rewrite E. cbn [obind]. apply dec_if. apply enum_in_spec.
Qed.
Lemma sem_id y : Inst "SubmodelElement" y -> getattr y (lit "semantic_id") = Val (attr y "semantic_id") /\
  ((Absent y "semantic_id" /\ attr y "semantic_id" = VNone) \/ (Present y "semantic_id" /\ Inst "Reference" (attr y "semantic_id"))).
Proof. intros H. fldk H "SubmodelElement" "semantic_id" (AOptK (AInst "Reference")) G K. split; [exact G|now apply opt_inst]. Qed.
Lemma list_107_dec x : Inst "SubmodelElementList" x -> Dec (list_107 x) (AASd_107 x).
Proof.
  intros H. fldk H "SubmodelElementList" "value" AListItems G1 K1. fldk H "SubmodelElementList" "semantic_id_list_element" (AOptK (AInst "Reference")) G2 K2.
  unfold list_107, AASd_107. rewrite G1, G2. cbn [obind]. destruct (list_path x H) as (p & E). rewrite E. cbn [obind].
  apply opt_inst in K2 as [[A2 K2]|[P2 K2]].
  { rewrite K2. cbn [truthy negb]. rewrite orb_true_r. apply dec_fine. intros P. now elim P. }
  rewrite (truthy_inst _ _ K2). cbn [negb]. rewrite orb_false_r.
  apply opt_list in K1 as [(A & K & I)|(P & K & N & J)]; rewrite K.
  - rewrite I. apply dec_fine. intros _ y [].
  - rewrite nonempty_truthy by (now apply N). cbn [negb as_items obind].
    eapply decides_iff; [|apply (dec_each ERROR _ (fun y => Present y "semantic_id" -> SameReference (attr y "semantic_id") (attr x "semantic_id_list_element")))].
    + split; [intros X _ y Iy; now apply X|]. intros X y Iy. now apply X.
    + intros i y Ey. destruct (sem_id y) as [G [[A Ki]|[Py Ki]]]; [apply J; eapply nth_error_In; eauto| |]; rewrite G; cbn [obind].
      * rewrite Ki. apply dec_fine. intros Py. now elim Py.
      * rewrite (not_none_inst _ _ Ki). destruct (ref_eq_spec _ _ Ki K2) as (t & Et & T). rewrite Et. cbn [obind].
        destruct (ref_text_val _ Ki) as (s1 & S1). destruct (ref_text_val _ K2) as (s2 & S2). rewrite S1, S2. cbn [obind].
        apply dec_if. rewrite T. tauto.
Qed.
(** the semantic ids of the elements are the same *)
Definition SameAs (r : pyval) (l : list pyval) : Prop := forall y, In y l -> Present y "semantic_id" -> SameReference (attr y "semantic_id") r.
Lemma semantic_ids_dec p l : (forall y, In y l -> Inst "SubmodelElement" y) -> forall i r, Inst "Reference" r ->
  Dec (same_semantic_ids i l (Some r) p) (SameAs r l).
Proof.
  induction l as [|y l IH]; intros J i r Hr; cbn [same_semantic_ids]; [apply dec_fine; intros y []|].
  assert (J' : forall z, In z l -> Inst "SubmodelElement" z) by (intros z I; apply J; now right).
  destruct (sem_id y (J y (or_introl eq_refl))) as [G [[A Ki]|[Py Ki]]]; rewrite G; cbn [obind].
  - rewrite Ki. cbn [truthy negb]. eapply decides_iff; [|apply (IH J'); exact Hr]. unfold SameAs. split.
    + intros X z [<-|I] P; [now elim P|now apply X].
    + intros X z I. apply X. now right.
  - rewrite (truthy_inst _ _ Ki). cbn [negb]. destruct (ref_eq_spec _ _ Ki Hr) as (t & Et & T). rewrite Et. cbn [obind].
    destruct (ref_text_val _ Hr) as (s & S). rewrite S. cbn [obind]. destruct t.
    + eapply decides_iff; [|apply (IH J'); exact Hr]. unfold SameAs. split.
      * intros X z [<-|I] P; [now apply T|now apply X].
      * intros X z I. apply X. now right.
    + apply dec_bad. intros X. assert (false = true) by (apply T; apply X; [now left|exact Py]). discriminate.
Qed.
Definition AllSame (l : list pyval) : Prop := forall x y, In x l -> In y l -> Present x "semantic_id" -> Present y "semantic_id" ->
  SameReference (attr x "semantic_id") (attr y "semantic_id").
Lemma all_same_dec p l : (forall y, In y l -> Inst "SubmodelElement" y) -> forall i, Dec (same_semantic_ids i l None p) (AllSame l).
Proof.
  induction l as [|y l IH]; intros J i; cbn [same_semantic_ids]; [apply dec_fine; intros x y []|].
  assert (J' : forall z, In z l -> Inst "SubmodelElement" z) by (intros z I; apply J; now right).
  destruct (sem_id y (J y (or_introl eq_refl))) as [G [[A Ki]|[Py Ki]]]; rewrite G; cbn [obind].
  - rewrite Ki. cbn [truthy negb]. eapply decides_iff; [|apply (IH J')]. unfold AllSame. split.
    + intros X a b [<-|Ia] [<-|Ib] Pa Pb; try (now elim Pa); try (now elim Pb). now apply X.
    + intros X a b Ia Ib. apply X; now right.
  - rewrite (truthy_inst _ _ Ki). cbn [negb]. eapply decides_iff; [|apply (semantic_ids_dec p l J'); exact Ki]. unfold SameAs, AllSame. split.
    + intros X. assert (Y : forall a, In a (y :: l) -> Present a "semantic_id" -> SameReference (attr a "semantic_id") (attr y "semantic_id")).
      { intros a [<-|Ia] Pa; [now apply same_ref_refl|now apply X]. }
      intros a b Ia Ib Pa Pb. apply (same_ref_trans _ (attr y "semantic_id")); [now apply Y|]. apply same_ref_sym. now apply Y.
    + intros X a Ia Pa. apply X; [now right|now left|exact Pa|exact Py].
Qed.
Lemma list_114_dec x : Inst "SubmodelElementList" x -> Dec (list_114 x) (AASd_114 x).
Proof.
  intros H. fldk H "SubmodelElementList" "value" AListItems G1 K1. unfold list_114, AASd_114. rewrite G1. cbn [obind].
  destruct (list_path x H) as (p & E). rewrite E. cbn [obind].
  apply opt_list in K1 as [(A & K & I)|(P & K & N & J)]; rewrite K.
  - rewrite I. apply dec_fine. intros a b [].
  - rewrite nonempty_truthy by (now apply N). cbn [negb as_items obind]. now apply all_same_dec.
Qed.
Lemma list_108_dec x : Inst "SubmodelElementList" x -> Dec (list_108 x) (AASd_108 SameClass x).
Proof.
  intros H. fldk H "SubmodelElementList" "value" AListItems G1 K1. fldk H "SubmodelElementList" "type_value_list_element" AKeyType G2 K2. unfold list_108, AASd_108, SameClass. rewrite G1, G2. cbn [obind].
  destruct (list_path x H) as (p & E). rewrite E. cbn [obind]. destruct K2 as (m & v & K2 & _). rewrite K2. cbn [truthy negb].
  apply opt_list in K1 as [(A & K & I)|(P & K & N & J)]; rewrite K.
  - rewrite I. apply dec_fine. intros y c m' t [].
  - rewrite nonempty_truthy by (now apply N). cbn [negb as_items obind].
    eapply decides_iff; [|apply (dec_each ERROR _ (fun y => class_of_obj y = v))].
    + split; [intros X y c m' t Iy [= _ _ <-]; now apply X|]. intros X y Iy. now apply (X y (lit "KeyType") m v).
    + intros i y Ey. apply dec_if. unfold class_name, class_of_obj. apply str_eqb_spec.
Qed.
(** properties and ranges have no subclasses *)
Definition leaf1 (cls : string) (e : str * pfields) : bool := Bool.eqb (str_in (lit cls) (supers (fst e))) (str_eqb (fst e) (lit cls)).
Definition leaf (cls : string) : bool := forallb (leaf1 cls) model_types.
Lemma leaf_is cls x : leaf cls = true -> Inst "SubmodelElement" x -> is_a model_classes (class_name x) (lit cls) = true <-> class_of_obj x = lit cls.
Proof.
  intros L (c & kvs & -> & A & T). apply typed_field in T as (fs & I & _). apply (proj1 (forallb_forall _ _) L) in I as Q.
  apply eqb_prop in Q. cbn [fst] in Q. cbn [class_name class_of_obj]. unfold is_a. rewrite (supers_eq _ _ I). rewrite Q. apply str_eqb_spec.
Qed.
Lemma inst_leaf cls d x : is_a model_classes (class_name x) (lit cls) = true -> Inst d x -> Inst cls x.
Proof. intros E (c & kvs & -> & A & T). exists c, kvs. auto. Qed.
Lemma list_109_dec x : Inst "SubmodelElementList" x -> Dec (list_109 x) (AASd_109_items x).
Proof.
  intros H. fldk H "SubmodelElementList" "value" AListItems G1 K1. fldk H "SubmodelElementList" "value_type_list_element" (AOptK AXsd) G2 K2. unfold list_109, AASd_109_items. rewrite G1, G2. cbn [obind].
  destruct (list_path x H) as (p & E). rewrite E. cbn [obind].
  apply opt_list in K1 as [(A & K & I)|(P & K & N & J)]; rewrite K.
  - rewrite I. apply dec_fine. intros y [].
  - rewrite nonempty_truthy by (now apply N). cbn [negb as_items obind]. apply dec_each. intros i y Ey.
    assert (Iy : Inst "SubmodelElement" y) by (apply J; eapply nth_error_In; eauto).
    pose proof (leaf_is "Property" y ltac:(vm_compute; reflexivity) Iy) as L1. pose proof (leaf_is "Range" y ltac:(vm_compute; reflexivity) Iy) as L2.
    cbn [List.map In].
    destruct (is_a model_classes (class_name y) (lit "Property")) eqn:E1; [|destruct (is_a model_classes (class_name y) (lit "Range")) eqn:E2]; cbn [orb].
    3: { apply dec_fine. intros [Z|[Z|[]]]; exfalso; [symmetry in Z; apply L1 in Z|symmetry in Z; apply L2 in Z]; discriminate. }
    + assert (Hp : Inst "Property" y) by (now apply (inst_leaf _ "SubmodelElement")). fldk Hp "Property" "value_type" AXsd G K3.
      assert (Z : lit "Property" = class_of_obj y) by (symmetry; now apply L1).
      destruct K2 as [K2|K2].
      * rewrite K2. cbn [is_none]. apply dec_bad. intros X. destruct (X (or_introl Z)) as (c & m & m' & v & _ & B). discriminate.
      * destruct (enum_eq_spec y y "value_type" _ _ _ K3 K3) as (_ & _ & _). destruct K2 as (m & v & K2 & _), K3 as (m3 & v3 & K3 & _). rewrite K2. cbn [is_none].
        rewrite G, K3. cbn [obind scalar_eq]. rewrite (proj2 (str_eqb_spec (lit "DataTypeDefXsd") _) eq_refl). cbn [andb obind]. apply dec_if. rewrite str_eqb_spec. split.
        -- intros -> _. eauto 10.
        -- intros X. destruct (X (or_introl Z)) as (c & a & b & w & Q1 & Q2). congruence.
    + assert (Hp : Inst "Range" y) by (now apply (inst_leaf _ "SubmodelElement")). fldk Hp "Range" "value_type" AXsd G K3.
      assert (Z : lit "Range" = class_of_obj y) by (symmetry; now apply L2).
      destruct K2 as [K2|K2].
      * rewrite K2. cbn [is_none]. apply dec_bad. intros X. destruct (X (or_intror (or_introl Z))) as (c & m & m' & v & _ & B). discriminate.
      * destruct K2 as (m & v & K2 & _), K3 as (m3 & v3 & K3 & _). rewrite K2. cbn [is_none].
        rewrite G, K3. cbn [obind scalar_eq]. rewrite (proj2 (str_eqb_spec (lit "DataTypeDefXsd") _) eq_refl). cbn [andb obind]. apply dec_if. rewrite str_eqb_spec. split.
        -- intros -> _. eauto 10.
        -- intros X. destruct (X (or_intror (or_introl Z))) as (c & a & b & w & Q1 & Q2). congruence.
Qed.
Lemma list_120_dec x : Inst "SubmodelElementList" x -> Dec (list_120 x) (AASd_120 x).
Proof.
  intros H. fldk H "SubmodelElementList" "value" AListItems G1 K1. unfold list_120, AASd_120, NoneHasIdShort. rewrite G1. cbn [obind].
  destruct (list_path x H) as (p & E). rewrite E. cbn [obind].
  apply opt_list in K1 as [(A & K & I)|(P & K & N & J)]; rewrite K.
  - rewrite I. apply dec_fine. intros y [].
  - rewrite nonempty_truthy by (now apply N). cbn [negb as_items obind]. apply dec_each. intros i y Ey.
    assert (Iy : Inst "SubmodelElement" y) by (apply J; eapply nth_error_In; eauto). upto Iy "Referable".
    destruct (id_short_of y Iy) as [G _]. rewrite G. cbn [obind]. apply dec_if. apply none_absent.
Qed.

(** ** Shells and submodels *)
Lemma derived_from_crashes x : Inst "AssetAdministrationShell" x -> Crashes AttributeError (aas_derived_from x) (IsModelReference x "derived_from").
Proof.
  intros H. fldk H "AssetAdministrationShell" "derived_from" (AOptK (AInst "Reference")) G K. unfold aas_derived_from, IsModelReference. rewrite G. cbn [obind].
  rewrite (no_path "AssetAdministrationShell" x) by (first [exact H|vm_compute; reflexivity]). cbn [obind].
  apply opt_inst in K as [[A K]|[P K]].
  - rewrite K. left. split; [intros P; now elim P|reflexivity].
  - rewrite (truthy_inst _ _ K). cbn [negb]. rewrite (ref_type _ _ K). cbn [obind]. destruct (enum_is (attr (attr x "derived_from") "type") "ModelReference") eqn:E.
    + apply enum_is_spec in E. left. split; [intros _; exact E|reflexivity].
    + apply enum_is_false in E. right. split; [|reflexivity]. intros X. now apply E, X.
Qed.
Lemma crash_each e (f : nat -> pyval -> verdict) (S : pyval -> Prop) xs : forall i0,
  (forall i x, In x xs -> Crashes e (f i x) (S x)) -> Crashes e (for_each f i0 xs) (forall x, In x xs -> S x).
Proof.
  induction xs as [|x xs IH]; intros i0 H; cbn [for_each]; [left; split; [intros x []|reflexivity]|].
  destruct (H i0 x (or_introl eq_refl)) as [[S0 E0]|[S0 E0]]; rewrite E0; unfold fine; cbn [and_then obind].
  - destruct (IH (Datatypes.S i0)) as [[S1 E1]|[S1 E1]]; [intros i y I; apply H; now right| |]; rewrite E1.
    + left. split; [|reflexivity]. intros y [<-|I]; auto.
    + right. split; [|reflexivity]. intros X. apply S1. intros y I. apply X. now right.
  - right. split; [|reflexivity]. intros X. apply S0. apply X. now left.
Qed.
Lemma submodels_crashes x : Inst "AssetAdministrationShell" x -> Crashes AttributeError (aas_submodels x) (SubmodelReferences x).
Proof.
  intros H. fldk H "AssetAdministrationShell" "submodels" (AOptK (AListK true (AInst "Reference"))) G K. unfold aas_submodels, SubmodelReferences. rewrite G. cbn [obind].
  apply opt_list in K as [(A & K & I)|(P & K & N & J)]; rewrite K.
  - rewrite I. left. split; [intros r []|reflexivity].
  - rewrite nonempty_truthy by (now apply N). cbn [negb as_items obind]. apply crash_each. intros i y Iy.
    rewrite (no_path "AssetAdministrationShell" x) by (first [exact H|vm_compute; reflexivity]). rewrite (ref_type _ _ (J y Iy)). cbn [obind].
    destruct (enum_is (attr y "type") "ModelReference") eqn:E.
    + apply enum_is_spec in E. left. split; [exact E|reflexivity].
    + apply enum_is_false in E. right. split; [exact E|reflexivity].
Qed.
Definition AQualifiers : akind := AOptK (AListK true (AInst "Qualifier")).
Lemma template_qualifier_spec x : Holds AQualifiers (attr x "qualifiers") ->
  (is_none (attr x "qualifiers") = true /\ ~ HasTemplateQualifier x) \/
  (is_none (attr x "qualifiers") = false /\ exists l b, attr x "qualifiers" = VList l /\ has_template_qualifier l = Val b /\ (b = true <-> HasTemplateQualifier x)).
Proof.
  unfold HasTemplateQualifier. intros K. apply opt_list in K as [(A & K & I)|(P & K & N & J)].
  - left. rewrite K, I. split; [reflexivity|]. intros (q & [] & _).
  - right. rewrite K. split; [reflexivity|]. exists (items x "qualifiers").
    destruct (py_any_spec (fun q => let* k := getattr q (lit "kind") in Val (enum_is k "TemplateQualifier")) (fun q => Is q "kind" "TemplateQualifier") (items x "qualifiers")) as (b & E & B).
    { intros q Iq. pose proof (J q Iq) as Hq. cbn [Holds] in Hq. fldk Hq "Qualifier" "kind" (AOptK (AEnum "QualifierKind" any_value)) G K2. rewrite G. cbn [obind].
      eexists. split; [reflexivity|]. apply enum_is_spec. }
    exists b. split; [reflexivity|]. split; [exact E|exact B].
Qed.
Lemma sm_119_dec x : Inst "Submodel" x -> Dec (sm_119 x) (AASd_119 x).
Proof.
  intros H. fldk H "Submodel" "qualifiers" AQualifiers G K. fldk H "Submodel" "kind" (AOptK (AEnum "ModellingKind" any_value)) G2 K2.
  unfold sm_119, AASd_119. rewrite G, G2. cbn [obind].
  destruct (template_qualifier_spec x K) as [[E Q]|[E (l & b & El & Eb & B)]]; rewrite E; [apply dec_fine; tauto|].
  rewrite El. cbn [as_items obind]. rewrite Eb. cbn [obind]. destruct b; cbn [negb].
  - apply dec_if. rewrite enum_is_spec. tauto.
  - apply dec_fine. intros Z. apply B in Z. discriminate.
Qed.
Lemma sm_129_dec x : Inst "Submodel" x -> Dec (sm_129 x) (AASd_129_top x).
Proof.
  intros H. fldk H "Submodel" "submodel_elements" AListItems G K. fldk H "Submodel" "kind" (AOptK (AEnum "ModellingKind" any_value)) G2 K2.
  unfold sm_129, AASd_129_top, AASd_129. rewrite G. cbn [obind].
  apply opt_list in K as [(A & K & I)|(P & K & N & J)]; rewrite K.
  - rewrite I. apply dec_fine. intros r [].
  - cbn [is_none as_items obind]. rewrite G2. cbn [obind]. apply dec_each. intros i y Ey.
    assert (Iy : Inst "SubmodelElement" y) by (apply J; eapply nth_error_In; eauto). fldk Iy "SubmodelElement" "qualifiers" AQualifiers Gq Kq.
    rewrite Gq. cbn [obind]. destruct (template_qualifier_spec y Kq) as [[E Q]|[E (l & b & El & Eb & B)]]; rewrite E; [apply dec_fine; tauto|].
    rewrite El. cbn [as_items obind]. rewrite Eb. cbn [obind]. destruct b; cbn [negb].
    + apply dec_if. rewrite enum_is_spec. tauto.
    + apply dec_fine. intros Z. apply B in Z. discriminate.
Qed.

(** ** Concept descriptions *)

Definition AContents : akind := AOptK (AListK true (AInst "EmbeddedDataSpecification")).
Definition IecItem (e : pyval) (d : pyval) : Prop := d = attr e "data_specification_content" /\ class_of_obj d = lit "DataSpecificationIec61360".
Lemma iec_leaf : leaf "DataSpecificationIec61360" = true. Proof. vm_compute. reflexivity. Qed.
(** every embedded data specification has content for IEC 61360 *)
Lemma iec_content_eq e : Inst "EmbeddedDataSpecification" e ->
  iec_content e = Val (Some (attr e "data_specification_content")) /\ Inst "DataSpecificationIec61360" (attr e "data_specification_content") /\
  IecItem e (attr e "data_specification_content").
Proof.
  intros H. fldk H "EmbeddedDataSpecification" "data_specification_content" (AInst "DataSpecificationIec61360") G K. cbn [Holds] in K.
  unfold iec_content. rewrite G. cbn [obind]. split; [|split; [exact K|]].
  - destruct K as (c & kvs & E & A & T). rewrite E. cbn [class_name]. now rewrite A.
  - split; [reflexivity|]. destruct K as (c & kvs & E & A & T). rewrite E. cbn [class_of_obj]. rewrite E in T. apply typed_field in T as (fs & I & _).
    apply (proj1 (forallb_forall _ _) iec_leaf) in I as Q. apply eqb_prop in Q. cbn [fst] in Q. unfold is_a in A. rewrite (supers_eq _ _ I) in A.
    rewrite A in Q. symmetry in Q. now apply str_eqb_spec in Q.
Qed.
Lemma content_items c (Q : pyval -> Prop) : (forall e, In e (items c "embedded_data_specifications") -> Inst "EmbeddedDataSpecification" e) ->
  (forall d, IecContent c d -> Q d) <-> (forall e, In e (items c "embedded_data_specifications") -> Q (attr e "data_specification_content")).
Proof.
  intros H. split.
  - intros X e I. apply X. destruct (iec_content_eq e (H e I)) as (_ & _ & _ & B). exists e. auto.
  - intros X d (e & I & -> & B). now apply X.
Qed.
Lemma category_spec c names : Holds (AOptK AText) (attr c "category") ->
  (is_none (attr c "category") = true /\ ~ Category c names) \/
  (is_none (attr c "category") = false /\ exists s, raw_value (attr c "category") = Val s /\ (str_in s (List.map lit names) = true <-> Category c names)).
Proof.
  intros K. unfold Category. apply opt_text in K as [[A K]|[P (a & s & K & T)]]; rewrite K.
  - left. split; [reflexivity|]. intros [P _]. now elim P.
  - right. split; [reflexivity|]. exists s. split; [reflexivity|]. rewrite str_in_spec, T. tauto.
Qed.
Lemma iec_check_dec cats types name x : Inst "ConceptDescription" x -> Dec (check_iec_61360 cats types name x) (NoContent cats x).
Proof.
  intros H. fldk H "ConceptDescription" "category" (AOptK AText) G K. fldk H "ConceptDescription" "embedded_data_specifications" AContents G2 K2. unfold check_iec_61360, NoContent. rewrite G, G2. cbn [obind].
  destruct (category_spec x cats K) as [[E Q]|[E (s & Es & Q)]]; rewrite E; [apply dec_fine; tauto|]. rewrite Es. cbn [obind].
  destruct (str_in s (List.map lit cats)); cbn [negb].
  2: { apply dec_fine. intros Z. apply Q in Z. discriminate. }
  assert (C : Category x cats) by (now apply Q).
  apply opt_list in K2 as [(A & K2 & I)|(P & K2 & N & J)]; rewrite K2; cbn [is_none].
  - apply dec_fine. intros _ d (e & Ie & _). now rewrite I in Ie.
  - cbn [as_items obind]. eapply decides_iff; [|apply (dec_each ERROR _ (fun _ => False))].
    + rewrite <- (content_items x (fun _ => False) J). tauto.
    + intros i e Ee. destruct (iec_content_eq e) as (Ec & Hc & _); [apply J; eapply nth_error_In; eauto|]. rewrite Ec. cbn [obind].
      fldk Hc "DataSpecificationIec61360" "data_type" (AOptK (AEnum "DataTypeIec61360" any_value)) G3 K3. rewrite G3. cbn [obind].
      assert (Z : in_str_set (attr (attr e "data_specification_content") "data_type") types = false).
      { destruct K3 as [K3|(m & v & K3 & _)]; rewrite K3; reflexivity. }
      rewrite Z. apply dec_bad. tauto.
Qed.
Lemma cd_004_dec x : Inst "ConceptDescription" x -> Dec (cd_004 x) (NoContent ["PROPERTY"; "VALUE"] x). Proof. apply iec_check_dec. Qed.
Lemma cd_005_dec x : Inst "ConceptDescription" x -> Dec (cd_005 x) (NoContent ["REFERENCE"] x). Proof. apply iec_check_dec. Qed.
Lemma cd_006_dec x : Inst "ConceptDescription" x -> Dec (cd_006 x) (NoContent ["DOCUMENT"] x). Proof. apply iec_check_dec. Qed.
Lemma cd_007_dec x : Inst "ConceptDescription" x -> Dec (cd_007 x) (AASc_007 x).
Proof.
  intros H. fldk H "ConceptDescription" "category" (AOptK AText) G K. fldk H "ConceptDescription" "embedded_data_specifications" AContents G2 K2. unfold cd_007, AASc_007. rewrite G, G2. cbn [obind].
  destruct (category_spec x ["QUALIFIER_TYPE"] K) as [[E Q]|[E (s & Es & Q)]]; rewrite E; [apply dec_fine; tauto|]. rewrite Es. cbn [obind].
  cbn [List.map str_in existsb] in Q. rewrite orb_false_r in Q.
  destruct (str_eqb s (lit "QUALIFIER_TYPE")); cbn [negb].
  2: { apply dec_fine. intros Z. apply Q in Z. discriminate. }
  assert (C : Category x ["QUALIFIER_TYPE"]) by (now apply Q).
  apply opt_list in K2 as [(A & K2 & I)|(P & K2 & N & J)]; rewrite K2; cbn [is_none].
  - apply dec_fine. intros _ d (e & Ie & _). now rewrite I in Ie.
  - cbn [as_items obind]. eapply decides_iff; [|apply (dec_each ERROR _ (fun e => Present (attr e "data_specification_content") "data_type"))].
    + rewrite <- (content_items x (fun d => Present d "data_type") J). tauto.
    + intros i e Ee. destruct (iec_content_eq e) as (Ec & Hc & _); [apply J; eapply nth_error_In; eauto|]. rewrite Ec. cbn [obind].
      fldk Hc "DataSpecificationIec61360" "data_type" (AOptK (AEnum "DataTypeIec61360" any_value)) G3 K3. rewrite G3. cbn [obind].
      apply dec_ifn. apply none_present.
Qed.
Lemma cd_008_dec x : Inst "ConceptDescription" x -> Dec (cd_008 x) (AASc_008 EnTagged x).
Proof.
  intros H. fldk H "ConceptDescription" "embedded_data_specifications" AContents G2 K2. unfold cd_008, AASc_008. rewrite G2. cbn [obind].
  apply opt_list in K2 as [(A & K2 & I)|(P & K2 & N & J)]; rewrite K2; cbn [is_none].
  - apply dec_fine. intros d (e & Ie & _). now rewrite I in Ie.
  - cbn [as_items obind]. eapply decides_iff; [symmetry; apply (content_items x (fun d => Absent d "value" -> HasEnglish EnTagged (items d "definition")) J)|].
    apply dec_each. intros i e Ee. destruct (iec_content_eq e) as (Ec & Hc & _); [apply J; eapply nth_error_In; eauto|]. rewrite Ec. cbn [obind].
    set (d := attr e "data_specification_content") in *.
    fldk Hc "DataSpecificationIec61360" "value" (AOptK AText) G3 K3. fldk Hc "DataSpecificationIec61360" "definition" (AOptK (AListK true (AInst "LangStringSet"))) G4 K4.
    rewrite G3, G4. cbn [obind]. destruct (is_none (attr d "value")) eqn:V; cbn [negb].
    + apply none_absent in V. apply opt_list in K4 as [(A & K4 & I)|(P4 & K4 & N4 & J4)]; rewrite K4; cbn [is_none].
      * apply dec_bad. rewrite I. intros X. destruct (X V) as (z & [] & _).
      * cbn [as_items obind]. destruct (any_english (items d "definition") J4) as (b & Eb & B). rewrite Eb. cbn [obind]. apply dec_if. rewrite B. tauto.
    + apply none_present in V. apply dec_fine. intros Z. now elim V.
Qed.
