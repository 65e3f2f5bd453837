(** All constraints on all objects. *)
From Coq Require Import PeanoNat Lia String List NArith ZArith Bool.
From Verif Require Import PyStr PyStrFacts PyBase PyVal DataTypesModel DataTypesSpec.
From Verif Require Import ResultModel ReflectModel MetaModel MetaFacts AdapterModel ParseModel ParseFacts ParseFacts2 TypeSpec TypeFacts TypeFacts2 ConstraintModel ConstraintSpec ConstraintFacts ConstraintFacts2 ConstraintFacts3 ConstraintFacts4 ConstraintFacts5.
Import ListNotations.
Local Open Scope list_scope.

(** ** The methods of a class *)
Definition flat_methods : list (string * string * method) :=
  List.concat (List.map (fun p => List.map (fun q => (fst p, fst q, snd q)) (snd p)) own_methods).
Definition Implements (f : string * string * method) (k : constraint) : Prop :=
  fst (fst f) = k_class k /\ forall x, Inst (k_class k) x -> Answers (k_level k) (k_exn k) (k_holds k x) (k_raises k x) (snd f x).
Lemma impl_error c n m S : (forall x, Inst c x -> Dec (m x) (S x)) -> forall l, Implements (c, n, m) (error c l S).
Proof. intros H l. split; [reflexivity|]. intros x I. apply dec_answers. now apply H. Qed.
Lemma impl_warning c n m S : (forall x, Inst c x -> Decides WARNING (m x) (S x)) -> forall l, Implements (c, n, m) (Constraint c l WARNING S AttributeError never).
Proof. intros H l. split; [reflexivity|]. intros x I. apply dec_answers. now apply H. Qed.
Lemma impl_crash c n m S : (forall x, Inst c x -> Crashes AttributeError (m x) (S x)) -> forall l, Implements (c, n, m) (crashing c l S).
Proof. intros H l. split; [reflexivity|]. intros x I. apply crash_answers. now apply H. Qed.
Lemma impl_value c n m a : (forall x, Inst c x -> ValueAnswers a x (m x)) -> Implements (c, n, m) (typed_value c a).
Proof. intros H. split; [reflexivity|]. intros x I. now apply H. Qed.
Lemma impl_nothing c n l : Implements (c, n, nothing) (error c l always).
Proof. apply impl_error. intros x _. apply dec_fine. exact I. Qed.
Lemma all_implemented : Forall2 Implements flat_methods constraints.
Proof.
  unfold flat_methods, own_methods, constraints. cbn [List.map List.concat app fst snd].
  constructor; [exact (impl_error _ _ _ _ lang_language_dec _)|].
  constructor; [exact (impl_error _ _ _ _ lang_text_dec _)|].
  constructor; [exact (impl_error _ _ _ _ ref_121_dec _)|].
  constructor; [exact (impl_error _ _ _ _ ref_122_dec _)|].
  constructor; [exact (impl_error _ _ _ _ ref_123_dec _)|].
  constructor; [exact (impl_error _ _ _ _ ref_124_dec _)|].
  constructor; [exact (impl_error _ _ _ _ ref_125_dec _)|].
  constructor; [exact (impl_error _ _ _ _ ref_126_dec _)|].
  constructor; [exact (impl_error _ _ _ _ ref_127_dec _)|].
  constructor; [exact (impl_error _ _ _ _ ref_128_dec _)|].
  constructor; [exact (impl_warning _ _ _ _ eds_dec _)|].
  constructor; [exact (impl_error _ _ _ _ iec_002_dec _)|].
  constructor; [exact (impl_error _ _ _ _ iec_009_dec _)|].
  constructor; [exact (impl_error _ _ _ _ iec_010_dec _)|].
  constructor; [exact (impl_error _ _ _ _ sem_118_dec _)|].
  constructor; [exact (impl_value _ _ _ _ ext_value_type_answers)|].
  constructor; [exact (impl_error _ _ _ _ ref_002_dec _)|].
  constructor; [exact (impl_error _ _ _ _ adm_005_dec _)|].
  constructor; [exact (impl_nothing _ _ _)|].
  constructor; [exact (impl_nothing _ _ _)|].
  constructor; [exact (impl_value _ _ _ _ qual_value_type_answers)|].
  constructor; [exact (impl_error _ _ _ _ sai_133_dec _)|].
  constructor; [exact (impl_error _ _ _ _ ai_131_dec _)|].
  constructor; [exact (impl_error _ _ _ _ ai_116_dec _)|].
  constructor; [exact (impl_nothing _ _ _)|].
  constructor; [exact (impl_error _ _ _ _ data_090_dec _)|].
  constructor; [exact (impl_error _ _ _ _ are_117_dec _)|].
  constructor; [exact (impl_error _ _ _ _ ev_observed_dec _)|].
  constructor; [exact (impl_error _ _ _ _ ev_broker_dec _)|].
  constructor; [exact (impl_error _ _ _ _ ent_014_dec _)|].
  constructor; [exact (impl_error _ _ _ _ ent_117_dec _)|].
  constructor; [exact (impl_nothing _ _ _)|].
  constructor; [exact (impl_crash _ _ _ _ opv_117_crashes _)|].
  constructor; [exact (impl_error _ _ _ _ op_134_dec _)|].
  constructor; [exact (impl_nothing _ _ _)|].
  constructor; [exact (impl_value _ _ _ _ prop_value_answers)|].
  constructor; [exact (impl_value _ _ _ _ range_min_answers)|].
  constructor; [exact (impl_value _ _ _ _ range_max_answers)|].
  constructor; [exact (impl_error _ _ _ _ coll_022_dec _)|].
  constructor; [exact (impl_error _ _ _ _ coll_117_dec _)|].
  constructor; [exact (impl_error _ _ _ _ list_type_dec _)|].
  constructor; [exact (impl_error _ _ _ _ list_107_dec _)|].
  constructor; [exact (impl_error _ _ _ _ list_114_dec _)|].
  constructor; [exact (impl_nothing _ _ _)|].
  constructor; [exact (impl_error _ _ _ _ list_108_dec _)|].
  constructor; [exact (impl_error _ _ _ _ list_109_dec _)|].
  constructor; [exact (impl_error _ _ _ _ list_120_dec _)|].
  constructor; [exact (impl_crash _ _ _ _ derived_from_crashes _)|].
  constructor; [exact (impl_crash _ _ _ _ submodels_crashes _)|].
  constructor; [exact (impl_error _ _ _ _ sm_022_dec _)|].
  constructor; [exact (impl_error _ _ _ _ sm_117_dec _)|].
  constructor; [exact (impl_error _ _ _ _ sm_119_dec _)|].
  constructor; [exact (impl_error _ _ _ _ sm_129_dec _)|].
  constructor; [exact (impl_error _ _ _ _ cd_004_dec _)|].
  constructor; [exact (impl_error _ _ _ _ cd_005_dec _)|].
  constructor; [exact (impl_error _ _ _ _ cd_006_dec _)|].
  constructor; [exact (impl_error _ _ _ _ cd_007_dec _)|].
  constructor; [exact (impl_error _ _ _ _ cd_008_dec _)|].
  constructor; [exact (impl_nothing _ _ _)|].
  constructor.
Qed.

Definition own_names (cls : str) : list str :=
  match find (fun p => str_eqb (lit (fst p)) cls) own_methods with Some p => List.map (fun q => lit (fst q)) (snd p) | None => [] end.
Lemma own_names_eq cls : List.map fst (own_methods_of own_methods cls) = own_names cls.
Proof. unfold own_methods_of, own_names. destruct (find _ _) as [p|]; [|reflexivity]. rewrite map_map. reflexivity. Qed.
Definition names_ok (e : str * pfields) : bool := nodupb (List.concat (List.map own_names (supers (fst e)))).
Lemma names_are_ok : forallb names_ok model_types = true. Proof. vm_compute. reflexivity. Qed.
Definition classes_ok : bool := nodupb (List.map (fun p => lit (fst p)) own_methods).
Lemma classes_are_ok : classes_ok = true. Proof. vm_compute. reflexivity. Qed.
Local Opaque model_types model_classes model_supers own_methods.

Lemma insert_in n (m : method) l n' m' : ~ In n (List.map fst l) -> In (n', m') (insert_sorted n m l) <-> (n', m') = (n, m) \/ In (n', m') l.
Proof.
  induction l as [|[k x] l IH]; intros N; cbn [insert_sorted]; [cbn; intuition congruence|]. cbn [List.map fst In] in N.
  destruct (str_eqb n k) eqn:E; [apply str_eqb_spec in E; exfalso; apply N; now left|].
  destruct (str_ltb n k); [cbn [In]; intuition congruence|]. cbn [In]. rewrite IH by tauto. tauto.
Qed.
Lemma insert_names n (m : method) l s : In s (List.map fst (insert_sorted n m l)) -> s = n \/ In s (List.map fst l).
Proof.
  induction l as [|[k x] l IH]; cbn [insert_sorted List.map fst In]; [intuition congruence|].
  destruct (str_eqb n k); [intros I; now right|]. destruct (str_ltb n k); cbn [List.map fst In]; [intuition congruence|]. tauto.
Qed.
Lemma fold_insert (l : list (str * method)) : forall acc, NoDup (List.map fst l) -> (forall s, In s (List.map fst l) -> ~ In s (List.map fst acc)) ->
  forall n m, In (n, m) (fold_left (fun acc q => insert_sorted (fst q) (snd q) acc) l acc) <-> In (n, m) l \/ In (n, m) acc.
Proof.
  induction l as [|[k x] l IH]; intros acc N D n m; cbn [fold_left]; [cbn [In]; tauto|]. cbn [List.map fst] in N, D. inversion N as [|? ? N1 N2]; subst.
  rewrite IH; [|exact N2|].
  - cbn [fst snd]. rewrite insert_in by (apply D; now left). cbn [In]. intuition congruence.
  - intros s I J. cbn [fst snd] in J. apply insert_names in J as [->|J]; [contradiction|]. revert J. apply D. now right.
Qed.
Lemma own_methods_in cls n m : In (n, m) (own_methods_of own_methods cls) <->
  exists c n', cls = lit c /\ n = lit n' /\ In (c, n', m) flat_methods.
Proof.
  unfold own_methods_of, flat_methods. pose proof classes_are_ok as U. apply nodupb_spec in U. split.
  - destruct (find _ _) as [[c l]|] eqn:F; [|intros []]. apply find_some in F as [I E]. cbn [fst snd] in *. apply str_eqb_spec in E.
    intros J. apply in_map_iff in J as ([n' m'] & [= <- <-] & J). exists c, n'. split; [now symmetry|]. split; [reflexivity|].
    apply in_concat. exists (List.map (fun q => (c, fst q, snd q)) l). split; [apply in_map_iff; exists (c, l); auto|].
    apply in_map_iff. exists (n', m'). auto.
  - intros (c & n' & -> & -> & J). apply in_concat in J as (r & J1 & J2). apply in_map_iff in J1 as ([c' l] & <- & I). cbn [fst snd] in J2.
    apply in_map_iff in J2 as ([n2 m2] & [= -> -> ->] & J).
    destruct (find (fun p => str_eqb (lit (fst p)) (lit c)) own_methods) as [[c2 l2]|] eqn:F.
    + apply find_some in F as [I2 E]. cbn [fst snd] in *. apply str_eqb_spec in E.
      assert (Q : (c2, l2) = (c, l)).
      { clear J. revert I I2 U. induction own_methods as [|[d k] o IH]; [intros []|]. cbn [In List.map fst]. intros I I2 U. inversion U as [|? ? U1 U2]; subst.
        destruct I as [[= -> ->]|I], I2 as [[= -> ->]|I2]; auto; exfalso; apply U1.
        - rewrite <- E. apply (in_map (fun p => lit (fst p)) _ _ I2).
        - rewrite E. apply (in_map (fun p => lit (fst p)) _ _ I). }
      injection Q as -> ->. apply in_map_iff. exists (n', m). auto.
    + pose proof (find_none _ _ F _ I) as Z. cbn [fst] in Z. rewrite (proj2 (str_eqb_spec _ _) eq_refl) in Z. discriminate.
Qed.
Lemma model_methods_in c fs n m : In (c, fs) model_types ->
  In (n, m) (model_methods c) <-> exists d n', is_a model_classes c (lit d) = true /\ n = lit n' /\ In (d, n', m) flat_methods.
Proof.
  intros I. unfold model_methods, dir_methods, is_a. rewrite (supers_eq _ _ I).
  rewrite fold_insert; [|..].
  - rewrite in_concat. cbn [In]. split.
    + intros [(l & J & K)|[]]. apply in_map_iff in J as (s & <- & J). apply own_methods_in in K as (d & n' & -> & -> & K).
      exists d, n'. split; [now apply str_in_spec|]. auto.
    + intros (d & n' & A & -> & K). left. exists (own_methods_of own_methods (lit d)). split.
      * apply in_map_iff. exists (lit d). split; [reflexivity|now apply str_in_spec].
      * apply own_methods_in. eauto.
  - rewrite concat_map, map_map. rewrite (map_ext _ own_names own_names_eq).
    apply (proj1 (forallb_forall _ _) names_are_ok) in I. now apply nodupb_spec in I.
  - intros s _ [].
Qed.

(** ** Occurring objects are instances *)
Lemma typed_items t l : Ty t (VList l) -> exists u, forall x, In x l -> Ty u x.
Proof.
  induction t; intros T; try (inversion T; fail).
  - apply typed_list in T as (xs & [= <-] & _ & H). eauto.
  - apply typed_opt in T as [|T]; [discriminate|auto].
Qed.
Lemma typed_any_obj t c kvs : Ty t (VObj c kvs) -> Ty (TyObj [c]) (VObj c kvs).
Proof.
  induction t; intros T; try (inversion T; fail).
  - apply typed_obj in T as (d & fs & kvs' & [= <- <-] & I & J & K & L). apply Ty_obj with (fs := fs); auto. now left.
  - apply typed_opt in T as [|T]; [discriminate|auto].
Qed.
Lemma occurs_typed x q y : Occurs x q y -> forall t, Ty t x -> exists u, Ty u y.
Proof.
  induction 1 as [x|c kvs k x q y I N O IH|c kvs k l i x q y I E O IH]; intros t T; [eauto| |].
  - apply typed_any_obj in T. apply typed_field in T as (fs & J & _ & K & M).
    assert (F : In k (List.map fst fs)) by (rewrite <- K; apply (in_map fst _ _ I)). apply in_map_iff in F as ([k' u] & Ek & F). cbn [fst] in Ek. subst k'.
    apply (IH u). eapply M; eauto.
  - apply typed_any_obj in T. apply typed_field in T as (fs & J & _ & K & M).
    assert (F : In k (List.map fst fs)) by (rewrite <- K; apply (in_map fst _ _ I)). apply in_map_iff in F as ([k' u] & Ek & F). cbn [fst] in Ek. subst k'.
    destruct (typed_items _ _ (M _ _ _ F I)) as (w & W). apply (IH w). apply W. eapply nth_error_In; eauto.
Qed.

(** ** The constraints that apply to an object *)
Definition Applies (k : constraint) (y : pyval) : Prop := exists c kvs, y = VObj c kvs /\ is_a model_classes c (lit (k_class k)) = true.
Lemma forall2_in_l {X Y} (R : X -> Y -> Prop) l l' x : Forall2 R l l' -> In x l -> exists y, In y l' /\ R x y.
Proof. induction 1 as [|a b l l' H F IH]; [intros []|]. intros [<-|I]; [exists b; split; [now left|exact H]|]. destruct (IH I) as (y & J & Q). exists y. split; [now right|exact Q]. Qed.
Lemma forall2_in_r {X Y} (R : X -> Y -> Prop) l l' y : Forall2 R l l' -> In y l' -> exists x, In x l /\ R x y.
Proof. induction 1 as [|a b l l' H F IH]; [intros []|]. intros [<-|I]; [exists a; split; [now left|exact H]|]. destruct (IH I) as (x & J & Q). exists x. split; [now right|exact Q]. Qed.
Definition Answer (k : constraint) (y : pyval) (r : verdict) : Prop := Answers (k_level k) (k_exn k) (k_holds k y) (k_raises k y) r.
(** the methods called on the objects below [x] answer according to the constraints *)
Lemma called_constraint t x q r : Ty t x -> Called model_methods x q r -> exists y k, Occurs x q y /\ In k constraints /\ Applies k y /\ Answer k y r.
Proof.
  intros T (c & kvs & n & m & O & J & ->). destruct (occurs_typed _ _ _ O _ T) as (u & U). apply typed_any_obj in U.
  destruct (typed_field _ _ _ U) as (fs & I & _). apply (model_methods_in c fs _ _ I) in J as (d & n' & A & -> & J).
  destruct (forall2_in_l _ _ _ _ all_implemented J) as (k & K & Ec & H). cbn [fst snd] in *. exists (VObj c kvs), k. split; [exact O|]. split; [exact K|].
  rewrite Ec in A. split; [exists c, kvs; auto|]. apply H. exists c, kvs. auto.
Qed.
Lemma constraint_called t x q y k : Ty t x -> Occurs x q y -> In k constraints -> Applies k y -> exists r, Called model_methods x q r /\ Answer k y r.
Proof.
  intros T O K (c & kvs & -> & A). destruct (occurs_typed _ _ _ O _ T) as (u & U). apply typed_any_obj in U.
  destruct (typed_field _ _ _ U) as (fs & I & _). destruct (forall2_in_r _ _ _ _ all_implemented K) as ([[d n] m] & J & Ec & H). cbn [fst snd] in *.
  exists (m (VObj c kvs)). split; [|apply H; exists c, kvs; auto].
  exists c, kvs, (lit n), m. split; [exact O|]. split; [|reflexivity]. apply (model_methods_in c fs _ _ I). subst d. exists (k_class k), n. auto.
Qed.

(** a constraint that applies to an object below [x] and is violated; or on which the check raises *)
Definition Violated (x : pyval) (q : path) (l : level) : Prop :=
  exists y k, Occurs x q y /\ In k constraints /\ Applies k y /\ k_level k = l /\ ~ k_holds k y.
Definition Raising (x : pyval) (q : path) (e : exn) : Prop :=
  exists y k, Occurs x q y /\ In k constraints /\ Applies k y /\ k_exn k = e /\ k_raises k y.
Lemma raises_violates k y : In k constraints -> k_raises k y -> ~ k_holds k y /\ k_level k = ERROR.
Proof.
  intros I. assert (E : Forall (fun k => forall y, k_raises k y -> ~ k_holds k y /\ k_level k = ERROR) constraints).
  { unfold constraints. repeat (apply Forall_cons; [|]); try apply Forall_nil; intros z H; first
      [ exfalso; exact H
      | split; [exact H|reflexivity]
      | split; [|reflexivity]; cbn [k_raises k_holds typed_value] in *; intros H2; destruct H as (P & c & m & t & V & (w & Iw & U));
        destruct (H2 P c m t V) as (w' & Iw' & U'); rewrite (members_same w w' t Iw Iw') in U; congruence ]. }
  apply (proj1 (Forall_forall _ _) E k I).
Qed.
Theorem check_findings t x : Ty t x ->
  match check_constraints model_methods x [] with
  | Val fs => (forall q e, ~ Raising x q e) /\ forall q l, Violated x q l <-> exists m, In (CFinding l m q) fs
  | Raise e => exists q, Raising x q e
  end.
Proof.
  intros T. pose proof (check_collects model_methods x []) as C. destruct (check_constraints model_methods x []) as [fs|e]; cbn [Collects] in C.
  - destruct C as [C1 C2]. assert (NR : forall q e, ~ Raising x q e).
    { intros q e (y & k & O & K & A & _ & R). destruct (constraint_called t x q y k T O K A) as (r & Cr & An).
      destruct (C1 _ _ Cr) as (a & ->). destruct An as [[_ Z]|[[N _]|[N _]]]; [discriminate|contradiction|contradiction]. }
    split; [exact NR|]. intros q l. split.
    + intros (y & k & O & K & A & L & V). destruct (constraint_called t x q y k T O K A) as (r & Cr & An).
      destruct An as [[R Z]|[(_ & S & _)|(_ & _ & m & ->)]]; [exfalso; eapply NR; exists y, k; eauto 10|contradiction|].
      exists m. apply C2. exists q, l, m. rewrite L in Cr. auto.
    + intros (m & I). apply C2 in I as (q' & l' & m' & Cr & [= <- <- ->]). destruct (called_constraint t x _ _ T Cr) as (y & k & O & K & A & An).
      exists y, k. split; [exact O|]. split; [exact K|]. split; [exact A|].
      destruct An as [[_ Z]|[(_ & _ & Z)|(_ & V & m2 & Z)]]; try discriminate. injection Z as -> _. auto.
  - destruct C as (q & Cr). exists q. destruct (called_constraint t x _ _ T Cr) as (y & k & O & K & A & An). exists y, k.
    destruct An as [[R Z]|[(_ & _ & Z)|(_ & _ & m & Z)]]; try discriminate. injection Z as <-. auto.
Qed.
