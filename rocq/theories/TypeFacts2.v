(** The types of the classes of model.py. *)
From Coq Require Import PeanoNat Lia String List NArith Bool.
From Verif Require Import PyStr PyStrFacts PyBase PyXml PyVal ReflectModel MetaModel MetaFacts AdapterModel ParseModel ParseFacts ParseFacts2 ParseCrash TypeSpec TypeFacts ConstraintModel CheckModel.
Import ListNotations.
Local Open Scope list_scope.

(** the attributes of the classes of model.py and their types *)
Definition model_types : list (str * pfields) :=
  Eval vm_compute in match declared model_classes model_table model_table with Some d => d | None => [] end.
Lemma model_types_eq : declared model_classes model_table model_table = Some model_types.
Proof. vm_compute. reflexivity. Qed.
Definition types_ok (e : str * pfields) : bool :=
  nodupb (List.map fst (snd e)) &&
  (if is_a model_classes (fst e) (lit "SubmodelElement")
   then match lookup (lit "id_short_path") (snd e) with Some TyPath => true | _ => false end else true).
Lemma types_are_ok : forallb types_ok model_types = true.
Proof. vm_compute. reflexivity. Qed.
Lemma types_names : NoDup (List.map fst model_types).
Proof. apply nodupb_spec. vm_compute. reflexivity. Qed.
Definition static_ok (e : str * rtype nat) : bool :=
  match snd e with RClass _ _ static _ => forallb (fun kv => is_none (snd kv)) static | _ => true end.
Lemma statics_ok : forallb static_ok model_table = true.
Proof. vm_compute. reflexivity. Qed.
Local Opaque model_table model_classes model_types.

Lemma types_nodup c fs : In (c, fs) model_types -> NoDup (List.map fst fs).
Proof.
  intros I. apply (proj1 (forallb_forall _ _) types_are_ok) in I. unfold types_ok in I. apply andb_true_iff in I as [I _].
  now apply nodupb_spec.
Qed.
Lemma types_path c fs : In (c, fs) model_types -> is_a model_classes c (lit "SubmodelElement") = true ->
  lookup (lit "id_short_path") fs = Some TyPath.
Proof.
  intros I E. apply (proj1 (forallb_forall _ _) types_are_ok) in I. unfold types_ok in I. apply andb_true_iff in I as [_ I].
  cbn [fst snd] in I. rewrite E in I. destruct (lookup (lit "id_short_path") fs) as [[]|]; try discriminate. reflexivity.
Qed.
Lemma types_static k c attrs static subs n x : In (k, RClass c attrs static subs) model_table -> In (n, x) static -> x = VNone.
Proof.
  intros I J. apply (proj1 (forallb_forall _ _) statics_ok) in I. unfold static_ok in I. cbn [snd] in I.
  apply (proj1 (forallb_forall _ _) I) in J. cbn [snd] in J. destruct x; try discriminate. reflexivity.
Qed.

Notation Ty := (Typed model_types).

(** * Attributes of typed objects *)
Lemma lookup_fields {B C} n : forall (kvs : list (str * B)) (fs : list (str * C)) t, List.map fst kvs = List.map fst fs -> lookup n fs = Some t ->
  exists x, lookup n kvs = Some x /\ In (n, x) kvs.
Proof.
  induction kvs as [|[k x] kvs IH]; intros [|[k' t'] fs] t E L; try discriminate. cbn [List.map fst] in E.
  assert (k = k' /\ List.map fst kvs = List.map fst fs) as [-> E'] by (split; congruence).
  cbn [lookup] in *. destruct (str_eqb n k') eqn:Eq; [apply str_eqb_spec in Eq; subst; exists x; split; [reflexivity|now left]|].
  destruct (IH fs t E' L) as (y & Y1 & Y2). exists y. split; [exact Y1|now right].
Qed.
Lemma typed_field cs c kvs : Ty (TyObj cs) (VObj c kvs) -> exists fs, In (c, fs) model_types /\ In c cs /\
  List.map fst kvs = List.map fst fs /\ forall n t y, In (n, t) fs -> In (n, y) kvs -> Ty t y.
Proof. intros H. apply typed_obj in H as (c' & fs & kvs' & [= <- <-] & I & J & K & L). eauto. Qed.
Lemma typed_getattr cs x n y : Ty (TyObj cs) x -> getattr x n = Val y -> exists c kvs fs t, x = VObj c kvs /\ In (c, fs) model_types /\ In (n, t) fs /\ Ty t y.
Proof.
  intros H G. apply typed_obj in H as (c & fs & kvs & -> & I & J & K & L). cbn [getattr] in G.
  destruct (lookup n kvs) as [z|] eqn:E; [|discriminate]. injection G as <-. apply lookup_In in E.
  assert (M : In n (List.map fst fs)) by (rewrite <- K; apply in_map_iff; exists (n, z); auto).
  apply in_map_iff in M as ([n' t] & [= ->] & M). eexists _, _, _, _. eauto.
Qed.
Lemma keyed_same {B} (l : list (str * B)) n t u : NoDup (List.map fst l) -> In (n, t) l -> In (n, u) l -> t = u.
Proof. intros N I J. apply (lookup_nodup _ _ _ N) in I. apply (lookup_nodup _ _ _ N) in J. congruence. Qed.
Lemma fields_same c fs fs' : In (c, fs) model_types -> In (c, fs') model_types -> fs = fs'.
Proof. apply keyed_same. exact types_names. Qed.

(** an attribute of a declared type *)
Lemma ty_attr cs c kvs fs n t : Ty (TyObj cs) (VObj c kvs) -> In (c, fs) model_types -> lookup n fs = Some t ->
  exists y, getattr (VObj c kvs) n = Val y /\ Ty t y.
Proof.
  intros H I L. apply typed_field in H as (fs' & J & _ & K & M). assert (fs' = fs) by (eapply fields_same; eauto). subst fs'.
  destruct (lookup_fields n kvs fs t K L) as (y & Y1 & Y2). exists y. cbn [getattr]. rewrite Y1. split; [reflexivity|].
  eapply M; [|exact Y2]. now apply lookup_In.
Qed.

(** * Setting paths keeps the types *)
Lemma assign_keys {B} n (v : B) l : In n (List.map fst l) -> List.map fst (assign n v l) = List.map fst l.
Proof.
  induction l as [|[k x] l IH]; cbn [assign List.map fst]; [intros []|]. intros I.
  destruct (str_eqb n k) eqn:E; cbn [List.map fst]; [reflexivity|]. f_equal. apply IH. destruct I as [->|I]; [|exact I].
  rewrite (proj2 (str_eqb_spec _ _) eq_refl) in E. discriminate.
Qed.
Lemma assign_in {B} n (v : B) l m x : In (m, x) (assign n v l) -> (m = n /\ x = v) \/ In (m, x) l.
Proof.
  induction l as [|[k y] l IH]; cbn [assign]; [intros [[= <- <-]|[]]; auto|].
  destruct (str_eqb n k) eqn:E; [apply str_eqb_spec in E; subst; intros [[= <- <-]|I]; [auto|right; now right]|].
  intros [[= <- <-]|I]; [right; now left|]. destruct (IH I); [auto|right; now right].
Qed.
Lemma ty_assign cs c kvs fs n t y : Ty (TyObj cs) (VObj c kvs) -> In (c, fs) model_types -> lookup n fs = Some t -> Ty t y ->
  Ty (TyObj cs) (VObj c (assign n y kvs)).
Proof.
  intros H I L T. apply typed_field in H as (fs' & J & Ic & K & M). assert (fs' = fs) by (eapply fields_same; eauto). subst fs'.
  destruct (lookup_fields n kvs fs t K L) as (z & Y1 & Y2).
  apply Ty_obj with (fs := fs); auto.
  - rewrite assign_keys; [exact K|]. apply in_map_iff. exists (n, z). auto.
  - intros m u x Im Ix. apply assign_in in Ix as [[-> ->]|Ix]; [|eauto].
    assert (u = t) by (eapply keyed_same; [eapply types_nodup; eauto|exact Im|now apply lookup_In]). now subst.
Qed.

Definition KeepsType (x : pyval) : Prop := forall t p y, Ty t x -> set_path x p = Val y -> Ty t y.
Lemma path_items_typed col p t l : forall i l', Forall KeepsType l -> (forall x, In x l -> Ty t x) ->
  path_items set_path col p i l = Val l' -> length l' = length l /\ forall x, In x l' -> Ty t x.
Proof.
  induction l as [|y l IH]; intros i l' F H; cbn [path_items]; [intros [= <-]; split; [reflexivity|intros x []]|].
  destruct (if col then _ else _) as [tk|]; cbn [obind]; [|discriminate].
  destruct (set_path y (path_add p tk)) as [y'|] eqn:E; cbn [obind]; [|discriminate].
  destruct (path_items set_path col p (S i) l) as [ys|] eqn:G; cbn [obind]; [|discriminate]. intros [= <-].
  inversion F; subst. destruct (IH _ _ H3 (fun x I => H x (or_intror I)) G) as [L K]. split; [simpl; congruence|].
  intros x [<-|I]; [|auto]. eapply H2; [|exact E]. apply H. now left.
Qed.
Lemma path_value_typed col p t x x' : (forall l, x = VList l -> Forall KeepsType l) -> Ty t x -> path_value set_path col p x = Val x' -> Ty t x'.
Proof.
  intros F. revert x'. induction t; intros x' T; try (inversion T; subst; discriminate).
  - apply typed_list in T as (xs & -> & N & H). cbn [path_value].
    destruct (path_items set_path col p 0 xs) as [l'|] eqn:E; cbn [obind]; [|discriminate]. intros [= <-].
    destruct (path_items_typed _ _ _ _ _ _ (F _ eq_refl) H E) as [L K]. constructor; [|exact K].
    intros e Z. apply (N e). destruct xs; [reflexivity|]. subst. discriminate.
  - apply typed_opt in T as [->|T]; [cbn [path_value]; intros [= <-]; constructor|]. intros H. apply Ty_some. auto.
  - apply typed_path in T as [->|(q & ->)]; cbn [path_value]; [intros [= <-]; constructor|discriminate].
Qed.
Lemma path_attrs_typed col inner p (fs : pfields) kvs : forall kvs', Forall (fun kv => forall l, snd kv = VList l -> Forall KeepsType l) kvs ->
  path_attrs set_path col inner p kvs = Val kvs' ->
  List.map fst kvs' = List.map fst kvs /\
  forall n t, (forall x, In (n, x) kvs -> Ty t x) -> forall x, In (n, x) kvs' -> Ty t x.
Proof.
  induction kvs as [|[k x] kvs IH]; intros kvs' F; cbn [path_attrs]; [intros [= <-]; split; [reflexivity|intros n t _ x []]|].
  destruct (if str_eqb k (lit "value") && inner then path_value set_path col p x else Val x) as [x'|] eqn:E; cbn [obind]; [|discriminate].
  destruct (path_attrs set_path col inner p kvs) as [r|] eqn:G; cbn [obind]; [|discriminate]. intros [= <-].
  inversion F; subst. destruct (IH _ H2 eq_refl) as [K L]. split; [cbn [List.map fst]; congruence|].
  intros n t H y [[= <- <-]|I].
  - specialize (H x (or_introl eq_refl)). destruct (str_eqb k (lit "value") && inner); [|injection E as <-; exact H].
    eapply path_value_typed; eauto.
  - eapply L; [|exact I]. intros z Iz. apply H. now right.
Qed.
Lemma set_path_typed_deep x : KeepsType x /\ forall l, x = VList l -> Forall KeepsType l.
Proof.
  induction x as [| | | | | |l IH|c kvs IH| |] using pyval_ind'; try (split; [intros t q y _; discriminate|intros; discriminate]).
  - split; [intros t p y _; discriminate|]. intros l' [= <-]. eapply Forall_impl; [|exact IH]. intros a [H _]. exact H.
  - split; [|intros; discriminate]. intros t p y T E. rewrite set_path_eq in E.
    destruct (is_a model_classes c (lit "SubmodelElement")) eqn:S; [|discriminate].
    set (col := is_collection c) in E. set (inner := col || is_list c) in E.
    destruct (path_attrs set_path col inner p kvs) as [kvs'|] eqn:G; cbn [obind setattr] in E; [|discriminate].
    injection E as <-.
    assert (F : Forall (fun kv => forall l, snd kv = VList l -> Forall KeepsType l) kvs) by (eapply Forall_impl; [|exact IH]; intros a [_ H]; exact H).
    clear IH. revert T. induction t; intros T; try (inversion T; fail).
    + destruct (typed_field _ _ _ T) as (fs & I & Ic & K & M).
      destruct (path_attrs_typed _ _ _ fs _ _ F G) as [K' L].
      apply ty_assign with (fs := fs) (t := TyPath); [|exact I|now apply types_path with (c := c)|constructor].
      apply Ty_obj with (fs := fs); [exact Ic|exact I|congruence|].
      intros n u z In1 In2. eapply L; [|exact In2]. intros w Iw. eapply M; eauto.
    + apply Ty_some. apply IHt. apply typed_opt in T as [|T]; [discriminate|exact T].
Qed.
Lemma set_path_typed x : KeepsType x. Proof. apply set_path_typed_deep. Qed.
Lemma set_paths_length root l : forall l', set_paths root l = Val l' -> length l' = length l.
Proof.
  induction l as [|e l IH]; intros l'; cbn [set_paths]; [intros [= <-]; reflexivity|].
  destruct (getattr e _) as [n|]; cbn [obind]; [|discriminate]. destruct (token_of n) as [tk|]; cbn [obind]; [|discriminate].
  destruct (set_path e (path_add root tk)) as [e'|] eqn:E; cbn [obind]; [|discriminate].
  destruct (set_paths root l) as [r'|] eqn:G; cbn [obind]; [|discriminate]. intros [= <-]. simpl. f_equal. now apply IH.
Qed.
Lemma set_paths_typed root t l : forall l', (forall x, In x l -> Ty t x) -> set_paths root l = Val l' ->
  length l' = length l /\ forall x, In x l' -> Ty t x.
Proof.
  induction l as [|e l IH]; intros l' H; cbn [set_paths]; [intros [= <-]; split; [reflexivity|intros x []]|].
  destruct (getattr e _) as [n|]; cbn [obind]; [|discriminate]. destruct (token_of n) as [tk|]; cbn [obind]; [|discriminate].
  destruct (set_path e (path_add root tk)) as [e'|] eqn:E; cbn [obind]; [|discriminate].
  destruct (set_paths root l) as [r'|] eqn:G; cbn [obind]; [|discriminate]. intros [= <-].
  destruct (IH _ (fun x I => H x (or_intror I)) eq_refl) as [L K]. split; [simpl; congruence|].
  intros x [<-|I]; [|auto]. eapply set_path_typed; [|exact E]. apply H. now left.
Qed.
Lemma list_typed_change t l l' : Ty t (VList l) -> length l' = length l ->
  (forall u, (forall x, In x l -> Ty u x) -> forall x, In x l' -> Ty u x) -> Ty t (VList l').
Proof.
  intros T L H. revert T. induction t; intros T; try (inversion T; fail).
  - apply typed_list in T as (xs & [= <-] & N & K). constructor; [|exact (H _ K)]. intros e ->. destruct l; [now apply (N e)|discriminate].
  - apply Ty_some, IHt. apply typed_opt in T as [|T]; [discriminate|exact T].
Qed.
Lemma submodel_post_typed n x y : Ty (TyObj [n]) x -> submodel_post_parse x = Val y -> Ty (TyObj [n]) y.
Proof.
  intros T. unfold submodel_post_parse.
  destruct (getattr x (lit "submodel_elements")) as [els|] eqn:E; cbn [obind]; [|discriminate].
  assert (Q : forall l, els = VList l -> (let* l := as_items els in
      let* n := getattr x (lit "id_short") in
      let* id := getattr x (lit "id") in
      let* id := raw_value id in
      let root := IdPath (match n with VSfv _ s => Some s | _ => None end) id [] in
      let* l' := set_paths root l in
      setattr x (lit "submodel_elements") (VList l')) = Val y -> Ty (TyObj [n]) y).
  { intros l ->. cbn [as_items obind]. destruct (getattr x (lit "id_short")) as [m|]; cbn [obind]; [|discriminate].
    destruct (getattr x (lit "id")) as [i|]; cbn [obind]; [|discriminate]. destruct (raw_value i) as [s|]; cbn [obind]; [|discriminate].
    cbn zeta. destruct (set_paths _ l) as [l'|] eqn:G; cbn [obind]; [|discriminate].
    destruct (typed_getattr _ _ _ _ T E) as (c & kvs & fs & t & -> & I & Ft & Te). cbn [setattr]. intros [= <-].
    eapply ty_assign; [exact T|exact I| |].
    - apply lookup_nodup; [eapply types_nodup; eauto|exact Ft].
    - eapply list_typed_change; [exact Te| |].
      + exact (set_paths_length _ _ _ G).
      + intros u H. now destruct (set_paths_typed _ u _ _ H G). }
  destruct els as [| | | | | |l| | |]; try (cbn [as_items obind]; discriminate).
  - intros [= <-]. exact T.
  - now apply (Q l).
Qed.

(** * The parser of model.py *)
Lemma model_post_typed n g x y : model_post_parse n = Some g -> Ty (TyObj [n]) x -> g x = Val y -> Ty (TyObj [n]) y.
Proof.
  unfold model_post_parse. destruct (is_a model_classes n (lit "Submodel")); [|discriminate]. intros [= <-]. apply submodel_post_typed.
Qed.
Theorem model_parse_typed V (A : adapter V) repr f i t p v x : (forall v l, ad_list A false v = AOk l -> l <> []) ->
  ptype_of model_classes model_table i = Some t ->
  parse V A model_classes model_table repr model_post_parse f i p v [] = Val (x, []) -> Ty t x.
Proof.
  intros H E. apply (parse_typed V A model_classes model_table repr model_post_parse model_types model_types_eq H types_static types_nodup model_post_typed f i t 2 p v E).
Qed.
Lemma json_nonempty show v l : ad_list (json_adapter show) false v = AOk l -> l <> [].
Proof. cbn [json_adapter ad_list]. destruct v; cbn [json_list]; try discriminate. destruct l0; cbn [length Nat.eqb andb negb]; try discriminate. intros [= <-]. discriminate. Qed.
Lemma xml_nonempty v l : ad_list xml_adapter false v = AOk l -> l <> [].
Proof. cbn [xml_adapter ad_list]. unfold xml_list. destruct (x_children v); [discriminate|]. intros [= <-]. discriminate. Qed.
