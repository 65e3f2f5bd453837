(** Facts about the paths of submodel elements. *)
From Coq Require Import PeanoNat Lia String List NArith Bool.
From Verif Require Import PyStr PyStrFacts PyBase PyXml PyVal ReflectModel ReflectFacts MetaModel MetaFacts AdapterModel ParseModel ParseFacts ParseFacts2 ParseCrash.
From Verif Require Import TypeSpec TypeFacts TypeFacts2 ConstraintModel CheckModel ConstraintSpec PathSpec.
Import ListNotations.
Local Open Scope list_scope.

Lemma collection_is : is_collection (lit "SubmodelElementCollection") = true. Proof. vm_compute. reflexivity. Qed.
Lemma list_is : is_list (lit "SubmodelElementList") = true. Proof. vm_compute. reflexivity. Qed.
Lemma list_is_no_collection : is_collection (lit "SubmodelElementList") = false. Proof. vm_compute. reflexivity. Qed.
Section Opaque_setting.
Local Opaque model_table model_classes model_types.

(** * Setting paths *)
(** what [_set_path] leaves alone *)
Definition Same (x y : pyval) : Prop := class_of_obj x = class_of_obj y /\ attr x "id_short" = attr y "id_short".
Definition PathsSet (x : pyval) : Prop := forall p y, set_path x p = Val y -> Same x y /\
  forall ts e, Below Contains y ts e -> attr e "id_short_path" = VPath (IdPath (ip_id_short p) (ip_id p) (ip_tokens p ++ ts)).

Lemma path_attrs_lookup rec col inner p n kvs : forall kvs', path_attrs rec col inner p kvs = Val kvs' -> 
  match lookup n kvs with
  | Some x => exists x', lookup n kvs' = Some x' /\ (if str_eqb n (lit "value") && inner then path_value rec col p x = Val x' else x' = x)
  | None => lookup n kvs' = None
  end.
Proof.
  induction kvs as [|[k x] kvs IH]; intros kvs'; cbn [path_attrs]; [intros [= <-]; reflexivity|].
  destruct (if str_eqb k (lit "value") && inner then path_value rec col p x else Val x) as [x'|] eqn:E; cbn [obind]; [|discriminate].
  destruct (path_attrs rec col inner p kvs) as [r|] eqn:G; cbn [obind]; [|discriminate]. intros [= <-]. cbn [lookup].
  destruct (str_eqb n k) eqn:Eq; [|now apply IH].
  apply str_eqb_spec in Eq. subst k. exists x'. split; [reflexivity|]. destruct (str_eqb n (lit "value") && inner); [exact E|congruence].
Qed.
Lemma path_items_nth rec col p l : forall i l', path_items rec col p i l = Val l' ->
  forall j e', nth_error l' j = Some e' -> exists e t, nth_error l j = Some e /\ rec e (path_add p t) = Val e' /\
  (if col then exists n, getattr e (lit "id_short") = Val n /\ token_of n = Val t else t = TIndex (i + j)).
Proof.
  induction l as [|y l IH]; intros i l'; cbn [path_items]; [intros [= <-] [|j] e'; discriminate|].
  destruct (if col then _ else _) as [t|] eqn:Et; cbn [obind]; [|discriminate].
  destruct (rec y (path_add p t)) as [y'|] eqn:E; cbn [obind]; [|discriminate].
  destruct (path_items rec col p (S i) l) as [ys|] eqn:G; cbn [obind]; [|discriminate]. intros [= <-].
  intros [|j] e'; cbn [nth_error].
  - intros [= <-]. exists y, t. split; [reflexivity|]. split; [exact E|]. destruct col.
    + destruct (getattr y (lit "id_short")) as [n|] eqn:En; cbn [obind] in Et; [|discriminate]. eauto.
    + rewrite Nat.add_0_r. congruence.
  - intros H. destruct (IH _ _ G j e' H) as (e & u & A & B & C). exists e, u. split; [exact A|]. split; [exact B|].
    destruct col; [exact C|]. rewrite C. f_equal. lia.
Qed.
Lemma getattr_attr x n y : getattr x (lit n) = Val y -> attr x n = y.
Proof. unfold getattr, attr. destruct x; try discriminate. destruct (lookup (lit n) attrs); [congruence|discriminate]. Qed.
Lemma token_id e e' n t : Same e e' -> getattr e (lit "id_short") = Val n -> token_of n = Val t -> t = id_token e'.
Proof.
  intros [_ S] G T. apply getattr_attr in G. unfold id_token. rewrite <- S, G.
  destruct n; cbn [token_of] in *; congruence.
Qed.
Lemma set_path_sets_deep x : PathsSet x /\ forall l, x = VList l -> Forall PathsSet l.
Proof.
  induction x as [| | | | | |l IH|c kvs IH| |] using pyval_ind'; try (split; [intros q z; discriminate|intros; discriminate]).
  - split; [intros p y; discriminate|]. intros l' [= <-]. eapply Forall_impl; [|exact IH]. intros a [H _]. exact H.
  - split; [|intros; discriminate]. intros p y E. rewrite set_path_eq in E.
    destruct (is_a model_classes c (lit "SubmodelElement")) eqn:S; [|discriminate].
    destruct (path_attrs set_path (is_collection c) (is_collection c || is_list c) p kvs) as [kvs'|] eqn:G; cbn [obind setattr] in E; [|discriminate].
    injection E as <-.
    assert (N1 : lit "id_short" <> lit "id_short_path") by (vm_compute; discriminate).
    assert (N2 : lit "value" <> lit "id_short_path") by (vm_compute; discriminate).
    assert (Q : Same (VObj c kvs) (VObj c (assign (lit "id_short_path") (VPath p) kvs'))).
    { split; [reflexivity|]. unfold attr. rewrite (lookup_assign_other _ _ _ _ N1).
      pose proof (path_attrs_lookup _ _ _ _ (lit "id_short") _ _ G) as L. destruct (lookup (lit "id_short") kvs) as [z|].
      - destruct L as (x' & -> & L). change (str_eqb (lit "id_short") (lit "value")) with false in L. cbn [andb] in L. now subst.
      - now rewrite L. }
    split; [exact Q|].
    assert (IV : forall j e', nth_error (items (VObj c (assign (lit "id_short_path") (VPath p) kvs')) "value") j = Some e' ->
        is_collection c || is_list c = true ->
        exists e t, PathsSet e /\ set_path e (path_add p t) = Val e' /\
        (if is_collection c then exists n, getattr e (lit "id_short") = Val n /\ token_of n = Val t else t = TIndex j)).
    { intros j e'. unfold items, attr. rewrite (lookup_assign_other _ _ _ _ N2). intros H In.
      pose proof (path_attrs_lookup _ _ _ _ (lit "value") _ _ G) as L. destruct (lookup (lit "value") kvs) as [z|] eqn:Lz.
      - destruct L as (x' & Lx & L). rewrite Lx in H. change (str_eqb (lit "value") (lit "value")) with true in L. cbn [andb] in L. rewrite In in L.
        destruct x'; try (destruct j; discriminate H). destruct z as [| | | | | |zl| | |]; cbn [path_value] in L; try discriminate L.
        destruct (path_items set_path (is_collection c) p 0 zl) as [l'|] eqn:P; cbn [obind] in L; [|discriminate]. injection L as <-.
        destruct (path_items_nth _ _ _ _ _ _ P j e' H) as (e & t & A & B & C). exists e, t. split; [|split; [exact B|exact C]].
        apply lookup_In in Lz. rewrite Forall_forall in IH. destruct (IH _ Lz) as [_ F]. specialize (F zl eq_refl). rewrite Forall_forall in F.
        apply F. eapply nth_error_In; exact A.
      - rewrite L in H. destruct j; discriminate H. }
    intros ts e B. inversion B as [|t y' ts' e'' St Be]; subst.
    + unfold attr. rewrite lookup_assign_same, app_nil_r. now destruct p.
    + assert (R : exists e0, PathsSet e0 /\ set_path e0 (path_add p t) = Val y').
      { inversion St as [e0 C I|i e0 C I]; subst.
        - unfold Of_class in C. cbn [class_of_obj] in C. subst c. apply In_nth_error in I as [j I].
          destruct (IV j y' I) as (e1 & t1 & P1 & P2 & P3); [now rewrite collection_is|]. rewrite collection_is in P3.
          destruct P3 as (n & G1 & T1). destruct (P1 _ _ P2) as [Sm _]. rewrite (token_id _ _ _ _ Sm G1 T1) in P2. eauto.
        - unfold Of_class in C. cbn [class_of_obj] in C. subst c.
          destruct (IV i y' I) as (e1 & t1 & P1 & P2 & P3); [now rewrite list_is, orb_true_r|]. rewrite list_is_no_collection in P3. subst t1. eauto. }
      destruct R as (e0 & P0 & E0). destruct (P0 _ _ E0) as [_ K]. rewrite (K _ _ Be). unfold path_add. cbn [ip_id_short ip_id ip_tokens].
      now rewrite <- app_assoc.
Qed.
Lemma set_path_sets x : PathsSet x. Proof. apply set_path_sets_deep. Qed.

Lemma set_paths_sets root l : forall l', set_paths root l = Val l' -> forall e', In e' l' ->
  forall ts e, Below Contains e' ts e -> attr e "id_short_path" = VPath (IdPath (ip_id_short root) (ip_id root) (ip_tokens root ++ id_token e' :: ts)).
Proof.
  induction l as [|y l IH]; intros l'; cbn [set_paths]; [intros [= <-] e' []|].
  destruct (getattr y _) as [n|] eqn:En; cbn [obind]; [|discriminate]. destruct (token_of n) as [t|] eqn:Et; cbn [obind]; [|discriminate].
  destruct (set_path y (path_add root t)) as [y'|] eqn:E; cbn [obind]; [|discriminate].
  destruct (set_paths root l) as [r'|] eqn:G; cbn [obind]; [|discriminate]. intros [= <-].
  intros e' [<-|I]; [|now apply (IH r' eq_refl)]. intros ts e B. destruct (set_path_sets _ _ _ E) as [S K].
  rewrite <- (token_id _ _ _ _ S En Et). rewrite (K _ _ B). unfold path_add. cbn [ip_id_short ip_id ip_tokens]. now rewrite <- app_assoc.
Qed.

(** all elements of the submodel know their paths *)
Definition PathsKnown (s : pyval) : Prop := forall ts e, Addressed Contains s ts e -> Knows s ts e.
Lemma submodel_post_sets x y : submodel_post_parse x = Val y -> PathsKnown y.
Proof.
  unfold submodel_post_parse. destruct (getattr x (lit "submodel_elements")) as [els|] eqn:E; cbn [obind]; [|discriminate].
  assert (Q : (let* l := as_items els in
      let* n := getattr x (lit "id_short") in
      let* id := getattr x (lit "id") in
      let* id := raw_value id in
      let root := IdPath (match n with VSfv _ s => Some s | _ => None end) id [] in
      let* l' := set_paths root l in
      setattr x (lit "submodel_elements") (VList l')) = Val y -> PathsKnown y).
  { destruct (as_items els) as [l|]; cbn [obind]; [|discriminate]. destruct (getattr x (lit "id_short")) as [m|] eqn:Em; cbn [obind]; [|discriminate].
    destruct (getattr x (lit "id")) as [i|] eqn:Ei; cbn [obind]; [|discriminate]. destruct (raw_value i) as [s|] eqn:Es; cbn [obind]; [|discriminate].
    cbn zeta. destruct (set_paths _ l) as [l'|] eqn:G; cbn [obind]; [|discriminate].
    destruct x as [| | | | | | |c kvs| |]; cbn [setattr]; try discriminate. intros [= <-].
    assert (N1 : lit "id_short" <> lit "submodel_elements") by (vm_compute; discriminate).
    assert (N2 : lit "id" <> lit "submodel_elements") by (vm_compute; discriminate).
    apply getattr_attr in Em, Ei. intros ts e A. inversion A as [z ts' e' I B]; subst ts e'.
    unfold items, attr in I. rewrite lookup_assign_same in I. unfold Knows. rewrite (set_paths_sets _ _ _ G z I _ _ B). cbn [ip_id_short ip_id ip_tokens app].
    unfold text. unfold attr in *. rewrite (lookup_assign_other _ _ _ _ N1), (lookup_assign_other _ _ _ _ N2). rewrite Em, Ei.
    replace (chars i) with s; [reflexivity|]. destruct i; cbn [raw_value] in Es; try discriminate; cbn [chars]; congruence. }
  destruct els; try exact Q. intros [= <-] ts e A. inversion A as [z ts' e' I B]; subst. unfold items in I. rewrite (getattr_attr _ _ _ E) in I. destruct I.
Qed.

End Opaque_setting.

(** * The parser *)
(** Classes that are closed under the types of attributes *)
Fixpoint type_in (l : list str) (t : ptype) : bool :=
  match t with
  | TyObj cs => forallb (fun c => str_in c l) cs
  | TyList _ t => type_in l t
  | TyOpt t => type_in l t
  | _ => true
  end.
Definition closed (l : list str) (e : str * pfields) : bool := implb (str_in (fst e) l) (forallb (fun f => type_in l (snd f)) (snd e)).
Fixpoint type_classes (t : ptype) : list str :=
  match t with TyObj cs => cs | TyList _ t => type_classes t | TyOpt t => type_classes t | _ => [] end.
Definition field_classes (fs : pfields) : list str := flat_map (fun f => type_classes (snd f)) fs.
Fixpoint add_all (l r : list str) : list str :=
  match l with [] => r | x :: l => add_all l (if str_in x r then r else x :: r) end.
Definition grow (l : list str) : list str :=
  add_all (flat_map (fun e => if str_in (fst e) l then field_classes (snd e) else []) model_types) l.
Definition submodel_fields : pfields := match lookup n_submodel model_types with Some fs => fs | None => [] end.
(** the classes of the objects in a submodel *)
Definition inside : list str := Eval vm_compute in Nat.iter 20 grow (add_all (field_classes submodel_fields) []).
Lemma inside_closed : forallb (closed inside) model_types = true. Proof. vm_compute. reflexivity. Qed.
Lemma inside_fields : forallb (fun f => type_in inside (snd f)) submodel_fields = true. Proof. vm_compute. reflexivity. Qed.
Lemma inside_no_submodel : str_in n_submodel inside = false. Proof. vm_compute. reflexivity. Qed.
Lemma submodel_fields_in : In (n_submodel, submodel_fields) model_types.
Proof. apply lookup_In. vm_compute. reflexivity. Qed.
(** An attribute does not have an abstract type that includes submodels. *)
Definition sub_submodel (i : nat) : bool :=
  match nth_error model_table i with Some (_, RClass c _ _ _) => str_eqb (name_of model_classes c) n_submodel | _ => false end.
Fixpoint safe (fuel : nat) (i : nat) : bool :=
  match fuel, nth_error model_table i with
  | S f, Some (_, RList j _) => safe f j
  | _, Some (_, RClass c _ _ subs) => if is_abstract model_classes c then negb (existsb sub_submodel subs) else true
  | _, Some (_, RList _ _) => false
  | _, _ => true
  end.
Definition attrs_safe (e : str * rtype nat) : bool :=
  match snd e with RClass _ attrs _ _ => forallb (fun a => safe 2 (a_type a)) attrs | _ => true end.
Lemma attrs_are_safe : forallb attrs_safe model_table = true. Proof. vm_compute. reflexivity. Qed.
Lemma submodel_is : is_a model_classes n_submodel (lit "Submodel") = true. Proof. vm_compute. reflexivity. Qed.
Lemma all_safe : forallb (safe 2) (seq 0 (length model_table)) = true. Proof. vm_compute. reflexivity. Qed.
Local Opaque model_table model_classes model_types inside.

Lemma closed_inside t x : Ty t x -> type_in inside t = true -> forall q c kvs,
  (exists z, (z = x \/ exists l, x = VList l /\ In z l) /\ Occurs z q (VObj c kvs)) -> str_in c inside = true.
Proof.
  intros T. induction T as [ | | | |e t xs N H IH|t|t x H IH| | |cs c fs kvs I J K H IH] using Typed_ind;
    intros Tin q c0 kvs0 (z & Z & O); cbn [type_in] in Tin.
  all: try (destruct Z as [->|(l & Z & _)]; [inversion O|discriminate Z]; fail).
  - destruct Z as [->|(l & [= <-] & Iz)]; [inversion O|]. eapply (IH z Iz Tin). exists z. split; [now left|exact O].
  - eapply (IH Tin). eauto.
  - destruct Z as [->|(l & Z & _)]; [|discriminate Z].
    assert (Ic : str_in c inside = true) by (apply (proj1 (forallb_forall _ _) Tin); exact I).
    assert (F : forall n t, In (n, t) fs -> type_in inside t = true).
    { intros n t In0. pose proof (proj1 (forallb_forall _ _) inside_closed _ J) as C. unfold closed in C. cbn [fst snd] in C. rewrite Ic in C. cbn [implb] in C.
      exact (proj1 (forallb_forall _ _) C _ In0). }
    assert (G : forall k x, In (k, x) kvs -> exists t, In (k, t) fs).
    { intros k x Ix. assert (Ik : In k (List.map fst fs)) by (rewrite <- K; apply in_map_iff; exists (k, x); auto).
      apply in_map_iff in Ik as ([k' t] & E & Ik). cbn [fst] in E. subst k'. eauto. }
    inversion O as [|c1 kvs1 k x q' y Ix NL O'|c1 kvs1 k l i x q' y Ix En O']; subst; [exact Ic| |].
    + destruct (G _ _ Ix) as (t & It). eapply (IH _ _ _ It Ix (F _ _ It)). exists x. eauto.
    + destruct (G _ _ Ix) as (t & It). eapply (IH _ _ _ It Ix (F _ _ It)). exists x. split; [right; exists l; split; [reflexivity|eapply nth_error_In; exact En]|exact O'].
Qed.

(** every submodel in the value is fine *)
Definition AllKnown (x : pyval) : Prop :=
  forall z q kvs, (z = x \/ exists l, x = VList l /\ In z l) -> Occurs z q (VObj n_submodel kvs) -> PathsKnown (VObj n_submodel kvs).
(** every submodel in an attribute of the object *)
Definition InnerKnown (x : pyval) : Prop := forall q kvs, q <> [] -> Occurs x q (VObj n_submodel kvs) -> PathsKnown (VObj n_submodel kvs).
Lemma simple_known x : (forall c kvs, x <> VObj c kvs) -> (forall l, x <> VList l) -> AllKnown x.
Proof.
  intros A B z q kvs [->|(l & E & _)] O; [|exfalso; exact (B l E)]. inversion O; subst; exfalso; eapply A; reflexivity.
Qed.
Lemma inner_all c kvs : InnerKnown (VObj c kvs) -> c <> n_submodel -> AllKnown (VObj c kvs).
Proof.
  intros I N z q kvs' [->|(l & E & _)] O; [|discriminate E]. destruct q as [|s q]; [inversion O; subst; now contradiction N|].
  eapply I; [|exact O]. discriminate.
Qed.

Section Parser.
  Variable V : Type.
  Variable A : adapter V.
  Variable repr : str -> str.
  Hypothesis H_nonempty : forall v l, ad_list A false v = AOk l -> l <> [].
  Notation run := (parse V A model_classes model_table repr model_post_parse).

  Section Rec.
    Variable rec : nat -> parser V.
    Hypothesis rec_grows : forall i p v r, Grows r (rec i p v r).
    Hypothesis rec_known : forall i p v x, safe 2 i = true -> rec i p v [] = Val (x, []) -> AllKnown x.
    Lemma attrs_known attrs obj p : forall xs, (forall a, In a attrs -> safe 2 (a_type a) = true) -> parse_attrs V rec attrs obj p [] = Val (xs, []) ->
      forall k x, In (k, x) xs -> AllKnown x.
    Proof.
      induction attrs as [|a attrs IH]; intros xs S; cbn [parse_attrs]; [intros [= <-] k x []|].
      set (o := match lookup (json_name a) obj with Some v => _ | None => _ end).
      destruct o as [[x r]|e] eqn:F; cbn [obind]; [|discriminate].
      destruct (parse_attrs V rec attrs obj p r) as [[ys r2]|e] eqn:G; cbn [obind]; [|discriminate].
      intros [= <- ->]. assert (r = []) by (eapply grown_nil; [|exact G]; now apply attrs_grows). subst r.
      intros k y [[= <- <-]|I]; [|eapply IH; eauto; intros b Ib; apply S; now right].
      unfold o in F. destruct (lookup (json_name a) obj) as [v|]; [eapply rec_known; [|exact F]; apply S; now left|].
      destruct (a_required a); [discriminate|]. injection F as <-. apply simple_known; discriminate.
    Qed.
    Lemma items_known ty : safe 2 ty = true -> forall p l i xs, parse_items V rec ty p i l [] = Val (xs, []) -> forall x, In x xs -> AllKnown x.
    Proof.
      intros S p l. induction l as [|v l IH]; intros i xs; cbn [parse_items]; [intros [= <-] x []|].
      destruct (rec ty (p ++ [SIdx i]) v []) as [[x r]|e] eqn:E; cbn [obind]; [|discriminate].
      destruct (parse_items V rec ty p (Datatypes.S i) l r) as [[ys r2]|e] eqn:F; cbn [obind]; [|discriminate].
      intros [= <- ->]. assert (r = []) by (eapply grown_nil; [|exact F]; now apply items_grows). subst r.
      intros y [<-|I]; [eapply rec_known; [exact S|exact E]|eapply IH; eauto].
    Qed.
    Lemma concrete_known k c attrs static subs p v x : In (k, RClass c attrs static subs) model_table ->
      parse_concrete V A model_classes rec c attrs static p v [] = Val (x, []) -> InnerKnown x /\ exists kvs, x = VObj (name_of model_classes c) kvs.
    Proof.
      intros I. unfold parse_concrete. destruct (ad_object A v) as [obj| |]; try discriminate.
      destruct (check_model_type V A model_classes c p v []) as [r|] eqn:E; cbn [obind]; [|discriminate].
      destruct (parse_attrs V rec attrs obj p r) as [[args r2]|] eqn:F; cbn [obind]; [|discriminate].
      intros [= <- N]. apply app_eq_nil in N as [-> N].
      assert (r = []) by (eapply grown_nil; [|exact F]; now apply attrs_grows). subst r. split; [|eauto].
      pose proof (proj1 (forallb_forall _ _) attrs_are_safe _ I) as S. unfold attrs_safe in S. cbn [snd] in S.
      pose proof (attrs_known attrs obj p args (proj1 (forallb_forall _ _) S) F) as K.
      assert (K' : forall n y, In (n, y) (args ++ static) -> AllKnown y).
      { intros n y Iy. apply in_app_or in Iy as [Iy|Iy]; [exact (K n y Iy)|]. rewrite (types_static _ _ _ _ _ _ _ I Iy). apply simple_known; discriminate. }
      intros q kvs Nq O. inversion O as [|c1 kvs1 n x q' y Ix NL O'|c1 kvs1 n l i x q' y Ix En O']; subst; [now contradiction Nq| |].
      - exact (K' _ _ Ix x q' kvs (or_introl eq_refl) O').
      - apply (K' _ _ Ix x q' kvs); [|exact O']. right. exists l. split; [reflexivity|eapply nth_error_In; exact En].
    Qed.
  End Rec.

  Lemma safe_item f j k item e : nth_error model_table j = Some (k, RList item e) -> safe (S f) j = true -> safe f item = true.
  Proof. intros E. cbn [safe]. rewrite E. auto. Qed.
  Lemma safe_more f i : safe f i = true -> safe (S f) i = true.
  Proof.
    revert i. induction f as [|f IH]; intros i.
    - cbn [safe]. destruct (nth_error model_table i) as [[k []]|]; auto. discriminate.
    - intros H. cbn [safe] in *. destruct (nth_error model_table i) as [[k []]|]; auto.
  Qed.
  Lemma submodel_known x0 y : Ty (TyObj [n_submodel]) y -> submodel_post_parse x0 = Val y -> AllKnown y.
  Proof.
    intros Ty' E. pose proof (submodel_post_sets _ _ E) as K.
    apply typed_obj in Ty' as (c & fs & kvs' & -> & [<-|[]] & J & L & M).
    assert (fs = submodel_fields) by (eapply fields_same; [exact J|exact submodel_fields_in]). subst fs.
    intros z q kvs0 [->|(l & Z & _)] O; [|discriminate Z]. 
    assert (B : forall n x q' z', In (n, x) kvs' -> (z' = x \/ exists l, x = VList l /\ In z' l) -> Occurs z' q' (VObj n_submodel kvs0) -> False).
    { intros n x q' z' Ix Z' O'. assert (Ik : In n (List.map fst submodel_fields)) by (rewrite <- L; apply in_map_iff; exists (n, x); auto).
      apply in_map_iff in Ik as ([k' t] & Ek & Ik). cbn [fst] in Ek. subst k'.
      pose proof (proj1 (forallb_forall _ _) inside_fields _ Ik) as F. cbn [snd] in F.
      pose proof (closed_inside t x (M _ _ _ Ik Ix) F q' n_submodel kvs0) as C. rewrite inside_no_submodel in C. discriminate C. eauto. }
    inversion O as [|c1 kvs1 n x q' y Ix NL O'|c1 kvs1 n l i x q' y Ix En O']; subst; [exact K| |]; exfalso.
    - eapply (B _ _ _ x Ix); eauto.
    - eapply (B _ _ _ x Ix); [|exact O']. right. exists l. split; [reflexivity|eapply nth_error_In; exact En].
  Qed.
  Theorem parse_known f : forall i p v x, run f i p v [] = Val (x, []) -> InnerKnown x /\ (safe 2 i = true -> AllKnown x).
  Proof.
    induction f as [|f IH]; intros i p v x E; [discriminate E|].
    assert (G : forall i p v r, Grows r (run f i p v r)) by (intros; apply parse_grows).
    assert (R : forall i p v x, safe 2 i = true -> run f i p v [] = Val (x, []) -> AllKnown x) by (intros i' p' v' x' S' E'; now apply (IH _ _ _ _ E')).
    assert (Leaf : forall x, (forall c kvs, x <> VObj c kvs) -> (forall l, x <> VList l) -> InnerKnown x /\ (safe 2 i = true -> AllKnown x)).
    { intros y Y1 Y2. split; [|intros _; now apply simple_known]. intros q kvs N O. exact (simple_known y Y1 Y2 y q kvs (or_introl eq_refl) O). }
    pose proof E as E0. cbn [parse] in E. destruct (nth_error model_table i) as [[k ty]|] eqn:Ei; [|discriminate].
    destruct ty as [| | | | | |c|c|c attrs static subs|item e]; try discriminate.
    - unfold parse_string in E. destruct (ad_string A v); try discriminate. injection E as <-. apply Leaf; discriminate.
    - unfold parse_bool in E. destruct (ad_bool A v); try discriminate. injection E as <-. apply Leaf; discriminate.
    - injection E as <-. apply Leaf; discriminate.
    - unfold parse_enum in E. destruct (ad_string A v) as [s| |]; try discriminate. destruct (kind_of model_classes c) as [ms| | |]; try discriminate.
      destruct (find (fun m => str_eqb (snd m) s) ms) as [m|] eqn:F; [|discriminate]. injection E as <-. apply Leaf; discriminate.
    - unfold parse_sfv in E. destruct (ad_string A v) as [s| |]; try discriminate.
      destruct (kind_of model_classes c); try discriminate. destruct (sfv_construct s0 s); try discriminate. injection E as <-. apply Leaf; discriminate.
    - assert (I : In (k, RClass c attrs static subs) model_table) by (eapply nth_error_In; exact Ei).
      destruct (is_abstract model_classes c) eqn:Ab.
      + unfold parse_abstract in E. destruct (ad_model_type A v) as [m| |]; try discriminate.
        destruct (find_subclass model_classes model_table (mt_name m) subs) as [[[c' attrs'] static']|] eqn:F; [|discriminate].
        destruct (find_subclass_in _ _ _ _ _ _ _ F) as (i' & k' & ss & I' & E').
        destruct (concrete_known _ G R _ _ _ _ _ _ _ _ (nth_error_In _ _ E') E) as [K (kvs & ->)]. split; [exact K|].
        intros S. cbn [safe] in S. rewrite Ei, Ab in S. apply inner_all; [exact K|]. intros N.
        apply negb_true_iff in S. apply Bool.not_true_iff_false in S. apply S. apply existsb_exists. exists i'. split; [exact I'|].
        unfold sub_submodel. rewrite E'. now apply str_eqb_spec.
      + destruct (parse_concrete V A model_classes (run f) c attrs static p v []) as [[o r]|] eqn:Eo; cbn [obind] in E; [|discriminate].
        assert (r = []) by (eapply (grown_nil r (finish_ model_post_parse o r)); [apply finish_grows|exact E]). subst r.
        destruct (concrete_known _ G R _ _ _ _ _ _ _ _ I Eo) as [K (kvs & ->)].
        destruct (model_post_parse (name_of model_classes c)) as [g|] eqn:Eg.
        * destruct (g (VObj (name_of model_classes c) kvs)) as [y|] eqn:Ey; cbn [obind] in E; [|discriminate]. injection E as <-.
          unfold model_post_parse in Eg. destruct (is_a model_classes (name_of model_classes c) (lit "Submodel")) eqn:Es; [|discriminate].
          injection Eg as <-. apply is_a_submodel in Es.
          assert (Ty' : Ty (TyObj [n_submodel]) y).
          { rewrite <- Es. eapply (model_parse_typed V A repr (S f) i); [exact H_nonempty| |exact E0]. unfold ptype_of. cbn [ptype_at]. rewrite Ei, Ab. reflexivity. }
          pose proof (submodel_known _ _ Ty' Ey) as Kn. split; [|auto]. intros q kvs' _ O. exact (Kn y q kvs' (or_introl eq_refl) O).
        * injection E as <-. split; [exact K|]. intros _. apply inner_all; [exact K|]. intros N. unfold model_post_parse in Eg. rewrite N in Eg. 
          rewrite submodel_is in Eg. discriminate Eg.
    - unfold parse_list in E. destruct (ad_list A e v) as [l| |] eqn:El; try discriminate.
      destruct (parse_items V (run f) item p 0 l []) as [[xs r]|] eqn:F; cbn [obind] in E; [|discriminate]. 
      assert (r = [] /\ x = VList xs) as [-> ->] by (split; congruence). split; [intros q kvs _ O; inversion O|].
      intros S z q kvs [->|(l' & [= <-] & Iz)] O; [inversion O|]. apply (safe_item 1 _ _ _ _ Ei), safe_more in S.
      exact (items_known _ G R item S p l 0 xs F z Iz z q kvs (or_introl eq_refl) O).
  Qed.
End Parser.
