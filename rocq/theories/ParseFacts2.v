(** The parser for the classes of model.py. *)
From Coq Require Import PeanoNat String List NArith Bool Lia Permutation.
From Verif Require Import PyStr PyStrFacts PyBase PyXml PyVal Regex DataTypesModel DataTypesSpec DataTypesFacts DataTypesFacts2 DataTypesFacts3 DataTypesFacts4 DataTypesFacts5.
From Verif Require Import ReflectModel ReflectFacts MetaModel AdapterModel ParseModel MetaSpec MetaFacts ParseSpec ParseFacts ConstraintModel.
Import ListNotations.
Local Open Scope list_scope.

(** * Constructing strings raises nothing but ValueErrors *)
Lemma date_time_raises s e : is_xs_date_time s = Raise e -> e = ValueError.
Proof.
  intros H. pose proof (date_time_cases XsdTimezoneOpt (ropt r_timezone) s zone_no_t lang_timezone_opt) as C. cbn beta zeta in C.
  destruct C as [(t & r & ds & y & m & d & E & R & L & V)|[_ V]].
  - change (is_xs_date_time s = date_verdict ds y m d) in V. rewrite V in H.
    apply date_verdict_raise in H as [N ->]; [reflexivity|eapply date_time_lex_range; eauto].
  - change (is_xs_date_time s = Val false) in V. congruence.
Qed.
Lemma date_time_utc_raises s e : is_xs_date_time_utc s = Raise e -> e = ValueError.
Proof.
  intros H. pose proof (date_time_cases UtcZone r_timezone_utc s utc_no_t lang_timezone_utc) as C. cbn beta zeta in C.
  destruct C as [(t & r & ds & y & m & d & E & R & L & V)|[_ V]].
  - change (is_xs_date_time_utc s = date_verdict ds y m d) in V. rewrite V in H.
    apply date_verdict_raise in H as [N ->]; [reflexivity|eapply date_time_lex_range; eauto].
  - change (is_xs_date_time_utc s = Val false) in V. congruence.
Qed.
Lemma string_types_built c t f s e : In (c, t) string_types -> kind_of model_classes c = KSfv f -> sfv_construct f s <> Crashed e.
Proof.
  intros I K H. unfold sfv_construct in H.
  assert (X : forall check msg, s_check f = Some (check, msg) -> forall e, check s = Raise e -> e = ValueError).
  { clear H. unfold string_types in I. simpl in I.
    repeat (destruct I as [I|I]; [injection I as <- <-;
    cbv [kind_of class_of nth_error model_classes c_kind
      k_BlobString k_ContentType k_IdentifierString k_LabelString k_MessageTopicString k_NameTypeString k_PathString k_RevisionString k_VersionString k_ValueDataType k_DateTime k_DateTimeUtc k_Duration k_DataType k_ValueType k_ValueTypeIec61360 k_NonEmptyString
      d_BlobString d_ContentType d_IdentifierString d_LabelString d_MessageTopicString d_NameTypeString d_PathString d_RevisionString d_VersionString d_ValueDataType d_DateTime d_DateTimeUtc d_Duration d_DataType d_ValueType d_ValueTypeIec61360 d_NonEmptyString] in K;
    injection K as <-; cbn [s_check]; intros check msg E; try discriminate E;
    injection E as <- <-; intros x; first [discriminate | apply date_time_raises | apply date_time_utc_raises]|]).
    destruct I. }
  destruct (match s_min f with Some m => _ | None => _ end); [discriminate|].
  destruct (match s_max f with Some m => _ | None => _ end); [discriminate|].
  destruct (negb _); [discriminate|].
  destruct (match s_pattern f with Some _ => _ | None => _ end); [discriminate|].
  destruct (s_check f) as [[check msg]|]; [|discriminate].
  destruct (check s) as [[]|x] eqn:E; try discriminate. rewrite (X _ _ eq_refl _ E) in H. discriminate.
Qed.

(** every string type of the table is one of these *)
Definition strings_covered : bool :=
  forallb (fun e => match snd e with
                    | RSfv c => existsb (fun x => Nat.eqb (fst x) c) string_types
                    | _ => true
                    end) model_table.
Lemma table_built i k c f s e : nth_error model_table i = Some (k, RSfv c) -> kind_of model_classes c = KSfv f ->
  sfv_construct f s <> Crashed e.
Proof.
  intros E K. assert (X : strings_covered = true) by (vm_compute; reflexivity). unfold strings_covered in X.
  rewrite forallb_forall in X. specialize (X _ (nth_error_In _ _ E)). cbn [snd] in X. apply existsb_exists in X.
  destruct X as ([c' t] & I & Ec). apply Nat.eqb_eq in Ec. cbn [fst] in Ec. subst c'. eapply string_types_built; eauto.
Qed.
Lemma model_names : NoDup (List.map gc_name aas_v3_0_checked).
Proof. apply nodupb_spec. vm_compute. reflexivity. Qed.

(** * Paths of submodel elements *)
Lemma spec_name_cases k : spec_name k = k \/ In (spec_name k) (lits lang_classes).
Proof.
  unfold spec_name. destruct (find _ _) as [p|] eqn:F; [right|now left]. apply find_some in F. destruct F as [I _].
  simpl in I. repeat (destruct I as [<-|I]; [apply str_in_spec; vm_compute; reflexivity|]). destruct I.
Qed.

Definition n_sme : str := lit "SubmodelElement".
Definition sme_names : list str := Eval vm_compute in
  flat_map (fun c => if str_eqb (gc_name c) n_sme then gc_subclasses c else []) aas_v3_0_checked.
Definition has_text (c : gclass) (n : string) : bool :=
  existsb (fun a => if str_eqb (g_name a) (lit n) then match g_type a with GText _ => true | _ => false end else false) (gc_attrs c).
Definition has_elements (c : gclass) (n : string) : bool :=
  existsb (fun a => if str_eqb (g_name a) (lit n)
                    then match g_type a with GList (GObj x) => str_eqb x n_sme | _ => false end else false) (gc_attrs c).
Definition sme_class_ok (c : gclass) : bool :=
  if str_in (gc_name c) sme_names then
    if has_text c "idShort" then
      if negb (str_in (gc_name c) (lits lang_classes)) then
        if is_a model_classes (gc_name c) n_sme then
          if is_a model_classes (gc_name c) (lit "SubmodelElementCollection") || is_a model_classes (gc_name c) (lit "SubmodelElementList")
          then has_elements c "value" else true
        else false
      else false
    else false
  else true.
Definition no_paths (c : gclass) : bool :=
  forallb (fun a => negb (str_eqb (snake_case (g_name a)) (lit "id_short_path"))) (gc_attrs c)
  && nodupb (List.map (fun a => snake_case (g_name a)) (gc_attrs c)).
Lemma sme_classes c : In c aas_v3_0_checked -> sme_class_ok c = true.
Proof. apply forallb_forall. vm_compute. reflexivity. Qed.
Lemma no_path_attrs c : In c aas_v3_0_checked -> no_paths c = true.
Proof. apply forallb_forall. vm_compute. reflexivity. Qed.
Fixpoint strs_eqb (a b : list str) : bool :=
  match a, b with
  | [], [] => true
  | x :: a', y :: b' => str_eqb x y && strs_eqb a' b'
  | _, _ => false
  end.
Lemma strs_eqb_eq a : forall b, strs_eqb a b = true -> a = b.
Proof.
  induction a as [|x a IH]; intros [|y b]; simpl; try discriminate; [reflexivity|]. rewrite andb_true_iff.
  intros [E C]. apply str_eqb_spec in E. apply IH in C. congruence.
Qed.
Definition sme_abstract_ok (c : gclass) : bool :=
  if str_eqb (gc_name c) n_sme then gc_abstract c && strs_eqb (gc_subclasses c) sme_names else true.
Lemma sme_abstract c : In c aas_v3_0_checked -> gc_name c = n_sme -> gc_abstract c = true /\ gc_subclasses c = sme_names.
Proof.
  intros I N. assert (X : forallb sme_abstract_ok aas_v3_0_checked = true) by (vm_compute; reflexivity).
  apply (proj1 (forallb_forall _ _) X) in I. unfold sme_abstract_ok in I. rewrite (proj2 (str_eqb_spec _ _) N) in I.
  apply andb_true_iff in I. destruct I as [A B]. apply strs_eqb_eq in B. auto.
Qed.

Lemma has_text_spec c n : has_text c n = true -> exists a t, In a (gc_attrs c) /\ g_name a = lit n /\ g_type a = GText t.
Proof.
  unfold has_text. rewrite existsb_exists. intros (a & I & H). destruct (str_eqb (g_name a) (lit n)) eqn:E; [|discriminate].
  apply str_eqb_spec in E. destruct (g_type a) as [t| | | | |] eqn:G; try discriminate. eauto.
Qed.
Lemma has_elements_spec c n : has_elements c n = true ->
  exists a, In a (gc_attrs c) /\ g_name a = lit n /\ g_type a = GList (GObj n_sme).
Proof.
  unfold has_elements. rewrite existsb_exists. intros (a & I & H). destruct (str_eqb (g_name a) (lit n)) eqn:E; [|discriminate].
  apply str_eqb_spec in E. destruct (g_type a) as [| | | | |[| | | |x|]] eqn:G; try discriminate.
  apply str_eqb_spec in H. subst. eauto.
Qed.

(** [_set_path] with named loops *)
Section Loops.
  Variable rec : pyval -> id_short_path -> outcome pyval.
  Variable collection : bool.
  Variable inner : bool.
  Variable p : id_short_path.
  Fixpoint path_items (i : nat) (l : list pyval) : outcome (list pyval) :=
    match l with
    | [] => Val []
    | y :: l' =>
        let* t := if collection then let* n := getattr y (lit "id_short") in token_of n else Val (TIndex i) in
        let* y' := rec y (path_add p t) in
        let* ys := path_items (S i) l' in
        Val (y' :: ys)
    end.
  Definition path_value (x : pyval) : outcome pyval :=
    match x with
    | VList l => let* l' := path_items 0 l in Val (VList l')
    | VNone => Val VNone
    | _ => Raise TypeError
    end.
  Fixpoint path_attrs (kvs : list (str * pyval)) : outcome (list (str * pyval)) :=
    match kvs with
    | [] => Val []
    | (k, x) :: r =>
        let* x' := if str_eqb k (lit "value") && inner then path_value x else Val x in
        let* r' := path_attrs r in
        Val ((k, x') :: r')
    end.
End Loops.
Definition is_collection (c : str) : bool := is_a model_classes c (lit "SubmodelElementCollection").
Definition is_list (c : str) : bool := is_a model_classes c (lit "SubmodelElementList").
Lemma set_path_eq c kvs p : set_path (VObj c kvs) p =
  if is_a model_classes c (lit "SubmodelElement") then
    let* kvs := path_attrs set_path (is_collection c) (is_collection c || is_list c) p kvs in
    setattr (VObj c kvs) (lit "id_short_path") (VPath p)
  else Raise AttributeError.
Proof. reflexivity. Qed.

Section SetPath.
  Variable V : Type.
  Variable W : view V.
  Notation M := aas_v3_0_checked.
  Notation Carries := (Carries W M).

  Definition PathSet (x : pyval) : Prop := forall v p, Carries (GObj n_sme) v x ->
    exists x', set_path x p = Val x' /\ Carries (GObj n_sme) v x'.

  Lemma lookup_keys {B} k (kvs : list (str * B)) : In k (List.map fst kvs) -> exists x, lookup k kvs = Some x /\ In (k, x) kvs.
  Proof.
    intros I. destruct (lookup k kvs) as [x|] eqn:L; [exists x; split; [reflexivity|now apply lookup_In]|].
    apply lookup_None in L. contradiction.
  Qed.

  Lemma sme_expected v c : Expected W M n_sme v c -> In c M /\ str_in (gc_name c) sme_names = true.
  Proof.
    intros X. destruct X as [c I0 N0 B0|a c t I0 N0 B0 T0 S0 J0 K0].
    - destruct (sme_abstract _ I0 N0) as [A _]. rewrite A in B0. discriminate B0.
    - destruct (sme_abstract _ I0 N0) as [_ S]. split; [exact J0|]. apply str_in_spec. rewrite S in S0. rewrite K0. exact S0.
  Qed.

  (** what is known about an object that carries a submodel element *)
  Lemma sme_object v x : Carries (GObj n_sme) v x -> exists c k kvs attrs, x = VObj k attrs /\
    Expected W M n_sme v c /\ In c M /\ gc_name c = spec_name k /\ spec_name k = k /\ sme_class_ok c = true /\
    str_in (gc_name c) sme_names = true /\ w_members W v = Some kvs.
  Proof.
    intros H. inversion H as [| | | | |n v' c k kvs attrs X1 X2 X3 X4 X5 X6 X7 X8]; subst.
    assert (Y : In c M /\ str_in (gc_name c) sme_names = true).
    { now apply sme_expected with (v := v). }
    destruct Y as [Ic Sc]. pose proof (sme_classes c Ic) as Ok.
    exists c, k, kvs, attrs. apply conj; [reflexivity|]. apply conj; [exact X1|]. apply conj; [exact Ic|]. apply conj; [exact X2|].
    apply conj; [|apply conj; [exact Ok|apply conj; [exact Sc|exact X3]]].
    destruct (spec_name_cases k) as [E|E]; [exact E|]. exfalso. unfold sme_class_ok in Ok. rewrite Sc in Ok.
    destruct (has_text c "idShort"); [|discriminate]. rewrite X2 in Ok. apply str_in_spec in E. rewrite E in Ok. discriminate.
  Qed.

  Lemma carries_attr n v c k attrs a : Carries (GObj n) v (VObj k attrs) -> Expected W M n v c -> In a (gc_attrs c) ->
    exists x, lookup (snake_case (g_name a)) attrs = Some x /\ In (snake_case (g_name a), x) attrs /\
      (x = VNone \/ exists w, Carries (g_type a) w x).
  Proof.
    intros H Ex Ia. inversion H as [| | | | |n' v' c' k' kvs attrs' X1 X2 X3 X4 X5 X6 X7 X8]; subst.
    assert (c' = c) by (eapply (expected_fun _ M W model_names); eauto). subst c'.
    destruct (lookup_keys _ _ (X5 a Ia)) as (x & Lx & Ix). exists x. split; [exact Lx|]. split; [exact Ix|].
    destruct (lookup (g_name a) kvs) as [w|] eqn:L.
    - specialize (X8 a w Ia L). unfold attribute_of in X8. rewrite Lx in X8. eauto.
    - specialize (X7 a Ia L). unfold attribute_of in X7. rewrite Lx in X7. auto.
  Qed.
  Lemma sme_token v x : Carries (GObj n_sme) v x -> exists n t, getattr x (lit "id_short") = Val n /\ token_of n = Val t.
  Proof.
    intros H. destruct (sme_object v x H) as (c & k & kvs & attrs & -> & Ex & Ic & N & Sk & Ok & Sc & Mm).
    unfold sme_class_ok in Ok. rewrite Sc in Ok. destruct (has_text c "idShort") eqn:Ht; [|discriminate].
    destruct (has_text_spec _ _ Ht) as (a & t & Ia & Na & Ta).
    destruct (carries_attr _ _ _ _ _ a H Ex Ia) as (x & Lx & _ & Cx).
    unfold getattr. rewrite Na in Lx. change (snake_case (lit "idShort")) with (lit "id_short") in Lx. rewrite Lx.
    destruct Cx as [->|(w & Cw)]; [exists VNone, TNone; split; reflexivity|]. rewrite Ta in Cw.
    inversion Cw; subst. eexists _, _. split; reflexivity.
  Qed.

  Lemma path_items_ok col p l : forall i ws, Forall PathSet l -> Forall2 (Carries (GObj n_sme)) ws l ->
    exists l', path_items set_path col p i l = Val l' /\ Forall2 (Carries (GObj n_sme)) ws l'.
  Proof.
    induction l as [|y l IH]; intros i ws FP F2.
    - inversion F2; subst. exists []. split; [reflexivity|constructor].
    - inversion F2 as [|w y' ws' l' C1 C2]; subst. inversion FP as [|? ? P1 P2]; subst. cbn [path_items].
      assert (X : exists t, (if col then let* n := getattr y (lit "id_short") in token_of n else Val (TIndex i)) = Val t).
      { destruct col; [|eauto]. destruct (sme_token _ _ C1) as (n & t & E1 & E2). rewrite E1. cbn [obind]. eauto. }
      destruct X as (t & ->). cbn [obind]. destruct (P1 w (path_add p t) C1) as (y' & Ey & Cy). rewrite Ey. cbn [obind].
      destruct (IH (S i) ws' P2 C2) as (l' & El & Cl). rewrite El. cbn [obind]. exists (y' :: l'). split; [reflexivity|].
      now constructor.
  Qed.

  Lemma carries_list g v l : Carries (GList g) v (VList l) <-> exists ws, w_items W v = Some ws /\ Forall2 (Carries g) ws l.
  Proof.
    split.
    - intros H. inversion H as [| | | |g' v' ws xs E L F|]; subst. exists ws. split; [exact E|]. clear E H. revert l L F.
      induction ws as [|w ws IH]; intros [|x l] L F; try discriminate; constructor.
      + apply (F 0); reflexivity.
      + apply IH; [now injection L|]. intros i a y. apply (F (S i)).
    - intros (ws & E & F). eapply Ca_list; [exact E|clear E; induction F; simpl; congruence|].
      intros i a x Ea Ex. clear E. revert i Ea Ex. induction F as [|w y ws l H F IH]; intros [|i]; simpl; try discriminate.
      + intros [= <-] [= <-]. exact H.
      + apply IH.
  Qed.
  Lemma carries_list_form g v x : Carries (GList g) v x -> exists l, x = VList l.
  Proof. intros H. inversion H; subst. eauto. Qed.
  Lemma carries_text_form t v x : Carries (GText t) v x -> exists k s, x = VSfv k s.
  Proof. intros H. inversion H; subst. eauto. Qed.
  Lemma path_value_ok col p x : (forall l, x = VList l -> Forall PathSet l) ->
    (x = VNone \/ exists w, Carries (GList (GObj n_sme)) w x) ->
    exists x', path_value set_path col p x = Val x' /\
      (x = VNone -> x' = VNone) /\ (forall w, Carries (GList (GObj n_sme)) w x -> Carries (GList (GObj n_sme)) w x').
  Proof.
    intros FP [->|(w & C)].
    - exists VNone. split; [reflexivity|]. split; auto.
    - inversion C as [| | | |g' v' ws xs E L F|]; subst. cbn [path_value]. apply carries_list in C.
      destruct C as (ws' & E' & F2). destruct (path_items_ok col p xs 0 ws' (FP _ eq_refl) F2) as (l' & El & Fl). rewrite El. cbn [obind].
      exists (VList l'). split; [reflexivity|]. split; [discriminate|]. intros w' C'. apply carries_list in C'.
      destruct C' as (ws2 & E2 & F3). destruct (path_items_ok col p xs 0 ws2 (FP _ eq_refl) F3) as (l2 & El2 & Fl2).
      assert (l2 = l') by congruence. subst l2. apply carries_list. eauto.
  Qed.
  Lemma path_attrs_ok col inner p kvs :
    (inner = true -> forall x, In (lit "value", x) kvs ->
       (forall l, x = VList l -> Forall PathSet l) /\ (x = VNone \/ exists w, Carries (GList (GObj n_sme)) w x)) ->
    exists kvs', path_attrs set_path col inner p kvs = Val kvs' /\ List.map fst kvs' = List.map fst kvs /\
      (forall k, k <> lit "value" \/ inner = false -> lookup k kvs' = lookup k kvs) /\
      (inner = true -> forall x, lookup (lit "value") kvs = Some x -> exists x', lookup (lit "value") kvs' = Some x' /\
         (x = VNone -> x' = VNone) /\ (forall w, Carries (GList (GObj n_sme)) w x -> Carries (GList (GObj n_sme)) w x')).
  Proof.
    induction kvs as [|[k x] kvs IH]; intros H.
    - exists []. repeat split; auto. intros _ x. discriminate.
    - destruct IH as (kvs' & E & K & O & Vv). { intros Z y Iy. apply H; [exact Z|now right]. }
      cbn [path_attrs]. destruct (str_eqb k (lit "value") && inner) eqn:B.
      + apply andb_true_iff in B. destruct B as [Ek ->]. apply str_eqb_spec in Ek. subst k.
        destruct (H eq_refl x (or_introl eq_refl)) as [H1 H2]. destruct (path_value_ok col p x H1 H2) as (x' & Ex & N & C).
        rewrite Ex. cbn [obind]. rewrite E. cbn [obind]. exists ((lit "value", x') :: kvs'). split; [reflexivity|]. split; [|split].
        * cbn [List.map fst]. now rewrite K.
        * intros k [Nk|]; [|discriminate]. cbn [lookup]. destruct (str_eqb k (lit "value")) eqn:Ek; [apply str_eqb_spec in Ek; contradiction|].
          apply O. now left.
        * intros _ y. cbn [lookup]. rewrite (proj2 (str_eqb_spec _ _) eq_refl). intros Ey. assert (x = y) by congruence. subst y.
          exists x'. auto.
      + cbn [obind]. rewrite E. cbn [obind]. exists ((k, x) :: kvs'). split; [reflexivity|]. split; [|split].
        * cbn [List.map fst]. now rewrite K.
        * intros k' Hk. cbn [lookup]. destruct (str_eqb k' k); [reflexivity|]. now apply O.
        * intros -> y. rewrite andb_true_r in B. cbn [lookup].
          destruct (str_eqb (lit "value") k) eqn:Ek; [apply str_eqb_spec in Ek; subst k; rewrite (proj2 (str_eqb_spec _ _) eq_refl) in B; discriminate|].
          now apply Vv.
  Qed.

  (** changing attributes to ones that carry the same content *)
  Lemma carries_change n v c k attrs attrs' : Carries (GObj n) v (VObj k attrs) -> Expected W M n v c ->
    NoDup (List.map fst attrs') ->
    (forall m, In m (List.map fst attrs) -> In m (List.map fst attrs')) ->
    (forall m, In m (List.map fst attrs') -> In m (List.map fst attrs) \/ m = lit "id_short_path") ->
    (forall a, In a (gc_attrs c) -> forall x, lookup (snake_case (g_name a)) attrs = Some x ->
       exists x', lookup (snake_case (g_name a)) attrs' = Some x' /\ (x = VNone -> x' = VNone) /\
         (forall w, Carries (g_type a) w x -> Carries (g_type a) w x')) ->
    Carries (GObj n) v (VObj k attrs').
  Proof.
    intros H Ex N K1 K2 Ch. inversion H as [| | | | |n' v' c' k' kvs attrs0 X1 X2 X3 X4 X5 X6 X7 X8]; subst.
    assert (c' = c) by (eapply (expected_fun _ M W model_names); eauto). subst c'.
    eapply Ca_obj; eauto.
    - intros m I. destruct (K2 m I) as [I'|I']; [auto|now right].
    - intros a Ia L. specialize (X7 a Ia L). unfold attribute_of in *. destruct (lookup_keys _ _ (X5 a Ia)) as (x & Lx & _).
      rewrite Lx in X7. destruct (Ch a Ia x Lx) as (x' & Lx' & Nx & _). rewrite Lx'. auto.
    - intros a w Ia L. specialize (X8 a w Ia L). unfold attribute_of in *. destruct (lookup_keys _ _ (X5 a Ia)) as (x & Lx & _).
      rewrite Lx in X8. destruct (Ch a Ia x Lx) as (x' & Lx' & _ & Cx). rewrite Lx'. auto.
  Qed.

  Lemma assign_in_keys {B} k (v : B) l m : In m (List.map fst (assign k v l)) <-> m = k \/ In m (List.map fst l).
  Proof.
    induction l as [|[k' x] l IH]; cbn [assign List.map fst In]; [intuition congruence|].
    destruct (str_eqb k k') eqn:E; cbn [List.map fst In].
    - apply str_eqb_spec in E. subst. split; [tauto|]. intros [->|]; auto.
    - rewrite IH. tauto.
  Qed.
  Lemma assign_nodup {B} k (v : B) l : NoDup (List.map fst l) -> NoDup (List.map fst (assign k v l)).
  Proof.
    induction l as [|[k' x] l IH]; cbn [assign List.map fst]; intros N; [repeat constructor; tauto|].
    inversion N as [|? ? N1 N2]; subst. destruct (str_eqb k k') eqn:E; cbn [List.map fst]; constructor; auto.
    rewrite assign_in_keys. intros [->|I]; [|contradiction]. rewrite (proj2 (str_eqb_spec _ _) eq_refl) in E. discriminate.
  Qed.

  Lemma set_path_ok x : PathSet x.
  Proof.
    enough (X : PathSet x /\ forall l, x = VList l -> Forall PathSet l) by apply X.
    induction x as [| | | | | |l IH|c kvs IH| |] using pyval_ind';
      try (split; [intros ? ? H; destruct (sme_object _ _ H) as (? & ? & ? & ? & E & _); discriminate E|discriminate]).
    { split; [intros ? ? H; destruct (sme_object _ _ H) as (? & ? & ? & ? & E & _); discriminate E|].
      intros l' [= <-]. eapply Forall_impl; [|exact IH]. intros y [Y _]. exact Y. }
    split; [|discriminate]. intros v p H.
    destruct (sme_object v _ H) as (g & k & ms & attrs & E & Ex & Ig & Ng & Sk & Ok & Sc & Mm). injection E as <- <-.
    assert (Nd : NoDup (List.map fst kvs)) by (inversion H; assumption).
    rewrite set_path_eq. unfold sme_class_ok in Ok. rewrite Sc in Ok. destruct (has_text g "idShort"); [|discriminate].
    destruct (negb _); [|discriminate]. rewrite Ng, Sk in Ok.
    change (is_a model_classes c n_sme) with (is_a model_classes c (lit "SubmodelElement")) in Ok.
    destruct (is_a model_classes c (lit "SubmodelElement")); [|discriminate].
    fold (is_collection c) in Ok. fold (is_list c) in Ok.
    destruct (path_attrs_ok (is_collection c) (is_collection c || is_list c) p kvs) as (kvs' & Ek & Kk & Ko & Kv).
    { intros Z x Ix. rewrite Z in Ok. destruct (has_elements_spec _ _ Ok) as (a & Ia & Na & Ta).
      destruct (carries_attr _ _ _ _ _ a H Ex Ia) as (y & Ly & Iy & Cy). rewrite Na in Ly.
      change (snake_case (lit "value")) with (lit "value") in Ly. rewrite (lookup_nodup _ _ _ Nd Ix) in Ly. injection Ly as <-. split.
      - apply (proj1 (Forall_forall _ _) IH) in Ix. apply Ix.
      - rewrite Ta in Cy. exact Cy. }
    rewrite Ek. cbn [obind setattr]. eexists. split; [reflexivity|].
    pose proof (no_path_attrs g Ig) as Np. unfold no_paths in Np. apply andb_true_iff in Np. destruct Np as [Np Nn].
    rewrite forallb_forall in Np. eapply carries_change; [exact H|exact Ex| | | |].
    - apply assign_nodup. rewrite Kk. exact Nd.
    - intros m I. apply assign_in_keys. right. rewrite Kk. exact I.
    - intros m I. apply assign_in_keys in I. rewrite Kk in I. destruct I as [I|I]; [right; exact I|left; exact I].
    - intros a Ia x Lx. specialize (Np a Ia). apply negb_true_iff in Np.
      assert (Na : snake_case (g_name a) <> lit "id_short_path") by (intros Z; rewrite Z in Np; rewrite (proj2 (str_eqb_spec _ _) eq_refl) in Np; discriminate).
      rewrite (lookup_assign_other _ _ _ _ Na).
      destruct (is_collection c || is_list c) eqn:Inner; [|exists x; rewrite Ko by (right; reflexivity); apply conj; [exact Lx|apply conj; [exact (fun z => z)|exact (fun _ z => z)]]].
      destruct (str_eqb (snake_case (g_name a)) (lit "value")) eqn:Ev.
      + apply str_eqb_spec in Ev. rewrite Ev in *. destruct (Kv eq_refl x Lx) as (x' & Lx' & N' & C'). exists x'. split; [exact Lx'|]. split; [exact N'|].
        destruct (has_elements_spec _ _ Ok) as (b & Ib & Nb & Tb).
        assert (a = b) as ->; [|rewrite Tb; exact C']. apply nodupb_spec in Nn. eapply (nodup_inj (fun a => snake_case (g_name a))); [exact Nn|exact Ia|exact Ib|].
        cbv beta. rewrite Ev, Nb. reflexivity.
      + exists x. rewrite Ko; [apply conj; [exact Lx|apply conj; [exact (fun z => z)|exact (fun _ z => z)]]|]. left. intros Z. rewrite Z in Ev. rewrite (proj2 (str_eqb_spec _ _) eq_refl) in Ev. discriminate.
  Qed.
End SetPath.

(** * Submodel.post_parse *)
Definition n_submodel : str := lit "Submodel".
Definition submodel_class_ok (c : gclass) : bool :=
  if str_eqb (gc_name c) n_submodel then
    if negb (gc_abstract c) then
      if has_text c "idShort" then if has_text c "id" then
      if has_elements c "submodelElements" then
        existsb (fun a => if str_eqb (g_name a) (lit "id") then g_required a else false) (gc_attrs c)
      else false else false else false
    else false
  else true.
Lemma submodel_class c : In c aas_v3_0_checked -> submodel_class_ok c = true.
Proof. apply forallb_forall. vm_compute. reflexivity. Qed.
(** [Submodel] has no subclasses *)
Definition only_submodel (d : classdecl) : bool :=
  if is_a model_classes (c_name d) n_submodel then str_eqb (c_name d) n_submodel else true.
Lemma only_submodel_all d : In d model_classes -> only_submodel d = true.
Proof. apply forallb_forall. vm_compute. reflexivity. Qed.
Lemma class_named_from_In i P n c : class_named_from i P n = Some c -> exists d, In d P /\ c_name d = n.
Proof.
  revert i. induction P as [|d P IH]; intros i; simpl; [discriminate|]. destruct (str_eqb (c_name d) n) eqn:E.
  - intros _. apply str_eqb_spec in E. eauto.
  - intros H. destruct (IH _ H) as (d' & I & N). eauto.
Qed.
Lemma is_a_class P n cls : is_a P n cls = true -> exists d, In d P /\ c_name d = n.
Proof.
  unfold is_a, mro_names. unfold class_named. destruct (class_named_from 0 P n) eqn:E; [|discriminate].
  intros _. eapply class_named_from_In; eauto.
Qed.
Lemma is_a_submodel n : is_a model_classes n n_submodel = true -> n = n_submodel.
Proof.
  intros H. destruct (is_a_class _ _ _ H) as (d & I & N). pose proof (only_submodel_all d I) as O.
  unfold only_submodel in O. rewrite N, H in O. apply str_eqb_spec in O. exact O.
Qed.
Lemma spec_name_submodel : spec_name n_submodel = n_submodel.
Proof. vm_compute. reflexivity. Qed.

Section PostParse.
  Variable V : Type.
  Variable W : view V.
  Notation M := aas_v3_0_checked.

  Lemma set_paths_ok root l : forall ws, Forall2 (Carries W M (GObj n_sme)) ws l ->
    exists l', set_paths root l = Val l' /\ Forall2 (Carries W M (GObj n_sme)) ws l'.
  Proof.
    induction l as [|x l IH]; intros ws F; inversion F as [|w ? ws' ? C F']; subst.
    - exists []. split; [reflexivity|constructor].
    - cbn [set_paths]. destruct (sme_token V W _ _ C) as (n & t & -> & E). cbn [obind]. rewrite E. cbn [obind].
      destruct (set_path_ok V W x w (path_add root t) C) as (x' & -> & C'). cbn [obind].
      destruct (IH ws' F') as (l' & -> & F2). cbn [obind]. exists (x' :: l'). split; [reflexivity|now constructor].
  Qed.

  Lemma submodel_expected n v c k : Expected W M n v c -> gc_name c = spec_name k -> k = n_submodel ->
    In c M /\ gc_name c = n_submodel.
  Proof.
    intros X N ->. rewrite spec_name_submodel in N. split; [|exact N]. destruct X; assumption.
  Qed.

  Lemma submodel_post_ok g v kvs : Conforms W M (GObj g) v -> Carries W M (GObj g) v (VObj n_submodel kvs) ->
    exists x, submodel_post_parse (VObj n_submodel kvs) = Val x /\ Carries W M (GObj g) v x.
  Proof.
    intros C H. inversion H as [| | | | |n' v' c k ms attrs X1 X2 X3 X4 X5 X6 X7 X8]; subst.
    destruct (submodel_expected _ _ _ _ X1 X2 eq_refl) as [Ic Nc].
    pose proof (submodel_class c Ic) as Ok. unfold submodel_class_ok in Ok. rewrite (proj2 (str_eqb_spec _ _) Nc) in Ok.
    destruct (negb (gc_abstract c)); [|discriminate Ok].
    destruct (has_text c "idShort") eqn:H1; [|discriminate Ok]. destruct (has_text c "id") eqn:H2; [|discriminate Ok].
    destruct (has_elements c "submodelElements") eqn:H3; [|discriminate Ok].
    destruct (has_text_spec _ _ H1) as (a1 & t1 & I1 & N1 & T1). destruct (has_text_spec _ _ H2) as (a2 & t2 & I2 & N2 & T2).
    destruct (has_elements_spec _ _ H3) as (a3 & I3 & N3 & T3).
    destruct (carries_attr V W _ _ _ _ _ a1 H X1 I1) as (x1 & L1 & _ & C1). rewrite T1 in C1.
    destruct (carries_attr V W _ _ _ _ _ a3 H X1 I3) as (x3 & L3 & _ & C3). rewrite T3 in C3.
    rewrite N1 in L1. change (snake_case (lit "idShort")) with (lit "id_short") in L1.
    rewrite N3 in L3. change (snake_case (lit "submodelElements")) with (lit "submodel_elements") in L3.
    unfold submodel_post_parse. cbn [getattr]. rewrite L3. cbn [obind].
    destruct C3 as [->|(w & C3)]; [eexists; split; [reflexivity|exact H]|].
    destruct (carries_list_form V W _ _ _ C3) as (xs & ->). cbn [as_items obind]. rewrite L1. cbn [obind].
    pose proof C3 as C3'. apply carries_list in C3'. destruct C3' as (ws & Ei & F2).
    assert (Y : exists k s, lookup (lit "id") kvs = Some (VSfv k s)).
    { apply existsb_exists in Ok. destruct Ok as (a & Ia & Ra). destruct (str_eqb (g_name a) (lit "id")) eqn:En; [|discriminate Ra].
      apply str_eqb_spec in En. inversion C as [| | | | |n'' v'' c' ms' Y1 Y2 Y3 Y4 Y5 Y6]; subst.
      assert (c' = c) by (eapply (expected_fun _ M W model_names); eassumption). subst c'.
      assert (ms' = ms) by congruence. subst ms'.
      destruct (lookup (g_name a) ms) as [w'|] eqn:Ew; [|destruct (Y4 a Ia Ra Ew)].
      assert (Ea : g_name a = g_name a2) by (rewrite En, N2; reflexivity). rewrite Ea in Ew.
      specialize (X8 a2 w' I2 Ew). rewrite T2 in X8. unfold attribute_of in X8. rewrite N2 in X8.
      change (snake_case (lit "id")) with (lit "id") in X8.
      destruct (carries_text_form V W _ _ _ X8) as (kk & s & Ek). exists kk, s.
      destruct (lookup (lit "id") kvs) as [y|]; [rewrite Ek; reflexivity|discriminate Ek]. }
    destruct Y as (kk & s & Ly). rewrite Ly. cbn [obind raw_value].
    destruct (set_paths_ok (IdPath (match x1 with VSfv _ s => Some s | _ => None end) s []) xs ws F2) as (l' & El & Fl).
    rewrite El. cbn [obind setattr]. eexists. split; [reflexivity|].
    eapply carries_change; [exact H|exact X1| | | |].
    - apply assign_nodup. exact X4.
    - intros m I. apply assign_in_keys. right. exact I.
    - intros m I. apply assign_in_keys in I. destruct I as [->|I]; [|left; exact I]. left.
      assert (E : lit "submodel_elements" = snake_case (g_name a3)) by (rewrite N3; reflexivity). rewrite E. apply X5. exact I3.
    - intros a Ia x Lx. destruct (str_eqb (snake_case (g_name a)) (lit "submodel_elements")) eqn:Ev.
      + apply str_eqb_spec in Ev. rewrite Ev in *. rewrite lookup_assign_same. eexists. split; [reflexivity|].
        assert (x = VList xs) by congruence. subst x. split; [discriminate|].
        assert (a = a3) as ->.
        { pose proof (no_path_attrs c Ic) as Np. unfold no_paths in Np. apply andb_true_iff in Np. destruct Np as [_ Nn].
          apply nodupb_spec in Nn. eapply (nodup_inj (fun a => snake_case (g_name a))); [exact Nn|exact Ia|exact I3|].
          cbv beta. rewrite Ev, N3. reflexivity. }
        rewrite T3. intros w0 Cw. apply carries_list in Cw. destruct Cw as (ws0 & E0 & F0). apply carries_list. exists ws0. split; [exact E0|].
        destruct (set_paths_ok (IdPath (match x1 with VSfv _ s => Some s | _ => None end) s []) xs ws0 F0) as (l2 & El2 & Fl2).
        assert (l2 = l') by congruence. subst l2. exact Fl2.
      + rewrite lookup_assign_other; [exists x; split; [exact Lx|split; [exact (fun z => z)|exact (fun _ z => z)]]|].
        intros Z. rewrite Z in Ev. rewrite (proj2 (str_eqb_spec _ _) eq_refl) in Ev. discriminate.
  Qed.

  Lemma model_post_ok : forall n h g v kvs, model_post_parse n = Some h ->
    Conforms W M (GObj g) v -> Carries W M (GObj g) v (VObj n kvs) ->
    exists x, h (VObj n kvs) = Val x /\ Carries W M (GObj g) v x.
  Proof.
    intros n h g v kvs E C H. unfold model_post_parse in E.
    destruct (is_a model_classes n (lit "Submodel")) eqn:I; [|discriminate E].
    assert (h = submodel_post_parse) by congruence. subst h. apply is_a_submodel in I. subst n. now apply submodel_post_ok.
  Qed.
End PostParse.
