(** What the test suites read from the objects of the answers: the values at positions of the JSON values. *)
From Coq Require Import PeanoNat String List NArith ZArith Bool Lia.
From Verif Require Import PyStr PyStrFacts PyBase PyVal Codec ResultModel ContextModel HttpModel ReflectModel ReflectFacts MetaModel MetaSpec
  AdapterModel ParseModel ParseSpec ParseFacts ParseFacts2 ConstraintModel ProgModel ApiModel ApiSpec ApiSuites ApiBody ParseFacts3 TestSpec.
Import ListNotations.
Local Open Scope string_scope.
Local Open Scope list_scope.
Local Opaque aas_v3_0_checked model_classes.

Lemma value_app p : forall q j, value_at j (p ++ q) = match value_at j p with Some x => value_at x q | None => None end.
Proof.
  induction p as [|[n|n] p IH]; intros q j; cbn [app value_at]; [reflexivity|..].
  - destruct j as [| | | | | |kvs]; try reflexivity. destruct (lookup (lit n) kvs); [apply IH|reflexivity].
  - destruct j as [| | | | |l|]; try reflexivity. destruct (nth_error l n); [apply IH|reflexivity].
Qed.
Lemma value_then j p q x : value_at j p = Some x -> value_at j (p ++ q) = value_at x q.
Proof. intros E. rewrite value_app, E. reflexivity. Qed.
Lemma text_then j p q x s : value_at j p = Some x -> text_at x q = Some s -> text_at j (p ++ q) = Some s.
Proof. intros E T. unfold text_at in *. now rewrite (value_then j p q x E). Qed.

(** ** Members of objects of the meta model *)
Definition fits_name (n : str) (c : gclass) : bool :=
  str_eqb (gc_name c) n || existsb (fun a => str_eqb (gc_name a) n && str_in (gc_name c) (gc_subclasses a)) aas_v3_0_checked.
(** all classes that may be meant by a name have this member *)
Definition having (n m : string) (P : gtype -> bool) : bool :=
  negb (str_eqb (lit m) (lit "modelType")) &&
  forallb (fun c => if fits_name (lit n) c then existsb (fun a => str_eqb (g_name a) (lit m) && P (g_type a)) (gc_attrs c) else true) aas_v3_0_checked.
Lemma expected_fits n j c : Expected json_view aas_v3_0_checked n j c -> In c aas_v3_0_checked /\ fits_name n c = true.
Proof.
  intros [c' I N _|a c' t Ia Na _ _ It I N]; (split; [exact I|]); unfold fits_name; apply orb_true_iff.
  - left. now apply str_eqb_spec.
  - right. apply existsb_exists. exists a. split; [exact Ia|]. apply andb_true_intro. split; [now apply str_eqb_spec|]. rewrite N. now apply str_in_spec.
Qed.
Lemma carries_get n m P j v x : having n m P = true -> Carries json_view aas_v3_0_checked (GObj (lit n)) j v -> getattr v (snake_case (lit m)) = Val x ->
  (x = VNone /\ value_at j [Member m] = None) \/ exists y g, value_at j [Member m] = Some y /\ P g = true /\ Carries json_view aas_v3_0_checked g y x.
Proof.
  intros H C G. unfold having in H. apply andb_prop in H. destruct H as [Hm H]. inversion C as [| | | | |n' v' c k kvs attrs E Nc Me ND A1 A2 A3 A4]; subst.
  destruct (expected_fits _ _ _ E) as [Ic F]. pose proof (proj1 (forallb_forall _ _) H _ Ic) as Q. cbn beta in Q. rewrite F in Q.
  apply existsb_exists in Q. destruct Q as (a & Ia & Q). apply andb_prop in Q. destruct Q as [Qn Qp]. apply str_eqb_spec in Qn.
  cbn [getattr] in G. destruct (lookup (snake_case (lit m)) attrs) as [z|] eqn:L; [|discriminate]. injection G as ->.
  assert (At : attribute_of attrs (g_name a) = x) by (unfold attribute_of; now rewrite Qn, L).
  clear H. destruct j as [| | | | | |ms]; cbn [json_view w_members] in Me; try discriminate Me. injection Me as <-.
  assert (Lm : lookup (lit m) (filter (fun kv => negb (str_eqb (fst kv) (lit "modelType"))) ms) = lookup (lit m) ms).
  { clear - Hm. induction ms as [|[k y] ms IH]; [reflexivity|]. cbn [filter fst lookup]. destruct (str_eqb k (lit "modelType")) eqn:K; cbn [negb lookup].
    - apply str_eqb_spec in K. subst k. destruct (str_eqb (lit m) (lit "modelType")); [discriminate|exact IH].
    - now rewrite IH. }
  cbn [value_at]. specialize (A3 a Ia). specialize (A4 a). rewrite Qn in A3, A4. rewrite <- Lm. destruct (lookup (lit m) _) as [y|].
  - right. specialize (A4 y Ia eq_refl). exists y, (g_type a). rewrite <- Qn, At in A4. auto.
  - left. specialize (A3 eq_refl). rewrite <- Qn, At in A3. auto.
Qed.
Definition any_type (g : gtype) : bool := true.
Definition object_type (n : string) (g : gtype) : bool := match g with GObj m => str_eqb m (lit n) | _ => false end.
Definition list_type (n : string) (g : gtype) : bool := match g with GList (GObj m) => str_eqb m (lit n) | _ => false end.
Lemma carries_raw g j x s : Carries json_view aas_v3_0_checked g j x -> raw_value x = Val s -> j = JStr s.
Proof. intros C R. inversion C; subst; try discriminate. cbn [raw_value] in R. injection R as <-. destruct j; try discriminate. cbn in H. congruence. Qed.
Lemma carries_some g j : ~ Carries json_view aas_v3_0_checked g j VNone.
Proof. intros C. inversion C. Qed.
Lemma get_text n m P j v x s : having n m P = true -> Carries json_view aas_v3_0_checked (GObj (lit n)) j v -> getattr v (snake_case (lit m)) = Val x ->
  raw_value x = Val s -> text_at j [Member m] = Some s.
Proof.
  intros H C G R. destruct (carries_get n m P j v x H C G) as [(-> & _)|(y & g & E & _ & Cy)]; [discriminate|]. apply (carries_raw _ _ _ _ Cy) in R. subst y.
  unfold text_at. now rewrite E.
Qed.
Lemma get_object n m k j v x : having n m (object_type k) = true -> Carries json_view aas_v3_0_checked (GObj (lit n)) j v -> getattr v (snake_case (lit m)) = Val x ->
  x <> VNone -> exists y, value_at j [Member m] = Some y /\ Carries json_view aas_v3_0_checked (GObj (lit k)) y x.
Proof.
  intros H C G N. destruct (carries_get n m _ j v x H C G) as [(-> & _)|(y & g & E & T & Cy)]; [congruence|]. exists y. split; [exact E|].
  destruct g; try discriminate. cbn [object_type] in T. apply str_eqb_spec in T. now subst.
Qed.
Lemma get_first n m k j v x z : having n m (list_type k) = true -> Carries json_view aas_v3_0_checked (GObj (lit n)) j v -> getattr v (snake_case (lit m)) = Val x ->
  first x = Val z -> exists y, value_at j [Member m; Item 0] = Some y /\ Carries json_view aas_v3_0_checked (GObj (lit k)) y z.
Proof.
  intros H C G N. destruct (carries_get n m _ j v x H C G) as [(-> & _)|(y & g & E & T & Cy)]; [discriminate|].
  destruct g as [| | | | |g]; try discriminate T. destruct g; try discriminate T. cbn [list_type] in T. apply str_eqb_spec in T. subst.
  inversion Cy as [| | | |g' v' l xs I L F|]; subst. destruct xs as [|z' xs]; [discriminate|]. cbn [first] in N. injection N as ->.
  destruct l as [|a l]; [discriminate|]. destruct y; try discriminate. cbn in I. injection I as ->.
  exists a. split; [change [Member m; Item 0] with ([Member m] ++ [Item 0]); now rewrite (value_then _ _ _ _ E)|]. now apply (F 0%nat a z).
Qed.

Ltac val E := match type of E with obind ?o _ = Val _ => let x := fresh "x" in let X := fresh "X" in destruct o as [x|] eqn:X; [|discriminate]; cbn [obind] in E end.
Lemma key_text j v s : Carries json_view aas_v3_0_checked (GObj (lit "Reference")) j v -> first_key v = Val s -> text_at j [Member "keys"; Item 0; Member "value"] = Some s.
Proof.
  intros C E. unfold first_key, get in E. repeat val E.
  destruct (get_first "Reference" "keys" "Key" j v x x0) as (y & Y & Cy); [vm_compute; reflexivity|exact C|exact X|exact X0|].
  apply (text_then _ [Member "keys"; Item 0] _ y); [exact Y|]. apply (get_text "Key" "value" any_type y x0 x1); [vm_compute; reflexivity|exact Cy|exact X1|exact E].
Qed.
Definition submodel_key : list step := [Member "submodels"; Item 0; Member "keys"; Item 0; Member "value"].
Lemma shell_submodel j v l m s : Carries json_view aas_v3_0_checked (GObj (lit "AssetAdministrationShell")) j v -> get v "submodels" = Val l -> first l = Val m ->
  first_key m = Val s -> text_at j submodel_key = Some s.
Proof.
  intros C G F K. destruct (get_first "AssetAdministrationShell" "submodels" "Reference" j v l m) as (y & Y & Cy); [vm_compute; reflexivity|exact C|exact G|exact F|].
  apply (text_then _ [Member "submodels"; Item 0] _ y); [exact Y|]. now apply (key_text y m).
Qed.
Lemma id_text n j v s : having n "id" any_type = true -> Carries json_view aas_v3_0_checked (GObj (lit n)) j v -> raw_id v = Val s -> text_at j [Member "id"] = Some s.
Proof. intros H C E. unfold raw_id, get in E. val E. exact (get_text n "id" any_type j v x s H C X E). Qed.

(** ** Members of other objects *)
Lemma bears_get ms n r b j v x : In (n, (r, b)) ms -> Bears (BObject ms) j v -> getattr v (snake_case n) = Val x ->
  exists kvs, j = JObj kvs /\ ((x = VNone /\ lookup n kvs = None) \/ exists y, lookup n kvs = Some y /\ Bears b y x).
Proof.
  intros I B G. inversion B as [| | | |ms' kvs k attrs N S| |]; subst. exists kvs. split; [reflexivity|]. cbn [getattr] in G.
  destruct (lookup (snake_case n) attrs) as [z|] eqn:L; [|discriminate]. injection G as ->. destruct (lookup n kvs) as [y|] eqn:K.
  - right. destruct (S n r b y I K) as (x' & X & Bx). exists y. split; [reflexivity|]. congruence.
  - left. specialize (N n r b I K). split; [congruence|reflexivity].
Qed.
Lemma bears_member ms n r b j v x : In (lit n, (r, b)) ms -> Bears (BObject ms) j v -> getattr v (snake_case (lit n)) = Val x ->
  (x = VNone /\ value_at j [Member n] = None) \/ exists y, value_at j [Member n] = Some y /\ Bears b y x.
Proof.
  intros I B G. destruct (bears_get ms (lit n) r b j v x I B G) as (kvs & -> & [(-> & L)|(y & L & By)]); cbn [value_at]; rewrite L; eauto.
Qed.
Definition page_members (item : body) : list (str * (bool * body)) :=
  [(lit "paging_metadata", (true, BObject [(lit "cursor", (false, BText))])); (lit "result", (true, BList item))].
Lemma page_result item j v x : Bears (paged_body item) j v -> get v "result" = Val x -> x = VNone \/
  exists l xs, value_at j [Member "result"] = Some (JArr l) /\ x = VList xs /\ Forall2 (Bears item) l xs.
Proof.
  intros B G. destruct (bears_member (page_members item) "result" true (BList item) j v x (or_intror (or_introl eq_refl)) B G) as [(-> & _)|(y & Y & By)]; [now left|].
  right. inversion By; subst. eauto 6.
Qed.
Lemma page_first item j v x : Bears (paged_body item) j v -> first_result v = Val x -> exists y, value_at j (first_of []) = Some y /\ Bears item y x.
Proof.
  intros B E. unfold first_result in E. val E. destruct (page_result item j v x0 B X) as [->|(l & xs & Y & -> & F)]; [discriminate|].
  destruct F as [|a z l xs Ba F]; [discriminate|]. cbn [first] in E. injection E as ->. exists a. split; [|exact Ba].
  unfold first_of. change [Member "result"; Item 0] with ([Member "result"] ++ [Item 0]). now rewrite (value_then _ _ _ _ Y).
Qed.
Lemma page_length item j v n : Bears (paged_body item) j v -> result_length v = Val n -> results j = Some n.
Proof.
  intros B E. unfold result_length in E. val E. destruct (page_result item j v x B X) as [->|(l & xs & Y & -> & F)]; [discriminate|].
  cbn [as_items obind] in E. injection E as <-. unfold results. rewrite Y. f_equal. clear Y B X. induction F; cbn [List.length]; [reflexivity|now f_equal].
Qed.
Lemma page_cursor item j v c : Bears (paged_body item) j v -> cursor_of v = Val c -> text_at j [Member "paging_metadata"; Member "cursor"] = c.
Proof.
  intros B E. unfold cursor_of in E. val E. val E.
  destruct (bears_member (page_members item) "paging_metadata" true (BObject [(lit "cursor", (false, BText))]) j v x (or_introl eq_refl) B X) as [(-> & _)|(y & Y & By)]; [discriminate|].
  unfold text_at. change [Member "paging_metadata"; Member "cursor"] with ([Member "paging_metadata"] ++ [Member "cursor"]). rewrite (value_then _ _ _ _ Y).
  destruct (bears_member [(lit "cursor", (false, BText))] "cursor" false BText y x x0 (or_introl eq_refl) By X0) as [(-> & ->)|(z & -> & Bz)]; [congruence|]. inversion Bz; subst. congruence.
Qed.
Lemma bears_model g j x : Bears (BModel g) j x -> Carries json_view aas_v3_0_checked g j x.
Proof. intros B. now inversion B. Qed.
Lemma page_text item j v x p s : Bears (paged_body item) j v -> first_result v = Val x -> (forall y, Bears item y x -> text_at y p = Some s) ->
  text_at j (first_of p) = Some s.
Proof.
  intros B E H. destruct (page_first item j v x B E) as (y & Y & By). change (first_of p) with (first_of [] ++ p). apply (text_then _ _ _ y); auto.
Qed.

(** ** The identifier of the asset *)
Definition shell_asset (s : pyval) : outcome value :=
  let* info := get s "asset_information" in
  let* g := get info "global_asset_id" in let* global := raw_value g in
  match global with
  | _ :: _ => Val (VlAssetId (lit "globalAssetId") global)
  | [] => let* l := get info "specific_asset_ids" in let* x := first l in
          let* n := get x "name" in let* n := raw_value n in
          let* v := get x "value" in let* v := raw_value v in
          Val (VlAssetId n v)
  end.
Lemma page_asset j v x a : Bears (paged_body (b_obj "AssetAdministrationShell")) j v -> first_result v = Val x -> shell_asset x = Val a ->
  exists n s, a = VlAssetId n s /\ asset_in j = Some (n, s).
Proof.
  intros B E A. destruct (page_first _ j v x B E) as (y & Y & By). apply bears_model in By. unfold shell_asset in A. val A. val A. val A.
  destruct (get_object "AssetAdministrationShell" "assetInformation" "AssetInformation" y x x0) as (z & Z & Cz);
    [vm_compute; reflexivity|exact By|exact X|intros ->; discriminate|].
  assert (P : forall p, text_at j (first_of (Member "assetInformation" :: p)) = text_at z p).
  { intros p. change (first_of (Member "assetInformation" :: p)) with (first_of [] ++ [Member "assetInformation"] ++ p). unfold text_at.
    now rewrite (value_then _ _ _ _ Y), (value_then _ _ _ _ Z). }
  assert (G : text_at z [Member "globalAssetId"] = Some x2).
  { apply (get_text "AssetInformation" "globalAssetId" any_type z x0 x1); [vm_compute; reflexivity|exact Cz|exact X0|exact X1]. }
  unfold asset_in. cbv zeta. rewrite !P, G. destruct x2 as [|c x2]; [|injection A as <-; eauto]. repeat val A.
  destruct (get_first "AssetInformation" "specificAssetIds" "SpecificAssetId" z x0 x2 x3) as (w & Wv & Cw); [vm_compute; reflexivity|exact Cz|exact X2|exact X3|].
  assert (N : text_at w [Member "name"] = Some x5).
  { apply (get_text "SpecificAssetId" "name" any_type w x3 x4); [vm_compute; reflexivity|exact Cw|exact X4|exact X5]. }
  assert (U : text_at w [Member "value"] = Some x7).
  { apply (get_text "SpecificAssetId" "value" any_type w x3 x6); [vm_compute; reflexivity|exact Cw|exact X6|exact X7]. }
  pose proof (text_then z [Member "specificAssetIds"; Item 0] _ w _ Wv N) as N'. pose proof (text_then z [Member "specificAssetIds"; Item 0] _ w _ Wv U) as U'.
  cbn [app] in N', U'. rewrite N', U'. apply (f_equal (fun o => match o with Val x => x | _ => a end)) in A. subst a. eauto.
Qed.

(** ** The paths of the elements *)
Definition add_to (d : list (str * list str)) (x : str * str) : list (str * list str) := add_path (fst x) (snd x) d.
Fixpoint paths_from (prefix : str) (i : nat) (l : list json) : list (str * str) :=
  match l with [] => [] | x :: r => paths_in x i prefix ++ paths_from prefix (S i) r end.
Lemma paths_of_from l : forall i, paths_of i l = paths_from [] i l.
Proof. induction l as [|x l IH]; intros i; cbn [paths_of paths_from]; [reflexivity|]. now rewrite IH. Qed.
Lemma paths_unfold kvs idx prefix : paths_in (JObj kvs) idx prefix =
  match lookup (lit "idShort") kvs, lookup (lit "modelType") kvs with
  | Some (JStr s), Some (JStr ty) =>
      let inside (prefix : str) := match lookup (lit "value") kvs with Some (JArr l) => paths_from prefix 0 l | _ => [] end in
      (ty, prefix ++ s) ::
      if str_eqb ty (lit "SubmodelElementCollection") then inside (prefix ++ s ++ lit ".")
      else if str_eqb ty (lit "SubmodelElementList") then inside (dec_of_nat idx ++ lit ".")
      else []
  | _, _ => []
  end.
Proof.
  assert (A : forall p kvs, (fix members (kvs : list (str * json)) : list (str * str) :=
               match kvs with
               | [] => []
               | (k, x) :: r =>
                   if str_eqb k (lit "value") then
                     match x with
                     | JArr l => (fix items (i : nat) (l : list json) : list (str * str) :=
                                    match l with [] => [] | y :: l' => paths_in y i p ++ items (S i) l' end) 0%nat l
                     | _ => []
                     end
                   else members r
               end) kvs = match lookup (lit "value") kvs with Some (JArr l) => paths_from p 0 l | _ => [] end).
  { intros p. induction kvs0 as [|[k x] r IH]; [reflexivity|]. cbn [lookup]. rewrite IH. clear IH. rewrite (str_eqb_sym (lit "value") k). destruct (str_eqb k (lit "value")); [|reflexivity].
    destruct x; try reflexivity. generalize 0%nat. induction l as [|y l IH]; intros i; [reflexivity|]. cbn [paths_from]. now rewrite <- IH. }
  cbn [paths_in]. destruct (lookup (lit "idShort") kvs) as [[]|]; try reflexivity. destruct (lookup (lit "modelType") kvs) as [[]|]; try reflexivity.
  cbv zeta. f_equal. destruct (str_eqb s0 (lit "SubmodelElementCollection")); [apply A|]. destruct (str_eqb s0 (lit "SubmodelElementList")); [apply A|reflexivity].
Qed.
Lemma collect_unfold c kvs idx prefix paths : collect_element (VObj c kvs) idx prefix paths =
  (let* n := get (VObj c kvs) "id_short" in
   if truthy n then
     let* raw := raw_value n in
     let paths := add_path c (prefix ++ raw) paths in
     let inside (prefix : str) :=
       match lookup (lit "value") kvs with None => Raise AttributeError | Some (VList l) => collect_elements 0 l prefix paths | Some _ => Raise TypeError end in
     if is_a model_classes c (lit "SubmodelElementCollection") then inside ((prefix ++ raw) ++ lit ".")
     else if is_a model_classes c (lit "SubmodelElementList") then inside (dec_of_nat idx ++ lit ".")
     else Val paths
   else Val paths).
Proof.
  assert (A : forall p paths kvs, (fix attrs (kvs : list (str * pyval)) : outcome (list (str * list str)) :=
               match kvs with
               | [] => Raise AttributeError
               | (k, x) :: r =>
                   if str_eqb k (lit "value") then
                     match x with
                     | VList l =>
                         (fix items (i : nat) (l : list pyval) (paths : list (str * list str))
                            : outcome (list (str * list str)) :=
                            match l with
                            | [] => Val paths
                            | y :: l' => let* paths := collect_element y i p paths in items (S i) l' paths
                            end) 0%nat l paths
                     | _ => Raise TypeError
                     end
                   else attrs r
               end) kvs = match lookup (lit "value") kvs with None => Raise AttributeError | Some (VList l) => collect_elements 0 l p paths | Some _ => Raise TypeError end).
  { intros p ps. induction kvs0 as [|[k x] r IH]; [reflexivity|]. cbn [lookup]. rewrite IH. clear IH. rewrite (str_eqb_sym (lit "value") k). destruct (str_eqb k (lit "value")); [|reflexivity].
    destruct x; try reflexivity. revert ps. generalize 0%nat. induction l as [|y l IH]; intros i ps; [reflexivity|]. cbn [collect_elements].
    destruct (collect_element y i p ps); [|reflexivity]. cbn [obind]. apply IH. }
  cbn [collect_element]. destruct (get (VObj c kvs) "id_short") as [n|]; [|reflexivity]. cbn [obind]. destruct (truthy n); [|reflexivity].
  destruct (raw_value n) as [raw|]; [|reflexivity]. cbn [obind]. cbv zeta.
  destruct (is_a model_classes c (lit "SubmodelElementCollection")); [apply A|]. destruct (is_a model_classes c (lit "SubmodelElementList")); [apply A|reflexivity].
Qed.

(** the classes of submodel elements *)
Definition element_class_ok (t : str) : bool :=
  negb (str_in t (lits lang_classes)) &&
  Bool.eqb (is_a model_classes t (lit "SubmodelElementCollection")) (str_eqb t (lit "SubmodelElementCollection")) &&
  Bool.eqb (is_a model_classes t (lit "SubmodelElementList")) (str_eqb t (lit "SubmodelElementList")).
Definition element_classes_ok : bool :=
  forallb (fun c => if str_eqb (gc_name c) (lit "SubmodelElement") then gc_abstract c && forallb element_class_ok (gc_subclasses c) else true) aas_v3_0_checked &&
  forallb (fun c => if str_eqb (gc_name c) (lit "SubmodelElementCollection") || str_eqb (gc_name c) (lit "SubmodelElementList") then negb (gc_abstract c) else true)
    aas_v3_0_checked.
Lemma element_classes : element_classes_ok = true.
Proof. vm_compute. reflexivity. Qed.
Lemma element_tag j k attrs : Carries json_view aas_v3_0_checked (GObj (lit "SubmodelElement")) j (VObj k attrs) ->
  element_class_ok k = true /\ w_tag json_view j = Some k /\
  (k = lit "SubmodelElementCollection" \/ k = lit "SubmodelElementList" -> Carries json_view aas_v3_0_checked (GObj k) j (VObj k attrs)).
Proof.
  intros C. inversion C as [| | | | |n v c k' kvs attrs' E Nc Me ND A1 A2 A3 A4]; subst.
  pose proof element_classes as H. unfold element_classes_ok in H. apply andb_prop in H. destruct H as [H1 H2].
  destruct E as [c I N Ab|a c t Ia Na Ab Tg It I N].
  - pose proof (proj1 (forallb_forall _ _) H1 _ I) as Q. cbn beta in Q. rewrite N, str_eqb_refl, Ab in Q. discriminate.
  - pose proof (proj1 (forallb_forall _ _) H1 _ Ia) as Q. cbn beta in Q. rewrite Na, str_eqb_refl, Ab in Q. cbn [andb] in Q.
    pose proof (proj1 (forallb_forall _ _) Q _ It) as O.
    assert (K : t = k).
    { destruct (spec_name_cases k) as [S|S]; [congruence|]. exfalso. unfold element_class_ok in O. rewrite <- N, Nc in O. apply str_in_spec in S. rewrite S in O. discriminate. }
    subst t. rewrite K in *. split; [exact O|]. split; [exact Tg|]. intros Kc.
    apply (Ca_obj _ _ _ k j c k kvs attrs); auto; [|congruence]. apply Exp_concrete; [exact I|exact K|].
    pose proof (proj1 (forallb_forall _ _) H2 _ I) as Q2. cbn beta in Q2. rewrite K in Q2.
    destruct Kc as [-> | ->]; rewrite str_eqb_refl, ?orb_true_r in Q2; now apply negb_true_iff in Q2.
Qed.
Definition text_type (g : gtype) : bool := match g with GText _ => true | _ => false end.
Lemma element_value k j attrs x : k = "SubmodelElementCollection" \/ k = "SubmodelElementList" ->
  Carries json_view aas_v3_0_checked (GObj (lit k)) j (VObj (lit k) attrs) -> lookup (lit "value") attrs = Some (VList x) ->
  exists l, value_at j [Member "value"] = Some (JArr l) /\ Forall2 (Carries json_view aas_v3_0_checked (GObj (lit "SubmodelElement"))) l x.
Proof.
  intros K C L. assert (G : getattr (VObj (lit k) attrs) (snake_case (lit "value")) = Val (VList x)).
  { change (snake_case (lit "value")) with (lit "value"). cbn [getattr]. now rewrite L. }
  destruct (carries_get k "value" (list_type "SubmodelElement") j (VObj (lit k) attrs) (VList x)) as [([=] & _)|(y & g & E & T & Cy)];
    [destruct K as [->| ->]; vm_compute; reflexivity|exact C|exact G|].
  destruct g as [| | | | |g]; try discriminate T. destruct g; try discriminate T. cbn [list_type] in T. apply str_eqb_spec in T. subst.
  inversion Cy as [| | | |g' v' l xs I Le F|]; subst. destruct y; try discriminate. cbn in I. injection I as ->.
  exists l. split; [exact E|]. clear - F Le. revert x F Le. induction l as [|a l IH]; intros [|y x] F Le; try discriminate; constructor.
  - now apply (F 0%nat).
  - apply IH; [|now injection Le]. intros i b z A B. now apply (F (S i)).
Qed.

Lemma collect_paths n : forall j, (json_depth j < n)%nat -> forall v idx prefix d d', Carries json_view aas_v3_0_checked (GObj (lit "SubmodelElement")) j v ->
  collect_element v idx prefix d = Val d' -> d' = fold_left add_to (paths_in j idx prefix) d.
Proof.
  induction n as [|n IH]; [lia|]. intros j D v idx prefix d d' C E.
  assert (Fr : forall l, (forall x, In x l -> (json_depth x < n)%nat) -> forall xs, Forall2 (Carries json_view aas_v3_0_checked (GObj (lit "SubmodelElement"))) l xs ->
    forall i prefix d d', collect_elements i xs prefix d = Val d' -> d' = fold_left add_to (paths_from prefix i l) d).
  { intros l Dl xs F. induction F as [|a x l xs Ca F IHl]; intros i p e e' G; cbn [collect_elements paths_from] in *.
    - injection G as <-. reflexivity.
    - val G. apply (IH a (Dl a (or_introl eq_refl)) x i p e _ Ca) in X. rewrite fold_left_app, <- X. apply IHl; [intros y Iy; apply Dl; now right|exact G]. }
  inversion C as [| | | | |n' v' c k kvs attrs Ex Nc Me ND A1 A2 A3 A4]; subst.
  destruct (element_tag j k attrs C) as (O & Tg & K). unfold element_class_ok in O. apply andb_prop in O. destruct O as [O O2]. apply andb_prop in O. destruct O as [_ O1].
  apply eqb_prop in O1, O2. rewrite collect_unfold, O1, O2 in E. clear O1 O2. destruct j as [| | | | | |ms]; try discriminate. rewrite paths_unfold.
  cbn [json_view w_tag] in Tg. destruct (lookup (lit "modelType") ms) as [[| | | |ty| |]|]; try discriminate. injection Tg as ->.
  val E. destruct (carries_get "SubmodelElement" "idShort" text_type (JObj ms) (VObj k attrs) x) as [(-> & L)|(y & g & L & T & Cy)]; [vm_compute; reflexivity|exact C|exact X|..].
  - cbn [value_at] in L. destruct (lookup (lit "idShort") ms); [discriminate|]. cbn [truthy] in E. injection E as <-. reflexivity.
  - cbn [value_at] in L. destruct (lookup (lit "idShort") ms) as [y'|]; [|discriminate]. injection L as ->.
    destruct g; try discriminate. inversion Cy as [t' v' s k' Tx| | | | |]; subst. destruct y as [| | | |s'| |]; try discriminate Tx. cbn in Tx. injection Tx as ->.
    cbn [truthy raw_value obind] in E. cbv zeta in *.
    assert (V : forall p, (k = lit "SubmodelElementCollection" \/ k = lit "SubmodelElementList") ->
      match lookup (lit "value") attrs with None => Raise AttributeError | Some (VList l) => collect_elements 0 l p (add_path k (prefix ++ s) d) | Some _ => Raise TypeError end = Val d' ->
      d' = fold_left add_to (match lookup (lit "value") ms with Some (JArr l) => paths_from p 0 l | _ => [] end) (add_path k (prefix ++ s) d)).
    { intros p Kk Q. destruct (lookup (lit "value") attrs) as [[| | | | | |l| | |]|] eqn:La; try discriminate Q.
      assert (V : exists l', value_at (JObj ms) [Member "value"] = Some (JArr l') /\ Forall2 (Carries json_view aas_v3_0_checked (GObj (lit "SubmodelElement"))) l' l).
      { specialize (K Kk). destruct Kk as [-> | ->]; [apply (element_value "SubmodelElementCollection" _ attrs)|apply (element_value "SubmodelElementList" _ attrs)]; auto. }
      destruct V as (l' & V & F). cbn [value_at] in V. destruct (lookup (lit "value") ms) as [z|] eqn:Lm; [|discriminate]. injection V as ->.
      assert (Dl : forall x, In x l' -> (json_depth x < n)%nat); [|exact (Fr l' Dl l F 0%nat p _ _ Q)]. intros z I. apply lookup_In in Lm. apply (list_max_map (fun kv => json_depth (snd kv))) in Lm. cbn [snd json_depth] in Lm, D.
      apply (list_max_map json_depth) in I. lia. }
    cbn [fold_left]. change (add_to d (k, prefix ++ s)) with (add_path k (prefix ++ s) d).
    destruct (str_eqb k (lit "SubmodelElementCollection")) eqn:K1.
    + apply str_eqb_spec in K1. rewrite <- app_assoc in E. apply V; [now left|exact E].
    + destruct (str_eqb k (lit "SubmodelElementList")) eqn:K2.
      * apply str_eqb_spec in K2. apply V; [now right|exact E].
      * injection E as <-. reflexivity.
Qed.

Definition of_type (ty : str) (ps : list (str * str)) : list str := List.map snd (filter (fun x => str_eqb (fst x) ty) ps).
Lemma adds_lookup ty ps : forall d, lookup ty (fold_left add_to ps d) =
  match lookup ty d, of_type ty ps with None, [] => None | None, l => Some l | Some l, l' => Some (l ++ l') end.
Proof.
  unfold of_type. induction ps as [|[t p] ps IH]; intros d; cbn [fold_left filter fst List.map].
  - destruct (lookup ty d); [now rewrite app_nil_r|reflexivity].
  - rewrite IH. unfold add_to, add_path. cbn [fst snd]. destruct (str_eqb t ty) eqn:E.
    + apply str_eqb_spec in E. subst t. rewrite lookup_assign_same. cbn [List.map snd]. destruct (lookup ty d); cbn [app]; [now rewrite <- app_assoc|reflexivity].
    + rewrite lookup_assign_other; [reflexivity|]. intros ->. rewrite str_eqb_refl in E. discriminate.
Qed.
Lemma adds_head ps : forall t p l d, exists l' d', fold_left add_to ps ((t, p :: l) :: d) = (t, p :: l') :: d'.
Proof.
  induction ps as [|[t' p'] ps IH]; intros t p l d; cbn [fold_left]; [eauto|].
  assert (A : exists l' d', add_to ((t, p :: l) :: d) (t', p') = (t, p :: l') :: d').
  { unfold add_to, add_path. cbn [fst snd lookup assign]. destruct (str_eqb t' t); cbn [app]; eauto. }
  destruct A as (l' & d' & ->). apply IH.
Qed.
Lemma first_type ty ps : first_path (Some ty) ps = match lookup (lit ty) (fold_left add_to ps []) with Some (p :: _) => Some p | _ => None end.
Proof.
  rewrite adds_lookup. cbn [lookup]. unfold of_type, first_path. induction ps as [|[t p] ps IH]; [reflexivity|]. cbn [find filter fst].
  destruct (str_eqb t (lit ty)); [reflexivity|exact IH].
Qed.
Lemma lookup_nonempty ty ps : lookup (lit ty) (fold_left add_to ps []) <> Some [].
Proof. rewrite adds_lookup. cbn [lookup]. destruct (of_type (lit ty) ps); discriminate. Qed.
Lemma first_any ps : first_path None ps = match fold_left add_to ps [] with (_, p :: _) :: _ => Some p | _ => None end.
Proof.
  destruct ps as [|[t p] ps]; [reflexivity|]. cbn [fold_left]. unfold add_to at 2, add_path. cbn [lookup assign fst snd app].
  destruct (adds_head ps t p [] []) as (l & d & ->). reflexivity.
Qed.
Lemma page_paths j v l xs d : Bears (paged_body (b_obj "SubmodelElement")) j v -> get v "result" = Val l -> as_items l = Val xs -> collect_elements 0 xs [] [] = Val d ->
  exists js, value_at j [Member "result"] = Some (JArr js) /\ d = fold_left add_to (paths_of 0 js) [].
Proof.
  intros B G A E. destruct (page_result _ j v l B G) as [-> |(js & xs' & Y & -> & F)]; [discriminate|]. cbn [as_items] in A. injection A as ->.
  exists js. split; [exact Y|]. rewrite paths_of_from. clear Y G B. revert E. generalize (@nil (str * list str)). generalize 0%nat.
  induction F as [|a x js xs C F IH]; intros i e E; cbn [collect_elements paths_from] in *.
  - injection E as <-. reflexivity.
  - val E. apply bears_model in C. apply (collect_paths (S (json_depth a)) a (Nat.lt_succ_diag_r _) x i [] e _ C) in X. rewrite fold_left_app, <- X. apply IH. exact E.
Qed.
