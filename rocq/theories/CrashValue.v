(** Reading the objects of the answers: what is read is there, or there is an exception for a position of the JSON value. *)
From Coq Require Import PeanoNat String List NArith ZArith Bool Lia.
From Verif Require Import PyStr PyStrFacts PyBase PyVal Codec CodecSpec CodecFacts ResultModel ContextModel HttpModel ReflectModel ReflectFacts MetaModel MetaSpec MetaFacts
  AdapterModel ParseModel ParseSpec ParseFacts ParseFacts2 ConstraintModel ProgModel ApiModel ApiSpec ApiSuites ApiBody ParseFacts3 TestSpec CrashSpec ApiValue.
Import ListNotations.
Local Open Scope string_scope.
Local Open Scope list_scope.
Local Opaque aas_v3_0_checked model_classes.

Notation carries := (Carries json_view aas_v3_0_checked).
Notation conforms := (Conforms json_view aas_v3_0_checked).
Definition Solid (n : string) (j : json) (v : pyval) : Prop := carries (GObj (lit n)) j v /\ conforms (GObj (lit n)) j.
Lemma other_members ms m : negb (str_eqb (lit m) (lit "modelType")) = true ->
  lookup (lit m) (filter (fun kv => negb (str_eqb (fst kv) (lit "modelType"))) ms) = lookup (lit m) (ms : list (str * json)).
Proof.
  intros Hm. induction ms as [|[k y] ms IH]; [reflexivity|]. cbn [filter fst lookup]. destruct (str_eqb k (lit "modelType")) eqn:K; cbn [negb lookup].
  - apply str_eqb_spec in K. subst k. destruct (str_eqb (lit m) (lit "modelType")); [discriminate|exact IH].
  - now rewrite IH.
Qed.
Lemma conforms_get n m P j y : having n m P = true -> conforms (GObj (lit n)) j -> value_at j [Member m] = Some y -> exists g, P g = true /\ conforms g y.
Proof.
  intros H C V. unfold having in H. apply andb_prop in H. destruct H as [Hm H].
  inversion C as [| | | | |n' v' c kvs E Tg Me R K A]; subst.
  destruct (expected_fits _ _ _ E) as [Ic F]. pose proof (proj1 (forallb_forall _ _) H _ Ic) as Q. cbn beta in Q. rewrite F in Q.
  apply existsb_exists in Q. destruct Q as (a & Ia & Q). apply andb_prop in Q. destruct Q as [Qn Qp]. apply str_eqb_spec in Qn.
  destruct j as [| | | | | |ms]; cbn [json_view w_members] in Me; try discriminate Me. injection Me as <-.
  exists (g_type a). split; [exact Qp|]. apply (A a y Ia). rewrite Qn. rewrite (other_members _ _ Hm). cbn [value_at] in V.
  destruct (lookup (lit m) ms); [now injection V as ->|discriminate].
Qed.
Lemma carries_has n m P j v : having n m P = true -> carries (GObj (lit n)) j v -> exists x, getattr v (snake_case (lit m)) = Val x.
Proof.
  intros H C. unfold having in H. apply andb_prop in H. destruct H as [Hm H]. inversion C as [| | | | |n' v' c k kvs attrs E Nc Me ND A1 A2 A3 A4]; subst.
  destruct (expected_fits _ _ _ E) as [Ic F]. pose proof (proj1 (forallb_forall _ _) H _ Ic) as Q. cbn beta in Q. rewrite F in Q.
  apply existsb_exists in Q. destruct Q as (a & Ia & Q). apply andb_prop in Q. destruct Q as [Qn Qp]. apply str_eqb_spec in Qn.
  specialize (A1 a Ia). rewrite Qn in A1. cbn [getattr]. destruct (lookup (snake_case (lit m)) attrs) eqn:L; [eauto|].
  exfalso. now apply lookup_None in L.
Qed.

(** ** What is at a position, or which exception *)
Definition Tells {X} (j : json) (p : list step) (o : outcome X) (R : X -> Prop) : Prop :=
  match o with Val x => R x | Raise e => fault (Some j) p = Some e end.
Definition some_text (g : gtype) : bool := match g with GText t => N.leb 1 (t_min t) | _ => false end.
Definition Sayable (s : str) : Prop := Forall XmlChar s /\ s <> [].
Lemma solid_text n m j v : having n m some_text = true -> Solid n j v -> exists kvs x, j = JObj kvs /\ getattr v (snake_case (lit m)) = Val x /\
  ((x = VNone /\ lookup (lit m) kvs = None) \/ exists s k, lookup (lit m) kvs = Some (JStr s) /\ x = VSfv k s /\ Sayable s).
Proof.
  intros H [C F]. destruct (carries_has n m _ j v H C) as [x G]. pose proof F as F'. inversion F' as [| | | | |n' v' c kvs' E Tg Me R K A]; subst.
  destruct j as [| | | | | |kvs]; try discriminate Me. exists kvs, x. split; [reflexivity|]. split; [exact G|].
  destruct (carries_get n m _ _ v x H C G) as [(-> & L)|(y & g & L & Pg & Cy)].
  - left. split; [reflexivity|]. cbn [value_at] in L. destruct (lookup (lit m) kvs); [discriminate|reflexivity].
  - right. destruct (conforms_get n m _ _ y H F L) as (g' & Pg' & Fy). destruct g; try discriminate. destruct g'; try discriminate.
    inversion Cy as [t' v' s k W| | | | |]; subst. inversion Fy as [t' v' s' W' O| | | | |]; subst. assert (s' = s) by congruence. subst s'.
    destruct y as [| | | |s'| |]; try discriminate W. cbn in W. injection W as ->.
    exists s, k. cbn [value_at] in L. destruct (lookup (lit m) kvs) as [y'|]; [|discriminate]. injection L as ->. split; [reflexivity|]. split; [reflexivity|].
    destruct O as (O1 & O2 & _). split; [exact O1|]. intros ->. cbn [some_text] in Pg'. apply N.leb_le in Pg'. cbn in O2. lia.
Qed.
Lemma solid_object n m k j v : having n m (object_type k) = true -> Solid n j v -> exists kvs x, j = JObj kvs /\ getattr v (snake_case (lit m)) = Val x /\
  ((x = VNone /\ lookup (lit m) kvs = None) \/ exists y, lookup (lit m) kvs = Some y /\ Solid k y x).
Proof.
  intros H [C F]. destruct (carries_has n m _ j v H C) as [x G]. pose proof F as F'. inversion F' as [| | | | |n' v' c kvs' E Tg Me R K A]; subst.
  destruct j as [| | | | | |kvs]; try discriminate Me. exists kvs, x. split; [reflexivity|]. split; [exact G|].
  destruct (carries_get n m _ _ v x H C G) as [(-> & L)|(y & g & L & Pg & Cy)].
  - left. split; [reflexivity|]. cbn [value_at] in L. destruct (lookup (lit m) kvs); [discriminate|reflexivity].
  - right. destruct (conforms_get n m _ _ y H F L) as (g' & Pg' & Fy). destruct g; try discriminate. destruct g'; try discriminate.
    cbn [object_type] in Pg, Pg'. apply str_eqb_spec in Pg, Pg'. subst. exists y. cbn [value_at] in L.
    destruct (lookup (lit m) kvs) as [y'|]; [|discriminate]. injection L as ->. split; [reflexivity|]. now split.
Qed.
Lemma solid_list n m k j v : having n m (list_type k) = true -> Solid n j v -> exists kvs x, j = JObj kvs /\ getattr v (snake_case (lit m)) = Val x /\
  ((x = VNone /\ lookup (lit m) kvs = None) \/ exists l xs, lookup (lit m) kvs = Some (JArr l) /\ x = VList xs /\ l <> [] /\ Forall2 (Solid k) l xs).
Proof.
  intros H [C F]. destruct (carries_has n m _ j v H C) as [x G]. pose proof F as F'. inversion F' as [| | | | |n' v' c kvs' E Tg Me R K A]; subst.
  destruct j as [| | | | | |kvs]; try discriminate Me. exists kvs, x. split; [reflexivity|]. split; [exact G|].
  destruct (carries_get n m _ _ v x H C G) as [(-> & L)|(y & g & L & Pg & Cy)].
  - left. split; [reflexivity|]. cbn [value_at] in L. destruct (lookup (lit m) kvs); [discriminate|reflexivity].
  - right. destruct (conforms_get n m _ _ y H F L) as (g' & Pg' & Fy). destruct g as [| | | | |[]]; try discriminate. destruct g' as [| | | | |[]]; try discriminate.
    cbn [list_type] in Pg, Pg'. apply str_eqb_spec in Pg, Pg'. subst.
    inversion Cy as [| | | |g' v' l xs I Le Fc|]; subst. inversion Fy as [| | | |g' v' l' I' Nl Ff|]; subst. assert (l' = l) by congruence. subst l'.
    destruct y as [| | | | |l'|]; try discriminate I. cbn in I. injection I as ->.
    exists l, xs. cbn [value_at] in L. destruct (lookup (lit m) kvs) as [y'|]; [|discriminate]. injection L as ->. split; [reflexivity|]. split; [reflexivity|]. split; [exact Nl|].
    clear - Fc Le Ff. revert xs Fc Le. induction l as [|a l IH]; intros [|y xs] Fc Le; try discriminate; constructor.
    + split; [now apply (Fc 0%nat)|apply Ff; now left].
    + apply IH; [intros z I; apply Ff; now right| |now injection Le]. intros i b z A B. now apply (Fc (S i)).
Qed.
(** the first item of a list member *)
Lemma solid_first n m k j v : having n m (list_type k) = true -> Solid n j v -> exists x, getattr v (snake_case (lit m)) = Val x /\
  match first x with
  | Val z => exists y, Solid k y z /\ forall p, fault (Some j) (Member m :: Item 0 :: p) = fault (Some y) p
  | Raise e => forall p, fault (Some j) (Member m :: Item 0 :: p) = Some e
  end.
Proof.
  intros H S. destruct (solid_list n m k j v H S) as (kvs & x & -> & G & [(-> & L)|(l & xs & L & -> & N & F)]); (eexists; split; [exact G|]).
  - cbn [first]. intros p. cbn [fault]. now rewrite L.
  - destruct F as [|a z l xs A F]; [now destruct N|]. cbn [first]. exists a. split; [exact A|]. intros p. cbn [fault]. now rewrite L.
Qed.
Lemma solid_raw n m j v : having n m some_text = true -> Solid n j v ->
  Tells j [Member m] (let* x := getattr v (snake_case (lit m)) in raw_value x) Sayable.
Proof.
  intros H S. destruct (solid_text n m j v H S) as (kvs & x & -> & -> & [(-> & L)|(s & k & L & -> & O)]); cbn [obind raw_value Tells]; [|exact O].
  cbn [fault]. now rewrite L.
Qed.
Lemma having_id n : In n ["AssetAdministrationShell"; "Submodel"] -> having n "id" some_text = true.
Proof. intros [<-|[<-|[]]]; vm_compute; reflexivity. Qed.
Lemma solid_id n j v : In n ["AssetAdministrationShell"; "Submodel"] -> Solid n j v -> Tells j [Member "id"] (raw_id v) Sayable.
Proof. intros I S. exact (solid_raw n "id" j v (having_id n I) S). Qed.
Lemma solid_key j v : Solid "Reference" j v -> Tells j [Member "keys"; Item 0; Member "value"] (first_key v) Sayable.
Proof.
  intros S. unfold first_key. destruct (solid_first "Reference" "keys" "Key" j v) as (x & G & F); [vm_compute; reflexivity|exact S|].
  change (get v "keys") with (getattr v (snake_case (lit "keys"))). rewrite G. cbn [obind].
  destruct (first x) as [z|e]; cbn [obind Tells]; [|apply F]. destruct F as (y & Y & Q).
  assert (Hv : having "Key" "value" some_text = true) by (vm_compute; reflexivity). pose proof (solid_raw "Key" "value" y z Hv Y) as T.
  change (get z "value") with (getattr z (snake_case (lit "value"))). destruct (let* x := getattr z (snake_case (lit "value")) in raw_value x); cbn [Tells] in *; [exact T|]. now rewrite Q.
Qed.
Lemma tells_step j y q p {X} (o : outcome X) R : fault (Some j) (q ++ p) = fault (Some y) p -> Tells y p o R -> Tells j (q ++ p) o R.
Proof. intros E. destruct o; cbn [Tells]; [auto|now rewrite E]. Qed.
Lemma solid_submodel j v : Solid "AssetAdministrationShell" j v ->
  Tells j submodel_key (let* l := get v "submodels" in let* m := first l in first_key m) Sayable.
Proof.
  intros S. destruct (solid_first "AssetAdministrationShell" "submodels" "Reference" j v) as (x & G & F); [vm_compute; reflexivity|exact S|].
  change (get v "submodels") with (getattr v (snake_case (lit "submodels"))). rewrite G. cbn [obind].
  destruct (first x) as [z|e]; cbn [obind Tells]; [|apply F]. destruct F as (y & Y & Q).
  apply (tells_step j y [Member "submodels"; Item 0]); [apply Q|now apply solid_key].
Qed.
Lemma solid_short j v : Solid "AssetAdministrationShell" j v -> Tells j [Member "idShort"] (let* n := get v "id_short" in raw_value n) Sayable.
Proof. intros S. apply (solid_raw "AssetAdministrationShell" "idShort" j v); [vm_compute; reflexivity|exact S]. Qed.
Lemma solid_asset j v : Solid "AssetAdministrationShell" j v ->
  Tells j [Member "assetInformation"; Member "globalAssetId"] (shell_asset v) (fun a => exists n s, a = VlAssetId n s).
Proof.
  intros S. unfold shell_asset. destruct (solid_object "AssetAdministrationShell" "assetInformation" "AssetInformation" j v) as (kvs & x & -> & G & F); [vm_compute; reflexivity|exact S|].
  change (get v "asset_information") with (getattr v (snake_case (lit "assetInformation"))). rewrite G. cbn [obind].
  destruct F as [(-> & L)|(y & L & Y)].
  - cbn [get getattr obind Tells fault]. now rewrite L.
  - assert (Hv : having "AssetInformation" "globalAssetId" some_text = true) by (vm_compute; reflexivity). pose proof (solid_raw "AssetInformation" "globalAssetId" y x Hv Y) as T.
    change (get x "global_asset_id") with (getattr x (snake_case (lit "globalAssetId"))). destruct (getattr x (snake_case (lit "globalAssetId"))) as [g|]; cbn [obind] in *.
    + destruct (raw_value g) as [s|]; cbn [obind Tells] in *; [|cbn [fault]; now rewrite L]. destruct T as [_ T]. destruct s as [|c s]; [congruence|]. cbn [Tells]. eauto.
    + cbn [Tells fault] in *. now rewrite L.
Qed.

(** ** Pages *)
Definition Firm (b : body) (j : json) (v : pyval) : Prop := Bears b j v /\ BodyOk b j.
Lemma firm_model n j v : Firm (b_obj n) j v -> Solid n j v.
Proof. intros [B O]. inversion B; subst. inversion O; subst. now split. Qed.
Lemma firm_page item j v : Firm (paged_body item) j v ->
  (exists c, cursor_of v = Val c) /\ exists kvs l xs, j = JObj kvs /\ lookup (lit "result") kvs = Some (JArr l) /\ get v "result" = Val (VList xs) /\ Forall2 (Firm item) l xs.
Proof.
  intros [B O]. inversion O as [| | | |ms kvs K R M| |]; subst. inversion B as [| | | |ms kvs' k attrs N S| |]; subst.
  assert (Ip : In (lit "paging_metadata", (true, BObject [(lit "cursor", (false, BText))])) (page_members item)) by (now left).
  assert (Ir : In (lit "result", (true, BList item)) (page_members item)) by (right; now left).
  split.
  - pose proof (R _ _ Ip) as Lp. destruct (lookup (lit "paging_metadata") kvs) as [y|] eqn:E; [|congruence]. clear Lp.
    destruct (S _ _ _ _ Ip E) as (x & X & Bx). unfold cursor_of, get. cbn [getattr]. change (snake_case (lit "paging_metadata")) with (lit "paging_metadata") in X. rewrite X. cbn [obind].
    inversion Bx as [| | | |ms kvs' k' attrs' N' S'| |]; subst. cbn [getattr].
    assert (Ic : In (lit "cursor", (false, BText)) [(lit "cursor", (false, BText))]) by (now left).
    destruct (lookup (lit "cursor") kvs') as [z|] eqn:Ec.
    + destruct (S' _ _ _ _ Ic Ec) as (w & W & Bw). change (snake_case (lit "cursor")) with (lit "cursor") in W. rewrite W. cbn [obind]. inversion Bw; subst. eauto.
    + specialize (N' _ _ _ Ic Ec). change (snake_case (lit "cursor")) with (lit "cursor") in N'. rewrite N'. cbn [obind]. eauto.
  - pose proof (R _ _ Ir) as Lp. destruct (lookup (lit "result") kvs) as [y|] eqn:E; [|congruence]. clear Lp.
    destruct (S _ _ _ _ Ir E) as (x & X & Bx). change (snake_case (lit "result")) with (lit "result") in X. pose proof (M _ _ _ _ Ir E) as Oy.
    inversion Bx as [| | |b l xs F| | |]; subst. inversion Oy as [| | |b l' Ol| | |]; subst.
    exists kvs, l, xs. split; [reflexivity|]. split; [exact E|]. split; [unfold get; cbn [getattr]; now rewrite X|].
    clear - F Ol. induction F as [|a x l xs A F IH]; constructor; [split; [exact A|apply Ol; now left]|]. apply IH. intros z I. apply Ol. now right.
Qed.
Lemma firm_cursor item j v : Firm (paged_body item) j v -> exists c, cursor_of v = Val c.
Proof. intros F. now destruct (firm_page item j v F). Qed.
Lemma firm_length item j v : Firm (paged_body item) j v -> exists n, result_length v = Val n.
Proof. intros F. destruct (firm_page item j v F) as (_ & kvs & l & xs & -> & L & G & _). unfold result_length. rewrite G. cbn [obind as_items]. eauto. Qed.
Lemma firm_first item j v : Firm (paged_body item) j v ->
  match first_result v with
  | Val z => exists y, Firm item y z /\ value_at j (first_of []) = Some y /\ forall p, fault (Some j) (first_of p) = fault (Some y) p
  | Raise e => results j = Some 0%nat /\ forall p, fault (Some j) (first_of p) = Some e
  end.
Proof.
  intros F. destruct (firm_page item j v F) as (_ & kvs & l & xs & -> & L & G & A). unfold first_result, results, first_of. rewrite G. cbn [obind first value_at fault].
  rewrite L. cbn [value_at fault nth_error]. destruct A as [|a z l xs Fa A]; cbn [first List.length nth_error]; [split; reflexivity|]. exists a. split; [exact Fa|]. split; reflexivity.
Qed.

(** ** The paths of the elements *)
Lemma element_member k j attrs : k = "SubmodelElementCollection" \/ k = "SubmodelElementList" -> carries (GObj (lit k)) j (VObj (lit k) attrs) ->
  (value_at j [Member "value"] = None /\ lookup (lit "value") attrs = Some VNone) \/
  exists l xs, value_at j [Member "value"] = Some (JArr l) /\ lookup (lit "value") attrs = Some (VList xs) /\ Forall2 (carries (GObj (lit "SubmodelElement"))) l xs.
Proof.
  intros K C. assert (H : having k "value" (list_type "SubmodelElement") = true) by (destruct K as [->| ->]; vm_compute; reflexivity).
  destruct (carries_has _ _ _ _ _ H C) as [x G]. change (snake_case (lit "value")) with (lit "value") in G.
  assert (L : lookup (lit "value") attrs = Some x) by (cbn [getattr] in G; destruct (lookup (lit "value") attrs); [now injection G as ->|discriminate]).
  destruct (carries_get k "value" _ j _ x H C G) as [(-> & V)|(y & g & V & T & Cy)]; [left; now split|].
  destruct g as [| | | | |[]]; try discriminate T. cbn [list_type] in T. apply str_eqb_spec in T. subst.
  inversion Cy as [| | | |g' v' l xs I Le F|]; subst. destruct (element_value k j attrs xs K C L) as (l' & V' & F'). right. eauto.
Qed.
Lemma collect_raise n : forall j, (json_depth j < n)%nat -> forall v idx prefix d e, carries (GObj (lit "SubmodelElement")) j v ->
  collect_element v idx prefix d = Raise e -> e = TypeError /\ Hollow j.
Proof.
  induction n as [|n IH]; [lia|]. intros j D v idx prefix d e C E.
  assert (Fr : forall l, (forall x, In x l -> (json_depth x < n)%nat) -> forall xs, Forall2 (carries (GObj (lit "SubmodelElement"))) l xs ->
    forall i prefix d, collect_elements i xs prefix d = Raise e -> e = TypeError /\ exists x, In x l /\ Hollow x).
  { intros l Dl xs F. induction F as [|a x l xs Ca F IHl]; intros i p f G; cbn [collect_elements] in *; [discriminate|].
    destruct (collect_element x i p f) as [f'|e'] eqn:X; cbn [obind] in G.
    - destruct (IHl (fun y I => Dl y (or_intror I)) _ _ _ G) as (-> & z & Iz & Hz). split; [reflexivity|]. exists z. split; [now right|exact Hz].
    - injection G as ->. destruct (IH a (Dl a (or_introl eq_refl)) x i p f e Ca X) as (-> & H). split; [reflexivity|]. exists a. split; [now left|exact H]. }
  inversion C as [| | | | |n' v' c k kvs attrs Ex Nc Me ND A1 A2 A3 A4]; subst.
  destruct (element_tag j k attrs C) as (O & Tg & K). unfold element_class_ok in O. apply andb_prop in O. destruct O as [O O2]. apply andb_prop in O. destruct O as [_ O1].
  apply eqb_prop in O1, O2. rewrite collect_unfold, O1, O2 in E. clear O1 O2. destruct j as [| | | | | |ms]; try discriminate Tg.
  cbn [json_view w_tag] in Tg. destruct (lookup (lit "modelType") ms) as [[| | | |ty| |]|] eqn:Lt; try discriminate Tg. injection Tg as ->.
  assert (Hs : having "SubmodelElement" "idShort" text_type = true) by (vm_compute; reflexivity).
  destruct (carries_has _ _ _ _ _ Hs C) as [x X]. change (get (VObj k attrs) "id_short") with (getattr (VObj k attrs) (snake_case (lit "idShort"))) in E. rewrite X in E. cbn [obind] in E.
  destruct (carries_get "SubmodelElement" "idShort" text_type (JObj ms) (VObj k attrs) x Hs C X) as [(-> & L)|(y & g & L & T & Cy)]; [discriminate E|].
  cbn [value_at] in L. destruct (lookup (lit "idShort") ms) as [y'|] eqn:Li; [|discriminate]. injection L as ->.
  destruct g; try discriminate T. inversion Cy as [t' v' s k' Tx| | | | |]; subst. destruct y as [| | | |s'| |]; try discriminate Tx. cbn in Tx. injection Tx as ->.
  cbn [truthy raw_value obind] in E. cbv zeta in *.
  assert (V : forall p f, container k ->
    match lookup (lit "value") attrs with None => Raise AttributeError | Some (VList l) => collect_elements 0 l p f | Some _ => Raise TypeError end = Raise e ->
    e = TypeError /\ Hollow (JObj ms)).
  { intros p f Kk Q.
    assert (M : (value_at (JObj ms) [Member "value"] = None /\ lookup (lit "value") attrs = Some VNone) \/
      exists l xs, value_at (JObj ms) [Member "value"] = Some (JArr l) /\ lookup (lit "value") attrs = Some (VList xs) /\ Forall2 (carries (GObj (lit "SubmodelElement"))) l xs).
    { specialize (K Kk). destruct Kk as [-> | ->]; [apply (element_member "SubmodelElementCollection" _ attrs)|apply (element_member "SubmodelElementList" _ attrs)]; auto. }
    destruct M as [(M & La)|(l & xs & M & La & F)]; rewrite La in Q; cbn [value_at] in M.
    - injection Q as <-. split; [reflexivity|]. eapply Ho_empty; eauto. destruct (lookup (lit "value") ms); [discriminate|reflexivity].
    - destruct (lookup (lit "value") ms) as [z|] eqn:Lm; [|discriminate]. injection M as ->.
      assert (Dl : forall x, In x l -> (json_depth x < n)%nat).
      { intros z I. apply lookup_In in Lm. apply (list_max_map (fun kv => json_depth (snd kv))) in Lm. cbn [snd json_depth] in Lm, D. apply (list_max_map json_depth) in I. lia. }
      destruct (Fr l Dl xs F 0%nat p f Q) as (-> & z & Iz & Hz). split; [reflexivity|]. eapply Ho_inside; eauto. }
  destruct (str_eqb k (lit "SubmodelElementCollection")) eqn:K1.
  - apply str_eqb_spec in K1. eapply V; [now left|exact E].
  - destruct (str_eqb k (lit "SubmodelElementList")) eqn:K2; [|discriminate E]. apply str_eqb_spec in K2. eapply V; [now right|exact E].
Qed.
(** what [setup_elements] reads *)
Definition read_paths (r : pyval) : outcome (list (str * list str) * str) :=
  let* l := get r "result" in let* xs := as_items l in
  let* paths := collect_elements 0%nat xs [] [] in
  let* p := match paths with
            | [] => Raise StopIteration
            | (_, []) :: _ => Raise IndexError
            | (_, p :: _) :: _ => Val p
            end in
  Val (paths, p).
Lemma firm_paths j v e : Firm (paged_body (b_obj "SubmodelElement")) j v -> read_paths v = Raise e ->
  exists l, value_at j [Member "result"] = Some (JArr l) /\ (e = TypeError /\ Exists Hollow l \/ e = StopIteration /\ paths_of 0 l = []).
Proof.
  intros F E. destruct (firm_page _ j v F) as (_ & kvs & l & xs & -> & L & G & A). exists l. cbn [value_at]. rewrite L. split; [reflexivity|].
  unfold read_paths in E. rewrite G in E. cbn [obind as_items] in E. destruct (collect_elements 0 xs [] []) as [d|e'] eqn:C; cbn [obind] in E.
  - right. destruct F as [B _]. destruct (page_paths (JObj kvs) v (VList xs) xs d B G eq_refl C) as (js & Y & ->). cbn [value_at] in Y. rewrite L in Y. injection Y as <-.
    destruct (paths_of 0 l) as [|[t p] ps] eqn:P; cbn [fold_left] in E.
    + cbn [obind] in E. injection E as <-. split; reflexivity.
    + exfalso. unfold add_to at 2 in E. unfold add_path in E. cbn [lookup assign fst snd app] in E. destruct (adds_head ps t p [] []) as (l' & d' & Q). rewrite Q in E. discriminate.
  - injection E as ->. left. clear L G F kvs. revert C. generalize (@nil (str * list str)). generalize 0%nat. induction A as [|a x js xs Fa A IH]; intros i f C; cbn [collect_elements] in C; [discriminate|].
    destruct Fa as [Ca _]. apply bears_model in Ca. destruct (collect_element x i [] f) as [f'|e'] eqn:X; cbn [obind] in C.
    + destruct (IH _ _ C) as [-> H]. split; [reflexivity|now right].
    + injection C as ->. destruct (collect_raise (S (json_depth a)) a (Nat.lt_succ_diag_r _) x i [] f e Ca X) as (-> & H). split; [reflexivity|now left].
Qed.
(** the texts of the documents can be encoded *)
Lemma xml_scalar s : Forall XmlChar s -> Forall scalar s.
Proof. apply Forall_impl. unfold XmlChar, scalar. intros c H. lia. Qed.
Lemma sayable_base64 s : Sayable s -> base64_string s = Val (VlBase64 s) /\ exists t, base64_urlsafe s = Val t.
Proof.
  intros [X _]. split; [|apply base64_urlsafe_total; now apply xml_scalar]. unfold base64_string.
  assert (B : sfv_construct (Sfv None None None None true) s = Built) by (apply sfv_spec; cbn; auto). now rewrite B.
Qed.
