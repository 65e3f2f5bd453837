(** Properties C42 - C46 and C89: the meta model check of XML documents. *)
From Coq Require Import PeanoNat Lia String List NArith Bool Permutation.
From Verif Require Import PyStr PyStrFacts PyBase PyXml PyVal ResultModel ResultFacts ReflectModel MetaModel AdapterModel
  ParseModel MetaSpec MetaFacts ConstraintModel CheckModel ParseSpec ParseFacts ParseFacts2 ParseSim ParseFacts3 P_Parse
  XmlSpec XmlFacts XmlFacts2 XmlFacts3.
Import ListNotations.
Local Open Scope list_scope.
Local Opaque aas_v3_0_checked model_classes model_table schema_names.

Lemma xml_run repr n e i : symbol_lookup model_table n = Val i ->
  meta_check_xml repr n e = parse xml xml_adapter model_classes model_table repr model_post_parse (S (xml_depth e)) i [] e [].
Proof. intros L. unfold meta_check_xml. rewrite model_symbols_eq. cbn [obind]. rewrite L. reflexivity. Qed.
Lemma names_index n g : Names n g -> exists i, symbol_lookup model_table n = Val i /\ Fits model_classes model_table i g.
Proof. intros (t & i & E & L & F). rewrite model_symbols_eq in E. assert (model_table = t) as <- by congruence. eauto. Qed.
Lemma xml_check_correct repr n g e : Names n g -> well_named e -> Correct xml M xml_seen g [] e [] (meta_check_xml repr n e).
Proof. intros N W. destruct (names_index n g N) as (i & L & F). rewrite (xml_run repr n e i L). apply xml_correct; [exact F|lia|exact W]. Qed.

Lemma xml_check_any repr n g e : Names n g -> Correct xml M xml_seen g [] e [] (meta_check_xml repr n e) \/
  (meta_check_xml repr n e = Raise IndexError /\ ~ Conforms xml_seen M g e).
Proof. intros N. destruct (names_index n g N) as (i & L & F). rewrite (xml_run repr n e i L). apply xml_any; [exact F|lia]. Qed.

(** * C42: no exceptions *)
Theorem C42_total : forall repr n g e, Names n g -> well_named e -> exists x fs, meta_check_xml repr n e = Val (x, fs).
Proof. intros repr n g e N W. destruct (xml_check_correct repr n g e N W) as (x & fs & E & _). eauto. Qed.
Print Assumptions C42_total.
(** The only exception is the IndexError of an element with a short name. *)
Theorem C42_only : forall repr n g e x, Names n g -> meta_check_xml repr n e = Raise x -> x = IndexError /\ ~ well_named e.
Proof.
  intros repr n g e x N H. split.
  - destruct (xml_check_any repr n g e N) as [(y & fs & E & _)|[E _]]; congruence.
  - intros W. destruct (C42_total repr n g e N W) as (y & fs & E). congruence.
Qed.
Print Assumptions C42_only.
(** In particular, if all elements are in the namespace of the AAS. *)
Inductive AllInNs : xml -> Prop := InNs n a x l : n <> [] -> Forall AllInNs l -> AllInNs (El (aas_ns ++ n) a x l).
Lemma in_ns_inv e : AllInNs e -> (exists n, x_tag e = aas_ns ++ n /\ n <> []) /\ Forall AllInNs (x_children e).
Proof. destruct 1 as [n a x l H F]. split; [exists n; split; [reflexivity|exact H]|exact F]. Qed.
Theorem C42_namespace : forall repr n g e, Names n g -> AllInNs e -> exists x fs, meta_check_xml repr n e = Val (x, fs).
Proof.
  intros repr n g e N H. apply (C42_total repr n g e N). clear N. induction e as [t a x l IH] using xml_ind'.
  destruct (in_ns_inv _ H) as [(m & Em & Nm) F]. apply well_named_eq. split.
  - rewrite Em, skipn_tag. exact Nm.
  - rewrite Forall_forall in *. auto.
Qed.
Print Assumptions C42_namespace.
Definition aas (n : string) (l : list xml) : xml := El (aas_ns ++ lit n) [] None l.
Definition txt (n s : string) : xml := El (aas_ns ++ lit n) [] (Some (lit s)) [].
(** A property without namespace. *)
Definition foreign : xml := El (lit "property") [] None [].
Definition crash_doc : xml := aas "submodel" [txt "id" "urn:s"; aas "submodelElements" [foreign]].
Definition sm_index : nat := Eval vm_compute in match symbol_lookup model_table (lit "Submodel") with Val i => i | Raise _ => 0 end.
Lemma sm_lookup : symbol_lookup model_table (lit "Submodel") = Val sm_index.
Proof. vm_compute. reflexivity. Qed.
Theorem C42_refuted : exists n g e, Names n g /\ forall repr, meta_check_xml repr n e = Raise IndexError.
Proof.
  exists (lit "Submodel"), (GObj (lit "Submodel")), crash_doc. split; [apply P_Parse.named; vm_compute; reflexivity|].
  intros repr. eapply eq_trans; [exact (xml_run repr (lit "Submodel") crash_doc _ sm_lookup)|]. vm_compute. reflexivity.
Qed.
Print Assumptions C42_refuted.

(** * C89: what is accepted *)
Theorem C89_accepts : forall repr n g e, Names n g ->
  ((exists x, meta_check_xml repr n e = Val (x, [])) <-> Conforms xml_seen M g e) /\
  forall x, meta_check_xml repr n e = Val (x, []) -> Carries xml_seen M g e x.
Proof.
  intros repr n g e N. destruct (xml_check_any repr n g e N) as [(x & fs & E & C & K & _)|[E X]]; simpl in E.
  - split.
    + split.
      * intros (y & Ey). apply C. congruence.
      * intros H. apply C in H. subst fs. eauto.
    + intros y Ey. assert (fs = [] /\ x = y) as [-> ->] by (split; congruence). now apply K.
  - split.
    + split; [intros (y & Ey); congruence|]. intros H. contradiction.
    + intros y Ey. congruence.
Qed.
Print Assumptions C89_accepts.
Theorem C89_positions : forall repr n g e x fs f, Names n g -> meta_check_xml repr n e = Val (x, fs) -> In f fs ->
  exists h w, At xml_seen M g e (f_path f) h w /\ ~ Conforms xml_seen M h w.
Proof.
  intros repr n g e x fs f N H I. destruct (xml_check_any repr n g e N) as [(y & fs' & E & _ & _ & J)|[E _]]; simpl in E; [|congruence].
  assert (fs = fs') by congruence. subst fs'. rewrite Forall_forall in J. destruct (J f I) as (q & h & w & Ep & A & C).
  simpl in Ep. rewrite Ep. eauto.
Qed.
Print Assumptions C89_positions.
(** All documents of the XML schema are accepted. *)
Theorem C89_complete : forall repr n g e, Names n g -> Conforms xml_view M g e -> exists x, meta_check_xml repr n e = Val (x, []).
Proof.
  intros repr n g e N C. apply (C89_accepts repr n g e N). now apply strict_conforms.
Qed.
Print Assumptions C89_complete.
(** What is accepted is a document of the schema, if the elements have no surplus children, booleans are
    true, false, 1 or 0, lists have no text, and no element occurs twice ([Regular]). *)
Theorem C89_sound_partial : forall repr n g e x, Names n g -> meta_check_xml repr n e = Val (x, []) ->
  (forall q h w, At xml_seen M g e q h w -> Regular h w) -> Conforms xml_view M g e.
Proof.
  intros repr n g e x N H R. apply regular_conforms; [|exact R]. apply (C89_accepts repr n g e N). eauto.
Qed.
Print Assumptions C89_sound_partial.
(** The object has the content of the document, if booleans are true or false. *)
Theorem C89_content_partial : forall repr n g e x, Names n g -> meta_check_xml repr n e = Val (x, []) ->
  (forall q h w, At xml_seen M g e q h w -> Canonical h w) -> Carries xml_view M g e x.
Proof.
  intros repr n g e x N H R. apply regular_carries; [|exact R]. now apply (C89_accepts repr n g e N).
Qed.
Print Assumptions C89_content_partial.

(** * C43: texts with child elements *)
Definition key_index : nat := Eval vm_compute in match symbol_lookup model_table (lit "Key") with Val i => i | Raise _ => 0 end.
Lemma key_lookup : symbol_lookup model_table (lit "Key") = Val key_index.
Proof. vm_compute. reflexivity. Qed.
Lemma named_key : Names (lit "Key") (GObj (lit "Key")).
Proof. apply P_Parse.named; vm_compute; reflexivity. Qed.
Definition key_class := get_class aas_v3_0_checked "Key".
Lemma key_in : In key_class M /\ gc_name key_class = lit "Key".
Proof. apply get_class_In. vm_compute. reflexivity. Qed.
Lemma key_expected {V} (W : view V) e : Expected W M (lit "Key") e key_class.
Proof. destruct key_in as [I E]. apply Exp_concrete; [exact I|exact E|vm_compute; reflexivity]. Qed.
Lemma key_value : In (GAttr (lit "value") true s_identifier) (gc_attrs key_class).
Proof. vm_compute. auto. Qed.
Definition mixed : xml := El (aas_ns ++ lit "value") [] (Some (lit "urn:x")) [aas "b" []; aas "c" [aas "d" []]].
Definition mixed_key : xml := aas "key" [txt "type" "Submodel"; mixed].
Theorem C43_refuted : exists n g e q w, Names n g /\ At xml_seen M g e q s_identifier w /\ x_children w <> [] /\
  forall repr, exists x, meta_check_xml repr n e = Val (x, []).
Proof.
  exists (lit "Key"), (GObj (lit "Key")), mixed_key, [SKey (lit "value")], mixed. split; [exact named_key|]. split; [|split; [discriminate|]].
  - apply (At_member _ xml_seen M (lit "Key") mixed_key key_class [(lit "type", txt "type" "Submodel"); (lit "value", mixed)]
             (GAttr (lit "value") true s_identifier) mixed [] s_identifier mixed);
      [apply key_expected|vm_compute; reflexivity|exact key_value|vm_compute; reflexivity|constructor].
  - intros repr. eexists. eapply eq_trans; [exact (xml_run repr (lit "Key") mixed_key _ key_lookup)|]. vm_compute. reflexivity.
Qed.
Print Assumptions C43_refuted.
(** Child elements are reported if the first one has children itself. *)
Theorem C43_nested_partial : forall repr n g e x fs q h w c d l, Names n g -> meta_check_xml repr n e = Val (x, fs) ->
  At xml_seen M g e q h w -> TextType h \/ h = GBool -> x_children w = c :: l -> In d (x_children c) -> fs <> [].
Proof.
  intros repr n g e x fs q h w c d l N H A Th Ew Ic ->.
  assert (C : Conforms xml_seen M g e) by (apply (C89_accepts repr n g e N); eauto). clear H N.
  assert (Cw : Conforms xml_seen M h w).
  { induction A as [g v|g v l' i y q h w E L A IH|m v c' kvs a y q h w Ex E I L A IH]; [exact C| |]; apply IH; auto.
    - inversion C as [| | | |g0 v0 l0 E0 N0 F0|]; subst. apply F0. assert (l0 = l') by congruence. subst. eapply nth_error_In; eauto.
    - inversion C as [| | | | |n0 v0 c0 kvs0 X0 T0 E0 R0 U0 F0]; subst. assert (kvs0 = kvs) by congruence. subst.
      assert (c0 = c') by exact (expected_fun _ _ _ model_names _ _ _ _ X0 Ex). subst. eapply F0; eauto. }
  assert (St : seen_text w = None).
  { unfold seen_text. rewrite Ew. destruct c as [t a s [|z r]]; [destruct Ic|reflexivity]. }
  inversion Cw as [t v s E K|v s E|v b E|lt v s E K|g0 v l0 E|n0 v c0 kvs E]; subst; simpl in *; try congruence; try rewrite St in E; try discriminate; destruct Th as [Th|Th]; try contradiction; discriminate.
Qed.
Print Assumptions C43_nested_partial.

(** * C44: booleans *)
Definition lvl_index : nat := Eval vm_compute in match symbol_lookup model_table (lit "LevelType") with Val i => i | Raise _ => 0 end.
Lemma lvl_lookup : symbol_lookup model_table (lit "LevelType") = Val lvl_index.
Proof. vm_compute. reflexivity. Qed.
Definition level (s : string) : xml := aas "levelType" [txt "min" "true"; txt "nom" "false"; txt "typ" "true"; txt "max" s].
(** Any text is a boolean, and 1 is read as false. *)
Theorem C44_refuted : forall s, In s ["yes"; "1"; ""; "TRUE"]%string -> forall repr,
  exists a, meta_check_xml repr (lit "LevelType") (level s) = Val (VObj (lit "LevelType") a, []) /\ lookup (lit "max") a = Some (VBool false).
Proof.
  intros s I repr.
  destruct I as [<-|[<-|[<-|[<-|[]]]]]; (eexists; split; [eapply eq_trans; [exact (xml_run repr (lit "LevelType") (level _) _ lvl_lookup)|]; vm_compute; reflexivity|vm_compute; reflexivity]).
Qed.
Print Assumptions C44_refuted.
(** An element that stands for a boolean is read as true exactly if its text is "true". *)
Theorem C44_reading_partial : forall e x, Carries xml_seen M GBool e x <->
  (forall c l, x_children e = c :: l -> x_children c = []) /\ x = VBool (str_eqb (text_of e) (lit "true")).
Proof.
  intros e x. assert (S : seen_text e = Some (text_of e) <-> forall c l, x_children e = c :: l -> x_children c = []).
  { unfold seen_text. destruct (x_children e) as [|[t a s [|z r]] k]; split; intros H; try reflexivity; try discriminate.
    - intros c l X. injection X as <- <-. reflexivity.
    - specialize (H _ _ eq_refl). discriminate. }
  assert (N : seen_text e = None \/ seen_text e = Some (text_of e)).
  { unfold seen_text. destruct (x_children e) as [|[t a s [|z r]] k]; auto. }
  split.
  - intros C. inversion C as [| |v b E| | |]; subst. simpl in E. destruct N as [N|N]; rewrite N in E; [discriminate|].
    split; [now apply S|]. simpl in E. congruence.
  - intros [H ->]. apply S in H. constructor. simpl. rewrite H. reflexivity.
Qed.
Print Assumptions C44_reading_partial.

(** * C45: duplicates *)
Definition double_key : xml := aas "key" [txt "type" "Submodel"; txt "value" "urn:x"; txt "value" "urn:y"].
Theorem C45_refuted : exists n e, Names n (GObj n) /\ ~ NoDup (List.map x_tag (x_children e)) /\
  forall repr, exists a, meta_check_xml repr n e = Val (VObj n a, []) /\ lookup (lit "value") a = Some (VSfv (lit "IdentifierString") (lit "urn:y")).
Proof.
  exists (lit "Key"), double_key. split; [exact named_key|]. split.
  - intros N. apply distinct_spec in N. vm_compute in N. discriminate.
  - intros repr. eexists. split; [eapply eq_trans; [exact (xml_run repr (lit "Key") double_key _ key_lookup)|]|]; vm_compute; reflexivity.
Qed.
Print Assumptions C45_refuted.
(** Duplicates of unknown elements are reported, of known ones the last one counts. *)
Theorem C45_last_partial : forall e kvs k c l1 l2, seen_content e = Some e -> seen_members e = Some kvs ->
  x_children e = l1 ++ c :: l2 -> local_name c = Some k -> (forall c', In c' l2 -> local_name c' <> Some k) ->
  seen_name e <> Some (lit "OperationVariable") -> lookup k kvs = Some c.
Proof.
  intros e kvs k c l1 l2 Ec Em Ex Ek Nl No. unfold seen_members in Em. destruct (in_ns e && blank (x_text e)); [|discriminate].
  rewrite Ec in Em. destruct (all_some _) as [ms|] eqn:Ea; [|discriminate]. injection Em as <-. rewrite Ex in Ea.
  assert (X : exists m1 m2, ms = m1 ++ (k, c) :: m2 /\ ~ In k (List.map fst m2)).
  { clear Ex. revert ms Ea. induction l1 as [|b l1 IH]; intros ms; cbn [app List.map all_some].
    - assert (Sm : forall b k', local_name b = Some k' -> seen_member e b = Some (k', b) \/ seen_member e b = None).
      { intros b k' E'. unfold seen_member. rewrite E'. destruct (seen_name e) as [n|]; [|auto].
        destruct (str_eqb n (lit "OperationVariable")) eqn:En; [apply str_eqb_spec in En; congruence|]. auto. }
      destruct (Sm c k Ek) as [-> | ->]; [|discriminate]. destruct (all_some _) as [m2|] eqn:E2; [|discriminate]. intros [= <-].
      exists [], m2. split; [reflexivity|]. intros I. apply in_map_iff in I. destruct I as ([k' y] & E & I). simpl in E. subst k'.
      apply (all_some_in _ _ E2) in I. apply in_map_iff in I. destruct I as (b & Eb & Ib). apply (Nl b Ib).
      unfold seen_member in Eb. destruct (local_name b) as [k'|]; [|discriminate]. destruct (seen_name e); [|discriminate].
      destruct (_ && _); [destruct (the_child b); [simpl in Eb; congruence|discriminate]|congruence].
    - destruct (seen_member e b) as [m|]; [|discriminate]. destruct (all_some _) as [ms'|]; [|discriminate]. intros [= <-].
      destruct (IH ms' eq_refl) as (m1 & m2 & -> & H). exists (m :: m1), m2. split; [reflexivity|exact H]. }
  destruct X as (m1 & m2 & -> & H). unfold last_wins. rewrite fold_left_app. cbn [fold_left fst snd].
  assert (L : forall acc, lookup k acc = Some c -> lookup k (fold_left (fun o kv => assign (fst kv) (snd kv) o) m2 acc) = Some c).
  { clear -H. induction m2 as [|[k' y] m2 IH]; intros acc E; [exact E|]. cbn [fold_left fst snd]. apply IH.
    - intros I. apply H. now right.
    - rewrite ReflectFacts.lookup_assign_other; [exact E|]. intros ->. apply H. now left. }
  apply L. apply ReflectFacts.lookup_assign_same.
Qed.
Print Assumptions C45_last_partial.

(** * C46: JSON and XML *)
Theorem C46_same_object : forall show repr n cn v e, Names n (GObj cn) -> SerialDoc cn v e ->
  exists x fs fs', meta_check_json show repr n v = Val (x, fs) /\ meta_check_xml repr n e = Val (x, fs') /\
    List.map f_path fs' = List.map f_path fs /\ (fs' = [] <-> fs = []).
Proof.
  intros show repr n cn v e N S. destruct (C36_total show repr n _ v N) as (x & fs & E).
  destruct (names_index n _ N) as (i & L & F). exists x, fs.
  assert (Sm : same (meta_check_json show repr n v) (meta_check_xml repr n e)).
  { rewrite (check_run show repr n v i L), (xml_run repr n e i L). apply serial_sim; [lia|lia| |reflexivity].
    exists (GObj cn). split; [exact F|]. now apply item_rep. }
  destruct (order_lemma _ _ _ _ Sm E) as (fs' & E' & H). exists fs'. auto.
Qed.
Print Assumptions C46_same_object.
(** The verdicts, including the constraints, agree; reports differ at most in the texts of findings. *)
Theorem C46_same_verdict : forall show repr n cn v e, Names n (GObj cn) -> SerialDoc cn v e ->
  match check_json show repr n v, check_xml repr n e with
  | Val (r, x), Val (r', x') => x = x' /\ ok r = ok r' /\ (ok r = true -> r = r')
  | Raise a, Raise b => a = b
  | _, _ => False
  end.
Proof.
  intros show repr n cn v e N S. destruct (C46_same_object show repr n cn v e N S) as (x & fs & fs' & E & E' & Hp & Hn).
  unfold check_json, check_xml. rewrite E, E'. destruct fs as [|f fs].
  - assert (fs' = []) as -> by now apply Hn. destruct (parse_and_check check_model (Val (x, []))) as [[r y]|ex]; auto.
  - destruct fs' as [|f' fs']; [destruct Hn as [Hn _]; discriminate (Hn eq_refl)|].
    destruct (C39_skipped check_model x f fs) as (r & m & -> & _ & _ & O & _).
    destruct (C39_skipped check_model x f' fs') as (r' & m' & -> & _ & _ & O' & _).
    split; [reflexivity|]. split; congruence.
Qed.
Print Assumptions C46_same_verdict.
(** Every document that conforms to the meta model has an XML serialization. *)
Theorem C46_exists : forall cn v, Conforms json_view M (GObj cn) v -> Unique v -> exists e, SerialDoc cn v e.
Proof.
  intros cn v C U. destruct (conforms_expected cn v C) as (c & X). destruct (serializable _ _ C U (class_tag c)) as (e & S).
  exists e. eapply SeI_obj; eauto.
Qed.
Print Assumptions C46_exists.

(** The checker accepts more than the schema. *)
Theorem C89_refuted : forall e, In e [mixed_key; double_key] -> ~ Conforms xml_view M (GObj (lit "Key")) e /\
  forall repr, exists x, meta_check_xml repr (lit "Key") e = Val (x, []).
Proof.
  destruct key_in as [I E]. intros e [<-|[<-|[]]]; split.
  - intros H.
    assert (C : Conforms xml_view M s_identifier mixed).
    { eapply (concrete_attr xml_view M (lit "Key") mixed_key key_class (GAttr (lit "value") true s_identifier) [(lit "type", txt "type" "Submodel"); (lit "value", mixed)]);
        [exact model_names|exact I|exact E|vm_compute; reflexivity|exact key_value|vm_compute; reflexivity|vm_compute; reflexivity|exact H]. }
    inversion C as [t v s Es Ts| | | | |]; subst. vm_compute in Es. discriminate.
  - intros repr. eexists. eapply eq_trans; [exact (xml_run repr (lit "Key") mixed_key _ key_lookup)|]. vm_compute. reflexivity.
  - intros H. inversion H as [| | | | |n v c kvs X T Em R U F]; subst. vm_compute in Em. discriminate.
  - intros repr. eexists. eapply eq_trans; [exact (xml_run repr (lit "Key") double_key _ key_lookup)|]. vm_compute. reflexivity.
Qed.
Print Assumptions C89_refuted.

(** ** Examples *)
Definition prop_xml (l : list xml) : xml := aas "property" (l ++ [txt "valueType" "xs:int"]).
Definition good_xml : xml := aas "environment" [aas "submodels" [aas "submodel" [txt "idShort" "s"; txt "id" "urn:s";
  aas "submodelElements" [prop_xml [txt "idShort" "p"; txt "value" "1"];
    aas "submodelElementList" [txt "idShort" "l"; txt "typeValueListElement" "Property"; txt "valueTypeListElement" "xs:int"; aas "value" [prop_xml []]]]]]].
(** The object of the XML document is that of the JSON document in P_Parse.v. *)
Example C46_example : meta_check_xml quoted (lit "Environment") good_xml = meta_check_json no_show quoted (lit "Environment") good_doc.
Proof.
  eapply eq_trans; [exact (xml_run quoted (lit "Environment") good_xml _ env_lookup)|].
  eapply eq_trans; [|symmetry; exact (check_run no_show quoted (lit "Environment") good_doc _ env_lookup)]. vm_compute. reflexivity.
Qed.
Definition bad_xml : xml := aas "environment" [aas "submodels" [aas "submodel" [txt "idShort" "s"; txt "id" "urn:s";
  aas "submodelElements" [prop_xml [txt "idShort" "p"; txt "value" "1"];
    aas "range" [aas "idShort" [aas "a" [aas "b" []]]; txt "colour" ""]]];
  txt "submodel" "urn:x"]].
Example C42_example : found (meta_check_xml quoted (lit "Environment") bad_xml) =
  Some [(lit "No child elements allowed", lit "/submodels/0/submodelElements/1/idShort");
        (lit "Missing attribute valueType", lit "/submodels/0/submodelElements/1");
        (lit "Unknown additional attribute colour", lit "/submodels/0/submodelElements/1");
        (lit "No inline text allowed", lit "/submodels/1")].
Proof. rewrite (xml_run quoted (lit "Environment") bad_xml _ env_lookup). vm_compute. reflexivity. Qed.
Example C42_example_named : AllInNs good_xml.
Proof. repeat (constructor; [discriminate|]); repeat constructor; discriminate. Qed.
(** A reference in both serializations; the order of the elements differs. *)
Definition ref_xml : xml := aas "reference" [aas "keys" [aas "key" [txt "value" "urn:x"; txt "type" "GlobalReference"]]; txt "type" "ExternalReference"].
Lemma ser_text c n s t : In (GAttr (lit n) true t) (gc_attrs c) -> TextType t ->
  SerialMember c (lit n, JStr (lit s)) (txt n s).
Proof.
  intros I T. apply (SeM_plain c (GAttr (lit n) true t) (JStr (lit s)) (txt n s) I).
  - cbn [g_type]. intros cn ->. destruct T.
  - apply Se_text; [exact T|]. now left.
Qed.
Lemma not_key kvs : ~ In (lit "modelType") (List.map fst kvs) -> filter (fun kv : str * json => negb (str_eqb (fst kv) (lit "modelType"))) kvs = kvs.
Proof.
  induction kvs as [|[k v] kvs IH]; [reflexivity|]. intros H. cbn [filter fst]. destruct (str_eqb k (lit "modelType")) eqn:E.
  - apply str_eqb_spec in E. subst k. destruct H. now left.
  - cbn [negb]. f_equal. apply IH. intros I. apply H. now right.
Qed.
Example C46_example_serial : SerialDoc (lit "Reference") ref_doc ref_xml.
Proof.
  set (c := get_class aas_v3_0_checked "Reference").
  assert (Xc : In c M /\ gc_name c = lit "Reference") by (apply get_class_In; vm_compute; reflexivity). destruct Xc as [Ic Ec].
  assert (Ex : forall v, Expected json_view M (lit "Reference") v c) by (intros v; apply Exp_concrete; [exact Ic|exact Ec|vm_compute; reflexivity]).
  apply (SeI_obj _ _ c); [apply Ex|].
  assert (Et : class_tag c = lit "reference") by (vm_compute; reflexivity). rewrite Et.
  apply (Se_obj (lit "Reference") (lit "reference") _ c [] None [(lit "keys", JArr [JObj (text_doc [("type", "GlobalReference"); ("value", "urn:x")]%string)]);
      (lit "type", JStr (lit "ExternalReference"))]).
  - apply Ex.
  - unfold TagOk. vm_compute. discriminate.
  - apply distinct_spec. vm_compute. reflexivity.
  - reflexivity.
  - rewrite not_key; [apply perm_swap|]. intros H. apply str_in_spec in H. vm_compute in H. discriminate.
  - constructor; [|constructor; [|constructor]].
    + apply (SeM_plain c (GAttr (lit "keys") true (GList (GObj (lit "Key"))))); [vm_compute; auto 9| |].
      * cbn [g_type]. intros cn H. discriminate.
      * apply (Se_list (GObj (lit "Key")) (lit "keys") _ [] None); [reflexivity|]. constructor; [|constructor].
        apply (SeI_obj _ _ key_class); [apply key_expected|]. assert (Ek : class_tag key_class = lit "key") by (vm_compute; reflexivity). rewrite Ek.
        apply (Se_obj (lit "Key") (lit "key") _ key_class [] None (text_doc [("value", "urn:x"); ("type", "GlobalReference")]%string)).
        -- apply key_expected.
        -- unfold TagOk. vm_compute. discriminate.
        -- apply distinct_spec. vm_compute. reflexivity.
        -- reflexivity.
        -- rewrite not_key; [apply perm_swap|]. intros H. apply str_in_spec in H. vm_compute in H. discriminate.
        -- constructor; [|constructor; [|constructor]].
           ++ apply (ser_text key_class "value" "urn:x" s_identifier); [exact key_value|exact I].
           ++ apply (ser_text key_class "type" "GlobalReference" (g_type (get_attr key_class "type"))); [vm_compute; auto|vm_compute; exact I].
    + apply (ser_text c "type" "ExternalReference" (g_type (get_attr c "type"))); [vm_compute; auto|vm_compute; exact I].
Qed.
Example C44_example : Carries xml_seen M GBool (txt "min" "true") (VBool true) /\ Carries xml_seen M GBool (txt "min" "1") (VBool false).
Proof. split; apply C44_reading_partial; (split; [intros c l [=]|vm_compute; reflexivity]). Qed.
