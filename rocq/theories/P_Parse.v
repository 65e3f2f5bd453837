(** Properties C34 - C39: the meta model check of JSON documents. *)
From Coq Require Import PeanoNat Lia String List NArith ZArith Bool Permutation.
From Verif Require Import PyStr PyStrFacts PyBase PyXml PyVal DataTypesModel ResultModel ResultFacts ReflectModel ReflectFacts MetaModel AdapterModel
  ParseModel MetaSpec MetaFacts ConstraintModel CheckModel ParseSpec ParseFacts ParseFacts2 ParseSim ParseFacts3 ParseFacts4.
Import ListNotations.
Local Open Scope list_scope.

(** [n] is the name of a type of the checker's symbol table, and [g] describes this type. *)
Definition Names (n : str) (g : gtype) : Prop :=
  exists t i, model_symbols = Val t /\ symbol_lookup t n = Val i /\ Fits model_classes t i g.

(** Every class of the meta model has a name. *)
Definition is_named (t : table) (types : list (nat * text)) (n : str) (g : gtype) : bool :=
  match symbol_lookup t n with Val i => fitsb model_classes t types i g | Raise _ => false end.
Definition class_has_name (t : table) (types : list (nat * text)) (c : gclass) (d : classdecl) : bool :=
  if str_eqb (spec_name (c_name d)) (gc_name c) then is_named t types (c_name d) (GObj (gc_name c)) else false.
Lemma class_has_name_spec t types c d : class_has_name t types c d = true ->
  spec_name (c_name d) = gc_name c /\ is_named t types (c_name d) (GObj (gc_name c)) = true.
Proof.
  unfold class_has_name. destruct (str_eqb (spec_name (c_name d)) (gc_name c)) eqn:E; [|discriminate].
  intros H. apply str_eqb_spec in E. auto.
Qed.
Lemma is_named_spec t types n g : is_named t types n g = true ->
  exists i, symbol_lookup t n = Val i /\ fitsb model_classes t types i g = true.
Proof. unfold is_named. destruct (symbol_lookup t n) as [i|]; [|discriminate]. eauto. Qed.
Definition all_named : bool :=
  forallb (fun c => existsb (class_has_name model_table string_types c) model_classes) aas_v3_0_checked.
Lemma all_named_ok : all_named = true.
Proof. vm_compute. reflexivity. Qed.
Theorem C34_names : forall c, In c aas_v3_0_checked -> exists n, spec_name n = gc_name c /\ Names n (GObj (gc_name c)).
Proof.
  intros c I. apply (proj1 (forallb_forall _ _) all_named_ok) in I. apply existsb_exists in I. destruct I as (d & _ & H).
  destruct (class_has_name_spec _ _ _ _ H) as [E N]. destruct (is_named_spec _ _ _ _ N) as (i & L & F).
  exists (c_name d). split; [exact E|]. exists model_table, i. apply conj; [exact model_symbols_eq|]. apply conj; [exact L|].
  exact (fitsb_ok _ _ _ string_types_ok _ _ F).
Qed.
Print Assumptions C34_names.

Lemma lookup_bound (t : table) n i : symbol_lookup t n = Val i -> i < length t.
Proof.
  intros H. pose proof (symbol_lookup_spec t n) as S. rewrite H in S. destruct S as [(k & d & p & E & _) _].
  apply nth_error_Some. congruence.
Qed.
(** Other names are refused. *)
Theorem C34_other_names : forall show repr n v, (exists g, Names n g) \/ meta_check_json show repr n v = Raise ValueError.
Proof.
  intros show repr n v. pose proof (symbol_lookup_spec model_table n) as S. destruct (symbol_lookup model_table n) as [i|e] eqn:L.
  - left. destruct (entries_fit i (lookup_bound _ _ _ L)) as (g & F). exists g, model_table, i. auto using model_symbols_eq.
  - right. unfold meta_check_json. rewrite model_symbols_eq. cbn [obind]. rewrite L. destruct S as [-> _]. reflexivity.
Qed.
Print Assumptions C34_other_names.

Lemma order_lemma (o o' : outcome (pyval * list finding)) x fs : same o o' -> o = Val (x, fs) ->
  exists fs', o' = Val (x, fs') /\ List.map f_path fs' = List.map f_path fs /\ (fs' = [] <-> fs = []).
Proof.
  intros S ->. destruct o' as [[y fs']|e]; [|destruct S]. destruct S as [-> E]. exists fs'. split; [reflexivity|].
  split; [symmetry; exact E|]. destruct fs, fs'; simpl in E; try discriminate; split; auto; discriminate.
Qed.

Section Check.
  (** the texts of values in messages do not matter *)
  Variable show : json -> str.
  Variable repr : str -> str.
  Notation check := (meta_check_json show repr).
  Notation M := aas_v3_0_checked.

  Lemma check_eq n g : Names n g -> exists i, Fits model_classes model_table i g /\ forall v,
    check n v = parse json (json_adapter show) model_classes model_table repr model_post_parse (S (json_depth v)) i [] v [].
  Proof.
    intros (t & i & E & L & F). rewrite model_symbols_eq in E. assert (model_table = t) as <- by congruence. exists i. split; [exact F|]. intros v.
    unfold meta_check_json. rewrite model_symbols_eq. cbn [obind]. rewrite L. reflexivity.
  Qed.
  Lemma check_correct n g v : Names n g -> Correct json M json_view g [] v [] (check n v).
  Proof.
    intros N. destruct (check_eq n g N) as (i & F & E). rewrite E. apply json_correct; [exact F|lia].
  Qed.

  Theorem C34_sound : forall n g v x, Names n g -> check n v = Val (x, []) -> Conforms json_view M g v.
  Proof.
    intros n g v x N H. destruct (check_correct n g v N) as (y & fs & E & C & _). rewrite H in E. simpl in E.
    assert (fs = []) by congruence. now apply C.
  Qed.

  Theorem C35_complete : forall n g v, Names n g -> Conforms json_view M g v ->
    exists x, check n v = Val (x, []) /\ Carries json_view M g v x.
  Proof.
    intros n g v N H. destruct (check_correct n g v N) as (x & fs & E & C & K & _). apply C in H. subst fs.
    exists x. split; [exact E|now apply K].
  Qed.

  Theorem C36_total : forall n g v, Names n g -> exists x fs, check n v = Val (x, fs).
  Proof. intros n g v N. destruct (check_correct n g v N) as (x & fs & E & _). eauto. Qed.

  Lemma at_position g v q h w : At json_view M g v q h w -> Position v q.
  Proof.
    induction 1 as [g v|g v l i x q h w E L A IH|n v c kvs a x q h w Ex E I L A IH]; [constructor| |].
    - destruct v; try discriminate. injection E as ->. econstructor; eauto.
    - destruct v; try discriminate. injection E as <-. apply lookup_In in L. apply filter_In in L. econstructor; [apply L|exact IH].
  Qed.
  (** Every finding names a position of the document, at which there is a value that does not
      conform to the type required there. *)
  Theorem C37_positions : forall n g v x fs f, Names n g -> check n v = Val (x, fs) -> In f fs ->
    Position v (f_path f) /\
    exists h w, At json_view M g v (f_path f) h w /\ ~ Conforms json_view M h w.
  Proof.
    intros n g v x fs f N H I. destruct (check_correct n g v N) as (y & fs' & E & _ & _ & J). rewrite H in E. simpl in E.
    assert (fs = fs') by congruence. subst fs'. rewrite Forall_forall in J. destruct (J f I) as (q & h & w & Ep & A & C).
    simpl in Ep. rewrite Ep. split; [eapply at_position; eauto|]. eauto.
  Qed.

  Theorem C38_order : forall n g v v' x fs, Names n g -> Reordered v v' -> check n v = Val (x, fs) ->
    exists fs', check n v' = Val (x, fs') /\ List.map f_path fs' = List.map f_path fs /\ (fs' = [] <-> fs = []).
  Proof.
    intros n g v v' x fs N Rv H. destruct (check_eq n g N) as (i & _ & E). rewrite E in *. clear E N.
    eapply order_lemma; [|exact H]. apply reordered_sim; [lia|lia|exact Rv|reflexivity].
  Qed.
End Check.
Print Assumptions C34_sound.
Print Assumptions C35_complete.
Print Assumptions C36_total.
Print Assumptions C37_positions.
Print Assumptions C38_order.

(** Permuting the members of an object is a reordering, as is reordering inside. *)
Lemma reordered_refl v : Reordered v v.
Proof.
  assert (H : forall n v, json_depth v < n -> Reordered v v).
  { induction n as [|n IH]; [lia|]. intros w D. destruct w as [| | | | |l|kvs]; try (constructor; discriminate).
    - constructor; [reflexivity|]. intros i x y Ex Ey. assert (x = y) by congruence. subst y. apply IH.
      apply nth_error_In in Ex. assert (json_depth x < json_depth (JArr l)) by (apply (J_items (fun _ => []) (fun s => s) (JArr l) l); [reflexivity|exact Ex]). lia.
    - constructor; [reflexivity|]. intros k x y Ex Ey. assert (x = y) by congruence. subst y. apply IH. apply lookup_In in Ex.
      apply (list_max_map (fun kv => json_depth (snd kv))) in Ex. simpl in *. lia. }
  apply (H (S (json_depth v))). lia.
Qed.
Theorem C38_permutations : forall kvs kvs', NoDup (List.map fst kvs) -> Permutation kvs kvs' -> Reordered (JObj kvs) (JObj kvs').
Proof.
  intros kvs kvs' N Pm. constructor; [now apply Permutation_map|]. intros k x y Lx Ly.
  assert (N' : NoDup (List.map fst kvs')) by (eapply Permutation_NoDup; [apply Permutation_map; exact Pm|exact N]).
  apply lookup_In in Lx. apply (Permutation_in _ Pm) in Lx. rewrite (lookup_nodup _ _ _ N' Lx) in Ly.
  assert (x = y) by congruence. subst y. apply reordered_refl.
Qed.
Print Assumptions C38_permutations.

(** ** The specified meta model *)

(** Documents of the specified meta model are accepted if Blobs are not empty. *)
Theorem C35_specified : forall show repr n g v, Names n g -> Conforms json_view aas_v3_0_blobs g v ->
  exists x, meta_check_json show repr n v = Val (x, []) /\ Carries json_view aas_v3_0_checked g v x.
Proof.
  intros show repr n g v N C. apply C35_complete; [exact N|].
  eapply conforms_narrow; [exact blobs_narrower|exact C|apply N_same].
Qed.
Print Assumptions C35_specified.

Definition text_doc (l : list (string * string)) : list (str * json) := List.map (fun p => (lit (fst p), JStr (lit (snd p)))) l.
Definition empty_blob : json := JObj (text_doc [("modelType", "Blob"); ("contentType", "text/plain"); ("value", "")]%string).

Lemma concrete_attr {V} (W : view V) M n (v : V) c a kvs x : NoDup (List.map gc_name M) -> In c M -> gc_name c = n -> gc_abstract c = false ->
  In a (gc_attrs c) -> w_members W v = Some kvs -> lookup (g_name a) kvs = Some x ->
  Conforms W M (GObj n) v -> Conforms W M (g_type a) x.
Proof.
  intros ND I N B Ia Em L C. inversion C as [| | | | |n' v' c' kvs' X TG E R U H]; subst.
  assert (c' = c); [|subst c'; assert (kvs' = kvs) by congruence; subst kvs'; now apply H].
  eapply expected_fun; [exact ND|exact X|apply Exp_concrete; auto].
Qed.
Definition get_class (M : list gclass) (n : string) : gclass :=
  match find (fun c => str_eqb (gc_name c) (lit n)) M with Some c => c | None => GClass [] true true [] [] end.
Definition get_attr (c : gclass) (n : string) : gattr :=
  match find (fun a => str_eqb (g_name a) (lit n)) (gc_attrs c) with Some a => a | None => GAttr [] false GBool end.
Lemma get_class_In M n : existsb (fun c => str_eqb (gc_name c) (lit n)) M = true -> In (get_class M n) M /\ gc_name (get_class M n) = lit n.
Proof.
  intros H. unfold get_class. destruct (find _ M) as [c|] eqn:E.
  - apply find_some in E. destruct E as [I E]. apply str_eqb_spec in E. auto.
  - apply existsb_exists in H. destruct H as (c & I & H). apply (find_none _ _ E) in I. simpl in I. congruence.
Qed.
Lemma get_attr_In c n : existsb (fun a => str_eqb (g_name a) (lit n)) (gc_attrs c) = true ->
  In (get_attr c n) (gc_attrs c) /\ g_name (get_attr c n) = lit n.
Proof.
  intros H. unfold get_attr. destruct (find _ (gc_attrs c)) as [a|] eqn:E.
  - apply find_some in E. destruct E as [I E]. apply str_eqb_spec in E. auto.
  - apply existsb_exists in H. destruct H as (a & I & H). apply (find_none _ _ E) in I. simpl in I. congruence.
Qed.

(** Conforming documents, decided for values without restrictions by formats. *)
Definition plain_okb (t : text) (s : str) : bool :=
  forallb (fun c => (N.leb 32 c && N.leb c 126)%bool) s && N.leb (t_min t) (N.of_nat (length s))
  && match t_max t with Some m => N.leb (N.of_nat (length s)) m | None => true end
  && match t_format t with FAny => true | FXsd x => match validate_xsd x s with Val true => true | _ => false end
     | FContentType => Regex.matches r_content_type s | _ => false end.
Lemma plain_okb_ok t s : plain_okb t s = true -> text_ok t s.
Proof.
  unfold plain_okb. rewrite !andb_true_iff, forallb_forall. intros [[[A B] C] D]. split; [|split; [now apply N.leb_le|split]].
  - apply Forall_forall. intros c I. apply A in I. apply andb_true_iff in I. destruct I as [I1 I2]. apply N.leb_le in I1. apply N.leb_le in I2.
    unfold XmlChar. lia.
  - destruct (t_max t); [now apply N.leb_le|exact I].
  - destruct (t_format t); simpl; try discriminate; auto.
    + apply lang_media_type. now apply Regex.matches_spec.
    + destruct (validate_xsd t0 s) as [[]|]; try discriminate. reflexivity.
Qed.
Section Decide.
  Variable M : list gclass.
  Fixpoint conformsb (fuel : nat) (g : gtype) (v : json) : bool :=
    match fuel with
    | O => false
    | S f =>
        match g, v with
        | GText t, JStr s => plain_okb t s
        | GPlain, JStr _ => true
        | GBool, JBool _ => true
        | GEnum l, JStr s => str_in s l
        | GList x, JArr l => negb (Nat.eqb (length l) 0) && forallb (conformsb f x) l
        | GObj n, JObj kvs =>
            let tag := w_tag json_view v in
            let here c := implb (gc_tagged c) (match tag with Some t => str_eqb t (gc_name c) | None => false end)
              && forallb (fun a => match lookup (g_name a) (members_of kvs) with
                                   | Some x => conformsb f (g_type a) x
                                   | None => negb (g_required a) end) (gc_attrs c)
              && forallb (fun kv => str_in (fst kv) (List.map g_name (gc_attrs c))) (members_of kvs) in
            existsb (fun a => if str_eqb (gc_name a) n
                              then if gc_abstract a
                                   then match tag with
                                        | Some t => str_in t (gc_subclasses a)
                                            && existsb (fun c => if str_eqb (gc_name c) t then here c else false) M
                                        | None => false end
                                   else here a
                              else false) M
        | _, _ => false
        end
    end.
  Lemma conformsb_ok fuel : forall g v, conformsb fuel g v = true -> Conforms json_view M g v.
  Proof.
    induction fuel as [|f IH]; intros g v; [discriminate|].
    destruct g as [t| | |l|n|x]; destruct v as [|b|z|fl|s|l'|kvs]; cbn [conformsb]; try discriminate.
    - intros H. econstructor; [reflexivity|now apply plain_okb_ok].
    - intros _. econstructor; reflexivity.
    - intros _. econstructor; reflexivity.
    - intros H. econstructor; [reflexivity|now apply str_in_spec].
    - set (tag := w_tag json_view (JObj kvs)). 
      assert (Here : forall c, Expected json_view M n (JObj kvs) c ->
        implb (gc_tagged c) (match tag with Some t => str_eqb t (gc_name c) | None => false end)
              && forallb (fun a => match lookup (g_name a) (members_of kvs) with
                                   | Some x => conformsb f (g_type a) x
                                   | None => negb (g_required a) end) (gc_attrs c)
              && forallb (fun kv => str_in (fst kv) (List.map g_name (gc_attrs c))) (members_of kvs) = true ->
        Conforms json_view M (GObj n) (JObj kvs)).
      { intros c X H. rewrite !andb_true_iff, !forallb_forall in H. destruct H as [[H1 H2] H3].
        eapply C_obj; [exact X| |reflexivity| | |].
        - intros T. rewrite T in H1. fold tag. destruct tag as [t|]; [|discriminate H1]. simpl in H1. apply str_eqb_spec in H1. now subst.
        - intros a I Rq L. specialize (H2 a I). fold (members_of kvs) in L. rewrite L, Rq in H2. discriminate.
        - intros k y I. specialize (H3 _ I). apply str_in_spec in H3. apply in_map_iff in H3. destruct H3 as (a & E & Ia). eauto.
        - intros a y I L. specialize (H2 a I). fold (members_of kvs) in L. rewrite L in H2. now apply IH. }
      intros H. apply existsb_exists in H. destruct H as (a & I & H). destruct (str_eqb (gc_name a) n) eqn:En; [|discriminate].
      apply str_eqb_spec in En. destruct (gc_abstract a) eqn:Ab.
      + destruct tag as [t|] eqn:Et; [|discriminate]. apply andb_true_iff in H. destruct H as [H1 H2]. apply str_in_spec in H1.
        apply existsb_exists in H2. destruct H2 as (c & Ic & H2). destruct (str_eqb (gc_name c) t) eqn:Ec; [|discriminate].
        apply str_eqb_spec in Ec. apply (Here c); [|exact H2]. apply (Exp_abstract _ _ _ _ _ a c t); auto.
      + apply (Here a); [|exact H]. now apply Exp_concrete.
    - rewrite andb_true_iff, forallb_forall. intros [A B]. econstructor; [reflexivity| |].
      + intros ->. discriminate.
      + intros y I. apply IH. now apply B.
  Qed.
End Decide.

Lemma named n g : is_named model_table string_types n g = true -> Names n g.
Proof.
  intros H. destruct (is_named_spec _ _ _ _ H) as (i & L & F). exists model_table, i. split; [exact model_symbols_eq|].
  split; [exact L|]. exact (fitsb_ok _ _ _ string_types_ok _ _ F).
Qed.
Lemma check_run show repr n v i : symbol_lookup model_table n = Val i ->
  meta_check_json show repr n v =
  parse json (json_adapter show) model_classes model_table repr model_post_parse (S (json_depth v)) i [] v [].
Proof. intros L. unfold meta_check_json. rewrite model_symbols_eq. cbn [obind]. rewrite L. reflexivity. Qed.

(** The checker refuses an empty Blob, which the specification allows. *)
Theorem C35_specified_refuted : exists v, Conforms json_view aas_v3_0 (GObj (lit "Blob")) v /\
  forall show repr x, meta_check_json show repr (lit "Blob") v <> Val (x, []).
Proof.
  exists empty_blob. split; [apply (conformsb_ok _ 5); vm_compute; reflexivity|]. intros show repr x H.
  assert (N : Names (lit "Blob") (GObj (lit "Blob"))) by (apply named; vm_compute; reflexivity).
  apply (C34_sound show repr _ _ _ _ N) in H.
  destruct (get_class_In aas_v3_0_checked "Blob") as [I E]; [vm_compute; reflexivity|].
  destruct (get_attr_In (get_class aas_v3_0_checked "Blob") "value") as [Ia Ea]; [vm_compute; reflexivity|].
  assert (C : Conforms json_view aas_v3_0_checked (g_type (get_attr (get_class aas_v3_0_checked "Blob") "value")) (JStr [])).
  { eapply (concrete_attr json_view _ _ empty_blob); [exact model_names|exact I|exact E|vm_compute; reflexivity|exact Ia|reflexivity| |exact H]. rewrite Ea. vm_compute. reflexivity. }
  assert (T : g_type (get_attr (get_class aas_v3_0_checked "Blob") "value") = s_nonempty) by (vm_compute; reflexivity).
  rewrite T in C. inversion C as [t v s Es (_ & Tok & _)| | | | |]; subst. injection Es as <-. vm_compute in Tok. contradiction.
Qed.
Print Assumptions C35_specified_refuted.

(** The checker accepts a local time as lastUpdate, which has to be in UTC. *)
Definition ref_doc : json := JObj [(lit "type", JStr (lit "ExternalReference"));
  (lit "keys", JArr [JObj (text_doc [("type", "GlobalReference"); ("value", "urn:x")]%string)])].
Definition event_doc : json := JObj (text_doc [("modelType", "BasicEventElement"); ("direction", "input"); ("state", "on");
  ("lastUpdate", "2024-01-01T12:00:00+01:00")]%string ++ [(lit "observed", ref_doc)]).
Lemma spec_names : NoDup (List.map gc_name aas_v3_0).
Proof. apply nodupb_spec. vm_compute. reflexivity. Qed.
Theorem C34_specified_refuted : exists v, ~ Conforms json_view aas_v3_0 (GObj (lit "BasicEventElement")) v /\
  forall show repr, exists x, meta_check_json show repr (lit "BasicEventElement") v = Val (x, []).
Proof.
  exists event_doc. split.
  - intros H. destruct (get_class_In aas_v3_0 "BasicEventElement") as [I E]; [vm_compute; reflexivity|].
    destruct (get_attr_In (get_class aas_v3_0 "BasicEventElement") "lastUpdate") as [Ia Ea]; [vm_compute; reflexivity|].
    assert (C : Conforms json_view aas_v3_0 (g_type (get_attr (get_class aas_v3_0 "BasicEventElement") "lastUpdate")) (JStr (lit "2024-01-01T12:00:00+01:00"))).
    { eapply (concrete_attr json_view _ _ event_doc); [exact spec_names|exact I|exact E|vm_compute; reflexivity|exact Ia|reflexivity| |exact H]. rewrite Ea. vm_compute. reflexivity. }
    assert (T : g_type (get_attr (get_class aas_v3_0 "BasicEventElement") "lastUpdate") = s_date_time_utc) by (vm_compute; reflexivity).
    rewrite T in C. inversion C as [t v s Es (_ & _ & _ & Tok)| | | | |]; subst. injection Es as <-. vm_compute in Tok. discriminate.
  - intros show repr. assert (N : Names (lit "BasicEventElement") (GObj (lit "BasicEventElement"))) by (apply named; vm_compute; reflexivity).
    destruct (C35_complete show repr _ _ event_doc N) as (x & E & _); [apply (conformsb_ok _ 5); vm_compute; reflexivity|]. eauto.
Qed.
Print Assumptions C34_specified_refuted.

(** An attribute modelType is tolerated where there is none, with any value. *)
Definition odd_ref : list (str * json) := [(lit "type", JStr (lit "ExternalReference")); (lit "modelType", JInt 5);
  (lit "keys", JArr [JObj (text_doc [("type", "GlobalReference"); ("value", "urn:x")]%string)])].
Definition ref_index : nat := Eval vm_compute in match symbol_lookup model_table (lit "Reference") with Val i => i | Raise _ => 0 end.
Lemma ref_lookup : symbol_lookup model_table (lit "Reference") = Val ref_index.
Proof. vm_compute. reflexivity. Qed.
Theorem C34_model_type_refuted : exists kvs c x, In (lit "modelType", JInt 5) kvs /\
  In c aas_v3_0_checked /\ gc_name c = lit "Reference" /\ gc_tagged c = false /\ gc_subclasses c = [] /\
  ~ In (lit "modelType") (List.map g_name (gc_attrs c)) /\
  forall show repr, meta_check_json show repr (lit "Reference") (JObj kvs) = Val (x, []).
Proof.
  destruct (get_class_In aas_v3_0_checked "Reference") as [I E]; [vm_compute; reflexivity|].
  eexists odd_ref, (get_class aas_v3_0_checked "Reference"), _.
  split; [right; left; reflexivity|]. split; [exact I|]. split; [exact E|]. split; [vm_compute; reflexivity|]. split; [vm_compute; reflexivity|].
  split; [intros X; apply str_in_spec in X; vm_compute in X; discriminate|].
  intros show repr. eapply eq_trans; [exact (check_run show repr _ (JObj odd_ref) _ ref_lookup)|]. vm_compute. reflexivity.
Qed.
Print Assumptions C34_model_type_refuted.

(** ** Constraints are checked exactly if the meta model check is ok.
    [c] is the check of the constraints; the claims hold for JSON and XML, see
    [check_json] and [check_xml]. *)
Definition reports_findings (fs : list finding) (r : result) : Prop :=
  r_message r = lit "Check meta model" /\ r_subs r = List.map finding_result fs /\ (ok r = true <-> fs = []).
Lemma reports_ok fs : reports_findings fs (check_meta_model fs).
Proof.
  unfold reports_findings, check_meta_model. rewrite appends_message, appends_subs, ok_appends. repeat apply conj; try reflexivity.
  all: destruct fs; simpl; intros H; try reflexivity; discriminate H.
Qed.
Theorem C39_executed : forall c x,
  parse_and_check c (Val (x, [])) = (let* cs := c x in
    Val (appends (new_result (lit "Check") INFO)
           [new_result (lit "Check meta model") INFO; appends (new_result (lit "Check constraints") INFO) cs], x)).
Proof. intros c x. reflexivity. Qed.
Print Assumptions C39_executed.
Theorem C39_executed_verdict : forall c x rep y, parse_and_check c (Val (x, [])) = Val (rep, y) ->
  exists cs, c x = Val cs /\ (ok rep = true <-> Forall (fun r => ok r = true) cs) /\
             exists m k, r_subs rep = [m; k] /\ r_subs k = cs /\ reports_findings [] m.
Proof.
  intros c x rep y. rewrite C39_executed. destruct (c x) as [cs|e]; cbn [obind]; [|discriminate]. intros [= <- <-]. exists cs.
  split; [reflexivity|]. split.
  - rewrite ok_appends, Forall_forall. cbn [forallb]. rewrite ok_appends, andb_true_r. apply forallb_forall.
  - eexists _, _. split; [reflexivity|]. split; [now rewrite appends_subs|]. exact (reports_ok []).
Qed.
Print Assumptions C39_executed_verdict.
Theorem C39_skipped : forall c x f fs, exists rep m,
  parse_and_check c (Val (x, f :: fs)) = Val (rep, x) /\
  r_subs rep = [m; new_result (lit "Skipped checking of constraints") WARNING] /\
  reports_findings (f :: fs) m /\ ok rep = false /\
  forall c', parse_and_check c' (Val (x, f :: fs)) = Val (rep, x).
Proof.
  intros c x f fs.
  assert (O : ok (append (new_result (lit "Check") INFO) (check_meta_model (f :: fs))) = false).
  { rewrite ok_append. destruct (reports_ok (f :: fs)) as (_ & _ & O). destruct (ok (check_meta_model (f :: fs))); [|reflexivity].
    destruct O as [O _]. specialize (O eq_refl). discriminate. }
  exists (append (append (new_result (lit "Check") INFO) (check_meta_model (f :: fs)))
                 (new_result (lit "Skipped checking of constraints") WARNING)), (check_meta_model (f :: fs)).
  assert (E : forall c', parse_and_check c' (Val (x, f :: fs)) =
     Val (append (append (new_result (lit "Check") INFO) (check_meta_model (f :: fs)))
                 (new_result (lit "Skipped checking of constraints") WARNING), x)).
  { intros c'. unfold parse_and_check. cbn [obind]. rewrite O. reflexivity. }
  split; [apply E|]. split; [rewrite !append_subs; reflexivity|]. split; [apply reports_ok|]. split; [|exact E].
  rewrite ok_append, O. reflexivity.
Qed.
Print Assumptions C39_skipped.

(** ** Examples *)
Definition no_show (v : json) : str := lit "...".
Definition quoted (s : str) : str := lit "'" ++ s ++ lit "'".
Definition property_doc : json := JObj (text_doc [("value", "1"); ("idShort", "p"); ("modelType", "Property"); ("valueType", "xs:int")]%string).
Definition submodel_doc (l : list json) : json := JObj [(lit "modelType", JStr (lit "Submodel")); (lit "id", JStr (lit "urn:s"));
  (lit "idShort", JStr (lit "s")); (lit "submodelElements", JArr l)].
Definition env_doc (l : list json) : json := JObj [(lit "submodels", JArr l)].
Definition sml_doc : json := JObj [(lit "modelType", JStr (lit "SubmodelElementList")); (lit "idShort", JStr (lit "l"));
  (lit "typeValueListElement", JStr (lit "Property")); (lit "valueTypeListElement", JStr (lit "xs:int"));
  (lit "value", JArr [JObj (text_doc [("modelType", "Property"); ("valueType", "xs:int")]%string)])].
Definition good_doc : json := env_doc [submodel_doc [property_doc; sml_doc]].
Definition env_index : nat := Eval vm_compute in match symbol_lookup model_table (lit "Environment") with Val i => i | Raise _ => 0 end.
Lemma env_lookup : symbol_lookup model_table (lit "Environment") = Val env_index.
Proof. vm_compute. reflexivity. Qed.
Definition found (o : outcome (pyval * list finding)) : option (list (str * str)) :=
  match o with Val (_, fs) => Some (List.map (fun f => (f_text f, path_text (f_path f))) fs) | Raise _ => None end.

Example C34_example : found (meta_check_json no_show quoted (lit "Environment") good_doc) = Some [] /\
  Conforms json_view aas_v3_0_checked (GObj (lit "Environment")) good_doc.
Proof.
  split; [|apply (conformsb_ok _ 9); vm_compute; reflexivity].
  rewrite (check_run no_show quoted (lit "Environment") good_doc _ env_lookup). vm_compute. reflexivity.
Qed.
(** The object has the values of the document, and the paths of its elements. *)
Example C35_example : match meta_check_json no_show quoted (lit "Environment") good_doc with
  | Val (x, _) => (let* l := getattr x (lit "submodels") in let* l := as_items l in
                   match l with
                   | s :: _ => let* es := getattr s (lit "submodel_elements") in let* es := as_items es in
                       match es with
                       | [p; q] => let* i := getattr p (lit "id_short") in let* v := getattr p (lit "value") in
                           let* d := getattr p (lit "value_id") in let* l := getattr q (lit "value") in
                           let* l := as_items l in
                           match l with
                           | y :: _ => let* pa := getattr y (lit "id_short_path") in Val [i; v; d; pa]
                           | _ => Val [] end
                       | _ => Val []
                       end
                   | _ => Val []
                   end) = Val [VSfv (lit "NameTypeString") (lit "p"); VSfv (lit "ValueDataType") (lit "1"); VNone;
                               VPath (IdPath (Some (lit "s")) (lit "urn:s") [TName (lit "l"); TIndex 0])]
  | Raise _ => False end.
Proof. rewrite (check_run no_show quoted (lit "Environment") good_doc _ env_lookup). vm_compute. reflexivity. Qed.
Definition bad_doc : json := env_doc [submodel_doc [property_doc;
  JObj [(lit "modelType", JStr (lit "Range")); (lit "idShort", JInt 3); (lit "colour", JNull)]]; JArr []].
Example C36_example : found (meta_check_json no_show quoted (lit "Environment") bad_doc) =
  Some [(lit "Cannot convert ... to string", lit "/submodels/0/submodelElements/1/idShort");
        (lit "Missing attribute valueType", lit "/submodels/0/submodelElements/1");
        (lit "Unknown additional attribute colour", lit "/submodels/0/submodelElements/1");
        (lit "Cannot convert ... to object", lit "/submodels/1")].
Proof. rewrite (check_run no_show quoted (lit "Environment") bad_doc _ env_lookup). vm_compute. reflexivity. Qed.
Example C37_example : Position bad_doc [SKey (lit "submodels"); SIdx 0; SKey (lit "submodelElements"); SIdx 1; SKey (lit "idShort")].
Proof.
  eapply Pos_member; [left; reflexivity|]. eapply Pos_item; [reflexivity|]. eapply Pos_member; [right; right; right; left; reflexivity|].
  eapply Pos_item; [reflexivity|]. eapply Pos_member; [right; left; reflexivity|]. constructor.
Qed.
Example C38_example : Reordered good_doc (env_doc [JObj [(lit "submodelElements", JArr [property_doc; sml_doc]);
  (lit "idShort", JStr (lit "s")); (lit "id", JStr (lit "urn:s")); (lit "modelType", JStr (lit "Submodel"))]]).
Proof.
  constructor; [reflexivity|]. intros k x y Ex Ey. simpl in Ex, Ey.
  destruct (str_eqb k (lit "submodels")); [|discriminate].
  injection Ex as <-. injection Ey as <-. constructor; [reflexivity|]. intros [|[|i]] x y; try discriminate. intros [= <-] [= <-].
  apply C38_permutations; [apply nodupb_spec; vm_compute; reflexivity|]. apply Permutation_rev.
Qed.
Example C39_example :
  match check_json no_show quoted (lit "Environment") bad_doc, check_json no_show quoted (lit "Environment") good_doc with
  | Val (r, _), Val (r', _) => (ok r, List.map r_message (r_subs r)) = (false, [lit "Check meta model"; lit "Skipped checking of constraints"]) /\
                               (ok r', List.map r_message (r_subs r')) = (true, [lit "Check meta model"; lit "Check constraints"])
  | _, _ => False end.
Proof.
  unfold check_json. rewrite (check_run no_show quoted (lit "Environment") bad_doc _ env_lookup).
  rewrite (check_run no_show quoted (lit "Environment") good_doc _ env_lookup). vm_compute. split; reflexivity.
Qed.
