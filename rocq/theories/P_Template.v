(** Properties C33 and C71 to C74: submodel templates, and the complete check of documents. *)
From Coq Require Import PeanoNat Lia String List NArith ZArith Bool.
From Verif Require Import PyStr PyStrFacts PyBase PyXml PyVal DataTypesModel DataTypesSpec.
From Verif Require Import ResultModel ResultSpec ResultFacts ReflectModel ReflectFacts MetaModel MetaSpec MetaFacts AdapterModel ParseModel ParseSpec ParseFacts ParseFacts2 ParseSim ParseFacts3 ParseFacts4 P_Parse.
From Verif Require Import TypeSpec TypeFacts TypeFacts2 ConstraintModel CheckModel ConstraintSpec ConstraintFacts ConstraintFacts2 ConstraintFacts3 ConstraintFacts4 ConstraintFacts5 ConstraintFacts6 ConstraintFacts7 ConstraintFacts8.
From Verif Require Import P_Constraint P_Constraint2 PathSpec PathFacts P_Path TemplateModel TemplateSpec TemplateFacts TemplateFacts2.
Import ListNotations.
Local Open Scope list_scope.

(** * Which objects have submodels *)
Definition submodels_case (e : str * pfields) : bool :=
  match lookup (lit "submodels") (snd e) with
  | None => true
  | Some _ => str_in (lit "Environment") (supers (fst e)) || str_in (lit "AssetAdministrationShell") (supers (fst e))
  end.
Lemma submodels_cases : forallb submodels_case model_types = true. Proof. vm_compute. reflexivity. Qed.
Lemma shell_submodels : field_ok "AssetAdministrationShell" "submodels" (AOptK (AListK true (AInst "Reference"))) = true. Proof. vm_compute. reflexivity. Qed.
Lemma reference_plain : no_attr "Reference" "semantic_id" = true. Proof. vm_compute. reflexivity. Qed.
Definition typed_as (n : string) : bool :=
  match symbol_lookup model_table (lit n) with
  | Val i => match ptype_of model_classes model_table i with Some (TyObj cs) => forallb (fun d => str_in (lit n) (supers d)) cs | _ => false end
  | Raise _ => false
  end.
Lemma env_typed_as : typed_as "Environment" = true. Proof. vm_compute. reflexivity. Qed.
Lemma shell_typed_as : typed_as "AssetAdministrationShell" = true. Proof. vm_compute. reflexivity. Qed.
Definition named_so (n : string) (e : str * pfields) : bool := Bool.eqb (str_in (lit n) (supers (fst e))) (str_eqb (fst e) (lit n)).
Lemma env_named : forallb (named_so "Environment") model_types = true. Proof. vm_compute. reflexivity. Qed.
Lemma shell_named : forallb (named_so "AssetAdministrationShell") model_types = true. Proof. vm_compute. reflexivity. Qed.
(** every template demands some element *)
Definition demanding (t : ttype) : bool := existsb (fun f => match tf_shape f with Plain | Lst => true | _ => false end) (fields_of t).
Lemma templates_demanding : forallb (fun q => demanding (snd q)) templates = true. Proof. vm_compute. reflexivity. Qed.

Section Types.
Local Opaque aas_v3_0_checked model_classes model_table model_types model_symbols model_supers own_methods templates T_DigitalNameplate T_ContactInformations.

Lemma typed_object t x : Ty t x -> forall c kvs, x = VObj c kvs -> exists cs, Ty (TyObj cs) x.
Proof. induction 1; intros d kvs' Q; try discriminate; eauto. exists cs. injection Q as -> ->. econstructor; eauto. Qed.
Lemma which_submodels t x : Ty t x -> Inst "Environment" x \/ Inst "AssetAdministrationShell" x \/ getattr x (lit "submodels") = Raise AttributeError.
Proof.
  intros T. destruct x as [| | | | | | |c kvs| |]; try (right; right; reflexivity).
  destruct (typed_object _ _ T c kvs eq_refl) as (cs & T'). apply typed_field in T' as T2. destruct T2 as (fs & I & J & K & M).
  apply (proj1 (forallb_forall _ _) submodels_cases) in I as F. unfold submodels_case in F. cbn [fst snd] in F.
  cbn [getattr]. destruct (lookup (lit "submodels") kvs) as [z|] eqn:L; [|right; right; reflexivity].
  apply lookup_In in L. apply (in_map fst) in L. cbn [fst] in L. rewrite K in L. apply in_map_iff in L as ([n' u] & E & Q). cbn [fst] in E. subst n'.
  apply (lookup_nodup _ _ _ (types_nodup _ _ I)) in Q. rewrite Q in F. apply orb_true_iff in F as [F|F]; [left|right; left];
    (exists c, kvs; split; [reflexivity|]; split; [unfold is_a; rewrite (supers_eq _ _ I); exact F|]; econstructor; eauto; now left).
Qed.
(** the objects of the two model types *)
Lemma typed_as_inst n x : typed_as n = true -> Checked (lit n) x -> Inst n x.
Proof.
  unfold typed_as. intros E C. destruct (symbol_lookup model_table (lit n)) as [i|] eqn:L; [|discriminate].
  destruct (ptype_of model_classes model_table i) as [t|] eqn:P; [|discriminate]. destruct t; try discriminate E.
  apply (inst_of classes); [exact E|]. destruct C as [(show & repr & v & C)|(repr & e & C)].
  - unfold meta_check_json in C. rewrite model_symbols_eq in C. cbn [obind] in C. rewrite L in C. cbn [obind] in C.
    exact (model_parse_typed json (json_adapter show) repr _ i _ [] v x (json_nonempty show) P C).
  - unfold meta_check_xml in C. rewrite model_symbols_eq in C. cbn [obind] in C. rewrite L in C. cbn [obind] in C.
    exact (model_parse_typed xml xml_adapter repr _ i _ [] e x xml_nonempty P C).
Qed.
Lemma environment_inst x : Checked (lit "Environment") x -> Env x.
Proof. exact (typed_as_inst "Environment" x env_typed_as). Qed.

(** * C71: cardinalities *)
Lemma conforms_no_give t e : TemplateSpec.Conforms t e -> ~ GivesUp t e.
Proof.
  induction 1 as [e P|e P D|e C N|n ms e P I|n fs e C Pr A B IH]; intros G; inversion G; subst; try contradiction.
  - destruct H2 as [H2 _]. contradiction.
  - eapply IH; eauto.
Qed.
Lemma conform_all_no_give fs l : ConformAll fs l -> ~ GivesUpAmong fs l.
Proof. intros [A B] (f & x & I & _ & J & G). exact (conforms_no_give _ _ (B f x I J) G). Qed.
Lemma conforms_present sid t s : TemplateOf sid t -> SubmodelConforms t s -> ~ SubmodelGivesUp t s.
Proof.
  intros T [C _] [A|G]; [|exact (conform_all_no_give _ _ C G)].
  apply (proj1 (forallb_forall _ _) templates_demanding) in T. cbn [snd] in T. unfold demanding in T. apply existsb_exists in T as (f & I & S).
  destruct C as [C _]. specialize (C f I). unfold items in C. rewrite A in C. cbn [having filter length] in C.
  destruct (tf_shape f); cbn [Allowed] in C; (discriminate || lia).
Qed.

(** The check of a submodel with a template decides the template, at every nesting level. *)
Theorem C71_decides : forall repr sid t id s rep, TemplateOf sid t -> Sub s -> check_template repr sid t id s = Val rep ->
  (ok rep = true <-> SubmodelConforms t s).
Proof.
  intros repr sid t id s rep T H E. destruct (check_template_decided repr sid t id s T H) as [(ex & E' & _)|(rs & E' & _ & Q)]; rewrite E' in E; [discriminate|].
  injection E as <-. rewrite ok_appends. exact Q.
Qed.
Print Assumptions C71_decides.
(** A submodel that satisfies its template is accepted. *)
Theorem C71_accepts : forall repr sid t id s, TemplateOf sid t -> Sub s -> SubmodelConforms t s ->
  exists rep, check_template repr sid t id s = Val rep /\ ok rep = true.
Proof.
  intros repr sid t id s T H C. destruct (check_template_decided repr sid t id s T H) as [(ex & _ & G)|(rs & E & _ & Q)].
  - destruct (conforms_present _ _ _ T C G).
  - eexists. split; [exact E|]. rewrite ok_appends. now apply Q.
Qed.
Print Assumptions C71_accepts.
(** The same for every template definition, not only those that exist now. *)
Theorem C71_all_templates : forall repr n fs s x ms, WellFormed (TtClass n fs) -> Sub s ->
  parse_submodel repr (TtClass n fs) s = Val (x, ms) -> (ms = [] <-> ConformAll fs (items s "submodel_elements")).
Proof.
  intros repr n fs s x ms W H E. destruct (parse_submodel_decided repr n fs s W H) as [(ex & E' & _)|(y & m & E' & _ & Q)]; rewrite E' in E; [discriminate|].
  destruct (Q eq_refl) as [A _]. injection E as _ <-. exact A.
Qed.
Print Assumptions C71_all_templates.
(** Every wrong number of elements is reported with the semantic id, at every nesting level. *)
Theorem C71_levels : forall repr n fs s x ms f l, WellFormed (TtClass n fs) -> Sub s -> parse_submodel repr (TtClass n fs) s = Val (x, ms) ->
  Reaches fs (items s "submodel_elements") f l -> ~ Allowed (tf_shape f) (length (having (tf_sid f) l)) ->
  Reported ms f (length (having (tf_sid f) l)).
Proof.
  intros repr n fs s x ms f l W H E R A. rewrite parse_submodel_eq in E. destruct (submodel_value s H) as [G [V|(k & V & It & _ & L)]]; rewrite G in E; rewrite V in E; cbn [obind as_items] in E; [discriminate|].
  rewrite (by_semantic_id_eq k L) in E. cbn [obind] in E.
  destruct (parse_fields repr fs [] _ [] []) as [[args r']|] eqn:P; cbn [obind] in E; [|discriminate]. injection E as _ <-. rewrite It in R.
  eapply reaches_reported; [exact R| |exact L|exact P|exact A]. inversion W; subst. now constructor.
Qed.
Print Assumptions C71_levels.
(** the check of an environment *)
Lemma report_ok repr s r t : Sub s -> IsReport repr s r -> Templated s t -> (ok r = true <-> SubmodelConforms t s).
Proof.
  intros H (sid & t' & A & B & E) (sid' & A' & B'). unfold Has_id in A, A'. rewrite A in A'. injection A' as <-. apply lookup_template in B as X, B' as Y. rewrite X in Y. injection Y as <-.
  exact (C71_decides _ _ _ _ _ _ B H E).
Qed.
Lemma reports_ok repr l : forall rs, (forall s, In s l -> Sub s) -> Forall2 (IsReport repr) (filter templated l) rs ->
  (forallb ok rs = true <-> forall s t, In s l -> Templated s t -> SubmodelConforms t s).
Proof.
  induction l as [|s l IH]; intros rs H F; cbn [filter] in F.
  - inversion F; subst. split; [intros _ s t []|reflexivity].
  - assert (H' : forall s, In s l -> Sub s) by (intros; apply H; now right). destruct (templated s) eqn:T.
    + inversion F as [|? r ? rs' R F']; subst. cbn [forallb]. rewrite andb_true_iff, (IH rs' H' F'). apply templated_spec in T as (t & T).
      rewrite (report_ok repr s r t (H s (or_introl eq_refl)) R T). split.
      * intros [A B] s' t' [<-|I] T'; [|now apply B]. now apply (report_ok repr s r t' (H s (or_introl eq_refl)) R T'), (report_ok repr s r t (H s (or_introl eq_refl)) R T).
      * intros A. split; [apply A; [now left|exact T]|]. intros s' t' I. apply A. now right.
    + rewrite (IH rs H' F). split; [|intros A s' t' I; apply A; now right]. intros A s' t' [<-|I] T'; [|now apply A].
      assert (X : templated s = true) by (apply templated_spec; eauto). congruence.
Qed.
Theorem C71_environment : forall repr root env rep, Env env -> parse_submodel_templates repr templates root env = Val rep ->
  (ok rep = true <-> ok root = true /\ forall s t, In s (items env "submodels") -> Templated s t -> SubmodelConforms t s).
Proof.
  intros repr root env rep H E. rewrite (env_eq repr env root H) in E. destruct (env_submodels env H) as (_ & _ & L).
  destruct (check_templates_decided repr _ L root) as [(ex & E' & _)|(rs & E' & _ & F)]; rewrite E' in E; [discriminate|]. injection E as <-.
  rewrite ok_appends, andb_true_iff. rewrite (reports_ok repr _ rs L F). reflexivity.
Qed.
Print Assumptions C71_environment.

(** * C73: crashes *)
Definition TemplateGivesUp (env : pyval) : Prop := exists s t, In s (items env "submodels") /\ Templated s t /\ SubmodelGivesUp t s.
Theorem C73_exact : forall repr root env, Env env ->
  ((exists ex, parse_submodel_templates repr templates root env = Raise ex) <-> TemplateGivesUp env).
Proof.
  intros repr root env H. rewrite (env_eq repr env root H). destruct (env_submodels env H) as (_ & _ & L).
  destruct (check_templates_decided repr _ L root) as [(ex & E & s & t & G)|(rs & E & G & _)]; rewrite E.
  - split; [intros _; exists s, t; exact G|eauto].
  - split; [intros (ex & Q); discriminate|]. intros (s & t & A & B & C). destruct (G s t A B C).
Qed.
Print Assumptions C73_exact.
(** If no submodel with a template contains what the check cannot read, there is a report.  The full
    statement is the one without the last hypothesis. *)
Theorem C73_partial : forall repr root env, Env env ->
  (forall s t, In s (items env "submodels") -> Templated s t -> ~ SubmodelGivesUp t s) ->
  exists rep, parse_submodel_templates repr templates root env = Val rep.
Proof.
  intros repr root env H N. destruct (parse_submodel_templates repr templates root env) as [rep|ex] eqn:E; [eauto|].
  destruct (proj1 (C73_exact repr root env H) (ex_intro _ ex E)) as (s & t & A & B & C). destruct (N s t A B C).
Qed.
Print Assumptions C73_partial.

(** * C72: additional elements *)
(** Adding an element unknown to the template at any position of the submodel, or of any collection
    that has elements, does not change the outcome at all.  The full statement is the one where collections and submodels
    without elements may also get elements. *)
Theorem C72_partial : forall repr sid t id s s', TemplateOf sid t -> Sub s -> Sub s' -> Present s "submodel_elements" ->
  Inserted (fields_of t) (items s "submodel_elements") (items s' "submodel_elements") ->
  check_template repr sid t id s = check_template repr sid t id s'.
Proof.
  intros repr sid t id s s' T H H' P I. destruct (template_cases _ _ T) as [W _]. unfold check_template.
  assert (Q : parse_submodel repr t s = parse_submodel repr t s').
  { destruct t as [| | | |n fs]; try reflexivity. rewrite !parse_submodel_eq.
    destruct (submodel_value s H) as [G [V|(l & V & It & _ & L)]]; [contradiction|].
    destruct (submodel_value s' H') as [G' [V'|(l' & V' & It' & _ & L')]].
    { exfalso. clear -I V'. unfold items in I at 2. rewrite V' in I. remember (@nil pyval) as z eqn:Z. destruct I as [? a ? b ?|? a ? b]; destruct a; discriminate Z. }
    rewrite G, G', V, V'. cbn [obind as_items]. rewrite (by_semantic_id_eq l L), (by_semantic_id_eq l' L'). cbn [obind].
    rewrite It, It' in I. cbn [fields_of] in I.
    rewrite (inserted_same repr fs l l' I); [reflexivity| |exact L|exact L']. inversion W; subst. now constructor. }
  now rewrite Q.
Qed.
Print Assumptions C72_partial.

(** * C74: unknown templates *)
(** The report contains one entry for each submodel with a template, in the order of the submodels, and no other entry.
    The full statement would demand a WARNING for the submodels with other semantic ids. *)
Theorem C74_partial : forall repr root env rep, Env env -> parse_submodel_templates repr templates root env = Val rep ->
  exists rs, rep = appends root rs /\ Forall2 (IsReport repr) (filter templated (items env "submodels")) rs.
Proof.
  intros repr root env rep H E. rewrite (env_eq repr env root H) in E. destruct (env_submodels env H) as (_ & _ & L).
  destruct (check_templates_decided repr _ L root) as [(ex & E' & _)|(rs & E' & _ & F)]; rewrite E' in E; [discriminate|]. injection E as <-. eauto.
Qed.
Print Assumptions C74_partial.
(** Each entry names the submodel, and the template. *)
Theorem C74_entries : forall repr s r, Sub s -> IsReport repr s r ->
  exists sid t rest, Has_id sid s /\ TemplateOf sid t /\ r_message r = lit "Check submodel '" ++ text s "id" ++ lit "'" /\
    r_subs r = new_result (lit "Template: " ++ template_name t ++ lit " (" ++ sid ++ lit ")") INFO :: rest.
Proof.
  intros repr s r H (sid & t & A & B & E). destruct (check_template_decided repr sid t (text s "id") s B H) as [(ex & E' & _)|(rs & E' & _)]; rewrite E' in E; [discriminate|].
  injection E as <-. exists sid, t, rs. split; [exact A|]. split; [exact B|]. rewrite appends_message, appends_subs. split; reflexivity.
Qed.
Print Assumptions C74_entries.
(** A submodel without template does not change anything. *)
Theorem C74_silent : forall repr root a s b, (forall y, In y (a ++ s :: b) -> Sub y) -> (forall t, ~ Templated s t) ->
  check_templates repr templates (a ++ s :: b) root = check_templates repr templates (a ++ b) root.
Proof.
  intros repr root a s b H N. revert root H. induction a as [|y a IH]; intros root H; cbn [app].
  - rewrite templates_step by (apply H; now left). destruct (semantic_id s) as [sid|] eqn:Q; [|reflexivity].
    destruct (lookup sid templates) as [t|] eqn:L; [|reflexivity]. exfalso. apply (N t). exists sid. split; [exact Q|now apply lookup_template].
  - rewrite !templates_step by (apply H; now left). assert (H' : forall z, In z (a ++ s :: b) -> Sub z) by (intros; apply H; now right).
    destruct (semantic_id y) as [sid|]; [|now apply IH]. destruct (lookup sid templates) as [t|]; [|now apply IH].
    destruct (check_template repr sid t (text y "id") y); cbn [obind]; [now apply IH|reflexivity].
Qed.
Print Assumptions C74_silent.

(** * C33: the complete check *)
(** [o] is the outcome of the meta model and the constraint check of a document against the model type [n]. *)
Definition DocumentCheck (repr : str -> str) (n : str) (o : outcome (result * pyval)) : Prop :=
  (exists show v, o = check_json show repr n v) \/ (exists e, o = check_xml repr n e).
Lemma document_checked repr n o rep x : DocumentCheck repr n o -> o = Val (rep, x) -> ok rep = true -> Checked n x.
Proof.
  intros [(show & v & ->)|(e & ->)] E K.
  - unfold check_json in E. assert (A : Accepted (parse_and_check check_model (meta_check_json show repr n v))) by (exists rep, x; auto).
    apply parse_and_check_ok in A as (y & cs & M & C & _). rewrite M in E. rewrite C39_executed in E. rewrite C in E. cbn [obind] in E.
    apply val_pair in E as [_ ->]. left. exists show, repr, v. exact M.
  - unfold check_xml in E. assert (A : Accepted (parse_and_check check_model (meta_check_xml repr n e))) by (exists rep, x; auto).
    apply parse_and_check_ok in A as (y & cs & M & C & _). rewrite M in E. rewrite C39_executed in E. rewrite C in E. cbn [obind] in E.
    apply val_pair in E as [_ ->]. right. exists repr, e. exact M.
Qed.
Lemma named_inst n x t : n <> EmptyString -> forallb (named_so n) model_types = true -> Ty t x -> (Inst n x <-> Of_class x n).
Proof.
  intros N F T. split.
  - intros (c & kvs & -> & A & T'). unfold Of_class. cbn [class_of_obj]. apply typed_field in T' as (fs & I & _).
    apply (proj1 (forallb_forall _ _) F) in I as F1. unfold named_so in F1. cbn [fst] in F1. unfold is_a in A. rewrite (supers_eq _ _ I) in A. rewrite A in F1.
    apply eqb_prop in F1. symmetry in F1. now apply str_eqb_spec in F1.
  - unfold Of_class. destruct x as [| | | | | | |c kvs| |]; cbn [class_of_obj]; intros Q; try (destruct n; [destruct N; reflexivity|discriminate Q]).
    destruct (typed_object _ _ T c kvs eq_refl) as (cs & T'). apply typed_field in T' as T2. destruct T2 as (fs & I & J & K & M).
    apply (proj1 (forallb_forall _ _) F) in I as F1. unfold named_so in F1. cbn [fst] in F1. rewrite (proj2 (str_eqb_spec _ _) Q) in F1. apply eqb_prop in F1.
    exists c, kvs. split; [reflexivity|]. split; [unfold is_a; rewrite (supers_eq _ _ I); exact F1|]. econstructor; eauto. now left.
Qed.
Lemma checked_typed n x : Checked n x -> exists t, Ty t x.
Proof. intros [(show & repr & v & E)|(repr & e & E)]; [eapply json_typed; eauto|eapply xml_typed; eauto]. Qed.
Lemma env_is x t : Ty t x -> (Env x <-> Of_class x "Environment").
Proof. apply named_inst; [discriminate|exact env_named]. Qed.
Lemma shell_is x t : Ty t x -> (Inst "AssetAdministrationShell" x <-> Of_class x "AssetAdministrationShell").
Proof. apply named_inst; [discriminate|exact shell_named]. Qed.
Lemma shell_templates repr root x : Inst "AssetAdministrationShell" x ->
  parse_submodel_templates repr templates root x = (if is_none (attr x "submodels") then Val root else Raise AttributeError).
Proof.
  intros H. destruct (inst_attr _ _ _ _ shell_submodels H) as [G [V|(l & V & N & Q)]]; unfold parse_submodel_templates; rewrite G; cbn [obind]; rewrite V; cbn [truthy is_none].
  - reflexivity.
  - destruct l as [|r l]; [destruct (N eq_refl eq_refl)|]. cbn [truthy as_items obind check_templates].
    rewrite (inst_no_attr "Reference" "semantic_id" r reference_plain); [reflexivity|]. apply Q. now left.
Qed.
(** After the other checks accepted a document, the complete check raises in exactly three cases: the
    object is neither an environment nor a shell; it is a shell with submodels; it is an environment with a submodel where the template check gives up. *)
Theorem C33_exact : forall repr n o rep x, DocumentCheck repr n o -> o = Val (rep, x) ->
  ((exists ex, with_templates repr templates o = Raise ex) <->
   ok rep = true /\ ((~ Of_class x "Environment" /\ ~ Of_class x "AssetAdministrationShell") \/
                     (Of_class x "AssetAdministrationShell" /\ Present x "submodels") \/
                     (Of_class x "Environment" /\ TemplateGivesUp x))).
Proof.
  intros repr n o rep x D E. unfold with_templates. rewrite E. cbn [obind]. destruct (ok rep) eqn:K.
  2: { split; [intros (ex & Q); discriminate|intros [Q _]; discriminate]. }
  destruct (checked_typed _ _ (document_checked repr n o rep x D E K)) as (t & T).
  assert (X : (exists ex, (let* rep0 := parse_submodel_templates repr templates rep x in Val (rep0, x)) = Raise ex) <->
              exists ex, parse_submodel_templates repr templates rep x = Raise ex).
  { destruct (parse_submodel_templates repr templates rep x); cbn [obind]; split; intros (ex & Q); (discriminate || eauto). }
  rewrite X. clear X. destruct (which_submodels t x T) as [H|[H|G]].
  - rewrite (C73_exact repr rep x H). apply (env_is x t T) in H. unfold Of_class in *. rewrite H. split; [intros G; split; [reflexivity|]; right; right; split; [reflexivity|exact G]|].
    intros [_ [[A _]|[[A _]|[_ G]]]]; [now destruct A|discriminate A|exact G].
  - rewrite (shell_templates repr rep x H). apply (shell_is x t T) in H. unfold Of_class in *. rewrite H. unfold Present. split.
    + intros (ex & Q). split; [reflexivity|]. right; left. split; [reflexivity|]. intros Z. rewrite Z in Q. discriminate.
    + intros [_ [[_ A]|[[_ P]|[A _]]]]; [now destruct A| |discriminate A]. exists AttributeError. destruct (attr x "submodels"); try reflexivity. now destruct P.
  - assert (R : parse_submodel_templates repr templates rep x = Raise AttributeError) by (unfold parse_submodel_templates; rewrite G; reflexivity). rewrite R.
    split; [|eauto]. intros _. split; [reflexivity|]. left. split; intros C.
    + apply (env_is x t T) in C. destruct (env_submodels x C) as (G' & _). rewrite G in G'. discriminate.
    + apply (shell_is x t T) in C. destruct (inst_attr _ _ _ _ shell_submodels C) as [G' _]. rewrite G in G'. discriminate.
Qed.
Print Assumptions C33_exact.
(** For environments there is a report whenever the other checks return and the template check does not give up,
    and for the other types whenever the document is rejected.  The full statement has no hypotheses but the first. *)
Theorem C33_partial : forall repr n o rep x, DocumentCheck repr n o -> o = Val (rep, x) ->
  (ok rep = true -> n = lit "Environment" /\ ~ TemplateGivesUp x) ->
  exists rep', with_templates repr templates o = Val (rep', x) /\ (ok rep' = true -> ok rep = true).
Proof.
  intros repr n o rep x D E N. unfold with_templates. rewrite E. cbn [obind]. destruct (ok rep) eqn:K; [|eauto].
  destruct (N eq_refl) as [-> G]. pose proof (environment_inst _ (document_checked repr _ o rep x D E K)) as H.
  destruct (parse_submodel_templates repr templates rep x) as [rep'|ex] eqn:R; cbn [obind]; [eauto|].
  destruct G. apply (C73_exact repr rep x H). eauto.
Qed.
Print Assumptions C33_partial.
(** The complete check of an environment: meta model, constraints and templates. *)
Theorem C33_verdict : forall repr o rep' x, DocumentCheck repr (lit "Environment") o -> with_templates repr templates o = Val (rep', x) ->
  (ok rep' = true <-> Accepted o /\ forall s t, In s (items x "submodels") -> Templated s t -> SubmodelConforms t s).
Proof.
  intros repr o rep' x D W. unfold with_templates in W. destruct o as [[rep y]|] eqn:E; cbn [obind] in W; [|discriminate]. destruct (ok rep) eqn:K.
  - pose proof (environment_inst _ (document_checked repr _ _ rep y D eq_refl K)) as H.
    destruct (parse_submodel_templates repr templates rep y) as [rep1|] eqn:R; cbn [obind] in W; [|discriminate].
    apply val_pair in W as [-> ->]. rewrite (C71_environment repr rep y rep1 H R). rewrite K. split; [intros [_ A]|intros [_ A]; auto]. split; [|exact A]. exists rep, y. auto.
  - apply val_pair in W as [-> ->]. split; [congruence|]. intros [(r & z & Q & A) _]. apply val_pair in Q as [-> _]. congruence.
Qed.
Print Assumptions C33_verdict.
End Types.

(** * Examples and refutations *)
(** the outcome of the complete check *)
Definition root_of (cs : list result) : result :=
  appends (new_result (lit "Check") INFO) [new_result (lit "Check meta model") INFO; appends (new_result (lit "Check constraints") INFO) cs].
Lemma json_run show repr n v x cs : meta_check_json show repr n v = Val (x, []) -> check_model x = Val cs -> forallb ok cs = true ->
  ok (root_of cs) = true /\ check_json show repr n v = Val (root_of cs, x) /\
    json_to_obj repr templates show v n = let* rep := parse_submodel_templates repr templates (root_of cs) x in Val (rep, x).
Proof.
  intros E C F. assert (K : ok (root_of cs) = true) by (unfold root_of; rewrite ok_appends; cbn [forallb]; rewrite ok_appends, F; reflexivity).
  assert (Q : check_json show repr n v = Val (root_of cs, x)) by (unfold check_json; rewrite E, C39_executed, C; reflexivity).
  split; [exact K|]. split; [exact Q|]. unfold json_to_obj, with_templates. rewrite Q. cbn [obind]. rewrite K. reflexivity.
Qed.
(** The meta model and the constraint check accept the document, the complete check ends with [w]: a
    verdict or an exception. *)
Inductive verdict := Verdict (accepted : bool) | Raises (e : exn).
Definition verdict_of {X} (o : outcome (result * X)) : verdict := match o with Val (rep, _) => Verdict (ok rep) | Raise e => Raises e end.
Definition Complete (n : string) (v : json) (x : pyval) (w : verdict) : Prop := forall show repr,
  meta_check_json show repr (lit n) v = Val (x, []) /\ Accepted (check_json show repr (lit n) v) /\
  verdict_of (json_to_obj repr templates show v (lit n)) = w.
Ltac complete := let E := fresh "E" in let K := fresh "K" in let Q := fresh "Q" in 
  match goal with |- Complete ?n ?v ?x ?w => intros show repr;
    assert (E : meta_check_json show repr (lit n) v = Val (x, [])) by runs;
    split; [exact E|];
    match eval vm_compute in (check_model x) with Val ?cs =>
      destruct (json_run show repr (lit n) v x cs E) as (K & Q & ->); [vm_compute; reflexivity|vm_compute; reflexivity|];
      split; [exists (root_of cs), x; split; [exact Q|exact K]|]
    end; vm_compute; reflexivity
  end.

Open Scope string_scope.
Definition global_ref (s : string) : json := reference "ExternalReference" [key "GlobalReference" s].
Definition with_id (s : string) (t : list (string * string)) (l : list (string * json)) : json := obj t (("semanticId", global_ref s) :: l)%list.
Definition env_of (l : list json) : json := obj [] [("submodels", JArr l)].
Definition sm_with (s : string) (l : list (string * json)) : json := with_id s [("modelType", "Submodel"); ("idShort", "sm"); ("id", "urn:s")] l.
Definition contact_sid := "https://admin-shell.io/zvei/nameplate/1/0/ContactInformations".
Definition contact_one := "https://admin-shell.io/zvei/nameplate/1/0/ContactInformations/ContactInformation".
Definition phone_sid := "https://admin-shell.io/zvei/nameplate/1/0/ContactInformations/ContactInformation/Phone".
Definition nameplate_sid := "https://admin-shell.io/zvei/nameplate/2/0/Nameplate".
Definition elements (l : list json) : list (string * json) := [("submodelElements", JArr l)].
Definition values (l : list json) : list (string * json) := [("value", JArr l)].
Definition coll_with (s i : string) (l : list (string * json)) : json := with_id s [("modelType", "SubmodelElementCollection"); ("idShort", i)] l.
Definition prop_with (s i ty v : string) : json := with_id s [("modelType", "Property"); ("idShort", i); ("valueType", ty); ("value", v)] [].
Definition mlp_with (s i : string) : json :=
  with_id s [("modelType", "MultiLanguageProperty"); ("idShort", i)] [("value", JArr [obj [("language", "en"); ("text", "x")] []])].
Definition contact_doc (l : list json) : json := env_of [sm_with contact_sid (elements l)].
(** one contact with a telephone *)
Definition phone_doc (l : list json) : json := contact_doc [coll_with contact_one "c" (values [coll_with phone_sid "p" (values l)])].
Definition telephone := mlp_with "0173-1#02-AAO136#002".
Definition city := mlp_with "0173-1#02-AAO132#002" "city".
Definition good_contact : json := phone_doc [telephone "t"].
Definition nameplate_doc (l : list json) : json := env_of [sm_with nameplate_sid (elements l)].
Definition nameplate_fields : list json :=
  [prop_with "0173-1#02-AAY811#001" "uri" "xs:string" "urn:x"; mlp_with "0173-1#02-AAO677#002" "name"; mlp_with "0173-1#02-AAW338#001" "designation";
   coll_with contact_one "contact" (values [city]); prop_with "0173-1#02-AAP906#001" "year" "xs:string" "2020"].
Definition product_type : json := mlp_with "0173-1#02-AAO057#002" "type".
Definition made (d : string) : json := prop_with "0173-1#02-AAR972#002" "made" "xs:date" d.
Definition good_nameplate : json := nameplate_doc (nameplate_fields ++ [product_type; made "2020-02-29"])%list.
Close Scope string_scope.
Notation Checks_to v w := (Complete "Environment" v (object_of "Environment" v) w) (only parsing).

(** Nested cardinalities and the rule of the nameplate *)
Example C71_example :
  Checks_to good_contact (Verdict true) /\ Checks_to (phone_doc [city]) (Verdict false) /\ Checks_to (phone_doc [telephone "t"; telephone "u"]) (Verdict false) /\
  Checks_to good_nameplate (Verdict true) /\ Checks_to (nameplate_doc nameplate_fields) (Verdict false).
Proof. ands; complete. Qed.

(** the second telephone number is reported below the phone of the contact *)
Definition two_numbers : pyval := Eval vm_compute in nth 0 (items (object_of "Environment" (phone_doc [telephone "t"; telephone "u"])) "submodels") VNone.
Definition number_field : tfield ttype := TField (lit "telephone_number") (lit "0173-1#02-AAO136#002") Plain TtLang.
Example C71_levels_example : exists l, Reaches (fields_of T_ContactInformations) (items two_numbers "submodel_elements") number_field l /\
  ~ Allowed (tf_shape number_field) (length (having (tf_sid number_field) l)) /\
  forall repr, exists x ms, parse_submodel repr T_ContactInformations two_numbers = Val (x, ms) /\ length ms = 1 /\ Reported ms number_field 2.
Proof.
  set (c := nth 0 (items two_numbers "submodel_elements") VNone). set (ph := nth 0 (items c "value") VNone).
  exists (items ph "value"). split; [|split].
  - eapply (Re_below _ _ (nth 0 (fields_of T_ContactInformations) number_field) (lit "ContactInformation") (fields_of T_ContactInformation) c).
    + left. reflexivity.
    + reflexivity.
    + vm_compute. auto.
    + vm_compute. left. reflexivity.
    + vm_compute. discriminate.
    + eapply (Re_below _ _ (nth 7 (fields_of T_ContactInformation) number_field) (lit "Phone") (fields_of T_Phone) ph).
      * do 7 right. left. reflexivity.
      * reflexivity.
      * vm_compute. auto.
      * vm_compute. left. reflexivity.
      * vm_compute. discriminate.
      * apply Re_here. left. reflexivity.
  - vm_compute. discriminate.
  - intros repr. do 2 eexists. split; [vm_compute; reflexivity|]. split; [reflexivity|]. eexists (lit "TelephoneNumber"). vm_compute. left. reflexivity.
Qed.

(** C72: an unknown element changes the verdict, if the collection had no element before; in the same way it
    turns an exception into a report, if the submodel had no element. *)
Open Scope string_scope.
Definition extra : json := obj [("modelType", "Property"); ("idShort", "x"); ("valueType", "xs:int")] [].
Definition empty_contact : json := contact_doc [coll_with contact_one "c" []].
Definition filled_contact : json := contact_doc [coll_with contact_one "c" (values [extra])].
Definition empty_submodel : json := env_of [sm_with contact_sid []].
Close Scope string_scope.
Theorem C72_refuted :
  Checks_to empty_contact (Verdict false) /\ Checks_to filled_contact (Verdict true) /\
  Checks_to empty_submodel (Raises TypeError) /\ Checks_to (contact_doc [extra]) (Verdict false).
Proof. ands; complete. Qed.
Print Assumptions C72_refuted.
Example C72_example :
  Checks_to (phone_doc [extra; telephone "t"]) (Verdict true) /\ Checks_to (phone_doc [extra; telephone "t"; telephone "u"]) (Verdict false).
Proof. ands; complete. Qed.

(** C73: environments that pass the other checks: an xs:date with time zone, an entity where a collection is expected, a
    property where a collection is expected, a submodel without elements. *)
Open Scope string_scope.
Definition entity_with (s i : string) : json := with_id s [("modelType", "Entity"); ("idShort", i); ("entityType", "CoManagedEntity")] [].
Close Scope string_scope.
Theorem C73_refuted :
  Checks_to (nameplate_doc (nameplate_fields ++ [product_type; made "2020-02-29Z"])) (Raises ValueError) /\
  Checks_to (contact_doc [entity_with contact_one "c"]) (Raises AttributeError) /\
  Checks_to (contact_doc [prop_with contact_one "c" "xs:string" "x"]) (Raises TypeError) /\
  Checks_to empty_submodel (Raises TypeError).
Proof. ands; complete. Qed.
Print Assumptions C73_refuted.

(** C74: a submodel with an unknown semantic id is not mentioned, neither by a WARNING nor otherwise. *)
Definition unknown_doc : json := env_of [sm_with "urn:unknown" (elements [extra])].
Theorem C74_refuted : Checks_to unknown_doc (Verdict true) /\
  forall show repr rep x, json_to_obj repr templates show unknown_doc (lit "Environment") = Val (rep, x) ->
    (exists s, In s (items x "submodels") /\ semantic_id s = Some (lit "urn:unknown")) /\
    check_json show repr (lit "Environment") unknown_doc = Val (rep, x) /\
    forall r, occurs r rep -> r_level r = INFO.
Proof.
  split; [complete|]. intros show repr rep x H.
  assert (E : meta_check_json show repr (lit "Environment") unknown_doc = Val (object_of "Environment" unknown_doc, [])) by runs.
  destruct (json_run show repr _ _ _ [] E) as (K & Q & P); [vm_compute; reflexivity|reflexivity|].
  assert (T : parse_submodel_templates repr templates (root_of []) (object_of "Environment" unknown_doc) = Val (root_of [])) by (vm_compute; reflexivity).
  rewrite P, T in H. cbn [obind] in H. apply val_pair in H as [-> ->]. split; [|split; [exact Q|]].
  - eexists. split; [vm_compute; left; reflexivity|]. vm_compute. reflexivity.
  - clear. intros r O. vm_compute in O. inversion O as [|? ? ? c I O']; subst; [reflexivity|].
    destruct I as [<-|[<-|[]]]; inversion O' as [|? ? ? c' I' O'']; subst; try reflexivity; destruct I'.
Qed.
Print Assumptions C74_refuted.
Example C74_example : Checks_to (env_of [sm_with "urn:unknown" (elements [extra]); obj [("modelType", "Submodel"); ("idShort", "sn"); ("id", "urn:t")]%string []]) (Verdict true).
Proof. complete. Qed.

(** C33: documents that the other checks accept, and whose complete check raises *)
Definition referring_shell : json := shell_doc [(lit "submodels", JArr [model_ref_doc])].
Theorem C33_refuted :
  Complete "Submodel" (P_Path.submodel_doc [extra]) (object_of "Submodel" (P_Path.submodel_doc [extra])) (Raises AttributeError) /\
  Complete "Property" extra (object_of "Property" extra) (Raises AttributeError) /\
  Complete "AssetAdministrationShell" referring_shell (object_of "AssetAdministrationShell" referring_shell) (Raises AttributeError) /\
  Complete "AssetAdministrationShell" (shell_doc []) (object_of "AssetAdministrationShell" (shell_doc [])) (Verdict true) /\
  Checks_to empty_submodel (Raises TypeError).
Proof. ands; complete. Qed.
Print Assumptions C33_refuted.
