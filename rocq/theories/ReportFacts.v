(** Every report of the tool is made by creating results and appending finished reports. *)
From Coq Require Import PeanoNat String List NArith ZArith Bool Lia.
From Verif Require Import PyStr PyStrFacts PyBase PyXml PyVal ResultModel ResultSpec ResultFacts OpcModel FileModel AdapterModel ParseModel ConstraintModel CheckModel TemplateModel
  HttpModel ContextModel ConfigModel ProgModel ProgSpec ProgFacts ApiModel ApiSpec ApiSuites ApiFacts ActsFacts RequestSpec RequestFacts RequestFacts2 RequestFacts3
  ArgModel CliModel CliSpec.
Import ListNotations.
Local Open Scope list_scope.

Definition Assembled (r : result) : Prop := exists ls, assembled r ls.
Lemma as_new m l : Assembled (new_result m l).
Proof. eexists. constructor. Qed.
Lemma as_append r c : Assembled r -> Assembled c -> Assembled (append r c).
Proof. intros [a A] [b B]. eexists. eapply asm_append; eassumption. Qed.
Lemma as_appends l : forall r, Assembled r -> Forall Assembled l -> Assembled (appends r l).
Proof. induction l as [|c l IH]; intros r A F; [exact A|]. cbn [appends fold_left]. apply IH; [apply as_append; [exact A|exact (Forall_inv F)]|exact (Forall_inv_tail F)]. Qed.
Lemma as_map {X} (f : X -> result) l : (forall x, Assembled (f x)) -> Forall Assembled (List.map f l).
Proof. intros H. apply Forall_forall. intros r I. apply in_map_iff in I. destruct I as (x & <- & _). apply H. Qed.
Lemma val_as a r : Assembled a -> Val a = Val r -> Assembled r.
Proof. intros A E. assert (H : a = r) by congruence. now rewrite <- H. Qed.
Lemma pair_as {X} a r (x y : X) : Assembled a -> Val (a, x) = Val (r, y) -> Assembled r.
Proof. intros A E. assert (H : a = r) by congruence. now rewrite <- H. Qed.
Lemma some_as a r : Assembled a -> Val (Some a) = Val (Some r) -> Assembled r.
Proof. intros A E. assert (H : a = r) by congruence. now rewrite <- H. Qed.
Ltac asm := repeat first [assumption | apply as_append | apply as_new].

(** ** Packages *)
Lemma as_content_type z r : check_content_type z = Val r -> Assembled r.
Proof.
  unfold check_content_type. destruct (zopen z content_types_xml) as [c|]; [|apply val_as; asm]. destruct (as_xml c) as [x| |]; try discriminate.
  destruct (str_eqb (x_tag x) _); apply val_as; asm.
Qed.
Definition scanned_ok (s : sres) : Prop := forall r, sr_result s = Some r -> Assembled r.
Lemma as_loop rec dep z dir : (forall d f v s, rec d f v = Val s -> scanned_ok s) -> forall els res rels vis sc s, Assembled res ->
  rel_loop rec dep z dir els res rels vis sc = Val s -> scanned_ok s.
Proof.
  intros R. induction els as [|e els IH]; intros res rels vis sc s A; cbn [rel_loop].
  { intros [= <-] r [= <-]. exact A. }
  destruct (negb (str_eqb (x_tag e) _)); [apply IH; asm|]. destruct (lookup (lit "Type") (x_attrs e)) as [ty|]; [|apply IH; asm].
  destruct (lookup (lit "Target") (x_attrs e)) as [ta|]; [|apply IH; asm].
  assert (W : forall w t, map_type dep ty = (t, w) -> Forall Assembled w).
  { intros w t. unfold map_type. destruct (lookup ty dep); intros E; apply (f_equal snd) in E; cbn [snd] in E; subst w; [|constructor]. constructor; [asm|constructor]. }
  destruct (map_type dep ty) as [ty' w]. specialize (W w ty' eq_refl). destruct (splitpath (resolve_target dir ta)) as [sd f].
  assert (A2 : Assembled (append (appends res w) (new_result (lit "Relationship " ++ resolve_target dir ta ++ lit " is of type " ++ ty') INFO))) by (apply as_append; [now apply as_appends|asm]).
  destruct (str_in (resolve_target dir ta) vis); [apply IH; asm|]. destruct (negb (str_in (resolve_target dir ta) (namelist z))); [apply IH; asm|].
  destruct (rec (sd ++ lit "/") f _) as [s'|] eqn:E; [|discriminate]. apply R in E. apply IH. destruct (sr_result s') as [r'|] eqn:E'; [|exact A2].
  apply as_append; [exact A2|now apply E].
Qed.
Lemma as_scan dep z : forall k d f v s, scan k dep z d f v = Val s -> scanned_ok s.
Proof.
  induction k as [|k IH]; intros d f v s; cbn [scan]; [discriminate|]. destruct (zopen z (rels_name d f)) as [c|]; [|intros [= <-] r; discriminate].
  destruct (as_xml c) as [x| |]; try discriminate. destruct (negb (str_eqb (x_tag x) _)).
  - intros [= <-] r [= <-]. asm.
  - apply as_loop; [exact IH|]. destruct d; asm.
Qed.
Lemma as_opc dep z r0 r rels : Assembled r0 -> read_opc dep z r0 = Val (r, rels) -> Assembled r.
Proof.
  intros A. unfold read_opc. destruct (check_content_type z) as [c|] eqn:C; [|discriminate]. apply as_content_type in C. cbn [obind].
  destruct (negb (ok (append r0 c))); [apply pair_as; asm|]. unfold check_relationships. destruct (scan _ dep z [] [] []) as [s|] eqn:S; [|discriminate]. apply as_scan in S.
  cbn [obind]. destruct (sr_result s) as [x|] eqn:X; apply pair_as; cbn [fst]; asm. now apply S.
Qed.

(** ** Files *)
Section Files.
  Variable jo : json -> str -> outcome result.
  Variable xo : xml -> str -> outcome result.
  Hypothesis J : forall v n r, jo v n = Val r -> Assembled r.
  Hypothesis X : forall v n r, xo v n = Val r -> Assembled r.
  Lemma as_json_file f n r : check_json_file jo f n = Val r -> Assembled r.
  Proof. destruct f as [v|m|e]; cbn [check_json_file]; [apply J|apply val_as; asm|discriminate]. Qed.
  Lemma as_xml_file f n r : check_xml_file xo f n = Val r -> Assembled r.
  Proof. destruct f as [v|m|e]; cbn [check_xml_file]; [apply X|apply val_as; asm|discriminate]. Qed.
  Lemma as_spec z t r : check_spec jo xo z t = Val (Some r) -> Assembled r.
  Proof.
    unfold check_spec. destruct (zopen z t) as [c|]; [|discriminate].
    match goal with |- match ?o with _ => _ end = _ -> _ => assert (A : forall x, o = Val x -> Assembled x); [|destruct o as [x|e]; [specialize (A x eq_refl)|]] end.
    - intros x. destruct (endswith (lit ".xml") t); [apply as_xml_file|]. destruct (endswith (lit ".json") t); [apply as_json_file|]. apply val_as; asm.
    - apply some_as; asm.
    - destruct e; discriminate.
  Qed.
  Lemma as_specs z : forall specs res x, Assembled res -> check_specs jo xo z specs res = Val x -> match x with inl r | inr r => Assembled r end.
  Proof.
    induction specs as [|s specs IH]; intros res x A; cbn [check_specs]; [intros E; assert (H : inl res = x) by congruence; subst x; exact A|]. destruct (check_spec jo xo z (rel_target s)) as [[r|]|] eqn:E; [| |discriminate]; cbn [obind].
    - apply as_spec in E. apply IH. asm.
    - intros H. match type of H with Val ?a = _ => assert (K : a = x) by congruence end. rewrite <- K. asm.
  Qed.
  Lemma as_origins z : forall os res r, Assembled res -> check_origins jo xo z os res = Val r -> Assembled r.
  Proof.
    induction os as [|o os IH]; intros res r A; cbn [check_origins]; [apply val_as; exact A|].
    destruct (check_specs jo xo z (by_type (rel_subs o) TYPE_AASX_SPEC) _) as [x|] eqn:E; [|discriminate]. apply as_specs in E; [|destruct (by_type (rel_subs o) TYPE_AASX_SPEC); asm].
    cbn [obind]. destruct x as [x|x]; [now apply IH|]. apply val_as; exact E.
  Qed.
  Lemma as_aasx f r : check_aasx_file jo xo f = Val r -> Assembled r.
  Proof.
    destruct f as [z|m|e]; cbn [check_aasx_file]; [|apply val_as; asm|discriminate]. unfold check_aasx_data.
    destruct (read_opc DEPRECATED_TYPES z _) as [[x rels]|] eqn:E; [|discriminate]. apply as_opc in E; [|asm]. cbn [obind]. destruct (negb (ok x)); [apply val_as; exact E|].
    unfold check_files. destruct (check_origins jo xo z _ _) as [y|] eqn:O; [|discriminate]. apply as_origins in O; [|destruct (Nat.eqb _ 1); asm]. apply val_as; asm.
  Qed.
End Files.

(** ** Documents *)
Lemma as_findings fs : Forall Assembled (List.map finding_result fs).
Proof. apply as_map. intros x. apply as_new. Qed.
Lemma as_cfindings fs : Forall Assembled (List.map cfinding_result fs).
Proof. apply as_map. intros x. apply as_new. Qed.
Lemma as_checked cc p r x : (forall v l, cc v = Val l -> Forall Assembled l) -> parse_and_check cc p = Val (r, x) -> Assembled r.
Proof.
  intros C. unfold parse_and_check. destruct p as [[env fs]|]; [|discriminate]. cbn [obind].
  assert (A : Assembled (append (new_result (lit "Check") INFO) (check_meta_model fs))) by (apply as_append; [asm|apply as_appends; [asm|apply as_findings]]).
  destruct (ok _); [|apply pair_as; asm]. destruct (cc env) as [l|] eqn:E; [|discriminate]. apply C in E. apply pair_as. apply as_append; [exact A|]. apply as_appends; [asm|exact E].
Qed.
Lemma as_model v l : check_model v = Val l -> Forall Assembled l.
Proof. unfold check_model. destruct (check_constraints _ v []) as [fs|]; [|discriminate]. intros [= <-]. apply as_cfindings. Qed.
Lemma as_template repr sid t id s r : check_template repr sid t id s = Val r -> Assembled r.
Proof.
  unfold check_template. destruct (parse_submodel repr t s) as [[x ms]|]; [|discriminate]. cbn [obind].
  match goal with |- (if ok ?a then _ else _) = _ -> _ => assert (A : Assembled a) by (apply as_appends; [asm|apply as_map; intros m; asm]); destruct (ok a) end; [|apply val_as; exact A].
  destruct (check_constraints template_methods x []) as [fs|]; [|discriminate]. apply val_as. apply as_appends; [exact A|apply as_cfindings].
Qed.
Lemma as_templates repr known : forall l root r, Assembled root -> check_templates repr known l root = Val r -> Assembled r.
Proof.
  induction l as [|s l IH]; intros root r A; cbn [check_templates]; [apply val_as; exact A|]. destruct (getattr s (lit "semantic_id")) as [sem|]; [|discriminate]. cbn [obind].
  destruct (negb (truthy sem)); [now apply IH|]. destruct (getattr sem (lit "keys")) as [ks|]; [|discriminate]. cbn [obind]. destruct (negb (truthy ks)); [now apply IH|].
  destruct (TemplateModel.first_key sem) as [sid|]; [|discriminate]. cbn [obind]. destruct (getattr s (lit "id")) as [id|]; [|discriminate]. cbn [obind].
  destruct (raw_value id) as [id'|]; [|discriminate]. cbn [obind]. destruct (lookup sid known) as [t|]; [|now apply IH].
  destruct (check_template repr sid t id' s) as [sub|] eqn:E; [|discriminate]. apply as_template in E. apply IH. asm.
Qed.
Lemma as_with_templates repr known o r x : (forall r x, o = Val (r, x) -> Assembled r) -> with_templates repr known o = Val (r, x) -> Assembled r.
Proof.
  intros H. unfold with_templates. destruct o as [[rep v]|]; [|discriminate]. specialize (H rep v eq_refl). cbn [obind]. destruct (ok rep); [|apply pair_as; exact H].
  unfold parse_submodel_templates. destruct (getattr v (lit "submodels")) as [ss|]; [|discriminate]. cbn [obind]. destruct (truthy ss); [|apply pair_as; exact H].
  destruct (as_items ss) as [l|]; [|discriminate]. cbn [obind]. destruct (check_templates repr known l rep) as [y|] eqn:E; [|discriminate]. apply as_templates in E; [|exact H].
  apply pair_as; exact E.
Qed.
Lemma as_check_json show repr n v r x : check_json show repr n v = Val (r, x) -> Assembled r.
Proof. unfold check_json. generalize (meta_check_json show repr n v). intros p E. eapply as_checked; [exact as_model|exact E]. Qed.
Lemma as_check_xml repr n v r x : check_xml repr n v = Val (r, x) -> Assembled r.
Proof. unfold check_xml. generalize (meta_check_xml repr n v). intros p E. eapply as_checked; [exact as_model|exact E]. Qed.
Lemma as_json_report show repr v n r : json_report show repr v n = Val r -> Assembled r.
Proof.
  unfold json_report, json_to_obj. pose proof (as_check_json show repr n v) as C. revert C. generalize (check_json show repr n v). intros o C.
  destruct (with_templates repr templates o) as [[y z]|] eqn:E; [|discriminate]. intros H. cbn [obind] in H. eapply val_as; [|exact H]. eapply as_with_templates; [exact C|exact E].
Qed.
Lemma as_xml_report repr v n r : xml_report repr v n = Val r -> Assembled r.
Proof.
  unfold xml_report, xml_to_obj. pose proof (as_check_xml repr n v) as C. revert C. generalize (check_xml repr n v). intros o C.
  destruct (with_templates repr templates o) as [[y z]|] eqn:E; [|discriminate]. intros H. cbn [obind] in H. eapply val_as; [|exact H]. eapply as_with_templates; [exact C|exact E].
Qed.
Theorem file_assembled show repr fmt model_type f r : check_file show repr fmt model_type f = Val r -> Assembled r.
Proof.
  unfold check_file. destruct fmt; [apply as_xml_file, as_xml_report|apply as_json_file, as_json_report|]. destruct (str_eqb model_type _); [|discriminate]. apply as_aasx; [apply as_json_report|apply as_xml_report].
Qed.

(** ** Servers *)
Lemma as_body show repr t j r x : check_body show repr t j = Val (r, x) -> Assembled r.
Proof.
  unfold check_body. destruct (ReflectModel.reflect api_classes api_globals t) as [[i tt]|]; [|discriminate]. cbn [obind]. apply as_checked, as_model.
Qed.
(** The entries of the table of suites and of the table of published places belong together. *)
Lemma lookup_pairs {A B} (P : A -> B -> Prop) (k : str) l l' : Forall2 (fun x y => fst x = fst y /\ P (snd x) (snd y)) l l' ->
  match lookup k l, lookup k l' with Some x, Some y => P x y | None, None => True | _, _ => False end.
Proof.
  induction 1 as [|[a x] [b y] l l' [E H] F IH]; cbn [lookup]; [exact I|]. cbn [fst snd] in *. subst b. destruct (str_eqb k a); [exact H|exact IH].
Qed.
Lemma suite_entries show repr (Q : result -> Prop) (Qnew : forall m l, Q (new_result m l)) (Qbody : forall t j r x, check_body show repr t j = Val (r, x) -> Q r) c s es :
  prefixes c = [] -> lookup s (available_suites show repr) = Some es ->
  exists y, lookup s published = Some y /\ tidy (table y) /\ Forall (acts_entry Q c (table y)) es.
Proof.
  intros C E. pose proof (lookup_pairs (fun x y => Forall (acts_entry Q c (table y)) x) s _ _ (suites_act show repr Q Qnew Qbody c C)) as H. rewrite E in H.
  destruct (lookup s published) as [y|] eqn:L; [|destruct H]. exists y. split; [reflexivity|]. split; [|exact H].
  pose proof tables_tidy as T. rewrite Forall_forall in T. apply (T (s, y)). clear -L. revert L. generalize published. intros l. induction l as [|[k v] l IH]; cbn [lookup]; [discriminate|].
  destruct (str_eqb s k) eqn:K; [|right; auto]. apply str_eqb_spec in K. intros [= ->]. left. now rewrite K.
Qed.
Lemma run_meaning suites c conf srv : run (execute_tests suites c conf) srv = (snd (fst (meaning (execute_tests suites c conf) srv [])), snd (meaning (execute_tests suites c conf) srv [])).
Proof.
  destruct (lookup (cf_suite conf) suites) as [l|] eqn:L.
  - rewrite (run_root _ _ _ _ _ L). unfold execute_tests. rewrite L. rewrite meaning_bind, meaning_block. change (let! _ := check_server _ _ in _) with (root_body c conf l).
    destruct (meaning (root_body c conf l) srv []) as [[es [m|a|e t]] h']; reflexivity.
  - unfold run, execute_tests. rewrite L. reflexivity.
Qed.
Theorem server_run show repr (Q : result -> Prop) (Qnew : forall m l, Q (new_result m l)) (Qbody : forall t j r x, check_body show repr t j = Val (r, x) -> Q r)
  (Qappend : forall r c, Q r -> Q c -> Q (append r c)) c conf srv o h : prefixes c = [] -> run (check_api show repr c conf) srv = (o, h) ->
  (forall r m, o = Ret (r, m) -> Q r) /\ (h = [] \/ exists y, lookup (cf_suite conf) published = Some y /\ Forall (fun x => Request_to (table y) c (fst x)) h).
Proof.
  intros C. unfold check_api. destruct (str_eqb _ _); [|intros [= <- <-]; split; [discriminate|left; reflexivity]].
  destruct (lookup (cf_suite conf) (available_suites show repr)) as [es|] eqn:E.
  - destruct (suite_entries show repr Q Qnew Qbody c _ _ C E) as (y & L & T & F).
    pose proof (run_acts show repr Q Qnew c C (table y) T es conf (or_introl eq_refl) F E) as A.
    rewrite run_meaning. destruct (meaning (execute_tests (available_suites show repr) c conf) srv []) as [[rs ct] h'] eqn:M. cbn [fst snd]. intros [= -> ->].
    destruct (acts_meaning _ _ Qappend (fun t => Qnew _ _) _ _ _ _ _ _ _ A M) as (_ & W & t & E' & F'). cbn [app] in E'. subst t. split.
    + intros r m ->. exact W.
    + right. exists y. auto.
  - unfold execute_tests. rewrite E. intros [= <- <-]. split; [discriminate|left; reflexivity].
Qed.
Theorem server_assembled show repr c conf srv r m h : prefixes c = [] -> Returns (check_api show repr c conf) srv (r, m) h -> Assembled r.
Proof.
  intros C R. destruct (server_run show repr Assembled as_new (as_body show repr) as_append c conf srv _ h C R) as [A _]. exact (A r m eq_refl).
Qed.
(** ** The tool *)
Theorem tool_assembled show repr w argv r h o : Reaches show repr w argv r h o -> Assembled r.
Proof. intros [? ? ? ? ? ? _ _ _ E|? ? ? ? ? ? ? ? _ _ _ _ E]; [now apply file_assembled in E|]. eapply server_assembled; [|exact E]. reflexivity. Qed.
