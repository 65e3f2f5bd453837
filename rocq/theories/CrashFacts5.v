(** All operations in the tables end with an exception only for one of the causes. *)
From Coq Require Import PeanoNat String List NArith ZArith Bool Lia.
From Verif Require Import PyStr PyStrFacts PyBase PyVal Codec CodecSpec CodecFacts ResultModel ResultFacts ContextModel HttpModel ConfigModel ReflectModel ReflectFacts MetaModel ParseModel ParseSpec MetaSpec
  AdapterModel ProgModel ProgSpec ProgFacts ApiModel ApiSpec ApiSuites ApiFacts ApiBody ApiFacts2 ApiFacts3
  TestSpec ApiValue TestFacts TestFacts2 TestFacts3 CrashSpec CrashValue CrashFacts CrashFacts2 CrashFacts3 CrashFacts4.
Import ListNotations.
Local Open Scope string_scope.
Local Open Scope list_scope.

Ltac callable := intros; split; [vm_compute; reflexivity|sendable_fit].
Ltac in_some := lazymatch goal with |- In (?t, _) bodies => let n := body_index t in eapply (nth_error_In bodies n); reflexivity end.
Ltac is_known := unfold handled; handling; first [exact Logic.I|eexists; in_some].
Ltac reduce_sig I := cbv [su_signature suite_of o_sig simple_op all_submodels_op by_id_op by_path_op leveled_op o_references o_shells o_shell_refs o_shell
  o_shell_ref o_elements o_elements_meta o_elements_refs o_element o_element_meta o_element_value o_element_ref o_element_path o_file
  o_serialization o_description s_shells s_aas_id In] in I.
Ltac negatives V := 
  let p := fresh "p" in let v := fresh "v" in let I := fresh "I" in let G := fresh "G" in
  intros p v I G; reduce_sig I; repeat destruct I as [<-|I]; try (exfalso; exact I);
  vm_compute in G; first [discriminate G|injection G as <-; rewrite V; apply failure_runs; [vm_compute; reflexivity|sendable_fit]].
Ltac decoded := handling; reflexivity.
Ltac tests V := 
  cbv [t_elements t_levels];
  repeat lazymatch goal with
  | |- Forall _ [] => apply Forall_nil
  | |- Forall _ (pagination _ _ _) => eapply paging_good; [decoded|in_some|callable|exact V]
  | |- Forall _ (t_shells _ _ _) => eapply shells_good; [decoded|in_some|callable..]
  | |- Forall _ (_ ++ _) => apply Forall_app; split
  | |- Forall _ (_ :: _) => apply Forall_cons
  | |- context [t_invoke] => apply invoke_good; [is_known|callable]
  | |- context [t_types] => apply types_good; [is_known|assumption|callable]
  | |- context [t_file] => apply file_good; [is_known|callable]
  | |- context [t_filter_by_idshort _ _ _ false] => eapply filter_good; [decoded|in_some|callable]
  end.

Section Suites.
  Variable show : json -> str.
  Variable repr : str -> str.
  Variable c0 : client.
  Notation Breaks := (Breaks show repr c0).

  Lemma suite_intro row va o err setup ts : reflected (suite_of o err setup ts) = true -> forallb known_argument (o_sig o) = true ->
    (forall i, Sound_instance va i -> (forall p v, In p (su_signature (suite_of o err setup ts)) -> generate_invalid_values (fst p) (strip_optional (snd p)) = Val [v] ->
       Runs (Once Lost) (err i (assign (fst p) v (i_valid_arguments i))) Any) /\
       Forall (fun t : test => Ends show repr row (snd t i)) ts) -> Suite_ends show repr row va (suite_of o err setup ts).
  Proof.
    intros R K H. split; [exact R|]. split; [exact K|]. split.
    - intros i p v S. now apply (H i S).
    - intros i t S I. exact (proj1 (Forall_forall _ _) (proj2 (H i S)) t I).
  Qed.
  Lemma breaks_intro p s row va k l : Leading show repr c0 row p k -> Prepared show repr row k l va (su_setup s) -> List.length (ro_setup row) = (k + l)%nat ->
    Suite_ends show repr row va s -> Breaks (p, s) row.
  Proof.
    intros L P N S. exists va. split; [exact S|]. intros profile. cbn [fst snd]. rewrite N. eapply steps_bind; [exact L| |]; intros pre; [intros _; apply P|].
    apply (proj2 (P (descend c0 pre) profile)).
  Qed.
  Ltac suite V := apply suite_intro; [vm_compute; reflexivity|vm_compute; reflexivity|].
  Ltac plain := let V := fresh "V" in apply suite_intro; [vm_compute; reflexivity|vm_compute; reflexivity|]; intros i (V & ? & ? & ? & ? & ? & ?);
    unfold no_args in V; split; [negatives V|tests V].
  Ltac pathed := let V := fresh "V" in apply suite_intro; [vm_compute; reflexivity|vm_compute; reflexivity|]; intros i ((s & V) & ? & ? & ? & ? & ? & ?); split; [negatives V|tests V].
  Ltac ided := let V := fresh "V" in apply suite_intro; [vm_compute; reflexivity|vm_compute; reflexivity|]; intros i ((s & V & ?) & ? & ? & ? & ? & ? & ?); split; [negatives V|].

  Definition Leads (t : string -> route) (before : list (TestSpec.route * params)) (p : client -> prog str) : Prop :=
    forall row s r l, ro_path row = t s ++ r -> ro_setup row = before ++ l -> Leading show repr c0 row p (List.length before).
  Ltac path := first [reflexivity|symmetry; apply app_nil_r].
  Ltac steps_length := cbn [ro_setup]; rewrite ?app_length; cbn [List.length]; lia.
  Ltac operation L setup body := eapply breaks_intro; [eapply L; [path|path]|setup|steps_length|body].
  Ltac own_cursor := eapply own_cursor_prepared; [vm_compute; reflexivity|decoded|in_some|sendable_fit].
  Lemma element_breaks p t before : Leads t before p -> Forall2 Breaks (elements_suites show repr p) (element_rows t before).
  Proof.
    intros L. unfold elements_suites, element_rows. cbv zeta.
    assert (P : forall s r l l', Prepared show repr (Row s (t "/submodel-elements/" ++ [Element (List.length before)] ++ r) (before ++ [(t "/submodel-elements", [])]) l l')
      (List.length before) 1 path_args (setup_elements show repr)).
    { intros s r l l'. apply elements_prepared.
      - cbn [ro_setup]. rewrite app_length. cbn [List.length]. lia.
      - cbn [ro_path]. apply in_or_app. right. now left. }
    repeat apply Forall2_cons; [..|apply Forall2_nil].
    - operation L ltac:(own_cursor) ltac:(plain).
    - operation L ltac:(own_cursor) ltac:(plain).
    - operation L ltac:(own_cursor) ltac:(plain).
    - operation L ltac:(apply none_prepared) ltac:(plain).
    - operation L ltac:(own_cursor) ltac:(plain).
    - operation L ltac:(apply P) ltac:(pathed).
    - operation L ltac:(apply P) ltac:(pathed).
    - operation L ltac:(apply P) ltac:(pathed).
    - operation L ltac:(apply P) ltac:(pathed).
    - operation L ltac:(apply P) ltac:(pathed).
    - operation L ltac:(apply P) ltac:(pathed).
  Qed.
  Definition Gives_id (before l : list (TestSpec.route * params)) (src : source) (setup : instance -> prog instance) : Prop :=
    forall row, In src (ident_sources (ro_path row)) -> ro_setup row = before ++ l -> Prepared show repr row (List.length before) (List.length l) id_args setup.
  Lemma sources_app a b : ident_sources (a ++ b) = ident_sources a ++ ident_sources b.
  Proof. unfold ident_sources. apply flat_map_app. Qed.
  Ltac fetched := apply Forall_cons; [|apply Forall_nil]; apply by_id_good; [assumption|callable|].
  Ltac by_reference := handling; eexists _, _; split; [reflexivity|split; [in_some|]]; intros j v F; apply firm_model in F; exact (identified_key j v F).
  Ltac by_identifier n := handling; eexists _, _; split; [reflexivity|split; [in_some|]]; intros j v F; apply firm_model in F;
    apply (identified_id n j v); [cbn [In]; tauto|exact F].
  Lemma by_id_breaks p t before l src setup : Leads t before p -> Gives_id before l src setup ->
    Forall2 Breaks (by_id_suites show repr p setup) (by_id_rows t (before ++ l) src).
  Proof.
    intros L G. unfold by_id_suites, by_id_rows. cbv zeta.
    assert (P : forall s r w ts, Prepared show repr (Row s (t "/submodels/" ++ [Ident src] ++ r) (before ++ l) w ts) (List.length before) (List.length l) id_args setup).
    { intros s r w ts. apply G; [|reflexivity]. cbn [ro_path]. rewrite !sources_app. apply in_or_app. right. now left. }
    repeat apply Forall2_cons; [..|apply Forall2_nil]; (eapply breaks_intro; [eapply L; [path|path]|apply P|cbn [ro_setup]; now rewrite app_length|ided; fetched]).
    - by_identifier "Submodel".
    - by_identifier "Submodel".
    - by_reference.
    - is_known.
    - is_known.
  Qed.
  Lemma shell_breaks p t before : Leads t before p -> Forall2 Breaks (shell_suites show repr p) (shell_rows t before).
  Proof.
    intros L. unfold shell_suites, shell_rows. repeat apply Forall2_cons; [..|apply Forall2_nil].
    - operation L ltac:(apply none_prepared) ltac:(plain).
    - operation L ltac:(apply none_prepared) ltac:(plain).
    - operation L ltac:(apply references_prepared) ltac:(plain).
  Qed.
  Lemma fixed_leads' t s : Leads t [] (fixed_prefix s).
  Proof. intros row s' r l _ _. apply fixed_leading. Qed.
  Lemma firm_profiles j v : Firm (BObject [(lit "profiles", (true, BList BText))]) j v -> exists l, (let* p := get v "profiles" in as_items p) = Val l.
  Proof.
    intros [B O]. inversion O as [| | | |ms kvs K R M| |]; subst. inversion B as [| | | |ms kvs' k attrs N S| |]; subst.
    pose proof (R _ _ (or_introl eq_refl)) as L. destruct (lookup (lit "profiles") kvs) as [y|] eqn:E; [|congruence].
    destruct (S _ _ _ _ (or_introl eq_refl) E) as (x & X & Bx). change (snake_case (lit "profiles")) with (lit "profiles") in X. unfold get. cbn [getattr]. rewrite X. cbn [obind].
    inversion Bx; subst. cbn [as_items]. eauto.
  Qed.
  Lemma common_breaks s t : Forall2 Breaks [(fixed_prefix s, GenerateSerialization show repr); (no_prefix, GetDescription show repr)] (common_rows t).
  Proof.
    unfold common_rows. repeat apply Forall2_cons; [..|apply Forall2_nil].
    - eapply (breaks_intro _ _ _ no_args 0 1); [apply fixed_leading| |reflexivity|].
      + apply serialization_prepared; (split; [cbn [ro_setup List.length]; lia|]); unfold needed; cbn [ro_path ro_setup ro_tests]; do 2 (apply in_or_app; right).
        * now left.
        * right. now left.
      + apply suite_intro; [vm_compute; reflexivity|vm_compute; reflexivity|]. intros i (V & ? & ? & ? & ? & ? & ?). unfold no_args in V. split; [negatives V|tests V].
        * assert (C : Callable o_serialization [(lit "aas_id", VlBase64 (i_valid_id i))]) by callable. apply ends_seq; [apply success_ends; [is_known|apply C..]|intros; apply ends_ret].
        * assert (C : Callable o_serialization [(lit "submodel_id", VlBase64 (i_valid_submod_id i))]) by callable.
          apply ends_seq; [apply success_ends; [is_known|apply C..]|intros; apply ends_ret].
        * assert (C : Callable o_serialization [(lit "include_concept_descriptions", VlBool true)]) by callable.
          eapply ends_checked; [decoded|in_some|apply C..|]. intros j v F. apply firm_model in F.
          destruct (carries_has "Environment" "conceptDescriptions" any_type j v) as [x X]; [vm_compute; reflexivity|apply F|].
          apply (ends_val _ _ _ _ x); [exact X|]. apply ends_assert.
    - eapply (breaks_intro _ _ _ no_args 0 0); [apply fixed_leading|apply none_prepared|reflexivity|].
      apply suite_intro; [vm_compute; reflexivity|vm_compute; reflexivity|]. intros i (V & ? & ? & ? & ? & ? & ?). unfold no_args in V. split; [negatives V|tests V].
      assert (C : Callable o_description []) by callable. eapply ends_checked; [decoded|in_some|apply C..|]. intros j v F.
      destruct (firm_profiles j v F) as [l E]. apply (ends_val _ _ _ _ l _ E). apply ends_assert.
  Qed.
  Lemma repository_breaks : Forall2 Breaks
    [(no_prefix, GetAllAas show repr); (no_prefix, GetAllAasRefs show repr); (no_prefix, GetAasById show repr); (no_prefix, GetAasByIdReference show repr)]
    (firstn 4 shell_repository_rows).
  Proof.
    unfold shell_repository_rows. cbn [firstn app]. repeat apply Forall2_cons; [..|apply Forall2_nil].
    - eapply (breaks_intro _ _ _ no_args 0 1); [apply fixed_leading| |reflexivity|].
      + apply all_shells_prepared; (split; [cbn [ro_setup List.length]; lia|]); vm_compute; tauto.
      + plain. eapply (filter_named_good _ _ _ _ _ _ (by_id_short (First_named first_short)) first_short); [decoded|in_some|callable| |reflexivity]. cbn [ro_tests filters app In by_id_short]. do 3 right. left. reflexivity.
    - eapply (breaks_intro _ _ _ no_args 0 1); [apply fixed_leading| |reflexivity|].
      + apply all_shells_prepared; (split; [cbn [ro_setup List.length]; lia|]); vm_compute; tauto.
      + plain.
    - eapply (breaks_intro _ _ _ no_args 0 1); [apply fixed_leading| |reflexivity|].
      + apply valid_id_prepared; (split; [cbn [ro_setup List.length]; lia|]); vm_compute; tauto.
      + plain. apply by_id_good; [assumption|callable|by_identifier "AssetAdministrationShell"].
    - eapply (breaks_intro _ _ _ no_args 0 1); [apply fixed_leading| |reflexivity|].
      + apply valid_id_prepared; (split; [cbn [ro_setup List.length]; lia|]); vm_compute; tauto.
      + plain. apply by_id_good; [assumption|callable|by_reference].
  Qed.
  Lemma wanted_in row src p before l : In (0%nat, p) (ident_sources (ro_path row)) -> ro_setup row = src :: before ++ l -> wanted_at row 0 p.
  Proof. intros I S. split; [rewrite S; cbn [List.length]; lia|]. unfold needed. apply in_or_app. now left. Qed.
  Lemma in_route p t r : In p (ident_sources t) -> In p (ident_sources (t ++ r)).
  Proof. intros I. rewrite sources_app. apply in_or_app. now left. Qed.
  Ltac source := intros; eapply (wanted_in _ _ _ []); [|eassumption]; match goal with H : ro_path _ = _ |- _ => rewrite H end; apply in_route; vm_compute; tauto.
  Lemma shell_leads : Leads in_shell [the_shells] (aas_repo_prefix show repr).
  Proof. intros row s r l P S. apply aas_repo_leading. source. Qed.
  Lemma shell_submodel_leads : Leads in_shell_submodel [the_shells] (aas_repo_submodel_prefix show repr).
  Proof. intros row s r l P S. apply aas_repo_submodel_leading; source. Qed.
  Lemma submodel_leads : Leads in_submodel [the_submodels] (submodel_repo_submodel_prefix show repr).
  Proof. intros row s r l P S. apply submodel_repo_leading. source. Qed.
  Lemma own_submodel_leads : Leads in_aas_submodel [(at_root "/", [])] (aas_submodel_prefix show repr).
  Proof. intros row s r l P S. apply aas_submodel_leading. source. Qed.
  Lemma aas_gives before x : Gives_id before [x] (first_reference (List.length before)) (setup_for_aas show repr).
  Proof.
    intros row I S. apply for_aas_prepared. split; [rewrite S, app_length; cbn [List.length]; lia|]. unfold needed. apply in_or_app. left. exact I.
  Qed.
  Lemma submodel_gives before x : Gives_id before [x] (first_id (List.length before)) (setup_for_submodel show repr).
  Proof.
    intros row I S. apply for_submodel_prepared. split; [rewrite S, app_length; cbn [List.length]; lia|]. unfold needed. apply in_or_app. left. exact I.
  Qed.
  Ltac all_submodels := eapply (breaks_intro _ _ _ no_args 0 1); [apply fixed_leading|apply submodels_prepared|reflexivity|plain].
  Ltac simple := eapply (breaks_intro _ _ _ no_args 0 0); [apply fixed_leading|apply none_prepared|reflexivity|plain].
  Theorem suites_break : Forall2 (fun x y => fst x = fst y /\ Forall2 Breaks (snd x) (snd y)) (available_suites show repr) conducted.
  Proof.
    unfold available_suites, conducted. repeat apply Forall2_cons; [..|apply Forall2_nil]; (split; [reflexivity|]); cbn [snd].
    - change shell_repository_rows with (firstn 4 shell_repository_rows ++ shell_rows in_shell [the_shells] ++
        by_id_rows in_shell ([the_shells] ++ [(in_shell "/submodel-refs", one)]) (first_reference 1) ++ element_rows in_shell_submodel [the_shells] ++ common_rows at_root).
      apply Forall2_app; [apply repository_breaks|]. apply Forall2_app; [apply (shell_breaks _ _ _ shell_leads)|].
      apply Forall2_app; [apply (by_id_breaks _ _ _ _ _ _ shell_leads), aas_gives|].
      apply Forall2_app; [apply (element_breaks _ _ _ shell_submodel_leads)|apply common_breaks].
    - unfold submodel_repository_rows. apply Forall2_app.
      { repeat apply Forall2_cons; [..|apply Forall2_nil]; all_submodels. }
      apply Forall2_app; [apply (by_id_breaks _ _ [] [the_submodels] _ _ (fixed_leads' _ _)), (submodel_gives [])|].
      apply Forall2_app; [apply (element_breaks _ _ _ submodel_leads)|apply common_breaks].
    - unfold shell_service_rows. apply Forall2_app.
      { repeat apply Forall2_cons; [..|apply Forall2_nil]; simple. }
      apply Forall2_app; [apply (shell_breaks _ _ _ (fixed_leads' _ _))|].
      apply Forall2_app; [apply (by_id_breaks _ _ [] [(in_aas "/submodel-refs", one)] _ _ (fixed_leads' _ _)), (aas_gives [])|].
      apply Forall2_app; [apply (element_breaks _ _ _ own_submodel_leads)|apply common_breaks].
    - unfold submodel_service_rows. apply Forall2_app.
      { repeat apply Forall2_cons; [..|apply Forall2_nil]; simple. }
      apply Forall2_app; [apply (element_breaks _ _ _ (fixed_leads' _ _))|apply common_breaks].
  Qed.
End Suites.
