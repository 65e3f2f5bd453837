(** The requests of all suites, and the entries of their reports: every operation and the whole run. *)
From Coq Require Import PeanoNat String List NArith ZArith Bool Lia.
From Verif Require Import PyStr PyStrFacts PyBase PyVal Codec CodecSpec CodecFacts ResultModel ContextModel HttpModel ConfigModel ReflectModel MetaModel ParseModel
  ProgModel ProgSpec ProgFacts ApiModel ApiSpec ApiSuites ApiFacts ActsFacts RequestSpec RequestFacts RequestFacts2.
Import ListNotations.
Local Open Scope string_scope.
Local Open Scope list_scope.

Lemma val_inj {X} (a b : X) : Val a = Val b -> a = b.
Proof. now intros [= ->]. Qed.

(** ** Arguments *)
Lemma wrong_limit : wrong_fits s_limit.
Proof. intros vs E. vm_compute in E. injection E as <-. constructor; [|constructor]. apply Fit_limit. cbn. auto. Qed.
Lemma wrong_none n : wrong_fits (n, AOpt AStr) /\ wrong_fits (n, AStr).
Proof. split; intros vs E; vm_compute in E; injection E as <-; constructor. Qed.
Lemma wrong_level : wrong_fits s_level.
Proof. intros vs E. vm_compute in E. injection E as <-. constructor; [|constructor]. apply Fit_level. right. right. right. left. reflexivity. Qed.
Lemma wrong_extent : wrong_fits s_extent.
Proof. intros vs E. vm_compute in E. injection E as <-. constructor; [|constructor]. apply Fit_extent. do 4 right. left. reflexivity. Qed.
Lemma wrong_extent' : wrong_fits (lit "extent", AOpt (ACls k_Level)).
Proof. intros vs E. vm_compute in E. injection E as <-. constructor; [|constructor]. apply Fit_extent. do 3 right. left. reflexivity. Qed.
Lemma wrong_id n : In n [lit "aas_id"; lit "submodel_id"] -> wrong_fits (n, ACls k_Base64String) /\ wrong_fits (n, AOpt (ACls k_Base64String)).
Proof.
  intros H. assert (N : In n [lit "aas_id"; lit "submodel_id"; lit "asset_id"]) by (destruct H as [H|[H|[]]]; [left|right; left]; exact H).
  split; intros vs E; vm_compute in E; injection E as <-; (constructor; [|constructor]); now apply Fit_encoded.
Qed.
Lemma wrong_asset : wrong_fits (lit "asset_id", AOpt (ACls k_AssetId)).
Proof. intros vs E. vm_compute in E. injection E as <-. constructor; [|constructor]. apply Fit_encoded. do 2 right. left. reflexivity. Qed.
Lemma wrong_descriptions : wrong_fits (lit "include_concept_descriptions", AOpt ABool).
Proof. intros vs E. vm_compute in E. injection E as <-. constructor; [|constructor]. apply Fit_descriptions. right. left. reflexivity. Qed.
Ltac wrong := cbv [o_sig simple_op all_submodels_op by_id_op by_path_op leveled_op o_references o_shells o_shell_refs o_shell o_shell_ref o_elements
    o_elements_meta o_elements_refs o_element o_element_meta o_element_value o_element_ref o_element_path o_file o_serialization o_description
    s_shells s_aas_id]; repeat lazymatch goal with
  | |- Forall _ [] => apply Forall_nil
  | |- Forall _ (_ :: _) => apply Forall_cons
  | |- wrong_fits s_limit => exact wrong_limit
  | |- wrong_fits s_level => exact wrong_level
  | |- wrong_fits s_extent => exact wrong_extent
  | |- wrong_fits (lit "extent", _) => exact wrong_extent'
  | |- wrong_fits s_cursor => apply (wrong_none (lit "cursor"))
  | |- wrong_fits s_path => apply (wrong_none (lit "id_short_path"))
  | |- wrong_fits s_submodel_id => apply (wrong_id (lit "submodel_id")); right; left; reflexivity
  | |- wrong_fits (lit "aas_id", _) => apply (wrong_id (lit "aas_id")); left; reflexivity
  | |- wrong_fits (lit "submodel_id", _) => apply (wrong_id (lit "submodel_id")); right; left; reflexivity
  | |- wrong_fits (lit "id_short", _) => apply (wrong_none (lit "id_short"))
  | |- wrong_fits (lit "asset_id", _) => exact wrong_asset
  | |- wrong_fits (lit "include_concept_descriptions", _) => exact wrong_descriptions
  end.

Section Messages.
  Variable show : json -> str.
  Variable repr : str -> str.
  Variable Q : result -> Prop.
  Hypothesis Qnew : forall m l, Q (new_result m l).
  Hypothesis Qbody : forall t j r x, check_body show repr t j = Val (r, x) -> Q r.

  Section Suite.
    Variable c0 : client.
    Hypothesis C0 : prefixes c0 = [].
    Variable l : list place.
    Hypothesis Tidy : tidy l.
    Notation Acts := (Acts Q (Request_to l c0)).
    Notation acts_entry := (acts_entry Q c0 l).

    (** ** Prefixes *)
    Definition prefix_acts (p : client -> prog str) (t : template) : Prop := Acts (p c0) (Matches t).
    Lemma root_matches : Matches [] (List.concat (prefixes c0)).
    Proof. rewrite C0. constructor. Qed.
    Lemma fixed_acts s : prefix_acts (fixed_prefix s) (root s).
    Proof. unfold prefix_acts, fixed_prefix. apply acts_ret. unfold root, F. rewrite <- (app_nil_r (lit s)) at 2. repeat constructor. Qed.
    Lemma text_encoded raw t : base64_text raw = Val t -> Encoded t.
    Proof.
      unfold base64_text. destruct (base64_string raw) as [v|] eqn:E; [|discriminate]. cbn [obind]. apply (encoded_value (lit "aas_id")); [left; reflexivity|].
      apply (base64_fit _ raw); [left; reflexivity|exact E].
    Qed.
    Lemma aas_repo_acts : usable_endpoint l [] e_shells = true -> prefix_acts (aas_repo_prefix show repr) [F "/shells/"; Identifier].
    Proof.
      intros U. unfold prefix_acts, aas_repo_prefix. apply acts_bind with (V := any).
      { apply (acts_shells show repr Q Qnew Qbody c0 l Tidy c0 [] root_matches eq_refl eq_refl eq_refl U). }
      intros r _. apply acts_lift. intros p E. destruct (first_result r) as [s|]; [|discriminate]. cbn [obind] in E. destruct (raw_id s) as [i|]; [|discriminate]. cbn [obind] in E.
      destruct (base64_text i) as [t|] eqn:T; [|discriminate]. apply val_inj in E; subst p. apply M_fixed. rewrite <- (app_nil_r t). apply M_identifier; [now apply (text_encoded i)|constructor].
    Qed.
    Lemma aas_repo_submodel_acts : usable_endpoint l [] e_shells = true ->
      prefix_acts (aas_repo_submodel_prefix show repr) [F "/shells/"; Identifier; F "/submodels/"; Identifier].
    Proof.
      intros U. unfold prefix_acts, aas_repo_submodel_prefix. apply acts_bind with (V := any).
      { apply (acts_shells show repr Q Qnew Qbody c0 l Tidy c0 [] root_matches eq_refl eq_refl eq_refl U). }
      intros r _. apply acts_lift. intros p E. destruct (first_result r) as [s|]; [|discriminate]. cbn [obind] in E. destruct (raw_id s) as [i|]; [|discriminate]. cbn [obind] in E.
      destruct (base64_string i) as [v|] eqn:V; [|discriminate]. cbn [obind] in E. destruct (get s "submodels") as [g|]; [|discriminate]. cbn [obind] in E.
      destruct (first g) as [m|]; [|discriminate]. cbn [obind] in E. destruct (first_key m) as [k|]; [|discriminate]. cbn [obind] in E.
      destruct (base64_string k) as [w|] eqn:W; [|discriminate]. cbn [obind] in E. destruct (value_text v) as [t|] eqn:T; [|discriminate]. cbn [obind] in E.
      destruct (value_text w) as [u|] eqn:U'; [|discriminate]. apply val_inj in E; subst p.
      apply M_fixed. apply M_identifier; [apply (text_encoded i); unfold base64_text; rewrite V; exact T|]. apply M_fixed.
      rewrite <- (app_nil_r u). apply M_identifier; [apply (text_encoded k); unfold base64_text; rewrite W; exact U'|constructor].
    Qed.
    Lemma submodel_repo_acts : usable_endpoint l [] (paged_endpoint "/submodels") = true -> prefix_acts (submodel_repo_submodel_prefix show repr) [F "/submodels/"; Identifier].
    Proof.
      intros U. unfold prefix_acts, submodel_repo_submodel_prefix. apply acts_bind with (V := any).
      { apply (acts_submodels show repr Q Qnew Qbody c0 l Tidy c0 [] root_matches eq_refl eq_refl eq_refl U). }
      intros r _. apply acts_lift. intros p E. destruct (first_result r) as [s|]; [|discriminate]. cbn [obind] in E. destruct (raw_id s) as [i|]; [|discriminate]. cbn [obind] in E.
      destruct (base64_text i) as [t|] eqn:T; [|discriminate]. apply val_inj in E; subst p. apply M_fixed. rewrite <- (app_nil_r t). apply M_identifier; [now apply (text_encoded i)|constructor].
    Qed.
    Lemma aas_submodel_acts : usable_endpoint l [] (Endpoint [Text (lit "/")] []) = true -> prefix_acts (aas_submodel_prefix show repr) [F "/aas/submodels/"; Identifier].
    Proof.
      intros U. unfold prefix_acts, aas_submodel_prefix. apply acts_bind with (V := any).
      { apply (acts_shell show repr Q Qnew Qbody c0 l Tidy c0 [] root_matches eq_refl eq_refl eq_refl U). }
      intros r _. apply acts_lift. intros p E. destruct (get r "submodels") as [s|]; [|discriminate]. cbn [obind] in E. destruct (first s) as [x|]; [|discriminate]. cbn [obind] in E.
      destruct (first_key x) as [i|]; [|discriminate]. cbn [obind] in E.
      destruct (base64_text i) as [t|] eqn:T; [|discriminate]. apply val_inj in E; subst p. apply M_fixed. rewrite <- (app_nil_r t). apply M_identifier; [now apply (text_encoded i)|constructor].
    Qed.

    (** ** Suites *)
    Definition below (t : template) (c : client) : Prop := Matches t (List.concat (prefixes c)) /\ host c = host c0 /\ verify c = verify c0 /\
      remove_path_prefix c = remove_path_prefix c0.
    Lemma descend_below t p : Matches t p -> below t (descend c0 p).
    Proof. intros M. unfold below, descend. cbn. rewrite app_nil_r. auto. Qed.
    Definition setup_acts (t : template) (W : client -> instance -> Prop) (setup : instance -> prog instance) : Prop :=
      forall c i, below t c -> Inst c i -> Acts (setup i) (W c).
    Definition class (W : client -> instance -> Prop) : Prop := W = Inst \/ W = Asset.
    Lemma acts_of p o err setup tests t W : prefix_acts p t -> usable_op l t o = true -> Forall wrong_fits (o_sig o) ->
      (err = cannot_fail \/ err = invoke_error show repr o) -> class W -> setup_acts t W setup ->
      (forall c, below t c -> Forall (ActsTest Q c0 l (W c)) tests) -> acts_entry (p, suite_of o err setup tests).
    Proof.
      intros P U N E K S T. exists t. split; [exact P|]. intros pre M. exists (W (descend c0 pre)). pose proof (descend_below t pre M) as B. destruct (B) as (B1 & B2 & B3 & B4).
      cbn [snd]. unfold suite_of, acts_suite. cbn [su_signature su_invoke_error su_setup su_tests].
      assert (I : forall i, W (descend c0 pre) i -> Inst (descend c0 pre) i) by (destruct K as [-> | ->]; [auto|intros i A; apply A]).
      split; [exact N|]. split.
      { intros i a Wi Ft. destruct (I i Wi) as [C _]. destruct E as [-> | ->]; [apply (acts_cannot_fail Q c0 l)|].
        apply (acts_error show repr Q Qnew Qbody c0 l Tidy (descend c0 pre) t B1 B2 B3 B4 o i a U C Ft). }
      split; [intros i Wi; apply (I i Wi)|]. split; [intros i; now apply S|now apply T].
    Qed.

    Lemma no_acts t : setup_acts t Inst no_setup.
    Proof. intros c i _ H. exact H. Qed.
    Ltac setup_acts H := intros c i (B1 & B2 & B3 & B4) I; apply (H c _ B1 B2 B3 B4 i I); assumption.
    Lemma all_shells_acts t : usable_endpoint l t e_shells = true -> setup_acts t Asset (setup_all_shells show repr).
    Proof. intros U. setup_acts (a_setup_all_shells show repr Q Qnew Qbody c0 l Tidy). Qed.
    Lemma valid_id_acts t : usable_endpoint l t e_shells = true -> setup_acts t Inst (setup_valid_id show repr).
    Proof. intros U. setup_acts (a_setup_valid_id show repr Q Qnew Qbody c0 l Tidy). Qed.
    Lemma references_acts t : usable_endpoint l t (paged_endpoint "/submodel-refs") = true -> setup_acts t Inst (setup_references show repr).
    Proof. intros U. setup_acts (a_setup_references show repr Q Qnew Qbody c0 l Tidy). Qed.
    Lemma submodels_acts t : usable_endpoint l t (paged_endpoint "/submodels") = true -> setup_acts t Inst (setup_submodels show repr).
    Proof. intros U. setup_acts (a_setup_submodels show repr Q Qnew Qbody c0 l Tidy). Qed.
    Lemma for_aas_acts t : usable_endpoint l t (paged_endpoint "/submodel-refs") = true -> setup_acts t Inst (setup_for_aas show repr).
    Proof. intros U. setup_acts (a_setup_for_aas show repr Q Qnew Qbody c0 l Tidy). Qed.
    Lemma for_submodel_acts t : usable_endpoint l t (paged_endpoint "/submodels") = true -> setup_acts t Inst (setup_for_submodel show repr).
    Proof. intros U. setup_acts (a_setup_for_submodel show repr Q Qnew Qbody c0 l Tidy). Qed.
    Lemma serialization_acts t : usable_endpoint l t e_shells = true -> setup_acts t Inst (setup_serialization show repr).
    Proof. intros U. setup_acts (a_setup_serialization show repr Q Qnew Qbody c0 l Tidy). Qed.
    Lemma elements_acts t : usable_endpoint l t e_elements = true -> setup_acts t Inst (setup_elements show repr).
    Proof. intros U. setup_acts (a_setup_elements show repr Q Qnew Qbody c0 l Tidy). Qed.
    Lemma cursor_acts t o : usable_op l t o = true -> setup_acts t Inst (setup_cursor show repr o).
    Proof. intros U c i (B1 & B2 & B3 & B4) I. apply (a_setup_cursor show repr Q Qnew Qbody c0 l Tidy c t B1 B2 B3 B4 o i I U). Qed.

    Ltac tests U := let c := fresh "c" in let B1 := fresh "B" in let B2 := fresh "B" in let B3 := fresh "B" in let B4 := fresh "B" in
      intros c (B1 & B2 & B3 & B4); repeat lazymatch goal with
      | |- Forall _ [] => apply Forall_nil
      | |- Forall (ActsTest _ _ _ (Asset _)) (pagination _ _ _) => apply Forall_impl with (P := ActsTest Q c0 l (Inst c)); [intros x; apply test_weak; intros i A; apply A|]
      | |- ActsTest _ _ _ (Asset _) (t_filter_by_idshort _ _ _ _) => apply test_weak with (V := Inst c); [intros i A; apply A|]
      | |- Forall _ (t_levels _ _ _ _) => apply (a_levels show repr Q Qnew Qbody c0 l Tidy c _ B1 B2 B3 B4 _ U)
      | |- Forall _ (t_elements _ _ _) => apply (a_elements show repr Q Qnew Qbody c0 l Tidy c _ B1 B2 B3 B4 _ U)
      | |- Forall _ (pagination _ _ _) => apply (a_paged show repr Q Qnew Qbody c0 l Tidy c _ B1 B2 B3 B4 _ U)
      | |- Forall _ (t_shells _ _ _) => apply (a_shells show repr Q Qnew Qbody c0 l Tidy c _ B1 B2 B3 B4 _ U)
      | |- Forall _ (_ :: _) => apply Forall_cons
      | |- Forall _ (_ ++ _) => apply Forall_app; split
      | |- ActsTest _ _ _ _ (t_invoke _ _ _ _ _) => apply (a_invoke show repr Q Qnew Qbody c0 l Tidy c _ B1 B2 B3 B4 _ U)
      | |- ActsTest _ _ _ _ (t_filter_by_idshort _ _ _ _) => apply (a_filter show repr Q Qnew Qbody c0 l Tidy c _ B1 B2 B3 B4 _ U)
      | |- ActsTest _ _ _ _ (t_by_id _ _ _ _ _ _) => apply (a_by_id show repr Q Qnew Qbody c0 l Tidy c _ B1 B2 B3 B4 _ U)
      | |- ActsTest _ _ _ _ (t_file _ _ _) => apply (a_file show repr Q Qnew Qbody c0 l Tidy c _ B1 B2 B3 B4 _ U)
      | |- ActsTest _ _ _ _ (t_types _ _ _ _ _ _) => apply (a_types show repr Q Qnew Qbody c0 l Tidy c _ B1 B2 B3 B4 _ U)
      | |- fits [] => apply Forall_nil
      | |- In _ _ => first [left; reflexivity|right; left; reflexivity]
      end.
    Ltac fit := repeat lazymatch goal with
      | |- fits [] => apply Forall_nil
      | |- fits (level_extent _ _) => unfold level_extent
      | |- fits (_ :: _) => apply Forall_cons; cbn [fst snd]
      | |- Forall _ [] => apply Forall_nil
      | |- Forall _ (_ :: _) => apply Forall_cons; cbn [fst snd]
      | |- Fit (lit "level") _ => apply Fit_level; cbn; auto
      | |- Fit (lit "extent") _ => apply Fit_extent; cbn; auto
      end.
    Ltac entry K U S := eapply acts_of with (W := K); [eassumption|exact U|wrong|first [right; reflexivity|left; reflexivity]|first [left; reflexivity|right; reflexivity]|S|tests U].

    Lemma usable_endpoint_of t o : usable_op l t o = true -> usable_endpoint l t (o_endpoint o) = true.
    Proof. intros U. apply andb_prop in U. apply U. Qed.
    Definition element_ops : list op :=
      [o_elements; o_elements_meta; leveled_op "GetAllSubmodelElements-ValueOnly" "/submodel-elements/$value" k_AllElementsValueOnly; o_elements_refs;
       leveled_op "GetAllSubmodelElements-Path" "/submodel-elements/$path" k_AllElementsPath; o_element; o_element_meta; o_element_value; o_element_ref;
       o_element_path; o_file].
    Lemma elements_entries p t : prefix_acts p t -> forallb (usable_op l t) element_ops = true -> Forall acts_entry (elements_suites show repr p).
    Proof.
      intros P U. cbn [forallb element_ops] in U.
      apply andb_prop in U; destruct U as [U1 U]. apply andb_prop in U; destruct U as [U2 U]. apply andb_prop in U; destruct U as [U3 U].
      apply andb_prop in U; destruct U as [U4 U]. apply andb_prop in U; destruct U as [U5 U]. apply andb_prop in U; destruct U as [U6 U].
      apply andb_prop in U; destruct U as [U7 U]. apply andb_prop in U; destruct U as [U8 U]. apply andb_prop in U; destruct U as [U9 U].
      apply andb_prop in U; destruct U as [U10 U]. apply andb_prop in U; destruct U as [U11 _].
      pose proof (usable_endpoint_of t _ U1) as UE. change (usable_endpoint l t e_elements = true) in UE.
      unfold elements_suites. repeat apply Forall_cons; [..|constructor].
      - entry Inst U1 ltac:(apply (cursor_acts t _ U1)); fit.
      - entry Inst U2 ltac:(apply (cursor_acts t _ U2)); fit.
      - entry Inst U3 ltac:(apply (cursor_acts t _ U3)); fit.
      - entry Inst U4 ltac:(apply (no_acts t)); fit.
      - entry Inst U5 ltac:(apply (cursor_acts t _ U5)); fit.
      - entry Inst U6 ltac:(apply (elements_acts t UE)); fit.
      - entry Inst U7 ltac:(apply (elements_acts t UE)); fit.
      - entry Inst U8 ltac:(apply (elements_acts t UE)); fit.
      - entry Inst U9 ltac:(apply (elements_acts t UE)); fit.
      - entry Inst U10 ltac:(apply (elements_acts t UE)); fit.
      - entry Inst U11 ltac:(apply (elements_acts t UE)); fit.
    Qed.
    Definition by_id_ops : list op :=
      [by_id_op "GetSubmodelById" "" [s_submodel_id; s_level; s_extent] [qe "level" "level"; qe "extent" "extent"] (Decoded (ACls k_Submodel)) (ACls k_Submodel);
       by_id_op "GetSubmodelById-Metadata" "/$metadata" [s_submodel_id] [] (Decoded (ACls k_Submodel)) (ACls k_Submodel);
       by_id_op "GetSubmodelById-Reference" "/$reference" [s_submodel_id] [] (Decoded (ACls k_Reference)) (ACls k_Reference);
       by_id_op "GetSubmodelById-ValueOnly" "/$value" [s_submodel_id; s_level; s_extent] [qe "level" "level"; qe "extent" "extent"] JsonOnly AAny;
       by_id_op "GetSubmodelById-Path" "/$path" [s_submodel_id; s_level] [qe "level" "level"] (Decoded (AList AStr)) (AList AStr)].
    Lemma by_id_entries p t setup : prefix_acts p t -> setup_acts t Inst setup -> forallb (usable_op l t) by_id_ops = true ->
      Forall acts_entry (by_id_suites show repr p setup).
    Proof.
      intros P S U. cbn [forallb by_id_ops] in U.
      apply andb_prop in U; destruct U as [U1 U]. apply andb_prop in U; destruct U as [U2 U]. apply andb_prop in U; destruct U as [U3 U].
      apply andb_prop in U; destruct U as [U4 U]. apply andb_prop in U; destruct U as [U5 _].
      unfold by_id_suites. repeat apply Forall_cons; [..|constructor].
      - entry Inst U1 ltac:(exact S).
      - entry Inst U2 ltac:(exact S).
      - entry Inst U3 ltac:(exact S).
      - entry Inst U4 ltac:(exact S).
      - entry Inst U5 ltac:(exact S).
    Qed.
    Definition shell_ops : list op :=
      [simple_op "GetAssetInformation" "/asset-information" (Decoded (ACls k_AssetInformation)) (ACls k_AssetInformation);
       simple_op "GetThumbnail" "/asset-information/thumbnail" Content ABytes; o_references].
    Lemma shell_entries p t : prefix_acts p t -> forallb (usable_op l t) shell_ops = true -> Forall acts_entry (shell_suites show repr p).
    Proof.
      intros P U. cbn [forallb shell_ops] in U.
      apply andb_prop in U; destruct U as [U1 U]. apply andb_prop in U; destruct U as [U2 U]. apply andb_prop in U; destruct U as [U3 _].
      pose proof (usable_endpoint_of t _ U3) as UE. change (usable_endpoint l t (paged_endpoint "/submodel-refs") = true) in UE.
      unfold shell_suites. repeat apply Forall_cons; [..|constructor].
      - entry Inst U1 ltac:(apply (no_acts t)).
      - entry Inst U2 ltac:(apply (no_acts t)).
      - entry Inst U3 ltac:(apply (references_acts t UE)).
    Qed.
    Lemma simple_entry p t o title : prefix_acts p t -> usable_op l t o = true -> o_sig o = [] -> acts_entry (p, simple_suite show repr o title).
    Proof. intros P U E. entry Inst U ltac:(apply (no_acts t)). change (Forall wrong_fits (o_sig o)). rewrite E. constructor. Qed.
    Lemma serialization_entry p t : prefix_acts p t -> usable_op l t o_serialization = true -> usable_endpoint l t e_shells = true ->
      acts_entry (p, GenerateSerialization show repr).
    Proof.
      intros P U UE. unfold GenerateSerialization. eapply acts_of with (W := Inst); [eassumption|exact U|cbn [o_sig o_serialization]; wrong|right; reflexivity|left; reflexivity|apply (serialization_acts t UE)|].
      intros c (B1 & B2 & B3 & B4). destruct (a_serialization show repr Q Qnew Qbody c0 l Tidy c _ B1 B2 B3 B4 _ U) as (S1 & S2 & S3 & S4).
      repeat (apply Forall_cons; [assumption|]). constructor.
    Qed.
    Lemma description_entry p t : prefix_acts p t -> usable_op l t o_description = true -> acts_entry (p, GetDescription show repr).
    Proof.
      intros P U. unfold GetDescription. eapply acts_of with (W := Inst); [eassumption|exact U|constructor|left; reflexivity|left; reflexivity|apply (no_acts t)|].
      intros c (B1 & B2 & B3 & B4). apply Forall_cons; [|constructor]. apply (a_description show repr Q Qnew Qbody c0 l Tidy c _ B1 B2 B3 B4 _ U).
    Qed.
    Lemma repository_entries t p : prefix_acts p t -> forallb (usable_op l t) [o_shells; o_shell_refs; o_shell; o_shell_ref] = true ->
      Forall acts_entry [(p, GetAllAas show repr); (p, GetAllAasRefs show repr); (p, GetAasById show repr); (p, GetAasByIdReference show repr)].
    Proof.
      intros P U. cbn [forallb] in U.
      apply andb_prop in U; destruct U as [U1 U]. apply andb_prop in U; destruct U as [U2 U]. apply andb_prop in U; destruct U as [U3 U].
      apply andb_prop in U; destruct U as [U4 _].
      pose proof (usable_endpoint_of t _ U1) as UE. change (usable_endpoint l t e_shells = true) in UE.
      repeat apply Forall_cons; [..|constructor].
      - entry Asset U1 ltac:(apply (all_shells_acts t UE)).
      - entry Asset U2 ltac:(apply (all_shells_acts t UE)).
      - entry Inst U3 ltac:(apply (valid_id_acts t UE)).
      - entry Inst U4 ltac:(apply (valid_id_acts t UE)).
    Qed.
    Lemma all_submodels_entry p t o b : prefix_acts p t -> usable_op l t o = true -> usable_endpoint l t (paged_endpoint "/submodels") = true -> o_sig o = [s_limit; s_cursor] ->
      acts_entry (p, all_submodels_suite show repr o b).
    Proof.
      intros P U UE E. destruct b; unfold all_submodels_suite; entry Inst U ltac:(apply (submodels_acts t UE)); change (Forall wrong_fits (o_sig o)); rewrite E; wrong.
    Qed.

    (** ** The run *)
    Lemma server_acts dry : In address l -> Acts (check_server dry c0) any.
    Proof.
      intros A. unfold check_server. apply acts_bind with (V := any); [|intros [o r] _; exact I]. apply acts_block with (W := any); [apply Qnew| |constructor..].
      destruct dry; [apply acts_bind with (V := any); [apply acts_write; [apply Qnew|exact I]|intros _ _; exact I]|].
      apply acts_bind with (V := fun s => Request_to l c0 s).
      { apply acts_lift. intros s E. apply (asks_request l [] c0 c0 (Endpoint [] []) s Tidy); [|exact root_matches|reflexivity..|].
        - unfold usable_endpoint. cbn [path_args query_args e_path e_query forallb andb]. apply existsb_exists. exists address. split; [exact A|reflexivity].
        - exists [], [], (Request [] (lit "get") None [] []). split; [constructor|]. split; [intros n []|]. split; [reflexivity|exact E]. }
      intros s S. cbn [ActsFacts.Acts]. split; [exact S|]. intros [st ct d|e t]; [apply acts_bind with (V := any); [now apply acts_say|intros _ _; exact I]|].
      destruct e; try exact I. apply acts_bind with (V := any); [apply acts_write; [apply Qnew|exact I]|intros _ _; exact I].
    Qed.
    Lemma run_acts es conf : In address l -> Forall acts_entry es -> lookup (cf_suite conf) (available_suites show repr) = Some es ->
      Acts (execute_tests (available_suites show repr) c0 conf) (fun x => Q (fst x)).
    Proof.
      intros A E K. unfold execute_tests. rewrite K. apply acts_bind with (V := fun x => Q (snd x)); [|intros [o r] H; exact H].
      apply acts_block with (W := any); [apply Qnew| |auto|auto]. apply acts_bind with (V := any); [now apply server_acts|]. intros b _. destruct b; [|exact I].
      apply acts_bind with (V := any); [now apply acts_operations|]. intros m _. apply acts_bind with (V := any); [now apply acts_summary|]. intros _ _. exact I.
    Qed.
  End Suite.

  Definition table (x : list place * list place) : list place := address :: fst x ++ snd x.
  Lemma tables_tidy : Forall (fun x => tidy (table (snd x))) published.
  Proof. repeat (apply Forall_cons; [unfold tidy; apply Forall_forall; intros pl I; revert pl I; apply (proj1 (Forall_forall _ _)); vm_compute; repeat (apply Forall_cons; [reflexivity|]); apply Forall_nil|]). constructor. Qed.
  Ltac side := lazymatch goal with
    | |- prefix_acts _ _ no_prefix _ => apply fixed_acts
    | |- prefix_acts _ _ aas_prefix _ => apply fixed_acts
    | |- prefix_acts _ _ submodel_prefix _ => apply fixed_acts
    | |- prefix_acts _ _ (aas_repo_prefix _ _) _ => apply aas_repo_acts; side
    | |- prefix_acts _ _ (aas_repo_submodel_prefix _ _) _ => apply aas_repo_submodel_acts; side
    | |- prefix_acts _ _ (submodel_repo_submodel_prefix _ _) _ => apply submodel_repo_acts; side
    | |- prefix_acts _ _ (aas_submodel_prefix _ _) _ => apply aas_submodel_acts; side
    | |- setup_acts _ _ _ _ (setup_for_aas _ _) => apply for_aas_acts; side
    | |- setup_acts _ _ _ _ (setup_for_submodel _ _) => apply for_submodel_acts; side
    | |- _ = true => vm_compute; reflexivity
    | |- o_sig _ = _ => reflexivity
    | |- _ => assumption
    end.
  Ltac suites := repeat lazymatch goal with
    | |- Forall _ [] => apply Forall_nil
    | |- Forall _ (_ ++ _) => apply Forall_app; split
    | |- Forall _ (elements_suites _ _ _) => eapply elements_entries; side
    | |- Forall _ (by_id_suites _ _ _ _) => eapply by_id_entries; side
    | |- Forall _ (shell_suites _ _ _) => eapply shell_entries; side
    | |- Forall _ (_ :: _) => apply Forall_cons
    | |- acts_entry _ _ _ (_, GenerateSerialization _ _) => eapply serialization_entry; side
    | |- acts_entry _ _ _ (_, GetDescription _ _) => eapply description_entry; side
    | |- acts_entry _ _ _ (_, GetAllSubmodels _ _) => eapply all_submodels_entry; side
    | |- acts_entry _ _ _ (_, GetAllSubmodelsMetadata _ _) => eapply all_submodels_entry; side
    | |- acts_entry _ _ _ (_, GetAllSubmodelsValue _ _) => eapply all_submodels_entry; side
    | |- acts_entry _ _ _ (_, GetAllSubmodelsReference _ _) => eapply all_submodels_entry; side
    | |- acts_entry _ _ _ (_, GetAllSubmodelsPath _ _) => eapply all_submodels_entry; side
    | |- acts_entry _ _ _ _ => eapply simple_entry; side
    end.
  Lemma suites_act c0 : prefixes c0 = [] -> Forall2 (fun x y => fst x = fst y /\ Forall (acts_entry Q c0 (table (snd y))) (snd x)) (available_suites show repr) published.
  Proof.
    intros C0. pose proof tables_tidy as T. unfold available_suites, published in *.
    apply Forall_cons_iff in T as [T1 T]. apply Forall_cons_iff in T as [T2 T]. apply Forall_cons_iff in T as [T3 T]. apply Forall_cons_iff in T as [T4 _].
    cbn [snd] in T1, T2, T3, T4. repeat apply Forall2_cons; [..|constructor]; (split; [reflexivity|]); cbn [snd].
    - apply Forall_app; split; [eapply repository_entries; side|]. suites.
    - suites.
    - suites.
    - suites.
  Qed.
End Messages.
