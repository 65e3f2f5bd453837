(** The requests of the tests go to the endpoints of their suite, and every entry that is written belongs to a given class of
    reports: the programs of the suites. *)
From Coq Require Import PeanoNat String List NArith ZArith Bool Lia.
From Verif Require P_Http.
From Verif Require Import PyStr PyStrFacts PyBase PyVal Codec CodecSpec CodecFacts ResultModel ContextModel HttpModel ConfigModel ReflectModel MetaModel ParseModel
  ProgModel ProgSpec ProgFacts ApiModel ApiSpec ApiSuites ApiFacts ActsFacts RequestSpec RequestFacts.
Import ListNotations.
Local Open Scope list_scope.

(** ** A request to an endpoint *)
(** a request to an endpoint with admissible arguments *)
Definition Asks (c : client) (e : endpoint) (s : sent) : Prop :=
  exists hs a r, fits a /\ complete e a /\ request_of e hs a = Val r /\ send c r = Val s.
Definition usable_endpoint (l : list place) (t : template) (e : endpoint) : bool :=
  path_args e && query_args e && found l (t ++ template_of e) (names_of e).
Lemma asks_request l t c0 c e s : tidy l -> usable_endpoint l t e = true -> Matches t (List.concat (prefixes c)) ->
  host c = host c0 -> verify c = verify c0 -> remove_path_prefix c = remove_path_prefix c0 -> Asks c e s -> Request_to l c0 s.
Proof.
  intros T U M Hh Hv Hr (hs & a & r & Ft & C & R & S). unfold usable_endpoint in U. apply andb_prop in U. destruct U as [U FD]. apply andb_prop in U. destruct U as [PA QA].
  unfold request_of in R. destruct (path_of (e_path e) a) as [p|] eqn:P; [|discriminate]. cbn [obind] in R.
  destruct (query_of (e_query e) a) as [qs|] eqn:Q; [|discriminate]. cbn [obind] in R. injection R as <-.
  assert (MU : exists u, make_url (Request p (lit "get") None qs hs) = Val u).
  { unfold send in S. destruct (make_url (Request p (lit "get") None qs hs)); [eauto|discriminate]. }
  destruct MU as [u MU]. destruct (P_Http.C14_query_roundtrip _ _ MU) as (ps & K & K0 & K1). cbn [path query_parameters] in *.
  pose proof (path_matches e a p PA C Ft P) as MP. pose proof (queries_given e a qs ps QA Ft Q K) as GP.
  destruct (found_place l (t ++ template_of e) (names_of e) (List.concat (prefixes c) ++ p) T FD (matches_app _ _ _ _ M MP)) as (pl & I & MPL & N).
  destruct (P_Http.C18_rest_unchanged _ _ _ S) as (S1 & S2 & S3). cbn [method HttpModel.body] in *.
  unfold send in S. rewrite MU in S. cbn [obind] in S. injection S as <-. cbn [s_url] in *.
  exists (strip_host (host c)), (List.concat (prefixes c) ++ u), (remove_prefix (remove_path_prefix c) (List.concat (prefixes c) ++ u)).
  rewrite <- Hh, <- Hv, <- Hr. split.
  { destruct (strip_host_spec (host c)) as [(g & E & ->)|[E ->]]; [left; exact E|right; split; [reflexivity|exact E]]. }
  split.
  { exists pl, (List.concat (prefixes c) ++ p), ps. split; [exact I|]. split; [exact MPL|]. split.
    - apply Forall_forall. intros kv J. destruct (proj1 (Forall_forall _ _) GP kv J). auto.
    - destruct ps as [|x ps]; [left|right].
      + split; [reflexivity|]. now rewrite K0.
      + destruct K1 as (q & -> & PQ & _); [discriminate|]. exists q. split; [now rewrite app_assoc|exact PQ]. }
  split; [|split; [reflexivity|]; split; [exact S1|]; split; [exact S2|exact S3]].
  destruct (remove_prefix_spec (remove_path_prefix c) (List.concat (prefixes c) ++ u)) as [(E & Np)|(E & Pf)].
  - right. split; [|exact E]. intros (rest & X). apply Np. exists rest. exact X.
  - left. split; [|exact E]. eexists. split; [exact E|exact Pf].
Qed.

Section Messages.
  Variable show : json -> str.
  Variable repr : str -> str.
  Variable Q : result -> Prop.
  Hypothesis Qnew : forall m l, Q (new_result m l).
  Hypothesis Qbody : forall t j r x, check_body show repr t j = Val (r, x) -> Q r.
  Definition any {X} : X -> Prop := fun _ => True.

  Section Calls.
    Variable S : sent -> Prop.
    Notation Acts := (Acts Q S).
    Lemma acts_say m : Acts (say m) any.
    Proof. apply acts_write; [apply Qnew|exact I]. Qed.
    Lemma acts_assert b m l : Acts (assert_ b m l) any.
    Proof. destruct b; [apply acts_say|apply acts_abort, Qnew]. Qed.
    Lemma acts_invoke c r : (forall s, send c r = Val s -> S s) -> Acts (invoke c r) any.
    Proof.
      intros H. apply acts_bind with (V := any); [now apply acts_lift|]. intros u _. apply acts_bind with (V := any); [apply acts_say|]. intros _ _.
      apply acts_bind with (V := S); [now apply acts_lift|]. intros s Hs. cbn [ActsFacts.Acts]. split; [exact Hs|]. intros [st ct d|e t]; [|exact I].
      apply acts_bind with (V := any); [apply acts_say|]. intros _ _. exact I.
    Qed.
    Lemma acts_extract d : Acts (extract_json d) any.
    Proof. destruct d as [[]|]; cbn [extract_json]; try exact I; apply acts_abort, Qnew. Qed.
    Lemma acts_decode c e a t x : (forall hs r s, request_of e hs a = Val r -> send c r = Val s -> S s) -> Acts (invoke_and_decode show repr c e a t x) any.
    Proof.
      intros H. unfold invoke_and_decode. apply acts_bind with (V := fun r => forall s, send c r = Val s -> S s).
      { apply acts_lift. intros r E s. now apply (H _ _ s E). }
      intros r Hr. apply acts_bind with (V := any); [now apply acts_invoke|]. intros [st d] _. destruct (Z.leb 500 st); [apply acts_abort, Qnew|].
      destruct (negb (status_in st x)); [apply acts_abort, Qnew|]. apply acts_bind with (V := any); [apply acts_extract|]. intros j _.
      apply acts_bind with (V := fun x => Q (fst x)); [apply acts_lift; intros [r' y] E; now apply Qbody in E|]. intros [r' y] E. cbn [fst] in E.
      destruct (ok r'); [|now apply acts_abort]. apply acts_bind with (V := any); [now apply acts_write|]. intros _ _. exact I.
    Qed.
    Lemma acts_content c e a : (forall hs r s, request_of e hs a = Val r -> send c r = Val s -> S s) -> Acts (invoke_content c e a) any.
    Proof.
      intros H. unfold invoke_content. apply acts_bind with (V := fun r => forall s, send c r = Val s -> S s).
      { apply acts_lift. intros r E s. now apply (H _ _ s E). }
      intros r Hr. apply acts_bind with (V := any); [now apply acts_invoke|]. intros _ _. exact I.
    Qed.
    Lemma acts_json c e a : (forall hs r s, request_of e hs a = Val r -> send c r = Val s -> S s) -> Acts (invoke_json c e a) any.
    Proof.
      intros H. unfold invoke_json. apply acts_bind with (V := fun r => forall s, send c r = Val s -> S s).
      { apply acts_lift. intros r E s. now apply (H _ _ s E). }
      intros r Hr. apply acts_bind with (V := any); [now apply acts_invoke|]. intros [st d] _. apply acts_bind with (V := any); [apply acts_extract|]. intros _ _. exact I.
    Qed.
  End Calls.

  (** ** One suite: the client, the path that precedes all its requests, the places it may use *)
  Section Suite.
    Variable c0 : client.
    Variable l : list place.
    Hypothesis Tidy : tidy l.
    Notation Acts := (Acts Q (Request_to l c0)).

    Section Client.
      Variable c : client.
      Variable t : template.
      Hypothesis M : Matches t (List.concat (prefixes c)).
      Hypothesis Hh : host c = host c0.
      Hypothesis Hv : verify c = verify c0.
      Hypothesis Hr : remove_path_prefix c = remove_path_prefix c0.

      Lemma endpoint_request e a : usable_endpoint l t e = true -> fits a -> complete e a ->
        forall hs r s, request_of e hs a = Val r -> send c r = Val s -> Request_to l c0 s.
      Proof. intros U Ft C hs r s R S. apply (asks_request l t c0 c e s Tidy U M Hh Hv Hr). exists hs, a, r. auto. Qed.
      Lemma limit1_fits : fits limit1.
      Proof. repeat constructor. Qed.
      Lemma acts_shells : usable_endpoint l t e_shells = true -> Acts (get_all_shells show repr c limit1) any.
      Proof. intros U. apply acts_decode. apply endpoint_request; [exact U|apply limit1_fits|]. intros n [E|[]]. discriminate. Qed.
      Lemma acts_shell : usable_endpoint l t (Endpoint [Text (lit "/")] []) = true -> Acts (get_shell show repr c) any.
      Proof. intros U. apply acts_decode. apply endpoint_request; [exact U|constructor|]. intros n [E|[]]. discriminate. Qed.
      Lemma acts_references : usable_endpoint l t (paged_endpoint "/submodel-refs") = true -> Acts (get_all_submodel_references show repr c limit1) any.
      Proof. intros U. apply acts_decode. apply endpoint_request; [exact U|apply limit1_fits|]. intros n [E|[]]. discriminate. Qed.
      Lemma acts_submodels : usable_endpoint l t (paged_endpoint "/submodels") = true -> Acts (get_all_submodels show repr c limit1) any.
      Proof. intros U. apply acts_decode. apply endpoint_request; [exact U|apply limit1_fits|]. intros n [E|[]]. discriminate. Qed.
      Lemma acts_elements : usable_endpoint l t e_elements = true -> Acts (get_all_submodel_elements show repr c []) any.
      Proof. intros U. apply acts_decode. apply endpoint_request; [exact U|constructor|]. intros n [E|[]]. discriminate. Qed.

      (** operations *)
      Definition path_given (o : op) : bool :=
        forallb (fun p => match p with Text _ => true | Arg n => existsb (fun x => str_eqb n (fst x) && negb (has_default (snd x))) (o_sig o) end) (e_path (o_endpoint o)).
      Definition usable_op (o : op) : bool := usable_endpoint l t (o_endpoint o) && path_given o.
      Lemma accepted_complete o a : path_given o = true -> accepts (o_sig o) a = true -> complete (o_endpoint o) a.
      Proof.
        intros P A n I. apply andb_prop in A. destruct A as [_ A]. pose proof (proj1 (forallb_forall _ _) P _ I) as E. cbn in E.
        apply existsb_exists in E. destruct E as ([m b] & J & E). cbn [fst snd] in E. apply andb_prop in E. destruct E as [E D]. apply str_eqb_spec in E. subst m.
        pose proof (proj1 (forallb_forall _ _) A _ J) as G. cbn [fst snd] in G. apply negb_true_iff in D. rewrite D in G. cbn [orb] in G. now apply lookup_given.
      Qed.
      Lemma acts_success o i a : usable_op o = true -> i_client i = c -> fits a -> Acts (invoke_success show repr o i a) any.
      Proof.
        intros U E Ft. apply andb_prop in U. destruct U as [U P]. unfold invoke_success, call. destruct (accepts (o_sig o) a) eqn:A; [|exact I]. rewrite E.
        pose proof (endpoint_request (o_endpoint o) a U Ft (accepted_complete o a P A)) as H.
        destruct (o_handling o); [now apply acts_decode|now apply acts_content|now apply acts_json].
      Qed.
      Lemma acts_error o i a : usable_op o = true -> i_client i = c -> fits a -> Acts (invoke_error show repr o i a) any.
      Proof.
        intros U E Ft. apply andb_prop in U. destruct U as [U P]. unfold invoke_error, call. destruct (accepts (o_sig o) a) eqn:A; [|exact I]. rewrite E.
        apply acts_decode. apply (endpoint_request (o_endpoint o) a U Ft (accepted_complete o a P A)).
      Qed.
      Lemma acts_cannot_fail i a : Acts (cannot_fail i a) any.
      Proof. unfold cannot_fail, call. destruct (accepts [] a); exact I. Qed.

      (** ** Setups *)
      Definition Inst (i : instance) : Prop := i_client i = c /\ fits (i_valid_arguments i).
      Definition Asset (i : instance) : Prop := Inst i /\ Fit (lit "asset_id") (i_asset_id i).
      Ltac instances := repeat match goal with
        | H : obind ?o _ = Val _ |- _ => let E := fresh in destruct o eqn:E; cbn [obind] in H; [|discriminate H]
        | H : Val _ = Val _ |- _ => injection H as <-
        end.
      Ltac setup_tac H := apply acts_bind with (V := any); [apply H; assumption|]; intros ? _; apply acts_lift; intros j E; instances.
      Lemma a_no_setup i : Inst i -> Acts (no_setup i) Inst.
      Proof. auto. Qed.
      Lemma a_setup_all_shells i : Inst i -> usable_endpoint l t e_shells = true -> Acts (setup_all_shells show repr i) Asset.
      Proof.
        intros [C Ft] U. unfold setup_all_shells. rewrite C. apply acts_bind with (V := any); [now apply acts_shells|]. intros r _. apply acts_lift. intros j E.
        destruct (first_result r) as [s|]; [|discriminate]. cbn [obind] in E. destruct (get s "id_short"); [|discriminate]. cbn [obind] in E.
        destruct (raw_value _); [|discriminate]. cbn [obind] in E. destruct (get s "asset_information") as [inf|]; [|discriminate]. cbn [obind] in E.
        destruct (get inf "global_asset_id") as [g|]; [|discriminate]. cbn [obind] in E. destruct (raw_value g) as [gl|]; [|discriminate]. cbn [obind] in E.
        match type of E with obind ?o _ = _ => assert (X : forall v, o = Val v -> Fit (lit "asset_id") v); [|destruct o as [v|]; [|discriminate]; specialize (X v eq_refl)] end.
        { intros v. destruct gl as [|x gl]; [|intros [= <-]; constructor]. intros X. instances. constructor. }
        cbn [obind] in E. destruct (cursor_of r); [|discriminate]. injection E as <-. split; [split; [first [exact C|reflexivity]|exact Ft]|exact X].
      Qed.
      Lemma a_setup_valid_id i : Inst i -> usable_endpoint l t e_shells = true -> Acts (setup_valid_id show repr i) Inst.
      Proof.
        intros [C Ft] U. unfold setup_valid_id. rewrite C. apply acts_bind with (V := any); [now apply acts_shells|]. intros r _. apply acts_lift. intros j E.
        instances. split; [first [exact C|reflexivity]|exact Ft].
      Qed.
      Lemma a_setup_references i : Inst i -> usable_endpoint l t (paged_endpoint "/submodel-refs") = true -> Acts (setup_references show repr i) Inst.
      Proof.
        intros [C Ft] U. unfold setup_references. rewrite C. apply acts_bind with (V := any); [now apply acts_references|]. intros r _. apply acts_lift. intros j E.
        instances. split; [first [exact C|reflexivity]|exact Ft].
      Qed.
      Lemma a_setup_submodels i : Inst i -> usable_endpoint l t (paged_endpoint "/submodels") = true -> Acts (setup_submodels show repr i) Inst.
      Proof.
        intros [C Ft] U. unfold setup_submodels. rewrite C. apply acts_bind with (V := any); [now apply acts_submodels|]. intros r _. apply acts_lift. intros j E.
        instances. split; [first [exact C|reflexivity]|exact Ft].
      Qed.
      Lemma a_setup_cursor o i : Inst i -> usable_op o = true -> Acts (setup_cursor show repr o i) Inst.
      Proof.
        intros [C Ft] U. unfold setup_cursor. apply acts_bind with (V := any); [apply acts_success; [exact U|exact C|apply limit1_fits]|]. intros r _. apply acts_lift. intros j E.
        instances. split; [first [exact C|reflexivity]|exact Ft].
      Qed.
      Lemma base64_fit n raw v : In n [lit "aas_id"; lit "submodel_id"] -> base64_string raw = Val v -> Fit n v.
      Proof. intros N. unfold base64_string. destruct (sfv_construct _ raw); [|discriminate..]. intros [= <-]. now apply Fit_id. Qed.
      Lemma a_setup_for_aas i : Inst i -> usable_endpoint l t (paged_endpoint "/submodel-refs") = true -> Acts (setup_for_aas show repr i) Inst.
      Proof.
        intros [C Ft] U. unfold setup_for_aas. rewrite C. apply acts_bind with (V := any); [now apply acts_references|]. intros r _. apply acts_lift. intros j E.
        instances. split; [first [exact C|reflexivity]|]. apply assign_fits; [|exact Ft]. eapply base64_fit; [right; left; reflexivity|eassumption].
      Qed.
      Lemma a_setup_for_submodel i : Inst i -> usable_endpoint l t (paged_endpoint "/submodels") = true -> Acts (setup_for_submodel show repr i) Inst.
      Proof.
        intros [C Ft] U. unfold setup_for_submodel. rewrite C. apply acts_bind with (V := any); [now apply acts_submodels|]. intros r _. apply acts_lift. intros j E.
        instances. split; [first [exact C|reflexivity]|]. apply assign_fits; [|exact Ft]. eapply base64_fit; [right; left; reflexivity|eassumption].
      Qed.
      Lemma a_setup_serialization i : Inst i -> usable_endpoint l t e_shells = true -> Acts (setup_serialization show repr i) Inst.
      Proof.
        intros [C Ft] U. unfold setup_serialization. rewrite C. apply acts_bind with (V := any); [now apply acts_shells|]. intros r _. apply acts_lift. intros j E.
        instances. split; [first [exact C|reflexivity]|exact Ft].
      Qed.
      Lemma a_setup_elements i : Inst i -> usable_endpoint l t e_elements = true -> Acts (setup_elements show repr i) Inst.
      Proof.
        intros [C Ft] U. unfold setup_elements. rewrite C. apply acts_bind with (V := any); [now apply acts_elements|]. intros r _. apply acts_lift. intros j E.
        instances. split; [first [exact C|reflexivity]|]. apply assign_fits; [apply Fit_path|exact Ft].
      Qed.

      (** ** Tests *)
      Section Tests.
        Variable o : op.
        Hypothesis U : usable_op o = true.
        Definition ActsTest (W : instance -> Prop) (x : test) : Prop := forall i, W i -> Acts (snd x i) any.
        Lemma test_weak (V W : instance -> Prop) x : (forall i, W i -> V i) -> ActsTest V x -> ActsTest W x.
        Proof. intros H A i Wi. now apply A, H. Qed.
        Ltac step := first
          [ apply acts_bind with (V := any); [|intros ? _] | apply acts_success; [exact U|assumption|] | now apply acts_lift | apply acts_assert | exact I
          | apply acts_abort, Qnew ].
        Lemma a_invoke title args : fits args -> ActsTest Inst (t_invoke show repr o title args).
        Proof. intros Ft i [C _]. unfold t_invoke. cbn [snd]. repeat step. exact Ft. Qed.
        Lemma more_fits i : Inst i -> fits (limit1 ++ i_valid_arguments i).
        Proof. intros [_ H]. apply Forall_app. split; [apply limit1_fits|exact H]. Qed.
        Lemma a_get_one : ActsTest Inst (t_get_one show repr o).
        Proof. intros i J. destruct (J) as [C _]. unfold t_get_one. cbn [snd]. repeat step. now apply more_fits. Qed.
        Lemma a_pagination : ActsTest Inst (t_pagination show repr o).
        Proof. intros i J. destruct (J) as [C _]. unfold t_pagination. cbn [snd]. destruct (i_cursor i); repeat step. now apply more_fits. Qed.
        Lemma a_paged : Forall (ActsTest Inst) (pagination show repr o).
        Proof. constructor; [apply a_get_one|]. constructor; [apply a_pagination|constructor]. Qed.
        Lemma a_shells : Forall (ActsTest Asset) (t_shells show repr o).
        Proof.
          unfold t_shells. constructor; [apply test_weak with (V := Inst); [intros i A; apply A|]; apply a_invoke; constructor|].
          constructor; [|constructor; [|constructor]]; intros i [[C _] A]; cbn [snd]; repeat step; repeat constructor; exact A.
        Qed.
        Lemma a_filter b : ActsTest Inst (t_filter_by_idshort show repr o b).
        Proof. intros i [C _]. unfold t_filter_by_idshort. cbn [snd]. repeat step; [repeat constructor|]. destruct b; repeat step. Qed.
        Lemma a_by_id title arg check : In (lit arg) [lit "aas_id"; lit "submodel_id"] -> ActsTest Inst (t_by_id show repr o title arg check).
        Proof.
          intros N i [C _]. unfold t_by_id. cbn [snd]. apply acts_bind with (V := Fit (lit arg)).
          { apply acts_lift. intros v E. now apply (base64_fit _ _ _ N) in E. }
          intros v Fv. repeat step; [constructor; [exact Fv|constructor]|]. destruct check as [[f m]|]; repeat step.
        Qed.
        Lemma types_acts supported kw i : fits kw -> i_client i = c -> forall ts, Acts (check_types show repr o supported kw ts i) any.
        Proof.
          intros Ft C. induction ts as [|x ts IH]; [exact I|]. cbn [check_types]. apply acts_bind with (V := any); [|intros _ _; exact IH].
          apply acts_block with (W := any); [apply Qnew| |constructor..].
          destruct (lookup (lit x) (i_paths i)) as [ps|]; [|apply acts_abort, Qnew]. apply acts_bind with (V := any); [now apply acts_lift|]. intros p _.
          assert (G : fits ((lit "id_short_path", VlStr p) :: kw)) by (constructor; [apply Fit_path|exact Ft]).
          destruct (existsb (String.eqb x) supported); [now apply acts_success|now apply acts_error].
        Qed.
        Lemma a_types supported title kw : fits kw -> ActsTest Inst (t_types show repr o supported title kw).
        Proof. intros Ft i [C _]. now apply types_acts. Qed.
        Lemma a_levels supported : Forall (ActsTest Inst) (t_levels show repr o supported).
        Proof.
          unfold t_levels. repeat (constructor; [apply a_types; constructor; [apply Fit_level; cbn; auto|constructor; [apply Fit_extent; cbn; auto|constructor]]|]). constructor.
        Qed.
        Lemma a_elements : Forall (ActsTest Inst) (t_elements show repr o).
        Proof. unfold t_elements. repeat (constructor; [apply a_invoke; repeat (constructor; [apply Fit_level; cbn; auto|]); constructor|]). constructor. Qed.
        Lemma a_file : ActsTest Inst (t_file show repr o).
        Proof.
          intros i [C _]. unfold t_file. cbn [snd]. destruct (lookup (lit "File") (i_paths i)) as [[|p ps]|]; repeat step. constructor; [apply Fit_path|constructor].
        Qed.
        Lemma a_serialization : ActsTest Inst (t_invoke show repr o (doc "Invoke without parameters") []) /\
          ActsTest Inst (doc "Filter by aas ids", fun i => invoke_success show repr o i [(lit "aas_id", VlBase64 (i_valid_id i))];; PRet tt) /\
          ActsTest Inst (doc "Filter by submodel ids", fun i => invoke_success show repr o i [(lit "submodel_id", VlBase64 (i_valid_submod_id i))];; PRet tt) /\
          ActsTest Inst (doc "Invoke with includeConceptDescriptions",
            fun i => let! r := invoke_success show repr o i [(lit "include_concept_descriptions", VlBool true)] in
                     let! x := lift (get r "concept_descriptions") in
                     assert_ (negb (is_none x)) (lit "contains conceptDescriptions") WARNING).
        Proof.
          split; [apply a_invoke; constructor|]. split; [|split]; intros i [C _]; cbn [snd]; repeat step; (constructor; [|constructor]); cbn [fst snd].
          - apply Fit_id; cbn; auto.
          - apply Fit_id; cbn; auto.
          - apply Fit_descriptions; cbn; auto.
        Qed.
        Lemma a_description : ActsTest Inst (doc "Returned profiles must contain suite",
        fun i => let! r := invoke_success show repr o i [] in
                 let! l := lift (let* p := get r "profiles" in as_items p) in
                 assert_ (existsb (fun x => match x with VStr s => str_eqb (i_profile i) s | _ => false end) l)
                         (lit "Contains " ++ i_profile i) WARNING).
        Proof. intros i [C _]. cbn [snd]. repeat step. constructor. Qed.
      End Tests.

      (** ** Negative tests *)
      Definition wrong_fits (p : str * ann) : Prop := forall vs, generate_invalid_values (fst p) (strip_optional (snd p)) = Val vs -> Forall (Fit (fst p)) vs.
      Lemma acts_generate_for f valid n : (forall a, fits a -> Acts (f a) any) -> fits valid -> forall vs, Forall (Fit n) vs -> Acts (generate_for f valid n vs) any.
      Proof.
        intros Hf Hv'. induction 1 as [|v vs Fv H IH]; [exact I|]. cbn [generate_for]. apply acts_bind with (V := any); [now apply acts_lift|]. intros x _.
        apply acts_bind with (V := any); [|intros _ _; exact IH]. apply acts_block with (W := any); [apply Qnew| |constructor..].
        apply acts_rename. apply Hf. now apply assign_fits.
      Qed.
      Lemma acts_generate f valid s : (forall a, fits a -> Acts (f a) any) -> fits valid -> Forall wrong_fits s ->
        Acts (generate_calls f valid (List.map (fun p => FArg (fst p) (strip_optional (snd p)) (negb (has_default (snd p)))) s)) any.
      Proof.
        intros Hf Hv'. induction 1 as [|p s W H IH]; [exact I|]. cbn [List.map generate_calls fa_name fa_type]. apply acts_bind with (V := Forall (Fit (fst p))).
        { apply acts_lift. exact W. }
        intros vs Fv. apply acts_bind with (V := any); [now apply acts_generate_for|]. intros _ _. exact IH.
      Qed.
      Definition acts_suite (s : suite) (W : instance -> Prop) : Prop :=
        Forall wrong_fits (su_signature s) /\ (forall i a, W i -> fits a -> Acts (su_invoke_error s i a) any) /\
        (forall i, W i -> fits (i_valid_arguments i)) /\ (forall i, Inst i -> Acts (su_setup s i) W) /\ Forall (ActsTest W) (su_tests s).
      Lemma acts_execute s W i : acts_suite s W -> W i -> Acts (execute_suite s i) any.
      Proof.
        intros (N & Er & Va & _ & T) Wi. unfold execute_suite. apply acts_bind with (V := any).
        { apply acts_block with (W := any); [apply Qnew| |constructor..]. unfold execute_syntactic_tests. apply acts_bind with (V := fun f => reflect_function (su_signature s) (ACls k_ErrorResult) = Val f).
          { apply acts_lift. auto. }
          intros f Ef. apply acts_bind with (V := any); [now apply acts_lift|]. intros g _. destruct (fargs_eqb f g); [|exact I].
          apply reflect_function_shape in Ef. subst f. apply acts_generate; [intros a; now apply Er|now apply Va|exact N]. }
        intros [on n] _. apply acts_bind with (V := any).
        { apply acts_block with (W := any); [apply Qnew| |constructor..]. induction T as [|[title b] ts H T IH]; [exact I|]. cbn [execute_tests_of].
          apply acts_bind with (V := any); [|intros _ _; exact IH]. apply acts_block with (W := any); [apply Qnew|now apply (H i)|constructor..]. }
        intros [op p] _. exact I.
      Qed.
    End Client.

    (** ** Operations *)
    Definition acts_entry (e : entry) : Prop := exists t,
      Acts (fst e c0) (Matches t) /\ forall p, Matches t p -> exists W, acts_suite (descend c0 p) (snd e) W.
    Lemma inst_new c profile : Inst c (new_instance c profile).
    Proof. split; [reflexivity|constructor]. Qed.
    Lemma acts_operation dry profile e m : acts_entry e -> Acts (check_operation dry c0 profile e m) any.
    Proof.
      destruct e as [p s]. intros (t & P & H). cbn [fst snd] in *. unfold check_operation. apply acts_bind with (V := any); [|intros [o x] _; exact I].
      apply acts_block with (W := any); [apply Qnew| |constructor..]. destruct dry; [exact I|].
      set (G := fun i => exists pre W, acts_suite (descend c0 pre) s W /\ W i).
      apply acts_bind with (V := fun x => match fst x with Some i => G i | None => True end).
      { apply acts_block with (W := G); [apply Qnew| |cbn [fst]; auto|cbn [fst]; auto].
        apply acts_bind with (V := Matches t); [exact P|]. intros pre Mp. destruct (H pre Mp) as (W & A). destruct (A) as (_ & _ & _ & Se & _).
        apply acts_weak with (V := W); [|apply Se, inst_new]. intros i Wi. unfold G. eauto. }
      intros [[i|] x] J; cbn [fst] in J; destruct (ok x); try exact I. destruct J as (pre & W & A & Wi).
      apply acts_bind with (V := any); [|intros ? _; exact I]. eapply acts_execute; [exact A|exact Wi].
    Qed.
    Lemma acts_operations dry f profile : forall es m, Forall acts_entry es -> Acts (check_operations dry f c0 profile es m) any.
    Proof.
      induction es as [|e es IH]; intros m A; [exact I|]. cbn [check_operations]. pose proof (Forall_inv A). pose proof (Forall_inv_tail A).
      destruct (selected f (su_operation (snd e))); [|now apply IH]. apply acts_bind with (V := any); [now apply acts_operation|]. intros m' _. now apply IH.
    Qed.
    Lemma acts_summary m : Acts (summary m) any.
    Proof.
      unfold summary. apply acts_bind with (V := any); [|intros ? _; exact I]. apply acts_block with (W := any); [apply Qnew| |constructor..].
      apply acts_bind with (V := any); [apply acts_say|]. intros _ _. apply acts_say.
    Qed.
  End Suite.
End Messages.
