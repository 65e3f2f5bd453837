(** Answers to the calls of the test suites. *)
From Coq Require Import PeanoNat String List NArith ZArith Bool Lia.
From Verif Require Import PyStr PyStrFacts PyBase PyVal Codec ResultModel ResultFacts ContextModel HttpModel ConfigModel ReflectModel MetaModel
  AdapterModel ParseModel ConstraintModel ProgModel ProgSpec ProgFacts ParseSpec ApiModel ApiSpec ApiSuites ApiFacts ApiBody ApiTables.
Import ListNotations.
Local Open Scope nat_scope.
Local Open Scope list_scope.
Local Opaque api_classes model_classes.

(** ** Bodies *)
Lemma bodies_checked : forallb checkb bodies = true.
Proof. vm_compute. reflexivity. Qed.

Section Messages.
  Variable show : json -> str.
  Variable repr : str -> str.

  Lemma body_check a b j : In (a, b) bodies -> exists x fs,
    check_body show repr a j = parse_and_check check_model (Val (x, fs)) /\ (fs = [] <-> BodyOk b j) /\ (quiet b = true -> Calm x) /\ (fs = [] -> Bears b j x).
  Proof.
    intros I. pose proof (proj1 (forallb_forall _ _) bodies_checked _ I) as C. unfold checkb in C. cbn [fst snd] in C.
    unfold check_body. destruct (reflect api_classes api_globals a) as [[i T]|]; [|discriminate]. cbn [obind].
    apply andb_prop in C. destruct C as [C Cb]. apply andb_prop in C. destruct C as [Cs Cr].
    destruct (body_correct T _ _ show repr Cs Cr (S (json_depth j)) b i [] j [] Cb (Nat.lt_succ_diag_r _)) as (x & fs & E & F & Q).
    exists x, fs. cbn [app] in E. rewrite E. auto.
  Qed.

  Lemma findings_ok fs : forallb ok (List.map finding_result fs) = match fs with [] => true | _ => false end.
  Proof. destruct fs as [|[p f] fs]; [reflexivity|]. reflexivity. Qed.

  Lemma check_ok a b j r x : In (a, b) bodies -> check_body show repr a j = Val (r, x) -> ok r = true -> BodyOk b j.
  Proof.
    intros I E O. destruct (body_check a b j I) as (y & fs & E' & F & _). rewrite E' in E. unfold parse_and_check in E. cbn [obind] in E.
    rewrite ok_append in E. unfold check_meta_model in E. rewrite ok_appends, findings_ok in E. destruct fs; [now apply F|].
    change (ok (new_result (lit "Check") INFO)) with true in E. change (ok (new_result (lit "Check meta model") INFO)) with true in E.
    cbn [andb] in E. match type of E with Val (?q, _) = _ => assert (E2 : q = r) by congruence end. rewrite <- E2 in O.
    rewrite !ok_append, ok_appends, findings_ok in O. now rewrite !andb_false_r in O.
  Qed.
  Lemma check_bears a b j r x : In (a, b) bodies -> check_body show repr a j = Val (r, x) -> ok r = true -> Bears b j x.
  Proof.
    intros I E O. destruct (body_check a b j I) as (y & fs & E' & F & _ & H). rewrite E' in E.
    assert (Z : fs = []). { apply F. apply (check_ok a b j r x I); [now rewrite E'|exact O]. }
    specialize (H Z). subst fs. unfold parse_and_check in E. cbn [obind List.map] in E.
    replace (ok (append _ (check_meta_model []))) with true in E by reflexivity. destruct (check_model y); [|discriminate]. cbn [obind] in E.
    assert (y = x) by congruence. now subst.
  Qed.
  Lemma error_check j : exists r x, check_body show repr (ACls k_ErrorResult) j = Val (r, x) /\ (ok r = true <-> BodyOk error_body j).
  Proof.
    destruct (body_check (ACls k_ErrorResult) error_body j (or_introl eq_refl)) as (y & fs & E & F & Q & _).
    specialize (Q eq_refl). destruct Q as [Q _]. rewrite E. unfold parse_and_check. cbn [obind]. rewrite ok_append.
    unfold check_meta_model. rewrite ok_appends, findings_ok.
    change (ok (new_result (lit "Check") INFO)) with true. change (ok (new_result (lit "Check meta model") INFO)) with true.
    destruct fs as [|f fs]; cbn [andb].
    - unfold check_model. fold cc. rewrite Q. cbn [obind List.map]. eexists _, _. split; [reflexivity|].
      split; [intros _; now apply F|]. intros _. reflexivity.
    - eexists _, _. split; [reflexivity|]. split.
      + rewrite !ok_append, ok_appends, findings_ok, !andb_false_r. cbn [andb]. discriminate.
      + intros B. now apply F in B.
  Qed.

  (** ** Calls *)
  Lemma invoke_meaning c r srv h : exists s, meaning (invoke c r) srv h =
    match make_url r, send c r with
    | Val u, Val s' => match srv h s with
             | Failed e t => ([new_result (lit "Invoke " ++ List.concat (prefixes c) ++ u) INFO], Exc e t, h ++ [(s, srv h s)])
             | Response st ct d =>
                 ([new_result (lit "Invoke " ++ List.concat (prefixes c) ++ u) INFO;
                   new_result (lit "Response: (" ++ str_of_Z st ++ lit "): " ++ shorten ct) INFO], Ret (st, d), h ++ [(s, srv h s)])
             end
    | Raise e, _ => ([], Exc e [], h)
    | Val u, Raise e => ([new_result (lit "Invoke " ++ List.concat (prefixes c) ++ u) INFO], Exc e [], h)
    end.
  Proof.
    destruct (send c r) as [s|e] eqn:S.
    - exists s. unfold invoke. rewrite S. destruct (make_url r) as [u|e]; [|reflexivity].
      cbn [lift pbind say pwrite meaning]. destruct (srv h s); reflexivity.
    - exists (Sent [] [] None [] false). unfold invoke. rewrite S. destruct (make_url r) as [u|e']; reflexivity.
  Qed.

  Lemma decode_cases c e a t x srv h es k h1 : meaning (invoke_and_decode show repr c e a t x) srv h = (es, k, h1) ->
    (exists y z, k = Exc y z) \/
    exists s st ct d, h1 = h ++ [(s, srv h s)] /\ srv h s = Response st ct d /\
      ((passed es k = false /\ (500 <= st)%Z /\ exists b, k = Abort b /\ r_level b = CRITICAL) \/
       (passed es k = false /\ (st < 500)%Z /\
        (status_in st x = false \/ (forall j, d = Json j -> ~ container j) \/
         exists j r y, d = Json j /\ container j /\ check_body show repr t j = Val (r, y) /\ ok r = false)) \/
       (passed es k = true /\ (st < 500)%Z /\ status_in st x = true /\
        exists j r y, d = Json j /\ container j /\ check_body show repr t j = Val (r, y) /\ ok r = true /\ k = Ret y)).
  Proof.
    unfold invoke_and_decode. rewrite meaning_bind, meaning_lift.
    destruct (request_of e _ a) as [r|]; cbn [andthen]; [|intros [= <- <- <-]; left; eauto].
    rewrite meaning_bind. destruct (invoke_meaning c r srv h) as [s ->].
    destruct (make_url r) as [u|]; cbn [andthen]; [|intros [= <- <- <-]; left; eauto].
    destruct (send c r); cbn [andthen]; [|intros [= <- <- <-]; left; eauto].
    destruct (srv h s) as [st ct d|y z] eqn:R; cbn [andthen]; [|intros [= <- <- <-]; left; eauto].
    cbn [app]. destruct (Z.leb_spec 500 st) as [L|L].
    { cbn [meaning]. intros [= <- <- <-]. right. exists s, st, ct, d. rewrite R. split; [reflexivity|]. split; [reflexivity|]. left.
      split; [reflexivity|]. split; [exact L|]. eexists. split; reflexivity. }
    destruct (status_in st x) eqn:I; cbn [negb].
    2:{ cbn [meaning]. intros [= <- <- <-]. right. exists s, st, ct, d. rewrite R. split; [reflexivity|]. split; [reflexivity|]. right. left.
        split; [reflexivity|]. split; [exact L|]. now left. }
    rewrite meaning_bind.
    assert (J : (exists j, d = Json j /\ container j /\ extract_json d = PRet j) \/
                ((forall j, d = Json j -> ~ container j) /\ exists m, extract_json d = fail_with m)).
    { destruct d as [j|m]; [|right; split; [intros ? [=]|cbn; eauto]].
      destruct j; cbn; try (left; eexists; split; [reflexivity|]; split; [exact Logic.I|reflexivity]);
        (right; split; [intros ? [= <-] F; exact F|eauto]). }
    destruct J as [(j & -> & C & ->)|(N & m & ->)].
    2:{ cbn [fail_with meaning andthen]. intros [= <- <- <-]. right. exists s, st, ct, d. rewrite R. split; [reflexivity|]. split; [reflexivity|].
        right. left. split; [reflexivity|]. split; [exact L|]. right. now left. }
    cbn [meaning andthen]. rewrite meaning_bind, meaning_lift. destruct (check_body show repr t j) as [[q y]|] eqn:B; cbn [andthen].
    2:{ intros [= <- <- <-]. left. eauto. }
    destruct (ok q) eqn:O.
    - cbn [pbind pwrite meaning]. intros [= <- <- <-]. right. exists s, st, ct, (Json j). rewrite R. split; [reflexivity|]. split; [reflexivity|].
      right. right. split; [unfold passed; cbn [app forallb]; now rewrite O|]. split; [exact L|]. split; [exact I|].
      exists j, q, y. auto.
    - cbn [meaning]. intros [= <- <- <-]. right. exists s, st, ct, (Json j). rewrite R. split; [reflexivity|]. split; [reflexivity|].
      right. left. split; [unfold passed; cbn [app forallb]; now rewrite O|]. split; [exact L|]. right. right.
      exists j, q, y. auto.
  Qed.

  Lemma status_success st : status_in st Success = true -> st = 200%Z.
  Proof. apply Z.eqb_eq. Qed.
  Lemma status_client st : status_in st ClientError = true -> (400 <= st < 500)%Z.
  Proof. cbn [status_in]. intros E. apply andb_prop in E. destruct E as [A B]. apply Z.leb_le in A. apply Z.ltb_lt in B. lia. Qed.

  Lemma error_call c e a : NegCall (invoke_and_decode show repr c e a (ACls k_ErrorResult) ClientError).
  Proof.
    intros srv h es k h1 E. apply decode_cases in E. destruct E as [E|(s & st & ct & d & -> & R & C)]; [now left|]. right.
    exists (s, srv h s). split; [reflexivity|]. cbn [snd]. rewrite R.
    destruct C as [(P & L & b & -> & B)|[(P & L & C)|(P & L & I & j & r & y & -> & J & K & O & _)]]; rewrite P; split.
    - split; [discriminate|]. intros (? & ? & ? & Q & ? & _). injection Q as <- <- ->. lia.
    - intros _. right. eauto.
    - split; [discriminate|]. intros (? & ? & j & Q & S & B). injection Q as <- <- ->. destruct C as [C|[C|(j' & r & y & Q & J & K & O)]]; [| |injection Q as <-].
      + cbn [status_in] in C. destruct (Z.leb_spec 400 st), (Z.ltb_spec st 500); cbn in C; try discriminate; lia.
      + exfalso. apply (C j eq_refl). inversion B. exact Logic.I.
      + destruct (error_check j) as (r' & x' & K' & F). rewrite K in K'. injection K' as <- <-. apply F in B. congruence.
    - intros (? & ? & ? & Q & ?). injection Q as <- <- <-. lia.
    - split; [intros _|reflexivity]. exists st, ct, j. split; [reflexivity|]. split; [now apply status_client|].
      destruct (error_check j) as (r' & x' & K' & F). rewrite K in K'. injection K' as <- <-. now apply F.
    - intros (? & ? & ? & Q & ?). injection Q as <- <- <-. lia.
  Qed.
  Lemma success_call c e a t b : In (t, b) bodies -> Sound true (Success_with b) (invoke_and_decode show repr c e a t Success).
  Proof.
    intros In srv h es k tr E. apply decode_cases in E. destruct E as [E|(s & st & ct & d & T & R & C)]; [now left|]. right.
    apply app_inv_head in T. subst tr. destruct C as [(P & L & q & -> & B)|[(P & L & C)|(P & L & I & j & r & y & -> & J & K & O & _)]]; rewrite P; split.
    - discriminate.
    - intros _ _. right. eauto.
    - discriminate.
    - intros _ F. apply Exists_cons in F. destruct F as [(? & ? & ? & Q & ?)|F]; [|inversion F]. cbn [snd] in Q. rewrite R in Q. injection Q as <- <- <-. lia.
    - intros _. constructor; [|constructor]. cbn [snd]. rewrite R. apply status_success in I. subst st. exists ct, j. split; [reflexivity|].
      eapply check_ok; eauto.
    - intros _ F. apply Exists_cons in F. destruct F as [(? & ? & ? & Q & ?)|F]; [|inversion F]. cbn [snd] in Q. rewrite R in Q. injection Q as <- <- <-. lia.
  Qed.
  Lemma negcall_sound {X} (p : prog X) : NegCall p -> Sound true Rejected p.
  Proof.
    intros N srv h es k t E. destruct (N _ _ _ _ _ E) as [?|(x & T & P & S)]; [now left|]. right. apply app_inv_head in T. subst t. split.
    - intros Q. apply P in Q. now repeat constructor.
    - intros _ F. apply Exists_cons in F. destruct F as [F|F]; [auto|inversion F].
  Qed.
  Lemma content_call c e a : Sound false (Acceptable (Unchecked false)) (invoke_content c e a).
  Proof.
    intros srv h es k t E. unfold invoke_content in E. rewrite meaning_bind, meaning_lift in E.
    destruct (request_of e [] a) as [r|]; cbn [andthen] in E; [|injection E as <- <- E; left; eauto].
    rewrite meaning_bind in E. destruct (invoke_meaning c r srv h) as [s M]. rewrite M in E. clear M.
    destruct (make_url r) as [u|]; cbn [andthen] in E; [|injection E as <- <- E; left; eauto].
    destruct (send c r); cbn [andthen] in E; [|injection E as <- <- E; left; eauto].
    destruct (srv h s) as [st ct d|y z] eqn:R; cbn [andthen] in E; [|injection E as <- <- E; left; eauto].
    injection E as <- <- E. apply app_inv_head in E. subst t. right. split; [|discriminate]. intros _.
    constructor; [|constructor]. cbn [snd Acceptable]. exists st, ct, d. split; [reflexivity|discriminate].
  Qed.
  Lemma json_call c e a : Sound false (Acceptable (Unchecked true)) (invoke_json c e a).
  Proof.
    intros srv h es k t E. unfold invoke_json in E. rewrite meaning_bind, meaning_lift in E.
    destruct (request_of e [] a) as [r|]; cbn [andthen] in E; [|injection E as <- <- E; left; eauto].
    rewrite meaning_bind in E. destruct (invoke_meaning c r srv h) as [s M]. rewrite M in E. clear M.
    destruct (make_url r) as [u|]; cbn [andthen] in E; [|injection E as <- <- E; left; eauto].
    destruct (send c r); cbn [andthen] in E; [|injection E as <- <- E; left; eauto].
    destruct (srv h s) as [st ct d|y z] eqn:R; cbn [andthen] in E; [|injection E as <- <- E; left; eauto].
    right. destruct d as [j|m].
    - destruct j; cbn in E; injection E as <- <- E; apply app_inv_head in E; subst t; (split; [|discriminate]); intros P; try discriminate P;
      (constructor; [|constructor]; cbn [snd Acceptable]; exists st, ct; eexists; split; [reflexivity|]; intros _; eexists; split; [reflexivity|exact Logic.I]).
    - cbn in E. injection E as <- <- E. apply app_inv_head in E. subst t. split; [|discriminate]. intros P. discriminate P.
  Qed.

  (** ** Operations *)
  Definition handled (h : handling) (a : answer) : Prop :=
    match h, a with
    | Decoded t, Checked b _ => In (t, b) bodies
    | Content, Unchecked false => True
    | JsonOnly, Unchecked true => True
    | _, _ => False
    end.
  Lemma success_sound o i args a : handled (o_handling o) a -> Sound (checked a) (Acceptable a) (invoke_success show repr o i args).
  Proof.
    unfold invoke_success, call. destruct (accepts (o_sig o) args); [|intros _; apply sound_raise].
    destruct (o_handling o) as [t| |], a as [b e|[|]]; cbn [handled checked]; intros H; try contradiction.
    - eapply sound_mono; [auto| |apply (success_call _ _ _ _ b H)]. intros r S. now left.
    - apply content_call.
    - apply json_call.
  Qed.
  Lemma error_sound o i args a : match a with Checked _ e => e = true | Unchecked _ => True end ->
    Sound (checked a) (Acceptable a) (invoke_error show repr o i args).
  Proof.
    unfold invoke_error, call. destruct (accepts (o_sig o) args); [|intros _; apply sound_raise]. intros H.
    eapply sound_mono; [| |apply negcall_sound, error_call]; [auto|]. intros r Rj. destruct a as [b e|j]; cbn [Acceptable].
    - right. auto.
    - destruct Rj as (st & ct & v & -> & _ & B). exists st, ct, (Json v). split; [reflexivity|]. intros _. exists v. split; [reflexivity|].
      inversion B. exact Logic.I.
  Qed.
  Lemma error_negcall o i args : NegCall (invoke_error show repr o i args).
  Proof.
    unfold invoke_error, call. destruct (accepts (o_sig o) args); [apply error_call|].
    intros srv h es c h1 [= <- <- <-]. left. eauto.
  Qed.

  Lemma types_sound o supported kw i a : handled (o_handling o) a ->
    (match a with Checked _ e => e = true | Unchecked _ => True end \/ supported = all_submodel_elements) ->
    forall ts, (forall t, In t ts -> In t all_submodel_elements) -> Sound (checked a) (Acceptable a) (check_types show repr o supported kw ts i).
  Proof.
    intros H S. induction ts as [|t ts IH]; cbn [check_types]; intros I; [apply sound_ret|].
    apply sound_bind; [|intros _; apply IH; intros; apply I; now right]. apply sound_block.
    destruct (lookup (lit t) (i_paths i)) as [l|]; [|apply sound_abort]. apply sound_bind; [apply sound_lift|]. intros p.
    destruct (existsb (String.eqb t) supported) eqn:X; [now apply success_sound|]. destruct S as [S|S]; [now apply error_sound|]. subst supported.
    exfalso. enough (existsb (String.eqb t) all_submodel_elements = true) by congruence. apply existsb_exists. exists t.
    split; [apply I; now left|apply String.eqb_refl].
  Qed.

  (** ** Setups *)
  Lemma usable_call c e a t b : In (t, b) bodies -> Sound true Usable (invoke_and_decode show repr c e a t Success).
  Proof. intros I. eapply sound_mono; [auto| |apply success_call, I]. intros r S. now exists t, b. Qed.
  Ltac body_index t := lazymatch t with
    | ACls k_ErrorResult => constr:(0) | ACls k_AssetAdministrationShell => constr:(1) | ACls k_Reference => constr:(2)
    | ACls k_AssetInformation => constr:(3) | ACls k_Submodel => constr:(4) | ACls k_SubmodelElement => constr:(5)
    | ACls k_Environment => constr:(6) | ACls k_UnconstrainedReference => constr:(7) | AList AStr => constr:(8)
    | ACls k_ServiceDescription => constr:(9) | ACls k_AasSubmodelReferences => constr:(10) | ACls k_AllShells => constr:(11)
    | ACls k_AllShellsReference => constr:(12) | ACls k_AllSubmodelReferences => constr:(13) | ACls k_AllSubmodels => constr:(14)
    | ACls k_AllSubmodelsValue => constr:(15) | ACls k_AllSubmodelsPath => constr:(16) | ACls k_AllElements => constr:(17)
    | ACls k_AllElementsValueOnly => constr:(18) | ACls k_AllElementsReference => constr:(19) | ACls k_AllElementsPath => constr:(20)
    end.
  Ltac in_bodies := match goal with |- In (?t, _) _ => let n := body_index t in apply (nth_error_In bodies n); reflexivity end.
  Lemma shells_usable c a : Sound true Usable (get_all_shells show repr c a).
  Proof. apply usable_call with (b := paged_body (b_obj "AssetAdministrationShell")). in_bodies. Qed.
  Lemma shell_usable c : Sound true Usable (get_shell show repr c).
  Proof. apply usable_call with (b := b_obj "AssetAdministrationShell"). in_bodies. Qed.
  Lemma references_usable c a : Sound true Usable (get_all_submodel_references show repr c a).
  Proof. apply usable_call with (b := paged_body (b_obj "Reference")). in_bodies. Qed.
  Lemma submodels_usable c a : Sound true Usable (get_all_submodels show repr c a).
  Proof. apply usable_call with (b := paged_body (b_obj "Submodel")). in_bodies. Qed.
  Lemma elements_usable c a : Sound true Usable (get_all_submodel_elements show repr c a).
  Proof. apply usable_call with (b := paged_body (b_obj "SubmodelElement")). in_bodies. Qed.

  Definition usable_prefix (p : client -> prog str) : Prop := forall c, Sound true Usable (p c).
  Definition usable_setup (s : instance -> prog instance) : Prop := forall i, Sound true Usable (s i).
  Lemma prefixes_usable :
    usable_prefix no_prefix /\ usable_prefix aas_prefix /\ usable_prefix submodel_prefix /\ usable_prefix (aas_submodel_prefix show repr) /\
    usable_prefix (aas_repo_prefix show repr) /\ usable_prefix (aas_repo_submodel_prefix show repr) /\
    usable_prefix (submodel_repo_submodel_prefix show repr).
  Proof.
    assert (F : forall s, usable_prefix (fixed_prefix s)) by (intros s c; apply sound_ret).
    split; [apply F|]. split; [apply F|]. split; [apply F|].
    split; [intros c; apply sound_bind; [apply shell_usable|intros; apply sound_lift]|].
    split; [intros c; apply sound_bind; [apply shells_usable|intros; apply sound_lift]|].
    split; [intros c; apply sound_bind; [apply shells_usable|intros; apply sound_lift]|].
    intros c; apply sound_bind; [apply submodels_usable|intros; apply sound_lift].
  Qed.
  Lemma u_no_setup : usable_setup (no_setup).
  Proof. intros i; apply sound_ret. Qed.
  Lemma u_setup_all_shells : usable_setup (setup_all_shells show repr).
  Proof. intros i; apply sound_bind; [apply shells_usable|intros; apply sound_lift]. Qed.
  Lemma u_setup_valid_id : usable_setup (setup_valid_id show repr).
  Proof. intros i; apply sound_bind; [apply shells_usable|intros; apply sound_lift]. Qed.
  Lemma u_setup_references : usable_setup (setup_references show repr).
  Proof. intros i; apply sound_bind; [apply references_usable|intros; apply sound_lift]. Qed.
  Lemma u_setup_submodels : usable_setup (setup_submodels show repr).
  Proof. intros i; apply sound_bind; [apply submodels_usable|intros; apply sound_lift]. Qed.
  Lemma u_setup_for_aas : usable_setup (setup_for_aas show repr).
  Proof. intros i; apply sound_bind; [apply references_usable|intros; apply sound_lift]. Qed.
  Lemma u_setup_for_submodel : usable_setup (setup_for_submodel show repr).
  Proof. intros i; apply sound_bind; [apply submodels_usable|intros; apply sound_lift]. Qed.
  Lemma u_setup_serialization : usable_setup (setup_serialization show repr).
  Proof. intros i; apply sound_bind; [apply shells_usable|intros; apply sound_lift]. Qed.
  Lemma u_setup_elements : usable_setup (setup_elements show repr).
  Proof. intros i; apply sound_bind; [apply elements_usable|intros; apply sound_lift]. Qed.
  Lemma cursor_usable o t b : o_handling o = Decoded t -> In (t, b) bodies -> usable_setup (setup_cursor show repr o).
  Proof.
    intros H I i. apply sound_bind; [|intros; apply sound_lift]. unfold invoke_success, call.
    destruct (accepts (o_sig o) limit1); [|apply sound_raise]. rewrite H. now apply usable_call with (b := b).
  Qed.

  (** ** Tests *)
  Section Tests.
    Variable o : op.
    Variable a : answer.
    Hypothesis H : handled (o_handling o) a.
    Definition SoundTest (t : test) : Prop := forall i, Sound (checked a) (Acceptable a) (snd t i).
    Ltac step := first
      [ apply sound_bind; [|intros ?] | apply success_sound; exact H | apply sound_lift | apply sound_assert | apply sound_ret | apply sound_abort ].
    Lemma s_invoke title args : SoundTest (t_invoke show repr o title args).
    Proof. intros i. unfold t_invoke. cbn [snd]. repeat step. Qed.
    Lemma s_get_one : SoundTest (t_get_one show repr o).
    Proof. intros i. unfold t_get_one. cbn [snd]. repeat step. Qed.
    Lemma s_pagination : SoundTest (t_pagination show repr o).
    Proof. intros i. unfold t_pagination. cbn [snd]. destruct (i_cursor i); repeat step. Qed.
    Lemma s_paged : Forall SoundTest (pagination show repr o).
    Proof. constructor; [apply s_get_one|]. constructor; [apply s_pagination|constructor]. Qed.
    Lemma s_shells : Forall SoundTest (t_shells show repr o).
    Proof. unfold t_shells. constructor; [apply s_invoke|].
      constructor; [|constructor; [|constructor]]; intros i; cbn [snd]; repeat step. Qed.
    Lemma s_filter b : SoundTest (t_filter_by_idshort show repr o b).
    Proof. intros i. unfold t_filter_by_idshort. cbn [snd]. repeat step. destruct b; repeat step. Qed.
    Lemma s_by_id title arg check : SoundTest (t_by_id show repr o title arg check).
    Proof. intros i. unfold t_by_id. cbn [snd]. repeat step. destruct check as [[f m]|]; repeat step. Qed.
    Lemma s_types supported title kw : match a with Checked _ e => e = true | Unchecked _ => True end \/ supported = all_submodel_elements ->
      SoundTest (t_types show repr o supported title kw).
    Proof. intros S i. apply types_sound; auto. Qed.
    Lemma s_levels supported : match a with Checked _ e => e = true | Unchecked _ => True end \/ supported = all_submodel_elements ->
      Forall SoundTest (t_levels show repr o supported).
    Proof. intros S. unfold t_levels. repeat (constructor; [now apply s_types|]). constructor. Qed.
    Lemma s_elements : Forall SoundTest (t_elements show repr o).
    Proof. unfold t_elements. repeat (constructor; [apply s_invoke|]). constructor. Qed.
    Lemma s_file : SoundTest (t_file show repr o).
    Proof. intros i. unfold t_file. cbn [snd]. destruct (lookup (lit "File") (i_paths i)) as [[|p l]|]; repeat step. Qed.
  End Tests.

  Lemma good_of p o err setup tests a : usable_prefix p -> usable_setup setup -> forallb known_argument (o_sig o) = true ->
    (o_sig o = [] \/ err = invoke_error show repr o) -> answer_to (lit (o_name o)) = a -> handled (o_handling o) a ->
    (handled (o_handling o) a -> Forall (SoundTest a) tests) -> good_entry (p, suite_of o err setup tests).
  Proof.
    intros P S K N A H T. split; [exact P|]. split; [exact S|]. split.
    - split; [exact K|]. destruct N as [N| ->]; [now left|right]. intros i x. apply error_negcall.
    - intros i t I. cbn [snd suite_of su_tests su_operation] in *. rewrite A. apply (proj1 (Forall_forall _ _) (T H) t I).
  Qed.
  Lemma find_answer n a : lookup (lit n) answers = Some a -> answer_to (lit n) = a.
  Proof. unfold answer_to. now intros ->. Qed.
  Ltac handling := cbv [snd handled o_handling simple_op all_submodels_op by_id_op by_path_op leveled_op o_references o_shells o_shell_refs o_shell
    o_shell_ref o_elements o_elements_meta o_elements_refs o_element o_element_meta o_element_value o_element_ref o_element_path o_file
    o_serialization o_description].
  Ltac setup := lazymatch goal with
    | |- usable_setup (setup_cursor _ _ _) => eapply cursor_usable; [handling; reflexivity|in_bodies]
    | |- usable_setup no_setup => exact u_no_setup
    | |- usable_setup (setup_all_shells _ _) => exact u_setup_all_shells
    | |- usable_setup (setup_valid_id _ _) => exact u_setup_valid_id
    | |- usable_setup (setup_references _ _) => exact u_setup_references
    | |- usable_setup (setup_submodels _ _) => exact u_setup_submodels
    | |- usable_setup (setup_for_aas _ _) => exact u_setup_for_aas
    | |- usable_setup (setup_for_submodel _ _) => exact u_setup_for_submodel
    | |- usable_setup (setup_serialization _ _) => exact u_setup_serialization
    | |- usable_setup (setup_elements _ _) => exact u_setup_elements
    | |- _ => assumption
    end.
  Ltac tests := repeat lazymatch goal with
    | |- Forall _ [] => apply Forall_nil
    | |- Forall _ (_ :: _) => apply Forall_cons
    | |- Forall _ (_ ++ _) => apply Forall_app; split
    | |- SoundTest _ (t_invoke _ _ _ _ _) => apply s_invoke; assumption
    | |- SoundTest _ (t_filter_by_idshort _ _ _ _) => apply s_filter; assumption
    | |- SoundTest _ (t_by_id _ _ _ _ _ _) => apply s_by_id; assumption
    | |- SoundTest _ (t_file _ _ _) => apply s_file; assumption
    | |- Forall _ (pagination _ _ _) => apply s_paged; assumption
    | |- Forall _ (t_shells _ _ _) => apply s_shells; assumption
    | |- Forall _ (t_elements _ _ _) => apply s_elements; assumption
    end.
  Ltac good := eapply good_of; [assumption|setup|vm_compute; reflexivity
    |first [left; reflexivity|right; reflexivity]|apply find_answer; reflexivity|handling; first [exact Logic.I|in_bodies]
    |intros H; tests].

  Lemma good_elements p : usable_prefix p -> Forall good_entry (elements_suites show repr p).
  Proof.
    intros P. unfold elements_suites. repeat apply Forall_cons.
    - good.
    - good.
    - good.
    - good.
    - good.
    - good. apply s_levels; [assumption|]. now right.
    - good. apply s_types; [assumption|]. now left.
    - good. apply s_levels; [assumption|]. now left.
    - good. apply s_types; [assumption|]. now right.
    - good. apply s_types; [assumption|]. now left.
    - good.
    - constructor.
  Qed.
  Lemma good_by_id p setup : usable_prefix p -> usable_setup setup -> Forall good_entry (by_id_suites show repr p setup).
  Proof. intros P S. unfold by_id_suites. repeat (apply Forall_cons; [good|]). constructor. Qed.
  Lemma good_shell p : usable_prefix p -> Forall good_entry (shell_suites show repr p).
  Proof. intros P. unfold shell_suites. repeat (apply Forall_cons; [good|]). constructor. Qed.
  Lemma good_serialization p : usable_prefix p -> good_entry (p, GenerateSerialization show repr).
  Proof.
    intros P. good.
    - intros i. cbn [snd]. apply sound_bind; [now apply success_sound|intros; apply sound_ret].
    - intros i. cbn [snd]. apply sound_bind; [now apply success_sound|intros; apply sound_ret].
    - intros i. cbn [snd]. apply sound_bind; [now apply success_sound|intros; apply sound_bind; [apply sound_lift|intros; apply sound_assert]].
  Qed.
  Lemma good_description p : usable_prefix p -> good_entry (p, GetDescription show repr).
  Proof.
    intros P. good.
    intros i. cbn [snd]. apply sound_bind; [now apply success_sound|intros; apply sound_bind; [apply sound_lift|intros; apply sound_assert]].
  Qed.
  Theorem all_good : Forall (fun x => Forall good_entry (snd x)) (available_suites show repr).
  Proof.
    destruct prefixes_usable as (P1 & P2 & P3 & P4 & P5 & P6 & P7).
    repeat lazymatch goal with
    | |- Forall _ (available_suites _ _) => unfold available_suites
    | |- Forall _ [] => apply Forall_nil
    | |- Forall _ (_ :: _) => apply Forall_cons
    | |- Forall _ (snd _) => cbn [snd]
    | |- Forall _ (_ ++ _) => apply Forall_app; split
    | |- Forall _ (elements_suites _ _ _) => apply good_elements; assumption
    | |- Forall _ (by_id_suites _ _ _ _) => apply good_by_id; [assumption|setup]
    | |- Forall _ (shell_suites _ _ _) => apply good_shell; assumption
    | |- good_entry (_, GenerateSerialization _ _) => apply good_serialization; assumption
    | |- good_entry (_, GetDescription _ _) => apply good_description; assumption
    | |- good_entry _ => good
    end.
  Qed.
End Messages.
