(** The operations of the suites, and their calls. *)
From Coq Require Import PeanoNat String List NArith ZArith Bool Lia.
From Verif Require Import PyStr PyStrFacts PyBase PyVal Codec ResultModel ResultFacts ContextModel HttpModel ConfigModel ReflectModel MetaModel
  AdapterModel ParseModel ConstraintModel ProgModel ProgSpec ProgFacts ParseSpec ApiModel ApiSpec ApiSuites ApiFacts ApiBody ApiTables ApiFacts2.
Import ListNotations.
Local Open Scope nat_scope.
Local Open Scope list_scope.

Section Messages.
  Variable show : json -> str.
  Variable repr : str -> str.

  Lemma suites_described :
    List.map (fun p => (fst p, List.map (fun e => su_operation (snd e)) (snd p))) (available_suites show repr)
    = List.map (fun p => (lit (fst p), List.map lit (snd p))) suite_operations.
  Proof. vm_compute. reflexivity. Qed.
  Definition strs_same (a b : list str) : bool := if list_eq_dec (list_eq_dec N.eq_dec) a b then true else false.
  Definition describedb (s : suite) (x : string * (list (string * string) * nat)) : bool :=
    str_eqb (lit (fst x)) (su_operation s) && strs_same (List.map negative_title (fst (snd x))) (negative_titles (su_signature s))
    && Nat.eqb (length (su_tests s)) (snd (snd x)).
  Lemma tests_described : forallb (fun p => forallb (fun e => existsb (describedb (snd e)) op_tests) (snd p)) (available_suites show repr) = true.
  Proof. vm_compute. reflexivity. Qed.
  Lemma suite_names_distinct : NoDup (List.map fst suite_operations).
  Proof. repeat constructor; cbn; intuition discriminate. Qed.

  Lemma described l e : In l (available_suites show repr) -> In e (snd l) -> exists x, In x op_tests /\ lit (fst x) = su_operation (snd e) /\
    List.map negative_title (fst (snd x)) = negative_titles (su_signature (snd e)) /\ length (su_tests (snd e)) = snd (snd x).
  Proof.
    intros I J. pose proof tests_described as T. rewrite forallb_forall in T. specialize (T _ I). rewrite forallb_forall in T. specialize (T _ J).
    apply existsb_exists in T. destruct T as (x & K & D). exists x. split; [exact K|]. unfold describedb in D.
    apply andb_prop in D. destruct D as [D D3]. apply andb_prop in D. destruct D as [D1 D2]. apply Nat.eqb_eq in D3.
    split; [now apply str_eqb_spec|]. split; [|exact D3]. unfold strs_same in D2.
    destruct (list_eq_dec (list_eq_dec N.eq_dec) (List.map negative_title (fst (snd x))) (negative_titles (su_signature (snd e)))); [assumption|discriminate].
  Qed.
  Lemma lookup_In_pair {A} k (l : list (str * A)) v : lookup k l = Some v -> In (k, v) l.
  Proof.
    induction l as [|[k' v'] l IH]; cbn [lookup]; [discriminate|]. destruct (str_eqb k k') eqn:E; [apply str_eqb_spec in E as ->; intros [= ->]; now left|right; auto].
  Qed.
  Lemma lit_inj a b : lit a = lit b -> a = b.
  Proof.
    revert b. induction a as [|x a IH]; intros [|y b]; cbn; try discriminate; [reflexivity|]. intros E. injection E as E1 E2.
    f_equal; [|now apply IH]. apply (f_equal Ascii.ascii_of_N) in E1. now rewrite !Ascii.ascii_N_embedding in E1.
  Qed.

  Lemma operations_of l : lookup (fst l) (available_suites show repr) = Some (snd l) ->
    exists n ops, fst l = lit n /\ In (n, ops) suite_operations /\ List.map (fun e => su_operation (snd e)) (snd l) = List.map lit ops.
  Proof.
    intros L. apply lookup_In_pair in L. apply (in_map (fun p => (fst p, List.map (fun e => su_operation (snd e)) (snd p)))) in L.
    rewrite suites_described in L. apply in_map_iff in L. destruct L as ([n ops] & E & I). cbn [fst snd] in E. injection E as E1 E2.
    exists n, ops. auto.
  Qed.

  Lemma chosen_names f (l : list entry) (ops : list string) : List.map (fun e => su_operation (snd e)) l = List.map lit ops ->
    List.map (fun e => su_operation (snd e)) (chosen f l) = List.map lit (filter (fun n => selected f (lit n)) ops).
  Proof.
    revert ops. induction l as [|e l IH]; intros [|o ops]; cbn [List.map filter chosen]; try discriminate; [reflexivity|].
    intros E. injection E as E1 E2. fold (chosen f l). rewrite E1. destruct (selected f (lit o)); cbn [List.map]; rewrite (IH _ E2); [now rewrite E1|reflexivity].
  Qed.

  Lemma checked_operations f k l ops parts : In (k, l) (available_suites show repr) ->
    List.map (fun e => su_operation (snd e)) l = List.map lit ops -> well_reported (chosen f l) parts ->
    Forall2 Checked_operation (filter (fun n => selected f (lit n)) ops) parts.
  Proof.
    intros I N W. apply (chosen_names f) in N.
    assert (C : forall e, In e (chosen f l) -> In e l) by (intros e J; now apply filter_In in J).
    revert N W C. generalize (chosen f l) as m. generalize (filter (fun n => selected f (lit n)) ops) as os.
    intros os m. revert os parts. induction m as [|e m IH]; intros [|o os] parts; cbn [List.map]; intros N W C; try discriminate; inversion W; subst.
    - constructor.
    - injection N as N1 N2. constructor; [|apply IH; auto; intros; apply C; now right].
      destruct (described _ e I (C e (or_introl eq_refl))) as ([o' [w n]] & J & D1 & D2 & D3). cbn [fst snd] in *.
      rewrite N1 in D1. apply lit_inj in D1. subst o'. exists w, n, (List.map fst (su_tests (snd e))). split; [exact J|].
      split; [now rewrite map_length|]. rewrite D2, <- N1. assumption.
  Qed.

  (** ** Servers that always answer, but never with success *)
  Section Refusing.
    Variable srv : server.
    Hypothesis A : Answers srv (fun st => st <> 200%Z).

    Definition Stops {X} (p : prog X) : Prop := forall h, exists es a h1, meaning p srv h = (es, Abort a, h1) /\ ok a = false.
    Definition Fine {X} (p : prog X) : Prop := forall h es e t h1, meaning p srv h <> (es, Exc e t, h1).
    Lemma stops_fine {X} (p : prog X) : Stops p -> Fine p.
    Proof. intros S h es e t h1 E. destruct (S h) as (? & ? & ? & E' & _). congruence. Qed.
    Lemma stops_bind {X Y} (p : prog X) (f : X -> prog Y) : Stops p -> Stops (pbind p f).
    Proof. intros S h. destruct (S h) as (es & a & h1 & E & O). exists es, a, h1. rewrite meaning_bind, E. now split. Qed.
    Lemma fine_ret {X} (x : X) : Fine (PRet x).
    Proof. intros h es e t h1 [=]. Qed.
    Lemma fine_abort {X} r : Fine (@PAbort X r).
    Proof. intros h es e t h1 [=]. Qed.
    Lemma fine_lift {X} (o : outcome X) x : o = Val x -> Fine (lift o).
    Proof. intros -> h es e t h1 [=]. Qed.
    Lemma fine_bind {X Y} (p : prog X) (f : X -> prog Y) : Fine p -> (forall x, Fine (f x)) -> Fine (pbind p f).
    Proof.
      intros P F h es e t h1. rewrite meaning_bind. specialize (P h). destruct (meaning p srv h) as [[es1 [x|a|e1 t1]] h2]; cbn [andthen].
      - specialize (F x h2). destruct (meaning (f x) srv h2) as [[es2 c2] h3]. intros [= <- -> ->]. eapply F. reflexivity.
      - discriminate.
      - exfalso. eapply P. reflexivity.
    Qed.
    Lemma fine_val {X Y} (o : outcome X) x (f : X -> prog Y) : o = Val x -> Fine (f x) -> Fine (let! y := lift o in f y).
    Proof. now intros ->. Qed.
    Lemma fine_block {X} m (p : prog X) : Fine p -> Fine (block m p).
    Proof.
      intros P h es e t h1. rewrite meaning_block. specialize (P h). destruct (meaning p srv h) as [[es1 [x|a|e1 t1]] h2]; try discriminate.
      exfalso. eapply P. reflexivity.
    Qed.
    Lemma fine_rename {X} e f (p : prog X) : Fine p -> Fine (rename e f p).
    Proof.
      intros P h es x t h1 E. specialize (P h). pose proof (rename_ret e f p srv h) as R. destruct (meaning p srv h) as [[es1 [y|a|e1 t1]] h2].
      - rewrite R in E. discriminate.
      - rewrite R in E. discriminate.
      - exfalso. eapply P. reflexivity.
    Qed.

    Definition Sendable (e : endpoint) (a : args) : Prop := forall hs, exists r u, request_of e hs a = Val r /\ make_url r = Val u.
    Lemma sends c r u : make_url r = Val u -> exists s, send c r = Val s.
    Proof. intros U. unfold send. rewrite U. cbn [obind]. eauto. Qed.

    Lemma success_stops c e a t : Sendable e a -> Stops (invoke_and_decode show repr c e a t Success).
    Proof.
      intros S h. unfold invoke_and_decode. rewrite meaning_bind, meaning_lift.
      destruct (S [(lit "content-type", lit "application/json")]) as (r & u & -> & U). cbn [andthen].
      rewrite meaning_bind. destruct (invoke_meaning c r srv h) as [s ->]. destruct (sends c r u U) as [s' ->]. rewrite U.
      destruct (A h s) as (st & ct & d & -> & N). cbn [andthen]. destruct (Z.leb 500 st); [|destruct (status_in st Success) eqn:I; cbn [negb]].
      - cbn [meaning]. do 3 eexists. split; reflexivity.
      - now apply status_success in I.
      - cbn [meaning]. do 3 eexists. split; reflexivity.
    Qed.
    Lemma error_fine c e a : Sendable e a -> Fine (invoke_and_decode show repr c e a (ACls k_ErrorResult) ClientError).
    Proof.
      intros S h es x t h1. unfold invoke_and_decode. rewrite meaning_bind, meaning_lift.
      destruct (S [(lit "content-type", lit "application/json")]) as (r & u & -> & U). cbn [andthen].
      rewrite meaning_bind. destruct (invoke_meaning c r srv h) as [s ->]. destruct (sends c r u U) as [s' ->]. rewrite U.
      destruct (A h s) as (st & ct & d & -> & N). cbn [andthen]. destruct (Z.leb 500 st); [|destruct (status_in st ClientError) eqn:I; cbn [negb]].
      - cbn [meaning]. discriminate.
      - rewrite meaning_bind. destruct d as [j|m]; [|discriminate].
        assert (J : extract_json (Json j) = PRet j \/ exists m, extract_json (Json j) = fail_with m) by (destruct j; cbn; eauto).
        destruct J as [->|[m ->]]; [|discriminate]. cbn [meaning andthen]. rewrite meaning_bind, meaning_lift.
        destruct (error_check show repr j) as (q & y & -> & _). cbn [andthen]. destruct (ok q); discriminate.
      - cbn [meaning]. discriminate.
    Qed.
    Lemma content_fine c e a : Sendable e a -> Fine (invoke_content c e a).
    Proof.
      intros S h es x t h1. unfold invoke_content. rewrite meaning_bind, meaning_lift.
      destruct (S []) as (r & u & -> & U). cbn [andthen].
      rewrite meaning_bind. destruct (invoke_meaning c r srv h) as [s ->]. destruct (sends c r u U) as [s' ->]. rewrite U.
      destruct (A h s) as (st & ct & d & -> & N). discriminate.
    Qed.
    Lemma json_fine c e a : Sendable e a -> Fine (invoke_json c e a).
    Proof.
      intros S h es x t h1. unfold invoke_json. rewrite meaning_bind, meaning_lift.
      destruct (S []) as (r & u & -> & U). cbn [andthen].
      rewrite meaning_bind. destruct (invoke_meaning c r srv h) as [s ->]. destruct (sends c r u U) as [s' ->]. rewrite U.
      destruct (A h s) as (st & ct & d & -> & N). cbn [andthen]. destruct d as [[]|]; discriminate.
    Qed.
    Lemma invoke_fine o i a : accepts (o_sig o) a = true -> Sendable (o_endpoint o) a -> Fine (invoke_success show repr o i a).
    Proof.
      intros K S. unfold invoke_success, call. rewrite K. destruct (o_handling o); [|now apply content_fine|now apply json_fine].
      now apply stops_fine, success_stops.
    Qed.
    Lemma invoke_stops o i a t : o_handling o = Decoded t -> accepts (o_sig o) a = true -> Sendable (o_endpoint o) a ->
      Stops (invoke_success show repr o i a).
    Proof. intros H K S. unfold invoke_success, call. rewrite K, H. now apply success_stops. Qed.

    (** operations without a setup, whose tests do not end with exceptions *)
    Definition reflected (s : suite) : bool :=
      match reflect_function (su_signature s) (ACls k_ErrorResult), reflect_function (su_signature s) (su_success_type s) with
      | Val _, Val _ => true | _, _ => false
      end.
    Lemma fargs_refl l : fargs_eqb l l = true.
    Proof. induction l as [|a l IH]; [reflexivity|]. cbn [fargs_eqb]. rewrite IH. unfold farg_eqb. now rewrite str_eqb_refl, eqb_reflx. Qed.
    Lemma generate_fine f l : forallb known_argument l = true ->
      (forall p v, In p l -> generate_invalid_values (fst p) (strip_optional (snd p)) = Val [v] -> Fine (f [(fst p, v)])) ->
      Fine (generate_calls f [] (List.map (fun p => FArg (fst p) (strip_optional (snd p)) (negb (has_default (snd p)))) l)).
    Proof.
      intros K F. induction l as [|p l IH]; cbn [List.map generate_calls fa_name fa_type forallb] in *; [apply fine_ret|].
      apply andb_prop in K. destruct K as [K1 K2]. destruct (generated p K1) as (vs & G & W).
      apply (fine_val _ _ _ G); cbv beta.
      apply fine_bind; [|intros _; apply IH; [exact K2|intros; eapply F; eauto; now right]].
      destruct (wrong_value (fst p) (snd p)) as [t|]; [|subst vs; apply fine_ret]. destruct W as (v & -> & T). cbn [generate_for].
      apply (fine_val _ _ _ T).
      apply fine_bind; [|intros [? ?]; apply fine_ret]. apply fine_block, fine_rename. cbn [assign]. eapply F; [now left|exact G].
    Qed.

    Definition quiet_entry (e : entry) : Prop :=
      (forall c, Stops (fst e c)) \/ (exists p, fst e = fixed_prefix p /\ forall i, Stops (su_setup (snd e) i)) \/
      (exists p, fst e = fixed_prefix p /\ su_setup (snd e) = no_setup /\ forall c profile, Fine (execute_suite (snd e) (new_instance c profile))).
    Lemma operation_fine c profile e mat : quiet_entry e -> Fine (check_operation false c profile e mat).
    Proof.
      intros Q. destruct e as [pp s]. unfold check_operation. apply fine_bind; [|intros [? ?]; apply fine_ret]. apply fine_block.
      assert (C : Stops (let! prefix := pp c in su_setup s (new_instance (descend c prefix) profile)) \/
                  exists i, (forall h, meaning (let! prefix := pp c in su_setup s (new_instance (descend c prefix) profile)) srv h = ([], Ret i, h)) /\
                            Fine (execute_suite s i)).
      { destruct Q as [Q|[(p & E & Q)|(p & E & S & Q)]]; cbn [fst snd] in *.
        - left. now apply stops_bind.
        - left. rewrite E. exact (Q _).
        - right. rewrite E, S. eexists. split; [reflexivity|]. apply Q. }
      intros h es e t h1. rewrite meaning_bind, meaning_block. destruct C as [C|(i & C & F)].
      - destruct (C h) as (es1 & a & h2 & -> & O). cbn [andthen]. rewrite ok_appends, forallb_app. cbn [forallb]. rewrite O, !andb_false_r.
        cbn [meaning]. discriminate.
      - rewrite C. cbn [andthen]. rewrite appends_nil. change (ok (new_result (lit "Setup") INFO)) with true. cbv beta iota.
        enough (B : Fine (let! m := execute_suite s i in PRet (add_matrix mat m))).
        { destruct (meaning (let! m := execute_suite s i in PRet (add_matrix mat m)) srv h) as [[es2 c2] h2] eqn:E2.
          intros [= <- -> ->]. eapply B, E2. }
        apply fine_bind; [exact F|intros; apply fine_ret].
    Qed.
    Lemma operations_fine f c profile l : Forall quiet_entry l -> forall mat, Fine (check_operations false f c profile l mat).
    Proof.
      induction 1 as [|e l Q _ IH]; intros mat; cbn [check_operations]; [apply fine_ret|].
      destruct (selected f _); [|apply IH]. apply fine_bind; [now apply operation_fine|apply IH].
    Qed.

    Lemma tests_fine ts i : (forall t, In t ts -> Fine (snd t i)) -> Fine (execute_tests_of ts i).
    Proof.
      induction ts as [|[t b] ts IH]; cbn [execute_tests_of]; intros F; [apply fine_ret|].
      apply fine_bind; [apply fine_block, (F (t, b)); now left|]. intros _. apply IH. intros; apply F; now right.
    Qed.
    Lemma suite_fine s i : i_valid_arguments i = [] -> reflected s = true -> forallb known_argument (su_signature s) = true ->
      (forall p v, In p (su_signature s) -> generate_invalid_values (fst p) (strip_optional (snd p)) = Val [v] -> Fine (su_invoke_error s i [(fst p, v)])) ->
      (forall t, In t (su_tests s) -> Fine (snd t i)) -> Fine (execute_suite s i).
    Proof.
      intros V R K F T. unfold execute_suite. apply fine_bind; [|intros [? ?]; apply fine_bind; [|intros [? ?]; apply fine_ret]]; apply fine_block.
      - unfold execute_syntactic_tests. unfold reflected in R.
        destruct (reflect_function (su_signature s) (ACls k_ErrorResult)) as [f|] eqn:F1; [|discriminate].
        destruct (reflect_function (su_signature s) (su_success_type s)) as [g|] eqn:F2; [|discriminate].
        apply (fine_val _ _ _ eq_refl), (fine_val _ _ _ eq_refl). apply reflect_function_shape in F1, F2. rewrite <- F1 in F2. subst g.
        rewrite fargs_refl, F1, V. now apply generate_fine.
      - now apply tests_fine.
    Qed.
    Lemma simple_fine p o title : o_sig o = [] -> reflected (simple_suite show repr o title) = true -> Sendable (o_endpoint o) [] ->
      quiet_entry (fixed_prefix p, simple_suite show repr o title).
    Proof.
      intros S R E. right. right. exists p. split; [reflexivity|]. split; [reflexivity|]. intros c profile. apply suite_fine.
      - reflexivity.
      - exact R.
      - unfold simple_suite. cbn [snd suite_of su_signature]. now rewrite S.
      - unfold simple_suite. cbn [snd suite_of su_signature]. rewrite S. intros ? ? [].
      - intros t [<-|[]]. cbn [snd t_invoke]. apply fine_bind; [|intros; apply fine_ret]. apply invoke_fine; [now rewrite S|exact E].
    Qed.
    Ltac sendable := intros hs; eexists _, _; split; reflexivity.
    Lemma shells_stop c : Stops (get_all_shells show repr c limit1).
    Proof. apply success_stops. sendable. Qed.
    Lemma shell_stop c : Stops (get_shell show repr c).
    Proof. apply success_stops. sendable. Qed.
    Lemma references_stop c : Stops (get_all_submodel_references show repr c limit1).
    Proof. apply success_stops. sendable. Qed.
    Lemma submodels_stop c : Stops (get_all_submodels show repr c limit1).
    Proof. apply success_stops. sendable. Qed.
    Lemma elements_stop c : Stops (get_all_submodel_elements show repr c []).
    Proof. apply success_stops. sendable. Qed.
    Lemma st_setup_all_shells i : Stops (setup_all_shells show repr i).
    Proof. apply stops_bind, shells_stop. Qed.
    Lemma st_setup_valid_id i : Stops (setup_valid_id show repr i).
    Proof. apply stops_bind, shells_stop. Qed.
    Lemma st_setup_references i : Stops (setup_references show repr i).
    Proof. apply stops_bind, references_stop. Qed.
    Lemma st_setup_submodels i : Stops (setup_submodels show repr i).
    Proof. apply stops_bind, submodels_stop. Qed.
    Lemma st_setup_for_aas i : Stops (setup_for_aas show repr i).
    Proof. apply stops_bind, references_stop. Qed.
    Lemma st_setup_for_submodel i : Stops (setup_for_submodel show repr i).
    Proof. apply stops_bind, submodels_stop. Qed.
    Lemma st_setup_serialization i : Stops (setup_serialization show repr i).
    Proof. apply stops_bind, shells_stop. Qed.
    Lemma st_setup_elements i : Stops (setup_elements show repr i).
    Proof. apply stops_bind, elements_stop. Qed.
    Lemma st_cursor o t i : o_handling o = Decoded t -> accepts (o_sig o) limit1 = true -> Sendable (o_endpoint o) limit1 ->
      Stops (setup_cursor show repr o i).
    Proof. intros H K S. apply stops_bind. now apply invoke_stops with (t := t). Qed.

    Lemma quiet_prefix p s : (forall c, Stops (p c)) -> quiet_entry (p, s).
    Proof. now left. Qed.
    Lemma quiet_setup p s : (forall i, Stops (su_setup s i)) -> quiet_entry (fixed_prefix p, s).
    Proof. intros S. right. left. now exists p. Qed.
    Ltac setup_stops := lazymatch goal with
      | |- Stops (setup_cursor _ _ _ _) => eapply st_cursor; [reflexivity|reflexivity|sendable]
      | |- Stops (setup_all_shells _ _ _) => apply st_setup_all_shells
      | |- Stops (setup_valid_id _ _ _) => apply st_setup_valid_id
      | |- Stops (setup_references _ _ _) => apply st_setup_references
      | |- Stops (setup_submodels _ _ _) => apply st_setup_submodels
      | |- Stops (setup_for_aas _ _ _) => apply st_setup_for_aas
      | |- Stops (setup_for_submodel _ _ _) => apply st_setup_for_submodel
      | |- Stops (setup_serialization _ _ _) => apply st_setup_serialization
      | |- Stops (setup_elements _ _ _) => apply st_setup_elements
      end.
    Ltac by_setup := apply quiet_setup; intros i; match goal with |- Stops (su_setup ?s i) =>
      let s' := eval hnf in s in change s with s' end; cbn [su_setup]; setup_stops.

    Lemma references_fine p : quiet_entry (fixed_prefix p, GetAllSubmodelElementsReference show repr).
    Proof.
      right. right. exists p. split; [reflexivity|]. split; [reflexivity|]. intros c profile. apply suite_fine.
      - reflexivity.
      - vm_compute. reflexivity.
      - reflexivity.
      - intros q v [<-|[<-|[]]] G; [|discriminate G]. cbn in G. injection G as <-. apply error_fine. sendable.
      - intros t [<-|[<-|[<-|[]]]]; unfold t_get_one, t_pagination, t_invoke; cbn [snd i_cursor new_instance].
        + apply stops_fine, stops_bind. eapply invoke_stops; [reflexivity|reflexivity|sendable].
        + apply fine_abort.
        + apply stops_fine, stops_bind. eapply invoke_stops; [reflexivity|reflexivity|sendable].
    Qed.
    Lemma description_fine p : quiet_entry (fixed_prefix p, GetDescription show repr).
    Proof.
      right. right. exists p. split; [reflexivity|]. split; [reflexivity|]. intros c profile. apply suite_fine.
      - reflexivity.
      - vm_compute. reflexivity.
      - reflexivity.
      - intros ? ? [].
      - intros t [<-|[]]. cbn [snd]. apply stops_fine, stops_bind. eapply invoke_stops; [reflexivity|reflexivity|sendable].
    Qed.
    Ltac simple := apply simple_fine; [reflexivity|vm_compute; reflexivity|sendable].
    Lemma elements_quiet p : Forall quiet_entry (elements_suites show repr (fixed_prefix p)).
    Proof.
      unfold elements_suites. repeat apply Forall_cons.
      all: lazymatch goal with
           | |- Forall _ [] => apply Forall_nil
           | |- quiet_entry (_, GetAllSubmodelElementsReference _ _) => apply references_fine
           | |- quiet_entry _ => by_setup
           end.
    Qed.
    Lemma elements_quiet_prefix p : (forall c, Stops (p c)) -> Forall quiet_entry (elements_suites show repr p).
    Proof. intros S. apply Forall_forall. intros [q e] I. unfold elements_suites in I. repeat (destruct I as [[= <- <-]|I]; [now apply quiet_prefix|]). destruct I. Qed.
    Lemma by_id_quiet p setup : (forall i, Stops (setup i)) -> Forall quiet_entry (by_id_suites show repr (fixed_prefix p) setup).
    Proof. intros S. unfold by_id_suites. repeat (apply Forall_cons; [apply quiet_setup; exact S|]). apply Forall_nil. Qed.
    Lemma by_id_quiet_prefix p setup : (forall c, Stops (p c)) -> Forall quiet_entry (by_id_suites show repr p setup).
    Proof. intros S. unfold by_id_suites. repeat (apply Forall_cons; [now apply quiet_prefix|]). apply Forall_nil. Qed.
    Lemma shell_quiet_prefix p : (forall c, Stops (p c)) -> Forall quiet_entry (shell_suites show repr p).
    Proof. intros S. unfold shell_suites. repeat (apply Forall_cons; [now apply quiet_prefix|]). apply Forall_nil. Qed.
    Lemma shell_quiet p : Forall quiet_entry (shell_suites show repr (fixed_prefix p)).
    Proof. unfold shell_suites. apply Forall_cons; [simple|]. apply Forall_cons; [simple|]. apply Forall_cons; [by_setup|]. apply Forall_nil. Qed.
    Lemma aas_submodel_stops c : Stops (aas_submodel_prefix show repr c).
    Proof. apply stops_bind, shell_stop. Qed.
    Lemma aas_repo_stops c : Stops (aas_repo_prefix show repr c).
    Proof. apply stops_bind, shells_stop. Qed.
    Lemma aas_repo_submodel_stops c : Stops (aas_repo_submodel_prefix show repr c).
    Proof. apply stops_bind, shells_stop. Qed.
    Lemma submodel_repo_submodel_stops c : Stops (submodel_repo_submodel_prefix show repr c).
    Proof. apply stops_bind, submodels_stop. Qed.
    Ltac prefix_stops := intros; lazymatch goal with
      | |- Stops (aas_submodel_prefix _ _ _) => apply aas_submodel_stops
      | |- Stops (aas_repo_prefix _ _ _) => apply aas_repo_stops
      | |- Stops (aas_repo_submodel_prefix _ _ _) => apply aas_repo_submodel_stops
      | |- Stops (submodel_repo_submodel_prefix _ _ _) => apply submodel_repo_submodel_stops
      end.

    Theorem all_quiet : Forall (fun x => Forall quiet_entry (snd x)) (available_suites show repr).
    Proof.
      repeat lazymatch goal with
      | |- Forall _ (available_suites _ _) => unfold available_suites, no_prefix, aas_prefix, submodel_prefix
      | |- Forall _ [] => apply Forall_nil
      | |- Forall _ (_ :: _) => apply Forall_cons
      | |- Forall _ (snd _) => cbn [snd]
      | |- Forall _ (_ ++ _) => apply Forall_app; split
      | |- Forall _ (elements_suites _ _ (fixed_prefix _)) => apply elements_quiet
      | |- Forall _ (elements_suites _ _ _) => apply elements_quiet_prefix; prefix_stops
      | |- Forall _ (by_id_suites _ _ (fixed_prefix _) _) => apply by_id_quiet; intros; setup_stops
      | |- Forall _ (by_id_suites _ _ _ _) => apply by_id_quiet_prefix; prefix_stops
      | |- Forall _ (shell_suites _ _ (fixed_prefix _)) => apply shell_quiet
      | |- Forall _ (shell_suites _ _ _) => apply shell_quiet_prefix; prefix_stops
      | |- quiet_entry (_, GetDescription _ _) => apply description_fine
      | |- quiet_entry (_, GetShell _ _) => simple
      | |- quiet_entry (_, GetShellReference _ _) => simple
      | |- quiet_entry (_, GetSubmodel _ _) => simple
      | |- quiet_entry (_, GetSubmodelMeta _ _) => simple
      | |- quiet_entry (_, GetSubmodelValue _ _) => simple
      | |- quiet_entry (_, GetSubmodelReference _ _) => simple
      | |- quiet_entry (_, GetSubmodelPath _ _) => simple
      | |- quiet_entry _ => by_setup
      end.
    Qed.
  End Refusing.
End Messages.
