(** Properties C75 to C84: the check of a server. *)
From Coq Require Import PeanoNat String List NArith ZArith Bool Lia.
From Verif Require Import PyStr PyStrFacts PyBase PyVal Codec CodecSpec ResultModel ResultSpec ResultFacts ContextModel HttpModel ConfigModel ReflectModel MetaModel
  AdapterModel ParseModel ConstraintModel ProgModel ProgSpec ProgFacts ParseSpec ApiModel ApiSpec ApiSuites ApiFacts ApiBody ApiTables ApiFacts2 ApiFacts3.
Import ListNotations.
Local Open Scope nat_scope.
Local Open Scope list_scope.

(** * Every report has the described shape *)
Lemma version_cases show repr c conf :
  (Known_version conf /\ check_api show repr c conf = execute_tests (available_suites show repr) c conf) \/
  (~ Known_version conf /\ check_api show repr c conf = PRaise AasTestToolsException []).
Proof.
  unfold check_api, Known_version. destruct (cf_version conf) as [[|x v]|].
  - left. split; [now right; left|reflexivity].
  - destruct (str_eqb (x :: v) (lit "3.0")) eqn:E.
    + apply str_eqb_spec in E. left. split; [right; right; now rewrite E|reflexivity].
    + right. split; [|reflexivity]. intros [K|[K|K]]; [discriminate..|]. assert (K' : x :: v = lit "3.0") by congruence.
      rewrite K', str_eqb_refl in E. discriminate.
  - left. split; [now left|reflexivity].
Qed.
Lemma returns_known show repr c conf srv x h : Returns (check_api show repr c conf) srv x h ->
  Known_version conf /\ check_api show repr c conf = execute_tests (available_suites show repr) c conf.
Proof.
  destruct (version_cases show repr c conf) as [K|[_ E]]; [auto|]. rewrite E. intros R. discriminate R.
Qed.
Lemma suite_good show repr conf l : lookup (cf_suite conf) (available_suites show repr) = Some l -> Forall good_entry l.
Proof. intros L. apply lookup_In_pair in L. exact (proj1 (Forall_forall _ _) (all_good show repr) _ L). Qed.

Lemma no_tests (l : list result) : length (filter ok l) = 0 -> length (filter (fun r => negb (ok r)) l) = 0 -> l = [].
Proof. destruct l as [|x l]; [reflexivity|]. cbn [filter]. destruct (ok x); discriminate. Qed.

Lemma operations_unique n a b : In (n, a) suite_operations -> In (n, b) suite_operations -> b = a.
Proof.
  pose proof suite_names_distinct as ND. revert ND. generalize suite_operations as so.
  induction so as [|[k v] so IH]; cbn [List.map]; intros ND I I'; [destruct I|]. inversion_clear ND.
  destruct I as [I|I], I' as [I'|I']; try congruence; [|..].
  - injection I as -> ->. apply (in_map fst) in I'. now destruct H.
  - injection I' as -> ->. apply (in_map fst) in I. now destruct H.
  - now apply IH.
Qed.
Lemma asked_suite show repr conf ops : Asked conf ops -> exists l, lookup (cf_suite conf) (available_suites show repr) = Some l.
Proof.
  intros (n & all & N & I & _). destruct (lookup (cf_suite conf) (available_suites show repr)) as [l|] eqn:L; [eauto|]. exfalso.
  apply (in_map (fun p => (lit (fst p), List.map lit (snd p)))) in I. cbn [fst snd] in I. rewrite <- (suites_described show repr) in I.
  apply in_map_iff in I. destruct I as ([k l] & Q & I). cbn [fst snd] in Q. injection Q as Q1 Q2. rewrite <- N in Q1. subst k.
  clear - L I. revert L I. generalize (available_suites show repr) as so. induction so as [|[k v] so IH]; [intros ? []|].
  cbn [lookup]. destruct (str_eqb (cf_suite conf) k) eqn:E; [discriminate|]. intros L [I|I]; [|now apply IH].
  injection I as -> ->. now rewrite str_eqb_refl in E.
Qed.
Lemma filter_length (l : list result) : length (filter ok l) + length (filter (fun r => negb (ok r)) l) = length l.
Proof. induction l as [|x l IH]; [reflexivity|]. cbn [filter length]. destruct (ok x); cbn [negb length]; lia. Qed.

Theorem complete_reports : forall show repr c conf srv root m h, cf_dry conf = false ->
  Returns (check_api show repr c conf) srv (root, m) h ->
  (Unreached c conf root h /\ m = zero_matrix /\ tests_reported (lit "Negative Tests") root = [] /\ tests_reported (lit "Positive Tests") root = []) \/
  (exists ops pieces, Asked conf ops /\ Complete c conf ops pieces root h) /\
  Counts m (tests_reported (lit "Negative Tests") root) (tests_reported (lit "Positive Tests") root).
Proof.
  intros show repr c conf srv root m h D R. destruct (returns_known _ _ _ _ _ _ _ R) as [K E]. rewrite E in R.
  apply report_shape in R; [|exact D|apply suite_good].
  destruct R as (l & reach & rest & s & h' & L & M & Ro & -> & C & Q).
  destruct (srv [] s) as [st ct d|e t] eqn:S.
  - right. destruct Q as (O & pieces & sum & -> & Ms & Os & Nr & Ns & -> & W). split; [|exact C].
    pose proof (lookup_In_pair _ _ _ L) as I. destruct (operations_of show repr (cf_suite conf, l) L) as (n & ops & N & J & Names). cbn [fst snd] in *.
    exists (filter (fun o => selected (cf_filter conf) (lit o)) ops), pieces. split; [now exists n, ops|].
    exists reach, (s, Response st ct d), sum. split; [exact Ro|]. split; [exact M|]. split; [exact O|]. split; [discriminate|].
    split; [exact Ms|]. split; [exact Os|]. split; [exact Nr|]. split; [exact Ns|]. split; [reflexivity|]. eapply checked_operations; eauto.
  - left. destruct Q as (-> & O & -> & -> & ->). split; [|split; [reflexivity|]].
    + exists reach, s, t. auto.
    + destruct C as (C1 & C2 & C3 & C4). fold s_neg s_pos. split; apply no_tests; symmetry; assumption.
Qed.
Print Assumptions complete_reports.

(** * C75 *)
Theorem C75_dry_run : forall show repr c conf srv, cf_dry conf = true ->
  snd (run (check_api show repr c conf) srv) = [] /\
  (forall ops, Known_version conf -> Asked conf ops -> exists root reach sum, Returns (check_api show repr c conf) srv (root, zero_matrix) [] /\
     ok root = true /\ r_subs root = reach :: List.map (fun o => new_result (lit "Checking " ++ lit o) INFO) ops ++ [sum]).
Proof.
  intros show repr c conf srv D. destruct (version_cases show repr c conf) as [[K ->]|[K ->]].
  2:{ split; [reflexivity|]. intros ops K'. now destruct K. }
  destruct (lookup (cf_suite conf) (available_suites show repr)) as [l|] eqn:L.
  - assert (M : exists reach sum, ok reach = true /\ ok sum = true /\ meaning (root_body c conf l) srv [] =
      (reach :: List.map (fun e => new_result (lit "Checking " ++ su_operation (snd e)) INFO) (chosen (cf_filter conf) l) ++ [sum], Ret zero_matrix, [])).
    { unfold root_body. rewrite D, meaning_bind. unfold check_server. rewrite meaning_bind, meaning_block.
      cbn [pwrite pbind meaning andthen app]. rewrite meaning_bind, operations_dry. cbn [andthen]. rewrite meaning_bind.
      destruct (summary_meaning zero_matrix srv []) as (r & -> & _ & _ & _ & O). cbn [andthen meaning app].
      do 2 eexists. split; [|split; [exact O|reflexivity]]. reflexivity. }
    destruct M as (reach & sum & O1 & O2 & M). split.
    + rewrite (run_root _ _ _ _ _ L), M. reflexivity.
    + intros ops _ A. destruct A as (n & all & N & I & ->).
      destruct (operations_of show repr (cf_suite conf, l) L) as (n' & all' & N' & I' & Names). cbn [fst snd] in *.
      assert (n' = n) by (apply lit_inj; congruence). subst n'.
      assert (all' = all) by now apply (operations_unique n).
      subst all'. apply (chosen_names (cf_filter conf)) in Names.
      exists (appends (new_result (root_title conf) INFO) (reach :: List.map (fun o => new_result (lit "Checking " ++ lit o) INFO)
               (filter (fun o => selected (cf_filter conf) (lit o)) all) ++ [sum])), reach, sum.
      assert (Same : List.map (fun e => new_result (lit "Checking " ++ su_operation (snd e)) INFO) (chosen (cf_filter conf) l) =
        List.map (fun o => new_result (lit "Checking " ++ lit o) INFO) (filter (fun o => selected (cf_filter conf) (lit o)) all)).
      { apply (f_equal (List.map (fun n => new_result (lit "Checking " ++ n) INFO))) in Names. rewrite !map_map in Names. exact Names. }
      split; [|split].
      * unfold Returns. rewrite (run_root _ _ _ _ _ L), M, Same. reflexivity.
      * rewrite ok_appends. cbn [forallb]. rewrite O1, forallb_app. cbn [forallb]. rewrite O2.
        change (ok (new_result (root_title conf) INFO)) with true. cbn [andb]. rewrite andb_true_r.
        apply forallb_forall. intros x J. apply in_map_iff in J. destruct J as (o & <- & _). reflexivity.
      * apply new_subs.
  - split.
    + unfold run, execute_tests. rewrite L. reflexivity.
    + intros ops _ A. destruct (asked_suite show repr conf ops A) as [l L']. congruence.
Qed.
Print Assumptions C75_dry_run.

(** * C76 *)
(** the operations that the filter does not select are taken out of the suites *)
Definition restricted (f : option test_filter) (suites : list (str * list entry)) : list (str * list entry) :=
  List.map (fun s => (fst s, filter (fun e => selected f (su_operation (snd e))) (snd s))) suites.
Definition unfiltered (conf : config) : config := Config (cf_suite conf) (cf_version conf) (cf_dry conf) None.
Theorem C76_filter : forall suites c conf srv,
  run (execute_tests suites c conf) srv = run (execute_tests (restricted (cf_filter conf) suites) c (unfiltered conf)) srv.
Proof.
  intros suites c conf srv.
  assert (L : lookup (cf_suite (unfiltered conf)) (restricted (cf_filter conf) suites) =
    match lookup (cf_suite conf) suites with Some l => Some (chosen (cf_filter conf) l) | None => None end).
  { cbn [unfiltered cf_suite]. induction suites as [|[k v] suites IH]; [reflexivity|]. cbn [restricted List.map lookup fst snd].
    destruct (str_eqb (cf_suite conf) k); [reflexivity|exact IH]. }
  destruct (lookup (cf_suite conf) suites) as [l|] eqn:K.
  - rewrite (run_root _ _ _ _ _ K), (run_root _ _ _ _ _ L).
    assert (E : meaning (root_body c conf l) srv [] = meaning (root_body c (unfiltered conf) (chosen (cf_filter conf) l)) srv []).
    { unfold root_body. cbn [unfiltered cf_suite cf_dry cf_filter]. rewrite !meaning_bind.
      destruct (meaning (check_server (cf_dry conf) c) srv []) as [[es [[|]|a|e t]] h]; cbn [andthen]; try reflexivity.
      rewrite !meaning_bind, operations_chosen. reflexivity. }
    rewrite E. reflexivity.
  - unfold run, execute_tests. rewrite L, K. reflexivity.
Qed.
Print Assumptions C76_filter.
(** and what is reported is what was asked for *)
Theorem C76_reported : forall show repr c conf srv root m h, cf_dry conf = false ->
  Returns (check_api show repr c conf) srv (root, m) h ->
  Unreached c conf root h \/
  exists ops reach pieces sum, Asked conf ops /\ r_subs root = reach :: pieces ++ [sum] /\
    List.map r_message pieces = List.map (fun o => lit "Checking " ++ lit o) ops.
Proof.
  intros show repr c conf srv root m h D R. destruct (complete_reports _ _ _ _ _ _ _ _ D R) as [(U & _)|((ops & pieces & A & C) & _)]; [now left|].
  right. destruct C as (reach & first & sum & (_ & Ro & _) & _ & _ & _ & _ & _ & _ & _ & _ & F).
  exists ops, reach, (List.map fst pieces), sum. split; [exact A|]. split; [exact Ro|]. clear - F.
  induction F as [|o p ops pieces X F IH]; [reflexivity|]. cbn [List.map]. rewrite IH. f_equal.
  destruct X as (w & n & pos & _ & _ & [setup E _ _ _|setup neg ps ns pp t0 t1 t2 E _ _ _ _ _ _ _ _ _ _]); apply E.
Qed.
Print Assumptions C76_reported.

(** * C77 *)
Lemma entry_ok title subs r : entry_of title subs r -> ok r = true -> forall x, In x subs -> ok x = true.
Proof.
  intros (_ & _ & L) O x I. unfold ok in *. eapply level_ok_mono; [|exact O]. rewrite L. apply fold_or_ge_in. now apply in_map.
Qed.
Lemma entry_critical title subs r x : entry_of title subs r -> In x subs -> r_level x = CRITICAL -> r_level r = CRITICAL.
Proof. intros (_ & _ & L) I C. rewrite L. apply worst_critical. apply Exists_exists. eauto. Qed.
(** an exchange with a right answer *)
Definition Served (op : string) (x : sent * reply) : Prop :=
  Usable (snd x) \/ Rejected (snd x) \/ Acceptable (answer_to (lit op)) (snd x).

Lemma judged_critical ns t : Judged ns t -> Exists ServerError t -> exists n, In n ns /\ r_level n = CRITICAL.
Proof.
  induction 1 as [|r x ns t (_ & S) J IH]; intros E; inversion E; subst.
  - exists r. split; [now left|auto].
  - destruct IH as (n & I & L); [assumption|]. exists n. split; [now right|exact L].
Qed.
Lemma covers_critical acc ps t2 : Forall2 (Covers true acc) ps t2 -> Exists ServerError (List.concat t2) -> exists p, In p ps /\ r_level p = CRITICAL.
Proof.
  induction 1 as [|p t ps t2 (_ & S) F IH]; cbn [List.concat]; intros E; [inversion E|]. apply Exists_app in E. destruct E as [E|E].
  - exists p. split; [now left|auto].
  - destruct IH as (n & I & L); [assumption|]. exists n. split; [now right|exact L].
Qed.
Lemma operation_critical op neg pos r t : operation_report op neg pos r t -> checked (answer_to op) = true -> Exists ServerError t -> r_level r = CRITICAL.
Proof.
  intros [setup E _ _ (_ & C)|setup ng ps ns pp t0 t1 t2 E -> _ _ (_ & C) En _ J Ep _ F] K X.
  - eapply entry_critical; [exact E|now left|auto].
  - rewrite !Exists_app in X. rewrite K in F. destruct X as [X|[X|X]].
    + eapply entry_critical; [exact E|now left|auto].
    + destruct (judged_critical _ _ J X) as (n & I & L). eapply entry_critical; [exact E|right; now left|]. eapply entry_critical; eauto.
    + destruct (covers_critical _ _ _ F X) as (n & I & L). eapply entry_critical; [exact E|right; right; now left|]. eapply entry_critical; eauto.
Qed.
Lemma operation_served op neg pos r t : operation_report (lit op) neg pos r t -> ok r = true -> Forall (Served op) t.
Proof.
  intros [setup E _ O _|setup ng ps ns pp t0 t1 t2 E -> _ _ (C & _) En _ J Ep _ F] K.
  - rewrite (entry_ok _ _ _ E K setup (or_introl eq_refl)) in O. discriminate.
  - assert (K1 := entry_ok _ _ _ E K setup (or_introl eq_refl)). assert (K2 := entry_ok _ _ _ E K ng (or_intror (or_introl eq_refl))).
    assert (K3 := entry_ok _ _ _ E K ps (or_intror (or_intror (or_introl eq_refl)))).
    assert (Kn := entry_ok _ _ _ En K2). assert (Kp := entry_ok _ _ _ Ep K3). rewrite !Forall_app. split; [|split].
    + eapply Forall_impl; [|apply (C K1)]. intros x U. now left.
    + clear - J Kn. induction J as [|r x ns t (A & _) J IH]; constructor.
      * right. left. apply A, Kn. now left.
      * apply IH. intros y I. apply Kn. now right.
    + clear - F Kp. induction F as [|p t ps t2 (A & _) F IH]; cbn [List.concat]; [constructor|]. apply Forall_app. split.
      * eapply Forall_impl; [|apply A, Kp; now left]. intros x U. right. now right.
      * apply IH. intros y I. apply Kp. now right.
Qed.

(** One call of an operation whose answer is checked, within a test.  What is missing for the
    whole property: see [C77_refuted]. *)
Theorem C77_call : forall show repr title c e a t b x srv r u, In (t, b) bodies ->
  request_of e [(lit "content-type", lit "application/json")] a = Val r -> make_url r = Val u ->
  exists s, let call := block title (invoke_and_decode show repr c e a t x) in
    snd (run call srv) = [(s, srv [] s)] /\
    match srv [] s with
    | Failed e m => fst (run call srv) = Exc e m
    | Response st ct d =>
        (forall v q, fst (run call srv) = Ret (v, q) -> ok q = true -> status_in st x = true /\ exists j, d = Json j /\ BodyOk b j) /\
        ((500 <= st)%Z -> exists q, fst (run call srv) = Ret (None, q) /\ r_level q = CRITICAL) /\
        ((st < 500)%Z -> status_in st x = false -> exists q, fst (run call srv) = Ret (None, q) /\ r_level q = ERROR)
    end.
Proof.
  intros show repr title c e a t b x srv r u I R U. destruct (sends c r u U) as [s S]. exists s. cbv zeta.
  assert (E : run (block title (invoke_and_decode show repr c e a t x)) srv =
    (snd (fst (meaning (block title (invoke_and_decode show repr c e a t x)) srv [])), snd (meaning (block title (invoke_and_decode show repr c e a t x)) srv []))).
  { unfold run, block. destruct (exec_block (new_result title INFO) (invoke_and_decode show repr c e a t x) (fun o q => (o, q)) srv 0 []) as [n ->]. reflexivity. }
  rewrite E. clear E. cbn [fst snd]. rewrite meaning_block.
  assert (M : exists es k, meaning (invoke_and_decode show repr c e a t x) srv [] = (es, k, [(s, srv [] s)]) /\
    match srv [] s with
    | Failed e m => k = Exc e m
    | Response st ct d => forallb ok es = true /\ fold_left level_or (List.map r_level es) INFO = INFO /\
        ((500 <= st)%Z -> k = Abort (new_result (lit "Got unexpected status code " ++ str_of_Z st) CRITICAL)) /\
        ((st < 500)%Z -> status_in st x = false -> k = Abort (new_result (lit "Got unexpected status code " ++ str_of_Z st) ERROR))
    end \/ exists st ct d, srv [] s = Response st ct d /\ (st < 500)%Z /\ status_in st x = true /\
      meaning (invoke_and_decode show repr c e a t x) srv [] = (es, k, [(s, srv [] s)])).
  { unfold invoke_and_decode. rewrite R. cbn [lift pbind]. unfold invoke. rewrite U, S. cbn [lift pbind say pwrite meaning].
    destruct (srv [] s) as [st ct d|y m] eqn:V; [|do 2 eexists; left; split; reflexivity].
    cbn [pbind meaning app]. destruct (Z.leb_spec 500 st) as [L|L]; [|destruct (status_in st x) eqn:W; cbn [negb]].
    - cbn [meaning]. do 2 eexists. left. split; [reflexivity|]. split; [reflexivity|]. split; [reflexivity|]. split; [reflexivity|lia].
    - match goal with |- context [meaning ?p srv ?h] => destruct (meaning p srv h) as [[es k] h1] eqn:Q end.
      assert (h1 = [(s, Response st ct d)]).
      { rewrite meaning_bind in Q. destruct d as [j|m]; [destruct j|]; cbn [extract_json fail_with meaning andthen] in Q; try (now injection Q as <- <- <-).
        all: rewrite meaning_bind, meaning_lift in Q;
          match type of Q with context [check_body ?f ?g ?v ?j] => destruct (check_body f g v j) as [[q y]|] end; cbn [andthen] in Q;
          [|now injection Q as <- <- <-]; destruct (ok q); cbn in Q; now injection Q as <- <- <-. }
      subst h1. do 2 eexists. right. exists st, ct, d. auto.
    - cbn [meaning]. do 2 eexists. left. split; [reflexivity|]. split; [reflexivity|]. split; [reflexivity|]. split; [lia|reflexivity]. }
  destruct M as (es & k & [[M Q]|(st & ct & d & V & L & W & M)]).
  - rewrite M. destruct (srv [] s) as [st ct d|y m] eqn:V; [|subst k; split; reflexivity].
    destruct Q as (Oe & Le & Q1 & Q2). destruct (Z.leb_spec 500 st) as [L|L].
    + specialize (Q1 L). subst k. split; [reflexivity|]. cbn [fst snd]. split; [|split].
      * intros v q Eq O. exfalso. injection Eq as <- <-. rewrite ok_appends, forallb_app in O. cbn [forallb] in O.
        change (ok (new_result (lit "Got unexpected status code " ++ str_of_Z st) CRITICAL)) with false in O. now rewrite !andb_false_r in O.
      * intros _. eexists. split; [reflexivity|]. rewrite appends_level, map_app, fold_left_app. cbn [r_level new_result] in *. rewrite Le. reflexivity.
      * lia.
    + destruct (status_in st x) eqn:W.
      * assert (D := decode_cases _ _ _ _ _ _ _ _ _ _ _ _ M). split; [destruct k; reflexivity|]. split; [|split; [lia|discriminate]].
        intros v q Eq O. split; [reflexivity|]. destruct D as [(? & ? & ->)|(s' & st' & ct' & d' & T & V' & D)]; [discriminate Eq|].
        assert (s' = s) by (cbn [app] in T; congruence). subst s'. rewrite V in V'. injection V' as <- <- <-.
        assert (P : passed es k = true).
        { unfold passed. destruct k; cbn [fst snd] in Eq; try discriminate Eq; injection Eq as <- <-; rewrite ok_appends, ?forallb_app in O; cbn [forallb] in O;
            apply andb_prop in O; destruct O as [_ O]; rewrite ?andb_true_r in O; now rewrite ?andb_true_r. }
        destruct D as [(P' & _)|[(P' & _)|(_ & _ & _ & j & q' & y & -> & _ & B & Oq & _)]]; [congruence..|].
        exists j. split; [reflexivity|]. eapply check_ok; eauto.
      * specialize (Q2 L eq_refl). subst k. split; [reflexivity|]. cbn [fst snd]. split; [|split].
        -- intros v q Eq O. exfalso. injection Eq as <- <-. rewrite ok_appends, forallb_app in O. cbn [forallb] in O.
           change (ok (new_result (lit "Got unexpected status code " ++ str_of_Z st) ERROR)) with false in O. now rewrite !andb_false_r in O.
        -- lia.
        -- intros _ _. eexists. split; [reflexivity|]. rewrite appends_level, map_app, fold_left_app. cbn [r_level new_result] in *. rewrite Le. reflexivity.
  - rewrite M. rewrite V. split; [destruct k; reflexivity|]. split; [|split; [lia|congruence]].
    assert (D := decode_cases _ _ _ _ _ _ _ _ _ _ _ _ M).
    intros v q Eq O. split; [exact W|]. destruct D as [(? & ? & ->)|(s' & st' & ct' & d' & T & V' & D)]; [discriminate Eq|].
    assert (s' = s) by (cbn [app] in T; congruence). subst s'. rewrite V in V'. injection V' as <- <- <-.
    assert (P : passed es k = true).
    { unfold passed. destruct k; cbn [fst snd] in Eq; try discriminate Eq; injection Eq as <- <-; rewrite ok_appends, ?forallb_app in O; cbn [forallb] in O;
        apply andb_prop in O; destruct O as [_ O]; rewrite ?andb_true_r in O; now rewrite ?andb_true_r. }
    destruct D as [(P' & _)|[(P' & _)|(_ & _ & _ & j & q' & y & -> & _ & B & Oq & _)]]; [congruence..|].
    exists j. split; [reflexivity|]. eapply check_ok; eauto.
Qed.
Print Assumptions C77_call.

(** For the operations whose answers are checked; GetThumbnail, GetFileByPath and three of the
    ValueOnly and Metadata operations are missing, and so is the first request. *)
Theorem C77_server_errors_partial : forall show repr c conf srv root m h, cf_dry conf = false ->
  Returns (check_api show repr c conf) srv (root, m) h -> Unreached c conf root h \/
  exists ops pieces, Asked conf ops /\ Complete c conf ops pieces root h /\
    Forall2 (fun op piece =>
      (checked (answer_to (lit op)) = true -> Exists ServerError (snd piece) -> r_level (fst piece) = CRITICAL /\ r_level root = CRITICAL) /\
      (ok (fst piece) = true -> Forall (Served op) (snd piece)) /\ (ok root = true -> ok (fst piece) = true)) ops pieces.
Proof.
  intros show repr c conf srv root m h D R. destruct (complete_reports _ _ _ _ _ _ _ _ D R) as [(U & _)|((ops & pieces & A & C) & _)]; [now left|].
  right. exists ops, pieces. split; [exact A|]. split; [exact C|]. destruct C as (reach & first & sum & Ro & _ & _ & _ & _ & _ & _ & _ & _ & F).
  assert (G : forall p, In p pieces -> In (fst p) (reach :: List.map fst pieces ++ [sum])).
  { intros p I. right. apply in_or_app. left. now apply in_map. }
  revert Ro G. generalize (reach :: List.map fst pieces ++ [sum]) as subs. intros subs Ro G. clear - F Ro G.
  induction F as [|o p ops ps (w & n & pos & _ & _ & X) F IH]; constructor; [|apply IH; intros; apply G; now right].
  assert (J : In (fst p) subs) by (apply G; now left). split; [|split].
  - intros K E. assert (L := operation_critical _ _ _ _ _ X K E). split; [exact L|]. eapply entry_critical; eauto.
  - intros K. eapply operation_served; eauto.
  - intros K. eapply entry_ok; eauto.
Qed.
Print Assumptions C77_server_errors_partial.

(** The operations whose answers are not checked *)
Example C77_unchecked : List.map fst (filter (fun x => negb (checked (answer_to (lit (fst x))))) op_tests) =
  ["GetThumbnail"; "GetSubmodelById-ValueOnly"; "GetSubmodel-ValueOnly"; "GetSubmodelElementByPath-Metadata";
   "GetSubmodelElementByPath-ValueOnly"; "GetFileByPath"]%string.
Proof. vm_compute. reflexivity. Qed.

(** Concrete runs *)
Definition some_client : client := new_client (lit "http://localhost") true [] [].
Definition only (n : string) : option test_filter := Some (Filter [translate (lit n)] []).
Definition shell_service : str := lit "https://admin-shell.io/aas/API/3/0/AssetAdministrationShellServiceSpecification/SSP-002".
Definition repository : str := lit "https://admin-shell.io/aas/API/3/0/AssetAdministrationShellRepositoryServiceSpecification/SSP-002".
Definition submodel_service : str := lit "https://admin-shell.io/aas/API/3/0/SubmodelServiceSpecification/SSP-002".
Definition run_of (suite : str) (op : string) (srv : server) : ctl (result * matrix) * trace :=
  run (check_api (fun _ => []) (fun _ => []) some_client (Config suite None false (only op))) srv.
Definition verdict (x : ctl (result * matrix) * trace) : option (level * matrix * list reply) :=
  match x with (Ret (r, m), h) => Some (r_level r, m, List.map snd h) | _ => None end.
(** a server that answers everything in the same way *)
Definition constantly (r : reply) : server := fun _ _ => r.
Definition broken : reply := Response 500 (Some []) (NoJson []).

Theorem C77_refuted : exists show repr c conf srv root m h x, cf_dry conf = false /\
  Returns (check_api show repr c conf) srv (root, m) h /\ In x h /\ ServerError x /\ r_level root = INFO.
Proof.
  destruct (run_of shell_service "GetThumbnail" (constantly broken)) as [k h] eqn:E.
  assert (V : verdict (run_of shell_service "GetThumbnail" (constantly broken)) = Some (INFO, Matrix 0 0 1 0, [broken; broken])) by (vm_compute; reflexivity).
  rewrite E in V. destruct k as [[root m]| |]; try discriminate V. cbn [verdict] in V.
  assert (V1 : r_level root = INFO) by congruence. assert (V3 : List.map snd h = [broken; broken]) by congruence.
  destruct h as [|x h]; [discriminate V3|]. cbn [List.map] in V3. assert (X : snd x = broken) by congruence.
  exists (fun _ => []), (fun _ => []), some_client, (Config shell_service None false (only "GetThumbnail")), (constantly broken), root, m, (x :: h), x.
  split; [reflexivity|]. split; [exact E|]. split; [now left|]. split; [|exact V1]. exists 500%Z, (Some []), (NoJson []). split; [exact X|lia].
Qed.
Print Assumptions C77_refuted.

Definition profile_answer : reply := Response 200 (Some []) (Json (JObj [(lit "profiles", JArr [JStr shell_service])])).
Example C77_ok : verdict (run_of shell_service "GetDescription" (constantly profile_answer)) = Some (INFO, Matrix 0 0 1 0, [profile_answer; profile_answer]).
Proof. vm_compute. reflexivity. Qed.
Example C77_critical : verdict (run_of shell_service "GetDescription" (constantly broken)) = Some (CRITICAL, Matrix 0 0 0 1, [broken; broken]).
Proof. vm_compute. reflexivity. Qed.
Example C77_not_conforming : option_map fst (verdict (run_of shell_service "GetDescription" (constantly (Response 200 None (Json (JObj [])))))) = Some (ERROR, Matrix 0 0 0 1).
Proof. vm_compute. reflexivity. Qed.

(** * C78 *)
Lemma within_refl {A} (l : list A) : Within l l.
Proof. induction l; constructor. assumption. Qed.
Lemma within_app {A} (a b c d : list A) : Within a b -> Within c d -> Within (a ++ c) (b ++ d).
Proof.
  intros W V. induction W as [l|x l m W IH|x l m W IH]; cbn [app].
  - induction l as [|x l IH]; [exact V|]. cbn [app]. now constructor.
  - now constructor.
  - now constructor.
Qed.
Lemma within_right {A} (a b c : list A) : Within b c -> Within b (a ++ c).
Proof. intros W. apply (within_app [] a b c); [constructor|exact W]. Qed.
Lemma within_left {A} (a b c : list A) : Within a b -> Within a (b ++ c).
Proof. intros W. rewrite <- (app_nil_r a). apply within_app; [exact W|constructor]. Qed.
Lemma judged_app a b t u : Judged a t -> Judged b u -> Judged (a ++ b) (t ++ u).
Proof. apply Forall2_app. Qed.

Lemma operation_judged op neg pos r t : operation_report op neg pos r t -> exists tn, Within tn t /\ Judged (tests_of s_neg r) tn.
Proof.
  intros [setup E M _ _|setup ng ps ns pp t0 t1 t2 E -> M _ _ En _ J Ep _ _]; destruct E as (_ & S & _); unfold tests_of, parts; rewrite S; cbn [filter].
  - exists []. rewrite M. change (str_eqb (lit "Setup") s_neg) with false. split; constructor.
  - destruct En as (Mn & Sn & _). destruct Ep as (Mp & _ & _). rewrite M, Mn, Mp.
    change (str_eqb (lit "Setup") s_neg) with false. change (str_eqb (lit "Negative Tests") s_neg) with true.
    change (str_eqb (lit "Positive Tests") s_neg) with false. cbn [flat_map]. rewrite app_nil_r, Sn. exists t1.
    split; [apply within_right, within_left, within_refl|exact J].
Qed.
(** Each negative test that is reported belongs to one exchange with the server and it passes
    exactly if the server rejected the request; those are the tests that are counted. *)
Theorem C78_negative_tests : forall show repr c conf srv root m h, cf_dry conf = false ->
  Returns (check_api show repr c conf) srv (root, m) h ->
  let negative := tests_reported (lit "Negative Tests") root in
  exists sent, Within sent h /\ Judged negative sent /\ invalid_rejected m = length (filter ok negative) /\
    invalid_accepted m = length (filter (fun r => negb (ok r)) negative).
Proof.
  intros show repr c conf srv root m h D R negative. subst negative.
  destruct (complete_reports _ _ _ _ _ _ _ _ D R) as [(U & -> & -> & _)|((ops & pieces & A & C) & (C1 & C2 & _))].
  - exists []. split; [constructor|]. split; [constructor|]. split; reflexivity.
  - destruct C as (reach & first & sum & (_ & Sr & _) & Mr & _ & _ & Ms & _ & (Nr & _) & (Ns & _) & -> & F).
    enough (X : exists sent, Within sent (List.concat (List.map snd pieces)) /\ Judged (tests_reported (lit "Negative Tests") root) sent).
    { destruct X as (sent & W & J). exists sent. split; [now constructor|]. split; [exact J|]. split; assumption. }
    unfold tests_reported. rewrite Sr. cbn [flat_map]. rewrite flat_map_app. cbn [flat_map]. rewrite Nr, Ns, !app_nil_r. cbn [app]. clear - F.
    induction F as [|o p ops ps (w & n & pos & _ & _ & X) F (sent & W & J)]; cbn [List.map List.concat flat_map].
    + exists []. split; constructor.
    + destruct (operation_judged _ _ _ _ _ X) as (tn & Wn & Jn). exists (tn ++ sent). split; [now apply within_app|now apply judged_app].
Qed.
Print Assumptions C78_negative_tests.
Definition one_result (cursor : json) : reply :=
  Response 200 (Some []) (Json (JObj [(lit "result", JArr [JInt 1]); (lit "paging_metadata", JObj [(lit "cursor", cursor)])])).
Definition rejection : reply := Response 400 None (Json (JObj [(lit "messages", JArr [JObj [(lit "text", JStr (lit "no"))]])])).
(** a server that accepts everything without "level=%23" in the request, and one that accepts
    everything *)
Fixpoint contains (p s : str) : bool := startswith p s || match s with [] => false | _ :: r => contains p r end.
Definition careful : server := fun _ s =>
  if contains (lit "%23") (s_url s) || contains (lit "limit=-1") (s_url s) then rejection else one_result (JStr (lit "abc")).
Example C78_rejected : option_map fst (verdict (run_of submodel_service "GetAllSubmodelElements-ValueOnly" careful)) = Some (INFO, Matrix 2 0 5 0).
Proof. vm_compute. reflexivity. Qed.
Example C78_accepted : option_map fst (verdict (run_of submodel_service "GetAllSubmodelElements-ValueOnly" (constantly (one_result (JStr (lit "abc")))))) =
  Some (ERROR, Matrix 0 2 5 0).
Proof. vm_compute. reflexivity. Qed.

(** * C79 *)
Theorem C79_statistics : forall show repr c conf srv root m h, cf_dry conf = false ->
  Returns (check_api show repr c conf) srv (root, m) h ->
  let negative := tests_reported (lit "Negative Tests") root in
  let positive := tests_reported (lit "Positive Tests") root in
  Counts m negative positive /\
  invalid_rejected m + invalid_accepted m = length negative /\ valid_accepted m + valid_rejected m = length positive.
Proof.
  intros show repr c conf srv root m h D R negative positive. subst negative positive.
  assert (C : Counts m (tests_reported (lit "Negative Tests") root) (tests_reported (lit "Positive Tests") root)).
  { destruct (complete_reports _ _ _ _ _ _ _ _ D R) as [(U & -> & -> & ->)|(_ & C)]; [apply Counts_zero|exact C]. }
  split; [exact C|]. destruct C as (-> & -> & -> & ->). rewrite !filter_length. auto.
Qed.
Print Assumptions C79_statistics.

(** * C80 *)
Theorem C80_unreachable : forall show repr c conf srv ops, cf_dry conf = false -> Known_version conf -> Asked conf ops ->
  (forall s, exists t, srv [] s = Failed RequestException t) ->
  exists root h, Returns (check_api show repr c conf) srv (root, zero_matrix) h /\ Unreached c conf root h /\ length h = 1 /\
    r_level root = CRITICAL /\ tests_reported (lit "Negative Tests") root = [] /\ tests_reported (lit "Positive Tests") root = [].
Proof.
  intros show repr c conf srv ops D K A F. destruct (version_cases show repr c conf) as [[_ E]|[K' _]]; [|now destruct K'].
  destruct (asked_suite show repr conf ops A) as [l L].
  assert (X : exists root h, Returns (check_api show repr c conf) srv (root, zero_matrix) h).
  { destruct (reach_request c) as [s S]. destruct (F s) as [t T]. unfold Returns. rewrite E, (run_root _ _ _ _ _ L).
    unfold root_body, check_server. rewrite D, S, meaning_bind, meaning_bind, meaning_block. cbn [lift pbind meaning]. rewrite T.
    cbn [pbind pwrite meaning andthen app]. eauto. }
  destruct X as (root & h & R). exists root, h. split; [exact R|]. pose proof R as R'. rewrite E in R'.
  apply report_shape in R'; [|exact D|apply suite_good]. destruct R' as (l' & reach & rest & s & h' & _ & M & Ro & -> & C & Q).
  destruct (F s) as [t T]. rewrite T in *. destruct Q as (_ & Le & -> & -> & _). split; [now exists reach, s, t|]. split; [reflexivity|].
  split; [eapply entry_critical; [exact Ro|now left|exact Le]|]. destruct C as (C1 & C2 & C3 & C4). split; apply no_tests; symmetry; assumption.
Qed.
Print Assumptions C80_unreachable.
Definition unreachable : server := constantly (Failed RequestException (lit "refused")).
Example C80_example : verdict (run_of repository "*" unreachable) = Some (CRITICAL, zero_matrix, [Failed RequestException (lit "refused")]).
Proof. vm_compute. reflexivity. Qed.

(** * C81 *)
(** All selected operations are reported with all their tests, whatever the server answers. *)
Theorem C81_isolated : forall show repr c conf srv root m h, cf_dry conf = false ->
  Returns (check_api show repr c conf) srv (root, m) h -> Unreached c conf root h \/
  exists ops pieces, Asked conf ops /\ Complete c conf ops pieces root h.
Proof.
  intros show repr c conf srv root m h D R. destruct (complete_reports _ _ _ _ _ _ _ _ D R) as [(U & _)|((ops & pieces & A & C) & _)]; [now left|].
  right. now exists ops, pieces.
Qed.
Print Assumptions C81_isolated.
(** all tests fail, but all are executed *)
Example C81_example : option_map (fun x => (fst x, length (snd x))) (verdict (run_of submodel_service "GetSubmodel*" (constantly broken))) =
  Some (CRITICAL, Matrix 0 0 0 5, 11).
Proof. vm_compute. reflexivity. Qed.

(** * C82 *)
(** The run ends with an exception if a request fails after the first one, and if a server has
    no shells. *)
Definition failing_later : server := fun h _ => match h with [] => broken | _ => Failed RequestException (lit "reset") end.
Definition no_shells : server := constantly (Response 200 None (Json (JObj [(lit "result", JArr []); (lit "paging_metadata", JObj [])]))).
Theorem C82_refuted :
  (exists show repr c conf srv h, fst (run (check_api show repr c conf) srv) = Exc RequestException h) /\
  (exists show repr c conf srv h, Answers srv (fun st => st = 200%Z) /\ fst (run (check_api show repr c conf) srv) = Exc IndexError h).
Proof.
  split.
  - exists (fun _ => []), (fun _ => []), some_client, (Config shell_service None false (only "GetDescription")), failing_later, (lit "reset").
    vm_compute. reflexivity.
  - exists (fun _ => []), (fun _ => []), some_client, (Config repository None false (only "GetAssetAdministrationShellById")), no_shells, [].
    split; [|vm_compute; reflexivity]. intros h s. eexists _, _, _. split; reflexivity.
Qed.
Print Assumptions C82_refuted.

(** There is a report for every server that always answers, but never with success; for
    unreachable ones see C80, for dry runs C75. *)
Theorem C82_refusing_partial : forall show repr c conf srv ops, cf_dry conf = false -> Known_version conf -> Asked conf ops ->
  Answers srv (fun st => st <> 200%Z) ->
  exists root m h pieces, Returns (check_api show repr c conf) srv (root, m) h /\ Complete c conf ops pieces root h.
Proof.
  intros show repr c conf srv ops D K A An. destruct (version_cases show repr c conf) as [[_ E]|[K' _]]; [|now destruct K'].
  destruct (asked_suite show repr conf ops A) as [l L].
  assert (X : exists root m h, Returns (check_api show repr c conf) srv (root, m) h).
  { unfold Returns. rewrite E, (run_root _ _ _ _ _ L). unfold root_body. rewrite D, meaning_bind.
    destruct (reach_request c) as [s S]. unfold check_server at 1. rewrite S, meaning_bind, meaning_block. cbn [lift pbind meaning].
    destruct (An [] s) as (st & ct & d & T & _). rewrite T. cbn [say pwrite pbind meaning andthen app]. rewrite meaning_bind.
    pose proof (operations_fine srv (cf_filter conf) c (cf_suite conf) l) as F.
    assert (G : Forall (quiet_entry srv) l).
    { apply lookup_In_pair in L. exact (proj1 (Forall_forall _ _) (all_quiet show repr srv An) _ L). }
    match goal with |- context [meaning (check_operations ?a ?b ?c ?d ?e ?f) srv ?h] =>
      specialize (F G f h); pose proof (operations_noabort a b c d e f srv h) as N;
      destruct (meaning (check_operations a b c d e f) srv h) as [[es [m|b'|e' t]] h1] end; cbn [andthen].
    - rewrite meaning_bind. destruct (summary_meaning m srv h1) as (r & -> & _). cbn [andthen meaning]. eauto.
    - exfalso. exact (N _ eq_refl).
    - exfalso. exact (F _ _ _ _ eq_refl). }
  destruct X as (root & m & h & R). destruct (complete_reports _ _ _ _ _ _ _ _ D R) as [(U & _)|((os & ps & A' & C) & _)].
  - exfalso. destruct U as (reach & s & t & _ & _ & _ & ->). pose proof R as R'. rewrite E in R'.
    apply report_shape in R'; [|exact D|apply suite_good]. destruct R' as (_ & _ & _ & s' & h' & _ & _ & _ & Q & _).
    injection Q as Q1 Q2 _. destruct (An [] s') as (st & ct & d & T & _). congruence.
  - exists root, m, h, ps. split; [exact R|]. enough (os = ops) by (subst; exact C).
    destruct A as (n & all & N & I & ->), A' as (n' & all' & N' & I' & ->). assert (n' = n) by (apply lit_inj; congruence). subst n'.
    now rewrite (operations_unique n all all').
Qed.
Print Assumptions C82_refusing_partial.

(** * C83 *)
(** The cursor is not passed on: the test does the same for every cursor. *)
Theorem C83_cursor_ignored : forall show repr o i k k',
  snd (t_pagination show repr o) (set_cursor i (Some k)) = snd (t_pagination show repr o) (set_cursor i (Some k')).
Proof. reflexivity. Qed.
Print Assumptions C83_cursor_ignored.
(** The server gives a cursor, the test passes, and no request has it. *)
Theorem C83_refuted : exists show repr c conf srv root m h t, Returns (check_api show repr c conf) srv (root, m) h /\
  In t (tests_reported (lit "Positive Tests") root) /\ ok t = true /\
  contains (lit "Pagination: Fetch using cursor") (r_message t) = true /\ r_level t = INFO /\
  Forall (fun x => contains (lit "cursor") (s_url (fst x)) = false) h.
Proof.
  set (X := run_of submodel_service "GetAllSubmodelElements-ValueOnly" careful).
  assert (V : match X with
    | (Ret (root, _), h) => existsb (fun t => ok t && contains (lit "Pagination: Fetch using cursor") (r_message t) && match r_level t with INFO => true | _ => false end)
        (tests_reported (lit "Positive Tests") root) && forallb (fun x => negb (contains (lit "cursor") (s_url (fst x)))) h
    | _ => false end = true) by (vm_compute; reflexivity).
  destruct X as [[[root m]| |] h] eqn:E; try discriminate V. apply andb_prop in V. destruct V as [V W].
  apply existsb_exists in V. destruct V as (t & I & V). apply andb_prop in V. destruct V as [V V3]. apply andb_prop in V. destruct V as [V1 V2].
  exists (fun _ => []), (fun _ => []), some_client, (Config submodel_service None false (only "GetAllSubmodelElements-ValueOnly")), careful, root, m, h, t.
  split; [exact E|]. split; [exact I|]. split; [exact V1|]. split; [exact V2|]. split.
  - destruct (r_level t); [reflexivity|discriminate..].
  - apply Forall_forall. intros x J. rewrite forallb_forall in W. specialize (W x J). now apply negb_true_iff in W.
Qed.
Print Assumptions C83_refuted.

(** * C84 *)
Definition text_of (v : value) (s : str) : Prop := value_text v = Val s.
(** a value that is invalid for an argument with a name and type *)
Definition Not_base64 (s : str) : Prop :=
  base64url_decode s = None /\
  forall s' n, s = s' ++ repeat 61%N n -> base64url_decode s' = None.     (* also if padding is ignored *)
Definition Invalid (t : ann) (v : value) : Prop :=
  match t with
  | AInt => exists z, v = VlInt z /\ (z < 0)%Z
  | ABool => exists s, text_of v s /\ ~ In s [lit "true"; lit "false"; lit "True"; lit "False"; lit "1"; lit "0"]
  | ACls c => exists s, text_of v s /\
      match kind_of api_classes c with
      | KEnum ms => forall n x, In (n, x) ms -> s <> x
      | _ => Not_base64 s
      end
  | _ => False
  end.
Lemma not_base64 : Not_base64 (lit "invalid-base64url=====").
Proof.
  split; [reflexivity|]. intros s' n E.
  assert (L : n <= 5).
  { destruct (Nat.leb_spec n 5) as [|L]; [assumption|exfalso]. replace n with (n - 6 + 6) in E by lia. rewrite repeat_app, app_assoc in E.
    apply (f_equal (@rev N)) in E. rewrite rev_app_distr in E. vm_compute in E. discriminate E. }
  do 6 (destruct n as [|n]; [cbn [repeat] in E; rewrite ?app_nil_r in E; try (subst s'; reflexivity);
    match type of E with _ = ?s ++ ?p => assert (Q : s = firstn (22 - length p) (lit "invalid-base64url=====")) by
      (rewrite E, firstn_app; replace (22 - length p) with (length s) by (apply (f_equal (@length N)) in E; rewrite app_length in E; cbn in E |- *; lia);
       now rewrite firstn_all, Nat.sub_diag, app_nil_r) end; rewrite Q; reflexivity|]). lia.
Qed.
Lemma longer_than_all (ms : list (str * str)) n x : In (n, x) ms -> repeat 35%N (list_max (List.map (fun m => length (snd m)) ms) + 1) <> x.
Proof.
  intros I E. apply (f_equal (@length N)) in E. rewrite repeat_length in E.
  assert (L : length x <= list_max (List.map (fun m => length (snd m)) ms)); [|lia].
  pose proof (proj1 (list_max_le (List.map (fun m => length (snd m)) ms) _) (Nat.le_refl _)) as F. rewrite Forall_forall in F.
  apply F. apply (in_map (fun m : str * str => length (snd m))) in I. exact I.
Qed.
Theorem C84_invalid_values : forall n t vs v, generate_invalid_values n t = Val vs -> In v vs -> Invalid t v.
Proof.
  intros n t vs v E I. destruct t as [| | | | | |c| | | | | |]; cbn [generate_invalid_values] in E; try discriminate E.
  - injection E as <-. destruct I as [<-|[]]. exists (lit "invalid-bool"). split; [reflexivity|]. cbn. intuition discriminate.
  - injection E as <-. destruct I.
  - destruct (str_eqb n (lit "limit")); [|discriminate]. injection E as <-. destruct I as [<-|[]]. now exists (-1)%Z.
  - cbn [Invalid]. destruct (kind_of api_classes c) as [ms|f|own|] eqn:K.
    + destruct ms as [|m ms]; [discriminate|]. assert (Q : vs = [VlDummy (repeat 35%N (list_max (List.map (fun m => length (snd m)) (m :: ms)) + 1))]) by congruence.
      subst vs. destruct I as [<-|[]]. eexists. split; [reflexivity|]. intros k x. apply longer_than_all.
    + assert (Q : vs = [VlStr invalid_base64url] \/ vs = []) by (destruct (s_base64 f); [left|right]; congruence).
      destruct Q as [-> | ->]; [|destruct I]. destruct I as [<-|[]]. exists (lit "invalid-base64url====="). split; [reflexivity|apply not_base64].
    + assert (Q : vs = [VlStr invalid_base64url] \/ vs = []) by (destruct (Nat.eqb c k_AssetId); [left|right]; congruence).
      destruct Q as [-> | ->]; [|destruct I]. destruct I as [<-|[]]. exists (lit "invalid-base64url====="). split; [reflexivity|apply not_base64].
    + assert (Q : vs = [VlStr invalid_base64url] \/ vs = []) by (destruct (Nat.eqb c k_AssetId); [left|right]; congruence).
      destruct Q as [-> | ->]; [|destruct I]. destruct I as [<-|[]]. exists (lit "invalid-base64url====="). split; [reflexivity|apply not_base64].
Qed.
Print Assumptions C84_invalid_values.
(** and an argument of such a type gets a value *)
Theorem C84_generated : forall n,
  generate_invalid_values (lit "limit") AInt = Val [VlInt (-1)] /\
  generate_invalid_values n ABool = Val [VlStr (lit "invalid-bool")] /\
  (forall c, c = k_Base64String \/ c = k_AssetId \/ c = k_Level \/ c = k_Extent -> exists v, generate_invalid_values n (ACls c) = Val [v]).
Proof.
  intros n. split; [reflexivity|]. split; [reflexivity|]. intros c C.
  destruct (generated_class n c) as (v & t & G & _); [|eauto]. destruct C as [->|[->|[->| ->]]]; reflexivity.
Qed.
Print Assumptions C84_generated.
