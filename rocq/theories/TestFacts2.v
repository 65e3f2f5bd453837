(** Which request every single test sends and which verdict it gives: from the operations to the whole run. *)
From Coq Require Import PeanoNat String List NArith ZArith Bool Lia.
From Verif Require Import PyStr PyStrFacts PyBase PyVal Codec CodecSpec CodecFacts ResultModel ResultFacts ContextModel HttpModel ConfigModel ReflectModel MetaModel
  AdapterModel ParseModel ProgModel ProgSpec ProgFacts ApiModel ApiSpec ApiSuites ApiFacts TestSpec VerdictSpec TestFacts.
Import ListNotations.
Local Open Scope list_scope.

Definition wrong := ((string * string) * how)%type.
(** the calls with wrong values: names, values, requests *)
Inductive Negs (f : args -> prog pyval) (valid : args) (S : wrong -> sent -> Prop) : signature -> list wrong -> Prop :=
| N_nil : Negs f valid S [] []
| N_skip p s ws : generate_invalid_values (fst p) (strip_optional (snd p)) = Val [] -> Negs f valid S s ws -> Negs f valid S (p :: s) ws
| N_take p v w s ws : generate_invalid_values (fst p) (strip_optional (snd p)) = Val [v] -> value_text v = Val (lit (snd (fst w))) ->
    fst p = lit (fst (fst w)) -> One (S w) (f (assign (fst p) v valid)) -> Negs f valid S s ws -> Negs f valid S (p :: s) (w :: ws).

Definition Judges (S : wrong -> sent -> Prop) (w : wrong) (r : result) (x : sent * reply) : Prop :=
  r_message r = negative_title (fst w) /\ S w (fst x) /\ (ok r = true <-> Rejected (snd x)) /\ (ServerError x -> r_level r = CRITICAL).
Lemma generate_negs f valid S s ws : (forall a, NegCall (f a)) -> Negs f valid S s ws -> forall srv h es h1,
  meaning (generate_calls f valid (List.map (fun p => FArg (fst p) (strip_optional (snd p)) (negb (has_default (snd p)))) s)) srv h = (es, Ret tt, h1) ->
  exists t, h1 = h ++ t /\ Forall3 (Judges S) ws es t.
Proof.
  intros N. induction 1 as [|p s ws G _ IH|p v w s ws G T K O _ IH]; cbn [List.map generate_calls fa_name fa_type]; intros srv h es h1 E.
  - injection E as <- <-. exists []. rewrite app_nil_r. split; [reflexivity|constructor].
  - rewrite G in E. cbn [lift pbind generate_for] in E. apply IH in E. exact E.
  - rewrite G in E. cbn [lift pbind generate_for] in E. rewrite T in E. cbn [lift pbind] in E.
    apply bind_ret in E. destruct E as (es1 & [] & h2 & es2 & E1 & E2 & ->).
    apply bind_ret in E1. destruct E1 as (es3 & [o r] & h3 & es4 & E1 & E3 & ->). injection E3 as <- <-. rewrite app_nil_r.
    pose proof E1 as E3. apply (block_one (S w)) in E3; [|now apply one_rename]. destruct E3 as (x & -> & Sx).
    apply block_judged in E1; [|apply rename_passed, N]. destruct E1 as (-> & M & y & Y & I & Cr). apply app_inv_head in Y. injection Y as <-.
    apply IH in E2. destruct E2 as (t & -> & F). exists (x :: t). split; [now rewrite <- app_assoc|]. constructor; [|exact F].
    split; [|split; [exact Sx|split; [exact I|exact Cr]]]. rewrite M, K. reflexivity.
Qed.
(** an entry that is as good as the entries below *)
Definition summed (r : result) : Prop := ok r = forallb ok (r_subs r).
Lemma summed_appends m es : summed (appends (new_result m INFO) es).
Proof. unfold summed. now rewrite ok_appends, new_subs. Qed.
Lemma block_summed {X} m (p : prog X) srv h es o r h1 : meaning (block m p) srv h = (es, Ret (o, r), h1) -> summed r.
Proof. intros E. apply block_ret in E. destruct E as (_ & _ & es' & c & _ & [(x & _ & _ & ->)|(a & _ & _ & ->)]); apply summed_appends. Qed.
Section Run.
  Variable show : json -> str.
  Variable repr : str -> str.
  Variable c0 : client.

  Definition test_ok (J : judgement) (T : route) (t0 : trace) (i : instance) (t : str * (instance -> prog unit)) (spec : check) : Prop :=
    fst t = ch_title spec /\ forall m srv h es o r h1, meaning (block m (snd t i)) srv h = (es, Ret (o, r), h1) ->
      exists tr, h1 = h ++ tr /\ Exchanges c0 J T t0 spec r tr.
  Lemma tests_positive J row t0 i ts specs : Forall2 (test_ok J (ro_path row) t0 i) ts specs ->
    forall srv h es h1, meaning (execute_tests_of ts i) srv h = (es, Ret tt, h1) ->
    exists tr, h1 = h ++ List.concat tr /\ Forall3 (Positive c0 J row t0) specs es tr /\ Forall summed es.
  Proof.
    induction 1 as [|[t b] spec ts specs [T P] F IH]; cbn [execute_tests_of]; intros srv h es h1 E.
    - injection E as <- <-. exists []. cbn [List.concat]. rewrite app_nil_r. repeat split; constructor.
    - cbn [fst snd] in *. apply bind_ret in E. destruct E as (es1 & [o r] & h2 & es2 & E1 & E2 & ->).
      destruct (P _ _ _ _ _ _ _ E1) as (t1 & -> & X). pose proof (block_summed _ _ _ _ _ _ _ _ E1) as Su. apply block_ret in E1. destruct E1 as (-> & M & _).
      apply IH in E2. destruct E2 as (tr & -> & G & Gs). exists (t1 :: tr). cbn [List.concat]. rewrite <- app_assoc.
      split; [reflexivity|]. split; [constructor; [|exact G]; split; [now rewrite M|exact X]|]. now constructor.
  Qed.

  (** with this instance the operation is tested as in the row of the table *)
  Definition ready (J : judgement) (s : suite) (row : row) (t0 : trace) (i : instance) : Prop :=
    Negs (su_invoke_error s i) (i_valid_arguments i) (Wrong_request c0 t0 row) (su_signature s) (ro_wrong row) /\
    Forall2 (test_ok J (ro_path row) t0 i) (su_tests s) (ro_tests row).
  Definition verdict (row : row) (k : ann) (profile : str) : judgement :=
    Verdict (answer_to (lit (ro_name row))) (Accepts show repr k) (Spotless show repr k) profile.
  Definition fits_row (e : entry) (row : row) : Prop :=
    su_operation (snd e) = lit (ro_name row) /\
    exists k, type_of_answer (answer_to (lit (ro_name row))) k /\
      forall profile, Follows show repr c0 [] (ro_setup row) (let! pre := fst e c0 in su_setup (snd e) (new_instance (descend c0 pre) profile))
        (ready (verdict row k profile) (snd e) row).

  Lemma suite_conducted J s i row t0 srv h es m h1 : negative_ok s -> ready J s row t0 i ->
    meaning (execute_suite s i) srv h = (es, Ret m, h1) ->
    exists neg pos t1 t2, es = [neg; pos] /\ h1 = h ++ t1 ++ List.concat t2 /\ (summed neg /\ summed pos /\ Forall summed (r_subs pos)) /\
      Forall3 (Negative c0 t0 row) (ro_wrong row) (r_subs neg) t1 /\ Forall3 (Positive c0 J row t0) (ro_tests row) (r_subs pos) t2.
  Proof.
    intros [_ G] [Ng Ts] E. unfold execute_suite in E.
    apply bind_ret in E. destruct E as (es1 & [o neg] & h2 & es2 & E1 & E & ->).
    pose proof (block_summed _ _ _ _ _ _ _ _ E1) as Sn. apply block_ret_noabort in E1; [|apply syntactic_noabort]. destruct E1 as (-> & [] & ns & (_ & Mn & _) & -> & En).
    apply bind_ret in E. destruct E as (es1 & [o pos] & h3 & es3 & E1 & E & ->).
    pose proof (block_summed _ _ _ _ _ _ _ _ E1) as Sp. apply block_ret_noabort in E1; [|apply tests_noabort]. destruct E1 as (-> & [] & ps & (_ & Mp & _) & -> & Ep).
    injection E as <- <- <-.
    assert (A : exists t, h2 = h ++ t /\ Forall3 (Negative c0 t0 row) (ro_wrong row) ns t).
    { unfold execute_syntactic_tests in En.
      apply bind_ret in En. destruct En as (es1 & f & h4 & es2 & E1 & E & ->). apply lift_ret in E1. destruct E1 as (F & -> & ->).
      apply bind_ret in E. destruct E as (es1 & g & h5 & es3 & E1 & E & ->). apply lift_ret in E1. destruct E1 as (F' & -> & ->).
      destruct (fargs_eqb f g); [|discriminate]. apply reflect_function_shape in F. subst f. cbn [app]. destruct G as [G|G].
      - rewrite G in *. inversion Ng. injection E as <- <-. exists []. rewrite app_nil_r. split; [reflexivity|constructor].
      - eapply generate_negs in E; [|apply G|exact Ng]. exact E. }
    destruct A as (t1 & -> & F1). apply (tests_positive _ _ _ _ _ _ Ts) in Ep. destruct Ep as (t2 & -> & F2 & Ss).
    exists neg, pos, t1, t2. rewrite Mn, Mp. split; [reflexivity|]. split; [now rewrite <- app_assoc|]. split; [auto|]. split; [exact F1|exact F2].
  Qed.

  (** the course of the tests of an operation: whether the setup gets what it needs decides how far they go *)
  Inductive Course (J : judgement) (row : row) (r : result) (t : trace) : Prop :=
  | Stopped setup l1 k l2 b t' s y : entry_of (lit "Checking " ++ lit (ro_name row)) [setup] r -> ok setup = false ->
      ro_setup row = l1 ++ k :: l2 -> t = t' ++ [(s, y)] -> Setups c0 t (l1 ++ [k]) t -> Supplied show repr l1 t' -> Expects (fst k) b -> ~ Provides show repr b y ->
      Course J row r t
  | Finished setup neg pos t0 t1 t2 : entry_of (lit "Checking " ++ lit (ro_name row)) [setup; neg; pos] r -> ok setup = true ->
      t = t0 ++ t1 ++ List.concat t2 -> Setups c0 t0 (ro_setup row) t0 -> Supplied show repr (ro_setup row) t0 ->
      Forall3 (Negative c0 t0 row) (ro_wrong row) (r_subs neg) t1 -> Forall3 (Positive c0 J row t0) (ro_tests row) (r_subs pos) t2 ->
      summed neg -> summed pos -> Forall summed (r_subs pos) -> Course J row r t.
  (** the tests of an operation, with a type of its answers *)
  Definition Judged_row (profile : str) (row : row) (r : result) (t : trace) : Prop :=
    exists k, type_of_answer (answer_to (lit (ro_name row))) k /\ Conducted c0 (verdict row k profile) row r t.
  Definition Course_row (profile : str) (row : row) (r : result) (t : trace) : Prop :=
    exists k, type_of_answer (answer_to (lit (ro_name row))) k /\ Course (verdict row k profile) row r t.
  Lemma course_conducted J row r t : Course J row r t -> Conducted c0 J row r t.
  Proof.
    intros [setup l1 k l2 b t' s y E O L T S _ _ _|setup neg pos t0 t1 t2 E O T S _ N P _ _ _].
    - apply (Only_setup _ _ _ _ _ setup (l1 ++ [k]) l2 E O); [now rewrite <- app_assoc|exact S].
    - eapply All_tests; eauto.
  Qed.
  Lemma course_judged profile row r t : Course_row profile row r t -> Judged_row profile row r t.
  Proof. intros (k & T & C). exists k. split; [exact T|]. now apply course_conducted. Qed.
  Lemma operation_course profile e mat row srv h es m h1 : good_entry e -> fits_row e row ->
    meaning (check_operation false c0 profile e mat) srv h = (es, Ret m, h1) ->
    exists r t, es = [r] /\ h1 = h ++ t /\ Course_row profile row r t.
  Proof.
    intros (_ & _ & G3 & _) (Nm & k & Tk & Fo) E. destruct e as [pp s]. cbn [fst snd] in *. unfold check_operation in E.
    apply bind_ret in E. destruct E as (es1 & [o r] & h2 & es2 & E1 & E & ->).
    apply block_ret_noabort in E1; [|apply (operation_body_noabort c0 profile (pp, s) mat)]. destruct E1 as (-> & x & subs & M & -> & E1).
    injection E as <- <- <-. exists r. cbn [app]. rewrite Nm in M.
    apply bind_ret in E1. destruct E1 as (es1 & [i setup] & h3 & es2 & E1 & E & ->).
    apply block_ret in E1. destruct E1 as (-> & Ms & es' & c & E1 & C). specialize (Fo profile _ _ _ _ _ E1). clear E1.
    destruct C as [(j & -> & -> & Sr)|(a & -> & -> & Sr)].
    - destruct Fo as (t0 & -> & Rj & F0 & P0 & O0). cbn [app] in Rj, F0. assert (O : ok setup = true) by (rewrite Sr, ok_appends, O0; reflexivity). rewrite O in E.
      apply bind_ret in E. destruct E as (es3 & n & h4 & es4 & E1 & E & ->). injection E as <- <- <-.
      eapply suite_conducted in E1; [|eassumption..]. destruct E1 as (neg & pos & t1 & t2 & -> & -> & (Sn & Sp & Ss) & F1 & F2).
      exists (t0 ++ t1 ++ List.concat t2). split; [reflexivity|]. split; [now rewrite <- app_assoc|]. exists k. split; [exact Tk|]. eapply Finished; eauto. exact M.
    - destruct Fo as (l1 & k' & l2 & b & t0 & s0 & y0 & L & -> & F0 & P0 & X0 & N0). destruct (ok setup) eqn:O; [discriminate|]. injection E as <- <- <-.
      exists (t0 ++ [(s0, y0)]). split; [reflexivity|]. split; [reflexivity|]. exists k. split; [exact Tk|]. eapply Stopped; [exact M|eauto..].
  Qed.
  Lemma operation_conducted profile e mat row srv h es m h1 : good_entry e -> fits_row e row ->
    meaning (check_operation false c0 profile e mat) srv h = (es, Ret m, h1) ->
    exists r t, es = [r] /\ h1 = h ++ t /\ Judged_row profile row r t.
  Proof.
    intros G F E. destruct (operation_course _ _ _ _ _ _ _ _ _ G F E) as (r & t & E1 & E2 & C). exists r, t. split; [exact E1|]. split; [exact E2|]. now apply course_judged.
  Qed.

  Definition chosen_rows (f : option test_filter) (l : list row) : list row := filter (fun x => selected f (lit (ro_name x))) l.
  Lemma operations_course f profile l rows : Forall2 fits_row l rows -> Forall good_entry l -> forall mat srv h es m h1,
    meaning (check_operations false f c0 profile l mat) srv h = (es, Ret m, h1) ->
    exists pieces, es = List.map fst pieces /\ h1 = h ++ List.concat (List.map snd pieces) /\
      Forall2 (fun row rt => Course_row profile row (fst rt) (snd rt)) (chosen_rows f rows) pieces.
  Proof.
    induction 1 as [|e row l rows A F IH]; cbn [check_operations chosen_rows filter]; intros G mat srv h es m h1 E.
    - injection E as <- <- <-. exists []. cbn [List.map List.concat]. rewrite app_nil_r. repeat split. constructor.
    - apply Forall_cons_iff in G. destruct G as [G1 G2]. fold (chosen_rows f rows). pose proof (proj1 A) as Nm. rewrite Nm in E.
      destruct (selected f (lit (ro_name row))); [|now apply IH in E].
      apply bind_ret in E. destruct E as (es1 & m1 & h2 & es2 & E1 & E2 & ->).
      eapply operation_course in E1; [|eassumption..]. destruct E1 as (r & t & -> & -> & C).
      apply IH in E2; [|exact G2]. destruct E2 as (ps & -> & -> & Fp). exists ((r, t) :: ps). cbn [List.map List.concat fst snd]. rewrite <- app_assoc.
      split; [reflexivity|]. split; [reflexivity|]. now constructor.
  Qed.
  Lemma operations_conducted f profile l rows : Forall2 fits_row l rows -> Forall good_entry l -> forall mat srv h es m h1,
    meaning (check_operations false f c0 profile l mat) srv h = (es, Ret m, h1) ->
    exists pieces, es = List.map fst pieces /\ h1 = h ++ List.concat (List.map snd pieces) /\
      Forall2 (fun row rt => Judged_row profile row (fst rt) (snd rt)) (chosen_rows f rows) pieces.
  Proof.
    intros F G mat srv h es m h1 E. destruct (operations_course _ _ _ _ F G _ _ _ _ _ _ E) as (ps & E1 & E2 & C). exists ps. split; [exact E1|]. split; [exact E2|].
    clear -C. induction C; constructor; [now apply course_judged|assumption].
  Qed.
End Run.

