(** Property C82, continued: requests that fail.  A request that gets no answer is the last one; unless it is the first, the run ends with the
    exception of the request. *)
From Coq Require Import PeanoNat String List NArith ZArith Bool Lia.
From Verif Require Import PyStr PyBase PyVal ResultModel ContextModel HttpModel ConfigModel ReflectModel ProgModel ProgSpec ProgFacts ApiModel ApiSpec ResultFacts ApiSuites ApiFacts ApiFacts3.
From Verif Require P_Api P_Tests P_Crash.
Import ListNotations.
Local Open Scope list_scope.

Definition answered (x : sent * reply) : Prop := exists status ct d, snd x = Response status ct d.
(** During the negative tests a TypeError is taken for a missing implementation. *)
Definition Passed_on (e e' : exn) : Prop := e' = e \/ e = TypeError /\ e' = NotImplementedError.

(** ** Programs that raise the exception of a request *)
Fixpoint Firm {X} (p : prog X) : Prop :=
  match p with
  | PRet _ | PAbort _ | PRaise _ _ => True
  | PWrite _ k => Firm k
  | PSend s k => (forall e t, exists e', k (Failed e t) = PRaise e' t /\ Passed_on e e') /\ forall x, Firm (k x)
  | PWith r c body k => c = false /\ Firm body /\ forall o x, Firm (k o x)
  end.
Lemma firm_bind {X Y} (p : prog X) (f : X -> prog Y) : Firm p -> (forall x, Firm (f x)) -> Firm (pbind p f).
Proof.
  intros A F. revert A. induction p as [X x|X r k IH|X r|X e t|X s k IH|X Z r c body IHb k IHk]; cbn [pbind Firm]; auto.
  - intros [A B]. split; [|auto]. intros e t. destruct (A e t) as (e' & -> & P). exists e'. auto.
  - intros (A & B & C). auto.
Qed.
Lemma firm_rename {X} (p : prog X) : Firm p -> Firm (rename TypeError NotImplementedError p).
Proof.
  induction p as [X x|X r k IH|X r|X e t|X s k IH|X Z r c body IHb k IHk]; cbn [rename Firm]; auto.
  - intros _. destruct (exn_eq_dec e TypeError); exact I.
  - intros [A B]. split; [|auto]. intros e t. destruct (A e t) as (e' & E & P). rewrite E. cbn [rename].
    destruct (exn_eq_dec e' TypeError) as [->|N]; [|exists e'; auto]. exists NotImplementedError. split; [reflexivity|].
    destruct P as [<-|[-> Q]]; [right; auto|discriminate Q].
  - intros (-> & B & C). auto.
Qed.
Lemma firm_lift {X} (o : outcome X) : Firm (lift o).
Proof. destruct o; exact I. Qed.
Lemma firm_write r : Firm (pwrite r).
Proof. exact I. Qed.
Lemma firm_block {X} m (p : prog X) : Firm p -> Firm (block m p).
Proof. intros A. unfold block. cbn [Firm]. auto. Qed.

Definition Settled {X} (t : trace) (c : ctl X) : Prop :=
  Forall answered t \/ exists t' s e m e', t = t' ++ [(s, Failed e m)] /\ Forall answered t' /\ c = Exc e' m /\ Passed_on e e'.
Lemma firm_settled {X} (p : prog X) : Firm p -> forall srv h es c h1, meaning p srv h = (es, c, h1) -> exists t, h1 = h ++ t /\ Settled t c.
Proof.
  assert (N : forall Y (h : trace) (c : ctl Y), exists t, h = h ++ t /\ Settled t c) by (intros Y h c; exists []; rewrite app_nil_r; split; [reflexivity|left; constructor]).
  induction p as [X x|X r k IH|X r|X e t|X s k IH|X Z r c body IHb k IHk]; intros F srv h es c0 h1 E; cbn [Firm meaning] in *.
  - injection E as <- <- <-. apply N.
  - destruct (meaning k srv h) as [[es' c'] h'] eqn:M. injection E as <- <- <-. eapply IH; eauto.
  - injection E as <- <- <-. apply N.
  - injection E as <- <- <-. apply N.
  - destruct F as [A B]. destruct (srv h s) as [st ct d|e t] eqn:R.
    + destruct (IH _ (B _) _ _ _ _ _ E) as (t & -> & S). exists ((s, Response st ct d) :: t). rewrite <- app_assoc. split; [reflexivity|].
      assert (An : answered (s, Response st ct d)) by (exists st, ct, d; reflexivity).
      destruct S as [S|(t' & s' & e & m & e' & -> & S & C & P)]; [left; constructor; auto|]. right. exists ((s, Response st ct d) :: t'), s', e, m, e'. auto.
    + destruct (A e t) as (e' & K & P). rewrite K in E. cbn [meaning] in E. injection E as <- <- <-. exists [(s, Failed e t)]. split; [reflexivity|].
      right. exists [], s, e, t, e'. auto.
  - destruct F as (-> & FB & FK). destruct (meaning body srv h) as [[es' c'] h'] eqn:M. destruct (IHb FB _ _ _ _ _ M) as (t & -> & S).
    assert (K : forall o x, (forall e m, c' <> Exc e m) -> (let '(es2, c2, h2) := meaning (k o x) srv (h ++ t) in (x :: es2, c2, h2)) = (es, c0, h1) ->
      exists t0, h1 = h ++ t0 /\ Settled t0 c0).
    { intros o x NE EQ. destruct (meaning (k o x) srv (h ++ t)) as [[es2 c2] h2] eqn:M2. injection EQ as <- <- <-.
      destruct (IHk o x (FK o x) _ _ _ _ _ M2) as (t2 & -> & S2). exists (t ++ t2). rewrite app_assoc. split; [reflexivity|].
      destruct S as [S|(t' & s' & e & m & e' & _ & _ & C & _)]; [|destruct (NE _ _ C)].
      destruct S2 as [S2|(t' & s' & e & m & e' & -> & S2 & C & P)]; [left; apply Forall_app; auto|]. right. exists (t ++ t'), s', e, m, e'.
      rewrite app_assoc. split; [reflexivity|]. split; [apply Forall_app; auto|auto]. }
    destruct c' as [y|a|e m]; [apply (K _ _ ltac:(discriminate) E)|apply (K _ _ ltac:(discriminate) E)|].
    injection E as <- <- <-. exists t. split; [reflexivity|]. destruct S as [S|(t' & s' & e1 & m1 & e' & -> & S & C & P)]; [left; exact S|].
    right. injection C as -> ->. exists t', s', e1, m1, e'. auto.
Qed.

(** ** All programs of the check but the first request *)
Lemma firm_invoke c r : Firm (invoke c r).
Proof.
  unfold invoke. apply firm_bind; [apply firm_lift|intros u]. apply firm_bind; [apply firm_write|intros _]. apply firm_bind; [apply firm_lift|intros s].
  cbn [Firm]. split; [intros e t; exists e; split; [reflexivity|now left]|]. intros [st ct d|e t]; [|exact I]. apply firm_bind; [apply firm_write|intros _; exact I].
Qed.
Ltac firm1 := lazymatch goal with
  | |- Firm (PRet _) => exact I
  | |- Firm (PAbort _) => exact I
  | |- Firm (PRaise _ _) => exact I
  | |- Firm (lift _) => apply firm_lift
  | |- Firm (pwrite _) => exact I
  | |- Firm (say _) => exact I
  | |- Firm (invoke _ _) => apply firm_invoke
  | |- Firm (block _ _) => apply firm_block
  | |- Firm (rename TypeError NotImplementedError _) => apply firm_rename
  | |- Firm (pbind _ _) => apply firm_bind; [|intros ?]
  | |- Firm (match ?x with _ => _ end) => destruct x
  end.
Ltac firm := repeat firm1.
Section Firm.
  Variable show : json -> str.
  Variable repr : str -> str.
  Lemma firm_extract d : Firm (extract_json d).
  Proof. unfold extract_json, fail_with. firm. Qed.
  Ltac firm2 := lazymatch goal with
    | |- Firm (extract_json _) => apply firm_extract
    | H : Firm ?p |- Firm ?p => exact H
    | |- Firm (?f _) => match goal with H : forall _, Firm (f _) |- _ => apply H end
    | |- Firm (?f _ _) => match goal with H : forall _ _, Firm (f _ _) |- _ => apply H end
    | |- Firm (?f _ _ _) => match goal with H : forall _ _ _, Firm (f _ _ _) |- _ => apply H end
    end.
  Ltac firms := repeat (firm1 || firm2).
  Lemma firm_decode c e a t x : Firm (invoke_and_decode show repr c e a t x).
  Proof. unfold invoke_and_decode. firms. Qed.
  Lemma firm_assert b m l : Firm (assert_ b m l).
  Proof. unfold assert_. firms. Qed.
  Lemma firm_success o i a : Firm (invoke_success show repr o i a).
  Proof. unfold invoke_success, call, invoke_content, invoke_json. firms. all: apply firm_decode. Qed.
  Lemma firm_error o i a : Firm (invoke_error show repr o i a).
  Proof. unfold invoke_error, call. firms. apply firm_decode. Qed.
  Lemma firm_types o s kw i : forall ts, Firm (check_types show repr o s kw ts i).
  Proof. induction ts as [|t ts IH]; [exact I|]. cbn [check_types]. firms; [apply firm_success|apply firm_error]. Qed.
  Lemma firm_tests ts i : Forall (fun t => Firm (snd t i)) ts -> Firm (execute_tests_of ts i).
  Proof. induction 1 as [|[n b] ts H F IH]; [exact I|]. cbn [execute_tests_of]. cbn [snd] in H. firms. Qed.
  Lemma firm_for f valid n : (forall a, Firm (f a)) -> forall vs, Firm (generate_for f valid n vs).
  Proof. intros F. induction vs as [|v vs IH]; [exact I|]. cbn [generate_for]. firms. Qed.
  Lemma firm_calls f valid : (forall a, Firm (f a)) -> forall l, Firm (generate_calls f valid l).
  Proof. intros F. induction l as [|a l IH]; [exact I|]. cbn [generate_calls]. firms. now apply firm_for. Qed.
  Definition firm_entry (e : entry) : Prop :=
    (forall c, Firm (fst e c)) /\ (forall i a, Firm (su_invoke_error (snd e) i a)) /\ (forall i, Firm (su_setup (snd e) i)) /\
    forall i, Forall (fun t => Firm (snd t i)) (su_tests (snd e)).
  Lemma firm_operation c profile e mat : firm_entry e -> Firm (check_operation false c profile e mat).
  Proof.
    destruct e as [p s]. intros (A & B & C & D). cbn [fst snd] in A, B, C, D. unfold check_operation, execute_suite, execute_syntactic_tests. firms.
    - apply firm_calls. auto.
    - now apply firm_tests.
  Qed.
  Lemma firm_operations f c profile l : Forall firm_entry l -> forall mat, Firm (check_operations false f c profile l mat).
  Proof. induction 1 as [|e l H F IH]; intros mat; [exact I|]. cbn [check_operations]. firms. now apply firm_operation. Qed.
  Ltac head t := lazymatch t with ?f _ => head f | ?f => f end.
  Ltac firm3 := lazymatch goal with
    | |- Firm (ApiSuites.invoke_success _ _ _ _ _) => apply firm_success
    | |- Firm (ApiSuites.invoke_error _ _ _ _ _) => apply firm_error
    | |- Firm (ApiModel.invoke_and_decode _ _ _ _ _ _ _) => apply firm_decode
    | |- Firm (check_types _ _ _ _ _ _ _) => apply firm_types
    | |- Firm (assert_ _ _ _) => apply firm_assert
    | |- Firm (snd ?t ?i) => let h := head t in try unfold h; cbn [snd]
    | |- Firm (let '(_, _) := ?x in _) => destruct x
    | |- Firm (let _ := _ in _) => cbv zeta
    | |- Firm ((fun _ => _) _) => cbv beta
    | |- Firm (match ?x with _ => _ end) => destruct x
    | |- Firm ?p => let h := head p in is_const h; unfold h
    end.
  Ltac firmly := repeat (firm1 || firm3).
  Ltac entry := lazymatch goal with
    | |- firm_entry (_, ?s) => let s' := eval hnf in s in change s with s'; unfold firm_entry; cbn [fst snd su_invoke_error su_setup su_tests];
        split; [|split; [|split]]; intros; [firmly|firmly|firmly|repeat (apply Forall_cons || apply Forall_nil); firmly]
    end.
  Lemma firm_suites : Forall (fun s => Forall firm_entry (snd s)) (available_suites show repr).
  Proof.
    unfold available_suites, elements_suites, by_id_suites, shell_suites. cbn [app].
    repeat (apply Forall_cons; [cbn [snd]|]); [..|apply Forall_nil].
    all: repeat lazymatch goal with |- Forall _ (_ :: _) => apply Forall_cons | |- Forall _ [] => apply Forall_nil end.
    all: entry.
    all: match goal with |- ?g => idtac g end.
  Qed.
End Firm.

Lemma firm_summary m : Firm (summary m).
Proof. unfold summary. apply firm_bind; [|intros; exact I]. apply firm_block. apply firm_bind; intros; exact I. Qed.

(** The first request is the only one whose failure is reported *)
Lemma server_outcome c srv es ctl h : meaning (check_server false c) srv [] = (es, ctl, h) ->
  exists s, h = [(s, srv [] s)] /\
    match srv [] s with
    | Response _ _ _ => ctl = Ret true
    | Failed e m => e = RequestException /\ ctl = Ret false \/ e <> RequestException /\ ctl = Exc e m
    end.
Proof.
  unfold check_server. rewrite meaning_bind, meaning_block. destruct (reach_request c) as [s S]. rewrite S. cbn [lift pbind meaning].
  destruct (srv [] s) as [status content data|e t] eqn:V; intros E.
  - cbn in E. injection E as <- <- <-. exists s. rewrite V. auto.
  - exists s. rewrite V. destruct e; cbn -[lit] in E; injection E as <- <- <-; (split; [reflexivity|]); auto; right; (split; [discriminate|reflexivity]).
Qed.

(** Property C82: after a request that gets no answer nothing is sent.  The failure of the first request is reported if it is one of the
    library; every other one ends the run with the exception of the request and its text. *)
Theorem C82_outage : forall show repr c conf srv ctl h, run (check_api show repr c conf) srv = (ctl, h) ->
  Forall answered h \/
  exists t s e m, h = t ++ [(s, Failed e m)] /\ Forall answered t /\
    (t = [] /\ e = RequestException /\ (exists root, ctl = Ret (root, zero_matrix) /\ ok root = false) \/
     (t = [] -> e <> RequestException) /\ exists e', ctl = Exc e' m /\ Passed_on e e').
Proof.
  intros show repr c conf srv ctl h R. destruct (P_Api.version_cases show repr c conf) as [[_ E]|[_ E]]; rewrite E in R.
  2: { injection R as <- <-. left. constructor. }
  destruct (lookup (cf_suite conf) (available_suites show repr)) as [l|] eqn:L.
  2: { unfold run, execute_tests in R. rewrite L in R. injection R as <- <-. left. constructor. }
  pose proof (run_root _ c _ _ srv L) as Q. rewrite R in Q. clear R E.
  assert (F : Forall firm_entry l) by (apply lookup_In_pair in L; exact (proj1 (Forall_forall _ _) (firm_suites show repr) _ L)).
  pose proof (root_noabort c conf l srv []) as NA. destruct (meaning (root_body c conf l) srv []) as [[es c0] h0] eqn:M.
  unfold root_body in M. rewrite meaning_bind in M. destruct (cf_dry conf) eqn:D.
  { left. assert (SD : exists es, meaning (check_server true c) srv [] = (es, Ret true, [])) by (eexists; reflexivity). destruct SD as [es1 SD].
    rewrite SD in M. cbn [andthen] in M. rewrite meaning_bind, operations_dry in M. cbn [andthen] in M. rewrite meaning_bind in M.
    destruct (summary_meaning zero_matrix srv []) as (r & SM & _). rewrite SM in M. cbn [andthen meaning] in M.
    injection M as <- <- <-. injection Q as _ ->. constructor. }
  destruct (meaning (check_server false c) srv []) as [[es1 c1] h1] eqn:S. destruct (server_outcome _ _ _ _ _ S) as (s & -> & V).
  destruct (srv [] s) as [st ct d|e m] eqn:A.
  - subst c1. cbn [andthen] in M.
    assert (FP : Firm (let! mat := check_operations false (cf_filter conf) c (cf_suite conf) l zero_matrix in summary mat;; PRet mat)).
    { apply firm_bind; [now apply firm_operations|]. intros mat. apply firm_bind; [apply firm_summary|]. intros; exact I. }
    destruct (meaning (let! mat := check_operations false (cf_filter conf) c (cf_suite conf) l zero_matrix in summary mat;; PRet mat) srv _) as [[es2 c2] h2] eqn:M2.
    injection M as <- <- <-. destruct (firm_settled _ FP _ _ _ _ _ M2) as (t & -> & St).
    assert (An : answered (s, Response st ct d)) by (exists st, ct, d; reflexivity).
    destruct St as [St|(t' & s' & e & m & e' & -> & St & -> & P)].
    + left. destruct c2 as [x|a|e m]; injection Q as _ ->; constructor; auto.
    + right. injection Q as -> ->. exists ((s, Response st ct d) :: t'), s', e, m. split; [reflexivity|]. split; [constructor; auto|].
      right. split; [discriminate|]. eauto.
  - right. exists [], s, e, m. destruct V as [[-> ->]|[NE ->]]; cbn [andthen meaning] in M; injection M as <- <- <-; injection Q as -> ->.
    + split; [reflexivity|]. split; [constructor|]. left. split; [reflexivity|]. split; [reflexivity|]. eexists. split; [reflexivity|].
      apply server_ret in S. destruct S as (r & -> & _ & _ & _ & s' & [= <- _] & S). rewrite A in S. destruct S as (_ & _ & S).
      unfold ok. rewrite appends_level, worst_critical; [reflexivity|]. constructor. exact S.
    + split; [reflexivity|]. split; [constructor|]. right. split; [auto|]. exists e. split; [reflexivity|now left].
Qed.
Print Assumptions C82_outage.

(** A server that falls silent after a number of answers.  A TypeError of the library (requests raises none, a hook may)
    is renamed in the negative tests only. *)
Definition lost (e : exn) (n : nat) : server := fun h _ => if (List.length h <? n)%nat then P_Api.broken else Failed e (lit "reset").
Definition silent (e : exn) (n : nat) := P_Crash.crashed (P_Api.run_of P_Tests.shell_repository "GetAllAssetAdministrationShells" (lost e n)).
Definition told (e : exn) (n : nat) := P_Crash.crashed (P_Api.run_of P_Api.submodel_service "GetSubmodel*" (lost e n)).
Definition unsure (e : exn) (n : nat) := P_Crash.crashed (P_Api.run_of P_Api.submodel_service "GetAllSubmodelElements-Reference" (lost e n)).
Example C82_outage_example :
  List.map (silent RequestException) [0; 1; 2]%nat = [None; Some (RequestException, 2%nat); None] /\
  List.map (told RequestException) [0; 1; 4]%nat = [None; Some (RequestException, 2%nat); Some (RequestException, 5%nat)] /\
  List.map (told TypeError) [0; 4]%nat = [Some (TypeError, 1%nat); Some (TypeError, 5%nat)] /\
  List.map (unsure TypeError) [0; 1; 2]%nat = [Some (TypeError, 1%nat); Some (NotImplementedError, 2%nat); Some (TypeError, 3%nat)].
Proof. vm_compute. repeat split. Qed.
