(** Property C96: which servers pass the check. *)
From Coq Require Import PeanoNat String List NArith ZArith Bool Lia.
From Verif Require Import PyStr PyStrFacts PyBase PyVal ResultModel ResultSpec ResultFacts ContextModel HttpModel ConfigModel ReflectModel CheckModel
  ProgModel ProgSpec ProgFacts ApiModel ApiSpec ApiSuites ApiFacts CliModel CliSpec TestSpec VerdictSpec TestFacts TestFacts2 TestFacts3 VerdictFacts.
From Verif Require P_Api P_Tests.
Import ListNotations.
Local Open Scope string_scope.
Local Open Scope list_scope.

(** A run has no errors exactly if the exchanges are those with a compliant server: it answers the first request; for each chosen operation
    the setup gets what it asks for, each wrong value is rejected, each positive test gets the answer that it claims; and there are no further
    exchanges.  The right side does not mention the report. *)
Theorem C96_verdict : forall show repr c conf srv root m h, prefixes c = [] -> cf_dry conf = false ->
  Returns (check_api show repr c conf) srv (root, m) h ->
  exists rows, In (cf_suite conf, rows) conducted /\
    (ok root = true <-> Compliant show repr c (cf_suite conf) (filter (fun x => selected (cf_filter conf) (lit (ro_name x))) rows) h).
Proof.
  intros show repr c conf srv root m h P D R.
  destruct (P_Api.returns_known _ _ _ _ _ _ _ R) as [K E]. rewrite E in R. apply run_ret in R. destruct R as (l & L & Root & M).
  pose proof (P_Api.suite_good _ _ _ _ L) as G. destruct (P_Tests.same_suite _ _ _ (suites_conducted show repr c P) _ _ L) as (rows & I & F).
  exists rows. split; [exact I|].
  unfold root_body in M. rewrite D in M. apply bind_ret in M. destruct M as (es1 & b & h1 & es2 & M1 & M & Es).
  pose proof M1 as M2. apply server_ret in M2. destruct M2 as (rr & -> & _ & _ & _ & s & -> & S).
  apply (P_Tests.server_asked _ _ _ _ _ _ P) in M1. destruct M1 as (s' & Q & M1). cbn [app] in *. apply (f_equal (List.map fst)) in Q. cbn [List.map fst] in Q.
  assert (s' = s) by congruence. subst s'. clear Q.
  assert (Er : ok root = forallb ok (r_subs root)) by (rewrite Root; apply summed_appends).
  destruct (srv [] s) as [st ct d|e t] eqn:A.
  - destruct S as [-> O]. apply bind_ret in M. destruct M as (es3 & mat & h3 & es4 & M2 & M & ->).
    eapply operations_course in M2; [|exact F|exact G]. destruct M2 as (pieces & -> & -> & Fp).
    rewrite meaning_bind in M. match type of M with context [meaning (summary ?m) srv ?h3] => destruct (summary_meaning m srv h3) as (r & Q0 & _ & _ & _ & Q1) end.
    rewrite Q0 in M. cbn [andthen meaning] in M. injection M as <- <- <-.
    apply agree_operations in Fp. destruct Fp as [A1 A2].
    assert (Sub : ok root = forallb ok (List.map fst pieces)).
    { rewrite Er, Es. cbn [app forallb]. rewrite O. cbn [andb]. rewrite !forallb_app. cbn [forallb app]. rewrite Q1. now rewrite !andb_true_r. }
    rewrite Sub. split.
    + intros Ok. destruct (A1 Ok) as (us & Q & Us). exists s, st, ct, d, us. split; [cbn [app]; f_equal; exact Q|auto].
    + intros (s' & st' & ct' & d' & us & Q & _ & Us). cbn [app] in Q. destruct (A2 (List.concat us) [] []) as [Ok _]; [eauto| |exact Ok].
      rewrite !app_nil_r. injection Q as _ _ _ _ Q. exact Q.
  - destruct S as (-> & -> & Lv). injection M as <- <- <-. rewrite Er, Es. cbn [app forallb]. replace (ok rr) with false; [|unfold ok; now rewrite Lv]. split; [discriminate|].
    intros (s' & st' & ct' & d' & us & Q & _). discriminate Q.
Qed.
Print Assumptions C96_verdict.
(** The same for the runs of the command line tool: the exit status is zero exactly if the exchanges are those with a compliant server.  No
    exchanges belong to the check of a file or a dry run. *)
Theorem C96_tool : forall show repr w argv r h o, Reaches show repr w argv r h o ->
  h = [] \/ exists c conf rows, In (cf_suite conf, rows) conducted /\
    (exit_status r = 0 <-> Compliant show repr c (cf_suite conf) (filter (fun x => selected (cf_filter conf) (lit (ro_name x))) rows) h).
Proof.
  intros show repr w argv r h o [? ? ? ? ? ? _ _ _ E|? ? ns ? suite ? m ? _ _ _ _ E]; [now left|].
  destruct (cf_dry (config_of ns suite)) eqn:D.
  - left. apply (P_Api.C75_dry_run show repr (client_of ns) _ (w_server w)) in D. destruct D as [D _]. unfold Returns in E. now rewrite E in D.
  - right. exists (client_of ns), (config_of ns suite). destruct (C96_verdict _ _ _ _ _ _ _ _ (eq_refl : prefixes (client_of ns) = []) D E) as (rows & I & V).
    exists rows. split; [exact I|]. rewrite <- V. unfold exit_status. match goal with |- context [ok ?x] => destruct (ok x) end; split; intros X; (reflexivity || discriminate X).
Qed.
Print Assumptions C96_tool.
(** What is to be expected of an answer in a setup is determined by the path of the request. *)
Theorem C96_expected : forall r b b', Expects r b -> Expects r b' -> b = b'.
Proof. exact expects_unique. Qed.
Print Assumptions C96_expected.
(** The requests of all setups are covered. *)
Definition expectedb (r : route) : bool :=
  match rev r with
  | Word s :: _ => existsb (fun p => str_eqb (skipn (List.length s - List.length (lit (fst p))) s) (lit (fst p))) setup_answers
  | _ => false
  end.
Lemma expectedb_spec r : expectedb r = true -> exists b, Expects r b.
Proof.
  unfold expectedb. intros E. pose proof (rev_involutive r) as R. destruct (rev r) as [|[s|src|n] q]; try discriminate E.
  apply existsb_exists in E. destruct E as ([w b] & I & E). apply str_eqb_spec in E. cbn [fst] in E. exists b, (rev q), (firstn (List.length s - List.length (lit w)) s), w.
  split; [|exact I]. rewrite <- R. cbn [rev]. f_equal. f_equal. f_equal. etransitivity; [symmetry; apply (firstn_skipn (List.length s - List.length (lit w)) s)|]. now rewrite E.
Qed.
Lemma all_expected : forallb (fun x => forallb (fun y => forallb (fun k => expectedb (fst k)) (ro_setup y)) (snd x)) conducted = true.
Proof. vm_compute. reflexivity. Qed.
Theorem C96_covered : forall suite rows row k, In (suite, rows) conducted -> In row rows -> In k (ro_setup row) -> exists b, Expects (fst k) b.
Proof.
  intros suite rows row k I J K. apply expectedb_spec. pose proof all_expected as A. rewrite forallb_forall in A. specialize (A _ I). cbn [snd] in A.
  rewrite forallb_forall in A. specialize (A _ J). rewrite forallb_forall in A. exact (A _ K).
Qed.
Print Assumptions C96_covered.

(** ** Concrete runs *)
Definition passed (x : ctl (result * matrix) * trace) : option (bool * nat) := match x with (Ret (r, _), h) => Some (ok r, List.length h) | _ => None end.
Definition some_submodel : json := P_Tests.obj [("modelType", P_Tests.txt "Submodel"); ("id", P_Tests.txt "urn:s")].
Definition page_of (l : list json) (cursor : list (string * json)) : reply := Response 200 None (Json (P_Tests.obj [("result", JArr l); ("paging_metadata", P_Tests.obj cursor)])).
Definition rejection : reply := Response 400 None (Json (P_Tests.obj [("messages", JArr [])])).
Definition submodel_repository : str := ssp "SubmodelRepositoryServiceSpecification/SSP-002".
(** a server that rejects the negative limit, or does not, and gives the same page otherwise *)
Definition paged (strict : bool) (page : reply) : server := fun _ s => if strict && P_Api.contains (lit "limit=-1") (s_url s) then rejection else page.
Local Notation runs srv := (passed (P_Api.run_of submodel_repository "GetAllSubmodels" srv)).
(** With a page of one submodel and a cursor the server passes after six exchanges.  It fails if it accepts a negative limit; without a cursor
    there is one exchange less.  If the submodel has no identifier, then the setup fails, and nothing else is asked. *)
Example C96_pass : runs (paged true (page_of [some_submodel] [("cursor", P_Tests.txt "c")])) = Some (true, 6%nat).
Proof. vm_compute. reflexivity. Qed.
Example C96_lax : runs (paged false (page_of [some_submodel] [])) = Some (false, 5%nat).
Proof. vm_compute. reflexivity. Qed.
Example C96_setup : runs (paged true (page_of [P_Tests.obj [("modelType", P_Tests.txt "Submodel")]] [])) = Some (false, 2%nat).
Proof. vm_compute. reflexivity. Qed.
(** so there are compliant servers, and the others are not *)
Lemma passed_compliant suite op srv good n : passed (P_Api.run_of suite op srv) = Some (good, n) ->
  exists rows h, In (suite, rows) conducted /\ List.length h = n /\
    (good = true <-> Compliant (fun _ => []) (fun _ => []) P_Api.some_client suite (filter (fun x => selected (P_Api.only op) (lit (ro_name x))) rows) h).
Proof.
  intros E. destruct (P_Api.run_of suite op srv) as [[[r m]| |] h] eqn:R; try discriminate E. cbn [passed] in E. injection E as <- <-.
  apply P_Tests.run_returns in R. destruct (C96_verdict _ _ _ _ _ _ _ _ (eq_refl : prefixes P_Api.some_client = []) (eq_refl : cf_dry (Config suite None false (P_Api.only op)) = false) R) as (rows & I & V).
  exists rows, h. auto.
Qed.
Example C96_some : exists rows h, In (submodel_repository, rows) conducted /\ List.length h = 6%nat /\
  Compliant (fun _ => []) (fun _ => []) P_Api.some_client submodel_repository (filter (fun x => selected (P_Api.only "GetAllSubmodels") (lit (ro_name x))) rows) h.
Proof.
  pose proof (passed_compliant _ _ _ _ _ C96_pass) as R. destruct R as (rows & h & I & L & C). exists rows, h.
  split; [exact I|]. split; [exact L|]. now apply C.
Qed.
Example C96_not : exists rows h, In (submodel_repository, rows) conducted /\ List.length h = 2%nat /\
  ~ Compliant (fun _ => []) (fun _ => []) P_Api.some_client submodel_repository (filter (fun x => selected (P_Api.only "GetAllSubmodels") (lit (ro_name x))) rows) h.
Proof.
  pose proof (passed_compliant _ _ _ _ _ C96_setup) as R. destruct R as (rows & h & I & L & C). exists rows, h.
  split; [exact I|]. split; [exact L|]. intros X. apply C in X. discriminate X.
Qed.
