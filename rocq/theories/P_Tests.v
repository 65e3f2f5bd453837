(** Properties C94 and C95: which request every single test of a server sends, and which verdict it gives. *)
From Coq Require Import PeanoNat String List NArith ZArith Bool Lia.
From Verif Require Import PyStr PyStrFacts PyBase PyVal Codec CodecSpec ResultModel ResultSpec ResultFacts ContextModel HttpModel ConfigModel ReflectModel MetaModel
  AdapterModel ParseModel CheckModel ConstraintFacts7 ProgModel ProgSpec ProgFacts ApiModel ApiSpec ApiSuites ApiFacts ApiBody ApiFacts2 CliModel CliSpec TestSpec ApiPart ApiValue TestFacts TestFacts2 TestFacts3.
From Verif Require P_Api P_Request.
Import ListNotations.
Local Open Scope string_scope.
Local Open Scope list_scope.

Lemma address_sent c s : prefixes c = [] -> send c (Request [] (lit "get") None [] []) = Val s -> Sends c [] None [] [] s.
Proof.
  intros P S. eapply (endpoint_sends [] None c c (Endpoint [] []) [] [] []); [rewrite P; constructor|reflexivity..| | | | |exact S].
  - constructor.
  - reflexivity.
  - intros l vs E K. assert (l = []) by (cbn in E; congruence). subst l. inversion K; subst. constructor.
  - reflexivity.
Qed.
Lemma server_asked c srv h es b h1 : prefixes c = [] -> meaning (check_server false c) srv h = (es, Ret b, h1) ->
  exists s, h1 = h ++ [(s, srv h s)] /\ Sends c [] None [] [] s.
Proof.
  intros P. unfold check_server. intros E. apply bind_ret in E. destruct E as (es1 & [o r] & h2 & es2 & E1 & E & ->).
  injection E as <- <- <-. rewrite meaning_block in E1.
  destruct (reach_request c) as [s S]. rewrite S in E1. apply (address_sent c s P) in S. cbn [lift pbind meaning] in E1. exists s. split; [|exact S].
  destruct (srv h s) as [status content data|[]]; try discriminate; cbn -[lit] in E1; now injection E1 as <- <- <- <-.
Qed.
Lemma same_suite {A B} (R : A -> B -> Prop) (l : list (str * A)) (l' : list (str * B)) : Forall2 (fun x y => fst x = fst y /\ R (snd x) (snd y)) l l' ->
  forall k x, lookup k l = Some x -> exists y, In (k, y) l' /\ R x y.
Proof.
  induction 1 as [|[k1 x1] [k2 y2] l l' [E H] F IH]; cbn [fst snd lookup] in *; intros k x L; [discriminate|]. destruct (str_eqb k k1) eqn:K.
  - injection L as <-. apply str_eqb_spec in K. subst k k1. exists y2. split; [now left|exact H].
  - apply IH in L. destruct L as (y & I & L). exists y. split; [now right|exact L].
Qed.

(** * C95 *)
(** The operations of the service specification are tested in the order of the table.  Each test sends the request that the table lists for
    it, with the identifiers that the server has told in the setup, and gives the verdict for its claim: after the request that reaches the
    server nothing else is sent. *)
Theorem C95_verdicts : forall show repr c conf srv root m h, prefixes c = [] -> cf_dry conf = false ->
  Returns (check_api show repr c conf) srv (root, m) h ->
  exists rows, In (cf_suite conf, rows) conducted /\
    (Unreached c conf root h \/
     exists reach first sum pieces, entry_of (run_title conf) (reach :: List.map fst pieces ++ [sum]) root /\
       Sends c [] None [] [] (fst first) /\ h = first :: List.concat (List.map snd pieces) /\
       Forall2 (fun row rt => exists k, type_of_answer (answer_to (lit (ro_name row))) k /\
           Conducted c (Verdict (answer_to (lit (ro_name row))) (Accepts show repr k) (Spotless show repr k) (cf_suite conf)) row (fst rt) (snd rt))
         (filter (fun x => selected (cf_filter conf) (lit (ro_name x))) rows) pieces).
Proof.
  intros show repr c conf srv root m h P D R.
  assert (U := P_Api.complete_reports _ _ _ _ _ _ _ _ D R).
  destruct (P_Api.returns_known _ _ _ _ _ _ _ R) as [K E]. rewrite E in R. apply run_ret in R. destruct R as (l & L & Root & M).
  pose proof (P_Api.suite_good _ _ _ _ L) as G. destruct (same_suite _ _ _ (suites_conducted show repr c P) _ _ L) as (rows & I & F).
  exists rows. split; [exact I|]. destruct U as [[U _]|[(ops & ps & _ & C) _]]; [now left|right].
  destruct C as (reach & first & sum & C1 & _ & _ & C2 & _ & _ & _ & _ & C3 & _).
  unfold root_body in M. rewrite D in M. apply bind_ret in M. destruct M as (es1 & b & h1 & es2 & M1 & M & Es).
  pose proof M1 as M2. apply server_ret in M2. destruct M2 as (rr & -> & _ & _ & _ & s & -> & S).
  apply (server_asked _ _ _ _ _ _ P) in M1. destruct M1 as (s' & Q & M1). cbn [app] in *. apply (f_equal (List.map fst)) in Q. cbn [List.map fst] in Q.
  assert (s' = s) by congruence. subst s'. clear Q.
  destruct (srv [] s) as [st ct d|e t] eqn:A.
  - destruct S as [-> _]. apply bind_ret in M. destruct M as (es3 & mat & h3 & es4 & M2 & M & ->).
    eapply operations_conducted in M2; [|exact F|exact G]. destruct M2 as (pieces & -> & -> & Fp).
    rewrite meaning_bind in M. match type of M with context [meaning (summary ?m) srv ?h3] => destruct (summary_meaning m srv h3) as (r & Q0 & _) end.
    rewrite Q0 in M. cbn [andthen meaning] in M. injection M as <- <- <-.
    exists rr, (s, Response st ct d), r, pieces. split; [|split; [exact M1|split; [reflexivity|exact Fp]]].
    rewrite Root, Es. apply (entry_appends (run_title conf)).
  - destruct S as (-> & -> & _). injection M as <- <- <-. exfalso. apply C2. injection C3 as <- _. reflexivity.
Qed.
Print Assumptions C95_verdicts.
(** The same for the runs of the command line tool *)
Theorem C95_tool : forall show repr w argv r h o, Reaches show repr w argv r h o ->
  h = [] \/ exists c conf rows, In (cf_suite conf, rows) conducted /\
    (Unreached c conf r h \/
     exists reach first sum pieces, entry_of (run_title conf) (reach :: List.map fst pieces ++ [sum]) r /\
       Sends c [] None [] [] (fst first) /\ h = first :: List.concat (List.map snd pieces) /\
       Forall2 (fun row rt => exists k, type_of_answer (answer_to (lit (ro_name row))) k /\
           Conducted c (Verdict (answer_to (lit (ro_name row))) (Accepts show repr k) (Spotless show repr k) (cf_suite conf)) row (fst rt) (snd rt))
         (filter (fun x => selected (cf_filter conf) (lit (ro_name x))) rows) pieces).
Proof.
  intros show repr w argv r h o [? ? ? ? ? ? _ _ _ E|? ? ns ? suite ? m ? _ _ _ _ E]; [now left|].
  destruct (cf_dry (config_of ns suite)) eqn:D.
  - left. apply (P_Api.C75_dry_run show repr (client_of ns) _ (w_server w)) in D. destruct D as [D _]. unfold Returns in E. now rewrite E in D.
  - right. exists (client_of ns), (config_of ns suite). eapply C95_verdicts; [reflexivity|exact D|exact E].
Qed.
Print Assumptions C95_tool.
(** A value is accepted as of a type exactly if it fits the description of the type, and all its parts that are objects of the meta model are
    accepted as the content of a file would be; likewise for the values of which the check has nothing to remark. *)
Theorem C95_accepted : forall show repr k b j, In (k, b) bodies ->
  (Accepts show repr k j <-> BodyOk b j /\ forall n w, Part b j n w -> Accepted (check_json show repr n w)).
Proof. exact accepts_exact. Qed.
Theorem C95_spotless : forall show repr k b j, In (k, b) bodies ->
  (Spotless show repr k j <-> BodyOk b j /\ forall n w, Part b j n w -> Unremarked (check_json show repr n w)).
Proof. exact spotless_exact. Qed.
Print Assumptions C95_spotless.
Print Assumptions C95_accepted.

(** * C94 *)
Lemma forall3_weak {A B C} (R R' : A -> B -> C -> Prop) : (forall a b c, R a b c -> R' a b c) -> forall la lb lc, Forall3 R la lb lc -> Forall3 R' la lb lc.
Proof. intros I. induction 1; constructor; auto. Qed.
Lemma exchanges_any c J T t0 test r t : Exchanges c J T t0 test r t -> Exchanges c any_verdict T t0 test r t.
Proof.
  assert (Q : forall S V x, Asked_once S V x -> Asked_once S (fun _ => True) x) by (intros S V x (s & y & E & Ss & _); exists s, y; auto).
  assert (Q' : forall A (g : option A) S V r x, Asked_if g S V r x -> Asked_if g S (fun _ => True) r x) by (intros A [z|] S V r' x; cbn [Asked_if]; eauto).
  unfold Exchanges. destruct (ch_times test); [apply Q|apply Q'|auto|apply Q'|]. intros (ts & E & F). exists ts. split; [exact E|].
  revert F. apply forall3_weak. intros ty x t' [M Ax]. split; [exact M|]. revert Ax. apply Q'.
Qed.
Lemma conducted_any c J row r t : Conducted c J row r t -> Conducted c any_verdict row r t.
Proof.
  intros [setup l1 l2 E O S F|setup neg pos t0 t1 t2 E S F1 F2 F3]; [eapply Only_setup; eauto|]. eapply All_tests; eauto.
  revert F3. apply forall3_weak. intros test x t' [M X]. split; [exact M|]. now apply exchanges_any in X.
Qed.
(** The requests alone *)
Theorem C94_tests : forall show repr c conf srv root m h, prefixes c = [] -> cf_dry conf = false ->
  Returns (check_api show repr c conf) srv (root, m) h ->
  exists rows, In (cf_suite conf, rows) conducted /\
    (Unreached c conf root h \/
     exists reach first sum pieces, entry_of (run_title conf) (reach :: List.map fst pieces ++ [sum]) root /\
       Sends c [] None [] [] (fst first) /\ h = first :: List.concat (List.map snd pieces) /\
       Forall2 (fun row rt => Conducted c any_verdict row (fst rt) (snd rt)) (filter (fun x => selected (cf_filter conf) (lit (ro_name x))) rows) pieces).
Proof.
  intros show repr c conf srv root m h P D R. destruct (C95_verdicts _ _ _ _ _ _ _ _ P D R) as (rows & I & [U|(reach & first & sum & pieces & E & S & H & F)]); exists rows; (split; [exact I|]); [now left|].
  right. exists reach, first, sum, pieces. repeat split; [exact (proj1 E)|apply E..|exact S|exact H|]. clear -F. induction F as [|row rt rws pcs (k & _ & Q) F IH]; constructor; [now apply conducted_any in Q|exact IH].
Qed.
Print Assumptions C94_tests.
(** The same for the runs of the command line tool *)
Theorem C94_tool : forall show repr w argv r h o, Reaches show repr w argv r h o ->
  h = [] \/ exists c conf rows, In (cf_suite conf, rows) conducted /\
    (Unreached c conf r h \/
     exists reach first sum pieces, entry_of (run_title conf) (reach :: List.map fst pieces ++ [sum]) r /\
       Sends c [] None [] [] (fst first) /\ h = first :: List.concat (List.map snd pieces) /\
       Forall2 (fun row rt => Conducted c any_verdict row (fst rt) (snd rt)) (filter (fun x => selected (cf_filter conf) (lit (ro_name x))) rows) pieces).
Proof.
  intros show repr w argv r h o [? ? ? ? ? ? _ _ _ E|? ? ns ? suite ? m ? _ _ _ _ E]; [now left|].
  destruct (cf_dry (config_of ns suite)) eqn:D.
  - left. apply (P_Api.C75_dry_run show repr (client_of ns) _ (w_server w)) in D. destruct D as [D _]. unfold Returns in E. now rewrite E in D.
  - right. exists (client_of ns), (config_of ns suite). eapply C94_tests; [reflexivity|exact D|exact E].
Qed.
Print Assumptions C94_tool.

(** ** Concrete runs *)
(** the requests of a run, and whether one of its positive tests has a title *)
Definition asked (title : str) (x : ctl (result * matrix) * trace) : option (list str * bool) :=
  match x with
  | (Ret (r, _), h) => Some (List.map (fun y => s_url (fst y)) h, existsb (str_eqb title) (List.map r_message (tests_reported (lit "Positive Tests") r)))
  | _ => None
  end.
Definition claimed : str := docstring "Fetch all submodel elements with level=core and extend=withBlobValue".
Definition empty_page : server := P_Api.constantly (Response 200 None (Json (JObj [(lit "result", JArr []); (lit "paging_metadata", JObj [])]))).
(** the setup, three negative tests and eleven positive tests, of which one is skipped *)
Example C94_urls : asked claimed (P_Api.run_of P_Api.submodel_service "GetAllSubmodelElements" empty_page) =
  Some (lit "http://localhost" :: List.map (fun x => lit "http://localhost/submodel/submodel-elements" ++ lit x)
    ["?limit=1"; "?level=%23%23%23%23%23"; "?extent=%23%23%23%23%23"; "?limit=-1";
     "?limit=1"; ""; "?level=core"; "?level=deep"; "?extent=withBlobValue"; "?extent=withoutBlobValue";
     "?level=core&extent=withoutBlobValue"; "?level=deep&extent=withoutBlobValue"; "?level=deep&extent=withBlobValue"; "?level=deep&extent=withoutBlobValue"], true).
Proof. vm_compute. reflexivity. Qed.

(** the verdicts of the positive tests of a run *)
Definition judged (x : ctl (result * matrix) * trace) : option (list level) :=
  match x with (Ret (r, _), _) => Some (List.map r_level (tests_reported (lit "Positive Tests") r)) | _ => None end.
Definition obj (l : list (string * json)) : json := JObj (List.map (fun x => (lit (fst x), snd x)) l).
Definition txt (s : string) : json := JStr (lit s).
Definition some_shell : json := obj [("modelType", txt "AssetAdministrationShell"); ("id", txt "urn:a"); ("idShort", txt "a");
  ("assetInformation", obj [("assetKind", txt "Instance"); ("globalAssetId", txt "urn:b")])].
Definition one_shell : server := P_Api.constantly (Response 200 None (Json (obj [("result", JArr [some_shell]); ("paging_metadata", obj [])]))).
Definition shell_repository : str := ssp "AssetAdministrationShellRepositoryServiceSpecification/SSP-002".
(** A server that ignores the filters and answers always with the same shell: the filter by a short identifier that does not exist fails,
    and there is no cursor. *)
Example C95_no_filter : judged (P_Api.run_of shell_repository "GetAllAssetAdministrationShells" one_shell) = Some [INFO; ERROR; INFO; INFO; INFO; WARNING].
Proof. vm_compute. reflexivity. Qed.
(** The only shell of a server needs an asset identifier, which the meta model demands only as a constraint; without a kind of the asset it is
    not even a shell. *)
Definition shell_service : str := ssp "AssetAdministrationShellServiceSpecification/SSP-002".
Definition the_shell (asset : list (string * json)) : server :=
  P_Api.constantly (Response 200 None (Json (obj [("modelType", txt "AssetAdministrationShell"); ("id", txt "urn:a"); ("idShort", txt "a"); ("assetInformation", obj asset)]))).
Example C95_constraint : List.map (fun a => judged (P_Api.run_of shell_service "GetAssetAdministrationShell" (the_shell a)))
  [[("assetKind", txt "Instance"); ("globalAssetId", txt "urn:b")]; [("assetKind", txt "Instance")]; [("globalAssetId", txt "urn:b")]] =
  [Some [INFO]; Some [ERROR]; Some [ERROR]].
Proof. vm_compute. reflexivity. Qed.
(** A description that does not list the suite gives a warning, a failure of the server is critical. *)
Definition described (profiles : list json) : reply := Response 200 None (Json (obj [("profiles", JArr profiles)])).
Example C95_description : List.map (fun y => judged (P_Api.run_of P_Api.submodel_service "GetDescription" (P_Api.constantly y)))
  [described [JStr P_Api.submodel_service]; described [JStr shell_repository]; described [JBool true]; Response 500 None (Json (obj []))] =
  [Some [INFO]; Some [WARNING]; Some [ERROR]; Some [CRITICAL]].
Proof. vm_compute. reflexivity. Qed.

(** ** Titles that promise other requests *)
(** A test claims to fetch the elements with level=core and with the values of blobs, but no request of the run asks for that: a server
    may be wrong in this case without being noticed. *)
Definition never : list str -> bool := forallb (fun u => negb (P_Api.contains (lit "level=core&extent=withBlobValue") u)).
Lemma never_asked x us : asked claimed x = Some (us, true) -> never us = true ->
  exists root m h, x = (Ret (root, m), h) /\ Exists (fun r => r_message r = claimed) (tests_reported (lit "Positive Tests") root) /\
    Forall (fun x => P_Api.contains (lit "level=core&extent=withBlobValue") (s_url (fst x)) = false) h.
Proof.
  destruct x as [[[root m]| |] h]; try discriminate. cbn [asked]. intros U N. generalize dependent claimed. intros t0 U.
  assert (V : existsb (str_eqb t0) (List.map r_message (tests_reported (lit "Positive Tests") root)) = true) by congruence. exists root, m, h. split; [reflexivity|]. split.
  - apply existsb_exists in V. destruct V as (t & I & T). apply str_eqb_spec in T. subst t.
    apply in_map_iff in I. destruct I as (r & R & I). apply Exists_exists. eauto.
  - assert (U' : us = List.map (fun y => s_url (fst y)) h) by congruence. clear U V. subst us. unfold never in N. rewrite forallb_forall in N.
    apply Forall_forall. intros x I. specialize (N _ (in_map _ _ _ I)). now apply negb_true_iff in N.
Qed.
Lemma run_returns suite op srv x h : P_Api.run_of suite op srv = (Ret x, h) ->
  Returns (check_api (fun _ => []) (fun _ => []) P_Api.some_client (Config suite None false (P_Api.only op))) srv x h.
Proof. unfold Returns, P_Api.run_of. auto. Qed.
Theorem C94_refuted : exists show repr c conf srv root m h, prefixes c = [] /\ cf_dry conf = false /\
  Returns (check_api show repr c conf) srv (root, m) h /\ Exists (fun r => r_message r = claimed) (tests_reported (lit "Positive Tests") root) /\
  Forall (fun x => P_Api.contains (lit "level=core&extent=withBlobValue") (s_url (fst x)) = false) h.
Proof.
  destruct (never_asked _ _ C94_urls) as (root & m & h & E & P & N); [vm_compute; reflexivity|].
  exists (fun _ => []), (fun _ => []), P_Api.some_client, (Config P_Api.submodel_service None false (P_Api.only "GetAllSubmodelElements")), empty_page, root, m, h.
  split; [reflexivity|]. split; [reflexivity|]. split; [exact (run_returns _ _ _ _ _ E)|]. split; [exact P|exact N].
Qed.
Print Assumptions C94_refuted.
