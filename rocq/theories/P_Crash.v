(** Property C82, continued: why the check of a server ends with an exception, and for which servers there is always a report. *)
From Coq Require Import PeanoNat String List NArith ZArith Bool Lia.
From Verif Require Import PyStr PyStrFacts PyBase PyVal Codec CodecSpec ResultModel ResultSpec ResultFacts ContextModel HttpModel ConfigModel ReflectModel MetaModel MetaFacts
  AdapterModel ParseModel CheckModel ConstraintFacts7 ProgModel ProgSpec ProgFacts ApiModel ApiSpec ApiSuites ApiFacts ApiBody ApiFacts2 CliModel CliSpec TestSpec ApiPart ApiValue TestFacts TestFacts2 TestFacts3.
From Verif Require Import CrashSpec CrashValue CrashFacts CrashFacts2 CrashFacts3 CrashFacts4 CrashFacts5 CrashFacts6.
From Verif Require P_Api P_Tests P_Constraint ApiFacts3.
Import ListNotations.
Local Open Scope string_scope.
Local Open Scope list_scope.

Lemma both_suites {A B} (R R' : A -> B -> Prop) (l : list (str * list A)) (l' : list (str * list B)) :
  Forall2 (fun x y => fst x = fst y /\ Forall2 R (snd x) (snd y)) l l' -> Forall2 (fun x y => fst x = fst y /\ Forall2 R' (snd x) (snd y)) l l' ->
  Forall2 (fun x y => fst x = fst y /\ (Forall2 R (snd x) (snd y) /\ Forall2 R' (snd x) (snd y))) l l'.
Proof. induction 1 as [|x y l l' [E H] F IH]; intros G; inversion G as [|? ? ? ? [_ G1] G2]; subst; constructor; auto. Qed.

(** An exception is one of the request that reaches the server, or has a cause in the last exchange of an operation.  All operations before
    have been conducted as if there was a report (C95), and also in the last one all requests are those of the table (C94). *)
Theorem C82_causes : forall show repr c conf srv ops e m h, prefixes c = [] -> cf_dry conf = false -> Known_version conf -> Asked conf ops ->
  run (check_api show repr c conf) srv = (Exc e m, h) ->
  (exists s, h = [(s, Failed e m)] /\ e <> RequestException) \/
  exists rows rows1 row rows2 first pieces t s y, In (cf_suite conf, rows) conducted /\
    filter (fun x => selected (cf_filter conf) (lit (ro_name x))) rows = rows1 ++ row :: rows2 /\
    Sends c [] None [] [] (fst first) /\ h = first :: List.concat pieces ++ t ++ [(s, y)] /\
    Forall2 (fun row t => exists r k, type_of_answer (answer_to (lit (ro_name row))) k /\
        Conducted c (Verdict (answer_to (lit (ro_name row))) (Accepts show repr k) (Spotless show repr k) (cf_suite conf)) row r t) rows1 pieces /\
    Due c row t s /\ Cause show repr row (List.length t) y e m.
Proof.
  intros show repr c conf srv ops e m h P D K A R. destruct (P_Api.version_cases show repr c conf) as [[_ E]|[K' _]]; [|now destruct K'].
  destruct (P_Api.asked_suite show repr conf ops A) as [l L]. rewrite E, (run_root _ _ _ _ _ L) in R. clear E.
  pose proof (P_Api.suite_good _ _ _ _ L) as G.
  destruct (P_Tests.same_suite (fun x y => Forall2 (fits_row show repr c) x y /\ Forall2 (Breaks show repr c) x y) _ _ (both_suites _ _ _ _ (suites_conducted show repr c P) (suites_break show repr c)) _ _ L) as (rows & I & F & B).
  assert (M : exists es, meaning (root_body c conf l) srv [] = (es, Exc e m, h)).
  { destruct (meaning (root_body c conf l) srv []) as [[es [x|a|e' t]] h']; [discriminate R..|]. exists es. congruence. }
  clear R. destruct M as (es & M). unfold root_body in M. rewrite D, meaning_bind in M.
  destruct (meaning (check_server false c) srv []) as [[es1 [b|a|e1 m1]] h1] eqn:M1; cbn [andthen] in M.
  - pose proof M1 as M2. apply server_ret in M2. destruct M2 as (rr & -> & _ & _ & _ & s & -> & S).
    apply (P_Tests.server_asked _ _ _ _ _ _ P) in M1. destruct M1 as (s' & Q & M1). cbn [app] in *. apply (f_equal (List.map fst)) in Q. cbn [List.map fst] in Q.
    assert (s' = s) by congruence. subst s'. clear Q. destruct b; [|discriminate M]. rewrite meaning_bind in M.
    match type of M with context [meaning (check_operations ?a ?b ?c ?d ?e ?f) ?g ?h] =>
      pose proof (operations_noabort a b c d e f g h) as N; destruct (meaning (check_operations a b c d e f) g h) as [[es2 [x|a'|e2 t2]] h2] eqn:M2 end; cbn [andthen] in M.
    + rewrite meaning_bind in M. destruct (summary_meaning x srv h2) as (r & Q & _). rewrite Q in M. discriminate M.
    + now destruct (N a').
    + injection M as _ -> -> ->. right. apply (operations_crash show repr c _ _ _ _ B F G) in M2. destruct M2 as (rows1 & row & rows2 & pieces & t & C & -> & J & X & Y).
      destruct X as (t1 & s1 & y1 & -> & X). destruct Y as (t2 & s2 & y2 & Q & Y). apply app_inj_tail in Q. destruct Q as [<- Q]. injection Q as <- <-.
      exists rows, rows1, row, rows2, (s, srv [] s), pieces, t1, s1, y1. split; [exact I|]. split; [exact C|]. split; [exact M1|]. split; [reflexivity|].
      split; [exact J|]. split; [exact Y|exact X].
  - now destruct (server_noabort false c srv [] a); rewrite M1.
  - left. injection M as _ -> -> ->. unfold check_server in M1. rewrite meaning_bind, meaning_block in M1.
    destruct (reach_request c) as [s S]. rewrite S in M1. cbn [lift pbind meaning] in M1. exists s.
    destruct (srv [] s) as [status content data|[]]; cbn -[lit] in M1; try discriminate M1; injection M1 as _ <- <- <-; split; (reflexivity || discriminate).
Qed.
Print Assumptions C82_causes.


(** The requests of the setup are those of the table, up to an exception as well. *)
Theorem C82_setup : forall c row t s, Due c row t s -> (List.length t < List.length (ro_setup row))%nat ->
  exists k y t', nth_error (ro_setup row) (List.length t) = Some k /\ Sends c (t ++ (s, y) :: t') None (fst k) (snd k) s.
Proof.
  assert (N : forall c t0 l t u s y, Setups c t0 l (t ++ (s, y) :: u) -> exists k, nth_error l (List.length t) = Some k /\ Sends c t0 None (fst k) (snd k) s).
  { intros c t0 l t u s y. unfold Setups. revert l. induction t as [|x t IH]; cbn [app]; intros l F; inversion F as [|k ? l' ? H1 H2]; subst; cbn [List.length nth_error]; eauto. }
  intros c row t s (y & t' & r & C) L. destruct C as [setup l1 l2 _ _ E S|setup neg pos t0 t1 t2 _ E S _ _].
  - destruct (N _ _ _ _ _ _ _ S) as (k & Nk & Sk). exists k, y, t'. split; [|exact Sk]. rewrite E, nth_error_app1; [exact Nk|]. apply nth_error_Some. congruence.
  - assert (L0 : List.length t0 = List.length (ro_setup row)). { clear -S. unfold Setups in S. induction S; cbn [List.length]; congruence. }
    assert (Q : exists u, t0 = t ++ (s, y) :: u).
    { clear -E L L0. revert t0 E L0. generalize (t1 ++ List.concat t2) as w. intros w t0 E L0. rewrite <- L0 in L. clear L0. revert t0 E L.
      induction t as [|x t IH]; intros [|x0 t0] E L; cbn [app List.length] in *; [lia| |lia|].
      - injection E as <- E. now exists t0.
      - injection E as <- E. destruct (IH t0 E) as [u ->]; [lia|]. now exists u. }
    destruct Q as (u & ->). destruct (N _ _ _ _ _ _ _ S) as (k & Nk & Sk). exists k, y, u. auto.
Qed.
Print Assumptions C82_setup.

Lemma unique_key {A} (l : list (str * A)) k a b : NoDup (List.map fst l) -> In (k, a) l -> In (k, b) l -> a = b.
Proof.
  induction l as [|[k' x] l IH]; cbn [List.map fst In]; intros N Ha Hb; [destruct Ha|]. inversion N as [|? ? N1 N2]; subst.
  destruct Ha as [Ea|Ha], Hb as [Eb|Hb]; [congruence| | |auto]; exfalso; apply N1.
  - injection Ea as -> _. apply (in_map fst) in Hb. exact Hb.
  - injection Eb as -> _. apply (in_map fst) in Ha. exact Ha.
Qed.
Lemma rows_unique k a b : In (k, a) conducted -> In (k, b) conducted -> a = b.
Proof.
  apply unique_key. apply nodupb_spec. vm_compute. reflexivity.
Qed.
Lemma run_honest show repr c conf srv ops k h : Known_version conf -> Asked conf ops -> run (check_api show repr c conf) srv = (k, h) -> Honest srv [] h.
Proof.
  intros K A R. destruct (P_Api.version_cases show repr c conf) as [[_ E]|[K' _]]; [|now destruct K'].
  destruct (P_Api.asked_suite show repr conf ops A) as [l L]. rewrite E, (run_root _ _ _ _ _ L) in R.
  destruct (meaning_honest (root_body c conf l) srv []) as (t & Q & H). destruct (meaning (root_body c conf l) srv []) as [[es [x|a|e m]] h']; cbn [snd app] in Q; subst h';
    injection R as _ <-; exact H.
Qed.
(** There is a report for every server that can be reached, or that fails only to be reached, and that gives no cause for an exception to
    the requests of the table. *)
Theorem C82_returned : forall show repr c conf srv ops rows, prefixes c = [] -> cf_dry conf = false -> Known_version conf -> Asked conf ops ->
  In (cf_suite conf, rows) conducted -> (forall s e m, srv [] s = Failed e m -> e = RequestException) ->
  (forall row h t s e m, In row rows -> Due c row t s -> ~ Cause show repr row (List.length t) (srv (h ++ t) s) e m) ->
  exists root m h, Returns (check_api show repr c conf) srv (root, m) h /\
    (Unreached c conf root h \/ exists pieces, Complete c conf ops pieces root h).
Proof.
  intros show repr c conf srv ops rows P D K A I F N.
  destruct (run (check_api show repr c conf) srv) as [[[root m]|a|e m] h] eqn:R.
  - exists root, m, h. split; [exact R|]. destruct (P_Api.complete_reports _ _ _ _ _ _ _ _ D R) as [[U _]|[(os & ps & A' & C) _]]; [now left|right].
    exists ps. enough (os = ops) by (subst; exact C). destruct A as (n & al & E1 & I1 & ->), A' as (n' & al' & E2 & I2 & ->).
    assert (n = n') by (apply ApiFacts3.lit_inj; congruence). subst n'. now rewrite (P_Api.operations_unique n al al').
  - exfalso. pose proof R as R'. destruct (P_Api.version_cases show repr c conf) as [[_ E]|[K' _]]; [|now destruct K'].
    destruct (P_Api.asked_suite show repr conf ops A) as [l L]. rewrite E, (run_root _ _ _ _ _ L) in R'.
    destruct (meaning (root_body c conf l) srv []) as [[es [x|b|e t]] h']; discriminate R'.
  - exfalso. destruct (C82_causes _ _ _ _ _ _ _ _ _ P D K A R) as [(s & -> & X)|(rows' & rows1 & row & rows2 & first & pieces & t & s & y & I' & C & S & -> & J & Du & Ca)].
    + exfalso. pose proof (run_honest _ _ _ _ _ _ _ _ K A R) as H. apply X. apply (F s e m). symmetry. now apply (H [] s (Failed e m) []).
    + pose proof (run_honest _ _ _ _ _ _ _ _ K A R) as H. rewrite (rows_unique _ _ _ I' I) in C.
      apply (N row (first :: List.concat pieces) t s e m); [|exact Du|].
      * assert (In row (filter (fun x => selected (cf_filter conf) (lit (ro_name x))) rows)) as Ir by (rewrite C; apply in_elt). now apply filter_In in Ir.
      * change (srv ((first :: List.concat pieces) ++ t) s) with (srv ([] ++ first :: List.concat pieces ++ t) s).
        rewrite <- (H (first :: List.concat pieces ++ t) s y []); [exact Ca|]. cbn [app]. now rewrite <- app_assoc.
Qed.
Print Assumptions C82_returned.
(** In particular for all servers that answer always, but never with success *)
Example C82_returned_example : forall show repr c srv, prefixes c = [] -> Answers srv (fun st => st <> 200%Z) ->
  exists root m h pieces, Returns (check_api show repr c (Config P_Api.submodel_service None false (P_Api.only "GetSubmodel"))) srv (root, m) h /\
    Complete c (Config P_Api.submodel_service None false (P_Api.only "GetSubmodel")) ["GetSubmodel"] pieces root h.
Proof.
  intros show repr c srv P An.
  assert (A : Asked (Config P_Api.submodel_service None false (P_Api.only "GetSubmodel")) ["GetSubmodel"]).
  { eexists _, _. split; [reflexivity|]. split; [do 3 right; left; reflexivity|]. vm_compute. reflexivity. }
  destruct (C82_returned show repr c (Config P_Api.submodel_service None false (P_Api.only "GetSubmodel")) srv _ submodel_service_rows P eq_refl (or_introl eq_refl) A)
    as (root & m & h & R & [U|[pieces C]]).
  - do 3 right. now left.
  - intros s e m E. destruct (An [] s) as (st & ct & d & Q & _). congruence.
  - intros row h t s e m _ _ C. destruct (An (h ++ t) s) as (st & ct & d & Q & N). rewrite Q in C. inversion C; subst; now apply N.
  - exfalso. destruct U as (reach & s & text & _ & _ & _ & U). apply (run_honest _ _ _ (Config P_Api.submodel_service None false (P_Api.only "GetSubmodel")) _ _ _ _ (or_introl eq_refl) A) in R.
    destruct (An [] s) as (st & ct & d & Q & _). specialize (R [] s _ [] U). cbn [app] in R. congruence.
  - exists root, m, h, pieces. auto.
Qed.

(** ** Servers that give a cause *)
Definition crashed (x : ctl (result * matrix) * trace) : option (exn * nat) := match x with (Exc e _, h) => Some (e, List.length h) | _ => None end.
Definition page (l : list json) : reply := Response 200 None (Json (P_Tests.obj [("result", JArr l); ("paging_metadata", P_Tests.obj [])])).
Definition item (l : list (string * json)) : json := P_Tests.obj l.
Definition txt := P_Tests.txt.
Definition a_shell (short : list (string * json)) (asset : string * json) : json :=
  item ([("modelType", txt "AssetAdministrationShell"); ("id", txt "urn:a"); ("assetInformation", item [("assetKind", txt "Instance"); asset])] ++ short).
Definition by_global : string * json := ("globalAssetId", txt "urn:b").
Definition by_specific : string * json := ("specificAssetIds", JArr [item [("name", txt "serial"); ("value", txt "1")]]).
Definition named : list (string * json) := [("idShort", txt "a")].
Definition all_shells (y : reply) := crashed (P_Api.run_of P_Tests.shell_repository "GetAllAssetAdministrationShells" (P_Api.constantly y)).
(** no shell at all; a shell without a short identifier; a shell that has only specific asset identifiers *)
Example C82_untold_example : List.map all_shells [page []; page [a_shell [] by_global]; page [a_shell named by_specific]] =
  [Some (IndexError, 2%nat); Some (AttributeError, 2%nat); Some (AttributeError, 2%nat)].
Proof. vm_compute. reflexivity. Qed.
(** The first shell has a short identifier, but when asked for it the server answers with another one. *)
Definition forgetful : server := fun _ s => if P_Api.contains (lit "idShort=a") (s_url s) then page [a_shell [] by_global] else page [a_shell named by_global].
Example C82_unnamed_example : crashed (P_Api.run_of P_Tests.shell_repository "GetAllAssetAdministrationShells" forgetful) = Some (AttributeError, 8%nat).
Proof. vm_compute. reflexivity. Qed.
(** A shell derived from an external reference is of the right type, but the check of it fails. *)
Example C82_check_example : crashed (P_Api.run_of P_Tests.shell_service "GetAssetAdministrationShell" (P_Api.constantly (Response 200 None (Json P_Constraint.derived_doc)))) =
  Some (AttributeError, 2%nat).
Proof. vm_compute. reflexivity. Qed.
(** a submodel without elements; with a collection without a value, alone and inside of another one *)
Definition element (ty n : string) (more : list (string * json)) : json := item ([("modelType", txt ty); ("idShort", txt n)] ++ more).
Definition by_path (l : list json) := crashed (P_Api.run_of P_Api.submodel_service "GetSubmodelElementByPath" (P_Api.constantly (page l))).
Definition hollow : json := element "SubmodelElementCollection" "c" [].
Example C82_elements_example :
  List.map by_path [[]; [hollow]; [element "SubmodelElementCollection" "d" [("value", JArr [hollow])]]] =
  [Some (StopIteration, 2%nat); Some (TypeError, 2%nat); Some (TypeError, 2%nat)].
Proof. vm_compute. reflexivity. Qed.
(** a server that cannot be reached in the middle of the tests *)
Definition gone (n : nat) : server := fun h _ => if (List.length h <? n)%nat then P_Api.broken else Failed RequestException (lit "reset").
Example C82_request_example : List.map (fun n => crashed (P_Api.run_of P_Api.submodel_service "GetSubmodel*" (gone n))) [0; 1; 5; 11]%nat =
  [None; Some (RequestException, 2%nat); Some (RequestException, 6%nat); None].
Proof. vm_compute. reflexivity. Qed.
