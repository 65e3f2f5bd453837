(** Property C90: where the requests of the server check go. *)
From Coq Require Import PeanoNat String List NArith ZArith Bool Lia.
From Verif Require Import PyStr PyStrFacts PyBase ResultModel ContextModel ConfigModel HttpModel ProgModel ApiModel ApiSpec ApiSuites CliModel CliSpec
  CodecSpec RequestSpec RequestFacts3 ReportFacts.
Import ListNotations.
Local Open Scope list_scope.

(** * C90 *)
(** Whatever the server answers and however the run ends, every request is a GET request to the address itself, to an endpoint of the
    chosen service specification or to one of the listed paths that are none; its parameters are parameters of this endpoint. *)
Theorem C90_requests : forall show repr c conf srv o h, prefixes c = [] -> run (check_api show repr c conf) srv = (o, h) ->
  h = [] \/ exists places strays, In (cf_suite conf, (places, strays)) published /\
    Forall (fun x => Request_to (address :: places ++ strays) c (fst x)) h.
Proof.
  intros show repr c conf srv o h C R.
  destruct (server_run show repr (fun _ => True) (fun _ _ => I) (fun _ _ _ _ _ => I) (fun _ _ _ _ => I) c conf srv o h C R) as [_ [H|([places strays] & L & F)]]; [now left|right].
  exists places, strays. split; [|exact F]. revert L. generalize published. intros l. induction l as [|[k v] l IH]; cbn [lookup]; [discriminate|].
  destruct (str_eqb (cf_suite conf) k) eqn:K; [|right; auto]. apply str_eqb_spec in K. intros [= ->]. left. now rewrite K.
Qed.
Print Assumptions C90_requests.
(** For the repository of shells, no path is requested that is no endpoint. *)
Theorem C90_repository : forall show repr c conf srv o h, prefixes c = [] ->
  cf_suite conf = ssp "AssetAdministrationShellRepositoryServiceSpecification/SSP-002" -> run (check_api show repr c conf) srv = (o, h) ->
  Forall (fun x => Request_to (address :: shell_repository) c (fst x)) h.
Proof.
  intros show repr c conf srv o h C S R. destruct (C90_requests _ _ _ _ _ _ _ C R) as [-> |(places & strays & L & F)]; [constructor|]. rewrite S in L.
  destruct L as [L|[L|[L|[L|[]]]]]; try (apply (f_equal fst) in L; vm_compute in L; discriminate L).
  apply (f_equal snd) in L. cbn [snd] in L. assert (A : shell_repository = places) by exact (f_equal fst L). assert (B : [] = strays) by exact (f_equal snd L).
  rewrite <- A, <- B, app_nil_r in F. exact F.
Qed.
Print Assumptions C90_repository.
(** The same for the runs of the command line tool *)
Theorem C90_tool : forall show repr w argv r h o, Reaches show repr w argv r h o ->
  h = [] \/ exists c suite places strays, In (suite, (places, strays)) published /\ Forall (fun x => Request_to (address :: places ++ strays) c (fst x)) h.
Proof.
  intros show repr w argv r h o [? ? ? ? ? ? _ _ _ E|? ? ns ? suite ? ? ? _ _ _ _ E]; [now left|].
  destruct (C90_requests show repr (client_of ns) (config_of ns suite) _ _ _ eq_refl E) as [H|(places & strays & L & F)]; [now left|right].
  exists (client_of ns), suite, places, strays. auto.
Qed.
Print Assumptions C90_tool.

(** ** Paths that are no endpoints *)
(** no endpoint with this template has this path *)
Fixpoint unfit (t : template) (u : str) : bool :=
  match t with
  | [] => match u with [] => false | c :: _ => negb (N.eqb c 63) end
  | Fixed s :: t' => if startswith s u then unfit t' (skipn (List.length s) u) else true
  | _ => false
  end.
Lemma unfit_spec t : forall p rest, Matches t p -> (rest = [] \/ exists q, rest = 63%N :: q) -> unfit t (p ++ rest) = false.
Proof.
  intros p rest M R. revert rest R. induction M as [|s t p M IH|x t p E M IH|x t p M IH]; intros rest R; cbn [unfit]; [|..].
  - destruct R as [-> |[q ->]]; reflexivity.
  - rewrite <- app_assoc. replace (startswith s (s ++ p ++ rest)) with true by (symmetry; apply startswith_spec; eauto).
    rewrite skipn_app, skipn_all, Nat.sub_diag. cbn [skipn app]. now apply IH.
  - reflexivity.
  - reflexivity.
Qed.
Lemma nowhere l u : forallb (fun pl => unfit (p_template pl) u) l = true -> ~ Asks_for l u.
Proof.
  intros N (pl & p & ps & I & M & _ & K). rewrite forallb_forall in N. specialize (N pl I).
  assert (E : exists rest, u = p ++ rest /\ (rest = [] \/ exists q, rest = 63%N :: q)).
  { destruct K as [[_ ->]|(q & -> & _)]; [exists []; rewrite app_nil_r; auto|eauto]. }
  destruct E as (rest & -> & R). now rewrite (unfit_spec _ _ _ M R) in N.
Qed.
Definition local : client := Client (lit "http://localhost") true [] [] [].
Lemma elsewhere l s : forall u, s_url s = lit "http://localhost" ++ u -> forallb (fun pl => unfit (p_template pl) u) l = true -> ~ Request_to l local s.
Proof.
  intros u E N (h & u' & v & B & A & R & E' & _). assert (H : h = lit "http://localhost").
  { cbn [host local] in B. destruct B as [B|[B _]]; [|now symmetry]. exfalso. apply (f_equal (fun x => last x 0%N)) in B. rewrite last_last in B. vm_compute in B. discriminate. }
  rewrite H, E in E'. apply app_inv_head in E'. subst v. assert (u' = u) by (destruct R as [[_ R]|[_ R]]; [exact R|now symmetry]). subst u'. now apply (nowhere l u).
Qed.

(** A server that refuses every request *)
Definition refusing : server := fun _ _ => Response 404 None (NoJson []).
(** The other suites send requests to paths that are no endpoints of their service specification. *)
Definition refuted_for (name : str) (places : list place) (u : str) : Prop := forall show repr,
  exists x, In x (snd (run (check_api show repr local (Config name None false None)) refusing)) /\
    s_url (fst x) = lit "http://localhost" ++ u /\ ~ Request_to (address :: places) local (fst x).
Theorem C90_refuted :
  refuted_for (ssp "SubmodelRepositoryServiceSpecification/SSP-002") submodel_repository (lit "/shells?limit=1") /\
  refuted_for (ssp "AssetAdministrationShellServiceSpecification/SSP-002") shell_service (lit "/aas/") /\
  refuted_for (ssp "SubmodelServiceSpecification/SSP-002") submodel_service (lit "/submodel/").
Proof.
  assert (K : forall name places u, (forall show repr, existsb (fun x => str_eqb (s_url (fst x)) (lit "http://localhost" ++ u)) (snd (run (check_api show repr local (Config name None false None)) refusing)) = true) ->
    forallb (fun pl => unfit (p_template pl) u) (address :: places) = true -> refuted_for name places u).
  { intros name places u X N show repr. specialize (X show repr). apply existsb_exists in X. destruct X as (x & I & E). apply str_eqb_spec in E. exists x. split; [exact I|]. split; [exact E|].
    now apply elsewhere with (u := u). }
  split; [|split]; (apply K; [intros show repr; vm_compute; reflexivity|vm_compute; reflexivity]).
Qed.
Print Assumptions C90_refuted.

(** which URLs are requested from this server by the check of the repository of shells *)
Definition urls (name : str) : list str :=
  nodup str_eq_dec (List.map (fun x => s_url (fst x)) (snd (run (check_api (fun _ => []) (fun s => s) local (Config name None false None)) refusing))).
Example C90_ex : urls (ssp "AssetAdministrationShellRepositoryServiceSpecification/SSP-002") =
  [lit "http://localhost"; lit "http://localhost/shells?limit=1"; lit "http://localhost/description"].
Proof. vm_compute. reflexivity. Qed.
(** paths that are endpoints of the repository, and paths that are none *)
Example C90_asks : Asks_for shell_repository (lit "/shells?limit=1&idShort=a%20b") /\ Asks_for shell_repository (lit "/shells/aHR0cDovL3g/asset-information") /\
  ~ Asks_for shell_repository (lit "/shell-descriptors") /\ ~ Asks_for shell_repository (lit "/lookup/shells?assetIds=x") /\ ~ Asks_for shell_repository (lit "/").
Proof.
  split; [|split].
  - exists shells, (lit "/shells"), [(lit "limit", lit "1"); (lit "idShort", lit "a b")]. split; [now left|]. split; [exact (M_fixed (lit "/shells") [] [] M_nil)|]. split.
    + apply Forall_cons; [|apply Forall_cons; [|apply Forall_nil]]; cbn [fst snd].
      * split; [now left|]. apply G_limit. now left.
      * split; [do 2 right; now left|]. apply G_id_short.
    + right. exists (lit "limit=1&idShort=a%20b"). split; vm_compute; reflexivity.
  - exists (at_ (below_shell "/asset-information") []), (lit "/shells/aHR0cDovL3g/asset-information"), []. split; [do 4 right; now left|]. split; [|split; [constructor|now left]].
    apply (M_fixed (lit "/shells/") [Identifier; F "/asset-information"] (lit "aHR0cDovL3g/asset-information")).
    apply (M_identifier (lit "aHR0cDovL3g") [F "/asset-information"] (lit "/asset-information")); [left; exists (lit "http://x"); vm_compute; reflexivity|].
    exact (M_fixed (lit "/asset-information") [] [] M_nil).
  - repeat split; apply nowhere; vm_compute; reflexivity.
Qed.
