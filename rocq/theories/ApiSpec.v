(** Specification of the check of a server: what a run is, how its report is built, and which
    answers of a server are right. *)
From Coq Require Import String List NArith ZArith Bool PeanoNat.
From Verif Require Import PyStr PyBase Codec ResultModel ContextModel HttpModel ReflectModel MetaModel AdapterModel MetaSpec ParseSpec ProgModel ApiModel.
Import ListNotations.
Local Open Scope list_scope.

(** A program is started with no open block and nothing sent. *)
Definition run {X} (p : prog X) (srv : server) : ctl X * trace :=
  let '(c, _, h) := exec p srv (MState [] 0) [] in (c, h).
Definition Returns {X} (p : prog X) (srv : server) (x : X) (h : trace) : Prop := run p srv = (Ret x, h).

(** ** Reports *)
(** the entries below the parts of a report that have a title *)
Definition parts (title : str) (r : result) : list result := filter (fun x => str_eqb (r_message x) title) (r_subs r).
(** the tests of one kind in the report of a whole run: operations, their parts, the tests *)
Definition tests_of (title : str) (op : result) : list result := flat_map r_subs (parts title op).
Definition tests_reported (title : str) (root : result) : list result := flat_map (tests_of title) (r_subs root).
(** the four numbers are those of the report *)
Definition Counts (m : matrix) (negative positive : list result) : Prop :=
  invalid_rejected m = length (filter ok negative) /\ invalid_accepted m = length (filter (fun r => negb (ok r)) negative) /\
  valid_accepted m = length (filter ok positive) /\ valid_rejected m = length (filter (fun r => negb (ok r)) positive).

(** ** Invalid arguments *)
(** The value that is sent in place of an argument, by name and type of the argument *)
Definition strip_optional (a : ann) : ann := match a with AOpt b => b | _ => a end.
Definition wrong_value (n : str) (a : ann) : option str :=
  match strip_optional a with
  | AInt => if str_eqb n (lit "limit") then Some (lit "-1") else None
  | ABool => Some (lit "invalid-bool")
  | ACls c =>
      if Nat.eqb c k_Base64String then Some (lit "invalid-base64url=====")
      else if Nat.eqb c k_AssetId then Some (lit "invalid-base64url=====")
      else if Nat.eqb c k_Level then Some (lit "#####")
      else if Nat.eqb c k_Extent then Some (lit "#################")
      else None
  | _ => None
  end.
Definition wrong_arguments (s : signature) : list (str * str) :=
  flat_map (fun p => match wrong_value (fst p) (snd p) with Some v => [(fst p, v)] | None => [] end) s.
Definition negative_titles (s : signature) : list str :=
  List.map (fun p => lit "Set " ++ fst p ++ lit " = '" ++ snd p ++ lit "'") (wrong_arguments s).

(** ** Answers *)
(** What the body of a response may be.  [BReference] is a reference whose list of keys may be
    empty. *)
Inductive body :=
| BText | BAny | BEnum (l : list str) | BList (b : body)
| BObject (members : list (str * (bool * body)))     (* name, required, type *)
| BModel (g : gtype)                                 (* part of the meta model *)
| BReference.
Definition reference_members : list (str * (bool * body)) :=
  [(lit "type", (true, BModel (GEnum [lit "ExternalReference"; lit "ModelReference"])));
   (lit "referredSemanticId", (false, BReference));
   (lit "keys", (true, BList (BModel (GObj (lit "Key")))))].
Inductive BodyOk : body -> json -> Prop :=
| Ok_text s : BodyOk BText (JStr s)
| Ok_any j : BodyOk BAny j
| Ok_enum l s : In s l -> BodyOk (BEnum l) (JStr s)
| Ok_list b l : (forall x, In x l -> BodyOk b x) -> BodyOk (BList b) (JArr l)
| Ok_object ms kvs :
    (forall k, In k (List.map fst kvs) -> k = lit "modelType" \/ In k (List.map fst ms)) ->
    (forall n b, In (n, (true, b)) ms -> lookup n kvs <> None) ->
    (forall n r b x, In (n, (r, b)) ms -> lookup n kvs = Some x -> BodyOk b x) ->
    BodyOk (BObject ms) (JObj kvs)
| Ok_model g j : Conforms json_view aas_v3_0_checked g j -> BodyOk (BModel g) j
| Ok_reference j : BodyOk (BObject reference_members) j -> BodyOk BReference j.

(** The body of an error response *)
Definition message_body : body := BObject
  [(lit "code", (false, BText)); (lit "correlationId", (false, BText));
   (lit "messageType", (false, BEnum [lit "Undefined"; lit "Info"; lit "Warning"; lit "Error"; lit "Exception"]));
   (lit "text", (false, BText)); (lit "timestamp", (false, BText))].
Definition error_body : body := BObject [(lit "messages", (false, BList message_body))].
(** The body of a response with several results *)
Definition paged_body (item : body) : body := BObject
  [(lit "paging_metadata", (true, BObject [(lit "cursor", (false, BText))])); (lit "result", (true, BList item))].
Definition b_obj (n : string) : body := BModel (GObj (lit n)).
(** The types of the responses *)
Definition bodies : list (ann * body) :=
  [(ACls k_ErrorResult, error_body);
   (ACls k_AssetAdministrationShell, b_obj "AssetAdministrationShell");
   (ACls k_Reference, b_obj "Reference");
   (ACls k_AssetInformation, b_obj "AssetInformation");
   (ACls k_Submodel, b_obj "Submodel");
   (ACls k_SubmodelElement, b_obj "SubmodelElement");
   (ACls k_Environment, b_obj "Environment");
   (ACls k_UnconstrainedReference, BReference);
   (AList AStr, BList BText);
   (ACls k_ServiceDescription, BObject [(lit "profiles", (true, BList BText))]);
   (ACls k_AasSubmodelReferences, paged_body (b_obj "Reference"));
   (ACls k_AllShells, paged_body (b_obj "AssetAdministrationShell"));
   (ACls k_AllShellsReference, paged_body (b_obj "Reference"));
   (ACls k_AllSubmodelReferences, paged_body (b_obj "Reference"));
   (ACls k_AllSubmodels, paged_body (b_obj "Submodel"));
   (ACls k_AllSubmodelsValue, paged_body BAny);
   (ACls k_AllSubmodelsPath, paged_body BText);
   (ACls k_AllElements, paged_body (b_obj "SubmodelElement"));
   (ACls k_AllElementsValueOnly, paged_body BAny);
   (ACls k_AllElementsReference, paged_body BReference);
   (ACls k_AllElementsPath, paged_body BText)].

(** The server rejected the request: a client error with such a body *)
Definition Rejected (r : reply) : Prop :=
  exists status content j, r = Response status content (Json j) /\ (400 <= status < 500)%Z /\ BodyOk error_body j.

Definition status_of (r : reply) : option Z := match r with Response s _ _ => Some s | Failed _ _ => None end.
Definition Answers (srv : server) (P : Z -> Prop) : Prop :=
  forall h s, exists st c d, srv h s = Response st c d /\ P st.

(** ** Operations *)
(** What an answer to an operation has to be: of a type, for some operations optionally an error;
    or not checked, for some operations besides being a JSON object or array. *)
Inductive answer := Checked (b : body) (or_error : bool) | Unchecked (json : bool).
Definition Success_with (b : body) (r : reply) : Prop :=
  exists content j, r = Response 200 content (Json j) /\ BodyOk b j.
Definition container (j : json) : Prop := match j with JObj _ | JArr _ => True | _ => False end.
Definition Acceptable (a : answer) (r : reply) : Prop :=
  match a with
  | Checked b e => Success_with b r \/ (e = true /\ Rejected r)
  | Unchecked j => exists st c d, r = Response st c d /\ (j = true -> exists v, d = Json v /\ container v)
  end.
Definition checked (a : answer) : bool := match a with Checked _ _ => true | Unchecked _ => false end.
Definition answers : list (str * answer) := List.map (fun p => (lit (fst p), snd p))
  [("GetAssetAdministrationShell"%string, Checked (b_obj "AssetAdministrationShell") false);
   ("GetAssetAdministrationShell-Reference"%string, Checked (b_obj "Reference") false);
   ("GetAllSubmodelReferences"%string, Checked (paged_body (b_obj "Reference")) false);
   ("GetAssetInformation"%string, Checked (b_obj "AssetInformation") false);
   ("GetThumbnail"%string, Unchecked false);
   ("GetAllAssetAdministrationShells"%string, Checked (paged_body (b_obj "AssetAdministrationShell")) false);
   ("GetAllAssetAdministrationShells-Reference"%string, Checked (paged_body (b_obj "Reference")) false);
   ("GetAssetAdministrationShellById"%string, Checked (b_obj "AssetAdministrationShell") false);
   ("GetAssetAdministrationShellById-Reference"%string, Checked (b_obj "Reference") false);
   ("GetAllSubmodels"%string, Checked (paged_body (b_obj "Submodel")) false);
   ("GetAllSubmodels-Metadata"%string, Checked (paged_body (b_obj "Submodel")) false);
   ("GetAllSubmodels-ValueOnly"%string, Checked (paged_body BAny) false);
   ("GetAllSubmodels-Reference"%string, Checked (paged_body (b_obj "Reference")) false);
   ("GetAllSubmodels-Path"%string, Checked (paged_body BText) false);
   ("GetSubmodelById"%string, Checked (b_obj "Submodel") false);
   ("GetSubmodelById-Metadata"%string, Checked (b_obj "Submodel") false);
   ("GetSubmodelById-ValueOnly"%string, Unchecked true);
   ("GetSubmodelById-Reference"%string, Checked (b_obj "Reference") false);
   ("GetSubmodelById-Path"%string, Checked (BList BText) false);
   ("GetSubmodel"%string, Checked (b_obj "Submodel") false);
   ("GetSubmodel-Metadata"%string, Checked (b_obj "Submodel") false);
   ("GetSubmodel-ValueOnly"%string, Unchecked true);
   ("GetSubmodel-Reference"%string, Checked BReference false);
   ("GetSubmodel-Path"%string, Checked (BList BText) false);
   ("GetAllSubmodelElements"%string, Checked (paged_body (b_obj "SubmodelElement")) false);
   ("GetAllSubmodelElements-Metadata"%string, Checked (paged_body (b_obj "SubmodelElement")) false);
   ("GetAllSubmodelElements-ValueOnly"%string, Checked (paged_body BAny) false);
   ("GetAllSubmodelElements-Reference"%string, Checked (paged_body BReference) false);
   ("GetAllSubmodelElements-Path"%string, Checked (paged_body BText) false);
   ("GetSubmodelElementByPath"%string, Checked (b_obj "SubmodelElement") false);
   ("GetSubmodelElementByPath-Metadata"%string, Unchecked true);
   ("GetSubmodelElementByPath-ValueOnly"%string, Unchecked true);
   ("GetSubmodelElementByPath-Reference"%string, Checked BReference false);
   ("GetSubmodelElementByPath-Path"%string, Checked (BList BText) true);
   ("GetFileByPath"%string, Unchecked false);
   ("GenerateSerializationByIds"%string, Checked (b_obj "Environment") false);
   ("GetDescription"%string, Checked (BObject [(lit "profiles", (true, BList BText))]) false)].
Definition answer_to (op : str) : answer := match lookup op answers with Some a => a | None => Unchecked false end.
(** An answer that the setup of an operation may use *)
Definition Usable (r : reply) : Prop := exists a b, In (a, b) bodies /\ Success_with b r.

(** An entry of the report with a title and entries below, whose level is the worst of theirs *)
Definition entry_of (title : str) (subs : list result) (r : result) : Prop :=
  r_message r = title /\ r_subs r = subs /\ r_level r = fold_left level_or (List.map r_level subs) INFO.
Definition ServerError (x : sent * reply) : Prop := exists st c d, snd x = Response st c d /\ (500 <= st)%Z.
(** An entry and the exchanges it is about: it is ok only if all answers are acceptable, and it is
    critical if the server fails. *)
Definition Covers (chk : bool) (acc : reply -> Prop) (r : result) (t : trace) : Prop :=
  (ok r = true -> Forall (fun x => acc (snd x)) t) /\
  (chk = true -> Exists ServerError t -> r_level r = CRITICAL).
(** Each negative test has one exchange with the server, and it passes exactly if the server
    rejects the request. *)
Definition Judged (tests : list result) (t : trace) : Prop :=
  Forall2 (fun r x => (ok r = true <-> Rejected (snd x)) /\ (ServerError x -> r_level r = CRITICAL)) tests t.
(** The report and the exchanges of one operation: if the setup fails there is nothing but the
    setup, otherwise all negative and all positive tests are reported, in their order. *)
Inductive operation_report (op : str) (negative positive : list str) (r : result) (t : trace) : Prop :=
| Setup_failed setup : entry_of (lit "Checking " ++ op) [setup] r ->
    r_message setup = lit "Setup" -> ok setup = false -> Covers true Usable setup t -> operation_report op negative positive r t
| Executed setup neg pos ns ps t0 t1 t2 : entry_of (lit "Checking " ++ op) [setup; neg; pos] r ->
    t = t0 ++ t1 ++ List.concat t2 ->
    r_message setup = lit "Setup" -> ok setup = true -> Covers true Usable setup t0 ->
    entry_of (lit "Negative Tests") ns neg -> List.map r_message ns = negative -> Judged ns t1 ->
    entry_of (lit "Positive Tests") ps pos -> List.map r_message ps = positive ->
    Forall2 (Covers (checked (answer_to op)) (Acceptable (answer_to op))) ps t2 ->
    operation_report op negative positive r t.

(** The arguments for which an operation is called with an invalid value, and the number of its
    positive tests *)
Definition w_limit := ("limit", "-1")%string.
Definition w_asset := ("asset_id", "invalid-base64url=====")%string.
Definition w_aas := ("aas_id", "invalid-base64url=====")%string.
Definition w_submodel := ("submodel_id", "invalid-base64url=====")%string.
Definition w_level := ("level", "#####")%string.
Definition w_extent := ("extent", "#################")%string.
Definition w_extent_as_level := ("extent", "#####")%string.
Definition w_concepts := ("include_concept_descriptions", "invalid-bool")%string.
Definition op_tests : list (string * (list (string * string) * nat)) :=
  [("GetAssetAdministrationShell", ([], 1%nat))%string;
   ("GetAssetAdministrationShell-Reference", ([], 1%nat))%string;
   ("GetAllSubmodelReferences", ([w_limit], 3%nat))%string;
   ("GetAssetInformation", ([], 1%nat))%string;
   ("GetThumbnail", ([], 1%nat))%string;
   ("GetAllAssetAdministrationShells", ([w_limit; w_asset], 6%nat))%string;
   ("GetAllAssetAdministrationShells-Reference", ([w_limit; w_asset], 6%nat))%string;
   ("GetAssetAdministrationShellById", ([w_aas], 1%nat))%string;
   ("GetAssetAdministrationShellById-Reference", ([w_aas], 1%nat))%string;
   ("GetAllSubmodels", ([w_limit], 3%nat))%string;
   ("GetAllSubmodels-Metadata", ([w_limit], 3%nat))%string;
   ("GetAllSubmodels-ValueOnly", ([w_limit], 3%nat))%string;
   ("GetAllSubmodels-Reference", ([w_limit], 3%nat))%string;
   ("GetAllSubmodels-Path", ([w_limit], 3%nat))%string;
   ("GetSubmodelById", ([w_submodel; w_level; w_extent], 1%nat))%string;
   ("GetSubmodelById-Metadata", ([w_submodel], 1%nat))%string;
   ("GetSubmodelById-ValueOnly", ([w_submodel; w_level; w_extent], 1%nat))%string;
   ("GetSubmodelById-Reference", ([w_submodel], 1%nat))%string;
   ("GetSubmodelById-Path", ([w_submodel; w_level], 1%nat))%string;
   ("GetSubmodel", ([], 1%nat))%string;
   ("GetSubmodel-Metadata", ([], 1%nat))%string;
   ("GetSubmodel-ValueOnly", ([], 1%nat))%string;
   ("GetSubmodel-Reference", ([], 1%nat))%string;
   ("GetSubmodel-Path", ([], 1%nat))%string;
   ("GetAllSubmodelElements", ([w_level; w_extent_as_level; w_limit], 11%nat))%string;
   ("GetAllSubmodelElements-Metadata", ([w_limit], 3%nat))%string;
   ("GetAllSubmodelElements-ValueOnly", ([w_level; w_limit], 5%nat))%string;
   ("GetAllSubmodelElements-Reference", ([w_limit], 3%nat))%string;
   ("GetAllSubmodelElements-Path", ([w_level; w_limit], 5%nat))%string;
   ("GetSubmodelElementByPath", ([w_level; w_extent], 9%nat))%string;
   ("GetSubmodelElementByPath-Metadata", ([], 1%nat))%string;
   ("GetSubmodelElementByPath-ValueOnly", ([w_level; w_extent], 9%nat))%string;
   ("GetSubmodelElementByPath-Reference", ([], 1%nat))%string;
   ("GetSubmodelElementByPath-Path", ([w_level], 1%nat))%string;
   ("GetFileByPath", ([], 1%nat))%string;
   ("GenerateSerializationByIds", ([w_aas; w_submodel; w_concepts], 4%nat))%string;
   ("GetDescription", ([], 1%nat))%string].
Definition negative_title (p : string * string) : str := lit "Set " ++ lit (fst p) ++ lit " = '" ++ lit (snd p) ++ lit "'".
(** The operations of the service specifications *)
Definition by_id_ops : list string :=
  ["GetSubmodelById"; "GetSubmodelById-Metadata"; "GetSubmodelById-Reference"; "GetSubmodelById-ValueOnly"; "GetSubmodelById-Path"]%string.
Definition element_ops : list string :=
  ["GetAllSubmodelElements"; "GetAllSubmodelElements-Metadata"; "GetAllSubmodelElements-ValueOnly"; "GetAllSubmodelElements-Reference";
   "GetAllSubmodelElements-Path"; "GetSubmodelElementByPath"; "GetSubmodelElementByPath-Metadata"; "GetSubmodelElementByPath-ValueOnly";
   "GetSubmodelElementByPath-Reference"; "GetSubmodelElementByPath-Path"; "GetFileByPath";
   "GenerateSerializationByIds"; "GetDescription"]%string.
Definition shell_ops : list string := ["GetAssetInformation"; "GetThumbnail"; "GetAllSubmodelReferences"]%string.
Definition suite_operations : list (string * list string) :=
  [("https://admin-shell.io/aas/API/3/0/AssetAdministrationShellRepositoryServiceSpecification/SSP-002"%string,
    ["GetAllAssetAdministrationShells"%string; "GetAllAssetAdministrationShells-Reference"%string; "GetAssetAdministrationShellById"%string;
     "GetAssetAdministrationShellById-Reference"%string] ++ shell_ops ++ by_id_ops ++ element_ops);
   ("https://admin-shell.io/aas/API/3/0/SubmodelRepositoryServiceSpecification/SSP-002"%string,
    ["GetAllSubmodels"%string; "GetAllSubmodels-Metadata"%string; "GetAllSubmodels-ValueOnly"%string; "GetAllSubmodels-Reference"%string; "GetAllSubmodels-Path"%string]
    ++ by_id_ops ++ element_ops);
   ("https://admin-shell.io/aas/API/3/0/AssetAdministrationShellServiceSpecification/SSP-002"%string,
    ["GetAssetAdministrationShell"%string; "GetAssetAdministrationShell-Reference"%string] ++ shell_ops ++ by_id_ops ++ element_ops);
   ("https://admin-shell.io/aas/API/3/0/SubmodelServiceSpecification/SSP-002"%string,
    ["GetSubmodel"%string; "GetSubmodel-Metadata"%string; "GetSubmodel-ValueOnly"%string; "GetSubmodel-Reference"%string; "GetSubmodel-Path"%string] ++ element_ops)].
(** The operation [op] was checked: its part of the report and of the exchanges *)
Definition Checked_operation (op : string) (part : result * trace) : Prop :=
  exists w n positive, In (op, (w, n)) op_tests /\ length positive = n /\
    operation_report (lit op) (List.map negative_title w) positive (fst part) (snd part).

(** A subsequence *)
Inductive Within {A} : list A -> list A -> Prop :=
| Within_nil l : Within [] l
| Within_here x l m : Within l m -> Within (x :: l) (x :: m)
| Within_skip x l m : Within l m -> Within l (x :: m).

(** ** Whole runs *)
(** the versions for which tests exist: 3.0, which is also the default *)
Definition Known_version (conf : config) : Prop :=
  cf_version conf = None \/ cf_version conf = Some [] \/ cf_version conf = Some (lit "3.0").
(** the operations that a configuration asks for *)
Definition Asked (conf : config) (ops : list string) : Prop :=
  exists n all, cf_suite conf = lit n /\ In (n, all) suite_operations /\ ops = filter (fun o => selected (cf_filter conf) (lit o)) all.
Definition run_title (conf : config) : str := lit "Checking compliance to " ++ cf_suite conf.
(** The server could not be reached: nothing but this is reported, and nothing but this was sent. *)
Definition Unreached (c : client) (conf : config) (root : result) (h : trace) : Prop :=
  exists reach s text, entry_of (run_title conf) [reach] root /\ r_message reach = lit "Trying to reach " ++ host c /\
    r_level reach = CRITICAL /\ h = [(s, Failed RequestException text)].
Definition No_tests (x : result) : Prop := tests_of (lit "Negative Tests") x = [] /\ tests_of (lit "Positive Tests") x = [].
(** A complete run for some operations: after the first request they were checked one after the
    other, and nothing else was sent. *)
Definition Complete (c : client) (conf : config) (ops : list string) (pieces : list (result * trace)) (root : result) (h : trace) : Prop :=
  exists reach first sum, entry_of (run_title conf) (reach :: List.map fst pieces ++ [sum]) root /\
    r_message reach = lit "Trying to reach " ++ host c /\ ok reach = true /\ status_of (snd first) <> None /\
    r_message sum = lit "Summary:" /\ ok sum = true /\ No_tests reach /\ No_tests sum /\
    h = first :: List.concat (List.map snd pieces) /\
    Forall2 Checked_operation ops pieces.
