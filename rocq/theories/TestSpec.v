(** Which request every single test of a server sends, and which verdict it gives: the path of its operation with the identifiers that the
    server has told, exactly the query parameters that the test is about, and the claim on the answer.  All of this is given for each
    operation of each service specification. *)
From Coq Require Import PeanoNat String List NArith ZArith Bool.
From Verif Require JsonSpec.
From Verif Require Import PyStr PyBase CodecSpec ResultModel ContextModel HttpModel ReflectModel AdapterModel ProgModel ApiModel ApiSpec ApiSuites.
From Verif Require RequestSpec MetaSpec.
Import ListNotations.
Local Open Scope string_scope.
Local Open Scope list_scope.

(** ** What a server has told *)
(** the value at a position of a JSON value *)
Inductive step := Member (name : string) | Item (n : nat).
Fixpoint value_at (j : json) (p : list step) : option json :=
  match p with
  | [] => Some j
  | Member n :: r => match j with JObj kvs => match lookup (lit n) kvs with Some x => value_at x r | None => None end | _ => None end
  | Item n :: r => match j with JArr l => match nth_error l n with Some x => value_at x r | None => None end | _ => None end
  end.
Definition text_at (j : json) (p : list step) : option str := match value_at j p with Some (JStr s) => Some s | _ => None end.
(** the JSON value of the answer with this number in the exchanges of the setup, and the text at a position in it *)
Definition answered (t : trace) (n : nat) : option json :=
  match nth_error t n with Some (_, Response _ _ (Json j)) => Some j | _ => None end.
Definition source := (nat * list step)%type.
Definition told (t : trace) (src : source) : option str :=
  match answered t (fst src) with Some j => text_at j (snd src) | None => None end.
Definition first_of (p : list step) : list step := Member "result" :: Item 0 :: p.
(** the identifier of the asset of the first shell: the global one, or if it is empty the first specific one *)
Definition asset_in (j : json) : option (str * str) :=
  let info (p : list step) := text_at j (first_of (Member "assetInformation" :: p)) in
  match info [Member "globalAssetId"] with
  | None => None
  | Some [] => match info [Member "specificAssetIds"; Item 0; Member "name"], info [Member "specificAssetIds"; Item 0; Member "value"] with
               | Some n, Some v => Some (n, v)
               | _, _ => None
               end
  | Some g => Some (lit "globalAssetId", g)
  end.
Definition told_asset (t : trace) (n : nat) : option (str * str) := match answered t n with Some j => asset_in j | None => None end.

(** The elements with a short identifier in the order of the document: type and path.  Inside of a collection the path of the collection
    goes ahead; inside of a list, only the position of the list does. *)
Fixpoint paths_in (j : json) (idx : nat) (prefix : str) {struct j} : list (str * str) :=
  match j with
  | JObj kvs =>
      match lookup (lit "idShort") kvs, lookup (lit "modelType") kvs with
      | Some (JStr s), Some (JStr ty) =>
          let inside (prefix : str) :=
            (fix members (kvs : list (str * json)) : list (str * str) :=
               match kvs with
               | [] => []
               | (k, x) :: r =>
                   if str_eqb k (lit "value") then
                     match x with
                     | JArr l => (fix items (i : nat) (l : list json) : list (str * str) :=
                                    match l with [] => [] | y :: l' => paths_in y i prefix ++ items (S i) l' end) 0%nat l
                     | _ => []
                     end
                   else members r
               end) kvs in
          (ty, prefix ++ s) ::
          if str_eqb ty (lit "SubmodelElementCollection") then inside (prefix ++ s ++ lit ".")
          else if str_eqb ty (lit "SubmodelElementList") then inside (dec_of_nat idx ++ lit ".")
          else []
      | _, _ => []
      end
  | _ => []
  end.
Fixpoint paths_of (i : nat) (l : list json) : list (str * str) :=
  match l with [] => [] | x :: r => paths_in x i [] ++ paths_of (S i) r end.
Definition elements (t : trace) (n : nat) : list (str * str) :=
  match answered t n with
  | Some j => match value_at j [Member "result"] with Some (JArr l) => paths_of 0 l | _ => [] end
  | None => []
  end.
(** the path of the first element, of any or of a given type *)
Definition first_path (ty : option string) (l : list (str * str)) : option str :=
  match ty with
  | None => option_map snd (hd_error l)
  | Some ty => option_map snd (find (fun x => str_eqb (fst x) (lit ty)) l)
  end.

(** ** Paths *)
(** fixed text, an identifier that the server has told, the path of an element in an answer of the server *)
Inductive stop := Word (s : str) | Ident (src : source) | Element (n : nat).
Definition route := list stop.
Inductive Path (t0 : trace) (ty : option string) : route -> str -> Prop :=
| P_nil : Path t0 ty [] []
| P_word s r p : Path t0 ty r p -> Path t0 ty (Word s :: r) (s ++ p)
| P_ident src x raw r p : told t0 src = Some raw -> base64url_decode x = Some raw -> Path t0 ty r p -> Path t0 ty (Ident src :: r) (x ++ p)
| P_element n x r p : first_path ty (elements t0 n) = Some x -> Path t0 ty r p -> Path t0 ty (Element n :: r) (x ++ p).
(** the last identifier in a path replaced by a text *)
Fixpoint replace_last (s : str) (r : route) : option route :=
  match r with
  | [] => None
  | x :: r =>
      match replace_last s r with
      | Some r' => Some (x :: r')
      | None => match x with Ident _ => Some (Word s :: r) | _ => None end
      end
  end.
Definition W (s : string) : stop := Word (lit s).
Definition at_root (s : string) : route := [W s].
Definition in_aas (s : string) : route := [Word (lit "/aas" ++ lit s)].
Definition in_the_submodel (s : string) : route := [Word (lit "/submodel" ++ lit s)].
(** below the first shell or submodel of the first answer *)
Definition first_id (n : nat) : source := (n, first_of [Member "id"]).
Definition first_submodel (n : nat) : source := (n, first_of [Member "submodels"; Item 0; Member "keys"; Item 0; Member "value"]).
Definition first_reference (n : nat) : source := (n, first_of [Member "keys"; Item 0; Member "value"]).
Definition in_shell (s : string) : route := [W "/shells/"; Ident (first_id 0); W s].
Definition in_shell_submodel (s : string) : route := [W "/shells/"; Ident (first_id 0); W "/submodels/"; Ident (first_submodel 0); W s].
Definition in_submodel (s : string) : route := [W "/submodels/"; Ident (first_id 0); W s].
Definition in_aas_submodel (s : string) : route :=
  [W "/aas/submodels/"; Ident (0%nat, [Member "submodels"; Item 0; Member "keys"; Item 0; Member "value"]); W s].

(** ** Query parameters *)
(** the value of a parameter: a given text, an encoded identifier that the server has told, the encoded name and value of the asset
    identifier that it has told, a text that it has told *)
Inductive wish := Is (s : str) | The_id (src : source) | The_asset (n : nat) | The_text (src : source).
Definition Asset_text (name value t : str) : Prop :=
  exists x, base64url_decode t = Some x /\
    (Forall JsonSpec.code_point name -> Forall JsonSpec.code_point value ->
     JsonSpec.decode x = Some (JObj [(lit "name", JStr (JsonSpec.joined name)); (lit "value", JStr (JsonSpec.joined value))])).
Definition Grants (t0 : trace) (w : wish) (t : str) : Prop :=
  match w with
  | Is s => t = s
  | The_id src => exists raw, told t0 src = Some raw /\ base64url_decode t = Some raw
  | The_asset n => exists name value, told_asset t0 n = Some (name, value) /\ Asset_text name value t
  | The_text src => told t0 src = Some t
  end.
(** names and values, in the order in which they are sent *)
Definition params := list (str * wish).

(** ** Requests *)
(** the request for a path with exactly these parameters *)
Definition Sends (c : client) (t0 : trace) (ty : option string) (r : route) (ps : params) (s : sent) : Prop :=
  exists h p vs u v, RequestSpec.Base (host c) h /\ Path t0 ty r p /\
    Forall2 (fun kw kv => fst kv = fst kw /\ Grants t0 (snd kw) (snd kv)) ps vs /\
    (vs = [] /\ u = p \/ exists q, u = p ++ 63%N :: q /\ parse_query q = Some vs) /\
    RequestSpec.Reduced (remove_path_prefix c) u v /\ s_url s = h ++ v /\ s_method s = lit "get" /\ s_data s = None /\ s_verify s = verify c.

(** ** Claims *)
(** what a test claims on the JSON value of the answer, besides its type *)
Inductive claim :=
| Nothing
| Entries (n : nat)                     (* so many results *)
| Some_entries                          (* at least one result *)
| First_named (src : source)            (* at least one result, and the first has the short identifier that the server has told *)
| Identified (p : list step) (src : source)   (* the text at the position is the identifier that the server has told *)
| Having (name : string)                (* there is such a member *)
| Listing_suite                         (* the checked suite is among the profiles *)
| Refusal.                              (* not the result but an error *)
Definition results (j : json) : option nat := match value_at j [Member "result"] with Some (JArr l) => Some (List.length l) | _ => None end.
Definition Holds (suite : str) (t0 : trace) (cl : claim) (j : json) : Prop :=
  match cl with
  | Nothing | Refusal => True
  | Entries n => results j = Some n
  | Some_entries => exists n, results j = Some (S n)
  | First_named src => exists n s, results j = Some (S n) /\ text_at j (first_of [Member "idShort"]) = Some s /\ told t0 src = Some s
  | Identified p src => exists s, text_at j p = Some s /\ told t0 src = Some s
  | Having name => value_at j [Member name] <> None
  | Listing_suite => exists l, value_at j [Member "profiles"] = Some (JArr l) /\ In (JStr suite) l
  end.
(** a violation of some claims is only a warning *)
Definition serious (cl : claim) : bool := match cl with Having _ | Listing_suite => false | _ => true end.

(** ** Operations *)
(** A test sends one request; or one if the server has told something, which is a warning otherwise; or never one; or one for an element of
    a given type, or for elements of all types, if there are such elements.  For types that are not among the supported ones the answer
    has to be an error. *)
Inductive times := Once | If_told (src : source) | Never | For_type (n : nat) (ty : string) | For_each_type (n : nat) (supported : list string).
(** a wrong value is sent as a query parameter or in the path *)
Inductive how := In_query (name : string) | In_path.
Record check := Check { ch_title : str; ch_times : times; ch_params : params; ch_claim : claim }.
Record row := Row {
  ro_name : string;
  ro_path : route;
  ro_setup : list (route * params);                            (* the requests of the setup *)
  ro_wrong : list ((string * string) * how);                   (* argument and value of the negative tests *)
  ro_tests : list check                                        (* the positive tests *)
}.

(** the title of a test is its docstring as it is written in the source, or the name of the function *)
Definition docstring (s : string) : str := [10%N] ++ lit "        " ++ lit s ++ [10%N] ++ lit "        ".
Definition is_ (k v : string) : str * wish := (lit k, Is (lit v)).
Definition claims (title : string) (ps : params) (cl : claim) : check := Check (docstring title) Once ps cl.
Definition once (title : string) (ps : params) : check := claims title ps Nothing.
Definition one : params := [is_ "limit" "1"].
Definition cursor (n : nat) : times := If_told (n, [Member "paging_metadata"; Member "cursor"]).
Definition paging (t : times) : list check :=
  [claims "Pagination: Fetch exactly one" one (Entries 1); Check (docstring "Pagination: Fetch using cursor") t one (Entries 1)].
Definition n_limit := (w_limit, In_query "limit").
Definition n_level := (w_level, In_query "level").
Definition n_extent := (w_extent, In_query "extent").

(** operations on elements; the path of the submodel and the requests before *)
Definition leveled : list check :=
  [once "Fetch all submodel elements" [];
   once "Fetch all submodel elements with level=core" [is_ "level" "core"];
   once "Fetch all submodel elements with level=deep" [is_ "level" "deep"]].
Definition each (n : nat) (supported : list string) (title : string) (ps : params) : check := Check (lit title) (For_each_type n supported) ps Nothing.
Definition element_types : list string :=
  ["SubmodelElementCollection"; "SubmodelElementList"; "Entity"; "BasicEventElement"; "Capability"; "Operation";
   "Property"; "MultiLanguageProperty"; "Range"; "ReferenceElement"; "RelationshipElement";
   "AnnotatedRelationshipElement"; "Blob"; "File"].
Definition leveled_each (n : nat) : list check :=
  let each := each n element_types in
  [each "test_no_params" [];
   each "test_level_deep" [is_ "level" "deep"];
   each "test_level_core" [is_ "level" "core"];
   each "test_extend_with_blob_value" [is_ "extent" "withBlobValue"];
   each "test_extend_without_blob_value" [is_ "extent" "withoutBlobValue"];
   each "test_core_without_blob_value" [is_ "level" "core"; is_ "extent" "withoutBlobValue"];
   each "test_deep_without_blob_value" [is_ "level" "deep"; is_ "extent" "withoutBlobValue"];
   each "test_core_with_blob_value" [is_ "level" "core"; is_ "extent" "withBlobValue"];
   each "test_deep_with_blob_value" [is_ "level" "deep"; is_ "extent" "withBlobValue"]].
(** The titles of the last two tests of all elements promise other values than those that are sent. *)
Definition element_rows (t : string -> route) (before : list (route * params)) : list row :=
  let n := List.length before in
  let first (path : string) := before ++ [(t path, one)] in
  let all := before ++ [(t "/submodel-elements", [])] in
  let element (suffix : route) := t "/submodel-elements/" ++ [Element n] ++ suffix in
  [Row "GetAllSubmodelElements" (t "/submodel-elements") (first "/submodel-elements")
     [n_level; (w_extent_as_level, In_query "extent"); n_limit]
     (paging (cursor n) ++ leveled ++
      [once "Fetch all submodel elements with extent=withBlobValue" [is_ "extent" "withBlobValue"];
       once "Fetch all submodel elements with extent=withoutBlobValue" [is_ "extent" "withoutBlobValue"];
       once "Fetch all submodel elements with level=core and extend=withoutBlobValue" [is_ "level" "core"; is_ "extent" "withoutBlobValue"];
       once "Fetch all submodel elements with level=deep and extend=withoutBlobValue" [is_ "level" "deep"; is_ "extent" "withoutBlobValue"];
       once "Fetch all submodel elements with level=core and extend=withBlobValue" [is_ "level" "deep"; is_ "extent" "withBlobValue"];
       once "Fetch all submodel elements with level=deep and extend=withBlobValue" [is_ "level" "deep"; is_ "extent" "withoutBlobValue"]]);
   Row "GetAllSubmodelElements-Metadata" (t "/submodel-elements/$metadata") (first "/submodel-elements/$metadata") [n_limit]
     (paging (cursor n) ++ [once "Fetch all submodel elements (metadata)" []]);
   Row "GetAllSubmodelElements-ValueOnly" (t "/submodel-elements/$value") (first "/submodel-elements/$value") [n_level; n_limit] (paging (cursor n) ++ leveled);
   Row "GetAllSubmodelElements-Reference" (t "/submodel-elements/$reference") before [n_limit]
     (paging Never ++ [once "Fetch all submodel elements (references)" []]);
   Row "GetAllSubmodelElements-Path" (t "/submodel-elements/$path") (first "/submodel-elements/$path") [n_level; n_limit] (paging (cursor n) ++ leveled);
   Row "GetSubmodelElementByPath" (element []) all [n_level; n_extent] (leveled_each n);
   Row "GetSubmodelElementByPath-Metadata" (element [W "/$metadata"]) all []
     [each n (filter (fun x => negb (existsb (String.eqb x) ["Capability"; "Operation"])) element_types) "test_no_params" []];
   Row "GetSubmodelElementByPath-ValueOnly" (element [W "/$value"]) all [n_level; n_extent] (leveled_each n);
   Row "GetSubmodelElementByPath-Reference" (element [W "/$reference"]) all [] [each n element_types "test_no_params" []];
   Row "GetSubmodelElementByPath-Path" (element [W "/$path"]) all [n_level]
     [each n ["SubmodelElementCollection"; "SubmodelElementList"; "Entity"] "test_no_params" []];
   Row "GetFileByPath" (element [W "/attachment"]) all [] [Check (lit "test_no_params") (For_type n "File") [] Nothing]].

(** operations on a submodel with an identifier, which the last answer of the setup gives *)
Definition by_id_rows (t : string -> route) (before : list (route * params)) (src : source) : list row :=
  let submodel (suffix : route) := t "/submodels/" ++ [Ident src] ++ suffix in
  let n_id := (w_submodel, In_path) in
  let fetch (cl : claim) := [claims "Fetch submodel by id" [] cl] in
  [Row "GetSubmodelById" (submodel []) before [n_id; n_level; n_extent] (fetch (Identified [Member "id"] src));
   Row "GetSubmodelById-Metadata" (submodel [W "/$metadata"]) before [n_id] (fetch (Identified [Member "id"] src));
   Row "GetSubmodelById-Reference" (submodel [W "/$reference"]) before [n_id] (fetch (Identified [Member "keys"; Item 0; Member "value"] src));
   Row "GetSubmodelById-ValueOnly" (submodel [W "/$value"]) before [n_id; n_level; n_extent] (fetch Nothing);
   Row "GetSubmodelById-Path" (submodel [W "/$path"]) before [n_id; n_level] (fetch Nothing)].

(** operations on a shell *)
Definition shell_rows (t : string -> route) (before : list (route * params)) : list row :=
  [Row "GetAssetInformation" (t "/asset-information") before [] [once "Fetch Asset Information" []];
   Row "GetThumbnail" (t "/asset-information/thumbnail") before [] [once "Fetch thumbnail" []];
   Row "GetAllSubmodelReferences" (t "/submodel-refs") (before ++ [(t "/submodel-refs", one)]) [n_limit]
     (once "Fetch all references" [] :: paging (cursor (List.length before)))].

Definition common_rows (t : string -> route) : list row :=
  [Row "GenerateSerializationByIds" (t "/serialization") [(t "/shells", one)]
     [(w_aas, In_query "aasIds"); (w_submodel, In_query "submodelIds"); (w_concepts, In_query "includeConceptDescriptions")]
     [once "Invoke without parameters" []; once "Filter by aas ids" [(lit "aasIds", The_id (first_id 0))];
      once "Filter by submodel ids" [(lit "submodelIds", The_id (first_submodel 0))];
      claims "Invoke with includeConceptDescriptions" [is_ "includeConceptDescriptions" "True"] (Having "conceptDescriptions")];
   Row "GetDescription" (at_root "/description") [] [] [claims "Returned profiles must contain suite" [] Listing_suite]].

Definition the_shells : route * params := (at_root "/shells", one).
Definition n_asset := (w_asset, In_query "assetIds").
Definition first_short : source := (0%nat, first_of [Member "idShort"]).
Definition filters : list check :=
  [once "Invoke without parameters" []; claims "Filter by non-existing idShort" [is_ "idShort" "does-not-exist"] (Entries 0);
   claims "Filter by assetId" [(lit "assetIds", The_asset 0)] Some_entries].
Definition by_id_short (cl : claim) : check := claims "Filter by idShort" [(lit "idShort", The_text first_short)] cl.
(** Only the shells themselves, and not the references to them, are compared with the short identifier. *)
Definition shell_repository_rows : list row :=
  [Row "GetAllAssetAdministrationShells" (at_root "/shells") [the_shells] [n_limit; n_asset]
     (filters ++ by_id_short (First_named first_short) :: paging (cursor 0));
   Row "GetAllAssetAdministrationShells-Reference" (at_root "/shells/$reference") [the_shells] [n_limit; n_asset]
     (filters ++ paging (cursor 0) ++ [by_id_short Some_entries]);
   Row "GetAssetAdministrationShellById" [W "/shells/"; Ident (first_id 0)] [the_shells] [(w_aas, In_path)]
     [claims "Fetch AAS" [] (Identified [Member "id"] (first_id 0))];
   Row "GetAssetAdministrationShellById-Reference" [W "/shells/"; Ident (first_id 0); W "/$reference"] [the_shells] [(w_aas, In_path)]
     [claims "Fetch AAS Reference" [] (Identified [Member "keys"; Item 0; Member "value"] (first_id 0))]] ++
  shell_rows in_shell [the_shells] ++
  by_id_rows in_shell [the_shells; (in_shell "/submodel-refs", one)] (first_reference 1) ++
  element_rows in_shell_submodel [the_shells] ++
  common_rows at_root.

(** The cursor comes from the list of all submodels, also for the other representations. *)
Definition the_submodels : route * params := (at_root "/submodels", one).
Definition submodels_row (name path : string) (paging_first : bool) : row :=
  Row name (at_root path) [the_submodels] [n_limit]
    (if paging_first then paging (cursor 0) ++ [once "Invoke without parameters" []] else once "Invoke without parameters" [] :: paging (cursor 0)).
Definition submodel_repository_rows : list row :=
  [submodels_row "GetAllSubmodels" "/submodels" false;
   submodels_row "GetAllSubmodels-Metadata" "/submodels/$metadata" false;
   submodels_row "GetAllSubmodels-ValueOnly" "/submodels/$value" false;
   submodels_row "GetAllSubmodels-Reference" "/submodels/$reference" true;
   submodels_row "GetAllSubmodels-Path" "/submodels/$path" true] ++
  by_id_rows at_root [the_submodels] (first_id 0) ++
  element_rows in_submodel [the_submodels] ++
  common_rows at_root.

(** The path of the shell itself is requested with a slash at its end, the shell that gives the path of a submodel without "/aas". *)
Definition shell_service_rows : list row :=
  [Row "GetAssetAdministrationShell" (at_root "/aas/") [] [] [once "Fetch Shell" []];
   Row "GetAssetAdministrationShell-Reference" (at_root "/aas/$reference") [] [] [once "Fetch Shell Reference" []]] ++
  shell_rows in_aas [] ++
  by_id_rows in_aas [(in_aas "/submodel-refs", one)] (first_reference 0) ++
  element_rows in_aas_submodel [(at_root "/", [])] ++
  common_rows in_aas.

Definition submodel_service_rows : list row :=
  [Row "GetSubmodel" (at_root "/submodel/") [] [] [once "Fetch submodel" []];
   Row "GetSubmodel-Metadata" (at_root "/submodel/$metadata") [] [] [once "Fetch submodel" []];
   Row "GetSubmodel-ValueOnly" (at_root "/submodel/$value") [] [] [once "Fetch submodel" []];
   Row "GetSubmodel-Reference" (at_root "/submodel/$reference") [] [] [once "Fetch submodel reference" []];
   Row "GetSubmodel-Path" (at_root "/submodel/$path") [] [] [once "Fetch submodel path" []]] ++
  element_rows in_the_submodel [] ++
  common_rows in_the_submodel.

Definition conducted : list (str * list row) :=
  [(ssp "AssetAdministrationShellRepositoryServiceSpecification/SSP-002", shell_repository_rows);
   (ssp "SubmodelRepositoryServiceSpecification/SSP-002", submodel_repository_rows);
   (ssp "AssetAdministrationShellServiceSpecification/SSP-002", shell_service_rows);
   (ssp "SubmodelServiceSpecification/SSP-002", submodel_service_rows)].

(** ** Reports and exchanges *)
Inductive Forall3 {A B C} (R : A -> B -> C -> Prop) : list A -> list B -> list C -> Prop :=
| F3_nil : Forall3 R [] [] []
| F3_cons a b c la lb lc : R a b c -> Forall3 R la lb lc -> Forall3 R (a :: la) (b :: lb) (c :: lc).

(** A verdict is a relation between the claim of a test, the exchanges of the setup, the entry of the test in the report, and the answer to
    its request. *)
Definition judgement := claim -> trace -> result -> reply -> Prop.
Definition any_verdict : judgement := fun _ _ _ _ => True.
(** The answers with which a test passes: a success with an accepted value of which the claim holds.  Where the answers are not checked, it
    passes with all answers, of some operations only with JSON objects and arrays. *)
Definition Passes (a : answer) (accepted claimed : json -> Prop) (y : reply) : Prop :=
  match a with
  | Checked _ _ => exists content j, y = Response 200 content (Json j) /\ container j /\ accepted j /\ claimed j
  | Unchecked _ => Acceptable a y
  end.
(** The test fails exactly if the answer does not pass, where a violation of some claims is only a warning.  There is nothing to remark
    exactly if the check of the value has nothing to remark and the claim holds.  The entry is critical if the server fails. *)
Definition Verdict (a : answer) (accepted spotless : json -> Prop) (suite : str) : judgement := fun cl t0 r y =>
  match cl with
  | Refusal => (ok r = true <-> Rejected y) /\ (forall s, ServerError (s, y) -> r_level r = CRITICAL)
  | _ =>
      (ok r = true <-> Passes a accepted (fun j => serious cl = true -> Holds suite t0 cl j) y) /\
      (r_level r = INFO <-> Passes a spotless (Holds suite t0 cl) y) /\
      (forall s, checked a = true -> ServerError (s, y) -> r_level r = CRITICAL)
  end.

(** The values that are accepted as of a type, and those of which the check has nothing to remark *)
Definition Accepts (show : json -> str) (repr : str -> str) (k : ann) (j : json) : Prop :=
  exists r v, check_body show repr k j = Val (r, v) /\ ok r = true.
Definition Spotless (show : json -> str) (repr : str -> str) (k : ann) (j : json) : Prop :=
  exists r v, check_body show repr k j = Val (r, v) /\ r_level r = INFO.
(** [Part b j n w]: in a value [j] with the description [b], the value [w] is at the position of an object of the class [n] of the meta
    model. *)
Inductive Part : body -> json -> str -> json -> Prop :=
| Pt_model n j : Part (BModel (MetaSpec.GObj n)) j n j
| Pt_item b l x n w : In x l -> Part b x n w -> Part (BList b) (JArr l) n w
| Pt_member ms kvs m r b x n w : In (m, (r, b)) ms -> lookup m kvs = Some x -> Part b x n w -> Part (BObject ms) (JObj kvs) n w
| Pt_reference j n w : Part (BObject reference_members) j n w -> Part BReference j n w.
(** a type for the answers to an operation: [bodies] gives their descriptions *)
Definition type_of_answer (a : answer) (k : ann) : Prop := match a with Checked b _ => In (k, b) bodies | Unchecked _ => True end.

(** one exchange and its verdict, or none and a warning *)
Definition Asked_once (S : sent -> Prop) (V : reply -> Prop) (t : trace) : Prop := exists s y, t = [(s, y)] /\ S s /\ V y.
Definition Skipped (r : result) (t : trace) : Prop := t = [] /\ r_level r = WARNING.
Definition Asked_if {A} (given : option A) (S : sent -> Prop) (V : reply -> Prop) (r : result) (t : trace) : Prop :=
  match given with Some _ => Asked_once S V t | None => Skipped r t end.
(** The exchanges of a positive test and their verdicts *)
Definition Exchanges (c : client) (J : judgement) (path : route) (t0 : trace) (test : check) (r : result) (t : trace) : Prop :=
  let S ty := Sends c t0 ty path (ch_params test) in
  let V cl r := J cl t0 r in
  match ch_times test with
  | Once => Asked_once (S None) (V (ch_claim test) r) t
  | If_told src => Asked_if (told t0 src) (S None) (V (ch_claim test) r) r t
  | Never => Skipped r t
  | For_type n ty => Asked_if (first_path (Some ty) (elements t0 n)) (S (Some ty)) (V (ch_claim test) r) r t
  | For_each_type n supported =>
      exists ts, t = List.concat ts /\
        Forall3 (fun ty x t' => r_message x = lit "Checking " ++ lit ty /\
          Asked_if (first_path (Some ty) (elements t0 n)) (S (Some ty))
            (V (if existsb (String.eqb ty) supported then ch_claim test else Refusal) x) x t') element_types (r_subs r) ts
  end.
(** A positive test, its entry in the report and its exchanges *)
Definition Positive (c : client) (J : judgement) (row : row) (t0 : trace) (test : check) (r : result) (t : trace) : Prop :=
  r_message r = ch_title test /\ Exchanges c J (ro_path row) t0 test r t.
(** A negative test: one exchange with exactly the wrong value, which the test judges *)
Definition Wrong_request (c : client) (t0 : trace) (row : row) (w : (string * string) * how) (s : sent) : Prop :=
  match snd w with
  | In_query name => Sends c t0 None (ro_path row) [(lit name, Is (lit (snd (fst w))))] s
  | In_path => exists r, replace_last (lit (snd (fst w))) (ro_path row) = Some r /\ Sends c t0 None r [] s
  end.
Definition Negative (c : client) (t0 : trace) (row : row) (w : (string * string) * how) (r : result) (x : sent * reply) : Prop :=
  r_message r = negative_title (fst w) /\ Wrong_request c t0 row w (fst x) /\ (ok r = true <-> Rejected (snd x)) /\
  (ServerError x -> r_level r = CRITICAL).
Definition Setups (c : client) (t0 : trace) (l : list (route * params)) (t : trace) : Prop :=
  Forall2 (fun k x => Sends c t0 None (fst k) (snd k) (fst x)) l t.
(** The report and the exchanges of an operation: first the requests of the setup, of which the last may be missing if it fails; then one
    request for each negative test and those of the positive tests, all in the order of the table. *)
Inductive Conducted (c : client) (J : judgement) (row : row) (r : result) (t : trace) : Prop :=
| Only_setup setup l1 l2 : entry_of (lit "Checking " ++ lit (ro_name row)) [setup] r -> ok setup = false ->
    ro_setup row = l1 ++ l2 -> Setups c t l1 t -> Conducted c J row r t
| All_tests setup neg pos t0 t1 t2 : entry_of (lit "Checking " ++ lit (ro_name row)) [setup; neg; pos] r ->
    t = t0 ++ t1 ++ List.concat t2 -> Setups c t0 (ro_setup row) t0 ->
    Forall3 (Negative c t0 row) (ro_wrong row) (r_subs neg) t1 ->
    Forall3 (Positive c J row t0) (ro_tests row) (r_subs pos) t2 -> Conducted c J row r t.
