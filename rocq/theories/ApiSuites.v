(** aas_test_engines/test_cases/v3_0/interfaces/*.py and the table of suites of api.py *)
From Coq Require Import String List NArith ZArith Bool PeanoNat.
From Verif Require Import PyStr PyBase PyVal Codec ResultModel ContextModel HttpModel ConfigModel ReflectModel MetaModel
  AdapterModel ParseModel ConstraintModel ProgModel ApiModel.
Import ListNotations.
Local Open Scope list_scope.

(** [next] on an exhausted iterator *)
Definition StopIteration : exn := OtherException 1.

(** [x[0]] *)
Definition first (v : pyval) : outcome pyval :=
  match v with
  | VList (x :: _) => Val x
  | VList [] => Raise IndexError
  | _ => Raise TypeError
  end.
(** [Base64String(raw)]: reflect.py:61-84 *)
Definition base64_string (raw : str) : outcome value :=
  match sfv_construct (Sfv None None None None true) raw with
  | Built => Val (VlBase64 raw)
  | Refused _ => Raise ValueError
  | Crashed e => Raise e
  end.
Definition get (v : pyval) (n : string) : outcome pyval := getattr v (lit n).
(** [x.id.raw_value] *)
Definition raw_id (v : pyval) : outcome str := let* i := get v "id" in raw_value i.
(** [r.keys[0].value.raw_value] *)
Definition first_key (v : pyval) : outcome str :=
  let* ks := get v "keys" in let* k := first ks in let* x := get k "value" in raw_value x.
(** [r.result[0]] *)
Definition first_result (v : pyval) : outcome pyval := let* l := get v "result" in first l.
(** [len(r.result)] *)
Definition result_length (v : pyval) : outcome nat :=
  let* l := get v "result" in let* xs := as_items l in Val (length xs).
(** [r.paging_metadata.cursor] *)
Definition cursor_of (v : pyval) : outcome (option str) :=
  let* m := get v "paging_metadata" in let* c := get m "cursor" in
  match c with VStr s => Val (Some s) | VNone => Val None | _ => Raise TypeError end.

Definition set_cursor (i : instance) (c : option str) : instance :=
  Instance (i_client i) (i_profile i) (i_valid_arguments i) c (i_valid_id i) (i_valid_id_short i) (i_asset_id i)
           (i_valid_submod_id i) (i_paths i).
Definition set_valid_id (i : instance) (s : str) : instance :=
  Instance (i_client i) (i_profile i) (i_valid_arguments i) (i_cursor i) s (i_valid_id_short i) (i_asset_id i)
           (i_valid_submod_id i) (i_paths i).
Definition set_argument (i : instance) (n : str) (v : value) : instance :=
  Instance (i_client i) (i_profile i) (assign n v (i_valid_arguments i)) (i_cursor i) (i_valid_id i) (i_valid_id_short i)
           (i_asset_id i) (i_valid_submod_id i) (i_paths i).

(** a docstring as it is written in the source *)
Definition doc (s : string) : str := [10%N] ++ lit "        " ++ lit s ++ [10%N] ++ lit "        ".
Definition q (name arg : string) : str * str * bool := (lit name, lit arg, false).
Definition qe (name arg : string) : str * str * bool := (lit name, lit arg, true).

Definition level_core : value := VlMember (lit "Level") (lit "Core") (lit "core").
Definition level_deep : value := VlMember (lit "Level") (lit "Deep") (lit "deep").
Definition with_blob : value := VlMember (lit "Extent") (lit "WithBlobValue") (lit "withBlobValue").
Definition without_blob : value := VlMember (lit "Extent") (lit "WithoutBlobValue") (lit "withoutBlobValue").

Definition s_limit : str * ann := (lit "limit", AOpt AInt).
Definition s_cursor : str * ann := (lit "cursor", AOpt AStr).
Definition s_level : str * ann := (lit "level", AOpt (ACls k_Level)).
Definition s_extent : str * ann := (lit "extent", AOpt (ACls k_Extent)).
Definition s_submodel_id : str * ann := (lit "submodel_id", ACls k_Base64String).
Definition s_path : str * ann := (lit "id_short_path", AStr).
Definition s_shells : signature :=
  [s_limit; s_cursor; (lit "id_short", AOpt AStr); (lit "asset_id", AOpt (ACls k_AssetId))].

Definition limit1 : args := [(lit "limit", VlInt 1)].

(** What [invoke_success] does with the response *)
Inductive handling := Decoded (t : ann) | Content | JsonOnly.
(** An operation: declared name, arguments, endpoint and handling of the response.  [o_type] is
    the declared result, which is not always the type the response is checked against. *)
Record op := Op { o_name : string; o_sig : signature; o_endpoint : endpoint; o_handling : handling; o_type : ann }.

Definition e_shells : endpoint :=
  Endpoint [Text (lit "/shells")] [q "cursor" "cursor"; q "limit" "limit"; q "idShort" "id_short"; q "assetIds" "asset_id"].
Definition e_elements : endpoint :=
  Endpoint [Text (lit "/submodel-elements")] [qe "level" "level"; qe "extent" "extent"; q "limit" "limit"; q "cursor" "cursor"].
Definition paged_endpoint (p : string) : endpoint := Endpoint [Text (lit p)] [q "limit" "limit"; q "cursor" "cursor"].

Section Messages.
  Variable show : json -> str.
  Variable repr : str -> str.
  Notation invoke_and_decode := (invoke_and_decode show repr).

  (** aas_repo.py:35-52 *)
  Definition get_all_shells (c : client) (a : args) : prog pyval :=
    invoke_and_decode c e_shells a (ACls k_AllShells) Success.
  (** aas.py:37-39 *)
  Definition get_shell (c : client) : prog pyval :=
    invoke_and_decode c (Endpoint [Text (lit "/")] []) [] (ACls k_AssetAdministrationShell) Success.
  (** aas.py:42-52 *)
  Definition get_all_submodel_references (c : client) (a : args) : prog pyval :=
    invoke_and_decode c (paged_endpoint "/submodel-refs") a (ACls k_AasSubmodelReferences) Success.
  (** submodel_repo.py:63-73 *)
  Definition get_all_submodels (c : client) (a : args) : prog pyval :=
    invoke_and_decode c (paged_endpoint "/submodels") a (ACls k_AllSubmodels) Success.
  (** submodel.py:98-114 *)
  Definition get_all_submodel_elements (c : client) (a : args) : prog pyval :=
    invoke_and_decode c e_elements a (ACls k_AllElements) Success.

  (** ** Prefixes, api.py:26-62 *)
  Definition base64_text (raw : str) : outcome str := let* v := base64_string raw in value_text v.
  Definition fixed_prefix (s : string) (c : client) : prog str := PRet (lit s).
  Definition no_prefix := fixed_prefix "".
  Definition aas_prefix := fixed_prefix "/aas".
  Definition submodel_prefix := fixed_prefix "/submodel".
  Definition aas_submodel_prefix (c : client) : prog str :=
    let! shell := get_shell c in
    lift (let* l := get shell "submodels" in let* r := first l in let* k := first_key r in
          let* t := base64_text k in Val (lit "/aas/submodels/" ++ t)).
  Definition aas_repo_prefix (c : client) : prog str :=
    let! r := get_all_shells c limit1 in
    lift (let* s := first_result r in let* i := raw_id s in let* t := base64_text i in Val (lit "/shells/" ++ t)).
  Definition aas_repo_submodel_prefix (c : client) : prog str :=
    let! r := get_all_shells c limit1 in
    lift (let* s := first_result r in let* i := raw_id s in let* id := base64_string i in
          let* l := get s "submodels" in let* m := first l in let* k := first_key m in let* sid := base64_string k in
          let* t := value_text id in let* u := value_text sid in
          Val (lit "/shells/" ++ t ++ lit "/submodels/" ++ u)).
  Definition submodel_repo_submodel_prefix (c : client) : prog str :=
    let! r := get_all_submodels c limit1 in
    lift (let* s := first_result r in let* i := raw_id s in let* t := base64_text i in Val (lit "/submodels/" ++ t)).

  (** ** Calls *)
  Definition invoke_success (o : op) (i : instance) (a : args) : prog pyval :=
    call (o_sig o) a
      match o_handling o with
      | Decoded t => invoke_and_decode (i_client i) (o_endpoint o) a t Success
      | Content => invoke_content (i_client i) (o_endpoint o) a
      | JsonOnly => invoke_json (i_client i) (o_endpoint o) a
      end.
  Definition invoke_error (o : op) (i : instance) (a : args) : prog pyval :=
    call (o_sig o) a (invoke_and_decode (i_client i) (o_endpoint o) a (ACls k_ErrorResult) ClientError).
  (** the operations without arguments *)
  Definition cannot_fail (i : instance) (a : args) : prog pyval := call [] a (PRaise NotImplementedError []).

  (** ** Setups *)
  Definition no_setup (i : instance) : prog instance := PRet i.
  (** aas_repo.py:56-68 *)
  Definition setup_all_shells (i : instance) : prog instance :=
    let! shells := get_all_shells (i_client i) limit1 in
    lift (let* s := first_result shells in
          let* n := get s "id_short" in let* id_short := raw_value n in
          let* info := get s "asset_information" in
          let* g := get info "global_asset_id" in let* global := raw_value g in
          let* asset :=
            match global with
            | _ :: _ => Val (VlAssetId (lit "globalAssetId") global)
            | [] => let* l := get info "specific_asset_ids" in let* x := first l in
                    let* n := get x "name" in let* n := raw_value n in
                    let* v := get x "value" in let* v := raw_value v in
                    Val (VlAssetId n v)
            end in
          let* c := cursor_of shells in
          Val (Instance (i_client i) (i_profile i) (i_valid_arguments i) c (i_valid_id i) id_short asset
                        (i_valid_submod_id i) (i_paths i))).
  (** aas_repo.py:182-184, 205-207 *)
  Definition setup_valid_id (i : instance) : prog instance :=
    let! shells := get_all_shells (i_client i) limit1 in
    lift (let* s := first_result shells in let* x := raw_id s in Val (set_valid_id i x)).
  (** aas.py:93-95 *)
  Definition setup_references (i : instance) : prog instance :=
    let! refs := get_all_submodel_references (i_client i) limit1 in
    lift (let* c := cursor_of refs in Val (set_cursor i c)).
  (** submodel_repo.py:79-81 and four times more *)
  Definition setup_submodels (i : instance) : prog instance :=
    let! r := get_all_submodels (i_client i) limit1 in
    lift (let* c := cursor_of r in Val (set_cursor i c)).
  (** submodel.py:206-208, 259-261, 328-329 *)
  Definition setup_cursor (o : op) (i : instance) : prog instance :=
    let! r := invoke_success o i limit1 in
    lift (let* c := cursor_of r in Val (set_cursor i c)).
  (** submodel_repo.py:232-236 *)
  Definition setup_for_aas (i : instance) : prog instance :=
    let! r := get_all_submodel_references (i_client i) limit1 in
    lift (let* m := first_result r in let* x := first_key m in let* v := base64_string x in
          Val (set_argument (set_valid_id i x) (lit "submodel_id") v)).
  (** submodel_repo.py:239-243 *)
  Definition setup_for_submodel (i : instance) : prog instance :=
    let! r := get_all_submodels (i_client i) limit1 in
    lift (let* m := first_result r in let* x := raw_id m in let* v := base64_string x in
          Val (set_argument (set_valid_id i x) (lit "submodel_id") v)).
  (** serialization.py:17-20 *)
  Definition setup_serialization (i : instance) : prog instance :=
    let! shells := get_all_shells (i_client i) limit1 in
    lift (let* s := first_result shells in let* x := raw_id s in let* _ := base64_string x in
          let* l := get s "submodels" in let* m := first l in let* y := first_key m in let* _ := base64_string y in
          Val (Instance (i_client i) (i_profile i) (i_valid_arguments i) (i_cursor i) x (i_valid_id_short i)
                        (i_asset_id i) y (i_paths i))).

  (** submodel.py:454-465 for one element; the loop over the attributes stands for the access to
      [element.value] *)
  Definition add_path (model_type p : str) (paths : list (str * list str)) : list (str * list str) :=
    assign model_type (match lookup model_type paths with Some l => l | None => [] end ++ [p]) paths.
  Fixpoint collect_element (v : pyval) (idx : nat) (prefix : str) (paths : list (str * list str)) {struct v}
    : outcome (list (str * list str)) :=
    match v with
    | VObj c kvs =>
        let* n := get v "id_short" in
        if truthy n then
          let* raw := raw_value n in
          let p := prefix ++ raw in
          let paths := add_path c p paths in
          let inside (prefix : str) :=
            (fix attrs (kvs : list (str * pyval)) : outcome (list (str * list str)) :=
               match kvs with
               | [] => Raise AttributeError
               | (k, x) :: r =>
                   if str_eqb k (lit "value") then
                     match x with
                     | VList l =>
                         (fix items (i : nat) (l : list pyval) (paths : list (str * list str))
                            : outcome (list (str * list str)) :=
                            match l with
                            | [] => Val paths
                            | y :: l' => let* paths := collect_element y i prefix paths in items (S i) l' paths
                            end) 0%nat l paths
                     | _ => Raise TypeError
                     end
                   else attrs r
               end) kvs in
          if is_a model_classes c (lit "SubmodelElementCollection") then inside (p ++ lit ".")
          else if is_a model_classes c (lit "SubmodelElementList") then inside (dec_of_nat idx ++ lit ".")
          else Val paths
        else Val paths
    | _ => Raise AttributeError
    end.
  Fixpoint collect_elements (i : nat) (l : list pyval) (prefix : str) (paths : list (str * list str))
    : outcome (list (str * list str)) :=
    match l with
    | [] => Val paths
    | v :: r => let* paths := collect_element v i prefix paths in collect_elements (S i) r prefix paths
    end.
  (** submodel.py:486-490 *)
  Definition setup_elements (i : instance) : prog instance :=
    let! r := get_all_submodel_elements (i_client i) [] in
    lift (let* l := get r "result" in let* xs := as_items l in
          let* paths := collect_elements 0%nat xs [] [] in
          let* p := match paths with
                    | [] => Raise StopIteration
                    | (_, []) :: _ => Raise IndexError
                    | (_, p :: _) :: _ => Val p
                    end in
          Val (Instance (i_client i) (i_profile i) (assign (lit "id_short_path") (VlStr p) (i_valid_arguments i)) (i_cursor i)
                        (i_valid_id i) (i_valid_id_short i) (i_asset_id i) (i_valid_submod_id i) paths)).

  (** ** Tests *)
  Definition test := (str * (instance -> prog unit))%type.
  (** [self.invoke_success(...)] *)
  Definition t_invoke (o : op) (title : str) (a : args) : test :=
    (title, fun i => invoke_success o i a;; PRet tt).
  (** shared.py:163-168 *)
  Definition t_get_one (o : op) : test :=
    (doc "Pagination: Fetch exactly one",
     fun i => let! r := invoke_success o i (limit1 ++ i_valid_arguments i) in
              let! n := lift (result_length r) in
              assert_ (Nat.eqb n 1) (lit "Has exactly one result entry") ERROR).
  (** shared.py:170-182 *)
  Definition t_pagination (o : op) : test :=
    (doc "Pagination: Fetch using cursor",
     fun i => match i_cursor i with
              | None => PAbort (new_result (lit "Cannot check pagination, there must be at least 2 entities") WARNING)
              | Some _ =>
                  let! r := invoke_success o i (limit1 ++ i_valid_arguments i) in
                  let! n := lift (result_length r) in
                  assert_ (Nat.eqb n 1) (lit "Exactly one entry") ERROR
              end).
  Definition pagination (o : op) : list test := [t_get_one o; t_pagination o].

  (** aas_repo.py:70-88 *)
  Definition t_shells (o : op) : list test :=
    [t_invoke o (doc "Invoke without parameters") [];
     (doc "Filter by non-existing idShort",
      fun i => let! r := invoke_success o i [(lit "id_short", VlStr (lit "does-not-exist"))] in
               let! n := lift (result_length r) in
               assert_ (Nat.eqb n 0) (lit "Result is empty") ERROR);
     (doc "Filter by assetId",
      fun i => let! r := invoke_success o i [(lit "asset_id", i_asset_id i)] in
               let! n := lift (result_length r) in
               assert_ (negb (Nat.eqb n 0)) (lit "Returns non-empty list") ERROR)].
  (** aas_repo.py:121-130 and 173-178 *)
  Definition t_filter_by_idshort (o : op) (compare : bool) : test :=
    (doc "Filter by idShort",
     fun i => let! r := invoke_success o i [(lit "id_short", VlStr (i_valid_id_short i))] in
              let! n := lift (result_length r) in
              assert_ (Nat.ltb 0 n) (lit "Returns entries") ERROR;;
              if compare then
                let! s := lift (let* x := first_result r in let* n := get x "id_short" in raw_value n) in
                assert_ (str_eqb s (i_valid_id_short i)) (lit "Result has the requested idShort") ERROR
              else PRet tt).
  (** aas_repo.py:196-201, 219-224; submodel_repo.py:270-275, 299-304, 343-347, 372-377, 401-405:
      the value of the only required argument is given by its position *)
  Definition t_by_id (o : op) (title : string) (arg : string) (check : option ((pyval -> outcome str) * string)) : test :=
    (doc title,
     fun i => let! v := lift (base64_string (i_valid_id i)) in
              let! r := invoke_success o i [(lit arg, v)] in
              match check with
              | None => PRet tt
              | Some (f, m) => let! s := lift (f r) in assert_ (str_eqb s (i_valid_id i)) (lit m) ERROR
              end).

  (** submodel.py:468-484 *)
  Definition all_submodel_elements : list string :=
    ["SubmodelElementCollection"; "SubmodelElementList"; "Entity"; "BasicEventElement"; "Capability"; "Operation";
     "Property"; "MultiLanguageProperty"; "Range"; "ReferenceElement"; "RelationshipElement";
     "AnnotatedRelationshipElement"; "Blob"; "File"]%string.
  (** submodel.py:582-595 *)
  Definition metadata_elements : list string :=
    ["SubmodelElementCollection"; "SubmodelElementList"; "Entity"; "BasicEventElement";
     "Property"; "MultiLanguageProperty"; "Range"; "ReferenceElement"; "RelationshipElement";
     "AnnotatedRelationshipElement"; "Blob"; "File"]%string.
  (** submodel.py:754-758 *)
  Definition path_elements : list string := ["SubmodelElementCollection"; "SubmodelElementList"; "Entity"]%string.

  (** submodel.py:539-548, 604-613, 666-673, 730-739, 774-783 [check_type]; [kw] are the arguments
      besides the path.  The value suite has no unsupported elements. *)
  Fixpoint check_types (o : op) (supported : list string) (kw : args) (ts : list string) (i : instance) : prog unit :=
    match ts with
    | [] => PRet tt
    | t :: r =>
        let! _ := block (lit "Checking " ++ lit t)
          (match lookup (lit t) (i_paths i) with
           | None => PAbort (new_result (lit "No such element present") WARNING)
           | Some l =>
               let! p := lift (match l with [] => Raise IndexError | p :: _ => Val p end) in
               let a := (lit "id_short_path", VlStr p) :: kw in
               if existsb (String.eqb t) supported then invoke_success o i a else invoke_error o i a
           end) in
        check_types o supported kw r i
    end.
  Definition t_types (o : op) (supported : list string) (title : string) (kw : args) : test :=
    (lit title, check_types o supported kw all_submodel_elements).
  Definition level_extent (l e : value) : args := [(lit "level", l); (lit "extent", e)].
  (** submodel.py:550-575, 675-700 *)
  Definition t_levels (o : op) (supported : list string) : list test :=
    [t_types o supported "test_no_params" (level_extent VlNone VlNone);
     t_types o supported "test_level_deep" (level_extent level_deep VlNone);
     t_types o supported "test_level_core" (level_extent level_core VlNone);
     t_types o supported "test_extend_with_blob_value" (level_extent VlNone with_blob);
     t_types o supported "test_extend_without_blob_value" (level_extent VlNone without_blob);
     t_types o supported "test_core_without_blob_value" (level_extent level_core without_blob);
     t_types o supported "test_deep_without_blob_value" (level_extent level_deep without_blob);
     t_types o supported "test_core_with_blob_value" (level_extent level_core with_blob);
     t_types o supported "test_deep_with_blob_value" (level_extent level_deep with_blob)].

  (** submodel.py:801-812; the lookup in the defaultdict gives the empty list *)
  Definition t_file (o : op) : test :=
    (lit "test_no_params",
     fun i => match lookup (lit "File") (i_paths i) with
              | Some (p :: _) => invoke_success o i [(lit "id_short_path", VlStr p)];; PRet tt
              | _ => PAbort (new_result (lit "No submodel element of type 'File' found, skipping test.") WARNING)
              end).

  (** ** The suites *)
  Definition suite_of (o : op) (error : instance -> args -> prog pyval) (setup : instance -> prog instance)
                      (tests : list test) : suite :=
    Suite (lit (o_name o)) (o_sig o) (o_type o) error setup tests.
  (** an operation without arguments *)
  Definition simple_op (name path : string) (h : handling) (t : ann) : op := Op name [] (Endpoint [Text (lit path)] []) h t.
  Definition simple_suite (o : op) (title : string) : suite :=
    suite_of o cannot_fail no_setup [t_invoke o (doc title) []].

  (** aas.py:55-69 *)
  Definition GetShell := simple_suite
    (simple_op "GetAssetAdministrationShell" "/" (Decoded (ACls k_AssetAdministrationShell)) (ACls k_AssetAdministrationShell))
    "Fetch Shell".
  (** aas.py:72-87 *)
  Definition GetShellReference := simple_suite
    (simple_op "GetAssetAdministrationShell-Reference" "/$reference" (Decoded (ACls k_Reference)) (ACls k_Reference))
    "Fetch Shell Reference".
  (** aas.py:90-115 *)
  Definition o_references : op :=
    Op "GetAllSubmodelReferences" [s_limit; s_cursor] (paged_endpoint "/submodel-refs")
       (Decoded (ACls k_AasSubmodelReferences)) (ACls k_AasSubmodelReferences).
  Definition GetAllSubmodelReferences :=
    suite_of o_references (invoke_error o_references) setup_references
      (t_invoke o_references (doc "Fetch all references") [] :: pagination o_references).
  (** aas.py:118-132 *)
  Definition GetAssetInformation := simple_suite
    (simple_op "GetAssetInformation" "/asset-information" (Decoded (ACls k_AssetInformation)) (ACls k_AssetInformation))
    "Fetch Asset Information".
  (** aas.py:135-150 *)
  Definition GetThumbnail := simple_suite
    (simple_op "GetThumbnail" "/asset-information/thumbnail" Content ABytes) "Fetch thumbnail".

  (** aas_repo.py:91-130 *)
  Definition o_shells : op :=
    Op "GetAllAssetAdministrationShells" s_shells e_shells (Decoded (ACls k_AllShells)) (ACls k_AllShells).
  Definition GetAllAas :=
    suite_of o_shells (invoke_error o_shells) setup_all_shells
      (t_shells o_shells ++ t_filter_by_idshort o_shells true :: pagination o_shells).
  (** aas_repo.py:133-178; this test has a higher line number than those of shared.py *)
  Definition o_shell_refs : op :=
    Op "GetAllAssetAdministrationShells-Reference" s_shells
       (Endpoint [Text (lit "/shells/$reference")] (e_query e_shells))
       (Decoded (ACls k_AllShellsReference)) (ACls k_AllShellsReference).
  Definition GetAllAasRefs :=
    suite_of o_shell_refs (invoke_error o_shell_refs) setup_all_shells
      (t_shells o_shell_refs ++ pagination o_shell_refs ++ [t_filter_by_idshort o_shell_refs false]).
  (** aas_repo.py:181-201 *)
  Definition s_aas_id : signature := [(lit "aas_id", ACls k_Base64String)].
  Definition o_shell : op :=
    Op "GetAssetAdministrationShellById" s_aas_id (Endpoint [Text (lit "/shells/"); Arg (lit "aas_id")] [])
       (Decoded (ACls k_AssetAdministrationShell)) (ACls k_AssetAdministrationShell).
  Definition GetAasById :=
    suite_of o_shell (invoke_error o_shell) setup_valid_id
      [t_by_id o_shell "Fetch AAS" "aas_id" (Some (raw_id, "Returns the requested aas"%string))].
  (** aas_repo.py:204-224 *)
  Definition o_shell_ref : op :=
    Op "GetAssetAdministrationShellById-Reference" s_aas_id
       (Endpoint [Text (lit "/shells/"); Arg (lit "aas_id"); Text (lit "/$reference")] [])
       (Decoded (ACls k_Reference)) (ACls k_Reference).
  Definition GetAasByIdReference :=
    suite_of o_shell_ref (invoke_error o_shell_ref) setup_valid_id
      [t_by_id o_shell_ref "Fetch AAS Reference" "aas_id" (Some (first_key, "Returns the requested aas"%string))].

  (** submodel_repo.py:76-222 *)
  Definition all_submodels_op (name path : string) (t declared : nat) : op :=
    Op name [s_limit; s_cursor] (paged_endpoint path) (Decoded (ACls t)) (ACls declared).
  Definition all_submodels_suite (o : op) (pagination_first : bool) : suite :=
    suite_of o (invoke_error o) setup_submodels
      (if pagination_first then pagination o ++ [t_invoke o (doc "Invoke without parameters") []]
       else t_invoke o (doc "Invoke without parameters") [] :: pagination o).
  Definition GetAllSubmodels := all_submodels_suite
    (all_submodels_op "GetAllSubmodels" "/submodels" k_AllSubmodels k_AllSubmodels) false.
  Definition GetAllSubmodelsMetadata := all_submodels_suite
    (all_submodels_op "GetAllSubmodels-Metadata" "/submodels/$metadata" k_AllSubmodels k_AllSubmodels) false.
  Definition GetAllSubmodelsValue := all_submodels_suite
    (all_submodels_op "GetAllSubmodels-ValueOnly" "/submodels/$value" k_AllSubmodelsValue k_AllSubmodelsValue) false.
  Definition GetAllSubmodelsReference := all_submodels_suite
    (all_submodels_op "GetAllSubmodels-Reference" "/submodels/$reference" k_AllSubmodelReferences k_AllSubmodelReferences) true.
  Definition GetAllSubmodelsPath := all_submodels_suite
    (all_submodels_op "GetAllSubmodels-Path" "/submodels/$path" k_AllSubmodelsPath k_AllSubmodels) true.

  (** submodel_repo.py:246-413; each with the setup for a shell or for a submodel service.  The
      names of the classes of the value and reference suites are interchanged in the source. *)
  Definition by_id_op (name suffix : string) (sig : signature) (query : list (str * str * bool)) (h : handling) (t : ann) : op :=
    Op name sig (Endpoint [Text (lit "/submodels/"); Arg (lit "submodel_id"); Text (lit suffix)] query) h t.
  Definition by_id_suite (o : op) (check : option ((pyval -> outcome str) * string)) (setup : instance -> prog instance) : suite :=
    suite_of o (invoke_error o) setup [t_by_id o "Fetch submodel by id" "submodel_id" check].
  Definition GetSubmodelById := by_id_suite
    (by_id_op "GetSubmodelById" "" [s_submodel_id; s_level; s_extent] [qe "level" "level"; qe "extent" "extent"]
       (Decoded (ACls k_Submodel)) (ACls k_Submodel)) (Some (raw_id, "Returns the right one"%string)).
  Definition GetSubmodelByIdMeta := by_id_suite
    (by_id_op "GetSubmodelById-Metadata" "/$metadata" [s_submodel_id] [] (Decoded (ACls k_Submodel)) (ACls k_Submodel))
    (Some (raw_id, "Returns the right one"%string)).
  Definition GetSubmodelByIdValue := by_id_suite
    (by_id_op "GetSubmodelById-ValueOnly" "/$value" [s_submodel_id; s_level; s_extent]
       [qe "level" "level"; qe "extent" "extent"] JsonOnly AAny) None.
  Definition GetSubmodelByIdReference := by_id_suite
    (by_id_op "GetSubmodelById-Reference" "/$reference" [s_submodel_id] [] (Decoded (ACls k_Reference)) (ACls k_Reference))
    (Some (first_key, "Returns the right one"%string)).
  Definition GetSubmodelByIdPath := by_id_suite
    (by_id_op "GetSubmodelById-Path" "/$path" [s_submodel_id; s_level] [qe "level" "level"] (Decoded (AList AStr)) (AList AStr))
    None.

  (** submodel.py:117-204 *)
  Definition GetSubmodel := simple_suite
    (simple_op "GetSubmodel" "/" (Decoded (ACls k_Submodel)) (ACls k_Submodel)) "Fetch submodel".
  Definition GetSubmodelMeta := simple_suite
    (simple_op "GetSubmodel-Metadata" "/$metadata" (Decoded (ACls k_Submodel)) (ACls k_Submodel)) "Fetch submodel".
  Definition GetSubmodelValue := simple_suite
    (simple_op "GetSubmodel-ValueOnly" "/$value" JsonOnly AAny) "Fetch submodel".
  Definition GetSubmodelReference := simple_suite
    (simple_op "GetSubmodel-Reference" "/$reference" (Decoded (ACls k_UnconstrainedReference)) (ACls k_Submodel))
    "Fetch submodel reference".
  Definition GetSubmodelPath := simple_suite
    (simple_op "GetSubmodel-Path" "/$path" (Decoded (AList AStr)) (AList AStr)) "Fetch submodel path".

  (** submodel.py:229-317; the argument extent is annotated with the enumeration Level *)
  Definition o_elements : op :=
    Op "GetAllSubmodelElements" [s_level; (lit "extent", AOpt (ACls k_Level)); s_limit; s_cursor] e_elements
       (Decoded (ACls k_AllElements)) (ACls k_AllElements).
  Definition t_elements (o : op) : list test :=
    [t_invoke o (doc "Fetch all submodel elements") [];
     t_invoke o (doc "Fetch all submodel elements with level=core") [(lit "level", level_core)];
     t_invoke o (doc "Fetch all submodel elements with level=deep") [(lit "level", level_deep)]].
  Definition GetAllSubmodelElements :=
    suite_of o_elements (invoke_error o_elements) (setup_cursor o_elements)
      (pagination o_elements ++ t_elements o_elements ++
       [t_invoke o_elements (doc "Fetch all submodel elements with extent=withBlobValue") [(lit "extent", with_blob)];
        t_invoke o_elements (doc "Fetch all submodel elements with extent=withoutBlobValue") [(lit "extent", without_blob)];
        t_invoke o_elements (doc "Fetch all submodel elements with level=core and extend=withoutBlobValue")
          (level_extent level_core without_blob);
        t_invoke o_elements (doc "Fetch all submodel elements with level=deep and extend=withoutBlobValue")
          (level_extent level_deep without_blob);
        t_invoke o_elements (doc "Fetch all submodel elements with level=core and extend=withBlobValue")
          (level_extent level_deep with_blob);
        t_invoke o_elements (doc "Fetch all submodel elements with level=deep and extend=withBlobValue")
          (level_extent level_deep without_blob)]).
  (** submodel.py:320-352 *)
  Definition o_elements_meta : op :=
    Op "GetAllSubmodelElements-Metadata" [s_limit; s_cursor] (paged_endpoint "/submodel-elements/$metadata")
       (Decoded (ACls k_AllElements)) (ACls k_AllElements).
  Definition GetAllSubmodelElementsMeta :=
    suite_of o_elements_meta (invoke_error o_elements_meta) (setup_cursor o_elements_meta)
      (pagination o_elements_meta ++ [t_invoke o_elements_meta (doc "Fetch all submodel elements (metadata)") []]).
  (** submodel.py:205-227, 355-383 and 419-447 *)
  Definition leveled_op (name path : string) (t : nat) : op :=
    Op name [s_level; s_limit; s_cursor] (Endpoint [Text (lit path)] [qe "level" "level"; q "limit" "limit"; q "cursor" "cursor"])
       (Decoded (ACls t)) (ACls t).
  Definition leveled_suite (o : op) : suite :=
    suite_of o (invoke_error o) (setup_cursor o) (pagination o ++ t_elements o).
  Definition GetAllSubmodelElementsValueOnly := leveled_suite
    (leveled_op "GetAllSubmodelElements-ValueOnly" "/submodel-elements/$value" k_AllElementsValueOnly).
  Definition GetAllSubmodelElementsPath := leveled_suite
    (leveled_op "GetAllSubmodelElements-Path" "/submodel-elements/$path" k_AllElementsPath).
  (** submodel.py:386-416; without a setup, so that there is never a cursor *)
  Definition o_elements_refs : op :=
    Op "GetAllSubmodelElements-Reference" [s_limit; s_cursor] (paged_endpoint "/submodel-elements/$reference")
       (Decoded (ACls k_AllElementsReference)) (ACls k_AllElementsValueOnly).
  Definition GetAllSubmodelElementsReference :=
    suite_of o_elements_refs (invoke_error o_elements_refs) no_setup
      (pagination o_elements_refs ++ [t_invoke o_elements_refs (doc "Fetch all submodel elements (references)") []]).

  (** submodel.py:493-575 *)
  Definition by_path_op (name suffix : string) (sig : signature) (query : list (str * str * bool)) (h : handling) (t : ann) : op :=
    Op name sig (Endpoint [Text (lit "/submodel-elements/"); Arg (lit "id_short_path"); Text (lit suffix)] query) h t.
  Definition o_element : op :=
    by_path_op "GetSubmodelElementByPath" "" [s_path; s_level; s_extent] [qe "level" "level"; qe "extent" "extent"]
      (Decoded (ACls k_SubmodelElement)) (ACls k_SubmodelElement).
  Definition GetSubmodelElement :=
    suite_of o_element (invoke_error o_element) setup_elements (t_levels o_element all_submodel_elements).
  (** submodel.py:578-616 *)
  Definition o_element_meta : op :=
    by_path_op "GetSubmodelElementByPath-Metadata" "/$metadata" [s_path] [] JsonOnly AAny.
  Definition GetSubmodelElementMeta :=
    suite_of o_element_meta (invoke_error o_element_meta) setup_elements
      [t_types o_element_meta metadata_elements "test_no_params" []].
  (** submodel.py:619-700 *)
  Definition o_element_value : op :=
    by_path_op "GetSubmodelElementByPath-ValueOnly" "/$value" [s_path; s_level; s_extent]
      [qe "level" "level"; qe "extent" "extent"] JsonOnly AAny.
  Definition GetSubmodelElementValue :=
    suite_of o_element_value (invoke_error o_element_value) setup_elements (t_levels o_element_value all_submodel_elements).
  (** submodel.py:703-742 *)
  Definition o_element_ref : op :=
    by_path_op "GetSubmodelElementByPath-Reference" "/$reference" [s_path] [] (Decoded (ACls k_UnconstrainedReference))
      (ACls k_SubmodelElement).
  Definition GetSubmodelElementReference :=
    suite_of o_element_ref (invoke_error o_element_ref) setup_elements
      [t_types o_element_ref all_submodel_elements "test_no_params" []].
  (** submodel.py:750-786 *)
  Definition o_element_path : op :=
    by_path_op "GetSubmodelElementByPath-Path" "/$path" [s_path; s_level] [qe "level" "level"] (Decoded (AList AStr)) (AList AStr).
  Definition GetSubmodelElementPath :=
    suite_of o_element_path (invoke_error o_element_path) setup_elements
      [t_types o_element_path path_elements "test_no_params" []].
  (** submodel.py:789-812 *)
  Definition o_file : op := by_path_op "GetFileByPath" "/attachment" [s_path] [] Content ABytes.
  Definition GetFileByPath := suite_of o_file (invoke_error o_file) setup_elements [t_file o_file].

  (** serialization.py *)
  Definition o_serialization : op :=
    Op "GenerateSerializationByIds"
       [(lit "aas_id", AOpt (ACls k_Base64String)); (lit "submodel_id", AOpt (ACls k_Base64String));
        (lit "include_concept_descriptions", AOpt ABool)]
       (Endpoint [Text (lit "/serialization")]
          [q "aasIds" "aas_id"; q "submodelIds" "submodel_id"; q "includeConceptDescriptions" "include_concept_descriptions"])
       (Decoded (ACls k_Environment)) (ACls k_Environment).
  Definition GenerateSerialization :=
    suite_of o_serialization (invoke_error o_serialization) setup_serialization
      [t_invoke o_serialization (doc "Invoke without parameters") [];
       (doc "Filter by aas ids",
        fun i => invoke_success o_serialization i [(lit "aas_id", VlBase64 (i_valid_id i))];; PRet tt);
       (doc "Filter by submodel ids",
        fun i => invoke_success o_serialization i [(lit "submodel_id", VlBase64 (i_valid_submod_id i))];; PRet tt);
       (doc "Invoke with includeConceptDescriptions",
        fun i => let! r := invoke_success o_serialization i [(lit "include_concept_descriptions", VlBool true)] in
                 let! x := lift (get r "concept_descriptions") in
                 assert_ (negb (is_none x)) (lit "contains conceptDescriptions") WARNING)].

  (** description.py *)
  Definition o_description : op :=
    simple_op "GetDescription" "/description" (Decoded (ACls k_ServiceDescription)) (ACls k_ServiceDescription).
  Definition GetDescription :=
    suite_of o_description cannot_fail no_setup
      [(doc "Returned profiles must contain suite",
        fun i => let! r := invoke_success o_description i [] in
                 let! l := lift (let* p := get r "profiles" in as_items p) in
                 assert_ (existsb (fun x => match x with VStr s => str_eqb (i_profile i) s | _ => false end) l)
                         (lit "Contains " ++ i_profile i) WARNING)].

  (** api.py:65-170 *)
  Definition elements_suites (p : client -> prog str) : list entry :=
    [(p, GetAllSubmodelElements); (p, GetAllSubmodelElementsMeta); (p, GetAllSubmodelElementsValueOnly);
     (p, GetAllSubmodelElementsReference); (p, GetAllSubmodelElementsPath); (p, GetSubmodelElement);
     (p, GetSubmodelElementMeta); (p, GetSubmodelElementValue); (p, GetSubmodelElementReference);
     (p, GetSubmodelElementPath); (p, GetFileByPath)].
  Definition by_id_suites (p : client -> prog str) (setup : instance -> prog instance) : list entry :=
    [(p, GetSubmodelById setup); (p, GetSubmodelByIdMeta setup); (p, GetSubmodelByIdReference setup);
     (p, GetSubmodelByIdValue setup); (p, GetSubmodelByIdPath setup)].
  Definition shell_suites (p : client -> prog str) : list entry :=
    [(p, GetAssetInformation); (p, GetThumbnail); (p, GetAllSubmodelReferences)].
  Definition ssp (s : string) : str := lit "https://admin-shell.io/aas/API/3/0/" ++ lit s.
  Definition available_suites : list (str * list entry) :=
    [(ssp "AssetAdministrationShellRepositoryServiceSpecification/SSP-002",
      [(no_prefix, GetAllAas); (no_prefix, GetAllAasRefs); (no_prefix, GetAasById); (no_prefix, GetAasByIdReference)]
      ++ shell_suites aas_repo_prefix
      ++ by_id_suites aas_repo_prefix setup_for_aas
      ++ elements_suites aas_repo_submodel_prefix
      ++ [(no_prefix, GenerateSerialization); (no_prefix, GetDescription)]);
     (ssp "SubmodelRepositoryServiceSpecification/SSP-002",
      [(no_prefix, GetAllSubmodels); (no_prefix, GetAllSubmodelsMetadata); (no_prefix, GetAllSubmodelsValue);
       (no_prefix, GetAllSubmodelsReference); (no_prefix, GetAllSubmodelsPath)]
      ++ by_id_suites no_prefix setup_for_submodel
      ++ elements_suites submodel_repo_submodel_prefix
      ++ [(no_prefix, GenerateSerialization); (no_prefix, GetDescription)]);
     (ssp "AssetAdministrationShellServiceSpecification/SSP-002",
      [(aas_prefix, GetShell); (aas_prefix, GetShellReference)]
      ++ shell_suites aas_prefix
      ++ by_id_suites aas_prefix setup_for_aas
      ++ elements_suites aas_submodel_prefix
      ++ [(aas_prefix, GenerateSerialization); (no_prefix, GetDescription)]);
     (ssp "SubmodelServiceSpecification/SSP-002",
      [(submodel_prefix, GetSubmodel); (submodel_prefix, GetSubmodelMeta); (submodel_prefix, GetSubmodelValue);
       (submodel_prefix, GetSubmodelReference); (submodel_prefix, GetSubmodelPath)]
      ++ elements_suites submodel_prefix
      ++ [(submodel_prefix, GenerateSerialization); (no_prefix, GetDescription)])].

  (** aas_test_engines/api.py:20-24 *)
  Definition check_api (c : client) (conf : config) : prog (result * matrix) :=
    let version := match cf_version conf with Some (x :: v) => x :: v | _ => lit "3.0" end in
    if str_eqb version (lit "3.0") then execute_tests available_suites c conf
    else PRaise AasTestToolsException [].
End Messages.
