(** aas_test_engines/test_cases/v3_0/interfaces/shared.py and generate.py: the parts that the
    test suites of a server share. *)
From Coq Require Import String List NArith ZArith Bool PeanoNat.
From Verif Require Import PyStr PyBase PyVal Codec ResultModel ContextModel HttpModel ConfigModel ReflectModel MetaModel
  AdapterModel ParseModel ConstraintModel ProgModel.
Import ListNotations.
Local Open Scope list_scope.

(** * The classes of the interfaces *)

Definition M_shared : str := lit "aas_test_engines.test_cases.v3_0.interfaces.shared".
Definition M_aas : str := lit "aas_test_engines.test_cases.v3_0.interfaces.aas".
Definition M_aas_repo : str := lit "aas_test_engines.test_cases.v3_0.interfaces.aas_repo".
Definition M_submodel_repo : str := lit "aas_test_engines.test_cases.v3_0.interfaces.submodel_repo".
Definition M_submodel : str := lit "aas_test_engines.test_cases.v3_0.interfaces.submodel".
Definition M_description : str := lit "aas_test_engines.test_cases.v3_0.interfaces.description".

(** Positions behind the classes of model.py *)
Definition k_api (n : nat) : nat := length model_classes + n.
Definition k_Base64String : nat := k_api 0.
Definition k_MessageType : nat := k_api 1.
Definition k_Message : nat := k_api 2.
Definition k_ErrorResult : nat := k_api 3.
Definition k_PagingMetadata : nat := k_api 4.
Definition k_PagedResult : nat := k_api 5.
Definition k_AssetId : nat := k_api 6.
Definition k_Level : nat := k_api 7.
Definition k_Extent : nat := k_api 8.
Definition k_AasSubmodelReferences : nat := k_api 9.
Definition k_AllShells : nat := k_api 10.
Definition k_AllShellsReference : nat := k_api 11.
Definition k_AllSubmodelReferences : nat := k_api 12.
Definition k_AllSubmodels : nat := k_api 13.
Definition k_AllSubmodelsValue : nat := k_api 14.
Definition k_AllSubmodelsPath : nat := k_api 15.
Definition k_AllElements : nat := k_api 16.
Definition k_AllElementsValueOnly : nat := k_api 17.
Definition k_UnconstrainedReference : nat := k_api 18.
Definition k_AllElementsReference : nat := k_api 19.
Definition k_AllElementsPath : nat := k_api 20.
Definition k_ServiceDescription : nat := k_api 21.

Definition optional (n : str) (a : ann) : field := Field n (AOpt a) None None.
Definition required (n : str) (a : ann) : field := Field n a None None.
(** a response with a list of results, derived from [PagedResult] *)
Definition paged (m n : str) (item : ann) : classdecl :=
  Class m n [k_PagedResult] (KData [required (lit "result") (AList item)]) false false.

Definition interface_classes : list classdecl :=
  [(* shared.py:40-41 *)
   Class M_shared (lit "Base64String") [] (KSfv (Sfv None None None None true)) false false;
   (* shared.py:98-103 *)
   Class M_shared (lit "MessageType") []
     (KEnum (List.map (fun s => (s, s)) [lit "Undefined"; lit "Info"; lit "Warning"; lit "Error"; lit "Exception"])) false false;
   (* shared.py:106-112 *)
   Class M_shared (lit "Message") []
     (KData [optional (lit "code") AStr; optional (lit "correlation_id") AStr;
             optional (lit "message_type") (ACls k_MessageType); optional (lit "text") AStr;
             optional (lit "timestamp") AStr]) false false;
   (* shared.py:115-117 *)
   Class M_shared (lit "ErrorResult") [] (KData [optional (lit "messages") (AList (ACls k_Message))]) false false;
   (* shared.py:123-125 *)
   Class M_shared (lit "PagingMetadata") [] (KData [optional (lit "cursor") AStr]) false false;
   (* shared.py:128-130 *)
   Class M_shared (lit "PagedResult") []
     (KData [Field (lit "paging_metadata") (ACls k_PagingMetadata) None (Some (lit "paging_metadata"))]) false false;
   (* shared.py:133-136 *)
   Class M_shared (lit "AssetId") [] (KData [required (lit "name") AStr; required (lit "value") AStr]) false false;
   (* shared.py:185-187 *)
   Class M_shared (lit "Level") [] (KEnum [(lit "Core", lit "core"); (lit "Deep", lit "deep")]) false false;
   (* shared.py:190-192 *)
   Class M_shared (lit "Extent") []
     (KEnum [(lit "WithBlobValue", lit "withBlobValue"); (lit "WithoutBlobValue", lit "withoutBlobValue")]) false false;
   (* aas.py:24-26 *)
   paged M_aas (lit "GetAllSubmodelReferencesResponse") (ACls k_Reference);
   (* aas_repo.py:19-21, 24-26 *)
   paged M_aas_repo (lit "GetAllShellsResponse") (ACls k_AssetAdministrationShell);
   paged M_aas_repo (lit "GetAllShellsReferenceResponse") (ACls k_Reference);
   (* submodel_repo.py:25-27, 39-41, 47-49, 55-57 *)
   paged M_submodel_repo (lit "GetAllSubmodelReferencesResponse") (ACls k_Reference);
   paged M_submodel_repo (lit "GetAllSubmodelsResponse") (ACls k_Submodel);
   paged M_submodel_repo (lit "GetAllSubmodelsValueResponse") AAny;
   paged M_submodel_repo (lit "GetAllSubmodelsPathResponse") AStr;
   (* submodel.py:49-51, 57-59 *)
   paged M_submodel (lit "GetAllSubmodelElementsResponse") (ACls k_SubmodelElement);
   paged M_submodel (lit "GetAllSubmodelElementsValueOnlyResponse") AAny;
   (* submodel.py:65-73 *)
   Class M_submodel (lit "UnconstrainedReference") []
     (KData [required (lit "type") (ACls k_ReferenceType);
             optional (lit "referred_semantic_id") (AFwd (lit "UnconstrainedReference"));
             required (lit "keys") (AList (ACls k_Key))]) false false;
   (* submodel.py:79-81, 87-89 *)
   paged M_submodel (lit "GetAllSubmodelElementsReferenceResponse") (ACls k_UnconstrainedReference);
   paged M_submodel (lit "GetAllSubmodelElementsPathResponse") AStr;
   (* description.py:15-17 *)
   Class M_description (lit "ServiceDescription") [] (KData [required (lit "profiles") (AList AStr)]) false false].

Definition api_classes : list classdecl := model_classes ++ interface_classes.
(** globals() of the modules in which [reflect] is called, as far as names are used in forward
    references *)
Definition api_globals : list (str * nat) :=
  model_globals ++ [(lit "UnconstrainedReference", k_UnconstrainedReference)].

(** * Values of arguments *)
Inductive value :=
| VlNone
| VlInt (z : Z)
| VlStr (s : str)
| VlBool (b : bool)
| VlMember (cls name value : str)     (* a member of an enumeration *)
| VlDummy (s : str)                   (* generate.py:15-25 DummyEnumValue *)
| VlBase64 (raw : str)                (* shared.py:40-41 *)
| VlAssetId (name value : str).       (* shared.py:133-140 *)

(** [json.dumps] of a text (CPython json/encoder.py:19-30, 37-57, ensure_ascii) *)
Definition hex_digit (n : N) : N := (if N.ltb n 10 then 48 + n else 87 + n)%N.
Definition hex4 (n : N) : str :=
  List.map hex_digit [N.modulo (N.div n 4096) 16; N.modulo (N.div n 256) 16; N.modulo (N.div n 16) 16; N.modulo n 16]%N.
Definition json_char (c : N) : str :=
  (if N.eqb c 34 then [92; 34]
   else if N.eqb c 92 then [92; 92]
   else if N.eqb c 10 then [92; 110]
   else if N.eqb c 13 then [92; 114]
   else if N.eqb c 9 then [92; 116]
   else if N.eqb c 12 then [92; 102]
   else if N.eqb c 8 then [92; 98]
   else if N.leb 32 c && N.leb c 126 then [c]
   else if N.ltb c 65536 then 92 :: 117 :: hex4 c
   else let n := c - 65536 in
        (92 :: 117 :: hex4 (55296 + N.div n 1024)) ++ (92 :: 117 :: hex4 (56320 + N.modulo n 1024)))%N.
Definition json_text (s : str) : str := [34%N] ++ flat_map json_char s ++ [34%N].

(** [str(v)]: http.py (urlencode) and the f-strings for paths; reflect.py:90-94, shared.py:138-140,
    generate.py:23-24 *)
Definition value_text (v : value) : outcome str :=
  match v with
  | VlNone => Val (lit "None")
  | VlInt z => Val (str_of_Z z)
  | VlStr s => Val s
  | VlBool b => Val (if b then lit "True" else lit "False")
  | VlMember c n _ => Val (c ++ lit "." ++ n)
  | VlDummy s => Val s
  | VlBase64 raw => base64_urlsafe raw
  | VlAssetId n x => base64_urlsafe (lit "{" ++ json_text (lit "name") ++ lit ": " ++ json_text n ++ lit ", "
                                     ++ json_text (lit "value") ++ lit ": " ++ json_text x ++ lit "}")
  end.
(** the value of a query parameter; None is left out by [make_url] *)
Definition query_value (v : value) : outcome qvalue :=
  match v with
  | VlNone => Val QNone
  | VlInt z => Val (QInt z)
  | VlBool b => Val (QBool b)
  | _ => let* s := value_text v in Val (QStr s)
  end.
(** shared.py:195-198 *)
Definition unpack_enum (v : value) : outcome value :=
  match v with
  | VlNone => Val VlNone
  | VlMember _ _ x => Val (VlStr x)
  | VlDummy s => Val (VlStr s)
  | _ => Raise AttributeError
  end.

Definition args := list (str * value).
Definition argument (a : args) (n : str) : value := match lookup n a with Some v => v | None => VlNone end.

(** * Requests *)

(** Path and query parameters of an operation: the path consists of texts and arguments; a
    query parameter has a name, the argument that gives its value, and the information whether
    [unpack_enum] is applied. *)
Inductive part := Text (s : str) | Arg (n : str).
Record endpoint := Endpoint { e_path : list part; e_query : list (str * str * bool) }.

Fixpoint path_of (ps : list part) (a : args) : outcome str :=
  match ps with
  | [] => Val []
  | Text s :: r => let* t := path_of r a in Val (s ++ t)
  | Arg n :: r => let* s := value_text (argument a n) in let* t := path_of r a in Val (s ++ t)
  end.
Fixpoint query_of (qs : list (str * str * bool)) (a : args) : outcome (list (str * qvalue)) :=
  match qs with
  | [] => Val []
  | (q, n, enum) :: r =>
      let* v := if enum then unpack_enum (argument a n) else Val (argument a n) in
      let* x := query_value v in
      let* t := query_of r a in
      Val ((q, x) :: t)
  end.
(** [Request(path=..., query_parameters=...)] with the headers that are set before sending *)
Definition request_of (e : endpoint) (hs : list (str * str)) (a : args) : outcome request :=
  let* p := path_of (e_path e) a in
  let* q := query_of (e_query e) a in
  Val (Request p (lit "get") None q hs).

(** shared.py:44-51 *)
Definition shorten (content : option str) : str :=
  match content with
  | None => lit "<binary-data>"
  | Some s => if Nat.ltb 300 (length s) then firstn 300 s ++ lit "..." else s
  end.

(** shared.py:65-70; status and decoded content of the response *)
Definition invoke (c : client) (r : request) : prog (Z * decoded) :=
  let! u := lift (make_url r) in
  say (lit "Invoke " ++ List.concat (prefixes c) ++ u);;
  let! s := lift (send c r) in
  PSend s (fun x =>
    match x with
    | Failed e t => PRaise e t
    | Response status content data =>
        say (lit "Response: (" ++ str_of_Z status ++ lit "): " ++ shorten content);;
        PRet (status, data)
    end).

(** [type(data)] for decoded JSON values *)
Definition type_text (j : json) : str :=
  match j with
  | JNull => lit "<class 'NoneType'>" | JBool _ => lit "<class 'bool'>" | JInt _ => lit "<class 'int'>"
  | JFloat _ => lit "<class 'float'>" | JStr _ => lit "<class 'str'>" | JArr _ => lit "<class 'list'>"
  | JObj _ => lit "<class 'dict'>"
  end.
(** shared.py:54-62 *)
Definition extract_json (d : decoded) : prog json :=
  match d with
  | NoJson t => fail_with (lit "Cannot decode as JSON: " ++ t)
  | Json (JObj kvs) => PRet (JObj kvs)
  | Json (JArr l) => PRet (JArr l)
  | Json j => fail_with (lit "Expected JSON, got " ++ type_text j)
  end.

(** expected status codes: {200} and range(400, 500) *)
Inductive expected := Success | ClientError.
Definition status_in (s : Z) (e : expected) : bool :=
  match e with Success => Z.eqb s 200 | ClientError => Z.leb 400 s && Z.ltb s 500 end.

Section Messages.
  (** Texts of values in messages, see AdapterModel.v and ParseModel.v *)
  Variable show : json -> str.
  Variable repr : str -> str.

  (** parse.py:222-223 [parse_and_check_json] with the description of the type [a] *)
  Definition check_body (a : ann) (v : json) : outcome (result * pyval) :=
    let* (i, t) := reflect api_classes api_globals a in
    parse_and_check check_model
      (parse json (json_adapter show) api_classes t repr model_post_parse (S (json_depth v)) i [] v []).

  (** shared.py:73-98; the types are given by their annotations *)
  Definition invoke_and_decode (c : client) (e : endpoint) (a : args) (t : ann) (expected : expected) : prog pyval :=
    let! r := lift (request_of e [(lit "content-type", lit "application/json")] a) in
    let! (status, d) := invoke c r in
    let unexpected := lit "Got unexpected status code " ++ str_of_Z status in
    if Z.leb 500 status then PAbort (new_result unexpected CRITICAL)
    else if negb (status_in status expected) then PAbort (new_result unexpected ERROR)
    else
      let! j := extract_json d in
      let! (result, parsed) := lift (check_body t j) in
      if ok result then pwrite result;; PRet parsed else PAbort result.

  (** operations whose response is not decoded or not checked: [invoke(...).content] and
      [extract_json(invoke(...))] *)
  Definition invoke_content (c : client) (e : endpoint) (a : args) : prog pyval :=
    let! r := lift (request_of e [] a) in
    let! _ := invoke c r in PRet VAny.
  Definition invoke_json (c : client) (e : endpoint) (a : args) : prog pyval :=
    let! r := lift (request_of e [] a) in
    let! (_, d) := invoke c r in
    let! _ := extract_json d in PRet VAny.

  (** shared.py:33-37 *)
  Definition assert_ (b : bool) (m : str) (l : level) : prog unit :=
    if b then say (m ++ lit ": OK") else PAbort (new_result (m ++ lit ": Fail") l).
End Messages.

(** * Test suites *)

(** The attributes of the instance of a test suite (shared.py:143-149) that [setup] sets; they
    have a value when the tests are executed. *)
Record instance := Instance {
  i_client : client;
  i_profile : str;
  i_valid_arguments : args;
  i_cursor : option str;
  i_valid_id : str;
  i_valid_id_short : str;
  i_asset_id : value;
  i_valid_submod_id : str;
  i_paths : list (str * list str)       (* a defaultdict(list) *)
}.
Definition new_instance (c : client) (profile : str) : instance :=
  Instance c profile [] None [] [] VlNone [] [].

(** Arguments of [invoke_success] and [invoke_error] with their annotations; those with an
    optional type have the default None. *)
Definition signature := list (str * ann).
Definition has_default (a : ann) : bool := match a with AOpt _ => true | _ => false end.
(** the TypeErrors of a call with keyword arguments *)
Definition accepts (s : signature) (a : args) : bool :=
  forallb (fun x => str_in (fst x) (List.map fst s)) a
  && forallb (fun p => has_default (snd p) || str_in (fst p) (List.map fst a)) s.
Definition call {X} (s : signature) (a : args) (body : prog X) : prog X :=
  if accepts s a then body else PRaise TypeError [].

Record suite := Suite {
  su_operation : str;
  su_signature : signature;
  su_success_type : ann;                               (* declared result of invoke_success *)
  su_invoke_error : instance -> args -> prog pyval;
  su_setup : instance -> prog instance;
  su_tests : list (str * (instance -> prog unit))      (* titles and bodies in the order of execution *)
}.

(** ** generate.py *)

(** reflect.py:29-38, 349-360 [reflect_function]; the argument types are given as far as
    [generate_invalid_values] distinguishes them *)
Record farg := FArg { fa_name : str; fa_type : ann; fa_required : bool }.
Fixpoint reflect_args (s : signature) (st : symbols) : outcome (list farg) :=
  match s with
  | [] => Val []
  | (n, a) :: r =>
      let* (req, t) := unwrap_optional a in
      let* st := reflect_fuel api_classes api_globals (reflect_bound api_classes t) t st in
      let* l := reflect_args r st in
      Val (FArg n t req :: l)
  end.
Definition reflect_function (s : signature) (ret : ann) : outcome (list farg) :=
  let* st := reflect_fuel api_classes api_globals (reflect_bound api_classes ret) ret [] in
  reflect_args s st.
(** reflect.py:156-163, 170-172: names and optionality are compared *)
Definition farg_eqb (a b : farg) : bool := str_eqb (fa_name a) (fa_name b) && Bool.eqb (fa_required a) (fa_required b).
Fixpoint fargs_eqb (l m : list farg) : bool :=
  match l, m with
  | [], [] => true
  | a :: l', b :: m' => farg_eqb a b && fargs_eqb l' m'
  | _, _ => false
  end.

(** generate.py:28 *)
Definition invalid_base64url : str := lit "invalid-base64url=====".

(** generate.py:36-62; a type is described by its class: [NumberType] for int, and so on *)
Definition generate_invalid_values (name : str) (t : ann) : outcome (list value) :=
  match t with
  | AInt => if str_eqb name (lit "limit") then Val [VlInt (-1)] else Raise NotImplementedError
  | AStr => Val []
  | ABool => Val [VlStr (lit "invalid-bool")]
  | ACls c =>
      match kind_of api_classes c with
      | KSfv f => if s_base64 f then Val [VlStr invalid_base64url] else Val []
      | KEnum [] => Raise ValueError           (* max() arg is an empty sequence *)
      | KEnum ms => Val [VlDummy (repeat 35%N (list_max (List.map (fun m => length (snd m)) ms) + 1))]
      | _ => if Nat.eqb c k_AssetId then Val [VlStr invalid_base64url] else Val []
      end
  | _ => Raise NotImplementedError
  end.

(** generate.py:65-78 *)
Fixpoint generate_for (invoke_error : args -> prog pyval) (valid : args) (name : str) (vs : list value) : prog unit :=
  match vs with
  | [] => PRet tt
  | v :: r =>
      let! text := lift (value_text v) in
      let! _ := block (lit "Set " ++ name ++ lit " = '" ++ text ++ lit "'")
                  (rename TypeError NotImplementedError (invoke_error (assign name v valid))) in
      generate_for invoke_error valid name r
  end.
Fixpoint generate_calls (invoke_error : args -> prog pyval) (valid : args) (l : list farg) : prog unit :=
  match l with
  | [] => PRet tt
  | a :: r =>
      let! vs := lift (generate_invalid_values (fa_name a) (fa_type a)) in
      generate_for invoke_error valid (fa_name a) vs;;
      generate_calls invoke_error valid r
  end.

(** * api.py *)

(** fences.core.util.ConfusionMatrix: four counters that are added by [+=] *)
Record matrix := Matrix { invalid_rejected : nat; invalid_accepted : nat; valid_accepted : nat; valid_rejected : nat }.
Definition zero_matrix : matrix := Matrix 0 0 0 0.
Definition add_matrix (a b : matrix) : matrix :=
  Matrix (invalid_rejected a + invalid_rejected b) (invalid_accepted a + invalid_accepted b)
         (valid_accepted a + valid_accepted b) (valid_rejected a + valid_rejected b).

(** api.py:187-194.  [invoke_success] and [invoke_error] have the same arguments; the result of
    [invoke_error] is declared as ErrorResult. *)
Definition execute_syntactic_tests (s : suite) (i : instance) : prog unit :=
  let! f := lift (reflect_function (su_signature s) (ACls k_ErrorResult)) in
  let! g := lift (reflect_function (su_signature s) (su_success_type s)) in
  if fargs_eqb f g then generate_calls (su_invoke_error s i) (i_valid_arguments i) f
  else PRaise AssertionError [].

(** api.py:197-202 *)
Fixpoint execute_tests_of (ts : list (str * (instance -> prog unit))) (i : instance) : prog unit :=
  match ts with
  | [] => PRet tt
  | (title, body) :: r => let! _ := block title (body i) in execute_tests_of r i
  end.

Definition count_ok (l : list result) : nat := length (filter ok l).

(** api.py:205-215 *)
Definition execute_suite (s : suite) (i : instance) : prog matrix :=
  let! (_, n) := block (lit "Negative Tests") (execute_syntactic_tests s i) in
  let! (_, p) := block (lit "Positive Tests") (execute_tests_of (su_tests s) i) in
  PRet (Matrix (count_ok (r_subs n)) (length (r_subs n) - count_ok (r_subs n))
               (count_ok (r_subs p)) (length (r_subs p) - count_ok (r_subs p))).

(** config.py:35-40 *)
Record config := Config { cf_suite : str; cf_version : option str; cf_dry : bool; cf_filter : option test_filter }.

(** api.py:173-184 *)
Definition check_server (dry : bool) (c : client) : prog bool :=
  let! (o, _) := block (lit "Trying to reach " ++ host c)
    (if dry then
       pwrite (new_result (lit "Skipped due to dry run") WARNING);; PRet true
     else
       let! s := lift (send c (Request [] (lit "get") None [] [])) in
       PSend s (fun x =>
         match x with
         | Response _ _ _ => say (lit "OK");; PRet true
         | Failed RequestException t =>
             pwrite (new_result (lit "Failed to reach: " ++ t) CRITICAL);; PRet false
         | Failed e t => PRaise e t
         end)) in
  PRet (match o with Some b => b | None => false end).   (* the block does not abort *)

Definition selected (f : option test_filter) (n : str) : bool :=
  match f with Some f => selects f n | None => true end.

(** a prefix provider and a test suite *)
Definition entry := ((client -> prog str) * suite)%type.

(** api.py:241-254: one operation; the matrix afterwards *)
Definition check_operation (dry : bool) (c : client) (profile : str) (e : entry) (mat : matrix) : prog matrix :=
  let '(prefix_provider, s) := e in
  let! (o, _) := block (lit "Checking " ++ su_operation s)
    (if dry then PRet mat
     else
       let! (i, setup) := block (lit "Setup")
         (let! prefix := prefix_provider c in
          su_setup s (new_instance (descend c prefix) profile)) in
       if ok setup then
         match i with
         | Some i => let! m := execute_suite s i in PRet (add_matrix mat m)
         | None => PRaise UnboundLocalError []   (* does not occur: aborts during the setup are not ok *)
         end
       else PRet mat) in
  PRet (match o with Some m => m | None => mat end).      (* the block does not abort *)

(** api.py:236-254 *)
Fixpoint check_operations (dry : bool) (f : option test_filter) (c : client) (profile : str) (l : list entry) (mat : matrix)
  : prog matrix :=
  match l with
  | [] => PRet mat
  | e :: r =>
      if selected f (su_operation (snd e)) then
        let! mat := check_operation dry c profile e mat in
        check_operations dry f c profile r mat
      else check_operations dry f c profile r mat
  end.

(** api.py:256-258 *)
Definition summary (m : matrix) : prog unit :=
  let! _ := block (lit "Summary:")
    (say (lit "Negative tests passed: " ++ dec_of_nat (invalid_rejected m) ++ lit " / "
          ++ dec_of_nat (invalid_accepted m + invalid_rejected m));;
     say (lit "Positive tests passed: " ++ dec_of_nat (valid_accepted m) ++ lit " / "
          ++ dec_of_nat (valid_accepted m + valid_rejected m))) in
  PRet tt.

(** api.py:218-259, with the dictionary of suites as a parameter *)
Definition execute_tests (suites : list (str * list entry)) (c : client) (conf : config) : prog (result * matrix) :=
  match lookup (cf_suite conf) suites with
  | None => PRaise AasTestToolsException []
  | Some l =>
      let! (o, root) := block (lit "Checking compliance to " ++ cf_suite conf)
        (let! reached := check_server (cf_dry conf) c in
         if reached then
           let! mat := check_operations (cf_dry conf) (cf_filter conf) c (cf_suite conf) l zero_matrix in
           summary mat;; PRet mat
         else PRet zero_matrix) in
      PRet (root, match o with Some m => m | None => zero_matrix end)   (* the block does not abort *)
  end.
