(** aas_test_engines/file.py.  The two document checkers ([json_to_obj], [xml_to_obj]) are
    parameters: they take the parsed document and the model type. *)
From Coq Require Import List NArith ZArith Bool.
From Coq Require Import String. Open Scope list_scope.
From Verif Require Import PyStr PyBase PyXml ResultModel OpcModel.
Import ListNotations.

(** file.py:54-62 *)
Definition TYPE_AASX_ORIGIN := lit "http://admin-shell.io/aasx/relationships/aasx-origin".
Definition TYPE_AASX_SPEC := lit "http://admin-shell.io/aasx/relationships/aas-spec".
Definition TYPE_AASX_SUPPL := lit "http://admin-shell.io/aasx/relationships/aas-suppl".
Definition DEPRECATED_TYPES : list (str * str) :=
  [ (lit "http://www.admin-shell.io/aasx/relationships/aasx-origin", TYPE_AASX_ORIGIN);
    (lit "http://www.admin-shell.io/aasx/relationships/aas-spec", TYPE_AASX_SPEC);
    (lit "http://www.admin-shell.io/aasx/relationships/aas-suppl", TYPE_AASX_SUPPL) ].

Definition environment := lit "Environment".

Section Checkers.
  Variable json_to_obj : json -> str -> outcome result.
  Variable xml_to_obj : xml -> str -> outcome result.

  (** file.py:26-28 (the version is ignored) *)
  Definition check_json_data (data : json) (model_type : str) : outcome result := json_to_obj data model_type.

  (** file.py:31-36 *)
  Definition check_json_file (file : parsed json) (model_type : str) : outcome result :=
    match file with
    | PBad m => Val (new_result (lit "Invalid JSON: " ++ m) ERROR)
    | PCrash e => Raise e
    | POk data => check_json_data data model_type
    end.

  (** file.py:39-43 *)
  Definition check_xml_data (data : xml) (model_type : str) : outcome result := xml_to_obj data model_type.

  (** file.py:46-51: the model type is not passed on *)
  Definition check_xml_file (file : parsed xml) (model_type : str) : outcome result :=
    match file with
    | PBad m => Val (new_result (lit "Invalid xml: " ++ m) ERROR)
    | PCrash e => Raise e
    | POk data => check_xml_data data environment
    end.

  (** file.py:81-91: one file; None is the KeyError of the try block *)
  Definition check_spec (z : archive) (target : str) : outcome (option result) :=
    match zopen z target with
    | None => Val None
    | Some c =>
        match (if endswith (lit ".xml") target then check_xml_file (as_xml c) environment
               else if endswith (lit ".json") target then check_json_file (as_json c) environment
               else Val (new_result (lit "Unknown filetype") WARNING)) with
        | Val r => Val (Some (append (new_result (lit "Checking " ++ target) INFO) r))
        | Raise KeyError => Val None
        | Raise e => Raise e
        end
    end.

  (** file.py:79-92; [inr] is the early return *)
  Fixpoint check_specs (z : archive) (specs : list rel) (res : result) : outcome (result + result) :=
    match specs with
    | [] => Val (inl res)
    | s :: r =>
        let* o := check_spec z (rel_target s) in
        match o with
        | None => Val (inr (new_result (lit "File does not exist") INFO))
        | Some x => check_specs z r (append res x)
        end
    end.

  (** file.py:75-92 *)
  Fixpoint check_origins (z : archive) (origins : list rel) (res : result) : outcome result :=
    match origins with
    | [] => Val res
    | o :: r =>
        let specs := by_type (rel_subs o) TYPE_AASX_SPEC in
        let res1 := match specs with
                    | [] => append res (new_result (lit "No aas spec found") WARNING)
                    | _ => res
                    end in
        let* x := check_specs z specs res1 in
        match x with
        | inr early => Val early
        | inl res2 => check_origins z r res2
        end
    end.

  (** file.py:65-93 *)
  Definition check_files (z : archive) (root_rels : list rel) : outcome result :=
    let result := new_result (lit "Checking files") INFO in
    let origins := by_type root_rels TYPE_AASX_ORIGIN in
    let res := if Nat.eqb (List.length origins) 1 then result
               else append result (new_result (lit "Expected exactly one aas origin, but found "
                                     ++ dec_of_nat (List.length origins)) WARNING) in
    check_origins z origins res.

  (** file.py:96-107 *)
  Definition check_aasx_data (z : archive) : outcome result :=
    let result := new_result (lit "Checking AASX package") INFO in
    let* x := read_opc DEPRECATED_TYPES z result in
    let '(res, rels) := x in
    if negb (ok res) then Val res
    else
      let* f := check_files z rels in
      Val (append res f).

  (** file.py:110-116; [PBad] is BadZipFile *)
  Definition check_aasx_file (file : parsed archive) : outcome result :=
    match file with
    | PBad m => Val (new_result (lit "Cannot read: " ++ m) ERROR)
    | PCrash e => Raise e
    | POk z => check_aasx_data z
    end.
End Checkers.
