(** aas_test_engines/test_cases/v3_0/adapter.py: uniform access to JSON values and XML elements. *)
From Coq Require Import String List NArith Bool.
From Verif Require Import PyStr PyBase PyXml PyVal.
Import ListNotations.
Local Open Scope list_scope.

(** adapter.py:5-15 [AdapterPath]: keys of objects and indices of lists *)
Inductive step := SKey (k : str) | SIdx (n : nat).
Definition path := list step.
Definition step_text (s : step) : str := match s with SKey k => k | SIdx n => dec_of_nat n end.
Definition path_text (p : path) : str := lit "/" ++ join (lit "/") (List.map step_text p).

(** The result of a method of an adapter: a value, an AdapterException with its message
    (adapter.py:18), or another exception. *)
Inductive adres (A : Type) := AOk (a : A) | ABad (msg : str) | ACrash (e : exn).
Arguments AOk {A}. Arguments ABad {A}. Arguments ACrash {A}.
Definition abind {A B} (x : adres A) (f : A -> adres B) : adres B :=
  match x with AOk a => f a | ABad m => ABad m | ACrash e => ACrash e end.

(** What [get_model_type] returns: the string, if it is one, and its str(). *)
Record model_type := ModelType { mt_name : option str; mt_text : str }.

(** adapter.py:22-39.  The paths of the children are those of the parent extended by the key
    or index; they are added by the parser. *)
Record adapter (V : Type) := Adapter {
  ad_object : V -> adres (list (str * V));
  ad_list : bool -> V -> adres (list V);
  ad_string : V -> adres str;
  ad_bool : V -> adres bool;
  ad_model_type : V -> adres model_type
}.
Arguments Adapter {V}. Arguments ad_object {V}. Arguments ad_list {V}. Arguments ad_string {V}.
Arguments ad_bool {V}. Arguments ad_model_type {V}.

(** * JSON *)
Section Json.
  (** [str(v)] for values other than strings; it only occurs in messages *)
  Variable show : json -> str.
  Definition py_str (v : json) : str := match v with JStr s => s | _ => show v end.

  (** adapter.py:48-51 *)
  Definition json_object (v : json) : adres (list (str * json)) :=
    match v with
    | JObj kvs => AOk (filter (fun kv => negb (str_eqb (fst kv) (lit "modelType"))) kvs)
    | _ => ABad (lit "Cannot convert " ++ py_str v ++ lit " to object")
    end.
  (** adapter.py:53-58 *)
  Definition json_list (allow_empty : bool) (v : json) : adres (list json) :=
    match v with
    | JArr l => if Nat.eqb (length l) 0 && negb allow_empty then ABad (lit "Empty array not allowed") else AOk l
    | _ => ABad (lit "Cannot convert " ++ py_str v ++ lit " to list")
    end.
  (** adapter.py:60-63 *)
  Definition json_string (v : json) : adres str :=
    match v with
    | JStr s => AOk s
    | _ => ABad (lit "Cannot convert " ++ py_str v ++ lit " to string")
    end.
  (** adapter.py:65-68 *)
  Definition json_bool (v : json) : adres bool :=
    match v with
    | JBool b => AOk b
    | _ => ABad (lit "Cannot convert " ++ py_str v ++ lit " to bool")
    end.
  (** adapter.py:70-76 *)
  Definition json_model_type (v : json) : adres model_type :=
    match v with
    | JObj kvs =>
        match lookup (lit "modelType") kvs with
        | Some t => AOk (ModelType (match t with JStr s => Some s | _ => None end) (py_str t))
        | None => ABad (lit "Missing 'modelType'")
        end
    | _ => ABad (lit "Expected an object, got " ++ py_str v)
    end.
  Definition json_adapter : adapter json :=
    Adapter json_object json_list json_string json_bool json_model_type.
End Json.

(** * XML *)

(** adapter.py:82 *)
Definition xml_ns : str := lit "{https://admin-shell.io/aas/3/0}".
Definition local_tag (e : xml) : str := skipn (length xml_ns) (x_tag e).

(** adapter.py:85-88 *)
Definition single_child (e : xml) : adres xml :=
  match x_children e with
  | [c] => AOk c
  | _ => ABad (lit "DataSpecificationContent must have exactly one child")
  end.
(** adapter.py:91-93; an element is true if it has children (CPython [Element.__bool__]) *)
Definition assert_no_children (e : xml) : adres unit :=
  match x_children e with
  | [] => AOk tt
  | c :: _ => match x_children c with [] => AOk tt | _ :: _ => ABad (lit "No child elements allowed") end
  end.
(** adapter.py:96-100 *)
Definition assert_no_text (e : xml) : adres unit :=
  match x_text e with
  | None => AOk tt
  | Some t => match strip t with [] => AOk tt | _ :: _ => ABad (lit "No inline text allowed") end
  end.

(** [c.upper()].  Exact for ASCII and for the ten other characters whose upper case consists of
    ASCII characters (checked over all code points of CPython 3.11).  The remaining characters
    are mapped to themselves: neither they nor their upper case are ASCII, so that comparisons
    with the names of classes, all ASCII, are not affected. *)
Definition upper_special : list (N * str) :=
  [(223, lit "SS"); (305, lit "I"); (383, lit "S"); (64256, lit "FF"); (64257, lit "FI"); (64258, lit "FL");
   (64259, lit "FFI"); (64260, lit "FFL"); (64261, lit "ST"); (64262, lit "ST")]%N.
Definition upper_char (c : N) : str :=
  match find (fun p => N.eqb (fst p) c) upper_special with
  | Some p => snd p
  | None => [upper_ascii c]
  end.
(** adapter.py:103-106; the IndexError of an empty string *)
Definition tag_model_type (e : xml) : adres str :=
  match local_tag e with
  | [] => ACrash IndexError
  | c :: r => AOk (upper_char c ++ r)
  end.

Definition is_content (e : xml) : bool := endswith (lit "dataSpecificationContent") (x_tag e).
Definition content_of (e : xml) : adres xml := if is_content e then single_child e else AOk e.

(** adapter.py:153-159 *)
Definition xml_model_type_name (e : xml) : adres str := abind (content_of e) tag_model_type.
Definition xml_model_type (e : xml) : adres model_type :=
  abind (xml_model_type_name e) (fun s => AOk (ModelType (Some s) s)).

(** adapter.py:127-135: the loop over the children; later children with the same tag replace
    earlier ones *)
Fixpoint xml_members (e : xml) (l : list xml) (result : list (str * xml)) : adres (list (str * xml)) :=
  match l with
  | [] => AOk result
  | c :: r =>
      if negb (startswith xml_ns (x_tag c)) then ABad (lit "invalid namespace, got " ++ x_tag c)
      else
        let tag := local_tag c in
        abind (xml_model_type_name e) (fun mt =>
        if str_eqb mt (lit "OperationVariable") && str_eqb tag (lit "value")
        then abind (single_child c) (fun x => xml_members e r (assign tag x result))
        else xml_members e r (assign tag c result))
  end.
(** adapter.py:115-136 *)
Definition xml_object (e : xml) : adres (list (str * xml)) :=
  if negb (startswith xml_ns (x_tag e)) then ABad (lit "invalid namespace, got '" ++ x_tag e ++ lit "'")
  else abind (assert_no_text e) (fun _ =>
       abind (content_of e) (fun data => xml_members e (x_children data) [])).
(** adapter.py:138-144 *)
Definition xml_list (allow_empty : bool) (e : xml) : adres (list xml) :=
  match x_children e with
  | [] => if allow_empty then AOk [] else ABad (lit "Empty list not allowed")
  | l => AOk l
  end.
(** adapter.py:146-148 *)
Definition xml_string (e : xml) : adres str :=
  abind (assert_no_children e) (fun _ => AOk (match x_text e with Some t => t | None => [] end)).
(** adapter.py:150-152 *)
Definition xml_bool (e : xml) : adres bool :=
  abind (assert_no_children e) (fun _ =>
  AOk (match x_text e with Some t => str_eqb t (lit "true") | None => false end)).
Definition xml_adapter : adapter xml := Adapter xml_object xml_list xml_string xml_bool xml_model_type.
