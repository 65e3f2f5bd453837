(** aas_test_engines/http.py *)
From Coq Require Import List NArith ZArith Bool.
From Coq Require Import String. Open Scope list_scope.
From Verif Require Import PyStr PyBase Codec.
Import ListNotations.

(** values of query parameters: None, strings, integers and booleans *)
Inductive qvalue := QNone | QStr (s : str) | QInt (z : Z) | QBool (b : bool).
(** [str(v)] *)
Definition str_of_Z (z : Z) : str :=
  match z with
  | Z0 => lit "0" | Zpos p => dec_of_N (Npos p) | Zneg p => lit "-" ++ dec_of_N (Npos p)
  end.
Definition qstr (v : qvalue) : option str :=
  match v with
  | QNone => None
  | QStr s => Some s
  | QInt z => Some (str_of_Z z)
  | QBool b => Some (if b then lit "True" else lit "False")
  end.

(** http.py:9-16.  [body] is the JSON text of the body, if any ([json.dumps], http.py:53-56);
    cookies are never used by [send]. *)
Record request := Request {
  path : str; method : str; body : option str;
  query_parameters : list (str * qvalue); headers : list (str * str) }.

(** http.py:20: entries whose value is not None *)
Fixpoint given_params (l : list (str * qvalue)) : list (str * str) :=
  match l with
  | [] => []
  | (k, v) :: r => match qstr v with None => given_params r | Some s => (k, s) :: given_params r end
  end.

(** http.py:18-23 *)
Definition make_url (r : request) : outcome str :=
  match given_params (query_parameters r) with
  | [] => Val (path r)
  | ps => let* q := urlencode ps in Val (path r ++ lit "?" ++ q)
  end.

(** http.py:36-45 *)
Record client := Client {
  host : str; verify : bool; remove_path_prefix : str; prefixes : list str;
  additional_headers : list (str * str) }.
Definition new_client (h : str) (v : bool) (p : str) (a : list (str * str)) : client := Client h v p [] a.

(** http.py:47-50 *)
Definition descend (c : client) (prefix : str) : client :=
  let result := new_client (host c) (verify c) (remove_path_prefix c) (additional_headers c) in
  Client (host result) (verify result) (remove_path_prefix result) (prefixes result ++ [prefix])
         (additional_headers result).

(** the arguments of [requests.request] (http.py:69-75) *)
Record sent := Sent {
  s_url : str; s_method : str; s_data : option str; s_headers : list (str * str); s_verify : bool }.

(** http.py:64-67 *)
Definition remove_prefix (p url : str) : str :=
  if startswith p url
     && (Nat.eqb (List.length url) (List.length p)
         || match nth_error url (List.length p) with Some c => N.eqb c 47 | None => false end)
  then skipn (List.length p) url else url.

(** http.py:58-61 *)
Definition strip_host (h : str) : str := if endswith (lit "/") h then removelast h else h.

(** http.py:52-75 *)
Definition send (c : client) (r : request) : outcome sent :=
  let* u := make_url r in
  let url := remove_prefix (remove_path_prefix c) (List.concat (prefixes c) ++ u) in
  Val (Sent (strip_host (host c) ++ url) (method r) (body r) (headers r) (verify c)).
