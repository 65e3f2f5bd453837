(** Why the check of a server ends with an exception instead of a report: the possible causes, each of them in the last exchange with the
    server.  The causes are given for the rows of [TestSpec], which say for each operation what the setup asks and what its tests need. *)
From Coq Require Import PeanoNat String List NArith ZArith Bool.
From Verif Require Import PyStr PyBase ResultModel ContextModel HttpModel ReflectModel AdapterModel ProgModel ApiModel ApiSpec ApiSuites TestSpec.
Import ListNotations.
Local Open Scope string_scope.
Local Open Scope list_scope.

(** ** Values that a setup needs, but that the server has not told *)
(** The exception for the first missing value on the way to a position: a missing member is None, which has neither members nor items nor
    a text; a list may be too short.  There is none if everything is there. *)
Fixpoint fault (j : option json) (p : list step) : option exn :=
  match j, p with
  | None, Item _ :: _ => Some TypeError
  | None, _ => Some AttributeError
  | Some (JObj kvs), Member n :: r => fault (lookup (lit n) kvs) r
  | Some (JArr l), Item n :: r => match nth_error l n with Some x => fault (Some x) r | None => Some IndexError end
  | Some _, _ => None
  end.

(** The positions that an operation needs: those of the identifiers in the paths, and those of the values of the query parameters.  An asset
    has to have a global identifier. *)
Definition ident_sources (r : route) : list source := flat_map (fun s => match s with Ident src => [src] | _ => [] end) r.
Definition wish_sources (ps : params) : list source :=
  flat_map (fun kw => match snd kw with
                      | Is _ => []
                      | The_id src | The_text src => [src]
                      | The_asset n => [(n, first_of [Member "assetInformation"; Member "globalAssetId"])]
                      end) ps.
Definition needed (row : row) : list source :=
  ident_sources (ro_path row) ++ flat_map (fun x => ident_sources (fst x) ++ wish_sources (snd x)) (ro_setup row)
  ++ flat_map (fun t => wish_sources (ch_params t)) (ro_tests row).

(** A collection or a list with a short identifier and without a value; alone, or inside of others. *)
Definition container (ty : str) : Prop := ty = lit "SubmodelElementCollection" \/ ty = lit "SubmodelElementList".
Inductive Hollow : json -> Prop :=
| Ho_empty kvs s ty : lookup (lit "idShort") kvs = Some (JStr s) -> lookup (lit "modelType") kvs = Some (JStr ty) -> container ty ->
    lookup (lit "value") kvs = None -> Hollow (JObj kvs)
| Ho_inside kvs s ty l x : lookup (lit "idShort") kvs = Some (JStr s) -> lookup (lit "modelType") kvs = Some (JStr ty) -> container ty ->
    lookup (lit "value") kvs = Some (JArr l) -> In x l -> Hollow x -> Hollow (JObj kvs).

(** ** The causes *)
(** [n] exchanges of the operation come before the last one, whose reply is [y]; the exception is [e] with the text [m]. *)
Inductive Cause (show : json -> str) (repr : str -> str) (row : row) (n : nat) : reply -> exn -> str -> Prop :=
(** There is no answer.  During the negative tests, the exception for wrong arguments is taken for a missing implementation. *)
| Cr_request e' e m : e' = e \/ (e' = TypeError /\ e = NotImplementedError /\ List.length (ro_setup row) <= n) ->
    Cause show repr row n (Failed e' m) e m
(** The value has the right type, but the check of it raises an exception. *)
| Cr_check k b ct j e : In (k, b) bodies -> BodyOk b j -> check_body show repr k j = Raise e ->
    Cause show repr row n (Response 200 ct (Json j)) e []
(** It is an answer of the setup, and does not tell what is needed. *)
| Cr_untold ct j p e : n < List.length (ro_setup row) -> In (n, p) (needed row) -> fault (Some j) p = Some e ->
    Cause show repr row n (Response 200 ct (Json j)) e []
| Cr_hollow ct j l : n < List.length (ro_setup row) -> In (Element n) (ro_path row) -> value_at j [Member "result"] = Some (JArr l) -> Exists Hollow l ->
    Cause show repr row n (Response 200 ct (Json j)) TypeError []
| Cr_no_element ct j l : n < List.length (ro_setup row) -> In (Element n) (ro_path row) -> value_at j [Member "result"] = Some (JArr l) -> paths_of 0 l = [] ->
    Cause show repr row n (Response 200 ct (Json j)) StopIteration []
(** It is the answer to a test for a short identifier, and the first result has none. *)
| Cr_unnamed ct j test src k : List.length (ro_setup row) <= n -> In test (ro_tests row) -> ch_claim test = First_named src -> results j = Some (S k) ->
    value_at j (first_of [Member "idShort"]) = None -> Cause show repr row n (Response 200 ct (Json j)) AttributeError [].
(** The exchanges of an operation that ends with an exception: the last of them has the cause. *)
Definition Crash show repr (row : row) (t : trace) (e : exn) (m : str) : Prop :=
  exists t' s y, t = t' ++ [(s, y)] /\ Cause show repr row (List.length t') y e m.
(** A request that the table lists next after some exchanges of an operation: there is an answer with which the operation is conducted. *)
Definition Due (c : client) (row : row) (t : trace) (s : sent) : Prop := exists y t' r, Conducted c any_verdict row r (t ++ (s, y) :: t').
