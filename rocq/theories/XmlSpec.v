(** XML serialization of the AAS, and how the checker reads element trees. *)
From Coq Require Import String List NArith Bool Permutation.
From Verif Require Import PyStr PyBase PyXml PyVal AdapterModel MetaSpec ParseSpec.
Import ListNotations.
Local Open Scope list_scope.

(** * Names *)
Definition aas_ns : str := lit "{https://admin-shell.io/aas/3/0}".
Definition in_ns (e : xml) : bool := startswith aas_ns (x_tag e).
(** name of an element of the namespace of the AAS *)
Definition local_name (e : xml) : option str := if in_ns e then Some (skipn (length aas_ns) (x_tag e)) else None.
Definition named (n : string) (e : xml) : bool :=
  match local_name e with Some s => str_eqb s (lit n) | None => false end.
Definition lower_first (s : str) : str := match s with [] => [] | c :: r => lower_ascii c :: r end.
(** The names of the schema: attributes, and classes with a lower case first letter. *)
Definition schema_names : list str :=
  List.concat (List.map (fun c => lower_first (gc_name c) :: List.map g_name (gc_attrs c)) aas_v3_0_checked).
Definition in_schema (e : xml) : bool := match local_name e with Some s => str_in s schema_names | None => false end.
Definition blank (t : option str) : bool := match t with None => true | Some s => forallb is_space s end.
Definition text_of (e : xml) : str := match x_text e with Some s => s | None => [] end.

(** all results, if there are *)
Fixpoint all_some {A} (l : list (option A)) : option (list A) :=
  match l with
  | [] => Some []
  | Some x :: r => option_map (cons x) (all_some r)
  | None :: _ => None
  end.

Fixpoint distinct (l : list str) : bool := match l with [] => true | x :: r => negb (str_in x r) && distinct r end.

(** * The XML serialization (IDTA-01001-3-0, section 9.3) *)

(** An attribute of an abstract type contains one element with the name of the class. *)
Definition the_child (e : xml) : option xml := match x_children e with [c] => Some c | _ => None end.
Definition strict_content (e : xml) : option xml := if named "dataSpecificationContent" e then the_child e else Some e.
Definition strict_member (d c : xml) : option (str * xml) :=
  match local_name c with
  | None => None
  | Some k => if named "operationVariable" d && str_eqb k (lit "value")
              then option_map (fun x => (k, x)) (the_child c)
              else Some (k, c)
  end.
Definition strict_members (e : xml) : option (list (str * xml)) :=
  if in_schema e && blank (x_text e) then
    match strict_content e with
    | Some d => if in_schema d && blank (x_text d) then
                  match all_some (List.map (strict_member d) (x_children d)) with
                  | Some kvs => if distinct (List.map fst kvs) then Some kvs else None
                  | None => None
                  end
                else None
    | None => None
    end
  else None.
(** the class an element is an instance of *)
Definition is_lower (c : N) : bool := (N.leb 97 c && N.leb c 122)%N.
Definition strict_tag (e : xml) : option str :=
  if in_schema e then
  match strict_content e with
  | Some d => if in_schema d then match local_name d with Some (c :: r) => if is_lower c then Some (upper_ascii c :: r) else None | _ => None end else None
  | None => None
  end
  else None.
(** xs:boolean *)
Definition xs_boolean (s : str) : option bool :=
  if str_in s [lit "true"; lit "1"] then Some true else if str_in s [lit "false"; lit "0"] then Some false else None.
Definition xml_view : view xml := View
  (fun e => if in_schema e then match x_children e with [] => Some (text_of e) | _ => None end else None)
  (fun e => if in_schema e then match x_children e with [] => xs_boolean (text_of e) | _ => None end else None)
  (fun e => if in_schema e && blank (x_text e) then Some (x_children e) else None)
  strict_members
  strict_tag.

(** * What the checker takes from an element: more than the specification allows *)
Definition seen_content (e : xml) : option xml :=
  if endswith (lit "dataSpecificationContent") (x_tag e) then the_child e else Some e.
(** The class: whatever follows the first 32 characters of the name. *)
Definition seen_name (d : xml) : option str :=
  match skipn (length aas_ns) (x_tag d) with c :: r => Some (upper_char c ++ r) | [] => None end.
Definition seen_tag (e : xml) : option str := match seen_content e with Some d => seen_name d | None => None end.
(** Text: a first child without children is ignored, and so are all others. *)
Definition seen_text (e : xml) : option str :=
  match x_children e with
  | El _ _ _ (_ :: _) :: _ => None
  | _ => Some (text_of e)
  end.
Definition seen_member (d c : xml) : option (str * xml) :=
  match local_name c, seen_name d with
  | Some k, Some n => if str_eqb n (lit "OperationVariable") && str_eqb k (lit "value")
                      then option_map (fun x => (k, x)) (the_child c)
                      else Some (k, c)
  | _, _ => None
  end.
(** Of several elements with the same name, the last one counts. *)
Definition last_wins {A} (l : list (str * A)) : list (str * A) := fold_left (fun o kv => assign (fst kv) (snd kv) o) l [].
Definition seen_members (e : xml) : option (list (str * xml)) :=
  if in_ns e && blank (x_text e) then
    match seen_content e with
    | Some d => option_map last_wins (all_some (List.map (seen_member d) (x_children d)))
    | None => None
    end
  else None.
Definition xml_seen : view xml := View
  seen_text
  (fun e => option_map (fun s => str_eqb s (lit "true")) (seen_text e))
  (fun e => Some (x_children e))
  seen_members
  seen_tag.

(** Names of elements are longer than the prefix of the namespace. *)
Fixpoint well_named (e : xml) : Prop :=
  match e with
  | El t _ _ c => skipn (length aas_ns) t <> [] /\ (fix go l := match l with [] => True | x :: r => well_named x /\ go r end) c
  end.

(** * Serializing to JSON and to XML *)
Definition TextType (g : gtype) : Prop := match g with GText _ | GPlain | GEnum _ => True | _ => False end.
Definition abstract (n : str) : Prop := exists c, In c aas_v3_0_checked /\ gc_name c = n /\ gc_abstract c = true.
Definition class_tag (c : gclass) : str := lower_first (gc_name c).

(** [Serial g n v e]: the JSON value [v] and the XML element [e] with the name [n] serialize the
    same value of the type [g].  The contents need not be valid: texts may violate patterns,
    mandatory attributes may be missing. *)
Inductive Serial : gtype -> str -> json -> xml -> Prop :=
| Se_text g n s a t : TextType g -> t = Some s \/ (s = [] /\ t = None) -> Serial g n (JStr s) (El (aas_ns ++ n) a t [])
| Se_bool n b a : Serial GBool n (JBool b) (El (aas_ns ++ n) a (Some (if b then lit "true" else lit "false")) [])
| Se_list g n l a t es : blank t = true -> Forall2 (SerialItem g) l es -> Serial (GList g) n (JArr l) (El (aas_ns ++ n) a t es)
| Se_obj cn n kvs c a t ms es : Expected json_view aas_v3_0_checked cn (JObj kvs) c -> TagOk json_view c (JObj kvs) ->
    NoDup (List.map fst kvs) -> blank t = true ->
    (* the members in some order, without the type *)
    Permutation ms (filter (fun kv => negb (str_eqb (fst kv) (lit "modelType"))) kvs) -> Forall2 (SerialMember c) ms es ->
    Serial (GObj cn) n (JObj kvs) (El (aas_ns ++ n) a t es)
with SerialItem : gtype -> json -> xml -> Prop :=
| SeI_obj cn v c e : Expected json_view aas_v3_0_checked cn v c -> Serial (GObj cn) (class_tag c) v e -> SerialItem (GObj cn) v e
| SeI_other g n v e : (forall cn, g <> GObj cn) -> In n schema_names -> Serial g n v e -> SerialItem g v e
with SerialMember : gclass -> str * json -> xml -> Prop :=
| SeM_abstract c x cn v at_ t e d : In x (gc_attrs c) -> g_type x = GObj cn -> abstract cn -> blank t = true ->
    Expected json_view aas_v3_0_checked cn v d -> Serial (GObj cn) (class_tag d) v e ->
    SerialMember c (g_name x, v) (El (aas_ns ++ g_name x) at_ t [e])
| SeM_plain c x v e : In x (gc_attrs c) -> (forall cn, g_type x = GObj cn -> ~ abstract cn) ->
    Serial (g_type x) (g_name x) v e -> SerialMember c (g_name x, v) e.
(** A document: the name of the root is that of the class. *)
Definition SerialDoc (cn : str) (v : json) (e : xml) : Prop := SerialItem (GObj cn) v e.

(** The keys of objects are distinct: true of all values json.load returns. *)
Inductive Unique : json -> Prop :=
| U_atom v : (forall l, v <> JArr l) -> (forall kvs, v <> JObj kvs) -> Unique v
| U_arr l : (forall x, In x l -> Unique x) -> Unique (JArr l)
| U_obj kvs : NoDup (List.map fst kvs) -> (forall k x, In (k, x) kvs -> Unique x) -> Unique (JObj kvs).
