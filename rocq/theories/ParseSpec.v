(** Specification of the meta model check: when a document conforms to a meta model, which
    object carries its content, and which positions it has.  Documents are accessed through a
    [view], so that the definitions serve JSON and XML. *)
From Coq Require Import String List NArith Bool Permutation.
From Verif Require Import PyStr PyBase PyVal AdapterModel MetaSpec.
Import ListNotations.
Local Open Scope list_scope.

Record view (V : Type) := View {
  w_text : V -> option str;                   (* the value is a text *)
  w_flag : V -> option bool;                  (* the value is a boolean *)
  w_items : V -> option (list V);             (* the value is a list *)
  w_members : V -> option (list (str * V));   (* the value is an object; without its type *)
  w_tag : V -> option str                     (* the type an object declares *)
}.
Arguments View {V}. Arguments w_text {V}. Arguments w_flag {V}. Arguments w_items {V}.
Arguments w_members {V}. Arguments w_tag {V}.

(** ** JSON *)
Definition json_view : view json := View
  (fun v => match v with JStr s => Some s | _ => None end)
  (fun v => match v with JBool b => Some b | _ => None end)
  (fun v => match v with JArr l => Some l | _ => None end)
  (fun v => match v with
            | JObj kvs => Some (filter (fun kv => negb (str_eqb (fst kv) (lit "modelType"))) kvs)
            | _ => None
            end)
  (fun v => match v with
            | JObj kvs => match lookup (lit "modelType") kvs with Some (JStr s) => Some s | _ => None end
            | _ => None
            end).

Section Spec.
  Variable V : Type.
  Variable W : view V.
  Variable M : list gclass.

  (** The class of the objects that are expected where an instance of the class [n] is: an
      abstract class leaves the choice of a concrete subclass to the document. *)
  Inductive Expected (n : str) (v : V) : gclass -> Prop :=
  | Exp_concrete c : In c M -> gc_name c = n -> gc_abstract c = false -> Expected n v c
  | Exp_abstract a c t : In a M -> gc_name a = n -> gc_abstract a = true ->
      w_tag W v = Some t -> In t (gc_subclasses a) -> In c M -> gc_name c = t -> Expected n v c.

  Definition TagOk (c : gclass) (v : V) : Prop := gc_tagged c = true -> w_tag W v = Some (gc_name c).

  (** The document conforms to the type. *)
  Inductive Conforms : gtype -> V -> Prop :=
  | C_text t v s : w_text W v = Some s -> text_ok t s -> Conforms (GText t) v
  | C_plain v s : w_text W v = Some s -> Conforms GPlain v
  | C_bool v b : w_flag W v = Some b -> Conforms GBool v
  | C_enum l v s : w_text W v = Some s -> In s l -> Conforms (GEnum l) v
  | C_list g v l : w_items W v = Some l -> l <> [] -> (forall x, In x l -> Conforms g x) -> Conforms (GList g) v
  | C_obj n v c kvs : Expected n v c -> TagOk c v -> w_members W v = Some kvs ->
      (forall a, In a (gc_attrs c) -> g_required a = true -> lookup (g_name a) kvs <> None) ->
      (forall k x, In (k, x) kvs -> exists a, In a (gc_attrs c) /\ g_name a = k) ->
      (forall a x, In a (gc_attrs c) -> lookup (g_name a) kvs = Some x -> Conforms (g_type a) x) ->
      Conforms (GObj n) v.

  (** The python object carries the content of the document: attributes that are absent are
      None.  Besides the attributes of the meta model, submodel elements have an attribute
      [id_short_path], which does not come from the document. *)
  Definition attribute_of (attrs : list (str * pyval)) (n : str) : pyval :=
    match lookup (snake_case n) attrs with Some x => x | None => VNone end.
  Inductive Carries : gtype -> V -> pyval -> Prop :=
  | Ca_text t v s k : w_text W v = Some s -> Carries (GText t) v (VSfv k s)
  | Ca_plain v s : w_text W v = Some s -> Carries GPlain v (VStr s)
  | Ca_bool v b : w_flag W v = Some b -> Carries GBool v (VBool b)
  | Ca_enum l v s k m : w_text W v = Some s -> Carries (GEnum l) v (VEnum k m s)
  | Ca_list g v l xs : w_items W v = Some l -> length xs = length l ->
      (forall i a x, nth_error l i = Some a -> nth_error xs i = Some x -> Carries g a x) ->
      Carries (GList g) v (VList xs)
  | Ca_obj n v c k kvs attrs : Expected n v c -> gc_name c = spec_name k -> w_members W v = Some kvs ->
      NoDup (List.map fst attrs) ->
      (forall a, In a (gc_attrs c) -> In (snake_case (g_name a)) (List.map fst attrs)) ->
      (forall m, In m (List.map fst attrs) ->
         (exists a, In a (gc_attrs c) /\ m = snake_case (g_name a)) \/ m = lit "id_short_path") ->
      (forall a, In a (gc_attrs c) -> lookup (g_name a) kvs = None -> attribute_of attrs (g_name a) = VNone) ->
      (forall a x, In a (gc_attrs c) -> lookup (g_name a) kvs = Some x ->
         Carries (g_type a) x (attribute_of attrs (g_name a))) ->
      Carries (GObj n) v (VObj k attrs).

  (** [At g v q h w]: in the document [v] of type [g], the path [q] leads to the value [w],
      which should have the type [h]. *)
  Inductive At : gtype -> V -> path -> gtype -> V -> Prop :=
  | At_here g v : At g v [] g v
  | At_item g v l i x q h w : w_items W v = Some l -> nth_error l i = Some x ->
      At g x q h w -> At (GList g) v (SIdx i :: q) h w
  | At_member n v c kvs a x q h w : Expected n v c -> w_members W v = Some kvs ->
      In a (gc_attrs c) -> lookup (g_name a) kvs = Some x ->
      At (g_type a) x q h w -> At (GObj n) v (SKey (g_name a) :: q) h w.
End Spec.
Arguments Expected {V}. Arguments TagOk {V}. Arguments Conforms {V}. Arguments Carries {V}. Arguments At {V}.

(** The position exists in a JSON value: member of an object, item of an array. *)
Inductive Position : json -> path -> Prop :=
| Pos_here v : Position v []
| Pos_item l i x q : nth_error l i = Some x -> Position x q -> Position (JArr l) (SIdx i :: q)
| Pos_member kvs k x q : In (k, x) kvs -> Position x q -> Position (JObj kvs) (SKey k :: q).

(** The same JSON value up to the order of the members of objects. *)
Inductive Reordered : json -> json -> Prop :=
| Re_refl v : (forall l, v <> JArr l) -> (forall kvs, v <> JObj kvs) -> Reordered v v
| Re_arr l l' : length l = length l' ->
    (forall i x y, nth_error l i = Some x -> nth_error l' i = Some y -> Reordered x y) -> Reordered (JArr l) (JArr l')
| Re_obj kvs kvs' : Permutation (List.map fst kvs) (List.map fst kvs') ->
    (forall k x y, lookup k kvs = Some x -> lookup k kvs' = Some y -> Reordered x y) ->
    Reordered (JObj kvs) (JObj kvs').
