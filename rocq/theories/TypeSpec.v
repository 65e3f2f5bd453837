(** Python objects of the types that the dataclasses of model.py declare. *)
From Coq Require Import PeanoNat String List NArith Bool.
From Verif Require Import PyStr PyBase PyVal ReflectModel AdapterModel ParseModel.
Import ListNotations.
Local Open Scope list_scope.

(** Types of attributes; classes are given by their names. *)
Inductive ptype :=
| TyText                                  (* a string formatted value *)
| TyPlain                                 (* a str *)
| TyBool
| TyEnum (cls : str) (values : list str)  (* a member of the enumeration, with one of the values *)
| TyObj (classes : list str)              (* an instance of one of the classes *)
| TyList (nonempty : bool) (t : ptype)
| TyOpt (t : ptype)                       (* or None *)
| TyPath.                                 (* None or the path of a submodel element *)

(** the attributes of a class with their types *)
Definition pfields := list (str * ptype).

(** [Typed D t x]: [x] has the type [t] where [D] declares the attributes of the classes.  An
    object has exactly the declared attributes. *)
Inductive Typed (D : list (str * pfields)) : ptype -> pyval -> Prop :=
| Ty_text c s : Typed D TyText (VSfv c s)
| Ty_plain s : Typed D TyPlain (VStr s)
| Ty_bool b : Typed D TyBool (VBool b)
| Ty_enum c vs n v : In v vs -> Typed D (TyEnum c vs) (VEnum c n v)
| Ty_list e t xs : (e = true -> xs <> []) -> (forall x, In x xs -> Typed D t x) -> Typed D (TyList e t) (VList xs)
| Ty_none t : Typed D (TyOpt t) VNone
| Ty_some t x : Typed D t x -> Typed D (TyOpt t) x
| Ty_nopath : Typed D TyPath VNone
| Ty_path p : Typed D TyPath (VPath p)
| Ty_obj cs c fs kvs :
    In c cs -> In (c, fs) D -> List.map fst kvs = List.map fst fs ->
    (forall n t x, In (n, t) fs -> In (n, x) kvs -> Typed D t x) ->
    Typed D (TyObj cs) (VObj c kvs).

(** The types that a symbol table declares *)
Section Declared.
  Variable P : list classdecl.
  Variable T : table.

  Definition class_name_at (i : nat) : list str :=
    match nth_error T i with Some (_, RClass c _ _ _) => [name_of P c] | _ => [] end.
  (** [fuel] bounds the nesting of lists *)
  Fixpoint ptype_at (fuel : nat) (i : nat) : option ptype :=
    match fuel with
    | O => None
    | S f =>
      match nth_error T i with
      | Some (_, RSfv _) => Some TyText
      | Some (_, RString) => Some TyPlain
      | Some (_, RBool) => Some TyBool
      | Some (_, REnum c) =>
          match kind_of P c with
          | KEnum ms => Some (TyEnum (name_of P c) (List.map snd ms))
          | _ => None
          end
      | Some (_, RList j e) => option_map (TyList (negb e)) (ptype_at f j)
      | Some (_, RClass c _ _ subs) =>
          Some (TyObj (if is_abstract P c then flat_map class_name_at subs else [name_of P c]))
      | _ => None
      end
    end.
  Definition ptype_of : nat -> option ptype := ptype_at 2.

  Fixpoint ptypes_of (attrs : list (attribute nat)) : option pfields :=
    match attrs with
    | [] => Some []
    | a :: r =>
      match ptype_of (a_type a), ptypes_of r with
      | Some t, Some fs => Some ((a_name a, if a_required a then t else TyOpt t) :: fs)
      | _, _ => None
      end
    end.
  (** The attributes that are not parsed hold the path of a submodel element. *)
  Fixpoint declared (l : table) : option (list (str * pfields)) :=
    match l with
    | [] => Some []
    | (_, RClass c attrs static _) :: r =>
      match ptypes_of attrs, declared r with
      | Some fs, Some d => Some ((name_of P c, fs ++ List.map (fun kv => (fst kv, TyPath)) static) :: d)
      | _, _ => None
      end
    | _ :: r => declared r
    end.
End Declared.

(** [Occurs x q y]: at the position [q] below [x] the object [y] is found.  Positions name
    attributes and indices of lists. *)
Inductive Occurs : pyval -> path -> pyval -> Prop :=
| Oc_here x : Occurs x [] x
| Oc_attr c kvs k x q y : In (k, x) kvs -> (forall l, x <> VList l) -> Occurs x q y -> Occurs (VObj c kvs) (SKey k :: q) y
| Oc_item c kvs k l i x q y : In (k, VList l) kvs -> nth_error l i = Some x -> Occurs x q y ->
    Occurs (VObj c kvs) (SKey k :: SIdx i :: q) y.
