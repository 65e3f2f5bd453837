(** Python objects that occur as parsed documents: None, the marker INVALID of parse.py,
    booleans, strings, string formatted values, members of enumerations, lists, and instances
    of dataclasses. *)
From Coq Require Import String List NArith Bool.
From Verif Require Import PyStr PyBase.
Import ListNotations.

(** model.py:31-34 the tokens of an idShort path: idShort, list index, None *)
Inductive token := TName (s : str) | TIndex (n : nat) | TNone.

(** model.py:27-50 [IdShortPath].  The path refers to its submodel; only the idShort (raw, if
    any) and the id (raw) of the submodel are ever read, so these are kept instead of the
    cyclic reference. *)
Record id_short_path := IdPath { ip_id_short : option str; ip_id : str; ip_tokens : list token }.

(** Objects are identified by the name of their class ([__class__.__name__]). *)
Inductive pyval :=
| VNone
| VInvalid                                          (* parse.py:28 INVALID *)
| VBool (b : bool)
| VStr (s : str)
| VSfv (cls : str) (raw : str)                      (* reflect.py:55 StringFormattedValue *)
| VEnum (cls : str) (name value : str)
| VList (l : list pyval)
| VObj (cls : str) (attrs : list (str * pyval))     (* instance of a dataclass *)
| VPath (p : id_short_path)
| VAny.                                             (* an adapter handed out for [any] *)

Section PyvalInd.
  Variable P : pyval -> Prop.
  Hypothesis Hnone : P VNone.
  Hypothesis Hinv : P VInvalid.
  Hypothesis Hbool : forall b, P (VBool b).
  Hypothesis Hstr : forall s, P (VStr s).
  Hypothesis Hsfv : forall c s, P (VSfv c s).
  Hypothesis Henum : forall c n v, P (VEnum c n v).
  Hypothesis Hlist : forall l, Forall P l -> P (VList l).
  Hypothesis Hobj : forall c kvs, Forall (fun kv => P (snd kv)) kvs -> P (VObj c kvs).
  Hypothesis Hpath : forall p, P (VPath p).
  Hypothesis Hany : P VAny.
  Fixpoint pyval_ind' (v : pyval) : P v :=
    match v with
    | VNone => Hnone | VInvalid => Hinv | VBool b => Hbool b | VStr s => Hstr s
    | VSfv c s => Hsfv c s | VEnum c n x => Henum c n x
    | VList l => Hlist l ((fix go l := match l return Forall P l with
                                       | [] => Forall_nil _
                                       | x :: r => Forall_cons x (pyval_ind' x) (go r)
                                       end) l)
    | VObj c kvs => Hobj c kvs ((fix go l := match l return Forall (fun kv => P (snd kv)) l with
                                             | [] => Forall_nil _
                                             | x :: r => Forall_cons x (pyval_ind' (snd x)) (go r)
                                             end) kvs)
    | VPath p => Hpath p | VAny => Hany
    end.
End PyvalInd.

(** [getattr(obj, name)] for the data attributes; everything else has no such attribute *)
Definition getattr (v : pyval) (name : str) : outcome pyval :=
  match v with
  | VObj _ kvs => match lookup name kvs with Some x => Val x | None => Raise AttributeError end
  | _ => Raise AttributeError
  end.

(** [d[k] = v]: the position of an existing key is kept *)
Fixpoint assign {A} (k : str) (v : A) (kvs : list (str * A)) : list (str * A) :=
  match kvs with
  | [] => [(k, v)]
  | (k', x) :: r => if str_eqb k k' then (k', v) :: r else (k', x) :: assign k v r
  end.

(** [setattr(obj, name, x)] *)
Definition setattr (v : pyval) (name : str) (x : pyval) : outcome pyval :=
  match v with
  | VObj c kvs => Val (VObj c (assign name x kvs))
  | _ => Raise AttributeError
  end.

(** [bool(v)]: None, False, the empty string and the empty list are false *)
Definition truthy (v : pyval) : bool :=
  match v with
  | VNone => false
  | VBool b => b
  | VStr s => match s with [] => false | _ => true end
  | VList l => match l with [] => false | _ => true end
  | _ => true
  end.

Definition is_none (v : pyval) : bool := match v with VNone => true | _ => false end.

(** [v.raw_value] *)
Definition raw_value (v : pyval) : outcome str :=
  match v with VSfv _ s => Val s | _ => Raise AttributeError end.

(** iterating over a list; None and other objects are not iterable *)
Definition as_items (v : pyval) : outcome (list pyval) :=
  match v with VList l => Val l | _ => Raise TypeError end.
