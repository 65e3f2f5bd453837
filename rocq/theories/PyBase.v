(** Exceptions as values and JSON values. *)
From Coq Require Import List NArith ZArith Bool.
From Verif Require Import PyStr.
Import ListNotations.

(** Kinds of python exceptions that can leave the modelled functions. *)
Inductive exn :=
| AttributeError | TypeError | KeyError | IndexError | ValueError | RuntimeError
| AssertionError | NotImplementedError | UnboundLocalError
| XmlParseError | UnicodeEncodeError | RequestException
| AasTestToolsException | InvalidFilterException | ArgumentTypeError | GenericException
| OtherException (n : N)
| OutOfFuel (* not a python exception: the model ran out of fuel *).

(** Outcome of a python call. *)
Inductive outcome (A : Type) :=
| Val (a : A)
| Raise (e : exn).
Arguments Val {A}. Arguments Raise {A}.

Definition obind {A B} (x : outcome A) (f : A -> outcome B) : outcome B :=
  match x with Val a => f a | Raise e => Raise e end.
Notation "'let*' x ':=' a 'in' b" := (obind a (fun x => b)) (at level 200, x pattern, right associativity).

(** Parsed JSON data as returned by [json.load]: python dict/list/str/int/float/bool/None.
    Dictionaries are association lists; python dictionaries have unique keys
    ([json_wf]).  Floats are kept as their literal text because no modelled function
    computes with them. *)
Inductive json :=
| JNull
| JBool (b : bool)
| JInt (z : Z)
| JFloat (text : str)
| JStr (s : str)
| JArr (l : list json)
| JObj (kvs : list (str * json)).

(** [d[k]] / [d.get(k)] on a dictionary *)
Fixpoint lookup {A} (k : str) (kvs : list (str * A)) : option A :=
  match kvs with
  | [] => None
  | (k', v) :: r => if str_eqb k k' then Some v else lookup k r
  end.

Section JsonInd.
  Variable P : json -> Prop.
  Hypothesis Hnull : P JNull.
  Hypothesis Hbool : forall b, P (JBool b).
  Hypothesis Hint : forall z, P (JInt z).
  Hypothesis Hfloat : forall t, P (JFloat t).
  Hypothesis Hstr : forall s, P (JStr s).
  Hypothesis Harr : forall l, Forall P l -> P (JArr l).
  Hypothesis Hobj : forall kvs, Forall (fun kv => P (snd kv)) kvs -> P (JObj kvs).
  Fixpoint json_ind' (j : json) : P j :=
    match j with
    | JNull => Hnull
    | JBool b => Hbool b
    | JInt z => Hint z
    | JFloat t => Hfloat t
    | JStr s => Hstr s
    | JArr l => Harr l ((fix go l := match l return Forall P l with
                                     | [] => Forall_nil _
                                     | x :: r => Forall_cons x (json_ind' x) (go r)
                                     end) l)
    | JObj kvs => Hobj kvs ((fix go l := match l return Forall (fun kv => P (snd kv)) l with
                                         | [] => Forall_nil _
                                         | x :: r => Forall_cons x (json_ind' (snd x)) (go r)
                                         end) kvs)
    end.
End JsonInd.
