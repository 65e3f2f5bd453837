(** Element trees as returned by [xml.etree.ElementTree], and results of parsing files. *)
From Coq Require Import List NArith ZArith Bool.
From Verif Require Import PyStr PyBase.
Import ListNotations.

(** tag (with namespace in braces), attributes, text before the first child, children.
    The text behind an element ([tail]) is not represented: no modelled code reads it. *)
Inductive xml := El (tag : str) (attrs : list (str * str)) (text : option str) (children : list xml).
Definition x_tag (e : xml) : str := match e with El t _ _ _ => t end.
Definition x_attrs (e : xml) : list (str * str) := match e with El _ a _ _ => a end.
Definition x_text (e : xml) : option str := match e with El _ _ t _ => t end.
Definition x_children (e : xml) : list xml := match e with El _ _ _ c => c end.

Section XmlInd.
  Variable P : xml -> Prop.
  Hypothesis H : forall t a x c, Forall P c -> P (El t a x c).
  Fixpoint xml_ind' (e : xml) : P e :=
    match e with
    | El t a x c => H t a x c ((fix go l := match l return Forall P l with
                                            | [] => Forall_nil _
                                            | x :: r => Forall_cons x (xml_ind' x) (go r)
                                            end) c)
    end.
End XmlInd.

(** Outcome of parsing a file: a value, a syntax error (ParseError / JSONDecodeError), or
    another exception while reading or decoding it. *)
Inductive parsed (A : Type) := POk (a : A) | PBad (msg : str) | PCrash (e : exn).
Arguments POk {A}. Arguments PBad {A}. Arguments PCrash {A}.
