(** aas_test_engines/result.py with object identity: a heap of report objects, on which
    client code performs [AasTestResult(...)] and [x.append(y)] in any order. *)
From Coq Require Import List NArith ZArith Bool.
From Verif Require Import PyStr PyBase ResultModel.
Import ListNotations.

(** one report object; [n_subs] are references (positions in the heap) *)
Record node := Node { n_message : str; n_level : level; n_subs : list nat }.
Definition heap := list node.

Inductive hop :=
| HNew (m : str) (l : level)      (* AasTestResult(m, l), result.py:33-37 *)
| HAppend (i j : nat).            (* obj_i.append(obj_j), result.py:39-41 *)

Fixpoint update {A} (i : nat) (f : A -> A) (l : list A) : list A :=
  match l, i with
  | [], _ => []
  | x :: r, O => f x :: r
  | x :: r, S k => x :: update k f r
  end.

(** One operation.  Operations that mention objects which do not exist cannot be written
    in python; they leave the heap unchanged. *)
Definition hstep (h : heap) (o : hop) : heap :=
  match o with
  | HNew m l => h ++ [Node m l []]
  | HAppend i j =>
      match nth_error h i, nth_error h j with
      | Some _, Some c =>
          update i (fun n => Node (n_message n) (level_or (n_level n) (n_level c)) (n_subs n ++ [j])) h
      | _, _ => h
      end
  end.

Definition hrun (ops : list hop) : heap := fold_left hstep ops [].
