(** The types of the responses are those of their specification. *)
From Coq Require Import PeanoNat Lia String List NArith ZArith Bool.
From Verif Require Import PyStr PyStrFacts PyBase PyVal ResultModel ReflectModel MetaModel AdapterModel ParseModel MetaSpec MetaFacts
  ConstraintModel ParseSpec ApiModel ApiSpec ApiBody.
Import ListNotations.
Local Open Scope nat_scope.
Local Open Scope list_scope.

(** positions of the types of [T] in the table of the meta model *)
Fixpoint position (k : str) (i : nat) (T : table) : option nat :=
  match T with
  | [] => None
  | (k', _) :: r => if str_eqb k k' then Some i else position k (S i) r
  end.
Fixpoint positions (i : nat) (T : table) : list (nat * nat) :=
  match T with
  | [] => []
  | (k, _) :: r => match position k 0 model_table with Some j => (i, j) :: positions (S i) r | None => positions (S i) r end
  end.
Fixpoint reference_position (i : nat) (T : table) : option nat :=
  match T with
  | [] => None
  | (_, RClass c _ _ _) :: r => if Nat.eqb c k_UnconstrainedReference then Some i else reference_position (S i) r
  | _ :: r => reference_position (S i) r
  end.
Definition checkb (ab : ann * body) : bool :=
  match reflect api_classes api_globals (fst ab) with
  | Val (i, T) =>
      let phi := positions 0 T in
      let ref := reference_position 0 T in
      sameb T phi && reference_ok T phi ref && bodyb T phi ref (snd ab) i
  | Raise _ => false
  end.
