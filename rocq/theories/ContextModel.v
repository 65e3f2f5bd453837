(** aas_test_engines/result.py:106-165: the stack of open reports and the context manager. *)
From Coq Require Import List NArith ZArith Bool.
From Coq Require Import String. Open Scope list_scope.
From Verif Require Import PyStr PyBase ResultModel.
Import ListNotations.

(** How a piece of code ends. [Abort] is [ResultException] (result.py:139-141), [Exc] any
    other exception together with the text of [str(e)]. *)
Inductive ctl (A : Type) :=
| Ret (a : A)
| Abort (r : result)
| Exc (e : exn) (text : str).
Arguments Ret {A}. Arguments Abort {A}. Arguments Exc {A}.

(** One entry of [managers]: identity of the ContextManager object and its report. *)
Record frame := Frame { f_id : nat; f_result : result }.
(** [managers], innermost first, and a supply of identities. *)
Record mstate := MState { stack : list frame; next_id : nat }.

Definition M (A : Type) := mstate -> ctl A * mstate.
Definition ret {A} (a : A) : M A := fun st => (Ret a, st).
Definition bind {A B} (m : M A) (f : A -> M B) : M B :=
  fun st => match m st with
            | (Ret a, st') => f a st'
            | (Abort r, st') => (Abort r, st')
            | (Exc e t, st') => (Exc e t, st')
            end.
Definition raise {A} (e : exn) (t : str) : M A := fun st => (Exc e t, st).

(** [managers[-1].result.append(r)] if there is an open context (result.py:122-123, 126-127, 131-132) *)
Definition append_top (r : result) (st : list frame) : list frame :=
  match st with
  | [] => []
  | f :: rest => Frame (f_id f) (append (f_result f) r) :: rest
  end.

(** result.py:151-155 [write] *)
Definition write (r : result) : M unit :=
  fun st => match stack st with
            | [] => (Exc RuntimeError (lit "No open context"), st)
            | _ => (Ret tt, MState (append_top r (stack st)) (next_id st))
            end.

(** result.py:163-165 [abort] *)
Definition abort {A} (r : result) : M A := fun st => (Abort r, st).

(** result.py:113-136: [with start(r, catch) as x: body].  [__enter__] pushes the manager;
    [__exit__] pops the stack, asserts that the popped manager is the own one, and
    distinguishes normal end, ResultException, other exceptions with catch_all, and other
    exceptions without.  The value is the report [x] after the block and what the body
    returned (None if an exception was swallowed). *)
Definition with_start {A} (r : result) (catch : bool) (body : M A) : M (option A * result) :=
  fun st =>
    let me := next_id st in
    let '(c, st1) := body (MState (Frame me r :: stack st) (S me)) in
    match stack st1 with
    | [] => (Exc IndexError (lit "pop from empty list"), st1)
    | f :: rest =>
        if negb (Nat.eqb (f_id f) me) then (Exc AssertionError [], MState rest (next_id st1))
        else
          match c with
          | Ret a => (Ret (Some a, f_result f), MState (append_top (f_result f) rest) (next_id st1))
          | Abort x =>
              let r' := append (f_result f) x in
              (Ret (None, r'), MState (append_top r' rest) (next_id st1))
          | Exc e t =>
              if catch then
                let r' := append (f_result f) (new_result (lit "Internal error: " ++ t) CRITICAL) in
                (Ret (None, r'), MState (append_top r' rest) (next_id st1))
              else (Exc e t, MState rest (next_id st1))
          end
    end.

(** Client programs that use the module: sequences of [write], [abort], raising of other
    exceptions, [with start(...)] blocks and [try/except] (which catches the exceptions
    of kind [e]). *)
Inductive cmd :=
| CSkip
| CSeq (a b : cmd)
| CWrite (r : result)
| CAbort (r : result)
| CRaise (e : exn) (t : str)
| CWith (r : result) (catch : bool) (body : cmd)
| CTry (body : cmd) (e : exn) (handler : cmd).

Definition exn_eq_dec (a b : exn) : {a = b} + {a <> b}.
Proof. decide equality. apply N.eq_dec. Defined.

Fixpoint exec (c : cmd) : M unit :=
  match c with
  | CSkip => ret tt
  | CSeq a b => bind (exec a) (fun _ => exec b)
  | CWrite r => write r
  | CAbort r => abort r
  | CRaise e t => raise e t
  | CWith r catch body => bind (with_start r catch (exec body)) (fun _ => ret tt)
  | CTry body e handler =>
      fun st => match exec body st with
                | (Exc e' t, st') => if exn_eq_dec e' e then exec handler st' else (Exc e' t, st')
                | x => x
                end
  end.
