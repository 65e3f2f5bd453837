(** Test programs: code that writes into the report (result.py) and sends requests (http.py).

    The functions of test_cases/v3_0/api.py and interfaces/*.py are sequences of [write],
    [abort], [with start(...)], exceptions and requests.  They are represented by values of the
    type [prog], of which [exec] gives the meaning in terms of the stack of open reports
    (ContextModel) and of a server. *)
From Coq Require Import String List NArith ZArith Bool.
From Verif Require Import PyStr PyBase ResultModel ContextModel HttpModel.
Import ListNotations.
Local Open Scope list_scope.

(** What [response.json()] gives: the decoded value, or a JSONDecodeError with its text *)
Inductive decoded := Json (j : json) | NoJson (text : str).

(** What [requests.request] does (http.py:69-75): it returns a response with status code, the
    content decoded as UTF-8 if that is possible, and the content decoded as JSON; or it raises
    an exception. *)
Inductive reply :=
| Response (status : Z) (content : option str) (data : decoded)
| Failed (e : exn) (text : str).

(** A server may answer depending on everything that was sent and answered before. *)
Definition trace := list (sent * reply).
Definition server := trace -> sent -> reply.

Inductive prog (X : Type) : Type :=
| PRet (x : X)
| PWrite (r : result) (k : prog X)
| PAbort (r : result)
| PRaise (e : exn) (text : str)
| PSend (s : sent) (k : reply -> prog X)
| PWith (Y : Type) (r : result) (catch : bool) (body : prog Y) (k : option Y -> result -> prog X).
Arguments PRet {X}. Arguments PWrite {X}. Arguments PAbort {X}. Arguments PRaise {X}.
Arguments PSend {X}. Arguments PWith {X} {Y}.

Fixpoint pbind {X Y} (p : prog X) (f : X -> prog Y) : prog Y :=
  match p with
  | PRet x => f x
  | PWrite r k => PWrite r (pbind k f)
  | PAbort r => PAbort r
  | PRaise e t => PRaise e t
  | PSend s k => PSend s (fun x => pbind (k x) f)
  | PWith r c body k => PWith r c body (fun o x => pbind (k o x) f)
  end.
Notation "'let!' x ':=' a 'in' b" := (pbind a (fun x => b)) (at level 200, x pattern, right associativity).
Notation "a ';;' b" := (pbind a (fun _ => b)) (at level 199, right associativity).

(** result.py:151-155 and 163-165 with a text or a result *)
Definition pwrite (r : result) : prog unit := PWrite r (PRet tt).
Definition say (m : str) : prog unit := pwrite (new_result m INFO).
Definition fail_with {X} (m : str) : prog X := PAbort (new_result m ERROR).
(** The texts of the exceptions are not modelled: no block of the test programs catches them. *)
Definition lift {X} (o : outcome X) : prog X := match o with Val x => PRet x | Raise e => PRaise e [] end.
(** [with start(m): body], result.py:158-160; blocks whose value is not used *)
Definition block {X} (m : str) (body : prog X) : prog (option X * result) :=
  PWith (new_result m INFO) false body (fun o r => PRet (o, r)).

(** [try: p / except E: raise F]: exceptions of kind [e] become exceptions of kind [f].  A block
    with catch_all does not let exceptions pass. *)
Fixpoint rename {X} (e f : exn) (p : prog X) : prog X :=
  match p with
  | PRet x => PRet x
  | PWrite r k => PWrite r (rename e f k)
  | PAbort r => PAbort r
  | PRaise e' t => if exn_eq_dec e' e then PRaise f t else PRaise e' t
  | PSend s k => PSend s (fun x => rename e f (k x))
  | PWith r c body k => PWith r c (if c then body else rename e f body) (fun o x => rename e f (k o x))
  end.

(** Execution with the stack [managers] and a server *)
Fixpoint exec {X} (p : prog X) (srv : server) (st : mstate) (h : trace) : ctl X * mstate * trace :=
  match p with
  | PRet x => (Ret x, st, h)
  | PWrite r k =>
      match write r st with
      | (Ret _, st) => exec k srv st h
      | (Abort a, st) => (Abort a, st, h)
      | (Exc e t, st) => (Exc e t, st, h)
      end
  | PAbort r => (Abort r, st, h)
  | PRaise e t => (Exc e t, st, h)
  | PSend s k => exec (k (srv h s)) srv st (h ++ [(s, srv h s)])
  | PWith r catch body k =>
      let me := next_id st in
      let '(c, st1, h1) := exec body srv (MState (Frame me r :: stack st) (S me)) h in
      match with_start r catch (fun _ => (c, st1)) st with
      | (Ret (o, x), st2) => exec (k o x) srv st2 h1
      | (Abort a, st2) => (Abort a, st2, h1)
      | (Exc e t, st2) => (Exc e t, st2, h1)
      end
  end.
