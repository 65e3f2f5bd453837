(** Stack-free meaning of test programs: the entries recorded in the enclosing report, the way
    of ending, and the exchanges with the server. *)
From Coq Require Import String List NArith ZArith Bool.
From Verif Require Import PyStr PyBase ResultModel ContextModel HttpModel ProgModel.
Import ListNotations.
Local Open Scope list_scope.

Fixpoint meaning {X} (p : prog X) (srv : server) (h : trace) : list result * ctl X * trace :=
  match p with
  | PRet x => ([], Ret x, h)
  | PWrite r k => let '(es, c, h1) := meaning k srv h in (r :: es, c, h1)
  | PAbort r => ([], Abort r, h)
  | PRaise e t => ([], Exc e t, h)
  | PSend s k => meaning (k (srv h s)) srv (h ++ [(s, srv h s)])
  | PWith r catch body k =>
      let '(es, c, h1) := meaning body srv h in
      let close (o : option _) (x : result) :=
        let '(es2, c2, h2) := meaning (k o x) srv h1 in (x :: es2, c2, h2) in
      match c with
      | Ret y => close (Some y) (appends r es)
      | Abort a => close None (appends r (es ++ [a]))
      | Exc e t =>
          if catch then close None (appends r (es ++ [new_result (lit "Internal error: " ++ t) CRITICAL]))
          else ([], Exc e t, h1)
      end
  end.
