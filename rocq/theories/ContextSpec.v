(** Stack-free meaning of programs that use write/abort/start: which entries a program
    records into the enclosing report, and how it ends. *)
From Coq Require Import List NArith ZArith Bool.
From Coq Require Import String. Open Scope list_scope.
From Verif Require Import PyStr PyBase ResultModel ContextModel.
Import ListNotations.

Fixpoint meaning (c : cmd) : list result * ctl unit :=
  match c with
  | CSkip => ([], Ret tt)
  | CSeq a b =>
      match meaning a with
      | (es, Ret _) => (es ++ fst (meaning b), snd (meaning b))
      | x => x
      end
  | CWrite r => ([r], Ret tt)
  | CAbort r => ([], Abort r)
  | CRaise e t => ([], Exc e t)
  | CWith r catch body =>
      match meaning body with
      | (es, Ret _) => ([appends r es], Ret tt)
      | (es, Abort a) => ([appends r (es ++ [a])], Ret tt)
      | (es, Exc e t) =>
          if catch then ([appends r (es ++ [new_result (lit "Internal error: " ++ t) CRITICAL])], Ret tt)
          else ([], Exc e t)
      end
  | CTry body e handler =>
      match meaning body with
      | (es, Exc e' t) =>
          if exn_eq_dec e' e then (es ++ fst (meaning handler), snd (meaning handler)) else (es, Exc e' t)
      | x => x
      end
  end.

(** The same without an enclosing report. *)
Fixpoint toplevel (c : cmd) : ctl unit :=
  match c with
  | CSkip => Ret tt
  | CSeq a b => match toplevel a with Ret _ => toplevel b | x => x end
  | CWrite _ => Exc RuntimeError (lit "No open context")
  | CAbort r => Abort r
  | CRaise e t => Exc e t
  | CWith r catch body =>
      match snd (meaning body) with
      | Exc e t => if catch then Ret tt else Exc e t
      | _ => Ret tt
      end
  | CTry body e handler =>
      match toplevel body with
      | Exc e' t => if exn_eq_dec e' e then toplevel handler else Exc e' t
      | x => x
      end
  end.

