(** What test programs may write, send and return: a predicate on programs that is closed under the ways in which
    programs are put together, and its meaning for executions. *)
From Coq Require Import PeanoNat String List NArith ZArith Bool Lia.
From Verif Require Import PyStr PyBase ResultModel ContextModel HttpModel ProgModel ProgSpec ProgFacts.
Import ListNotations.
Local Open Scope list_scope.

Section Acts.
  (** the reports that may be written, the requests that may be sent *)
  Variable Q : result -> Prop.
  Variable S : sent -> Prop.

  Fixpoint Acts {X} (p : prog X) : (X -> Prop) -> Prop :=
    match p with
    | PRet x => fun V => V x
    | PWrite r k => fun V => Q r /\ Acts k V
    | PAbort r => fun _ => Q r
    | PRaise _ _ => fun _ => True
    | PSend s k => fun V => S s /\ forall x, Acts (k x) V
    | PWith r _ body k => fun V => Q r /\ exists W, Acts body W /\
        (forall y x, W y -> Q x -> Acts (k (Some y) x) V) /\ (forall x, Q x -> Acts (k None x) V)
    end.

  Lemma acts_weak {X} (p : prog X) : forall V W : X -> Prop, (forall x, V x -> W x) -> Acts p V -> Acts p W.
  Proof.
    induction p as [X x|X r k IH|X r|X e t|X s k IH|X Y r c body IHb k IHk]; intros V W I; cbn [Acts].
    - apply I.
    - intros [A B]. split; [exact A|]. now apply (IH V).
    - auto.
    - auto.
    - intros [A B]. split; [exact A|]. intros x. apply (IH x V); auto.
    - intros (A & U & B & C & D). split; [exact A|]. exists U. split; [exact B|]. split.
      + intros y x H K. apply (IHk (Some y) x V); auto.
      + intros x K. apply (IHk None x V); auto.
  Qed.
  Lemma acts_bind {X Y} (p : prog X) (f : X -> prog Y) (V : X -> Prop) (W : Y -> Prop) :
    Acts p V -> (forall x, V x -> Acts (f x) W) -> Acts (pbind p f) W.
  Proof.
    revert V. induction p as [X x|X r k IH|X r|X e t|X s k IH|X Z r c body IHb k IHk]; intros V A F; cbn [pbind Acts] in *.
    - now apply F.
    - destruct A as [A B]. split; [exact A|]. now apply (IH f V).
    - exact A.
    - exact A.
    - destruct A as [A B]. split; [exact A|]. intros x. now apply (IH x f V).
    - destruct A as (A & U & B & C & D). split; [exact A|]. exists U. split; [exact B|]. split.
      + intros y x H K. apply (IHk (Some y) x f V); auto.
      + intros x K. apply (IHk None x f V); auto.
  Qed.
  Lemma acts_ret {X} (x : X) (V : X -> Prop) : V x -> Acts (PRet x) V.
  Proof. auto. Qed.
  Lemma acts_raise {X} e t (V : X -> Prop) : Acts (PRaise e t) V.
  Proof. exact I. Qed.
  Lemma acts_lift {X} (o : outcome X) (V : X -> Prop) : (forall x, o = Val x -> V x) -> Acts (lift o) V.
  Proof. destruct o; cbn [lift Acts]; auto. Qed.
  Lemma acts_write r (V : unit -> Prop) : Q r -> V tt -> Acts (pwrite r) V.
  Proof. unfold pwrite. cbn [Acts]. auto. Qed.
  Lemma acts_abort {X} r (V : X -> Prop) : Q r -> Acts (PAbort r) V.
  Proof. auto. Qed.
  Lemma acts_block {X} m (body : prog X) (W : X -> Prop) (V : option X * result -> Prop) : Q (new_result m INFO) -> Acts body W ->
    (forall y x, W y -> Q x -> V (Some y, x)) -> (forall x, Q x -> V (None, x)) -> Acts (block m body) V.
  Proof. intros A B C D. unfold block. cbn [Acts]. split; [exact A|]. exists W. auto. Qed.
  Lemma acts_rename {X} e f (p : prog X) : forall V, Acts p V -> Acts (rename e f p) V.
  Proof.
    induction p as [X x|X r k IH|X r|X e' t|X s k IH|X Z r c body IHb k IHk]; intros V A; cbn [rename Acts] in *.
    - exact A.
    - destruct A; split; auto.
    - exact A.
    - destruct (exn_eq_dec e' e); exact I.
    - destruct A as [A B]. split; auto.
    - destruct A as (A & U & B & C & D). split; [exact A|]. exists U. split; [destruct c; auto|]. split; auto.
  Qed.

  (** ** Executions *)
  (** closed under appending, and the reports of internal errors may be written *)
  Hypothesis Qappend : forall r c, Q r -> Q c -> Q (append r c).
  Hypothesis Qinternal : forall t, Q (new_result (lit "Internal error: " ++ t) CRITICAL).
  Lemma q_appends l : forall r, Q r -> Forall Q l -> Q (appends r l).
  Proof. induction l as [|c l IH]; intros r A F; [exact A|]. cbn [appends fold_left]. apply IH; [apply Qappend; [exact A|exact (Forall_inv F)]|exact (Forall_inv_tail F)]. Qed.
  Definition ends_well {X} (V : X -> Prop) (c : ctl X) : Prop := match c with Ret x => V x | Abort a => Q a | Exc _ _ => True end.
  Theorem acts_meaning {X} (p : prog X) : forall V srv h es c h1, Acts p V -> meaning p srv h = (es, c, h1) ->
    Forall Q es /\ ends_well V c /\ exists t, h1 = h ++ t /\ Forall (fun x => S (fst x)) t.
  Proof.
    assert (N : forall h : trace, exists t, h = h ++ t /\ Forall (fun x => S (fst x)) t) by (intros h; exists []; rewrite app_nil_r; auto).
    induction p as [X x|X r k IH|X r|X e t|X s k IH|X Z r c body IHb k IHk]; intros V srv h es c0 h1 A E; cbn [Acts meaning] in *.
    - injection E as <- <- <-. repeat split; auto.
    - destruct A as [A B]. destruct (meaning k srv h) as [[es' c'] h'] eqn:M. injection E as <- <- <-.
      destruct (IH _ _ _ _ _ _ B M) as (F & W & T). repeat split; auto.
    - injection E as <- <- <-. repeat split; auto.
    - injection E as <- <- <-. repeat split; cbn; auto.
    - destruct A as [A B]. destruct (IH _ _ _ _ _ _ _ (B _) E) as (F & W & t & -> & T). repeat split; auto.
      exists ((s, srv h s) :: t). rewrite <- app_assoc. split; [reflexivity|]. constructor; auto.
    - destruct A as (A & U & B & C & D). destruct (meaning body srv h) as [[es' c'] h'] eqn:M.
      destruct (IHb _ _ _ _ _ _ B M) as (F & W & t & -> & T).
      assert (K : forall o x, Acts (k o x) V -> Q x -> (let '(es2, c2, h2) := meaning (k o x) srv (h ++ t) in (x :: es2, c2, h2)) = (es, c0, h1) ->
        Forall Q es /\ ends_well V c0 /\ exists t, h1 = h ++ t /\ Forall (fun x => S (fst x)) t).
      { intros o x AK QX EQ. destruct (meaning (k o x) srv (h ++ t)) as [[es2 c2] h2] eqn:M2. injection EQ as <- <- <-.
        destruct (IHk _ _ _ _ _ _ _ _ AK M2) as (F2 & W2 & t2 & -> & T2). repeat split; auto.
        exists (t ++ t2). rewrite app_assoc. split; [reflexivity|]. apply Forall_app. auto. }
      destruct c' as [y|a|e t'].
      + assert (QX : Q (appends r es')) by now apply q_appends. apply (K _ _ (C y _ W QX) QX E).
      + assert (QX : Q (appends r (es' ++ [a]))) by (apply q_appends; [exact A|apply Forall_app; auto]). apply (K _ _ (D _ QX) QX E).
      + destruct c.
        * assert (QX : Q (appends r (es' ++ [new_result (lit "Internal error: " ++ t') CRITICAL]))) by (apply q_appends; [exact A|apply Forall_app; auto]).
          apply (K _ _ (D _ QX) QX E).
        * injection E as <- <- <-. repeat split; cbn; auto. exists t. auto.
  Qed.
End Acts.
