(** The stack-free meaning of test programs is what their execution does, and the laws of the
    meaning. *)
From Coq Require Import PeanoNat String List NArith ZArith Bool Lia.
From Verif Require Import PyStr PyBase ResultModel ContextModel HttpModel ProgModel ProgSpec.
Import ListNotations.
Local Open Scope list_scope.

Lemma appends_app r a b : appends r (a ++ b) = appends (appends r a) b.
Proof. unfold appends. now rewrite fold_left_app. Qed.

Lemma meaning_trace {X} (p : prog X) : forall srv h, exists t, snd (meaning p srv h) = h ++ t.
Proof.
  induction p as [X x|X r k IH|X r|X e t|X s k IH|X Y r c body IHb k IHk]; intros srv h; cbn [meaning].
  - exists []. cbn [snd]. now rewrite app_nil_r.
  - destruct (IH srv h) as [t E]. destruct (meaning k srv h) as [[es c] h1]. now exists t.
  - exists []. cbn [snd]. now rewrite app_nil_r.
  - exists []. cbn [snd]. now rewrite app_nil_r.
  - destruct (IH (srv h s) srv (h ++ [(s, srv h s)])) as [t E]. exists ((s, srv h s) :: t). rewrite E, <- app_assoc. reflexivity.
  - destruct (IHb srv h) as [t E]. destruct (meaning body srv h) as [[es c0] h1]. cbn [snd] in E. subst h1.
    assert (K : forall o x, exists t', snd (let '(es2, c2, h2) := meaning (k o x) srv (h ++ t) in (x :: es2, c2, h2)) = h ++ t').
    { intros o x. destruct (IHk o x srv (h ++ t)) as [t' E]. destruct (meaning (k o x) srv (h ++ t)) as [[es2 c2] h2].
      cbn [snd] in E |- *. subst. exists (t ++ t'). now rewrite app_assoc. }
    destruct c0 as [y|a|e t']; [apply K|apply K|]. destruct c; [apply K|]. now exists t.
Qed.

(** A program that is executed inside a block appends its entries to the report of the block and
    leaves the blocks around it unchanged. *)
Theorem exec_meaning {X} (p : prog X) : forall srv f rest n h, exists n',
  exec p srv (MState (f :: rest) n) h =
    (snd (fst (meaning p srv h)), MState (Frame (f_id f) (appends (f_result f) (fst (fst (meaning p srv h)))) :: rest) n',
     snd (meaning p srv h)).
Proof.
  assert (eta : forall f, f = Frame (f_id f) (appends (f_result f) [])) by now intros [].
  induction p as [X x|X r k IH|X r|X e t|X s k IH|X Y r c body IHb k IHk]; intros srv f rest n h; cbn [exec meaning].
  - exists n. cbn [fst snd]. now rewrite <- eta.
  - unfold write. cbn [stack next_id]. cbn [append_top].
    destruct (IH srv (Frame (f_id f) (append (f_result f) r)) rest n h) as [n' E]. exists n'. rewrite E.
    destruct (meaning k srv h) as [[es c] h1]. reflexivity.
  - exists n. cbn [fst snd]. now rewrite <- eta.
  - exists n. cbn [fst snd]. now rewrite <- eta.
  - apply IH.
  - cbn [next_id stack].
    destruct (IHb srv (Frame n r) (f :: rest) (S n) h) as [n1 E]. rewrite E. clear E.
    destruct (meaning body srv h) as [[es c0] h1]. cbn [fst snd f_id f_result].
    unfold with_start. cbn [next_id stack f_id f_result]. rewrite Nat.eqb_refl. cbn [negb].
    assert (K : forall o x, exists n', exec (k o x) srv (MState (append_top x (f :: rest)) n1) h1 =
        (snd (fst (let '(es2, c2, h2) := meaning (k o x) srv h1 in (x :: es2, c2, h2))),
         MState (Frame (f_id f) (appends (f_result f) (fst (fst (let '(es2, c2, h2) := meaning (k o x) srv h1 in (x :: es2, c2, h2))))) :: rest) n',
         snd (let '(es2, c2, h2) := meaning (k o x) srv h1 in (x :: es2, c2, h2)))).
    { intros o x. cbn [append_top].
      destruct (IHk o x srv (Frame (f_id f) (append (f_result f) x)) rest n1 h1) as [n' E]. exists n'. rewrite E.
      destruct (meaning (k o x) srv h1) as [[es2 c2] h2]. reflexivity. }
    destruct c0 as [y|a|e t'].
    + apply K.
    + rewrite appends_app. cbn [appends fold_left]. apply K.
    + destruct c.
      * rewrite appends_app. cbn [appends fold_left]. apply K.
      * exists n1. cbn [fst snd]. now rewrite <- eta.
Qed.

(** The same for a program that consists of one block and is executed outside of all blocks:
    afterwards no block is open. *)
Theorem exec_block {X Y} (r : result) (body : prog Y) (g : option Y -> result -> X) srv n h : exists n',
  exec (PWith r false body (fun o x => PRet (g o x))) srv (MState [] n) h =
    (snd (fst (meaning (PWith r false body (fun o x => PRet (g o x))) srv h)), MState [] n',
     snd (meaning (PWith r false body (fun o x => PRet (g o x))) srv h)).
Proof.
  cbn [exec meaning next_id stack].
  destruct (exec_meaning body srv (Frame n r) [] (S n) h) as [n1 E]. rewrite E. clear E.
  destruct (meaning body srv h) as [[es c0] h1]. cbn [fst snd f_id f_result].
  unfold with_start. cbn [next_id stack f_id f_result]. rewrite Nat.eqb_refl. cbn [negb append_top exec meaning].
  exists n1. destruct c0 as [y|a|e t]; cbn [fst snd]; try reflexivity.
  now rewrite appends_app.
Qed.

(** ** Laws *)
Definition andthen {X Y} (m : list result * ctl X * trace) (f : X -> trace -> list result * ctl Y * trace)
  : list result * ctl Y * trace :=
  let '(es, c, h) := m in
  match c with
  | Ret x => let '(es2, c2, h2) := f x h in (es ++ es2, c2, h2)
  | Abort r => (es, Abort r, h)
  | Exc e t => (es, Exc e t, h)
  end.

Lemma meaning_bind {X Y} (p : prog X) (f : X -> prog Y) : forall srv h,
  meaning (pbind p f) srv h = andthen (meaning p srv h) (fun x h => meaning (f x) srv h).
Proof.
  induction p as [X x|X r k IH|X r|X e t|X s k IH|X Z r c body IHb k IHk]; intros srv h; cbn [pbind meaning].
  - cbn [andthen]. destruct (meaning (f x) srv h) as [[? ?] ?]. reflexivity.
  - rewrite IH. destruct (meaning k srv h) as [[es c] h1]. cbn [andthen]. destruct c; try reflexivity.
    destruct (meaning (f a) srv h1) as [[? ?] ?]. reflexivity.
  - reflexivity.
  - reflexivity.
  - apply IH.
  - destruct (meaning body srv h) as [[es c0] h1].
    assert (K : forall o x, (let '(es2, c2, h2) := meaning (pbind (k o x) f) srv h1 in (x :: es2, c2, h2)) =
      andthen (let '(es2, c2, h2) := meaning (k o x) srv h1 in (x :: es2, c2, h2)) (fun y h => meaning (f y) srv h)).
    { intros o x. rewrite IHk. destruct (meaning (k o x) srv h1) as [[es2 c2] h2]. cbn [andthen].
      destruct c2; try reflexivity. destruct (meaning (f a) srv h2) as [[? ?] ?]. reflexivity. }
    destruct c0 as [y|a|e t]; [apply K|apply K|]. destruct c; [apply K|reflexivity].
Qed.

Lemma meaning_block {X} m (body : prog X) srv h :
  meaning (block m body) srv h =
    match meaning body srv h with
    | (es, Ret x, h1) => ([appends (new_result m INFO) es], Ret (Some x, appends (new_result m INFO) es), h1)
    | (es, Abort a, h1) => ([appends (new_result m INFO) (es ++ [a])], Ret (None, appends (new_result m INFO) (es ++ [a])), h1)
    | (es, Exc e t, h1) => ([], Exc e t, h1)
    end.
Proof. unfold block. cbn [meaning]. destruct (meaning body srv h) as [[es [x|a|e t]] h1]; reflexivity. Qed.

Lemma meaning_lift {X} (o : outcome X) srv h :
  meaning (lift o) srv h = match o with Val x => ([], Ret x, h) | Raise e => ([], Exc e [], h) end.
Proof. now destruct o. Qed.

Lemma rename_ret {X} e f (p : prog X) : forall srv h,
  let '(es, c, h1) := meaning p srv h in
  match c with
  | Exc e' t => exists es' e'' t', meaning (rename e f p) srv h = (es', Exc e'' t', h1)
  | _ => meaning (rename e f p) srv h = (es, c, h1)
  end.
Proof.
  induction p as [X x|X r k IH|X r|X e0 t|X s k IH|X Y r c body IHb k IHk]; intros srv h; cbn [rename meaning].
  - reflexivity.
  - specialize (IH srv h). destruct (meaning k srv h) as [[es c] h1]. destruct c as [a|a|e' t].
    + now rewrite IH.
    + now rewrite IH.
    + destruct IH as (es' & e'' & t' & E). rewrite E. eauto.
  - reflexivity.
  - destruct (exn_eq_dec e0 e); cbn [meaning]; eauto.
  - apply IH.
  - assert (K : forall o x h1, let '(es2, c2, h2) := let '(es2, c2, h2) := meaning (k o x) srv h1 in (x :: es2, c2, h2) in
       match c2 with
       | Exc e' t => exists es' e'' t', (let '(es3, c3, h3) := meaning (rename e f (k o x)) srv h1 in (x :: es3, c3, h3)) = (es', Exc e'' t', h2)
       | _ => (let '(es3, c3, h3) := meaning (rename e f (k o x)) srv h1 in (x :: es3, c3, h3)) = (es2, c2, h2)
       end).
    { intros o x h1. specialize (IHk o x srv h1). destruct (meaning (k o x) srv h1) as [[es2 c2] h2]. destruct c2 as [a|a|e' t].
      - now rewrite IHk.
      - now rewrite IHk.
      - destruct IHk as (es' & e'' & t' & E). rewrite E. eauto. }
    destruct c.
    + destruct (meaning body srv h) as [[es c0] h1]. destruct c0; apply K.
    + specialize (IHb srv h). destruct (meaning body srv h) as [[es c0] h1]. destruct c0 as [a|a|e' t].
      * rewrite IHb. apply K.
      * rewrite IHb. apply K.
      * destruct IHb as (es' & e'' & t' & E). rewrite E. eauto.
Qed.
