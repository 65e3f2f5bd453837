From Coq Require Import List NArith ZArith Bool.
From Coq Require Import String. Open Scope list_scope.
From Verif Require Import PyStr PyBase ResultModel ContextModel ContextSpec ResultFacts.
Import ListNotations.

Lemma exec_refines c : forall f rest n, exists n',
  exec c (MState (f :: rest) n)
  = (snd (meaning c), MState (Frame (f_id f) (appends (f_result f) (fst (meaning c))) :: rest) n').
Proof.
  induction c as [|a IHa b IHb|r|r|e t|r catch body IH|body IHb e h IHh]; intros [i r0] rest n; simpl.
  - eexists; reflexivity.
  - destruct (IHa (Frame i r0) rest n) as [n1 H1]. unfold bind. rewrite H1.
    destruct (meaning a) as [es [u|x|ee tt_]] eqn:Ea; simpl in *.
    + destruct (IHb (Frame i (appends r0 es)) rest n1) as [n2 H2]. rewrite H2. simpl.
      rewrite appends_app. eexists; reflexivity.
    + eexists; reflexivity.
    + eexists; reflexivity.
  - eexists. reflexivity.
  - eexists; reflexivity.
  - eexists; reflexivity.
  - unfold bind, with_start. simpl.
    destruct (IH (Frame n r) (Frame i r0 :: rest) (S n)) as [n1 H1]. rewrite H1. simpl.
    rewrite Nat.eqb_refl. simpl.
    destruct (meaning body) as [es [u|x|ee tt_]] eqn:Eb; simpl in *.
    + eexists. reflexivity.
    + rewrite appends_snoc. eexists; reflexivity.
    + destruct catch; simpl.
      * rewrite appends_snoc. eexists; reflexivity.
      * eexists; reflexivity.
  - destruct (IHb (Frame i r0) rest n) as [n1 H1]. rewrite H1.
    destruct (meaning body) as [es [u|x|ee tt_]] eqn:Eb; simpl in *.
    + eexists; reflexivity.
    + eexists; reflexivity.
    + destruct (exn_eq_dec ee e).
      * destruct (IHh (Frame i (appends r0 es)) rest n1) as [n2 H2]. rewrite H2. simpl.
        rewrite appends_app. eexists; reflexivity.
      * eexists; reflexivity.
Qed.

Lemma exec_toplevel c : forall n, exists n', exec c (MState [] n) = (toplevel c, MState [] n').
Proof.
  induction c as [|a IHa b IHb|r|r|e t|r catch body IH|body IHb e h IHh]; intros n; simpl.
  - eexists; reflexivity.
  - destruct (IHa n) as [n1 H1]. unfold bind. rewrite H1. destruct (toplevel a); try (eexists; reflexivity). apply IHb.
  - eexists; reflexivity.
  - eexists; reflexivity.
  - eexists; reflexivity.
  - unfold bind, with_start. simpl.
    destruct (exec_refines body (Frame n r) [] (S n)) as [n1 H1]. rewrite H1. simpl.
    rewrite Nat.eqb_refl. simpl.
    destruct (meaning body) as [es [u|x|ee tt_]] eqn:Eb; simpl in *; try (eexists; reflexivity).
    destruct catch; simpl; eexists; reflexivity.
  - destruct (IHb n) as [n1 H1]. rewrite H1.
    destruct (toplevel body); try (eexists; reflexivity).
    destruct (exn_eq_dec e0 e); [apply IHh|eexists; reflexivity].
Qed.

(** A block whose body aborts. *)
Lemma with_abort r catch pre a post k f rest n :
  snd (meaning pre) = Ret tt ->
  exists n', exec (CSeq (CWith r catch (CSeq pre (CSeq (CAbort a) post))) k) (MState (f :: rest) n)
    = (snd (meaning k),
       MState (Frame (f_id f)
         (appends (append (f_result f) (append (appends r (fst (meaning pre))) a)) (fst (meaning k))) :: rest) n').
Proof.
  intros Hp. destruct (exec_refines (CSeq (CWith r catch (CSeq pre (CSeq (CAbort a) post))) k) f rest n) as [n' H].
  exists n'. rewrite H. simpl. destruct (meaning pre) as [es x]; simpl in *. subst x. simpl.
  rewrite app_nil_r. rewrite appends_cons, appends_snoc. reflexivity.
Qed.
