(** The requests of an operation that ends with an exception: up to the last one they are those of a run without. *)
From Coq Require Import PeanoNat String List NArith ZArith Bool Lia.
From Verif Require Import PyStr PyStrFacts PyBase PyVal ResultModel ResultFacts ContextModel HttpModel ConfigModel ReflectModel
  AdapterModel ProgModel ProgSpec ProgFacts ApiModel ApiSpec ApiSuites ApiFacts ApiBody ApiFacts2 ApiFacts3 TestSpec TestFacts TestFacts2 CrashSpec CrashFacts CrashFacts2.
From Verif Require P_Tests.
Import ListNotations.
Local Open Scope string_scope.
Local Open Scope list_scope.

(** ** The answers in a trace are those of the server *)
Definition Honest (srv : server) (h t : trace) : Prop := forall t1 s y t2, t = t1 ++ (s, y) :: t2 -> y = srv (h ++ t1) s.
Lemma honest_app srv h t t' : Honest srv h t -> Honest srv (h ++ t) t' -> Honest srv h (t ++ t').
Proof.
  intros H1 H2 t1 s y t2 E. revert t1 E H1 H2. revert h. induction t as [|[s0 y0] t IH]; cbn [app]; intros h t1 E H1 H2.
  - rewrite app_nil_r in H2. eapply H2. exact E.
  - destruct t1 as [|x t1]; cbn [app] in E.
    + eapply H1. cbn [app]. injection E as -> -> _. reflexivity.
    + injection E as <- E. replace (h ++ (s0, y0) :: t1) with ((h ++ [(s0, y0)]) ++ t1) by now rewrite <- app_assoc.
      apply (IH _ _ E).
      * intros u1 s' y' u2 ->. specialize (H1 ((s0, y0) :: u1) s' y' u2 eq_refl). now rewrite <- app_assoc.
      * intros u1 s' y' u2 ->. specialize (H2 u1 s' y' u2 eq_refl). rewrite <- !app_assoc. rewrite <- app_assoc in H2. exact H2.
Qed.
Lemma meaning_honest {X} (p : prog X) srv : forall h, exists t, snd (meaning p srv h) = h ++ t /\ Honest srv h t.
Proof.
  assert (Z : forall h, Honest srv h []) by (intros h [|? ?]; discriminate).
  induction p as [X x|X r p IH|X r|X e m|X s k IH|X Y r ca body IHb k IHk]; intros h; cbn [meaning].
  - exists []. now rewrite app_nil_r.
  - destruct (IH h) as (t & E & H). exists t. destruct (meaning p srv h) as [[es c] h1]. now split.
  - exists []. now rewrite app_nil_r.
  - exists []. now rewrite app_nil_r.
  - destruct (IH (srv h s) (h ++ [(s, srv h s)])) as (t & E & H). exists ([(s, srv h s)] ++ t). rewrite E, app_assoc. split; [reflexivity|]. apply honest_app; [|exact H].
    intros [|? [|? ?]] s' y' t2 Q; try discriminate Q. injection Q as <- <- _. now rewrite app_nil_r.
  - destruct (IHb h) as (t & E & H). destruct (meaning body srv h) as [[es c] h1]. cbn [snd] in E. subst h1.
    assert (Q : forall o x, exists t', snd (let '(es2, c2, h2) := meaning (k o x) srv (h ++ t) in (x :: es2, c2, h2)) = h ++ t' /\ Honest srv h t').
    { intros o x. destruct (IHk o x (h ++ t)) as (t' & E & H'). destruct (meaning (k o x) srv (h ++ t)) as [[es2 c2] h2]. cbn [snd] in *. exists (t ++ t').
      rewrite E, app_assoc. split; [reflexivity|]. now apply honest_app. }
    destruct c as [y|a|e m]; [apply Q..|]. destruct ca; [apply Q|]. now exists t.
Qed.

(** ** A server that breaks down after some exchanges *)
Definition down : reply := Response 500 None (NoJson []).
Definition cut (n : nat) (srv : server) : server := fun h s => if (List.length h <? n)%nat then srv h s else down.
Definition Parts (n : nat) (h1 h2 : trace) : Prop :=
  exists t s y t1 t2, h1 = t ++ (s, y) :: t1 /\ h2 = t ++ (s, down) :: t2 /\ List.length t = n.
Lemma parts_app n h1 h2 t1 t2 : Parts n h1 h2 -> Parts n (h1 ++ t1) (h2 ++ t2).
Proof. intros (t & s & y & u1 & u2 & -> & -> & L). exists t, s, y, (u1 ++ t1), (u2 ++ t2). rewrite <- !app_assoc. auto. Qed.
Lemma cut_meaning {X} (p : prog X) srv n : forall h, List.length h <= n ->
  (List.length (snd (meaning p srv h)) <= n /\ meaning p (cut n srv) h = meaning p srv h) \/ Parts n (snd (meaning p srv h)) (snd (meaning p (cut n srv) h)).
Proof.
  induction p as [X x|X r p IH|X r|X e m|X s k IH|X Y r ca body IHb k IHk]; intros h L; cbn [meaning]; [now left| |now left|now left| |].
  - destruct (IH h L) as [[L' E]|P]; [left|right].
    + rewrite E. destruct (meaning p srv h) as [[es c] h1]. now split.
    + destruct (meaning p srv h) as [[es c] h1], (meaning p (cut n srv) h) as [[es' c'] h1']. exact P.
  - destruct (Nat.eq_dec (List.length h) n) as [E|N].
    + right. assert (C : cut n srv h s = down). { unfold cut. replace (List.length h <? n)%nat with false; [reflexivity|]. symmetry. apply Nat.ltb_ge. lia. } rewrite C.
      destruct (meaning_trace (k (srv h s)) srv (h ++ [(s, srv h s)])) as [t1 ->]. destruct (meaning_trace (k down) (cut n srv) (h ++ [(s, down)])) as [t2 ->].
      exists h, s, (srv h s), t1, t2. rewrite <- !app_assoc. auto.
    + assert (C : cut n srv h s = srv h s). { unfold cut. replace (List.length h <? n)%nat with true; [reflexivity|]. symmetry. apply Nat.ltb_lt. lia. } rewrite C.
      apply IH. rewrite app_length. cbn [List.length]. lia.
  - destruct (IHb h L) as [[L' E]|P].
    + rewrite E. destruct (meaning body srv h) as [[es c] h1]. cbn [snd] in L'.
      assert (Q : forall o x, let f srv := let '(es2, c2, h2) := meaning (k o x) srv h1 in (x :: es2, c2, h2) in
        (List.length (snd (f srv)) <= n /\ f (cut n srv) = f srv) \/ Parts n (snd (f srv)) (snd (f (cut n srv)))).
      { intros o x. cbv zeta. destruct (IHk o x h1 L') as [[L2 E2]|P]; [left|right].
        - rewrite E2. destruct (meaning (k o x) srv h1) as [[es2 c2] h2]. now split.
        - destruct (meaning (k o x) srv h1) as [[es2 c2] h2], (meaning (k o x) (cut n srv) h1) as [[es2' c2'] h2']. exact P. }
      destruct c as [y|a|e m]; [apply Q..|]. destruct ca; [apply Q|]. now left.
    + right. destruct (meaning body srv h) as [[es c] h1], (meaning body (cut n srv) h) as [[es' c'] h1']. cbn [snd] in P.
      assert (Q : forall srv' h' o x, exists t, snd (let '(es2, c2, h2) := meaning (k o x) srv' h' in (x :: es2, c2, h2)) = h' ++ t).
      { intros srv' h' o x. destruct (meaning_trace (k o x) srv' h') as [t E]. exists t. destruct (meaning (k o x) srv' h') as [[es2 c2] h2]. exact E. }
      match goal with |- Parts n (snd ?A) (snd ?B) => enough (H : (exists t, snd A = h1 ++ t) /\ (exists t, snd B = h1' ++ t)) end.
      { destruct H as [[t1 ->] [t2 ->]]. now apply parts_app. }
      split.
      * destruct c as [y|a|e m]; [apply Q..|]. destruct ca; [apply Q|]. exists []. cbn [snd]. now rewrite app_nil_r.
      * destruct c' as [y|a|e m]; [apply Q..|]. destruct ca; [apply Q|]. exists []. cbn [snd]. now rewrite app_nil_r.
Qed.

Lemma app_same {A} (a b x y : list A) : a ++ x = b ++ y -> List.length a = List.length b -> a = b /\ x = y.
Proof.
  revert b. induction a as [|z a IH]; intros [|z' b]; cbn [app List.length]; intros E L; [now split|lia|lia|].
  injection E as <- E. destruct (IH b E) as [<- <-]; [lia|now split].
Qed.
Section Run.
  Variable show : json -> str.
  Variable repr : str -> str.
  Variable c0 : client.
  Notation Breaks := (Breaks show repr c0).

  Lemma operation_due profile en row mat srv h es e m t' s y : Breaks en row -> fits_row show repr c0 en row -> good_entry en ->
    meaning (check_operation false c0 profile en mat) srv h = (es, Exc e m, h ++ t' ++ [(s, y)]) -> Due c0 row t' s.
  Proof.
    intros B F G E. set (n := List.length (h ++ t')).
    destruct (cut_meaning (check_operation false c0 profile en mat) srv n h) as [[L _]|P]; [unfold n; rewrite app_length; lia| |]; rewrite E in *; cbn [snd] in *.
    { unfold n in L. rewrite !app_length in L. cbn [List.length] in L. lia. }
    destruct P as (t & s1 & y1 & u1 & u2 & Q1 & Q2 & L).
    assert (Q : t = h ++ t' /\ s1 = s).
    { rewrite app_assoc in Q1. destruct (app_same _ _ _ _ (eq_sym Q1) L) as [-> Q]. now injection Q as -> _ _. }
    destruct Q as [-> ->]. pose proof (operation_noabort false c0 profile en mat (cut n srv) h) as N.
    pose proof (operation_crash show repr c0 profile en row mat B (cut n srv) h) as C. pose proof (meaning_honest (check_operation false c0 profile en mat) (cut n srv) h) as H.
    destruct (meaning (check_operation false c0 profile en mat) (cut n srv) h) as [[es1 [m1|a|e1 t1]] h2] eqn:E1; cbn [snd] in Q2; subst h2.
    - eapply operation_conducted in E1; [|eassumption..]. destruct E1 as (r & t0 & -> & Q & k & _ & Co). rewrite <- app_assoc in Q. apply app_inv_head in Q. subst t0.
      exists down, u2, r. now apply P_Tests.conducted_any in Co.
    - now destruct (N a).
    - exfalso. destruct C as (t & Q & (t2 & s2 & y2 & -> & Ca)). destruct H as (t3 & Q' & H). cbn [snd] in Q'. rewrite <- app_assoc in *.
      apply app_inv_head in Q. apply app_inv_head in Q'. subst t3.
      assert (Y : y2 = down).
      { rewrite (H _ _ _ _ Q). unfold cut. replace (_ <? n)%nat with false; [reflexivity|]. symmetry. apply Nat.ltb_ge. unfold n. apply (f_equal (@List.length _)) in Q.
        rewrite !app_length in *. cbn [List.length] in Q. lia. }
      subst y2. inversion Ca.
  Qed.
  Lemma operations_crash f profile l rows : Forall2 Breaks l rows -> Forall2 (fits_row show repr c0) l rows -> Forall good_entry l -> forall mat srv h es e m h1,
    meaning (check_operations false f c0 profile l mat) srv h = (es, Exc e m, h1) ->
    exists rows1 row rows2 pieces t, chosen_rows f rows = rows1 ++ row :: rows2 /\ h1 = h ++ List.concat pieces ++ t /\
      Forall2 (fun row t' => exists r, Judged_row show repr c0 profile row r t') rows1 pieces /\ Crash show repr row t e m /\ (exists t' s y, t = t' ++ [(s, y)] /\ Due c0 row t' s).
  Proof.
    intros B F. revert B. induction F as [|en row l rows A F IH]; cbn [check_operations chosen_rows filter]; intros B G mat srv h es e m h1 E; [discriminate|].
    apply Forall_cons_iff in G. destruct G as [G1 G2]. fold (chosen_rows f rows). inversion B as [|? ? ? ? B1 B2]; subst. pose proof (proj1 A) as Nm. rewrite Nm in E.
    destruct (selected f (lit (ro_name row))); [|exact (IH B2 G2 _ _ _ _ _ _ _ E)].
    rewrite meaning_bind in E. destruct (meaning (check_operation false c0 profile en mat) srv h) as [[es1 [m1|a|e1 t1]] h2] eqn:E1; cbn [andthen] in E.
    - destruct (meaning (check_operations false f c0 profile l m1) srv h2) as [[es2 c2] h3] eqn:E2. injection E as <- -> ->.
      apply IH in E2; [|assumption..]. destruct E2 as (rows1 & row' & rows2 & pieces & t & -> & -> & Fp & C).
      eapply operation_conducted in E1; [|eassumption..]. destruct E1 as (r & t0 & -> & -> & Ju).
      exists (row :: rows1), row', rows2, (t0 :: pieces), t. split; [reflexivity|]. cbn [List.concat]. split; [now rewrite <- !app_assoc|]. split; [|exact C].
      constructor; eauto.
    - discriminate E.
    - injection E as <- <- <- <-. pose proof (operation_crash show repr c0 profile en row mat B1 srv h) as P. rewrite E1 in P. destruct P as (t & -> & C).
      exists [], row, (chosen_rows f rows), [], t. repeat split; [constructor|exact C|]. destruct C as (t' & s & y & -> & _). exists t', s, y. split; [reflexivity|].
      eapply operation_due; eassumption.
  Qed.
End Run.
