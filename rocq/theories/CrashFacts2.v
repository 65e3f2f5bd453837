(** The exceptions of the operations and of the whole check of a server. *)
From Coq Require Import PeanoNat String List NArith ZArith Bool Lia.
From Verif Require Import PyStr PyStrFacts PyBase PyVal ResultModel ResultFacts ContextModel HttpModel ConfigModel ReflectModel
  AdapterModel ProgModel ProgSpec ProgFacts ApiModel ApiSpec ApiSuites ApiFacts ApiBody ApiFacts2 ApiFacts3 TestSpec TestFacts TestFacts2 CrashSpec CrashFacts.
Import ListNotations.
Local Open Scope string_scope.
Local Open Scope list_scope.

Lemma runs_grave {X} (Q : trace -> exn -> str -> Prop) m (p : prog X) (R : trace -> X -> Prop) : Runs Q p R -> Grave p ->
  Runs Q (block m p) (fun t x => match fst x with Some y => R t y | None => ok (snd x) = false end).
Proof.
  intros P G srv h. rewrite meaning_block. specialize (P srv h). pose proof (meaning_trace p srv h) as T.
  destruct (meaning p srv h) as [[es1 [x|a|e t]] h1] eqn:E; cbn [fst snd].
  - destruct P as (t & -> & P). eauto.
  - destruct T as [t T]. cbn [snd] in T. exists t. split; [exact T|]. rewrite ok_appends, forallb_app. cbn [forallb]. rewrite (G _ _ _ _ _ E), andb_false_r. reflexivity.
  - exact P.
Qed.

Section Run.
  Variable show : json -> str.
  Variable repr : str -> str.
  Variable c0 : client.
  Notation Crash := (Crash show repr).

  Definition Breaks (e : entry) (row : row) : Prop := exists va, Suite_ends show repr row va (snd e) /\ forall profile,
    Steps show repr row 0 (List.length (ro_setup row)) (let! pre := fst e c0 in su_setup (snd e) (new_instance (descend c0 pre) profile)) (Sound_instance va).
  Lemma operation_crash profile e row mat : Breaks e row -> Runs (Crash row) (check_operation false c0 profile e mat) Any.
  Proof.
    intros (va & S & P). specialize (P profile). destruct e as [pp s]. cbn [fst snd] in *. unfold check_operation.
    eapply (runs_bind (Crash row) _ _ _ Any); [auto| |intros t [o r] _; now apply runs_ret]. eapply runs_weak; [| |apply runs_block]; [|now intros|].
    { intros t e m H. exact H. }
    eapply runs_bind; [| |]; [|exact (runs_grave _ _ _ _ (proj1 P) (proj2 P))|].
    - intros t e m H. exact H.
    - intros t [i setup]. cbn [fst snd]. intros H. destruct (ok setup) eqn:O; [|instantiate (1 := Any); now apply runs_ret].
      destruct i as [i|]; [|congruence]. destruct H as [L V].
      eapply (runs_bind (Late show repr row) _ _ _ Any); [|exact (suite_ends show repr row va s i S V)|intros; now apply runs_ret].
      intros t1 e m (t' & x & y & -> & C). exists (t ++ t'), x, y. split; [apply app_assoc|]. apply C. rewrite app_length. lia.
  Qed.
End Run.
