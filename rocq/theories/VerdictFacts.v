(** The exchanges with a server decide on its verdict. *)
From Coq Require Import PeanoNat String List NArith ZArith Bool Lia.
From Verif Require Import PyStr PyStrFacts PyBase PyVal ResultModel ResultFacts ContextModel HttpModel ConfigModel ReflectModel CheckModel
  ProgModel ProgSpec ProgFacts ApiModel ApiSpec ApiSuites ApiFacts TestSpec ApiPart VerdictSpec TestFacts TestFacts2 TestFacts3.
Import ListNotations.
Local Open Scope list_scope.

Lemma entry_ok title subs r : entry_of title subs r -> ok r = forallb ok subs.
Proof.
  intros (_ & _ & L). transitivity (ok (appends (new_result title INFO) subs)); [|now rewrite ok_appends].
  unfold ok. rewrite L. now rewrite appends_level.
Qed.
Lemma app_same {A} (a b x y : list A) : a ++ x = b ++ y -> List.length a = List.length b -> a = b /\ x = y.
Proof.
  revert b. induction a as [|z a IH]; intros [|z' b]; cbn [app List.length]; intros E L; [now split|lia|lia|].
  injection E as <- E. destruct (IH b E) as [<- <-]; [lia|now split].
Qed.
Lemma same_length {A B} (R : A -> B -> Prop) la lb : Forall2 R la lb -> List.length la = List.length lb.
Proof. induction 1; cbn [List.length]; congruence. Qed.
Lemma third_length {A B C} (R : A -> B -> C -> Prop) la lb lc : Forall3 R la lb lc -> List.length la = List.length lc.
Proof. induction 1; cbn [List.length]; congruence. Qed.

(** ** What is expected of the answers in a setup is determined *)
Fixpoint agreeb (a b : str) : bool :=
  match a, b with x :: a, y :: b => N.eqb x y && agreeb a b | _, _ => true end.
Lemma agree_true a : forall b x y, a ++ x = b ++ y -> agreeb a b = true.
Proof.
  induction a as [|c a IH]; intros [|d b] x y; cbn [agreeb app]; try reflexivity. intros E.
  assert (c = d) by congruence. subst d. rewrite N.eqb_refl. apply (IH b x y). congruence.
Qed.
Definition apart : bool := forallb (fun p => forallb (fun q => implb (agreeb (rev (lit (fst p))) (rev (lit (fst q)))) (String.eqb (fst p) (fst q))) setup_answers) setup_answers.
Lemma answers_apart : apart = true.
Proof. vm_compute. reflexivity. Qed.
Lemma once_listed {A B} (eqb : A -> A -> bool) (l : list (A * B)) : (forall a b, eqb a b = true <-> a = b) ->
  NoDup (List.map fst l) -> forall a b b', In (a, b) l -> In (a, b') l -> b = b'.
Proof.
  intros Q. induction l as [|[a1 b1] l IH]; cbn [List.map In fst]; [intros _ a b b' []|]. intros N a b b'. inversion N as [|? ? N1 N2]; subst.
  intros [E|I] [E'|I']; [congruence|..].
  - injection E as -> ->. exfalso. apply N1. apply (in_map fst) in I'. exact I'.
  - injection E' as -> ->. exfalso. apply N1. apply (in_map fst) in I. exact I.
  - eauto.
Qed.
Lemma expects_unique r b b' : Expects r b -> Expects r b' -> b = b'.
Proof.
  intros (r1 & x1 & w1 & -> & I1) (r2 & x2 & w2 & E & I2). apply app_inj_tail in E. destruct E as [_ E].
  assert (E' : rev (x1 ++ lit w1) = rev (x2 ++ lit w2)) by congruence. rewrite !rev_app_distr in E'. apply agree_true in E'.
  pose proof answers_apart as A. unfold apart in A. rewrite forallb_forall in A. specialize (A _ I1). cbn beta in A. rewrite forallb_forall in A. specialize (A _ I2). cbn [fst] in A.
  rewrite E' in A. cbn [implb] in A. apply String.eqb_eq in A. subst w2. apply (once_listed String.eqb setup_answers String.eqb_eq) with (a := w1); [|assumption..].
  clear. cbv [setup_answers List.map fst]. repeat constructor; cbn [In]; intros H; repeat (destruct H as [H|H]; [discriminate H|]); exact H.
Qed.

(** ** A report and the exchanges agree *)
(** If the report is good, then the exchanges are right; and if the exchanges begin with right ones, then these are all of them, and the
    report is good. *)
Definition Agree (good : bool) (t : trace) (R : trace -> Prop) : Prop :=
  (good = true -> R t) /\ forall u x y, R u -> t ++ x = u ++ y -> good = true /\ t = u.
Lemma agree_list {A} (R : A -> trace -> Prop) la : forall rs ts, Forall3 (fun a r t => Agree (ok r) t (R a)) la rs ts ->
  Agree (forallb ok rs) (List.concat ts) (fun t => exists us, t = List.concat us /\ Forall2 R la us).
Proof.
  intros rs ts F. split.
  - intros O. exists ts. split; [reflexivity|]. induction F as [|a r t la rs ts [P _] F IH]; constructor; cbn [forallb] in O; apply andb_true_iff in O; destruct O as [O1 O2]; auto.
  - intros u x y (us & -> & G). revert us x y G. induction F as [|a r t la rs ts [_ P] F IH]; intros us x y G E; inversion G as [|? u1 ? us1 G1 G2]; subst; [now split|].
    cbn [List.concat] in *. rewrite <- !app_assoc in E. destruct (P _ _ _ G1 E) as [O ->]. apply app_inv_head in E. destruct (IH _ _ _ G2 E) as [O' ->].
    cbn [forallb]. rewrite O. auto.
Qed.

Section Verdict.
  Variable show : json -> str.
  Variable repr : str -> str.
  Variable c0 : client.
  Variable suite : str.

  Lemma right_answer a k cl t0 r y : type_of_answer a k -> Verdict a (Accepts show repr k) (Spotless show repr k) suite cl t0 r y ->
    (ok r = true <-> Right_answer show repr a suite t0 cl y).
  Proof.
    intros T V. assert (Q : forall claimed : json -> Prop, Passes a (Accepts show repr k) claimed y <->
      Passes a (match a with Checked b _ => Complies show repr b | Unchecked _ => fun _ => True end) claimed y).
    { intros claimed. destruct a as [b e|e]; [|reflexivity]. cbn [type_of_answer] in T. pose proof (fun j => provides_exact show repr k b j T) as P.
      cbn [Passes]. split; intros (ct & j & E & C & A & H); exists ct, j; (split; [exact E|]; split; [exact C|]; split; [now apply P|exact H]). }
    destruct cl; cbn [Verdict Right_answer] in *; try (rewrite <- Q; apply V). apply V.
  Qed.
  Lemma agree_asked {A} (given : option A) S V V' r t : Asked_if given S V r t -> (forall y, V y -> (ok r = true <-> V' y)) -> Agree (ok r) t (Granted given S V').
  Proof.
    intros H I. destruct given as [z|]; cbn [Asked_if Granted] in *.
    - destruct H as (s & y & -> & Ss & Vy). apply I in Vy. split.
      + intros O. exists s, y. split; [reflexivity|]. split; [exact Ss|now apply Vy].
      + intros u x z' (s' & y' & -> & _ & V2) E. cbn [app] in E. assert ((s, y) = (s', y')) by congruence. split; [|congruence]. apply Vy. congruence.
    - destruct H as [-> L]. split; [reflexivity|]. intros u x y -> _. split; [|reflexivity]. unfold ok. now rewrite L.
  Qed.
  Lemma forall3_map {A B C} (R R' : A -> B -> C -> Prop) la lb lc : (forall a b c, In b lb -> R a b c -> R' a b c) -> Forall3 R la lb lc -> Forall3 R' la lb lc.
  Proof. intros I F. induction F as [|a b c la lb lc H F IH]; constructor; [apply I; [now left|exact H]|]. apply IH. intros a' b' c' J. apply I. now right. Qed.
  Lemma agree_test row k t0 test r t : type_of_answer (answer_to (lit (ro_name row))) k -> summed r ->
    Exchanges c0 (verdict show repr row k suite) (ro_path row) t0 test r t -> Agree (ok r) t (Right show repr c0 suite row t0 test).
  Proof.
    intros T Su X. unfold Exchanges, Right in *. unfold verdict in X.
    destruct (ch_times test) as [|src| |n ty|n supported].
    - apply (agree_asked (Some tt) _ _ _ _ _ X). intros y. now apply right_answer.
    - apply (agree_asked _ _ _ _ _ _ X). intros y. now apply right_answer.
    - destruct X as [-> L]. split; [reflexivity|]. intros u x y -> _. split; [|reflexivity]. unfold ok. now rewrite L.
    - apply (agree_asked _ _ _ _ _ _ X). intros y. now apply right_answer.
    - destruct X as (ts & -> & F). rewrite Su. apply agree_list. revert F. apply forall3_map. intros ty x t' _ [_ A].
      apply (agree_asked _ _ _ _ _ _ A). intros y. now apply right_answer.
  Qed.
  Lemma agree_negative row t0 la : forall rs ts, Forall3 (Negative c0 t0 row) la rs ts ->
    (forallb ok rs = true <-> Forall2 (fun w x => Wrong_request c0 t0 row w (fst x) /\ Rejected (snd x)) la ts).
  Proof.
    induction 1 as [|w r x la rs ts (_ & Wr & O & _) F IH]; cbn [forallb].
    - split; constructor.
    - rewrite andb_true_iff, O, IH. split; [intros [A B]; constructor; auto|]. intros G. inversion G; subst. tauto.
  Qed.
  Lemma supplied_at l1 k l2 t s y t0 u : Supplied show repr (l1 ++ k :: l2) t0 -> List.length t = List.length l1 -> (exists x, t ++ (s, y) :: x = t0 ++ u) ->
    exists b, Expects (fst k) b /\ Provides show repr b y.
  Proof.
    intros Su L [x E]. apply Forall2_app_inv_l in Su. destruct Su as (a & b & Sa & Sb & ->). inversion Sb as [|? [s' y'] ? b' P Sc]; subst.
    rewrite <- app_assoc in E. apply same_length in Sa. destruct (app_same _ _ _ _ E) as [-> E2]; [lia|]. cbn [app] in E2. assert (y = y') by congruence. now subst y'.
  Qed.
  Lemma agree_operation row r t : Course_row show repr c0 suite row r t -> Agree (ok r) t (Upright show repr c0 suite row).
  Proof.
    intros (k & T & C). destruct C as [setup l1 k' l2 b t' s y E O L Tr S Su X N|setup neg pos t0 t1 t2 E O Tr S Su Ng Ps Sn Sp Ss].
    - rewrite (entry_ok _ _ _ E). cbn [forallb]. rewrite O. cbn [andb]. split; [discriminate|]. intros u x z (u0 & u1 & u2 & -> & _ & Su' & _) Q. exfalso. rewrite L in Su'.
      destruct (supplied_at l1 k' l2 t' s y u0 ((u1 ++ List.concat u2) ++ z) Su') as (b' & X' & P).
      + now apply same_length in Su.
      + exists x. subst t. rewrite <- !app_assoc in *. exact Q.
      + rewrite (expects_unique _ _ _ X' X) in P. exact (N P).
    - rewrite (entry_ok _ _ _ E). cbn [forallb]. rewrite O. cbn [andb]. rewrite andb_true_r, Sn, Sp. pose proof (agree_negative _ _ _ _ _ Ng) as An.
      assert (Ap : Agree (forallb ok (r_subs pos)) (List.concat t2) (fun t => exists us, t = List.concat us /\ Forall2 (Right show repr c0 suite row t0) (ro_tests row) us)).
      { apply agree_list. revert Ps. apply forall3_map. intros test x tr I [_ P]. apply (agree_test row k); [exact T| |exact P]. rewrite Forall_forall in Ss. now apply Ss. }
      destruct Ap as [A1 A2]. split.
      + rewrite andb_true_iff. intros [O1 O2]. destruct (A1 O2) as (us & Q & F). exists t0, t1, us. rewrite Tr, Q. repeat (split; [assumption || reflexivity|]).
        split; [now apply An|exact F].
      + intros u x y (u0 & u1 & u2 & -> & S' & Su' & N' & P') Q. rewrite Tr in *. rewrite <- !app_assoc in Q.
        destruct (app_same _ _ _ _ Q) as [<- Q1]; [apply same_length in Su; apply same_length in Su'; lia|].
        destruct (app_same _ _ _ _ Q1) as [<- Q2]; [apply third_length in Ng; apply same_length in N'; lia|].
        destruct (A2 (List.concat u2) x y) as [O2 <-]; [eauto|exact Q2|]. rewrite O2, (proj2 An N'). auto.
  Qed.
  Lemma agree_operations rows pieces : Forall2 (fun row rt => Course_row show repr c0 suite row (fst rt) (snd rt)) rows pieces ->
    Agree (forallb ok (List.map fst pieces)) (List.concat (List.map snd pieces)) (fun t => exists us, t = List.concat us /\ Forall2 (Upright show repr c0 suite) rows us).
  Proof.
    intros F. apply agree_list. induction F as [|row [r t] rows pieces H F IH]; cbn [List.map fst snd] in *; constructor; [|exact IH]. now apply agree_operation.
  Qed.
End Verdict.
