(** Facts about the command line tool. *)
From Coq Require Import PeanoNat String List NArith ZArith Bool Lia.
From Verif Require Import PyStr PyStrFacts PyBase ResultModel ContextModel ConfigModel HttpModel ProgModel ApiModel ApiSpec ApiSuites ApiFacts3
  ArgModel CliModel CliSpec ArgFacts.
Import ListNotations.
Local Open Scope nat_scope.
Local Open Scope list_scope.

(** ** Settings *)
Section Values.
  Context {V : Type}.
  Variable conv : str -> list str -> converted V.
  Lemma take_actions_parsed : forall ev ns0 ns, take_actions conv ev ns0 = Parsed ns ->
    exists vs, ns = rev vs ++ ns0 /\ Forall2 (fun e v => fst v = fst e /\ fst e <> help /\ conv (fst e) (snd e) = Converted (snd v)) ev vs.
  Proof.
    induction ev as [|[d a] ev IH]; cbn [take_actions]; intros ns0 ns E.
    - injection E as <-. exists []. split; [reflexivity|constructor].
    - destruct (str_eqb d help) eqn:H; [discriminate|]. destruct (conv d a) as [v| |] eqn:C; try discriminate.
      destruct (IH _ _ E) as (vs & -> & F). exists ((d, v) :: vs). split; [cbn [rev]; now rewrite <- app_assoc|].
      constructor; [|exact F]. cbn [fst snd]. split; [reflexivity|]. split; [|exact C]. intros ->. now rewrite str_eqb_refl in H.
  Qed.
  Lemma take_actions_dies : forall ev ns0 e, take_actions conv ev ns0 = ParserDies e ->
    exists d a, In (d, a) ev /\ conv d a = Crashed e.
  Proof.
    induction ev as [|[d a] ev IH]; cbn [take_actions]; intros ns0 e E; [discriminate|].
    destruct (str_eqb d help); [discriminate|]. destruct (conv d a) as [v| |x] eqn:C; [|discriminate|].
    - destruct (IH _ _ E) as (d' & a' & I & Q). exists d', a'. split; [now right|exact Q].
    - injection E as ->. exists d, a. split; [now left|exact C].
  Qed.
  Lemma take_actions_exits : forall ev ns0 n, take_actions conv ev ns0 = ParserExits n ->
    exists before d a after, ev = before ++ (d, a) :: after /\ Forall (fun e => exists v, conv (fst e) (snd e) = Converted v) before /\
      ((n = 0 /\ d = help) \/ (n = 2 /\ d <> help /\ conv d a = Refused)).
  Proof.
    induction ev as [|[d a] ev IH]; cbn [take_actions]; intros ns0 n E; [discriminate|].
    destruct (str_eqb d help) eqn:H.
    - injection E as <-. apply str_eqb_spec in H. exists [], d, a, ev. split; [reflexivity|]. split; [constructor|]. left. auto.
    - destruct (conv d a) as [v| |x] eqn:C; [| |discriminate].
      + destruct (IH _ _ E) as (b & d' & a' & r & -> & F & Q). exists ((d, a) :: b), d', a', r. split; [reflexivity|]. split; [|exact Q].
        constructor; [eauto|exact F].
      + injection E as <-. exists [], d, a, ev. split; [reflexivity|]. split; [constructor|]. right. split; [reflexivity|]. split; [|exact C].
        intros ->. now rewrite str_eqb_refl in H.
  Qed.
  Lemma lookup_rev_in (vs : list (str * V)) d : (exists v, In (d, v) vs) -> exists v, lookup d (rev vs) = Some v /\ In (d, v) vs.
  Proof.
    intros [v I]. assert (J : In (d, v) (rev vs)) by now apply -> in_rev.
    assert (exists v', lookup d (rev vs) = Some v' /\ In (d, v') (rev vs)) as (v' & L & K).
    { clear I. revert J. generalize (rev vs). induction l as [|[k x] l IH]; [intros []|]. cbn [lookup]. intros J. destruct (str_eqb d k) eqn:E.
      - apply str_eqb_spec in E. subst k. exists x. split; [reflexivity|now left].
      - destruct J as [J|J]; [injection J as -> ->; now rewrite str_eqb_refl in E|]. destruct (IH J) as (v' & L & K). exists v'. split; [exact L|now right]. }
    exists v'. split; [exact L|]. now apply in_rev.
  Qed.
  Lemma lookup_none (vs : list (str * V)) d : (forall v, ~ In (d, v) vs) -> lookup d vs = None.
  Proof.
    intros N. apply lookup_missing. intros I. apply in_map_iff in I. destruct I as ([k v] & E & I). cbn [fst] in E. subst k. exact (N v I).
  Qed.
  Lemma parse_parsed p argv ns : parse_args conv p argv = Parsed ns ->
    exists ev, scan_args p argv = (ev, Scanned [] []) /\ take_actions conv ev [] = Parsed ns.
  Proof.
    unfold parse_args. destruct (scan_args p argv) as [ev s]. destruct (take_actions conv ev []) as [ns'|n|e] eqn:T; [|discriminate|discriminate].
    destruct s as [|[|? ?] [|? ?]|]; try discriminate. intros [= <-]. exists ev. split; [reflexivity|exact T].
  Qed.
  (** each setting comes from an event *)
  Lemma parsed_setting p argv ns d v : parse_args conv p argv = Parsed ns -> lookup d ns = Some v ->
    exists ev a, scan_args p argv = (ev, Scanned [] []) /\ In (d, a) ev /\ conv d a = Converted v.
  Proof.
    intros P L. apply parse_parsed in P. destruct P as (ev & S & T). apply take_actions_parsed in T. destruct T as (vs & -> & F).
    exists ev. rewrite app_nil_r in L. assert (I : In (d, v) vs).
    { apply in_rev. revert L. generalize (rev vs). induction l as [|[k x] l IH]; [discriminate|]. cbn [lookup]. destruct (str_eqb d k) eqn:E.
      - intros [= ->]. apply str_eqb_spec in E. subst. now left.
      - intros L. right. auto. }
    revert I. clear - F S. intros I. assert (exists a, In (d, a) ev /\ conv d a = Converted v) as (a & J & C).
    { clear S. induction F as [|[d' a'] [k x] ev vs (Q1 & _ & Q2) F IH]; [destruct I|]. cbn [fst snd] in *. destruct I as [I|I].
      - injection I as -> ->. subst d'. exists a'. split; [now left|exact Q2].
      - destruct (IH I) as (a & J & C). exists a. split; [now right|exact C]. }
    exists a. auto.
  Qed.
  Lemma parsed_event p argv ns ev d a : parse_args conv p argv = Parsed ns -> scan_args p argv = (ev, Scanned [] []) -> In (d, a) ev ->
    exists v, lookup d ns = Some v.
  Proof.
    intros P S I. apply parse_parsed in P. destruct P as (ev' & S' & T). rewrite S in S'. injection S' as <-. apply take_actions_parsed in T.
    destruct T as (vs & -> & F). rewrite app_nil_r. assert (exists v, In (d, v) vs) as J.
    { clear S. induction F as [|[d' a'] [k x] ev vs (Q1 & _ & Q2) F IH]; [destruct I|]. cbn [fst snd] in *. destruct I as [I|I].
      - injection I as -> ->. subst k. exists x. now left.
      - destruct (IH I) as (v & J). exists v. now right. }
    destruct (lookup_rev_in _ _ J) as (v & L & _). eauto.
  Qed.
  Lemma parse_dies p argv e : parse_args conv p argv = ParserDies e -> exists d a, In (d, a) (fst (scan_args p argv)) /\ conv d a = Crashed e.
  Proof.
    unfold parse_args. destruct (scan_args p argv) as [ev s]. destruct (take_actions conv ev []) as [ns'|n|e'] eqn:T.
    - destruct s as [|[|? ?] [|? ?]|]; discriminate.
    - discriminate.
    - intros [= <-]. now apply take_actions_dies in T.
  Qed.
  Lemma parse_exits p argv n : parse_args conv p argv = ParserExits n ->
    (n = 0 /\ exists before after a, fst (scan_args p argv) = before ++ (help, a) :: after /\ Forall (fun e => exists v, conv (fst e) (snd e) = Converted v) before) \/
    n = 2.
  Proof.
    unfold parse_args. destruct (scan_args p argv) as [ev s]. cbn [fst]. destruct (take_actions conv ev []) as [ns'|n'|e'] eqn:T.
    - destruct s as [|[|? ?] [|? ?]|]; intros E; try discriminate; injection E as <-; now right.
    - intros [= <-]. apply take_actions_exits in T. destruct T as (b & d & a & r & -> & F & [(-> & ->)|(-> & _)]); [left|now right].
      split; [reflexivity|]. exists b, r, a. auto.
    - discriminate.
  Qed.
End Values.

(** ** Positional arguments of the three commands *)
Definition first_of (p : parser) : str := hd [] (positionals p).
Lemma parsed_positionals {V} (conv : str -> list str -> converted V) p argv ns : parse_args conv p argv = Parsed ns ->
  (forall o d n, In (o, (d, n)) (options p) -> ~ In d (positionals p)) -> NoDup (positionals p) ->
  (forall d, In d (positionals p) -> exists v, lookup d ns = Some v) /\
  (forall d r v, positionals p = d :: r -> lookup d ns = Some v -> exists s, conv d [s] = Converted v).
Proof.
  intros P NO ND. pose proof (parse_parsed _ _ _ _ P) as (ev & S & T). pose proof S as S'. unfold scan_args in S'.
  destruct (classify_all (options p) argv) as [l|] eqn:C; [|discriminate].
  assert (NO' : forall s f, In (s, Option f) l -> ~ In (f_dest f) (positionals p)).
  { intros s f I. destruct (classify_all_dest _ _ _ _ _ C I) as (o & J). eapply NO; eauto. }
  split.
  - intros d I. destruct (scan_positionals _ _ _ _ _ _ _ S') as (given & E & A & _). rewrite app_nil_r in E. subst given.
    destruct (A d I) as [a J]. eapply parsed_event; eauto.
  - intros d r v E L. rewrite E in *. destruct (parsed_setting _ _ _ _ _ _ P L) as (ev' & a & S2 & I & Q). rewrite S in S2. injection S2 as <-.
    inversion_clear ND. destruct (first_positional _ _ _ _ _ _ _ _ (classify_valid _ _ _ C) S') as [_ B]; [auto|auto| |].
    + intros s f J D. apply (NO' s f J). rewrite D. now left.
    + destruct (B a I) as [s ->]. eauto.
Qed.

(** ** Suites *)
Lemma suite_names_eq show repr : suite_names show repr = ssp_names.
Proof.
  unfold suite_names, ssp_names. pose proof (f_equal (List.map fst) (suites_described show repr)) as E. rewrite !map_map in E. cbn [fst] in E. exact E.
Qed.
Lemma ssp_names_distinct : NoDup ssp_names.
Proof. unfold ssp_names. vm_compute. repeat constructor; cbn; intuition discriminate. Qed.
Lemma filter_unique {A} (f : A -> bool) l x : NoDup l -> (filter f l = [x] <-> In x l /\ f x = true /\ forall y, In y l -> f y = true -> y = x).
Proof.
  intros ND. split.
  - intros E. assert (I : In x (filter f l)) by (rewrite E; now left). apply filter_In in I. destruct I as [I F]. split; [exact I|]. split; [exact F|].
    intros y J G. assert (K : In y (filter f l)) by (apply filter_In; auto). rewrite E in K. destruct K as [K|[]]. auto.
  - intros (I & F & U). apply NoDup_filter with (f := f) in ND. revert ND U.
    assert (J : In x (filter f l)) by (apply filter_In; auto).
    assert (All : (forall y, In y l -> f y = true -> y = x) -> forall y, In y (filter f l) -> y = x) by (intros U y K; apply filter_In in K; now apply U).
    revert J All. generalize (filter f l). intros m J All ND U. specialize (All U). destruct m as [|a [|b m]]; [destruct J|destruct J as [->|[]]; reflexivity|].
    exfalso. inversion_clear ND. apply H. left. rewrite (All a (or_introl eq_refl)), (All b (or_intror (or_introl eq_refl))). reflexivity.
Qed.
Lemma selects_spec s suite : filter (contains s) ssp_names = [suite] <-> Selects s suite.
Proof.
  rewrite (filter_unique _ _ _ ssp_names_distinct). unfold Selects, Substring. split.
  - intros (I & C & U). split; [exact I|]. split; [now apply contains_spec|]. intros other J S. apply U; [exact J|]. now apply contains_spec.
  - intros (I & C & U). split; [exact I|]. split; [now apply contains_spec|]. intros other J S. apply U; [exact J|]. now apply contains_spec.
Qed.

(** ** Output *)
Lemma print_all_ok f l : Forall (fun s => f s = true) l -> print_all f l = (l, true).
Proof. induction 1 as [|s l P F IH]; [reflexivity|]. cbn [print_all]. now rewrite P, IH. Qed.
Lemma print_all_not f l : ~ Forall (fun s => f s = true) l -> snd (print_all f l) = false.
Proof.
  induction l as [|s l IH]; intros N; [destruct N; constructor|]. cbn [print_all]. destruct (f s) eqn:E; [|reflexivity].
  destruct (print_all f l) as [o b]. cbn [snd] in *. apply IH. intros F. apply N. now constructor.
Qed.
Lemma print_all_out f l : exists r, l = fst (print_all f l) ++ r.
Proof.
  induction l as [|s l [r IH]]; [now exists []|]. cbn [print_all]. destruct (f s); [|now exists (s :: l)].
  destruct (print_all f l) as [o b]. cbn [fst] in *. exists r. cbn [app]. now f_equal.
Qed.

(** settings of options come from strings as many as the option takes *)
Lemma parsed_option {V} (conv : str -> list str -> converted V) p argv ns d v : parse_args conv p argv = Parsed ns -> lookup d ns = Some v ->
  ~ In d (positionals p) -> exists o n a, In (o, (d, n)) (options p) /\ Fitting n a /\ conv d a = Converted v.
Proof.
  intros P L N. destruct (parsed_setting _ _ _ _ _ _ P L) as (ev & a & S & I & C). unfold scan_args in S.
  destruct (classify_all (options p) argv) as [l|] eqn:K; [|discriminate].
  destruct (scan_positionals _ _ _ _ _ _ _ S) as (given & E & _ & B). rewrite app_nil_r in E. subst given.
  destruct (B _ _ I) as [J|(s & f & J & -> & F)]; [contradiction|]. destruct (classify_all_dest _ _ _ _ _ K J) as [o Jo].
  exists o, (f_nargs f), a. auto.
Qed.
