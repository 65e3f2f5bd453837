(** Facts about reading command lines. *)
From Coq Require Import PeanoNat String List NArith Bool Lia.
From Verif Require Import PyStr PyStrFacts PyBase ConfigModel ArgModel CliModel CliSpec.
Import ListNotations.
Local Open Scope nat_scope.
Local Open Scope list_scope.
Ltac ulia := unfold item in *; lia.

(** ** Lengths *)
Lemma take_dashes_length l a r : take_dashes l = (a, r) -> length l = length a + length r.
Proof.
  revert a r. induction l as [|[s k] l IH]; cbn [take_dashes]; intros a r E; [injection E as <- <-; reflexivity|].
  destruct k; try (injection E as <- <-; reflexivity). destruct (take_dashes l) as [b r']. injection E as <- <-.
  specialize (IH _ _ eq_refl). cbn [length]. ulia.
Qed.
Lemma take_one_length l a r : take_one l = Some (a, r) -> length r < length l.
Proof.
  unfold take_one. destruct (take_dashes l) as [b l1] eqn:E1. destruct l1 as [|[s [ | | | ]] l1]; try discriminate.
  destruct (take_dashes l1) as [c l2] eqn:E2. intros Q. injection Q as <- <-.
  apply take_dashes_length in E1. apply take_dashes_length in E2. cbn [length] in E1. ulia.
Qed.
Lemma take_positionals_length ps : forall l ev ps' r, take_positionals ps l = (ev, ps', r) -> length r <= length l /\ (ev <> [] -> length r < length l).
Proof.
  induction ps as [|p ps IH]; cbn [take_positionals]; intros l ev ps' r E; [injection E as <- <- <-; split; [ulia|congruence]|].
  destruct (take_one l) as [[a l1]|] eqn:T; [|injection E as <- <- <-; split; [ulia|congruence]].
  destruct (take_positionals ps l1) as [[ev1 ps1] r1] eqn:E1. injection E as <- <- <-. apply IH in E1. apply take_one_length in T. split; ulia.
Qed.
Lemma take_arguments_length l a r : take_arguments l = (a, r) -> length r <= length l.
Proof.
  revert a r. induction l as [|[s k] l IH]; cbn [take_arguments]; intros a r E; [injection E as <- <-; auto|].
  destruct k; try (injection E as <- <-; auto). destruct (take_arguments l) as [b r']. injection E as <- <-. specialize (IH _ _ eq_refl). cbn [length]. ulia.
Qed.
Lemma take_option_length f l ev r : take_option f l = Some (ev, r) -> length r <= length l.
Proof.
  unfold take_option. destruct (f_explicit f) as [[sep e]|], (f_nargs f).
  - destruct (negb (f_long f) && help_tail sep e); [|discriminate]. intros [= <- <-]. auto.
  - intros [= <- <-]. auto.
  - intros [= <- <-]. auto.
  - intros [= <- <-]. auto.
  - destruct l as [|[s [ | | | ]] l]; try discriminate. intros [= <- <-]. cbn [length]. ulia.
  - destruct (take_arguments l) as [[|x a] r'] eqn:E; [discriminate|]. intros [= <- <-]. now apply take_arguments_length in E.
Qed.
Lemma up_to_option_app l a r : up_to_option l = (a, r) -> exists b, l = b ++ r /\ a = List.map fst b /\ existsb is_option b = false.
Proof.
  revert a r. induction l as [|i l IH]; cbn [up_to_option]; intros a r E; [injection E as <- <-; now exists []|].
  destruct (is_option i) eqn:O; [injection E as <- <-; now exists []|].
  destruct (up_to_option l) as [b r'] eqn:U. injection E as <- <-. destruct (IH _ _ eq_refl) as (c & -> & -> & N).
  exists (i :: c). split; [reflexivity|]. split; [reflexivity|]. cbn [existsb]. now rewrite O, N.
Qed.
Lemma up_to_option_length i l a r : is_option i = false -> up_to_option (i :: l) = (a, r) -> length r <= length l.
Proof.
  cbn [up_to_option]. intros ->. destruct (up_to_option l) as [b r'] eqn:U. intros [= <- <-].
  apply up_to_option_app in U. destruct U as (c & -> & _). rewrite app_length. ulia.
Qed.

(** ** One step of the loop *)
Definition step (ps : list str) (l : list item) (extras : list str) : list event * scanned + list event * list str * list item * list str :=
  if existsb is_option l then
    match l with
    | (_, Option f) :: r =>
        match take_option f r with
        | None => inl ([], Wrong)
        | Some (ev, r) => inr ([ev], ps, r, extras)
        end
    | (s, Unknown) :: r => inr ([], ps, r, extras ++ [s])
    | _ =>
        match take_positionals ps l with
        | ([], _, _) => let '(a, r) := up_to_option l in inr ([], ps, r, extras ++ a)
        | (ev, ps, r) => inr (ev, ps, r, extras)
        end
    end
  else let '(ev, ps, r) := take_positionals ps l in inl (ev, Scanned ps (extras ++ List.map fst r)).
Lemma after_nil x : after [] x = x. Proof. now destruct x. Qed.
Lemma scan_step n ps l extras : scan_items (S n) ps l extras =
  match step ps l extras with inl x => x | inr (ev, ps, r, extras) => after ev (scan_items n ps r extras) end.
Proof.
  cbn [scan_items]. unfold step. destruct (existsb is_option l).
  - destruct l as [|[s k] r]; [|destruct k];
      repeat match goal with
             | |- context[match take_positionals ?a ?b with _ => _ end] => destruct (take_positionals a b) as [[[|? ?] ?] ?]
             | |- context[match up_to_option ?a with _ => _ end] => destruct (up_to_option a)
             | |- context[match take_option ?a ?b with _ => _ end] => destruct (take_option a b) as [[? ?]|]
             end; try rewrite after_nil; reflexivity.
  - destruct (take_positionals ps l) as [[ev ps'] r']. reflexivity.
Qed.
Lemma step_shrinks ps l extras ev ps' r extras' : step ps l extras = inr (ev, ps', r, extras') -> length r < length l.
Proof.
  unfold step. destruct (existsb is_option l) eqn:X; [|destruct (take_positionals ps l) as [[? ?] ?]; discriminate].
  destruct l as [|[s k] l]; [discriminate|].
  assert (P : is_option (s, k) = false ->
    match take_positionals ps ((s, k) :: l) with
    | ([], _, _) => let '(a, r) := up_to_option ((s, k) :: l) in inr ([], ps, r, extras ++ a)
    | (ev, ps, r) => inr (ev, ps, r, extras)
    end = @inr (list event * scanned) _ (ev, ps', r, extras') -> length r < length ((s, k) :: l)).
  { intros NO. destruct (take_positionals ps ((s, k) :: l)) as [[[|e ev1] ps1] r1] eqn:T.
    - destruct (up_to_option ((s, k) :: l)) as [a r2] eqn:U. intros [= <- <- <- <-]. apply up_to_option_length in U; [|exact NO]. cbn [length]. ulia.
    - intros [= <- <- <- <-]. apply take_positionals_length in T. destruct T as [_ T]. apply T. discriminate. }
  destruct k; [now apply P|now apply P|..]; clear P.
  - destruct (take_option f l) as [[e r']|] eqn:T; [|discriminate]. intros [= <- <- <- <-]. apply take_option_length in T. cbn [length]. ulia.
  - intros [= <- <- <- <-]. cbn [length]. ulia.
Qed.
(** enough steps *)
Lemma scan_fuel n : forall m ps l extras, length l < n -> length l < m -> scan_items n ps l extras = scan_items m ps l extras.
Proof.
  induction n as [|n IH]; [ulia|]. intros [|m] ps l extras Hn Hm; [ulia|]. rewrite !scan_step.
  destruct (step ps l extras) as [x|[[[ev ps'] r] ex]] eqn:S; [reflexivity|]. apply step_shrinks in S. f_equal. apply IH; ulia.
Qed.
Lemma scan_ends n : forall ps l extras, length l < n -> snd (scan_items n ps l extras) <> OutOfSteps.
Proof.
  induction n as [|n IH]; [ulia|]. intros ps l extras Hn. rewrite scan_step.
  destruct (step ps l extras) as [x|[[[ev ps'] r] ex]] eqn:S.
  - unfold step in S. destruct (existsb is_option l).
    + destruct l as [|[s [ | |f| ]] l];
        repeat match type of S with context[match ?x with _ => _ end] => destruct x end; try discriminate; injection S as <-; discriminate.
    + destruct (take_positionals ps l) as [[? ?] ?]. injection S as <-. discriminate.
  - apply step_shrinks in S. cbn [after snd]. apply IH. ulia.
Qed.
Theorem scan_args_ends p argv : snd (scan_args p argv) <> OutOfSteps.
Proof. unfold scan_args. destruct (classify_all (options p) argv); [apply scan_ends; ulia|discriminate]. Qed.

(** ** Words *)
(** Parsers as they are used: the option strings are different, have two characters or more of which the first is "-",
    contain no "=", and are not "--" *)
Definition good_option (o : str) : bool :=
  match o with c :: _ :: _ => N.eqb c 45 | _ => false end && negb (existsb (N.eqb 61) o) && negb (str_eqb o (lit "--")).
Fixpoint distinct (l : list str) : bool := match l with [] => true | x :: r => negb (str_in x r) && distinct r end.
Definition good_parser (p : parser) : bool := distinct (List.map fst (options p)) && forallb good_option (List.map fst (options p)).

Lemma lookup_distinct {A} (l : list (str * A)) k v : distinct (List.map fst l) = true -> In (k, v) l -> lookup k l = Some v.
Proof.
  induction l as [|[k' v'] l IH]; [intros _ []|]. cbn [List.map distinct lookup fst]. intros D I. apply andb_prop in D. destruct D as [N D].
  destruct I as [I|I]; [injection I as -> ->; now rewrite str_eqb_refl|].
  destruct (str_eqb k k') eqn:E; [|now apply IH]. apply str_eqb_spec in E. subst k'. exfalso.
  apply (in_map fst) in I. cbn [fst] in I. apply negb_true_iff in N. unfold str_in in N.
  assert (T : existsb (str_eqb k) (List.map fst l) = true) by (apply existsb_exists; exists k; split; [exact I|apply str_eqb_refl]). congruence.
Qed.
Lemma lookup_missing {A} (l : list (str * A)) k : ~ In k (List.map fst l) -> lookup k l = None.
Proof.
  induction l as [|[k' v'] l IH]; [reflexivity|]. cbn [List.map lookup fst]. intros N. destruct (str_eqb k k') eqn:E.
  - apply str_eqb_spec in E. subst. destruct N. now left.
  - apply IH. intros I. apply N. now right.
Qed.

Section Words.
  Variable p : parser.
  Hypothesis G : good_parser p = true.
  Let D : distinct (List.map fst (options p)) = true. Proof. unfold good_parser in G. now apply andb_prop in G. Qed.
  Lemma option_good o x : In (o, x) (options p) -> good_option o = true.
  Proof.
    intros I. unfold good_parser in G. apply andb_prop in G. destruct G as [_ F]. rewrite forallb_forall in F. apply F.
    now apply (in_map fst) in I.
  Qed.
  Lemma good_shape o : good_option o = true -> exists c r, o = 45%N :: c :: r /\ ~ In 61%N o /\ o <> lit "--".
  Proof.
    unfold good_option. intros H. apply andb_prop in H. destruct H as [H N]. apply andb_prop in H. destruct H as [H E].
    destruct o as [|c [|c' r]]; try discriminate. apply N.eqb_eq in H. subst c. exists c', r. split; [reflexivity|]. split.
    - intros I. apply negb_true_iff in E. assert (T : existsb (N.eqb 61) (45%N :: c' :: r) = true) by (apply existsb_exists; exists 61%N; split; [exact I|apply N.eqb_refl]). congruence.
    - intros Q. apply negb_true_iff in N. rewrite Q, str_eqb_refl in N. discriminate.
  Qed.
  Lemma no_option s : good_option s = false -> lookup s (options p) = None.
  Proof.
    intros B. apply lookup_missing. intros I. apply in_map_iff in I. destruct I as ([o x] & E & I). cbn [fst] in E. subst o. apply option_good in I. congruence.
  Qed.

  Lemma classify_plain s : plain s -> classify (options p) s = Some Argument.
  Proof.
    intros P. destruct s as [|c t]; [reflexivity|]. cbn [classify]. destruct (N.eqb c 45) eqn:E; [|reflexivity].
    apply N.eqb_eq in E. subst c. rewrite (P t eq_refl). cbn [negb]. unfold lookup_option.
    rewrite (no_option [45%N]); [reflexivity|]. reflexivity.
  Qed.
  Lemma plain_not_dashes s : plain s -> str_eqb s (lit "--") = false.
  Proof.
    intros P. destruct (str_eqb s (lit "--")) eqn:E; [|reflexivity]. apply str_eqb_spec in E. subst s.
    assert (Q : [45%N] = []) by (apply P; reflexivity). discriminate.
  Qed.
  Lemma classify_option o d n : In (o, (d, n)) (options p) -> classify (options p) o = Some (Option (Found d n (is_long o) None)).
  Proof.
    intros I. destruct (good_shape o (option_good _ _ I)) as (c & r & -> & _ & _). cbn [classify]. rewrite N.eqb_refl. cbn [negb].
    unfold lookup_option. rewrite (lookup_distinct _ _ _ D I). reflexivity.
  Qed.
  Lemma split_first_app a b : ~ In 61%N a -> split_first 61 (a ++ 61%N :: b) = Some (a, b).
  Proof.
    induction a as [|c a IH]; cbn [app split_first]; intros N; [now rewrite N.eqb_refl|].
    destruct (N.eqb_spec c 61) as [->|_]; [destruct N; now left|]. rewrite IH; [reflexivity|]. intros I. apply N. now right.
  Qed.
  Lemma classify_joined o d n v : In (o, (d, n)) (options p) ->
    classify (options p) (o ++ lit "=" ++ v) = Some (Option (Found d n (is_long o) (Some (true, v)))).
  Proof.
    intros I. pose proof (option_good _ _ I) as Go. destruct (good_shape o Go) as (c & r & Eo & NE & _).
    assert (X : lookup (o ++ lit "=" ++ v) (options p) = None).
    { apply no_option. unfold good_option. replace (existsb (N.eqb 61) (o ++ lit "=" ++ v)) with true; [now rewrite andb_false_r|].
      symmetry. apply existsb_exists. exists 61%N. split; [|apply N.eqb_refl]. apply in_or_app. right. left. reflexivity. }
    assert (S : split_first 61 (o ++ lit "=" ++ v) = Some (o, v)) by (change (lit "=" ++ v) with (61%N :: v); now apply split_first_app).
    assert (L : lookup_option (options p) o = Some (o, (d, n))) by (unfold lookup_option; now rewrite (lookup_distinct _ _ _ D I)).
    assert (Es : exists t, o ++ lit "=" ++ v = 45%N :: c :: t) by (rewrite Eo; eexists; reflexivity). destruct Es as [t Es]. rewrite Es in X, S |- *. cbn [classify]. rewrite N.eqb_refl. cbn [negb]. unfold lookup_option at 1. rewrite X, S, L. reflexivity.
  Qed.
  Lemma joined_not_dashes o v x : In (o, x) (options p) -> str_eqb (o ++ lit "=" ++ v) (lit "--") = false.
  Proof.
    intros I. destruct (str_eqb (o ++ lit "=" ++ v) (lit "--")) eqn:E; [|reflexivity]. apply str_eqb_spec in E.
    destruct (good_shape o (option_good _ _ I)) as (c & r & -> & _ & _). change (lit "=") with [61%N] in E. change (lit "--") with [45%N; 45%N] in E.
    destruct r; discriminate E.
  Qed.
  Lemma option_not_dashes o x : In (o, x) (options p) -> str_eqb o (lit "--") = false.
  Proof.
    intros I. destruct (good_shape o (option_good _ _ I)) as (c & r & _ & _ & N). destruct (str_eqb o (lit "--")) eqn:E; [|reflexivity].
    apply str_eqb_spec in E. congruence.
  Qed.
  Lemma classify_cons s k r l : str_eqb s (lit "--") = false -> classify (options p) s = Some k -> classify_all (options p) r = Some l ->
    classify_all (options p) (s :: r) = Some ((s, k) :: l).
  Proof. intros E C A. cbn [classify_all]. now rewrite E, C, A. Qed.

  (** the loop over words *)
  Lemma scan_plain n m d ps s l extras : plain s -> (forall x, In x l -> snd x <> Dashes) ->
    S (length l) < n -> length l < m ->
    scan_items n (d :: ps) ((s, Argument) :: l) extras = after [(d, [s])] (scan_items m ps l extras).
  Proof.
    intros P ND Hn Hm.
    assert (T : take_positionals (d :: ps) ((s, Argument) :: l) = let '(ev, ps, r) := take_positionals ps l in ((d, [s]) :: ev, ps, r)).
    { cbn [take_positionals]. assert (T1 : take_one ((s, Argument) :: l) = Some ([s], l)).
      { unfold take_one. cbn [take_dashes]. assert (T2 : take_dashes l = ([], l)). { destruct l as [|[t [ | | | ]] l]; try reflexivity. destruct (ND (t, Dashes)); [now left|reflexivity]. }
        now rewrite T2. }
      rewrite T1. cbn [remove_dashes]. now rewrite plain_not_dashes. }
    destruct n as [|n]; [ulia|]. rewrite scan_step. unfold step. cbn [existsb]. replace (is_option (s, Argument)) with false by reflexivity.
    cbn [orb]. rewrite T.
    destruct (take_positionals ps l) as [[ev ps'] r] eqn:T'.
    destruct (existsb is_option l) eqn:O.
    - (* the same events are found when scanning the rest *)
      assert (R : scan_items m ps l extras = after ev (scan_items n ps' r extras)).
      { destruct m as [|m]; [ulia|]. pose proof T' as TL. apply take_positionals_length in TL. destruct TL as [TL TL'].
        destruct ev as [|e ev].
        - assert (ps' = ps /\ r = l) as [-> ->].
          { destruct ps as [|p' ps]; cbn [take_positionals] in T'; [now injection T' as <- <-|].
            destruct (take_one l) as [[a l1]|]; [|now injection T' as <- <-]. destruct (take_positionals ps l1) as [[? ?] ?]. discriminate. }
          rewrite after_nil. apply scan_fuel; ulia.
        - rewrite scan_step. unfold step. rewrite O. destruct l as [|[t k] l]; [discriminate|].
          assert (K : k = Argument). { destruct k; [reflexivity|destruct (ND (t, Dashes)); [now left|reflexivity]|..]; exfalso; destruct ps; cbn in T'; discriminate. }
          subst k. rewrite T'. f_equal. apply scan_fuel; specialize (TL' ltac:(discriminate)); cbn [length] in *; ulia. }
      rewrite R. unfold after. cbn [fst snd]. reflexivity.
    - destruct m as [|m]; [ulia|]. rewrite scan_step. unfold step. rewrite O, T'. reflexivity.
  Qed.
  Lemma scan_option n m s f ps l ev r extras : take_option f l = Some (ev, r) -> S (length l) < n -> length r < m ->
    scan_items n ps ((s, Option f) :: l) extras = after [ev] (scan_items m ps r extras).
  Proof.
    intros T Hn Hm. destruct n as [|n]; [ulia|]. rewrite scan_step. unfold step. cbn [existsb]. replace (is_option (s, Option f)) with true by reflexivity. cbn [orb].
    rewrite T. f_equal. apply take_option_length in T. apply scan_fuel; ulia.
  Qed.

  Lemma take_several vs l : (match l with (_, Argument) :: _ => False | _ => True end) ->
    take_arguments (List.map (fun v => (v, Argument)) vs ++ l) = (vs, l).
  Proof.
    intros N. induction vs as [|v vs IH]; cbn [List.map app take_arguments]; [|now rewrite IH].
    destruct l as [|[s [ | | | ]] l]; try reflexivity. destruct N.
  Qed.
  Lemma classify_plains vs r l : Forall plain vs -> classify_all (options p) r = Some l ->
    classify_all (options p) (vs ++ r) = Some (List.map (fun v => (v, Argument)) vs ++ l).
  Proof.
    intros F A. induction F as [|v vs P F IH]; [exact A|]. cbn [app List.map]. apply classify_cons; [now apply plain_not_dashes|now apply classify_plain|exact IH].
  Qed.

  Theorem words_read ps ws ev : Means p ps ws ev -> exists l, classify_all (options p) (flat_map spell ws) = Some l /\
    (forall x, In x l -> snd x <> Dashes) /\ (starts_plain ws = false -> match l with (_, Argument) :: _ => False | _ => True end) /\
    forall n, length l < n -> scan_items n ps l [] = (ev, Scanned [] []).
  Proof.
    intros M. induction M as [|d ps s ws ev P M (l & C & ND & S & IH)|ps o d v ws ev I P M (l & C & ND & S & IH)|ps o d k v ws ev I K M (l & C & ND & S & IH)
      |ps o d ws ev I M (l & C & ND & S & IH)|ps o d vs ws ev I NE P NP M (l & C & ND & S & IH)]; cbn [flat_map spell app].
    - exists []. split; [reflexivity|]. split; [now intros ? []|]. split; [auto|]. intros [|n]; [cbn [length]; ulia|]. reflexivity.
    - exists ((s, Argument) :: l). split; [apply classify_cons; [now apply plain_not_dashes|now apply classify_plain|exact C]|].
      split; [intros x [<-|J]; [discriminate|now apply ND]|]. split; [discriminate|].
      intros n Hn. cbn [length] in Hn. rewrite (scan_plain n n); [|exact P|exact ND|ulia|ulia]. rewrite IH by ulia. reflexivity.
    - exists ((o, Option (Found d One (is_long o) None)) :: (v, Argument) :: l).
      split; [|split; [intros x [<-|[<-|J]]; [discriminate|discriminate|now apply ND]|split; [auto|]]].
      + apply classify_cons; [now apply (option_not_dashes o (d, One))|now apply classify_option|].
        apply classify_cons; [now apply plain_not_dashes|now apply classify_plain|exact C].
      + intros n Hn. cbn [length] in Hn. rewrite (scan_option n n _ _ _ _ (d, [v]) l); [|reflexivity|cbn [length]; ulia|ulia]. rewrite IH by ulia. reflexivity.
    - exists ((o ++ lit "=" ++ v, Option (Found d k (is_long o) (Some (true, v)))) :: l).
      split; [|split; [intros x [<-|J]; [discriminate|now apply ND]|split; [auto|]]].
      + apply classify_cons; [now apply (joined_not_dashes o v (d, k))|now apply classify_joined|exact C].
      + assert (T : take_option (Found d k (is_long o) (Some (true, v))) l = Some ((d, [v]), l)) by (unfold take_option; cbn [f_explicit f_nargs f_dest]; destruct k; congruence).
        intros n Hn. cbn [length] in Hn. rewrite (scan_option n n _ _ _ _ (d, [v]) l); [|exact T|ulia|ulia]. rewrite IH by ulia. reflexivity.
    - exists ((o, Option (Found d Zero (is_long o) None)) :: l).
      split; [|split; [intros x [<-|J]; [discriminate|now apply ND]|split; [auto|]]].
      + apply classify_cons; [now apply (option_not_dashes o (d, Zero))|now apply classify_option|exact C].
      + intros n Hn. cbn [length] in Hn. rewrite (scan_option n n _ _ _ _ (d, []) l); [|reflexivity|ulia|ulia]. rewrite IH by ulia. reflexivity.
    - exists ((o, Option (Found d Many (is_long o) None)) :: List.map (fun v => (v, Argument)) vs ++ l).
      split; [|split; [|split; [auto|]]].
      + apply classify_cons; [now apply (option_not_dashes o (d, Many))|now apply classify_option|]. now apply classify_plains.
      + intros x [<-|J]; [discriminate|]. apply in_app_or in J. destruct J as [J|J]; [|now apply ND]. apply in_map_iff in J. destruct J as (v & <- & _). discriminate.
      + intros n Hn. cbn [length] in Hn. rewrite app_length in Hn. rewrite (scan_option n n _ _ _ _ (d, vs) l); [| |rewrite app_length; ulia|ulia].
        * rewrite IH by ulia. reflexivity.
        * unfold take_option. cbn [f_explicit f_nargs f_dest]. rewrite take_several by now apply S. destruct vs; [congruence|reflexivity].
  Qed.
  Theorem command_read argv ev : Command p argv ev -> scan_args p argv = (ev, Scanned [] []).
  Proof.
    intros (ws & -> & M). apply words_read in M. destruct M as (l & C & _ & _ & R). unfold scan_args. rewrite C. apply R. ulia.
  Qed.
End Words.

Lemma file_parser_good : good_parser file_parser = true. Proof. reflexivity. Qed.
Lemma server_parser_good : good_parser server_parser = true. Proof. reflexivity. Qed.
Lemma generate_parser_good : good_parser generate_parser = true. Proof. reflexivity. Qed.

(** ** Positional arguments *)
(** Items as they come from [classify_all]: behind "--" there are only arguments, before it none is "--". *)
Fixpoint Valid (l : list item) : Prop :=
  match l with
  | [] => True
  | (s, Dashes) :: r => s = lit "--" /\ Forall (fun i => snd i = Argument) r
  | (s, _) :: r => s <> lit "--" /\ Valid r
  end.
Lemma classify_kind opts s : classify opts s <> Some Dashes.
Proof.
  unfold classify. destruct s as [|c t]; [discriminate|]. destruct (negb (N.eqb c 45)); [discriminate|].
  destruct (lookup_option opts (c :: t)); [discriminate|]. destruct t as [|c' t]; [discriminate|].
  match goal with |- match ?x with _ => _ end <> _ => destruct x; [discriminate|] end.
  destruct (option_tuples opts (c :: c' :: t)) as [|f [|? ?]]; [|discriminate|discriminate].
  destruct (negative_number _); [discriminate|]. destruct (existsb _ _); discriminate.
Qed.
Lemma classify_valid opts : forall argv l, classify_all opts argv = Some l -> Valid l.
Proof.
  induction argv as [|s r IH]; cbn [classify_all]; intros l E; [injection E as <-; exact I|].
  destruct (str_eqb s (lit "--")) eqn:D.
  - injection E as <-. cbn [Valid]. apply str_eqb_spec in D. split; [exact D|]. apply Forall_forall. intros i J. apply in_map_iff in J. now destruct J as (x & <- & _).
  - destruct (classify opts s) as [k|] eqn:K; [|discriminate]. destruct (classify_all opts r) as [l'|]; [|discriminate]. injection E as <-.
    assert (NS : s <> lit "--") by (intros ->; rewrite str_eqb_refl in D; discriminate).
    specialize (IH _ eq_refl). destruct k; cbn [Valid]; auto. exfalso. exact (classify_kind _ _ K).
Qed.
(** the settings of options *)
Lemma lookup_option_in opts s o : lookup_option opts s = Some o -> In o opts.
Proof.
  unfold lookup_option. destruct (lookup s opts) as [x|] eqn:L; [|discriminate]. intros [= <-].
  revert L. induction opts as [|[k v] opts IH]; [discriminate|]. cbn [lookup]. destruct (str_eqb s k) eqn:E.
  - intros [= ->]. apply str_eqb_spec in E. subst. now left.
  - intros L. right. auto.
Qed.
Lemma tuples_dest opts s g : In g (option_tuples opts s) -> exists o, In (o, (f_dest g, f_nargs g)) opts.
Proof.
  assert (F : forall o e, In o opts -> exists o', In (o', (f_dest (find o e), f_nargs (find o e))) opts) by (intros [o [d n]] e I; exists o; exact I).
  unfold option_tuples. destruct (startswith (lit "--") s).
  - destruct (match split_first 61 s with Some (a, b) => (a, Some (true, b)) | None => (s, None) end) as [x e].
    intros I. apply in_map_iff in I. destruct I as (o & <- & I). apply filter_In in I. now apply F.
  - intros I. apply in_flat_map in I. destruct I as (o & I & J). destruct (str_eqb (fst o) _); [|destruct (startswith _ (fst o)); [|destruct J]];
     destruct J as [<-|[]]; now apply F.
Qed.
Lemma classify_dest opts s f : classify opts s = Some (Option f) -> exists o, In (o, (f_dest f, f_nargs f)) opts.
Proof.
  assert (F : forall o e, In o opts -> exists o', In (o', (f_dest (find o e), f_nargs (find o e))) opts) by (intros [o [d n]] e I; exists o; exact I).
  unfold classify. destruct s as [|c t]; [discriminate|]. destruct (negb (N.eqb c 45)); [discriminate|].
  destruct (lookup_option opts (c :: t)) as [o|] eqn:L; [apply lookup_option_in in L; intros [= <-]; now apply F|].
  destruct t as [|c' t]; [discriminate|].
  destruct (match split_first 61 (c :: c' :: t) with
            | Some (a, b) => match lookup_option opts a with Some o => Some (find o (Some (true, b))) | None => None end
            | None => None end) as [g|] eqn:Q.
  - destruct (split_first 61 (c :: c' :: t)) as [[a b]|]; [|discriminate]. destruct (lookup_option opts a) as [o|] eqn:L'; [|discriminate].
    apply lookup_option_in in L'. injection Q as <-. intros [= <-]. now apply F.
  - destruct (option_tuples opts (c :: c' :: t)) as [|g [|? ?]] eqn:T; [destruct (negative_number _); [discriminate|]; destruct (existsb _ _); discriminate| |discriminate].
    intros [= <-]. apply (tuples_dest opts (c :: c' :: t)). rewrite T. now left.
Qed.
Lemma classify_all_dest opts : forall argv l s f, classify_all opts argv = Some l -> In (s, Option f) l -> exists o, In (o, (f_dest f, f_nargs f)) opts.
Proof.
  induction argv as [|x r IH]; cbn [classify_all]; intros l s f E I; [injection E as <-; destruct I|].
  destruct (str_eqb x (lit "--")).
  - injection E as <-. destruct I as [I|I]; [discriminate|]. apply in_map_iff in I. now destruct I as (y & ? & _).
  - destruct (classify opts x) as [k|] eqn:K; [|discriminate]. destruct (classify_all opts r) as [l'|]; [|discriminate]. injection E as <-.
    destruct I as [I|I]; [|eauto]. injection I as -> ->. now apply classify_dest in K.
Qed.

(** parts of valid lists *)
Lemma valid_suffix a r : existsb (fun i => match snd i with Dashes => true | _ => false end) a = false -> Valid (a ++ r) -> Valid r.
Proof.
  induction a as [|[s k] a IH]; [auto|]. cbn [existsb app snd]. intros N V. apply orb_false_elim in N. destruct N as [N N'].
  apply IH; [exact N'|]. destruct k; cbn [Valid] in V; try (now destruct V).
Qed.
Lemma take_arguments_app l a r : take_arguments l = (a, r) -> l = List.map (fun s => (s, Argument)) a ++ r.
Proof.
  revert a r. induction l as [|[s k] l IH]; cbn [take_arguments]; intros a r E; [injection E as <- <-; reflexivity|].
  destruct k; try (injection E as <- <-; reflexivity). destruct (take_arguments l) as [b r']. injection E as <- <-.
  cbn [List.map app]. f_equal. now apply IH.
Qed.
Definition Fitting (n : nargs) (a : list str) : Prop := match n with Zero => a = [] | One => exists x, a = [x] | Many => a <> [] end.
Lemma take_option_app f l ev r : take_option f l = Some (ev, r) -> (fst ev = f_dest f /\ Fitting (f_nargs f) (snd ev)) /\ exists a, l = List.map (fun s => (s, Argument)) a ++ r.
Proof.
  unfold take_option. destruct (f_explicit f) as [[sep e]|], (f_nargs f).
  - destruct (negb (f_long f) && help_tail sep e); [|discriminate]. intros [= <- <-]. split; [split; [reflexivity|cbn [Fitting snd]; eauto; discriminate]|now exists []].
  - intros [= <- <-]. split; [split; [reflexivity|cbn [Fitting snd]; eauto; discriminate]|now exists []].
  - intros [= <- <-]. split; [split; [reflexivity|cbn [Fitting snd]; eauto; discriminate]|now exists []].
  - intros [= <- <-]. split; [split; [reflexivity|cbn [Fitting snd]; eauto; discriminate]|now exists []].
  - destruct l as [|[s [ | | | ]] l]; try discriminate. intros [= <- <-]. split; [split; [reflexivity|cbn [Fitting snd]; eauto]|now exists [s]].
  - destruct (take_arguments l) as [[|x a] r'] eqn:E; [discriminate|]. intros [= <- <-]. split; [split; [reflexivity|discriminate]|]. apply take_arguments_app in E. eauto.
Qed.
Lemma no_dashes_in_arguments a : existsb (fun i : item => match snd i with Dashes => true | _ => false end) (List.map (fun s => (s, Argument)) a) = false.
Proof. induction a; [reflexivity|]. cbn [List.map existsb snd]. exact IHa. Qed.
Lemma take_dashes_app l a r : take_dashes l = (a, r) -> l = List.map (fun s => (s, Dashes)) a ++ r /\ match r with (_, Dashes) :: _ => False | _ => True end.
Proof.
  revert a r. induction l as [|[s k] l IH]; cbn [take_dashes]; intros a r E; [injection E as <- <-; auto|].
  destruct k; try (injection E as <- <-; auto). destruct (take_dashes l) as [b r']. injection E as <- <-. destruct (IH _ _ eq_refl) as [-> Q]. auto.
Qed.
Lemma valid_dashes l a r : Valid l -> take_dashes l = (a, r) -> (a = [] /\ r = l) \/ (a = [lit "--"] /\ l = (lit "--", Dashes) :: r /\ Forall (fun i => snd i = Argument) r).
Proof.
  destruct l as [|[s k] l]; cbn [take_dashes]; intros V E; [injection E as <- <-; auto|].
  destruct k; try (injection E as <- <-; auto). destruct V as [-> F]. right.
  assert (T : take_dashes l = ([], l)). { destruct l as [|[t k] l]; [reflexivity|]. inversion_clear F. cbn [snd] in H. subst k. reflexivity. }
  rewrite T in E. injection E as <- <-. auto.
Qed.
(** the first positional argument gets one string *)
Lemma take_one_valid l a r : Valid l -> take_one l = Some (a, r) -> exists s, remove_dashes a = [s].
Proof.
  intros V. unfold take_one. destruct (take_dashes l) as [b l1] eqn:E1. destruct l1 as [|[s [ | | | ]] l1]; try discriminate.
  destruct (take_dashes l1) as [c l2] eqn:E2. intros [= <- <-]. exists s.
  destruct (valid_dashes _ _ _ V E1) as [[-> <-]|(-> & -> & F)].
  - cbn [app]. destruct V as [NS V]. cbn [remove_dashes]. destruct (str_eqb s (lit "--")) eqn:D; [apply str_eqb_spec in D; contradiction|].
    f_equal. destruct (valid_dashes _ _ _ V E2) as [[-> ->]|(-> & _)]; [reflexivity|]. cbn [remove_dashes]. now rewrite str_eqb_refl.
  - assert (c = []) as ->. { inversion_clear F. destruct l1 as [|[t k] l1]; [injection E2 as <- <-; reflexivity|]. inversion_clear H0. cbn [snd] in H1. subst k. now injection E2 as <- <-. }
    cbn [app remove_dashes]. now rewrite str_eqb_refl.
Qed.
Lemma take_positionals_dests ps : forall l ev ps' r, take_positionals ps l = (ev, ps', r) -> ps = List.map fst ev ++ ps'.
Proof.
  induction ps as [|p ps IH]; cbn [take_positionals]; intros l ev ps' r E; [injection E as <- <- <-; reflexivity|].
  destruct (take_one l) as [[a l1]|]; [|injection E as <- <- <-; reflexivity].
  destruct (take_positionals ps l1) as [[ev1 ps1] r1] eqn:E1. injection E as <- <- <-. apply IH in E1. cbn [List.map fst app]. now rewrite <- E1.
Qed.
Lemma take_positionals_app ps : forall l ev ps' r, take_positionals ps l = (ev, ps', r) -> exists a, l = a ++ r.
Proof.
  induction ps as [|p ps IH]; cbn [take_positionals]; intros l ev ps' r E; [injection E as <- <- <-; now exists []|].
  destruct (take_one l) as [[a l1]|] eqn:T; [|injection E as <- <- <-; now exists []].
  destruct (take_positionals ps l1) as [[ev1 ps1] r1] eqn:E1. injection E as <- <- <-. apply IH in E1. destruct E1 as [b ->].
  unfold take_one in T. destruct (take_dashes l) as [x l2] eqn:T1. destruct l2 as [|[s [ | | | ]] l2]; try discriminate.
  destruct (take_dashes l2) as [y l3] eqn:T2. injection T as <- ->. apply take_dashes_app in T1, T2. destruct T1 as [-> _], T2 as [-> _].
  exists (List.map (fun s => (s, Dashes)) x ++ (s, Argument) :: List.map (fun s => (s, Dashes)) y ++ b). rewrite <- !app_assoc. cbn [app]. now rewrite <- app_assoc.
Qed.

Lemma step_app ps l extras ev ps' r extras' : step ps l extras = inr (ev, ps', r, extras') -> exists a, l = a ++ r.
Proof.
  unfold step. destruct (existsb is_option l) eqn:X; [|destruct (take_positionals ps l) as [[? ?] ?]; discriminate].
  assert (P : match take_positionals ps l with
    | ([], _, _) => let '(a, r) := up_to_option l in inr ([], ps, r, extras ++ a)
    | (ev, ps, r) => inr (ev, ps, r, extras)
    end = @inr (list event * scanned) _ (ev, ps', r, extras') -> exists a, l = a ++ r).
  { destruct (take_positionals ps l) as [[[|e ev1] ps1] r1] eqn:T.
    - destruct (up_to_option l) as [a r2] eqn:U. intros [= <- <- <- <-]. apply up_to_option_app in U. destruct U as (b & -> & _). eauto.
    - intros [= <- <- <- <-]. now apply take_positionals_app in T. }
  destruct l as [|[s k] l]; [discriminate|]. destruct k; [now apply P|now apply P|..].
  - destruct (take_option f l) as [[e r']|] eqn:T; [|discriminate]. intros [= <- <- <- <-]. apply take_option_app in T. destruct T as (_ & a & ->).
    now exists ((s, Option f) :: List.map (fun s => (s, Argument)) a).
  - intros [= <- <- <- <-]. now exists [(s, Unknown)].
Qed.
(** every event is one of an option or of a positional argument *)
Lemma step_events ps l extras ev ps' r extras' : step ps l extras = inr (ev, ps', r, extras') ->
  (exists e s f, ev = [e] /\ ps' = ps /\ In (s, Option f) l /\ fst e = f_dest f /\ Fitting (f_nargs f) (snd e)) \/ ps = List.map fst ev ++ ps'.
Proof.
  unfold step. destruct (existsb is_option l) eqn:X; [|destruct (take_positionals ps l) as [[? ?] ?]; discriminate].
  assert (P : match take_positionals ps l with
    | ([], _, _) => let '(a, r) := up_to_option l in inr ([], ps, r, extras ++ a)
    | (ev, ps, r) => inr (ev, ps, r, extras)
    end = @inr (list event * scanned) _ (ev, ps', r, extras') -> ps = List.map fst ev ++ ps').
  { destruct (take_positionals ps l) as [[[|e ev1] ps1] r1] eqn:T.
    - destruct (up_to_option l) as [a r2] eqn:U. intros [= <- <- <- <-]. reflexivity.
    - intros [= <- <- <- <-]. now apply take_positionals_dests in T. }
  destruct l as [|[s k] l]; [discriminate|]. destruct k; [right; now apply P|right; now apply P|..].
  - destruct (take_option f l) as [[e r']|] eqn:T; [|discriminate]. intros [= <- <- <- <-]. apply take_option_app in T. destruct T as (E & _).
    left. exists e, s, f. split; [reflexivity|]. split; [reflexivity|]. split; [now left|exact E].
  - intros [= <- <- <- <-]. now right.
Qed.

Theorem scan_positionals n : forall ps l extras ev missing ex, scan_items n ps l extras = (ev, Scanned missing ex) ->
  exists given, ps = given ++ missing /\ (forall d, In d given -> exists a, In (d, a) ev) /\
    (forall d a, In (d, a) ev -> In d given \/ exists s f, In (s, Option f) l /\ d = f_dest f /\ Fitting (f_nargs f) a).
Proof.
  induction n as [|n IH]; [discriminate|]. intros ps l extras ev missing ex. rewrite scan_step.
  destruct (step ps l extras) as [x|[[[ev1 ps'] r] extras']] eqn:S.
  - intros ->. unfold step in S. destruct (existsb is_option l).
    { destruct l as [|[s [ | |f| ]] l];
        repeat match type of S with context[match ?x with _ => _ end] => destruct x end; discriminate S. }
    destruct (take_positionals ps l) as [[ev1 ps'] r] eqn:T. injection S as <- <- <-. apply take_positionals_dests in T.
    exists (List.map fst ev1). split; [exact T|]. split.
    + intros d I. apply in_map_iff in I. destruct I as ([d' a] & <- & I). eauto.
    + intros d a I. left. now apply (in_map fst) in I.
  - destruct (scan_items n ps' r extras') as [ev2 sc] eqn:R. cbn [after fst snd]. intros [= <- ->].
    destruct (IH _ _ _ _ _ _ R) as (given & -> & A & B). pose proof (step_app _ _ _ _ _ _ _ S) as [b ->].
    destruct (step_events _ _ _ _ _ _ _ S) as [(e & s & f & -> & <- & I & D)|Ep].
    + exists given. split; [reflexivity|]. split.
      * intros d J. destruct (A d J) as [a K]. exists a. now right.
      * intros d a [Q|J]; [rewrite Q in D; right; exists s, f; auto|]. destruct (B d a J) as [K|(s' & f' & K & Q)]; [now left|].
        right. exists s', f'. split; [apply in_or_app; now right|exact Q].
    + exists (List.map fst ev1 ++ given). split; [now rewrite <- app_assoc|]. split.
      * intros d J. apply in_app_or in J. destruct J as [J|J].
        -- apply in_map_iff in J. destruct J as ([d' a] & <- & J). exists a. apply in_or_app. now left.
        -- destruct (A d J) as [a K]. exists a. apply in_or_app. now right.
      * intros d a J. apply in_app_or in J. destruct J as [J|J].
        -- left. apply in_or_app. left. now apply (in_map fst) in J.
        -- destruct (B d a J) as [K|(s' & f' & K & Q)]; [left; apply in_or_app; now right|].
           right. exists s', f'. split; [apply in_or_app; now right|exact Q].
Qed.

(** also if the command line is wrong *)
Lemma scan_sources n : forall ps l extras d a, In (d, a) (fst (scan_items n ps l extras)) ->
  In d ps \/ exists s f, In (s, Option f) l /\ d = f_dest f /\ Fitting (f_nargs f) a.
Proof.
  induction n as [|n IH]; [intros ? ? ? ? ? []|]. intros ps l extras d a. rewrite scan_step.
  destruct (step ps l extras) as [x|[[[ev1 ps'] r] extras']] eqn:S.
  - intros J. unfold step in S. destruct (existsb is_option l).
    { destruct l as [|[s [ | |f| ]] l];
        repeat match type of S with context[match ?x with _ => _ end] => destruct x end; try discriminate S; injection S as <-; destruct J. }
    destruct (take_positionals ps l) as [[ev1 ps'] r] eqn:T. injection S as <-. apply take_positionals_dests in T. left.
    rewrite T. apply in_or_app. left. now apply (in_map fst) in J.
  - cbn [after fst snd]. intros J. pose proof (step_app _ _ _ _ _ _ _ S) as [b ->]. apply in_app_or in J.
    destruct (step_events _ _ _ _ _ _ _ S) as [(e & s & f & -> & <- & I & D)|Ep].
    + destruct J as [[Q|[]]|J]; [rewrite Q in D; right; exists s, f; auto|]. destruct (IH _ _ _ _ _ J) as [K|(s' & f' & K & Q)]; [now left|].
      right. exists s', f'. split; [apply in_or_app; now right|exact Q].
    + subst ps. destruct J as [J|J]; [left; apply in_or_app; left; now apply (in_map fst) in J|]. destruct (IH _ _ _ _ _ J) as [K|(s' & f' & K & Q)].
      * left. apply in_or_app. now right.
      * right. exists s', f'. split; [apply in_or_app; now right|exact Q].
Qed.

Lemma valid_no_options l : Valid l -> match l with (_, Dashes) :: _ => existsb is_option l = false | _ => True end.
Proof.
  destruct l as [|[s k] l]; [auto|]. destruct k; auto. intros [_ F]. cbn [existsb]. replace (is_option (s, Dashes)) with false by reflexivity. cbn [orb].
  induction F as [|[t k] l E F IH]; [reflexivity|]. cbn [snd] in E. subst k. cbn [existsb]. exact IH.
Qed.
Lemma valid_up_to_option l : Valid l -> existsb is_option l = true -> forall a r, up_to_option l = (a, r) -> Valid r.
Proof.
  induction l as [|[s k] l IH]; [discriminate|]. intros V O a r. cbn [up_to_option].
  destruct (is_option (s, k)) eqn:K; [intros [= <- <-]; exact V|]. cbn [existsb] in O. rewrite K in O. cbn [orb] in O.
  destruct (up_to_option l) as [b r'] eqn:U. intros [= <- <-]. destruct k; try discriminate.
  - destruct V as [_ V]. exact (IH V O _ _ eq_refl).
  - apply valid_no_options in V. cbn [existsb] in V. rewrite K in V. cbn [orb] in V. congruence.
Qed.

Theorem first_positional n : forall p ps l extras ev missing ex, Valid l -> scan_items n (p :: ps) l extras = (ev, Scanned missing ex) ->
  ~ In p ps -> ~ In p missing -> (forall s f, In (s, Option f) l -> f_dest f <> p) ->
  (exists a, In (p, a) ev) /\ forall a, In (p, a) ev -> exists s, a = [s].
Proof.
  induction n as [|n IH]; [discriminate|]. intros p ps l extras ev missing ex V R NP NM NO.
  assert (Rest : forall l1 ev1 ps1 r1 extras1 ev2, take_one l = Some (l1, r1) ->
     take_positionals ps r1 = (ev1, ps1, extras1) ->
     (forall a, In (p, a) ev2 -> False) ->
     (exists a, In (p, a) (((p, remove_dashes l1) :: ev1) ++ ev2)) /\ (forall a, In (p, a) (((p, remove_dashes l1) :: ev1) ++ ev2) -> exists s, a = [s])).
  { intros l1 ev1 ps1 r1 extras1 ev2 T T' N2. destruct (take_one_valid _ _ _ V T) as [s Es].
    split; [eexists; now left|]. intros a I. apply in_app_or in I. destruct I as [[I|I]|I].
    - injection I as <-. eauto.
    - exfalso. apply take_positionals_dests in T'. apply NP. rewrite T'. apply in_or_app. left. now apply (in_map fst) in I.
    - exfalso. eauto. }
  rewrite scan_step in R. destruct (step (p :: ps) l extras) as [x|[[[ev1 ps'] r] extras']] eqn:S.
  - subst x. unfold step in S. destruct (existsb is_option l).
    { destruct l as [|[s [ | |f| ]] l];
        repeat match type of S with context[match ?x with _ => _ end] => destruct x end; discriminate S. }
    cbn [take_positionals] in S. destruct (take_one l) as [[a l1]|] eqn:T.
    + destruct (take_positionals ps l1) as [[ev1 ps1] r1] eqn:T'. injection S as <- <- <-.
      specialize (Rest _ _ _ _ _ [] eq_refl T' ltac:(now intros ? [])). now rewrite app_nil_r in Rest.
    + injection S as <- <- <-. destruct NM. now left.
  - destruct (scan_items n ps' r extras') as [ev2 sc] eqn:R2. cbn [after fst snd] in R. injection R as <- ->.
    destruct (step_app _ _ _ _ _ _ _ S) as [b Eb].
    assert (NO' : forall s f, In (s, Option f) r -> f_dest f <> p) by (intros s f I; apply (NO s); rewrite Eb; apply in_or_app; now right).
    unfold step in S. destruct (existsb is_option l) eqn:X; [|destruct (take_positionals (p :: ps) l) as [[? ?] ?]; discriminate S].
    assert (P : match take_positionals (p :: ps) l with
      | ([], _, _) => let '(a, r) := up_to_option l in inr ([], p :: ps, r, extras ++ a)
      | (ev, ps, r) => inr (ev, ps, r, extras)
      end = @inr (list event * scanned) _ (ev1, ps', r, extras') -> 
      (exists a, In (p, a) (ev1 ++ ev2)) /\ (forall a, In (p, a) (ev1 ++ ev2) -> exists s, a = [s])).
    { clear S. cbn [take_positionals]. destruct (take_one l) as [[a l1]|] eqn:T.
      - destruct (take_positionals ps l1) as [[ev3 ps3] r3] eqn:T'. intros [= <- <- <- <-]. eapply Rest; [reflexivity|exact T'|].
        intros a' I. destruct (scan_positionals _ _ _ _ _ _ _ R2) as (given & E3 & _ & B). destruct (B _ _ I) as [J|(s & f & J & Q)].
        + apply NP. apply take_positionals_dests in T'. rewrite T', E3. apply in_or_app. right. apply in_or_app. now left.
        + now apply (NO' _ _ J).
      - destruct (up_to_option l) as [a r'] eqn:U. intros [= <- <- <- <-]. cbn [app].
        eapply IH; [|exact R2|exact NP|exact NM|exact NO']. exact (valid_up_to_option _ V X _ _ U). }
    destruct l as [|[s k] l]; [discriminate|]. destruct k; [now apply P|now apply P|..]; clear P.
    + destruct (take_option f l) as [[e r']|] eqn:T; [|discriminate]. injection S as <- <- <- <-. apply take_option_app in T. destruct T as ([De _] & a & ->).
      destruct V as [_ V]. apply valid_suffix in V; [|apply no_dashes_in_arguments].
      destruct (IH _ _ _ _ _ _ _ V R2 NP NM NO') as [[a' I] B].
      split; [exists a'; now right|]. intros a2 [I2|I2]; [|now apply B]. exfalso. subst e. cbn [fst] in De. apply (NO s f); [now left|congruence].
    + injection S as <- <- <- <-. destruct V as [_ V]. cbn [app]. eapply IH; eauto.
Qed.
