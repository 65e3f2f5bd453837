(** Properties C11 - C13. *)
From Coq Require Import List NArith ZArith Bool Lia.
From Coq Require Import String. Open Scope list_scope.
From Verif Require Import PyStr PyStrFacts PyBase ConfigModel ConfigSpec ConfigFacts.
Import ListNotations.
Open Scope N_scope.

(** ** C12 *)
Theorem C12_filter_syntax : forall f,
  (new_filter f = Raise InvalidFilterException <-> exists a b c, f = a ++ 126 :: b ++ 126 :: c)
  /\ (forall e, new_filter f = Raise e -> e = InvalidFilterException)
  /\ (forall flt, new_filter f = Val flt -> exists i e, parts f i e
        /\ (forall ps, In ps (includes flt) <-> exists p, pattern_of i p /\ ps = translate p)
        /\ (forall ps, In ps (excludes flt) <-> exists p, pattern_of e p /\ ps = translate p)).
Proof.
  intros f. destruct (new_filter_spec f) as [H1 H2]. split; [exact H1|]. split.
  - intros e. unfold new_filter. destruct (split_on 126 f) as [|a [|b [|c l]]]; congruence.
  - intros flt H. apply H2 in H as (i & e & Hp & ->). exists i, e. split; auto.
    split; intros ps; apply compile_patterns_spec.
Qed.
Print Assumptions C12_filter_syntax.
Example C12_ex : exists flt, new_filter (lit "a*: :b~c?") = Val flt
  /\ includes flt = [[PChr 97; PStar]; [PChr 98]] /\ excludes flt = [[PChr 99; PAny]].
Proof. eexists. split; [vm_compute; reflexivity|]. split; reflexivity. Qed.
Example C12_ex_bad : new_filter (lit "a~b~c") = Raise InvalidFilterException.
Proof. reflexivity. Qed.

(** ** C13.  The standard library deviates for classes in which only empty ranges stand before
    an exclamation mark, such as "[b-a!x]". *)
Theorem C13_glob : forall pat name, regular_pattern pat -> (fnmatch pat name = true <-> denotes pat name).
Proof. intros pat name H. now apply fnmatch_spec. Qed.
Print Assumptions C13_glob.

Lemma regular_no_bracket pat : ~ In 91 pat -> regular_pattern pat.
Proof. intros H pre body post -> . exfalso. apply H. apply in_or_app. simpl; auto. Qed.
Lemma regular_no_bang pat : ~ In 33 pat -> regular_pattern pat.
Proof.
  intros H pre body post -> [_ Hl]. apply H. apply in_or_app; right. right. apply in_or_app; left.
  clear H. induction Hl; simpl; auto.
Qed.
(** Without bracket classes, or without exclamation marks, no restriction remains. *)
Theorem C13_glob_without_negation : forall pat name, ~ In 33 pat \/ ~ In 91 pat ->
  (fnmatch pat name = true <-> denotes pat name).
Proof. intros pat name [H|H]; apply fnmatch_spec; [now apply regular_no_bang|now apply regular_no_bracket]. Qed.
Print Assumptions C13_glob_without_negation.

Theorem C13_odd_class_refuted : exists pat name, fnmatch pat name = true /\ ~ denotes pat name.
Proof.
  exists (lit "[b-a!x]"), (lit "z"). split; [vm_compute; reflexivity|].
  assert (Eb : class_body (lit "b-a!x")).
  { exists [], 98, (lit "-a!x"). split; [reflexivity|]. split; [vm_compute; intuition discriminate|]. right. split; [reflexivity|lia]. }
  intros H. change (lit "[b-a!x]") with (91 :: (lit "b-a!x") ++ 93 :: []) in H.
  inversion H as [| | |body p c s Hb Hm Hd E1 E2|p s Hno Hd E1 E2|]; subst; try congruence.
  - change (body ++ 93 :: p = lit "b-a!x" ++ 93 :: []) in E1.
    destruct (class_body_unique _ _ _ _ Hb Eb E1) as [-> ->].
    unfold class_member in Hm. cbn in Hm. apply listed_items in Hm. vm_compute in Hm. discriminate.
Qed.
Print Assumptions C13_odd_class_refuted.
Example C13_ex1 : fnmatch (lit "test_*[0-9a-c]?") (lit "test_foo_b!") = true
  /\ fnmatch (lit "test_*[0-9a-c]?") (lit "Test_foo_b!") = false
  /\ fnmatch (lit "[!a-c]x") (lit "dx") = true /\ fnmatch (lit "*ab*c") (lit "aabab_c") = true.
Proof. vm_compute. auto. Qed.
Example C13_ex_regular : regular_pattern (lit "test_*[0-9a-c]?").
Proof. apply regular_no_bang. vm_compute. intuition discriminate. Qed.

(** ** C11 *)
Theorem C11_filter_selects : forall f i e flt name, parts f i e -> new_filter f = Val flt ->
  (selects flt name = true <->
  ((forall p, ~ pattern_of i p) \/ exists p, pattern_of i p /\ fnmatch p name = true)
  /\ ~ exists p, pattern_of e p /\ fnmatch p name = true).
Proof. intros. eapply selects_spec; eauto. Qed.
Theorem C11_filter_selects_glob : forall f i e flt name, parts f i e -> new_filter f = Val flt ->
  (forall p, pattern_of i p \/ pattern_of e p -> regular_pattern p) ->
  (selects flt name = true <->
  ((forall p, ~ pattern_of i p) \/ exists p, pattern_of i p /\ denotes p name)
  /\ ~ exists p, pattern_of e p /\ denotes p name).
Proof.
  intros f i e flt name Hp Hf Hr. rewrite (selects_spec f i e flt name Hp Hf).
  assert (G : forall part, (forall p, pattern_of part p -> regular_pattern p) ->
     (exists p, pattern_of part p /\ fnmatch p name = true) <-> (exists p, pattern_of part p /\ denotes p name)).
  { intros part H. split; intros (p & H1 & H2); exists p; split; auto; apply (fnmatch_spec p name (H p H1)); auto. }
  rewrite (G i), (G e) by auto. reflexivity.
Qed.
Print Assumptions C11_filter_selects.
Print Assumptions C11_filter_selects_glob.
Example C11_ex : exists flt, new_filter (lit "a*~*b") = Val flt
  /\ selects flt (lit "ac") = true /\ selects flt (lit "ab") = false /\ selects flt (lit "c") = false.
Proof. eexists. split; [vm_compute; reflexivity|]. vm_compute. auto. Qed.
