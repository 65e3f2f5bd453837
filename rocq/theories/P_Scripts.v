(** Properties C97 and C98: the scripts that guard a release. *)
From Coq Require Import PeanoNat String List NArith Bool Lia ZifyN.
From Verif Require Import PyStr PyStrFacts PyBase Regex ArgModel DataTypesModel DataTypesSpec CliSpec ScriptsModel ScriptsSpec ScriptsTexts.
From Verif Require OpcFacts.
Import ListNotations.
Local Open Scope N_scope.

(** ** Lines *)
Definition free (s : str) : Prop := Forall (fun c => ~ Breaks c) s.
Lemma cut_first (l t u v : str) : ~ In 10 l -> l ++ 10 :: t = u ++ v ->
  (exists m, l = u ++ m /\ v = m ++ 10 :: t) \/ (exists w, u = l ++ 10 :: w /\ t = w ++ v).
Proof.
  revert u. induction l as [|c l IH]; intros u N E.
  - destruct u as [|d u]; [left; exists []; auto|]. cbn in E. injection E as <- ->. right. exists u. auto.
  - destruct u as [|d u]; [left; exists (c :: l); auto|]. cbn in E. injection E as <- E.
    destruct (IH u) as [(m & -> & ->)|(w & -> & ->)]; [intros I; apply N; now right|exact E|left; exists m; auto|right; exists w; auto].
Qed.
Lemma cut_lines_in x : ~ In 10 x -> forall s l, ~ In 10 l ->
  (In (x ++ [10]) (cut_lines l s) <-> exists b a, l ++ s = b ++ x ++ 10 :: a /\ (b = [] \/ exists b', b = b' ++ [10])).
Proof.
  intros X. induction s as [|c s IH]; intros l L.
  - cbn [cut_lines]. rewrite app_nil_r. split.
    + intros H. assert (In 10 l); [|contradiction]. destruct l; [destruct H|]. destruct H as [->|[]]. apply in_or_app. right. now left.
    + intros (b & a & -> & _). exfalso. apply L. apply in_or_app. right. apply in_or_app. right. now left.
  - cbn [cut_lines]. destruct (N.eqb_spec c 10) as [->|C].
    + split.
      * intros [H|H].
        -- apply app_inj_tail in H as [-> _]. exists [], s. auto.
        -- apply IH in H as (b & a & E & B); [|intros []]. cbn in E. subst s. exists (l ++ 10 :: b), a. split; [now rewrite <- app_assoc|]. right.
           destruct B as [->|[b' ->]]; [exists l; reflexivity|]. exists (l ++ 10 :: b'). now rewrite <- app_assoc.
      * intros (b & a & E & [->|[b' ->]]).
        -- left. cbn in E. destruct (cut_first l s x (10 :: a) L E) as [(m & -> & M)|(w & -> & _)].
           ++ destruct m as [|d m]; [now rewrite app_nil_r|]. injection M as <- _. exfalso. apply L. apply in_or_app. right. now left.
           ++ exfalso. apply X. apply in_or_app. right. now left.
        -- right. apply IH; [intros []|]. cbn. rewrite <- app_assoc in E. destruct (cut_first l s b' _ L E) as [(m & -> & M)|(w & -> & ->)].
           ++ destruct m as [|d m]; [injection M as <-; exists [], a; auto|]. injection M as <- _. exfalso. apply L. apply in_or_app. right. now left.
           ++ exists (w ++ [10]), a. split; [now rewrite <- app_assoc|eauto].
    + rewrite IH; [|rewrite in_app_iff; cbn; intuition]. rewrite <- app_assoc. reflexivity.
Qed.
Lemma universal_other c s : c <> 13 -> universal (c :: s) = c :: universal s.
Proof. intros C. cbn [universal]. apply N.eqb_neq in C. now rewrite C. Qed.
Lemma universal_free x s : free x -> universal (x ++ s) = x ++ universal s.
Proof.
  induction 1 as [|c x C F IH]; [reflexivity|]. cbn [app]. rewrite universal_other, IH; [reflexivity|]. intros ->. apply C. now right.
Qed.
Lemma universal_break c s : Breaks c -> exists s', universal (c :: s) = 10 :: s'.
Proof. intros [->| ->]; [rewrite universal_other by discriminate|]; eexists; reflexivity. Qed.
Lemma universal_cons c s : c <> 10 -> forall b, universal (b ++ c :: s) = universal b ++ universal (c :: s).
Proof.
  intros C b. remember (length b) as n eqn:L. assert (LE : (length b <= n)%nat) by lia. clear L. revert b LE. induction n as [|n IH]; intros b LE.
  - destruct b; [reflexivity|cbn in LE; lia].
  - destruct b as [|d b]; [reflexivity|]. cbn in LE. cbn [app]. destruct (N.eqb_spec d 13) as [->|D].
    + cbn [universal]. change (13 =? 13) with true. cbn iota. destruct b as [|e b].
      * cbn [app]. replace (c =? 10) with false by (symmetry; now apply N.eqb_neq). reflexivity.
      * cbn [app]. cbn in LE. destruct (e =? 10); cbn [app]; f_equal; [apply (IH b); lia|apply (IH (e :: b)); cbn; lia].
    + rewrite !universal_other by exact D. cbn [app]. f_equal. apply IH. lia.
Qed.
Lemma universal_last b d : Breaks d -> exists b', universal (b ++ [d]) = b' ++ [10].
Proof.
  intros [->| ->]; [|exists (universal b); now rewrite universal_cons by discriminate].
  remember (length b) as n eqn:L. assert (LE : (length b <= n)%nat) by lia. clear L. revert b LE. induction n as [|n IH]; intros b LE.
  - destruct b; [exists []; reflexivity|cbn in LE; lia].
  - destruct b as [|c b]; [exists []; reflexivity|]. cbn in LE. cbn [app]. destruct (N.eqb_spec c 13) as [->|D].
    + cbn [universal]. change (13 =? 13) with true. cbn iota. destruct b as [|e b]; [exists []; reflexivity|]. cbn [app]. cbn in LE.
      destruct (e =? 10); [destruct (IH b) as [b' E]; [lia|]|destruct (IH (e :: b)) as [b' E]; [cbn; lia|]]; cbn [app] in E; rewrite E; exists (10 :: b'); reflexivity.
    + rewrite universal_other by exact D. destruct (IH b) as [b' ->]; [lia|]. exists (c :: b'). reflexivity.
Qed.
Lemma universal_split : forall s u v, universal s = u ++ v -> exists a b, s = a ++ b /\ universal a = u /\ universal b = v.
Proof.
  intros s. remember (length s) as n eqn:L. assert (LE : (length s <= n)%nat) by lia. clear L. revert s LE. induction n as [|n IH]; intros s LE u v E.
  - destruct s; [|cbn in LE; lia]. symmetry in E. apply app_eq_nil in E as [-> ->]. exists [], []. auto.
  - destruct u as [|x u]; [exists [], s; auto|]. destruct s as [|c s]; [discriminate E|]. cbn in LE. destruct (N.eqb_spec c 13) as [->|C].
    + cbn [universal] in E. change (13 =? 13) with true in E. cbn iota in E. cbn [app] in E. destruct s as [|d s].
      * injection E as <- E. symmetry in E. apply app_eq_nil in E as [-> ->]. exists [13], []. auto.
      * destruct (N.eqb_spec d 10) as [->|D].
        -- injection E as <- E. cbn in LE. destruct (IH s ltac:(lia) _ _ E) as (a & b & -> & <- & <-). exists (13 :: 10 :: a), b. auto.
        -- injection E as <- E. destruct (IH (d :: s) ltac:(lia) _ _ E) as (a & b & E' & <- & <-). exists (13 :: a), b. rewrite E'. split; [reflexivity|].
           split; [|reflexivity]. destruct a as [|e a]; [reflexivity|]. injection E' as <- _. apply N.eqb_neq in D. cbn [universal]. rewrite D. reflexivity.
    + rewrite universal_other in E by exact C. cbn [app] in E. injection E as <- E. destruct (IH s ltac:(lia) _ _ E) as (a & b & -> & <- & <-).
      exists (c :: a), b. split; [reflexivity|]. split; [now apply universal_other|reflexivity].
Qed.
Lemma universal_head c s : forall b, universal b = c :: s -> (c <> 10 /\ exists b', b = c :: b' /\ universal b' = s) \/ (c = 10 /\ exists d b', b = d :: b' /\ Breaks d).
Proof.
  intros [|d b] E; [discriminate E|]. destruct (N.eqb_spec d 13) as [->|D].
  - right. cbn [universal] in E. change (13 =? 13) with true in E. cbn iota in E. injection E as <- _. split; [reflexivity|]. exists 13, b. split; [reflexivity|now right].
  - rewrite universal_other in E by exact D. injection E as -> E. destruct (N.eqb_spec c 10) as [->|C].
    + right. split; [reflexivity|]. exists 10, b. split; [reflexivity|now left].
    + left. eauto.
Qed.
Lemma universal_lines x : free x -> forall b a, universal b = x ++ 10 :: a -> exists c r, b = x ++ c :: r /\ Breaks c.
Proof.
  induction 1 as [|c x C F IH]; intros b a E.
  - destruct (universal_head _ _ _ E) as [[N _]|(_ & d & b' & -> & D)]; [congruence|]. exists d, b'. auto.
  - cbn [app] in E. destruct (universal_head _ _ _ E) as [(N & b' & -> & E')|(-> & _)]; [|exfalso; apply C; now left].
    destruct (IH _ _ E') as (d & r & -> & D). exists d, r. auto.
Qed.
Lemma universal_final : forall a b, universal a = b ++ [10] -> exists b' d, a = b' ++ [d] /\ Breaks d.
Proof.
  intros a b E. destruct (universal_split a b [10] E) as (u & v & -> & _ & V). destruct (universal_head _ _ _ V) as [[N _]|(_ & d & v' & -> & D)]; [congruence|].
  destruct D as [->| ->].
  - rewrite universal_other in V by discriminate. injection V as V. destruct v' as [|e v']; [exists u, 10; split; [reflexivity|now left]|].
    exfalso. cbn [universal] in V. destruct (e =? 13); discriminate V.
  - cbn [universal] in V. change (13 =? 13) with true in V. cbn iota in V. injection V as V. destruct v' as [|e v']; [exists u, 13; split; [reflexivity|now right]|].
    destruct (N.eqb_spec e 10) as [->|N].
    + destruct v' as [|f v']; [exists (u ++ [13]), 10; split; [now rewrite <- app_assoc|now left]|]. exfalso. cbn [universal] in V. destruct (f =? 13); discriminate V.
    + exfalso. cbn [universal] in V. destruct (e =? 13); discriminate V.
Qed.
Lemma readlines_in text x : x <> [] -> free x -> (In (x ++ [10]) (readlines text) <-> HasLine text x).
Proof.
  intros NE F. assert (NX : ~ In 10 x) by (intros I; unfold free in F; rewrite Forall_forall in F; apply (F 10 I); now left).
  unfold readlines. rewrite (cut_lines_in x NX) by (intros []). cbn [app]. split.
  - intros (b & a & E & B). destruct (universal_split _ _ _ E) as (u & v & -> & <- & V). destruct (universal_lines x F _ _ V) as (c & r & -> & C).
    exists u, c, r. split; [reflexivity|]. split; [exact C|]. destruct B as [B|[b' B]]; [|right; exact (universal_final _ _ B)].
    left. destruct u as [|d u]; [reflexivity|]. cbn [universal] in B. destruct (d =? 13); discriminate B.
  - intros (b & c & r & -> & C & B). destruct x as [|y x]; [congruence|]. assert (Y : y <> 10) by (intros ->; apply NX; now left).
    cbn [app]. rewrite (universal_cons y) by exact Y. change (y :: x ++ c :: r) with ((y :: x) ++ c :: r). rewrite (universal_free (y :: x)) by exact F.
    destruct (universal_break c r C) as [s ->]. exists (universal b), s. split; [reflexivity|]. destruct B as [->|(b' & d & -> & D)]; [left; reflexivity|right; now apply universal_last].
Qed.

(** ** Numbers *)
Lemma digits_tables :
  forallb (fun r => ((snd r - fst r + 1) mod 10 =? 0) && forallb (fun k => existsb (N.eqb (fst r + 10 * k)) decimal_zeros) (List.map N.of_nat (seq 0 (N.to_nat ((snd r - fst r + 1) / 10)))))
    decimal_digits = true /\
  forallb (fun z => existsb (fun r => (fst r <=? z) && (z + 9 <=? snd r)) decimal_digits) decimal_zeros = true.
Proof. vm_compute. split; reflexivity. Qed.
Lemma digit_class c : in_cls decimal_digits c = true <-> exists d, UnicodeDigit c d.
Proof.
  destruct digits_tables as [T1 T2]. rewrite in_cls_spec, Exists_exists. split.
  - intros ((lo & hi) & I & A & B). cbn [fst snd] in A, B. rewrite forallb_forall in T1. specialize (T1 _ I). cbn [fst snd] in T1.
    apply andb_true_iff in T1 as [M T]. apply N.eqb_eq in M. rewrite forallb_forall in T.
    assert (D : hi - lo + 1 = 10 * ((hi - lo + 1) / 10)) by (pose proof (N.div_mod (hi - lo + 1) 10); lia).
    pose proof (N.div_mod (c - lo) 10 ltac:(lia)) as E. pose proof (N.mod_lt (c - lo) 10 ltac:(lia)) as L.
    specialize (T ((c - lo) / 10)). rewrite existsb_exists in T. destruct T as (z & Z & EZ).
    + apply in_map_iff. exists (N.to_nat ((c - lo) / 10)). split; [apply N2Nat.id|]. apply in_seq. split; [lia|]. cbn [Nat.add].
      apply Nat.compare_lt_iff. rewrite <- N2Nat.inj_compare. apply N.compare_lt_iff. lia.
    + apply N.eqb_eq in EZ. exists ((c - lo) mod 10). exists z. split; [exact Z|]. lia.
  - intros (d & z & Z & -> & D). rewrite forallb_forall in T2. specialize (T2 z Z). rewrite existsb_exists in T2. destruct T2 as (r & R & H).
    exists r. split; [exact R|]. apply andb_true_iff in H as [H1 H2]. apply N.leb_le in H1, H2. lia.
Qed.
Lemma number_lang s : Regex.lang (rplus (RCls decimal_digits)) s <-> Number s.
Proof.
  rewrite lang_rplus_cls. unfold Number. apply and_iff_compat_l. rewrite !Forall_forall. split; intros H c I; apply digit_class; auto.
Qed.
Lemma tag_lang s : matches re_tag s = true <-> exists v, s = lit "v" ++ v /\ Version v.
Proof.
  rewrite matches_spec. unfold re_tag. remember (rplus (RCls decimal_digits)) as n eqn:N. cbn [Regex.lang].
  assert (L : forall u, Regex.lang n u <-> Number u) by (intros u; subst n; apply number_lang). clear N. split.
  - intros (v & w & -> & V & a & w1 & -> & A & d & w2 & -> & D & b & w3 & -> & B & d' & c & -> & D' & C).
    apply lang_rchr in V, D, D'. subst v d d'. apply L in A, B, C. exists (a ++ lit "." ++ b ++ lit "." ++ c). split; [reflexivity|]. exists a, b, c. auto.
  - intros (v & -> & a & b & c & A & B & C & ->). apply L in A, B, C. exists (lit "v"), (a ++ lit "." ++ b ++ lit "." ++ c). split; [reflexivity|].
    split; [now apply lang_rchr|]. exists a, (lit "." ++ b ++ lit "." ++ c). split; [reflexivity|]. split; [exact A|].
    exists (lit "."), (b ++ lit "." ++ c). split; [reflexivity|]. split; [now apply lang_rchr|]. exists b, (lit "." ++ c). split; [reflexivity|]. split; [exact B|].
    exists (lit "."), c. split; [reflexivity|]. split; [now apply lang_rchr|exact C].
Qed.
Lemma number_free s : Number s -> free s.
Proof.
  intros [_ F]. unfold free. rewrite Forall_forall in *. intros c I B. apply F in I. apply digit_class in I. destruct B as [->| ->]; vm_compute in I; discriminate I.
Qed.
Lemma free_lit x : forallb (fun c => negb ((c =? 10) || (c =? 13))) (lit x) = true -> free (lit x).
Proof.
  intros H. unfold free. rewrite forallb_forall in H. apply Forall_forall. intros c I [->| ->]; specialize (H _ I); discriminate H.
Qed.
Lemma free_app a b : free a -> free b -> free (a ++ b).
Proof. intros A B. apply Forall_app. auto. Qed.
Lemma version_free v : Version v -> free v.
Proof.
  intros (a & b & c & A & B & C & ->). repeat apply free_app; try (now apply number_free); now apply free_lit.
Qed.

(** ** C97 *)
Lemma strip_stripped s t : Stripped s t <-> strip s = t.
Proof.
  pose proof (OpcFacts.trimmed_strip s) as T. split; [|intros <-; exact T]. intros H. symmetry. exact (OpcFacts.trimmed_fun s t (strip s) H T).
Qed.
Lemma asserted x n text : x <> [] -> free x -> (snd (assert_line_in_file x n text) = None <-> HasLine text x).
Proof.
  intros N F. rewrite <- (readlines_in text x N F). unfold assert_line_in_file. destruct (existsb _ _) eqn:E.
  - apply existsb_exists in E as (l & I & S). apply str_eqb_spec in S as ->. cbn [snd]. tauto.
  - cbn [snd]. split; [discriminate|]. intros I. apply Bool.not_true_iff_false in E. destruct E. apply existsb_exists. exists (x ++ [10]). split; [exact I|]. now apply str_eqb_spec.
Qed.
Lemma then_none a b : snd (then_ a b) = None <-> snd a = None /\ snd b = None.
Proof. destruct a as [o [m|]]; cbn; [split; [discriminate|intros [H _]; discriminate H]|tauto]. Qed.

(** The check of a release passes exactly if there is one tag, it is "v" and a version, and both files have the line with that version. *)
Theorem C97_exact : forall git pyproject init,
  snd (check_version_strings git pyproject init) = None <->
  exists v, Version v /\ Stripped git (lit "v" ++ v) /\ Says_project v pyproject /\ Says_package v init.
Proof.
  intros git pp init. unfold check_version_strings.
  assert (P : forall v, Version v -> (snd (then_ (assert_line_in_file (lit "version = """ ++ v ++ lit """") (lit "pyproject.toml") pp)
               (assert_line_in_file (lit "    return """ ++ v ++ lit """") (lit "aas_test_engines/__init__.py") init)) = None <-> Says_project v pp /\ Says_package v init)).
  { intros v V. rewrite then_none, !asserted; [reflexivity|discriminate| |discriminate|]; repeat apply free_app; try (now apply version_free); now apply free_lit. }
  split.
  - destruct (strip git) as [|c t] eqn:S; [discriminate|]. rewrite then_none. intros [_ H]. destruct (matches re_tag (c :: t)) eqn:M; [|discriminate H].
    apply tag_lang in M as (v & E & V). rewrite E in H, S. change (skipn 1 (lit "v" ++ v)) with v in H. exists v. split; [exact V|]. split; [now apply strip_stripped|]. now apply P.
  - intros (v & V & S & H). apply strip_stripped in S. rewrite S. change (lit "v" ++ v) with (118 :: v). cbn iota beta. rewrite then_none. split; [reflexivity|].
    replace (matches re_tag (118 :: v)) with true; [|symmetry; apply tag_lang; exists v; auto]. change (skipn 1 (118 :: v)) with v. now apply P.
Qed.
Print Assumptions C97_exact.
Lemma asserted_not x n text : x <> [] -> free x -> ~ HasLine text x -> snd (assert_line_in_file x n text) = Some (lit "'" ++ x ++ lit "' not found in " ++ n).
Proof.
  intros N F H. pose proof (proj1 (asserted x n text N F)) as A. unfold assert_line_in_file in *. destruct (existsb _ _); [|reflexivity]. exfalso. apply H, A. reflexivity.
Qed.
Lemma strip_blank s : strip s = [] <-> Blank s.
Proof.
  rewrite <- strip_stripped. split.
  - intros (a & b & -> & A & B & _). apply Forall_app. auto.
  - intros B. exists s, []. rewrite app_nil_r. repeat split; auto; [constructor|discriminate|]. intros c r E. destruct r; discriminate E.
Qed.
(** Which complaint: there is no tag; there is not one tag that is a version; one of the lines is missing. *)
Theorem C97_complaints : forall git pyproject init m, snd (check_version_strings git pyproject init) = Some m <->
  Blank git /\ m = lit "Commit is not tagged" \/
  ~ Blank git /\ (~ exists v, Version v /\ Stripped git (lit "v" ++ v)) /\ m = lit "Tag has invalid format" \/
  exists v, Version v /\ Stripped git (lit "v" ++ v) /\
    (~ Says_project v pyproject /\ m = lit "'version = """ ++ v ++ lit """' not found in pyproject.toml" \/
     Says_project v pyproject /\ ~ Says_package v init /\ m = lit "'    return """ ++ v ++ lit """' not found in aas_test_engines/__init__.py").
Proof.
  intros git pp init m.
  assert (D : Blank git \/ ~ Blank git /\ (~ exists v, Version v /\ Stripped git (lit "v" ++ v)) \/ exists v, Version v /\ Stripped git (lit "v" ++ v)).
  { destruct (strip git) as [|c t] eqn:S; [left; now apply strip_blank|]. right. destruct (matches re_tag (c :: t)) eqn:M.
    - right. apply tag_lang in M as (v & E & V). exists v. split; [exact V|]. apply strip_stripped. congruence.
    - left. split; [intros B; apply strip_blank in B; congruence|]. intros (v & V & T). apply strip_stripped in T. rewrite <- Bool.not_true_iff_false in M. apply M.
      apply tag_lang. exists v. split; [congruence|exact V]. }
  assert (NB : forall v, Stripped git (lit "v" ++ v) -> ~ Blank git). { intros v T B. apply strip_stripped in T. apply strip_blank in B. rewrite B in T. discriminate T. }
  destruct D as [B|[[B N]|(v & V & T)]].
  - assert (R : snd (check_version_strings git pp init) = Some (lit "Commit is not tagged")). { unfold check_version_strings. apply strip_blank in B. now rewrite B. }
    rewrite R. split; [intros E; left; split; [exact B|congruence]|]. intros [[_ ->]|[[N _]|(v & _ & T & _)]]; [reflexivity|contradiction|destruct (NB v T B)].
  - assert (R : snd (check_version_strings git pp init) = Some (lit "Tag has invalid format")).
    { unfold check_version_strings. destruct (strip git) as [|c t] eqn:S; [destruct B; now apply strip_blank|]. destruct (matches re_tag (c :: t)) eqn:M; [|reflexivity].
      exfalso. apply N. apply tag_lang in M as (v & E & V). exists v. split; [exact V|]. apply strip_stripped. congruence. }
    rewrite R. split; [intros E; right; left; split; [exact B|split; [exact N|congruence]]|].
    intros [[B' _]|[(_ & _ & ->)|(v & V & T & _)]]; [contradiction|reflexivity|]. destruct N. eauto.
  - assert (R : snd (check_version_strings git pp init) = snd (then_ (assert_line_in_file (lit "version = """ ++ v ++ lit """") (lit "pyproject.toml") pp)
               (assert_line_in_file (lit "    return """ ++ v ++ lit """") (lit "aas_test_engines/__init__.py") init))).
    { unfold check_version_strings. pose proof T as T'. apply strip_stripped in T'. rewrite T'. change (lit "v" ++ v) with (118 :: v). cbn iota beta.
      replace (matches re_tag (118 :: v)) with true; [|symmetry; apply tag_lang; exists v; auto]. change (skipn 1 (118 :: v)) with v. reflexivity. }
    rewrite R. clear R.
    assert (F1 : free (lit "version = """ ++ v ++ lit """")) by (repeat apply free_app; try (now apply version_free); now apply free_lit).
    assert (F2 : free (lit "    return """ ++ v ++ lit """")) by (repeat apply free_app; try (now apply version_free); now apply free_lit).
    assert (E1 : lit "version = """ ++ v ++ lit """" <> []) by discriminate. assert (E2 : lit "    return """ ++ v ++ lit """" <> []) by discriminate.
    assert (U : forall v', Stripped git (lit "v" ++ v') -> v' = v).
    { intros v' T'. apply strip_stripped in T, T'. rewrite T in T'. apply app_inv_head in T'. congruence. }
    pose proof (asserted _ (lit "pyproject.toml") pp E1 F1) as A1. pose proof (asserted_not _ (lit "pyproject.toml") pp E1 F1) as N1.
    pose proof (asserted _ (lit "aas_test_engines/__init__.py") init E2 F2) as A2. pose proof (asserted_not _ (lit "aas_test_engines/__init__.py") init E2 F2) as N2.
    fold (Says_project v pp) in A1, N1. fold (Says_package v init) in A2, N2.
    destruct (assert_line_in_file _ (lit "pyproject.toml") pp) as [o1 e1]. destruct (assert_line_in_file _ (lit "aas_test_engines/__init__.py") init) as [o2 e2].
    cbn [snd] in A1, A2, N1, N2. destruct e1 as [e1|].
    + assert (S1 : ~ Says_project v pp) by (intros H; apply A1 in H; discriminate H). rewrite (N1 S1). cbn [then_ snd]. split.
      * intros E. right. right. exists v. split; [exact V|]. split; [exact T|]. left. split; [exact S1|]. injection E as <-. rewrite <- ?app_assoc. reflexivity.
      * intros [[B _]|[(_ & N & _)|(v' & _ & T' & H)]]; [destruct (NB v T B)|destruct N; eauto|]. rewrite (U v' T') in H.
        destruct H as [[_ ->]|(H & _)]; [rewrite <- ?app_assoc; reflexivity|contradiction].
    + assert (S1 : Says_project v pp) by (apply A1; reflexivity). cbn [then_ snd]. destruct e2 as [e2|].
      * assert (S2 : ~ Says_package v init) by (intros H; apply A2 in H; discriminate H). rewrite (N2 S2). split.
        -- intros E. right. right. exists v. split; [exact V|]. split; [exact T|]. right. split; [exact S1|]. split; [exact S2|]. injection E as <-. rewrite <- ?app_assoc. reflexivity.
        -- intros [[B _]|[(_ & N & _)|(v' & _ & T' & H)]]; [destruct (NB v T B)|destruct N; eauto|]. rewrite (U v' T') in H.
           destruct H as [[H _]|(_ & _ & ->)]; [contradiction|rewrite <- ?app_assoc; reflexivity].
      * assert (S2 : Says_package v init) by (apply A2; reflexivity). split; [discriminate|].
        intros [[B _]|[(_ & N & _)|(v' & _ & T' & H)]]; [destruct (NB v T B)|destruct N; eauto|]. rewrite (U v' T') in H. destruct H as [[H _]|(_ & H & _)]; contradiction.
Qed.
Print Assumptions C97_complaints.

(** The files as they are: this commit passes with exactly the tag of version 1.0.2. *)
Lemma repo_version v : Says_package v package_init -> free v -> v = lit "1.0.2".
Proof.
  intros H F. apply readlines_in in H; [|discriminate|repeat apply free_app; auto; now apply free_lit].
  assert (R : readlines package_init = [lit "def version() -> str:" ++ [10]; lit "    return """ ++ lit "1.0.2" ++ lit """" ++ [10]]) by (vm_compute; reflexivity).
  rewrite R in H. destruct H as [H|[H|[]]].
  - rewrite <- !app_assoc in H. discriminate H.
  - rewrite <- !app_assoc in H. apply app_inv_head in H. rewrite !app_assoc in H. do 2 apply app_inv_tail in H. congruence.
Qed.
Theorem C97_current : forall git, snd (check_version_strings git pyproject_toml package_init) = None <-> Stripped git (lit "v1.0.2").
Proof.
  intros git. rewrite C97_exact. split.
  - intros (v & V & T & _ & P). apply repo_version in P as ->; [exact T|now apply version_free].
  - intros T. assert (E : strip git = lit "v1.0.2") by now apply strip_stripped. apply C97_exact.
    unfold check_version_strings. rewrite E. vm_compute. reflexivity.
Qed.
Print Assumptions C97_current.
(** A single tag with the line break that git prints; no tag; two tags; a tag that is no version; an old tag; the last line without a line break. *)
Example C97_ex : List.map (fun x => snd (check_version_strings (fst x) pyproject_toml (snd x)))
    [(lit "v1.0.2" ++ [10], package_init); ([], package_init); (lit "v1.0.1" ++ [10] ++ lit "v1.0.2", package_init); (lit "1.0.2", package_init);
     (lit "v1.0.1", package_init); (lit "v1.0.2", lit "    return ""1.0.2"""); (lit "v1.0.2", lit "    return ""1.0.2""" ++ [13])] =
  [None; Some (lit "Commit is not tagged"); Some (lit "Tag has invalid format"); Some (lit "Tag has invalid format");
   Some (lit "'version = ""1.0.1""' not found in pyproject.toml"); Some (lit "'    return ""1.0.2""' not found in aas_test_engines/__init__.py"); None].
Proof. vm_compute. reflexivity. Qed.
(** Digits of other scripts, leading zeros and a line in another table of pyproject.toml are no obstacle. *)
Example C97_lax : snd (check_version_strings ([118; 1633] ++ lit ".00.2")
    (lit "[project]" ++ [10] ++ lit "version = ""3.0.0""" ++ [10] ++ lit "[tool.other]" ++ [10] ++ lit "version = """ ++ [1633] ++ lit ".00.2""" ++ [10])
    (lit "    return """ ++ [1633] ++ lit ".00.2""" ++ [10])) = None.
Proof. vm_compute. reflexivity. Qed.

(** ** C98 *)
Lemma fence_spec l : startswith (lit "```") l = true <-> Fence l.
Proof. apply startswith_spec. Qed.
Lemma marker_spec l : startswith disable_check l = true <-> Marker l.
Proof. apply startswith_spec. Qed.
Lemma fence_marker l : Fence l -> ~ Marker l.
Proof. intros [r ->] [r' E]. discriminate E. Qed.
Lemma not_true b : b <> true -> b = false.
Proof. destruct b; congruence. Qed.
Lemma kinds l : (startswith (lit "```") l = true /\ Fence l) \/ (startswith (lit "```") l = false /\ startswith disable_check l = true /\ Marker l) \/
  (startswith (lit "```") l = false /\ startswith disable_check l = false /\ Other l).
Proof.
  pose proof (fence_spec l) as F. pose proof (marker_spec l) as M. destruct (startswith (lit "```") l); [left; tauto|].
  assert (N : ~ Fence l) by (intros H; apply F in H; discriminate H).
  destruct (startswith disable_check l); [right; left; tauto|]. right. right. repeat split; auto. intros H. apply M in H. discriminate H.
Qed.
(** the loop within a block: to its end, to a misplaced marker or to the end of the text *)
Lemma in_block body : Forall Other body -> forall bl b cn rest,
  scan_readme bl (Some b) cn (body ++ rest) = scan_readme bl (Some {| ScriptsModel.lang := ScriptsModel.lang b; check := check b; content := content b ++ concat body |}) cn rest.
Proof.
  induction 1 as [|l body O F IH]; intros bl b cn rest.
  - cbn [concat app]. rewrite app_nil_r. destruct b; reflexivity.
  - cbn [app scan_readme]. destruct (kinds l) as [[_ H]|[(_ & _ & H)|(-> & -> & _)]]; [destruct O; contradiction..|]. rewrite IH. cbn [ScriptsModel.lang check content concat].
    rewrite <- app_assoc. reflexivity.
Qed.
Lemma fence_scan c : Fence c -> startswith (lit "```") c = true.
Proof. intros H. now apply fence_spec. Qed.
Lemma document_scan m ls bs : Document m ls bs -> forall bl, scan_readme bl None (negb m) ls = Val (rev bl ++ bs).
Proof.
  induction 1 as [m|m l ls bs O D IH|m l ls bs M D IH|m lg name body close ls bs S B C D IH|m o body O B]; intros bl.
  - cbn [scan_readme]. now rewrite app_nil_r.
  - cbn [scan_readme]. destruct (kinds l) as [[_ H]|[(_ & _ & H)|(-> & -> & _)]]; [destruct O; contradiction..|apply IH].
  - cbn [scan_readme]. destruct (kinds l) as [[_ H]|[(-> & -> & _)|(_ & _ & H)]]; [destruct (fence_marker l H M)|apply IH|destruct H; contradiction].
  - cbn [scan_readme]. rewrite startswith_app. change (skipn 3 (lit "```" ++ name)) with name. rewrite (in_block body B). cbn [scan_readme]. rewrite (fence_scan close C).
    cbn [ScriptsModel.lang check content app]. apply strip_stripped in S. rewrite S. change true with (negb false). rewrite IH. cbn [rev]. now rewrite <- app_assoc.
  - cbn [scan_readme]. rewrite (fence_scan o O). rewrite <- (app_nil_r body), (in_block body B). cbn [scan_readme]. now rewrite app_nil_r.
Qed.
Lemma split_block ls : (Forall Other ls) \/ (exists body c rest, ls = body ++ c :: rest /\ Forall Other body /\ (Fence c \/ Marker c)).
Proof.
  induction ls as [|l ls IH]; [left; constructor|]. destruct (kinds l) as [[_ F]|[(_ & _ & M)|(_ & _ & O)]].
  - right. exists [], l, ls. auto.
  - right. exists [], l, ls. auto.
  - destruct IH as [F|(body & c & rest & -> & B & C)]; [left; constructor; auto|]. right. exists (l :: body), c, rest. auto.
Qed.
Lemma other_no_fence body : Forall Other body -> Forall (fun l => ~ Fence l) body.
Proof. apply Forall_impl. now intros l [H _]. Qed.
Lemma misplaced_before pre ls : Outside pre -> Misplaced ls -> Misplaced (pre ++ ls).
Proof.
  intros O (b & o & body & m & a & -> & OB & F & B & M). exists (pre ++ b), o, body, m, a. split; [now rewrite <- app_assoc|]. split; [|auto].
  induction O as [|l ls N O IH|o' body' c ls F' B' C O IH]; [exact OB|cbn [app]; now constructor|]. cbn [app]. rewrite <- app_assoc. cbn [app]. now constructor.
Qed.
(** Each text is a document or has a marker within a block. *)
Lemma document_or ls : forall m, (exists bs, Document m ls bs) \/ Misplaced ls.
Proof.
  remember (length ls) as n eqn:L. assert (LE : (length ls <= n)%nat) by lia. clear L. revert ls LE. induction n as [|n IH]; intros ls LE m.
  - destruct ls; [left; exists []; constructor|cbn in LE; lia].
  - destruct ls as [|l ls]; [left; exists []; constructor|]. cbn in LE. destruct (kinds l) as [[_ F]|[(_ & _ & M)|(_ & _ & O)]].
    + destruct (split_block ls) as [B|(body & c & rest & -> & B & [C|C])].
      * left. exists []. now constructor.
      * rewrite app_length in LE. cbn in LE. destruct (IH rest ltac:(lia) false) as [[bs D]|D].
        -- left. destruct F as [name ->]. eexists. eapply D_block; eauto. now apply strip_stripped.
        -- right. change (l :: body ++ c :: rest) with ((l :: body) ++ c :: rest). replace ((l :: body) ++ c :: rest) with ((l :: body ++ [c]) ++ rest) by (cbn [app]; now rewrite <- app_assoc).
           apply misplaced_before; [|exact D]. apply O_block; [exact F|now apply other_no_fence|exact C|constructor].
      * right. exists [], l, body, c, rest. split; [reflexivity|]. split; [constructor|]. split; [exact F|]. split; [now apply other_no_fence|exact C].
    + destruct (IH ls ltac:(lia) true) as [[bs D]|D]; [left; exists bs; now apply D_marker|]. right. change (l :: ls) with ([l] ++ ls). apply misplaced_before; [|exact D].
      constructor; [intros F; exact (fence_marker l F M)|constructor].
    + destruct (IH ls ltac:(lia) m) as [[bs D]|D]; [left; exists bs; now apply D_text|]. right. change (l :: ls) with ([l] ++ ls). apply misplaced_before; [|exact D].
      constructor; [exact (proj1 O)|constructor].
Qed.
(** within a block the loop raises at a marker before the next fence, wherever it is *)
Lemma marker_raises body m after : Forall (fun l => ~ Fence l) body -> Marker m -> forall bl b cn, scan_readme bl (Some b) cn (body ++ m :: after) = Raise GenericException.
Proof.
  intros B M. induction B as [|l body N B IH]; intros bl b cn; cbn [app scan_readme].
  - destruct (kinds m) as [[_ H]|[(-> & -> & _)|(_ & _ & H)]]; [destruct (fence_marker m H M)|reflexivity|destruct H; contradiction].
  - destruct (kinds l) as [[_ H]|[(-> & -> & _)|(-> & -> & H)]]; [contradiction|reflexivity|apply IH].
Qed.
Lemma block_raises_or body c rest : Forall (fun l => ~ Fence l) body -> Fence c -> forall bl b cn,
  scan_readme bl (Some b) cn (body ++ c :: rest) = Raise GenericException \/ exists bl', scan_readme bl (Some b) cn (body ++ c :: rest) = scan_readme bl' None cn rest.
Proof.
  intros B C. induction B as [|l body N B IH]; intros bl b cn; cbn [app scan_readme].
  - rewrite (fence_scan c C). right. eauto.
  - destruct (kinds l) as [[_ H]|[(-> & -> & _)|(-> & -> & H)]]; [contradiction|now left|apply IH].
Qed.
Lemma misplaced_scan ls : Misplaced ls -> forall bl cn, scan_readme bl None cn ls = Raise GenericException.
Proof.
  intros (b & o & body & m & a & -> & OB & F & B & M). induction OB as [|l ls N O IH|o' body' c ls F' B' C O IH]; intros bl cn; cbn [app scan_readme].
  - rewrite (fence_scan o F). now apply marker_raises.
  - destruct (kinds l) as [[_ H]|[(-> & -> & _)|(-> & -> & H)]]; [contradiction|apply IH|apply IH].
  - rewrite (fence_scan o' F'), <- app_assoc. cbn [app]. match goal with |- scan_readme ?bl (Some ?b0) ?cn _ = _ => destruct (block_raises_or body' c (ls ++ o :: body ++ m :: a) B' C bl b0 cn) as [E|[bl' E]] end;
      [exact E|]. rewrite E. apply IH.
Qed.
(** The blocks of a README: exactly its fenced blocks. *)
Theorem C98_blocks : forall lines bs, scan_readme [] None true lines = Val bs <-> Document false lines bs.
Proof.
  intros lines bs. split; [|intros D; exact (document_scan _ _ _ D [])]. intros H. destruct (document_or lines false) as [[bs' D]|M].
  - pose proof (document_scan _ _ _ D []) as E. cbn [negb rev app] in E. rewrite H in E. injection E as ->. exact D.
  - rewrite (misplaced_scan lines M) in H. discriminate H.
Qed.
Print Assumptions C98_blocks.
(** The script complains exactly about a marker within a block, which may be a block without an end. *)
Theorem C98_refused : forall works readme e, check_readme works readme = Bad_readme e <-> e = GenericException /\ Misplaced (readlines readme).
Proof.
  intros works readme e. unfold check_readme. split.
  - destruct (document_or (readlines readme) false) as [[bs D]|M].
    + rewrite (document_scan _ _ _ D [] : scan_readme [] None true _ = _). destruct (execute_snippets _ _ _). discriminate.
    + rewrite (misplaced_scan _ M). intros H. injection H as <-. auto.
  - intros [-> M]. now rewrite (misplaced_scan _ M).
Qed.
Print Assumptions C98_refused.
Lemma checked_total bs : exists cs, Checked bs cs.
Proof. induction bs as [|[lg [|] c] bs [cs IH]]; [exists []; constructor|exists (c :: cs); now constructor|exists cs; now constructor]. Qed.
Lemma executes works bs cs : Checked bs cs -> forall before, exists n, 
  execute_snippets works before bs = (before ++ firstn n cs, snd (execute_snippets works before bs)) /\
  (forall u c v, firstn n cs = u ++ c :: v -> (v <> [] -> works (before ++ u) c = true) /\ (v = [] -> snd (execute_snippets works before bs) = works (before ++ u) c)) /\
  (snd (execute_snippets works before bs) = true -> firstn n cs = cs) /\ (cs <> [] -> n <> 0%nat) /\ (cs = [] -> snd (execute_snippets works before bs) = true).
Proof.
  induction 1 as [|lg c bs cs C IH|lg c bs cs C IH]; intros before.
  - exists 0%nat. cbn. rewrite app_nil_r. repeat split; auto; destruct u; discriminate H.
  - cbn [execute_snippets check content]. destruct (works before c) eqn:W.
    + destruct (IH (before ++ [c])) as (n & E & P & A & NZ & Z). exists (S n). cbn [firstn]. split; [rewrite E at 1; now rewrite <- app_assoc|]. split; [|split; [|split; [discriminate|discriminate]]].
      * intros u x v EQ. destruct u as [|y u]; cbn [app] in EQ.
        -- injection EQ as <- EQ. rewrite app_nil_r. split; [auto|]. intros ->. rewrite W. apply Z. destruct cs; [reflexivity|]. destruct n; [destruct (NZ ltac:(discriminate)); reflexivity|discriminate EQ].
        -- injection EQ as <- EQ. specialize (P _ _ _ EQ). rewrite <- app_assoc in P. exact P.
      * intros H. now rewrite (A H).
    + exists 1%nat. cbn [firstn snd]. split; [reflexivity|]. split; [|split; [discriminate|split; discriminate]].
      intros u x v EQ. destruct u as [|y u]; cbn [app] in EQ; [injection EQ as <- <-; rewrite app_nil_r; split; [congruence|auto]|]. injection EQ as _ EQ. destruct u; discriminate EQ.
  - cbn [execute_snippets check]. apply IH.
Qed.
(** Otherwise it executes exactly the blocks without a marker, in order and up to the first that fails; it ends well exactly if all of them work. *)
Theorem C98_executed : forall works readme bs cs, Document false (readlines readme) bs -> Checked bs cs ->
  exists n ok, check_readme works readme = Snippets (length bs) (firstn n cs) ok /\
    (forall before c after, firstn n cs = before ++ c :: after -> (after <> [] -> works before c = true) /\ (after = [] -> ok = works before c)) /\
    (ok = true <-> All_work works cs) /\ (ok = true -> firstn n cs = cs).
Proof.
  intros works readme bs cs D C. destruct (executes works bs cs C []) as (n & E & P & A & NZ & Z). exists n, (snd (execute_snippets works [] bs)). cbn [app] in *.
  unfold check_readme. rewrite (document_scan _ _ _ D [] : scan_readme [] None true _ = _). cbn [rev app]. rewrite E at 1. split; [reflexivity|]. split; [exact P|]. split; [|exact A]. split.
  - intros H before c after EQ. rewrite <- (A H) in EQ. destruct (P _ _ _ EQ) as [P1 P2]. destruct after; [now rewrite <- P2|apply P1; discriminate].
  - intros W. destruct (firstn n cs) as [|x l] eqn:F.
    + apply Z. destruct cs; [reflexivity|]. destruct n; [destruct (NZ ltac:(discriminate)); reflexivity|discriminate F].
    + destruct (exists_last (l := x :: l)) as (u & c & U); [discriminate|]. rewrite U in P. destruct (P u c [] eq_refl) as [_ P2]. rewrite P2 by reflexivity.
      apply (W u c (skipn n cs)). rewrite <- (firstn_skipn n cs) at 1. rewrite F, U. now rewrite <- app_assoc.
Qed.
Print Assumptions C98_executed.
(** Not everything is checked: the code behind a fence that is never closed is not executed, whatever it is. *)
Theorem C98_refuted : forall code works, Forall Other (readlines code) ->
  check_readme works (lit "```python" ++ [10] ++ code) = Snippets 0 [] true.
Proof.
  intros code works O. assert (R : readlines (lit "```python" ++ [10] ++ code) = (lit "```python" ++ [10]) :: readlines code).
  { unfold readlines. rewrite universal_free by now apply free_lit. change ([10] ++ code) with (10 :: code). rewrite universal_other by discriminate. reflexivity. }
  unfold check_readme. rewrite R.
  assert (D : Document false ((lit "```python" ++ [10]) :: readlines code) []) by (apply D_open; [exists (lit "python" ++ [10]); reflexivity|exact O]).
  rewrite (document_scan _ _ _ D [] : scan_readme [] None true _ = _). reflexivity.
Qed.
Print Assumptions C98_refuted.
(** The language is not looked at: commands of a shell are executed as python. *)
Theorem C98_language_refuted : exists readme cmd, forall works,
  (exists ok, check_readme works readme = Snippets 1 [cmd] ok) /\ Document false (readlines readme) [{| ScriptsModel.lang := lit "sh"; check := true; content := cmd |}].
Proof.
  exists (lit "```sh" ++ [10] ++ lit "rm -r build" ++ [10] ++ lit "```" ++ [10]), (lit "rm -r build" ++ [10]). intros works. split.
  - unfold check_readme. match goal with |- context [readlines ?t] => let r := eval vm_compute in (scan_readme [] None true (readlines t)) in replace (scan_readme [] None true (readlines t)) with r by (vm_compute; reflexivity) end.
    cbn [execute_snippets check content]. destruct (works [] _); eexists; reflexivity.
  - apply C98_blocks. vm_compute. reflexivity.
Qed.
Print Assumptions C98_language_refuted.
(** The README as it is: all blocks are closed, the six blocks that are executed are python, and all others are skipped on purpose. *)
Theorem C98_current : exists bs, Document false (readlines readme_md) bs /\ length bs = 16%nat /\
  List.map ScriptsModel.lang (filter check bs) = repeat (lit "python") 6 /\ List.map ScriptsModel.lang (filter (fun b => negb (check b)) bs) = repeat (lit "sh") 9 ++ [lit "python"] /\
  concat (List.map content (firstn 1 (filter check bs))) = join [10] (List.map lit ["from aas_test_engines import file"; ""; "with open('aas.aasx', 'rb') as f:"; "    result = file.check_aasx_file(f)";
    "# result.ok() == True"; ""; "result.dump()"; "# try result.to_html() to get an interactive representation"; ""]%string).
Proof.
  exists (match scan_readme [] None true (readlines readme_md) with Val bs => bs | Raise _ => [] end).
  split; [apply C98_blocks|split; [|split; [|split]]]; vm_compute; reflexivity.
Qed.
Print Assumptions C98_current.
(** A marker skips the next block only, also with text in between; a text with a marker within a block; a failing snippet ends the script. *)
Definition join_lines (l : list string) : str := concat (List.map (fun s => lit s ++ [10]) l).
Example C98_ex : List.map (fun r => check_readme (fun _ c => negb (str_eqb c (lit "bad" ++ [10]))) (join_lines r))
  [["<!-- no-check -->"; "text"; "```sh"; "ls"; "```"; "```python"; "a"; "b"; "```"]; ["```"; "<!-- no-check -->"; "```"]; ["```"; "a"; "```"; "```"; "bad"; "```"; "```"; "c"; "```"]]%string =
  [Snippets 2 [join_lines ["a"; "b"]%string] true; Bad_readme GenericException; Snippets 3 [lit "a" ++ [10]; lit "bad" ++ [10]] false].
Proof. vm_compute. reflexivity. Qed.
