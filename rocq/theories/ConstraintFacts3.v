(** The check methods of model.py on instances: the remaining classes. *)
From Coq Require Import PeanoNat Lia String List NArith ZArith Bool.
From Verif Require Import PyStr PyStrFacts PyBase PyVal Regex DataTypesModel DataTypesSpec DataTypesFacts DataTypesFacts2 DataTypesFacts3 DataTypesFacts4 DataTypesFacts5.
From Verif Require Import ResultModel ReflectModel MetaModel MetaFacts ParseModel ParseFacts ParseFacts2 TypeSpec TypeFacts TypeFacts2 ConstraintModel ConstraintSpec ConstraintFacts ConstraintFacts2.
Import ListNotations.
Local Open Scope list_scope.
Local Open Scope string_scope.
Local Open Scope list_scope.

(** A method returns if [S] holds, raises [e] if [R] holds, and a CheckConstraintException otherwise. *)
Definition Answers (l : level) (e : exn) (S R : Prop) (v : verdict) : Prop :=
  (R /\ v = Raise e) \/ (~ R /\ S /\ v = fine) \/ (~ R /\ ~ S /\ exists m, v = Val (Some (l, m))).
Lemma dec_answers l e v S : Decides l v S -> Answers l e S False v.
Proof. unfold Decides, Answers. tauto. Qed.
Lemma crash_answers l e v S : Crashes e v S -> Answers l e S (~ S) v.
Proof. unfold Crashes, Answers. tauto. Qed.

Local Opaque model_types model_classes model_supers.

Ltac fldk H cls n k Hg Hk :=
  let F := fresh "F" in
  assert (F : field_ok cls n k = true) by (vm_compute; reflexivity);
  destruct (inst_attr cls n k _ F H) as [Hg Hk]; clear F.

(** ** Optional attributes *)
Lemma truthy_inst c x : Inst c x -> truthy x = true.
Proof. intros (n & kvs & -> & _). reflexivity. Qed.
Lemma not_none_inst c x : Inst c x -> is_none x = false.
Proof. intros (n & kvs & -> & _). reflexivity. Qed.
Lemma opt_text x n : Holds (AOptK AText) (attr x n) ->
  (Absent x n /\ attr x n = VNone) \/ (Present x n /\ exists c s, attr x n = VSfv c s /\ text x n = s).
Proof.
  unfold Absent, Present, text. intros [E|(c & s & E)]; [left; auto|]. right. rewrite E. split; [discriminate|]. cbn [chars]. eauto.
Qed.
Lemma opt_inst x n c : Holds (AOptK (AInst c)) (attr x n) -> (Absent x n /\ attr x n = VNone) \/ (Present x n /\ Inst c (attr x n)).
Proof.
  intros [E|I]; [left; split; exact E|]. right. split; [|exact I]. unfold Present. destruct I as (? & ? & -> & _). discriminate.
Qed.
Lemma opt_list x n ne k : Holds (AOptK (AListK ne k)) (attr x n) ->
  (Absent x n /\ attr x n = VNone /\ items x n = []) \/
  (Present x n /\ attr x n = VList (items x n) /\ (ne = true -> items x n <> []) /\ forall y, In y (items x n) -> Holds k y).
Proof.
  unfold Absent, Present, items. intros [E|(l & E & N & I)]; rewrite E; [left; auto|]. right. split; [discriminate|]. auto.
Qed.
Lemma path_shown x : Inst "SubmodelElement" x -> exists p, id_short_path_of x = Val p.
Proof. intros H. unfold id_short_path_of. fld H "SubmodelElement" "id_short_path" APath G K. eauto. Qed.
Lemma nonempty_truthy (l : list pyval) : l <> [] -> truthy (VList l) = true.
Proof. destruct l; [congruence|reflexivity]. Qed.
(** a class derived from [c] is derived from [d] *)
Definition derives1 (c d : string) (e : str * pfields) : bool :=
  if str_in (lit c) (supers (fst e)) then str_in (lit d) (supers (fst e)) else true.
Definition derives (c d : string) : bool := forallb (derives1 c d) model_types.
Lemma inst_derives c d x : derives c d = true -> Inst c x -> Inst d x.
Proof.
  intros F (n & kvs & -> & A & T). exists n, kvs. split; [reflexivity|]. split; [|exact T].
  apply typed_field in T as (fs & I & _). apply (proj1 (forallb_forall _ _) F) in I as F1.
  unfold is_a in *. rewrite (supers_eq _ _ I) in *. unfold derives1 in F1. cbn [fst] in F1. now rewrite A in F1.
Qed.
Ltac upto H d := let F := fresh "F" in
  match type of H with Inst ?c _ => assert (F : derives c d = true) by (vm_compute; reflexivity); apply (inst_derives c d _ F) in H end.
(** an attribute that the instances of a class do not have *)
Definition no_attr1 (cls n : string) (e : str * pfields) : bool :=
  if str_in (lit cls) (supers (fst e)) then match lookup (lit n) (snd e) with Some _ => false | None => true end else true.
Definition no_attr (cls n : string) : bool := forallb (no_attr1 cls n) model_types.
Lemma inst_no_attr cls n x : no_attr cls n = true -> Inst cls x -> getattr x (lit n) = Raise AttributeError.
Proof.
  intros F (c & kvs & -> & S & T). apply typed_field in T as (fs & I & _ & K & M).
  apply (proj1 (forallb_forall _ _) F) in I as F1. unfold no_attr1 in F1. cbn [fst snd] in F1.
  unfold is_a in S. rewrite (supers_eq _ _ I) in S. rewrite S in F1. cbn [getattr].
  destruct (lookup (lit n) kvs) as [z|] eqn:L; [|reflexivity].
  exfalso. apply lookup_In in L. apply (in_map fst) in L. cbn [fst] in L. rewrite K in L.
  apply in_map_iff in L as ([n' t] & E & J). cbn [fst] in E. subst n'.
  apply (lookup_nodup _ _ _ (types_nodup _ _ I)) in J. rewrite J in F1. discriminate.
Qed.

(** ** Language strings *)
Lemma lang_language_dec x : Inst "LangStringSet" x -> Dec (lang_check_language x) (TaggedText x).
Proof.
  intros H. fld H "LangStringSet" "language" APlain G K. destruct K as (s & K). unfold lang_check_language, TaggedText, text.
  rewrite G, K. cbn [obind as_str chars].
  assert (E : is_bcp_lang_string s = true <-> UpToLineFeed WellFormedTagCased s).
  { unfold is_bcp_lang_string. rewrite matches_dollar_spec. unfold UpToLineFeed. setoid_rewrite lang_language_tag. reflexivity. }
  destruct (is_bcp_lang_string s) eqn:B; cbn [negb].
  - destruct s as [|c s]; [vm_compute in B; discriminate|]. apply dec_fine. now apply E.
  - apply dec_bad. rewrite <- E. discriminate.
Qed.
Definition limited1 (e : str * pfields) : bool :=
  if str_in (lit "LangStringSet") (supers (fst e)) then existsb (fun l => str_eqb (lit (fst l)) (fst e)) text_limits else true.
Lemma limited_ok : forallb limited1 model_types = true. Proof. vm_compute. reflexivity. Qed.
Lemma max_len_eq c : max_len_text c = match find (fun p => str_eqb (lit (fst p)) c) text_limits with Some p => Some (snd p) | None => None end.
Proof. reflexivity. Qed.
Lemma limits_same c d n m : In (c, n) text_limits -> In (d, m) text_limits -> lit c = lit d -> n = m.
Proof.
  cbn [In text_limits]. intros I J E.
  repeat (destruct I as [[= <- <-]|I]); try destruct I;
  repeat (destruct J as [[= <- <-]|J]); try destruct J; try reflexivity; vm_compute in E; discriminate.
Qed.
Lemma lang_text_dec x : Inst "LangStringSet" x -> Dec (lang_check_text x) (LimitedText x).
Proof.
  intros H. fld H "LangStringSet" "text" APlain G K. destruct K as (s & K). unfold lang_check_text, LimitedText, text.
  rewrite G, K. cbn [obind as_str chars]. destruct s as [|c s]; [apply dec_bad; intros [N _]; now apply N|]. remember (c :: s) as t eqn:Et.
  destruct H as (n & kvs & -> & A & T). apply typed_field in T as (fs & I & _).
  apply (proj1 (forallb_forall _ _) limited_ok) in I as L. unfold limited1 in L. cbn [fst] in L.
  unfold is_a in A. rewrite (supers_eq _ _ I) in A. rewrite A in L. cbn [class_name class_of_obj].
  rewrite max_len_eq. apply existsb_exists in L as ([d m] & J & L). cbn [fst] in L.
  destruct (find (fun p => str_eqb (lit (fst p)) n) text_limits) as [[d' m']|] eqn:F;
    [|exfalso; pose proof (find_none _ _ F _ J) as X; cbn [fst] in X; congruence].
  apply find_some in F as [J' L']. cbn [fst snd] in *. apply str_eqb_spec in L, L'.
  apply dec_ifn. rewrite N.ltb_ge. split.
  - intros B. split; [now rewrite Et|]. exists d', m'. auto.
  - intros [_ (d2 & m2 & E & I2 & B)]. rewrite (limits_same d' d2 m' m2 J' I2 ltac:(congruence)). exact B.
Qed.

(** ** Data specifications *)
Lemma eds_dec x : Inst "EmbeddedDataSpecification" x -> Decides WARNING (eds_reference x) (SpecifiesIec61360 x).
Proof.
  intros H. fld H "EmbeddedDataSpecification" "data_specification" (AInst "Reference") G K. unfold eds_reference, SpecifiesIec61360.
  rewrite G. cbn [obind]. destruct (ref_keys _ K) as (k & l & Gk & Ik & A). rewrite Gk, Ik. cbn [obind py_len].
  assert (B : forall m S, ~ S -> Decides WARNING (warned m) S) by (intros m S N; right; split; [exact N|eexists; reflexivity]).
  destruct l as [|k2 l]; cbn [length Nat.eqb negb]; [|apply B; intros (k' & E & _); discriminate].
  cbn [first_item as_items obind]. destruct (key_value_eq k) as (c & s & Gv & Tv); [apply A; now left|].
  rewrite Gv. cbn [obind raw_value].
  assert (Q : (exists k0, [k] = [k0] /\ text k0 "value" = lit "https://admin-shell.io/DataSpecificationTemplates/DataSpecificationIec61360/3") <-> s = eds_expected).
  { split; [intros (k0 & [= <-] & E); rewrite <- Tv; exact E|]. intros ->. exists k. split; [reflexivity|exact Tv]. }
  eapply decides_iff; [symmetry; exact Q|].
  destruct (str_in s eds_deprecated) eqn:D.
  - apply B. intros ->. vm_compute in D. discriminate.
  - destruct (str_eqb s eds_expected) eqn:E; cbn [negb].
    + apply dec_fine. now apply str_eqb_spec.
    + apply B. intros ->. rewrite (proj2 (str_eqb_spec _ _) eq_refl) in E. discriminate.
Qed.

Lemma lang_english s : lang r_english s <-> EnTag s.
Proof.
  unfold r_english, EnTag. rewrite lang_rseq2.
  assert (L : forall u, lang (ralts [r_lit "en"; r_lit "EN"]) u <-> u = lit "en" \/ u = lit "EN").
  { intros u. rewrite lang_ralts. rewrite Exists_cons, Exists_cons, Exists_nil, !lang_rlit. tauto. }
  assert (R : forall v, lang (rseq [ropt (rseq [r_lit "-"; RStar r_any])]) v <->
    (v = [] \/ exists t, v = lit "-" ++ t /\ Forall (fun c => (c < 1114112)%N /\ c <> 10%N) t)).
  { intros v. rewrite lang_rseq1, lang_ropt, lang_rseq2.
    assert (Z : forall c, in_cls [(0, 9); (11, 1114111)]%N c = true <-> (c < 1114112)%N /\ c <> 10%N).
    { intros c. unfold in_cls. cbn [existsb fst snd]. rewrite orb_false_r, orb_true_iff, !andb_true_iff, !N.leb_le. lia. }
    split; (intros [E|E]; [left; exact E|right]).
    - destruct E as (u & w & -> & A & B). apply lang_rlit in A. apply lang_rseq1 in B. apply lang_star_cls in B. subst u. exists w. split; [reflexivity|].
      eapply Forall_impl; [|exact B]. intros c. apply Z.
    - destruct E as (t & -> & F). exists (lit "-"), t. split; [reflexivity|]. split; [now apply lang_rlit|]. apply lang_rseq1. apply lang_star_cls.
      eapply Forall_impl; [|exact F]. intros c. apply Z. }
  split.
  - intros (u & v & E & A & B). exists u, v. rewrite L in A. rewrite R in B. auto.
  - intros (u & v & E & A & B). exists u, v. rewrite L, R. auto.
Qed.
Lemma english_spec s : is_bcp_47_for_english s = true <-> EnTagged s.
Proof. unfold is_bcp_47_for_english, EnTagged. rewrite matches_dollar_spec. unfold UpToLineFeed. setoid_rewrite lang_english. reflexivity. Qed.

Lemma py_any_spec (f : pyval -> outcome bool) (P : pyval -> Prop) l :
  (forall x, In x l -> exists b, f x = Val b /\ (b = true <-> P x)) ->
  exists b, py_any f l = Val b /\ (b = true <-> exists x, In x l /\ P x).
Proof.
  induction l as [|x l IH]; intros H; cbn [py_any].
  - exists false. split; [reflexivity|]. split; [discriminate|]. intros (x & [] & _).
  - destruct (H x (or_introl eq_refl)) as (b & E & B). rewrite E. cbn [obind]. destruct b.
    + exists true. split; [reflexivity|]. split; [|reflexivity]. intros _. exists x. split; [now left|now apply B].
    + destruct IH as (b & E' & B'); [intros y I; apply H; now right|]. exists b. split; [exact E'|]. rewrite B'. split.
      * intros (y & I & Y). exists y. split; [now right|exact Y].
      * intros (y & [<-|I] & Y); [apply B in Y; discriminate|eauto].
Qed.
Lemma any_english l : (forall x, In x l -> Inst "LangStringSet" x) ->
  exists b, py_any is_english l = Val b /\ (b = true <-> HasEnglish EnTagged l).
Proof.
  intros H. unfold HasEnglish. apply py_any_spec. intros x I. apply H in I. fld I "LangStringSet" "language" APlain G K. destruct K as (s & K).
  unfold is_english, text. rewrite G, K. cbn [obind as_str chars]. eexists. split; [reflexivity|]. apply english_spec.
Qed.
Lemma iec_002_dec x : Inst "DataSpecificationIec61360" x -> Dec (iec_002 x) (AASc_002 EnTagged x).
Proof.
  intros H. fld H "DataSpecificationIec61360" "preferred_name" (AListK true (AInst "LangStringSet")) G K. destruct K as (l & K & _ & A).
  unfold iec_002, AASc_002, items. rewrite G, K. cbn [obind as_items]. destruct (any_english l A) as (b & E & B). rewrite E. cbn [obind].
  now apply dec_if.
Qed.
Lemma iec_009_dec x : Inst "DataSpecificationIec61360" x -> Dec (iec_009 x) (AASc_009 x).
Proof.
  intros H. fldk H "DataSpecificationIec61360" "data_type" (AOptK (AEnum "DataTypeIec61360" any_value)) G1 K1.
  fldk H "DataSpecificationIec61360" "unit" (AOptK AText) G2 K2.
  fldk H "DataSpecificationIec61360" "unit_id" (AOptK (AInst "Reference")) G3 K3. unfold iec_009, AASc_009. rewrite G1, G2, G3. cbn [obind].
  apply dec_ifn. rewrite <- enum_in_spec. rewrite <- !none_present.
  destruct (enum_in _ _), (is_none (attr x "unit")), (is_none (attr x "unit_id")); cbn; intuition congruence.
Qed.
Lemma iec_010_dec x : Inst "DataSpecificationIec61360" x -> Dec (iec_010 x) (AASc_010 x).
Proof.
  intros H. fldk H "DataSpecificationIec61360" "value" (AOptK AText) G1 K1.
  fldk H "DataSpecificationIec61360" "value_list" (AOptK (AInst "ValueList")) G2 K2. unfold iec_010, AASc_010. rewrite G1, G2. cbn [obind].
  apply dec_ifn. rewrite <- none_present, <- none_absent.
  destruct (is_none (attr x "value")), (is_none (attr x "value_list")); cbn; intuition congruence.
Qed.

(** ** Common classes *)
Lemma sem_118_dec x : Inst "HasSemantics" x -> Dec (sem_118 x) (AASd_118 x).
Proof.
  intros H. fldk H "HasSemantics" "supplemental_semantic_ids" (AOptK (AListK true (AInst "Reference"))) G1 K1.
  fldk H "HasSemantics" "semantic_id" (AOptK (AInst "Reference")) G2 K2. unfold sem_118, AASd_118. rewrite G1, G2. cbn [obind].
  apply dec_ifn. rewrite <- !none_present.
  destruct (is_none (attr x "supplemental_semantic_ids")), (is_none (attr x "semantic_id")); cbn; intuition congruence.
Qed.
Lemma adm_005_dec x : Inst "AdministrativeInformation" x -> Dec (adm_005 x) (AASd_005 x).
Proof.
  intros H. fldk H "AdministrativeInformation" "revision" (AOptK AText) G1 K1.
  fldk H "AdministrativeInformation" "version" (AOptK AText) G2 K2. unfold adm_005, AASd_005. rewrite G1, G2. cbn [obind].
  apply dec_ifn. rewrite <- !none_absent.
  destruct (is_none (attr x "revision")), (is_none (attr x "version")); cbn; intuition congruence.
Qed.
Lemma id_short_spec s : matches r_id_short s = true <-> IdShort s.
Proof.
  rewrite matches_spec. unfold r_id_short, IdShort. rewrite lang_rseq2.
  assert (A : forall c, in_cls [(97, 122); (65, 90)]%N c = true <-> Alpha c).
  { intros c. unfold in_cls, Alpha. cbn [existsb fst snd]. rewrite orb_false_r, orb_true_iff, !andb_true_iff, !N.leb_le. tauto. }
  assert (B : forall c, in_cls [(97, 122); (65, 90); (48, 57); (95, 95)]%N c = true <-> AlphaNum c \/ c = 95%N).
  { intros c. unfold in_cls, AlphaNum, Alpha, Digit. cbn [existsb fst snd]. rewrite orb_false_r, !orb_true_iff, !andb_true_iff, !N.leb_le. lia. }
  split.
  - intros (u & v & -> & U & V). apply lang_rcls in U as (c & -> & U). apply lang_rseq1 in V. apply lang_star_cls in V.
    exists c, v. split; [reflexivity|]. split; [now apply A|]. eapply Forall_impl; [|exact V]. intros d. apply B.
  - intros (c & t & -> & U & V). exists [c], t. split; [reflexivity|]. split; [apply lang_rcls; exists c; split; [reflexivity|now apply A]|].
    apply lang_rseq1. apply lang_star_cls. eapply Forall_impl; [|exact V]. intros d. apply B.
Qed.
Lemma ref_002_dec x : Inst "Referable" x -> Dec (ref_002 x) (AASd_002 x).
Proof.
  intros H. fldk H "Referable" "id_short" (AOptK AText) G K. unfold ref_002, AASd_002. rewrite G. cbn [obind].
  apply opt_text in K as [[A K]|[P (c & s & K & T)]]; rewrite K; cbn [truthy negb obind raw_value].
  - apply dec_fine. intros P. now elim P.
  - rewrite T. apply dec_if. rewrite id_short_spec. tauto.
Qed.
Lemma sai_133_dec x : Inst "SpecificAssetId" x -> Dec (sai_133 x) (AASd_133 x).
Proof.
  intros H. fldk H "SpecificAssetId" "external_subject_id" (AOptK (AInst "Reference")) G K. unfold sai_133, AASd_133. rewrite G. cbn [obind].
  apply opt_inst in K as [[A K]|[P K]].
  - rewrite K. apply dec_fine. intros P. now elim P.
  - rewrite (truthy_inst _ _ K). cbn [negb]. rewrite (ref_type _ _ K). cbn [obind]. apply dec_if. rewrite enum_is_spec. unfold External. tauto.
Qed.
Lemma text_truthy x n : Holds (AOptK AText) (attr x n) -> (truthy (attr x n) = true <-> Present x n).
Proof. intros K. apply opt_text in K as [[A K]|[P (c & s & K & _)]]; rewrite K; cbn [truthy]; split; auto; try discriminate; intros X; now elim X. Qed.
Lemma list_truthy x n k : Holds (AOptK (AListK true k)) (attr x n) -> (truthy (attr x n) = true <-> Present x n).
Proof.
  intros K. apply opt_list in K as [(A & K & _)|(P & K & N & _)]; rewrite K.
  - split; [discriminate|]. intros X; now elim X.
  - rewrite nonempty_truthy by (now apply N). tauto.
Qed.
Lemma ai_131_dec x : Inst "AssetInformation" x -> Dec (ai_131 x) (AASd_131 x).
Proof.
  intros H. fldk H "AssetInformation" "global_asset_id" (AOptK AText) G1 K1.
  fldk H "AssetInformation" "specific_asset_ids" (AOptK (AListK true (AInst "SpecificAssetId"))) G2 K2. unfold ai_131, AASd_131. rewrite G1, G2. cbn [obind].
  apply dec_ifn. rewrite <- (text_truthy _ _ K1), <- (list_truthy _ _ _ K2).
  destruct (truthy _), (truthy _); cbn; intuition congruence.
Qed.
Lemma ai_116_dec x : Inst "AssetInformation" x -> Dec (ai_116 x) (NoGlobalAssetId x).
Proof.
  intros H. fldk H "AssetInformation" "specific_asset_ids" (AOptK (AListK true (AInst "SpecificAssetId"))) G K. unfold ai_116, NoGlobalAssetId. rewrite G. cbn [obind].
  apply opt_list in K as [(A & K & I)|(P & K & N & J)]; rewrite K; cbn [is_none].
  - rewrite I. apply dec_fine. intros s [].
  - cbn [as_items obind]. apply dec_each. intros i y E. assert (Iy : Inst "SpecificAssetId" y) by (apply J; eapply nth_error_In; eauto).
    fld Iy "SpecificAssetId" "name" AText G1 K1. destruct K1 as (c & s & K1). unfold text. rewrite G1, K1. cbn [obind raw_value chars].
    apply dec_ifn. destruct (str_eqb s (lit "globalAssetId")) eqn:Q.
    + apply str_eqb_spec in Q. split; [discriminate|]. intros X. now elim X.
    + split; [|reflexivity]. intros _ ->. rewrite (proj2 (str_eqb_spec _ _) eq_refl) in Q. discriminate.
Qed.
