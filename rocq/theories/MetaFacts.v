(** Facts about the string types of the meta model and about the symbol table. *)
From Coq Require Import PeanoNat String List NArith Bool Lia.
From Verif Require Import PyStr PyStrFacts PyBase PyVal Regex DataTypesModel DataTypesSpec DataTypesFacts DataTypesFacts2 DataTypesFacts5.
From Verif Require Import ReflectModel ReflectSpec ParseModel MetaModel MetaSpec.
Import ListNotations.
Local Open Scope list_scope.

(** * Media types *)
Lemma token_char c : in_cls c_token c = true <-> TokenChar c.
Proof.
  rewrite in_cls_spec. unfold c_token, TokenChar, AlphaNum, Alpha, Digit.
  rewrite !Exists_cons, Exists_nil. simpl. split; intros H; lia.
Qed.
Lemma lang_token s : lang r_token s <-> MimeToken s.
Proof.
  unfold r_token, MimeToken. rewrite lang_rplus_cls. split; intros [A B]; (split; [exact A|]);
    (eapply Forall_impl; [|exact B]); intros c; apply token_char.
Qed.
Lemma lang_ows s : lang r_ows s <-> Blanks s.
Proof.
  unfold r_ows, Blanks. rewrite lang_star_cls. split; intros B; (eapply Forall_impl; [|exact B]); intros c;
    rewrite in_cls_spec, !Exists_cons, Exists_nil; simpl; lia.
Qed.
Lemma lang_seq2 a b s : lang (RCat a b) s <-> exists u v, s = u ++ v /\ lang a u /\ lang b v.
Proof. reflexivity. Qed.
Lemma lang_quoted s : lang r_quoted s <-> QuotedString s.
Proof.
  unfold r_quoted, QuotedString. cbn [rseq]. rewrite lang_seq2.
  assert (B : forall x, lang (ralts [ralts [RCls [(9, 9); (32, 32); (33, 33); (35, 91); (93, 126)]%N; r_obs];
                      rseq [rstr [92%N]; ralts [RCls [(9, 9); (32, 32); (33, 126)]%N; r_obs]]]) x
              <-> QdText x \/ QuotedPair x).
  { intros x. rewrite lang_ralts, !Exists_cons, Exists_nil, lang_ralts, !Exists_cons, Exists_nil. cbn [rseq].
    rewrite lang_seq2. unfold QdText, QuotedPair, ObsText, r_obs. rewrite !lang_rcls. split.
    - intros [[(c & -> & I)|[(c & -> & I)|[]]]|[(u & v & -> & L & K)|[]]].
      + left. exists c. split; [reflexivity|]. apply in_cls_spec in I. rewrite !Exists_cons, Exists_nil in I. simpl in I. lia.
      + left. exists c. split; [reflexivity|]. apply in_cls_spec in I. rewrite !Exists_cons, Exists_nil in I. simpl in I. lia.
      + right. apply lang_rstr in L. subst u. rewrite lang_ralts, !Exists_cons, Exists_nil, !lang_rcls in K.
        destruct K as [(c & -> & I)|[(c & -> & I)|[]]]; exists c; (split; [reflexivity|]);
          apply in_cls_spec in I; rewrite !Exists_cons, Exists_nil in I; simpl in I; lia.
    - intros [(c & -> & I)|(c & -> & I)].
      + left. destruct (N.leb_spec 128 c).
        * right. left. exists c. split; [reflexivity|]. apply in_cls_spec. rewrite !Exists_cons, Exists_nil. simpl. lia.
        * left. exists c. split; [reflexivity|]. apply in_cls_spec. rewrite !Exists_cons, Exists_nil. simpl. lia.
      + right. left. exists [92%N], [c]. split; [reflexivity|]. split; [now apply lang_rstr|].
        rewrite lang_ralts, !Exists_cons, Exists_nil, !lang_rcls. destruct (N.leb_spec 128 c).
        * right. left. exists c. split; [reflexivity|]. apply in_cls_spec. rewrite !Exists_cons, Exists_nil. simpl. lia.
        * left. exists c. split; [reflexivity|]. apply in_cls_spec. rewrite !Exists_cons, Exists_nil. simpl. lia. }
  split.
  - intros (u & v & -> & L & K). apply lang_rstr in L. subst u. apply lang_seq2 in K.
    destruct K as (m & w & -> & L & K). apply lang_rstr in K. subst w. destruct L as (l & -> & F).
    exists l. split; [reflexivity|]. eapply Forall_impl; [|exact F]. intros x. apply B.
  - intros (l & -> & F). exists [34%N], (List.concat l ++ [34%N]). split; [reflexivity|]. split; [now apply lang_rstr|].
    apply lang_seq2. exists (List.concat l), [34%N]. split; [reflexivity|]. split; [|now apply lang_rstr].
    exists l. split; [reflexivity|]. eapply Forall_impl; [|exact F]. intros x. apply B.
Qed.
Lemma lang_parameter s :
  lang (rseq [r_ows; r_lit ";"; r_ows; r_token; r_lit "="; ralts [r_token; r_quoted]]) s <-> MimeParameter s.
Proof.
  cbn [rseq]. unfold MimeParameter. split.
  - intros (w1 & s1 & -> & H1 & (x & s2 & -> & H2 & (w2 & s3 & -> & H3 & (n & s4 & -> & H4 & (y & v & -> & H5 & H6))))).
    apply lang_rlit in H2. apply lang_rlit in H5. subst x y. exists w1, w2, n, v.
    rewrite lang_ralts, !Exists_cons, Exists_nil in H6. rewrite lang_ows in H1, H3. rewrite lang_token in H4.
    rewrite lang_token, lang_quoted in H6. tauto.
  - intros (w1 & w2 & n & v & -> & H1 & H3 & H4 & H6).
    exists w1. eexists. split; [reflexivity|]. split; [now apply lang_ows|].
    eexists (lit ";"), _. split; [reflexivity|]. split; [now apply lang_rlit|].
    exists w2. eexists. split; [reflexivity|]. split; [now apply lang_ows|].
    exists n. eexists. split; [reflexivity|]. split; [now apply lang_token|].
    exists (lit "="), v. split; [reflexivity|]. split; [now apply lang_rlit|].
    rewrite lang_ralts, !Exists_cons, Exists_nil, lang_token, lang_quoted. tauto.
Qed.
Lemma lang_media_type s : lang r_content_type s <-> MediaType s.
Proof.
  unfold r_content_type, MediaType.
  change (rseq [r_token; r_lit "/"; r_token; RStar (rseq [r_ows; r_lit ";"; r_ows; r_token; r_lit "="; ralts [r_token; r_quoted]])])
    with (RCat r_token (RCat (r_lit "/") (RCat r_token (RStar (rseq [r_ows; r_lit ";"; r_ows; r_token; r_lit "="; ralts [r_token; r_quoted]]))))).
  split.
  - intros (a & s1 & -> & H1 & (x & s2 & -> & H2 & (b & s3 & -> & H3 & (l & -> & F)))).
    apply lang_rlit in H2. subst x. exists a, b, l. rewrite lang_token in H1, H3. repeat split; try apply H1; try apply H3.
    eapply Forall_impl; [|exact F]. intros y. apply lang_parameter.
  - intros (a & b & l & -> & H1 & H3 & F).
    exists a. eexists. split; [reflexivity|]. split; [now apply lang_token|].
    eexists (lit "/"), _. split; [reflexivity|]. split; [now apply lang_rlit|].
    exists b. eexists. split; [reflexivity|]. split; [now apply lang_token|].
    exists l. split; [reflexivity|]. eapply Forall_impl; [|exact F]. intros y. apply lang_parameter.
Qed.

(** * String formatted values *)
Lemma xml_chars s : matches (RStar (RCls c_xml)) s = true <-> Forall XmlChar s.
Proof.
  rewrite matches_spec, lang_star_cls. split; intros B; (eapply Forall_impl; [|exact B]); intros c;
    rewrite in_cls_spec; unfold XmlChar, c_xml; rewrite !Exists_cons, Exists_nil; simpl; lia.
Qed.
Lemma sfv_spec f s : sfv_construct f s = Built <->
  Forall XmlChar s /\
  match s_min f with Some m => (m <= N.of_nat (length s))%N | None => True end /\
  match s_max f with Some m => (N.of_nat (length s) <= m)%N | None => True end /\
  match s_pattern f with Some (_, r) => lang r s | None => True end /\
  match s_check f with Some (c, _) => c s = Val true | None => True end.
Proof.
  rewrite <- xml_chars. unfold sfv_construct. set (len := N.of_nat (length s)).
  destruct (s_min f) as [m|]; [destruct (N.ltb_spec len m); [split; [discriminate|lia]|]|];
    (destruct (s_max f) as [m'|]; [destruct (N.ltb_spec m' len); [split; [discriminate|lia]|]|]);
    (destruct (matches (RStar (RCls c_xml)) s); cbn [negb]; [|split; [discriminate|intros [? _]; discriminate]]);
    (destruct (s_pattern f) as [[t r]|];
      [generalize (matches_spec s r); destruct (matches r s); cbn [negb];
        [intros M|intros M; split; [discriminate|intros (_ & _ & _ & L & _); apply M in L; discriminate]]|]);
    (destruct (s_check f) as [[c msg]|];
      [destruct (c s) as [[]|[]]; split; (discriminate || (intros (_ & _ & _ & _ & E); discriminate E) || intros _)|split; intros _]);
    repeat split; try lia; try (apply M; reflexivity); auto.
Qed.

(** The string types of the classes of model.py. *)
Definition string_types : list (nat * text) := [
  (k_BlobString, Text 1 None FAny);
  (k_ContentType, Text 1 (Some 100%N) FContentType);
  (k_IdentifierString, Text 1 (Some 2000%N) FAny);
  (k_LabelString, Text 1 (Some 64%N) FAny);
  (k_MessageTopicString, Text 1 (Some 255%N) FAny);
  (k_NameTypeString, Text 1 (Some 128%N) FAny);
  (k_PathString, Text 1 (Some 2000%N) (FXsd X_anyURI));
  (k_RevisionString, Text 1 (Some 4%N) FVersion);
  (k_VersionString, Text 1 (Some 4%N) FVersion);
  (k_ValueDataType, Text 0 None FAny);
  (k_DateTime, Text 1 None (FXsd X_dateTime));
  (k_DateTimeUtc, Text 1 None FUtc);
  (k_Duration, Text 1 None (FXsd X_duration));
  (k_DataType, Text 1 None FAny);
  (k_ValueType, Text 1 None FAny);
  (k_ValueTypeIec61360, Text 1 (Some 2000%N) FAny);
  (k_NonEmptyString, Text 1 None FAny)].

Lemma uri_val s : (Val (is_any_uri s) = Val true) <-> validate_xsd X_anyURI s = Val true.
Proof. reflexivity. Qed.
Lemma duration_val s : lang r_duration s <-> validate_xsd X_duration s = Val true.
Proof.
  rewrite <- matches_spec. change (validate_xsd X_duration s) with (Val (matches r_duration s)).
  split; congruence.
Qed.
Lemma string_types_ok c t f : In (c, t) string_types -> kind_of model_classes c = KSfv f ->
  forall s, sfv_construct f s = Built <-> text_ok t s.
Proof.
  intros I K s. rewrite sfv_spec. unfold text_ok. unfold string_types in I. simpl in I.
  repeat (destruct I as [I|I]; [injection I as <- <-;
    cbv [kind_of class_of nth_error model_classes c_kind
      k_BlobString k_ContentType k_IdentifierString k_LabelString k_MessageTopicString k_NameTypeString k_PathString k_RevisionString k_VersionString k_ValueDataType k_DateTime k_DateTimeUtc k_Duration k_DataType k_ValueType k_ValueTypeIec61360 k_NonEmptyString
      d_BlobString d_ContentType d_IdentifierString d_LabelString d_MessageTopicString d_NameTypeString d_PathString d_RevisionString d_VersionString d_ValueDataType d_DateTime d_DateTimeUtc d_Duration d_DataType d_ValueType d_ValueTypeIec61360 d_NonEmptyString] in K;
    injection K as <-; cbn [s_min s_max s_pattern s_check t_min t_max t_format format_ok];
    rewrite ?lang_media_type, ?lang_version, ?duration_val, ?uri_val; intuition lia|]).
  destruct I.
Qed.

(** * The symbol table of model.py *)
Definition model_table : table :=
  Eval vm_compute in match reflect model_classes model_globals (ACls k_Environment) with
                     | Val (_, t) => t
                     | Raise _ => []
                     end.
Lemma model_table_eq : reflect model_classes model_globals (ACls k_Environment) = Val (0, model_table).
Proof. vm_compute. reflexivity. Qed.

(** * Deciding whether a table describes a meta model *)
Definition xsd_eqb (a b : xsd) : bool := if xsd_eq_dec a b then true else false.
Definition format_eqb (a b : format) : bool :=
  match a, b with
  | FAny, FAny | FContentType, FContentType | FVersion, FVersion | FUtc, FUtc | FLang, FLang => true
  | FXsd x, FXsd y => xsd_eqb x y
  | _, _ => false
  end.
Definition optN_eqb (a b : option N) : bool :=
  match a, b with Some x, Some y => N.eqb x y | None, None => true | _, _ => false end.
Definition text_eqb (a b : text) : bool :=
  N.eqb (t_min a) (t_min b) && optN_eqb (t_max a) (t_max b) && format_eqb (t_format a) (t_format b).
Lemma text_eqb_eq a b : text_eqb a b = true -> a = b.
Proof.
  destruct a as [m1 M1 f1], b as [m2 M2 f2]. unfold text_eqb. simpl. rewrite !andb_true_iff, N.eqb_eq.
  intros [[-> HM] HF]. f_equal.
  - destruct M1, M2; simpl in HM; try discriminate; [|reflexivity]. apply N.eqb_eq in HM. congruence.
  - destruct f1, f2; simpl in HF; try discriminate; try reflexivity. unfold xsd_eqb in HF.
    destruct (xsd_eq_dec t t0); [congruence|discriminate].
Qed.
Definition subset (a b : list str) : bool := forallb (fun x => str_in x b) a.
Lemma str_in_spec x l : str_in x l = true <-> In x l.
Proof.
  unfold str_in. rewrite existsb_exists. split.
  - intros (y & I & E). apply str_eqb_spec in E. now subst.
  - intros I. exists x. split; [exact I|]. now apply str_eqb_spec.
Qed.
Lemma subset_spec a b : subset a b = true <-> incl a b.
Proof.
  unfold subset. rewrite forallb_forall. split; intros H x I.
  - apply str_in_spec. auto.
  - apply str_in_spec. auto.
Qed.
Fixpoint nodupb (l : list str) : bool :=
  match l with [] => true | x :: r => negb (str_in x r) && nodupb r end.
Lemma nodupb_spec l : nodupb l = true -> NoDup l.
Proof.
  induction l as [|x l IH]; simpl; [constructor|]. rewrite andb_true_iff, negb_true_iff. intros [N H].
  constructor; [|auto]. intros I. apply str_in_spec in I. congruence.
Qed.

Section Decide.
  Variable P : list classdecl.
  Variable T : table.
  Variable types : list (nat * text).
  Hypothesis types_ok : forall c t f, In (c, t) types -> kind_of P c = KSfv f ->
    forall s, sfv_construct f s = Built <-> text_ok t s.

  Fixpoint fitsb (i : nat) (g : gtype) : bool :=
    match nth_error T i, g with
    | Some (_, RSfv c), GText t =>
        match kind_of P c with KSfv _ => existsb (fun e => Nat.eqb (fst e) c && text_eqb (snd e) t) types | _ => false end
    | Some (_, RString), GPlain => true
    | Some (_, RBool), GBool => true
    | Some (_, REnum c), GEnum l =>
        match kind_of P c with KEnum ms => subset (List.map snd ms) l && subset l (List.map snd ms) | _ => false end
    | Some (_, RClass c _ _ _), GObj n => str_eqb (spec_name (name_of P c)) n
    | Some (_, RList j false), GList x => fitsb j x
    | _, _ => false
    end.
  Lemma fitsb_ok g : forall i, fitsb i g = true -> Fits P T i g.
  Proof.
    induction g; intros i; simpl; (destruct (nth_error T i) as [[k []]|] eqn:E; try discriminate;
      try (match goal with b : bool |- _ => destruct b; discriminate end)).
    - destruct (kind_of P c) as [|f| |] eqn:K; try discriminate. rewrite existsb_exists.
      intros ([c' t'] & I & H). simpl in H. apply andb_true_iff in H. destruct H as [H1 H2].
      apply Nat.eqb_eq in H1. apply text_eqb_eq in H2. subst. econstructor; eauto.
    - intros _. econstructor; eauto.
    - intros _. econstructor; eauto.
    - destruct (kind_of P c) as [ms| | |] eqn:K; try discriminate. rewrite andb_true_iff, !subset_spec.
      intros [A B]. econstructor; eauto. intros x. split; auto.
    - intros H. apply str_eqb_spec in H. econstructor; eauto.
    - destruct allow_empty; [discriminate|]. intros H. econstructor; eauto.
  Qed.
  Definition attr_fitsb (a : attribute nat) (g : gattr) : bool :=
    if str_eqb (json_name a) (g_name g)
    then str_eqb (a_name a) (snake_case (g_name g)) && Bool.eqb (a_required a) (g_required g) && fitsb (a_type a) (g_type g)
    else false.
  Lemma attr_fitsb_ok a g : attr_fitsb a g = true -> AttrFits P T a g.
  Proof.
    unfold attr_fitsb, AttrFits. destruct (str_eqb (json_name a) (g_name g)) eqn:A; [|discriminate].
    rewrite !andb_true_iff. intros [[D B] C]. apply str_eqb_spec in A. apply str_eqb_spec in D.
    apply eqb_prop in B. apply fitsb_ok in C. auto.
  Qed.
  Definition symbol_names (l : list nat) : list str :=
    flat_map (fun j => match nth_error T j with Some (_, RClass d _ _ _) => [name_of P d] | _ => [] end) l.
  Lemma symbol_names_spec l n : In n (symbol_names l) <->
    exists j k d at_ st su, In j l /\ nth_error T j = Some (k, RClass d at_ st su) /\ name_of P d = n.
  Proof.
    unfold symbol_names. rewrite in_flat_map. split.
    - intros (j & I & H). destruct (nth_error T j) as [[k []]|] eqn:E; try destruct H as [H|[]]; try contradiction.
      repeat eexists; eauto.
    - intros (j & k & d & at_ & st & su & I & E & N). exists j. split; [exact I|]. rewrite E. now left.
  Qed.
  Definition staticb (static : list (str * pyval)) : bool :=
    match static with
    | [] => true
    | [(n, VNone)] => str_eqb n (lit "id_short_path")
    | _ => false
    end.
  Lemma staticb_ok static : staticb static = true -> static = [] \/ static = [(lit "id_short_path", VNone)].
  Proof.
    destruct static as [|[n []] [|]]; simpl; try discriminate; auto. intros H. apply str_eqb_spec in H. subst. auto.
  Qed.
  Definition class_fitsb (i : nat) (g : gclass) : bool :=
    match nth_error T i with
    | Some (_, RClass c attrs static subs) =>
        if str_eqb (gc_name g) (spec_name (name_of P c)) then Bool.eqb (gc_abstract g) (is_abstract P c)
        && Bool.eqb (gc_tagged g) (has_requires_model_type P c)
        && nodupb (List.map json_name attrs) && nodupb (List.map g_name (gc_attrs g))
        && forallb (fun a => existsb (attr_fitsb a) (gc_attrs g)) attrs
        && forallb (fun x => existsb (fun a => attr_fitsb a x) attrs) (gc_attrs g)
        && subset (gc_subclasses g) (symbol_names subs) && subset (symbol_names subs) (gc_subclasses g)
        && (if gc_tagged g then str_eqb (name_of P c) (gc_name g) else true)
        && forallb (fun n => str_eqb (spec_name n) n) (gc_subclasses g)
        && staticb static && nodupb (List.map a_name attrs ++ List.map fst static)
        else false
    | _ => false
    end.
  Lemma class_fitsb_ok i g : class_fitsb i g = true -> ClassFits P T i g.
  Proof.
    unfold class_fitsb. destruct (nth_error T i) as [[k []]|] eqn:E; try discriminate.
    destruct (str_eqb (gc_name g) (spec_name (name_of P c))) eqn:A; [|discriminate].
    rewrite !andb_true_iff, !subset_spec, !forallb_forall. intros [[[[[[[[[[[B C] D] F] G] H] I] J] K] L] M] N].
    apply str_eqb_spec in A. apply eqb_prop in B. apply eqb_prop in C. apply nodupb_spec in D. apply nodupb_spec in F.
    econstructor; eauto.
    - intros a Ia. apply G in Ia. apply existsb_exists in Ia. destruct Ia as (x & Ix & Hx). exists x. split; [exact Ix|].
      now apply attr_fitsb_ok.
    - intros x Ix. apply H in Ix. apply existsb_exists in Ix. destruct Ix as (a & Ia & Ha). exists a. split; [exact Ia|].
      now apply attr_fitsb_ok.
    - intros n. rewrite <- symbol_names_spec. split; auto.
    - intros X. rewrite X in K. now apply str_eqb_spec.
    - intros n X. apply str_eqb_spec. now apply L.
    - now apply staticb_ok.
    - now apply nodupb_spec.
  Qed.
  Definition describesb (M : list gclass) : bool :=
    forallb (fun g => existsb (fun i => class_fitsb i g) (seq 0 (length T))) M
    && forallb (fun i => match nth_error T i with
                         | Some (_, RClass _ _ _ _) => existsb (class_fitsb i) M
                         | _ => true
                         end) (seq 0 (length T)).
  Lemma describesb_ok M : describesb M = true -> Describes_meta_model P T M.
  Proof.
    unfold describesb, Describes_meta_model. rewrite andb_true_iff, !forallb_forall. intros [A B]. split.
    - intros g I. apply A in I. apply existsb_exists in I. destruct I as (i & _ & H). exists i. now apply class_fitsb_ok.
    - intros i k c attrs static subs E. assert (I : In i (seq 0 (length T))).
      { apply in_seq. split; [lia|]. apply nth_error_Some. congruence. }
      apply B in I. rewrite E in I. apply existsb_exists in I. destruct I as (g & Ig & H). exists g. split; [exact Ig|].
      now apply class_fitsb_ok.
  Qed.
End Decide.

Lemma model_describes : Describes_meta_model model_classes model_table aas_v3_0_checked.
Proof. apply (describesb_ok model_classes model_table string_types string_types_ok). vm_compute. reflexivity. Qed.
