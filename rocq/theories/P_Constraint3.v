(** Properties C55 and C56: characters of texts, and values of the declared types. *)
From Coq Require Import PeanoNat Lia String List NArith ZArith Bool.
From Verif Require Import PyStr PyStrFacts PyBase PyXml PyVal DataTypesModel DataTypesSpec.
From Verif Require Import ResultModel ResultFacts ReflectModel ReflectFacts MetaModel MetaSpec MetaFacts AdapterModel ParseModel ParseSpec ParseFacts ParseFacts2 ParseSim ParseFacts3 ParseFacts4 P_Parse.
From Verif Require Import TypeSpec TypeFacts TypeFacts2 ConstraintModel CheckModel ConstraintSpec ConstraintFacts ConstraintFacts2 ConstraintFacts3 ConstraintFacts4 ConstraintFacts5 ConstraintFacts6 ConstraintFacts7 ConstraintFacts8.
From Verif Require Import P_DataTypes P_Constraint P_Constraint2.
Import ListNotations.
Local Open Scope list_scope.
Local Open Scope string_scope.

(** * C55: characters *)
Definition plain_name (a : gattr) : bool :=
  match g_type a with
  | GPlain => str_in (g_name a) [lit "language"; lit "text"]
  | GList GPlain => false
  | GEnum l | GList (GEnum l) => forallb (forallb (fun c => N.leb 32 c && N.leb c 126)) l
  | _ => true
  end.
Definition lang_class (c : gclass) : bool :=
  forallb (fun a => plain_name a && match g_type a with GPlain => str_in (gc_name c) (List.map lit lang_classes) && negb (gc_abstract c) | _ => true end) (gc_attrs c).
Lemma plain_names_ok : forallb lang_class aas_v3_0_checked = true. Proof. vm_compute. reflexivity. Qed.
(** classes of python with the names of the language strings *)
Definition lang_supers (e : str * pfields) : bool :=
  if str_in (spec_name (fst e)) (List.map lit lang_classes) then str_in (lit "LangStringSet") (supers (fst e)) else true.
Lemma lang_supers_ok : forallb lang_supers model_types = true. Proof. vm_compute. reflexivity. Qed.
Lemma snake_language : snake_case (lit "language") = lit "language". Proof. vm_compute. reflexivity. Qed.
Local Opaque aas_v3_0_checked model_classes model_table model_types model_symbols model_supers own_methods.

Lemma conforms_at {V} (W : view V) g v q h w : At W aas_v3_0_checked g v q h w -> Conforms W aas_v3_0_checked g v -> Conforms W aas_v3_0_checked h w.
Proof.
  induction 1 as [g v|g v l i z q h w Ei En A IH|n v c kvs a z q h w Ex Em Ia El A IH]; intros C; [exact C| |]; apply IH.
  - inversion C as [| | | |g' v' l' E' _ F|]; subst. assert (l' = l) by congruence. subst l'. apply F. eapply nth_error_In; eauto.
  - inversion C as [| | | | |n' v' c' kvs' Ex' _ Em' _ _ F]; subst. assert (c' = c) by (eapply checked_expected; eauto). subst c'.
    assert (kvs' = kvs) by congruence. subst kvs'. now apply F.
Qed.
Definition printable (l : list str) : bool := forallb (forallb (fun c => N.leb 32 c && N.leb c 126)) l.
Definition sound_type (g : gtype) : bool :=
  match g with GPlain | GList GPlain | GList (GList _) => false | GEnum l | GList (GEnum l) => printable l | _ => true end.
Definition sound_attr (a : gattr) : bool := match g_type a with GPlain => true | g => sound_type g end.
Definition sound_class (c : gclass) : bool := forallb sound_attr (gc_attrs c).
Lemma sound_classes : forallb sound_class aas_v3_0_checked = true. Proof. vm_compute. reflexivity. Qed.
Lemma printable_xml l s : printable l = true -> In s l -> Forall XmlChar s.
Proof.
  intros P I. pose proof (proj1 (forallb_forall _ _) P _ I) as F. apply Forall_forall. intros c J.
  pose proof (proj1 (forallb_forall _ _) F _ J) as X. cbv beta in X. apply andb_true_iff in X as [X Y]. apply N.leb_le in X, Y. unfold XmlChar. lia.
Qed.
Definition PlainAt {V} (W : view V) (g : gtype) (v : V) (q : path) (w : V) : Prop :=
  exists q' n u c a kvs, q = (q' ++ [SKey (g_name a)])%list /\ At W aas_v3_0_checked g v q' (GObj n) u /\ Expected W aas_v3_0_checked n u c /\
    In a (gc_attrs c) /\ g_type a = GPlain /\ w_members W u = Some kvs /\ lookup (g_name a) kvs = Some w.
Definition is_text (h : gtype) : bool := match h with GText _ | GPlain | GEnum _ => true | _ => false end.
Lemma text_at {V} (W : view V) g v q h w s : At W aas_v3_0_checked g v q h w -> sound_type g = true -> Conforms W aas_v3_0_checked g v ->
  is_text h = true -> w_text W w = Some s -> Forall XmlChar s \/ PlainAt W g v q w.
Proof.
  induction 1 as [g v|g v l i z q h w Ei En A IH|n v c kvs a z q h w Ex Em Ia El A IH]; intros G C T E.
  - left. destruct g as [t| | |l|n|g]; try discriminate.
    + inversion C as [t' v' s' E' (X & _)| | | | |]; subst. assert (s' = s) by congruence. now subst s'.
    + inversion C as [| | |l' v' s' E' I| |]; subst. assert (s' = s) by congruence. subst s'. eapply printable_xml; eauto.
  - assert (G' : sound_type g = true) by (destruct g as [| | | | |[]]; cbn in *; congruence).
    assert (C' : Conforms W aas_v3_0_checked g z).
    { inversion C as [| | | |g' v' l' E' _ F|]; subst. assert (l' = l) by congruence. subst l'. apply F. eapply nth_error_In; eauto. }
    destruct (IH G' C' T E) as [X|(q' & n & u & c & a & kvs & -> & A' & Y)]; [now left|]. right.
    exists (SIdx i :: q')%list, n, u, c, a, kvs. split; [reflexivity|]. split; [econstructor; eauto|exact Y].
  - assert (C' : Conforms W aas_v3_0_checked (g_type a) z) by (eapply conforms_at; [|exact C]; econstructor; eauto; constructor).
    pose proof (proj1 (forallb_forall _ _) sound_classes c (expected_in V W aas_v3_0_checked _ _ _ Ex)) as S.
    pose proof (proj1 (forallb_forall _ _) S _ Ia) as Sa. unfold sound_attr in Sa.
    destruct (g_type a) as [t| | |l|m|g] eqn:Eg.
    2:{ inversion A; subst. right. exists [], n, v, c, a, kvs. split; [reflexivity|]. split; [constructor|]. auto 8. }
    all: destruct (IH Sa C' T E) as [X|(q' & n' & u & c' & a' & kvs' & -> & A' & Y)]; [now left|]; right;
      exists (SKey (g_name a) :: q')%list, n', u, c', a', kvs'; (split; [reflexivity|]); (split; [|exact Y]); econstructor; eauto; rewrite Eg; exact A'.
Qed.

(** language tags consist of letters, digits and hyphens *)
Definition TagChars (l : list str) : Prop := Forall (Forall AlphaNum) l.
Lemma subtag_chars (p : N -> Prop) lo hi s : (forall c, p c -> AlphaNum c) -> Subtag p lo hi s -> Forall AlphaNum s.
Proof. intros H [_ F]. eapply Forall_impl; [|exact F]. exact H. Qed.
Lemma alpha_num c : Alpha c -> AlphaNum c. Proof. now left. Qed.
Lemma digit_num c : Digit c -> AlphaNum c. Proof. now right. Qed.
Lemma subtags_chars (p : N -> Prop) lo hi l : (forall c, p c -> AlphaNum c) -> Forall (Subtag p lo hi) l -> TagChars l.
Proof. intros H F. eapply Forall_impl; [|exact F]. intros s. now apply subtag_chars. Qed.
Lemma private_chars l : PrivateSubtags l -> TagChars l.
Proof.
  intros (a & t & -> & A & _ & F). constructor; [|eapply subtags_chars; [|exact F]; auto].
  destruct A as [-> | ->]; (apply Forall_cons; [left; unfold Alpha; vm_compute; intuition discriminate|apply Forall_nil]).
Qed.
Lemma tag_chars l : LangTag l -> TagChars l.
Proof.
  intros (la & sc & re & va & ex & pr & -> & La & Sc & Re & Va & Ex & Pr). unfold TagChars. rewrite !Forall_app. repeat split.
  - destruct La as [(a & ext & -> & A & _ & F)|(a & -> & A)].
    + constructor; [eapply subtag_chars; [exact alpha_num|exact A]|eapply subtags_chars; [exact alpha_num|exact F]].
    + constructor; [eapply subtag_chars; [exact alpha_num|exact A]|constructor].
  - destruct Sc as [->|(a & -> & A)]; [constructor|]. constructor; [eapply subtag_chars; [exact alpha_num|exact A]|constructor].
  - destruct Re as [->|(a & -> & [A|A])]; [constructor| |]; (constructor; [|constructor]); eapply subtag_chars; [exact alpha_num|exact A|exact digit_num|exact A].
  - eapply Forall_impl; [|exact Va]. intros s [A|[A _]]; (eapply subtag_chars; [|exact A]; auto).
  - apply Forall_concat. eapply Forall_impl; [|exact Ex]. intros x (a & t & -> & (c & -> & A & _) & _ & F).
    constructor; [constructor; [exact A|constructor]|]. eapply subtags_chars; [|exact F]. auto.
  - destruct Pr as [->|Pr]; [constructor|now apply private_chars].
Qed.
Lemma join_chars (P : N -> Prop) sep l : Forall P sep -> Forall (Forall P) l -> Forall P (join sep l).
Proof.
  intros S. induction 1 as [|a l A F IH]; [constructor|]. cbn [join]. destruct l; [exact A|]. rewrite !Forall_app. auto.
Qed.
Lemma tagged_xml s : UpToLineFeed WellFormedTagCased s -> Forall XmlChar s.
Proof.
  assert (W : forall s, WellFormedTagCased s -> Forall XmlChar s).
  { clear s. intros s [(l & -> & L)|I].
    - apply join_chars; [apply Forall_cons; [unfold XmlChar; vm_compute; intuition discriminate|apply Forall_nil]|]. assert (T : TagChars l) by (destruct L; [now apply tag_chars|now apply private_chars]).
      eapply Forall_impl; [|exact T]. intros x F. eapply Forall_impl; [|exact F]. unfold AlphaNum, Alpha, Digit, XmlChar. lia.
    - eapply printable_xml; [|exact I]. vm_compute. reflexivity. }
  intros [A|(t & -> & A)]; [now apply W|]. apply Forall_app. split; [now apply W|]. apply Forall_cons; [right; left; reflexivity|apply Forall_nil].
Qed.

(** The texts of an accepted document consist of XML characters, except those of language strings. *)
Definition InLanguageString (cn : str) (v : json) (q : path) : Prop :=
  exists q' n u c, q = (q' ++ [SKey (lit "text")])%list /\ At json_view aas_v3_0_checked (GObj cn) v q' (GObj n) u /\
  Expected json_view aas_v3_0_checked n u c /\ In (gc_name c) (List.map lit lang_classes).
Theorem C55_partial : forall show repr n cn v q h w s, Names n (GObj cn) -> Accepted (check_json show repr n v) ->
  At json_view aas_v3_0_checked (GObj cn) v q h w -> is_text h = true -> w_text json_view w = Some s ->
  Forall XmlChar s \/ InLanguageString cn v q.
Proof.
  intros show repr n cn v q h w s N Ac A T E. apply C47_json in Ac as (x & Ex & S).
  pose proof (C34_sound show repr _ _ _ _ N Ex) as C. destruct (text_at json_view _ _ _ _ _ s A eq_refl C T E) as [X|(q' & m & u & c & a & kvs & -> & A' & Xc & Ia & Ta & Em & El)]; [now left|].
  pose proof (proj1 (forallb_forall _ _) plain_names_ok c (expected_in json json_view aas_v3_0_checked _ _ _ Xc)) as Pc.
  pose proof (proj1 (forallb_forall _ _) Pc _ Ia) as Pa. cbv beta in Pa. unfold plain_name in Pa. rewrite Ta in Pa. rewrite !andb_true_iff in Pa.
  destruct Pa as [Pn [Pl _]]. apply str_in_spec in Pn, Pl. destruct Pn as [Pn|[Pn|[]]].
  - left. destruct (C47_json_objects show repr n cn v x N Ex) as [O _]. destruct (O q' m u A') as (y & Oy & Cy).
    destruct (carries_obj _ _ _ _ _ _ Cy) as (c' & k & kvs' & attrs & -> & Xc' & Ek & Em' & ND & _ & _ & _ & Sub).
    assert (c' = c) by (eapply checked_expected; eauto). subst c'. assert (kvs' = kvs) by congruence. subst kvs'.
    pose proof (Sub a w Ia El) as Cw. rewrite Ta in Cw. inversion Cw as [|v' s' E' Eg Ev Es| | | |]; subst. assert (s' = s) by congruence. subst s'.
    destruct (json_typed _ _ _ _ _ Ex) as (t & Tx). destruct (occurs_typed _ _ _ Oy _ Tx) as (t' & Ty'). apply typed_any_obj in Ty'.
    destruct (typed_field _ _ _ Ty') as (fs & If & _).
    assert (B : is_a model_classes k (lit "LangStringSet") = true).
    { pose proof (proj1 (forallb_forall _ _) lang_supers_ok _ If) as L. unfold lang_supers in L. cbn [fst] in L. rewrite <- Ek in L.
      rewrite (proj2 (str_in_spec _ _) Pl) in L. unfold is_a. rewrite (supers_eq _ _ If). exact L. }
    assert (Tag : TaggedText (VObj k attrs)).
    { apply (S _ _ (error "LangStringSet" "language" TaggedText) Oy); [left; reflexivity|exists k, attrs; auto|reflexivity]. }
    unfold TaggedText, text, attr in Tag. unfold attribute_of in Es. rewrite <- Pn, snake_language in Es.
    destruct (lookup (lit "language") attrs) as [z|]; [|discriminate]. subst z. now apply tagged_xml.
  - right. exists q', m, u, c. rewrite <- Pn. auto.
Qed.
Print Assumptions C55_partial.
(** A text with a control character is accepted in a language string. *)
Definition control_doc : json := obj [("modelType", "MultiLanguageProperty"); ("idShort", "p")]
  [("value", JArr [JObj [(lit "language", JStr (lit "en")); (lit "text", JStr [1%N])]])].
Definition control_obj : pyval := Eval vm_compute in object_of "MultiLanguageProperty" control_doc.
Theorem C55_refuted : Example_of "MultiLanguageProperty" control_doc control_obj true /\
  At json_view aas_v3_0_checked (GObj (lit "MultiLanguageProperty")) control_doc [SKey (lit "value"); SIdx 0; SKey (lit "text")] GPlain (JStr [1%N]) /\
  ~ Forall XmlChar [1%N].
Proof.
  split; [example|]. split.
  - destruct (get_class_In aas_v3_0_checked "MultiLanguageProperty") as [I E]; [vm_compute; reflexivity|].
    destruct (get_attr_In (get_class aas_v3_0_checked "MultiLanguageProperty") "value") as [Ia Ea]; [vm_compute; reflexivity|].
    destruct (get_class_In aas_v3_0_checked "LangStringTextType") as [J F]; [vm_compute; reflexivity|].
    destruct (get_attr_In (get_class aas_v3_0_checked "LangStringTextType") "text") as [Ja Fa]; [vm_compute; reflexivity|].
    rewrite <- Ea. rewrite <- Fa. eapply At_member; [apply Exp_concrete; [exact I|exact E|vm_compute; reflexivity]|reflexivity|exact Ia|rewrite Ea; vm_compute; reflexivity|].
    assert (T : g_type (get_attr (get_class aas_v3_0_checked "MultiLanguageProperty") "value") = GList (GObj (lit "LangStringTextType"))) by (vm_compute; reflexivity).
    rewrite T. eapply At_item; [reflexivity|reflexivity|].
    eapply At_member; [apply Exp_concrete; [exact J|exact F|vm_compute; reflexivity]|reflexivity|exact Ja|rewrite Fa; vm_compute; reflexivity|].
    assert (T' : g_type (get_attr (get_class aas_v3_0_checked "LangStringTextType") "text") = GPlain) by (vm_compute; reflexivity).
    rewrite T'. constructor.
  - intros F. inversion F as [|c l X _]; subst. unfold XmlChar in X. lia.
Qed.
Print Assumptions C55_refuted.
(** The same character is refused in an identifier. *)
Example C55_example : forall show repr, exists x f fs,
  meta_check_json show repr (lit "Submodel") (JObj [(lit "modelType", JStr (lit "Submodel")); (lit "id", JStr [1%N])]) = Val (x, f :: fs).
Proof. intros show repr. eexists _, _, _. runs. Qed.

(** * C56: values and their types *)
Theorem C56_property : forall p, Inst "Property" p -> Passes ["check_value_type"] p <-> ValueHasType Validated p "value".
Proof. intros s H. passes "Property" ["check_value_type"] H. tauto. Qed.
Print Assumptions C56_property.
Theorem C56_range : forall r, Inst "Range" r -> Passes ["check_value_type_min"; "check_value_type_max"] r <->
  ValueHasType Validated r "min" /\ ValueHasType Validated r "max".
Proof. intros s H. passes "Range" ["check_value_type_min"; "check_value_type_max"] H. tauto. Qed.
Print Assumptions C56_range.
Theorem C56_qualifier : forall q, Inst "Qualifier" q -> Passes ["check_value_type"] q <-> ValueHasType Validated q "value".
Proof. intros s H. passes "Qualifier" ["check_value_type"] H. tauto. Qed.
Print Assumptions C56_qualifier.
Theorem C56_extension : forall e, Inst "Extension" e -> Passes ["check_value_type"] e <-> ValueHasType Validated e "value".
Proof. intros s H. passes "Extension" ["check_value_type"] H. tauto. Qed.
Print Assumptions C56_extension.
(** Every value type names exactly one lexical space. *)
Theorem C56_types : forall t s x, In (x, t) xsd_members -> Validated t s <-> validate_xsd x s = Val true.
Proof.
  intros t s x I. split; [|intros V; exists x; auto]. intros (x' & I' & V). now rewrite (members_same x x' t I I').
Qed.
Print Assumptions C56_types.
Definition typed_doc (t v : string) : json := obj [("modelType", "Property"); ("idShort", "p"); ("valueType", t); ("value", v)] [].
Definition range_doc (t a b : string) : json := obj [("modelType", "Range"); ("idShort", "r"); ("valueType", t); ("min", a); ("max", b)] [].
Example C56_example :
  Run "Property" (typed_doc "xs:byte" "-128") true /\ Run "Property" (typed_doc "xs:byte" "128") false /\
  Run "Property" (typed_doc "xs:date" "2024-02-29") true /\ Run "Property" (typed_doc "xs:date" "2023-02-29") false /\
  Run "Range" (range_doc "xs:boolean" "true" "0") true /\ Run "Range" (range_doc "xs:boolean" "true" "yes") false.
Proof. repeat match goal with |- _ /\ _ => split end; example. Qed.
