(** The requests of the tests go to the endpoints of their suite, and every entry that is written belongs to a given class of
    reports. *)
From Coq Require Import PeanoNat String List NArith ZArith Bool Lia.
From Verif Require P_Http.
From Verif Require Import PyStr PyStrFacts PyBase PyVal Codec CodecSpec CodecFacts ResultModel ContextModel HttpModel ConfigModel ReflectModel MetaModel ParseModel
  ProgModel ProgSpec ProgFacts ApiModel ApiSpec ApiSuites ApiFacts ActsFacts RequestSpec.
Import ListNotations.
Local Open Scope list_scope.

(** ** The values of arguments *)
Inductive Fit : str -> value -> Prop :=
| Fit_limit v : In v [VlInt 1; VlInt (-1)] -> Fit (lit "limit") v
| Fit_id n raw : In n [lit "aas_id"; lit "submodel_id"] -> Fit n (VlBase64 raw)
| Fit_encoded n : In n [lit "aas_id"; lit "submodel_id"; lit "asset_id"] -> Fit n (VlStr invalid_base64url)
| Fit_asset n x : Fit (lit "asset_id") (VlAssetId n x)
| Fit_path p : Fit (lit "id_short_path") (VlStr p)
| Fit_id_short s : Fit (lit "id_short") (VlStr s)
| Fit_level v : In v [VlNone; level_core; level_deep; VlDummy (lit "#####")] -> Fit (lit "level") v
| Fit_extent v : In v [VlNone; with_blob; without_blob; VlDummy (lit "#####"); VlDummy (lit "#################")] -> Fit (lit "extent") v
| Fit_descriptions v : In v [VlBool true; VlStr (lit "invalid-bool")] -> Fit (lit "include_concept_descriptions") v.
Definition fits (a : args) : Prop := Forall (fun x => Fit (fst x) (snd x)) a.

Ltac names := repeat match goal with
  | H : In _ (_ :: _) |- _ => destruct H as [H|H]
  | H : In _ [] |- _ => destruct H
  end.
Lemma lookup_fits n v a : fits a -> lookup n a = Some v -> Fit n v.
Proof.
  intros F. induction F as [|[k x] a H F IH]; cbn [lookup]; [discriminate|]. cbn [fst snd] in H.
  destruct (str_eqb n k) eqn:E; [apply str_eqb_spec in E; subst; intros [= <-]; exact H|exact IH].
Qed.
Lemma assign_fits n v a : Fit n v -> fits a -> fits (assign n v a).
Proof.
  intros H F. induction F as [|[k x] a K F IH]; cbn [assign]; [repeat constructor; exact H|].
  destruct (str_eqb n k) eqn:E; constructor; auto. apply str_eqb_spec in E. now subst.
Qed.
Lemma lookup_given {V} n (a : list (str * V)) : str_in n (List.map fst a) = true -> exists v, lookup n a = Some v.
Proof.
  induction a as [|[k x] a IH]; cbn [List.map fst lookup]; [discriminate|]. unfold str_in in *. cbn [existsb]. destruct (str_eqb n k); [eauto|exact IH].
Qed.

(** ** Endpoints and templates *)
Definition segment_of (p : part) : segment :=
  match p with Text s => Fixed s | Arg n => if str_eqb n (lit "id_short_path") then ElementPath else Identifier end.
Definition template_of (e : endpoint) : template := List.map segment_of (e_path e).
Definition names_of (e : endpoint) : list str := List.map (fun x => fst (fst x)) (e_query e).
Definition segment_eqb (a b : segment) : bool :=
  match a, b with Fixed s, Fixed t => str_eqb s t | Identifier, Identifier => true | ElementPath, ElementPath => true | _, _ => false end.
Fixpoint template_eqb (a b : template) : bool :=
  match a, b with [], [] => true | x :: a, y :: b => segment_eqb x y && template_eqb a b | _, _ => false end.
Lemma template_eqb_eq a : forall b, template_eqb a b = true -> a = b.
Proof.
  induction a as [|x a IH]; intros [|y b]; cbn [template_eqb]; try discriminate; [reflexivity|]. intros H. apply andb_prop in H. destruct H as [H K].
  f_equal; [|now apply IH]. destruct x, y; cbn [segment_eqb] in H; try discriminate; try reflexivity. apply str_eqb_spec in H. now subst.
Qed.
(** texts that follow each other are joined *)
Fixpoint normal (t : template) : template :=
  match t with
  | [] => []
  | Fixed s :: r =>
      match s, normal r with
      | [], r' => r'
      | _, Fixed s' :: r' => Fixed (s ++ s') :: r'
      | _, r' => Fixed s :: r'
      end
  | x :: r => x :: normal r
  end.
Lemma matches_normal t p : Matches t p -> Matches (normal t) p.
Proof.
  induction 1 as [|s t p M IH|x t p E M IH|x t p M IH]; cbn [normal]; [constructor| |now constructor|now constructor].
  destruct s as [|c s]; [exact IH|]. destruct (normal t) as [|[s'| |] r']; [now constructor| |now constructor|now constructor].
  inversion IH; subst. rewrite app_assoc. now constructor.
Qed.
Lemma matches_app t u p q : Matches t p -> Matches u q -> Matches (t ++ u) (p ++ q).
Proof. induction 1; cbn [app]; intros; [assumption|rewrite <- app_assoc; constructor; auto..]. Qed.
Definition found (l : list place) (t : template) (names : list str) : bool :=
  existsb (fun pl => template_eqb (normal (p_template pl)) (normal t) && forallb (fun n => str_in n (p_parameters pl)) names) l.
(** the places of [l] with joined texts *)
Definition tidy (l : list place) : Prop := Forall (fun pl => normal (p_template pl) = p_template pl) l.
Lemma found_place l t names p : tidy l -> found l t names = true -> Matches t p ->
  exists pl, In pl l /\ Matches (p_template pl) p /\ forall n, In n names -> In n (p_parameters pl).
Proof.
  intros T F M. apply existsb_exists in F. destruct F as (pl & I & F). apply andb_prop in F. destruct F as [F N]. apply template_eqb_eq in F.
  exists pl. split; [exact I|]. split.
  - rewrite <- (proj1 (Forall_forall _ _) T pl I), F. now apply matches_normal.
  - intros n J. apply str_in_spec. now apply (proj1 (forallb_forall _ _) N).
Qed.

(** every argument in the path has a value *)
Definition complete (e : endpoint) (a : args) : Prop := forall n, In (Arg n) (e_path e) -> exists v, lookup n a = Some v.
Definition path_args (e : endpoint) : bool :=
  forallb (fun p => match p with Text _ => true | Arg n => str_in n [lit "aas_id"; lit "submodel_id"; lit "id_short_path"] end) (e_path e).
Lemma encoded_value n v t : In n [lit "aas_id"; lit "submodel_id"; lit "asset_id"] -> Fit n v -> value_text v = Val t -> Encoded t.
Proof.
  assert (B : forall raw, base64_urlsafe raw = Val t -> Encoded t) by (intros raw E; left; exists raw; now apply base64_urlsafe_spec).
  intros I Ft V. inversion Ft; subst; names; subst; try discriminate.
  all: cbn [value_text] in V; try (apply (B _ V)); try (injection V as <-; right; reflexivity).
Qed.
Lemma path_matches e a p : path_args e = true -> complete e a -> fits a -> path_of (e_path e) a = Val p -> Matches (template_of e) p.
Proof.
  unfold path_args, complete, template_of. intros P C Ft. revert p. induction (e_path e) as [|x l IH]; intros p E.
  { injection E as <-. constructor. }
  cbn [forallb] in P. apply andb_prop in P. destruct P as [P1 P2]. specialize (IH P2 (fun n I => C n (or_intror I))). destruct x as [s|n]; cbn [path_of List.map segment_of] in *.
  - destruct (path_of l a) as [q|]; [|discriminate]. injection E as <-. constructor. now apply IH.
  - destruct (C n (or_introl eq_refl)) as [v L]. unfold argument in E. rewrite L in E. destruct (value_text v) as [t|] eqn:V; [|discriminate]. cbn [obind] in E.
    destruct (path_of l a) as [q|]; [|discriminate]. injection E as <-. specialize (IH q eq_refl). destruct (str_eqb n (lit "id_short_path")) eqn:N; [now constructor|].
    constructor; [|exact IH]. apply (encoded_value n v); [|now apply (lookup_fits n v a)|exact V].
    apply str_in_spec in P1. destruct P1 as [P1|[P1|[P1|[]]]]; [left; exact P1|right; left; exact P1|]. subst. discriminate.
Qed.

(** ** Query parameters *)
Definition known_query : list (str * str * bool) :=
  [q "limit" "limit"; q "cursor" "cursor"; q "idShort" "id_short"; q "assetIds" "asset_id"; qe "level" "level"; qe "extent" "extent";
   q "aasIds" "aas_id"; q "submodelIds" "submodel_id"; q "includeConceptDescriptions" "include_concept_descriptions"].
Definition query_eqb (x y : str * str * bool) : bool :=
  str_eqb (fst (fst x)) (fst (fst y)) && str_eqb (snd (fst x)) (snd (fst y)) && Bool.eqb (snd x) (snd y).
Definition query_args (e : endpoint) : bool := forallb (fun x => existsb (query_eqb x) known_query) (e_query e).
Lemma query_eqb_eq x y : query_eqb x y = true -> x = y.
Proof.
  destruct x as [[a b] c], y as [[a' b'] c']. unfold query_eqb. cbn [fst snd]. intros H. apply andb_prop in H. destruct H as [H K]. apply andb_prop in H.
  destruct H as [H1 H2]. apply str_eqb_spec in H1, H2. apply Bool.eqb_prop in K. now subst.
Qed.
Lemma query_given k n enum v x : In (k, n, enum) known_query -> Fit n v ->
  (let* w := if enum : bool then unpack_enum v else Val v in query_value w) = Val x -> match qstr x with None => True | Some t => Given k t end.
Proof.
  intros I Ft E. unfold known_query, q, qe in I. names; injection I as <- <- <-; cbn [obind] in E.
  - inversion Ft; subst; names; subst; try discriminate; injection E as <-; apply G_limit; cbn; auto.
  - inversion Ft; names; discriminate.
  - inversion Ft; subst; names; subst; try discriminate. injection E as <-. apply G_id_short.
  - assert (V : exists t, value_text v = Val t /\ x = QStr t).
    { inversion Ft; subst; names; subst; try discriminate; cbn [query_value] in E.
      - injection E as <-. eexists. split; reflexivity.
      - destruct (value_text (VlAssetId n x0)) as [t|]; [|discriminate]. injection E as <-. eauto. }
    destruct V as (t & V & ->). cbn [qstr]. apply G_encoded; [left; reflexivity|]. apply (encoded_value (lit "asset_id") v); [right; right; left; reflexivity|exact Ft|exact V].
  - inversion Ft; subst; names; subst; try discriminate; injection E as <-; cbn [qstr]; [exact Logic.I|..]; apply G_level; cbn; auto.
  - inversion Ft; subst; names; subst; try discriminate; injection E as <-; cbn [qstr]; [exact Logic.I|..]; apply G_extent; cbn; auto.
  - assert (V : exists t, value_text v = Val t /\ x = QStr t).
    { inversion Ft; subst; names; subst; try discriminate; cbn [query_value] in E;
        try (injection E as <-; eexists; split; reflexivity); destruct (value_text (VlBase64 raw)) as [t|]; try discriminate; injection E as <-; eauto. }
    destruct V as (t & V & ->). cbn [qstr]. apply G_encoded; [right; left; reflexivity|]. apply (encoded_value (lit "aas_id") v); [left; reflexivity|exact Ft|exact V].
  - assert (V : exists t, value_text v = Val t /\ x = QStr t).
    { inversion Ft; subst; names; subst; try discriminate; cbn [query_value] in E;
        try (injection E as <-; eexists; split; reflexivity); destruct (value_text (VlBase64 raw)) as [t|]; try discriminate; injection E as <-; eauto. }
    destruct V as (t & V & ->). cbn [qstr]. apply G_encoded; [right; right; left; reflexivity|]. apply (encoded_value (lit "submodel_id") v); [right; left; reflexivity|exact Ft|exact V].
  - inversion Ft; subst; names; subst; try discriminate; injection E as <-; cbn [qstr]; apply G_descriptions; cbn; auto.
Qed.
Lemma missing_query enum x : (let* w := if enum : bool then unpack_enum VlNone else Val VlNone in query_value w) = Val x -> x = QNone.
Proof. destruct enum; intros [= <-]; reflexivity. Qed.
Lemma queries_given e a qs ps : query_args e = true -> fits a -> query_of (e_query e) a = Val qs -> P_Http.kept qs ps ->
  Forall (fun kv => In (fst kv) (names_of e) /\ Given (fst kv) (snd kv)) ps.
Proof.
  unfold query_args, names_of. intros Q Ft. revert qs ps. induction (e_query e) as [|[[k n] enum] l IH]; intros qs ps E K.
  { injection E as <-. inversion K. constructor. }
  cbn [forallb] in Q. apply andb_prop in Q. destruct Q as [Q1 Q2]. specialize (IH Q2). cbn [query_of] in E.
  assert (X : exists x t, (let* w := if enum : bool then unpack_enum (argument a n) else Val (argument a n) in query_value w) = Val x /\
    query_of l a = Val t /\ qs = (k, x) :: t).
  { destruct (if enum : bool then unpack_enum (argument a n) else Val (argument a n)) as [w|]; [|discriminate]. cbn [obind] in *.
    destruct (query_value w) as [x|]; [|discriminate]. cbn [obind] in E. destruct (query_of l a) as [t|]; [|discriminate]. injection E as <-. eauto. }
  destruct X as (x & t & X & T & ->).
  assert (G : match qstr x with None => True | Some t => Given k t end).
  { unfold argument in X. destruct (lookup n a) as [v|] eqn:L.
    - apply (query_given k n enum v x); [|now apply (lookup_fits n v a)|exact X].
      apply existsb_exists in Q1. destruct Q1 as (y & I & Y). apply query_eqb_eq in Y. now subst.
    - apply missing_query in X. subst. exact Logic.I. }
  assert (M : forall ps, P_Http.kept t ps -> Forall (fun kv => In (fst kv) (List.map (fun x => fst (fst x)) ((k, n, enum) :: l)) /\ Given (fst kv) (snd kv)) ps).
  { intros ps' K'. specialize (IH _ _ T K'). apply Forall_forall. intros kv I. destruct (proj1 (Forall_forall _ _) IH kv I) as [A B]. split; [right; exact A|exact B]. }
  inversion K; subst; cbn [qstr] in G; [now apply M|..]; (constructor; [split; [left; reflexivity|exact G]|now apply M]).
Qed.
