(** Documents and the constraints on their objects. *)
From Coq Require Import PeanoNat Lia String List NArith ZArith Bool.
From Verif Require Import PyStr PyStrFacts PyBase PyXml PyVal DataTypesModel DataTypesSpec.
From Verif Require Import ResultModel ResultFacts ReflectModel ReflectFacts MetaModel MetaSpec MetaFacts AdapterModel ParseModel ParseSpec ParseFacts ParseFacts2 ParseSim ParseFacts3 ParseFacts4 TypeSpec TypeFacts TypeFacts2.
From Verif Require Import ConstraintModel CheckModel ConstraintSpec ConstraintFacts ConstraintFacts2 ConstraintFacts3 ConstraintFacts4 ConstraintFacts5 ConstraintFacts6.
Import ListNotations.
Local Open Scope list_scope.

Definition has_ptype (i : nat) : bool := match ptype_of model_classes model_table i with Some _ => true | None => false end.
Lemma all_have_ptypes : forallb has_ptype (seq 0 (length model_table)) = true. Proof. vm_compute. reflexivity. Qed.
Local Opaque model_types model_classes model_supers own_methods model_table model_symbols.
Lemma index_ptype i : i < length model_table -> exists t, ptype_of model_classes model_table i = Some t.
Proof.
  intros L. assert (I : In i (seq 0 (length model_table))) by (apply in_seq; lia). apply (proj1 (forallb_forall _ _) all_have_ptypes) in I.
  unfold has_ptype in I. destruct (ptype_of _ _ i); [eauto|discriminate].
Qed.
Lemma lookup_below (t : table) n i : symbol_lookup t n = Val i -> i < length t.
Proof.
  intros H. pose proof (symbol_lookup_spec t n) as S. rewrite H in S. destruct S as [(k & d & p & E & _) _].
  apply nth_error_Some. congruence.
Qed.
(** the object of a document without findings is typed *)
Lemma json_typed show repr n v x : meta_check_json show repr n v = Val (x, []) -> exists t, Ty t x.
Proof.
  unfold meta_check_json. rewrite model_symbols_eq. cbn [obind]. destruct (symbol_lookup model_table n) as [i|] eqn:L; cbn [obind]; [|discriminate].
  destruct (index_ptype i (lookup_below _ _ _ L)) as (t & E). intros H. exists t.
  exact (model_parse_typed json (json_adapter show) repr _ i t [] v x (json_nonempty show) E H).
Qed.
Lemma xml_typed repr n v x : meta_check_xml repr n v = Val (x, []) -> exists t, Ty t x.
Proof.
  unfold meta_check_xml. rewrite model_symbols_eq. cbn [obind]. destruct (symbol_lookup model_table n) as [i|] eqn:L; cbn [obind]; [|discriminate].
  destruct (index_ptype i (lookup_below _ _ _ L)) as (t & E). intros H. exists t.
  exact (model_parse_typed xml xml_adapter repr _ i t [] v x xml_nonempty E H).
Qed.

(** * The verdict *)
(** every object satisfies the constraints of level ERROR *)
Definition Satisfies (x : pyval) : Prop :=
  forall q y k, Occurs x q y -> In k constraints -> Applies k y -> k_level k = ERROR -> k_holds k y.
Lemma cfinding_ok f : ok (cfinding_result f) = true <-> cf_level f = INFO \/ cf_level f = WARNING.
Proof. destruct f as [[] t p]; vm_compute; split; intros H; try discriminate H; auto; destruct H; discriminate. Qed.
Definition level_known (k : constraint) : bool := match k_level k with ERROR | WARNING => true | _ => false end.
Lemma levels_known : forallb level_known constraints = true. Proof. reflexivity. Qed.
Lemma constraint_level k : In k constraints -> k_level k = ERROR \/ k_level k = WARNING.
Proof. intros I. apply (proj1 (forallb_forall _ _) levels_known) in I. unfold level_known in I. destruct (k_level k); try discriminate I; auto. Qed.
Lemma verdict_of t x : Ty t x -> (exists cs, check_model x = Val cs /\ Forall (fun r => ok r = true) cs) <-> ~ (exists q, Violated x q ERROR).
Proof.
  intros T. pose proof (check_findings t x T) as F. unfold check_model. destruct (check_constraints model_methods x []) as [fs|e]; cbn [obind].
  - destruct F as [_ F]. split.
    + intros (cs & [= <-] & A) (q & V). apply F in V as (m & I). rewrite Forall_forall in A.
      assert (Z : ok (cfinding_result (CFinding ERROR m q)) = true) by (apply A; now apply in_map). apply cfinding_ok in Z. cbn [cf_level] in Z. destruct Z; discriminate.
    + intros N. eexists. split; [reflexivity|]. apply Forall_forall. intros r I. apply in_map_iff in I as ([l m q] & <- & I).
      apply cfinding_ok. cbn [cf_level]. right. assert (V : Violated x q l) by (apply F; eauto). pose proof V as (y & k & _ & K & _ & L & _).
      destruct (constraint_level k K) as [E|E]; [|congruence]. exfalso. apply N. exists q. congruence.
  - split; [intros (cs & Z & _); discriminate|]. intros N. exfalso. destruct F as (q & y & k & O & K & A & E & R).
    destruct (raises_violates k y K R) as [V L]. apply N. exists q, y, k. auto.
Qed.
(** whether a constraint holds is decided by its method *)
Lemma holds_dec t x q y k : Ty t x -> Occurs x q y -> In k constraints -> Applies k y -> k_holds k y \/ ~ k_holds k y.
Proof.
  intros T O K A. destruct (constraint_called t x q y k T O K A) as (r & _ & [[R _]|[(_ & S & _)|(_ & S & _)]]); [right|now left|now right].
  now apply (raises_violates k y K R).
Qed.
Lemma satisfies_spec t x : Ty t x -> Satisfies x <-> ~ (exists q, Violated x q ERROR).
Proof.
  intros T. split.
  - intros S (q & y & k & O & K & A & L & V). apply V. exact (S q y k O K A L).
  - intros N q y k O K A L. destruct (holds_dec t x q y k T O K A) as [H|H]; [exact H|]. exfalso. apply N. exists q, y, k. auto.
Qed.
Lemma accepted_spec t x : Ty t x -> (exists cs, check_model x = Val cs /\ Forall (fun r => ok r = true) cs) <-> Satisfies x.
Proof. intros T. rewrite (verdict_of t x T). symmetry. now apply satisfies_spec with (t := t). Qed.

(** the report of the check says that the document is fine *)
Definition Accepted (o : outcome (result * pyval)) : Prop := exists rep x, o = Val (rep, x) /\ ok rep = true.
Lemma val_pair {X Y} (a c : X) (b d : Y) : Val (a, b) = Val (c, d) -> c = a /\ d = b. Proof. now intros [= -> ->]. Qed.
Lemma parse_and_check_ok c o : Accepted (parse_and_check c o) <->
  exists x cs, o = Val (x, []) /\ c x = Val cs /\ Forall (fun r => ok r = true) cs.
Proof.
  unfold Accepted, parse_and_check. destruct o as [[x fs]|e]; cbn [obind]; [|split; [intros (r & y & Z & _)|intros (x & cs & Z & _)]; discriminate].
  rewrite ok_append. unfold check_meta_model. rewrite ok_appends. change (ok (new_result (lit "Check") INFO)) with true. change (ok (new_result (lit "Check meta model") INFO)) with true. cbn [andb].
  destruct fs as [|f fs].
  - cbn [List.map forallb]. destruct (c x) as [cs|e] eqn:Ec; cbn [obind].
    + split.
      * intros (r & y & Z & K). apply val_pair in Z as [-> ->]. rewrite !ok_append, !ok_appends in K. cbn [forallb List.map] in K. rewrite !andb_true_iff in K. destruct K as [_ [_ K]].
        exists x, cs. split; [reflexivity|]. split; [exact Ec|]. apply Forall_forall. now apply forallb_forall.
      * intros (y & cs' & [= <-] & Ec' & F). assert (cs' = cs) by congruence. subst cs'. eexists _, x. split; [reflexivity|]. rewrite !ok_append, !ok_appends.
        cbn [forallb List.map]. change (ok (new_result (lit "Check") INFO)) with true. change (ok (new_result (lit "Check meta model") INFO)) with true. change (ok (new_result (lit "Check constraints") INFO)) with true.
        cbn [andb]. apply forallb_forall. now apply Forall_forall.
    + split; [intros (r & y & Z & _); discriminate|]. intros (y & cs & [= <-] & Z & _). congruence.
  - cbn [List.map forallb]. change (ok (finding_result f)) with false. cbn [andb]. split.
    + intros (r & y & Z & K). apply val_pair in Z as [-> ->]. rewrite !ok_append, !ok_appends in K. cbn [forallb List.map] in K. change (ok (finding_result f)) with false in K.
      cbn [andb] in K. rewrite andb_false_r in K. discriminate.
    + intros (y & cs & Z & _). discriminate.
Qed.

(** * Positions of objects in documents *)
Fixpoint attr_path (q : path) : path :=
  match q with [] => [] | SKey k :: r => SKey (snake_case k) :: attr_path r | SIdx i :: r => SIdx i :: attr_path r end.
Definition flat_type (g : gtype) : bool := match g with GList (GList _) => false | _ => true end.
Definition flat_class (c : gclass) : bool := forallb (fun a => flat_type (g_type a)) (gc_attrs c).
Lemma carries_list V (W : view V) M g v x : Carries W M (GList g) v x -> exists l xs, x = VList xs /\ w_items W v = Some l /\ length xs = length l /\
  forall i a y, nth_error l i = Some a -> nth_error xs i = Some y -> Carries W M g a y.
Proof. intros C. inversion C; subst. eauto 10. Qed.
Lemma carries_obj V (W : view V) M n v x : Carries W M (GObj n) v x -> exists c k kvs attrs, x = VObj k attrs /\ Expected W M n v c /\ gc_name c = spec_name k /\
  w_members W v = Some kvs /\ NoDup (List.map fst attrs) /\ (forall a, In a (gc_attrs c) -> In (snake_case (g_name a)) (List.map fst attrs)) /\
  (forall m, In m (List.map fst attrs) -> (exists a, In a (gc_attrs c) /\ m = snake_case (g_name a)) \/ m = lit "id_short_path") /\
  (forall a, In a (gc_attrs c) -> lookup (g_name a) kvs = None -> attribute_of attrs (g_name a) = VNone) /\
  (forall a z, In a (gc_attrs c) -> lookup (g_name a) kvs = Some z -> Carries W M (g_type a) z (attribute_of attrs (g_name a))).
Proof. intros C. inversion C; subst. exists c, k, kvs, attrs. auto 10. Qed.
Lemma carries_not_list V (W : view V) M g v l : (forall h, g <> GList h) -> ~ Carries W M g v (VList l).
Proof. intros N C. inversion C; subst. eapply N; reflexivity. Qed.
Lemma attribute_in attrs n : NoDup (List.map fst attrs) -> In (snake_case n) (List.map fst attrs) -> In (snake_case n, attribute_of attrs n) attrs.
Proof.
  intros N I. unfold attribute_of. destruct (lookup (snake_case n) attrs) as [x|] eqn:L; [now apply lookup_In|].
  exfalso. apply in_map_iff in I as ([k x] & E & I). cbn [fst] in E. subst k. rewrite (lookup_nodup _ _ _ N I) in L. discriminate.
Qed.
Definition path_fields (e : str * pfields) : bool := forallb (fun f => negb (str_eqb (fst f) (lit "id_short_path")) || match snd f with TyPath => true | _ => false end) (snd e).
Lemma path_fields_ok : forallb path_fields model_types = true. Proof. vm_compute. reflexivity. Qed.
Lemma typed_attr t c kvs k x : Ty t (VObj c kvs) -> In (k, x) kvs -> exists u, Ty u x /\ (k = lit "id_short_path" -> u = TyPath).
Proof.
  intros T I. apply typed_any_obj in T. inversion T as [| | | | | | | | |cs c' fs kvs' _ If Ek Tf]; subst.
  assert (J : In k (List.map fst fs)) by (rewrite <- Ek; exact (in_map fst _ _ I)).
  apply in_map_iff in J as ([k' u] & E & J). cbn [fst] in E. subst k'. exists u. split; [eapply Tf; eauto|].
  intros ->. pose proof (proj1 (forallb_forall _ _) path_fields_ok _ If) as Z. pose proof (proj1 (forallb_forall _ _) Z _ J) as Y.
  cbn [fst snd] in Y. rewrite (proj2 (str_eqb_spec _ _) eq_refl) in Y. destruct u; try discriminate Y. reflexivity.
Qed.
Section Positions.
  Variable V : Type. Variable W : view V. Variable M : list gclass.
  Hypothesis det : forall n v c c', Expected W M n v c -> Expected W M n v c' -> c = c'.
  Hypothesis flat : forall c a, In c M -> In a (gc_attrs c) -> flat_type (g_type a) = true.
  Lemma expected_in n v c : Expected W M n v c -> In c M. Proof. now destruct 1. Qed.
  Lemma at_occurs g v q h w : At W M g v q h w -> flat_type g = true -> forall cn x, h = GObj cn -> Carries W M g v x ->
    match g with
    | GList g' => exists i q' a, q = SIdx i :: q' /\ (exists xs, x = VList xs /\ nth_error xs i = Some a) /\ exists y, Occurs a (attr_path q') y /\ Carries W M h w y
    | _ => exists y, Occurs x (attr_path q) y /\ Carries W M h w y
    end.
  Proof.
    induction 1 as [g v|g v l i z q h w Ei En At IH|n v c kvs a z q h w Ex Em Ia El At IH]; intros Fl cn x -> C.
    - exists x. split; [constructor|exact C].
    - destruct (carries_list _ _ _ _ _ _ C) as (l' & xs & -> & El & Len & Items). assert (l' = l) by congruence. subst l'.
      destruct (nth_error xs i) as [y|] eqn:Ey; [|apply nth_error_None in Ey; assert (i < length l) by (apply nth_error_Some; congruence); lia].
      pose proof (Items i z y En Ey) as Cy.
      assert (N : forall g', g <> GList g') by (intros g' ->; discriminate).
      assert (Fg : flat_type g = true) by (destruct g; try reflexivity; exfalso; eapply N; reflexivity).
      specialize (IH Fg cn y eq_refl Cy). exists i, q, y. split; [reflexivity|]. split; [eauto|].
      destruct g; try exact IH. exfalso. eapply N; reflexivity.
    - destruct (carries_obj _ _ _ _ _ _ C) as (c' & k & kvs' & attrs & -> & Ex' & _ & Em' & ND & Has & _ & _ & Sub).
      assert (c' = c) by (eapply det; eauto). subst c'. assert (kvs' = kvs) by congruence. subst kvs'.
      specialize (IH (flat c a (expected_in _ _ _ Ex) Ia) cn _ eq_refl (Sub a z Ia El)).
      assert (I : In (snake_case (g_name a), attribute_of attrs (g_name a)) attrs) by (apply attribute_in; auto).
      cbn [attr_path]. pose proof (Sub a z Ia El) as Cz. destruct (g_type a) as [t| | |vs|m|g'];
        try (destruct IH as (y & O & Cy); exists y; split; [|exact Cy]; apply Oc_attr with (x := attribute_of attrs (g_name a)); [exact I| |exact O];
             intros l E; rewrite E in Cz; eapply carries_not_list; [|exact Cz]; discriminate).
      destruct IH as (i & q' & b & -> & (xs & E & En) & y & O & Cy). exists y. split; [|exact Cy]. cbn [attr_path].
      apply Oc_item with (l := xs) (x := b); [now rewrite <- E|exact En|exact O].
  Qed.
  (** an object that occurs is at a position of the document *)
  Lemma occurs_at x q y : Occurs x q y -> forall t g v, Ty t x -> (forall h, g <> GList h) -> Carries W M g v x -> (exists c kvs, y = VObj c kvs) ->
    exists p cn w, At W M g v p (GObj cn) w /\ q = attr_path p /\ Carries W M (GObj cn) w y.
  Proof.
    induction 1 as [x|c kvs k x q y I N O IH|c kvs k l i x q y I E O IH]; intros t g v T NL C Hy.
    - destruct Hy as (c & kvs & ->). destruct g as [t'| | |vs|n|g]; try (inversion C; fail). exists [], n, v. split; [constructor|]. auto.
    - destruct g as [t'| | |vs|n|g]; try (inversion C; fail).
      destruct (carries_obj _ _ _ _ _ _ C) as (d & k' & kvs' & attrs & [= <- <-] & Ex & _ & Em & ND & Has & Only & None_ & Sub).
      destruct (typed_attr _ _ _ _ _ T I) as (u & Tu & Pu).
      destruct (Only k (in_map fst _ _ I)) as [(a & Ia & ->)|Ek].
      + assert (Ea : attribute_of kvs (g_name a) = x) by (unfold attribute_of; now rewrite (lookup_nodup _ _ _ ND I)).
        destruct (lookup (g_name a) kvs') as [z|] eqn:L.
        * pose proof (Sub a z Ia L) as Cz. rewrite Ea in Cz.
          assert (NL' : forall h, g_type a <> GList h) by (intros h Eh; rewrite Eh in Cz; inversion Cz; subst; eapply N; eauto).
          destruct (IH u (g_type a) z Tu NL' Cz Hy) as (p & cn & w & A & -> & Cw).
          exists (SKey (g_name a) :: p), cn, w. split; [|auto]. econstructor; eauto.
        * rewrite (None_ a Ia L) in Ea. subst x. inversion O; subst. destruct Hy as (? & ? & Z). discriminate.
      + exfalso. rewrite (Pu Ek) in Tu. destruct Hy as (? & ? & ->). inversion Tu; subst; inversion O.
    - destruct g as [t'| | |vs|n|g]; try (inversion C; fail).
      destruct (carries_obj _ _ _ _ _ _ C) as (d & k' & kvs' & attrs & [= <- <-] & Ex & _ & Em & ND & Has & Only & None_ & Sub).
      destruct (typed_attr _ _ _ _ _ T I) as (u & Tu & Pu).
      destruct (Only k (in_map fst _ _ I)) as [(a & Ia & ->)|Ek].
      + assert (Ea : attribute_of kvs (g_name a) = VList l) by (unfold attribute_of; now rewrite (lookup_nodup _ _ _ ND I)).
        destruct (lookup (g_name a) kvs') as [z|] eqn:L; [|rewrite (None_ a Ia L) in Ea; discriminate].
        pose proof (Sub a z Ia L) as Cz. rewrite Ea in Cz. pose proof (flat d a (expected_in _ _ _ Ex) Ia) as Fa.
        destruct (g_type a) as [t'| | |vs|m|g'] eqn:Eg; try (inversion Cz; fail).
        destruct (carries_list _ _ _ _ _ _ Cz) as (l' & xs & [= <-] & El & Len & Items).
        destruct (nth_error l' i) as [b|] eqn:Eb; [|apply nth_error_None in Eb; assert (i < length l) by (apply nth_error_Some; congruence); lia].
        destruct (typed_items _ _ Tu) as (u' & Tu').
        assert (NL' : forall h, g' <> GList h) by (intros h ->; discriminate Fa).
        destruct (IH u' g' b (Tu' x (nth_error_In _ _ E)) NL' (Items i b x Eb E) Hy) as (p & cn & w & A & -> & Cw).
        exists (SKey (g_name a) :: SIdx i :: p), cn, w. split; [|auto]. eapply At_member; [exact Ex|exact Em|exact Ia|exact L|].
        rewrite Eg. econstructor; eauto.
      + exfalso. rewrite (Pu Ek) in Tu. inversion Tu.
  Qed.
End Positions.
