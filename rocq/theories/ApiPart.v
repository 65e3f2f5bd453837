(** The parts of the meta model in the body of a response are checked as in files. *)
From Coq Require Import PeanoNat Lia String List NArith ZArith Bool.
From Verif Require Import PyStr PyStrFacts PyBase PyVal ResultModel ResultFacts ReflectModel ReflectFacts MetaModel AdapterModel ParseModel MetaSpec MetaFacts
  ParseSpec ParseCrash ParseFacts ParseFacts2 ParseFacts3 ParseFacts4 TypeSpec TypeFacts ConstraintModel CheckModel ConstraintFacts ConstraintFacts7 ApiModel ApiSpec ApiBody ApiTables ApiFacts2 TestSpec.
Import ListNotations.
Local Open Scope nat_scope.
Local Open Scope list_scope.

(** * Values without findings do not depend on their place *)
Section Moves.
  Variable V : Type.
  Variable A : adapter V.
  Variable P : list classdecl.
  Variable T : table.
  Variable repr : str -> str.
  Variable post_parse : str -> option (pyval -> outcome pyval).
  Notation pa := (parse V A P T repr post_parse).

  Section Step.
    Variables f f' : nat.
    Hypothesis IH : forall i p p' v x, pa f i p v [] = Val (x, []) -> pa f' i p' v [] = Val (x, []).
    Lemma rec_grows i p v r : Grows r (pa f i p v r). Proof. apply parse_grows. Qed.
    Lemma items_move i p p' l : forall k k' xs, parse_items V (pa f) i p k l [] = Val (xs, []) -> parse_items V (pa f') i p' k' l [] = Val (xs, []).
    Proof.
      induction l as [|v l IHl]; intros k k' xs; cbn [parse_items]; [auto|].
      destruct (pa f i (p ++ [SIdx k]) v []) as [[x r]|e] eqn:E; cbn [obind]; [|intros; discriminate].
      destruct (parse_items V (pa f) i p (S k) l r) as [[ys r2]|e] eqn:F; cbn [obind]; [|intros; discriminate]. intros [= <- ->].
      assert (r = []) by (eapply grown_nil; [|exact F]; apply items_grows, rec_grows). subst r.
      rewrite (IH _ _ (p' ++ [SIdx k']) _ _ E). cbn [obind]. now rewrite (IHl _ (S k') _ F).
    Qed.
    Lemma attrs_move attrs obj p p' : forall xs, parse_attrs V (pa f) attrs obj p [] = Val (xs, []) -> parse_attrs V (pa f') attrs obj p' [] = Val (xs, []).
    Proof.
      induction attrs as [|a attrs IHl]; intros xs; cbn [parse_attrs]; [auto|].
      set (o := match lookup (json_name a) obj with Some v => pa f _ _ _ _ | None => _ end).
      set (o' := match lookup (json_name a) obj with Some v => pa f' _ _ _ _ | None => _ end).
      destruct o as [[x r]|e] eqn:E; cbn [obind]; [|intros; discriminate].
      destruct (parse_attrs V (pa f) attrs obj p r) as [[ys r2]|e] eqn:F; cbn [obind]; [|intros; discriminate]. intros [= <- ->].
      assert (r = []) by (eapply grown_nil; [|exact F]; apply attrs_grows, rec_grows). subst r.
      assert (E' : o' = Val (x, [])).
      { unfold o, o' in *. destruct (lookup (json_name a) obj) as [v|]; [exact (IH _ _ _ _ _ E)|]. destruct (a_required a); [discriminate E|exact E]. }
      rewrite E'. cbn [obind]. now rewrite (IHl _ F).
    Qed.
    Lemma concrete_move c attrs st p p' v x : parse_concrete V A P (pa f) c attrs st p v [] = Val (x, []) ->
      parse_concrete V A P (pa f') c attrs st p' v [] = Val (x, []).
    Proof.
      unfold parse_concrete. destruct (ad_object A v) as [obj|m|e]; try discriminate.
      destruct (check_model_type V A P c p v []) as [r|] eqn:E; cbn [obind]; [|discriminate].
      destruct (parse_attrs V (pa f) attrs obj p r) as [[args r2]|] eqn:F; cbn [obind]; [|discriminate].
      intros [= <- N]. apply app_eq_nil in N as [-> N].
      assert (r = []) by (eapply grown_nil; [|exact F]; apply attrs_grows, rec_grows). subst r.
      assert (E' : check_model_type V A P c p' v [] = Val []).
      { unfold check_model_type in *. destruct (has_requires_model_type P c); [|reflexivity]. destruct (ad_model_type A v); try discriminate E.
        destruct (match mt_name _ with Some n => _ | None => _ end); [reflexivity|discriminate E]. }
      rewrite E'. cbn [obind]. rewrite (attrs_move _ _ _ p' _ F). cbn [obind]. unfold unknown_attrs in *. apply map_eq_nil in N. rewrite N. reflexivity.
    Qed.
  End Step.
  Lemma parse_moves f : forall f' i p p' v x, f <= f' -> pa f i p v [] = Val (x, []) -> pa f' i p' v [] = Val (x, []).
  Proof.
    induction f as [|f IH]; intros f' i p p' v x L; cbn [parse]; [discriminate|]. destruct f' as [|f']; [lia|]. cbn [parse].
    assert (IH' : forall i p p' v x, pa f i p v [] = Val (x, []) -> pa f' i p' v [] = Val (x, [])) by (intros; eapply IH; [|eassumption]; lia).
    destruct (nth_error T i) as [[k t]|]; [|discriminate].
    destruct t as [| | | | | |c|c|c attrs st subs|a e]; try discriminate; auto.
    - unfold parse_string. destruct (ad_string A v); auto; discriminate.
    - unfold parse_bool. destruct (ad_bool A v); auto; discriminate.
    - unfold parse_enum. destruct (ad_string A v) as [s| |]; try discriminate. destruct (kind_of P c); try discriminate.
      destruct (find _ _); auto; discriminate.
    - unfold parse_sfv. destruct (ad_string A v) as [s| |]; try discriminate. destruct (kind_of P c); try discriminate.
      destruct (sfv_construct _ _); auto; discriminate.
    - destruct (is_abstract P c).
      + unfold parse_abstract. destruct (ad_model_type A v) as [m| |]; try discriminate.
        destruct (find_subclass P T (mt_name m) subs) as [[[c' attrs'] st']|]; [|discriminate]. now apply concrete_move.
      + destruct (parse_concrete V A P (pa f) c attrs st p v []) as [[o r]|] eqn:E; cbn [obind]; [|discriminate].
        intros H. assert (r = []) by (eapply (grown_nil r (finish_ post_parse o r)); [apply finish_grows|exact H]). subst r.
        rewrite (concrete_move f f' IH' _ _ _ _ p' _ _ E). cbn [obind]. exact H.
    - unfold parse_list. destruct (ad_list A e v) as [l| |]; try discriminate.
      destruct (parse_items V (pa f) a p 0 l []) as [[xs r]|] eqn:E; cbn [obind]; [|discriminate]. intros [= <- ->].
      rewrite (items_move f f' IH' _ _ p' _ _ 0 _ E). reflexivity.
  Qed.
End Moves.

(** * Checked constraints *)
Section Clean.
  Variable good : level -> Prop.
  (** the methods of all objects below give only findings of good levels *)
  Definition Clean (x : pyval) : Prop := forall q r, Called model_methods x q r -> exists a, r = Val a /\ forall l t, a = Some (l, t) -> good l.
  Definition CleanAttr (x : pyval) : Prop := match x with VList l => Forall Clean l | _ => Clean x end.
  Lemma clean_other x : (forall c kvs, x <> VObj c kvs) -> Clean x.
  Proof. intros H q r C. now apply (called_not_obj model_methods x q r H) in C. Qed.
  Lemma clean_below k x : CleanAttr x <-> forall q r, BelowAttr model_methods k x q r -> exists a, r = Val a /\ forall l t, a = Some (l, t) -> good l.
  Proof.
    assert (S : forall x, Clean x <-> forall q r, (exists q', q = SKey k :: q' /\ Called model_methods x q' r) -> exists a, r = Val a /\ forall l t, a = Some (l, t) -> good l).
    { intros y. split; [intros C q r (q' & _ & D); exact (C _ _ D)|]. intros H q r C. apply (H (SKey k :: q)). eauto. }
    destruct x as [| | | | | |l| | |]; try (match goal with |- CleanAttr ?y <-> _ => exact (S y) end). cbn [CleanAttr BelowAttr]. split.
    - intros F q r (i & y & q' & N & _ & C). rewrite Forall_forall in F. exact (F _ (nth_error_In _ _ N) _ _ C).
    - intros H. apply Forall_forall. intros y I q r C. apply In_nth_error in I as (i & I). apply (H (SKey k :: SIdx i :: q)). exists i, y, q. auto.
  Qed.
  Lemma clean_obj c attrs : model_methods c = [] -> Clean (VObj c attrs) <-> Forall (fun kx => CleanAttr (snd kx)) attrs.
  Proof.
    intros M. split.
    - intros C. apply Forall_forall. intros [k x] I. cbn [snd]. apply (clean_below k x). intros q r B. apply (C q r), called_obj. right. eauto.
    - intros F q r C. apply called_obj in C as [(_ & n & m & I & _)|(k & x & I & B)]; [rewrite M in I; destruct I|].
      rewrite Forall_forall in F. specialize (F _ I). cbn [snd] in F. exact (proj1 (clean_below k x) F q r B).
  Qed.
  Lemma clean_check x : (exists fs, check_constraints model_methods x [] = Val fs /\ Forall (fun f => good (cf_level f)) fs) <-> Clean x.
  Proof.
    pose proof (check_collects model_methods x []) as C. destruct (check_constraints model_methods x []) as [fs|e]; cbn [Collects] in C.
    - destruct C as [C1 C2]. split.
      + intros (gs & [= <-] & F) q r Cr. destruct (C1 _ _ Cr) as (a & ->). exists a. split; [reflexivity|]. intros l t ->.
        rewrite Forall_forall in F. apply (F (CFinding l t q)). apply C2. eauto 6.
      + intros Cl. exists fs. split; [reflexivity|]. apply Forall_forall. intros f I. apply C2 in I as (q & l & t & Cr & ->).
        destruct (Cl _ _ Cr) as (a & [= <-] & G). exact (G l t eq_refl).
    - destruct C as (q & C). split; [intros (fs & Z & _); discriminate|]. intros Cl. destruct (Cl _ _ C) as (a & Z & _). discriminate.
  Qed.
End Clean.

(** * Parts of bodies *)
Definition part_classes : list str :=
  List.map lit ["AssetAdministrationShell"; "Reference"; "AssetInformation"; "Submodel"; "SubmodelElement"; "Environment"; "Key"]%string.
Definition unique_classb (n : str) : bool :=
  match symbol_lookup model_table n with
  | Val i => forallb (fun j => negb (fitsb model_classes model_table string_types j (GObj n)) || Nat.eqb j i) (seq 0 (length model_table))
  | Raise _ => false
  end.
Lemma classes_unique : forallb unique_classb part_classes = true.
Proof. vm_compute. reflexivity. Qed.
Local Opaque model_table model_classes fitsb symbol_lookup part_classes.
Lemma class_index n j : In n part_classes -> fitsb model_classes model_table string_types j (GObj n) = true -> j < length model_table ->
  symbol_lookup model_table n = Val j.
Proof.
  intros I F L. pose proof (proj1 (forallb_forall _ _) classes_unique _ I) as U. unfold unique_classb in U.
  destruct (symbol_lookup model_table n) as [i|]; [|discriminate].
  assert (J : In j (seq 0 (length model_table))) by (apply in_seq; lia).
  apply (proj1 (forallb_forall _ _) U) in J. rewrite F in J. cbn [negb orb] in J. apply Nat.eqb_eq in J. now subst.
Qed.

(** no lists in lists, and only known classes *)
Fixpoint flat (b : body) : bool :=
  match b with
  | BList (BList _) => false
  | BList b => flat b
  | BObject ms => forallb (fun m => flat (snd (snd m))) ms
  | BModel (GObj n) => str_in n part_classes
  | BModel (GEnum _) => true
  | BModel _ => false
  | _ => true
  end.
Section Parts.
  Variable T : table.
  Variable phi : list (nat * nat).
  Variable ref : option nat.
  Variable show : json -> str.
  Variable repr : str -> str.
  Hypothesis H_same : sameb T phi = true.
  Hypothesis H_ref : reference_ok T phi ref = true.
  Variable good : level -> Prop.
  Notation pa := (parse json (json_adapter show) api_classes T repr model_post_parse).
  Notation bodyb := (bodyb T phi ref).

  (** the file with this content is checked without other findings *)
  Definition FileClean (n : str) (w : json) : Prop := exists y, meta_check_json show repr n w = Val (y, []) /\ Clean good y.
  Definition AllClean (b : body) (v : json) : Prop := forall n w, Part b v n w -> FileClean n w.
  Definition Exact (b : body) (v : json) (x : pyval) : Prop :=
    ((forall c, b <> BList c) -> forall l, x <> VList l) /\ (CleanAttr good x <-> AllClean b v).

  Lemma exact_plain b v x : (forall c kvs, x <> VObj c kvs) -> (forall l, x <> VList l) -> (forall n w, ~ Part b v n w) -> Exact b v x.
  Proof.
    intros H L N. split; [intros _; exact L|]. assert (C : CleanAttr good x <-> Clean good x) by (destruct x; try reflexivity; now destruct (L l)).
    rewrite C. split; [intros _ n w P; now destruct (N n w)|]. intros _. now apply clean_other.
  Qed.
  Section Step.
    Variable f : nat.
    Hypothesis IH : forall b i p v x, flat b = true -> bodyb b i = true -> json_depth v < f -> pa f i p v [] = Val (x, []) -> Exact b v x.

    Lemma items_parts b i p l : flat b = true -> (forall c, b <> BList c) -> bodyb b i = true -> (forall x, In x l -> json_depth x < f) -> forall k xs,
      parse_items json (pa f) i p k l [] = Val (xs, []) -> (Forall (Clean good) xs <-> forall v, In v l -> AllClean b v).
    Proof.
      intros Fl NL B. induction l as [|v l IHl]; intros D k xs; cbn [parse_items].
      - intros [= <-]. split; [intros _ v []|constructor].
      - destruct (pa f i (p ++ [SIdx k]) v []) as [[x r]|e] eqn:E; cbn [obind]; [|discriminate].
        destruct (parse_items json (pa f) i p (S k) l r) as [[ys r2]|e] eqn:F; cbn [obind]; [|discriminate]. intros [= <- ->].
        assert (r = []) by (eapply grown_nil; [|exact F]; apply items_grows; intros; apply parse_grows). subst r.
        destruct (IH _ _ _ _ _ Fl B (D v (or_introl eq_refl)) E) as [X1 X2]. specialize (X1 NL).
        assert (C : CleanAttr good x <-> Clean good x) by (destruct x; try reflexivity; now destruct (X1 l0)).
        rewrite Forall_cons_iff, <- C, X2, (IHl (fun x I => D x (or_intror I)) _ _ F). split.
        + intros [Q1 Q2] w [<-|I]; auto.
        + intros Q. split; [apply Q; now left|intros w I; apply Q; now right].
    Qed.
    Lemma attrs_parts ms attrs kvs p : forallb (fun m => flat (snd (snd m))) ms = true -> Forall2 (MemberFits T phi ref) ms attrs ->
      (forall k x, In (k, x) kvs -> json_depth x < f) -> forall xs, parse_attrs json (pa f) attrs kvs p [] = Val (xs, []) ->
      (Forall (fun kx => CleanAttr good (snd kx)) xs <-> forall n r b v, In (n, (r, b)) ms -> lookup n kvs = Some v -> AllClean b v).
    Proof.
      intros Fl Fm D. revert Fl. induction Fm as [|m a ms attrs (N & R & A & B) _ IHl]; intros Fl xs; cbn [parse_attrs].
      - intros [= <-]. split; [intros _ n r b v []|constructor].
      - cbn [forallb] in Fl. apply andb_prop in Fl as [Fl1 Fl2]. rewrite N.
        set (o := match lookup (fst m) kvs with Some v => _ | None => _ end).
        destruct o as [[x r]|e] eqn:E; cbn [obind]; [|discriminate].
        destruct (parse_attrs json (pa f) attrs kvs p r) as [[ys r2]|e] eqn:F; cbn [obind]; [|discriminate]. intros [= <- ->].
        assert (r = []) by (eapply grown_nil; [|exact F]; apply attrs_grows; intros; apply parse_grows). subst r.
        rewrite Forall_cons_iff, (IHl Fl2 _ F). cbn [snd].
        assert (X : CleanAttr good x <-> forall v, lookup (fst m) kvs = Some v -> AllClean (snd (snd m)) v).
        { unfold o in E. destruct (lookup (fst m) kvs) as [v|] eqn:L.
          - destruct (IH _ _ _ _ _ Fl1 B (D _ _ (lookup_In _ _ _ L)) E) as [_ X]. rewrite X. split; [now intros Q w [= <-]|auto].
          - split; [discriminate|]. intros _. assert (x = VNone) by (destruct (a_required a); [discriminate E|congruence]). subst x. apply clean_other. discriminate. }
        rewrite X. split.
        + intros [Q1 Q2] n r b v [->|I]; [apply Q1|eauto].
        + intros Q. destruct m as [n [r b]]. cbn [fst snd]. split; [intros v; apply (Q n r b v); now left|intros; eapply Q; [right|]; eauto].
    Qed.
    Lemma object_parts ms i p v x : flat (BObject ms) = true -> bodyb (BObject ms) i = true -> json_depth v <= f ->
      pa (S f) i p v [] = Val (x, []) -> Exact (BObject ms) v x.
    Proof.
      intros Fl B D. destruct (object_fits _ _ _ _ _ B) as (k & c & attrs & subs & E & Ab & Rq & Po & Me & Fm & Ns & Nd & Nm).
      cbn [parse]. rewrite E, Ab. unfold parse_concrete. destruct v as [|b|z|q|s|l|kvs]; try discriminate.
      cbn [ad_object json_adapter json_object]. unfold check_model_type. rewrite Rq. cbn [obind].
      set (kvs' := filter (fun kv => negb (str_eqb (fst kv) (lit "modelType"))) kvs).
      assert (D' : forall k x, In (k, x) kvs' -> json_depth x < f).
      { intros k0 y I. apply filter_In in I. destruct I as [I _]. cbn [json_depth] in D.
        apply (list_max_map (fun kv => json_depth (snd kv))) in I. cbn [snd] in I. lia. }
      destruct (parse_attrs json (pa f) attrs kvs' p []) as [[xs r]|e] eqn:F; cbn [obind]; [|discriminate]. rewrite Po.
      intros H. assert (Hx : x = VObj (name_of api_classes c) xs) by (rewrite app_nil_r in H; congruence).
      assert (Hr : r = []) by (assert (Z : r ++ unknown_attrs json attrs kvs' p = []) by congruence; now apply app_eq_nil in Z). subst x r.
      split; [intros _ l; discriminate|]. cbn [CleanAttr]. rewrite (clean_obj good _ _ Me). rewrite (attrs_parts ms attrs kvs' p Fl Fm D' xs F).
      assert (L : forall n, In n (List.map fst ms) -> lookup n kvs' = lookup n kvs).
      { intros n I. assert (Hn : n <> lit "modelType") by congruence. unfold kvs'. clear -Hn. induction kvs as [|[k x] l IH]; [reflexivity|]. cbn [filter fst].
        destruct (str_eqb k (lit "modelType")) eqn:Q; cbn [negb].
        - apply str_eqb_spec in Q. subst k. rewrite IH. cbn [lookup]. destruct (str_eqb n (lit "modelType")) eqn:Q2;
            [apply str_eqb_spec in Q2; congruence|reflexivity].
        - cbn [lookup]. now rewrite IH. }
      split.
      - intros Q n w Pt. inversion Pt; subst. eapply Q; [eassumption| |eassumption]. rewrite L; [assumption|]. exact (in_map fst _ _ H2).
      - intros Q n r b v I Lv m w Pt. apply Q. econstructor; [exact I| |exact Pt]. rewrite <- L; [exact Lv|]. exact (in_map fst _ _ I).
    Qed.
  End Step.
  Theorem body_parts f : forall b i p v x, flat b = true -> bodyb b i = true -> json_depth v < f -> pa f i p v [] = Val (x, []) -> Exact b v x.
  Proof.
    induction f as [|f IH]; intros b i p v x Fl B D; [lia|]. destruct b as [| |l|b|ms|g|].
    - cbn [ApiBody.bodyb] in B. destruct (nth_error T i) as [[k t]|] eqn:E; [|discriminate]. destruct t; try discriminate.
      cbn [parse]. rewrite E. unfold parse_string. destruct v; cbn [ad_string json_adapter json_string]; try discriminate.
      intros [= <-]. apply exact_plain; try discriminate. intros n w P. inversion P.
    - cbn [ApiBody.bodyb] in B. destruct (nth_error T i) as [[k t]|] eqn:E; [|discriminate]. destruct t; try discriminate.
      cbn [parse]. rewrite E. intros [= <-]. apply exact_plain; try discriminate. intros n w P. inversion P.
    - cbn [ApiBody.bodyb] in B. destruct (nth_error T i) as [[k t]|] eqn:E; [|discriminate]. destruct t as [| | | | | |c|c|c attrs st subs|a e]; try discriminate.
      cbn [parse]. rewrite E. unfold parse_enum. destruct (ad_string _ v); try discriminate. destruct (kind_of api_classes c); try discriminate.
      destruct (find _ _); try discriminate. intros H. assert (X : exists a b c, x = VEnum a b c) by (assert (x = VEnum (name_of api_classes c) (fst p0) (snd p0)) by congruence; eauto).
      destruct X as (q1 & q2 & q3 & ->). apply exact_plain; try discriminate. intros n w P. inversion P.
    - cbn [ApiBody.bodyb] in B. destruct (nth_error T i) as [[k t]|] eqn:E; [|discriminate].
      destruct t as [| | | | | |c|c|c attrs st subs|a [|]]; try discriminate.
      assert (Fb : flat b = true) by (destruct b; try exact Fl; discriminate Fl).
      assert (NL : forall c, b <> BList c) by (intros c ->; discriminate Fl).
      cbn [parse]. rewrite E. unfold parse_list. destruct v; cbn [ad_list json_adapter json_list]; try discriminate.
      rewrite andb_false_r. cbn [json_depth] in D.
      destruct (parse_items json (pa f) a p 0 l []) as [[xs r]|] eqn:F; cbn [obind]; [|discriminate]. intros H.
      assert (x = VList xs /\ r = []) as [-> ->] by (split; congruence). split; [intros Z; now destruct (Z b)|]. cbn [CleanAttr].
      assert (Dl : forall y, In y l -> json_depth y < f) by (intros y I; apply (list_max_map json_depth) in I; lia).
      rewrite (items_parts f IH b a p l Fb NL B Dl 0 xs F).
      split; [intros Q n w Pt; inversion Pt; subst; eapply Q; eassumption|]. intros Q v I n w Pt. apply Q. econstructor; eassumption.
    - now apply object_parts; [| | |lia].
    - cbn [ApiBody.bodyb] in B. apply existsb_exists in B. destruct B as ([i' j] & I & B). cbn [fst snd] in B. apply andb_prop in B.
      destruct B as [B Fb]. apply Nat.eqb_eq in B. subst i'. pose proof (fitsb_ok _ _ _ string_types_ok _ _ Fb) as Ft.
      rewrite (parse_same T phi show repr H_same (S f) i j p v [] I). intros H.
      destruct (json_correct show repr (S f) j g p v [] Ft D) as (y & fs & E & C & K & _). cbn [app] in E. rewrite H in E.
      assert (y = x /\ fs = []) as [-> ->] by (split; congruence). specialize (K eq_refl). specialize (proj1 C eq_refl) as Co.
      destruct g as [t| | |l|n|g]; try discriminate Fl.
      + inversion K; subst. apply exact_plain; try discriminate. intros n w P. inversion P.
      + assert (In n part_classes) as In_n by now apply str_in_spec.
        assert (Lj : j < length model_table). { destruct (Nat.lt_ge_cases j (length model_table)) as [Lt|Ge]; [exact Lt|]. apply nth_error_None in Ge. cbn [parse] in H. rewrite Ge in H. discriminate. }
        pose proof (class_index n j In_n Fb Lj) as Ix.
        destruct (json_correct show repr (S (json_depth v)) j (GObj n) [] v [] Ft (Nat.lt_succ_diag_r _)) as (z & gs & E' & C' & _). cbn [app] in E'.
        apply C' in Co. subst gs. pose proof (parse_moves json (json_adapter show) model_classes model_table repr model_post_parse (S (json_depth v)) (S f) j [] p v z ltac:(lia) E') as M. rewrite H in M.
        assert (z = x) by congruence. subst z.
        assert (Mc : meta_check_json show repr n v = Val (x, [])) by (unfold meta_check_json; rewrite model_symbols_eq; cbn [obind]; rewrite Ix; exact E').
        assert (Xo : exists c kvs, x = VObj c kvs) by (inversion K; subst; eauto). destruct Xo as (c & kvs & ->).
        split; [discriminate|]. cbn [CleanAttr]. split.
        * intros Cl m w Pt. inversion Pt; subst. exists (VObj c kvs). auto.
        * intros Q. destruct (Q n v (Pt_model n v)) as (y & Ey & Cy). rewrite Mc in Ey. assert (y = VObj c kvs) by congruence. now subst y.
    - assert (Hr : bodyb (BObject reference_members) i = true).
      { clear IH. pose proof H_ref as Hr. unfold reference_ok in Hr. cbn [ApiBody.bodyb] in B. destruct ref as [j|]; [|discriminate]. apply Nat.eqb_eq in B. now subst j. }
      intros H. destruct (object_parts f IH reference_members i p v x) as [X1 X2]; [reflexivity|exact Hr|lia|exact H|].
      split; [intros _; apply X1; discriminate|]. rewrite X2. split; [intros Q n w Pt; inversion Pt; subst; auto|]. intros Q n w Pt. apply Q. now constructor.
  Qed.
End Parts.

(** * Verdicts on bodies *)
Definition top (b : body) : bool := match b with BList BText => true | BList _ => false | _ => true end.
Lemma bodies_flat : forallb (fun ab => flat (snd ab) && top (snd ab)) bodies = true.
Proof. vm_compute. reflexivity. Qed.
Definition fine (l : level) : Prop := l = INFO \/ l = WARNING.
Definition nothing (l : level) : Prop := l = INFO.
Lemma check_clean good (ok' : result -> Prop) x : (forall f, ok' (cfinding_result f) <-> good (cf_level f)) ->
  (exists cs, check_model x = Val cs /\ Forall ok' cs) <-> Clean good x.
Proof.
  intros H. rewrite <- clean_check. unfold check_model. destruct (check_constraints model_methods x []) as [fs|e]; cbn [obind].
  - split.
    + intros (cs & [= <-] & F). exists fs. split; [reflexivity|]. rewrite Forall_map in F. revert F. apply Forall_impl. intros f. apply H.
    + intros (gs & [= <-] & F). eexists. split; [reflexivity|]. rewrite Forall_map. revert F. apply Forall_impl. intros f. apply H.
  - split; intros (cs & Z & _); discriminate.
Qed.
Lemma fine_ok f : ok (cfinding_result f) = true <-> fine (cf_level f). Proof. apply cfinding_ok. Qed.
Lemma nothing_info f : r_level (cfinding_result f) = INFO <-> nothing (cf_level f). Proof. reflexivity. Qed.

(** the report of the check has nothing to remark *)
Definition Unremarked (o : outcome (result * pyval)) : Prop := exists rep x, o = Val (rep, x) /\ r_level rep = INFO.
Lemma level_or_info a b : level_or a b = INFO <-> a = INFO /\ b = INFO.
Proof. destruct a, b; cbn; split; intros H; try discriminate H; try destruct H; auto; discriminate. Qed.
Lemma appends_info r cs : r_level (appends r cs) = INFO <-> r_level r = INFO /\ Forall (fun c => r_level c = INFO) cs.
Proof.
  revert r. induction cs as [|c cs IH]; intros r; [cbn; split; [intros; split; [assumption|constructor]|now intros []]|].
  change (appends r (c :: cs)) with (appends (append r c) cs). rewrite IH, append_level, level_or_info, Forall_cons_iff. tauto.
Qed.
Lemma parse_and_check_info c o : Unremarked (parse_and_check c o) <->
  exists x cs, o = Val (x, []) /\ c x = Val cs /\ Forall (fun r => r_level r = INFO) cs.
Proof.
  unfold Unremarked, parse_and_check. destruct o as [[x fs]|e]; cbn [obind]; [|split; [intros (r & y & Z & _)|intros (x & cs & Z & _)]; discriminate].
  rewrite ok_append. unfold check_meta_model. rewrite ok_appends. change (ok (new_result (lit "Check") INFO)) with true. change (ok (new_result (lit "Check meta model") INFO)) with true. cbn [andb].
  destruct fs as [|f fs].
  - cbn [List.map forallb]. destruct (c x) as [cs|e] eqn:Ec; cbn [obind].
    + split.
      * intros (r & y & Z & K). apply val_pair in Z as [-> ->]. rewrite append_level, level_or_info, appends_info in K. destruct K as [_ [_ K]].
        exists x, cs. auto.
      * intros (y & cs' & [= <-] & Ec' & F). assert (cs' = cs) by congruence. subst cs'. eexists _, x. split; [reflexivity|].
        rewrite append_level, level_or_info, appends_info. repeat split. exact F.
    + split; [intros (r & y & Z & _); discriminate|]. intros (y & cs & [= <-] & Z & _). congruence.
  - cbn [List.map forallb]. change (ok (finding_result f)) with false. cbn [andb]. split.
    + intros (r & y & Z & K). apply val_pair in Z as [-> ->]. rewrite append_level, level_or_info in K. destruct K as [_ K]. discriminate.
    + intros (y & cs & Z & _). discriminate.
Qed.

Section Verdicts.
  Variable show : json -> str.
  Variable repr : str -> str.
  Lemma body_clean good a b j : In (a, b) bodies -> exists x fs,
    check_body show repr a j = parse_and_check check_model (Val (x, fs)) /\ (fs = [] <-> BodyOk b j) /\
    (fs = [] -> (Clean good x <-> forall n w, Part b j n w -> exists y, meta_check_json show repr n w = Val (y, []) /\ Clean good y)).
  Proof.
    intros I. pose proof (proj1 (forallb_forall _ _) bodies_checked _ I) as C. unfold checkb in C. cbn [fst snd] in C.
    pose proof (proj1 (forallb_forall _ _) bodies_flat _ I) as Fl. cbn [snd] in Fl. apply andb_prop in Fl as [Fl To].
    unfold check_body. destruct (reflect api_classes api_globals a) as [[i T]|]; [|discriminate]. cbn [obind].
    apply andb_prop in C. destruct C as [C Cb]. apply andb_prop in C. destruct C as [Cs Cr].
    destruct (body_correct T _ _ show repr Cs Cr (S (json_depth j)) b i [] j [] Cb (Nat.lt_succ_diag_r _)) as (x & fs & E & F & _).
    exists x, fs. cbn [app] in E. rewrite E. split; [reflexivity|]. split; [exact F|]. intros ->.
    destruct (body_parts T _ _ show repr Cs Cr good (S (json_depth j)) b i [] j x Fl Cb (Nat.lt_succ_diag_r _) E) as [X1 X2].
    destruct x as [| | | | | |l| | |]; try exact X2. destruct b as [| | |[]| | |]; try discriminate To; try (exfalso; eapply X1; [discriminate|reflexivity]).
    split; [|intros _; apply clean_other; discriminate]. intros _ n w P. inversion P as [|? ? ? ? ? _ P'| |]; subst. inversion P'.
  Qed.
  Theorem accepts_exact a b j : In (a, b) bodies ->
    (Accepts show repr a j <-> BodyOk b j /\ forall n w, Part b j n w -> Accepted (check_json show repr n w)).
  Proof.
    intros I. destruct (body_clean fine a b j I) as (x & fs & E & F & C). unfold Accepts. rewrite E. fold (Accepted (parse_and_check check_model (Val (x, fs)))).
    rewrite parse_and_check_ok. split.
    - intros (y & cs & E1 & E2 & E3). assert (y = x /\ fs = []) as [-> ->] by (split; congruence). split; [now apply F|]. intros n w P.
      assert (Cx : Clean fine x) by (apply (check_clean fine (fun r => ok r = true) x fine_ok); eauto). destruct (proj1 (C eq_refl) Cx n w P) as (y & M & Cy).
      apply parse_and_check_ok. apply (check_clean fine (fun r => ok r = true) y fine_ok) in Cy as (cs' & D1 & D2). eauto.
    - intros [B Q]. apply F in B. subst fs. specialize (C eq_refl).
      assert (Cx : Clean fine x).
      { apply C. intros n w P. specialize (Q n w P). apply parse_and_check_ok in Q as (y & cs & M & D1 & D2). exists y. split; [exact M|]. apply (check_clean fine (fun r => ok r = true) y fine_ok). eauto. }
      apply (check_clean fine (fun r => ok r = true) x fine_ok) in Cx as (cs & D1 & D2). eauto.
  Qed.
  Theorem spotless_exact a b j : In (a, b) bodies ->
    (Spotless show repr a j <-> BodyOk b j /\ forall n w, Part b j n w -> Unremarked (check_json show repr n w)).
  Proof.
    intros I. destruct (body_clean nothing a b j I) as (x & fs & E & F & C). unfold Spotless. rewrite E. fold (Unremarked (parse_and_check check_model (Val (x, fs)))).
    rewrite parse_and_check_info. split.
    - intros (y & cs & E1 & E2 & E3). assert (y = x /\ fs = []) as [-> ->] by (split; congruence). split; [now apply F|]. intros n w P.
      assert (Cx : Clean nothing x) by (apply (check_clean nothing (fun r => r_level r = INFO) x nothing_info); eauto). destruct (proj1 (C eq_refl) Cx n w P) as (y & M & Cy).
      apply parse_and_check_info. apply (check_clean nothing (fun r => r_level r = INFO) y nothing_info) in Cy as (cs' & D1 & D2). eauto.
    - intros [B Q]. apply F in B. subst fs. specialize (C eq_refl).
      assert (Cx : Clean nothing x).
      { apply C. intros n w P. specialize (Q n w P). apply parse_and_check_info in Q as (y & cs & M & D1 & D2). exists y. split; [exact M|]. apply (check_clean nothing (fun r => r_level r = INFO) y nothing_info). eauto. }
      apply (check_clean nothing (fun r => r_level r = INFO) x nothing_info) in Cx as (cs & D1 & D2). eauto.
  Qed.
End Verdicts.
