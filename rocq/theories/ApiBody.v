(** The check of the body of a response. *)
From Coq Require Import PeanoNat Lia String List NArith ZArith Bool.
From Verif Require Import PyStr PyStrFacts PyBase PyVal ResultModel ReflectModel ReflectFacts MetaModel AdapterModel ParseModel MetaSpec MetaFacts
  ConstraintModel ParseSpec ParseFacts ParseFacts2 ParseFacts3 ParseFacts4 ApiModel ApiSpec.
Import ListNotations.
Local Open Scope nat_scope.
Local Open Scope list_scope.
Local Opaque model_classes aas_v3_0_checked model_table.

(** * The same types in two tables *)
Section Same.
  Variable T : table.
  Variable phi : list (nat * nat).     (* positions of the same type in [T] and [model_table] *)

  Definition pairb (i j : nat) : bool := existsb (fun p => Nat.eqb (fst p) i && Nat.eqb (snd p) j) phi.
  Lemma pairb_In i j : pairb i j = true -> In (i, j) phi.
  Proof.
    unfold pairb. rewrite existsb_exists. intros ([a b] & I & E). cbn [fst snd] in E. apply andb_prop in E. destruct E as [E F].
    apply Nat.eqb_eq in E, F. now subst.
  Qed.
  Definition force_eqb (a b : option str) : bool :=
    match a, b with Some x, Some y => str_eqb x y | None, None => true | _, _ => false end.
  Definition attr_sameb (a b : attribute nat) : bool :=
    str_eqb (a_name a) (a_name b) && Bool.eqb (a_required a) (a_required b) && force_eqb (a_force a) (a_force b)
    && pairb (a_type a) (a_type b).
  Definition AttrSame (a b : attribute nat) : Prop :=
    a_name a = a_name b /\ a_required a = a_required b /\ a_force a = a_force b /\ In (a_type a, a_type b) phi.
  Lemma attr_sameb_ok a b : attr_sameb a b = true -> AttrSame a b.
  Proof.
    unfold attr_sameb, AttrSame. intros E. apply andb_prop in E. destruct E as [E E4]. apply andb_prop in E. destruct E as [E E3].
    apply andb_prop in E. destruct E as [E1 E2]. apply str_eqb_spec in E1. apply eqb_prop in E2. apply pairb_In in E4.
    repeat split; auto. destruct (a_force a), (a_force b); cbn in E3; try discriminate; auto. apply str_eqb_spec in E3. now subst.
  Qed.
  Fixpoint all2b {A B} (f : A -> B -> bool) (l : list A) (m : list B) : bool :=
    match l, m with
    | [], [] => true
    | a :: l', b :: m' => f a b && all2b f l' m'
    | _, _ => false
    end.
  Lemma all2b_ok {A B} (f : A -> B -> bool) (R : A -> B -> Prop) : (forall a b, f a b = true -> R a b) ->
    forall l m, all2b f l m = true -> Forall2 R l m.
  Proof.
    intros H. induction l as [|a l IH]; intros [|b m]; cbn; try discriminate; [constructor|]. intros E. apply andb_prop in E.
    destruct E. constructor; auto.
  Qed.
  Definition static_sameb (a b : str * pyval) : bool :=
    str_eqb (fst a) (fst b) && match snd a, snd b with VNone, VNone => true | _, _ => false end.
  Definition known_class (c : nat) : bool :=
    Nat.ltb c (length model_classes) && Bool.eqb (has_requires_model_type api_classes c) (has_requires_model_type model_classes c).
  Definition entry_sameb (t u : rtype nat) : bool :=
    match t, u with
    | RString, RString | RBool, RBool | RAny, RAny => true
    | REnum c, REnum d | RSfv c, RSfv d => Nat.eqb c d && Nat.ltb c (length model_classes)
    | RList a e, RList b f => Bool.eqb e f && pairb a b
    | RClass c attrs st subs, RClass d attrs' st' subs' =>
        Nat.eqb c d && known_class c && all2b attr_sameb attrs attrs' && all2b static_sameb st st' && all2b pairb subs subs'
    | _, _ => false
    end.
  Definition sameb : bool :=
    forallb (fun p => match nth_error T (fst p), nth_error model_table (snd p) with
                      | Some (_, t), Some (_, u) => entry_sameb t u
                      | _, _ => false
                      end) phi.

  Lemma class_same c : Nat.ltb c (length model_classes) = true -> class_of api_classes c = class_of model_classes c.
  Proof. intros H. apply Nat.ltb_lt in H. unfold class_of, api_classes. now apply nth_error_app1. Qed.
  Lemma names_same c : Nat.ltb c (length model_classes) = true -> name_of api_classes c = name_of model_classes c.
  Proof. intros H. unfold name_of. now rewrite class_same. Qed.
  Lemma kinds_same c : Nat.ltb c (length model_classes) = true -> kind_of api_classes c = kind_of model_classes c.
  Proof. intros H. unfold kind_of. now rewrite class_same. Qed.
  Lemma abstract_same c : Nat.ltb c (length model_classes) = true -> is_abstract api_classes c = is_abstract model_classes c.
  Proof. intros H. unfold is_abstract. now rewrite class_same. Qed.

  Section Parse.
    Variable show : json -> str.
    Variable repr : str -> str.
    Hypothesis H : sameb = true.
    Notation pa := (parse json (json_adapter show) api_classes T repr model_post_parse).
    Notation pm := (parse json (json_adapter show) model_classes model_table repr model_post_parse).

    Lemma same_entry i j : In (i, j) phi -> exists k t k' u, nth_error T i = Some (k, t) /\ nth_error model_table j = Some (k', u) /\
      entry_sameb t u = true.
    Proof.
      intros I. pose proof (proj1 (forallb_forall _ _) H _ I) as E. cbn [fst snd] in E.
      destruct (nth_error T i) as [[k t]|]; [|discriminate]. destruct (nth_error model_table j) as [[k' u]|]; [|discriminate].
      exists k, t, k', u. auto.
    Qed.
    Definition Class_same (x y : nat * list (attribute nat) * list (str * pyval)) : Prop :=
      let '(c, attrs, st) := x in let '(d, attrs', st') := y in
      c = d /\ known_class c = true /\ Forall2 AttrSame attrs attrs' /\ st = st'.
    Lemma class_entry c attrs st subs d attrs' st' subs' : entry_sameb (RClass c attrs st subs) (RClass d attrs' st' subs') = true ->
      Class_same (c, attrs, st) (d, attrs', st') /\ Forall2 (fun a b => In (a, b) phi) subs subs'.
    Proof.
      cbn [entry_sameb]. intros E. apply andb_prop in E. destruct E as [E E5]. apply andb_prop in E. destruct E as [E E4].
      apply andb_prop in E. destruct E as [E E3]. apply andb_prop in E. destruct E as [E1 E2].
      split; [split; [now apply Nat.eqb_eq|split; [exact E2|split]]|].
      - eapply all2b_ok; [|exact E3]. apply attr_sameb_ok.
      - apply (all2b_ok _ eq) in E4.
        + induction E4; congruence.
        + intros [n x] [m y]. unfold static_sameb. cbn [fst snd]. intros F. apply andb_prop in F. destruct F as [F G].
          apply str_eqb_spec in F. destruct x, y; try discriminate. now subst.
      - eapply all2b_ok; [|exact E5]. apply pairb_In.
    Qed.
    Lemma find_same n subs subs' : Forall2 (fun a b => In (a, b) phi) subs subs' ->
      match find_subclass api_classes T n subs, find_subclass model_classes model_table n subs' with
      | Some x, Some y => Class_same x y
      | None, None => True
      | _, _ => False
      end.
    Proof.
      induction 1 as [|a b l m I _ IH]; cbn [find_subclass]; [exact Logic.I|].
      destruct (same_entry a b I) as (k & t & k' & u & E1 & E2 & S). rewrite E1, E2.
      destruct t, u; try discriminate S; try exact IH.
      destruct (class_entry _ _ _ _ _ _ _ _ S) as [C _]. destruct C as (<- & K & Fa & <-).
      assert (K' := K). unfold known_class in K'. apply andb_prop in K'. destruct K' as [K' _]. rewrite (names_same _ K').
      destruct (match n with Some n0 => _ | None => false end); [|exact IH]. cbn [Class_same]. auto.
    Qed.

    Section Step.
      Variable f : nat.
      Hypothesis IH : forall i j p v r, In (i, j) phi -> pa f i p v r = pm f j p v r.
      Lemma items_same i j p l : In (i, j) phi -> forall k r,
        parse_items json (pa f) i p k l r = parse_items json (pm f) j p k l r.
      Proof.
        intros I. induction l as [|v l IHl]; intros k r; cbn [parse_items]; [reflexivity|]. rewrite (IH i j) by exact I.
        destruct (pm f j (p ++ [SIdx k]) v r) as [[x r']|]; cbn [obind]; [|reflexivity]. now rewrite IHl.
      Qed.
      Lemma attrs_same attrs attrs' obj p : Forall2 AttrSame attrs attrs' -> forall r,
        parse_attrs json (pa f) attrs obj p r = parse_attrs json (pm f) attrs' obj p r.
      Proof.
        induction 1 as [|a b l m (N & R & F & I) _ IHl]; intros r; cbn [parse_attrs]; [reflexivity|].
        assert (J : json_name a = json_name b) by (unfold json_name; now rewrite F, N). rewrite J, R, N.
        destruct (lookup (json_name b) obj) as [v|].
        - rewrite (IH _ _ _ _ _ I). destruct (pm f (a_type b) _ v r) as [[x r']|]; cbn [obind]; [|reflexivity]. now rewrite IHl.
        - destruct (if a_required b then _ else _) as [[x r']|]; cbn [obind]; [|reflexivity]. now rewrite IHl.
      Qed.
      Lemma unknown_same attrs attrs' (obj : list (str * json)) p : Forall2 AttrSame attrs attrs' ->
        unknown_attrs json attrs obj p = unknown_attrs json attrs' obj p.
      Proof.
        intros F. unfold unknown_attrs. replace (List.map json_name attrs') with (List.map json_name attrs); [reflexivity|].
        induction F as [|a b l m (N & R & G & I) _ IHl]; [reflexivity|]. cbn [List.map]. rewrite IHl. f_equal. unfold json_name. now rewrite G, N.
      Qed.
      Lemma concrete_same c attrs st d attrs' st' p v r : Class_same (c, attrs, st) (d, attrs', st') ->
        parse_concrete json (json_adapter show) api_classes (pa f) c attrs st p v r =
        parse_concrete json (json_adapter show) model_classes (pm f) d attrs' st' p v r.
      Proof.
        intros (<- & K & Fa & <-). unfold known_class in K. apply andb_prop in K. destruct K as [K R]. apply eqb_prop in R.
        unfold parse_concrete, check_model_type. rewrite R, (names_same _ K).
        destruct (ad_object (json_adapter show) v) as [obj|m|e]; try reflexivity.
        destruct (if has_requires_model_type model_classes c then _ else _) as [r'|]; cbn [obind]; [|reflexivity].
        rewrite (attrs_same _ _ _ _ Fa). destruct (parse_attrs json (pm f) attrs' obj p r') as [[xs r'']|]; cbn [obind]; [|reflexivity].
        now rewrite (unknown_same _ _ _ _ Fa).
      Qed.
    End Step.

    Lemma parse_same f : forall i j p v r, In (i, j) phi -> pa f i p v r = pm f j p v r.
    Proof.
      induction f as [|f IH]; intros i j p v r I; [reflexivity|]. cbn [parse].
      destruct (same_entry i j I) as (k & t & k' & u & E1 & E2 & S). rewrite E1, E2.
      destruct t as [| | | | | |c|c|c attrs st subs|a e], u as [| | | | | |d|d|d attrs' st' subs'|b e']; try discriminate S; try reflexivity.
      - cbn [entry_sameb] in S. apply andb_prop in S. destruct S as [S L]. apply Nat.eqb_eq in S. subst d.
        unfold parse_enum. now rewrite (kinds_same _ L), (names_same _ L).
      - cbn [entry_sameb] in S. apply andb_prop in S. destruct S as [S L]. apply Nat.eqb_eq in S. subst d.
        unfold parse_sfv. now rewrite (kinds_same _ L), (names_same _ L).
      - destruct (class_entry _ _ _ _ _ _ _ _ S) as [C Fs]. assert (C' := C). destruct C' as (<- & K & _).
        unfold known_class in K. apply andb_prop in K. destruct K as [K _]. rewrite (abstract_same _ K).
        destruct (is_abstract model_classes c).
        + unfold parse_abstract. destruct (ad_model_type (json_adapter show) v) as [m|m|e]; try reflexivity.
          pose proof (find_same (mt_name m) subs subs' Fs) as Q.
          destruct (find_subclass api_classes T (mt_name m) subs) as [[[c1 a1] s1]|], (find_subclass model_classes model_table (mt_name m) subs') as [[[c2 a2] s2]|];
            try destruct Q; try reflexivity. apply (concrete_same f IH). now split.
        + now rewrite (concrete_same f IH _ _ _ _ _ _ p v r C).
      - cbn [entry_sameb] in S. apply andb_prop in S. destruct S as [S L]. apply eqb_prop in S. subst e'. apply pairb_In in L.
        unfold parse_list. destruct (ad_list (json_adapter show) e v) as [l|m|x]; try reflexivity. now rewrite (items_same f IH a b p l L).
    Qed.
  End Parse.
End Same.

(** * Bodies *)
Definition cc := ConstraintModel.check_constraints model_methods.
(** nothing is checked below the value *)
Definition Calm (x : pyval) : Prop := (forall p, cc x p = Val []) /\ forall l, x = VList l -> Forall (fun y => forall p, cc y p = Val []) l.
Fixpoint quiet (b : body) : bool :=
  match b with
  | BText | BAny | BEnum _ => true
  | BList b => quiet b
  | BObject ms => forallb (fun m => quiet (snd (snd m))) ms
  | BModel _ | BReference => false
  end.

(** the object carries the content of the body *)
Inductive Bears : body -> json -> pyval -> Prop :=
| Be_text s : Bears BText (JStr s) (VStr s)
| Be_any j : Bears BAny j VAny
| Be_enum l s k m : Bears (BEnum l) (JStr s) (VEnum k m s)
| Be_list b l xs : Forall2 (Bears b) l xs -> Bears (BList b) (JArr l) (VList xs)
| Be_object ms kvs k attrs :
    (forall n r b, In (n, (r, b)) ms -> lookup n kvs = None -> lookup (snake_case n) attrs = Some VNone) ->
    (forall n r b x, In (n, (r, b)) ms -> lookup n kvs = Some x -> exists y, lookup (snake_case n) attrs = Some y /\ Bears b x y) ->
    Bears (BObject ms) (JObj kvs) (VObj k attrs)
| Be_model g j x : Carries json_view aas_v3_0_checked g j x -> Bears (BModel g) j x
| Be_reference j x : Bears (BObject reference_members) j x -> Bears BReference j x.

Section Bodies.
  Variable T : table.
  Variable phi : list (nat * nat).
  Variable ref : option nat.

  Fixpoint bodyb (b : body) (i : nat) {struct b} : bool :=
    match b with
    | BText => match nth_error T i with Some (_, RString) => true | _ => false end
    | BAny => match nth_error T i with Some (_, RAny) => true | _ => false end
    | BEnum l => match nth_error T i with
                 | Some (_, REnum c) => match kind_of api_classes c with KEnum ms => strs_eqb (List.map snd ms) l | _ => false end
                 | _ => false
                 end
    | BList b => match nth_error T i with Some (_, RList j true) => bodyb b j | _ => false end
    | BObject ms =>
        match nth_error T i with
        | Some (_, RClass c attrs st _) =>
            negb (is_abstract api_classes c) && negb (has_requires_model_type api_classes c)
            && match model_post_parse (name_of api_classes c) with None => true | _ => false end
            && match model_methods (name_of api_classes c) with [] => true | _ => false end
            && match st with [] => true | _ => false end
            && (fix go (ms : list (str * (bool * body))) (attrs : list (attribute nat)) : bool :=
                  match ms, attrs with
                  | [], [] => true
                  | (n, (r, b)) :: ms', a :: attrs' =>
                      str_eqb (json_name a) n && Bool.eqb (a_required a) r && str_eqb (a_name a) (snake_case n)
                      && bodyb b (a_type a) && go ms' attrs'
                  | _, _ => false
                  end) ms attrs
            && nodupb (List.map (fun m => snake_case (fst m)) ms) && nodupb (List.map fst ms) && negb (str_in (lit "modelType") (List.map fst ms))
        | _ => false
        end
    | BModel g => existsb (fun p => Nat.eqb (fst p) i && fitsb model_classes model_table string_types (snd p) g) phi
    | BReference => match ref with Some j => Nat.eqb i j | None => false end
    end.
  Definition reference_ok : bool := match ref with Some j => bodyb (BObject reference_members) j | None => true end.

  Variable show : json -> str.
  Variable repr : str -> str.
  Hypothesis H_same : sameb T phi = true.
  Hypothesis H_ref : reference_ok = true.
  Notation pa := (parse json (json_adapter show) api_classes T repr model_post_parse).

  Definition BodyCorrect (b : body) (v : json) (r : list finding) (o : outcome (pyval * list finding)) : Prop :=
    exists x fs, o = Val (x, r ++ fs) /\ (fs = [] <-> BodyOk b v) /\ (quiet b = true -> Calm x) /\ (fs = [] -> Bears b v x).

  Definition MemberFits (m : str * (bool * body)) (a : attribute nat) : Prop :=
    json_name a = fst m /\ a_required a = fst (snd m) /\ a_name a = snake_case (fst m) /\ bodyb (snd (snd m)) (a_type a) = true.

  Lemma object_fits ms i : bodyb (BObject ms) i = true -> exists k c attrs subs, nth_error T i = Some (k, RClass c attrs [] subs) /\
    is_abstract api_classes c = false /\ has_requires_model_type api_classes c = false /\
    model_post_parse (name_of api_classes c) = None /\ model_methods (name_of api_classes c) = [] /\
    Forall2 MemberFits ms attrs /\ NoDup (List.map (fun m => snake_case (fst m)) ms) /\ NoDup (List.map fst ms) /\ ~ In (lit "modelType") (List.map fst ms).
  Proof.
    cbn [bodyb]. destruct (nth_error T i) as [[k [| | | | | |c|c|c attrs st subs|a e]]|]; try discriminate. intros E.
    apply andb_prop in E. destruct E as [E E8]. apply andb_prop in E. destruct E as [E E7]. apply andb_prop in E. destruct E as [E E9]. apply andb_prop in E. destruct E as [E E6].
    apply andb_prop in E. destruct E as [E E5]. apply andb_prop in E. destruct E as [E E4]. apply andb_prop in E. destruct E as [E E3].
    apply andb_prop in E. destruct E as [E1 E2]. apply negb_true_iff in E1, E2, E8.
    exists k, c, attrs, subs. destruct st; [|discriminate]. split; [reflexivity|]. split; [exact E1|]. split; [exact E2|].
    split; [destruct (model_post_parse _); [discriminate|reflexivity]|]. split; [destruct (model_methods _); [reflexivity|discriminate]|].
    split; [|split; [|split]].
    - clear -E6. revert attrs E6. induction ms as [|[n [r b]] ms IH]; intros [|a attrs]; try discriminate; [constructor|]. intros E.
      apply andb_prop in E. destruct E as [E E4]. apply andb_prop in E. destruct E as [E E3]. apply andb_prop in E. destruct E as [E E5].
      apply andb_prop in E. destruct E as [E1 E2]. apply str_eqb_spec in E1, E5. apply eqb_prop in E2. constructor; [|apply IH, E4]. now repeat split.
    - now apply nodupb_spec.
    - now apply nodupb_spec.
    - intros I. apply str_in_spec in I. congruence.
  Qed.

  Lemma calm_obj n xs : model_methods n = [] -> Forall (fun kx => Calm (snd kx)) xs -> Calm (VObj n xs).
  Proof.
    intros M F. split; [|discriminate]. intros p. unfold cc. cbn [ConstraintModel.check_constraints]. rewrite M. cbn [run_methods obind].
    match goal with |- (let* rest := ?g xs in _) = _ => set (go := g) end.
    assert (E : go xs = Val []); [|now rewrite E].
    induction F as [|[k x] xs [C L] F IH]; [reflexivity|]. cbn [snd] in *. unfold go. cbn fix match beta. fold go. rewrite IH.
    destruct x as [| | | | | |l| | |]; try (cbn [obind]; specialize (C (p ++ [SKey k])); unfold cc in C; rewrite C; reflexivity).
    specialize (L l eq_refl). match goal with |- (let* a := ?g 0 l in _) = _ => set (gi := g) end.
    assert (E : forall i, gi i l = Val []).
    { clear -L. induction L as [|y l Cy L IH]; intros i; [reflexivity|]. unfold gi. cbn fix match beta. fold gi.
      specialize (Cy (p ++ [SKey k; SIdx i])). unfold cc in Cy. rewrite Cy. cbn [obind]. now rewrite IH. }
    now rewrite E.
  Qed.

  Section Step.
    Variable f : nat.
    Hypothesis IH : forall b i p v r, bodyb b i = true -> json_depth v < f -> BodyCorrect b v r (pa f i p v r).

    Lemma items_body b i p l : bodyb b i = true -> (forall x, In x l -> json_depth x < f) -> forall k r,
      exists xs fs, parse_items json (pa f) i p k l r = Val (xs, r ++ fs) /\ (fs = [] <-> forall x, In x l -> BodyOk b x) /\
        (quiet b = true -> Forall (fun y => forall p, cc y p = Val []) xs) /\ (fs = [] -> Forall2 (Bears b) l xs).
    Proof.
      intros B. induction l as [|v l IHl]; intros D k r; cbn [parse_items].
      - exists [], []. rewrite app_nil_r. split; [reflexivity|]. split; [split; [intros _ x []|reflexivity]|split; constructor].
      - destruct (IH b i (p ++ [SIdx k]) v r B (D v (or_introl eq_refl))) as (x & fs & E & C & Q & H). rewrite E. cbn [obind].
        destruct (IHl (fun x I => D x (or_intror I)) (S k) (r ++ fs)) as (xs & fs' & E' & C' & Q' & H'). rewrite E'. cbn [obind].
        exists (x :: xs), (fs ++ fs'). rewrite app_assoc. split; [reflexivity|]. split; [|split].
        + rewrite app_nil_iff, C, C'. split; [intros [A A'] y [<-|I]; auto|]. intros A. split; [apply A; now left|intros y I; apply A; now right].
        + intros q. constructor; [apply (Q q)|auto].
        + intros Z. apply app_nil_iff in Z. destruct Z. constructor; auto.
    Qed.

    Lemma attrs_body ms attrs kvs p : Forall2 MemberFits ms attrs -> (forall k x, In (k, x) kvs -> json_depth x < f) -> forall r,
      exists xs fs, parse_attrs json (pa f) attrs kvs p r = Val (xs, r ++ fs) /\
        (fs = [] <-> Forall (fun m => match lookup (fst m) kvs with
                                      | Some x => BodyOk (snd (snd m)) x
                                      | None => fst (snd m) = false
                                      end) ms) /\
        (forallb (fun m => quiet (snd (snd m))) ms = true -> Forall (fun kx => Calm (snd kx)) xs) /\
        (fs = [] -> Forall2 (fun m kx => fst kx = snake_case (fst m) /\
           match lookup (fst m) kvs with Some y => Bears (snd (snd m)) y (snd kx) | None => snd kx = VNone end) ms xs).
    Proof.
      induction 1 as [|m a ms attrs (N & R & A & B) _ IHl]; intros D r; cbn [parse_attrs].
      - exists [], []. rewrite app_nil_r. split; [reflexivity|]. split; [split; [constructor|reflexivity]|split; constructor].
      - rewrite N, R.
        assert (X : exists x fs, (match lookup (fst m) kvs with
                         | Some v => pa f (a_type a) (p ++ [SKey (fst m)]) v r
                         | None => if fst (snd m) then refuse (lit "Missing attribute " ++ fst m) p r else Val (VNone, r)
                         end) = Val (x, r ++ fs) /\
                  (fs = [] <-> match lookup (fst m) kvs with Some x => BodyOk (snd (snd m)) x | None => fst (snd m) = false end) /\
                  (quiet (snd (snd m)) = true -> Calm x) /\
                  (fs = [] -> match lookup (fst m) kvs with Some y => Bears (snd (snd m)) y x | None => x = VNone end)).
        { destruct (lookup (fst m) kvs) as [v|] eqn:L.
          - destruct (IH _ _ (p ++ [SKey (fst m)]) v r B (D _ _ (lookup_In _ _ _ L))) as (x & fs & E & C & Q & H). exists x, fs. auto.
          - destruct (fst (snd m)).
            + unfold refuse. eexists VInvalid, [_]. split; [reflexivity|]. split; [split; discriminate|]. split; [|discriminate]. intros _. split; [reflexivity|discriminate].
            + exists VNone, []. rewrite app_nil_r. split; [reflexivity|]. split; [tauto|]. split; [|reflexivity]. intros _. split; [reflexivity|discriminate]. }
        destruct X as (x & fs & E & C & Q & H). rewrite E. cbn [obind].
        destruct (IHl D (r ++ fs)) as (xs & fs' & E' & C' & Q' & H'). rewrite E'. cbn [obind].
        exists ((a_name a, x) :: xs), (fs ++ fs'). rewrite app_assoc. split; [reflexivity|]. split; [|split].
        + rewrite app_nil_iff, C, C', Forall_cons_iff. reflexivity.
        + cbn [forallb]. intros q. apply andb_prop in q. destruct q. constructor; auto.
        + intros Z. apply app_nil_iff in Z. destruct Z as [Z Z']. constructor; [cbn [fst snd]; split; [exact A|exact (H Z)]|auto].
    Qed.

    Lemma object_body ms i p v r : bodyb (BObject ms) i = true -> json_depth v <= f -> BodyCorrect (BObject ms) v r (pa (S f) i p v r).
    Proof.
      intros B D. destruct (object_fits _ _ B) as (k & c & attrs & subs & E & Ab & Rq & Po & Me & Fm & Ns & Nd & Nm).
      cbn [parse]. rewrite E, Ab. unfold parse_concrete. destruct v as [|b|z|q|s|l|kvs].
      1-6: (cbn [ad_object json_adapter json_object]; unfold refuse; cbn [obind]; eexists VInvalid, [_]; split; [reflexivity|];
            split; [split; [discriminate|intros X; inversion X]|split; [intros _; split; [reflexivity|discriminate]|discriminate]]).
      cbn [ad_object json_adapter json_object]. unfold check_model_type. rewrite Rq. cbn [obind].
      set (kvs' := filter (fun kv => negb (str_eqb (fst kv) (lit "modelType"))) kvs).
      assert (D' : forall k x, In (k, x) kvs' -> json_depth x < f).
      { intros k0 x I. apply filter_In in I. destruct I as [I _]. cbn [json_depth] in D.
        apply (list_max_map (fun kv => json_depth (snd kv))) in I. cbn [snd] in I. lia. }
      destruct (attrs_body ms attrs kvs' p Fm D' r) as (xs & fs & E1 & C1 & Q1 & H1). rewrite E1. cbn [obind]. rewrite Po.
      exists (VObj (name_of api_classes c) xs), (fs ++ unknown_attrs json attrs kvs' p). rewrite app_nil_r, <- app_assoc. split; [reflexivity|].
      assert (L : forall n, n <> lit "modelType" -> lookup n kvs' = lookup n kvs).
      { intros n Hn. unfold kvs'. clear -Hn. induction kvs as [|[k x] l IH]; [reflexivity|]. cbn [filter fst].
        destruct (str_eqb k (lit "modelType")) eqn:Q; cbn [negb].
        - apply str_eqb_spec in Q. subst k. rewrite IH. cbn [lookup]. destruct (str_eqb n (lit "modelType")) eqn:Q2;
            [apply str_eqb_spec in Q2; congruence|reflexivity].
        - cbn [lookup]. now rewrite IH. }
      split; [|split].
      - assert (Names : List.map json_name attrs = List.map fst ms) by (clear -Fm; induction Fm as [|m a ms attrs (N & _) _ IH]; cbn [List.map]; congruence).
        rewrite app_nil_iff, C1. split.
        + intros [F U]. constructor.
          * intros k0 I. destruct (str_eqb k0 (lit "modelType")) eqn:Q; [left; now apply str_eqb_spec|right].
            apply in_map_iff in I. destruct I as ([k1 x] & <- & I). cbn [fst] in *.
            destruct (str_in k1 (List.map fst ms)) eqn:S; [now apply str_in_spec|]. exfalso.
            unfold unknown_attrs in U. apply map_eq_nil in U.
            apply (@in_nil (str * json) (k1, x)). apply (eq_ind _ (fun l => In (k1, x) l)) with (2 := U). apply filter_In. cbn [fst]. rewrite Names, S. split; [|reflexivity].
            apply filter_In. cbn [fst]. now rewrite Q.
          * intros n b I. rewrite Forall_forall in F. specialize (F _ I). cbn [fst snd] in F. rewrite L in F.
            -- destruct (lookup n kvs); [discriminate|discriminate F].
            -- intros ->. apply Nm. exact (in_map fst _ _ I).
          * intros n q b x I Lx. rewrite Forall_forall in F. specialize (F _ I). cbn [fst snd] in F. rewrite L, Lx in F; [exact F|].
            intros ->. apply Nm. exact (in_map fst _ _ I).
        + intros X. inversion X as [| | | |ms' kvs0 K1 K2 K3| |]; subst. split.
          * apply Forall_forall. intros [n [q b]] I. cbn [fst snd]. rewrite L by (intros ->; apply Nm; exact (in_map fst _ _ I)).
            destruct (lookup n kvs) as [x|] eqn:Lx; [eapply K3; eauto|]. destruct q; [|reflexivity]. exfalso. exact (K2 n b I Lx).
          * unfold unknown_attrs. rewrite Names. replace (filter _ kvs') with (@nil (str * json)); [reflexivity|]. symmetry.
            destruct (filter _ kvs') as [|[k0 x] rest] eqn:Fl; [reflexivity|]. exfalso.
            assert (I : In (k0, x) ((k0, x) :: rest)) by now left. rewrite <- Fl in I. apply filter_In in I. destruct I as [I S]. cbn [fst] in S.
            apply filter_In in I. destruct I as [I Q]. cbn [fst] in Q. apply negb_true_iff in S, Q.
            destruct (K1 k0 (in_map fst _ _ I)) as [->|Z].
            -- rewrite (proj2 (str_eqb_spec _ _) eq_refl) in Q. discriminate.
            -- apply str_in_spec in Z. congruence.
      - cbn [quiet]. intros q. apply calm_obj; auto.
      - intros Z. apply app_nil_iff in Z. destruct Z as [Z _]. specialize (H1 Z).
        assert (K : forall n r b, In (n, (r, b)) ms -> exists y, lookup (snake_case n) xs = Some y /\
          match lookup n kvs with Some x => Bears b x y | None => y = VNone end).
        { intros n r0 b I. rewrite <- L by (intros ->; apply Nm; exact (in_map fst _ _ I)). clear -H1 Ns I.
          induction H1 as [|m [k x] ms xs [K V] F IH]; [destruct I|]. cbn [fst snd List.map] in *. subst k. apply NoDup_cons_iff in Ns. destruct Ns as [N1 N2].
          cbn [lookup]. destruct I as [->|I].
          - cbn [fst snd] in *. rewrite (proj2 (str_eqb_spec _ _) eq_refl). eauto.
          - destruct (str_eqb (snake_case n) (snake_case (fst m))) eqn:Q; [|auto]. apply str_eqb_spec in Q. exfalso. apply N1. rewrite <- Q.
            exact (in_map (fun m => snake_case (fst m)) _ _ I). }
        constructor.
        + intros n r0 b I N. destruct (K n r0 b I) as (y & Y & M). rewrite N in M. now subst y.
        + intros n r0 b x I N. destruct (K n r0 b I) as (y & Y & M). rewrite N in M. eauto.
    Qed.
  End Step.

  Theorem body_correct f : forall b i p v r, bodyb b i = true -> json_depth v < f -> BodyCorrect b v r (pa f i p v r).
  Proof.
    induction f as [|f IH]; intros b i p v r B D; [lia|].
    assert (NC : forall m, BodyOk b v -> False -> BodyCorrect b v r (refuse m p r)) by tauto.
    assert (Refuse : forall m, ~ BodyOk b v -> BodyCorrect b v r (refuse m p r)).
    { intros m N. unfold refuse. eexists VInvalid, [_]. split; [reflexivity|]. split; [split; [discriminate|tauto]|]. split; [|discriminate].
      intros _. split; [reflexivity|discriminate]. }
    destruct b as [| |l|b|ms|g|].
    - cbn [bodyb] in B. destruct (nth_error T i) as [[k t]|] eqn:E; [|discriminate]. destruct t; try discriminate.
      cbn [parse]. rewrite E. unfold parse_string. destruct v; cbn [ad_string json_adapter json_string]; try (apply Refuse; intros X; now inversion X).
      exists (VStr s), []. rewrite app_nil_r. split; [reflexivity|]. split; [split; [constructor|reflexivity]|]. split; [|constructor]. intros _. split; [reflexivity|discriminate].
    - cbn [bodyb] in B. destruct (nth_error T i) as [[k t]|] eqn:E; [|discriminate]. destruct t; try discriminate.
      cbn [parse]. rewrite E. exists VAny, []. rewrite app_nil_r. split; [reflexivity|]. split; [split; [constructor|reflexivity]|].
      split; [|constructor]. intros _. split; [reflexivity|discriminate].
    - cbn [bodyb] in B. destruct (nth_error T i) as [[k t]|] eqn:E; [|discriminate]. destruct t as [| | | | | |c|c|c attrs st subs|a e]; try discriminate.
      destruct (kind_of api_classes c) as [ms| | |] eqn:K; try discriminate. apply strs_eqb_eq in B.
      cbn [parse]. rewrite E. unfold parse_enum. rewrite K.
      destruct v; cbn [ad_string json_adapter json_string]; try (apply Refuse; intros X; now inversion X).
      destruct (find (fun m => str_eqb (snd m) s) ms) as [m|] eqn:F.
      + apply find_some in F. destruct F as [I F]. apply str_eqb_spec in F. eexists _, []. rewrite app_nil_r. split; [reflexivity|].
        split; [split; [|reflexivity]|split; [intros _; split; [reflexivity|discriminate]|intros _; rewrite <- F; constructor]].
        intros _. constructor. rewrite <- B, <- F. now apply in_map.
      + apply Refuse. intros X. inversion X as [| |l' s' I| | | |]; subst. apply in_map_iff in I. destruct I as (m & Em & I).
        apply (find_none _ _ F) in I. cbn beta in I. rewrite (proj2 (str_eqb_spec _ _) Em) in I. discriminate.
    - cbn [bodyb] in B. destruct (nth_error T i) as [[k t]|] eqn:E; [|discriminate].
      destruct t as [| | | | | |c|c|c attrs st subs|a [|]]; try discriminate.
      cbn [parse]. rewrite E. unfold parse_list. destruct v; cbn [ad_list json_adapter json_list]; try (apply Refuse; intros X; now inversion X).
      rewrite andb_false_r. cbn [json_depth] in D.
      destruct (items_body f IH b a p l B) with (k := 0) (r := r) as (xs & fs & E1 & C & Q & H).
      { intros x I. apply (list_max_map json_depth) in I. lia. }
      rewrite E1. cbn [obind]. exists (VList xs), fs. split; [reflexivity|]. split; [|split].
      + rewrite C. split; [intros A; now constructor|intros A; now inversion A].
      + intros q. split; [reflexivity|]. intros l' [= <-]. auto.
      + intros Z. constructor. auto.
    - apply object_body; [exact IH|exact B|lia].
    - cbn [bodyb] in B. apply existsb_exists in B. destruct B as ([i' j] & I & B). cbn [fst snd] in B. apply andb_prop in B.
      destruct B as [B Fb]. apply Nat.eqb_eq in B. subst i'. apply (fitsb_ok _ _ _ string_types_ok) in Fb.
      rewrite (parse_same T phi show repr H_same (S f) i j p v r I).
      destruct (json_correct show repr (S f) j g p v r Fb D) as (x & fs & E & C & K & _). exists x, fs. split; [exact E|]. split; [|split].
      + rewrite C. split; [intros A; now constructor|intros A; now inversion A].
      + discriminate.
      + intros Z. constructor. auto.
    - cbn [bodyb] in B. unfold reference_ok in H_ref. destruct ref as [j|]; [|discriminate]. apply Nat.eqb_eq in B. subst j.
      destruct (object_body f IH reference_members i p v r H_ref) as (x & fs & E & C & _ & H); [lia|].
      exists x, fs. split; [exact E|]. split; [|split; [discriminate|intros Z; constructor; auto]]. rewrite C. split; [intros A; now constructor|intros A; now inversion A].
  Qed.
End Bodies.
