(** Facts about reflection: termination, closedness, and that descriptions fit. *)
From Coq Require Import PeanoNat String List NArith Bool Lia.
From Verif Require Import PyStr PyStrFacts PyBase PyVal ReflectModel ReflectSpec.
Import ListNotations.
Local Open Scope list_scope.

(** * Dictionaries *)
Section Dict.
  Context {A : Type}.
  Implicit Types l : list (str * A).

  Lemma lookup_in k l v : lookup k l = Some v -> In (k, v) l.
  Proof.
    induction l as [|[k' x] l IH]; simpl; [discriminate|]. destruct (str_eqb k k') eqn:E.
    - apply str_eqb_spec in E. subst. intros [= ->]. now left.
    - intros H. right. auto.
  Qed.
  Lemma lookup_none k l : lookup k l = None <-> ~ In k (List.map fst l).
  Proof.
    induction l as [|[k' x] l IH]; simpl; [tauto|]. destruct (str_eqb k k') eqn:E.
    - apply str_eqb_spec in E. subst. split; [discriminate|]. intros H. exfalso. apply H. now left.
    - apply str_eqb_neq in E. rewrite IH. firstorder congruence.
  Qed.
  Lemma in_lookup k v l : NoDup (List.map fst l) -> In (k, v) l -> lookup k l = Some v.
  Proof.
    induction l as [|[k' x] l IH]; simpl; [tauto|]. intros N [E|I]; inversion N as [|? ? N1 N2]; subst.
    - inversion E; subst. now rewrite str_eqb_refl.
    - destruct (str_eqb k k') eqn:E; [|auto]. apply str_eqb_spec in E. subst. exfalso. apply N1.
      apply in_map_iff. now exists (k', v).
  Qed.
  Lemma lookup_app k l l' :
    lookup k (l ++ l') = match lookup k l with Some v => Some v | None => lookup k l' end.
  Proof. induction l as [|[k' x] l IH]; simpl; [reflexivity|]. destruct (str_eqb k k'); auto. Qed.
  Lemma lookup_assign_same k v l : lookup k (assign k v l) = Some v.
  Proof.
    induction l as [|[k' x] l IH]; simpl; [now rewrite str_eqb_refl|].
    destruct (str_eqb k k') eqn:E; simpl; rewrite E; auto.
  Qed.
  Lemma lookup_assign_other k k' v l : k <> k' -> lookup k (assign k' v l) = lookup k l.
  Proof.
    intros N. induction l as [|[k0 x] l IH]; simpl.
    - apply str_eqb_neq in N. now rewrite N.
    - destruct (str_eqb k' k0) eqn:E; simpl.
      + apply str_eqb_spec in E. subst. apply str_eqb_neq in N. now rewrite N.
      + destruct (str_eqb k k0); auto.
  Qed.
  Lemma assign_keys k v l : In k (List.map fst l) -> List.map fst (assign k v l) = List.map fst l.
  Proof.
    induction l as [|[k' x] l IH]; simpl; [tauto|]. intros [E|I].
    - subst. now rewrite str_eqb_refl.
    - destruct (str_eqb k k') eqn:E; simpl; [reflexivity|]. now rewrite IH.
  Qed.
  Lemma assign_in k v l k' x : In (k', x) (assign k v l) -> (k' = k /\ x = v) \/ In (k', x) l.
  Proof.
    induction l as [|[k0 y] l IH]; simpl.
    - intros [[= <- <-]|[]]. now left.
    - destruct (str_eqb k k0) eqn:E; simpl.
      + apply str_eqb_spec in E. subst. intros [[= <- <-]|I]; auto.
      + intros [[= <- <-]|I]; auto. destruct (IH I); auto.
  Qed.
End Dict.

Lemma omap_val {A B} (f : A -> outcome B) l l' : omap f l = Val l' -> Forall2 (fun x y => f x = Val y) l l'.
Proof.
  revert l'. induction l as [|x l IH]; simpl; intros l' H.
  - inversion H. constructor.
  - destruct (f x) eqn:E; [|discriminate]. simpl in H. destruct (omap f l) eqn:E2; [|discriminate].
    simpl in H. inversion H; subst. constructor; auto.
Qed.
Lemma omap_total {A B} (f : A -> outcome B) l : (forall x, In x l -> exists y, f x = Val y) -> exists l', omap f l = Val l'.
Proof.
  induction l as [|x l IH]; simpl; intros H; [eauto|].
  destruct (H x) as [y E]; [now left|]. destruct IH as [l' E2]; [auto|]. rewrite E, E2. simpl. eauto.
Qed.

Section Facts.
  Variable P : list classdecl.
  Variable env : list (str * nat).

  (** * Subclasses *)
  Lemma in_direct c d : In d (direct_subclasses P c) <-> exists k, nth_error P d = Some k /\ In c (c_bases k).
  Proof.
    unfold direct_subclasses. rewrite filter_In, in_seq. unfold bases_of, class_of. split.
    - intros [_ H]. destruct (nth_error P d) as [k|] eqn:E; [|discriminate].
      exists k. split; [reflexivity|]. apply existsb_exists in H. destruct H as (x & I & X).
      apply PeanoNat.Nat.eqb_eq in X. now subst.
    - intros (k & E & I). split.
      + assert (d < length P) by (apply nth_error_Some; congruence). lia.
      + rewrite E. apply existsb_exists. exists c. split; [exact I|]. apply PeanoNat.Nat.eqb_refl.
  Qed.

  Lemma abstract_spec c : is_abstract P c = true <-> Abstract P c.
  Proof.
    unfold is_abstract, Abstract, class_of. destruct (nth_error P c) as [k|]; split.
    - intros H. now exists k.
    - intros (k' & E & A). congruence.
    - discriminate.
    - intros (k' & E & _). discriminate.
  Qed.

  Lemma below_trans c d e : Below P c d -> Below P d e -> Below P c e.
  Proof. intros H. induction 1; [eapply Below_step; eauto|]. eapply Below_step; eauto. Qed.

  Lemma collect_sound fuel c d : In d (collect_subclasses P fuel c) -> Below P c d /\ ~ Abstract P d.
  Proof.
    revert c. induction fuel as [|f IH]; simpl; [tauto|]. intros c H.
    apply in_flat_map in H. destruct H as (i & I & H). apply in_direct in I. destruct I as (k & E & I).
    apply in_app_iff in H. destruct H as [H|H].
    - destruct (is_abstract P i) eqn:A; [destruct H|]. destruct H as [<-|[]]. split; [now apply Below_one with k|].
      intros B. apply abstract_spec in B. congruence.
    - apply IH in H. destruct H as [H N]. split; [|exact N]. eapply below_trans; [|exact H].
      now apply Below_one with k.
  Qed.

  Lemma below_first c d : Below P c d -> exists i, In i (direct_subclasses P c) /\ (i = d \/ Below P i d).
  Proof.
    induction 1 as [d k E I|e d k B IH E I].
    - exists d. split; [|now left]. apply in_direct. now exists k.
    - destruct IH as (i & J & H). exists i. split; [exact J|]. right. destruct H as [->|H].
      + now apply Below_one with k.
      + eapply Below_step; eauto.
  Qed.
  Lemma below_lt c d : wf_program P -> Below P c d -> c < d /\ d < length P.
  Proof.
    intros W. induction 1 as [d k E I|e d k B IH E I].
    - split; [eapply W; eauto|]. apply nth_error_Some. congruence.
    - assert (e < d) by (eapply W; eauto). split; [lia|]. apply nth_error_Some. congruence.
  Qed.
  Lemma collect_complete fuel c d : wf_program P -> length P <= c + fuel -> Below P c d -> ~ Abstract P d ->
    In d (collect_subclasses P fuel c).
  Proof.
    intros W. revert c. induction fuel as [|f IH]; intros c L B N; simpl.
    - apply below_lt in B; [lia|exact W].
    - destruct (below_first _ _ B) as (i & I & H). apply in_flat_map. exists i. split; [exact I|].
      apply in_app_iff. destruct H as [->|H].
      + left. destruct (is_abstract P d) eqn:A; [|now left]. exfalso. apply N. now apply abstract_spec.
      + right. apply IH; auto. assert (c < i); [|lia]. apply in_direct in I. destruct I as (k & E & I). eapply W; eauto.
  Qed.
  Lemma collect_spec c d : wf_program P ->
    In d (collect_subclasses P (length P) c) <-> Below P c d /\ ~ Abstract P d.
  Proof.
    intros W. split; [apply collect_sound|]. intros [B N]. apply collect_complete; auto. lia.
  Qed.

  (** * Fields *)
  Definition declared (f : field) : Prop :=
    exists d own, In d P /\ c_kind d = KData own /\ In f own.

  Lemma add_fields_in fs own k f :
    In (k, f) (fold_left add_field own fs) -> In f own \/ In (k, f) fs.
  Proof.
    revert fs. induction own as [|x own IH]; simpl; intros fs H; [now right|].
    apply IH in H. destruct H as [H|H]; [auto|]. unfold add_field in H. apply assign_in in H.
    destruct H as [[_ ->]|H]; auto.
  Qed.
  Lemma kind_in c own : kind_of P c = KData own -> exists d, In d P /\ c_kind d = KData own.
  Proof.
    unfold kind_of, class_of. destruct (nth_error P c) as [d|] eqn:E; [|discriminate]. intros K.
    exists d. split; [|exact K]. now apply nth_error_In in E.
  Qed.
  Lemma dataclass_fields_declared fuel c fs k f :
    dataclass_fields P fuel c = Some fs -> In (k, f) fs -> declared f.
  Proof.
    revert c fs k f. induction fuel as [|n IH]; simpl; [discriminate|]. intros c fs k f.
    set (first := fix first (l : list nat) : option (list (str * field)) :=
           match l with
           | [] => None
           | b :: r => match kind_of P b with KData _ => dataclass_fields P n b | _ => first r end
           end).
    assert (F : forall l fs, first l = Some fs -> In (k, f) fs -> declared f).
    { induction l as [|b l IHl]; simpl; [discriminate|]. intros fs' H I.
      destruct (kind_of P b); eauto. }
    destruct (kind_of P c) as [ms|s|own|] eqn:K; eauto.
    intros [= <-] H. apply add_fields_in in H. destruct H as [H|H].
    - apply kind_in in K. destruct K as (d & I & K). exists d, own. auto.
    - set (l := rev (List.tl (mro P c))) in H. clearbody l. clear F first K.
      assert (G : forall l acc, (forall k f, In (k, f) acc -> declared f) ->
                forall k f, In (k, f) (fold_left (fun fs b => match dataclass_fields P n b with
                                 | Some bf => fold_left add_field (List.map snd bf) fs
                                 | None => fs
                                 end) l acc) -> declared f).
      { clear H l. induction l as [|b l IHl]; simpl; [auto|]. intros acc A. apply IHl.
        destruct (dataclass_fields P n b) as [bf|] eqn:E; [|exact A].
        intros k' f' I. apply add_fields_in in I. destruct I as [I|I]; [|eauto].
        apply in_map_iff in I. destruct I as ([k0 f0] & X & I). simpl in X. subst. eauto. }
      eapply G; [|exact H]. intros ? ? [].
  Qed.
  Lemma fields_declared c fs f : fields_of P c = Some fs -> In f fs -> declared f.
  Proof.
    unfold fields_of. destruct (dataclass_fields P (S c) c) as [l|] eqn:E; [|discriminate].
    simpl. intros [= <-] I. apply in_map_iff in I. destruct I as ([k f0] & X & I). simpl in X. subst.
    eapply dataclass_fields_declared; eauto.
  Qed.

  (** * Termination *)
  Fixpoint subs (a : ann) : list ann :=
    a :: match a with AList x | ANonEmpty x | AOpt x => subs x | _ => [] end.
  Lemma subs_length a : length (subs a) = ann_size a.
  Proof. induction a; simpl; congruence. Qed.
  Lemma subs_self a : In a (subs a).
  Proof. destruct a; now left. Qed.

  Definition universe (a : ann) : list ann :=
    subs a ++ (ACls (length P) :: List.map ACls (seq 0 (length P)))
    ++ flat_map (fun d => match c_kind d with
                          | KData own => flat_map (fun f => subs (f_ann f)) own
                          | _ => []
                          end) P.
  Lemma universe_length a : S (length (universe a)) = reflect_bound P a.
  Proof.
    unfold universe, reflect_bound. rewrite !app_length. simpl. rewrite map_length, seq_length, subs_length.
    assert (E : length (flat_map (fun d => match c_kind d with
                          | KData own => flat_map (fun f => subs (f_ann f)) own
                          | _ => []
                          end) P)
                = list_sum (List.map (fun d => match c_kind d with
                                      | KData own => list_sum (List.map (fun f => ann_size (f_ann f)) own)
                                      | _ => 0
                                      end) P)).
    { assert (F : forall own, length (flat_map (fun f => subs (f_ann f)) own)
                              = list_sum (List.map (fun f => ann_size (f_ann f)) own)).
      { induction own as [|f own IH]; simpl; [reflexivity|]. rewrite app_length, IH, subs_length. reflexivity. }
      induction P as [|d Q IH]; simpl; [reflexivity|]. rewrite app_length. unfold list_sum in *. simpl.
      rewrite <- IH. f_equal. destruct (c_kind d); simpl; auto. }
    lia.
  Qed.

  Section Universe.
    Variable root : ann.
    Definition ukeys := List.map (key P) (universe root).
    Definition inU (a : ann) : Prop := forall x, In x (subs a) -> In (key P x) ukeys.

    Lemma cls_inU c : In (key P (ACls c)) ukeys.
    Proof.
      unfold ukeys, universe. rewrite !map_app. apply in_app_iff. right. apply in_app_iff. left. simpl.
      destruct (Compare_dec.lt_dec c (length P)) as [L|L].
      - right. rewrite map_map. apply in_map_iff. exists c. split; [reflexivity|]. apply in_seq. lia.
      - left. unfold key, full_name, class_of.
        assert (nth_error P c = None) by (apply nth_error_None; lia).
        assert (nth_error P (length P) = None) by (apply nth_error_None; lia).
        now rewrite H, H0.
    Qed.
    Lemma named_inU a b : inU a -> Named env a b -> inU b.
    Proof.
      intros I H. destruct H; [|exact I]. intros x [<-|[]]. apply cls_inU.
    Qed.
    Lemma declared_inU f : declared f -> inU (f_ann f).
    Proof.
      intros (d & own & I & K & J) x X. unfold ukeys, universe. apply in_map, in_app_iff. right.
      apply in_app_iff. right. apply in_flat_map. exists d. split; [exact I|]. rewrite K.
      apply in_flat_map. exists f. auto.
    Qed.
    Lemma child_inU a b : inU a -> Child P env a b -> inU b.
    Proof.
      intros I C. destruct C as [x y N|x y N|c fs f o t u _ F J E O N|c d _ B A].
      - apply (named_inU x); [|exact N]. intros z Z. apply I. simpl. now right.
      - apply (named_inU x); [|exact N]. intros z Z. apply I. simpl. now right.
      - apply (named_inU t); [|exact N]. apply fields_declared with (f := f) in F; [|exact J].
        apply declared_inU in F. destruct O; [|exact F]. intros z Z. apply F. simpl. now right.
      - intros x [<-|[]]. apply cls_inU.
    Qed.
    Lemma root_inU : inU root.
    Proof. intros x X. unfold ukeys, universe. apply in_map, in_app_iff. now left. Qed.

    (** keys that are still missing *)
    Definition missing (st : symbols) : nat :=
      length (filter (fun k => negb (str_in k (List.map fst st))) ukeys).

    Lemma filter_length_le {A} (p q : A -> bool) l : (forall x, q x = true -> p x = true) ->
      length (filter q l) <= length (filter p l).
    Proof.
      intros H. induction l as [|x l IH]; simpl; [lia|]. destruct (q x) eqn:Q; [|destruct (p x); simpl; lia].
      rewrite (H _ Q). simpl. lia.
    Qed.
    Lemma missing_mono st st' : incl (List.map fst st) (List.map fst st') -> missing st' <= missing st.
    Proof.
      intros H. apply filter_length_le. intros k. rewrite !negb_true_iff. intros N.
      destruct (str_in k (List.map fst st)) eqn:E; [|reflexivity]. apply str_in_spec in E. apply H in E.
      apply str_in_spec in E. congruence.
    Qed.
    Lemma missing_add st k v : In k ukeys -> lookup k st = None -> missing (st ++ [(k, v)]) < missing st.
    Proof.
      intros I N. unfold missing. rewrite map_app. simpl. apply lookup_none in N.
      induction ukeys as [|x l IH]; [destruct I|]. simpl.
      assert (L : length (filter (fun k0 => negb (str_in k0 (List.map fst st ++ [k]))) l)
                  <= length (filter (fun k0 => negb (str_in k0 (List.map fst st))) l)).
      { apply filter_length_le. intros y. rewrite !negb_true_iff. intros E.
        destruct (str_in y (List.map fst st)) eqn:F; [|reflexivity]. apply str_in_spec in F.
        assert (G : In y (List.map fst st ++ [k])) by (apply in_app_iff; now left).
        apply str_in_spec in G. congruence. }
      destruct I as [->|I].
      - assert (E1 : str_in k (List.map fst st ++ [k]) = true).
        { apply str_in_spec, in_app_iff. right. now left. }
        assert (E2 : str_in k (List.map fst st) = false).
        { destruct (str_in k (List.map fst st)) eqn:E; [|reflexivity]. apply str_in_spec in E. tauto. }
        rewrite E1, E2. simpl. lia.
      - specialize (IH I). destruct (str_in x (List.map fst st)) eqn:E; simpl.
        + assert (E1 : str_in x (List.map fst st ++ [k]) = true).
          { apply str_in_spec, in_app_iff. left. now apply str_in_spec. }
          rewrite E1. simpl. lia.
        + destruct (str_in x (List.map fst st ++ [k])); simpl; lia.
    Qed.

    Lemma unwrap_optional_spec a : match unwrap_optional a with
      | Val (o, t) => Optionality a o t | Raise e => e = AssertionError /\ exists t, a = AUnion t end.
    Proof. destruct a; simpl; try (constructor; congruence). eauto. Qed.
    Lemma unwrap_forward_spec a : match unwrap_forward_ref env a with
      | Val b => Named env a b | Raise e => e = GenericException /\ forall b, ~ Named env a b end.
    Proof.
      destruct a; simpl; try (constructor; congruence). destruct (lookup name env) eqn:E.
      - now constructor.
      - split; [reflexivity|]. intros b H. inversion H; subst; [congruence|]. eapply H0; eauto.
    Qed.

    (** keys never disappear *)
    Definition mono (rec : ann -> symbols -> outcome symbols) : Prop :=
      forall a st st', rec a st = Val st' -> incl (List.map fst st) (List.map fst st').

    Lemma list_mono rec x e st t st' : mono rec -> reflect_list env rec x e st = Val (t, st') ->
      incl (List.map fst st) (List.map fst st').
    Proof.
      intros M. unfold reflect_list. destruct (unwrap_forward_ref env x); [|discriminate]. simpl.
      destruct (rec a st) eqn:E; [|discriminate]. simpl. intros [= <- <-]. eapply M; eauto.
    Qed.
    Lemma fields_mono rec fs : mono rec -> forall st y st', reflect_fields env rec fs st = Val (y, st') ->
      incl (List.map fst st) (List.map fst st').
    Proof.
      intros M. induction fs as [|f fs IH]; simpl; intros st y st' H.
      - assert (st = st') by congruence. subst. apply incl_refl.
      - destruct (unwrap_optional (f_ann f)) as [[o t]|]; [|discriminate]. simpl in H.
        destruct (f_exclude f).
        + destruct (reflect_fields env rec fs st) as [[[? ?] ?]|] eqn:E; [|discriminate].
          simpl in H. inversion H; subst. eauto.
        + destruct (unwrap_forward_ref env t); [|discriminate]. simpl in H.
          destruct (rec a st) as [s1|] eqn:E1; [|discriminate]. simpl in H.
          destruct (reflect_fields env rec fs s1) as [[[? ?] ?]|] eqn:E; [|discriminate].
          simpl in H. inversion H; subst. eapply incl_tran; eauto.
    Qed.
    Lemma subclasses_mono rec l : mono rec -> forall st st', reflect_subclasses rec l st = Val st' ->
      incl (List.map fst st) (List.map fst st').
    Proof.
      intros M. induction l as [|c l IH]; simpl; intros st st' H.
      - inversion H. apply incl_refl.
      - destruct (rec (ACls c) st) eqn:E; [|discriminate]. simpl in H. eapply incl_tran; eauto.
    Qed.
    Lemma unsafe_mono rec a st t st' : mono rec -> reflect_unsafe P env rec a st = Val (t, st') ->
      incl (List.map fst st) (List.map fst st').
    Proof.
      intros M. destruct a; simpl; try discriminate; try (intros [= <- <-]; apply incl_refl);
        try (apply list_mono; exact M).
      assert (G : match fields_of P c with
                  | Some fs => reflect_class P env rec c fs st
                  | None => Raise GenericException
                  end = Val (t, st') -> incl (List.map fst st) (List.map fst st')).
      { destruct (fields_of P c) as [fs|]; [|discriminate]. unfold reflect_class.
        destruct (reflect_fields env rec fs st) as [[[at_ sa] s1]|] eqn:E; [|discriminate]. simpl.
        destruct (reflect_subclasses rec (collect_subclasses P (length P) c) s1) eqn:E2; [|discriminate].
        simpl. intros [= <- <-]. eapply incl_tran; [eapply fields_mono; eauto|eapply subclasses_mono; eauto]. }
      destruct (kind_of P c); [intros [= <- <-]; apply incl_refl|intros [= <- <-]; apply incl_refl|exact G|exact G].
    Qed.
    Lemma reflect_mono f : mono (reflect_fuel P env f).
    Proof.
      induction f as [|f IH]; intros a st st'; simpl; [discriminate|].
      destruct (lookup (key P a) st) eqn:L; [intros [= <-]; apply incl_refl|].
      destruct (reflect_unsafe P env (reflect_fuel P env f) a (st ++ [(key P a, None)])) as [[t s1]|] eqn:E; [|discriminate].
      simpl. intros [= <-]. apply unsafe_mono in E; [|exact IH].
      rewrite map_app in E. simpl in E. rewrite assign_keys.
      - intros x X. apply E, in_app_iff. now left.
      - apply E, in_app_iff. right. now left.
    Qed.

    Section NoFuel.
      Variable rec : ann -> symbols -> outcome symbols.
      Variable a : ann.
      Variable m : nat.
      Hypothesis M : mono rec.
      Hypothesis R : forall b st, Child P env a b -> missing st <= m -> rec b st <> Raise OutOfFuel.

      Lemma list_nofuel x e st : (forall y, Named env x y -> Child P env a y) -> missing st <= m ->
        reflect_list env rec x e st <> Raise OutOfFuel.
      Proof.
        intros C L. unfold reflect_list. generalize (unwrap_forward_spec x).
        destruct (unwrap_forward_ref env x) as [y|ex]; simpl.
        - intros N. specialize (R y st (C _ N) L). destruct (rec y st); simpl; congruence.
        - intros [-> _]. discriminate.
      Qed.
      Lemma fields_nofuel fs : (forall f o t u, In f fs -> f_exclude f = None -> Optionality (f_ann f) o t ->
                                  Named env t u -> Child P env a u) ->
        forall st, missing st <= m -> reflect_fields env rec fs st <> Raise OutOfFuel.
      Proof.
        induction fs as [|f fs IH]; simpl; intros C st L; [discriminate|].
        generalize (unwrap_optional_spec (f_ann f)). destruct (unwrap_optional (f_ann f)) as [[o t]|ex]; simpl.
        2:{ intros [-> _]. discriminate. }
        intros O. destruct (f_exclude f) eqn:X.
        - assert (H : reflect_fields env rec fs st <> Raise OutOfFuel) by (apply IH; eauto).
          destruct (reflect_fields env rec fs st) as [[[? ?] ?]|]; simpl; congruence.
        - generalize (unwrap_forward_spec t). destruct (unwrap_forward_ref env t) as [u|ex]; simpl.
          2:{ intros [-> _]. discriminate. }
          intros N. assert (CU : Child P env a u) by (eapply C; eauto).
          specialize (R u st CU L). destruct (rec u st) as [s1|] eqn:E; simpl; [|congruence].
          assert (H : reflect_fields env rec fs s1 <> Raise OutOfFuel).
          { apply IH; [eauto|]. apply M in E. apply missing_mono in E. lia. }
          destruct (reflect_fields env rec fs s1) as [[[? ?] ?]|]; simpl; congruence.
      Qed.
      Lemma subclasses_nofuel l : (forall c, In c l -> Child P env a (ACls c)) ->
        forall st, missing st <= m -> reflect_subclasses rec l st <> Raise OutOfFuel.
      Proof.
        induction l as [|c l IH]; simpl; intros C st L; [discriminate|].
        assert (H : rec (ACls c) st <> Raise OutOfFuel) by (apply R; auto).
        destruct (rec (ACls c) st) as [s1|] eqn:E; simpl; [|congruence].
        apply IH; [auto|]. apply M in E. apply missing_mono in E. lia.
      Qed.
      Lemma unsafe_nofuel a0 st : a = a0 -> missing st <= m -> reflect_unsafe P env rec a0 st <> Raise OutOfFuel.
      Proof.
        intros EA L. destruct a0 as [| | | | | |c|nm|x|x|x|tx|tx]; simpl; try discriminate.
        - assert (G : Object P c -> match fields_of P c with
                  | Some fs => reflect_class P env rec c fs st
                  | None => Raise GenericException
                  end <> Raise OutOfFuel).
          { intros OB. destruct (fields_of P c) as [fs|] eqn:F; [|discriminate]. unfold reflect_class.
            assert (H : reflect_fields env rec fs st <> Raise OutOfFuel).
            { apply fields_nofuel; [|exact L]. intros f o t u I X O N. rewrite EA. eapply Child_field; eauto. }
            destruct (reflect_fields env rec fs st) as [[[at_ sa] s1]|] eqn:E; simpl; [|congruence].
            assert (H2 : reflect_subclasses rec (collect_subclasses P (length P) c) s1 <> Raise OutOfFuel).
            { apply subclasses_nofuel.
              - intros d I. apply collect_sound in I. rewrite EA. now apply Child_subclass.
              - apply fields_mono in E; [|exact M]. apply missing_mono in E. lia. }
            destruct (reflect_subclasses rec (collect_subclasses P (length P) c) s1); simpl; congruence. }
          destruct (kind_of P c) eqn:K; try discriminate; apply G; split; intros; congruence.
        - apply list_nofuel; [|exact L]. intros y N. rewrite EA. now apply Child_list.
        - apply list_nofuel; [|exact L]. intros y N. rewrite EA. now apply Child_nonempty.
      Qed.
    End NoFuel.

    Lemma reflect_nofuel f a st : inU a -> missing st < f -> reflect_fuel P env f a st <> Raise OutOfFuel.
    Proof.
      revert a st. induction f as [|f IH]; intros a st I L; [lia|]. simpl.
      destruct (lookup (key P a) st) eqn:E; [discriminate|].
      assert (ML : missing (st ++ [(key P a, None)]) < missing st).
      { apply missing_add; [|exact E]. apply I. apply subs_self. }
      assert (H : reflect_unsafe P env (reflect_fuel P env f) a (st ++ [(key P a, None)]) <> Raise OutOfFuel).
      { apply unsafe_nofuel with (a := a) (m := missing (st ++ [(key P a, None)])); [apply reflect_mono| |reflexivity|lia].
        intros b s C Ls. apply IH; [eapply child_inU; eauto|lia]. }
      destruct (reflect_unsafe P env (reflect_fuel P env f) a (st ++ [(key P a, None)])) as [[t s]|]; simpl; congruence.
    Qed.
  End Universe.

  (** * What the table contains *)
  Section Root.
    Variable r : ann.

    (** New entries are complete and describe an annotation that can be reached. *)
    Definition Entry (st' : symbols) (k : str) (v : option (rtype ann)) : Prop :=
      exists b t, v = Some t /\ k = key P b /\ Reach P env r b /\ Describes P env b t /\
                  forall x, In x (refs t) -> lookup (key P x) st' <> None.
    Definition Post (st st' : symbols) : Prop :=
      (forall k v, lookup k st = Some v -> lookup k st' = Some v) /\
      (forall k v, lookup k st' = Some v -> lookup k st = Some v \/ (lookup k st = None /\ Entry st' k v)) /\
      (NoDup (List.map fst st) -> NoDup (List.map fst st')).

    Lemma post_refl st : Post st st.
    Proof. repeat split; auto. Qed.
    Lemma entry_mono st st' k v : (forall k v, lookup k st = Some v -> lookup k st' = Some v) ->
      Entry st k v -> Entry st' k v.
    Proof.
      intros M (b & t & E & K & R & D & X). exists b, t. repeat split; auto. intros x I.
      specialize (X x I). destruct (lookup (key P x) st) eqn:L; [|congruence]. rewrite (M _ _ L). discriminate.
    Qed.
    Lemma post_trans a b c : Post a b -> Post b c -> Post a c.
    Proof.
      intros (A1 & A2 & A3) (B1 & B2 & B3). split; [auto|]. split; [|auto].
      intros k v L. destruct (B2 _ _ L) as [L2|[N E]].
      - destruct (A2 _ _ L2) as [|[N E]]; [now left|]. right. split; [exact N|]. eapply entry_mono; eauto.
      - right. split; [|exact E]. destruct (lookup k a) eqn:La; [|reflexivity].
        apply A1 in La. congruence.
    Qed.
    Lemma post_keeps a b k : Post a b -> lookup k a <> None -> lookup k b <> None.
    Proof.
      intros (A & _) N. destruct (lookup k a) eqn:E; [|congruence]. rewrite (A _ _ E). discriminate.
    Qed.

    Section Body.
      Variable rec : ann -> symbols -> outcome symbols.
      Hypothesis H : forall a st st', Reach P env r a -> rec a st = Val st' ->
        Post st st' /\ lookup (key P a) st' <> None.
      Variable c : ann.
      Hypothesis RC : Reach P env r c.

      Lemma fields_post fs : (forall f o t u, In f fs -> f_exclude f = None -> Optionality (f_ann f) o t ->
                                Named env t u -> Child P env c u) ->
        forall st attrs static st', reflect_fields env rec fs st = Val (attrs, static, st') ->
        Post st st' /\ DescribesFields env fs attrs static /\
        forall x, In x (List.map a_type attrs) -> lookup (key P x) st' <> None.
      Proof.
        induction fs as [|f fs IH]; simpl; intros C st attrs static st' E.
        - assert (attrs = [] /\ static = [] /\ st = st') as (-> & -> & ->) by (repeat split; congruence).
          split; [apply post_refl|]. split; [constructor|]. intros ? [].
        - generalize (unwrap_optional_spec (f_ann f)). destruct (unwrap_optional (f_ann f)) as [[o t]|ex]; [|discriminate].
          intros O. simpl in E. destruct (f_exclude f) as [v|] eqn:X.
          + destruct (reflect_fields env rec fs st) as [[[a1 s1] st1]|] eqn:E1; [|discriminate].
            simpl in E. inversion E; subst. destruct (IH ltac:(eauto) _ _ _ _ E1) as (I1 & I2 & I3).
            split; [exact I1|]. split; [|exact I3].
            change attrs with ([] ++ attrs). change ((f_name f, v) :: s1) with ([(f_name f, v)] ++ s1).
            constructor; [|exact I2]. econstructor; eauto.
          + generalize (unwrap_forward_spec t). destruct (unwrap_forward_ref env t) as [u|ex]; [|discriminate].
            intros N. simpl in E. destruct (rec u st) as [st1|] eqn:E1; [|discriminate]. simpl in E.
            destruct (reflect_fields env rec fs st1) as [[[a1 s1] st2]|] eqn:E2; [|discriminate].
            simpl in E. inversion E; subst.
            assert (RU : Reach P env r u) by (eapply Reach_step; [exact RC|eauto]).
            destruct (H _ _ _ RU E1) as [P1 L1]. destruct (IH ltac:(eauto) _ _ _ _ E2) as (I1 & I2 & I3).
            split; [eapply post_trans; eauto|]. split.
            * change (Attr (f_name f) u o (f_force f) :: a1) with ([Attr (f_name f) u o (f_force f)] ++ a1).
              change static with ([] ++ static). constructor; [|exact I2]. eapply DF_attr; eauto.
            * simpl. intros x [<-|I]; [|auto]. eapply post_keeps; eauto.
      Qed.
      Lemma subclasses_post l : (forall d, In d l -> Child P env c (ACls d)) ->
        forall st st', reflect_subclasses rec l st = Val st' ->
        Post st st' /\ forall d, In d l -> lookup (key P (ACls d)) st' <> None.
      Proof.
        induction l as [|d l IH]; simpl; intros C st st' E.
        - inversion E; subst. split; [apply post_refl|]. intros ? [].
        - destruct (rec (ACls d) st) as [s1|] eqn:E1; [|discriminate]. simpl in E.
          assert (RU : Reach P env r (ACls d)) by (eapply Reach_step; [exact RC|eauto]).
          destruct (H _ _ _ RU E1) as [P1 L1]. destruct (IH ltac:(eauto) _ _ E) as [P2 L2].
          split; [eapply post_trans; eauto|]. intros x [<-|I]; [|exact (L2 x I)]. eapply post_keeps; eauto.
      Qed.
      Lemma list_post x e st t st' : (forall y, Named env x y -> Child P env c y) ->
        reflect_list env rec x e st = Val (t, st') ->
        Post st st' /\ exists y, Named env x y /\ t = RList y e /\ lookup (key P y) st' <> None.
      Proof.
        intros C. unfold reflect_list. generalize (unwrap_forward_spec x).
        destruct (unwrap_forward_ref env x) as [y|]; [|discriminate]. intros N. simpl.
        destruct (rec y st) as [s1|] eqn:E1; [|discriminate]. simpl. intros [= <- <-].
        assert (RU : Reach P env r y) by (eapply Reach_step; [exact RC|eauto]).
        destruct (H _ _ _ RU E1) as [P1 L1]. split; [exact P1|]. eauto.
      Qed.
      Lemma unsafe_post c0 st t st' : c = c0 -> reflect_unsafe P env rec c0 st = Val (t, st') ->
        Post st st' /\ Describes P env c0 t /\ forall x, In x (refs t) -> lookup (key P x) st' <> None.
      Proof.
        intros EC. destruct c0 as [| | | | | |d|nm|x|x|x|tx|tx]; simpl; try discriminate;
          try (intros E; inversion E; subst; split; [apply post_refl|]; split; [constructor|intros ? []]).
        - assert (G : (forall ms, kind_of P d <> KEnum ms) -> (forall s, kind_of P d <> KSfv s) ->
                  match fields_of P d with
                  | Some fs => reflect_class P env rec d fs st
                  | None => Raise GenericException
                  end = Val (t, st') ->
                  Post st st' /\ Describes P env (ACls d) t /\ forall x, In x (refs t) -> lookup (key P x) st' <> None).
          { intros NE NS. assert (OB : Object P d) by now split. destruct (fields_of P d) as [fs|] eqn:F; [|discriminate]. unfold reflect_class.
            destruct (reflect_fields env rec fs st) as [[[at_ sa] s1]|] eqn:E; [|discriminate]. simpl.
            destruct (reflect_subclasses rec (collect_subclasses P (length P) d) s1) as [s2|] eqn:E2; [|discriminate].
            simpl. intros X. injection X as <- <-.
            apply fields_post in E; [|intros; rewrite EC; eapply Child_field; eauto]. destruct E as (P1 & D1 & L1).
            apply subclasses_post in E2; [|intros e I; rewrite EC; apply collect_sound in I; apply Child_subclass; [exact OB|tauto|tauto]].
            destruct E2 as (P2 & L2). split; [eapply post_trans; eauto|]. split.
            - eapply D_class; eauto.
              + intros W e. rewrite <- (collect_spec d e W). rewrite in_map_iff. split.
                * intros (e' & [= ->] & I). exact I.
                * intros I. exists e. auto.
              + intros a I. apply in_map_iff in I. destruct I as (e & <- & _). eauto.
            - simpl. intros x I. apply in_app_iff in I. destruct I as [I|I].
              + eapply post_keeps; eauto.
              + apply in_map_iff in I. destruct I as (e & <- & I). auto. }
          destruct (kind_of P d) eqn:K; intros E.
          + inversion E; subst. split; [apply post_refl|]. split; [now apply D_enum with members|intros ? []].
          + inversion E; subst. split; [apply post_refl|]. split; [now apply D_sfv with s|intros ? []].
          + apply G; congruence.
          + apply G; congruence.
        - intros E. apply list_post in E; [|intros y N; rewrite EC; now apply Child_list].
          destruct E as (P1 & y & N & -> & L). split; [exact P1|]. split; [now constructor|]. intros z [<-|[]]. exact L.
        - intros E. apply list_post in E; [|intros y N; rewrite EC; now apply Child_nonempty].
          destruct E as (P1 & y & N & -> & L). split; [exact P1|]. split; [now constructor|]. intros z [<-|[]]. exact L.
      Qed.
    End Body.

    Lemma reflect_post f a st st' : Reach P env r a -> reflect_fuel P env f a st = Val st' ->
      Post st st' /\ lookup (key P a) st' <> None.
    Proof.
      revert a st st'. induction f as [|f IH]; intros a st st' R; simpl; [discriminate|].
      destruct (lookup (key P a) st) eqn:L.
      - intros [= <-]. split; [apply post_refl|congruence].
      - destruct (reflect_unsafe P env (reflect_fuel P env f) a (st ++ [(key P a, None)])) as [[t s1]|] eqn:E; [|discriminate].
        simpl. intros [= <-]. apply (unsafe_post _ IH a R) in E; [|reflexivity]. destruct E as ((A1 & A2 & A3) & D & X).
        assert (L1 : lookup (key P a) s1 = Some None).
        { apply A1. rewrite lookup_app, L. simpl. now rewrite str_eqb_refl. }
        assert (IK : In (key P a) (List.map fst s1)).
        { apply lookup_in in L1. apply in_map_iff. now exists (key P a, None). }
        assert (KN : forall k, lookup k s1 <> None -> lookup k (assign (key P a) (Some t) s1) <> None).
        { intros k N. destruct (str_eq_dec k (key P a)) as [->|Z].
          - rewrite lookup_assign_same. discriminate.
          - now rewrite lookup_assign_other. }
        split; [|rewrite lookup_assign_same; discriminate]. split; [|split].
        + intros k v Lk. destruct (str_eq_dec k (key P a)) as [->|N]; [congruence|].
          rewrite lookup_assign_other by exact N. apply A1. rewrite lookup_app, Lk. reflexivity.
        + intros k v Lk. destruct (str_eq_dec k (key P a)) as [->|N].
          * rewrite lookup_assign_same in Lk. inversion Lk; subst. right. split; [exact L|].
            exists a, t. repeat split; auto.
          * rewrite lookup_assign_other in Lk by exact N. destruct (A2 _ _ Lk) as [L2|[N2 En]].
            -- left. rewrite lookup_app in L2. destruct (lookup k st); [exact L2|]. simpl in L2.
               apply str_eqb_neq in N. rewrite N in L2. discriminate.
            -- right. rewrite lookup_app in N2. destruct (lookup k st) eqn:L3; [discriminate|]. split; [reflexivity|].
               destruct En as (b & t' & E1 & E2 & E3 & E4 & E5). exists b, t'. repeat split; auto.
        + intros ND. rewrite assign_keys by exact IK. apply A3. rewrite map_app. simpl.
          apply NoDup_app_remove_r || idtac.
          apply NoDup_rev in ND. rewrite <- (rev_involutive (List.map fst st ++ [key P a])). apply NoDup_rev.
          rewrite rev_app_distr. simpl. constructor; [|exact ND]. rewrite <- in_rev. now apply lookup_none.
    Qed.

    (** * Resolution *)
    Lemma index_of_spec k l i : index_of k l = Some i -> nth_error l i = Some k.
    Proof.
      revert i. induction l as [|x l IH]; simpl; [discriminate|]. intros i. destruct (str_eqb k x) eqn:E.
      - apply str_eqb_spec in E. intros [= <-]. now subst.
      - destruct (index_of k l) as [j|]; [|discriminate]. intros [= <-]. now apply IH.
    Qed.
    Lemma index_of_in k l : In k l -> exists i, index_of k l = Some i.
    Proof.
      induction l as [|x l IH]; simpl; [tauto|]. destruct (str_eqb k x) eqn:E; [eauto|].
      intros [->|I]; [rewrite str_eqb_refl in E; discriminate|]. destruct (IH I) as [i ->]. simpl. eauto.
    Qed.
    Lemma resolve_ref_spec keys a i : resolve_ref P keys a = Val i -> Points P keys a i.
    Proof.
      unfold resolve_ref. destruct (index_of (key P a) keys) eqn:E; [|discriminate]. intros [= <-].
      now apply index_of_spec.
    Qed.
    Lemma resolve_ref_total keys a : In (key P a) keys -> exists i, resolve_ref P keys a = Val i.
    Proof. intros I. unfold resolve_ref. destruct (index_of_in _ _ I) as [i ->]. eauto. Qed.
    Lemma forall2_imp {A B} (R S : A -> B -> Prop) l l' : (forall x y, R x y -> S x y) -> Forall2 R l l' -> Forall2 S l l'.
    Proof. intros I. induction 1; constructor; auto. Qed.
    Lemma resolve_type_spec keys t t' : resolve_type P keys t = Val t' -> Resolved P keys t t'.
    Proof.
      destruct t; simpl; try (intros [= <-]; constructor).
      - match goal with |- context [omap ?f attrs] => destruct (omap f attrs) as [at'|] eqn:E end; [|discriminate]. simpl.
        destruct (omap (resolve_ref P keys) subclasses) as [sc'|] eqn:E2; [|discriminate].
        simpl. intros [= <-]. apply omap_val in E. apply omap_val in E2. constructor.
        + eapply forall2_imp; [|exact E]. intros x y. simpl.
          destruct (resolve_ref P keys (a_type x)) eqn:F; [|discriminate]. simpl. intros [= <-]. simpl.
          repeat split; auto. now apply resolve_ref_spec.
        + eapply forall2_imp; [|exact E2]. intros x y. apply resolve_ref_spec.
      - destruct (resolve_ref P keys item) eqn:E; [|discriminate]. simpl. intros [= <-]. constructor.
        now apply resolve_ref_spec.
    Qed.
    Lemma resolve_type_total keys t : (forall x, In x (refs t) -> In (key P x) keys) ->
      exists t', resolve_type P keys t = Val t'.
    Proof.
      destruct t; simpl; intros R; eauto.
      - match goal with |- context [omap ?f attrs] => destruct (omap_total f attrs) as [l' ->] end.
        + intros x I. destruct (resolve_ref_total keys (a_type x)) as [i ->].
          * apply R, in_app_iff. left. now apply in_map.
          * simpl. eauto.
        + simpl. destruct (omap_total (resolve_ref P keys) subclasses) as [s' ->].
          * intros x I. apply resolve_ref_total, R, in_app_iff. now right.
          * simpl. eauto.
      - destruct (resolve_ref_total keys item) as [i ->]; [apply R; now left|]. simpl. eauto.
    Qed.
  End Root.

  (** The symbol table before and after resolution. *)
  Theorem reflect_table a st : reflect_fuel P env (reflect_bound P a) a [] = Val st ->
    exists i t, reflect P env a = Val (i, t) /\
      List.map fst t = List.map fst st /\ NoDup (List.map fst t) /\
      nth_error (List.map fst t) i = Some (key P a) /\
      Forall2 (fun e e' => fst e = fst e' /\
                 exists b d, snd e = Some d /\ fst e = key P b /\ Reach P env a b /\ Describes P env b d /\
                             Resolved P (List.map fst t) d (snd e')) st t.
  Proof.
    intros E. pose proof (reflect_post a _ a [] st (Reach_refl _ _ _) E) as ((_ & A2 & A3) & L).
    assert (ND : NoDup (List.map fst st)) by (apply A3; constructor).
    set (keys := List.map fst st) in *.
    assert (EN : forall e, In e st -> exists b d, snd e = Some d /\ fst e = key P b /\ Reach P env a b /\ Describes P env b d /\
                                  forall x, In x (refs d) -> In (key P x) keys).
    { intros [k v] I. apply in_lookup in I; [|exact ND]. destruct (A2 _ _ I) as [X|[_ X]]; [discriminate|].
      destruct X as (b & d & X1 & X2 & X3 & X4 & X5). exists b, d. simpl. repeat split; auto.
      intros x J. apply X5 in J. destruct (lookup (key P x) st) as [w|] eqn:W; [|congruence].
      apply lookup_in in W. unfold keys. apply in_map_iff. now exists (key P x, w). }
    assert (IK : In (key P a) keys).
    { destruct (lookup (key P a) st) as [w|] eqn:W; [|congruence]. apply lookup_in in W.
      apply in_map_iff. now exists (key P a, w). }
    destruct (resolve_ref_total keys a IK) as [i Ei].
    assert (TT : exists t, resolve P st = Val t).
    { unfold resolve. apply omap_total. intros e I. destruct (EN e I) as (b & d & -> & _ & _ & _ & R).
      destruct (resolve_type_total keys d R) as [d' Ed]. fold keys. rewrite Ed. simpl. eauto. }
    destruct TT as [t Et]. exists i, t.
    assert (F2 := Et). unfold resolve in F2. fold keys in F2. apply omap_val in F2.
    assert (KT : List.map fst t = keys).
    { unfold keys. clear -F2. revert F2. generalize keys. intros ks. induction 1 as [|x y l l' Hxy F IH]; simpl; [reflexivity|].
      rewrite IH. f_equal. destruct (snd x); [|discriminate].
      destruct (resolve_type P ks r); [|discriminate]. simpl in Hxy. inversion Hxy. reflexivity. }
    split.
    { unfold reflect. rewrite E. simpl. fold keys. rewrite Ei. simpl. rewrite Et. reflexivity. }
    split; [exact KT|]. split; [now rewrite KT|]. split; [rewrite KT; now apply resolve_ref_spec|].
    rewrite KT. clear Et. clearbody keys. clear KT IK Ei E A2 A3 L ND.
    induction F2 as [|x y l l' Hxy F IH]; [constructor|]. constructor.
    - destruct (EN x (or_introl eq_refl)) as (b & d & S & K & R & D & X). rewrite S in Hxy.
      destruct (resolve_type P keys d) as [d'|] eqn:Ed; [|discriminate]. simpl in Hxy.
      assert (y = (fst x, d')) by congruence. subst y. simpl. split; [reflexivity|]. exists b, d. repeat split; auto.
      now apply resolve_type_spec.
    - apply IH. intros e I. apply EN. now right.
  Qed.

  Theorem reflect_terminates a : reflect P env a <> Raise OutOfFuel.
  Proof.
    destruct (reflect_fuel P env (reflect_bound P a) a []) as [st|e] eqn:E.
    - destruct (reflect_table a st E) as (i & t & -> & _). discriminate.
    - unfold reflect. rewrite E. simpl. intros [= ->]. revert E. apply (reflect_nofuel a); [apply root_inU|].
      unfold missing. rewrite <- universe_length.
      assert (L : length (filter (fun k => negb (str_in k (List.map fst (@nil (str * option (rtype ann)))))) (ukeys a)) <= length (ukeys a)).
      { induction (ukeys a) as [|x l IH]; simpl; [lia|]. simpl in IH. lia. }
      unfold ukeys in *. rewrite map_length in L. lia.
  Qed.

  Theorem reflect_closed a i t : reflect P env a = Val (i, t) ->
    NoDup (List.map fst t) /\ nth_error (List.map fst t) i = Some (key P a) /\
    forall k d, In (k, d) t -> exists b d0, k = key P b /\ Reach P env a b /\ Describes P env b d0 /\
                                            Resolved P (List.map fst t) d0 d.
  Proof.
    intros E. unfold reflect in E. destruct (reflect_fuel P env (reflect_bound P a) a []) as [st|] eqn:F; [|discriminate].
    destruct (reflect_table a st F) as (i' & t' & E' & K & ND & N & F2).
    unfold reflect in E'. rewrite F in E'. rewrite E in E'. inversion E'; subst i' t'.
    split; [exact ND|]. split; [exact N|]. intros k d I.
    clear E E' N ND K F. revert I. revert F2. generalize (List.map fst t) as ks. intros ks F2 I.
    induction F2 as [|x y l l' Hxy F IH]; [destruct I|]. destruct I as [->|I]; [|auto].
    destruct Hxy as (E1 & b & d0 & _ & E3 & R & D & X). simpl in *. exists b, d0. repeat split; auto. congruence.
  Qed.

  (** * Which annotations are supported *)
  Lemma fields_total rec fs : (forall f, In f fs -> exists o t, Optionality (f_ann f) o t /\
                            (f_exclude f = None -> exists u, Named env t u)) ->
    (forall f o t u st, In f fs -> f_exclude f = None -> Optionality (f_ann f) o t -> Named env t u ->
       exists st', rec u st = Val st' \/ rec u st = Raise OutOfFuel) ->
    forall st, (exists y, reflect_fields env rec fs st = Val y) \/ reflect_fields env rec fs st = Raise OutOfFuel.
  Proof.
    induction fs as [|f fs IH]; simpl; intros S R st; [eauto|].
    generalize (unwrap_optional_spec (f_ann f)). destruct (unwrap_optional (f_ann f)) as [[o t]|ex]; simpl.
    2:{ intros [_ [tx E]]. destruct (S f (or_introl eq_refl)) as (o & t & O & _). rewrite E in O.
        inversion O; subst. congruence. }
    intros O. destruct (f_exclude f) eqn:X.
    - destruct (IH ltac:(eauto) ltac:(eauto) st) as [[[[a1 s1] st1] ->]| ->]; simpl; eauto.
    - generalize (unwrap_forward_spec t). destruct (unwrap_forward_ref env t) as [u|ex]; simpl.
      2:{ intros [_ N]. destruct (S f (or_introl eq_refl)) as (o' & t' & O' & Q). destruct (Q X) as [u U].
          assert (t' = t); [|subst; now apply N in U]. inversion O; subst; inversion O'; subst; congruence. }
      intros N. destruct (R f o t u st (or_introl eq_refl) X O N) as [st1 [E|E]]; rewrite E; simpl; [|now right].
      destruct (IH ltac:(eauto) ltac:(eauto) st1) as [[[[a1 s1] st2] ->]| ->]; simpl; eauto.
  Qed.
  Lemma subclasses_total rec l : (forall c st, In c l -> exists st', rec (ACls c) st = Val st' \/ rec (ACls c) st = Raise OutOfFuel) ->
    forall st, (exists y, reflect_subclasses rec l st = Val y) \/ reflect_subclasses rec l st = Raise OutOfFuel.
  Proof.
    induction l as [|c l IH]; simpl; intros R st; [eauto|].
    destruct (R c st (or_introl eq_refl)) as [st1 [E|E]]; rewrite E; simpl; [|now right]. apply IH. auto.
  Qed.
  Lemma reflect_supported r f : (forall b, Reach P env r b -> Supported P env b) ->
    forall a st, Reach P env r a -> (exists st', reflect_fuel P env f a st = Val st') \/ reflect_fuel P env f a st = Raise OutOfFuel.
  Proof.
    intros S. induction f as [|f IH]; intros a st R; simpl; [now right|].
    destruct (lookup (key P a) st); [eauto|].
    assert (G : forall s, (exists y, reflect_unsafe P env (reflect_fuel P env f) a s = Val y)
                          \/ reflect_unsafe P env (reflect_fuel P env f) a s = Raise OutOfFuel).
    { intros s.
      assert (GL : forall x e, (exists y, Named env x y) -> (forall y, Named env x y -> Child P env a y) ->
                (exists y, reflect_list env (reflect_fuel P env f) x e s = Val y)
                \/ reflect_list env (reflect_fuel P env f) x e s = Raise OutOfFuel).
      { intros x e [y Y] C. unfold reflect_list. generalize (unwrap_forward_spec x).
        destruct (unwrap_forward_ref env x) as [z|ex]; simpl; [|intros [_ N]; now apply N in Y].
        intros N. destruct (IH z s) as [[s' ->]| ->]; simpl; eauto. eapply Reach_step; eauto. }
      destruct (S a R) as [a I|x y N|x y N|c ms K|c sv K|c fs F W]; simpl.
      - simpl in I. decompose [or] I; subst; simpl; eauto. contradiction.
      - apply GL; eauto. intros z Z. now apply Child_list.
      - apply GL; eauto. intros z Z. now apply Child_nonempty.
      - rewrite K. eauto.
      - rewrite K. eauto.
      - assert (GC : Object P c -> (exists y, match fields_of P c with
                  | Some fs => reflect_class P env (reflect_fuel P env f) c fs s
                  | None => Raise GenericException
                  end = Val y) \/ match fields_of P c with
                  | Some fs => reflect_class P env (reflect_fuel P env f) c fs s
                  | None => Raise GenericException
                  end = Raise OutOfFuel).
        { intros OB. rewrite F. unfold reflect_class.
          destruct (fields_total (reflect_fuel P env f) fs W) with (st := s) as [[[[a1 s1] st1] ->]| ->]; simpl; auto.
          { intros g o t u s' I X O N. destruct (IH u s') as [[z Z]|Z].
            - eapply Reach_step; [exact R|]. eapply Child_field; eauto.
            - exists z. now left.
            - exists s'. now right. }
          destruct (subclasses_total (reflect_fuel P env f) (collect_subclasses P (length P) c)) with (st := st1)
            as [[y ->]| ->]; simpl; eauto.
          intros d s' I. apply collect_sound in I. destruct (IH (ACls d) s') as [[z Z]|Z].
          - eapply Reach_step; [exact R|]. apply Child_subclass; [exact OB|tauto|tauto].
          - exists z. now left.
          - exists s'. now right. }
        destruct (kind_of P c) eqn:K; eauto; apply GC; split; intros; congruence. }
    destruct (G (st ++ [(key P a, None)])) as [[[t s'] ->]| ->]; simpl; eauto.
  Qed.
  Theorem reflect_total a : (forall b, Reach P env a b -> Supported P env b) -> exists i t, reflect P env a = Val (i, t).
  Proof.
    intros S. destruct (reflect_supported a (reflect_bound P a) S a [] (Reach_refl _ _ _)) as [[st E]|E].
    - destruct (reflect_table a st E) as (i & t & E' & _). eauto.
    - exfalso. apply (reflect_terminates a). unfold reflect. now rewrite E.
  Qed.

  (** * Every annotation that can be reached is in the table *)
  Lemma named_fun x y z : Named env x y -> Named env x z -> y = z.
  Proof. intros A B. destruct A; inversion B; subst; try congruence; exfalso; eapply H; reflexivity. Qed.
  Lemma opt_fun a o t o' t' : Optionality a o t -> Optionality a o' t' -> t = t'.
  Proof. intros A B. destruct A; inversion B; subst; try reflexivity; exfalso; try (eapply H; reflexivity); eapply H0; reflexivity. Qed.
  Lemma describes_fields_in fs attrs st f o t u : DescribesFields env fs attrs st -> In f fs -> f_exclude f = None ->
    Optionality (f_ann f) o t -> Named env t u -> In u (List.map a_type attrs).
  Proof.
    intros D I X O N. induction D as [|g r a1 s1 a2 s2 DF D IH]; [destruct I|]. rewrite map_app, in_app_iff.
    destruct I as [->|I]; [left|auto]. inversion DF; subst; [congruence|]. simpl. left.
    rewrite (opt_fun _ _ _ _ _ O H0) in *. eapply named_fun; eauto.
  Qed.
  Lemma describes_child b d x : wf_program P -> Describes P env b d -> Child P env b x -> In x (refs d).
  Proof.
    intros W D C. destruct C as [y z N|y z N|c fs f o t u [OE OS] F I X O N|c e [OE OS] B A];
      inversion D; subst; try (exfalso; now apply (OE ms)); try (exfalso; eapply OS; eassumption); simpl.
    - left. eapply named_fun; eauto.
    - left. eapply named_fun; eauto.
    - apply in_app_iff. left. rewrite F in H2. injection H2 as <-. eapply describes_fields_in; eauto.
    - apply in_app_iff. right. apply H4; auto.
  Qed.
  Lemma resolved_points keys d d' x : Resolved P keys d d' -> In x (refs d) -> In (key P x) keys.
  Proof.
    assert (G : forall a i, Points P keys a i -> In (key P a) keys) by (intros a i H; eapply nth_error_In; exact H).
    intros R I. destruct R as [| | | | | | | | |c at1 at2 st su1 su2 F1 F2]; simpl in I; try contradiction.
    - destruct I as [<-|[]]. eauto.
    - apply in_app_iff in I. destruct I as [I|I].
      + apply in_map_iff in I. destruct I as (a & <- & I). clear F2. induction F1 as [|u v l l' Huv F IH]; [destruct I|].
        destruct I as [->|I]; [|auto]. destruct Huv as (_ & _ & _ & Huv). eauto.
      + clear F1. induction F2 as [|u v l l' Huv F IH]; [destruct I|]. destruct I as [->|I]; eauto.
  Qed.
  Theorem reflect_complete a i t b : wf_program P ->
    (forall x y, Reach P env a x -> Reach P env a y -> key P x = key P y -> x = y) ->
    reflect P env a = Val (i, t) -> Reach P env a b -> In (key P b) (List.map fst t).
  Proof.
    intros W U E R. destruct (reflect_closed a i t E) as (ND & N & C).
    induction R as [|b x R IH CH]; [eapply nth_error_In; exact N|].
    apply in_map_iff in IH. destruct IH as ([k d] & K & I). unfold fst in K. subst k.
    destruct (C _ _ I) as (b' & d0 & K & R' & D & RS). apply U in K; auto. subst b'.
    eapply resolved_points; [exact RS|]. eapply describes_child; eauto.
  Qed.
End Facts.

(** * Looking up a symbol by name *)
Section Lookup.
  Variable P : list classdecl.
  Variable env : list (str * nat).

  Definition tail_of (n : str) : str := lit "." ++ n ++ lit "'>".

  Lemma combine_nth {A} (t : list A) s i x :
    In (i, x) (combine (seq s (length t)) t) <-> s <= i /\ nth_error t (i - s) = Some x.
  Proof.
    revert s. induction t as [|y t IH]; intros s; simpl.
    - split; [tauto|]. intros [_ H]. destruct (i - s); discriminate.
    - split.
      + intros [E|I].
        * inversion E; subst. rewrite Nat.sub_diag. auto.
        * apply IH in I. destruct I as [L N]. split; [lia|].
          replace (i - s) with (S (i - S s)) by lia. exact N.
      + intros [L N]. destruct (Nat.eq_dec i s) as [->|D].
        * rewrite Nat.sub_diag in N. simpl in N. left. congruence.
        * right. apply IH. split; [lia|]. replace (i - s) with (S (i - S s)) in N by lia. exact N.
  Qed.
  Lemma combine_nodup {A} (t : list A) s : NoDup (combine (seq s (length t)) t).
  Proof.
    revert s. induction t as [|y t IH]; intros s; simpl; constructor; [|auto].
    rewrite combine_nth. lia.
  Qed.
  Definition Matches (t : list (str * rtype nat)) (n : str) (i : nat) : Prop :=
    exists k d p, nth_error t i = Some (k, d) /\ k = p ++ tail_of n.
  Lemma symbol_lookup_spec t n :
    match symbol_lookup t n with
    | Val i => Matches t n i /\ forall j, Matches t n j -> j = i
    | Raise e => e = ValueError /\ ((forall i, ~ Matches t n i) \/ exists i j, i <> j /\ Matches t n i /\ Matches t n j)
    end.
  Proof.
    unfold symbol_lookup. set (l := filter _ _).
    assert (M : forall i, Matches t n i <-> exists x, In (i, x) l).
    { intros i. unfold l. split.
      - intros (k & d & p & N & E). exists (k, d). apply filter_In. split.
        + apply combine_nth. rewrite Nat.sub_0_r. split; [lia|exact N].
        + simpl. apply endswith_spec. exists p. exact E.
      - intros [[k d] I]. apply filter_In in I. destruct I as [I E]. apply combine_nth in I.
        rewrite Nat.sub_0_r in I. simpl in E. apply endswith_spec in E. destruct E as [p E].
        exists k, d, p. split; [tauto|exact E]. }
    assert (ND : NoDup l) by (apply NoDup_filter, combine_nodup).
    assert (FN : forall i x y, In (i, x) l -> In (i, y) l -> x = y).
    { unfold l. intros i x y A B. apply filter_In in A. apply filter_In in B. destruct A as [A _]. destruct B as [B _].
      apply combine_nth in A. apply combine_nth in B. destruct A as [_ A]. destruct B as [_ B]. congruence. }
    clearbody l. destruct l as [|[i x] [|[j y] l]].
    - split; [reflexivity|]. left. intros i H. apply M in H. now destruct H.
    - simpl. split; [apply M; exists x; now left|]. intros j H. apply M in H. destruct H as [y [E|[]]]. congruence.
    - split; [reflexivity|]. right. exists i, j. split.
      + intros ->. assert (x = y) by (eapply FN; [now left|right; now left]). subst.
        inversion ND as [|? ? NI]; subst. apply NI. now left.
      + split; apply M; eexists; [now left|right; now left].
  Qed.

  (** The last name of a class. *)
  Lemma last_dot p q n m : ~ In 46%N n -> ~ In 46%N m -> p ++ [46%N] ++ n = q ++ [46%N] ++ m -> n = m.
  Proof.
    intros Hn Hm E. revert q E. induction p as [|x p IH]; simpl; intros q E.
    - destruct q as [|y q]; simpl in E; [congruence|]. injection E as <- E. exfalso. apply Hn. rewrite E.
      apply in_or_app. right. now left.
    - destruct q as [|y q]; simpl in E.
      + injection E as -> E. exfalso. apply Hm. rewrite <- E. apply in_or_app. right. now left.
      + injection E as -> E. eauto.
  Qed.
  Lemma app_tail_inj {A} (a b c d : list A) : length b = length d -> a ++ b = c ++ d -> a = c /\ b = d.
  Proof.
    revert c. induction a as [|x a IH]; intros [|y c] L E; simpl in *.
    - auto.
    - apply (f_equal (@length A)) in E. simpl in E. rewrite app_length in E. lia.
    - apply (f_equal (@length A)) in E. simpl in E. rewrite app_length in E. lia.
    - injection E as -> E. destruct (IH c L E). subst. auto.
  Qed.
  Lemma key_matches b d0 n p : Describes P env b d0 -> simple_name n ->
    (forall c, b = ACls c -> simple_name (name_of P c)) ->
    key P b = p ++ tail_of n -> exists c, b = ACls c /\ name_of P c = n.
  Proof.
    intros D Hn Hs E.
    assert (ND : forall s : str, ~ In 46%N s -> s <> p ++ tail_of n).
    { intros s I ->. apply I. apply in_or_app. right. now left. }
    assert (LB : forall x q, x ++ lit "]" <> q ++ tail_of n).
    { intros x q X.
      apply (f_equal (@rev N)) in X. unfold tail_of in X. rewrite !rev_app_distr in X. discriminate X. }
    assert (G : forall c, b = ACls c -> exists c', ACls c = ACls c' /\ name_of P c' = n).
    { intros c ->. exists c. split; [reflexivity|]. specialize (Hs c eq_refl).
      unfold key, full_name, name_of, tail_of in *. destruct (class_of P c) as [k|].
      - replace (lit "<class '" ++ (c_module k ++ lit "." ++ c_name k) ++ lit "'>")
          with ((lit "<class '" ++ c_module k ++ lit "." ++ c_name k) ++ lit "'>") in E by (rewrite <- !app_assoc; reflexivity).
        replace (p ++ lit "." ++ n ++ lit "'>") with ((p ++ lit "." ++ n) ++ lit "'>") in E by (rewrite <- !app_assoc; reflexivity).
        apply app_tail_inj in E; [|reflexivity]. destruct E as [E _].
        rewrite (app_assoc (lit "<class '")) in E. eapply last_dot; eauto.
      - exfalso. revert E. apply (ND (lit "<class '" ++ [] ++ lit "'>")). vm_compute. intuition discriminate. }
    destruct D; try (exfalso; revert E; apply ND; vm_compute; intuition discriminate); eauto.
    - exfalso. revert E. change (key P (AList x)) with (lit "typing.List[" ++ type_repr P x ++ lit "]").
      rewrite (app_assoc (lit "typing.List[")). apply LB.
    - exfalso. revert E.
      change (key P (ANonEmpty x)) with (lit "aas_test_engines.reflect.NonEmptyList[" ++ type_repr P x ++ lit "]").
      rewrite (app_assoc (lit "aas_test_engines.reflect.NonEmptyList[")). apply LB.
  Qed.

  Theorem lookup_found a i0 t c : wf_program P ->
    (forall x y, Reach P env a x -> Reach P env a y -> key P x = key P y -> x = y) ->
    reflect P env a = Val (i0, t) ->
    (forall d, Reach P env a (ACls d) -> simple_name (name_of P d)) ->
    (forall d, Reach P env a (ACls d) -> name_of P d = name_of P c -> d = c) ->
    Reach P env a (ACls c) ->
    exists i, symbol_lookup t (name_of P c) = Val i /\ nth_error (List.map fst t) i = Some (key P (ACls c)).
  Proof.
    intros W KU E S U R. destruct (reflect_closed P env a i0 t E) as (ND & _ & C).
    assert (I := reflect_complete P env a i0 t (ACls c) W KU E R).
    assert (MK : forall i, Matches t (name_of P c) i -> nth_error (List.map fst t) i = Some (key P (ACls c))).
    { intros i (k & d & p & N & X). rewrite nth_error_map, N. unfold option_map, fst. apply nth_error_In in N. destruct (C k d N) as (b & d0 & K & Rb & D & _).
      rewrite K in X. destruct (key_matches b d0 _ p D (S c R)) with (2 := X) as (c' & -> & NM).
      - intros c' ->. now apply S.
      - rewrite K, (U c' Rb NM). reflexivity. }
    assert (exists i, Matches t (name_of P c) i) as [i M].
    { apply In_nth_error in I. destruct I as [i N]. exists i. rewrite nth_error_map in N.
      destruct (nth_error t i) as [[k d]|] eqn:T; [|discriminate]. unfold option_map, fst in N. assert (k = key P (ACls c)) by congruence. subst k.
      exists (key P (ACls c)), d. assert (J := T). apply nth_error_In in J. destruct (C _ _ J) as (b & d0 & K & Rb & D & _).
      destruct (class_of P c) as [kc|] eqn:Cc.
      - exists (lit "<class '" ++ c_module kc). split; [exact T|]. unfold key, full_name, name_of, tail_of.
        rewrite Cc, <- !app_assoc. reflexivity.
      - exfalso. (* a class that does not exist is not described *)
        clear - D K Cc.
        unfold key, full_name in K. rewrite Cc in K.
        destruct D; try (vm_compute in K; discriminate K).
        + unfold kind_of in H. destruct (class_of P c0) as [k0|] eqn:C0; [|discriminate].
          apply (f_equal (@length N)) in K. rewrite !app_length in K. simpl in K. lia.
        + unfold kind_of in H. destruct (class_of P c0) as [k0|] eqn:C0; [|discriminate].
          apply (f_equal (@length N)) in K. rewrite !app_length in K. simpl in K. lia.
        + destruct (class_of P c0) as [k0|] eqn:C0.
          * apply (f_equal (@length N)) in K. rewrite !app_length in K. simpl in K. lia.
          * unfold fields_of in H1. simpl in H1. unfold kind_of in H1. rewrite C0 in H1.
            unfold mro in H1. simpl in H1. unfold bases_of in H1. rewrite C0 in H1. simpl in H1. discriminate. }
    generalize (symbol_lookup_spec t (name_of P c)). destruct (symbol_lookup t (name_of P c)) as [j|e].
    - intros [M1 _]. exists j. auto.
    - intros [_ [X|(i1 & j1 & N & A & B)]]; [now apply X in M|]. exfalso. apply N.
      apply MK in A. apply MK in B. eapply NoDup_nth_error; [exact ND| |congruence].
      apply nth_error_Some. congruence.
  Qed.
  Theorem lookup_unknown a i0 t n : reflect P env a = Val (i0, t) -> simple_name n ->
    (forall d, Reach P env a (ACls d) -> simple_name (name_of P d) /\ name_of P d <> n) ->
    symbol_lookup t n = Raise ValueError.
  Proof.
    intros E Hn S. destruct (reflect_closed P env a i0 t E) as (_ & _ & C).
    assert (NM : forall i, ~ Matches t n i).
    { intros i (k & d & p & N & X). apply nth_error_In in N. destruct (C k d N) as (b & d0 & K & Rb & D & _).
      rewrite K in X. destruct (key_matches b d0 n p D Hn) with (2 := X) as (c' & -> & NM).
      - intros c' ->. now apply S.
      - now apply (S c'). }
    generalize (symbol_lookup_spec t n). destruct (symbol_lookup t n) as [j|e].
    - intros [M _]. now apply NM in M.
    - now intros [-> _].
  Qed.
End Lookup.
