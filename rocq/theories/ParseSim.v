(** Parsing two documents that agree as far as their types look at them. *)
From Coq Require Import PeanoNat Lia String List NArith Bool.
From Verif Require Import PyStr PyBase PyVal ReflectModel AdapterModel ParseModel ParseFacts.
Import ListNotations.
Local Open Scope list_scope.

Section Sim.
  Variables V1 V2 : Type.
  Variable A1 : adapter V1.
  Variable A2 : adapter V2.
  Variable P : list classdecl.
  Variable T : table.
  Variable repr : str -> str.
  Variable post_parse : str -> option (pyval -> outcome pyval).

  (** both methods succeed with related values, or both refuse, or both crash alike *)
  Definition same_res {B C} (Q : B -> C -> Prop) (a : adres B) (b : adres C) : Prop :=
    match a, b with
    | AOk x, AOk y => Q x y
    | ABad _, ABad _ => True
    | ACrash e, ACrash e' => e = e'
    | _, _ => False
    end.

  Variable depth1 : V1 -> nat.
  Variable depth2 : V2 -> nat.
  Hypothesis D1_list : forall b v l x, ad_list A1 b v = AOk l -> In x l -> depth1 x < depth1 v.
  Hypothesis D2_list : forall b v l x, ad_list A2 b v = AOk l -> In x l -> depth2 x < depth2 v.
  Hypothesis D1_object : forall v l k x, ad_object A1 v = AOk l -> In (k, x) l -> depth1 x < depth1 v.
  Hypothesis D2_object : forall v l k x, ad_object A2 v = AOk l -> In (k, x) l -> depth2 x < depth2 v.

  (** the documents agree for the type at an index of the table *)
  Variable R : nat -> V1 -> V2 -> Prop.

  Definition unknowns {B} (attrs : list (attribute nat)) (obj : list (str * B)) : list (str * B) :=
    filter (fun kv => negb (str_in (fst kv) (List.map json_name attrs))) obj.
  Definition same_members (attrs : list (attribute nat)) (o1 : list (str * V1)) (o2 : list (str * V2)) : Prop :=
    (forall a, In a attrs -> match lookup (json_name a) o1, lookup (json_name a) o2 with
                             | Some x, Some y => R (a_type a) x y
                             | None, None => True
                             | _, _ => False
                             end) /\
    length (unknowns attrs o1) = length (unknowns attrs o2).

  Hypothesis R_string : forall i k t v1 v2, nth_error T i = Some (k, t) -> (t = RString \/ (exists c, t = RSfv c) \/ exists c, t = REnum c) ->
    R i v1 v2 -> same_res eq (ad_string A1 v1) (ad_string A2 v2).
  Hypothesis R_bool : forall i k v1 v2, nth_error T i = Some (k, RBool) -> R i v1 v2 ->
    same_res eq (ad_bool A1 v1) (ad_bool A2 v2).
  Hypothesis R_list : forall i k j e v1 v2, nth_error T i = Some (k, RList j e) -> R i v1 v2 ->
    same_res (Forall2 (R j)) (ad_list A1 e v1) (ad_list A2 e v2).
  (** the class that is instantiated *)
  Definition Selected (i : nat) (v1 : V1) (c : nat) (attrs : list (attribute nat)) : Prop :=
    exists k c0 attrs0 static0 subs, nth_error T i = Some (k, RClass c0 attrs0 static0 subs) /\
      (is_abstract P c0 = false /\ c = c0 /\ attrs = attrs0 \/
       is_abstract P c0 = true /\ exists m static, ad_model_type A1 v1 = AOk m /\
         find_subclass P T (mt_name m) subs = Some (c, attrs, static)).
  Hypothesis R_tag_abstract : forall i k c attrs static subs v1 v2, nth_error T i = Some (k, RClass c attrs static subs) ->
    is_abstract P c = true -> R i v1 v2 ->
    same_res (fun m m' => mt_name m = mt_name m') (ad_model_type A1 v1) (ad_model_type A2 v2).
  Hypothesis R_tag_concrete : forall i v1 v2 c attrs, Selected i v1 c attrs -> has_requires_model_type P c = true -> R i v1 v2 ->
    same_res (fun m m' => mt_name m = mt_name m') (ad_model_type A1 v1) (ad_model_type A2 v2).
  Hypothesis R_object : forall i v1 v2 c attrs, Selected i v1 c attrs -> R i v1 v2 ->
    same_res (same_members attrs) (ad_object A1 v1) (ad_object A2 v2).

  Definition paths (r : list finding) : list path := List.map f_path r.
  Definition same {B} (o1 o2 : outcome (B * list finding)) : Prop :=
    match o1, o2 with
    | Val (x, r1), Val (y, r2) => x = y /\ paths r1 = paths r2
    | Raise e, Raise e' => e = e'
    | _, _ => False
    end.
  Lemma paths_app a b : paths (a ++ b) = paths a ++ paths b.
  Proof. apply map_app. Qed.
  Lemma same_refuse m m' p r1 r2 : paths r1 = paths r2 -> same (refuse m p r1) (refuse m' p r2).
  Proof. intros E. simpl. split; [reflexivity|]. rewrite !paths_app, E. reflexivity. Qed.
  Lemma same_bind {B C} (o1 o2 : outcome (B * list finding)) (h1 h2 : B * list finding -> outcome (C * list finding)) :
    same o1 o2 -> (forall x r1 r2, paths r1 = paths r2 -> same (h1 (x, r1)) (h2 (x, r2))) ->
    same (obind o1 h1) (obind o2 h2).
  Proof.
    destruct o1 as [[x r1]|e], o2 as [[y r2]|e']; simpl; try contradiction; try tauto.
    intros [-> E] H. now apply H.
  Qed.

  Notation parse1 := (parse V1 A1 P T repr post_parse).
  Notation parse2 := (parse V2 A2 P T repr post_parse).

  Section Step.
    Variables rec1 : nat -> path -> V1 -> list finding -> outcome (pyval * list finding).
    Variables rec2 : nat -> path -> V2 -> list finding -> outcome (pyval * list finding).

    Lemma items_sim j p l1 l2 : Forall2 (R j) l1 l2 ->
      (forall x y q r1 r2, In x l1 -> In y l2 -> R j x y -> paths r1 = paths r2 -> same (rec1 j q x r1) (rec2 j q y r2)) ->
      forall i r1 r2, paths r1 = paths r2 -> same (parse_items V1 rec1 j p i l1 r1) (parse_items V2 rec2 j p i l2 r2).
    Proof.
      intros F. induction F as [|x y l1 l2 H F IH]; intros Rec i r1 r2 E; [simpl; auto|].
      cbn [parse_items]. apply same_bind.
      - apply Rec; auto; now left.
      - intros z r1' r2' E'. apply same_bind.
        + apply IH; auto. intros. apply Rec; auto; now right.
        + intros zs r1'' r2'' E''. simpl. auto.
    Qed.
    Lemma attrs_sim p o1 o2 attrs :
      (forall a, In a attrs -> match lookup (json_name a) o1, lookup (json_name a) o2 with
                               | Some x, Some y => forall q r1 r2, paths r1 = paths r2 -> same (rec1 (a_type a) q x r1) (rec2 (a_type a) q y r2)
                               | None, None => True
                               | _, _ => False
                               end) ->
      forall r1 r2, paths r1 = paths r2 -> same (parse_attrs V1 rec1 attrs o1 p r1) (parse_attrs V2 rec2 attrs o2 p r2).
    Proof.
      induction attrs as [|a attrs IH]; intros H r1 r2 E; [simpl; auto|]. cbn [parse_attrs]. apply same_bind.
      - specialize (H a (or_introl eq_refl)).
        destruct (lookup (json_name a) o1), (lookup (json_name a) o2); try contradiction; [now apply H|].
        destruct (a_required a); [now apply same_refuse|simpl; auto].
      - intros x r1' r2' E'. apply same_bind; [apply IH; auto|].
        + intros b I. apply H. now right.
        + intros xs r1'' r2'' E''. simpl. auto.
    Qed.
    Lemma unknown_sim attrs p o1 o2 : length (unknowns attrs o1) = length (unknowns attrs o2) ->
      paths (unknown_attrs V1 attrs o1 p) = paths (unknown_attrs V2 attrs o2 p).
    Proof.
      unfold unknown_attrs. fold (unknowns attrs o1) (unknowns attrs o2). unfold paths. rewrite !map_map. simpl.
      generalize (unknowns attrs o1), (unknowns attrs o2). intros l1. induction l1 as [|x l1 IH]; intros [|y l2]; simpl; try discriminate; [reflexivity|].
      intros [= L]. f_equal. now apply IH.
    Qed.
    Definition same_list (o1 o2 : outcome (list finding)) : Prop :=
      match o1, o2 with Val r1, Val r2 => paths r1 = paths r2 | Raise e, Raise e' => e = e' | _, _ => False end.
    Lemma model_type_sim c p v1 v2 r1 r2 :
      (has_requires_model_type P c = true ->
        same_res (fun m m' => mt_name m = mt_name m') (ad_model_type A1 v1) (ad_model_type A2 v2)) -> paths r1 = paths r2 ->
      same_list (check_model_type V1 A1 P c p v1 r1) (check_model_type V2 A2 P c p v2 r2).
    Proof.
      intros H E. unfold check_model_type. destruct (has_requires_model_type P c); [|exact E]. specialize (H eq_refl).
      destruct (ad_model_type A1 v1), (ad_model_type A2 v2); simpl in H; try contradiction.
      - rewrite H. destruct (match mt_name a0 with Some n => str_eqb n (name_of P c) | None => false end); [exact E|].
        simpl. rewrite !paths_app, E. reflexivity.
      - simpl. rewrite !paths_app, E. reflexivity.
      - exact H.
    Qed.
    Lemma concrete_sim i v1 v2 c attrs static p r1 r2 : Selected i v1 c attrs -> R i v1 v2 ->
      (forall o1 o2 k k' x y j q s1 s2, ad_object A1 v1 = AOk o1 -> ad_object A2 v2 = AOk o2 -> In (k, x) o1 -> In (k', y) o2 ->
         R j x y -> paths s1 = paths s2 -> same (rec1 j q x s1) (rec2 j q y s2)) ->
      paths r1 = paths r2 ->
      same (parse_concrete V1 A1 P rec1 c attrs static p v1 r1) (parse_concrete V2 A2 P rec2 c attrs static p v2 r2).
    Proof.
      intros S Rv Rec E. unfold parse_concrete. pose proof (R_object _ _ _ _ _ S Rv) as O.
      pose proof (model_type_sim c p v1 v2 r1 r2 (fun h => R_tag_concrete _ _ _ _ _ S h Rv) E) as MT.
      destruct (ad_object A1 v1) as [o1|m1|e1] eqn:E1, (ad_object A2 v2) as [o2|m2|e2] eqn:E2; simpl in O; try contradiction;
        [|now apply same_refuse|exact O].
      destruct (check_model_type V1 A1 P c p v1 r1) as [s1|e1], (check_model_type V2 A2 P c p v2 r2) as [s2|e2]; simpl in MT; try contradiction; [|exact MT].
      cbn [obind]. destruct O as [O1 O2]. apply same_bind.
      - apply attrs_sim; [|exact MT]. intros a I. specialize (O1 a I).
        destruct (lookup (json_name a) o1) as [x|] eqn:L1, (lookup (json_name a) o2) as [y|] eqn:L2; try contradiction; [|exact Logic.I].
        assert (K1 : In (json_name a, x) o1).
        { now apply lookup_In. }
        assert (K2 : In (json_name a, y) o2).
        { now apply lookup_In. }
        intros. eapply Rec; eauto.
      - intros xs r1' r2' E'. simpl. split; [reflexivity|]. rewrite !paths_app, E'. f_equal. now apply unknown_sim.
    Qed.
  End Step.

  Theorem parse_sim : forall f1 f2 i p v1 v2 r1 r2, depth1 v1 < f1 -> depth2 v2 < f2 -> R i v1 v2 -> paths r1 = paths r2 ->
    same (parse1 f1 i p v1 r1) (parse2 f2 i p v2 r2).
  Proof.
    induction f1 as [|f1 IH]; intros [|f2] i p v1 v2 r1 r2 B1 B2 Rv E; try lia. cbn [parse].
    destruct (nth_error T i) as [[k t]|] eqn:N; [|reflexivity].
    assert (St : (t = RString \/ (exists c, t = RSfv c) \/ exists c, t = REnum c) ->
                 same_res eq (ad_string A1 v1) (ad_string A2 v2)) by (intros; eapply R_string; eauto).
    assert (Rec : forall c attrs static q s1 s2, Selected i v1 c attrs -> paths s1 = paths s2 ->
              same (parse_concrete V1 A1 P (parse1 f1) c attrs static q v1 s1) (parse_concrete V2 A2 P (parse2 f2) c attrs static q v2 s2)).
    { intros. eapply concrete_sim; eauto. intros. apply IH; auto.
      - match goal with H : ad_object A1 v1 = AOk _, I : In (_, x) _ |- _ => specialize (D1_object _ _ _ _ H I) end. lia.
      - match goal with H : ad_object A2 v2 = AOk _, I : In (_, y) _ |- _ => specialize (D2_object _ _ _ _ H I) end. lia. }
    destruct t as [| | | | | |c|c|c attrs static subs|j e].
    all: try reflexivity.
    all: try (simpl; auto; fail).
    - (* string *) unfold parse_string. specialize (St (or_introl eq_refl)).
      destruct (ad_string A1 v1), (ad_string A2 v2); simpl in St; try contradiction; [subst; simpl; auto|now apply same_refuse|exact St].
    - (* bool *) unfold parse_bool. pose proof (R_bool _ _ _ _ N Rv) as H.
      destruct (ad_bool A1 v1), (ad_bool A2 v2); simpl in H; try contradiction; [subst; simpl; auto|now apply same_refuse|exact H].
    - (* enum *) unfold parse_enum. specialize (St (or_intror (or_intror (ex_intro _ c eq_refl)))).
      destruct (ad_string A1 v1), (ad_string A2 v2); simpl in St; try contradiction; [subst|now apply same_refuse|exact St].
      destruct (kind_of P c); try reflexivity. destruct (find _ members); [simpl; auto|now apply same_refuse].
    - (* sfv *) unfold parse_sfv. specialize (St (or_intror (or_introl (ex_intro _ c eq_refl)))).
      destruct (ad_string A1 v1), (ad_string A2 v2); simpl in St; try contradiction; [subst|now apply same_refuse|exact St].
      destruct (kind_of P c); try reflexivity. destruct (sfv_construct _ _); [simpl; auto|now apply same_refuse|reflexivity].
    - (* class *) destruct (is_abstract P c) eqn:Ab.
      + unfold parse_abstract. pose proof (R_tag_abstract _ _ _ _ _ _ _ _ N Ab Rv) as H.
        destruct (ad_model_type A1 v1) as [m1|m1|e1] eqn:E1, (ad_model_type A2 v2) as [m2|m2|e2] eqn:E2; simpl in H; try contradiction;
          [|now apply same_refuse|exact H].
        rewrite <- H. destruct (find_subclass P T (mt_name m1) subs) as [[[c' attrs'] static']|] eqn:Fs; [|now apply same_refuse].
        apply Rec; [|exact E]. exists k, c, attrs, static, subs. split; [exact N|]. right. split; [exact Ab|]. exists m1, static'. auto.
      + apply same_bind.
        * apply Rec; [|exact E]. exists k, c, attrs, static, subs. split; [exact N|]. left. auto.
        * intros x s1 s2 Es.
          assert (Z : s1 = [] /\ s2 = [] \/ s1 <> [] /\ s2 <> []).
          { destruct s1, s2; simpl in Es; try discriminate; [left; auto|right; split; discriminate]. }
          destruct x; try (simpl; auto; fail). destruct (post_parse cls) as [h|]; [|simpl; auto].
          destruct Z as [[-> ->]|[Z1 Z2]].
          -- destruct (h (VObj cls attrs0)); simpl; auto.
          -- destruct s1; [contradiction|]. destruct s2; [contradiction|]. simpl. auto.
    - (* list *) unfold parse_list. pose proof (R_list _ _ _ _ _ _ N Rv) as H.
      destruct (ad_list A1 e v1) as [l1|m1|e1] eqn:E1, (ad_list A2 e v2) as [l2|m2|e2] eqn:E2; simpl in H; try contradiction;
        [|now apply same_refuse|exact H].
      apply same_bind.
      + apply items_sim; auto. intros x y q s1 s2 I1 I2 Rx Es. apply IH; auto.
        * specialize (D1_list _ _ _ _ E1 I1). lia.
        * specialize (D2_list _ _ _ _ E2 I2). lia.
      + intros xs s1 s2 Es. simpl. auto.
  Qed.
End Sim.
