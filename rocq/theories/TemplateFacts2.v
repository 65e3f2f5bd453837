(** The template check: reports of cardinality violations, unknown elements, submodels and environments. *)
From Coq Require Import PeanoNat String List NArith Bool Lia.
From Verif Require Import PyStr PyStrFacts PyBase PyVal ResultModel ResultFacts ReflectModel ReflectFacts MetaModel MetaFacts AdapterModel ParseModel ParseFacts ConstraintModel CheckModel TypeSpec TypeFacts TypeFacts2 ConstraintSpec ConstraintFacts PathSpec PathFacts TemplateModel TemplateSpec TemplateFacts.
Import ListNotations.
Local Open Scope list_scope.

(** * The templates are well-formed *)
Fixpoint well_formed (t : ttype) : bool :=
  match t with
  | TtClass _ fs => nodupb (List.map tf_sid fs) && forallb (fun f => well_formed (tf_type f)) fs
  | _ => true
  end.
Lemma well_formed_spec t : well_formed t = true -> WellFormed t.
Proof.
  induction t as [| | |n ms|n fs IH] using ttype_ind'; intros H; try constructor.
  - cbn [well_formed] in H. apply andb_true_iff in H as [H _]. now apply nodupb_spec.
  - cbn [well_formed] in H. apply andb_true_iff in H as [_ H]. intros f I. apply (proj1 (Forall_forall _ _) IH f I). exact (proj1 (forallb_forall _ _) H f I).
Qed.
Definition template_ok (q : str * ttype) : bool := well_formed (snd q) && match snd q with TtClass _ _ => true | _ => false end.
Lemma templates_ok : forallb template_ok templates = true. Proof. vm_compute. reflexivity. Qed.
Lemma template_cases sid t : TemplateOf sid t -> WellFormed t /\ (t = T_DigitalNameplate \/ t = T_ContactInformations).
Proof.
  intros I. apply (proj1 (forallb_forall _ _) templates_ok) in I as O. apply andb_true_iff in O as [O _]. cbn [snd] in O. split; [now apply well_formed_spec|].
  unfold TemplateOf, templates in I. destruct I as [I|[I|[]]]; injection I as _ <-; auto.
Qed.
Lemma templates_names : NoDup (List.map fst templates). Proof. apply nodupb_spec. vm_compute. reflexivity. Qed.
Lemma lookup_template sid t : lookup sid templates = Some t <-> TemplateOf sid t.
Proof. split; [apply lookup_In|apply lookup_nodup; exact templates_names]. Qed.
Definition no_nameplate (t : ttype) : bool := negb (str_in (lit "DigitalNameplate") (classes_in t)).
Lemma contact_no_nameplate : no_nameplate T_ContactInformations = true. Proof. vm_compute. reflexivity. Qed.
Lemma below_no_nameplate : forallb (fun f => no_nameplate (tf_type f)) (fields_of T_DigitalNameplate) = true. Proof. vm_compute. reflexivity. Qed.
Lemma nameplate_names : NoDup (List.map tf_name (fields_of T_DigitalNameplate)). Proof. apply nodupb_spec. vm_compute. reflexivity. Qed.
Definition has_field (n : str) (s : str) : bool :=
  match find (fun f => str_eqb (tf_name f) n) (fields_of T_DigitalNameplate) with Some f => str_eqb (tf_sid f) s | None => false end.
Lemma family_field : has_field (lit "manufacturer_product_family") nameplate_family = true. Proof. vm_compute. reflexivity. Qed.
Lemma type_field : has_field (lit "manufacturer_product_type") nameplate_type = true. Proof. vm_compute. reflexivity. Qed.
Lemma nameplate_class : T_DigitalNameplate = TtClass (lit "DigitalNameplate") (fields_of T_DigitalNameplate). Proof. reflexivity. Qed.
Lemma contact_class : T_ContactInformations = TtClass (lit "ContactInformations") (fields_of T_ContactInformations). Proof. reflexivity. Qed.
Lemma nameplate_methods : template_methods (lit "DigitalNameplate") = [(lit "check_family_or_type_present", check_family_or_type_present)].
Proof. vm_compute. reflexivity. Qed.
Lemma contact_is_no_nameplate : T_ContactInformations <> T_DigitalNameplate. Proof. unfold T_ContactInformations, T_DigitalNameplate. intros E. injection E as E _. vm_compute in E. discriminate. Qed.
Local Opaque model_types model_classes model_supers templates T_DigitalNameplate T_ContactInformations.

Section Repr.
Variable repr : str -> str.
Notation pe := (parse_element repr).

(** * Cardinality violations are reported *)
Lemma decided_prefix {X} (o : outcome (X * messages)) r C G Q x r' : Decided o r C G Q -> o = Val (x, r') -> exists m, r' = r ++ m.
Proof. intros [(ex & -> & _)|(y & m & -> & _)] E; [discriminate|]. exists m. congruence. Qed.
Lemma fields_step fs l : Forall (fun f => Checks repr (tf_type f)) fs -> (forall e, In e l -> El e) -> forall seen p r args r',
  NoDup (List.map tf_sid fs) -> (forall f, In f fs -> ~ In (tf_sid f) seen) ->
  parse_fields repr fs seen (pairs l) p r = Val (args, r') -> forall f, In f fs ->
  exists r0 x r1 m, parse_field f (pe (tf_type f)) (pairs l) p r0 = Val (x, r1) /\ r' = r1 ++ m.
Proof.
  intros K H. induction K as [|f fs Kf K IH]; intros seen p r args r' N D E g I; [destruct I|]. cbn [parse_fields] in E.
  assert (Es : str_in (tf_sid f) seen = false).
  { destruct (str_in (tf_sid f) seen) eqn:Es; [|reflexivity]. apply str_in_spec in Es. destruct (D f (or_introl eq_refl) Es). }
  rewrite Es in E. cbn [List.map] in N. inversion N as [|? ? N1 N2]; subst.
  assert (D' : forall g, In g fs -> ~ In (tf_sid g) (tf_sid f :: seen)).
  { intros g' J [Q|Q]; [apply N1; rewrite Q; apply in_map; exact J|]. apply (D g'); [now right|exact Q]. }
  destruct (parse_field f _ _ _ _) as [[x r1]|] eqn:E1; cbn [obind] in E; [|discriminate].
  destruct (parse_fields repr fs _ _ _ _) as [[xs r2]|] eqn:E2; cbn [obind] in E; [|discriminate]. injection E as <- <-.
  destruct I as [<-|I].
  - destruct (decided_prefix _ _ _ _ _ _ _ (checks_fields repr fs l K H (tf_sid f :: seen) p r1 N2 D') E2) as (m & ->). exists r, x, r1, m. auto.
  - eapply IH; eauto.
Qed.
Lemma each_step t l : Checks repr t -> (forall e, In e l -> El e) -> forall i p r xs r', parse_each (pe t) i l p r = Val (xs, r') ->
  forall e, In e l -> exists p0 r0 x r1 m, pe t e p0 r0 = Val (x, r1) /\ r' = r1 ++ m.
Proof.
  intros K. induction l as [|e l IH]; intros H i p r xs r' E e' I; [destruct I|]. cbn [parse_each] in E.
  destruct (pe t e _ _) as [[x r1]|] eqn:E1; cbn [obind] in E; [|discriminate].
  destruct (parse_each _ _ _ _ _) as [[ys r2]|] eqn:E2; cbn [obind] in E; [|discriminate]. injection E as <- <-.
  assert (H' : forall e0, In e0 l -> El e0) by (intros; apply H; now right). destruct I as [<-|I].
  - destruct (decided_prefix _ _ _ _ _ _ _ (checks_each repr t l K (S i) p r1 H') E2) as (m & ->). exists (p ++ [SIdx i]), r, x, r1, m. auto.
  - eapply IH; eauto.
Qed.
Lemma field_step f l p r x r' : Checks repr (tf_type f) -> (forall e, In e l -> El e) ->
  parse_field f (pe (tf_type f)) (pairs l) p r = Val (x, r') -> Allowed (tf_shape f) (length (having (tf_sid f) l)) ->
  forall e, In e (having (tf_sid f) l) -> exists p0 r0 y r1 m, pe (tf_type f) e p0 r0 = Val (y, r1) /\ r' = r1 ++ m.
Proof.
  intros K H E A e I. assert (H' : forall e, In e (having (tf_sid f) l) -> El e) by (intros e' J; apply having_in in J as [J _]; auto).
  unfold parse_field in E. rewrite with_semantic_id_eq in E. apply allowed_unwrap in A. destruct (unwrap (tf_shape f)) as [mn mx] eqn:U.
  pose proof (unwrap_max (tf_shape f)) as M. rewrite U in M. cbn [fst snd] in *. destruct A as [A1 A2].
  set (sub := having (tf_sid f) l) in *.
  assert (B1 : match mx with Some m => m <? length sub | None => false end = false) by (destruct mx; [now apply Nat.ltb_ge|reflexivity]).
  rewrite B1 in E. rewrite (proj2 (Nat.ltb_ge _ _) A1) in E. destruct sub as [|e0 sub']; [destruct I|].
  destruct M as [->| ->].
  - destruct sub'; [|cbn in A2; lia]. destruct I as [<-|[]]. exists (p ++ [SKey (to_camel_case (tf_name f))]), r, x, r', []. rewrite app_nil_r. auto.
  - destruct (parse_each _ _ _ _ _) as [[ys r2]|] eqn:E2; cbn [obind] in E; [|discriminate]. injection E as <- <-.
    eapply each_step; eauto.
Qed.
Lemma violation_reported f l p r x r' : parse_field f (pe (tf_type f)) (pairs l) p r = Val (x, r') ->
  ~ Allowed (tf_shape f) (length (having (tf_sid f) l)) -> Reported r' f (length (having (tf_sid f) l)).
Proof.
  unfold parse_field. rewrite with_semantic_id_eq. intros E A. rewrite allowed_unwrap in A.
  assert (S : unwrap (tf_shape f) = (1, Some 1) \/ unwrap (tf_shape f) = (1, None) \/ unwrap (tf_shape f) = (0, Some 1) \/ unwrap (tf_shape f) = (0, None)) by (destruct (tf_shape f); auto).
  set (n := length (having (tf_sid f) l)) in *. exists (to_camel_case (tf_name f)).
  assert (Q : forall (m m' : str) (y : pyval) (o : outcome (pyval * messages)), Val (y, r ++ [m]) = Val (x, r') -> m = m' -> In m' r').
  { intros m m' y _ Q <-. assert (r' = r ++ [m]) by congruence. subst r'. apply in_or_app. right. now left. }
  destruct S as [S|[S|[S|S]]]; rewrite S in A, E; cbn [fst snd] in A.
  - destruct (1 <? n) eqn:B.
    + apply Nat.ltb_lt in B. eapply Q; [exact (Val (x, r'))|exact E|]. rewrite (proj2 (Nat.eqb_neq n 0)) by lia. rewrite <- !app_assoc. reflexivity.
    + apply Nat.ltb_ge in B. assert (n = 0) by lia. rewrite (proj2 (Nat.ltb_lt n 1)) in E by lia. eapply Q; [exact (Val (x, r'))|exact E|].
      rewrite (proj2 (Nat.eqb_eq n 0)) by lia. rewrite <- !app_assoc. reflexivity.
  - assert (n = 0) by lia. rewrite (proj2 (Nat.ltb_lt n 1)) in E by lia. eapply Q; [exact (Val (x, r'))|exact E|].
    rewrite (proj2 (Nat.eqb_eq n 0)) by lia. rewrite <- !app_assoc. reflexivity.
  - assert (1 < n) by lia. rewrite (proj2 (Nat.ltb_lt 1 n)) in E by lia. eapply Q; [exact (Val (x, r'))|exact E|].
    rewrite (proj2 (Nat.eqb_neq n 0)) by lia. rewrite <- !app_assoc. reflexivity.
  - lia.
Qed.
Lemma reported_more r m f n : Reported r f n -> Reported (r ++ m) f n.
Proof. intros (name & I). exists name. apply in_or_app. now left. Qed.
Lemma class_step n gs e p r x r' : El e -> Present e "value" -> pe (TtClass n gs) e p r = Val (x, r') ->
  exists args l, items e "value" = l /\ (forall y, In y l -> El y) /\ parse_fields repr gs [] (pairs l) p r = Val (args, r').
Proof.
  intros H Pr E. rewrite parse_element_eq in E. assert (D : Container e \/ ~ Container e).
  { destruct H as (c & kvs & -> & _). rewrite container_spec. destruct (is_container c); [now left|right; discriminate]. }
  destruct D as [D|D].
  - destruct (container_value e H D) as [G [V|(l & V & Nl & L)]]; [contradiction|]. rewrite G, V in E. cbn [obind is_none as_items] in E.
    rewrite (by_semantic_id_eq l L) in E. cbn [obind] in E. destruct (parse_fields _ _ _ _ _ _) as [[args r1]|] eqn:E1; cbn [obind] in E; [|discriminate].
    assert (r1 = r') by congruence. subst r1. exists args, l. split; [unfold items; now rewrite V|]. auto.
  - destruct (other_value e H D) as [(_ & ex & Q)|(_ & Q)].
    + destruct (getattr e (lit "value")) as [v|]; cbn [obind] in *; [|discriminate]. destruct (is_none v); [discriminate|].
      destruct (as_items v) as [l|]; cbn [obind] in *; [|discriminate]. rewrite Q in E. discriminate.
    + apply getattr_attr in Q. contradiction.
Qed.
Theorem reaches_reported fs l f l' : Reaches fs l f l' -> WellFormed (TtClass [] fs) -> (forall e, In e l -> El e) -> forall p r args r',
  parse_fields repr fs [] (pairs l) p r = Val (args, r') ->
  ~ Allowed (tf_shape f) (length (having (tf_sid f) l')) -> Reported r' f (length (having (tf_sid f) l')).
Proof.
  induction 1 as [fs l f I|fs l f n gs x g l' I Et A J Pr R IH]; intros W H p r args r' E V;
    inversion W as [| | | |? ? N Wf]; subst;
    assert (K : Forall (fun f => Checks repr (tf_type f)) fs) by (apply Forall_forall; intros h Ih; apply checks; auto);
    destruct (fields_step fs l K H [] p r args r' N (fun _ _ F => F) E f I) as (r0 & y & r1 & m & E1 & ->); apply reported_more.
  - eapply violation_reported; eauto.
  - destruct (field_step f l p r0 y r1 (proj1 (Forall_forall _ _) K f I) H E1 A x J) as (p2 & r2 & z & r3 & m' & E2 & ->). apply reported_more.
    rewrite Et in E2. assert (Hx : El x) by (apply having_in in J as [J _]; auto).
    destruct (class_step _ _ _ _ _ _ _ Hx Pr E2) as (args' & l2 & El2 & L2 & E3). subst l2. eapply IH; eauto.
    pose proof (Wf f I) as Wc. rewrite Et in Wc. inversion Wc; subst. now constructor.
Qed.

(** * Elements unknown to the template *)
Lemma having_app s a b : having s (a ++ b) = having s a ++ having s b. Proof. apply filter_app. Qed.
Lemma having_cons s e l : having s (e :: l) = if has_id s e then e :: having s l else having s l. Proof. reflexivity. Qed.
Lemma has_id_spec s e : has_id s e = true <-> Has_id s e.
Proof.
  unfold has_id, Has_id. destruct (semantic_id e) as [k|]; [|split; discriminate]. rewrite str_eqb_spec. split; congruence.
Qed.
Lemma with_value_attr e l n : lit n <> lit "value" -> attr (with_value e l) n = attr e n.
Proof.
  intros N. destruct e; try reflexivity. cbn [with_value attr]. now rewrite lookup_assign_other.
Qed.
Lemma with_value_id e l : semantic_id (with_value e l) = semantic_id e.
Proof. unfold semantic_id. rewrite with_value_attr; [reflexivity|]. intros E. vm_compute in E. discriminate. Qed.
Lemma with_value_value e l : El e -> getattr (with_value e l) (lit "value") = Val (VList l).
Proof. intros (c & kvs & -> & _). cbn [with_value getattr]. now rewrite lookup_assign_same. Qed.
Lemma with_value_container e l : El e -> Container e -> Container (with_value e l).
Proof. intros (c & kvs & -> & _). cbn [with_value]. rewrite !container_spec. auto. Qed.

Lemma parse_field_cong f rec l l' : length (having (tf_sid f) l) = length (having (tf_sid f) l') ->
  (forall i p r, parse_each rec i (having (tf_sid f) l) p r = parse_each rec i (having (tf_sid f) l') p r) ->
  (forall e e', nth_error (having (tf_sid f) l) 0 = Some e -> nth_error (having (tf_sid f) l') 0 = Some e' -> forall p r, rec e p r = rec e' p r) ->
  forall p r, parse_field f rec (pairs l) p r = parse_field f rec (pairs l') p r.
Proof.
  intros L E H p r. unfold parse_field. rewrite !with_semantic_id_eq, L. destruct (unwrap (tf_shape f)) as [mn mx].
  destruct (match mx with Some _ => _ | None => _ end); [reflexivity|]. destruct (_ <? mn); [reflexivity|].
  specialize (E 0 (p ++ [SKey (to_camel_case (tf_name f))]) r). destruct (having (tf_sid f) l) as [|e s], (having (tf_sid f) l') as [|e' s']; try discriminate L; [reflexivity|].
  specialize (H e e' eq_refl eq_refl (p ++ [SKey (to_camel_case (tf_name f))]) r). destruct mx as [[|[|]]|]; try (now rewrite E). exact H.
Qed.
Lemma parse_each_cong rec e e' b : (forall p r, rec e p r = rec e' p r) -> forall a i p r,
  parse_each rec i (a ++ e :: b) p r = parse_each rec i (a ++ e' :: b) p r.
Proof.
  intros H. induction a as [|x a IH]; intros i p r; cbn [app parse_each]; [now rewrite H|].
  destruct (rec x _ _) as [[y r1]|]; cbn [obind]; [|reflexivity]. now rewrite IH.
Qed.
Lemma parse_fields_cong fs l l' : (forall f, In f fs -> forall p r, parse_field f (pe (tf_type f)) (pairs l) p r = parse_field f (pe (tf_type f)) (pairs l') p r) ->
  forall seen p r, parse_fields repr fs seen (pairs l) p r = parse_fields repr fs seen (pairs l') p r.
Proof.
  induction fs as [|f fs IH]; intros H seen p r; [reflexivity|]. cbn [parse_fields]. destruct (str_in _ _); [reflexivity|].
  rewrite (H f (or_introl eq_refl)). destruct (parse_field _ _ _ _ _) as [[x r1]|]; cbn [obind]; [|reflexivity].
  rewrite IH; [reflexivity|]. intros; apply H; now right.
Qed.
Lemma class_container n gs e p r : El e -> Container e -> forall l, getattr e (lit "value") = Val (VList l) -> (forall x, In x l -> El x) ->
  pe (TtClass n gs) e p r = let* (args, r') := parse_fields repr gs [] (pairs l) p r in Val (VObj n args, r').
Proof.
  intros H D l G L. rewrite parse_element_eq, G. cbn [obind is_none as_items]. now rewrite (by_semantic_id_eq l L).
Qed.
Theorem inserted_same fs l l' : Inserted fs l l' -> WellFormed (TtClass [] fs) -> (forall e, In e l -> El e) -> (forall e, In e l' -> El e) ->
  forall seen p r, parse_fields repr fs seen (pairs l) p r = parse_fields repr fs seen (pairs l') p r.
Proof.
  induction 1 as [fs a u b U|fs a e b l' f n gs I Hi Et C Pr J IH]; intros W H H' seen p r;
    inversion W as [| | | |? ? N Wf]; subst; apply parse_fields_cong; intros g Ig p0 r0.
  - assert (E : having (tf_sid g) (a ++ u :: b) = having (tf_sid g) (a ++ b)).
    { rewrite !having_app, having_cons. destruct (has_id (tf_sid g) u) eqn:Q; [|reflexivity]. apply has_id_spec in Q. destruct (U g Ig Q). }
    apply parse_field_cong; rewrite ?E; [reflexivity|reflexivity|]. intros e e' X Y. intros; congruence.
  - assert (He : El e) by (apply H; apply in_or_app; right; now left).
    assert (He' : El (with_value e l')) by (apply H'; apply in_or_app; right; now left).
    assert (Same : forall p r, pe (TtClass n gs) e p r = pe (TtClass n gs) (with_value e l') p r).
    { intros p1 r1. destruct (container_value e He C) as [G [V|(l & V & Nl & L)]]; [contradiction|].
      assert (It : items e "value" = l) by (unfold items; now rewrite V).
      rewrite V in G. rewrite (class_container n gs e p1 r1 He C l G L).
      pose proof (with_value_value e l' He) as G'. pose proof (with_value_container e l' He C) as C'.
      destruct (container_value _ He' C') as [G2 [V2|(l2 & V2 & N2 & L2)]]; [congruence|]. assert (l2 = l') by congruence. subst l2.
      rewrite (class_container n gs (with_value e l') p1 r1 He' C' l' G' L2). rewrite It in IH.
      rewrite IH; [reflexivity| |exact L|exact L2]. pose proof (Wf f I) as Wc. rewrite Et in Wc. inversion Wc; subst. now constructor. }
    assert (Hid : has_id (tf_sid g) (with_value e l') = has_id (tf_sid g) e) by (unfold has_id; now rewrite with_value_id).
    destruct (has_id (tf_sid g) e) eqn:Q.
    + assert (g = f) as ->.
      { apply has_id_spec in Q. unfold Has_id in *. assert (Sid : tf_sid g = tf_sid f) by congruence.
        assert (Nf : forall (l : list (tfield ttype)), NoDup (List.map tf_sid l) -> In g l -> In f l -> g = f).
        { induction l as [|h l IHl]; intros Nn; [intros []|]. cbn [List.map] in Nn. inversion Nn as [|? ? N1 N2]; subst.
          intros [<-|A] [<-|B]; auto; exfalso; apply N1; [rewrite Sid|rewrite <- Sid]; now apply in_map. }
        now apply (Nf fs). }
      rewrite Et. apply parse_field_cong; rewrite !having_app, !having_cons, Hid, Q.
      * rewrite !app_length. reflexivity.
      * intros. now apply parse_each_cong.
      * intros x y X Y. destruct (having (tf_sid f) a); cbn [app nth_error] in X, Y; [|intros; congruence].
        assert (x = e) by congruence. assert (y = with_value e l') by congruence. subst. exact Same.
    + apply parse_field_cong; rewrite !having_app, !having_cons, Hid, Q; [reflexivity|reflexivity|]. intros x y X Y. intros; congruence.
Qed.

(** * Submodels *)
Definition Sub := Inst "Submodel".
Lemma submodel_value s : Sub s -> getattr s (lit "submodel_elements") = Val (attr s "submodel_elements") /\
  (attr s "submodel_elements" = VNone \/ exists l, attr s "submodel_elements" = VList l /\ items s "submodel_elements" = l /\ l <> [] /\ forall x, In x l -> El x).
Proof.
  intros H. destruct (inst_attr _ _ _ _ k_submodel_elements H) as [G [V|(l & V & N & Q)]]; (split; [exact G|]); [now left|right].
  exists l. split; [exact V|]. split; [unfold items; now rewrite V|]. split; [now apply N|exact Q].
Qed.
Lemma parse_submodel_eq n fs s : parse_submodel repr (TtClass n fs) s =
  let* v := getattr s (lit "submodel_elements") in
  let* l := as_items v in
  let* elements := by_semantic_id l in
  let* (args, r) := parse_fields repr fs [] elements [] [] in
  Val (VObj n args, r).
Proof. reflexivity. Qed.
Theorem parse_submodel_decided n fs s : WellFormed (TtClass n fs) -> Sub s ->
  Decided (parse_submodel repr (TtClass n fs) s) [] (ConformAll fs (items s "submodel_elements")) (SubmodelGivesUp (TtClass n fs) s)
    (fun x => exists args, x = VObj n args /\ FieldsImage (items s "submodel_elements") fs args).
Proof.
  intros W H. inversion W as [| | | |? ? N Wf]; subst. rewrite parse_submodel_eq.
  destruct (submodel_value s H) as [G [V|(l & V & It & Nl & L)]]; rewrite G, V; cbn [obind as_items].
  - apply decided_raise. left. exact V.
  - rewrite (by_semantic_id_eq l L). cbn [obind]. rewrite It.
    assert (K : Forall (fun f => Checks repr (tf_type f)) fs) by (apply Forall_forall; intros h Ih; apply checks; auto).
    eapply decided_iff; [apply decided_map; apply (checks_fields repr fs l K L); [exact N|intros f _ []]| | |].
    + unfold ConformAll, FieldConforms. split.
      * intros Q. split; [intros f I; apply (Q f I)|intros f x I; apply (Q f I)].
      * intros [Q1 Q2] f I. split; [auto|]. intros x. now apply Q2.
    + unfold SubmodelGivesUp, GivesUpAmong, FieldGivesUp. cbn [fields_of]. rewrite It. split.
      * intros (f & I & A & x & J & Q). right. exists f, x. auto.
      * intros [Q|(f & x & I & A & J & Q)]; [unfold Absent in Q; congruence|]. exists f. split; [exact I|]. split; [exact A|eauto].
    + intros x _ _ Q. exact Q.
Qed.

(** ** The rule of the nameplate *)
Lemma image_field l fs args : FieldsImage l fs args -> NoDup (List.map tf_name fs) -> forall f, In f fs -> exists x, lookup (tf_name f) args = Some x /\ FieldImage l f x.
Proof.
  induction 1 as [|f [k x] fs args [Q1 Q2] F IH]; intros N g I; [destruct I|]. cbn [List.map] in N. inversion N as [|? ? N1 N2]; subst. cbn [fst snd] in *. subst k.
  cbn [lookup]. destruct I as [<-|I].
  - rewrite (proj2 (str_eqb_spec _ _) eq_refl). eauto.
  - destruct (str_eqb (tf_name g) (tf_name f)) eqn:E; [apply str_eqb_spec in E; destruct N1; rewrite <- E; now apply in_map|]. auto.
Qed.
Lemma named_field n s : has_field n s = true -> exists f, In f (fields_of T_DigitalNameplate) /\ tf_name f = n /\ tf_sid f = s.
Proof.
  unfold has_field. destruct (find _ _) as [f|] eqn:F; [|discriminate]. intros E. apply find_some in F as [I F]. apply str_eqb_spec in E, F. eauto.
Qed.
Lemma not_none_having l f x : FieldImage l f x -> is_none x = negb (match having (tf_sid f) l with [] => false | _ => true end).
Proof.
  intros [Q _]. destruct (having (tf_sid f) l) eqn:E; [rewrite (proj2 Q eq_refl); reflexivity|]. destruct x; try reflexivity. assert (p :: l0 = []) by (now apply Q). discriminate.
Qed.
Lemma family_checked l args : FieldsImage l (fields_of T_DigitalNameplate) args ->
  (check_family_or_type_present (VObj (lit "DigitalNameplate") args) = fine /\ FamilyOrType l) \/
  (check_family_or_type_present (VObj (lit "DigitalNameplate") args) = violated (lit "Either ManufacturerProductFamily or ManufacturerProductType is required") /\ ~ FamilyOrType l).
Proof.
  intros F. destruct (named_field _ _ family_field) as (f & I & Nf & Sf). destruct (named_field _ _ type_field) as (g & J & Ng & Sg).
  destruct (image_field _ _ _ F nameplate_names f I) as (x & Lx & Qx). destruct (image_field _ _ _ F nameplate_names g J) as (y & Ly & Qy).
  rewrite Nf in Lx. rewrite Ng in Ly. unfold check_family_or_type_present, FamilyOrType. cbn [getattr]. rewrite Lx, Ly. cbn [obind].
  rewrite (not_none_having _ _ _ Qx), (not_none_having _ _ _ Qy), Sf, Sg.
  destruct (having nameplate_family l); cbn [negb]; [|left; split; [reflexivity|left; discriminate]].
  destruct (having nameplate_type l); cbn [negb]; [|left; split; [reflexivity|right; discriminate]].
  right. split; [reflexivity|]. intros [Q|Q]; now apply Q.
Qed.
Lemma template_methods_in c n m : In (n, m) (template_methods c) -> c = lit "DigitalNameplate" /\ m = check_family_or_type_present.
Proof.
  unfold template_methods. destruct (str_eqb c (lit "DigitalNameplate")) eqn:E; [|intros []]. apply str_eqb_spec in E.
  intros [Q|[]]. split; [exact E|]. congruence.
Qed.
Lemma nameplate_findings l args : FieldsImage l (fields_of T_DigitalNameplate) args ->
  exists fs, check_constraints template_methods (VObj (lit "DigitalNameplate") args) [] = Val fs /\
    ((fs = [] /\ FamilyOrType l) \/
     (fs <> [] /\ (forall f, In f fs -> f = CFinding ERROR (lit "Either ManufacturerProductFamily or ManufacturerProductType is required") []) /\ ~ FamilyOrType l)).
Proof.
  intros F.
  assert (Top : forall q r, Called template_methods (VObj (lit "DigitalNameplate") args) q r -> q = [] /\ r = check_family_or_type_present (VObj (lit "DigitalNameplate") args)).
  { intros q r (c & kvs & n & m & O & I & ->). apply template_methods_in in I as [-> ->].
    destruct (image_obj _ _ _ _ F _ _ _ O) as [(-> & _ & ->)|J]; [auto|]. exfalso.
    apply in_concat in J as (cs & J1 & J2). apply in_map_iff in J1 as (f & <- & J1). apply (proj1 (forallb_forall _ _) below_no_nameplate) in J1.
    unfold no_nameplate in J1. apply negb_true_iff in J1. apply (proj2 (str_in_spec _ _)) in J2. congruence. }
  assert (Top' : Called template_methods (VObj (lit "DigitalNameplate") args) [] (check_family_or_type_present (VObj (lit "DigitalNameplate") args))).
  { exists (lit "DigitalNameplate"), args, (lit "check_family_or_type_present"), check_family_or_type_present. split; [constructor|]. split; [|reflexivity].
    rewrite nameplate_methods. now left. }
  pose proof (check_collects template_methods (VObj (lit "DigitalNameplate") args) []) as C.
  destruct (family_checked l args F) as [[E Q]|[E Q]]; destruct (check_constraints template_methods _ []) as [fs|ex]; cbn [Collects] in C.
  - exists fs. split; [reflexivity|]. left. split; [|exact Q]. destruct fs as [|f fs]; [reflexivity|]. destruct C as [_ C].
    destruct (proj1 (C f) (or_introl eq_refl)) as (q & lv & t & K & _). apply Top in K as [_ K]. rewrite E in K. discriminate.
  - destruct C as (q & C). apply Top in C as [_ C]. rewrite E in C. discriminate.
  - exists fs. split; [reflexivity|]. right. destruct C as [_ C]. rewrite E in Top'. split; [|split; [|exact Q]].
    + intros ->. unfold violated in Top'. apply (proj2 (C (CFinding ERROR (lit "Either ManufacturerProductFamily or ManufacturerProductType is required") []))). exists [], ERROR. eexists. split; [exact Top'|reflexivity].
    + intros f I. apply C in I as (q & lv & t & K & ->). apply Top in K as [-> K]. rewrite E in K. unfold violated in K. cbn [app]. congruence.
  - destruct C as (q & C). apply Top in C as [_ C]. rewrite E in C. discriminate.
Qed.
Lemma contact_findings l args : FieldsImage l (fields_of T_ContactInformations) args ->
  check_constraints template_methods (VObj (lit "ContactInformations") args) [] = Val [].
Proof.
  intros F.
  assert (Top : forall q r, ~ Called template_methods (VObj (lit "ContactInformations") args) q r).
  { intros q r (c & kvs & n & m & O & I & _). apply template_methods_in in I as [-> _].
    assert (J : In (lit "DigitalNameplate") (classes_in T_ContactInformations)).
    { rewrite contact_class. cbn [classes_in]. destruct (image_obj _ _ _ _ F _ _ _ O) as [(_ & -> & _)|J]; [now left|now right]. }
    apply (proj2 (str_in_spec _ _)) in J. pose proof contact_no_nameplate as Q. unfold no_nameplate in Q. rewrite J in Q. discriminate. }
  pose proof (check_collects template_methods (VObj (lit "ContactInformations") args) []) as C.
  destruct (check_constraints template_methods _ []) as [[|f fs]|ex]; cbn [Collects] in C; [reflexivity| |].
  - destruct C as [_ C]. destruct (proj1 (C f) (or_introl eq_refl)) as (q & lv & t & K & _). destruct (Top _ _ K).
  - destruct C as (q & C). destruct (Top _ _ C).
Qed.

(** the report of a submodel *)
Definition head (sid : str) (t : ttype) (id : str) : result :=
  append (new_result (lit "Check submodel '" ++ id ++ lit "'") INFO)
         (new_result (lit "Template: " ++ template_name t ++ lit " (" ++ sid ++ lit ")") INFO).
Lemma errors_ok (r : messages) : forallb ok (List.map (fun m => new_result m ERROR) r) = true <-> r = [].
Proof. destruct r; cbn; split; (reflexivity || discriminate). Qed.
Theorem check_template_decided sid t id s : TemplateOf sid t -> Sub s ->
  (exists ex, check_template repr sid t id s = Raise ex /\ SubmodelGivesUp t s) \/
  (exists rs, check_template repr sid t id s = Val (appends (head sid t id) rs) /\ ~ SubmodelGivesUp t s /\ (forallb ok rs = true <-> SubmodelConforms t s)).
Proof.
  intros T H. destruct (template_cases _ _ T) as [W Cases]. unfold check_template. fold (head sid t id).
  assert (Oh : ok (head sid t id) = true) by reflexivity.
  destruct Cases as [-> | ->].
  - rewrite nameplate_class in *. destruct (parse_submodel_decided _ _ s W H) as [(ex & -> & G)|(x & m & -> & G & Q)]; cbn [obind app]; [left; eauto|].
    rewrite ok_appends, Oh. cbn [andb]. right. destruct (Q eq_refl) as [Q1 Q2]. destruct m as [|m0 m].
    + cbn [List.map forallb]. destruct (Q2 eq_refl) as (args & -> & F). destruct (nameplate_findings _ _ F) as (fs & -> & K). cbn [obind].
      exists (List.map cfinding_result fs). split; [reflexivity|]. split; [exact G|].
      unfold SubmodelConforms. cbn [fields_of]. destruct K as [(-> & K)|(K & Kf & K')].
      * cbn. split; [intros _; split; [now apply Q1|intros _; exact K]|reflexivity].
      * split.
        -- intros A. destruct fs as [|f fs]; [now destruct K|]. rewrite (Kf f (or_introl eq_refl)) in A. discriminate.
        -- intros [_ A]. destruct K'. apply A. unfold Nameplate. now rewrite nameplate_class.
    + replace (forallb ok (List.map (fun m1 => new_result m1 ERROR) (m0 :: m))) with false by reflexivity.
      exists (List.map (fun m1 => new_result m1 ERROR) (m0 :: m)). split; [reflexivity|]. split; [exact G|].
      split; [discriminate|]. intros [A _]. apply Q1 in A. discriminate.
  - rewrite contact_class in *. destruct (parse_submodel_decided _ _ s W H) as [(ex & -> & G)|(x & m & -> & G & Q)]; cbn [obind app]; [left; eauto|].
    rewrite ok_appends, Oh. cbn [andb]. right. destruct (Q eq_refl) as [Q1 Q2]. destruct m as [|m0 m].
    + cbn [List.map forallb]. destruct (Q2 eq_refl) as (args & -> & F). rewrite (contact_findings _ _ F). cbn [obind].
      exists []. split; [reflexivity|]. split; [exact G|].
      unfold SubmodelConforms. cbn [fields_of List.map forallb]. split; [intros _; split; [now apply Q1|]|reflexivity].
      unfold Nameplate. intros E. rewrite <- contact_class in E. destruct (contact_is_no_nameplate E).
    + replace (forallb ok (List.map (fun m1 => new_result m1 ERROR) (m0 :: m))) with false by reflexivity.
      exists (List.map (fun m1 => new_result m1 ERROR) (m0 :: m)). split; [reflexivity|]. split; [exact G|].
      split; [discriminate|]. intros [A _]. apply Q1 in A. discriminate.
Qed.

(** * Environments *)
(** the submodels for which there are templates *)
Definition templated (s : pyval) : bool :=
  match semantic_id s with Some sid => match lookup sid templates with Some _ => true | None => false end | None => false end.
Lemma templated_spec s : templated s = true <-> exists t, Templated s t.
Proof.
  unfold templated, Templated, Has_id. destruct (semantic_id s) as [sid|].
  - destruct (lookup sid templates) as [t|] eqn:E.
    + apply lookup_template in E. split; [|reflexivity]. intros _. exists t, sid. auto.
    + split; [discriminate|]. intros (t & sid' & [= <-] & T). apply lookup_template in T. congruence.
  - split; [discriminate|]. intros (t & sid' & Q & _). discriminate.
Qed.
Definition IsReport (s : pyval) (r : result) : Prop :=
  exists sid t, Has_id sid s /\ TemplateOf sid t /\ check_template repr sid t (text s "id") s = Val r.
Lemma templates_step s l root : Sub s -> check_templates repr templates (s :: l) root =
  match semantic_id s with
  | None => check_templates repr templates l root
  | Some sid => match lookup sid templates with
                | None => check_templates repr templates l root
                | Some t => let* sub := check_template repr sid t (text s "id") s in check_templates repr templates l (append root sub)
                end
  end.
Proof.
  intros H. cbn [check_templates]. destruct (inst_attr _ _ _ _ k_submodel_semantic_id H) as [G [E|I]].
  - rewrite G, E. cbn [obind truthy negb]. unfold semantic_id. rewrite E. reflexivity.
  - rewrite G. cbn [obind]. rewrite (inst_truthy _ _ I). cbn [negb]. destruct (ref_id _ I) as (sid & F & E).
    destruct (inst_attr _ _ _ _ k_keys I) as [G2 (ks & E2 & N & _)]. rewrite G2, E2. cbn [obind truthy]. destruct ks; [now destruct (N eq_refl)|]. cbn [negb].
    rewrite F. cbn [obind]. destruct (inst_attr _ _ _ _ k_submodel_id H) as [G3 (c & i & E3)]. rewrite G3, E3. cbn [obind raw_value].
    unfold semantic_id. rewrite E. unfold text. rewrite E3. cbn [chars]. reflexivity.
Qed.
Theorem check_templates_decided l : (forall s, In s l -> Sub s) -> forall root,
  (exists ex, check_templates repr templates l root = Raise ex /\ exists s t, In s l /\ Templated s t /\ SubmodelGivesUp t s) \/
  (exists rs, check_templates repr templates l root = Val (appends root rs) /\ (forall s t, In s l -> Templated s t -> ~ SubmodelGivesUp t s) /\
     Forall2 IsReport (filter templated l) rs).
Proof.
  induction l as [|s l IH]; intros H root.
  - right. exists []. split; [reflexivity|]. split; [intros s t []|constructor].
  - rewrite templates_step by (apply H; now left). assert (H' : forall s, In s l -> Sub s) by (intros; apply H; now right).
    cbn [filter]. destruct (templated s) eqn:Ts.
    + unfold templated in Ts. destruct (semantic_id s) as [sid|] eqn:Es; [|discriminate]. destruct (lookup sid templates) as [t|] eqn:El; [|discriminate].
      apply lookup_template in El as Tt.
      destruct (check_template_decided sid t (text s "id") s Tt (H s (or_introl eq_refl))) as [(ex & -> & G)|(rs & E & G & Q)].
      * cbn [obind]. left. exists ex. split; [reflexivity|]. exists s, t. split; [now left|]. split; [exists sid; auto|exact G].
      * assert (E' := E). rewrite E'. cbn [obind]. destruct (IH H' (append root (appends (head sid t (text s "id")) rs))) as [(ex & -> & s' & t' & I & Q')|(rs' & -> & N & F)].
        -- left. exists ex. split; [reflexivity|]. exists s', t'. split; [now right|exact Q'].
        -- right. exists (appends (head sid t (text s "id")) rs :: rs'). rewrite appends_cons. split; [reflexivity|]. split.
           ++ intros s' t' [<-|I] Q'; [|now apply N]. destruct Q' as (sid' & Q1 & Q2). unfold Has_id in Q1. rewrite Es in Q1. assert (sid' = sid) by congruence. subst sid'.
              apply lookup_template in Q2. assert (t' = t) by congruence. subst t'. exact G.
           ++ constructor; [|exact F]. exists sid, t. auto.
    + assert (Skip : match semantic_id s with Some sid => match lookup sid templates with None => check_templates repr templates l root
                     | Some t => let* sub := check_template repr sid t (text s "id") s in check_templates repr templates l (append root sub) end
                     | None => check_templates repr templates l root end = check_templates repr templates l root).
      { unfold templated in Ts. destruct (semantic_id s) as [sid|]; [|reflexivity]. destruct (lookup sid templates); [discriminate|reflexivity]. }
      rewrite Skip. destruct (IH H' root) as [(ex & -> & s' & t' & I & Q')|(rs' & -> & N & F)].
      * left. exists ex. split; [reflexivity|]. exists s', t'. split; [now right|exact Q'].
      * right. exists rs'. split; [reflexivity|]. split; [|exact F]. intros s' t' [<-|I] Q'; [|now apply N].
        assert (A : templated s = true) by (apply templated_spec; eauto). congruence.
Qed.
Definition Env := Inst "Environment".
Lemma env_submodels env : Env env -> getattr env (lit "submodels") = Val (attr env "submodels") /\
  (attr env "submodels" = VNone \/ exists l, attr env "submodels" = VList l /\ l <> []) /\ forall s, In s (items env "submodels") -> Sub s.
Proof.
  intros H. destruct (inst_attr _ _ _ _ k_submodels H) as [G [V|(l & V & N & Q)]]; (split; [exact G|]); unfold items; rewrite V.
  - split; [now left|intros s []].
  - split; [right; exists l; auto|exact Q].
Qed.
Lemma env_eq env root : Env env -> parse_submodel_templates repr templates root env = check_templates repr templates (items env "submodels") root.
Proof.
  intros H. destruct (env_submodels env H) as (G & V & _). unfold parse_submodel_templates. rewrite G. cbn [obind]. unfold items.
  destruct V as [V|(l & V & N)]; rewrite V; [reflexivity|]. destruct l; [now destruct N|]. reflexivity.
Qed.
End Repr.
