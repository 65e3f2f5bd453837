(** The check methods of model.py on instances: references, lists of elements, idShorts. *)
From Coq Require Import PeanoNat Lia String List NArith ZArith Bool.
From Verif Require Import PyStr PyStrFacts PyBase PyVal DataTypesModel DataTypesSpec DataTypesFacts DataTypesFacts2 DataTypesFacts3 DataTypesFacts4 DataTypesFacts5.
From Verif Require Import ResultModel ReflectModel MetaModel ParseModel ConstraintModel ConstraintSpec ConstraintFacts.
Import ListNotations.
Local Open Scope list_scope.
Local Open Scope string_scope.
Local Open Scope list_scope.

(** * What a method answers *)
(** It returns if the constraint holds, and raises a CheckConstraintException of the given level otherwise. *)
Definition Decides (l : level) (v : verdict) (S : Prop) : Prop := (S /\ v = fine) \/ (~ S /\ exists m, v = Val (Some (l, m))).
Notation Dec := (Decides ERROR).
(** It returns if the constraint holds, and raises [e] otherwise. *)
Definition Crashes (e : exn) (v : verdict) (S : Prop) : Prop := (S /\ v = fine) \/ (~ S /\ v = Raise e).

Lemma decides_iff l v S S' : (S <-> S') -> Decides l v S -> Decides l v S'.
Proof. unfold Decides. tauto. Qed.
Lemma dec_fine l (S : Prop) : S -> Decides l fine S. Proof. left. auto. Qed.
Lemma dec_bad m (S : Prop) : ~ S -> Dec (violated m) S. Proof. right. split; [assumption|]. eexists. reflexivity. Qed.
Lemma dec_if (b : bool) m (S : Prop) : (b = true <-> S) -> Dec (if b then fine else violated m) S.
Proof. intros E. destruct b; [apply dec_fine; now apply E|apply dec_bad; rewrite <- E; discriminate]. Qed.
Lemma dec_ifn (b : bool) m (S : Prop) : (b = false <-> S) -> Dec (if b then violated m else fine) S.
Proof. intros E. destruct b; [apply dec_bad; rewrite <- E; discriminate|apply dec_fine; now apply E]. Qed.
(** returns at once if [b], and decides [S] otherwise *)
Lemma dec_skip l (b : bool) v (S T : Prop) : (b = true -> T) -> (b = false -> (S <-> T)) -> (b = false -> Decides l v S) -> Decides l (if b then fine else v) T.
Proof. intros H1 H2 H3. destruct b; [apply dec_fine; auto|]. eapply decides_iff; [apply H2; reflexivity|auto]. Qed.

Lemma dec_for_each l (f : nat -> pyval -> verdict) (S : nat -> pyval -> Prop) xs : forall i0,
  (forall i x, nth_error xs i = Some x -> Decides l (f (i0 + i)%nat x) (S (i0 + i)%nat x)) ->
  Decides l (for_each f i0 xs) (forall i x, nth_error xs i = Some x -> S (i0 + i)%nat x).
Proof.
  induction xs as [|x xs IH]; intros i0 H; cbn [for_each]; [apply dec_fine; intros [|i]; discriminate|].
  pose proof (H O x eq_refl) as H0. rewrite Nat.add_0_r in H0.
  assert (IH' : Decides l (for_each f (Datatypes.S i0) xs) (forall i y, nth_error xs i = Some y -> S (Datatypes.S i0 + i)%nat y)).
  { apply IH. intros i y E. specialize (H (Datatypes.S i) y E). now rewrite Nat.add_succ_r in H. }
  destruct H0 as [[S0 E0]|[S0 (m & E0)]]; rewrite E0; cbn [and_then obind].
  - destruct IH' as [[S1 E1]|[S1 (m & E1)]]; unfold fine, and_then; cbn [obind]; rewrite E1.
    + left. split; [|reflexivity]. intros [|i] y; cbn [nth_error].
      * intros [= <-]. now rewrite Nat.add_0_r.
      * intros E. rewrite Nat.add_succ_r. now apply S1.
    + right. split; [|eauto]. intros G. apply S1. intros i y E. specialize (G (Datatypes.S i) y E). now rewrite Nat.add_succ_r in G.
  - right. split; [|exists m; reflexivity]. intros G. apply S0. specialize (G O x eq_refl). now rewrite Nat.add_0_r in G.
Qed.
Lemma dec_each l (f : nat -> pyval -> verdict) (S : pyval -> Prop) xs :
  (forall i x, nth_error xs i = Some x -> Decides l (f i x) (S x)) ->
  Decides l (for_each f 0 xs) (forall x, In x xs -> S x).
Proof.
  intros H. eapply decides_iff; [|apply (dec_for_each l f (fun _ => S) xs 0); exact H]. split.
  - intros G x I. apply In_nth_error in I as [i E]. eauto.
  - intros G i x E. apply G. eapply nth_error_In; eauto.
Qed.

(** * Reading attributes *)
Lemma enum_is_spec x n v : enum_is (attr x n) v = true <-> Is x n v.
Proof.
  unfold Is, enum_is. destruct (attr x n) as [| | | | |c m t| | | |]; try (split; [discriminate|intros (? & ? & ?); discriminate]).
  rewrite str_eqb_spec. split; [intros ->; eauto|]. intros (? & ? & E). congruence.
Qed.
Lemma enum_in_spec x n vs : enum_in (attr x n) vs = true <-> IsOneOf x n vs.
Proof.
  unfold enum_in, IsOneOf. rewrite existsb_exists. split; intros (v & I & E); exists v; (split; [exact I|now apply enum_is_spec]).
Qed.
Lemma enum_is_false x n v : enum_is (attr x n) v = false <-> ~ Is x n v.
Proof. rewrite <- enum_is_spec. destruct (enum_is _ _); split; congruence. Qed.
Lemma none_absent x n : is_none (attr x n) = true <-> Absent x n.
Proof. unfold Absent. destruct (attr x n); simpl; split; congruence. Qed.
Lemma none_present x n : is_none (attr x n) = false <-> Present x n.
Proof. unfold Present. destruct (attr x n); simpl; split; congruence. Qed.
Lemma absent_items x n : Absent x n -> items x n = [].
Proof. unfold Absent, items. now intros ->. Qed.

(** the value of an attribute of the declared kind *)
Ltac fld H cls n k Hg Hk :=
  let F := fresh "F" in
  assert (F : field_ok cls n k = true) by (vm_compute; reflexivity);
  destruct (inst_attr cls n k _ F H) as [Hg Hk]; cbn [Holds] in Hk; clear F.

(** * References *)
Definition any_value (s : str) : bool := true.
Definition AKeyType : akind := AEnum "KeyType" any_value.
Lemma ref_type r t : Inst "Reference" r -> has_type r t = Val (enum_is (attr r "type") t).
Proof. intros H. unfold has_type. fld H "Reference" "type" (AEnum "ReferenceType" any_value) G K. rewrite G. reflexivity. Qed.
Lemma ref_keys r : Inst "Reference" r -> exists k l, getattr r (lit "keys") = Val (VList (k :: l)) /\ items r "keys" = k :: l /\
  forall y, In y (k :: l) -> Inst "Key" y.
Proof.
  intros H. fld H "Reference" "keys" (AListK true (AInst "Key")) G K. destruct K as (l & E & N & I). rewrite G. unfold items. rewrite E.
  destruct l as [|k l]; [exfalso; now apply N|]. exists k, l. auto.
Qed.
Lemma key_type_eq k : Inst "Key" k -> key_type k = Val (attr k "type").
Proof. intros H. unfold key_type. fld H "Key" "type" AKeyType G K. exact G. Qed.
Lemma key_value_eq k : Inst "Key" k -> exists c s, getattr k (lit "value") = Val (VSfv c s) /\ text k "value" = s.
Proof. intros H. fld H "Key" "value" AText G K. destruct K as (c & s & E). exists c, s. rewrite G. unfold text. rewrite E. auto. Qed.

Section Reference.
  Variable r : pyval.
  Hypothesis H : Inst "Reference" r.
  Lemma ref_121_dec : Dec (ref_121 r) (AASd_121 r).
  Proof.
    destruct (ref_keys r H) as (k & l & G & K & I). unfold ref_121. rewrite G. cbn [obind truthy negb first_item as_items].
    rewrite (key_type_eq k) by (apply I; now left). cbn [obind]. apply dec_if. rewrite enum_in_spec. unfold AASd_121, FirstKey, KeyAt. rewrite K. cbn [nth_error].
    split; [intros X k' [= <-]; exact X|]. intros X. now apply X.
  Qed.
  Lemma ref_122_dec : Dec (ref_122 r) (AASd_122 r).
  Proof.
    destruct (ref_keys r H) as (k & l & G & K & I). unfold ref_122. rewrite (ref_type r) by exact H. cbn [obind]. rewrite G. cbn [obind is_none].
    rewrite orb_false_r. unfold AASd_122, External. 
    apply dec_skip with (S := KeyIn k GenericGloballyIdentifiables).
    - rewrite negb_true_iff, enum_is_false. tauto.
    - rewrite negb_false_iff, enum_is_spec. unfold FirstKey, KeyAt. rewrite K. cbn [nth_error]. intros E.
      split; [intros X _ k' [= <-]; exact X|]. intros X. now apply X.
    - intros _. cbn [first_item as_items obind]. rewrite (key_type_eq k) by (apply I; now left). cbn [obind]. apply dec_if. apply enum_in_spec.
  Qed.
  Lemma ref_123_dec : Dec (ref_123 r) (AASd_123 r).
  Proof.
    destruct (ref_keys r H) as (k & l & G & K & I). unfold ref_123. rewrite (ref_type r) by exact H. cbn [obind]. rewrite G. cbn [obind is_none].
    rewrite orb_false_r. unfold AASd_123, Model.
    apply dec_skip with (S := KeyIn k AasIdentifiables).
    - rewrite negb_true_iff, enum_is_false. tauto.
    - rewrite negb_false_iff, enum_is_spec. unfold FirstKey, KeyAt. rewrite K. cbn [nth_error]. intros E.
      split; [intros X _ k' [= <-]; exact X|]. intros X. now apply X.
    - intros _. cbn [first_item as_items obind]. rewrite (key_type_eq k) by (apply I; now left). cbn [obind]. apply dec_if. apply enum_in_spec.
  Qed.
  Lemma last_item_eq (k : pyval) (l : list pyval) : exists z, last_item (VList (k :: l)) = Val z /\ In z (k :: l) /\ nth_error (k :: l) (length (k :: l) - 1) = Some z.
  Proof.
    unfold last_item. cbn [as_items obind]. destruct (rev (k :: l)) as [|z t] eqn:E.
    - apply (f_equal (@length pyval)) in E. rewrite rev_length in E. discriminate.
    - exists z. split; [reflexivity|]. assert (D : k :: l = rev t ++ [z]) by (rewrite <- (rev_involutive (k :: l)), E; reflexivity).
      split; [rewrite D; apply in_or_app; right; now left|]. rewrite D. rewrite app_length. cbn [length].
      rewrite Nat.add_sub. rewrite nth_error_app2 by lia. now rewrite Nat.sub_diag.
  Qed.
  Lemma ref_124_dec : Dec (ref_124 r) (AASd_124 r).
  Proof.
    destruct (ref_keys r H) as (k & l & G & K & I). unfold ref_124. rewrite (ref_type r) by exact H. cbn [obind]. rewrite G. cbn [obind is_none].
    rewrite orb_false_r. unfold AASd_124, External. destruct (last_item_eq k l) as (z & Ez & Iz & Nz). rewrite Ez. cbn [obind].
    rewrite (key_type_eq z) by (apply I; exact Iz). cbn [obind].
    apply dec_skip with (S := KeyIn z (GenericGloballyIdentifiables ++ GenericFragmentKeys)).
    - rewrite negb_true_iff, enum_is_false. tauto.
    - rewrite negb_false_iff, enum_is_spec. unfold LastKey, KeyAt. rewrite K. rewrite Nz. intros E.
      split; [intros X _ k' [= <-]; exact X|]. intros X. now apply X.
    - intros _. apply dec_ifn. unfold KeyIn. rewrite <- enum_in_spec. cbn [GenericGloballyIdentifiables GenericFragmentKeys app enum_in existsb].
      unfold generic_globally_identifiables, generic_fragment_keys. cbn [enum_in existsb].
      destruct (enum_is (attr z "type") "GlobalReference"), (enum_is (attr z "type") "FragmentReference"); cbn; split; congruence.
  Qed.
  Lemma ref_125_dec : Dec (ref_125 r) (AASd_125 r).
  Proof.
    destruct (ref_keys r H) as (k & l & G & K & I). unfold ref_125. rewrite (ref_type r) by exact H. cbn [obind]. rewrite G. cbn [obind is_none as_items List.tl].
    rewrite orb_false_r. unfold AASd_125, Model.
    apply dec_skip with (S := forall x, In x l -> KeyIn x FragmentKeys).
    - rewrite negb_true_iff, enum_is_false. tauto.
    - rewrite negb_false_iff, enum_is_spec. unfold KeyAt. rewrite K. cbn [nth_error]. intros E. split.
      + intros X _ i y Ey. apply X. eapply nth_error_In; eauto.
      + intros X y Iy. apply In_nth_error in Iy as [i Ei]. eapply X; eauto.
    - intros _. apply dec_each. intros i x E. rewrite (key_type_eq x) by (apply I; right; eapply nth_error_In; eauto). cbn [obind].
      apply dec_if. apply enum_in_spec.
  Qed.
  Lemma ref_126_dec : Dec (ref_126 r) (AASd_126 r).
  Proof.
    destruct (ref_keys r H) as (k & l & G & K & I). unfold ref_126. rewrite (ref_type r) by exact H. cbn [obind]. rewrite G. cbn [obind is_none as_items].
    rewrite orb_false_r. unfold AASd_126, Model, KeyAt. rewrite K. remember (k :: l) as ks eqn:Eks.
    apply dec_skip with (S := forall i y, nth_error ks i = Some y -> KeyIn y GenericFragmentKeys -> Datatypes.S i = length ks).
    - rewrite negb_true_iff, enum_is_false. tauto.
    - rewrite negb_false_iff, enum_is_spec. tauto.
    - intros _. destruct (Nat.leb_spec (length ks) 1) as [L|L].
      + apply dec_fine. intros i y E _. assert (i < length ks) by (apply nth_error_Some; congruence). lia.
      + eapply decides_iff; [|apply (dec_each ERROR _ (fun x => ~ KeyIn x GenericFragmentKeys))].
        * assert (D : ks = removelast ks ++ [last ks VNone]) by (apply app_removelast_last; intros ->; simpl in L; lia).
          assert (Lk : length ks = (length (removelast ks) + 1)%nat) by (rewrite D at 1; rewrite app_length; reflexivity).
          split.
          -- intros X i y Ey Ky. destruct (Nat.lt_ge_cases i (length (removelast ks))) as [B|B].
             ++ exfalso. apply (X y); [|exact Ky]. rewrite D in Ey. rewrite nth_error_app1 in Ey by exact B. eapply nth_error_In; eauto.
             ++ assert (i < length ks) by (apply nth_error_Some; congruence). lia.
          -- intros X y Iy Ky. apply In_nth_error in Iy as [i Ei]. assert (B : i < length (removelast ks)) by (apply nth_error_Some; congruence).
             assert (Datatypes.S i = length ks); [|lia]. apply (X i y); [|exact Ky]. rewrite D. now rewrite nth_error_app1.
        * intros i x E. assert (Ix : In x ks). { apply nth_error_In in E. clear - E. revert E. induction ks as [|a [|b t] IH]; [intros []|intros []|].
            cbn [removelast]. intros [->|E]; [now left|]. right. now apply IH. }
          rewrite (key_type_eq x) by (apply I; exact Ix). cbn [obind]. apply dec_ifn. unfold KeyIn. rewrite <- enum_in_spec.
          destruct (enum_in (attr x "type") generic_fragment_keys) eqn:Eq; change (GenericFragmentKeys) with generic_fragment_keys; rewrite Eq; split; congruence.
  Qed.
  Lemma ref_127_dec : Dec (ref_127 r) (AASd_127_tail r).
  Proof.
    destruct (ref_keys r H) as (k & l & G & K & I). unfold ref_127. rewrite (ref_type r) by exact H. cbn [obind]. rewrite G. cbn [obind is_none as_items].
    rewrite orb_false_r. unfold AASd_127_tail, Model, KeyAt. rewrite K. remember (k :: l) as ks eqn:Eks.
    apply dec_skip with (S := forall i y, nth_error ks (Datatypes.S i) = Some y -> Is y "type" "FragmentReference" ->
        exists p, nth_error ks i = Some p /\ KeyIn p ["File"; "Blob"]).
    - rewrite negb_true_iff, enum_is_false. tauto.
    - rewrite negb_false_iff, enum_is_spec. tauto.
    - intros _. destruct (Nat.leb_spec (length ks) 1) as [L|L].
      { apply dec_fine. intros i y E. assert (Datatypes.S i < length ks) by (apply nth_error_Some; congruence). lia. }
      eapply decides_iff; [|apply (dec_for_each ERROR _ (fun i y => (1 <= i)%nat -> Is y "type" "FragmentReference" ->
        exists p, nth_error ks (i - 1) = Some p /\ KeyIn p ["File"; "Blob"]) ks 0)].
      + cbn [Nat.add]. split.
        * intros X i y E T. destruct (X (Datatypes.S i) y E ltac:(lia) T) as (p & Ep & Kp). exists p. split; [|exact Kp].
          replace (Datatypes.S i - 1)%nat with i in Ep by lia. exact Ep.
        * intros X [|i] y E B T; [lia|]. replace (Datatypes.S i - 1)%nat with i by lia. now apply (X i y).
      + intros i x E. cbn [Nat.add]. rewrite (key_type_eq x) by (apply I; eapply nth_error_In; eauto). cbn [obind].
        destruct (enum_is (attr x "type") "FragmentReference") eqn:T; cbn [andb].
        * apply enum_is_spec in T. destruct (Nat.leb_spec 1 i) as [B|B]; [|apply dec_fine; lia].
          assert (X : exists p, nth_error ks (i - 1) = Some p).
          { destruct (nth_error ks (i - 1)) as [p|] eqn:Ep; [eauto|]. apply nth_error_None in Ep. assert (i < length ks) by (apply nth_error_Some; congruence). lia. }
          destruct X as (p & Ep). rewrite Ep. rewrite (key_type_eq p) by (apply I; eapply nth_error_In; eauto). cbn [obind].
          apply dec_if. rewrite enum_in_spec. split.
          -- intros X _ _. exists p. auto.
          -- intros X. destruct (X B T) as (p' & Ep' & Kp). assert (p' = p) by congruence. now subst.
        * apply enum_is_false in T. apply dec_fine. tauto.
  Qed.
  (** together with AASd-123 this is AASd-127 *)
  Lemma aasd_127_tail : AASd_123 r -> AASd_127_tail r <-> AASd_127 r.
  Proof.
    intros A123. destruct (ref_keys r H) as (k & l & G & K & I). unfold AASd_127_tail, AASd_127, Model in *.
    assert (F : Is r "type" "ModelReference" -> ~ Is k "type" "FragmentReference").
    { intros M X. destruct (A123 M k) as (v & Iv & Y); [unfold FirstKey, KeyAt; rewrite K; reflexivity|].
      destruct X as (c & m & E). destruct Y as (c' & m' & E'). assert (W : lit v = lit "FragmentReference") by congruence.
      cbn [AasIdentifiables In] in Iv. repeat (destruct Iv as [<-|Iv]; [revert W; clear; discriminate|]). destruct Iv. }
    unfold KeyAt. rewrite K. split.
    - intros X M L [|i] y E T; [exfalso; injection E as ->; now apply (F M)|]. destruct (X M i y E T) as (p & Ep & Kp). exists i, p. auto.
    - intros X M i y E T. assert (Datatypes.S i < length (k :: l)) by (apply nth_error_Some; congruence).
      destruct (X M ltac:(lia) (Datatypes.S i) y E T) as (j & p & [= <-] & Ep & Kp). eauto.
  Qed.
  Lemma position_spec s : is_bounded_integer s (Some 0%Z) None = true <-> PyPosition s.
  Proof.
    rewrite bounded_integer_spec. unfold PyPosition, in_range. cbn [fst snd].
    split; intros (v & I & B); exists v; (split; [exact I|tauto]).
  Qed.
  Lemma ref_128_dec : Dec (ref_128 r) (AASd_128 PyPosition r).
  Proof.
    destruct (ref_keys r H) as (k & l & G & K & I). unfold ref_128. rewrite (ref_type r) by exact H. cbn [obind]. rewrite G. cbn [obind is_none as_items].
    rewrite orb_false_r. unfold AASd_128, Model, KeyAt. rewrite K. remember (k :: l) as ks eqn:Eks.
    apply dec_skip with (S := forall i y y', nth_error ks i = Some y -> Is y "type" "SubmodelElementList" -> nth_error ks (Datatypes.S i) = Some y' -> PyPosition (text y' "value")).
    - rewrite negb_true_iff, enum_is_false. tauto.
    - rewrite negb_false_iff, enum_is_spec. tauto.
    - intros _. eapply decides_iff; [|apply (dec_for_each ERROR _ (fun i y => forall y', Is y "type" "SubmodelElementList" -> nth_error ks (Datatypes.S i) = Some y' -> PyPosition (text y' "value")) ks 0)].
      + split; [intros X i y y' E; now apply X|]. intros X i y E y'. cbn [Nat.add]. now apply X.
      + intros i x E. cbn [Nat.add]. rewrite (key_type_eq x) by (apply I; eapply nth_error_In; eauto). cbn [obind].
        assert (Li : i < length ks) by (apply nth_error_Some; congruence).
        destruct (enum_is (attr x "type") "SubmodelElementList") eqn:T; cbn [andb].
        * apply enum_is_spec in T. destruct (Nat.ltb_spec i (length ks - 1)) as [B|B].
          -- rewrite Nat.add_1_r. destruct (nth_error ks (Datatypes.S i)) as [y|] eqn:Ey; [|apply nth_error_None in Ey; lia].
             destruct (key_value_eq y) as (c & s & Gv & Tv); [apply I; eapply nth_error_In; eauto|]. rewrite Gv. cbn [obind raw_value].
             apply dec_if. rewrite position_spec. split; [intros X y' _ [= <-]; now rewrite Tv|]. intros X. rewrite <- Tv. now apply X.
          -- apply dec_fine. intros y' _ Ey. assert (Datatypes.S i < length ks) by (apply nth_error_Some; congruence). lia.
        * apply enum_is_false in T. apply dec_fine. tauto.
  Qed.
End Reference.
