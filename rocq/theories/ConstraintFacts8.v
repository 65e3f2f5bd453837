(** Which constraints the check methods of given names decide. *)
From Coq Require Import PeanoNat Lia String List NArith ZArith Bool.
From Verif Require Import PyStr PyStrFacts PyBase PyVal DataTypesModel DataTypesSpec.
From Verif Require Import ResultModel ReflectModel MetaModel MetaFacts AdapterModel ParseModel ParseFacts ParseFacts2 TypeSpec TypeFacts TypeFacts2 ConstraintModel ConstraintSpec ConstraintFacts ConstraintFacts2 ConstraintFacts3 ConstraintFacts4 ConstraintFacts5 ConstraintFacts6.
Import ListNotations.
Local Open Scope list_scope.

(** The check methods with the given names find nothing wrong with the object. *)
Definition Passes (names : list string) (y : pyval) : Prop :=
  forall n m, In (n, m) (model_methods (class_of_obj y)) -> In n (List.map lit names) -> m y = fine.

Definition selected (names : list string) (c : str) (f : string * string * method) : bool :=
  str_in (lit (snd (fst f))) (List.map lit names) && str_in (lit (fst (fst f))) (supers c).
Definition mask (names : list string) (c : str) : list bool := List.map (selected names c) flat_methods.
Fixpoint masked {X} (m : list bool) (l : list X) : list X :=
  match m, l with b :: m', x :: l' => if b then x :: masked m' l' else masked m' l' | _, _ => [] end.
Fixpoint bools_eqb (a b : list bool) : bool :=
  match a, b with [], [] => true | x :: a', y :: b' => Bool.eqb x y && bools_eqb a' b' | _, _ => false end.
Lemma bools_eqb_spec a : forall b, bools_eqb a b = true -> a = b.
Proof.
  induction a as [|x a IH]; intros [|y b]; cbn; try discriminate; [reflexivity|]. rewrite andb_true_iff. intros [E F].
  apply eqb_prop in E. rewrite E, (IH _ F). reflexivity.
Qed.
(** all classes derived from [cls] select the same methods *)
Definition mask_ok (cls : string) (names : list string) (m : list bool) : bool :=
  forallb (fun e => if str_in (lit cls) (supers (fst e)) then bools_eqb (mask names (fst e)) m else true) model_types.
Definition mask_of (cls : string) (names : list string) : list bool :=
  match find (fun e : str * pfields => str_in (lit cls) (supers (fst e))) model_types with Some e => mask names (fst e) | None => [] end.

Lemma masked_all y b fl ks : Forall2 Implements fl ks -> (forall f, b f = true -> Inst (fst (fst f)) y) -> (forall k, In k ks -> In k constraints) ->
  (forall f, In f fl -> b f = true -> snd f y = fine) <-> Forall (fun k => k_holds k y) (masked (List.map b fl) ks).
Proof.
  intros F B. induction F as [|f k fl ks I F IH]; intros K; cbn [masked List.map].
  - split; [intros _; constructor|intros _ f []].
  - assert (IH' := IH (fun k' J => K k' (or_intror J))). clear IH. destruct I as [Ec A].
    assert (O : b f = true -> (snd f y = fine <-> k_holds k y)).
    { intros Bf. pose proof (B f Bf) as J. rewrite Ec in J. specialize (A y J).
      destruct A as [[R Z]|[(_ & S & Z)|(_ & V & m & Z)]]; rewrite Z.
      - split; [discriminate|]. intros S. destruct (raises_violates k y (K k (or_introl eq_refl)) R) as [V _]. contradiction.
      - tauto.
      - split; [discriminate|contradiction]. }
    destruct (b f) eqn:Bf.
    + split.
      * intros H. constructor; [apply O; [reflexivity|apply H; [now left|exact Bf]]|]. apply IH'. intros g J. apply H. now right.
      * intros H. inversion H as [|? ? H1 H2]; subst. intros g [<-|J] Bg; [now apply O|]. now apply (proj2 IH' H2).
    + rewrite <- IH'. split; [intros H g J; apply H; now right|]. intros H g [<-|J] Bg; [congruence|auto].
Qed.
Lemma passes_iff cls names m y : mask_ok cls names m = true -> Inst cls y -> Passes names y <-> Forall (fun k => k_holds k y) (masked m constraints).
Proof.
  intros M (c & kvs & -> & A & T). destruct (typed_field _ _ _ T) as (fs & I & _).
  pose proof (proj1 (forallb_forall _ _) M _ I) as E. cbn [fst] in E. unfold is_a in A. rewrite (supers_eq _ _ I) in A. rewrite A in E.
  apply bools_eqb_spec in E. subst m. unfold mask. rewrite <- (masked_all (VObj c kvs) (selected names c)); [|exact all_implemented| |auto].
  - unfold Passes. cbn [class_of_obj]. split.
    + intros H [[d n] f] J S. unfold selected in S. cbn [fst snd] in S. apply andb_true_iff in S as [Sn Sd]. cbn [snd].
      apply (H (lit n) f); [|now apply str_in_spec]. apply (model_methods_in c fs _ _ I). exists d, n. split; [|auto].
      unfold is_a. now rewrite (supers_eq _ _ I).
    + intros H n f J Jn. apply (model_methods_in c fs _ _ I) in J as (d & n' & Ad & -> & J). apply (H (d, n', f) J).
      unfold selected. cbn [fst snd]. apply andb_true_iff. split; [now apply str_in_spec|]. unfold is_a in Ad. now rewrite (supers_eq _ _ I) in Ad.
  - intros [[d n] f] S. unfold selected in S. cbn [fst snd] in *. apply andb_true_iff in S as [_ Sd]. exists c, kvs. split; [reflexivity|]. split; [|exact T].
    unfold is_a. now rewrite (supers_eq _ _ I).
Qed.
(** rewrite [Passes names y] to the conditions *)
Ltac passes cls names H :=
  let m := eval vm_compute in (mask_of cls names) in
  let M := fresh "M" in
  assert (M : mask_ok cls names m = true) by (vm_compute; reflexivity);
  rewrite (passes_iff cls names m _ M H); clear M; unfold constraints; cbn [masked];
  repeat rewrite Forall_cons_iff; rewrite Forall_nil_iff; unfold error, crashing, typed_value; cbn [k_holds].
