(** The traversal of objects, and attributes of instances of the classes of model.py. *)
From Coq Require Import PeanoNat Lia String List NArith Bool.
From Verif Require Import PyStr PyStrFacts PyBase PyVal ResultModel ReflectModel MetaModel MetaFacts AdapterModel ParseModel ParseFacts ParseFacts2.
From Verif Require Import TypeSpec TypeFacts TypeFacts2 ConstraintModel ConstraintSpec.
Import ListNotations.
Local Open Scope list_scope.

(** * check_constraints visits every object *)
Section Traversal.
  Variable methods : str -> list (str * method).

  (** a method of the class of an occurring object, and what it answers *)
  Definition Called (v : pyval) (q : path) (r : verdict) : Prop :=
    exists c kvs n m, Occurs v q (VObj c kvs) /\ In (n, m) (methods c) /\ r = m (VObj c kvs).

  Section Loops.
    Variable rec : pyval -> path -> outcome (list cfinding).
    Variable p : path.
    Section Items.
      Variable k : str.
      Fixpoint visit_items (i : nat) (l : list pyval) : outcome (list cfinding) :=
        match l with
        | [] => Val []
        | y :: l' =>
            let* a := rec y (p ++ [SKey k; SIdx i]) in
            let* b := visit_items (S i) l' in
            Val (a ++ b)
        end.
    End Items.
    Fixpoint visit_attrs (kvs : list (str * pyval)) : outcome (list cfinding) :=
      match kvs with
      | [] => Val []
      | (k, x) :: r =>
          let* a := match x with VList l => visit_items k 0 l | _ => rec x (p ++ [SKey k]) end in
          let* b := visit_attrs r in
          Val (a ++ b)
      end.
  End Loops.
  Lemma check_eq c kvs p : check_constraints methods (VObj c kvs) p =
    let* own := run_methods (methods c) (VObj c kvs) p in
    let* rest := visit_attrs (check_constraints methods) p kvs in
    Val (own ++ rest).
  Proof. reflexivity. Qed.

  (** what is collected: the findings of [S], shown as a predicate on answers and positions *)
  Definition Collects (S : path -> verdict -> Prop) (p : path) (o : outcome (list cfinding)) : Prop :=
    match o with
    | Val fs => (forall q r, S q r -> exists a, r = Val a) /\
                forall f, In f fs <-> exists q l t, S q (Val (Some (l, t))) /\ f = CFinding l t (p ++ q)
    | Raise e => exists q, S q (Raise e)
    end.
  Lemma collects_iff S S' p o : (forall q r, S q r <-> S' q r) -> Collects S p o -> Collects S' p o.
  Proof.
    intros E. destruct o as [fs|e]; cbn [Collects].
    - intros [H1 H2]. split; [intros q r H; eapply H1, E, H|]. intros f. rewrite H2.
      split; intros (q & l & t & X & Y); exists q, l, t; (split; [now apply E|exact Y]).
    - intros (q & X). exists q. now apply E.
  Qed.
  Lemma collects_nil S p : (forall q r, ~ S q r) -> Collects S p (Val []).
  Proof.
    intros H. split; [intros q r X; now apply H in X|]. intros f. split; [intros []|]. intros (q & l & t & X & _). now apply H in X.
  Qed.
  Lemma collects_app S S' p a b : Collects S p a -> Collects S' p b ->
    Collects (fun q r => S q r \/ S' q r) p (let* x := a in let* y := b in Val (x ++ y)).
  Proof.
    intros Ha Hb. destruct a as [x|e]; cbn [obind].
    - destruct Ha as [T1 F1]. destruct b as [y|e]; cbn [obind].
      + destruct Hb as [T2 F2]. split; [intros q r [X|X]; eauto|]. intros f. rewrite in_app_iff, F1, F2. split.
        * intros [(q & l & t & X & Y)|(q & l & t & X & Y)]; exists q, l, t; auto.
        * intros (q & l & t & [X|X] & Y); [left|right]; exists q, l, t; auto.
      + destruct Hb as (q & X). exists q. now right.
    - destruct Ha as (q & X). exists q. now left.
  Qed.
  Lemma collects_shift S p k o : Collects S (p ++ k) o -> Collects (fun q r => exists q', q = k ++ q' /\ S q' r) p o.
  Proof.
    destruct o as [fs|e]; cbn [Collects].
    - intros [H1 H2]. split; [intros q r (q' & _ & X); eauto|]. intros f. rewrite H2. split.
      + intros (q & l & t & X & ->). exists (k ++ q), l, t. split; [eauto|]. now rewrite app_assoc.
      + intros (q & l & t & (q' & -> & X) & ->). exists q', l, t. split; [exact X|]. now rewrite app_assoc.
    - intros (q & X). exists (k ++ q), q. auto.
  Qed.

  Lemma run_collects ms v p : Collects (fun q r => q = [] /\ exists n m, In (n, m) ms /\ r = m v) p (run_methods ms v p).
  Proof.
    induction ms as [|[n m] ms IH]; cbn [run_methods]; [apply collects_nil; intros q r (_ & n & m & [] & _)|].
    destruct (m v) as [x|e] eqn:E; cbn [obind].
    - destruct (run_methods ms v p) as [fs|e] eqn:R; cbn [obind].
      + destruct IH as [T F]. split.
        * intros q r (-> & n' & m' & [[= <- <-]|I] & ->); [eauto|]. apply (T []). split; [reflexivity|]. eauto.
        * intros f.
          assert (G : In f fs <-> exists (q : path) (l : level) (t : str), (q = [] /\ (exists (n : str) (m : method), In (n, m) ms /\ Val (Some (l, t)) = m v)) /\ f = CFinding l t (p ++ q)) by apply F.
          split.
          -- intros H. assert (D : (exists l t, x = Some (l, t) /\ f = CFinding l t p) \/ In f fs).
             { destruct x as [[l t]|]; [destruct H as [<-|H]; [left; eauto|now right]|now right]. }
             destruct D as [(l & t & -> & ->)|D].
             ++ exists [], l, t. rewrite app_nil_r. split; [|reflexivity]. split; [reflexivity|]. exists n, m. split; [now left|now symmetry].
             ++ apply G in D as (q & l & t & (-> & n' & m' & I & X) & ->). exists [], l, t. split; [|reflexivity].
                split; [reflexivity|]. exists n', m'. split; [now right|exact X].
          -- intros (q & l & t & (-> & n' & m' & [[= <- <-]|I] & X) & ->).
             ++ assert (x = Some (l, t)) by congruence. subst x. rewrite app_nil_r. now left.
             ++ assert (In (CFinding l t (p ++ [])) fs) by (apply G; exists [], l, t; split; [|reflexivity]; split; [reflexivity|]; eauto).
                destruct x as [[l0 t0]|]; [now right|assumption].
      + destruct IH as (q & -> & n' & m' & I & X). exists []. split; [reflexivity|]. exists n', m'. split; [now right|exact X].
    - exists []. split; [reflexivity|]. exists n, m. split; [now left|now symmetry].
  Qed.

  Definition Good (v : pyval) : Prop := forall p, Collects (Called v) p (check_constraints methods v p).
  Lemma called_not_obj v q r : (forall c kvs, v <> VObj c kvs) -> ~ Called v q r.
  Proof. intros H (c & kvs & n & m & O & _). inversion O; subst; eapply H; reflexivity. Qed.
  Lemma visit_items_collects p k l : Forall Good l -> forall i0,
    Collects (fun q r => exists i x q', nth_error l i = Some x /\ q = SKey k :: SIdx (i0 + i) :: q' /\ Called x q' r) p
      (visit_items (check_constraints methods) p k i0 l).
  Proof.
    induction l as [|y l IH]; intros F i0; cbn [visit_items]; [apply collects_nil; intros q r ([|i] & x & q' & E & _); discriminate|].
    inversion F as [|? ? F1 F2]; subst.
    eapply collects_iff; [|apply collects_app; [apply collects_shift, F1|apply IH; exact F2]].
    intros q r. cbn beta. split.
    - intros [(q' & -> & C)|(i & x & q' & E & -> & C)].
      + exists 0, y, q'. rewrite Nat.add_0_r. auto.
      + exists (S i), x, q'. rewrite Nat.add_succ_r. auto.
    - intros ([|i] & x & q' & E & -> & C).
      + left. exists q'. rewrite Nat.add_0_r. injection E as ->. auto.
      + right. exists i, x, q'. rewrite Nat.add_succ_r. auto.
  Qed.
  Definition GoodAttr (x : pyval) : Prop := Good x /\ forall l, x = VList l -> Forall Good l.
  Definition BelowAttr (k : str) (x : pyval) (q : path) (r : verdict) : Prop :=
    match x with
    | VList l => exists i y q', nth_error l i = Some y /\ q = SKey k :: SIdx i :: q' /\ Called y q' r
    | _ => exists q', q = SKey k :: q' /\ Called x q' r
    end.
  Lemma visit_attrs_collects p kvs : Forall (fun kv => GoodAttr (snd kv)) kvs ->
    Collects (fun q r => exists k x, In (k, x) kvs /\ BelowAttr k x q r) p (visit_attrs (check_constraints methods) p kvs).
  Proof.
    induction kvs as [|[k x] kvs IH]; intros F; cbn [visit_attrs]; [apply collects_nil; intros q r (k & x & [] & _)|].
    inversion F as [|? ? [F1 F2] F3]; subst. cbn [snd] in *.
    eapply collects_iff; [|apply collects_app with (S := BelowAttr k x) (S' := fun q r => exists k x, In (k, x) kvs /\ BelowAttr k x q r)].
    - intros q r. cbn beta. split.
      + intros [B|(k' & x' & I & B)]; [exists k, x; split; [now left|exact B]|exists k', x'; split; [now right|exact B]].
      + intros (k' & x' & [[= <- <-]|I] & B); [now left|right; eauto].
    - destruct x; try (eapply collects_iff; [|apply collects_shift, F1]; intros q r; reflexivity).
      eapply collects_iff; [|apply (visit_items_collects p k l (F2 l eq_refl) 0)]. intros q r. reflexivity.
    - apply IH. exact F3.
  Qed.
  Lemma called_obj c kvs q r : Called (VObj c kvs) q r <->
    (q = [] /\ exists n m, In (n, m) (methods c) /\ r = m (VObj c kvs)) \/ (exists k x, In (k, x) kvs /\ BelowAttr k x q r).
  Proof.
    split.
    - intros (c' & kvs' & n & m & O & I & ->). inversion O; subst.
      + left. split; [reflexivity|]. eauto.
      + right. exists k, x. split; [assumption|]. assert (Called x q0 (m (VObj c' kvs'))) by (exists c', kvs', n, m; auto).
        destruct x; try (exists q0; auto; fail). exfalso. eapply H2; reflexivity.
      + right. exists k, (VList l). split; [assumption|]. exists i, x, q0. repeat split; auto. exists c', kvs', n, m. auto.
    - intros [(-> & n & m & I & ->)|(k & x & I & B)].
      + exists c, kvs, n, m. repeat split; auto. constructor.
      + assert (G : (exists l, x = VList l) \/ (forall l, x <> VList l)) by (destruct x; eauto; right; intros; discriminate).
        destruct G as [(l & ->)|G].
        * destruct B as (i & y & q' & E & -> & (c' & kvs' & n & m & O & I' & ->)). exists c', kvs', n, m. repeat split; auto. eapply Oc_item; eauto.
        * assert (B' : exists q', q = SKey k :: q' /\ Called x q' r) by (destruct x; try exact B; exfalso; eapply G; reflexivity).
          destruct B' as (q' & -> & (c' & kvs' & n & m & O & I' & ->)). exists c', kvs', n, m. repeat split; auto. eapply Oc_attr; eauto.
  Qed.
  Lemma good_attr v : GoodAttr v.
  Proof.
    induction v as [| | | | | |l IH|c kvs IH| |] using pyval_ind';
      try (split; [intros pp; apply collects_nil; intros q r; apply called_not_obj; discriminate|intros; discriminate]).
    - split; [intros pp; apply collects_nil; intros q r; apply called_not_obj; discriminate|].
      intros l' [= <-]. eapply Forall_impl; [|exact IH]. intros a [H _]. exact H.
    - split; [|intros; discriminate]. intros p. rewrite check_eq.
      eapply collects_iff; [|apply collects_app; [apply run_collects|apply visit_attrs_collects; exact IH]].
      intros q r. cbn beta. symmetry. apply called_obj.
  Qed.
  (** The findings are those of the methods of all occurring objects; if a method raises, so
      does the traversal. *)
  Theorem check_collects v p : Collects (Called v) p (check_constraints methods v p).
  Proof. apply good_attr. Qed.
End Traversal.

(** * Instances of classes *)
Definition model_supers : list (str * list str) :=
  Eval vm_compute in List.map (fun e => (fst e, mro_names model_classes (fst e))) model_types.
Definition supers (c : str) : list str := match lookup c model_supers with Some l => l | None => [] end.
Definition supers_ok (e : str * pfields) : bool := strs_eqb (mro_names model_classes (fst e)) (supers (fst e)).
Lemma supers_are_ok : forallb supers_ok model_types = true.
Proof. vm_compute. reflexivity. Qed.
Lemma supers_eq c fs : In (c, fs) model_types -> mro_names model_classes c = supers c.
Proof. intros I. apply (proj1 (forallb_forall _ _) supers_are_ok) in I. now apply strs_eqb_eq in I. Qed.

(** an object of a class derived from the class named [cls] *)
Definition Inst (cls : string) (x : pyval) : Prop :=
  exists c kvs, x = VObj c kvs /\ is_a model_classes c (lit cls) = true /\ Ty (TyObj [c]) x.

Inductive akind :=
| AText | APlain | ABoolK | AEnum (c : string) (ok : str -> bool) | AInst (c : string)
| AOptK (k : akind) | AListK (nonempty : bool) (k : akind) | APath.
Fixpoint Holds (k : akind) (y : pyval) : Prop :=
  match k with
  | AText => exists c s, y = VSfv c s
  | APlain => exists s, y = VStr s
  | ABoolK => exists b, y = VBool b
  | AEnum c ok => exists n v, y = VEnum (lit c) n v /\ ok v = true
  | AInst c => Inst c y
  | AOptK k => y = VNone \/ Holds k y
  | AListK ne k => exists l, y = VList l /\ (ne = true -> l <> []) /\ forall x, In x l -> Holds k x
  | APath => y = VNone \/ exists p, y = VPath p
  end.
Fixpoint fits (t : ptype) (k : akind) : bool :=
  match t, k with
  | TyText, AText => true
  | TyPlain, APlain => true
  | TyBool, ABoolK => true
  | TyEnum c vs, AEnum c' ok => str_eqb c (lit c') && forallb ok vs
  | TyObj cs, AInst c => forallb (fun d => str_in (lit c) (supers d)) cs
  | TyOpt t, AOptK k => fits t k
  | TyList ne t, AListK ne' k => Bool.eqb ne ne' && fits t k
  | TyPath, APath => true
  | _, _ => false
  end.
Definition field_ok1 (cls n : string) (k : akind) (e : str * pfields) : bool :=
  if str_in (lit cls) (supers (fst e))
  then match lookup (lit n) (snd e) with Some t => fits t k | None => false end
  else true.
Definition field_ok (cls n : string) (k : akind) : bool := forallb (field_ok1 cls n k) model_types.

Local Opaque model_types model_classes model_supers.
Lemma fits_holds t : forall k y, fits t k = true -> Ty t y -> Holds k y.
Proof.
  induction t; intros [] y F T; try discriminate F; cbn [Holds fits] in *.
  - now apply typed_text in T.
  - now apply typed_plain in T.
  - now apply typed_bool in T.
  - apply andb_true_iff in F as [F1 F2]. apply str_eqb_spec in F1. apply typed_enum in T as (n & v & -> & I). subst cls.
    exists n, v. split; [reflexivity|]. now apply (proj1 (forallb_forall _ _) F2).
  - apply typed_obj in T as (d & fs & kvs & -> & I & J & K & L). exists d, kvs. split; [reflexivity|]. split.
    + unfold is_a. rewrite (supers_eq _ _ J). now apply (proj1 (forallb_forall _ _) F).
    + apply Ty_obj with (fs := fs); auto. now left.
  - apply andb_true_iff in F as [F1 F2]. apply eqb_prop in F1. subst. apply typed_list in T as (xs & -> & N & H).
    exists xs. split; [reflexivity|]. split; [exact N|]. intros x I. auto.
  - apply typed_opt in T as [->|T]; auto.
  - now apply typed_path in T.
Qed.
Lemma inst_attr cls n k x : field_ok cls n k = true -> Inst cls x -> getattr x (lit n) = Val (attr x n) /\ Holds k (attr x n).
Proof.
  intros F (c & kvs & -> & S & T). apply typed_field in T as T'. destruct T' as (fs & I & _ & K & M).
  apply (proj1 (forallb_forall _ _) F) in I as F1. unfold field_ok1 in F1. cbn [fst snd] in F1.
  unfold is_a in S. rewrite (supers_eq _ _ I) in S. rewrite S in F1.
  destruct (lookup (lit n) fs) as [t|] eqn:L; [|discriminate].
  destruct (ty_attr _ _ _ _ _ _ T I L) as (y & G & Y). cbn [attr]. cbn [getattr] in *.
  destruct (lookup (lit n) kvs) as [z|]; [|discriminate]. injection G as ->. split; [reflexivity|]. eapply fits_holds; eauto.
Qed.
(** an object of a type *)
Lemma inst_of cs cls x : forallb (fun d => str_in (lit cls) (supers d)) cs = true -> Ty (TyObj cs) x -> Inst cls x.
Proof. intros F T. exact (fits_holds (TyObj cs) (AInst cls) x F T). Qed.
