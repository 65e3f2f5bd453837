(** Exceptions of the reader of documents: compared to a reader that reports a finding instead. *)
From Coq Require Import PeanoNat Lia String List NArith Bool.
From Verif Require Import PyStr PyBase PyXml PyVal ReflectModel AdapterModel ParseModel.
Import ListNotations.
Local Open Scope list_scope.

(** a finding instead of an exception *)
Definition mask {X} (r : adres X) : adres X := match r with ACrash _ => ABad [] | _ => r end.
Definition masked {V} (A : adapter V) : adapter V := Adapter
  (fun v => mask (ad_object A v)) (fun e v => mask (ad_list A e v)) (fun v => mask (ad_string A v))
  (fun v => mask (ad_bool A v)) (fun v => mask (ad_model_type A v)).
Lemma mask_ok {X} (r : adres X) x : mask r = AOk x <-> r = AOk x.
Proof. destruct r; simpl; split; congruence. Qed.
Lemma mask_crash {X} (r : adres X) e : mask r <> ACrash e.
Proof. destruct r; discriminate. Qed.

Section Crash.
  Variable V : Type.
  Variable A : adapter V.
  Variable P : list classdecl.
  Variable T : table.
  Variable repr : str -> str.
  Variable post_parse : str -> option (pyval -> outcome pyval).
  Variable x : exn.
  Hypothesis C_object : forall v e, ad_object A v = ACrash e -> e = x.
  Hypothesis C_list : forall b v e, ad_list A b v = ACrash e -> e = x.
  Hypothesis C_string : forall v e, ad_string A v = ACrash e -> e = x.
  Hypothesis C_bool : forall v e, ad_bool A v = ACrash e -> e = x.
  Hypothesis C_tag : forall v e, ad_model_type A v = ACrash e -> e = x.

  (** findings are only added *)
  Definition Grows {X} (r : list finding) (o : outcome (X * list finding)) : Prop := forall y r', o = Val (y, r') -> exists s, r' = r ++ s.
  Definition Reports {X} (r : list finding) (o : outcome (X * list finding)) : Prop := forall y r', o = Val (y, r') -> exists f s, r' = r ++ f :: s.
  (** [o] is the outcome with exceptions, [o'] the outcome without *)
  Definition Masks {X} (r : list finding) (o o' : outcome (X * list finding)) : Prop := o = o' \/ (o = Raise x /\ Reports r o').

  Lemma grows_raise {X} r e : @Grows X r (Raise e). Proof. intros y r' [=]. Qed.
  Lemma grows_val {X} r (y : X) s : Grows r (Val (y, r ++ s)). Proof. intros z r' [= <- <-]. eauto. Qed.
  Lemma grows_same {X} r (y : X) : Grows r (Val (y, r)). Proof. intros z r' [= <- <-]. exists []. now rewrite app_nil_r. Qed.
  Lemma grows_bind {X Y} r (o : outcome (X * list finding)) (k : X -> list finding -> outcome (Y * list finding)) :
    Grows r o -> (forall y r', Grows r' (k y r')) -> Grows r (let* (y, r') := o in k y r').
  Proof.
    intros Go Gk z r'. destruct o as [[y r1]|e]; cbn [obind]; [|discriminate]. intros H. destruct (Go y r1 eq_refl) as (s & ->).
    destruct (Gk y _ z r' H) as (s' & ->). exists (s ++ s'). now rewrite app_assoc.
  Qed.
  Lemma reports_grows {X} r (o : outcome (X * list finding)) : Reports r o -> Grows r o.
  Proof. intros R y r' H. destruct (R y r' H) as (f & s & ->). eauto. Qed.
  Lemma reports_bind {X Y} r (o : outcome (X * list finding)) (k : X -> list finding -> outcome (Y * list finding)) :
    Reports r o -> (forall y r', Grows r' (k y r')) -> Reports r (let* (y, r') := o in k y r').
  Proof.
    intros Go Gk z r'. destruct o as [[y r1]|e]; cbn [obind]; [|discriminate]. intros H. destruct (Go y r1 eq_refl) as (f & s & ->).
    destruct (Gk y _ z r' H) as (s' & ->). exists f, (s ++ s'). now rewrite <- app_assoc.
  Qed.
  Lemma grows_reports {X Y} r (o : outcome (X * list finding)) (k : X -> list finding -> outcome (Y * list finding)) :
    Grows r o -> (forall y r', Reports r' (k y r')) -> Reports r (let* (y, r') := o in k y r').
  Proof.
    intros Go Gk z r'. destruct o as [[y r1]|e]; cbn [obind]; [|discriminate]. intros H. destruct (Go y r1 eq_refl) as (s & ->).
    destruct (Gk y _ z r' H) as (f & s' & ->). destruct s as [|f0 s0]; [exists f, s'; now rewrite app_nil_r|].
    exists f0, (s0 ++ f :: s'). rewrite <- app_assoc. reflexivity.
  Qed.
  Lemma refuse_reports m p r : Reports r (refuse m p r).
  Proof. intros y r' [= <- <-]. eauto. Qed.
  Lemma refuse_grows m p r : Grows r (refuse m p r).
  Proof. apply reports_grows, refuse_reports. Qed.
  Lemma masks_refl {X} r (o : outcome (X * list finding)) : Masks r o o.
  Proof. now left. Qed.
  Lemma masks_crash {X} r e (o : outcome (X * list finding)) : e = x -> Reports r o -> Masks r (Raise e) o.
  Proof. intros -> H. right. auto. Qed.
  Lemma masks_bind {X Y} r (o o' : outcome (X * list finding)) (k k' : X -> list finding -> outcome (Y * list finding)) :
    Masks r o o' -> Grows r o' -> (forall y r', Masks r' (k y r') (k' y r')) -> (forall y r', Grows r' (k' y r')) ->
    Masks r (let* (y, r') := o in k y r') (let* (y, r') := o' in k' y r').
  Proof.
    intros [->|[-> R]] G Mk Gk.
    - destruct o' as [[y r1]|e]; cbn [obind]; [|now left]. destruct (Mk y r1) as [E|[E R]]; [left; exact E|right]. split; [exact E|].
      intros z r' H. destruct (G y r1 eq_refl) as (s & ->). destruct (R z r' H) as (f & s' & ->).
      destruct s as [|f0 s0]; [exists f, s'; now rewrite app_nil_r|]. exists f0, (s0 ++ f :: s'). rewrite <- app_assoc. reflexivity.
    - right. split; [reflexivity|]. now apply reports_bind.
  Qed.

  Let A' := masked A.

  Section Rec.
    Variables rec rec' : nat -> parser V.
    Hypothesis rec_masks : forall i p v r, Masks r (rec i p v r) (rec' i p v r).
    Hypothesis rec_grows : forall i p v r, Grows r (rec' i p v r).
    Lemma items_grows ty p l : forall i r, Grows r (parse_items V rec' ty p i l r).
    Proof.
      induction l as [|v l IH]; intros i r; simpl; [apply grows_same|]. apply grows_bind; [apply rec_grows|]. intros y r'.
      apply grows_bind; [apply IH|]. intros ys r2. apply grows_same.
    Qed.
    Lemma items_masks ty p l : forall i r, Masks r (parse_items V rec ty p i l r) (parse_items V rec' ty p i l r).
    Proof.
      induction l as [|v l IH]; intros i r; simpl; [apply masks_refl|]. apply masks_bind; [apply rec_masks|apply rec_grows| |].
      - intros y r'. apply masks_bind; [apply IH|apply items_grows|intros; apply masks_refl|intros; apply grows_same].
      - intros y r'. apply grows_bind; [apply items_grows|]. intros; apply grows_same.
    Qed.
    Lemma attrs_grows attrs obj p : forall r, Grows r (parse_attrs V rec' attrs obj p r).
    Proof.
      induction attrs as [|a attrs IH]; intros r; cbn [parse_attrs]; [apply grows_same|]. apply grows_bind.
      - destruct (lookup _ _); [apply rec_grows|]. destruct (a_required a); [apply refuse_grows|apply grows_same].
      - intros y r'. apply grows_bind; [apply IH|]. intros; apply grows_same.
    Qed.
    Lemma attrs_masks attrs obj p : forall r, Masks r (parse_attrs V rec attrs obj p r) (parse_attrs V rec' attrs obj p r).
    Proof.
      induction attrs as [|a attrs IH]; intros r; cbn [parse_attrs]; [apply masks_refl|]. apply masks_bind.
      - destruct (lookup _ _); [apply rec_masks|apply masks_refl].
      - destruct (lookup _ _); [apply rec_grows|]. destruct (a_required a); [apply refuse_grows|apply grows_same].
      - intros y r'. apply masks_bind; [apply IH|apply attrs_grows|intros; apply masks_refl|intros; apply grows_same].
      - intros y r'. apply grows_bind; [apply attrs_grows|]. intros; apply grows_same.
    Qed.
    Lemma list_masks item e p v r : Masks r (parse_list V A rec item e p v r) (parse_list V A' rec' item e p v r).
    Proof.
      unfold parse_list. cbn [A' masked ad_list]. destruct (ad_list A e v) as [l|m|y] eqn:E; cbn [mask].
      - apply masks_bind; [apply items_masks|apply items_grows|intros; apply masks_refl|intros; apply grows_same].
      - apply masks_refl.
      - apply masks_crash; [eauto|apply refuse_reports].
    Qed.
    Lemma list_grows (B : adapter V) item e p v r : Grows r (parse_list V B rec' item e p v r).
    Proof.
      unfold parse_list. destruct (ad_list B e v) as [l|m|y]; [|apply refuse_grows|apply grows_raise].
      apply grows_bind; [apply items_grows|]. intros; apply grows_same.
    Qed.
    Definition tail_ c attrs static (rec0 : nat -> parser V) obj p : unit -> list finding -> outcome (pyval * list finding) := fun _ r =>
      let* (args, r) := parse_attrs V rec0 attrs obj p r in
      let r := r ++ unknown_attrs V attrs obj p in Val (VObj (name_of P c) (args ++ static), r).
    Definition unit_type (o : outcome (list finding)) : outcome (unit * list finding) := let* r := o in Val (tt, r).
    Lemma concrete_eq B rec0 c attrs static p v r : parse_concrete V B P rec0 c attrs static p v r =
      match ad_object B v with
      | ACrash e => Raise e
      | ABad m => refuse m p r
      | AOk obj => let* (u, r) := unit_type (check_model_type V B P c p v r) in tail_ c attrs static rec0 obj p u r
      end.
    Proof. unfold parse_concrete. destruct (ad_object B v); try reflexivity. destruct (check_model_type V B P c p v r); reflexivity. Qed.
    Lemma type_grows (B : adapter V) c p v r : Grows r (unit_type (check_model_type V B P c p v r)).
    Proof.
      unfold check_model_type. destruct (has_requires_model_type P c); [|apply grows_same].
      destruct (ad_model_type B v) as [m|m|y]; [destruct (match mt_name m with Some n => str_eqb n (name_of P c) | None => false end)| |];
        cbn [unit_type obind]; try apply grows_same; try apply grows_val; apply grows_raise.
    Qed.
    Lemma type_masks c p v r : Masks r (unit_type (check_model_type V A P c p v r)) (unit_type (check_model_type V A' P c p v r)).
    Proof.
      unfold check_model_type. destruct (has_requires_model_type P c); [|apply masks_refl].
      cbn [A' masked ad_model_type]. destruct (ad_model_type A v) as [m|m|y] eqn:E; cbn [mask]; try apply masks_refl.
      cbn [unit_type obind]. apply masks_crash; [eauto|]. intros z r' [= <- <-]. eauto.
    Qed.
    Lemma tail_grows c attrs static obj p u r : Grows r (tail_ c attrs static rec' obj p u r).
    Proof. unfold tail_. apply grows_bind; [apply attrs_grows|]. intros; apply grows_val. Qed.
    Lemma tail_masks c attrs static obj p u r : Masks r (tail_ c attrs static rec obj p u r) (tail_ c attrs static rec' obj p u r).
    Proof. unfold tail_. apply masks_bind; [apply attrs_masks|apply attrs_grows|intros; apply masks_refl|intros; apply grows_val]. Qed.
    Lemma concrete_masks c attrs static p v r :
      Masks r (parse_concrete V A P rec c attrs static p v r) (parse_concrete V A' P rec' c attrs static p v r).
    Proof.
      rewrite !concrete_eq. cbn [A' masked ad_object]. destruct (ad_object A v) as [obj|m|y] eqn:E; cbn [mask].
      - apply masks_bind; [apply type_masks|apply type_grows|intros; apply tail_masks|intros; apply tail_grows].
      - apply masks_refl.
      - apply masks_crash; [eauto|apply refuse_reports].
    Qed.
    Lemma concrete_grows (B : adapter V) c attrs static p v r : Grows r (parse_concrete V B P rec' c attrs static p v r).
    Proof.
      rewrite concrete_eq. destruct (ad_object B v) as [obj|m|y]; [|apply refuse_grows|apply grows_raise].
      apply grows_bind; [apply type_grows|intros; apply tail_grows].
    Qed.
    Lemma abstract_masks subs p v r : Masks r (parse_abstract V A P T rec subs p v r) (parse_abstract V A' P T rec' subs p v r).
    Proof.
      unfold parse_abstract. cbn [A' masked ad_model_type]. destruct (ad_model_type A v) as [m|m|y] eqn:E; cbn [mask].
      - destruct (find_subclass P T (mt_name m) subs) as [[[c attrs] static]|]; [apply concrete_masks|apply masks_refl].
      - apply masks_refl.
      - apply masks_crash; [eauto|apply refuse_reports].
    Qed.
    Lemma abstract_grows (B : adapter V) subs p v r : Grows r (parse_abstract V B P T rec' subs p v r).
    Proof.
      unfold parse_abstract. destruct (ad_model_type B v) as [m|m|y]; [|apply refuse_grows|apply grows_raise].
      destruct (find_subclass P T (mt_name m) subs) as [[[c attrs] static]|]; [apply concrete_grows|apply refuse_grows].
    Qed.
  End Rec.

  Definition finish_ (obj : pyval) (r : list finding) : outcome (pyval * list finding) :=
    match obj with
    | VObj n _ => match post_parse n, r with
                  | Some g, [] => let* obj := g obj in Val (obj, r)
                  | _, _ => Val (obj, r)
                  end
    | _ => Val (obj, r)
    end.
  Lemma finish_grows obj r : Grows r (finish_ obj r).
  Proof.
    unfold finish_. destruct obj; try apply grows_same. destruct (post_parse cls) as [g|]; [|apply grows_same].
    destruct r; [|apply grows_same]. destruct (g _); cbn [obind]; [apply grows_same|apply grows_raise].
  Qed.
  (** findings are only added, whatever the adapter *)
  Theorem parse_grows (B : adapter V) f : forall i p v r, Grows r (parse V B P T repr post_parse f i p v r).
  Proof.
    induction f as [|f IH]; intros i p v r; cbn [parse]; [apply grows_raise|].
    destruct (nth_error T i) as [[k t]|]; [|apply grows_raise].
    destruct t as [| | | | | |c|c|c attrs static subs|item e].
    - apply grows_raise.
    - unfold parse_string. destruct (ad_string B v); [apply grows_same|apply refuse_grows|apply grows_raise].
    - unfold parse_bool. destruct (ad_bool B v); [apply grows_same|apply refuse_grows|apply grows_raise].
    - apply grows_same.
    - apply grows_raise.
    - apply grows_raise.
    - unfold parse_enum. destruct (ad_string B v); [|apply refuse_grows|apply grows_raise].
      destruct (kind_of P c); try apply grows_raise. destruct (find _ _); [apply grows_same|apply refuse_grows].
    - unfold parse_sfv. destruct (ad_string B v); [|apply refuse_grows|apply grows_raise].
      destruct (kind_of P c); try apply grows_raise. destruct (sfv_construct _ _); [apply grows_same|apply refuse_grows|apply grows_raise].
    - destruct (is_abstract P c); [now apply abstract_grows|].
      apply (grows_bind r _ finish_); [now apply concrete_grows|intros; apply finish_grows].
    - now apply list_grows.
  Qed.
  Theorem parse_masks f : forall i p v r, Masks r (parse V A P T repr post_parse f i p v r) (parse V A' P T repr post_parse f i p v r).
  Proof.
    induction f as [|f I1]; intros i p v r; cbn [parse]; [apply masks_refl|].
    assert (I2 : forall i p v r, Grows r (parse V A' P T repr post_parse f i p v r)) by (intros; apply parse_grows).
    destruct (nth_error T i) as [[k t]|]; [|apply masks_refl].
    destruct t as [| | | | | |c|c|c attrs static subs|item e].
    - apply masks_refl.
    - unfold parse_string. cbn [A' masked ad_string]. destruct (ad_string A v) as [b|m|y] eqn:E; cbn [mask];
        first [apply masks_refl | apply masks_crash; [eauto|apply refuse_reports]].
    - unfold parse_bool. cbn [A' masked ad_bool]. destruct (ad_bool A v) as [b|m|y] eqn:E; cbn [mask];
        first [apply masks_refl | apply masks_crash; [eauto|apply refuse_reports]].
    - apply masks_refl.
    - apply masks_refl.
    - apply masks_refl.
    - unfold parse_enum. cbn [A' masked ad_string]. destruct (ad_string A v) as [s|m|y] eqn:E; cbn [mask];
        first [apply masks_refl | apply masks_crash; [eauto|apply refuse_reports]].
    - unfold parse_sfv. cbn [A' masked ad_string]. destruct (ad_string A v) as [s|m|y] eqn:E; cbn [mask];
        first [apply masks_refl | apply masks_crash; [eauto|apply refuse_reports]].
    - destruct (is_abstract P c); [now apply abstract_masks|].
      apply (masks_bind r _ _ finish_ finish_); [now apply concrete_masks|now apply concrete_grows|intros; apply masks_refl|intros; apply finish_grows].
    - now apply list_masks.
  Qed.
End Crash.
