(** Comparing meta models: documents of a meta model with narrower types. *)
From Coq Require Import PeanoNat Lia String List NArith ZArith Bool.
From Verif Require Import PyStr PyStrFacts PyBase PyVal DataTypesModel DataTypesSpec MetaSpec MetaFacts ParseSpec ParseFacts ParseFacts2 P_DataTypes.
Import ListNotations.
Local Open Scope list_scope.

Lemma zero_zero : Two (lit "00") 0%Z /\ Two (lit "00") 0%Z.
Proof.
  assert (X : Two (lit "00") 0%Z); [|auto]. split; [reflexivity|]. split; [|reflexivity].
  repeat constructor; vm_compute; discriminate.
Qed.
Lemma utc_is_date_time s : is_xs_date_time_utc s = Val true -> validate_xsd X_dateTime s = Val true.
Proof.
  intros H. apply C60_date_time_utc_exact in H. apply C60_date_time_exact. destruct H as (ds & y & m & d & L & X & B).
  exists ds, y, m, d. split; [|auto].
  assert (Y : forall t, XsdDateTimeLex UtcZone t ds y m d -> XsdDateTimeLex XsdTimezoneOpt t ds y m d).
  { intros t (u & t' & tz & E & A1 & A2 & A3 & A4). exists u, t', tz. repeat (split; [assumption|]). right.
    destruct A4 as [<-|[<-|[<-|[]]]]; [now left| |]; right.
    - exists (lit "+"), (lit "00"), 0%Z, (lit "00"), 0%Z. destruct zero_zero as [Z1 Z2]. split; [reflexivity|]. split; [auto|]. split; [exact Z1|]. split; [exact Z2|]. lia.
    - exists (lit "-"), (lit "00"), 0%Z, (lit "00"), 0%Z. destruct zero_zero as [Z1 Z2]. split; [reflexivity|]. split; [auto|]. split; [exact Z1|]. split; [exact Z2|]. lia. }
  destruct L as [L|(t & E & L)]; [left|right; exists t; split; [exact E|]]; auto.
Qed.

Inductive Narrower : gtype -> gtype -> Prop :=
| N_same g : Narrower g g
| N_text t t' : (forall s, text_ok t s -> text_ok t' s) -> Narrower (GText t) (GText t')
| N_plain t : Narrower (GText t) GPlain
| N_enum l l' : incl l l' -> Narrower (GEnum l) (GEnum l')
| N_list g g' : Narrower g g' -> Narrower (GList g) (GList g').

Definition text_narrowb (t t' : text) : bool :=
  if text_eqb t t' then true
  else if text_eqb t (Text 1 None FUtc) then text_eqb t' (Text 1 None (FXsd X_dateTime))
  else if text_eqb t (Text 1 None (FXsd X_base64Binary)) then text_eqb t' (Text 1 None FAny) else false.
Lemma text_narrowb_ok t t' : text_narrowb t t' = true -> forall s, text_ok t s -> text_ok t' s.
Proof.
  unfold text_narrowb. destruct (text_eqb t t') eqn:E; [apply text_eqb_eq in E; subst; auto|]. clear E.
  destruct (text_eqb t (Text 1 None FUtc)) eqn:E1.
  - apply text_eqb_eq in E1. intros E2. apply text_eqb_eq in E2. subst. intros s (A & B & C & D). repeat apply conj; auto.
    simpl in *. now apply utc_is_date_time.
  - destruct (text_eqb t (Text 1 None (FXsd X_base64Binary))) eqn:E2; [|discriminate]. apply text_eqb_eq in E2.
    intros E3. apply text_eqb_eq in E3. subst. intros s (A & B & C & D). repeat apply conj; auto.
Qed.
Fixpoint narrowb (g g' : gtype) : bool :=
  match g, g' with
  | GText t, GText t' => text_narrowb t t'
  | GText _, GPlain => true
  | GPlain, GPlain => true
  | GBool, GBool => true
  | GEnum l, GEnum l' => subset l l'
  | GObj n, GObj n' => str_eqb n n'
  | GList x, GList y => narrowb x y
  | _, _ => false
  end.
Lemma narrowb_ok g : forall g', narrowb g g' = true -> Narrower g g'.
Proof.
  induction g as [t| | |l|n|x IH]; intros [t'| | |l'|n'|y]; simpl; try discriminate.
  - intros H. apply N_text. now apply text_narrowb_ok.
  - intros _. apply N_plain.
  - intros _. apply N_same.
  - intros _. apply N_same.
  - intros H. apply subset_spec in H. now apply N_enum.
  - intros H. apply str_eqb_spec in H. subst. apply N_same.
  - intros H. apply N_list. now apply IH.
Qed.

Definition class_narrower (c c' : gclass) : Prop :=
  gc_name c' = gc_name c /\ gc_abstract c' = gc_abstract c /\ (gc_tagged c' = true -> gc_tagged c = true) /\
  incl (gc_subclasses c) (gc_subclasses c') /\
  (forall a, In a (gc_attrs c) -> exists a', In a' (gc_attrs c') /\ g_name a' = g_name a) /\
  (forall a', In a' (gc_attrs c') -> exists a, In a (gc_attrs c) /\ g_name a = g_name a' /\
     (g_required a' = true -> g_required a = true) /\ Narrower (g_type a) (g_type a')).
Definition class_narrowb (c c' : gclass) : bool :=
  if str_eqb (gc_name c') (gc_name c) then
    Bool.eqb (gc_abstract c') (gc_abstract c) && implb (gc_tagged c') (gc_tagged c)
    && subset (gc_subclasses c) (gc_subclasses c')
    && forallb (fun a => existsb (fun a' => str_eqb (g_name a') (g_name a)) (gc_attrs c')) (gc_attrs c)
    && forallb (fun a' => existsb (fun a => if str_eqb (g_name a) (g_name a')
                                            then implb (g_required a') (g_required a) && narrowb (g_type a) (g_type a') else false)
                                  (gc_attrs c)) (gc_attrs c')
  else false.
Lemma implb_ok a b : implb a b = true -> a = true -> b = true.
Proof. destruct a, b; simpl; auto. Qed.
Lemma class_narrowb_ok c c' : class_narrowb c c' = true -> class_narrower c c'.
Proof.
  unfold class_narrowb. destruct (str_eqb (gc_name c') (gc_name c)) eqn:E; [|discriminate]. apply str_eqb_spec in E.
  rewrite !andb_true_iff, !forallb_forall, subset_spec. intros [[[[A B] C] D] F]. apply eqb_prop in A. repeat apply conj; auto.
  - now apply implb_ok.
  - intros a I. apply D in I. apply existsb_exists in I. destruct I as (a' & I & H). apply str_eqb_spec in H. eauto.
  - intros a' I. apply F in I. apply existsb_exists in I. destruct I as (a & I & H).
    destruct (str_eqb (g_name a) (g_name a')) eqn:N; [|discriminate]. apply str_eqb_spec in N. apply andb_true_iff in H.
    destruct H as [H1 H2]. exists a. repeat apply conj; auto; [now apply implb_ok|now apply narrowb_ok].
Qed.

Section Narrow.
  Variable V : Type.
  Variable W : view V.
  Variables M M' : list gclass.
  Hypothesis HM : forall c, In c M -> exists c', In c' M' /\ class_narrower c c'.

  Lemma expected_narrow n v c : Expected W M n v c -> exists c', Expected W M' n v c' /\ class_narrower c c'.
  Proof.
    intros [c0 I N B|a c0 t I N B T S J K].
    - destruct (HM _ I) as (c' & I' & R). exists c'. split; [|exact R]. destruct R as (R1 & R2 & _). apply Exp_concrete; congruence.
    - destruct (HM _ I) as (a' & Ia & Ra). destruct (HM _ J) as (c' & Ic & Rc). exists c'. split; [|exact Rc].
      destruct Ra as (R1 & R2 & _ & R4 & _). destruct Rc as (Q1 & _). apply (Exp_abstract _ _ _ _ _ a' c' t); auto; congruence.
  Qed.
  Lemma conforms_narrow g v : Conforms W M g v -> forall g', Narrower g g' -> Conforms W M' g' v.
  Proof.
    intros C. induction C as [t v s E H|v s E|v b E|l v s E H|g v l E N C IH|n v c kvs X TG E R U C IH]; intros g' Nr.
    - inversion Nr; subst; [econstructor; eauto|econstructor; eauto|econstructor; eauto].
    - inversion Nr; subst. econstructor; eauto.
    - inversion Nr; subst. econstructor; eauto.
    - inversion Nr; subst; econstructor; eauto.
    - assert (Y : exists g2, g' = GList g2 /\ Narrower g g2) by (inversion Nr; subst; eauto using N_same).
      destruct Y as (g2 & -> & N2). econstructor; eauto.
    - assert (g' = GObj n) by (inversion Nr; subst; reflexivity). subst g'.
      destruct (expected_narrow _ _ _ X) as (c' & X' & (R1 & R2 & R3 & R4 & R5 & R6)). eapply C_obj; eauto.
      + intros T. rewrite R1. auto.
      + intros a' I Q. destruct (R6 a' I) as (a & Ia & Na & Qa & _). rewrite <- Na. auto.
      + intros k x I. destruct (U k x I) as (a & Ia & Na). destruct (R5 a Ia) as (a' & Ia' & Na'). exists a'. split; [exact Ia'|congruence].
      + intros a' x I L. destruct (R6 a' I) as (a & Ia & Na & _ & Nt). rewrite <- Na in L. eapply IH; eauto.
  Qed.
End Narrow.

(** The specified meta model, except that the content of a Blob is not empty. *)
Definition aas_v3_0_blobs : list gclass :=
  change_attr "Blob" "value" (GText (Text 1 None (FXsd X_base64Binary))) aas_v3_0.
Lemma blobs_narrower c : In c aas_v3_0_blobs -> exists c', In c' aas_v3_0_checked /\ class_narrower c c'.
Proof.
  intros I. assert (X : forallb (fun c => existsb (class_narrowb c) aas_v3_0_checked) aas_v3_0_blobs = true) by (vm_compute; reflexivity).
  apply (proj1 (forallb_forall _ _) X) in I. apply existsb_exists in I. destruct I as (c' & I & H). exists c'.
  split; [exact I|apply class_narrowb_ok; exact H].
Qed.
