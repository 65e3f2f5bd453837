(** Scanning relationships: fuel, exceptions, malformed files, deprecated types. *)
From Coq Require Import List NArith ZArith Bool Lia.
From Coq Require Import String. Open Scope list_scope.
From Verif Require Import PyStr PyStrFacts PyBase PyXml ResultModel ResultSpec ResultFacts OpcModel OpcSpec OpcFacts.
Import ListNotations.

(** ** Fuel *)
Section Fuel.
  Variable dep : list (str * str).
  Variable z : archive.
  Definition unv (V : list str) : nat := List.length (filter (fun n => negb (str_in n V)) (namelist z)).
  Lemma filter_len_mono {A} (f g : A -> bool) l : (forall x, In x l -> f x = true -> g x = true) ->
    List.length (filter f l) <= List.length (filter g l).
  Proof.
    induction l as [|a l IH]; simpl; intros H; auto.
    assert (IH' : List.length (filter f l) <= List.length (filter g l)) by (apply IH; intros; apply H; auto).
    destruct (f a) eqn:E; [rewrite (H a) by auto; simpl; lia|]. destruct (g a); simpl; lia.
  Qed.
  Lemma filter_len_lt {A} (f g : A -> bool) l a : (forall x, In x l -> f x = true -> g x = true) ->
    In a l -> f a = false -> g a = true -> List.length (filter f l) < List.length (filter g l).
  Proof.
    induction l as [|b l IH]; simpl; intros H Hi Hf Hg; [tauto|].
    destruct Hi as [<-|Hi].
    - rewrite Hf, Hg. simpl. assert (List.length (filter f l) <= List.length (filter g l)) by (apply filter_len_mono; auto). lia.
    - assert (List.length (filter f l) < List.length (filter g l)) by (apply IH; auto).
      destruct (f b) eqn:E; [rewrite (H b) by auto; simpl; lia|]. destruct (g b); simpl; lia.
  Qed.
  Lemma unv_mono V V' : incl V V' -> unv V' <= unv V.
  Proof.
    intros H. apply filter_len_mono. intros x _ Hx. apply negb_true_iff in Hx. apply negb_true_iff.
    apply not_true_is_false. intros E. apply str_in_spec in E. apply H in E. apply str_in_spec in E. congruence.
  Qed.
  Lemma unv_lt t V : In t (namelist z) -> ~ In t V -> unv (t :: V) < unv V.
  Proof.
    intros Hi Hn. apply filter_len_lt with t; auto.
    - intros x _ Hx. apply negb_true_iff in Hx. apply negb_true_iff. apply not_true_is_false. intros E.
      apply str_in_spec in E. assert (str_in x (t :: V) = true) by (apply str_in_spec; simpl; auto). congruence.
    - apply negb_false_iff. apply str_in_spec. simpl; auto.
    - apply negb_true_iff. apply not_true_is_false. intros E. apply str_in_spec in E. contradiction.
  Qed.
  Lemma filter_len_le {A} (f : A -> bool) l : List.length (filter f l) <= List.length l.
  Proof. induction l as [|a l IH]; simpl; auto. destruct (f a); simpl; lia. Qed.
  Lemma unv_enough V : unv V < enough z.
  Proof.
    unfold unv, enough. pose proof (filter_len_le (fun n => negb (str_in n V)) (namelist z)) as H.
    unfold namelist in *. rewrite map_length in H. lia.
  Qed.

  Lemma loop_ext rec rec' k :
    (forall dir file V, unv V < k -> rec dir file V = rec' dir file V) ->
    (forall dir file V s, rec dir file V = Val s -> incl V (sr_visited s)) ->
    forall els dir res rels V S, unv V <= k ->
      rel_loop rec dep z dir els res rels V S = rel_loop rec' dep z dir els res rels V S.
  Proof.
    intros He Hi. induction els as [|e els IH]; intros dir res rels V S Hk; cbn [rel_loop]; auto.
    destruct (negb _); auto.
    destruct (lookup (lit "Type") _); auto. destruct (lookup (lit "Target") _); auto.
    destruct (map_type dep _) as [ty w]. destruct (splitpath _) as [d f].
    set (t := resolve_target dir s0) in *.
    destruct (str_in t V) eqn:Ev; auto.
    assert (Ev' : ~ In t V) by (rewrite <- str_in_spec; congruence).
    assert (Hk' : unv (t :: V) <= k).
    { etransitivity; [|exact Hk]. apply unv_mono. intros x Hx; simpl; auto. }
    destruct (str_in t (namelist z)) eqn:En; cbn [negb]; auto.
    apply str_in_spec in En. pose proof (unv_lt t V En Ev').
    rewrite <- He by lia. destruct (rec (d ++ lit "/") f (t :: V)) as [s1|] eqn:Er; auto.
    apply IH. apply Hi in Er. apply unv_mono in Er. lia.
  Qed.

  Lemma scan_fuel_step k : forall dir file V, unv V < k -> scan (S k) dep z dir file V = scan k dep z dir file V.
  Proof.
    induction k as [|k IH]; intros dir file V H; [lia|].
    cbn [scan]. destruct (zopen z (rels_name dir file)) as [c|]; auto.
    destruct (as_xml c) as [root| |]; auto. destruct (negb _); auto.
    apply loop_ext with k; [|
      intros d f V0 s H0; apply (scan_rel dep z (S k)) in H0; apply (proj1 (scan_inv dep z)) in H0; apply H0|lia].
    intros d f V0 H0. apply IH; auto.
  Qed.
  Lemma scan_fuel k : forall dir file V, unv V < k -> forall j, k <= j -> scan j dep z dir file V = scan k dep z dir file V.
  Proof.
    intros dir file V H j Hj. induction Hj; auto. rewrite scan_fuel_step; [auto|lia].
  Qed.

  (** ** Exceptions *)
  Definition broken (name : str) (e : exn) : Prop :=
    exists c, zopen z name = Some c /\ ((exists m, as_xml c = PBad m /\ e = XmlParseError) \/ as_xml c = PCrash e).
  Lemma loop_raise rec k :
    (forall dir file V e, rec dir file V = Raise e -> (exists d f, broken (rels_name d f) e) \/ (e = OutOfFuel /\ k <= unv V)) ->
    (forall dir file V s, rec dir file V = Val s -> incl V (sr_visited s)) ->
    forall els dir res rels V S e, rel_loop rec dep z dir els res rels V S = Raise e ->
      (exists d f, broken (rels_name d f) e) \/ (e = OutOfFuel /\ k < unv V).
  Proof.
    intros Hr Hi. induction els as [|x els IH]; intros dir res rels V S e H; cbn [rel_loop] in H; [discriminate|].
    destruct (negb _); [eapply IH; eauto|].
    destruct (lookup (lit "Type") _); [|eapply IH; eauto]. destruct (lookup (lit "Target") _); [|eapply IH; eauto].
    destruct (map_type dep _) as [ty w]. destruct (splitpath _) as [d f].
    set (t := resolve_target dir s0) in *.
    destruct (str_in t V) eqn:Ev; [eapply IH; eauto|].
    assert (Ev' : ~ In t V) by (rewrite <- str_in_spec; congruence).
    assert (Hm : unv (t :: V) <= unv V) by (apply unv_mono; intros y Hy; simpl; auto).
    destruct (str_in t (namelist z)) eqn:En; cbn [negb] in H.
    2:{ apply IH in H as [H|[H H']]; auto. right. split; auto. lia. }
    apply str_in_spec in En. pose proof (unv_lt t V En Ev').
    destruct (rec (d ++ lit "/") f (t :: V)) as [s1|e1] eqn:Er.
    - apply IH in H as [H|[H H']]; auto. right. split; auto. apply Hi in Er. apply unv_mono in Er. lia.
    - inversion H; subst. apply Hr in Er as [Er|[Er Er']]; auto. right. split; auto. lia.
  Qed.
  Lemma scan_raise k : forall dir file V e, scan k dep z dir file V = Raise e ->
    (exists d f, broken (rels_name d f) e) \/ (e = OutOfFuel /\ k <= unv V).
  Proof.
    induction k as [|k IH]; intros dir file V e H; cbn [scan] in H.
    { inversion H. right. split; auto. lia. }
    destruct (zopen z (rels_name dir file)) as [c|] eqn:Ez; [|discriminate].
    destruct (as_xml c) as [root|m|x] eqn:Ex.
    - destruct (negb _); [discriminate|].
      apply (loop_raise _ k IH) in H.
      + destruct H as [H|[H H']]; auto.
      + intros d f V0 s H0; apply scan_rel in H0; apply (proj1 (scan_inv dep z)) in H0; apply H0.
    - inversion H. left. exists dir, file, c. split; auto. left. eauto.
    - inversion H; subst. left. exists dir, file, c. split; auto.
  Qed.
End Fuel.

(** ** Malformed relationship files *)
Definition malformed (root : xml) : Prop :=
  x_tag root <> NS_RELATIONSHIPS ++ lit "Relationships"
  \/ exists e, In e (x_children root) /\
       (x_tag e <> NS_RELATIONSHIPS ++ lit "Relationship"
        \/ lookup (lit "Type") (x_attrs e) = None \/ lookup (lit "Target") (x_attrs e) = None).
Definition malformed_file (z : archive) (name : str) : Prop :=
  exists c root, zopen z name = Some c /\ as_xml c = POk root /\ malformed root.
Section Malformed.
  Variable dep : list (str * str).
  Variable z : archive.
  Lemma scan_malformed :
    (forall dir file V s, Scan dep z dir file V s ->
        (malformed_file z (rels_name dir file) \/ exists p, In p (sr_scanned s) /\ malformed_file z (rels_name (subdir p) (subfile p))) ->
        exists r, sr_result s = Some r /\ ok r = false)
    /\ (forall dir V els es rels V' S, Loop dep z dir V els es rels V' S ->
        ((exists e, In e els /\ (~ good_rel e \/ lookup (lit "Type") (x_attrs e) = None \/ lookup (lit "Target") (x_attrs e) = None))
         \/ exists p, In p S /\ malformed_file z (rels_name (subdir p) (subfile p))) -> bad es).
  Proof.
    apply ScanLoop_ind; cbn [sr_scanned sr_result]; intros.
    - destruct H as [(c & root & H & _)|(p & [] & _)]. congruence.
    - eexists; split; [reflexivity|auto].
    - assert (B : bad es).
      { apply H. destruct H0 as [(c1 & root1 & H1 & H2 & [H3|H3])|H0]; auto.
        - exfalso. rewrite e in H1. inversion H1; subst. rewrite e0 in H2. inversion H2; subst. contradiction.
        - left. rewrite e in H1. inversion H1; subst. rewrite e0 in H2. inversion H2; subst. exact H3. }
      destruct B as (x & Hx & Hb). eexists; split; [reflexivity|].
      apply not_true_is_false. intros Ho. rewrite ok_appends in Ho. apply andb_prop in Ho as [_ Ho].
      rewrite forallb_forall in Ho. rewrite (Ho _ Hx) in Hb. discriminate.
    - destruct H as [(e & [] & _)|(p & [] & _)].
    - exists (new_result m ERROR). simpl; auto.
    - exists (new_result m ERROR). simpl; auto.
    - destruct H as (x & Hx & Hb).
      { destruct H0 as [(e' & [<-|He] & H0)|H0]; eauto. exfalso. destruct H0 as [H0|[H0|H0]]; congruence. }
      exists x. split; auto. apply in_or_app. right. simpl; auto.
    - exists (new_result m ERROR). split; auto. apply in_or_app. right. simpl; auto.
    - assert (X : (exists r, sr_result s = Some r /\ ok r = false) \/ bad es).
      { destruct H1 as [(e' & [<-|He] & H1)|(p & [<-|Hp] & Hm)].
        - exfalso. destruct H1 as [H1|[H1|H1]]; congruence.
        - right. apply H0. left. eauto.
        - left. apply H. left. revert Hm. unfold subdir, subfile. now rewrite e4.
        - apply in_app_iff in Hp as [Hp|Hp]; [left; apply H; eauto|right; apply H0; eauto]. }
      destruct X as [(r & Hr & Hb)|(x & Hx & Hb)].
      + exists r. split; auto. apply in_or_app. right. right. rewrite Hr. simpl; auto.
      + exists x. split; auto. apply in_or_app. right. right. apply in_or_app. auto.
  Qed.
End Malformed.

(** ** Where visited targets come from *)
Section Source.
  Variable dep : list (str * str).
  Variable z : archive.
  Definition cited (t : str) : Prop :=
    exists q ty tg, In q (namelist z) /\ relation_in z (rels_name (subdir q) (subfile q)) ty tg
      /\ resolve_target (subdir q) tg = t.
  Lemma scan_source :
    (forall dir file V s, Scan dep z dir file V s -> forall t, In t (sr_visited s) ->
       In t V \/ (exists ty tg, relation_in z (rels_name dir file) ty tg /\ resolve_target dir tg = t) \/ cited t)
    /\ (forall dir V els es rels V' S, Loop dep z dir V els es rels V' S -> forall t, In t V' ->
       In t V \/ (exists e ty tg, In e els /\ elem_rel e ty tg /\ resolve_target dir tg = t) \/ cited t).
  Proof.
    apply ScanLoop_ind; cbn [sr_visited]; intros; auto.
    - destruct (H _ H0) as [K|[(e1 & ty & tg & K1 & (K2 & K3 & K4) & K5)|K]]; auto.
      right; left. exists ty, tg. split; auto. exists c, root, e1. repeat (split; auto).
    - destruct (H _ H0) as [K|[(e1 & ty & tg & K1 & K2 & K3)|K]]; auto. right; left. exists e1, ty, tg. simpl; auto.
    - destruct (H _ H0) as [K|[(e1 & ty & tg & K1 & K2 & K3)|K]]; auto. right; left. exists e1, ty, tg. simpl; auto.
    - destruct (H _ H0) as [K|[(e5 & ty' & tg' & K1 & K2 & K3)|K]]; auto. right; left. exists e5, ty', tg'. simpl; auto.
    - destruct (H _ H0) as [[<-|K]|[(e5 & ty' & tg' & K1 & K2 & K3)|K]]; auto.
      + right; left. exists e, ty0, tg. repeat split; simpl; auto.
      + right; left. exists e5, ty', tg'. simpl; auto.
    - destruct (H0 _ H1) as [K|[(e5 & ty' & tg' & K1 & K2 & K3)|K]]; auto.
      + destruct (H _ K) as [[<-|K']|[(ty' & tg' & K1 & K2)|K']]; auto.
        * right; left. exists e, ty0, tg. repeat split; simpl; auto.
        * right; right. exists t, ty', tg'. unfold subdir, subfile. rewrite e4. auto.
      + right; left. exists e5, ty', tg'. simpl; auto.
  Qed.

  (** a relationship element whose target is not visited before is followed in full *)
  Lemma loop_follow dir pre e post V es rels V' S ty tg :
    Loop dep z dir V (pre ++ e :: post) es rels V' S -> elem_rel e ty tg ->
    ~ In (resolve_target dir tg) V ->
    (forall e' ty' tg', In e' pre -> elem_rel e' ty' tg' -> resolve_target dir tg' <> resolve_target dir tg) ->
    ~ cited (resolve_target dir tg) ->
    In (resolve_target dir tg) (namelist z) ->
    exists s V0, In (Rel (fst (map_type dep ty)) (resolve_target dir tg) (sr_rels s)) rels
      /\ Scan dep z (subdir (resolve_target dir tg)) (subfile (resolve_target dir tg)) V0 s.
  Proof.
    revert V es rels V' S. induction pre as [|x pre IH]; intros V es rels V' S H He Hv Hp Hc Hn.
    - simpl in H. destruct He as (G1 & G2 & G3). inversion H; subst; try contradiction; try (destruct H8; congruence).
      + match goal with H : _ \/ _ |- _ => destruct H; congruence end.
      + rewrite G3 in *. match goal with H : Some _ = Some _ |- _ => inversion H; subst end. contradiction.
      + rewrite G3 in *. match goal with H : Some _ = Some _ |- _ => inversion H; subst end. contradiction.
      + rewrite G3 in *. rewrite G2 in *. repeat match goal with H : Some _ = Some _ |- _ => inversion H; clear H; subst end.
        exists s, (resolve_target dir tg0 :: V). split.
        * left. f_equal. match goal with H : map_type _ _ = _ |- _ => now rewrite H end.
        * unfold subdir, subfile. match goal with H : splitpath _ = _ |- _ => rewrite H end. assumption.
    - assert (Hp' : forall e' ty' tg', In e' pre -> elem_rel e' ty' tg' -> resolve_target dir tg' <> resolve_target dir tg)
        by (intros; eapply Hp; simpl; eauto).
      simpl in H. inversion H; subst.
      + eapply IH; eauto.
      + eapply IH; eauto.
      + edestruct IH as (s9 & V9 & X1 & X2); eauto. exists s9, V9. simpl; auto.
      + edestruct IH as (s9 & V9 & X1 & X2); eauto.
        { intros [E|E]; [|contradiction]. eapply Hp; [simpl; eauto| |exact E]. split; eauto. }
        exists s9, V9. simpl; auto.
      + edestruct IH as (s9 & V9 & X1 & X2); eauto.
        { intros E. match goal with H : Scan _ _ _ _ _ _ |- _ => destruct (proj1 scan_source _ _ _ _ H _ E) as [[K|K]|[(ty' & tg' & K1 & K2)|K]] end.
          - eapply Hp; [simpl; eauto| |exact K]. split; eauto.
          - contradiction.
          - apply Hc. exists (resolve_target dir tg0), ty', tg'. unfold subdir, subfile.
            match goal with H : splitpath _ = _ |- _ => rewrite H end. auto.
          - contradiction. }
        exists s9, V9. simpl; auto.
  Qed.
End Source.
