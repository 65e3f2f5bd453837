(** Lemmas on the string functions of PyStr. *)
From Coq Require Import List NArith ZArith Bool Lia String Ascii.
From Verif Require Import PyStr.
Import ListNotations.

Lemma str_eqb_spec a b : str_eqb a b = true <-> a = b.
Proof.
  revert b; induction a as [|x a IH]; intros [|y b]; simpl; split; intros H; try congruence; auto.
  - apply andb_true_iff in H as [H1 H2]. apply N.eqb_eq in H1. apply IH in H2. congruence.
  - inversion H; subst. rewrite N.eqb_refl. simpl. now apply IH.
Qed.
Lemma str_eqb_refl a : str_eqb a a = true.
Proof. now apply str_eqb_spec. Qed.
Lemma str_eqb_neq a b : str_eqb a b = false <-> a <> b.
Proof.
  destruct (str_eqb a b) eqn:E; split; intros H; try congruence.
  - apply str_eqb_spec in E. congruence.
  - intros ->. rewrite str_eqb_refl in E. congruence.
Qed.
Lemma str_eqb_sym a b : str_eqb a b = str_eqb b a.
Proof.
  destruct (str_eqb a b) eqn:E; symmetry.
  - apply str_eqb_spec in E as ->. apply str_eqb_refl.
  - apply str_eqb_neq in E. apply str_eqb_neq. congruence.
Qed.
Lemma str_eq_dec (a b : str) : {a = b} + {a <> b}.
Proof. apply list_eq_dec, N.eq_dec. Defined.

Lemma str_in_spec x l : str_in x l = true <-> In x l.
Proof.
  unfold str_in. rewrite existsb_exists. split.
  - intros (y & Hy & E). apply str_eqb_spec in E as ->. auto.
  - intros H. exists x. split; auto. apply str_eqb_refl.
Qed.

Lemma startswith_spec p s : startswith p s = true <-> exists t, s = p ++ t.
Proof.
  revert s; induction p as [|x p IH]; intros s; simpl.
  - split; eauto.
  - destruct s as [|y s]; split.
    + congruence.
    + intros [t H]. discriminate.
    + intros H. apply andb_true_iff in H as [H1 H2]. apply N.eqb_eq in H1. apply IH in H2 as [t ->].
      subst. eauto.
    + intros [t H]. inversion H; subst. rewrite N.eqb_refl. simpl. apply IH. eauto.
Qed.
Lemma startswith_app p t : startswith p (p ++ t) = true.
Proof. apply startswith_spec. eauto. Qed.

Lemma endswith_spec p s : endswith p s = true <-> exists t, s = t ++ p.
Proof.
  unfold endswith. rewrite startswith_spec. split; intros [t H].
  - exists (rev t). rewrite <- (rev_involutive s), H, rev_app_distr, rev_involutive. reflexivity.
  - exists (rev t). rewrite H, rev_app_distr. reflexivity.
Qed.

(* splitting *)
Lemma split_on_nonempty c s : split_on c s <> [].
Proof. destruct s; simpl; [congruence|]. destruct (N.eqb n c); [congruence|]. destruct (split_on c s); congruence. Qed.

Lemma join_cons2 sep x y l : join sep (x :: y :: l) = x ++ sep ++ join sep (y :: l).
Proof. reflexivity. Qed.

Lemma join_cons sep x l : l <> [] -> join sep (x :: l) = x ++ sep ++ join sep l.
Proof. destruct l; [congruence|reflexivity]. Qed.

Lemma split_join c s : join [c] (split_on c s) = s.
Proof.
  induction s as [|a s IH]; simpl; auto.
  destruct (N.eqb a c) eqn:E.
  - apply N.eqb_eq in E as ->. rewrite join_cons by apply split_on_nonempty. simpl. now rewrite IH.
  - pose proof (split_on_nonempty c s). destruct (split_on c s) as [|t ts] eqn:Es; [congruence|].
    destruct ts as [|t2 ts].
    + simpl in *. now rewrite IH.
    + rewrite join_cons2 in *. simpl. now rewrite <- IH.
Qed.

Lemma split_on_no_sep c s : Forall (fun t => ~ In c t) (split_on c s).
Proof.
  induction s as [|a s IH]; simpl.
  - constructor; auto.
  - destruct (N.eqb a c) eqn:E.
    + constructor; auto.
    + apply N.eqb_neq in E. destruct (split_on c s) as [|t ts].
      * constructor; auto. simpl. intros [H|[]]; congruence.
      * inversion IH; subst. constructor; auto. simpl. intros [H|H]; auto.
Qed.

Lemma split_on_none c s : ~ In c s -> split_on c s = [s].
Proof.
  induction s as [|a s IH]; simpl; intros H; auto.
  destruct (N.eqb a c) eqn:E.
  - apply N.eqb_eq in E; subst. exfalso; auto.
  - rewrite IH by auto. reflexivity.
Qed.

Lemma split_on_app c x s : ~ In c x -> split_on c (x ++ c :: s) = x :: split_on c s.
Proof.
  induction x as [|a x IH]; simpl; intros H.
  - now rewrite N.eqb_refl.
  - destruct (N.eqb a c) eqn:E.
    + apply N.eqb_eq in E; subst. exfalso; auto.
    + rewrite IH by auto. reflexivity.
Qed.

Lemma join_split c l : l <> [] -> Forall (fun t => ~ In c t) l -> split_on c (join [c] l) = l.
Proof.
  induction l as [|x l IH]; intros Hn Hf; [congruence|].
  inversion Hf; subst. destruct l as [|y l].
  - simpl. now apply split_on_none.
  - rewrite join_cons2. simpl app. rewrite split_on_app by auto. f_equal. apply IH; auto. congruence.
Qed.

Lemma split_first_spec c s a b :
  split_first c s = Some (a, b) <-> (s = a ++ c :: b /\ ~ In c a).
Proof.
  revert a b; induction s as [|x s IH]; intros a b; simpl.
  - split; [congruence|]. intros [H _]. destruct a; discriminate.
  - destruct (N.eqb x c) eqn:E.
    + apply N.eqb_eq in E; subst. split.
      * intros H; inversion H; subst. split; auto.
      * intros [H Hn]. destruct a as [|y a]; simpl in H; inversion H; subst; auto.
        exfalso; apply Hn; simpl; auto.
    + apply N.eqb_neq in E. destruct (split_first c s) as [[a' b']|] eqn:Es.
      * split.
        -- intros H; inversion H; subst. destruct (IH a' b) as [IH1 _]. destruct IH1 as [-> Hn]; auto.
           split; auto. simpl. intros [H1|H1]; auto.
        -- intros [H Hn]. destruct a as [|y a]; simpl in H; inversion H; subst; [congruence|].
           assert (Some (a', b') = Some (a, b)) as Hx.
           { apply IH. split; auto. intros Hi; apply Hn; simpl; auto. }
           inversion Hx; subst; reflexivity.
      * split; [congruence|]. intros [H Hn]. destruct a as [|y a]; simpl in H; inversion H; subst; [congruence|].
        assert (None = Some (a, b)) as Hx.
        { apply IH. split; auto. intros Hi; apply Hn; simpl; auto. }
        congruence.
Qed.
Lemma split_first_none c s : split_first c s = None <-> ~ In c s.
Proof.
  induction s as [|x s IH]; simpl.
  - split; auto.
  - destruct (N.eqb x c) eqn:E.
    + apply N.eqb_eq in E; subst. split; [congruence|]. intros H; exfalso; auto.
    + apply N.eqb_neq in E. destruct (split_first c s) as [[a b]|] eqn:Es.
      * split; [congruence|]. intros H. exfalso. discriminate (proj2 IH (fun Hi => H (or_intror Hi))).
      * split; auto. intros _ [H|H]; auto. apply (proj1 IH); auto.
Qed.

(* drop_while / strip *)
Lemma drop_while_app f a b :
  Forall (fun c => f c = true) a -> drop_while f (a ++ b) = drop_while f b.
Proof. induction 1; simpl; auto. now rewrite H. Qed.
Lemma drop_while_split f s : exists a, s = a ++ drop_while f s /\ Forall (fun c => f c = true) a.
Proof.
  induction s as [|c s (a & H1 & H2)]; simpl.
  - exists []. auto.
  - destruct (f c) eqn:E.
    + exists (c :: a). simpl. split; [now rewrite <- H1|]. constructor; auto.
    + exists []. auto.
Qed.
Lemma drop_while_head f s c t : drop_while f s = c :: t -> f c = false.
Proof.
  induction s as [|x s IH]; simpl; [congruence|]. destruct (f x) eqn:E; auto.
  intros H; inversion H; subst; auto.
Qed.
Lemma drop_while_id f s : (forall c t, s = c :: t -> f c = false) -> drop_while f s = s.
Proof. destruct s; simpl; auto. intros H. now rewrite (H n s). Qed.
Lemma drop_while_nil f s : drop_while f s = [] <-> Forall (fun c => f c = true) s.
Proof.
  induction s as [|c s IH]; simpl.
  - split; auto.
  - destruct (f c) eqn:E.
    + rewrite IH. split; intros H; [constructor; auto|inversion H; auto].
    + split; [congruence|]. intros H; inversion H; congruence.
Qed.

Lemma strip_split s : exists a b,
  s = a ++ strip s ++ b /\ Forall (fun c => is_space c = true) a /\ Forall (fun c => is_space c = true) b.
Proof.
  unfold strip, lstrip, rstrip.
  destruct (drop_while_split is_space s) as (a & H1 & H2).
  destruct (drop_while_split is_space (rev (drop_while is_space s))) as (b & H3 & H4).
  exists a, (rev b). split; [|split; auto].
  - rewrite H1 at 1. f_equal. rewrite <- (rev_involutive (drop_while is_space s)) at 1.
    rewrite H3 at 1. now rewrite rev_app_distr.
  - apply Forall_rev; auto.
Qed.

Lemma strip_nil s : strip s = [] <-> Forall (fun c => is_space c = true) s.
Proof.
  split.
  - intros H. destruct (strip_split s) as (a & b & E & Ha & Hb). rewrite H in E. simpl in E. subst s.
    apply Forall_app; auto.
  - intros H. unfold strip, lstrip, rstrip. apply drop_while_nil in H. rewrite H. reflexivity.
Qed.

Lemma contains_spec sub s : contains sub s = true <-> exists a b, s = a ++ sub ++ b.
Proof.
  induction s as [|c s IH]; simpl.
  - rewrite orb_false_r, startswith_spec. split.
    + intros [t H]. exists [], t. auto.
    + intros (a & b & H). destruct a; simpl in H; [|discriminate]. exists b. auto.
  - rewrite orb_true_iff, startswith_spec, IH. split.
    + intros [[t H]|(a & b & H)].
      * exists [], t. auto.
      * exists (c :: a), b. simpl. now rewrite H.
    + intros (a & b & H). destruct a as [|x a]; simpl in H.
      * left. exists b. auto.
      * inversion H; subst. right. exists a, b. auto.
Qed.

Lemma lit_app a b : lit (a ++ b) = lit a ++ lit b.
Proof. unfold lit. induction a; simpl; auto. now f_equal. Qed.
