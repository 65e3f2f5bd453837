From Coq Require Import List NArith ZArith Bool Lia.
From Coq Require Import String. Open Scope list_scope.
From Verif Require Import PyStr PyStrFacts PyBase PyXml ResultModel ResultSpec ResultFacts OpcModel OpcSpec.
Import ListNotations.
Local Open Scope N_scope.

Lemma NoDup_app_intro {A} (l l' : list A) : NoDup l -> NoDup l' -> (forall x, In x l -> ~ In x l') -> NoDup (l ++ l').
Proof.
  induction 1; simpl; intros Hl' Hd; auto. constructor.
  - rewrite in_app_iff. intros [Hi|Hi]; auto. eapply Hd; simpl; eauto.
  - apply IHNoDup; auto.
Qed.

(** ** Paths *)
Lemma segments_split s : segments s (split_on 47 s).
Proof.
  induction s as [|c s IH]; simpl.
  - constructor. auto.
  - destruct (N.eqb_spec c 47).
    + subst. apply (seg_more [] s); auto.
    + inversion IH as [s0 Hn|a s0 l Hn H]; subst.
      * constructor. simpl. intros [H|H]; auto.
      * apply (seg_more (c :: a)); auto. simpl. intros [H'|H']; auto.
Qed.
Lemma segments_fun s l : segments s l -> split_on 47 s = l.
Proof. induction 1; [now apply split_on_none|]. rewrite split_on_app by auto. now f_equal. Qed.

Lemma strip_eqb t : str_eqb (strip t) [] = true <-> blank t.
Proof. rewrite str_eqb_spec. apply strip_nil. Qed.

Lemma norm_loop_resolves tokens : forall acc, resolves (rev acc) tokens (norm_loop tokens acc).
Proof.
  induction tokens as [|t r IH]; intros acc; cbn [norm_loop].
  - constructor.
  - destruct (str_eqb (strip t) []) eqn:E1; cbn [orb].
    { apply rs_skip; auto. left. now apply strip_eqb. }
    destruct (str_eqb t (lit ".")) eqn:E2; cbn [orb].
    { apply str_eqb_spec in E2. apply rs_skip; auto. }
    destruct (str_eqb t (lit "..")) eqn:E3.
    { apply str_eqb_spec in E3. subst t. change (lit "..") with [46; 46]. destruct acc as [|d acc]; simpl.
      - apply rs_up_root. apply (IH []).
      - apply rs_up. apply IH. }
    apply rs_down.
    + intros H. apply strip_eqb in H. congruence.
    + apply str_eqb_neq in E2. exact E2.
    + apply str_eqb_neq in E3. exact E3.
    + apply (IH (t :: acc)).
Qed.
Lemma updots_not_blank : ~ (blank [46; 46] \/ [46; 46] = [46]).
Proof. intros [H|H]; [inversion H; discriminate|discriminate]. Qed.
Lemma resolves_fun done r out out' : resolves done r out -> resolves done r out' -> out = out'.
Proof.
  pose proof updots_not_blank as U.
  intros H. revert out'. induction H; intros out' H'; inversion H'; subst; auto;
    try (exfalso; tauto);
    try (match goal with H : _ ++ [_] = _ ++ [_] |- _ => apply app_inj_tail in H as [-> ->] end; auto; fail);
    try (exfalso; match goal with
      | H : [] = _ ++ [_] |- _ => symmetry in H; apply app_eq_nil in H as [_ H]; discriminate
      | H : _ ++ [_] = [] |- _ => apply app_eq_nil in H as [_ H]; discriminate end).
Qed.

Lemma resolves_clean done r out : resolves done r out ->
  Forall (fun t => ~ blank t /\ t <> [46] /\ t <> [46; 46]) done ->
  Forall (fun t => ~ blank t /\ t <> [46] /\ t <> [46; 46]) out.
Proof.
  induction 1; intros Hd; auto.
  - apply IHresolves. apply Forall_app in Hd. tauto.
  - apply IHresolves. apply Forall_app. auto.
Qed.
Lemma resolves_sub done r out : resolves done r out -> forall (P : str -> Prop), Forall P done -> Forall P r -> Forall P out.
Proof.
  induction 1; intros P Hd Hr; auto; inversion Hr; subst; auto.
  - apply IHresolves; auto. apply Forall_app in Hd. tauto.
  - apply IHresolves; auto. apply Forall_app. auto.
Qed.

Lemma trimmed_strip p : trimmed p (strip p).
Proof.
  destruct (strip_split p) as (a & b & E & Ha & Hb). exists a, b. repeat split; auto.
  - intros c t Hs. unfold strip, rstrip in Hs.
    set (l := lstrip is_space p) in *.
    assert (Hl : forall c t, l = c :: t -> is_space c = false) by (intros; eapply drop_while_head; eauto).
    destruct (drop_while_split is_space (rev l)) as (u & Eu & Hu).
    assert (El : l = rev (drop_while is_space (rev l)) ++ rev u).
    { rewrite <- rev_app_distr, <- Eu. now rewrite rev_involutive. }
    rewrite Hs in El. eapply Hl. exact El.
  - intros c t Hs. unfold strip, rstrip in Hs.
    assert (E2 : drop_while is_space (rev (lstrip is_space p)) = c :: rev t).
    { rewrite <- (rev_involutive (drop_while _ _)), Hs, rev_app_distr. reflexivity. }
    eapply drop_while_head; eauto.
Qed.
Lemma trimmed_fun p q q' : trimmed p q -> trimmed p q' -> q = q'.
Proof.
  intros (a & b & E & Ha & Hb & Hh & Hl) (a' & b' & E' & Ha' & Hb' & Hh' & Hl'). subst p.
  assert (G : forall (x : str), blank x -> forall y, drop_while is_space (x ++ y) = drop_while is_space y)
    by (intros; now apply drop_while_app).
  assert (H1 : drop_while is_space (a ++ q ++ b) = match q with [] => [] | _ => q ++ b end).
  { rewrite G by auto. destruct q as [|c q]; [apply drop_while_nil; auto|]. simpl. now rewrite (Hh c q eq_refl). }
  assert (H2 : drop_while is_space (a ++ q ++ b) = match q' with [] => [] | _ => q' ++ b' end).
  { rewrite E'. rewrite G by auto. destruct q' as [|c q']; [apply drop_while_nil; auto|]. simpl. now rewrite (Hh' c q' eq_refl). }
  rewrite H1 in H2. destruct q as [|c q], q' as [|c' q']; auto; try discriminate.
  assert (G2 : forall (x y : str), blank y -> drop_while is_space (rev (x ++ y)) = drop_while is_space (rev x)).
  { intros x y Hy. rewrite rev_app_distr. apply drop_while_app. apply Forall_rev. auto. }
  assert (K : forall x : str, (forall c t, x = t ++ [c] -> is_space c = false) -> drop_while is_space (rev x) = rev x).
  { intros x Hx. apply drop_while_id. intros d t Ht. apply (Hx d (rev t)).
    rewrite <- (rev_involutive x), Ht. reflexivity. }
  apply (f_equal (fun x => drop_while is_space (rev x))) in H2.
  rewrite !G2, !K in H2 by auto. apply (f_equal (@rev N)) in H2. now rewrite !rev_involutive in H2.
Qed.

Lemma normpath_spec p : exists q segs out, trimmed p q /\ segments q segs /\ resolves [] segs out
  /\ normpath p = match q with [] => [] | c :: _ => (if c =? 47 then [47] else []) ++ join [47] out end.
Proof.
  exists (strip p), (split_on 47 (strip p)), (norm_loop (split_on 47 (strip p)) []).
  split; [apply trimmed_strip|]. split; [apply segments_split|]. split; [apply (norm_loop_resolves _ [])|].
  unfold normpath. destruct (strip p) as [|c s] eqn:E; [reflexivity|].
  change (lit "/") with [47]. cbn [startswith]. rewrite andb_true_r. rewrite N.eqb_sym. destruct (c =? 47); reflexivity.
Qed.

Lemma normpath_clean p : exists out,
  (normpath p = join [47] out \/ normpath p = 47 :: join [47] out)
  /\ Forall (fun t => ~ blank t /\ t <> [46] /\ t <> [46; 46] /\ ~ In 47 t) out.
Proof.
  destruct (normpath_spec p) as (q & segs & out & _ & Hs & Hr & E).
  assert (Hc : Forall (fun t => ~ blank t /\ t <> [46] /\ t <> [46; 46] /\ ~ In 47 t) out).
  { pose proof (resolves_clean _ _ _ Hr (Forall_nil _)) as H1.
    assert (H2 : Forall (fun t => ~ In 47 t) out).
    { eapply resolves_sub; eauto. clear - Hs. induction Hs; auto. }
    rewrite Forall_forall in *. intros t Ht. specialize (H1 t Ht). specialize (H2 t Ht). tauto. }
  destruct q as [|c q].
  - exists []. split; auto.
  - exists out. split; auto. rewrite E. destruct (c =? 47); auto.
Qed.

Lemma norm_loop_clean out : forall acc, Forall (fun t => ~ blank t /\ t <> [46] /\ t <> [46; 46] /\ ~ In 47 t) out ->
  norm_loop out acc = rev acc ++ out.
Proof.
  induction out as [|t out IH]; intros acc H; cbn [norm_loop].
  - now rewrite app_nil_r.
  - inversion H as [|? ? (H1 & H2 & H3 & H4) H5]; subst.
    destruct (str_eqb (strip t) []) eqn:E1; [apply strip_eqb in E1; contradiction|].
    change (lit ".") with [46]. change (lit "..") with [46; 46].
    apply str_eqb_neq in H2. apply str_eqb_neq in H3. rewrite H2, H3. cbn [orb].
    rewrite IH by auto. simpl. now rewrite <- app_assoc.
Qed.

Lemma normpath_idem p : strip (normpath p) = normpath p -> normpath (normpath p) = normpath p.
Proof.
  intros H. destruct (normpath_clean p) as (out & E & Hc).
  assert (Hn : Forall (fun t => ~ In 47 t) out) by (eapply Forall_impl; [|exact Hc]; tauto).
  unfold normpath at 1. rewrite H. destruct (normpath p) as [|c s] eqn:Ep; [reflexivity|].
  change (lit "/") with [47]. cbn [startswith]. rewrite andb_true_r.
  destruct E as [E|E].
  - destruct out as [|t out]; [discriminate|].
    destruct (N.eqb_spec 47 c).
    + (* a segment starts with a slash: impossible *)
      subst c. exfalso. inversion Hc as [|? ? (H1 & H2 & H3 & H4) H5]; subst.
      destruct t as [|d t]; [apply H1; constructor|].
      destruct out; simpl in E; inversion E; subst; simpl in H4; tauto.
    + rewrite E. rewrite join_split by (auto; discriminate).
      rewrite norm_loop_clean by auto. reflexivity.
  - inversion E; subst c s. rewrite N.eqb_refl.
    assert (Hsp : split_on 47 (47 :: join [47] out) = [] :: match out with [] => [[]] | _ => out end).
    { simpl. f_equal. destruct out; [reflexivity|]. apply join_split; auto. discriminate. }
    rewrite Hsp. cbn [norm_loop]. change (str_eqb (strip []) []) with true. cbn [orb].
    destruct out as [|t out]; [reflexivity|]. rewrite norm_loop_clean by auto. reflexivity.
Qed.

Lemma rpartition_some c s : In c s -> exists a b, rpartition c s = (a, b) /\ s = a ++ c :: b /\ ~ In c b.
Proof.
  intros H. unfold rpartition. destruct (split_first c (rev s)) as [[a b]|] eqn:E.
  - apply split_first_spec in E as [E Hn]. exists (rev b), (rev a). split; auto. split.
    + rewrite <- (rev_involutive s), E, rev_app_distr. simpl. now rewrite <- app_assoc.
    + intros Hi. apply Hn. apply in_rev in Hi. exact Hi.
  - apply split_first_none in E. exfalso. apply E. now apply in_rev in H.
Qed.
Lemma rpartition_none c s : ~ In c s -> rpartition c s = ([], s).
Proof.
  intros H. unfold rpartition. destruct (split_first c (rev s)) as [[a b]|] eqn:E; auto.
  apply split_first_spec in E as [E Hn]. exfalso. apply H. apply in_rev. rewrite E. apply in_or_app. simpl; auto.
Qed.

(** ** The scan as a relation *)
Definition init_result (dir file : str) : result :=
  match dir with
  | [] => new_result (lit "Checking root relationship") INFO
  | _ => new_result (lit "Checking relationships of " ++ dir ++ file) INFO
  end.
Definition good_root (root : xml) : Prop := x_tag root = NS_RELATIONSHIPS ++ lit "Relationships".
Definition good_rel (e : xml) : Prop := x_tag e = NS_RELATIONSHIPS ++ lit "Relationship".
Definition info_entry (t ty : str) := new_result (lit "Relationship " ++ t ++ lit " is of type " ++ ty) INFO.

Section Rel.
  Variable dep : list (str * str).
  Variable z : archive.

  Inductive Scan : str -> str -> list str -> sres -> Prop :=
  | sc_none dir file V : zopen z (rels_name dir file) = None -> Scan dir file V (SRes None [] V [])
  | sc_tag dir file V c root m : zopen z (rels_name dir file) = Some c -> as_xml c = POk root ->
      ~ good_root root -> Scan dir file V (SRes (Some (new_result m ERROR)) [] V [])
  | sc_ok dir file V c root es rels V' S : zopen z (rels_name dir file) = Some c -> as_xml c = POk root ->
      good_root root -> Loop dir V (x_children root) es rels V' S ->
      Scan dir file V (SRes (Some (appends (init_result dir file) es)) rels V' S)
  with Loop : str -> list str -> list xml -> list result -> list rel -> list str -> list str -> Prop :=
  | lp_nil dir V : Loop dir V [] [] [] V []
  | lp_tag dir V e els m es rels V' S : ~ good_rel e -> Loop dir V els es rels V' S ->
      Loop dir V (e :: els) (new_result m ERROR :: es) rels V' S
  | lp_attr dir V e els m es rels V' S : good_rel e ->
      (lookup (lit "Type") (x_attrs e) = None \/ lookup (lit "Target") (x_attrs e) = None) ->
      Loop dir V els es rels V' S -> Loop dir V (e :: els) (new_result m ERROR :: es) rels V' S
  | lp_seen dir V e els ty0 tg ty w t es rels V' S m : good_rel e ->
      lookup (lit "Type") (x_attrs e) = Some ty0 -> lookup (lit "Target") (x_attrs e) = Some tg ->
      map_type dep ty0 = (ty, w) -> t = resolve_target dir tg -> In t V ->
      Loop dir V els es rels V' S ->
      Loop dir V (e :: els) (w ++ info_entry t ty :: new_result m INFO :: es) (Rel ty t [] :: rels) V' S
  | lp_missing dir V e els ty0 tg ty w t es rels V' S m : good_rel e ->
      lookup (lit "Type") (x_attrs e) = Some ty0 -> lookup (lit "Target") (x_attrs e) = Some tg ->
      map_type dep ty0 = (ty, w) -> t = resolve_target dir tg -> ~ In t V -> ~ In t (namelist z) ->
      Loop dir (t :: V) els es rels V' S ->
      Loop dir V (e :: els) (w ++ info_entry t ty :: new_result m ERROR :: es) (Rel ty t [] :: rels) V' S
  | lp_rec dir V e els ty0 tg ty w t d f s es rels V' S : good_rel e ->
      lookup (lit "Type") (x_attrs e) = Some ty0 -> lookup (lit "Target") (x_attrs e) = Some tg ->
      map_type dep ty0 = (ty, w) -> t = resolve_target dir tg -> ~ In t V -> In t (namelist z) ->
      splitpath t = (d, f) -> Scan (d ++ lit "/") f (t :: V) s ->
      Loop dir (sr_visited s) els es rels V' S ->
      Loop dir V (e :: els)
        (w ++ info_entry t ty :: (match sr_result s with Some r => [r] | None => [] end) ++ es)
        (Rel ty t (sr_rels s) :: rels) V' (t :: sr_scanned s ++ S).

  Scheme Scan_mut := Induction for Scan Sort Prop
  with Loop_mut := Induction for Loop Sort Prop.
  Combined Scheme ScanLoop_ind from Scan_mut, Loop_mut.

  Lemma good_tag_dec e t : str_eqb (x_tag e) t = true <-> x_tag e = t.
  Proof. apply str_eqb_spec. Qed.

  Lemma loop_rel rec :
    (forall dir file V s, rec dir file V = Val s -> Scan dir file V s) ->
    forall els dir res rels V S s,
      rel_loop rec dep z dir els res rels V S = Val s ->
      exists es rels' V' S', Loop dir V els es rels' V' S'
        /\ s = SRes (Some (appends res es)) (rels ++ rels') V' (S ++ S').
  Proof.
    intros Hrec. induction els as [|e els IH]; intros dir res rels V S s H; cbn [rel_loop] in H.
    { inversion H; subst. exists [], [], V, []. split; [constructor|]. now rewrite !app_nil_r. }
    destruct (str_eqb (x_tag e) (NS_RELATIONSHIPS ++ lit "Relationship")) eqn:Et; cbn [negb] in H.
    2:{ apply IH in H as (es & r' & V' & S' & HL & ->). eexists (_ :: es), r', V', S'.
        split; [apply lp_tag; eauto|reflexivity]. intros Hg. apply str_eqb_neq in Et. apply Et, Hg. }
    apply str_eqb_spec in Et.
    destruct (lookup (lit "Type") (x_attrs e)) as [ty0|] eqn:Ety.
    2:{ apply IH in H as (es & r' & V' & S' & HL & ->). eexists (_ :: es), r', V', S'.
        split; [apply lp_attr; eauto|reflexivity]. }
    destruct (lookup (lit "Target") (x_attrs e)) as [tg|] eqn:Etg.
    2:{ apply IH in H as (es & r' & V' & S' & HL & ->). eexists (_ :: es), r', V', S'.
        split; [apply lp_attr; eauto|reflexivity]. }
    destruct (map_type dep ty0) as [ty w] eqn:Em.
    destruct (splitpath (resolve_target dir tg)) as [d f] eqn:Es.
    destruct (str_in (resolve_target dir tg) V) eqn:Ev.
    { apply str_in_spec in Ev. apply IH in H as (es & r' & V' & S' & HL & ->).
      eexists (w ++ _ :: _ :: es), (_ :: r'), V', S'. split; [eapply lp_seen; eauto|].
      f_equal; [|now rewrite <- app_assoc]. unfold appends. rewrite fold_left_app. reflexivity. }
    assert (Ev' : ~ In (resolve_target dir tg) V) by (rewrite <- str_in_spec; congruence).
    destruct (str_in (resolve_target dir tg) (namelist z)) eqn:En; cbn [negb] in H.
    2:{ assert (En' : ~ In (resolve_target dir tg) (namelist z)) by (rewrite <- str_in_spec; congruence).
        apply IH in H as (es & r' & V' & S' & HL & ->).
        eexists (w ++ _ :: _ :: es), (_ :: r'), V', S'. split; [eapply lp_missing; eauto|].
        f_equal; [|now rewrite <- app_assoc]. unfold appends. rewrite fold_left_app. reflexivity. }
    apply str_in_spec in En.
    destruct (rec (d ++ lit "/") f (resolve_target dir tg :: V)) as [s0|] eqn:Er; [|discriminate].
    apply Hrec in Er. apply IH in H as (es & r' & V' & S' & HL & ->).
    eexists (w ++ _ :: _ ++ es), (_ :: r'), V', (_ :: _ ++ S').
    split; [eapply lp_rec; eauto|].
    f_equal.
    - unfold appends. rewrite fold_left_app. cbn [fold_left]. rewrite fold_left_app.
      destruct (sr_result s0); reflexivity.
    - now rewrite <- app_assoc.
    - rewrite <- app_assoc. simpl. reflexivity.
  Qed.

  Lemma scan_rel k dir file V s : scan k dep z dir file V = Val s -> Scan dir file V s.
  Proof.
    revert dir file V s. induction k as [|k IH]; intros dir file V s H; cbn [scan] in H; [discriminate|].
    destruct (zopen z (rels_name dir file)) as [c|] eqn:Ez.
    2:{ inversion H; subst. now constructor. }
    destruct (as_xml c) as [root| |] eqn:Ex; try discriminate.
    destruct (str_eqb (x_tag root) (NS_RELATIONSHIPS ++ lit "Relationships")) eqn:Et; cbn [negb] in H.
    - apply str_eqb_spec in Et. apply (loop_rel _ IH) in H as (es & r & V' & S' & HL & ->).
      simpl app. eapply sc_ok; eauto.
    - apply str_eqb_neq in Et. inversion H; subst. eapply sc_tag; eauto.
  Qed.

  (** visited targets only grow; what is scanned exists, is new and is not scanned again *)
  Definition inv (V : list str) (V' S : list str) : Prop :=
    incl V V' /\ NoDup S /\ (forall t, In t S -> In t (namelist z) /\ ~ In t V /\ In t V')
    /\ (forall t, In t V' -> In t V \/ In t S \/ ~ In t (namelist z)).
  Lemma scan_inv :
    (forall dir file V s, Scan dir file V s -> inv V (sr_visited s) (sr_scanned s))
    /\ (forall dir V els es rels V' S, Loop dir V els es rels V' S -> inv V V' S).
  Proof.
    assert (Base : forall V, inv V V []).
    { intros V. repeat split; [apply incl_refl|constructor|destruct H|destruct H|destruct H|auto]. }
    apply ScanLoop_ind; intros; cbn [sr_visited sr_scanned] in *; auto.
    - destruct H as (H1 & H2 & H3 & H4). repeat split; auto.
      + intros x Hx. apply H1. simpl; auto.
      + apply H3; auto.
      + intros Hx. apply (H3 t0 H). simpl; auto.
      + apply H3; auto.
      + intros t0 Ht. destruct (H4 _ Ht) as [[<-|Hv]|[Hs|Hn]]; auto.
    - destruct H as (H1 & H2 & H3 & H4). destruct H0 as (K1 & K2 & K3 & K4). repeat split.
      + intros x Hx. apply K1, H1. simpl; auto.
      + constructor.
        * intros Hin. apply in_app_iff in Hin as [Hin|Hin].
          -- apply H3 in Hin as (_ & Hin & _). apply Hin. simpl; auto.
          -- apply K3 in Hin as (_ & Hin & _). apply Hin. apply H1. simpl; auto.
        * apply NoDup_app_intro; auto. intros x Hx Hy. apply K3 in Hy as (_ & Hy & _). apply Hy. apply H3; auto.
      + destruct H as [<-|Hx]; auto. apply in_app_iff in Hx as [Hx|Hx]; [apply H3|apply K3]; auto.
      + destruct H as [<-|Hx]; auto. apply in_app_iff in Hx as [Hx|Hx].
        * apply H3 in Hx as (_ & Hx & _). intros Hy. apply Hx. simpl; auto.
        * apply K3 in Hx as (_ & Hx & _). intros Hy. apply Hx. apply H1. simpl; auto.
      + destruct H as [<-|Hx]; [apply K1, H1; simpl; auto|]. apply in_app_iff in Hx as [Hx|Hx].
        * apply K1. apply H3; auto.
        * apply K3; auto.
      + intros t0 Ht. destruct (K4 _ Ht) as [Hv|[Hs|Hn]]; auto.
        * destruct (H4 _ Hv) as [[<-|Hv']|[Hs|Hn]]; auto.
          -- right; left. simpl; auto.
          -- right; left. right. apply in_or_app; auto.
        * right; left. right. apply in_or_app; auto.
  Qed.

  (** missing parts make the report not ok *)
  Definition bad (es : list result) : Prop := exists x, In x es /\ ok x = false.
  Lemma scan_missing :
    (forall dir file V s, Scan dir file V s -> forall t, In t (sr_visited s) -> ~ In t V -> ~ In t (namelist z) ->
        exists r, sr_result s = Some r /\ ok r = false)
    /\ (forall dir V els es rels V' S, Loop dir V els es rels V' S ->
          forall t, In t V' -> ~ In t V -> ~ In t (namelist z) -> bad es).
  Proof.
    apply ScanLoop_ind; cbn [sr_visited sr_result]; intros; try contradiction.
    - destruct (H _ H0 H1 H2) as (x & Hx & Hb). eexists; split; eauto.
      apply not_true_is_false. intros Ho. rewrite ok_appends in Ho. apply andb_prop in Ho as [_ Ho].
      rewrite forallb_forall in Ho. rewrite (Ho _ Hx) in Hb. discriminate.
    - destruct (H _ H0 H1 H2) as (x & Hx & Hb). exists x. simpl; auto.
    - destruct (H _ H0 H1 H2) as (x & Hx & Hb). exists x. simpl; auto.
    - destruct (H _ H0 H1 H2) as (x & Hx & Hb). exists x. split; auto.
      apply in_or_app. right. simpl; auto.
    - exists (new_result m ERROR). split; auto. apply in_or_app. right. simpl; auto.
    - destruct (proj1 scan_inv _ _ _ _ s0) as (K1 & _).
      destruct (str_in t0 (sr_visited s)) eqn:E.
      + apply str_in_spec in E. destruct (str_eqb t t0) eqn:Et.
        { apply str_eqb_spec in Et. subst t0. contradiction. }
        apply str_eqb_neq in Et.
        destruct (H t0 E) as (r & Hr & Hb); auto. { intros [Hx|Hx]; auto. }
        exists r. split; auto. apply in_or_app. right. right. rewrite Hr. simpl; auto.
      + assert (E' : ~ In t0 (sr_visited s)) by (rewrite <- str_in_spec; congruence).
        destruct (H0 _ H1 E' H3) as (x & Hx & Hb). exists x. split; auto.
        apply in_or_app. right. right. apply in_or_app. auto.
  Qed.

  (** every relationship found was visited *)
  Lemma scan_found :
    (forall dir file V s, Scan dir file V s -> forall r, found r (sr_rels s) -> In (rel_target r) (sr_visited s))
    /\ (forall dir V els es rels V' S, Loop dir V els es rels V' S -> forall r, found r rels -> In (rel_target r) V').
  Proof.
    assert (F0 : forall r, ~ found r []) by (intros r H; inversion H; auto).
    assert (F1 : forall r x l, found r (x :: l) -> r = x \/ found r (rel_subs x) \/ found r l).
    { intros r x l H. inversion H; subst.
      - destruct H0 as [->|H0]; auto. right; right. now apply f_here.
      - destruct H0 as [->|H0]; auto. right; right. now apply f_deep with x0. }
    apply ScanLoop_ind; cbn [sr_visited sr_rels]; intros; auto; try (exfalso; eapply F0; eauto; fail).
    - pose proof (proj2 scan_inv _ _ _ _ _ _ _ l) as (K1 & _).
      apply F1 in H0 as [->|[H0|H0]]; [simpl; auto|exfalso; eapply F0; eauto|auto].
    - pose proof (proj2 scan_inv _ _ _ _ _ _ _ l) as (K1 & _).
      apply F1 in H0 as [->|[H0|H0]]; [apply K1; simpl; auto|exfalso; eapply F0; eauto|auto].
    - pose proof (proj1 scan_inv _ _ _ _ s0) as (K0 & _).
      pose proof (proj2 scan_inv _ _ _ _ _ _ _ l) as (K1 & _).
      apply F1 in H1 as [->|[H1|H1]]; [apply K1, K0; simpl; auto|apply K1, H; auto|auto].
  Qed.

  (** every well-formed relationship element of a file that was read was followed, and found *)
  Lemma loop_closed dir V els es rels V' S : Loop dir V els es rels V' S ->
    forall e ty tg, In e els -> elem_rel e ty tg ->
      In (resolve_target dir tg) V'
      /\ exists sub, In (Rel (fst (map_type dep ty)) (resolve_target dir tg) sub) rels.
  Proof.
    induction 1; intros e' ty' tg' He (G1 & G2 & G3); [destruct He|..].
    - destruct He as [<-|He]; [contradiction|]. eapply IHLoop; eauto. split; auto.
    - destruct He as [<-|He]; [destruct H0; congruence|]. eapply IHLoop; eauto. split; auto.
    - destruct (proj2 scan_inv _ _ _ _ _ _ _ H5) as (K1 & _). destruct He as [<-|He].
      + rewrite H0 in G2. rewrite H1 in G3. inversion G2; inversion G3; subst. split; auto.
        exists []. rewrite H2. simpl; auto.
      + destruct (IHLoop e' ty' tg') as (L1 & sub & L2); auto; [split; auto|]. split; auto. exists sub; simpl; auto.
    - destruct (proj2 scan_inv _ _ _ _ _ _ _ H6) as (K1 & _). destruct He as [<-|He].
      + rewrite H0 in G2. rewrite H1 in G3. inversion G2; inversion G3; subst. split; [apply K1; simpl; auto|].
        exists []. rewrite H2. simpl; auto.
      + destruct (IHLoop e' ty' tg') as (L1 & sub & L2); auto; [split; auto|]. split; auto. exists sub; simpl; auto.
    - destruct (proj1 scan_inv _ _ _ _ H7) as (K0 & _).
      destruct (proj2 scan_inv _ _ _ _ _ _ _ H8) as (K1 & _). destruct He as [<-|He].
      + rewrite H0 in G2. rewrite H1 in G3. inversion G2; inversion G3; subst. split; [apply K1, K0; simpl; auto|].
        exists (sr_rels s). rewrite H2. simpl; auto.
      + destruct (IHLoop e' ty' tg') as (L1 & sub & L2); auto; [split; auto|]. split; auto. exists sub; simpl; auto.
  Qed.

  Lemma scan_closed_here dir file V s : Scan dir file V s ->
    forall ty tg, relation_in z (rels_name dir file) ty tg ->
      In (resolve_target dir tg) (sr_visited s)
      /\ exists sub, In (Rel (fst (map_type dep ty)) (resolve_target dir tg) sub) (sr_rels s).
  Proof.
    intros H ty tg (c & root & e & H1 & H2 & H3 & H4 & H5 & H6 & H7).
    inversion H; subst; try congruence.
    - rewrite H1 in H0. inversion H0; subst. rewrite H2 in H8. inversion H8; subst.
      simpl. eapply loop_closed; eauto. split; auto.
  Qed.

  Definition subdir (t : str) := fst (splitpath t) ++ lit "/".
  Definition subfile (t : str) := snd (splitpath t).
  Lemma scan_closed :
    (forall dir file V s, Scan dir file V s -> forall p ty tg, In p (sr_scanned s) ->
        relation_in z (rels_name (subdir p) (subfile p)) ty tg -> In (resolve_target (subdir p) tg) (sr_visited s))
    /\ (forall dir V els es rels V' S, Loop dir V els es rels V' S -> forall p ty tg, In p S ->
        relation_in z (rels_name (subdir p) (subfile p)) ty tg -> In (resolve_target (subdir p) tg) V').
  Proof.
    apply ScanLoop_ind; cbn [sr_visited sr_scanned]; intros; auto; try contradiction; eauto.
    destruct (proj2 scan_inv _ _ _ _ _ _ _ l) as (K1 & _).
    destruct H1 as [<-|H1].
    - apply K1. revert H2. unfold subdir, subfile. rewrite e4. cbn [fst snd]. intros H2.
      eapply scan_closed_here; eauto.
    - apply in_app_iff in H1 as [H1|H1]; [apply K1|]; eauto.
  Qed.

  (** warnings for deprecated types *)
  Lemma scan_warned :
    (forall dir file V s, Scan dir file V s ->
        (forall ty tg n, relation_in z (rels_name dir file) ty tg -> lookup ty dep = Some n ->
            exists r, sr_result s = Some r /\ occurs (dep_warning ty n) r)
        /\ forall p ty tg n, In p (sr_scanned s) -> relation_in z (rels_name (subdir p) (subfile p)) ty tg ->
            lookup ty dep = Some n -> exists r, sr_result s = Some r /\ occurs (dep_warning ty n) r)
    /\ (forall dir V els es rels V' S, Loop dir V els es rels V' S ->
        (forall e ty tg n, In e els -> elem_rel e ty tg -> lookup ty dep = Some n -> In (dep_warning ty n) es)
        /\ forall p ty tg n, In p S -> relation_in z (rels_name (subdir p) (subfile p)) ty tg ->
            lookup ty dep = Some n -> exists r, In r es /\ occurs (dep_warning ty n) r).
  Proof.
    assert (W : forall ty0 ty w n, map_type dep ty0 = (ty, w) -> lookup ty0 dep = Some n -> w = [dep_warning ty0 n]).
    { intros ty0 ty w n H1 H2. unfold map_type in H1. rewrite H2 in H1. inversion H1; reflexivity. }
    assert (O : forall x r es, In r es -> occurs x r -> forall i, occurs x (appends i es)).
    { intros x r es Hi Ho i. pose proof (appends_subs i es) as E. destruct (appends i es) as [m l s0].
      simpl in E. subst s0. apply occ_below with r; auto. apply in_or_app. auto. }
    apply ScanLoop_ind; cbn [sr_result sr_scanned]; intros.
    - split; [|contradiction]. intros ty tg n (c & root & e0 & H1 & _). congruence.
    - split; [|contradiction]. intros ty tg k (c1 & root1 & e1 & H1 & H2 & H3 & _).
      rewrite e in H1. inversion H1; subst. rewrite e0 in H2. inversion H2; subst. contradiction.
    - destruct H as [A B]. split.
      + intros ty tg n (c1 & root1 & e1 & H1 & H2 & H3 & H4 & H5 & H6 & H7) Hd.
        rewrite e in H1. inversion H1; subst. rewrite e0 in H2. inversion H2; subst.
        eexists; split; [reflexivity|]. eapply O; [|apply occ_here]. eapply A; eauto; split; eauto.
      + intros p ty tg n Hp Hr Hd. destruct (B p ty tg n Hp Hr Hd) as (r & Hin & Ho).
        eexists; split; [reflexivity|]. eapply O; eauto.
    - split; contradiction.
    - destruct H as [A B]. split.
      + intros e' ty tg k [<-|Hi] (G & G2 & G3); [contradiction|]. intros. right. eapply A; eauto; split; eauto.
      + intros p ty tg k Hp Hr Hd. destruct (B p ty tg k Hp Hr Hd) as (r & Hin & Ho). exists r; simpl; auto.
    - destruct H as [A B]. split.
      + intros e' ty tg k [<-|Hi] (G & G2 & G3); [destruct o; congruence|]. intros. right. eapply A; eauto; split; eauto.
      + intros p ty tg k Hp Hr Hd. destruct (B p ty tg k Hp Hr Hd) as (r & Hin & Ho). exists r; simpl; auto.
    - destruct H as [A B]. split.
      + intros e' ty' tg' k [<-|Hi] (G & G2 & G3) Hd.
        * rewrite e0 in G2. inversion G2; subst. rewrite (W _ _ _ _ e2 Hd). simpl; auto.
        * apply in_or_app. right. right. right. eapply A; eauto; split; eauto.
      + intros p ty' tg' k Hp Hr Hd. destruct (B p ty' tg' k Hp Hr Hd) as (r & Hin & Ho). exists r. split; auto.
        apply in_or_app. right. simpl; auto.
    - destruct H as [A B]. split.
      + intros e' ty' tg' k [<-|Hi] (G & G2 & G3) Hd.
        * rewrite e0 in G2. inversion G2; subst. rewrite (W _ _ _ _ e2 Hd). simpl; auto.
        * apply in_or_app. right. right. right. eapply A; eauto; split; eauto.
      + intros p ty' tg' k Hp Hr Hd. destruct (B p ty' tg' k Hp Hr Hd) as (r & Hin & Ho). exists r. split; auto.
        apply in_or_app. right. simpl; auto.
    - destruct H as [HA HB]. destruct H0 as [A B]. split.
      + intros e' ty' tg' k [<-|Hi] (G & G2 & G3) Hd.
        * rewrite e0 in G2. inversion G2; subst. rewrite (W _ _ _ _ e2 Hd). simpl; auto.
        * apply in_or_app. right. right. apply in_or_app. right. eapply A; eauto; split; eauto.
      + intros p ty' tg' k Hp Hr Hd.
        assert (X : (exists r, sr_result s = Some r /\ occurs (dep_warning ty' k) r) \/
                    (exists r, In r es /\ occurs (dep_warning ty' k) r)).
        { destruct Hp as [<-|Hp].
          - left. revert Hr. unfold subdir, subfile. rewrite e4. simpl. intros Hr. eapply HA; eauto.
          - apply in_app_iff in Hp as [Hp|Hp]; [left; eapply HB; eauto|right; eapply B; eauto]. }
        destruct X as [(r & Hr' & Ho)|(r & Hi & Ho)]; exists r; split; auto;
          apply in_or_app; right; right; apply in_or_app; [left; rewrite Hr'; simpl; auto|right; auto].
  Qed.
End Rel.
