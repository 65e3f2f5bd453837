(** Deprecated types; checking the files of a package. *)
From Coq Require Import List NArith ZArith Bool Lia.
From Coq Require Import String. Open Scope list_scope.
From Verif Require Import PyStr PyStrFacts PyBase PyXml ResultModel ResultSpec ResultFacts OpcModel OpcSpec OpcFacts OpcFacts2
  FileModel FileSpec.
Import ListNotations.

(** ** lookup, zopen *)
Lemma lookup_in {A} k (l : list (str * A)) v : lookup k l = Some v -> In (k, v) l.
Proof.
  induction l as [|[k' v'] l IH]; simpl; intros H; [discriminate|].
  destruct (str_eqb k k') eqn:E; [apply str_eqb_spec in E; inversion H; subst; auto|auto].
Qed.
Lemma lookup_some_in {A} k (l : list (str * A)) : In k (map fst l) -> exists v, lookup k l = Some v.
Proof.
  induction l as [|[k' v'] l IH]; simpl; intros H; [tauto|].
  destruct (str_eqb k k') eqn:E; [eauto|]. apply IH. destruct H as [->|H]; auto. rewrite str_eqb_refl in E. discriminate.
Qed.
Lemma lookup_none {A} k (l : list (str * A)) : lookup k l = None <-> ~ In k (map fst l).
Proof.
  split.
  - intros H Hi. apply lookup_some_in in Hi as [v Hv]. congruence.
  - intros H. destruct (lookup k l) eqn:E; auto. apply lookup_in in E. exfalso. apply H. apply in_map_iff. exists (k, a). auto.
Qed.
Lemma zopen_exists z t : In t (namelist z) -> exists c, zopen z t = Some c.
Proof.
  intros H. apply lookup_some_in. rewrite map_rev. apply -> in_rev. exact H.
Qed.
Lemma zopen_in z t c : zopen z t = Some c -> In (t, c) z.
Proof. intros H. apply lookup_in in H. now apply in_rev in H. Qed.

(** ** Upgrading types *)
Section Same.
  Variable dep : list (str * str).
  Notation same := (same dep). Notation same_list := (same_list dep).
  Lemma same_list_app a a' b b' : same_list a a' -> same_list b b' -> same_list (a ++ b) (a' ++ b').
  Proof. induction 1; simpl; intros; auto; constructor; auto. Qed.
  Lemma same_refl : forall r, same r r.
  Proof.
    fix IH 1. intros [m l s]. constructor; auto.
    induction s as [|x s IHs]; constructor; auto.
  Qed.
  Lemma same_ok a b : same a b -> ok a = ok b.
  Proof. intros H; inversion H; subst. exact H0. Qed.
  Lemma same_append a b c d : same a b -> same c d -> same (append a c) (append b d).
  Proof.
    intros H1 H2. inversion H1; subst. pose proof (same_ok _ _ H2) as Ho. unfold ok in Ho.
    simpl. constructor.
    - rewrite !level_ok_or. congruence.
    - apply same_list_app; auto. constructor; auto. constructor.
  Qed.
  Lemma same_append_dep a b t n : lookup t dep = Some n -> same a b -> same (append a (dep_warning t n)) b.
  Proof.
    intros H1 H2. inversion H2; subst. simpl. constructor.
    - rewrite level_ok_or. rewrite andb_true_r. auto.
    - rewrite <- (app_nil_r s'). apply same_list_app; auto. apply sl_dep; auto. constructor.
  Qed.
End Same.

Section Upgrade.
  Variable dep : list (str * str).
  Hypothesis flat : forall t n, lookup t dep = Some n -> lookup n dep = None.
  Notation upgrade := (upgrade dep). Notation same := (same dep).

  Lemma upgrade_type a : lookup (lit "Type") (map (upgrade_attr dep) a) = option_map (official dep) (lookup (lit "Type") a).
  Proof.
    induction a as [|[k v] a IH]; [reflexivity|]. cbn [map lookup].
    unfold upgrade_attr at 1. cbn [fst snd].
    destruct (str_eqb k (lit "Type")) eqn:E.
    - apply str_eqb_spec in E. subst k. rewrite !str_eqb_refl. reflexivity.
    - rewrite str_eqb_sym in E. rewrite E. apply IH.
  Qed.
  Lemma upgrade_other key a : key <> lit "Type" -> lookup key (map (upgrade_attr dep) a) = lookup key a.
  Proof.
    intros Hk. induction a as [|[k v] a IH]; [reflexivity|]. cbn [map lookup].
    unfold upgrade_attr at 1. cbn [fst snd].
    destruct (str_eqb k (lit "Type")) eqn:E; [|now rewrite IH].
    apply str_eqb_spec in E. subst k. apply str_eqb_neq in Hk. rewrite Hk. apply IH.
  Qed.
  Lemma upgrade_names z : namelist (upgrade z) = namelist z.
  Proof. unfold namelist, OpcSpec.upgrade. rewrite map_map. reflexivity. Qed.
  Lemma upgrade_open z n : zopen (upgrade z) n =
    option_map (fun c => if endswith (lit ".rels") n then upgrade_content dep c else c) (zopen z n).
  Proof.
    unfold zopen, OpcSpec.upgrade. rewrite <- map_rev. induction (rev z) as [|[k c] l IH]; [reflexivity|].
    cbn [map lookup fst snd]. destruct (str_eqb n k) eqn:E; [|apply IH].
    apply str_eqb_spec in E. subst. reflexivity.
  Qed.
  Lemma rels_name_rels dir file : endswith (lit ".rels") (rels_name dir file) = true.
  Proof. apply endswith_spec. exists (dir ++ lit "_rels/" ++ file). unfold rels_name. now rewrite <- !app_assoc. Qed.
  Lemma upgrade_map_type t : map_type dep (official dep t) = (fst (map_type dep t), []).
  Proof.
    unfold map_type, official. destruct (lookup t dep) as [n|] eqn:E.
    - now rewrite (flat _ _ E).
    - now rewrite E.
  Qed.

  Definition rel_out (x y : outcome sres) : Prop :=
    match x, y with
    | Val s, Val s' => sr_rels s = sr_rels s' /\ sr_visited s = sr_visited s' /\ sr_scanned s = sr_scanned s'
        /\ match sr_result s, sr_result s' with
           | Some r, Some r' => same r r' | None, None => True | _, _ => False end
    | Raise e, Raise e' => e = e'
    | _, _ => False
    end.

  Lemma loop_upgrade z rec rec' : (forall dir file V, rel_out (rec dir file V) (rec' dir file V)) ->
    forall els dir res res' rels V S, same res res' ->
      rel_out (rel_loop rec dep z dir els res rels V S)
              (rel_loop rec' dep (upgrade z) dir (map (upgrade_el dep) els) res' rels V S).
  Proof.
    intros Hrec. induction els as [|e els IH]; intros dir res res' rels V S Hs; cbn [rel_loop map].
    - simpl. auto.
    - assert (Et : x_tag (upgrade_el dep e) = x_tag e) by (destruct e; reflexivity).
      assert (Ea : x_attrs (upgrade_el dep e) = map (upgrade_attr dep) (x_attrs e)) by (destruct e; reflexivity).
      rewrite Et, Ea. destruct (negb _). { apply IH. apply same_append; auto. apply same_refl. }
      rewrite upgrade_type, (upgrade_other (lit "Target")) by discriminate.
      destruct (lookup (lit "Type") (x_attrs e)) as [ty|]; cbn [option_map];
        [|apply IH; apply same_append; auto; apply same_refl].
      destruct (lookup (lit "Target") (x_attrs e)) as [tg|];
        [|apply IH; apply same_append; auto; apply same_refl].
      rewrite upgrade_map_type. rewrite upgrade_names.
      assert (Hw : same (appends res (snd (map_type dep ty))) res').
      { unfold map_type. destruct (lookup ty dep) as [n|] eqn:E; cbn [snd].
        - rewrite appends_cons, appends_nil. now apply same_append_dep.
        - now rewrite appends_nil. }
      destruct (map_type dep ty) as [t w]. cbn [fst snd] in *. rewrite (appends_nil res').
      destruct (splitpath _) as [d f].
      destruct (str_in _ V). { apply IH. repeat apply same_append; auto; apply same_refl. }
      destruct (negb _). { apply IH. repeat apply same_append; auto; apply same_refl. }
      specialize (Hrec (d ++ lit "/") f (resolve_target dir tg :: V)). unfold rel_out in Hrec.
      destruct (rec _ _ _) as [s|x], (rec' _ _ _) as [s'|x']; try contradiction; auto.
      destruct Hrec as (E1 & E2 & E3 & E4). rewrite E1, E2, E3. apply IH.
      destruct (sr_result s), (sr_result s'); try contradiction; auto;
        repeat apply same_append; auto; apply same_refl.
  Qed.
  Lemma scan_upgrade z k : forall dir file V, rel_out (scan k dep z dir file V) (scan k dep (upgrade z) dir file V).
  Proof.
    induction k as [|k IH]; intros dir file V; cbn [scan]; [reflexivity|].
    rewrite upgrade_open. destruct (zopen z (rels_name dir file)) as [c|]; cbn [option_map]; [|simpl; auto].
    rewrite rels_name_rels. cbn [upgrade_content as_xml]. destruct (as_xml c) as [root| |]; [|reflexivity|reflexivity].
    assert (Et : x_tag (upgrade_root dep root) = x_tag root) by (destruct root; reflexivity).
    assert (Ec : x_children (upgrade_root dep root) = map (upgrade_el dep) (x_children root)) by (destruct root; reflexivity).
    rewrite Et, Ec. destruct (negb _).
    - simpl. repeat split; auto. constructor.
    - apply loop_upgrade; auto. destruct dir; apply same_refl.
  Qed.

  Lemma content_type_upgrade z : check_content_type (upgrade z) = check_content_type z.
  Proof.
    unfold check_content_type. rewrite upgrade_open.
    change (endswith (lit ".rels") content_types_xml) with false. cbv iota.
    destruct (zopen z content_types_xml); reflexivity.
  Qed.

  Lemma read_upgrade z res : 
    match read_opc dep z res, read_opc dep (upgrade z) res with
    | Val (r, rels), Val (r', rels') => same r r' /\ rels = rels'
    | Raise e, Raise e' => e = e'
    | _, _ => False
    end.
  Proof.
    unfold read_opc. rewrite content_type_upgrade. destruct (check_content_type z) as [c|e]; cbn [obind]; auto.
    destruct (negb _). { split; auto. apply same_refl. }
    unfold check_relationships.
    assert (En : enough (upgrade z) = enough z) by (unfold enough, OpcSpec.upgrade; now rewrite map_length).
    rewrite En. pose proof (scan_upgrade z (enough z) [] [] []) as H. unfold rel_out in H.
    destruct (scan _ dep z [] [] []) as [s|e], (scan _ dep (upgrade z) [] [] []) as [s'|e']; try contradiction; cbn [obind]; auto.
    destruct H as (E1 & E2 & E3 & E4).
    destruct (sr_result s), (sr_result s'); try contradiction; cbn [fst snd]; split; auto;
      repeat apply same_append; auto; apply same_refl.
  Qed.
End Upgrade.

Lemma deprecated_flat : forall t n, lookup t DEPRECATED_TYPES = Some n -> lookup n DEPRECATED_TYPES = None.
Proof.
  intros t n H. apply lookup_in in H. destruct H as [H|[H|[H|[]]]]; inversion H; reflexivity.
Qed.

(** ** Checking files *)
Section Files.
  Variable json_to_obj : json -> str -> outcome result.
  Variable xml_to_obj : xml -> str -> outcome result.
  Notation check_spec := (check_spec json_to_obj xml_to_obj).
  Notation check_specs := (check_specs json_to_obj xml_to_obj).
  Notation check_origins := (check_origins json_to_obj xml_to_obj).
  Notation check_files := (check_files json_to_obj xml_to_obj).
  Notation verdict := (verdict json_to_obj xml_to_obj).

  Lemma ends_exclusive a b s : endswith a s = true -> endswith b s = true ->
    hd 0%N (skipn 1 (rev a)) <> hd 0%N (skipn 1 (rev b)) -> (2 <= List.length a)%nat -> (2 <= List.length b)%nat -> False.
  Proof.
    unfold endswith. rewrite !startswith_spec. intros [t H1] [u H2] H3 La Lb. rewrite <- rev_length in La, Lb.
    rewrite H1 in H2. destruct (rev a) as [|x [|y la]]; simpl in La; try lia.
    destruct (rev b) as [|x' [|y' lb]]; simpl in Lb; try lia. simpl in *. inversion H2; subst. auto.
  Qed.

  Lemma check_spec_verdict z t r : check_spec z t = Val (Some r) ->
    exists c x, zopen z t = Some c /\ verdict c t x /\ r = append (new_result (lit "Checking " ++ t) INFO) x.
  Proof.
    unfold FileModel.check_spec. destruct (zopen z t) as [c|]; [|discriminate].
    destruct (endswith (lit ".xml") t) eqn:E1.
    - unfold check_xml_file, check_xml_data. destruct (as_xml c) as [d|m|e] eqn:Ex.
      + destruct (xml_to_obj d environment) as [x|e] eqn:Eo.
        * intros H. inversion H. exists c, x. repeat split; auto. eapply vd_xml; eauto.
        * destruct e; discriminate.
      + intros H. inversion H. eexists c, _. split; [reflexivity|]. split; [eapply vd_xml_bad; eauto|reflexivity].
      + destruct e; discriminate.
    - destruct (endswith (lit ".json") t) eqn:E2.
      + unfold check_json_file, check_json_data. destruct (as_json c) as [d|m|e] eqn:Ex.
        * destruct (json_to_obj d environment) as [x|e] eqn:Eo.
          -- intros H. inversion H. exists c, x. repeat split; auto. eapply vd_json; eauto.
          -- destruct e; discriminate.
        * intros H. inversion H. eexists c, _. split; [reflexivity|]. split; [eapply vd_json_bad; eauto|reflexivity].
        * destruct e; discriminate.
      + intros H. inversion H. eexists c, _. split; [reflexivity|]. split; [eapply vd_other; eauto|reflexivity].
  Qed.

  Lemma check_spec_exists z t : In t (namelist z) -> no_key_error json_to_obj xml_to_obj z -> check_spec z t <> Val None.
  Proof.
    intros Hi (K1 & K2 & K3). unfold FileModel.check_spec. destruct (zopen_exists z t Hi) as [c Hc]. rewrite Hc.
    destruct (K3 _ _ (zopen_in _ _ _ Hc)) as [Kx Kj].
    destruct (endswith (lit ".xml") t).
    - unfold check_xml_file, check_xml_data. destruct (as_xml c) as [d| |e]; try discriminate.
      + specialize (K2 d environment). destruct (xml_to_obj d environment) as [|e]; [discriminate|]. destruct e; try discriminate. congruence.
      + destruct e; try discriminate. congruence.
    - destruct (endswith (lit ".json") t); [|discriminate].
      unfold check_json_file, check_json_data. destruct (as_json c) as [d| |e]; try discriminate.
      + specialize (K1 d environment). destruct (json_to_obj d environment) as [|e]; [discriminate|]. destruct e; try discriminate. congruence.
      + destruct e; try discriminate. congruence.
  Qed.

  (** outcome of the loop over the files *)
  Lemma check_specs_ok z specs : forall res x,
    (forall s, In s specs -> In (rel_target s) (namelist z)) -> no_key_error json_to_obj xml_to_obj z ->
    check_specs z specs res = Val x ->
    exists es, x = inl (appends res es) /\
      Forall2 (fun s e => exists c v, zopen z (rel_target s) = Some c /\ verdict c (rel_target s) v
        /\ e = append (new_result (lit "Checking " ++ rel_target s) INFO) v) specs es.
  Proof.
    induction specs as [|s r IH]; intros res x Hn Hk H; cbn [FileModel.check_specs] in H.
    - inversion H. exists []. split; auto.
    - destruct (check_spec z (rel_target s)) as [[v|]|e] eqn:E; cbn [obind] in H; [| |discriminate].
      + apply IH in H as (es & -> & HF); auto; [|intros; apply Hn; simpl; auto].
        exists (v :: es). split; auto. constructor; auto.
        apply check_spec_verdict in E as (c & y & E1 & E2 & ->). eauto 10.
      + exfalso. eapply check_spec_exists; eauto. apply Hn. simpl; auto.
  Qed.
  Definition spec_entry z (s : rel) (e : result) : Prop :=
    exists c v, zopen z (rel_target s) = Some c /\ verdict c (rel_target s) v
        /\ e = append (new_result (lit "Checking " ++ rel_target s) INFO) v.
  Definition no_spec_warning := new_result (lit "No aas spec found") WARNING.
  Definition origin_entries z (o : rel) (es : list result) : Prop :=
    exists es', Forall2 (spec_entry z) (by_type (rel_subs o) TYPE_AASX_SPEC) es'
      /\ es = match by_type (rel_subs o) TYPE_AASX_SPEC with [] => [no_spec_warning] | _ => es' end.
  Lemma check_origins_ok z origins : forall res x,
    (forall o s, In o origins -> In s (by_type (rel_subs o) TYPE_AASX_SPEC) -> In (rel_target s) (namelist z)) ->
    no_key_error json_to_obj xml_to_obj z ->
    check_origins z origins res = Val x ->
    exists ess, x = appends res (List.concat ess) /\ Forall2 (origin_entries z) origins ess.
  Proof.
    induction origins as [|o r IH]; intros res x Hn Hk H; cbn [FileModel.check_origins] in H.
    - inversion H. exists []. split; auto.
    - destruct (check_specs z _ _) as [y|e] eqn:E; cbn [obind] in H; [|discriminate].
      apply check_specs_ok in E as (es & -> & HF); auto; [|intros; eapply Hn; simpl; eauto].
      apply IH in H as (ess & -> & HF'); auto; [|intros; eapply Hn; simpl; eauto].
      destruct (by_type (rel_subs o) TYPE_AASX_SPEC) as [|s0 sp] eqn:Eb.
      + inversion HF; subst. exists ([no_spec_warning] :: ess). split.
        * cbn [List.concat]. rewrite appends_app, appends_cons, !appends_nil. reflexivity.
        * constructor; auto. exists []. rewrite Eb. auto.
      + exists (es :: ess). split.
        * cbn [List.concat]. rewrite appends_app. reflexivity.
        * constructor; auto. exists es. rewrite Eb. auto.
  Qed.
  Lemma check_files_ok z rels x :
    (forall t, spec_file rels t -> In t (namelist z)) -> no_key_error json_to_obj xml_to_obj z ->
    check_files z rels = Val x ->
    exists ess, Forall2 (origin_entries z) (by_type rels TYPE_AASX_ORIGIN) ess
      /\ x = appends (if Nat.eqb (List.length (by_type rels TYPE_AASX_ORIGIN)) 1 then new_result (lit "Checking files") INFO
               else append (new_result (lit "Checking files") INFO) (new_result (lit "Expected exactly one aas origin, but found "
                                     ++ dec_of_nat (List.length (by_type rels TYPE_AASX_ORIGIN))) WARNING)) (List.concat ess).
  Proof.
    intros Hn Hk H. unfold FileModel.check_files in H. apply check_origins_ok in H as (ess & -> & HF); auto.
    - exists ess. auto.
    - intros o s Ho Hs. apply Hn. unfold by_type in Ho, Hs. apply filter_In in Ho as [Ho1 Ho2]. apply filter_In in Hs as [Hs1 Hs2].
      apply str_eqb_spec in Ho2. apply str_eqb_spec in Hs2. exists o, s. auto.
  Qed.

  Lemma check_files_upgrade z rels : check_files (upgrade DEPRECATED_TYPES z) rels = check_files z rels.
  Proof.
    assert (S1 : forall t, check_spec (upgrade DEPRECATED_TYPES z) t = check_spec z t).
    { intros t. unfold FileModel.check_spec. rewrite upgrade_open. destruct (zopen z t) as [c|]; cbn [option_map]; auto.
      destruct (endswith (lit ".xml") t) eqn:E1.
      - destruct (endswith (lit ".rels") t) eqn:E2; auto. exfalso. apply (ends_exclusive _ _ _ E1 E2); vm_compute; [discriminate|lia|lia].
      - destruct (endswith (lit ".json") t) eqn:E3; auto.
        destruct (endswith (lit ".rels") t) eqn:E2; auto. }
    assert (S2 : forall specs res, check_specs (upgrade DEPRECATED_TYPES z) specs res = check_specs z specs res).
    { induction specs as [|s r IH]; intros res; cbn [FileModel.check_specs]; auto. rewrite S1.
      destruct (check_spec z (rel_target s)) as [[v|]|e]; cbn [obind]; auto. }
    unfold FileModel.check_files. match goal with |- _ _ _ ?l ?r = _ => generalize r; generalize l end.
    induction l as [|o l IH]; intros res; cbn [FileModel.check_origins]; auto. rewrite S2.
    destruct (check_specs z _ _) as [[y|y]|e]; cbn [obind]; auto.
  Qed.
End Files.
