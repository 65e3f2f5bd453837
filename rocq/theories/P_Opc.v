(** Properties C20 - C32. *)
From Coq Require Import List NArith ZArith Bool Lia.
From Coq Require Import String. Open Scope list_scope.
From Verif Require Import PyStr PyStrFacts PyBase PyXml ResultModel ResultSpec ResultFacts OpcModel OpcSpec OpcFacts OpcFacts2
  FileModel FileSpec OpcFacts3.
Import ListNotations.
Local Open Scope N_scope.

(** ** C20 *)
Theorem C20_normpath : forall p,
  (exists q segs out, trimmed p q /\ segments q segs /\ resolves [] segs out
     /\ normpath p = match q with [] => [] | c :: _ => (if c =? 47 then [47] else []) ++ join [47] out end)
  /\ (exists out, (normpath p = join [47] out \/ normpath p = 47 :: join [47] out)
        /\ Forall (fun t => ~ blank t /\ t <> lit "." /\ t <> lit ".." /\ ~ In 47 t) out).
Proof. intros p. split; [apply normpath_spec|apply normpath_clean]. Qed.
Print Assumptions C20_normpath.
(** the specification determines the result *)
Theorem C20_unique : forall p q segs out q' segs' out',
  trimmed p q -> segments q segs -> resolves [] segs out ->
  trimmed p q' -> segments q' segs' -> resolves [] segs' out' -> q = q' /\ out = out'.
Proof.
  intros p q segs out q' segs' out' H1 H2 H3 H4 H5 H6. assert (q = q') by (eapply trimmed_fun; eauto). subst q'.
  apply segments_fun in H2. apply segments_fun in H5. subst. split; auto. eapply resolves_fun; eauto.
Qed.
Print Assumptions C20_unique.
Example C20_ex : normpath (lit " ///a/../../b/ /./c ") = lit "/b/c" /\ normpath (lit "../x/..") = [].
Proof. vm_compute. auto. Qed.

(** ** C21 *)
Theorem C21_idempotent_refuted : exists p, normpath (normpath p) <> normpath p.
Proof. exists (lit "./ a"). vm_compute. discriminate. Qed.
Print Assumptions C21_idempotent_refuted.
(** Normalizing twice is the same if the result has no surrounding blanks. *)
Theorem C21_idempotent : forall p, trimmed (normpath p) (normpath p) -> normpath (normpath p) = normpath p.
Proof. intros p H. apply normpath_idem. eapply trimmed_fun; [apply trimmed_strip|exact H]. Qed.
Print Assumptions C21_idempotent.
(** in particular if the path contains no blanks at all *)
Lemma resolves_in done r out : resolves done r out -> forall t, In t out -> In t done \/ In t r.
Proof.
  induction 1; intros x Hx; auto.
  - destruct (IHresolves _ Hx); simpl; auto.
  - destruct (IHresolves _ Hx); simpl; auto. left. apply in_or_app; auto.
  - destruct (IHresolves _ Hx); simpl; auto.
  - destruct (IHresolves _ Hx) as [K|K]; simpl; auto. apply in_app_iff in K as [K|[->|[]]]; auto.
Qed.
Lemma segments_chars q segs : segments q segs -> forall t c, In t segs -> In c t -> In c q.
Proof.
  induction 1; intros t c Ht Hc.
  - destruct Ht as [<-|[]]; auto.
  - apply in_or_app. destruct Ht as [<-|Ht]; auto. right. right. eauto.
Qed.
Lemma join_chars l c : In c (join [47] l) -> c = 47 \/ exists t, In t l /\ In c t.
Proof.
  induction l as [|x l IH]; simpl; [tauto|]. destruct l as [|y l].
  - intros H. right. exists x. auto.
  - intros H. apply in_app_iff in H as [H|[H|H]]; [right; exists x; auto|auto|].
    destruct (IH H) as [E|(t & Ht & Hc)]; auto. right. exists t. auto.
Qed.
Lemma normpath_chars p c : In c (normpath p) -> c = 47 \/ In c p.
Proof.
  destruct (normpath_spec p) as (q & segs & out & (a & b & Eq & _) & Hs & Hr & E). rewrite E.
  destruct q as [|x q]; [simpl; tauto|]. intros H.
  assert (H' : c = 47 \/ In c (join [47] out)).
  { destruct (x =? 47); simpl in H; [destruct H; auto|auto]. }
  destruct H' as [H'|H']; auto. apply join_chars in H' as [H'|(t & Ht & Hc)]; auto.
  right. destruct (resolves_in _ _ _ Hr _ Ht) as [[]|Ht']. rewrite Eq. apply in_or_app. right. apply in_or_app. left.
  eapply segments_chars; eauto.
Qed.
Theorem C21_idempotent_no_blanks : forall p, Forall (fun c => is_space c = false) p -> normpath (normpath p) = normpath p.
Proof.
  intros p H. apply C21_idempotent.
  assert (K : forall c, In c (normpath p) -> is_space c = false).
  { intros c Hc. apply normpath_chars in Hc as [->|Hc]; [reflexivity|]. rewrite Forall_forall in H. auto. }
  exists [], []. rewrite app_nil_r. repeat split; try constructor.
  - intros c t E. apply K. rewrite E. simpl; auto.
  - intros c t E. apply K. rewrite E. apply in_or_app; simpl; auto.
Qed.
Print Assumptions C21_idempotent_no_blanks.
Example C21_ex : Forall (fun c => is_space c = false) (lit "a/../b//c") /\ normpath (lit "a/../b//c") = lit "b/c".
Proof. split; [|vm_compute; reflexivity]. repeat constructor. Qed.

(** ** C22 *)
Theorem C22_split : forall p, let '(d, f) := splitpath p in
  ~ In 47 f /\ (In 47 p -> p = d ++ lit "/" ++ f) /\ (~ In 47 p -> d = [] /\ f = p).
Proof.
  intros p. unfold splitpath. destruct (in_dec N.eq_dec 47 p) as [H|H].
  - destruct (rpartition_some 47 p H) as (a & b & E & Ep & Hb). rewrite E. repeat split; auto; contradiction.
  - rewrite (rpartition_none 47 p H). repeat split; auto; contradiction.
Qed.
Print Assumptions C22_split.
Example C22_ex : splitpath (lit "a/b/c.xml") = (lit "a/b", lit "c.xml") /\ splitpath (lit "c.xml") = ([], lit "c.xml").
Proof. vm_compute. auto. Qed.

(** ** C23 *)
Definition python_archive (z : archive) : Prop := forall n c, In (n, c) z -> as_xml c <> PCrash OutOfFuel.
Theorem C23_scan_terminates : forall dep z, python_archive z ->
  scan (enough z) dep z [] [] [] <> Raise OutOfFuel
  /\ forall fuel, (enough z <= fuel)%nat -> scan fuel dep z [] [] [] = scan (enough z) dep z [] [] [].
Proof.
  intros dep z Hz. split.
  - intros H. apply scan_raise in H as [(d & f & c & Hc & [(m & _ & H)|H])|[_ H]].
    + discriminate.
    + apply zopen_in in Hc. apply Hz in Hc. congruence.
    + pose proof (unv_enough z []). lia.
  - intros fuel H. apply scan_fuel; auto. apply unv_enough.
Qed.
Print Assumptions C23_scan_terminates.

(** ** C24 *)
Theorem C24_scanned_once : forall dep z r s, check_relationships dep z = Val (r, s) ->
  NoDup (sr_scanned s) /\ (forall t, In t (sr_scanned s) -> exists_in z t)
  /\ (List.length (sr_scanned s) <= List.length z)%nat.
Proof.
  intros dep z r s H. unfold check_relationships in H.
  destruct (scan _ dep z [] [] []) as [s'|] eqn:E; cbn [obind] in H; [|discriminate].
  apply scan_rel in E. pose proof (proj1 (scan_inv dep z) _ _ _ _ E) as (K1 & K2 & K3 & K4).
  assert (s = s') by (destruct (sr_result s'); inversion H; auto). subst s'. split; auto. split.
  - intros t Ht. apply K3 in Ht as [Ht _]. apply in_map_iff in Ht as ([n c] & <- & Ht). exists c. exact Ht.
  - rewrite <- (map_length fst z). apply NoDup_incl_length; auto. intros t Ht. apply K3 in Ht as [Ht _]. exact Ht.
Qed.
Print Assumptions C24_scanned_once.

(** ** C25, C26: inversion of the entry point *)
Lemma check_relationships_inv dep z r s : check_relationships dep z = Val (r, s) ->
  Scan dep z [] [] [] s
  /\ r = append (new_result (lit "Checking relationships") INFO)
           (match sr_result s with Some x => x | None => new_result (lit "Root relationship does not exist") ERROR end).
Proof.
  unfold check_relationships. destruct (scan _ dep z [] [] []) as [s'|] eqn:E; cbn [obind]; [|discriminate].
  apply scan_rel in E. destruct (sr_result s') eqn:Er; intros H; inversion H; subst; rewrite Er; auto.
Qed.
Lemma names_exists z t : In t (namelist z) <-> exists_in z t.
Proof.
  unfold namelist, exists_in. rewrite in_map_iff. split.
  - intros ([n c] & <- & H). exists c; auto.
  - intros [c H]. exists (t, c). auto.
Qed.
Lemma denoted_resolve dir tg t : denoted dir tg t -> t = resolve_target dir tg.
Proof.
  unfold resolve_target. intros [(a & -> & ->)|[H ->]]; [reflexivity|].
  destruct tg as [|c tg]; [reflexivity|]. change (lit "/") with [47]. cbn [startswith]. rewrite andb_true_r.
  destruct (N.eqb_spec 47 c); [subst; exfalso; eapply H; eauto|reflexivity].
Qed.
Lemma resolve_denoted dir tg : denoted dir tg (resolve_target dir tg).
Proof.
  unfold denoted, resolve_target. destruct tg as [|c tg]; [right; split; [discriminate|reflexivity]|].
  change (lit "/") with [47]. cbn [startswith]. rewrite andb_true_r. destruct (N.eqb_spec 47 c).
  - subst. left. exists tg. auto.
  - right. split; [congruence|reflexivity].
Qed.
Lemma rsplit_unique (a a' b b' : str) : a ++ 47 :: b = a' ++ 47 :: b' -> ~ In 47 b -> ~ In 47 b' -> a = a' /\ b = b'.
Proof.
  revert a'. induction a as [|x a IH]; intros [|y a'] H Hb Hb'; simpl in H; inversion H; subst; auto.
  - exfalso. apply Hb. apply in_or_app. simpl; auto.
  - exfalso. apply Hb'. apply in_or_app. simpl; auto.
  - destruct (IH a' H2 Hb Hb') as [-> ->]. auto.
Qed.
Lemma part_name_nested q dir base : part_name q dir base -> In 47 q -> dir = subdir q /\ base = subfile q.
Proof.
  intros (E & Hb & Hd) Hq. unfold subdir, subfile, splitpath. destruct (rpartition_some 47 q Hq) as (a & b & Er & Eq & Hnb).
  rewrite Er. cbn [fst snd]. change (lit "/") with [47]. destruct Hd as [->|[d ->]].
  - exfalso. simpl in E. subst. contradiction.
  - rewrite E in Eq. rewrite <- app_assoc in Eq. apply rsplit_unique in Eq as [-> ->]; auto.
Qed.
Lemma nested_visited dep z s t : Scan dep z [] [] [] s -> nested_reachable z t -> In t (sr_visited s).
Proof.
  intros Hs. induction 1 as [t (ty & tg & H1 & H2)|q t _ IH Hq Hn (dir & base & ty & tg & H1 & H2 & H3)].
  - apply denoted_resolve in H2. subst t. eapply scan_closed_here; eauto.
  - apply denoted_resolve in H3. subst t. destruct (part_name_nested _ _ _ H1 Hn) as [-> ->].
    destruct (proj1 (scan_inv dep z) _ _ _ _ Hs) as (_ & _ & _ & K4).
    apply names_exists in Hq. destruct (K4 _ IH) as [[]|[K|K]]; [|contradiction].
    eapply (proj1 (scan_closed dep z)); eauto.
Qed.

(** ** C25 *)
Theorem C25_dangling : forall dep z r s, check_relationships dep z = Val (r, s) ->
  (ok r = true -> forall x, found x (sr_rels s) -> exists_in z (rel_target x))
  /\ (forall t, nested_reachable z t -> ~ exists_in z t -> ok r = false)
  /\ (forall ty tg, relation_in z (lit "_rels/.rels") ty tg -> exists sub t,
        denoted [] tg t /\ In (Rel (official dep ty) t sub) (sr_rels s)).
Proof.
  intros dep z r s H. apply check_relationships_inv in H as [Hs ->].
  assert (M : forall t, In t (sr_visited s) -> ~ exists_in z t ->
    ok (append (new_result (lit "Checking relationships") INFO)
           (match sr_result s with Some x => x | None => new_result (lit "Root relationship does not exist") ERROR end)) = false).
  { intros t Ht Hn. rewrite <- names_exists in Hn.
    destruct (proj1 (scan_missing dep z) _ _ _ _ Hs t Ht) as (x & Hx & Hb); auto.
    rewrite Hx, ok_append, Hb. apply andb_false_r. }
  split; [|split].
  - intros Ho x Hx. apply (proj1 (scan_found dep z) _ _ _ _ Hs) in Hx.
    apply names_exists. destruct (str_in (rel_target x) (namelist z)) eqn:E; [now apply str_in_spec|].
    rewrite (M (rel_target x)) in Ho; auto; [discriminate|]. rewrite <- names_exists, <- str_in_spec. congruence.
  - intros t Ht Hn. apply (M t); auto. eapply nested_visited; eauto.
  - intros ty tg Hr. destruct (scan_closed_here dep z _ _ _ _ Hs ty tg Hr) as (_ & sub & Hi).
    exists sub, (resolve_target [] tg). split.
    + apply resolve_denoted.
    + replace (official dep ty) with (fst (map_type dep ty)); auto. unfold official, map_type. destruct (lookup ty dep); reflexivity.
Qed.
Print Assumptions C25_dangling.

(** ** C26 *)
Theorem C26_nested_parts_scanned : forall dep z r s, check_relationships dep z = Val (r, s) ->
  forall t, nested_reachable z t -> exists_in z t -> In t (sr_scanned s).
Proof.
  intros dep z r s H t Ht He. apply check_relationships_inv in H as [Hs _].
  destruct (proj1 (scan_inv dep z) _ _ _ _ Hs) as (_ & _ & _ & K4).
  destruct (K4 t) as [[]|[K|K]]; auto; [eapply nested_visited; eauto|]. exfalso. apply K. now apply names_exists.
Qed.
Print Assumptions C26_nested_parts_scanned.

(** Archives for the examples *)
Definition mk_rel (ty tg : string) : xml :=
  El (NS_RELATIONSHIPS ++ lit "Relationship") [(lit "Type", lit ty); (lit "Target", lit tg)] None [].
Definition mk_rels (name : string) (l : list xml) : str * content :=
  (lit name, Content (POk (El (NS_RELATIONSHIPS ++ lit "Relationships") [] None l)) (PBad [])).
Definition mk_part (name : string) : str * content := (lit name, Content (PBad []) (POk JNull)).
Definition mk_types : str * content :=
  (lit "[Content_Types].xml", Content (POk (El (NS_CONTENT_TYPES ++ lit "Types") [] None [])) (PBad [])).

Definition top_level_example : archive :=
  [ mk_rels "_rels/.rels" [mk_rel "x" "/a.xml"]; mk_part "a.xml";
    mk_rels "_rels/a.xml.rels" [mk_rel "y" "/missing"] ].
(** a part at the top level: its relationship file is not read *)
Theorem C26_top_level_refuted : exists dep z r s t, check_relationships dep z = Val (r, s)
  /\ reachable z t /\ ~ exists_in z t /\ ok r = true.
Proof.
  exists [], top_level_example. eexists _, _, (lit "missing"). split; [vm_compute; reflexivity|]. split; [|split].
  - apply rc_step with (lit "a.xml").
    + apply rc_root. exists (lit "x"), (lit "/a.xml"). split; [|left; exists (lit "a.xml"); split; vm_compute; reflexivity].
      eexists _, _, _. split; [vm_compute; reflexivity|]. split; [reflexivity|]. split; [vm_compute; reflexivity|].
      split; [left; reflexivity|]. split; [vm_compute; reflexivity|split; vm_compute; reflexivity].
    + eexists. right. left. reflexivity.
    + exists [], (lit "a.xml"), (lit "y"), (lit "/missing"). split; [split; [reflexivity|split; [vm_compute; intuition discriminate|auto]]|].
      split; [|left; exists (lit "missing"); split; vm_compute; reflexivity].
      eexists _, _, _. split; [vm_compute; reflexivity|]. split; [reflexivity|]. split; [vm_compute; reflexivity|].
      split; [left; reflexivity|]. split; [vm_compute; reflexivity|split; vm_compute; reflexivity].
  - rewrite <- names_exists, <- str_in_spec. vm_compute. discriminate.
  - reflexivity.
Qed.
Print Assumptions C26_top_level_refuted.

Definition cyclic_example : archive :=
  [ mk_types; mk_rels "_rels/.rels" [mk_rel "x" "/d/a"; mk_rel "x" "d/../d/b"]; mk_part "d/a"; mk_part "d/b";
    mk_rels "d/_rels/a.rels" [mk_rel "y" "b"; mk_rel "y" "/d/a"];
    mk_rels "d/_rels/b.rels" [mk_rel "y" "a"; mk_rel "y" "../c/nowhere"] ].
Example C23_C24_C26_ex : exists r s, check_relationships [] cyclic_example = Val (r, s)
  /\ sr_scanned s = [lit "d/a"; lit "d/b"] /\ ok r = false.
Proof. eexists _, _. split; [vm_compute; reflexivity|]. split; reflexivity. Qed.
Example C25_ex : exists r s, check_relationships [] (cyclic_example ++ [mk_part "c/nowhere"]) = Val (r, s)
  /\ sr_scanned s = [lit "d/a"; lit "d/b"; lit "c/nowhere"] /\ ok r = true.
Proof. eexists _, _. split; [vm_compute; reflexivity|]. split; reflexivity. Qed.

(** ** C27 *)
Theorem C27_broken_package_refuted : exists z, read_opc [] z (new_result [] INFO) = Raise XmlParseError.
Proof. exists [mk_part "[Content_Types].xml"]. reflexivity. Qed.
Print Assumptions C27_broken_package_refuted.
(** The only source of exceptions is an unreadable or not well-formed XML member. *)
Theorem C27_only_unreadable_members : forall dep z res e, read_opc dep z res = Raise e ->
  exists name c, In (name, c) z /\ (name = lit "[Content_Types].xml" \/ endswith (lit ".rels") name = true)
    /\ ((exists m, as_xml c = PBad m /\ e = XmlParseError) \/ as_xml c = PCrash e).
Proof.
  intros dep z res e H. unfold read_opc in H.
  destruct (check_content_type z) as [c|x] eqn:Ec; cbn [obind] in H.
  - destruct (negb _); [discriminate|]. unfold check_relationships in H.
    destruct (scan _ dep z [] [] []) as [s|x] eqn:E; cbn [obind] in H.
    + destruct (sr_result s); discriminate.
    + inversion H; subst. apply scan_raise in E as [(d & f & c0 & Hc & K)|[_ K]].
      * exists (rels_name d f), c0. split; [now apply zopen_in|]. split; auto. right. apply rels_name_rels.
      * pose proof (unv_enough z []). lia.
  - inversion H; subst. unfold check_content_type in Ec. destruct (zopen z content_types_xml) as [c|] eqn:Ez; [|discriminate].
    exists content_types_xml, c. split; [now apply zopen_in|]. split; [left; reflexivity|].
    destruct (as_xml c) eqn:Ex.
    + destruct (str_eqb _ _); discriminate.
    + left. inversion Ec. eauto.
    + right. inversion Ec. reflexivity.
Qed.
Print Assumptions C27_only_unreadable_members.
(** Well-formed but unexpected contents are reported. *)
Theorem C27_unexpected_contents : forall dep z res r rels, read_opc dep z res = Val (r, rels) ->
  ((zopen z (lit "[Content_Types].xml") = None \/
    exists c root, zopen z (lit "[Content_Types].xml") = Some c /\ as_xml c = POk root /\ x_tag root <> NS_CONTENT_TYPES ++ lit "Types") ->
   ok r = false)
  /\ (zopen z (lit "_rels/.rels") = None -> ok r = false)
  /\ (malformed_file z (lit "_rels/.rels") -> ok r = false)
  /\ (forall q dir base, nested_reachable z q -> exists_in z q -> In 47 q -> part_name q dir base ->
      malformed_file z (dir ++ lit "_rels/" ++ base ++ lit ".rels") -> ok r = false).
Proof.
  intros dep z res r rels H. unfold read_opc in H.
  destruct (check_content_type z) as [c|x] eqn:Ec; cbn [obind] in H; [|discriminate].
  assert (B : (zopen z (lit "[Content_Types].xml") = None \/
    exists c root, zopen z (lit "[Content_Types].xml") = Some c /\ as_xml c = POk root /\ x_tag root <> NS_CONTENT_TYPES ++ lit "Types") ->
    ok c = false).
  { unfold check_content_type in Ec. change content_types_xml with (lit "[Content_Types].xml") in Ec.
    intros [K|(c0 & root & K1 & K2 & K3)].
    - rewrite K in Ec. inversion Ec. reflexivity.
    - rewrite K1, K2 in Ec. apply str_eqb_neq in K3. rewrite K3 in Ec. inversion Ec. reflexivity. }
  assert (D : negb (ok (append res c)) = false -> forall x, check_relationships dep z = Val x -> r = append (append res c) (fst x)).
  { intros K [x s] K'. rewrite K, K' in H. cbn [obind fst snd] in H. inversion H. reflexivity. }
  assert (G : (forall x s, check_relationships dep z = Val (x, s) -> ok x = false) -> ok r = false).
  { intros K. destruct (negb (ok (append res c))) eqn:En.
    - inversion H; subst. now apply negb_true_iff in En.
    - destruct (check_relationships dep z) as [[x s]|] eqn:Er; [|discriminate].
      rewrite (D eq_refl _ eq_refl). cbn [fst]. rewrite ok_append, (K x s eq_refl). apply andb_false_r. }
  assert (L : forall x s, check_relationships dep z = Val (x, s) ->
     (sr_result s = None \/ exists y, sr_result s = Some y /\ ok y = false) -> ok x = false).
  { intros x s K L. apply check_relationships_inv in K as [_ ->]. rewrite ok_append.
    destruct L as [->|(y & -> & ->)]; apply andb_false_r. }
  repeat split.
  - intros K. apply B in K. destruct (negb (ok (append res c))) eqn:En.
    + inversion H; subst. now apply negb_true_iff in En.
    + rewrite ok_append, K, andb_false_r in En. discriminate.
  - intros K. apply G. intros x s K'. eapply L; eauto. apply check_relationships_inv in K' as [K' _].
    left. inversion K'; subst; auto; change (rels_name [] []) with (lit "_rels/.rels") in *; congruence.
  - intros K. apply G. intros x s K'. eapply L; eauto. apply check_relationships_inv in K' as [K' _]. right.
    eapply (proj1 (scan_malformed dep z)); eauto.
  - intros q dir base K1 K2 K3 K4 K5. apply G. intros x s K'. eapply L; eauto.
    pose proof (C26_nested_parts_scanned _ _ _ _ K' q K1 K2). apply check_relationships_inv in K' as [K' _]. right.
    eapply (proj1 (scan_malformed dep z)); eauto. right. exists q. split; auto.
    destruct (part_name_nested _ _ _ K4 K3) as [<- <-]. exact K5.
Qed.
Print Assumptions C27_unexpected_contents.
Example C27_ex : exists r rels, read_opc [] (cyclic_example ++
    [(lit "c/nowhere", Content (PBad []) (PBad [])); mk_rels "c/_rels/nowhere.rels" [El (lit "oops") [] None []]]) (new_result [] INFO) = Val (r, rels)
  /\ ok r = false.
Proof. eexists _, _. split; [vm_compute; reflexivity|reflexivity]. Qed.

(** ** C28 *)
Theorem C28_deprecated_types : forall jo xo z,
  match check_aasx_data jo xo z, check_aasx_data jo xo (upgrade DEPRECATED_TYPES z) with
  | Val r, Val r' => same DEPRECATED_TYPES r r' /\ ok r = ok r'
  | Raise e, Raise e' => e = e'
  | _, _ => False
  end.
Proof.
  intros jo xo z. unfold check_aasx_data.
  pose proof (read_upgrade DEPRECATED_TYPES deprecated_flat z (new_result (lit "Checking AASX package") INFO)) as H.
  destruct (read_opc DEPRECATED_TYPES z _) as [[r rels]|e], (read_opc DEPRECATED_TYPES (upgrade _ z) _) as [[r' rels']|e'];
    try contradiction; cbn [obind]; auto.
  destruct H as [Hs <-]. pose proof (same_ok _ _ _ Hs) as Ho. rewrite <- Ho. destruct (negb (ok r)); auto.
  rewrite check_files_upgrade. destruct (check_files jo xo z rels) as [f|]; cbn [obind]; auto.
  assert (K : same DEPRECATED_TYPES (append r f) (append r' f)) by (apply same_append; auto; apply same_refl).
  split; auto. now apply same_ok in K.
Qed.
Print Assumptions C28_deprecated_types.
Theorem C28_warning_recorded : forall z r rels t n, read_opc DEPRECATED_TYPES z (new_result (lit "Checking AASX package") INFO) = Val (r, rels) ->
  ok r = true -> lookup t DEPRECATED_TYPES = Some n ->
  ((exists tg, relation_in z (lit "_rels/.rels") t tg) \/
   (exists q dir base tg, nested_reachable z q /\ exists_in z q /\ In 47 q /\ part_name q dir base
      /\ relation_in z (dir ++ lit "_rels/" ++ base ++ lit ".rels") t tg)) ->
  occurs (new_result (lit "Deprecated type " ++ t ++ lit ", considering as " ++ n) WARNING) r.
Proof.
  intros z r rels t n H Ho Hd Hr. unfold read_opc in H.
  destruct (check_content_type z) as [c|x] eqn:Ec; cbn [obind] in H; [|discriminate].
  destruct (negb _) eqn:En. { inversion H; subst. apply negb_true_iff in En. congruence. }
  destruct (check_relationships DEPRECATED_TYPES z) as [[x s]|] eqn:Er; [|discriminate]. cbn [obind fst snd] in H. inversion H; subst. clear H.
  destruct (check_relationships_inv _ _ _ _ Er) as [Hs Ex].
  assert (W : exists y, sr_result s = Some y /\ occurs (dep_warning t n) y).
  { destruct Hr as [(tg & Hr)|(q & dir & base & tg & H1 & H2 & H3 & H4 & H5)].
    - eapply (proj1 (proj1 (scan_warned DEPRECATED_TYPES z) _ _ _ _ Hs)); eauto.
    - pose proof (C26_nested_parts_scanned _ _ _ _ Er q H1 H2). destruct (part_name_nested _ _ _ H4 H3) as [-> ->].
      eapply (proj2 (proj1 (scan_warned DEPRECATED_TYPES z) _ _ _ _ Hs)); eauto. }
  destruct W as (y & Hy & Hw). rewrite Hy in Ex.
  apply occurs_sub with x; [simpl; auto|].
  subst x. apply occurs_sub with y; [rewrite append_subs; apply in_or_app; simpl; auto|]. exact Hw.
Qed.
Print Assumptions C28_warning_recorded.

Definition dep_example : archive :=
  [ mk_types; mk_rels "_rels/.rels" [mk_rel "http://www.admin-shell.io/aasx/relationships/aasx-origin" "/aasx/aasx-origin"];
    mk_part "aasx/aasx-origin";
    mk_rels "aasx/_rels/aasx-origin.rels" [mk_rel "http://www.admin-shell.io/aasx/relationships/aas-spec" "data.json"];
    mk_part "aasx/data.json" ].
Example C28_ex : exists r r' f, check_aasx_data (fun _ _ => Val (new_result (lit "checked") ERROR)) (fun _ _ => Raise TypeError) dep_example = Val r
  /\ check_aasx_data (fun _ _ => Val (new_result (lit "checked") ERROR)) (fun _ _ => Raise TypeError) (upgrade DEPRECATED_TYPES dep_example) = Val r'
  /\ ok r = false /\ ok r' = false /\ r <> r' /\ In f (r_subs r) /\ In f (r_subs r') /\ r_message f = lit "Checking files".
Proof.
  eexists _, _, _. split; [vm_compute; reflexivity|]. split; [vm_compute; reflexivity|].
  split; [reflexivity|]. split; [reflexivity|]. split; [discriminate|].
  split; [right; right; left; reflexivity|]. split; [right; right; left; reflexivity|reflexivity].
Qed.

(** ** C29, C30: structure of the report *)
Section Checkers.
  Variable jo : json -> str -> outcome result.
  Variable xo : xml -> str -> outcome result.

  Lemma read_structure z res r rels : ok res = true -> read_opc DEPRECATED_TYPES z res = Val (r, rels) -> ok r = true ->
    exists x s, check_relationships DEPRECATED_TYPES z = Val (x, s) /\ rels = sr_rels s /\ ok x = true.
  Proof.
    intros Hres H Ho. unfold read_opc in H. destruct (check_content_type z) as [c|] eqn:Ec; cbn [obind] in H; [|discriminate].
    destruct (negb _) eqn:En. { inversion H; subst. apply negb_true_iff in En. congruence. }
    destruct (check_relationships DEPRECATED_TYPES z) as [[x s]|] eqn:Er; [|discriminate]. cbn [obind fst snd] in H. inversion H; subst.
    exists x, s. split; auto. split; auto. rewrite ok_append in Ho. apply andb_prop in Ho. tauto.
  Qed.
  Lemma spec_file_exists z res r rels t : ok res = true -> read_opc DEPRECATED_TYPES z res = Val (r, rels) -> ok r = true ->
    spec_file rels t -> exists_in z t.
  Proof.
    intros Hres H Ho (o & s & H1 & _ & H2 & _ & <-). destruct (read_structure _ _ _ _ Hres H Ho) as (x & s' & E & -> & Hx).
    eapply (proj1 (C25_dangling _ _ _ _ E)); eauto. eapply f_deep; eauto. now apply f_here.
  Qed.
  Lemma by_type_in l t r : In r (by_type l t) <-> In r l /\ rel_type r = t.
  Proof. unfold by_type. rewrite filter_In, str_eqb_spec. tauto. Qed.

  Definition structure := new_result (lit "Checking AASX package") INFO.

  (** If the structure is not ok, the report is that of the structure, whatever the checkers do. *)
  Theorem C30_structure_first : forall z r rels, read_opc DEPRECATED_TYPES z structure = Val (r, rels) -> ok r = false ->
    check_aasx_data jo xo z = Val r.
  Proof. intros z r rels H Ho. unfold check_aasx_data. fold structure. rewrite H. cbn [obind]. now rewrite Ho. Qed.
  Theorem C30_structure_crash : forall z e, read_opc DEPRECATED_TYPES z structure = Raise e -> check_aasx_data jo xo z = Raise e.
  Proof. intros z e H. unfold check_aasx_data. fold structure. now rewrite H. Qed.

  Lemma Forall2_in_l {A B} (R : A -> B -> Prop) l l' x : Forall2 R l l' -> In x l -> exists y, In y l' /\ R x y.
  Proof. induction 1 as [|a b la lb Hab HF IH]; simpl; [tauto|]. intros [E|H']; [subst; eauto|]. destruct (IH H') as (z & ? & ?). eauto. Qed.
  Lemma Forall2_in_r {A B} (R : A -> B -> Prop) l l' y : Forall2 R l l' -> In y l' -> exists x, In x l /\ R x y.
  Proof. induction 1 as [|a b la lb Hab HF IH]; simpl; [tauto|]. intros [E|H']; [subst; eauto|]. destruct (IH H') as (z & ? & ?). eauto. Qed.

  (** Otherwise the verdict is ok exactly when all checked files are ok. *)
  Theorem C30_verdict : forall z r rels res, no_key_error jo xo z ->
    read_opc DEPRECATED_TYPES z structure = Val (r, rels) -> ok r = true -> check_aasx_data jo xo z = Val res ->
    (ok res = true <-> forall t, spec_file rels t -> exists c v, zopen z t = Some c /\ verdict jo xo c t v /\ ok v = true)
    /\ (forall t, spec_file rels t -> exists c v, zopen z t = Some c /\ verdict jo xo c t v
          /\ occurs (append (new_result (lit "Checking " ++ t) INFO) v) res).
  Proof.
    intros z r rels res Hk H Ho Hc. unfold check_aasx_data in Hc. fold structure in Hc. rewrite H in Hc. cbn [obind] in Hc. rewrite Ho in Hc. cbn [negb] in Hc.
    destruct (check_files jo xo z rels) as [f|] eqn:Ef; [|discriminate]. cbn [obind] in Hc. inversion Hc; subst. clear Hc.
    apply check_files_ok in Ef as (ess & HF & ->); auto.
    2:{ intros t Ht. apply names_exists. apply (spec_file_exists z structure r rels); auto. }
    match goal with |- context [append r (appends ?h _)] => set (head := h) end.
    assert (Hh : ok head = true) by (unfold head; destruct (Nat.eqb _ _); reflexivity).
    (* every file has its entry *)
    assert (E1 : forall t, spec_file rels t -> exists c v, zopen z t = Some c /\ verdict jo xo c t v
        /\ In (append (new_result (lit "Checking " ++ t) INFO) v) (List.concat ess)).
    { intros t (o & s & H1 & H2 & H3 & H4 & <-).
      destruct (Forall2_in_l _ _ _ o HF) as (es & He & (es' & HF' & ->)); [apply by_type_in; auto|].
      assert (Hs : In s (by_type (rel_subs o) TYPE_AASX_SPEC)) by (apply by_type_in; auto).
      destruct (Forall2_in_l _ _ _ s HF' Hs) as (y & Hy & (c & v & K1 & K2 & ->)).
      exists c, v. split; auto. split; auto. apply in_concat. eexists; split; [exact He|].
      destruct (by_type (rel_subs o) TYPE_AASX_SPEC); [destruct Hs|exact Hy]. }
    split.
    - rewrite ok_append, Ho, ok_appends, Hh. cbn [andb]. split.
      + intros Ha t Ht. destruct (E1 t Ht) as (c & v & K1 & K2 & K3). exists c, v. split; auto. split; auto.
        rewrite forallb_forall in Ha. specialize (Ha _ K3). rewrite ok_append in Ha. exact Ha.
      + intros Ha. apply forallb_forall. intros e He. apply in_concat in He as (es & Hes & He).
        destruct (Forall2_in_r _ _ _ es HF Hes) as (o & Hoo & (es' & HF' & ->)). apply by_type_in in Hoo as [Ho1 Ho2].
        destruct (by_type (rel_subs o) TYPE_AASX_SPEC) as [|s0 sp] eqn:Eb.
        * destruct He as [<-|[]]. reflexivity.
        * destruct (Forall2_in_r _ _ _ e HF' He) as (s & Hs & (c & v & K1 & K2 & ->)).
          rewrite <- Eb in Hs. apply by_type_in in Hs as [Hs1 Hs2].
          destruct (Ha (rel_target s)) as (c' & v' & L1 & L2 & L3). { exists o, s. auto. }
          rewrite K1 in L1. inversion L1; subst c'. rewrite ok_append. cbn [ok new_result r_level level_ok andb].
          replace v with v'; auto. clear - K2 L2.
          assert (X : forall t, endswith (lit ".xml") t = true -> endswith (lit ".json") t = true -> False).
          { intros t A B. apply (ends_exclusive _ _ _ A B); vm_compute; [discriminate|lia|lia]. }
          inversion K2; subst; inversion L2; subst; try congruence; exfalso; eauto.
    - intros t Ht. destruct (E1 t Ht) as (c & v & K1 & K2 & K3). exists c, v. split; auto. split; auto.
      apply occurs_sub with (appends head (List.concat ess)); [rewrite append_subs; apply in_or_app; simpl; auto|].
      apply occurs_sub with (append (new_result (lit "Checking " ++ t) INFO) v); [|apply occ_here].
      rewrite appends_subs. apply in_or_app. auto.
  Qed.

  (** ** C29 *)
  (** Missing or ambiguous files are announced. *)
  Theorem C29_warnings : forall z r rels res, no_key_error jo xo z ->
    read_opc DEPRECATED_TYPES z structure = Val (r, rels) -> ok r = true -> check_aasx_data jo xo z = Val res ->
    ((exists o, In o rels /\ is_origin o /\ forall o', In o' rels -> is_origin o' -> o' = o) \/
      exists m, occurs (new_result m WARNING) res)
    /\ (forall o, In o rels -> is_origin o -> (exists s, In s (rel_subs o) /\ is_spec s) \/
          occurs (new_result (lit "No aas spec found") WARNING) res)
    /\ (forall t, spec_file rels t -> endswith (lit ".xml") t = true \/ endswith (lit ".json") t = true \/
          exists x, r_message x = lit "Checking " ++ t /\ In (new_result (lit "Unknown filetype") WARNING) (r_subs x) /\ occurs x res).
  Proof.
    intros z r rels res Hk H Ho Hc.
    pose proof (C30_verdict z r rels res Hk H Ho Hc) as [_ HV].
    unfold check_aasx_data in Hc. fold structure in Hc. rewrite H in Hc. cbn [obind] in Hc. rewrite Ho in Hc. cbn [negb] in Hc.
    destruct (check_files jo xo z rels) as [f|] eqn:Ef; [|discriminate]. cbn [obind] in Hc. inversion Hc; subst. clear Hc.
    apply check_files_ok in Ef as (ess & HF & ->); auto.
    2:{ intros t Ht. apply names_exists. apply (spec_file_exists z structure r rels); auto. }
    repeat split.
    - destruct (by_type rels TYPE_AASX_ORIGIN) as [|o [|o' l]] eqn:Eb.
      + right. eexists. eapply occurs_sub; [rewrite append_subs; apply in_or_app; right; left; reflexivity|].
        eapply occurs_sub; [|apply occ_here]. rewrite appends_subs. apply in_or_app. left. simpl. left. reflexivity.
      + left. exists o. assert (Hi : In o (by_type rels TYPE_AASX_ORIGIN)) by (rewrite Eb; simpl; auto).
        apply by_type_in in Hi as [Hi1 Hi2]. split; auto. split; auto. intros o' Ho1 Ho2.
        assert (Hi : In o' (by_type rels TYPE_AASX_ORIGIN)) by (apply by_type_in; auto). rewrite Eb in Hi. destruct Hi as [<-|[]]. auto.
      + right. eexists. eapply occurs_sub; [rewrite append_subs; apply in_or_app; right; left; reflexivity|].
        eapply occurs_sub; [|apply occ_here]. rewrite appends_subs. apply in_or_app. left. simpl. left. reflexivity.
    - intros o Ho1 Ho2. destruct (Forall2_in_l _ _ _ o HF) as (es & He & (es' & HF' & ->)); [apply by_type_in; auto|].
      destruct (by_type (rel_subs o) TYPE_AASX_SPEC) as [|s sp] eqn:Eb.
      + right. eapply occurs_sub; [rewrite append_subs; apply in_or_app; right; left; reflexivity|].
        eapply occurs_sub; [|apply occ_here]. rewrite appends_subs. apply in_or_app. right. apply in_concat.
        eexists; split; [exact He|]. simpl; auto.
      + left. exists s. apply by_type_in. change (lit "http://admin-shell.io/aasx/relationships/aas-spec") with TYPE_AASX_SPEC.
        rewrite Eb. simpl; auto.
    - intros t Ht. destruct (HV t Ht) as (c & v & K1 & K2 & K3). inversion K2; subst; auto.
      right; right. eexists. split; [|split; [|exact K3]].
      + rewrite append_message. reflexivity.
      + rewrite append_subs. apply in_or_app. simpl; auto.
  Qed.

  (** An aas-spec file of the origin is checked, provided the origin relationship is the first
      one that leads to the origin. *)
  Theorem C29_spec_checked : forall z res c root pre e post ty tg o,
    no_key_error jo xo z -> check_aasx_data jo xo z = Val res -> ok res = true ->
    zopen z (lit "_rels/.rels") = Some c -> as_xml c = POk root -> x_children root = pre ++ e :: post ->
    elem_rel e ty tg -> origin_type ty -> denoted [] tg o -> In 47 o ->
    (forall e' ty' tg', In e' pre -> elem_rel e' ty' tg' -> ~ denoted [] tg' o) ->
    (forall dir base ty' tg', dir <> [] -> relation_in z (dir ++ lit "_rels/" ++ base ++ lit ".rels") ty' tg' -> ~ denoted dir tg' o) ->
    forall dir base sty stg t, part_name o dir base -> relation_in z (dir ++ lit "_rels/" ++ base ++ lit ".rels") sty stg ->
      spec_type sty -> denoted dir stg t ->
      exists ct v, zopen z t = Some ct /\ verdict jo xo ct t v /\ ok v = true
        /\ occurs (append (new_result (lit "Checking " ++ t) INFO) v) res.
  Proof.
    intros z res c root pre e post ty tg o Hk Hc Hok Hz Hx Hch He Hty Ho H47 Hpre Hcit' dir base sty stg t Hp Hr Hst Hd.
    assert (Hcit : ~ cited z o).
    { intros (q & ty' & tg' & K1 & K2 & K3). apply (Hcit' (subdir q) (subfile q) ty' tg'); auto.
      - unfold subdir. intros E. apply app_eq_nil in E as [_ E]. discriminate.
      - rewrite <- K3. apply resolve_denoted. }
    destruct (read_opc DEPRECATED_TYPES z structure) as [[r rels]|] eqn:Er.
    2:{ exfalso. rewrite (C30_structure_crash _ _ Er) in Hc. discriminate. }
    destruct (ok r) eqn:Eo.
    2:{ exfalso. rewrite (C30_structure_first _ _ _ Er Eo) in Hc. inversion Hc; subst. congruence. }
    destruct (C30_verdict z r rels res Hk Er Eo Hc) as [V1 V2].
    assert (S : spec_file rels t).
    { destruct (read_structure z structure r rels eq_refl Er Eo) as (x & s & Ec & -> & Hxo).
      pose proof (C25_dangling _ _ _ _ Ec) as (D1 & D2 & D3). pose proof (check_relationships_inv _ _ _ _ Ec) as [Hs Exx].
      inversion Hs as [? ? ? Hn|? ? ? ? ? ? Hz' Hx' Hg|? ? ? c' root' es rels' V' S' Hz' Hx' Hg HL]; subst;
        change (rels_name [] []) with (lit "_rels/.rels") in *; try congruence.
      - exfalso. simpl in Hxo. discriminate.
      - rewrite Hz in Hz'. inversion Hz'; subst c'. rewrite Hx in Hx'. inversion Hx'; subst root'. rewrite Hch in HL.
        apply denoted_resolve in Ho. subst o.
        assert (Hex : In (resolve_target [] tg) (namelist z)).
        { apply names_exists. destruct (str_in (resolve_target [] tg) (namelist z)) eqn:Ei; [now apply names_exists, str_in_spec|].
          rewrite (D2 (resolve_target [] tg)) in Hxo; [discriminate| |].
          - apply nr_root. exists ty, tg. split.
            + exists c, root, e. destruct He as (G1 & G2 & G3). repeat (split; auto). rewrite Hch. apply in_or_app. simpl; auto.
            + apply resolve_denoted.
          - rewrite <- names_exists, <- str_in_spec. congruence. }
        destruct (loop_follow _ _ _ _ _ _ _ _ _ _ _ _ _ HL He) as (s1 & V0 & L1 & L2); auto.
        { intros e' ty' tg' H1 H2 H3. eapply Hpre; eauto.
          rewrite <- H3. apply resolve_denoted. }
        destruct (part_name_nested _ _ _ Hp H47) as [-> ->].
        destruct (scan_closed_here _ _ _ _ _ _ L2 sty stg Hr) as (_ & sub & Hsub).
        apply denoted_resolve in Hd. subst t.
        eexists _, _. split; [exact L1|]. split; [inversion Hty; reflexivity|]. split; [exact Hsub|].
        split; [inversion Hst; reflexivity|reflexivity]. }
    destruct (V2 t S) as (ct & v & K1 & K2 & K3). exists ct, v. split; auto. split; auto. split; auto.
    destruct (proj1 V1 Hok t S) as (c' & v' & L1 & L2 & L3). rewrite K1 in L1. inversion L1; subst c'.
    replace v with v'; auto. clear - K2 L2.
    assert (X : forall t, endswith (lit ".xml") t = true -> endswith (lit ".json") t = true -> False).
    { intros u A B. apply (ends_exclusive _ _ _ A B); vm_compute; [discriminate|lia|lia]. }
    inversion K2; subst; inversion L2; subst; try congruence; exfalso; eauto.
  Qed.
End Checkers.
Print Assumptions C30_structure_first.
Print Assumptions C30_structure_crash.
Print Assumptions C30_verdict.
Print Assumptions C29_warnings.
Print Assumptions C29_spec_checked.
Example C30_ex : exists r r',
  check_aasx_data (fun _ _ => Val (new_result (lit "fine") WARNING)) (fun _ _ => Raise TypeError) dep_example = Val r /\ ok r = true
  /\ check_aasx_data (fun _ _ => Val (new_result (lit "bad") ERROR)) (fun _ _ => Raise TypeError) dep_example = Val r' /\ ok r' = false.
Proof. eexists _, _. split; [vm_compute; reflexivity|]. split; [reflexivity|]. split; [vm_compute; reflexivity|reflexivity]. Qed.
Example C29_spec_checked_ex : forall dir base ty tg, dir <> [] ->
  relation_in dep_example (dir ++ lit "_rels/" ++ base ++ lit ".rels") ty tg -> ~ denoted dir tg (lit "aasx/aasx-origin").
Proof.
  intros dir base ty tg Hd (c & root & e & H1 & H2 & H3 & H4 & H5 & H6 & H7) H8.
  apply denoted_resolve in H8. apply zopen_in in H1.
  cbn [dep_example In mk_types mk_rels mk_part] in H1.
  repeat (destruct H1 as [H1|H1]); try contradiction; inversion H1 as [[En Ec]]; clear H1; subst c; cbn [as_xml] in H2; try discriminate H2;
    inversion H2; subst root; cbn [x_children In] in H4; try contradiction; destruct H4 as [<-|[]];
    vm_compute in H7; inversion H7; subst tg; clear H7.
  - destruct dir as [|d dir]; [congruence|]. apply (f_equal (@List.length N)) in En. simpl in En.
    repeat (rewrite app_length in En; simpl in En). lia.
  - assert (E : dir = lit "aasx/"); [|subst dir; vm_compute in H8; discriminate].
    clear - En. change (lit "aasx/") with [97; 97; 115; 120; 47].
    do 5 (destruct dir as [|? dir]; [discriminate En|simpl in En; injection En as <- En]).
    destruct dir as [|? dir]; [reflexivity|exfalso]. simpl in En. injection En as <- En.
    apply (f_equal (fun l => existsb (N.eqb 95) l)) in En. rewrite !existsb_app in En. simpl in En.
    rewrite orb_true_r in En. discriminate.
Qed.

(** The origin is first reached through another relationship: its file is not checked although the package is ok. *)
Definition skipped_example : archive :=
  [ mk_types; mk_rels "_rels/.rels" [mk_rel "thumbnail" "/other/o"; mk_rel "http://admin-shell.io/aasx/relationships/aasx-origin" "/aasx/aasx-origin"];
    mk_part "other/o"; mk_rels "other/_rels/o.rels" [mk_rel "back" "/aasx/aasx-origin"];
    mk_part "aasx/aasx-origin";
    mk_rels "aasx/_rels/aasx-origin.rels" [mk_rel "http://admin-shell.io/aasx/relationships/aas-spec" "data.json"];
    mk_part "aasx/data.json" ].
Theorem C29_skipped_refuted : exists z r, 
  (forall jo xo, check_aasx_data jo xo z = Val r) /\ ok r = true
  /\ (exists tg, relation_in z (lit "_rels/.rels") (lit "http://admin-shell.io/aasx/relationships/aasx-origin") tg
        /\ denoted [] tg (lit "aasx/aasx-origin"))
  /\ (exists tg, relation_in z (lit "aasx/_rels/aasx-origin.rels") (lit "http://admin-shell.io/aasx/relationships/aas-spec") tg
        /\ denoted (lit "aasx/") tg (lit "aasx/data.json"))
  /\ exists_in z (lit "aasx/data.json").
Proof.
  exists skipped_example. eexists. split; [intros jo xo; vm_compute; reflexivity|]. split; [reflexivity|].
  assert (R : forall n ty tg l, zopen skipped_example n = Some (snd (mk_rels "" l)) -> In (mk_rel ty tg) l ->
     relation_in skipped_example n (lit ty) (lit tg)).
  { intros n ty tg l H1 H2. eexists _, _, _. split; [exact H1|]. split; [reflexivity|]. split; [reflexivity|].
    split; [exact H2|]. split; [reflexivity|]. split; reflexivity. }
  split; [|split].
  - exists (lit "/aasx/aasx-origin"). split.
    + eapply R; [vm_compute; reflexivity|right; left; reflexivity].
    + left. exists (lit "aasx/aasx-origin"). split; vm_compute; reflexivity.
  - exists (lit "data.json"). split.
    + eapply R; [vm_compute; reflexivity|left; reflexivity].
    + right. split; [discriminate|vm_compute; reflexivity].
  - eexists. do 6 right. left. reflexivity.
Qed.
Print Assumptions C29_skipped_refuted.

(** ** C31 *)
Theorem C31_unparsable : forall jo xo mt m,
  check_json_file jo (PBad m) mt = Val (Res (lit "Invalid JSON: " ++ m) ERROR [])
  /\ check_xml_file xo (PBad m) mt = Val (Res (lit "Invalid xml: " ++ m) ERROR [])
  /\ check_aasx_file jo xo (PBad m) = Val (Res (lit "Cannot read: " ++ m) ERROR []).
Proof. intros. repeat split. Qed.
Print Assumptions C31_unparsable.

(** ** C32 *)
Theorem C32_json_model_type : forall jo d mt, check_json_file jo (POk d) mt = jo d mt /\ check_json_data jo d mt = jo d mt.
Proof. intros. split; reflexivity. Qed.
Print Assumptions C32_json_model_type.
Theorem C32_xml_data_model_type : forall xo d mt, check_xml_data xo d mt = xo d mt.
Proof. reflexivity. Qed.
Print Assumptions C32_xml_data_model_type.
(** Files are always checked as an environment. *)
Theorem C32_xml_file_refuted : forall xo d mt, check_xml_file xo (POk d) mt = xo d (lit "Environment").
Proof. reflexivity. Qed.
Print Assumptions C32_xml_file_refuted.
Example C32_xml_file_ex : let xo := fun (_ : xml) mt => Val (new_result mt INFO) in
  check_xml_file xo (POk (El [] [] None [])) (lit "Submodel") <> xo (El [] [] None []) (lit "Submodel").
Proof. vm_compute. discriminate. Qed.
