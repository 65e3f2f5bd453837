(** The meta model check of XML documents. *)
From Coq Require Import PeanoNat Lia String List NArith Bool Permutation.
From Verif Require Import PyStr PyBase PyXml PyVal PyStrFacts Regex DataTypesModel ReflectModel MetaModel AdapterModel ParseModel
  ResultModel MetaSpec MetaFacts ConstraintModel CheckModel ParseSpec ParseFacts ParseFacts2 ParseFacts3 ParseCrash XmlSpec.
Import ListNotations.
Local Open Scope list_scope.

Lemma blank_spec e : assert_no_text e = (if blank (x_text e) then AOk tt else ABad (lit "No inline text allowed")).
Proof.
  unfold assert_no_text, blank. destruct (x_text e) as [s|]; [|reflexivity].
  destruct (forallb is_space s) eqn:E.
  - assert (F : strip s = []) by (apply strip_nil, Forall_forall; apply forallb_forall; exact E). rewrite F. reflexivity.
  - destruct (strip s) eqn:F; [|reflexivity]. apply strip_nil in F. rewrite Forall_forall, <- forallb_forall in F. congruence.
Qed.
Lemma single_child_spec e c : single_child e = AOk c <-> the_child e = Some c.
Proof. unfold single_child, the_child. destruct (x_children e) as [|x [|y l]]; split; congruence. Qed.
Lemma single_child_none e : the_child e = None -> exists m, single_child e = ABad m.
Proof. unfold single_child, the_child. destruct (x_children e) as [|x [|y l]]; try discriminate; eauto. Qed.
Lemma content_spec e c : content_of e = AOk c <-> seen_content e = Some c.
Proof.
  unfold content_of, seen_content, is_content. destruct (endswith _ _); [apply single_child_spec|]. split; congruence.
Qed.
Lemma tag_spec e n : tag_model_type e = AOk n <-> seen_name e = Some n.
Proof.
  unfold tag_model_type, seen_name, local_tag. change xml_ns with aas_ns.
  destruct (skipn (length aas_ns) (x_tag e)) as [|c r]; [split; discriminate|]. split; intros H; injection H as <-; reflexivity.
Qed.
Lemma type_name_spec e n : xml_model_type_name e = AOk n <-> seen_tag e = Some n.
Proof.
  unfold xml_model_type_name, seen_tag. destruct (seen_content e) as [d|] eqn:E.
  - apply content_spec in E. rewrite E. cbn [abind]. apply tag_spec.
  - destruct (content_of e) as [d|m|x] eqn:F; cbn [abind].
    + apply content_spec in F. congruence.
    + split; discriminate.
    + split; discriminate.
Qed.
Lemma local_name_spec e k : local_name e = Some k <-> x_tag e = aas_ns ++ k.
Proof.
  unfold local_name, in_ns. destruct (startswith aas_ns (x_tag e)) eqn:S.
  - apply startswith_spec in S. destruct S as [t S]. rewrite S, skipn_app, skipn_all, Nat.sub_diag. cbn [skipn app].
    split; [intros E; injection E as <-; reflexivity|]. intros E. apply app_inv_head in E. now rewrite E.
  - split; [discriminate|]. intros E. rewrite E, startswith_app in S. discriminate.
Qed.

Lemma members_spec e d : seen_content e = Some d -> forall l acc kvs,
  xml_members e l acc = AOk kvs <->
  exists ms, all_some (List.map (seen_member d) l) = Some ms /\ kvs = fold_left (fun o kv => assign (fst kv) (snd kv) o) ms acc.
Proof.
  intros Ed. induction l as [|c l IH]; intros acc kvs.
  - simpl. split; [intros [= <-]; eauto|]. intros (ms & [= <-] & ->). reflexivity.
  - cbn [xml_members List.map all_some]. unfold seen_member at 1. unfold local_name, in_ns, local_tag. change xml_ns with aas_ns.
    destruct (startswith aas_ns (x_tag c)); cbn [negb]; [|split; [discriminate|intros (ms & X & _); discriminate]].
    assert (Et : forall n, xml_model_type_name e = AOk n <-> seen_name d = Some n).
    { intros n. rewrite type_name_spec. unfold seen_tag. now rewrite Ed. }
    destruct (seen_name d) as [n|] eqn:En.
    + rewrite (proj2 (Et n) eq_refl). cbn [abind]. set (k := skipn (length aas_ns) (x_tag c)).
      destruct (str_eqb n (lit "OperationVariable") && str_eqb k (lit "value")).
      * destruct (the_child c) as [x|] eqn:Ec; cbn [option_map all_some].
        -- apply single_child_spec in Ec. rewrite Ec. cbn [abind]. rewrite IH. split.
           ++ intros (ms & -> & ->). exists ((k, x) :: ms). split; reflexivity.
           ++ intros (ms & X & ->). destruct (all_some _) as [ms'|]; [|discriminate]. injection X as <-. exists ms'. split; reflexivity.
        -- destruct (single_child_none c Ec) as (m & ->). cbn [abind]. split; [discriminate|intros (ms & X & _); discriminate].
      * cbn [option_map all_some]. rewrite IH. split.
        -- intros (ms & -> & ->). exists ((k, c) :: ms). split; reflexivity.
        -- intros (ms & X & ->). destruct (all_some _) as [ms'|]; [|discriminate]. injection X as <-. exists ms'. split; reflexivity.
    + split; [|intros (ms & X & _); discriminate]. destruct (xml_model_type_name e) as [n|m|x]; cbn [abind]; try discriminate.
      intros _. destruct (Et n) as [Et' _]. discriminate (Et' eq_refl).
Qed.

Lemma X_string e s : ad_string xml_adapter e = AOk s <-> w_text xml_seen e = Some s.
Proof.
  simpl. unfold xml_string, assert_no_children, seen_text, text_of. destruct (x_children e) as [|[t a x [|y l]] r]; simpl; split; congruence.
Qed.
Lemma X_bool e b : ad_bool xml_adapter e = AOk b <-> w_flag xml_seen e = Some b.
Proof.
  simpl. unfold xml_bool, assert_no_children, seen_text, text_of.
  destruct (x_children e) as [|[t a x [|y l]] r]; simpl; try (split; congruence); destruct (x_text e); simpl; split; congruence.
Qed.
Lemma X_list e l : ad_list xml_adapter false e = AOk l <-> w_items xml_seen e = Some l /\ l <> [].
Proof.
  simpl. unfold xml_list. destruct (x_children e) as [|x r]; split; try discriminate; try congruence; try (intros []; congruence).
  intros [= <-]. split; congruence.
Qed.
Lemma X_object e kvs : ad_object xml_adapter e = AOk kvs <-> w_members xml_seen e = Some kvs.
Proof.
  simpl. unfold xml_object, seen_members, in_ns. change xml_ns with aas_ns. rewrite blank_spec.
  destruct (startswith aas_ns (x_tag e)); cbn [negb andb]; [|split; discriminate].
  destruct (blank (x_text e)); cbn [abind]; [|split; discriminate].
  destruct (seen_content e) as [d|] eqn:Ed.
  - rewrite (proj2 (content_spec e d) Ed). cbn [abind]. rewrite (members_spec e d Ed).
    destruct (all_some _) as [ms|]; cbn [option_map].
    + split; [intros (ms' & [= <-] & ->); reflexivity|]. intros [= <-]. eauto.
    + split; [intros (ms' & X & _); discriminate|discriminate].
  - destruct (content_of e) as [d|m|x] eqn:F; cbn [abind]; try (split; discriminate). apply content_spec in F. congruence.
Qed.
Lemma X_tag e t : (exists m, ad_model_type xml_adapter e = AOk m /\ mt_name m = Some t) <-> w_tag xml_seen e = Some t.
Proof.
  change (w_tag xml_seen e) with (seen_tag e). rewrite <- type_name_spec. simpl. unfold xml_model_type.
  destruct (xml_model_type_name e) as [s|m|x]; cbn [abind]; split.
  - intros (m & [= <-] & E). simpl in E. congruence.
  - intros [= ->]. eexists. split; [reflexivity|reflexivity].
  - intros (m' & E & _). discriminate.
  - discriminate.
  - intros (m' & E & _). discriminate.
  - discriminate.
Qed.

(** ** Depth *)
Lemma child_depth e c : In c (x_children e) -> xml_depth c < xml_depth e.
Proof. destruct e as [t a x l]. simpl. intros I. apply (list_max_map xml_depth) in I. lia. Qed.
Lemma the_child_in e c : the_child e = Some c -> In c (x_children e).
Proof. unfold the_child. destruct (x_children e) as [|x [|y l]]; try discriminate. intros [= ->]. now left. Qed.
Lemma content_in e d : seen_content e = Some d -> d = e \/ In d (x_children e).
Proof. unfold seen_content. destruct (endswith _ _); [intros H; right; now apply the_child_in|intros [= ->]; now left]. Qed.
Lemma all_some_in {A} (l : list (option A)) r : all_some l = Some r -> forall x, In x r <-> In (Some x) l.
Proof.
  revert r. induction l as [|[x|] l IH]; simpl; [intros r [= <-]; intros x; split; intros []| |discriminate].
  intros r. destruct (all_some l) as [r'|]; [|discriminate]. intros [= <-] y. simpl. rewrite (IH r' eq_refl y). split; intros [E|I]; auto; left; congruence.
Qed.
Lemma fold_assign_in {A} (l : list (str * A)) acc k x : In (k, x) (fold_left (fun o kv => assign (fst kv) (snd kv) o) l acc) ->
  In (k, x) l \/ In (k, x) acc.
Proof.
  revert acc. induction l as [|[k' y] l IH]; intros acc; simpl; [auto|]. intros I. apply IH in I. destruct I as [I|I]; [auto|].
  assert (J : (k = k' /\ x = y) \/ In (k, x) acc).
  { clear -I. induction acc as [|[m z] acc IH]; simpl in *; [destruct I as [E|[]]; left; split; congruence|].
    destruct (str_eqb k' m) eqn:E; simpl in I.
    - destruct I as [X|X]; [|auto]. apply str_eqb_spec in E. left. split; congruence.
    - destruct I as [X|X]; [auto|]. destruct (IH X) as [H|H]; auto. }
  destruct J as [[-> ->]|J]; auto.
Qed.
(** a member is a child, or the child of a child *)
Definition descends (e x : xml) : Prop := exists d, (d = e \/ In d (x_children e)) /\ exists c, In c (x_children d) /\ (x = c \/ In x (x_children c)).
Lemma member_descends e kvs k x : seen_members e = Some kvs -> In (k, x) kvs -> descends e x.
Proof.
  unfold seen_members. destruct (in_ns e && blank (x_text e)); [|discriminate]. destruct (seen_content e) as [d|] eqn:Ed; [|discriminate].
  destruct (all_some _) as [ms|] eqn:Ea; [|discriminate]. cbn [option_map]. intros [= <-] I. apply fold_assign_in in I. destruct I as [I|[]].
  apply (all_some_in _ _ Ea) in I. apply in_map_iff in I. destruct I as (c & Ec & Ic). exists d. split; [now apply content_in|].
  exists c. split; [exact Ic|]. unfold seen_member in Ec. destruct (local_name c) as [k'|]; [|discriminate]. destruct (seen_name d) as [n|]; [|discriminate].
  destruct (_ && _); [|left; congruence]. destruct (the_child c) as [y|] eqn:Ey; [|discriminate]. cbn [option_map] in Ec.
  assert (x = y) by congruence. subst y. right. now apply the_child_in.
Qed.
Lemma X_items e l x : w_items xml_seen e = Some l -> In x l -> xml_depth x < xml_depth e.
Proof. simpl. intros [= <-]. apply child_depth. Qed.
Lemma X_members e kvs k x : w_members xml_seen e = Some kvs -> In (k, x) kvs -> xml_depth x < xml_depth e.
Proof.
  intros H I. destruct (member_descends _ _ _ _ H I) as (d & Hd & c & Hc & Hx).
  apply child_depth in Hc. assert (xml_depth d <= xml_depth e) by (destruct Hd as [->|Hd]; [lia|apply child_depth in Hd; lia]).
  destruct Hx as [->|Hx]; [lia|]. apply child_depth in Hx. lia.
Qed.

(** ** Names *)
Lemma well_named_eq e : well_named e <-> skipn (length aas_ns) (x_tag e) <> [] /\ Forall well_named (x_children e).
Proof.
  destruct e as [t a x l]. cbn [well_named x_tag x_children].
  assert (H : (fix go l := match l with [] => True | x :: r => well_named x /\ go r end) l <-> Forall well_named l).
  { induction l as [|c l IH]; [split; constructor|]. rewrite Forall_cons_iff, <- IH. reflexivity. }
  now rewrite H.
Qed.
Lemma well_named_child e c : well_named e -> In c (x_children e) -> well_named c.
Proof. intros W. apply well_named_eq in W. destruct W as [_ W]. rewrite Forall_forall in W. apply W. Qed.
Lemma well_named_member e kvs k x : well_named e -> w_members xml_seen e = Some kvs -> In (k, x) kvs -> well_named x.
Proof.
  intros W H I. destruct (member_descends _ _ _ _ H I) as (d & Hd & c & Hc & Hx).
  assert (Wd : well_named d) by (destruct Hd as [->|Hd]; [exact W|exact (well_named_child _ _ W Hd)]).
  assert (Wc : well_named c) by exact (well_named_child _ _ Wd Hc).
  destruct Hx as [->|Hx]; [exact Wc|exact (well_named_child _ _ Wc Hx)].
Qed.
Lemma well_named_type e x : well_named e -> xml_model_type_name e <> ACrash x.
Proof.
  intros W. unfold xml_model_type_name. destruct (content_of e) as [d|m|y] eqn:E; cbn [abind].
  - assert (Wd : well_named d).
    { apply content_spec, content_in in E. destruct E as [->|E]; [exact W|exact (well_named_child _ _ W E)]. }
    apply well_named_eq in Wd. destruct Wd as [Wd _]. unfold tag_model_type, local_tag. change xml_ns with aas_ns.
    destruct (skipn (length aas_ns) (x_tag d)); [contradiction|discriminate].
  - discriminate.
  - unfold content_of, single_child in E. destruct (is_content e); [|discriminate]. destruct (x_children e) as [|c [|c' l]]; discriminate.
Qed.
Lemma xml_members_crash e l acc x : well_named e -> xml_members e l acc <> ACrash x.
Proof.
  intros W. revert acc. induction l as [|c l IH]; intros acc; cbn [xml_members]; [discriminate|].
  destruct (negb _); [discriminate|]. destruct (xml_model_type_name e) as [n|m|y] eqn:E; cbn [abind].
  - destruct (_ && _); [|apply IH]. unfold single_child. destruct (x_children c) as [|z [|z' l']]; cbn [abind]; try discriminate. apply IH.
  - discriminate.
  - exfalso. exact (well_named_type e y W E).
Qed.
Lemma xml_crash : (forall v e, well_named v -> ad_string xml_adapter v <> ACrash e) /\
  (forall v e, well_named v -> ad_bool xml_adapter v <> ACrash e) /\ (forall v e, well_named v -> ad_list xml_adapter false v <> ACrash e) /\
  (forall v e, well_named v -> ad_object xml_adapter v <> ACrash e) /\ (forall v e, well_named v -> ad_model_type xml_adapter v <> ACrash e).
Proof.
  assert (A : forall v e, assert_no_children v <> ACrash e).
  { intros v e. unfold assert_no_children. destruct (x_children v) as [|c l]; [discriminate|]. destruct (x_children c); discriminate. }
  repeat apply conj; intros v e W; simpl.
  - unfold xml_string. specialize (A v e). destruct (assert_no_children v); cbn [abind]; try discriminate. congruence.
  - unfold xml_bool. specialize (A v e). destruct (assert_no_children v); cbn [abind]; try discriminate. congruence.
  - unfold xml_list. destruct (x_children v); discriminate.
  - unfold xml_object. destruct (negb _); [discriminate|]. rewrite blank_spec. destruct (blank _); cbn [abind]; [|discriminate].
    destruct (content_of v) as [d|m|y] eqn:E; cbn [abind]; [now apply xml_members_crash|discriminate|].
    unfold content_of, single_child in E. destruct (is_content v); [|discriminate]. destruct (x_children v) as [|c [|c' l]]; discriminate.
  - unfold xml_model_type. destruct (xml_model_type_name v) as [n|m|y] eqn:E; cbn [abind]; try discriminate.
    exfalso. exact (well_named_type v y W E).
Qed.

Theorem xml_correct repr f i g p e r : Fits model_classes model_table i g -> xml_depth e < f -> well_named e ->
  Correct xml aas_v3_0_checked xml_seen g p e r (parse xml xml_adapter model_classes model_table repr model_post_parse f i p e r).
Proof.
  intros F D W. destruct xml_crash as (K1 & K2 & K3 & K4 & K5).
  eapply (parse_correct xml xml_adapter model_classes model_table aas_v3_0_checked repr model_post_parse xml_seen X_string X_bool X_list X_object X_tag
            xml_depth X_items X_members well_named); auto using model_describes, model_names.
  - intros v l x Wv E I. simpl in E. injection E as <-. exact (well_named_child _ _ Wv I).
  - exact well_named_member.
  - exact table_built.
  - exact (model_post_ok xml xml_seen).
Qed.

(** ** Documents with arbitrary names *)
Lemma xml_crash_index : (forall v e, ad_object xml_adapter v = ACrash e -> e = IndexError) /\
  (forall b v e, ad_list xml_adapter b v = ACrash e -> e = IndexError) /\ (forall v e, ad_string xml_adapter v = ACrash e -> e = IndexError) /\
  (forall v e, ad_bool xml_adapter v = ACrash e -> e = IndexError) /\ (forall v e, ad_model_type xml_adapter v = ACrash e -> e = IndexError).
Proof.
  assert (A : forall v e, assert_no_children v <> ACrash e).
  { intros v e. unfold assert_no_children. destruct (x_children v) as [|c l]; [discriminate|]. destruct (x_children c); discriminate. }
  assert (S : forall v e, single_child v <> ACrash e).
  { intros v e. unfold single_child. destruct (x_children v) as [|c [|c' l]]; discriminate. }
  assert (C : forall v e, content_of v <> ACrash e).
  { intros v e. unfold content_of. destruct (is_content v); [apply S|discriminate]. }
  assert (T : forall v e, xml_model_type_name v = ACrash e -> e = IndexError).
  { intros v e. unfold xml_model_type_name. destruct (content_of v) as [d|m|y] eqn:E; cbn [abind]; [|discriminate|destruct (C v y E)].
    unfold tag_model_type. destruct (local_tag d); congruence. }
  assert (L : forall v l acc e, xml_members v l acc = ACrash e -> e = IndexError).
  { intros v l. induction l as [|c l IH]; intros acc e; cbn [xml_members]; [discriminate|]. destruct (negb _); [discriminate|].
    destruct (xml_model_type_name v) as [n|m|y] eqn:E; cbn [abind]; [|discriminate|intros [= <-]; eauto].
    destruct (_ && _); [|apply IH]. destruct (single_child c) as [n'|m|y] eqn:E'; cbn [abind]; [apply IH|discriminate|destruct (S c y E')]. }
  repeat apply conj.
  - intros v e. simpl. unfold xml_object. destruct (negb _); [discriminate|]. rewrite blank_spec. destruct (blank _); cbn [abind]; [|discriminate].
    destruct (content_of v) as [d|m|y] eqn:E; cbn [abind]; [apply L|discriminate|destruct (C v y E)].
  - intros b v e. simpl. unfold xml_list. destruct (x_children v); [destruct b|]; discriminate.
  - intros v e. simpl. unfold xml_string. destruct (assert_no_children v) eqn:E; cbn [abind]; try discriminate. destruct (A v e0 E).
  - intros v e. simpl. unfold xml_bool. destruct (assert_no_children v) eqn:E; cbn [abind]; try discriminate. destruct (A v e0 E).
  - intros v e. simpl. unfold xml_model_type. destruct (xml_model_type_name v) as [n|m|y] eqn:E; cbn [abind]; try discriminate.
    intros [= <-]. eauto.
Qed.
Lemma masked_correct repr f i g p e r : Fits model_classes model_table i g -> xml_depth e < f ->
  Correct xml aas_v3_0_checked xml_seen g p e r (parse xml (masked xml_adapter) model_classes model_table repr model_post_parse f i p e r).
Proof.
  intros F D.
  eapply (parse_correct xml (masked xml_adapter) model_classes model_table aas_v3_0_checked repr model_post_parse xml_seen) with (Good := fun _ => True) (depth := xml_depth);
    auto using model_describes, model_names.
  - intros v s. rewrite <- X_string. apply mask_ok.
  - intros v s. rewrite <- X_bool. apply mask_ok.
  - intros v l. rewrite <- X_list. apply mask_ok.
  - intros v l. rewrite <- X_object. apply mask_ok.
  - intros v t. rewrite <- X_tag. split; intros (m & H & E); exists m; (split; [|exact E]); apply mask_ok; exact H.
  - exact X_items.
  - exact X_members.
  - intros v y _. apply mask_crash.
  - intros v y _. apply mask_crash.
  - intros v y _. apply mask_crash.
  - intros v y _. apply mask_crash.
  - intros v y _. apply mask_crash.
  - exact table_built.
  - exact (model_post_ok xml xml_seen).
Qed.
(** An IndexError is the only exception, and documents that conform are read without. *)
Theorem xml_any repr f i g p e r : Fits model_classes model_table i g -> xml_depth e < f ->
  let o := parse xml xml_adapter model_classes model_table repr model_post_parse f i p e r in
  Correct xml aas_v3_0_checked xml_seen g p e r o \/ (o = Raise IndexError /\ ~ Conforms xml_seen aas_v3_0_checked g e).
Proof.
  intros F D. destruct xml_crash_index as (C1 & C2 & C3 & C4 & C5). pose proof (masked_correct repr f i g p e r F D) as C.
  destruct (parse_masks xml xml_adapter model_classes model_table repr model_post_parse IndexError C1 C2 C3 C4 C5 f i p e r) as [E|[E R]].
  - left. simpl. rewrite E. exact C.
  - right. split; [exact E|]. destruct C as (x & fs & Ex & H & _). destruct (R x _ Ex) as (a & s & Es). intros N. apply H in N. subst fs.
    rewrite app_nil_r in Es. apply (f_equal (@length _)) in Es. rewrite app_length in Es. simpl in Es. lia.
Qed.
