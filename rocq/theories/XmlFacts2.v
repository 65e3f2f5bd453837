(** Documents that follow the XML schema are read as they should be. *)
From Coq Require Import PeanoNat Lia String List NArith Bool Permutation.
From Verif Require Import PyStr PyBase PyXml PyVal PyStrFacts AdapterModel MetaSpec MetaFacts ParseSpec ParseFacts XmlSpec XmlFacts.
Import ListNotations.
Local Open Scope list_scope.

Lemma expected_tag {V} (W1 W2 : view V) M n v c : w_tag W2 v = w_tag W1 v -> Expected W1 M n v c -> Expected W2 M n v c.
Proof. intros E [d I1 I2 I3|a d t I1 I2 I3 I4 I5 I6 I7]; [now apply Exp_concrete|]. apply (Exp_abstract _ _ _ _ _ a d t); auto. congruence. Qed.

Section Views.
  Variable V : Type.
  Variables W1 W2 : view V.
  Variable M : list gclass.
  Hypothesis text_le : forall v s, w_text W1 v = Some s -> w_text W2 v = Some s.
  Hypothesis flag_le : forall v b, w_flag W1 v = Some b -> exists b', w_flag W2 v = Some b'.
  Hypothesis items_le : forall v l, w_items W1 v = Some l -> w_items W2 v = Some l.
  Hypothesis members_le : forall v l, w_members W1 v = Some l -> w_members W2 v = Some l.
  Hypothesis tag_le : forall v t, w_tag W1 v = Some t -> w_tag W2 v = Some t.
  Lemma expected_le n v c : Expected W1 M n v c -> Expected W2 M n v c.
  Proof. intros [d I E A|a d t I E A T S J K]; [now apply Exp_concrete|]. apply (Exp_abstract _ _ _ _ _ a d t); auto. Qed.
  Lemma conforms_le g v : Conforms W1 M g v -> Conforms W2 M g v.
  Proof.
    induction 1 as [t v s E K|v s E|v b E|l v s E I|g v l E N F IH|n v c kvs E T Em R U F IH].
    - eapply C_text; eauto.
    - eapply C_plain; eauto.
    - destruct (flag_le _ _ E) as (b' & E'). eapply C_bool; eauto.
    - eapply C_enum; eauto.
    - eapply C_list; eauto.
    - eapply C_obj; eauto.
      + now apply expected_le.
      + intros X. apply tag_le. now apply T.
  Qed.
End Views.

(** the schema has few names that matter to the adapter *)
Definition content_name (n : str) : bool :=
  Bool.eqb (endswith (lit "dataSpecificationContent") (aas_ns ++ n)) (str_eqb n (lit "dataSpecificationContent")).
Definition variable_name (n : str) : bool :=
  match n with
  | [] => false
  | c :: r => Bool.eqb (str_eqb (upper_char c ++ r) (lit "OperationVariable")) (str_eqb n (lit "operationVariable"))
  end.
Lemma content_names n : In n schema_names ->
  endswith (lit "dataSpecificationContent") (aas_ns ++ n) = str_eqb n (lit "dataSpecificationContent").
Proof.
  intros I. assert (X : forallb content_name schema_names = true) by (vm_compute; reflexivity).
  apply (proj1 (forallb_forall _ _) X) in I. now apply eqb_prop in I.
Qed.
Lemma variable_names c r : In (c :: r) schema_names ->
  str_eqb (upper_char c ++ r) (lit "OperationVariable") = str_eqb (c :: r) (lit "operationVariable").
Proof.
  intros I. assert (X : forallb variable_name schema_names = true) by (vm_compute; reflexivity).
  apply (proj1 (forallb_forall _ _) X) in I. now apply eqb_prop in I.
Qed.
Lemma no_empty_name : ~ In [] schema_names.
Proof.
  intros I. assert (X : forallb variable_name schema_names = true) by (vm_compute; reflexivity).
  apply (proj1 (forallb_forall _ _) X) in I. discriminate I.
Qed.
Lemma in_schema_spec e : in_schema e = true -> exists n, x_tag e = aas_ns ++ n /\ In n schema_names /\ local_name e = Some n.
Proof.
  unfold in_schema. destruct (local_name e) as [n|] eqn:E; [|discriminate]. intros H. exists n. split; [now apply local_name_spec|].
  split; [|reflexivity]. exact (proj1 (str_in_spec _ _) H).
Qed.
Lemma schema_ns e : in_schema e = true -> in_ns e = true.
Proof. unfold in_schema, local_name. destruct (in_ns e); [reflexivity|discriminate]. Qed.
Lemma content_same e : in_schema e = true -> seen_content e = strict_content e.
Proof.
  intros H. destruct (in_schema_spec e H) as (n & Et & I & El). unfold seen_content, strict_content, named. rewrite Et, El, (content_names n I). reflexivity.
Qed.
Lemma skipn_tag n : skipn (length aas_ns) (aas_ns ++ n) = n.
Proof. rewrite skipn_app, skipn_all, Nat.sub_diag. reflexivity. Qed.
Lemma upper_lower c : is_lower c = true -> upper_char c = [upper_ascii c].
Proof.
  intros H. unfold upper_char. destruct (find _ upper_special) as [p|] eqn:F; [|reflexivity]. exfalso.
  apply find_some in F. destruct F as [I E]. apply N.eqb_eq in E.
  assert (X : forallb (fun p => negb (is_lower (fst p))) upper_special = true) by (vm_compute; reflexivity).
  apply (proj1 (forallb_forall _ _) X) in I. rewrite E, H in I. discriminate.
Qed.
Lemma member_same d c : in_schema d = true -> seen_member d c = strict_member d c.
Proof.
  intros H. destruct (in_schema_spec d H) as (n & Et & I & El). unfold seen_member, strict_member, seen_name, named. rewrite Et, skipn_tag, El.
  destruct n as [|a r]; [exfalso; exact (no_empty_name I)|]. rewrite (variable_names a r I). destruct (local_name c); reflexivity.
Qed.
Lemma distinct_spec l : distinct l = true <-> NoDup l.
Proof.
  induction l as [|x l IH]; simpl; [split; [constructor|reflexivity]|]. rewrite andb_true_iff, IH, negb_true_iff. split.
  - intros [A B]. constructor; [|exact B]. intros I. apply str_in_spec in I. congruence.
  - intros N. inversion N as [|? ? A B]; subst. split; [|exact B]. destruct (str_in x l) eqn:E; [|reflexivity]. apply str_in_spec in E. contradiction.
Qed.
Lemma assign_new {A} k (v : A) l : ~ In k (List.map fst l) -> assign k v l = l ++ [(k, v)].
Proof.
  induction l as [|[m x] l IH]; simpl; [reflexivity|]. intros N. destruct (str_eqb k m) eqn:E.
  - apply str_eqb_spec in E. subst. tauto.
  - rewrite IH; tauto.
Qed.
Lemma last_wins_nodup {A} (l : list (str * A)) : NoDup (List.map fst l) -> last_wins l = l.
Proof.
  unfold last_wins. assert (H : forall acc, NoDup (List.map fst (acc ++ l)) -> fold_left (fun o kv => assign (fst kv) (snd kv) o) l acc = acc ++ l).
  { induction l as [|[k x] l IH]; intros acc N; simpl; [now rewrite app_nil_r|].
    rewrite assign_new.
    - rewrite IH; rewrite <- app_assoc; [reflexivity|exact N].
    - rewrite map_app in N. simpl in N. apply NoDup_remove_2 in N. intros I. apply N, in_app_iff. now left. }
  intros N. now apply H.
Qed.

Lemma strict_members_seen e l : strict_members e = Some l -> seen_members e = Some l.
Proof.
  unfold strict_members, seen_members. destruct (in_schema e) eqn:S; [|discriminate]. rewrite (schema_ns e S). cbn [andb].
  destruct (blank (x_text e)); [|discriminate]. rewrite (content_same e S). destruct (strict_content e) as [d|]; [|discriminate].
  destruct (in_schema d) eqn:Sd; [|discriminate]. cbn [andb]. destruct (blank (x_text d)); [|discriminate].
  rewrite (map_ext _ _ (fun c => member_same d c Sd)). destruct (all_some _) as [ms|]; [|discriminate]. cbn [option_map].
  destruct (distinct _) eqn:D; [|discriminate]. intros [= <-]. f_equal. apply last_wins_nodup. now apply distinct_spec.
Qed.
Lemma strict_tag_seen e t : strict_tag e = Some t -> seen_tag e = Some t.
Proof.
  unfold strict_tag, seen_tag. destruct (in_schema e) eqn:S; [|discriminate]. rewrite (content_same e S).
  destruct (strict_content e) as [d|]; [|discriminate]. destruct (in_schema d) eqn:Sd; [|discriminate].
  destruct (in_schema_spec d Sd) as (n & Et & _ & En). unfold seen_name. rewrite Et, skipn_tag, En. destruct n as [|c r]; [discriminate|].
  destruct (is_lower c) eqn:L; [|discriminate]. now rewrite (upper_lower c L).
Qed.
Lemma strict_conforms g e : Conforms xml_view aas_v3_0_checked g e -> Conforms xml_seen aas_v3_0_checked g e.
Proof.
  apply conforms_le.
  - simpl. unfold seen_text. intros v s. destruct (in_schema v); [|discriminate]. destruct (x_children v); [auto|discriminate].
  - simpl. unfold seen_text. intros v s. destruct (in_schema v); [|discriminate]. destruct (x_children v); [|discriminate]. simpl. eauto.
  - simpl. intros v l. destruct (in_schema v && blank (x_text v)); [auto|discriminate].
  - exact strict_members_seen.
  - exact strict_tag_seen.
Qed.

(** ** The converse *)
Definition Regular (h : gtype) (w : xml) : Prop :=
  in_schema w = true /\
  match h with
  | GText _ | GPlain | GEnum _ => x_children w = []
  | GBool => x_children w = [] /\ xs_boolean (text_of w) <> None
  | GList _ => blank (x_text w) = true
  | GObj _ => strict_tag w = seen_tag w /\
      forall d, strict_content w = Some d -> in_schema d = true /\ blank (x_text d) = true /\ NoDup (List.map x_tag (x_children d))
  end.
Lemma strict_keys d l ms : all_some (List.map (strict_member d) l) = Some ms -> List.map x_tag l = List.map (fun kv => aas_ns ++ fst kv) ms.
Proof.
  revert ms. induction l as [|c l IH]; simpl; [intros ms [= <-]; reflexivity|]. intros ms.
  destruct (strict_member d c) as [[k x]|] eqn:E; [|discriminate]. destruct (all_some _) as [ms'|] eqn:F; [|discriminate].
  intros [= <-]. simpl. rewrite (IH ms' eq_refl). f_equal. apply local_name_spec. unfold strict_member in E.
  destruct (local_name c) as [k'|]; [|discriminate]. destruct (_ && _); [|congruence]. destruct (the_child c); [|discriminate]. simpl in E. congruence.
Qed.
Lemma regular_members w l : in_schema w = true ->
  (forall d, strict_content w = Some d -> in_schema d = true /\ blank (x_text d) = true /\ NoDup (List.map x_tag (x_children d))) ->
  seen_members w = Some l -> strict_members w = Some l.
Proof.
  intros S R. unfold seen_members, strict_members. rewrite S, (schema_ns w S). cbn [andb]. destruct (blank (x_text w)); [|discriminate].
  rewrite (content_same w S). destruct (strict_content w) as [d|] eqn:Ed; [|discriminate]. destruct (R d eq_refl) as (Sd & Bd & Nd).
  rewrite Sd, Bd. cbn [andb]. rewrite (map_ext _ _ (fun c => member_same d c Sd)). destruct (all_some _) as [ms|] eqn:E; [|discriminate].
  cbn [option_map]. assert (N : NoDup (List.map fst ms)).
  { rewrite (strict_keys d _ _ E), <- (map_map fst (fun k => aas_ns ++ k)) in Nd. now apply NoDup_map_inv in Nd. }
  rewrite (last_wins_nodup _ N), (proj2 (distinct_spec _) N). auto.
Qed.
Lemma regular_conforms g e : Conforms xml_seen aas_v3_0_checked g e ->
  (forall q h w, At xml_seen aas_v3_0_checked g e q h w -> Regular h w) -> Conforms xml_view aas_v3_0_checked g e.
Proof.
  induction 1 as [t v s E K|v s E|v b E|l v s E I|g v l E N F IH|n v c kvs E T Em R U F IH]; intros P;
    (assert (Rv : Regular _ v) by exact (P _ _ _ (At_here _ _ _ _ _))).
  - destruct Rv as [S C]. eapply C_text; [|exact K]. simpl in *. rewrite S, C. unfold seen_text in E. now rewrite C in E.
  - destruct Rv as [S C]. eapply C_plain. simpl in *. rewrite S, C. reflexivity.
  - destruct Rv as [S [C B]]. destruct (xs_boolean (text_of v)) as [b'|] eqn:X; [|congruence]. eapply C_bool. simpl. rewrite S, C. exact X.
  - destruct Rv as [S C]. eapply C_enum; [|exact I]. simpl in *. rewrite S, C. unfold seen_text in E. now rewrite C in E.
  - destruct Rv as [S B]. simpl in E. injection E as <-. eapply C_list; [simpl; rewrite S, B; reflexivity|exact N|].
    intros x Ix. apply IH; [exact Ix|]. intros q h w A. apply In_nth_error in Ix. destruct Ix as [i Ix].
    apply (P (SIdx i :: q)). eapply At_item; [reflexivity|exact Ix|exact A].
  - destruct Rv as [S [Tg C]]. assert (Em' : strict_members v = Some kvs) by now apply regular_members.
    eapply C_obj; [|intros X; specialize (T X); change (strict_tag v = Some (gc_name c)); rewrite Tg; exact T|exact Em'|exact R|exact U|].
    + exact (expected_tag xml_seen xml_view aas_v3_0_checked n v c Tg E).
    + intros a x Ia Lx. apply (IH a x Ia Lx). intros q h w A. apply (P (SKey (g_name a) :: q)). eapply At_member; [exact E|exact Em|exact Ia|exact Lx|exact A].
Qed.

(** ** Documents of the schema have proper names *)
Local Opaque aas_v3_0_checked schema_names.
Lemma schema_named e : in_schema e = true -> skipn (length aas_ns) (x_tag e) <> [].
Proof. intros S. destruct (in_schema_spec e S) as (n & Et & I & _). rewrite Et, skipn_tag. intros ->. exact (no_empty_name I). Qed.
Lemma all_some_pick {A B} (f : A -> option B) l ms x : all_some (List.map f l) = Some ms -> In x l -> exists y, f x = Some y /\ In y ms.
Proof.
  intros E I. assert (H : In (f x) (List.map f l)) by now apply in_map. destruct (f x) as [y|] eqn:Ef.
  - exists y. split; [reflexivity|]. now apply (all_some_in _ _ E).
  - exfalso. clear I Ef. revert ms E. induction (List.map f l) as [|[z|] r IH]; simpl in *; intros ms E; try contradiction; try discriminate.
    destruct (all_some r) as [r'|]; [|discriminate]. destruct H as [H|H]; [discriminate|]. eapply IH; eauto.
Qed.
Lemma conforms_named g e : Conforms xml_view aas_v3_0_checked g e -> well_named e.
Proof.
  induction 1 as [t v s E K|v s E|v b E|l v s E I|g v l E N F IH|n v c kvs E T Em R U F IH]; apply well_named_eq.
  - simpl in E. destruct (in_schema v) eqn:S; [|discriminate]. split; [now apply schema_named|]. destruct (x_children v); [constructor|discriminate].
  - simpl in E. destruct (in_schema v) eqn:S; [|discriminate]. split; [now apply schema_named|]. destruct (x_children v); [constructor|discriminate].
  - simpl in E. destruct (in_schema v) eqn:S; [|discriminate]. split; [now apply schema_named|]. destruct (x_children v); [constructor|discriminate].
  - simpl in E. destruct (in_schema v) eqn:S; [|discriminate]. split; [now apply schema_named|]. destruct (x_children v); [constructor|discriminate].
  - simpl in E. destruct (in_schema v) eqn:S; [|discriminate]. split; [now apply schema_named|]. destruct (blank (x_text v)); [|discriminate].
    simpl in E. injection E as <-. now apply Forall_forall.
  - assert (Ic : In c aas_v3_0_checked) by (destruct E; assumption). simpl in Em. unfold strict_members in Em.
    destruct (in_schema v) eqn:S; [|discriminate]. split; [now apply schema_named|]. destruct (blank (x_text v)); [|discriminate]. cbn [andb] in Em.
    destruct (strict_content v) as [d|] eqn:Ed; [|discriminate]. destruct (in_schema d) eqn:Sd; [|discriminate].
    destruct (blank (x_text d)); [|discriminate]. cbn [andb] in Em. destruct (all_some _) as [ms|] eqn:Ea; [|discriminate].
    destruct (distinct (List.map fst ms)) eqn:D; [|discriminate]. injection Em as ->. apply distinct_spec in D.
    assert (Hd : Forall well_named (x_children d)).
    { apply Forall_forall. intros x Ix. destruct (all_some_pick _ _ _ _ Ea Ix) as ([k y] & Ey & Iy).
      destruct (U k y Iy) as (a & Ia & <-). assert (W : well_named y) by (eapply IH; [exact Ia|]; now apply lookup_nodup).
      unfold strict_member in Ey. destruct (local_name x) as [k|] eqn:Ek; [|discriminate]. apply local_name_spec in Ek.
      destruct (_ && _); [|assert (x = y) by congruence; subst; exact W].
      unfold the_child in Ey. destruct (x_children x) as [|z [|z' r]] eqn:Ex; try discriminate. injection Ey as Ek' Ez. subst k z.
      apply well_named_eq. rewrite Ek, Ex, skipn_tag. split; [|constructor; [exact W|constructor]].
      intros X. assert (Isc : In (g_name a) schema_names); [|rewrite X in Isc; exact (no_empty_name Isc)].
      clear -Ic Ia. Local Transparent schema_names. unfold schema_names. apply in_concat.
      exists (lower_first (gc_name c) :: List.map g_name (gc_attrs c)).
      split; [exact (in_map (fun c => lower_first (gc_name c) :: List.map g_name (gc_attrs c)) _ _ Ic)|right; now apply in_map]. }
    unfold strict_content in Ed. destruct (named _ v); [|injection Ed as ->; exact Hd].
    unfold the_child in Ed. destruct (x_children v) as [|z [|z' r]]; try discriminate. injection Ed as ->.
    constructor; [|constructor]. apply well_named_eq. split; [now apply schema_named|exact Hd].
Qed.

(** ** Content *)
Definition Canonical (h : gtype) (w : xml) : Prop :=
  Regular h w /\ (h = GBool -> text_of w = lit "true" \/ text_of w = lit "false").
Lemma regular_carries g e x : Carries xml_seen aas_v3_0_checked g e x ->
  (forall q h w, At xml_seen aas_v3_0_checked g e q h w -> Canonical h w) -> Carries xml_view aas_v3_0_checked g e x.
Proof.
  induction 1 as [t v s k E|v s E|v b E|l v s k m E|g v l xs E L F IH|n v c k kvs attrs E Nm Em Nd A1 A2 A3 A4 IH]; intros P;
    (assert (Rv : Canonical _ v) by exact (P _ _ _ (At_here _ _ _ _ _))); destruct Rv as [Rv Bv].
  - destruct Rv as [S C]. apply Ca_text. simpl in *. rewrite S, C. unfold seen_text in E. now rewrite C in E.
  - destruct Rv as [S C]. apply Ca_plain. simpl in *. rewrite S, C. unfold seen_text in E. now rewrite C in E.
  - destruct Rv as [S [C B]]. apply Ca_bool. simpl in *. rewrite S, C. unfold seen_text in E. rewrite C in E. simpl in E. injection E as <-.
    destruct (Bv eq_refl) as [X|X]; rewrite X; reflexivity.
  - destruct Rv as [S C]. apply Ca_enum. simpl in *. rewrite S, C. unfold seen_text in E. now rewrite C in E.
  - destruct Rv as [S B]. simpl in E. injection E as <-. eapply Ca_list; [simpl; rewrite S, B; reflexivity|exact L|].
    intros i a y Ea Ey. apply (IH i a y Ea Ey). intros q h w At_. apply (P (SIdx i :: q)). eapply At_item; [reflexivity|exact Ea|exact At_].
  - destruct Rv as [S [Tg C]]. assert (Em' : strict_members v = Some kvs) by now apply regular_members.
    eapply Ca_obj with (c := c); [exact (expected_tag xml_seen xml_view aas_v3_0_checked n v c Tg E)|exact Nm|exact Em'|exact Nd|exact A1|exact A2|exact A3|].
    intros a y Ia Ly. apply (IH a y Ia Ly). intros q h w At_. apply (P (SKey (g_name a) :: q)). eapply At_member; [exact E|exact Em|exact Ia|exact Ly|exact At_].
Qed.
