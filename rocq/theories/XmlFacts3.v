(** JSON and XML serializations are read alike. *)
From Coq Require Import PeanoNat Lia String List NArith Bool Permutation.
From Verif Require Import PyStr PyBase PyXml PyVal PyStrFacts ReflectModel MetaModel AdapterModel ParseModel
  MetaSpec MetaFacts ConstraintModel CheckModel ParseSpec ParseFacts ParseFacts2 ParseSim ParseFacts3 XmlSpec XmlFacts XmlFacts2.
Import ListNotations.
Local Open Scope list_scope.

Notation M := aas_v3_0_checked.
Notation P := model_classes.
Notation T := model_table.

(** * The names of the meta model *)
Definition s_content := lit "dataSpecificationContent".
Definition s_opvar := lit "OperationVariable".
Definition abstractb (n : str) : bool := existsb (fun c => str_eqb (gc_name c) n && gc_abstract c) M.
Definition taggedb (n : str) : bool := existsb (fun c => str_eqb (gc_name c) n && gc_tagged c) M.
Definition upper_first (s : str) : str := match s with [] => [] | c :: r => upper_char c ++ r end.
Definition attr_fact (c : gclass) (x : gattr) : bool :=
  negb (str_eqb (upper_first (g_name x)) s_opvar) &&
  match g_type x with
  | GObj cn => if abstractb cn
               then str_eqb (g_name x) s_content || (str_eqb (gc_name c) s_opvar && str_eqb (g_name x) (lit "value"))
               else negb (taggedb cn) && negb (str_eqb cn s_opvar) && negb (str_eqb (g_name x) s_content)
                    && negb (str_eqb (gc_name c) s_opvar && str_eqb (g_name x) (lit "value"))
  | _ => negb (str_eqb (g_name x) s_content) && negb (str_eqb (gc_name c) s_opvar && str_eqb (g_name x) (lit "value"))
  end.
Lemma attr_facts : forallb (fun c => forallb (attr_fact c) (gc_attrs c)) M = true.
Proof. vm_compute. reflexivity. Qed.
Lemma attr_fact_ok c x : In c M -> In x (gc_attrs c) -> attr_fact c x = true.
Proof. intros I J. apply (proj1 (forallb_forall _ _) attr_facts) in I. exact (proj1 (forallb_forall _ _) I x J). Qed.
Definition class_fact (c : gclass) : bool :=
  str_eqb (upper_first (class_tag c)) (gc_name c) &&
  (gc_abstract c || negb (str_eqb (class_tag c) s_content)) &&
  forallb (fun n => negb (str_eqb (lower_first n) s_content)) (gc_subclasses c).
Lemma class_facts : forallb class_fact M = true.
Proof. vm_compute. reflexivity. Qed.
Lemma class_fact_ok c : In c M -> class_fact c = true.
Proof. exact (proj1 (forallb_forall _ _) class_facts c). Qed.

Lemma abstractb_spec n : abstractb n = true <-> abstract n.
Proof.
  unfold abstractb, abstract. rewrite existsb_exists. split; intros (c & I & H); exists c.
  - apply andb_true_iff in H. destruct H as [H1 H2]. apply str_eqb_spec in H1. exact (conj I (conj H1 H2)).
  - destruct H as [H1 H2]. apply conj; [exact I|]. rewrite H2, (proj2 (str_eqb_spec _ _) H1). reflexivity.
Qed.
Lemma taggedb_In n c : In c M -> gc_name c = n -> gc_tagged c = true -> taggedb n = true.
Proof. intros I E Tg. unfold taggedb. rewrite existsb_exists. exists c. apply conj; [exact I|]. rewrite Tg, (proj2 (str_eqb_spec _ _) E). reflexivity. Qed.

Lemma attr_not_variable c x : In c M -> In x (gc_attrs c) -> upper_first (g_name x) <> s_opvar.
Proof.
  intros I J. pose proof (attr_fact_ok c x I J) as H. unfold attr_fact in H. apply andb_true_iff in H. destruct H as [H _].
  apply negb_true_iff in H. clear -H. intros E. apply str_eqb_spec in E. congruence.
Qed.
Lemma attr_abstract c x cn : In c M -> In x (gc_attrs c) -> g_type x = GObj cn -> abstract cn ->
  g_name x = s_content \/ gc_name c = s_opvar /\ g_name x = lit "value".
Proof.
  intros I J E A. pose proof (attr_fact_ok c x I J) as H. unfold attr_fact in H. apply andb_true_iff in H. destruct H as [_ H].
  apply abstractb_spec in A. rewrite E, A in H. clear -H. apply orb_true_iff in H. destruct H as [H|H].
  - left. now apply str_eqb_spec.
  - right. apply andb_true_iff in H. destruct H as [H1 H2]. split; now apply str_eqb_spec.
Qed.
Lemma attr_plain c x : In c M -> In x (gc_attrs c) -> (forall cn, g_type x = GObj cn -> ~ abstract cn) ->
  g_name x <> s_content /\ ~ (gc_name c = s_opvar /\ g_name x = lit "value").
Proof.
  intros I J N. pose proof (attr_fact_ok c x I J) as H. unfold attr_fact in H. apply andb_true_iff in H. destruct H as [_ H].
  assert (K : negb (str_eqb (g_name x) s_content) = true /\ negb (str_eqb (gc_name c) s_opvar && str_eqb (g_name x) (lit "value")) = true).
  { destruct (g_type x) as [t| | |l|cn|g] eqn:E;
      [exact (proj1 (andb_true_iff _ _) H)|exact (proj1 (andb_true_iff _ _) H)|exact (proj1 (andb_true_iff _ _) H)
      |exact (proj1 (andb_true_iff _ _) H)| |exact (proj1 (andb_true_iff _ _) H)].
    specialize (N cn eq_refl). destruct (abstractb cn) eqn:A; [apply abstractb_spec in A; contradiction|].
    rewrite !andb_true_iff in H. clear -H. tauto. }
  clear -K. destruct K as [K1 K2]. split.
  - intros E. apply str_eqb_spec in E. now rewrite E in K1.
  - intros [E1 E2]. apply str_eqb_spec in E1. apply str_eqb_spec in E2. now rewrite E1, E2 in K2.
Qed.
Lemma attr_object c x cn : In c M -> In x (gc_attrs c) -> g_type x = GObj cn -> ~ abstract cn ->
  taggedb cn = false /\ cn <> s_opvar.
Proof.
  intros I J E N. pose proof (attr_fact_ok c x I J) as H. unfold attr_fact in H. apply andb_true_iff in H. destruct H as [_ H].
  rewrite E in H. destruct (abstractb cn) eqn:A; [apply abstractb_spec in A; contradiction|].
  rewrite !andb_true_iff, !negb_true_iff in H. clear -H. destruct H as [[[H1 H2] _] _]. split; [exact H1|].
  clear H1. intros ->. rewrite (proj2 (str_eqb_spec _ _) eq_refl) in H2. discriminate H2.
Qed.
Lemma class_upper c : In c M -> upper_first (class_tag c) = gc_name c.
Proof.
  intros I. apply class_fact_ok in I. unfold class_fact in I. rewrite !andb_true_iff in I. clear -I. destruct I as [[I _] _]. now apply str_eqb_spec.
Qed.
Lemma class_not_content cn v c : Expected json_view M cn v c -> class_tag c <> s_content.
Proof.
  intros [d I E A|a d t I E A Et S J K].
  - apply class_fact_ok in I. unfold class_fact in I. rewrite !andb_true_iff, A in I. clear -I. destruct I as [[_ I] _]. simpl in I.
    apply negb_true_iff in I. intros X. apply str_eqb_spec in X. congruence.
  - apply class_fact_ok in I. unfold class_fact in I. rewrite !andb_true_iff in I. destruct I as [_ I].
    apply (proj1 (forallb_forall _ _) I) in S. unfold class_tag. rewrite K. clear -S. apply negb_true_iff in S.
    intros X. apply str_eqb_spec in X. congruence.
Qed.
Lemma expected_in cn v c : Expected json_view M cn v c -> In c M.
Proof. intros [d I _ _|a d t _ _ _ _ _ I _]; exact I. Qed.
Lemma class_tag_schema c : In c M -> In (class_tag c) schema_names.
Proof.
  intros I. unfold schema_names. apply in_concat. exists (lower_first (gc_name c) :: List.map g_name (gc_attrs c)).
  apply conj; [|left; reflexivity]. exact (in_map (fun c => lower_first (gc_name c) :: List.map g_name (gc_attrs c)) _ _ I).
Qed.
Lemma attr_name_schema c x : In c M -> In x (gc_attrs c) -> In (g_name x) schema_names.
Proof.
  intros I J. unfold schema_names. apply in_concat. exists (lower_first (gc_name c) :: List.map g_name (gc_attrs c)).
  apply conj; [|right; exact (in_map g_name _ _ J)]. exact (in_map (fun c => lower_first (gc_name c) :: List.map g_name (gc_attrs c)) _ _ I).
Qed.

Local Opaque aas_v3_0_checked model_classes model_table schema_names.

(** * Elements as the adapter hands them over *)
Inductive Rep : gtype -> json -> xml -> Prop :=
| Rep_item cn v c e : Expected json_view M cn v c -> Serial (GObj cn) (class_tag c) v e -> Rep (GObj cn) v e
| Rep_content cn v c a t e : abstract cn -> blank t = true -> Expected json_view M cn v c -> Serial (GObj cn) (class_tag c) v e ->
    Rep (GObj cn) v (El (aas_ns ++ s_content) a t [e])
| Rep_attr c x v e : In c M -> In x (gc_attrs c) -> (forall cn, g_type x = GObj cn -> ~ abstract cn) ->
    Serial (g_type x) (g_name x) v e -> Rep (g_type x) v e
| Rep_other g n v e : (forall cn, g <> GObj cn) -> Serial g n v e -> Rep g v e.
Lemma item_rep g v e : SerialItem g v e -> Rep g v e.
Proof. intros [cn w c f X S|h n w f X I S]; [eapply Rep_item; eauto|eapply Rep_other; eauto]. Qed.

(** what is not an object *)
Lemma rep_flat g v e : Rep g v e -> (forall cn, g <> GObj cn) -> exists n, Serial g n v e.
Proof.
  intros [cn w c f X S|cn w c a t f A B X S|c x w f I J X S|h n w f X S] N; try (exfalso; eapply N; reflexivity); eauto.
Qed.

(** objects: the element with the members, and its name *)
Definition Body (cn : str) (n : str) (v : json) (e d : xml) : Prop :=
  seen_content e = Some d /\ in_ns e = true /\ blank (x_text e) = true /\ In n schema_names /\ Serial (GObj cn) n v d.
Lemma schema_content n a t l : In n schema_names -> n <> s_content -> seen_content (El (aas_ns ++ n) a t l) = Some (El (aas_ns ++ n) a t l).
Proof.
  intros I N. unfold seen_content. cbn [x_tag]. rewrite (content_names n I). destruct (str_eqb n (lit "dataSpecificationContent")) eqn:E; [|reflexivity].
  apply str_eqb_spec in E. contradiction.
Qed.
Lemma serial_shape cn n v e : Serial (GObj cn) n v e -> exists a t l kvs, e = El (aas_ns ++ n) a t l /\ v = JObj kvs /\ blank t = true.
Proof. intros H. inversion H; subst; [contradiction|]. eauto 10. Qed.
Lemma rep_body g cn v e : Rep g v e -> g = GObj cn -> exists n d, Body cn n v e d /\
  ((exists c, Expected json_view M cn v c /\ n = class_tag c) \/
   (exists c x, In c M /\ In x (gc_attrs c) /\ g_type x = GObj cn /\ g_name x = n /\ ~ abstract cn)).
Proof.
  intros [cn' w c f X S|cn' w c a t f A B X S|c x w f I J X S|h n w f X S] Eg.
  - injection Eg as ->. exists (class_tag c), f. split; [|left; exists c; split; [exact X|reflexivity]].
    destruct (serial_shape _ _ _ _ S) as (a & t & l & kvs & -> & _ & B).
    split; [apply schema_content; [exact (class_tag_schema c (expected_in _ _ _ X))|exact (class_not_content _ _ _ X)]|].
    split; [unfold in_ns; cbn [x_tag]; apply startswith_app|]. split; [exact B|].
    split; [exact (class_tag_schema c (expected_in _ _ _ X))|exact S].
  - injection Eg as ->. exists (class_tag c), f. split; [|left; exists c; split; [exact X|reflexivity]].
    split; [unfold seen_content; cbn [x_tag]|].
    { assert (E : endswith (lit "dataSpecificationContent") (aas_ns ++ s_content) = true) by (vm_compute; reflexivity). rewrite E. reflexivity. }
    split; [unfold in_ns; cbn [x_tag]; apply startswith_app|]. split; [exact B|].
    split; [exact (class_tag_schema c (expected_in _ _ _ X))|exact S].
  - rewrite Eg in S. specialize (X cn Eg). exists (g_name x), f. split.
    + destruct (serial_shape _ _ _ _ S) as (a & t & l & kvs & -> & _ & B).
      split; [apply schema_content; [exact (attr_name_schema c x I J)|]|].
      { apply (attr_plain c x I J). rewrite Eg. intros cn' E'. injection E' as <-. exact X. }
      split; [unfold in_ns; cbn [x_tag]; apply startswith_app|]. split; [exact B|]. split; [exact (attr_name_schema c x I J)|exact S].
    + right. exists c, x. exact (conj I (conj J (conj Eg (conj eq_refl X)))).
  - exfalso. exact (X cn Eg).
Qed.
Lemma body_name cn n v e d : Body cn n v e d -> seen_name d = Some (upper_first n).
Proof.
  intros (_ & _ & _ & I & S). destruct (serial_shape _ _ _ _ S) as (a & t & l & kvs & -> & _ & B). unfold seen_name. cbn [x_tag].
  rewrite skipn_tag. destruct n as [|c r]; [exfalso; exact (no_empty_name I)|reflexivity].
Qed.

(** * Members *)
Lemma body_class cn n v e d c :
  Body cn n v e d -> Expected json_view M cn v c ->
  ((exists c, Expected json_view M cn v c /\ n = class_tag c) \/
   (exists c x, In c M /\ In x (gc_attrs c) /\ g_type x = GObj cn /\ g_name x = n /\ ~ abstract cn)) ->
  (seen_name d = Some s_opvar <-> gc_name c = s_opvar).
Proof.
  intros B X H. rewrite (body_name _ _ _ _ _ B). destruct H as [(c' & X' & ->)|(c' & x & I & J & Et & <- & N)].
  - assert (c' = c) as -> by exact (expected_fun _ _ _ model_names _ _ _ _ X' X).
    rewrite (class_upper c (expected_in _ _ _ X)). split; congruence.
  - split.
    + intros E. exfalso. apply (attr_not_variable c' x I J). congruence.
    + intros E. exfalso. destruct (attr_object c' x cn I J Et N) as [_ N'].
      destruct X as [c I1 I2 I3|a c t I1 I2 I3 I4 I5 I6 I7]; [congruence|]. apply N. exists a. exact (conj I1 (conj I2 I3)).
Qed.
Definition s_value := lit "value".
Lemma member_rep c d k v e : In c M -> (seen_name d = Some s_opvar <-> gc_name c = s_opvar) -> seen_name d <> None ->
  SerialMember c (k, v) e -> exists y, seen_member d e = Some (k, y) /\
    exists x, In x (gc_attrs c) /\ g_name x = k /\ Rep (g_type x) v y.
Proof.
  intros Ic Op Nn S. remember (k, v) as kv eqn:Ekv. destruct S as [c x cn w a t f g I Et A B X S|c x w f I N S].
  - assert (g_name x = k /\ w = v) as [<- ->] by (split; congruence). unfold seen_member.
    rewrite (proj2 (local_name_spec (El (aas_ns ++ g_name x) a t [f]) (g_name x)) eq_refl). destruct (seen_name d) as [nd|]; [|congruence].
    assert (NV : s_content <> s_value) by (intros E; vm_compute in E; discriminate E).
    destruct (str_eqb nd (lit "OperationVariable") && str_eqb (g_name x) (lit "value")) eqn:E.
    + cbn [the_child x_children option_map]. eexists. split; [reflexivity|]. exists x. split; [exact I|]. split; [reflexivity|]. rewrite Et. eapply Rep_item; eauto.
    + eexists. split; [reflexivity|]. exists x. split; [exact I|]. split; [reflexivity|].
      destruct (attr_abstract c x cn Ic I Et A) as [En|[E1 E2]].
      * rewrite En, Et. eapply Rep_content; eauto.
      * exfalso. apply Op in E1. injection E1 as ->. rewrite E2 in E. vm_compute in E. discriminate E.
  - assert (g_name x = k /\ w = v) as [<- ->] by (split; congruence). unfold seen_member.
    assert (L : local_name f = Some (g_name x)).
    { apply local_name_spec. destruct S; reflexivity. }
    rewrite L. destruct (seen_name d) as [nd|]; [|congruence].
    destruct (str_eqb nd (lit "OperationVariable") && str_eqb (g_name x) (lit "value")) eqn:E.
    + exfalso. apply andb_true_iff in E. destruct E as [E1 E2]. apply str_eqb_spec in E1. apply str_eqb_spec in E2. subst nd.
      destruct (attr_plain c x Ic I N) as [_ Z]. apply Z. split; [now apply Op|exact E2].
    + eexists. split; [reflexivity|]. exists x. split; [exact I|]. split; [reflexivity|]. eapply Rep_attr; eauto.
Qed.
Definition MemberRep (c : gclass) (kv : str * json) (ky : str * xml) : Prop :=
  fst kv = fst ky /\ exists x, In x (gc_attrs c) /\ g_name x = fst kv /\ Rep (g_type x) (snd kv) (snd ky).
Lemma members_rep c d ms es : In c M -> (seen_name d = Some s_opvar <-> gc_name c = s_opvar) -> seen_name d <> None ->
  Forall2 (SerialMember c) ms es -> exists ys, all_some (List.map (seen_member d) es) = Some ys /\ Forall2 (MemberRep c) ms ys.
Proof.
  intros Ic Op Nn F. induction F as [|[k v] e ms es S F (ys & E & G)]; [exists []; split; [reflexivity|constructor]|].
  destruct (member_rep c d k v e Ic Op Nn S) as (y & Ey & X). cbn [List.map all_some]. rewrite Ey, E.
  exists ((k, y) :: ys). split; [reflexivity|]. constructor; [|exact G]. split; [reflexivity|exact X].
Qed.
Lemma forall2_keys {A B} (Q : str * A -> str * B -> Prop) l l' : (forall a b, Q a b -> fst a = fst b) -> Forall2 Q l l' ->
  List.map fst l = List.map fst l'.
Proof. intros H F. induction F as [|x y l l' X F IH]; simpl; [reflexivity|]. rewrite IH, (H _ _ X). reflexivity. Qed.
Lemma forall2_lookup {A B} (Q : str * A -> str * B -> Prop) l l' k : (forall a b, Q a b -> fst a = fst b) -> Forall2 Q l l' ->
  match lookup k l, lookup k l' with
  | Some x, Some y => Q (k, x) (k, y)
  | None, None => True
  | _, _ => False
  end.
Proof.
  intros H F. induction F as [|[k1 x] [k2 y] l l' X F IH]; simpl; [exact I|]. pose proof (H _ _ X) as E. simpl in E. subst k2.
  destruct (str_eqb k k1) eqn:E; [|exact IH]. apply str_eqb_spec in E. now subst.
Qed.
Lemma lookup_permutation {A} k (l l' : list (str * A)) : Permutation l l' -> NoDup (List.map fst l) -> lookup k l = lookup k l'.
Proof.
  intros Pm N. assert (N' : NoDup (List.map fst l')) by (eapply Permutation_NoDup; [apply Permutation_map; exact Pm|exact N]).
  destruct (lookup k l) as [x|] eqn:E.
  - symmetry. apply lookup_nodup; [exact N'|]. apply lookup_In in E. eapply Permutation_in; eauto.
  - symmetry. apply lookup_None. apply lookup_None in E. intros I. apply E. eapply Permutation_in; [|exact I].
    apply Permutation_map. now apply Permutation_sym.
Qed.
Lemma nodup_filter {A} (f : str * A -> bool) l : NoDup (List.map fst l) -> NoDup (List.map fst (filter f l)).
Proof.
  induction l as [|[k x] l IH]; simpl; [auto|]. intros N. inversion N as [|? ? N1 N2]; subst. destruct (f (k, x)); simpl; auto.
  constructor; auto. intros I. apply N1. apply in_map_iff in I. destruct I as ([k' y] & E & I). apply filter_In in I. simpl in E. subst k'.
  change k with (fst (k, y)). apply in_map, I.
Qed.

(** * The simulation *)
Section Sim.
  Variable show : json -> str.
  Definition R (i : nat) (v : json) (e : xml) : Prop := exists g, Fits P T i g /\ Rep g v e.

  Lemma find_subclass_none subs : find_subclass P T None subs = None.
  Proof.
    induction subs as [|i subs IH]; simpl; [reflexivity|]. destruct (nth_error T i) as [[k [| | | | | |c|c|c a s u|j e]]|]; exact IH.
  Qed.
  Lemma fits_class i cn k c attrs static subs : Fits P T i (GObj cn) -> nth_error T i = Some (k, RClass c attrs static subs) ->
    exists d, In d M /\ ClassFits P T i d /\ gc_name d = cn.
  Proof.
    intros F E. destruct (proj2 model_describes _ _ _ _ _ _ E) as (d & I & C). exists d. split; [exact I|]. split; [exact C|].
    inversion F as [| | | |i' k' c' at' st' su' n' E' N|]; subst. destruct (class_attrs _ _ _ _ C) as (k2 & d2 & at2 & st2 & su2 & gs & E2 & Nm & _).
    assert (d2 = c') by congruence. subst d2. exact Nm.
  Qed.
  Lemma selected_class i v c attrs cn : Fits P T i (GObj cn) -> Selected json (json_adapter show) P T i v c attrs ->
    exists j d k static subs, In d M /\ ClassFits P T j d /\ nth_error T j = Some (k, RClass c attrs static subs) /\
      Expected json_view M cn v d.
  Proof.
    intros F (k & c0 & attrs0 & static0 & subs & E & H). destruct (fits_class _ _ _ _ _ _ _ F E) as (d & I & C & N).
    destruct (class_attrs _ _ _ _ C) as (k2 & d2 & at2 & st2 & su2 & gs & E2 & Nm & Ab & Tg & Tn & Fa & Gs & St & Nd & Nd' & Su & Sn).
    rewrite E in E2. assert (k2 = k /\ d2 = c0 /\ at2 = attrs0 /\ st2 = static0 /\ su2 = subs) as (-> & -> & -> & -> & ->) by (repeat split; congruence).
    destruct H as [(A & -> & ->)|(A & m & static & Em & Ef)].
    - exists i, d, k, static0, subs. split; [exact I|]. split; [exact C|]. split; [exact E|]. apply Exp_concrete; [exact I|exact N|congruence].
    - destruct (mt_name m) as [n|] eqn:En; [|rewrite find_subclass_none in Ef; discriminate Ef].
      pose proof (find_subclass_ok P T n subs (fun _ _ => Logic.I)) as Fo. rewrite Ef in Fo. destruct Fo as (j & k' & su' & Ij & Ej & Nj).
      destruct (proj2 model_describes _ _ _ _ _ _ Ej) as (d' & I' & C'). exists j, d', k', static, su'.
      split; [exact I'|]. split; [exact C'|]. split; [exact Ej|].
      assert (In n (gc_subclasses d)) as Is by (apply Su; eauto 10).
      destruct (class_attrs _ _ _ _ C') as (k3 & d3 & at3 & st3 & su3 & gs3 & E3 & Nm3 & _).
      assert (d3 = c) by congruence. subst d3. apply (Exp_abstract _ _ _ _ _ d d' n); auto; try congruence.
      + apply (J_tag show). eauto.
      + rewrite Nm3, Nj. now apply Sn.
  Qed.

  Lemma fits_text i k t g : Fits P T i g -> nth_error T i = Some (k, t) ->
    (t = RString \/ (exists c, t = RSfv c) \/ exists c, t = REnum c) -> TextType g.
  Proof.
    intros F E H. destruct F; simpl; auto; exfalso; destruct H as [->|[[x ->]|[x ->]]]; congruence.
  Qed.

  Lemma type_ok cn v c e : Expected json_view M cn v c -> w_tag json_view v = Some (gc_name c) -> Rep (GObj cn) v e ->
    (abstract cn \/ gc_tagged c = true) ->
    same_res (fun m m' => mt_name m = mt_name m') (ad_model_type (json_adapter show) v) (ad_model_type xml_adapter e).
  Proof.
    intros X Tg Rp H. apply (J_tag show) in Tg. destruct Tg as (m & Em & En). rewrite Em.
    assert (K : w_tag xml_seen e = Some (gc_name c)).
    { destruct (rep_body _ cn _ _ Rp eq_refl) as (n & d & B & K). pose proof (body_name _ _ _ _ _ B) as Bn. destruct B as (Bc & _).
      simpl. unfold seen_tag. rewrite Bc, Bn. destruct K as [(c' & X' & ->)|(c' & x & I & J & Et & Ex & N)].
      - assert (c' = c) as -> by exact (expected_fun _ _ _ model_names _ _ _ _ X' X). f_equal. exact (class_upper c (expected_in _ _ _ X)).
      - exfalso. destruct H as [H|H]; [contradiction|]. destruct (attr_object c' x cn I J Et N) as [Tf _].
        destruct X as [c I1 I2 I3|a c t I1 I2 I3 I4 I5 I6 I7]; [|apply N; exists a; exact (conj I1 (conj I2 I3))].
        rewrite (taggedb_In cn c I1 I2 H) in Tf. discriminate Tf. }
    apply X_tag in K. destruct K as (m' & Em' & En'). rewrite Em'. simpl. congruence.
  Qed.

  Theorem serial_sim repr f1 f2 i p v e r1 r2 : json_depth v < f1 -> xml_depth e < f2 -> R i v e -> paths r1 = paths r2 ->
    same (parse json (json_adapter show) P T repr model_post_parse f1 i p v r1)
         (parse xml xml_adapter P T repr model_post_parse f2 i p e r2).
  Proof.
    apply (parse_sim json xml (json_adapter show) xml_adapter P T repr model_post_parse json_depth xml_depth).
    - intros b w l x. destruct w as [| | | | |k|]; simpl; try discriminate. destruct (Nat.eqb (length k) 0 && negb b); [discriminate|].
      intros [= ->] I. apply (list_max_map json_depth) in I. lia.
    - intros b w l x. simpl. unfold xml_list. destruct (x_children w) as [|c l'] eqn:E.
      + destruct b; [|discriminate]. intros [= <-] [].
      + intros [= <-] I. apply child_depth. now rewrite E.
    - intros w l k x H I. apply J_object in H. eapply J_members; eauto.
    - intros w l k x H I. apply X_object in H. eapply X_members; eauto.
    - (* texts *) intros i0 k t v1 v2 E H (g & F & Rp). pose proof (fits_text _ _ _ _ F E H) as Tt.
      destruct (rep_flat _ _ _ Rp) as (n & S). { intros cn ->. exact Tt. }
      destruct S as [g n s a t0 Tg Ht|n b a|g n l a t0 es B Fs|cn n kvs c a t0 ms es]; try contradiction.
      simpl. unfold xml_string. simpl. destruct Ht as [->|[-> ->]]; reflexivity.
    - intros i0 k v1 v2 E (g & F & Rp). assert (g = GBool) by (destruct F; try congruence). subst g.
      destruct (rep_flat _ _ _ Rp) as (n & S); [discriminate|]. inversion S as [g n' s a t0 Tg Ht|n' b a| |]; subst; [contradiction|].
      simpl. unfold xml_bool. simpl. destruct b; reflexivity.
    - intros i0 k j e0 v1 v2 E (g & F & Rp).
      assert (exists g', g = GList g' /\ Fits P T j g' /\ e0 = false) as (g' & -> & F' & ->).
      { destruct F as [| | | | |i' k' j' g' E' F']; try congruence. assert (j' = j /\ e0 = false) as [-> ->] by (split; congruence). eauto. }
      destruct (rep_flat _ _ _ Rp) as (n & S); [discriminate|]. inversion S as [g n' s a t0 Tg Ht| |g n' l a t0 es B Fs|]; subst; [contradiction|].
      simpl. unfold xml_list. simpl. destruct Fs as [|x y l es Hx Fs]; simpl; [exact I|].
      constructor; [exists g'; split; [exact F'|now apply item_rep]|]. clear -Fs F'. induction Fs as [|x y l es Hx Fs IH]; constructor; auto.
      exists g'. split; [exact F'|now apply item_rep].
    - intros i0 k c attrs static subs v1 v2 E Ab (g & F & Rp).
      assert (exists cn, g = GObj cn) as (cn & ->) by (destruct F; try congruence; eauto).
      destruct (fits_class _ _ _ _ _ _ _ F E) as (d & I & C & N).
      assert (Ad : gc_abstract d = true).
      { destruct (class_attrs _ _ _ _ C) as (k2 & d2 & at2 & st2 & su2 & gs & E2 & _ & Ab2 & _). congruence. }
      assert (abstract cn) as Ac by (exists d; auto).
      assert (exists x, Expected json_view M cn v1 x /\ w_tag json_view v1 = Some (gc_name x)) as (x & X & Tg).
      { assert (exists x, Expected json_view M cn v1 x) as (x & X).
        { destruct (rep_body _ cn _ _ Rp eq_refl) as (n & d' & B & [(c' & X' & _)|(c' & x & _ & _ & _ & _ & N')]); [eauto|contradiction]. }
        exists x. split; [exact X|]. destruct X as [x I1 I2 I3|a x t I1 I2 I3 I4 I5 I6 I7]; [|congruence].
        assert (x = d) by (apply (class_unique M model_names); auto; congruence). congruence. }
      eapply type_ok; eauto.
    - intros i0 v1 v2 c attrs Se Hr (g & F & Rp).
      assert (exists cn, g = GObj cn) as (cn & ->).
      { destruct Se as (k & c0 & a0 & s0 & su & E & _). destruct F; try congruence; eauto. }
      destruct (selected_class _ _ _ _ _ F Se) as (j & d & k & static & subs & I & C & E & X).
      destruct (class_attrs _ _ _ _ C) as (k2 & d2 & at2 & st2 & su2 & gs & E2 & Nm & Ab & Tg & Tn & _).
      assert (d2 = c) by congruence. subst d2.
      eapply type_ok; [exact X| |exact Rp|right; congruence].
      destruct (rep_body _ cn _ _ Rp eq_refl) as (n & d' & (_ & _ & _ & _ & S) & _).
      inversion S as [| | |cn' n' kvs c' a t ms es X' To]; subst; [contradiction|].
      assert (c' = d) as -> by exact (expected_fun _ _ _ model_names _ _ _ _ X' X). apply To. congruence.
    - intros i0 v1 v2 c attrs Se (g & F & Rp).
      assert (exists cn, g = GObj cn) as (cn & ->).
      { destruct Se as (k & c0 & a0 & s0 & su & E & _). destruct F; try congruence; eauto. }
      destruct (selected_class _ _ _ _ _ F Se) as (j & d & k & static & subs & Id & C & E & X).
      destruct (class_attrs _ _ _ _ C) as (k2 & d2 & at2 & st2 & su2 & gs & E2 & Nm & Ab & Tg & Tn & Fa & Gs & St & Nd & Nd' & _).
      assert (d2 = c /\ at2 = attrs) as [-> ->] by (split; congruence).
      destruct (rep_body _ cn _ _ Rp eq_refl) as (n & body & B & K). pose proof (body_class _ _ _ _ _ _ B X K) as Op.
      pose proof (body_name _ _ _ _ _ B) as Bn. destruct B as (Bc & Bns & Bb & Bi & S).
      inversion S as [| | |cn' n' kvs c' a t ms es X' To Nk Bt Pm Fm]; subst; [contradiction|].
      assert (c' = d) as -> by exact (expected_fun _ _ _ model_names _ _ _ _ X' X).
      assert (seen_name (El (aas_ns ++ n) a t es) <> None) as Nn by congruence.
      destruct (members_rep d _ ms es Id Op Nn Fm) as (ys & Ey & Fy).
      assert (Q : forall a b, MemberRep d a b -> fst a = fst b) by (intros ? ? [H _]; exact H).
      assert (Nms : NoDup (List.map fst ms)).
      { eapply Permutation_NoDup; [apply Permutation_map, Permutation_sym; exact Pm|]. now apply nodup_filter. }
      assert (Ox : ad_object xml_adapter v2 = AOk ys).
      { apply X_object. simpl. unfold seen_members. rewrite Bns, Bb, Bc. cbn [andb x_children]. rewrite Ey. cbn [option_map]. f_equal.
        apply last_wins_nodup. rewrite <- (forall2_keys _ _ _ Q Fy). exact Nms. }
      rewrite Ox. simpl. fold (members_of kvs). fold (members_of kvs) in Pm. split.
      + intros b Ib. destruct (Forall2_In_l _ _ _ _ Fa Ib) as (x & Ix & (En & _ & _ & Ft)).
        rewrite <- (lookup_permutation (json_name b) _ _ Pm Nms). pose proof (forall2_lookup _ _ _ (json_name b) Q Fy) as L.
        destruct (lookup (json_name b) ms) as [vx|], (lookup (json_name b) ys) as [ey|]; auto.
        destruct L as (_ & x' & Ix' & Ex' & Rx). simpl in Ex', Rx. exists (g_type x). split; [exact Ft|].
        assert (x' = x) as <-; [|exact Rx]. apply (nodup_inj g_name gs); auto; [now apply Gs|congruence].
      + assert (U : forall B (l : list (str * B)), (forall kv, In kv l -> exists x, In x (gc_attrs d) /\ g_name x = fst kv) -> unknowns attrs l = []).
        { intros B l H. unfold unknowns. assert (Names : List.map json_name attrs = List.map g_name gs).
          { clear -Fa. induction Fa as [|a0 x0 l0 l0' [E0 _] _ IH0]; simpl; congruence. }
          rewrite Names. clear -H Gs. induction l as [|kv l IH]; simpl; [reflexivity|].
          destruct (H kv (or_introl eq_refl)) as (x & Ix & Ex).
          assert (str_in (fst kv) (List.map g_name gs) = true) as ->.
          { apply str_in_spec. rewrite <- Ex. apply in_map. now apply Gs. }
          simpl. apply IH. intros y Iy. apply H. now right. }
        rewrite !U; [reflexivity| |].
        * intros kv Ik. destruct (Forall2_In_r _ _ _ _ Fy Ik) as (kv' & _ & (Ef & x & Ix & Ex & _)). exists x. split; [exact Ix|congruence].
        * intros kv Ik. apply (Permutation_in _ (Permutation_sym Pm)) in Ik.
          destruct (Forall2_In_l _ _ _ _ Fy Ik) as (kv' & _ & (Ef & x & Ix & Ex & _)). exists x. split; [exact Ix|exact Ex].
  Qed.
End Sim.

(** * Everything that conforms to the meta model can be serialized to XML *)
Lemma abstract_dec cn : abstract cn \/ ~ abstract cn.
Proof.
  destruct (abstractb cn) eqn:E; [left; now apply abstractb_spec|right]. intros A. apply abstractb_spec in A. congruence.
Qed.
Lemma conforms_expected cn v : Conforms json_view M (GObj cn) v -> exists c, Expected json_view M cn v c.
Proof. intros H. inversion H; subst. eauto. Qed.
Lemma serializable g v : Conforms json_view M g v -> Unique v -> forall n, exists e, Serial g n v e.
Proof.
  induction 1 as [t v s E K|v s E|v b E|l v s E I|g v l E N F IH|cn v c kvs E Tg Em R0 U F IH]; intros Uq n.
  - destruct v; try discriminate. eexists. apply Se_text with (t := Some s0) (a := []); [exact I|now left].
  - destruct v; try discriminate. eexists. apply Se_text with (t := Some s0) (a := []); [exact I|now left].
  - destruct v; try discriminate. eexists. apply Se_bool with (a := []).
  - destruct v; try discriminate. eexists. apply Se_text with (t := Some s0) (a := []); [exact Logic.I|now left].
  - destruct v; try discriminate. injection E as ->. inversion Uq as [v0 Hv|l0 Ul|]; subst; [destruct (Hv _ eq_refl)|].
    assert (X : exists es, Forall2 (SerialItem g) l es).
    { clear N Uq. induction l as [|x l IHl]; [exists []; constructor|].
      destruct IHl as (es & Fe); [intros y Iy; apply F; now right|intros y Iy; apply IH; now right|intros y Iy; apply Ul; now right|].
      assert (exists e, SerialItem g x e) as (e & Se).
      { pose proof (F x (or_introl eq_refl)) as Fx. pose proof (IH x (or_introl eq_refl) (Ul x (or_introl eq_refl))) as IHx.
        destruct g as [t| | |lt|cn|g']; try (destruct (IHx (lit "value")) as (e & Se); exists e; apply SeI_other with (n := lit "value");
          [discriminate|assert (Iv : str_in (lit "value") schema_names = true) by (vm_compute; reflexivity); exact (proj1 (str_in_spec _ _) Iv)|exact Se]).
        destruct (conforms_expected _ _ Fx) as (c & Ec). destruct (IHx (class_tag c)) as (e & Se). exists e. eapply SeI_obj; eauto. }
      exists (e :: es). now constructor. }
    destruct X as (es & Fe). eexists. apply Se_list with (a := []) (t := None); [reflexivity|exact Fe].
  - destruct v as [| | | | | |kvs0]; try discriminate. injection Em as Em. 
    assert (UU : NoDup (List.map fst kvs0) /\ forall k x, In (k, x) kvs0 -> Unique x).
    { clear -Uq. inversion Uq as [v0 _ Hv| |kvs1 Nk Ux]; subst; [destruct (Hv _ eq_refl)|auto]. }
    destruct UU as [Nk Ux].
    assert (Nm : NoDup (List.map fst kvs)) by (rewrite <- Em; now apply nodup_filter).
    assert (Sub : forall k x, In (k, x) kvs -> Unique x).
    { intros k x I. rewrite <- Em in I. apply filter_In in I. eapply Ux, I. }
    assert (X : forall ms, incl ms kvs -> exists es, Forall2 (SerialMember c) ms es).
    { induction ms as [|[k x] ms IHm]; intros Hi; [exists []; constructor|].
      destruct IHm as (es & Fe); [intros y Iy; apply Hi; now right|]. assert (Ik : In (k, x) kvs) by (apply Hi; now left).
      destruct (U k x Ik) as (a & Ia & <-). pose proof (lookup_nodup _ _ _ Nm Ik) as Lx.
      pose proof (F a x Ia Lx) as Fx. pose proof (IH a x Ia Lx (Sub _ _ Ik)) as IHx.
      assert (exists e, SerialMember c (g_name a, x) e) as (e & Se).
      { assert (D : (exists cn', g_type a = GObj cn' /\ abstract cn') \/ (forall cn', g_type a = GObj cn' -> ~ abstract cn')).
        { destruct (g_type a) as [t| | |lt|cn'|g'] eqn:Eg; try (right; intros; discriminate).
          destruct (abstract_dec cn') as [A|A]; [left; eauto|right]. intros cn2 [= <-]. exact A. }
        destruct D as [(cn' & Eg & A)|D].
        - rewrite Eg in Fx, IHx. destruct (conforms_expected _ _ Fx) as (d & Ed). destruct (IHx (class_tag d)) as (e & Se).
          exists (El (aas_ns ++ g_name a) [] None [e]). eapply SeM_abstract; eauto.
        - destruct (IHx (g_name a)) as (e & Se). exists e. now apply SeM_plain. }
      exists (e :: es). now constructor. }
    destruct (X kvs (incl_refl _)) as (es & Fe). eexists. apply Se_obj with (a := []) (t := None) (ms := kvs) (c := c) (es := es); auto.
    rewrite <- Em. apply Permutation_refl.
Qed.
