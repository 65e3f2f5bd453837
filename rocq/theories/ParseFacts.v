(** The parser accepts exactly the documents that conform to the meta model. *)
From Coq Require Import PeanoNat String List NArith Bool Lia Permutation.
From Verif Require Import PyStr PyStrFacts PyBase PyVal ReflectModel AdapterModel ParseModel MetaSpec MetaFacts ParseSpec.
Import ListNotations.
Local Open Scope list_scope.

Lemma lookup_In {A} k (kvs : list (str * A)) x : lookup k kvs = Some x -> In (k, x) kvs.
Proof.
  induction kvs as [|[k' y] r IH]; simpl; [discriminate|]. destruct (str_eqb k k') eqn:E.
  - intros [= ->]. apply str_eqb_spec in E. subst. now left.
  - auto.
Qed.
Lemma lookup_None {A} k (kvs : list (str * A)) : lookup k kvs = None <-> ~ In k (List.map fst kvs).
Proof.
  induction kvs as [|[k' y] r IH]; simpl; [tauto|]. destruct (str_eqb k k') eqn:E.
  - apply str_eqb_spec in E. subst. split; [discriminate|tauto].
  - rewrite IH. split; intros H; [|tauto]. intros [->|I]; [|tauto]. rewrite (proj2 (str_eqb_spec k k) eq_refl) in E. discriminate.
Qed.
Lemma lookup_nodup {A} k (kvs : list (str * A)) x : NoDup (List.map fst kvs) -> In (k, x) kvs -> lookup k kvs = Some x.
Proof.
  induction kvs as [|[k' y] r IH]; simpl; [tauto|]. intros N. inversion N as [|? ? Hn Hr]; subst. intros [E|I].
  - injection E as -> ->. now rewrite (proj2 (str_eqb_spec k k) eq_refl).
  - destruct (str_eqb k k') eqn:E; [|auto]. apply str_eqb_spec in E. subst. exfalso. apply Hn.
    change k' with (fst (k', x)). now apply in_map.
Qed.
Lemma nodup_inj {A B} (f : A -> B) (l : list A) x y : NoDup (List.map f l) -> In x l -> In y l -> f x = f y -> x = y.
Proof.
  induction l as [|a l IH]; simpl; [tauto|]. intros N. inversion N as [|? ? Hn Hr]; subst.
  intros [->|Ix] [->|Iy] E; auto.
  - exfalso. apply Hn. rewrite E. now apply in_map.
  - exfalso. apply Hn. rewrite <- E. now apply in_map.
Qed.
Lemma app_nil_iff {A} (a b : list A) : a ++ b = [] <-> a = [] /\ b = [].
Proof. split; [apply app_eq_nil|intros [-> ->]; reflexivity]. Qed.

Lemma Forall2_In_l {A B} (R : A -> B -> Prop) l l' a : Forall2 R l l' -> In a l -> exists b, In b l' /\ R a b.
Proof. induction 1 as [|x y l l' H _ IH]; simpl; [tauto|]. intros [->|I]; [eauto|]. destruct (IH I) as (b & Ib & Rb). eauto. Qed.
Lemma Forall2_In_r {A B} (R : A -> B -> Prop) l l' b : Forall2 R l l' -> In b l' -> exists a, In a l /\ R a b.
Proof. induction 1 as [|x y l l' H _ IH]; simpl; [tauto|]. intros [->|I]; [eauto|]. destruct (IH I) as (a & Ia & Ra). eauto. Qed.

Section Correct.
  Variable V : Type.
  Variable A : adapter V.
  Variable P : list classdecl.
  Variable T : table.
  Variable M : list gclass.
  Variable repr : str -> str.
  Variable post_parse : str -> option (pyval -> outcome pyval).
  Variable W : view V.
  (** the adapter implements the view *)
  Hypothesis H_string : forall v s, ad_string A v = AOk s <-> w_text W v = Some s.
  Hypothesis H_bool : forall v b, ad_bool A v = AOk b <-> w_flag W v = Some b.
  Hypothesis H_list : forall v l, ad_list A false v = AOk l <-> w_items W v = Some l /\ l <> [].
  Hypothesis H_object : forall v kvs, ad_object A v = AOk kvs <-> w_members W v = Some kvs.
  Hypothesis H_tag : forall v t, (exists m, ad_model_type A v = AOk m /\ mt_name m = Some t) <-> w_tag W v = Some t.
  (** documents are finite *)
  Variable depth : V -> nat.
  Hypothesis D_items : forall v l x, w_items W v = Some l -> In x l -> depth x < depth v.
  Hypothesis D_members : forall v kvs k x, w_members W v = Some kvs -> In (k, x) kvs -> depth x < depth v.
  (** documents on which the adapter does not crash *)
  Variable Good : V -> Prop.
  Hypothesis G_string : forall v e, Good v -> ad_string A v <> ACrash e.
  Hypothesis G_bool : forall v e, Good v -> ad_bool A v <> ACrash e.
  Hypothesis G_list : forall v e, Good v -> ad_list A false v <> ACrash e.
  Hypothesis G_object : forall v e, Good v -> ad_object A v <> ACrash e.
  Hypothesis G_tag : forall v e, Good v -> ad_model_type A v <> ACrash e.
  Hypothesis G_items : forall v l x, Good v -> w_items W v = Some l -> In x l -> Good x.
  Hypothesis G_members : forall v kvs k x, Good v -> w_members W v = Some kvs -> In (k, x) kvs -> Good x.
  (** the table describes the meta model *)
  Hypothesis H_M : Describes_meta_model P T M.
  Hypothesis H_names : NoDup (List.map gc_name M).
  Hypothesis H_built : forall i k c f s e, nth_error T i = Some (k, RSfv c) -> kind_of P c = KSfv f ->
    sfv_construct f s <> Crashed e.
  Hypothesis H_post : forall n h g v kvs, post_parse n = Some h ->
    Conforms W M (GObj g) v -> Carries W M (GObj g) v (VObj n kvs) ->
    exists x, h (VObj n kvs) = Val x /\ Carries W M (GObj g) v x.

  Notation parse := (ParseModel.parse V A P T repr post_parse).

  Lemma class_unique c c' : In c M -> In c' M -> gc_name c = gc_name c' -> c = c'.
  Proof. intros. eapply nodup_inj; eauto. Qed.
  Lemma expected_fun n v c c' : Expected W M n v c -> Expected W M n v c' -> c = c'.
  Proof.
    intros [c1 I1 N1 B1|a1 c1 t1 I1 N1 B1 T1 S1 J1 K1] [c2 I2 N2 B2|a2 c2 t2 I2 N2 B2 T2 S2 J2 K2].
    - apply class_unique; congruence.
    - assert (c1 = a2) by (apply class_unique; congruence). congruence.
    - assert (c2 = a1) by (apply class_unique; congruence). congruence.
    - apply class_unique; congruence.
  Qed.

  (** A finding is justified: at its position, the document has not the expected type. *)
  Definition Justified (g : gtype) (p : path) (v : V) (f : finding) : Prop :=
    exists q h w, f_path f = p ++ q /\ At W M g v q h w /\ ~ Conforms W M h w.
  Definition Correct (g : gtype) (p : path) (v : V) (r : list finding) (o : outcome (pyval * list finding)) : Prop :=
    exists x fs, o = Val (x, r ++ fs) /\ (fs = [] <-> Conforms W M g v) /\ (fs = [] -> Carries W M g v x) /\
                 Forall (Justified g p v) fs.

  Lemma correct_refuse g p v r m : ~ Conforms W M g v -> Correct g p v r (refuse m p r).
  Proof.
    intros N. unfold refuse. exists VInvalid, [Finding m p]. apply conj; [reflexivity|]. apply conj; [|apply conj].
    - split; [discriminate|tauto].
    - discriminate.
    - constructor; [|constructor]. exists [], g, v. rewrite app_nil_r. repeat split; [constructor|exact N].
  Qed.
  Lemma correct_val g p v r x : Conforms W M g v -> Carries W M g v x -> Correct g p v r (Val (x, r)).
  Proof.
    intros C K. exists x, []. rewrite app_nil_r. repeat split; auto.
  Qed.

  Lemma string_case v : Good v -> (exists s, ad_string A v = AOk s /\ w_text W v = Some s) \/
    (exists m, ad_string A v = ABad m) /\ w_text W v = None.
  Proof.
    intros G. destruct (ad_string A v) as [s|m|e] eqn:E.
    - left. exists s. split; [reflexivity|]. now apply H_string.
    - right. split; [now exists m|]. destruct (w_text W v) as [s|] eqn:F; [|reflexivity]. apply H_string in F. congruence.
    - exfalso. eapply G_string; eauto.
  Qed.

  Lemma parse_list_ok f : (forall i g p v r, Fits P T i g -> depth v < f -> Good v -> Correct g p v r (parse f i p v r)) ->
    forall j g p v r l k, Fits P T j g -> (forall x, In x l -> depth x < f /\ Good x) ->
    exists xs fs, parse_items V (parse f) j p k l r = Val (xs, r ++ fs) /\
      (fs = [] <-> (forall x, In x l -> Conforms W M g x)) /\
      length xs = length l /\
      (fs = [] -> forall i a x, nth_error l i = Some a -> nth_error xs i = Some x -> Carries W M g a x) /\
      (forall L, (forall i a, nth_error l i = Some a -> nth_error L (k + i) = Some a) -> w_items W v = Some L ->
         Forall (Justified (GList g) p v) fs).
  Proof.
    intros IH j g p v r l. revert r. induction l as [|a l IHl]; intros r k F D.
    - exists [], []. simpl. rewrite app_nil_r. repeat split; auto.
      + intros _ x [].
      + intros _ i a x. destruct i; discriminate.
    - simpl. destruct (D a (or_introl eq_refl)) as [Da Ga].
      destruct (IH j g (p ++ [SIdx k]) a r F Da Ga) as (x & fs1 & E1 & C1 & K1 & J1). rewrite E1. cbn [obind].
      destruct (IHl (r ++ fs1) (S k) F) as (xs & fs2 & E2 & C2 & L2 & K2 & J2). { intros y I. apply D. now right. }
      rewrite E2. cbn [obind]. exists (x :: xs), (fs1 ++ fs2). rewrite app_assoc. apply conj; [reflexivity|].
      rewrite app_nil_iff, C1, C2. apply conj; [|apply conj; [|apply conj]].
      + split; [intros [X Y] z [<-|I]; auto|]. intros H. split; auto.
      + simpl. now rewrite L2.
      + intros Z i b y. destruct Z as [Z1 Z2]. apply C1 in Z1. apply C2 in Z2.
        destruct i as [|i]; simpl; [intros [= <-] [= <-]; auto|]. eauto.
      + intros L HL HW. apply Forall_app. split.
        * eapply Forall_impl; [|exact J1]. intros fd (q & h & w & Ep & At_ & N). exists (SIdx k :: q), h, w.
          rewrite Ep, <- app_assoc. repeat split; [|exact N]. econstructor; [exact HW| |exact At_].
          specialize (HL 0 a eq_refl). now rewrite Nat.add_0_r in HL.
        * apply (J2 L); [|exact HW]. intros i b Eb. specialize (HL (S i) b Eb). now rewrite <- plus_n_Sm in HL.
  Qed.

  (** ** Objects *)
  Lemma class_attrs j c : ClassFits P T j c ->
    exists k d attrs static subs gs, nth_error T j = Some (k, RClass d attrs static subs) /\
      gc_name c = spec_name (name_of P d) /\ gc_abstract c = is_abstract P d /\
      gc_tagged c = has_requires_model_type P d /\ (gc_tagged c = true -> name_of P d = gc_name c) /\
      Forall2 (AttrFits P T) attrs gs /\ (forall x, In x gs <-> In x (gc_attrs c)) /\
      (static = [] \/ static = [(lit "id_short_path", VNone)]) /\
      NoDup (List.map a_name attrs ++ List.map fst static) /\ NoDup (List.map g_name gs) /\
      (forall n, In n (gc_subclasses c) <->
                 exists j k' d at_ st su, In j subs /\ nth_error T j = Some (k', RClass d at_ st su) /\ name_of P d = n) /\
      (forall n, In n (gc_subclasses c) -> spec_name n = n).
  Proof.
    intros [i k d attrs static subs g E N Ab Tg Nd Nd' F1 F2 S Tn Sn St Ns].
    assert (X : exists gs, Forall2 (AttrFits P T) attrs gs /\ incl gs (gc_attrs g)).
    { clear - F1. induction attrs as [|a attrs IH]; [exists []; split; [constructor|intros ? []]|].
      destruct (F1 a (or_introl eq_refl)) as (x & Ix & Fx). destruct IH as (gs & Fg & Ig). { intros b Ib. apply F1. now right. }
      exists (x :: gs). split; [now constructor|]. intros y [<-|I]; auto. }
    destruct X as (gs & Fg & Ig). exists k, d, attrs, static, subs, gs.
    assert (Names : List.map json_name attrs = List.map g_name gs).
    { clear - Fg. induction Fg as [|a x l l' [E _] _ IH]; simpl; congruence. }
    repeat (apply conj; [assumption|]). apply conj.
    { intros x. split; [apply Ig|]. intros I. destruct (F2 x I) as (a & Ia & (E1 & _)).
      destruct (Forall2_In_l _ _ _ _ Fg Ia) as (y & Iy & (E2 & _)).
      assert (x = y) as ->; [|exact Iy]. eapply (nodup_inj g_name (gc_attrs g)); eauto. congruence. }
    rewrite <- Names. repeat (apply conj; [assumption|]). exact Sn.
  Qed.

  Definition AttrOk (kvs : list (str * V)) (x : gattr) : Prop :=
    match lookup (g_name x) kvs with
    | Some w => Conforms W M (g_type x) w
    | None => g_required x = false
    end.
  Definition AttrCarried (kvs : list (str * V)) (x : gattr) (nx : str * pyval) : Prop :=
    fst nx = snake_case (g_name x) /\
    match lookup (g_name x) kvs with
    | Some w => Carries W M (g_type x) w (snd nx)
    | None => snd nx = VNone
    end.
  Lemma parse_attrs_ok f : (forall i g p v r, Fits P T i g -> depth v < f -> Good v -> Correct g p v r (parse f i p v r)) ->
    forall kvs p attrs gs r, Forall2 (AttrFits P T) attrs gs -> (forall k x, In (k, x) kvs -> depth x < f /\ Good x) ->
    exists xs fs, parse_attrs V (parse f) attrs kvs p r = Val (xs, r ++ fs) /\
      (fs = [] <-> Forall (AttrOk kvs) gs) /\
      (fs = [] -> Forall2 (AttrCarried kvs) gs xs) /\
      List.map fst xs = List.map a_name attrs /\
      Forall (fun fd => (f_path fd = p) \/
                        exists x w q h z, In x gs /\ lookup (g_name x) kvs = Some w /\
                          f_path fd = p ++ SKey (g_name x) :: q /\ At W M (g_type x) w q h z /\ ~ Conforms W M h z) fs.
  Proof.
    intros IH kvs p attrs gs r F. revert r. induction F as [|a x attrs gs (En & Es & Er & Ft) F IHF]; intros r D.
    - exists [], []. simpl. rewrite app_nil_r. repeat split; auto.
    - cbn [parse_attrs]. rewrite En.
      assert (X : exists y fs1, match lookup (g_name x) kvs with
                | Some v => parse f (a_type a) (p ++ [SKey (g_name x)]) v r
                | None => if a_required a then refuse (lit "Missing attribute " ++ g_name x) p r else Val (VNone, r)
                end = Val (y, r ++ fs1) /\ (fs1 = [] <-> AttrOk kvs x) /\ (fs1 = [] -> AttrCarried kvs x (a_name a, y)) /\
                Forall (fun fd => f_path fd = p \/
                        exists x0 w q h z, In x0 (x :: gs) /\ lookup (g_name x0) kvs = Some w /\
                          f_path fd = p ++ SKey (g_name x0) :: q /\ At W M (g_type x0) w q h z /\ ~ Conforms W M h z) fs1).
      { unfold AttrOk, AttrCarried. cbn [fst snd]. destruct (lookup (g_name x) kvs) as [w|] eqn:L.
        - destruct (D _ _ (lookup_In _ _ _ L)) as [Dw Gw].
          destruct (IH _ _ (p ++ [SKey (g_name x)]) w r Ft Dw Gw) as (y & fs1 & E1 & C1 & K1 & J1).
          exists y, fs1. rewrite E1. apply conj; [reflexivity|]. apply conj; [exact C1|]. apply conj; [auto|].
          eapply Forall_impl; [|exact J1]. intros fd (q & h & z & Ep & At_ & N). right.
          exists x, w, q, h, z. rewrite Ep, <- app_assoc. simpl. auto 10.
        - rewrite Er. destruct (g_required x).
          + unfold refuse. eexists _, [_]. apply conj; [reflexivity|]. apply conj; [split; discriminate|].
            apply conj; [discriminate|]. constructor; [|constructor]. now left.
          + exists VNone, []. rewrite app_nil_r. repeat split; auto. }
      destruct X as (y & fs1 & E1 & C1 & K1 & J1). rewrite E1. cbn [obind].
      destruct (IHF (r ++ fs1) D) as (xs & fs2 & E2 & C2 & K2 & N2 & J2). rewrite E2. cbn [obind].
      exists ((a_name a, y) :: xs), (fs1 ++ fs2). rewrite app_assoc. apply conj; [reflexivity|].
      rewrite app_nil_iff, C1, C2, Forall_cons_iff. apply conj; [reflexivity|]. apply conj; [|apply conj].
      + intros [H1 H2]. constructor; [apply K1, C1, H1|apply K2, C2, H2].
      + simpl. now rewrite N2.
      + apply Forall_app. split; [exact J1|]. eapply Forall_impl; [|exact J2]. intros fd [H|H]; [now left|right].
        destruct H as (x0 & w & q & h & z & I & R). exists x0, w, q, h, z. split; [now right|exact R].
  Qed.

  Lemma unknown_ok attrs gs kvs p : Forall2 (AttrFits P T) attrs gs ->
    (unknown_attrs V attrs kvs p = [] <-> forall k x, In (k, x) kvs -> exists a, In a gs /\ g_name a = k) /\
    Forall (fun fd => f_path fd = p) (unknown_attrs V attrs kvs p).
  Proof.
    intros F. assert (Names : List.map json_name attrs = List.map g_name gs).
    { induction F as [|a x l l' [E _] _ IH]; simpl; congruence. }
    unfold unknown_attrs. rewrite Names. split.
    - transitivity (filter (fun kv : str * V => negb (str_in (fst kv) (List.map g_name gs))) kvs = []).
      { split; [apply map_eq_nil|intros ->; reflexivity]. }
      split.
      + intros E k x I. destruct (str_in k (List.map g_name gs)) eqn:S.
        * apply str_in_spec, in_map_iff in S. destruct S as (a & E' & Ia). eauto.
        * assert (X : In (k, x) []); [|destruct X]. rewrite <- E. apply filter_In. split; [exact I|]. cbn [fst]. now rewrite S.
      + intros H. destruct (filter _ kvs) as [|[k x] l] eqn:E; [reflexivity|]. exfalso.
        assert (X : In (k, x) ((k, x) :: l)) by now left. rewrite <- E in X. apply filter_In in X. destruct X as [I N].
        cbn [fst] in N. apply negb_true_iff in N. destruct (H k x I) as (a & Ia & Ea).
        assert (str_in k (List.map g_name gs) = true); [|congruence]. apply str_in_spec. rewrite <- Ea. now apply in_map.
    - apply Forall_forall. intros fd I. apply in_map_iff in I. destruct I as (kv & <- & _). reflexivity.
  Qed.

  Lemma check_model_type_ok j c k d attrs static subs p v r : ClassFits P T j c ->
    nth_error T j = Some (k, RClass d attrs static subs) -> Good v ->
    exists fs, check_model_type V A P d p v r = Val (r ++ fs) /\ (fs = [] <-> TagOk W c v) /\
               Forall (fun fd => f_path fd = p) fs.
  Proof.
    intros F E G. destruct (class_attrs _ _ F) as (k' & d' & at' & st' & su' & gs & E' & N & Ab & Tg & Tn & _).
    rewrite E in E'. injection E' as <- <- <- <- <-. unfold check_model_type, TagOk. rewrite <- Tg.
    destruct (gc_tagged c); [|exists []; rewrite app_nil_r; repeat split; auto; discriminate].
    specialize (Tn eq_refl). rewrite Tn. destruct (ad_model_type A v) as [m|m|e] eqn:Em.
    - destruct (mt_name m) as [n|] eqn:En; [destruct (str_eqb n (gc_name c)) eqn:Ec|].
      + apply str_eqb_spec in Ec. subst n. exists []. rewrite app_nil_r. repeat split; auto. intros _ _. apply H_tag. eauto.
      + eexists [_]. apply conj; [reflexivity|]. split; [|repeat constructor]. split; [discriminate|]. intros H. specialize (H eq_refl).
        apply H_tag in H. destruct H as (m' & Em' & En'). assert (m' = m) by congruence. subst m'.
        assert (n = gc_name c) by congruence. subst n. rewrite (proj2 (str_eqb_spec _ _) eq_refl) in Ec. discriminate.
      + eexists [_]. apply conj; [reflexivity|]. split; [|repeat constructor]. split; [discriminate|]. intros H. specialize (H eq_refl).
        apply H_tag in H. destruct H as (m' & Em' & En'). assert (m' = m) by congruence. subst m'. congruence.
    - eexists [_]. apply conj; [reflexivity|]. split; [|repeat constructor]. split; [discriminate|]. intros H. specialize (H eq_refl).
      apply H_tag in H. destruct H as (m' & Em' & En'). congruence.
    - exfalso. eapply G_tag; eauto.
  Qed.

  Lemma parse_concrete_ok f : (forall i g p v r, Fits P T i g -> depth v < f -> Good v -> Correct g p v r (parse f i p v r)) ->
    forall j c k d attrs static subs n p v r, In c M -> ClassFits P T j c ->
    nth_error T j = Some (k, RClass d attrs static subs) ->
    Expected W M n v c -> depth v <= f -> Good v ->
    Correct (GObj n) p v r (parse_concrete V A P (parse f) d attrs static p v r) /\
    (forall x fs, parse_concrete V A P (parse f) d attrs static p v r = Val (x, fs) -> x = VInvalid \/ exists kvs, x = VObj (name_of P d) kvs).
  Proof.
    intros IH j c k d attrs static subs n p v r Ic F E Ex D G.
    destruct (class_attrs _ _ F) as (k' & d' & at' & st' & su' & gs & E' & N & Ab & Tg & Tn & Fa & Gs & St & Nd & Nd' & _).
    rewrite E in E'. injection E' as <- <- <- <- <-. unfold parse_concrete.
    destruct (ad_object A v) as [kvs|m|e] eqn:Eo.
    2:{ split; [|intros x fs; unfold refuse; intros X; left; congruence]. apply correct_refuse. intros C.
        inversion C as [| | | | |n' v' c' kvs X1 X2 X3]; subst. apply H_object in X3. congruence. }
    2:{ exfalso. eapply G_object; eauto. }
    assert (Hm : w_members W v = Some kvs) by now apply H_object.
    destruct (check_model_type_ok _ _ _ _ _ _ _ p v r F E G) as (fs1 & E1 & C1 & J1). rewrite E1. cbn [obind].
    destruct (parse_attrs_ok f IH kvs p attrs gs (r ++ fs1) Fa) as (xs & fs2 & E2 & C2 & K2 & N2 & J2).
    { intros k0 x I. specialize (D_members _ _ _ _ Hm I). split; [lia|]. eapply G_members; eauto. }
    rewrite E2. cbn [obind]. split; [|intros x fs X; right; exists (xs ++ static); congruence].
    destruct (unknown_ok attrs gs kvs p Fa) as [C3 J3]. set (fs3 := unknown_attrs V attrs kvs p) in *.
    assert (Iff : (fs1 ++ fs2 ++ fs3 = [] <-> Conforms W M (GObj n) v)).
    { rewrite !app_nil_iff, C1, C2, C3. split.
      - intros (H1 & H2 & H3). rewrite Forall_forall in H2. econstructor; eauto.
        + intros a Ia Ra Hl. apply Gs in Ia. apply H2 in Ia. unfold AttrOk in Ia. rewrite Hl in Ia. congruence.
        + intros k0 x I. destruct (H3 k0 x I) as (a & Ia & Ea). exists a. split; [now apply Gs|exact Ea].
        + intros a x Ia Hl. apply Gs in Ia. apply H2 in Ia. unfold AttrOk in Ia. now rewrite Hl in Ia.
      - intros C. inversion C as [| | | | |n' v' c' kvs' X1 X2 X3 X4 X5 X6]; subst.
        assert (c' = c) by (eapply expected_fun; eauto). subst c'. assert (kvs' = kvs) by congruence. subst kvs'.
        split; [exact X2|]. split.
        + apply Forall_forall. intros a Ia. apply Gs in Ia. unfold AttrOk. destruct (lookup (g_name a) kvs) eqn:L.
          * eapply X6; eauto.
          * destruct (g_required a) eqn:R; [|reflexivity]. exfalso. eapply X4; eauto.
        + intros k0 x I. destruct (X5 k0 x I) as (a & Ia & Ea). exists a. split; [now apply Gs|exact Ea]. }
    exists (VObj (name_of P d) (xs ++ static)), (fs1 ++ fs2 ++ fs3). rewrite !app_assoc. apply conj; [reflexivity|].
    rewrite <- app_assoc. apply conj; [exact Iff|]. apply conj.
    - intros Z. apply app_nil_iff in Z. destruct Z as [_ Z]. apply app_nil_iff in Z. destruct Z as [Z _]. specialize (K2 Z).
      assert (Nx : NoDup (List.map fst (xs ++ static))) by (rewrite map_app, N2; exact Nd).
      assert (Key : forall a, In a gs -> exists y, In (snake_case (g_name a), y) (xs ++ static) /\ AttrCarried kvs a (snake_case (g_name a), y)).
      { intros a Ia. destruct (Forall2_In_l _ _ _ _ K2 Ia) as ([m y] & Iy & Ca). exists y.
        assert (m = snake_case (g_name a)) by apply Ca. subst m. split; [|exact Ca]. apply in_app_iff. now left. }
      eapply Ca_obj with (c := c) (kvs := kvs); auto.
      + intros a Ia. apply Gs in Ia. destruct (Key a Ia) as (y & Iy & _).
        change (snake_case (g_name a)) with (fst (snake_case (g_name a), y)). now apply in_map.
      + intros m I. rewrite map_app in I. apply in_app_iff in I. destruct I as [I|I].
        * left. apply in_map_iff in I. destruct I as ([m' y] & Em & I). cbn [fst] in Em. subst m'.
          destruct (Forall2_In_r _ _ _ _ K2 I) as (a & Ia & [Ca _]). exists a. split; [now apply Gs|exact Ca].
        * right. destruct St as [->| ->]; [destruct I|]. destruct I as [I|[]]. symmetry. exact I.
      + intros a Ia Hl. apply Gs in Ia. destruct (Key a Ia) as (y & Iy & [_ Ca]). rewrite Hl in Ca. cbn [snd] in Ca. subst y.
        unfold attribute_of. now rewrite (lookup_nodup _ _ _ Nx Iy).
      + intros a x Ia Hl. apply Gs in Ia. destruct (Key a Ia) as (y & Iy & [_ Ca]). rewrite Hl in Ca. cbn [snd] in Ca.
        unfold attribute_of. now rewrite (lookup_nodup _ _ _ Nx Iy).
    - assert (Here : fs1 ++ fs2 ++ fs3 <> [] -> forall fd, f_path fd = p -> Justified (GObj n) p v fd).
      { intros Z fd Ep. exists [], (GObj n), v. rewrite app_nil_r. repeat split; [exact Ep|constructor|]. intros C. apply Z, Iff, C. }
      assert (NZ : forall fd, In fd (fs1 ++ fs2 ++ fs3) -> fs1 ++ fs2 ++ fs3 <> []) by (intros fd I Z; rewrite Z in I; destruct I).
      rewrite Forall_forall in J1, J2, J3. apply Forall_forall. intros fd I. specialize (NZ fd I).
      apply in_app_iff in I. destruct I as [I|I]; [apply Here; auto|]. apply in_app_iff in I. destruct I as [I|I]; [|apply Here; auto].
      destruct (J2 fd I) as [Ep|(x & w & q & h & z & Ix & Lx & Ep & At_ & Nc)]; [apply Here; auto|].
      exists (SKey (g_name x) :: q), h, z. repeat split; auto. econstructor; eauto. now apply Gs.
  Qed.

  Lemma class_entry i k d attrs static subs : nth_error T i = Some (k, RClass d attrs static subs) ->
    exists c, In c M /\ ClassFits P T i c.
  Proof. intros E. eapply (proj2 H_M); eauto. Qed.

  Lemma find_subclass_ok n subs : (forall j, In j subs -> True) ->
    match find_subclass P T (Some n) subs with
    | Some (d, attrs, static) => exists j k su, In j subs /\ nth_error T j = Some (k, RClass d attrs static su) /\ name_of P d = n
    | None => forall j k d attrs static su, In j subs -> nth_error T j = Some (k, RClass d attrs static su) -> name_of P d <> n
    end.
  Proof.
    intros _. induction subs as [|j subs IH]; simpl; [intros; contradiction|].
    assert (Skip : (forall k d attrs static su, nth_error T j = Some (k, RClass d attrs static su) -> name_of P d <> n) ->
      match find_subclass P T (Some n) subs with
      | Some (d, attrs, static) => exists j0 k su, (j = j0 \/ In j0 subs) /\ nth_error T j0 = Some (k, RClass d attrs static su) /\ name_of P d = n
      | None => forall j0 k d attrs static su, j = j0 \/ In j0 subs -> nth_error T j0 = Some (k, RClass d attrs static su) -> name_of P d <> n
      end).
    { intros H. destruct (find_subclass P T (Some n) subs) as [[[d at_] st]|].
      - destruct IH as (j0 & k & su & I & R). eauto 10.
      - intros j0 k d at_ st su [<-|I]; eauto. }
    destruct (nth_error T j) as [[k [| | | | | |c|c|c attrs static su|item e]]|] eqn:E; try (apply Skip; congruence).
    destruct (str_eqb (name_of P c) n) eqn:S.
    - apply str_eqb_spec in S. eauto 10.
    - apply Skip. intros k' d' a' s' su' X. assert (d' = c) by congruence. subst d'. intros X'. apply str_eqb_spec in X'. congruence.
  Qed.

  Theorem parse_correct f : forall i g p v r, Fits P T i g -> depth v < f -> Good v -> Correct g p v r (parse f i p v r).
  Proof.
    induction f as [|f IH]; intros i g p v r F D G; [lia|]. cbn [ParseModel.parse].
    destruct F as [i k c sf t E K Sf|i k E|i k E|i k c ms l E K Ms|i k c attrs static subs n E Nm|i k j g E F]; rewrite E.
    - unfold parse_sfv. destruct (string_case v G) as [(s & Es & Ws)|[(m & Es) Ws]]; rewrite Es.
      + rewrite K. destruct (sfv_construct sf s) as [|m|e] eqn:B.
        * apply correct_val; [|now econstructor]. econstructor; eauto. now apply Sf.
        * apply correct_refuse. intros C. inversion C as [t' v' s' X Y| | | | |]; subst.
          assert (s' = s) by congruence. subst. apply Sf in Y. congruence.
        * exfalso. eapply H_built; eauto.
      + apply correct_refuse. intros C. inversion C; congruence.
    - unfold parse_string. destruct (string_case v G) as [(s & Es & Ws)|[(m & Es) Ws]]; rewrite Es.
      + apply correct_val; econstructor; eauto.
      + apply correct_refuse. intros C. inversion C; congruence.
    - unfold parse_bool. destruct (ad_bool A v) as [b|m|e] eqn:Eb.
      + apply H_bool in Eb. apply correct_val; econstructor; eauto.
      + apply correct_refuse. intros C. inversion C as [| |v' b X| | |]; subst. apply H_bool in X. congruence.
      + exfalso. eapply G_bool; eauto.
    - unfold parse_enum. destruct (string_case v G) as [(s & Es & Ws)|[(m & Es) Ws]]; rewrite Es.
      + rewrite K. destruct (find (fun m => str_eqb (snd m) s) ms) as [[a b]|] eqn:Fd.
        * apply find_some in Fd. destruct Fd as [I X]. cbn [snd] in X. apply str_eqb_spec in X. subst b.
          apply correct_val; [|now econstructor]. econstructor; eauto. apply Ms. change s with (snd (a, s)). now apply in_map.
        * apply correct_refuse. intros C. inversion C as [| | |l' v' s' X Y| |]; subst. assert (s' = s) by congruence. subst.
          apply Ms in Y. apply in_map_iff in Y. destruct Y as ([a b] & Eb & I). cbn [snd] in Eb. subst b.
          generalize (find_none _ _ Fd _ I). cbn [snd]. rewrite (proj2 (str_eqb_spec s s) eq_refl). discriminate.
      + apply correct_refuse. intros C. inversion C; congruence.
    - destruct (class_entry _ _ _ _ _ _ E) as (g & Ig & Fg).
      destruct (class_attrs _ _ Fg) as (k' & d' & at' & st' & su' & gs & E' & N & Ab & Tg & Tn & Fa & Gs & St & Nd & Nd' & Sub & Sn).
      rewrite E in E'. injection E' as <- <- <- <- <-. assert (Gn : gc_name g = n) by congruence. rewrite <- Ab.
      destruct (gc_abstract g) eqn:Abs.
      + unfold parse_abstract. destruct (ad_model_type A v) as [m|m|e] eqn:Em.
        * assert (NoClass : match mt_name m with Some t => ~ In t (gc_subclasses g) | None => True end -> ~ Conforms W M (GObj n) v).
          { intros H C. inversion C as [| | | | |n' v' c' kvs X1 X2 X3]; subst. inversion X1 as [c0 I0 N0 B0|a c0 t I0 N0 B0 T0 S0 J0 K0]; subst.
            - assert (c' = g) by (apply class_unique; congruence). congruence.
            - assert (a = g) by (apply class_unique; congruence). subst a. apply H_tag in T0. destruct T0 as (m' & Em' & Et).
              assert (m' = m) by congruence. subst m'. rewrite Et in H. auto. }
          destruct (mt_name m) as [t|] eqn:Et.
          -- generalize (find_subclass_ok t subs (fun _ _ => I)). destruct (find_subclass P T (Some t) subs) as [[[d at_] st]|].
             ++ intros (j & k2 & su & Ij & Ej & Nj). destruct (class_entry _ _ _ _ _ _ Ej) as (g' & Ig' & Fg').
                assert (It : In t (gc_subclasses g)) by (apply Sub; eauto 10).
                assert (gc_name g' = t).
                { destruct (class_attrs _ _ Fg') as (k3 & d3 & at3 & st3 & su3 & gs3 & E3 & N3 & _). rewrite Ej in E3.
                  assert (d3 = d) by congruence. subst d3. rewrite N3, Nj. now apply Sn. }
                assert (Ex : Expected W M n v g').
                { eapply (Exp_abstract _ W M n v g g' t); auto. apply H_tag. eauto. }
                exact (proj1 (parse_concrete_ok f IH j g' k2 d at_ st su n p v r Ig' Fg' Ej Ex ltac:(lia) G)).
             ++ intros H. apply correct_refuse. apply NoClass. intros It. apply Sub in It.
                destruct It as (j & k2 & d & at_ & st & su & Ij & Ej & Nj). eapply H; eauto.
          -- assert (FN : find_subclass P T None subs = None).
             { clear. induction subs as [|j subs IH]; simpl; [reflexivity|]. destruct (nth_error T j) as [[? []]|]; auto. }
             rewrite FN. apply correct_refuse. now apply NoClass.
        * apply correct_refuse. intros C. inversion C as [| | | | |n' v' c' kvs X1 X2 X3]; subst.
          inversion X1 as [c0 I0 N0 B0|a c0 t I0 N0 B0 T0 S0 J0 K0]; subst.
          -- assert (c' = g) by (apply class_unique; congruence). congruence.
          -- apply H_tag in T0. destruct T0 as (m' & Em' & Et). congruence.
        * exfalso. eapply G_tag; eauto.
      + assert (Ex : Expected W M n v g) by (constructor; auto).
        destruct (parse_concrete_ok f IH i g k c attrs static subs n p v r Ig Fg E Ex ltac:(lia) G) as [(x & fs & Ep & Iff & Ca & J) Sh].
        rewrite Ep. cbn [obind]. destruct (Sh _ _ Ep) as [->|(kvs & ->)].
        * exists VInvalid, fs. auto.
        * destruct (post_parse (name_of P c)) as [h|] eqn:Eh; [|exists (VObj (name_of P c) kvs), fs; auto].
          destruct (r ++ fs) as [|a l] eqn:Er; [|exists (VObj (name_of P c) kvs), fs; rewrite Er; auto].
          assert (Z : fs = []) by (apply app_nil_iff in Er; apply Er). specialize (Ca Z).
          destruct (H_post _ _ _ _ _ Eh (proj1 Iff Z) Ca) as (x & Ex' & Cx). rewrite Ex'. cbn [obind]. exists x, fs. rewrite Er. auto.
    - unfold parse_list. destruct (ad_list A false v) as [l|m|e] eqn:El.
      + apply H_list in El. destruct El as [El Nl].
        destruct (parse_list_ok f IH j g p v r l 0 F) as (xs & fs & Ep & Iff & Len & Ca & J).
        { intros x I. specialize (D_items _ _ _ El I). split; [lia|]. eapply G_items; eauto. }
        rewrite Ep. cbn [obind]. exists (VList xs), fs. apply conj; [reflexivity|]. apply conj; [|apply conj].
        * rewrite Iff. split; [intros H; econstructor; eauto|]. intros C. inversion C as [| | | |g' v' l' X Y Z|]; subst.
          assert (l' = l) by congruence. now subst.
        * intros Z. econstructor; eauto.
        * apply (J l); auto.
      + apply correct_refuse. intros C. inversion C as [| | | |g' v' l' X Y Z|]; subst.
        assert (ad_list A false v = AOk l') by (apply H_list; auto). congruence.
      + exfalso. eapply G_list; eauto.
  Qed.
End Correct.
