(** A document without findings is read into objects of the declared types. *)
From Coq Require Import PeanoNat Lia String List NArith Bool.
From Verif Require Import PyStr PyStrFacts PyBase PyXml PyVal ReflectModel AdapterModel ParseModel ParseCrash TypeSpec.
Import ListNotations.
Local Open Scope list_scope.

(** * Inversion *)
Section Inversion.
  Variable D : list (str * pfields).
  Lemma typed_text x : Typed D TyText x -> exists c s, x = VSfv c s. Proof. inversion 1; eauto. Qed.
  Lemma typed_plain x : Typed D TyPlain x -> exists s, x = VStr s. Proof. inversion 1; eauto. Qed.
  Lemma typed_bool x : Typed D TyBool x -> exists b, x = VBool b. Proof. inversion 1; eauto. Qed.
  Lemma typed_enum c vs x : Typed D (TyEnum c vs) x -> exists n v, x = VEnum c n v /\ In v vs. Proof. inversion 1; subst; eauto. Qed.
  Lemma typed_list e t x : Typed D (TyList e t) x -> exists xs, x = VList xs /\ (e = true -> xs <> []) /\ forall y, In y xs -> Typed D t y.
  Proof. inversion 1; subst; eauto. Qed.
  Lemma typed_opt t x : Typed D (TyOpt t) x -> x = VNone \/ Typed D t x. Proof. inversion 1; subst; eauto. Qed.
  Lemma typed_path x : Typed D TyPath x -> x = VNone \/ exists p, x = VPath p. Proof. inversion 1; subst; eauto. Qed.
  Lemma typed_obj cs x : Typed D (TyObj cs) x -> exists c fs kvs, x = VObj c kvs /\ In c cs /\ In (c, fs) D /\
    List.map fst kvs = List.map fst fs /\ (forall n t y, In (n, t) fs -> In (n, y) kvs -> Typed D t y).
  Proof. inversion 1; subst. eexists _, _, _. repeat split; eauto. Qed.
End Inversion.

Section Parser.
  Variable V : Type.
  Variable A : adapter V.
  Variable P : list classdecl.
  Variable T : table.
  Variable repr : str -> str.
  Variable post_parse : str -> option (pyval -> outcome pyval).
  Variable D : list (str * pfields).
  Hypothesis H_declared : declared P T T = Some D.
  Hypothesis H_nonempty : forall v l, ad_list A false v = AOk l -> l <> [].
  Hypothesis H_static : forall k c attrs static subs n x, In (k, RClass c attrs static subs) T -> In (n, x) static -> x = VNone.
  Hypothesis H_nodup : forall c fs, In (c, fs) D -> NoDup (List.map fst fs).
  Hypothesis H_post : forall n g x y, post_parse n = Some g -> Typed D (TyObj [n]) x -> g x = Val y -> Typed D (TyObj [n]) y.

  Definition TypedResult (t : ptype) (o : outcome (pyval * list finding)) : Prop := forall x, o = Val (x, []) -> Typed D t x.

  Lemma declared_in l : forall d, declared P T l = Some d -> forall k c attrs static subs, In (k, RClass c attrs static subs) l ->
    exists fs, ptypes_of P T attrs = Some fs /\ In (name_of P c, fs ++ List.map (fun kv => (fst kv, TyPath)) static) d.
  Proof.
    induction l as [|[k0 t0] l IH]; intros d E k c attrs static subs I; [destruct I|].
    cbn [declared] in E. destruct I as [I|I].
    - injection I as -> ->. destruct (ptypes_of P T attrs) as [fs|]; [|discriminate].
      destruct (declared P T l) as [d'|]; [|discriminate]. injection E as <-. exists fs. split; [reflexivity|now left].
    - destruct t0; try (now apply (IH _ E) with (1 := I)).
      destruct (ptypes_of P T attrs0) as [fs|]; [|discriminate].
      destruct (declared P T l) as [d'|]; [|discriminate]. injection E as <-.
      destruct (IH _ eq_refl _ _ _ _ _ I) as (fs' & X & Y). exists fs'. split; [exact X|now right].
  Qed.

  Lemma grown_nil {X} r (o : outcome (X * list finding)) y : Grows r o -> o = Val (y, []) -> r = [].
  Proof. intros G E. destruct (G _ _ E) as (s & H). destruct r; [reflexivity|discriminate]. Qed.

  Section Rec.
    Variable rec : nat -> parser V.
    Hypothesis rec_grows : forall i p v r, Grows r (rec i p v r).
    Variable ok : nat -> ptype -> Prop.
    Hypothesis rec_typed : forall i t p v, ok i t -> TypedResult t (rec i p v []).

    Lemma items_typed ty t p l : ok ty t -> forall i xs, parse_items V rec ty p i l [] = Val (xs, []) ->
      length xs = length l /\ forall x, In x xs -> Typed D t x.
    Proof.
      intros K. induction l as [|v l IH]; intros i xs; cbn [parse_items].
      - intros [= <-]. split; [reflexivity|intros x []].
      - destruct (rec ty (p ++ [SIdx i]) v []) as [[x r]|e] eqn:E; cbn [obind]; [|discriminate].
        destruct (parse_items V rec ty p (S i) l r) as [[ys r2]|e] eqn:F; cbn [obind]; [|discriminate].
        intros [= <- ->].
        assert (r = []) by (eapply grown_nil; [|exact F]; now apply items_grows). subst r.
        destruct (IH _ _ F) as [L I]. split; [simpl; congruence|]. intros y [<-|Y]; [now apply (rec_typed _ _ _ _ K) in E|auto].
    Qed.
    Lemma attrs_typed attrs obj p : forall fs xs, ptypes_of P T attrs = Some fs -> (forall a t, In a attrs -> ptype_of P T (a_type a) = Some t -> ok (a_type a) t) ->
      parse_attrs V rec attrs obj p [] = Val (xs, []) ->
      List.map fst xs = List.map fst fs /\ forall i n t x, nth_error fs i = Some (n, t) -> nth_error xs i = Some (n, x) -> Typed D t x.
    Proof.
      induction attrs as [|a attrs IH]; intros fs xs E K; cbn [parse_attrs]; cbn [ptypes_of] in E.
      - intros [= <-]. injection E as <-. split; [reflexivity|]. intros [|i]; discriminate.
      - destruct (ptype_of P T (a_type a)) as [t|] eqn:Et; [|discriminate].
        destruct (ptypes_of P T attrs) as [fs'|] eqn:Ef; [|discriminate]. injection E as <-.
        set (o := match lookup (json_name a) obj with Some v => _ | None => _ end).
        destruct o as [[x r]|e] eqn:F; cbn [obind]; [|discriminate].
        destruct (parse_attrs V rec attrs obj p r) as [[ys r2]|e] eqn:G; cbn [obind]; [|discriminate].
        intros [= <- ->].
        assert (r = []) by (eapply grown_nil; [|exact G]; now apply attrs_grows). subst r.
        destruct (IH fs' ys eq_refl (fun b u I => K b u (or_intror I)) G) as [L I]. split; [simpl; congruence|].
        intros [|i] n u y; cbn [nth_error]; [|apply I].
        intros [= <- <-] [= <-]. unfold o in F. destruct (lookup (json_name a) obj) as [v|].
        + apply (rec_typed _ _ _ _ (K a t (or_introl eq_refl) Et)) in F. destruct (a_required a); [exact F|now apply Ty_some].
        + destruct (a_required a); [discriminate|]. injection F as <-. apply Ty_none.
    Qed.
    Lemma concrete_typed k c attrs static subs cs p v : In (k, RClass c attrs static subs) T -> In (name_of P c) cs ->
      (forall a t, In a attrs -> ptype_of P T (a_type a) = Some t -> ok (a_type a) t) ->
      TypedResult (TyObj cs) (parse_concrete V A P rec c attrs static p v []).
    Proof.
      intros I J K x. unfold parse_concrete. destruct (ad_object A v) as [obj| |]; try discriminate.
      destruct (check_model_type V A P c p v []) as [r|] eqn:E; cbn [obind]; [|discriminate].
      destruct (parse_attrs V rec attrs obj p r) as [[args r2]|] eqn:F; cbn [obind]; [|discriminate].
      intros [= <- N]. apply app_eq_nil in N as [-> N].
      assert (r = []) by (eapply grown_nil; [|exact F]; now apply attrs_grows). subst r.
      destruct (declared_in _ _ H_declared _ _ _ _ _ I) as (fs & Ef & Id).
      destruct (attrs_typed _ _ _ _ _ Ef K F) as [L M].
      assert (ND := H_nodup _ _ Id).
      assert (Q : List.map fst (args ++ static) = List.map fst (fs ++ List.map (fun kv => (fst kv, TyPath)) static)).
      { rewrite !map_app, L, map_map. reflexivity. }
      apply Ty_obj with (fs := fs ++ List.map (fun kv => (fst kv, TyPath)) static); auto.
      intros n t x In1 In2.
      apply In_nth_error in In1 as [i E1]. apply In_nth_error in In2 as [j E2].
      assert (i = j).
      { rewrite NoDup_nth_error in ND. apply ND.
        - rewrite map_length. apply nth_error_Some. congruence.
        - rewrite (map_nth_error fst _ _ E1). rewrite <- Q. rewrite (map_nth_error fst _ _ E2). reflexivity. }
      subst j.
      assert (length args = length fs) by (rewrite <- (map_length fst args), L, map_length; reflexivity).
      destruct (Nat.lt_ge_cases i (length fs)).
      - rewrite nth_error_app1 in E1, E2 by lia. eapply M; eauto.
      - rewrite nth_error_app2 in E1, E2 by lia.
        apply nth_error_In in E1, E2. apply in_map_iff in E1 as ([m z] & E1 & _). cbn [fst] in E1.
        assert (t = TyPath) by congruence. subst t. rewrite (H_static _ _ _ _ _ _ _ I E2). apply Ty_nopath.
    Qed.
    Lemma find_subclass_in n : forall subs c attrs static, find_subclass P T n subs = Some (c, attrs, static) ->
      exists i k ss, In i subs /\ nth_error T i = Some (k, RClass c attrs static ss).
    Proof.
      induction subs as [|i subs IH]; intros c attrs static; cbn [find_subclass]; [discriminate|].
      assert (G : find_subclass P T n subs = Some (c, attrs, static) ->
        exists i0 k ss, In i0 (i :: subs) /\ nth_error T i0 = Some (k, RClass c attrs static ss)).
      { intros H. destruct (IH _ _ _ H) as (i' & k' & ss & X & Y). exists i', k', ss. split; [now right|exact Y]. }
      destruct (nth_error T i) as [[k t]|] eqn:E; [|exact G]. destruct t; try exact G.
      destruct (match n with Some n => _ | None => _ end); [|exact G].
      intros [= <- <- <-]. exists i, k, subclasses. split; [now left|exact E].
    Qed.
  End Rec.

  Definition Known (i : nat) (t : ptype) : Prop := exists n, ptype_at P T n i = Some t.
  Theorem parse_typed f : forall i t n p v, ptype_at P T n i = Some t -> TypedResult t (parse V A P T repr post_parse f i p v []).
  Proof.
    induction f as [|f IH]; intros i t n p v Et x; cbn [parse]; [discriminate|].
    destruct n as [|n]; [discriminate|]. cbn [ptype_at] in Et.
    assert (G : forall i p v r, Grows r (parse V A P T repr post_parse f i p v r)) by (intros; apply parse_grows).
    destruct (nth_error T i) as [[k ty]|] eqn:Ei; [|discriminate].
    destruct ty as [| | | | | |c|c|c attrs static subs|item e]; try discriminate.
    - injection Et as <-. unfold parse_string. destruct (ad_string A v); try discriminate. intros [= <-]. constructor.
    - injection Et as <-. unfold parse_bool. destruct (ad_bool A v); try discriminate. intros [= <-]. constructor.
    - unfold parse_enum. destruct (ad_string A v) as [s| |]; try discriminate.
      destruct (kind_of P c) as [ms| | |]; try discriminate. injection Et as <-.
      destruct (find (fun m => str_eqb (snd m) s) ms) as [m|] eqn:F; [|discriminate]. intros [= <-].
      apply find_some in F as [F _]. constructor. now apply in_map.
    - injection Et as <-. unfold parse_sfv. destruct (ad_string A v) as [s| |]; try discriminate.
      destruct (kind_of P c); try discriminate. destruct (sfv_construct s0 s); try discriminate. intros [= <-]. constructor.
    - assert (I : In (k, RClass c attrs static subs) T) by (eapply nth_error_In; exact Ei).
      assert (K : forall l a t, In a l -> ptype_of P T (a_type a) = Some t -> Known (a_type a) t) by (intros; eexists; eauto).
      assert (R : forall i t p v, Known i t -> TypedResult t (parse V A P T repr post_parse f i p v [])).
      { intros i' t' p' v' [n' E']. eapply IH; eauto. }
      injection Et as <-. destruct (is_abstract P c).
      + unfold parse_abstract. destruct (ad_model_type A v) as [m| |]; try discriminate.
        destruct (find_subclass P T (mt_name m) subs) as [[[c' attrs'] static']|] eqn:F; [|discriminate].
        destruct (find_subclass_in _ _ _ _ _ F) as (i' & k' & ss & I' & E').
        eapply (concrete_typed _ G Known R); eauto; [eapply nth_error_In; exact E'|].
        apply in_flat_map. exists i'. split; [exact I'|]. unfold class_name_at. rewrite E'. now left.
      + destruct (parse_concrete V A P (parse V A P T repr post_parse f) c attrs static p v []) as [[o r]|] eqn:E; cbn [obind]; [|discriminate].
        intros H. assert (r = []) by (eapply (grown_nil r (finish_ post_parse o r)); [apply finish_grows|exact H]). subst r.
        assert (To : Typed D (TyObj [name_of P c]) o).
        { eapply (concrete_typed _ G Known R); eauto. now left. }
        destruct o as [| | | | | | |cn kvs| |]; try (injection H as <-; exact To).
        assert (cn = name_of P c).
        { apply typed_obj in To as (c' & fs & kvs' & E1 & [E2|[]] & _). congruence. }
        subst cn. destruct (post_parse (name_of P c)) as [g|] eqn:Eg; [|injection H as <-; exact To].
        destruct (g (VObj (name_of P c) kvs)) as [y|] eqn:Ey; cbn [obind] in H; [|discriminate]. injection H as <-.
        eapply H_post; eauto.
    - unfold parse_list. destruct (ad_list A e v) as [l| |] eqn:El; try discriminate.
      destruct (ptype_at P T n item) as [u|] eqn:Eu; [|discriminate]. injection Et as <-.
      destruct (parse_items V (parse V A P T repr post_parse f) item p 0 l []) as [[xs r]|] eqn:F; cbn [obind]; [|discriminate].
      intros [= <- ->].
      eapply (items_typed _ G Known) in F as [L M]; [|intros i' t' p' v' [n' E']; eapply IH; eauto|exists n; exact Eu].
      constructor; [|exact M]. destruct e; cbn [negb]; [discriminate|]. intros _ ->. destruct l; [|discriminate].
      now apply (H_nonempty v []).
  Qed.
End Parser.
