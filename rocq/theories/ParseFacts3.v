(** The meta model check of JSON documents. *)
From Coq Require Import PeanoNat Lia String List NArith Bool Permutation.
From Verif Require Import PyStr PyBase PyXml PyVal PyStrFacts Regex DataTypesModel ReflectModel MetaModel AdapterModel ParseModel
  ResultModel MetaSpec MetaFacts ConstraintModel CheckModel ParseSpec ParseFacts ParseFacts2 ParseSim.
Import ListNotations.
Local Open Scope list_scope.

Lemma list_max_in n l : In n l -> n <= list_max l.
Proof. intros I. pose proof (proj1 (list_max_le l (list_max l)) (le_n _)) as F. rewrite Forall_forall in F. auto. Qed.
Lemma list_max_map {A} (f : A -> nat) x l : In x l -> f x <= list_max (List.map f l).
Proof. intros I. apply list_max_in. now apply in_map. Qed.

(** ** The types of the symbol table *)
Fixpoint gtype_of (fuel : nat) (i : nat) : option gtype :=
  match nth_error model_table i with
  | Some (_, RSfv c) => match find (fun e => Nat.eqb (fst e) c) string_types with Some e => Some (GText (snd e)) | None => None end
  | Some (_, RString) => Some GPlain
  | Some (_, RBool) => Some GBool
  | Some (_, REnum c) => match kind_of model_classes c with KEnum ms => Some (GEnum (List.map snd ms)) | _ => None end
  | Some (_, RClass c _ _ _) => Some (GObj (spec_name (name_of model_classes c)))
  | Some (_, RList j false) => match fuel with O => None | S f => option_map GList (gtype_of f j) end
  | _ => None
  end.
Definition entry_fits (i : nat) : bool :=
  match gtype_of 5 i with Some g => fitsb model_classes model_table string_types i g | None => false end.
Lemma entries_fit i : i < length model_table -> exists g, Fits model_classes model_table i g.
Proof.
  intros L. assert (X : forallb entry_fits (seq 0 (length model_table)) = true) by (vm_compute; reflexivity).
  assert (I : In i (seq 0 (length model_table))) by (apply in_seq; lia).
  apply (proj1 (forallb_forall _ _) X) in I. unfold entry_fits in I. destruct (gtype_of 5 i) as [g|]; [|discriminate].
  exists g. apply (fitsb_ok _ _ _ string_types_ok). exact I.
Qed.

Lemma model_symbols_eq : model_symbols = Val model_table.
Proof. unfold model_symbols. rewrite model_table_eq. reflexivity. Qed.

Section Json.
  Variable show : json -> str.
  Variable repr : str -> str.
  Notation W := json_view.
  Notation M := aas_v3_0_checked.
  Notation P := model_classes.
  Notation T := model_table.

  Lemma J_string v s : ad_string (json_adapter show) v = AOk s <-> w_text W v = Some s.
  Proof. destruct v; simpl; split; congruence. Qed.
  Lemma J_bool v b : ad_bool (json_adapter show) v = AOk b <-> w_flag W v = Some b.
  Proof. destruct v; simpl; split; congruence. Qed.
  Lemma J_list v l : ad_list (json_adapter show) false v = AOk l <-> w_items W v = Some l /\ l <> [].
  Proof.
    destruct v as [| | | | |k|]; simpl; try (split; [discriminate|intros []; discriminate]).
    destruct k; simpl; split; try discriminate; try congruence; try (intros [A B]; congruence).
    intros [= <-]. split; congruence.
  Qed.
  Lemma J_object v kvs : ad_object (json_adapter show) v = AOk kvs <-> w_members W v = Some kvs.
  Proof. destruct v; simpl; split; congruence. Qed.
  Lemma J_tag v t : (exists m, ad_model_type (json_adapter show) v = AOk m /\ mt_name m = Some t) <-> w_tag W v = Some t.
  Proof.
    destruct v as [| | | | | |kvs]; simpl; try (split; [intros (m & A & _); discriminate|discriminate]).
    destruct (lookup (lit "modelType") kvs) as [x|]; [|split; [intros (m & A & _); discriminate|discriminate]].
    split.
    - intros (m & [= <-] & E). simpl in E. destruct x; congruence.
    - destruct x; try discriminate. intros [= ->]. eexists. split; [reflexivity|reflexivity].
  Qed.
  Lemma J_items v l x : w_items W v = Some l -> In x l -> json_depth x < json_depth v.
  Proof. destruct v as [| | | | |k|]; simpl; try discriminate. intros [= ->] I. apply (list_max_map json_depth) in I. lia. Qed.
  Lemma J_members v kvs k x : w_members W v = Some kvs -> In (k, x) kvs -> json_depth x < json_depth v.
  Proof.
    destruct v as [| | | | | |kv]; simpl; try discriminate. intros [= <-] I. apply filter_In in I. destruct I as [I _].
    apply (list_max_map (fun kv => json_depth (snd kv))) in I. simpl in I. lia.
  Qed.

  Lemma json_crash : (forall v e, ad_string (json_adapter show) v <> ACrash e) /\
    (forall v e, ad_bool (json_adapter show) v <> ACrash e) /\ (forall v e, ad_list (json_adapter show) false v <> ACrash e) /\
    (forall v e, ad_object (json_adapter show) v <> ACrash e) /\ (forall v e, ad_model_type (json_adapter show) v <> ACrash e).
  Proof.
    repeat apply conj; intros v e; destruct v as [| | | | |k|kvs]; simpl; try discriminate.
    - destruct (Nat.eqb _ _ && _); discriminate.
    - destruct (lookup _ kvs); discriminate.
  Qed.

  Theorem json_correct f i g p v r : Fits P T i g -> json_depth v < f ->
    Correct json M W g p v r (parse json (json_adapter show) P T repr model_post_parse f i p v r).
  Proof.
    intros F D. destruct json_crash as (K1 & K2 & K3 & K4 & K5).
    eapply (parse_correct json (json_adapter show) P T M repr model_post_parse W J_string J_bool J_list J_object J_tag
              json_depth J_items J_members (fun _ => True)); auto using model_describes, model_names.
    - exact table_built.
    - exact (model_post_ok json W).
  Qed.
End Json.

(** ** Reordering members *)
Section Order.
  Variable show : json -> str.
  Variable repr : str -> str.
  Variable P : list classdecl.
  Variable T : table.
  Variable post_parse : str -> option (pyval -> outcome pyval).

  Lemma reordered_text v v' : Reordered v v' -> match v with JArr _ | JObj _ => True | _ => v' = v end.
  Proof. intros H. destruct H as [v A B| |]; auto. destruct v; auto. Qed.
  Lemma lookup_perm {B} k (l l' : list (str * B)) : Permutation (List.map fst l) (List.map fst l') ->
    (lookup k l = None <-> lookup k l' = None).
  Proof.
    intros Pm. rewrite !lookup_None. split; intros N I; apply N.
    - eapply Permutation_in; [apply Permutation_sym; exact Pm|exact I].
    - eapply Permutation_in; [exact Pm|exact I].
  Qed.
  Definition members_of (kvs : list (str * json)) := filter (fun kv => negb (str_eqb (fst kv) (lit "modelType"))) kvs.
  Lemma lookup_members k kvs : lookup k (members_of kvs) = if str_eqb k (lit "modelType") then None else lookup k kvs.
  Proof.
    induction kvs as [|[m x] kvs IH]; cbn [members_of filter lookup]; [now destruct (str_eqb k (lit "modelType"))|].
    cbn [fst]. destruct (str_eqb m (lit "modelType")) eqn:E; cbn [negb].
    - fold (members_of kvs). rewrite IH. apply str_eqb_spec in E. subst m. destruct (str_eqb k (lit "modelType")) eqn:E'; reflexivity.
    - cbn [lookup]. fold (members_of kvs). rewrite IH. destruct (str_eqb k m) eqn:E'; [|reflexivity].
      apply str_eqb_spec in E'. subst m. now rewrite E.
  Qed.
  Lemma filter_keys_length {B} (f : str -> bool) (l : list (str * B)) :
    length (filter (fun kv => f (fst kv)) l) = length (filter f (List.map fst l)).
  Proof. induction l as [|[k x] l IH]; simpl; [reflexivity|]. destruct (f k); simpl; now rewrite IH. Qed.
  Lemma perm_filter_length (f : str -> bool) l l' : Permutation l l' -> length (filter f l) = length (filter f l').
  Proof.
    induction 1; simpl; auto; [destruct (f x)|destruct (f x), (f y)|]; simpl; try lia; try congruence.
  Qed.
  Lemma filter_filter {B} (f g : B -> bool) l : filter f (filter g l) = filter (fun x => f x && g x) l.
  Proof. induction l as [|x l IH]; simpl; [reflexivity|]. destruct (g x) eqn:E; simpl; rewrite ?andb_true_r, ?andb_false_r, ?IH; reflexivity. Qed.

  Lemma reordered_members kvs kvs' attrs : Permutation (List.map fst kvs) (List.map fst kvs') ->
    (forall k x y, lookup k kvs = Some x -> lookup k kvs' = Some y -> Reordered x y) ->
    same_members json json (fun _ => Reordered) attrs (members_of kvs) (members_of kvs').
  Proof.
    intros Pm H. split.
    - intros a _. rewrite !lookup_members. destruct (str_eqb (json_name a) (lit "modelType")); [exact I|].
      pose proof (lookup_perm (json_name a) kvs kvs' Pm) as L. specialize (H (json_name a)).
      destruct (lookup (json_name a) kvs), (lookup (json_name a) kvs'); auto.
      + destruct L as [_ L]. specialize (L eq_refl). discriminate.
      + destruct L as [L _]. specialize (L eq_refl). discriminate.
    - unfold unknowns, members_of. rewrite !filter_filter.
      rewrite (filter_keys_length (fun k => negb (str_in k (List.map json_name attrs)) && negb (str_eqb k (lit "modelType"))) kvs).
      rewrite (filter_keys_length (fun k => negb (str_in k (List.map json_name attrs)) && negb (str_eqb k (lit "modelType"))) kvs').
      now apply perm_filter_length.
  Qed.

  Theorem reordered_sim f f' i p v v' r r' : json_depth v < f -> json_depth v' < f' -> Reordered v v' -> paths r = paths r' ->
    same (parse json (json_adapter show) P T repr post_parse f i p v r)
         (parse json (json_adapter show) P T repr post_parse f' i p v' r').
  Proof.
    intros D D' Rv E.
    assert (DL : forall b v l x, ad_list (json_adapter show) b v = AOk l -> In x l -> json_depth x < json_depth v).
    { intros b w l x. destruct w as [| | | | |k|]; simpl; try discriminate. destruct (Nat.eqb (length k) 0 && negb b); [discriminate|].
      intros [= ->] I. apply (list_max_map json_depth) in I. lia. }
    assert (DO : forall v l k x, ad_object (json_adapter show) v = AOk l -> In (k, x) l -> json_depth x < json_depth v).
    { intros w l k x A I. apply J_object in A. eapply J_members; eauto. }
    assert (TG : forall v v', Reordered v v' -> same_res (fun m m' => mt_name m = mt_name m')
                  (ad_model_type (json_adapter show) v) (ad_model_type (json_adapter show) v')).
    { clear. intros v v' H. destruct H as [v A B|l l' L H|kvs kvs' Pm H]; simpl; auto.
      - destruct v; simpl; auto. destruct (B _ eq_refl).
      - pose proof (lookup_perm (lit "modelType") kvs kvs' Pm) as L. specialize (H (lit "modelType")).
        destruct (lookup (lit "modelType") kvs) as [x|], (lookup (lit "modelType") kvs') as [y|]; simpl; auto.
        + specialize (H x y eq_refl eq_refl). destruct H as [w A B| |]; simpl; auto.
        + destruct L as [_ L]. specialize (L eq_refl). discriminate.
        + destruct L as [L _]. specialize (L eq_refl). discriminate. }
    apply (parse_sim json json (json_adapter show) (json_adapter show) P T repr post_parse json_depth json_depth DL DL DO DO
             (fun _ => Reordered)); auto.
    - intros i0 k t v1 v2 _ _ H. destruct H as [w A B| |]; simpl; auto. destruct w; simpl; auto.
    - intros i0 k v1 v2 _ H. destruct H as [w A B| |]; simpl; auto. destruct w; simpl; auto.
    - intros i0 k j e v1 v2 _ H. destruct H as [w A B|l l' L H|]; simpl; auto; [destruct w; simpl; auto; now destruct (A _ eq_refl)|].
      rewrite <- L. destruct (Nat.eqb (length l) 0 && negb e); simpl; auto. clear -L H. revert l' L H.
      induction l as [|x l IH]; intros [|y l'] L H; try discriminate; constructor.
      + apply (H 0); reflexivity.
      + apply IH; [now injection L|]. intros i x0 y0. apply (H (S i)).
    - intros i0 v1 v2 c attrs _ H. destruct H as [w A B|l l' L H|kvs kvs' Pm H]; simpl; auto.
      + destruct w; simpl; auto. now destruct (B _ eq_refl).
      + now apply reordered_members.
  Qed.
End Order.
