(** Which request every single test sends and which verdict it gives: the suites. *)
From Coq Require Import PeanoNat String List NArith ZArith Bool Lia.
From Verif Require Import PyStr PyStrFacts PyBase PyVal Codec CodecSpec CodecFacts ResultModel ResultFacts ContextModel HttpModel ConfigModel ReflectModel MetaModel
  AdapterModel ParseModel ProgModel ProgSpec ProgFacts ApiModel ApiSpec ApiSuites ApiFacts ApiBody ApiFacts2 TestSpec ApiValue VerdictSpec TestFacts TestFacts2.
Import ListNotations.
Local Open Scope string_scope.
Local Open Scope list_scope.

(** ** Routes *)
Lemma normal_tail a r r' : normal r = normal r' -> normal (a ++ r) = normal (a ++ r').
Proof. intros E. induction a as [|x a IH]; cbn [app normal]; [exact E|]. now rewrite IH. Qed.
Lemma normal_join a b r : normal (Word a :: Word b :: r) = normal (Word (a ++ b) :: r).
Proof.
  destruct a as [|x a]; [reflexivity|]. cbn [normal app]. destruct b as [|y b].
  - rewrite app_nil_r. reflexivity.
  - destruct (normal r) as [|[s| |] r']; try reflexivity. now rewrite app_assoc.
Qed.
(** [t s] is a path with the end [s], which shows what to expect of the answers *)
Definition Ends (t : string -> route) : Prop := exists r' x, forall s, t s = r' ++ [Word (x ++ lit s)].
Lemma ends_expects t s b : Ends t -> In (s, b) setup_answers -> Expects (t s) b.
Proof. intros (r' & x & E) I. rewrite E. exists r', x, s. auto. Qed.
Lemma ends_root : Ends at_root.
Proof. exists [], []. reflexivity. Qed.
Lemma ends_aas : Ends in_aas.
Proof. exists [], (lit "/aas"). reflexivity. Qed.
Lemma ends_the_submodel : Ends in_the_submodel.
Proof. exists [], (lit "/submodel"). reflexivity. Qed.
Lemma ends_shell : Ends in_shell.
Proof. exists [W "/shells/"; Ident (first_id 0)], []. reflexivity. Qed.
Lemma ends_shell_submodel : Ends in_shell_submodel.
Proof. exists [W "/shells/"; Ident (first_id 0); W "/submodels/"; Ident (first_submodel 0)], []. reflexivity. Qed.
Lemma ends_submodel : Ends in_submodel.
Proof. exists [W "/submodels/"; Ident (first_id 0)], []. reflexivity. Qed.
Lemma ends_aas_submodel : Ends in_aas_submodel.
Proof. exists [W "/aas/submodels/"; Ident (0%nat, [Member "submodels"; Item 0; Member "keys"; Item 0; Member "value"])], []. reflexivity. Qed.
(** [t s] is the path [s] below [tp] *)
Definition Ext (tp : route) (t : string -> route) : Prop := (forall s r, normal (tp ++ W s :: r) = normal (t s ++ r)) /\ Ends t.
Lemma ext_path tp t s r r' : Ext tp t -> normal r = normal r' -> normal (tp ++ Word (lit s) :: r) = normal (t s ++ r').
Proof. intros E N. etransitivity; [exact (proj1 E s r)|]. now apply normal_tail. Qed.
Lemma ext_nil tp t s r : Ext tp t -> normal r = [] -> normal (tp ++ Word (lit s) :: r) = normal (t s).
Proof. intros E N. rewrite <- (app_nil_r (t s)). now apply ext_path. Qed.
Lemma replace_behind s a src r : replace_last s r = None -> replace_last s (a ++ Ident src :: r) = Some (a ++ Word s :: r).
Proof. intros N. induction a as [|x a IH]; cbn [app replace_last]; [now rewrite N|now rewrite IH]. Qed.

Lemma text_decodes raw t : base64_text raw = Val t -> base64url_decode t = Some raw.
Proof.
  unfold base64_text, base64_string. destruct (sfv_construct (Sfv None None None None true) raw); try discriminate. cbn [obind value_text]. intros E.
  apply base64_urlsafe_spec in E. apply E.
Qed.
Lemma base64_value raw v : base64_string raw = Val v -> v = VlBase64 raw.
Proof. unfold base64_string. destruct (sfv_construct _ raw); try discriminate. congruence. Qed.
Lemma told_at t n j p s : answered t n = Some j -> text_at j p = s -> told t (n, p) = s.
Proof. intros A E. unfold told. cbn [fst snd]. now rewrite A. Qed.

(** ** Claims *)
Section Claims.
  Variables (pr : str) (t0 : trace).
  Lemma claims_nothing ans : Claims pr t0 ans Nothing (fun _ => PRet tt).
  Proof. destruct ans; cbn [Claims]; [intros j v _|split; [reflexivity|intros v]]; now apply decides_ret. Qed.
  Lemma claims_bare ans : Claims pr t0 ans Nothing (@PRet pyval).
  Proof. destruct ans; cbn [Claims]; [intros j v _|split; [reflexivity|intros v]]; now apply decides_ret. Qed.
  Lemma claims_entries item e n m : Claims pr t0 (Checked (paged_body item) e) (Entries n) (fun r => let! x := lift (result_length r) in assert_ (Nat.eqb x n) m ERROR).
  Proof.
    intros j v B. apply decides_lift. intros x X. apply (page_length item j v x B) in X. cbn [serious Holds]. apply (decides_assert _ true).
    rewrite X. rewrite Nat.eqb_eq. split; [intros ->; reflexivity|intros E; now injection E].
  Qed.
  Lemma claims_some item e m : Claims pr t0 (Checked (paged_body item) e) Some_entries (fun r => let! x := lift (result_length r) in assert_ (negb (Nat.eqb x 0)) m ERROR).
  Proof.
    intros j v B. apply decides_lift. intros x X. apply (page_length item j v x B) in X. cbn [serious Holds]. apply (decides_assert _ true).
    rewrite X. destruct x as [|x]; cbn [Nat.eqb negb]; split; [discriminate|intros (n & [=])|eauto|reflexivity].
  Qed.
  Lemma claims_more item e m : Claims pr t0 (Checked (paged_body item) e) Some_entries
    (fun r => let! x := lift (result_length r) in assert_ (Nat.ltb 0 x) m ERROR;; PRet tt).
  Proof.
    intros j v B. apply decides_lift. intros x X. apply (page_length item j v x B) in X. cbn [serious Holds].
    apply (decides_and (exists n, results j = Some (S n))); [|intros _ H; now apply decides_ret|auto]. apply (decides_assert _ true).
    rewrite X. destruct x as [|x]; split; [discriminate|intros (n & [=])|eauto|reflexivity].
  Qed.
  Lemma claims_named e m1 m2 src s : told t0 src = Some s -> Claims pr t0 (Checked (paged_body (b_obj "AssetAdministrationShell")) e) (First_named src)
    (fun r => let! x := lift (result_length r) in assert_ (Nat.ltb 0 x) m1 ERROR;;
              let! y := lift (let* y := first_result r in let* n := get y "id_short" in raw_value n) in assert_ (str_eqb y s) m2 ERROR).
  Proof.
    intros T j v B. apply decides_lift. intros x X. apply (page_length _ j v x B) in X. cbn [serious Holds].
    apply (decides_and (exists n, results j = Some (S n))).
    - apply (decides_assert _ true). rewrite X. destruct x as [|x]; split; [discriminate|intros (n & [=])|eauto|reflexivity].
    - intros _ (n & N). apply decides_lift. intros y Y. val Y. val Y. apply (decides_assert _ true).
      assert (Q : text_at j (first_of [Member "idShort"]) = Some y).
      { apply (page_text _ j v x0 _ _ B X0). intros z Bz. apply bears_model in Bz.
        apply (get_text "AssetAdministrationShell" "idShort" any_type z x0 x1); [vm_compute; reflexivity|exact Bz|exact X1|exact Y]. }
      rewrite str_eqb_spec. split.
      + intros ->. exists n, s. auto.
      + intros (n' & s' & _ & Q1 & Q2). congruence.
    - intros (n & s' & N & _). eauto.
  Qed.
  Lemma claims_identified b e f m p src raw : told t0 src = Some raw -> (forall j v s, Bears b j v -> f v = Val s -> text_at j p = Some s) ->
    Claims pr t0 (Checked b e) (Identified p src) (fun r => let! s := lift (f r) in assert_ (str_eqb s raw) m ERROR).
  Proof.
    intros T H j v B. apply decides_lift. intros s S. apply (H j v s B) in S. cbn [serious Holds]. apply (decides_assert _ true). rewrite str_eqb_spec. split.
    - intros ->. eauto.
    - intros (s' & Q1 & Q2). congruence.
  Qed.
  Lemma claims_concepts e m : Claims pr t0 (Checked (b_obj "Environment") e) (Having "conceptDescriptions")
    (fun r => let! x := lift (get r "concept_descriptions") in assert_ (negb (is_none x)) m WARNING).
  Proof.
    intros j v B. apply decides_lift. intros x X. cbn [serious Holds]. apply (decides_assert _ false). apply bears_model in B.
    destruct (carries_get "Environment" "conceptDescriptions" any_type j v x) as [(-> & N)|(y & g & Y & _ & C)]; [vm_compute; reflexivity|exact B|exact X|..].
    - rewrite N. split; [discriminate|congruence].
    - rewrite Y. split; [congruence|]. intros _. destruct x; try reflexivity. now apply carries_some in C.
  Qed.
  Lemma claims_profile e m : Claims pr t0 (Checked (BObject [(lit "profiles", (true, BList BText))]) e) Listing_suite
    (fun r => let! l := lift (let* p := get r "profiles" in as_items p) in assert_ (existsb (fun x => match x with VStr s => str_eqb pr s | _ => false end) l) m WARNING).
  Proof.
    intros j v B. apply decides_lift. intros l L. val L. cbn [serious Holds]. apply (decides_assert _ false).
    destruct (bears_member [(lit "profiles", (true, BList BText))] "profiles" true (BList BText) j v x (or_introl eq_refl) B X) as [(-> & _)|(y & Y & By)]; [discriminate|].
    inversion By as [| | |b l' xs F| | |]; subst. injection L as <-. rewrite Y.
    assert (Q : existsb (fun x => match x with VStr s => str_eqb pr s | _ => false end) xs = true <-> In (JStr pr) l').
    { clear -F. induction F as [|a x l' xs T F IH]; cbn [existsb In]; [split; [discriminate|intros []]|]. inversion T; subst. rewrite orb_true_iff, IH, str_eqb_spec.
      split; (intros [E|E]; [left; congruence|now right]). }
    rewrite Q. split; [eauto|]. intros (l1 & E & I). congruence.
  Qed.
End Claims.

Ltac pick_answer n l := lazymatch l with (n, ?a) :: _ => a | _ :: ?r => pick_answer n r end.
Ltac answer := cbn [ro_name]; lazymatch goal with |- answer_to (lit ?n) = _ =>
  let l := eval unfold answers in answers in
  lazymatch l with List.map _ ?l0 => let a := pick_answer n l0 in apply (find_answer n a); reflexivity end end.
Ltac body_index t := lazymatch t with
  | ACls k_ErrorResult => constr:(0%nat) | ACls k_AssetAdministrationShell => constr:(1%nat) | ACls k_Reference => constr:(2%nat)
  | ACls k_AssetInformation => constr:(3%nat) | ACls k_Submodel => constr:(4%nat) | ACls k_SubmodelElement => constr:(5%nat)
  | ACls k_Environment => constr:(6%nat) | ACls k_UnconstrainedReference => constr:(7%nat) | AList AStr => constr:(8%nat)
  | ACls k_ServiceDescription => constr:(9%nat) | ACls k_AasSubmodelReferences => constr:(10%nat) | ACls k_AllShells => constr:(11%nat)
  | ACls k_AllShellsReference => constr:(12%nat) | ACls k_AllSubmodelReferences => constr:(13%nat) | ACls k_AllSubmodels => constr:(14%nat)
  | ACls k_AllSubmodelsValue => constr:(15%nat) | ACls k_AllSubmodelsPath => constr:(16%nat) | ACls k_AllElements => constr:(17%nat)
  | ACls k_AllElementsValueOnly => constr:(18%nat) | ACls k_AllElementsReference => constr:(19%nat) | ACls k_AllElementsPath => constr:(20%nat)
  end.
Ltac in_bodies := match goal with |- In (?t, _) _ => let n := body_index t in apply (nth_error_In bodies n); reflexivity end.
Ltac handling := cbv [handled_as o_handling simple_op all_submodels_op by_id_op by_path_op leveled_op o_references o_shells o_shell_refs o_shell
  o_shell_ref o_elements o_elements_meta o_elements_refs o_element o_element_meta o_element_value o_element_ref o_element_path o_file
  o_serialization o_description].
Ltac is_handled := lazymatch goal with
  | |- handled_as _ (Checked _ _) _ => handling; split; [reflexivity|in_bodies]
  | |- handled_as _ (Unchecked _) ?k => unify k AStr; handling; exact Logic.I
  end.

Ltac in_answers := first [left; reflexivity|right; in_answers].
Ltac expects := cbv [the_shells the_submodels fst]; first
  [ match goal with E : Ext ?tp ?t |- Expects (?t _) _ => apply (ends_expects _ _ _ (proj2 E)) end
  | apply (ends_expects _ _ _ ends_root)
  | apply (ends_expects _ _ _ ends_aas)
  | apply (ends_expects _ _ _ ends_shell) ]; in_answers.

Section Suites.
  Variable show : json -> str.
  Variable repr : str -> str.
  Variable c0 : client.
  Hypothesis C0 : prefixes c0 = [].

  Definition below (u : trace) (tp : route) (c : client) : Prop := (forall ty, Path u ty tp (List.concat (prefixes c))) /\ host c = host c0 /\ verify c = verify c0 /\
    remove_path_prefix c = remove_path_prefix c0.
  Lemma below_root : below [] [] c0.
  Proof. unfold below. rewrite C0. repeat split. intros ty. constructor. Qed.
  Lemma below_ext u tp c : below u tp c -> forall t, below (u ++ t) tp c.
  Proof. intros (P & H) t. split; [intros ty; now apply path_ext|exact H]. Qed.
  Lemma descend_below u tp p : (forall ty, Path u ty tp p) -> below u tp (descend c0 p).
  Proof. intros M. unfold below, descend. cbn. rewrite app_nil_r. auto. Qed.

  Section Below.
    Variables (u : trace) (tp : route) (c : client).
    Hypothesis B : below u tp c.
    Lemma below_requested ty e a t' T ps : Parts u ty a (e_path e) t' -> normal (tp ++ t') = normal T -> Wanted u (e_query e) a ps -> requested (Sends c0 u ty T ps) c e a.
    Proof. destruct B as (B1 & B2 & B3 & B4). intros P N W hs r s. eapply endpoint_sends; eauto. Qed.
    Lemma error_query o i a t' row w n : i_client i = c -> Parts u None a (e_path (o_endpoint o)) t' -> normal (tp ++ t') = normal (ro_path row) ->
      Wanted u (e_query (o_endpoint o)) a [(lit n, Is (lit (snd w)))] -> One (Wrong_request c0 u row (w, In_query n)) (invoke_error show repr o i a).
    Proof. intros I P N W. apply one_error. rewrite I. exact (below_requested None _ a t' (ro_path row) _ P N W). Qed.
    Lemma error_path o i a t' row w T : i_client i = c -> Parts u None a (e_path (o_endpoint o)) t' -> replace_last (lit (snd w)) (ro_path row) = Some T ->
      normal (tp ++ t') = normal T -> Wanted u (e_query (o_endpoint o)) a [] -> One (Wrong_request c0 u row (w, In_path)) (invoke_error show repr o i a).
    Proof.
      intros I P E N W. apply one_error. rewrite I. intros hs r s R S. exists T. split; [exact E|]. exact (below_requested None _ a t' T _ P N W hs r s R S).
    Qed.
  End Below.

  Ltac meets := first [apply meets_int|apply meets_member|apply meets_dummy|eapply meets_id; eassumption|eapply meets_asset; eassumption|eapply meets_text; eassumption
    |apply meets_true|apply meets_str].
  Ltac wanted := repeat first [apply wanted_nil|apply wanted_skip; [reflexivity|]|apply wanted_take; [meets|]].
  Ltac parts := repeat first [apply Pt_nil|apply Pt_text|eapply Pt_id; [reflexivity|eassumption|]|eapply Pt_path; [reflexivity|eassumption|]].
  Ltac wrong_parts := repeat first [apply Pt_nil|apply Pt_text|eapply Pt_wrong; [reflexivity|]].
  Ltac norm := cbn [ro_path]; lazymatch goal with
    | E : Ext ?tp ?t |- normal (?tp ++ _) = normal (?t _) => apply (ext_nil _ _ _ _ E); reflexivity
    | E : Ext ?tp ?t |- normal (?tp ++ _) = normal (?t _ ++ _) => apply (ext_path _ _ _ _ _ E); reflexivity
    | |- Expects _ _ => expects
    | |- _ => vm_compute; reflexivity
    end.

  (** ** Instances *)
  Definition Bare (t : trace) (i : instance) : Prop := i_valid_arguments i = [] /\ i_cursor i = None.
  Definition Cursored (n : nat) (t : trace) (i : instance) : Prop :=
    i_valid_arguments i = [] /\ i_cursor i = told t (n, [Member "paging_metadata"; Member "cursor"]).
  Definition Shells (t : trace) (i : instance) : Prop :=
    Cursored 0 t i /\ told t first_short = Some (i_valid_id_short i) /\ exists k v, i_asset_id i = VlAssetId k v /\ told_asset t 0 = Some (k, v).
  Definition Valid (t : trace) (i : instance) : Prop := i_valid_arguments i = [] /\ told t (first_id 0) = Some (i_valid_id i).
  Definition ById (src : source) (t : trace) (i : instance) : Prop :=
    i_valid_arguments i = [(lit "submodel_id", VlBase64 (i_valid_id i))] /\ told t src = Some (i_valid_id i).
  Definition Serial (t : trace) (i : instance) : Prop :=
    i_valid_arguments i = [] /\ told t (first_id 0) = Some (i_valid_id i) /\ told t (first_submodel 0) = Some (i_valid_submod_id i).
  Definition ByPath (n : nat) (t : trace) (i : instance) : Prop :=
    i_paths i = fold_left add_to (elements t n) [] /\ exists p, i_valid_arguments i = [(lit "id_short_path", VlStr p)] /\ first_path None (elements t n) = Some p.

  (** ** Setups *)
  Definition prepares (tp : route) (n : nat) (l : list (route * params)) (W : trace -> instance -> Prop) (setup : instance -> prog instance) : Prop :=
    forall u c pr i, List.length u = n -> below u tp c -> i_client i = c -> i_profile i = pr -> Bare u i ->
    Follows show repr c0 u l (setup i) (fun t i' => below t tp c /\ i_client i' = c /\ i_profile i' = pr /\ W t i').
  Lemma no_prepares tp n : prepares tp n [] Bare no_setup.
  Proof. intros u c pr i _ B I P H. apply follows_ret. auto. Qed.
  Section Fetch.
    Variables (u : trace) (tp : route) (c : client) (T : route).
    Hypothesis B : below u tp c.
    Lemma shells_fetch : normal (tp ++ at_root "/shells") = normal T ->
      Fetches show repr (Sends c0 u None T one) (paged_body (b_obj "AssetAdministrationShell")) (get_all_shells show repr c limit1).
    Proof. intros N. unfold get_all_shells. apply fetch_decode; [in_bodies|]. eapply below_requested; [exact B|parts|exact N|wanted]. Qed.
    Lemma references_fetch : normal (tp ++ at_root "/submodel-refs") = normal T ->
      Fetches show repr (Sends c0 u None T one) (paged_body (b_obj "Reference")) (get_all_submodel_references show repr c limit1).
    Proof. intros N. unfold get_all_submodel_references. apply fetch_decode; [in_bodies|]. eapply below_requested; [exact B|parts|exact N|wanted]. Qed.
    Lemma submodels_fetch : normal (tp ++ at_root "/submodels") = normal T ->
      Fetches show repr (Sends c0 u None T one) (paged_body (b_obj "Submodel")) (get_all_submodels show repr c limit1).
    Proof. intros N. unfold get_all_submodels. apply fetch_decode; [in_bodies|]. eapply below_requested; [exact B|parts|exact N|wanted]. Qed.
    Lemma elements_fetch : normal (tp ++ at_root "/submodel-elements") = normal T ->
      Fetches show repr (Sends c0 u None T []) (paged_body (b_obj "SubmodelElement")) (get_all_submodel_elements show repr c []).
    Proof. intros N. unfold get_all_submodel_elements. apply fetch_decode; [in_bodies|]. eapply below_requested; [exact B|parts|exact N|wanted]. Qed.
    Lemma shell_fetch : normal (tp ++ at_root "/") = normal T ->
      Fetches show repr (Sends c0 u None T []) (b_obj "AssetAdministrationShell") (get_shell show repr c).
    Proof. intros N. unfold get_shell. apply fetch_decode; [in_bodies|]. eapply below_requested; [exact B|parts|exact N|wanted]. Qed.
  End Fetch.
  Lemma first_identifier n j v x s : having n "id" any_type = true -> Bears (paged_body (b_obj n)) j v -> first_result v = Val x -> raw_id x = Val s ->
    text_at j (first_of [Member "id"]) = Some s.
  Proof. intros H B F R. apply (page_text _ j v x _ _ B F). intros y By. apply bears_model in By. now apply (id_text n y x). Qed.
  Lemma first_of_shell j v x l m s : Bears (paged_body (b_obj "AssetAdministrationShell")) j v -> first_result v = Val x -> get x "submodels" = Val l -> first l = Val m ->
    first_key m = Val s -> text_at j (first_of submodel_key) = Some s.
  Proof. intros B F G Fi K. apply (page_text _ j v x _ _ B F). intros y By. apply bears_model in By. now apply (shell_submodel y x l m). Qed.
  Ltac value E y := apply (f_equal (fun o => match o with Val x => x | _ => y end)) in E.
  Lemma all_shells_prepares tp T : normal (tp ++ at_root "/shells") = normal T -> Expects T (paged_body (b_obj "AssetAdministrationShell")) -> prepares tp 0 [(T, one)] Shells (setup_all_shells show repr).
  Proof.
    intros N Ex u c pr i L B I P [V Cu]. unfold setup_all_shells. rewrite I. eapply follows_fetch; [now apply (shells_fetch u tp c T B)|exact Ex|]. intros t j v y A Be E.
    rewrite L in A. do 7 val E. val E. value E y. subst y. cbn [i_client i_profile]. split; [now apply below_ext|]. split; [reflexivity|]. split; [exact P|].
    assert (S : shell_asset x = Val x5).
    { unfold shell_asset. rewrite X2. cbn [obind]. rewrite X3. cbn [obind]. rewrite X4. cbn [obind]. exact X5. }
    destruct (page_asset j v x x5 Be X S) as (k & s & -> & Q). unfold Shells, Cursored. cbn [i_valid_arguments i_cursor i_valid_id_short i_asset_id].
    split; [split; [exact V|]|split].
    - symmetry. apply (told_at _ _ j _ _ A). exact (page_cursor _ j v _ Be ltac:(eassumption)).
    - apply (told_at _ _ j _ _ A). apply (page_text _ j v x _ _ Be X). intros z Bz. apply bears_model in Bz.
      apply (get_text "AssetAdministrationShell" "idShort" any_type z x x0); [vm_compute; reflexivity|exact Bz|exact X0|exact X1].
    - exists k, s. split; [reflexivity|]. unfold told_asset. now rewrite A.
  Qed.
  Lemma valid_id_prepares tp T : normal (tp ++ at_root "/shells") = normal T -> Expects T (paged_body (b_obj "AssetAdministrationShell")) -> prepares tp 0 [(T, one)] Valid (setup_valid_id show repr).
  Proof.
    intros N Ex u c pr i L B I P [V Cu]. unfold setup_valid_id. rewrite I. eapply follows_fetch; [now apply (shells_fetch u tp c T B)|exact Ex|]. intros t j v y A Be E.
    rewrite L in A. val E. val E. value E y. subst y. split; [now apply below_ext|]. split; [exact I|]. split; [exact P|]. split; [exact V|].
    apply (told_at _ _ j _ _ A). apply (first_identifier "AssetAdministrationShell" j v x); [vm_compute; reflexivity|assumption..].
  Qed.
  Lemma references_prepares tp n T : normal (tp ++ at_root "/submodel-refs") = normal T -> Expects T (paged_body (b_obj "Reference")) -> prepares tp n [(T, one)] (Cursored n) (setup_references show repr).
  Proof.
    intros N Ex u c pr i L B I P [V Cu]. unfold setup_references. rewrite I. eapply follows_fetch; [now apply (references_fetch u tp c T B)|exact Ex|]. intros t j v y A Be E.
    rewrite L in A. val E. value E y. subst y. split; [now apply below_ext|]. split; [exact I|]. split; [exact P|]. split; [exact V|]. symmetry. apply (told_at _ _ j _ _ A). exact (page_cursor _ j v _ Be ltac:(eassumption)).
  Qed.
  Lemma submodels_prepares tp n T : normal (tp ++ at_root "/submodels") = normal T -> Expects T (paged_body (b_obj "Submodel")) -> prepares tp n [(T, one)] (Cursored n) (setup_submodels show repr).
  Proof.
    intros N Ex u c pr i L B I P [V Cu]. unfold setup_submodels. rewrite I. eapply follows_fetch; [now apply (submodels_fetch u tp c T B)|exact Ex|]. intros t j v y A Be E.
    rewrite L in A. val E. value E y. subst y. split; [now apply below_ext|]. split; [exact I|]. split; [exact P|]. split; [exact V|]. symmetry. apply (told_at _ _ j _ _ A). exact (page_cursor _ j v _ Be ltac:(eassumption)).
  Qed.
  Lemma cursor_prepares tp n T o t' k item : (forall u, Parts u None limit1 (e_path (o_endpoint o)) t') -> normal (tp ++ t') = normal T ->
    (forall u, Wanted u (e_query (o_endpoint o)) limit1 one) -> o_handling o = Decoded k -> In (k, paged_body item) bodies -> Expects T (paged_body item) ->
    prepares tp n [(T, one)] (Cursored n) (setup_cursor show repr o).
  Proof.
    intros Pa N W H Ib Ex u c pr i L B I P [V Cu]. unfold setup_cursor. eapply follows_fetch; [|exact Ex|].
    - apply (fetch_success show repr _ o i limit1 k (paged_body item) H Ib). rewrite I. now apply (below_requested u tp c B None _ _ t').
    - intros t j v y A Be E. rewrite L in A. val E. value E y. subst y. split; [now apply below_ext|]. split; [exact I|]. split; [exact P|]. split; [exact V|].
      symmetry. apply (told_at _ _ j _ _ A). exact (page_cursor _ j v _ Be ltac:(eassumption)).
  Qed.
  Lemma for_aas_prepares tp n T : normal (tp ++ at_root "/submodel-refs") = normal T -> Expects T (paged_body (b_obj "Reference")) -> prepares tp n [(T, one)] (ById (first_reference n)) (setup_for_aas show repr).
  Proof.
    intros N Ex u c pr i L B I P [V Cu]. unfold setup_for_aas. rewrite I. eapply follows_fetch; [now apply (references_fetch u tp c T B)|exact Ex|]. intros t j v y A Be E.
    rewrite L in A. do 3 val E. value E y. subst y. split; [now apply below_ext|]. split; [exact I|]. split; [exact P|]. apply base64_value in X1. subst x1.
    unfold ById. cbn [i_valid_arguments set_argument set_valid_id i_valid_id]. rewrite V. split; [reflexivity|].
    apply (told_at _ _ j _ _ A). apply (page_text _ j v x _ _ Be X). intros z Bz. apply bears_model in Bz. now apply (key_text z x).
  Qed.
  Lemma for_submodel_prepares tp n T : normal (tp ++ at_root "/submodels") = normal T -> Expects T (paged_body (b_obj "Submodel")) -> prepares tp n [(T, one)] (ById (first_id n)) (setup_for_submodel show repr).
  Proof.
    intros N Ex u c pr i L B I P [V Cu]. unfold setup_for_submodel. rewrite I. eapply follows_fetch; [now apply (submodels_fetch u tp c T B)|exact Ex|]. intros t j v y A Be E.
    rewrite L in A. do 3 val E. value E y. subst y. split; [now apply below_ext|]. split; [exact I|]. split; [exact P|]. apply base64_value in X1. subst x1.
    unfold ById. cbn [i_valid_arguments set_argument set_valid_id i_valid_id]. rewrite V. split; [reflexivity|].
    apply (told_at _ _ j _ _ A). apply (first_identifier "Submodel" j v x); [vm_compute; reflexivity|assumption..].
  Qed.
  Lemma serialization_prepares tp T : normal (tp ++ at_root "/shells") = normal T -> Expects T (paged_body (b_obj "AssetAdministrationShell")) -> prepares tp 0 [(T, one)] Serial (setup_serialization show repr).
  Proof.
    intros N Ex u c pr i L B I P [V Cu]. unfold setup_serialization. rewrite I. eapply follows_fetch; [now apply (shells_fetch u tp c T B)|exact Ex|]. intros t j v y A Be E.
    rewrite L in A. do 7 val E. value E y. subst y. split; [now apply below_ext|]. split; [reflexivity|]. split; [exact P|]. unfold Serial. cbn [i_valid_arguments i_valid_id i_valid_submod_id].
    split; [exact V|]. split.
    - apply (told_at _ _ j _ _ A). apply (first_identifier "AssetAdministrationShell" j v x); [vm_compute; reflexivity|assumption..].
    - apply (told_at _ _ j _ _ A). now apply (first_of_shell j v x x2 x3).
  Qed.
  Lemma elements_prepares tp n T : normal (tp ++ at_root "/submodel-elements") = normal T -> Expects T (paged_body (b_obj "SubmodelElement")) -> prepares tp n [(T, [])] (ByPath n) (setup_elements show repr).
  Proof.
    intros N Ex u c pr i L B I P [V Cu]. unfold setup_elements. rewrite I. eapply follows_fetch; [now apply (elements_fetch u tp c T B)|exact Ex|]. intros t j v y A Be E.
    rewrite L in A. do 4 val E. value E y. subst y. split; [now apply below_ext|]. split; [reflexivity|]. split; [exact P|]. unfold ByPath. cbn [i_paths i_valid_arguments]. rewrite V.
    destruct (page_paths j v x x0 x1 Be X X0 X1) as (js & J & ->).
    assert (Q : elements (u ++ t) n = paths_of 0 js) by (unfold elements; now rewrite A, J). rewrite Q. split; [reflexivity|]. exists x2. split; [reflexivity|].
    rewrite first_any. destruct (fold_left add_to (paths_of 0 js) []) as [|[k [|p l]] d]; [discriminate..|]. now injection X2 as ->.
  Qed.

  (** ** Prefixes *)
  Definition leads (l : list (route * params)) (p : client -> prog str) (tp : route) : Prop := Follows show repr c0 [] l (p c0) (fun t pre => forall ty, Path t ty tp pre).
  Lemma fixed_leads s : leads [] (fixed_prefix s) (at_root s).
  Proof. unfold leads, fixed_prefix. apply follows_ret. intros ty. unfold at_root, TestSpec.W. rewrite <- (app_nil_r (lit s)) at 2. repeat constructor. Qed.
  Lemma aas_repo_leads : leads [the_shells] (aas_repo_prefix show repr) [W "/shells/"; Ident (first_id 0)].
  Proof.
    unfold leads, aas_repo_prefix. eapply follows_fetch; [now apply (shells_fetch [] [] c0 _ below_root)|expects|]. intros t j v y A Be E ty. do 3 val E. value E y. subst y.
    apply P_word. rewrite <- (app_nil_r x1). eapply P_ident; [|apply text_decodes; eassumption|constructor].
    apply (told_at _ _ j _ _ A). apply (first_identifier "AssetAdministrationShell" j v x); [vm_compute; reflexivity|assumption..].
  Qed.
  Lemma aas_repo_submodel_leads : leads [the_shells] (aas_repo_submodel_prefix show repr) [W "/shells/"; Ident (first_id 0); W "/submodels/"; Ident (first_submodel 0)].
  Proof.
    unfold leads, aas_repo_submodel_prefix. eapply follows_fetch; [now apply (shells_fetch [] [] c0 _ below_root)|expects|]. intros t j v y A Be E ty. do 9 val E. value E y. subst y.
    apply P_word. eapply P_ident; [|apply text_decodes; unfold base64_text; rewrite X1; exact X6|].
    { apply (told_at _ _ j _ _ A). apply (first_identifier "AssetAdministrationShell" j v x); [vm_compute; reflexivity|assumption..]. }
    apply P_word. rewrite <- (app_nil_r x7). eapply P_ident; [|apply text_decodes; unfold base64_text; rewrite X5; exact X7|constructor].
    apply (told_at _ _ j _ _ A). now apply (first_of_shell j v x x2 x3).
  Qed.
  Lemma submodel_repo_leads : leads [the_submodels] (submodel_repo_submodel_prefix show repr) [W "/submodels/"; Ident (first_id 0)].
  Proof.
    unfold leads, submodel_repo_submodel_prefix. eapply follows_fetch; [now apply (submodels_fetch [] [] c0 _ below_root)|expects|]. intros t j v y A Be E ty. do 3 val E. value E y. subst y.
    apply P_word. rewrite <- (app_nil_r x1). eapply P_ident; [|apply text_decodes; eassumption|constructor].
    apply (told_at _ _ j _ _ A). apply (first_identifier "Submodel" j v x); [vm_compute; reflexivity|assumption..].
  Qed.
  Lemma aas_submodel_leads : leads [(at_root "/", [])] (aas_submodel_prefix show repr)
    [W "/aas/submodels/"; Ident (0%nat, [Member "submodels"; Item 0; Member "keys"; Item 0; Member "value"])].
  Proof.
    unfold leads, aas_submodel_prefix. eapply follows_fetch; [now apply (shell_fetch [] [] c0 _ below_root)|expects|]. intros t j v y A Be E ty. do 4 val E. value E y. subst y.
    apply P_word. rewrite <- (app_nil_r x2). eapply P_ident; [|apply text_decodes; eassumption|constructor].
    apply (told_at _ _ j _ _ A). apply bears_model in Be. now apply (shell_submodel j v x x0).
  Qed.

  (** ** Rows *)
  Notation J ans k pr := (Verdict ans (Accepts show repr k) (Spotless show repr k) pr).
  Lemma handled_type h a k : handled_as h a k -> type_of_answer a k.
  Proof. destruct h, a as [b e|[]]; cbn; tauto. Qed.
  Lemma row_of p o err setup tests tp l1 l2 W row ans k : leads l1 p tp -> ro_setup row = l1 ++ l2 -> o_name o = ro_name row -> prepares tp (List.length l1) l2 W setup ->
    answer_to (lit (ro_name row)) = ans -> handled_as (o_handling o) ans k ->
    (forall t c pr i, below t tp c -> i_client i = c -> i_profile i = pr -> handled_as (o_handling o) ans k -> W t i ->
       ready c0 (J ans k pr) (suite_of o err setup tests) row t i) -> fits_row show repr c0 (p, suite_of o err setup tests) row.
  Proof.
    intros P S Nm Se An Ha Re. split; [cbn [snd suite_of su_operation]; now rewrite Nm|]. exists k. rewrite An. split; [exact (handled_type _ _ _ Ha)|].
    intros profile. unfold verdict. rewrite An. cbn [fst snd]. rewrite S. eapply follows_bind; [exact P|]. intros t pre L M. cbn [app] in *.
    pose proof (descend_below t tp pre M) as B.
    eapply follows_weak; [|apply (Se t (descend c0 pre) profile); [exact L|exact B|reflexivity|reflexivity|split; reflexivity]].
    intros t' i (B' & I & Pr & Wi). now apply (Re t' (descend c0 pre) profile).
  Qed.

  Section Tests.
    Variables (t0 : trace) (tp : route) (c : client) (T : route) (i : instance) (o : op) (pr : str) (ans : answer) (k : ann).
    Hypothesis B : below t0 tp c.
    Hypothesis I : i_client i = c.
    Hypothesis Pr : i_profile i = pr.
    Hypothesis Ha : handled_as (o_handling o) ans k.
    Notation test_ok := (test_ok c0 (J ans k pr) T t0 i).
    (** the requests of the operation with these arguments *)
    Definition requests (ty : option string) (a : args) (ps : params) : Prop :=
      exists t', Parts t0 ty a (e_path (o_endpoint o)) t' /\ normal (tp ++ t') = normal T /\ Wanted t0 (e_query (o_endpoint o)) a ps.
    Lemma requests_sends ty a ps : requests ty a ps -> requested (Sends c0 t0 ty T ps) (i_client i) (o_endpoint o) a.
    Proof. intros (t' & P & N & W). rewrite I. now apply (below_requested t0 tp c B ty _ a t'). Qed.
    Lemma ok_tested title (p : instance -> prog unit) ps cl : Tested (Sends c0 t0 None T ps) (J ans k pr cl t0) (p i) -> test_ok (title, p) (Check title Once ps cl).
    Proof.
      intros H. split; [reflexivity|]. intros m srv h es ov r h1 E. destruct (H _ _ _ _ _ _ _ E) as (s & y & -> & Ss & V). exists [(s, y)].
      split; [reflexivity|]. exists s, y. auto.
    Qed.
    Lemma ok_claim title (p : instance -> prog unit) a ps cl f : p i = pbind (invoke_success show repr o i a) f -> requests None a ps -> cl <> Refusal -> Claims pr t0 ans cl f ->
      test_ok (title, p) (Check title Once ps cl).
    Proof. intros E R N Cl. apply ok_tested. rewrite E. apply success_tested; [exact Ha|now apply requests_sends|exact N|exact Cl]. Qed.
    Lemma ok_invoke title a ps : requests None a ps -> test_ok (t_invoke show repr o title a) (Check title Once ps Nothing).
    Proof. intros R. eapply ok_claim; [reflexivity|exact R|discriminate|apply claims_nothing]. Qed.
    Lemma one_entry item e m : ans = Checked (paged_body item) e -> requests None limit1 one ->
      Tested (Sends c0 t0 None T one) (J ans k pr (Entries 1) t0) (let! r := invoke_success show repr o i limit1 in let! n := lift (result_length r) in assert_ (Nat.eqb n 1) m ERROR).
    Proof. intros E R. apply success_tested; [exact Ha|now apply requests_sends|discriminate|]. rewrite E. apply claims_entries. Qed.
    Lemma ok_paging item e n : ans = Checked (paged_body item) e -> i_valid_arguments i = [] -> i_cursor i = told t0 (n, [Member "paging_metadata"; Member "cursor"]) ->
      requests None limit1 one -> Forall2 test_ok (pagination show repr o) (paging (cursor n)).
    Proof.
      intros A V Cu R. repeat apply Forall2_cons; [..|apply Forall2_nil].
      - apply ok_tested. rewrite V, app_nil_r. now apply (one_entry item e).
      - split; [reflexivity|]. intros m srv h es ov r h1 E. cbn [snd t_pagination] in E. rewrite V, app_nil_r in E. unfold Exchanges. cbn [ch_times ch_params ch_claim cursor].
        eapply asked_if; [|exact E]. rewrite <- Cu. destruct (i_cursor i); [|reflexivity]. now apply (one_entry item e).
    Qed.
    Lemma ok_paging_never item e : ans = Checked (paged_body item) e -> i_valid_arguments i = [] -> i_cursor i = None ->
      requests None limit1 one -> Forall2 test_ok (pagination show repr o) (paging Never).
    Proof.
      intros A V Cu R. repeat apply Forall2_cons; [..|apply Forall2_nil].
      - apply ok_tested. rewrite V, app_nil_r. now apply (one_entry item e).
      - split; [reflexivity|]. intros m srv h es ov r h1 E. cbn [snd t_pagination] in E. rewrite Cu in E. apply skipped in E. destruct E as [-> L].
        exists []. rewrite app_nil_r. split; [reflexivity|]. split; auto.
    Qed.
    Lemma ok_types n supported supported' title kw ps : supported' = supported -> i_paths i = fold_left add_to (elements t0 n) [] ->
      (forall ty p, first_path (Some ty) (elements t0 n) = Some p -> requests (Some ty) ((lit "id_short_path", VlStr p) :: kw) ps) ->
      test_ok (t_types show repr o supported title kw) (each n supported' title ps).
    Proof.
      intros -> P R. split; [reflexivity|]. intros m srv h es ov r h1 E. cbn [snd t_types] in E.
      refine (types_tested show repr (J ans k pr) (fun ty => Sends c0 t0 ty T ps) o i kw supported t0 n Nothing P _ _ _ m srv h es ov r h1 E).
      - intros ty p F. apply requests_sends. now apply R.
      - intros ty a Q. apply tested_bare. apply success_tested; [exact Ha|exact Q|discriminate|apply claims_bare].
      - intros ty a Q. now apply error_tested.
    Qed.
    Lemma ok_by_id title arg check cl : requests None [(lit arg, VlBase64 (i_valid_id i))] [] -> cl <> Refusal ->
      Claims pr t0 ans cl (fun r => match check with
        | None => PRet tt
        | Some (f, m) => let! s := lift (f r) in assert_ (str_eqb s (i_valid_id i)) (lit m) ERROR
        end) -> test_ok (t_by_id show repr o title arg check) (claims title [] cl).
    Proof.
      intros R N Cl. apply ok_tested. apply tested_raise. intros v V. apply base64_value in V. subst v.
      apply success_tested; [exact Ha|now apply requests_sends|exact N|exact Cl].
    Qed.
    Lemma ok_file n : i_paths i = fold_left add_to (elements t0 n) [] ->
      (forall p, first_path (Some "File") (elements t0 n) = Some p -> requests (Some "File") [(lit "id_short_path", VlStr p)] []) ->
      test_ok (t_file show repr o) (Check (lit "test_no_params") (For_type n "File") [] Nothing).
    Proof.
      intros P R. split; [reflexivity|]. intros m srv h es ov r h1 E. cbn [snd t_file] in E. rewrite P in E. unfold Exchanges. cbn [ch_times ch_params ch_claim].
      eapply asked_if; [|exact E]. clear E. pose proof (first_type "File" (elements t0 n)) as F.
      destruct (lookup (lit "File") (fold_left add_to (elements t0 n) [])) as [[|p l]|]; rewrite F; [reflexivity| |reflexivity].
      apply success_tested; [exact Ha|apply requests_sends; now apply R|discriminate|apply claims_nothing].
    Qed.
    Lemma ok_filter_named e : ans = Checked (paged_body (b_obj "AssetAdministrationShell")) e -> told t0 first_short = Some (i_valid_id_short i) ->
      requests None [(lit "id_short", VlStr (i_valid_id_short i))] [(lit "idShort", The_text first_short)] ->
      test_ok (t_filter_by_idshort show repr o true) (by_id_short (First_named first_short)).
    Proof. intros A Ts R. eapply ok_claim; [reflexivity|exact R|discriminate|]. rewrite A. now apply claims_named. Qed.
    Lemma ok_filter item e : ans = Checked (paged_body item) e ->
      requests None [(lit "id_short", VlStr (i_valid_id_short i))] [(lit "idShort", The_text first_short)] ->
      test_ok (t_filter_by_idshort show repr o false) (by_id_short Some_entries).
    Proof. intros A R. eapply ok_claim; [reflexivity|exact R|discriminate|]. rewrite A. apply claims_more. Qed.
    Lemma ok_shells item e n v : ans = Checked (paged_body item) e -> i_asset_id i = VlAssetId n v -> requests None [] [] ->
      requests None [(lit "id_short", VlStr (lit "does-not-exist"))] [is_ "idShort" "does-not-exist"] ->
      requests None [(lit "asset_id", VlAssetId n v)] [(lit "assetIds", The_asset 0)] -> Forall2 test_ok (t_shells show repr o) filters.
    Proof.
      intros A As R1 R2 R3. repeat apply Forall2_cons; [..|apply Forall2_nil]; [now apply ok_invoke|..].
      - eapply ok_claim; [reflexivity|exact R2|discriminate|]. rewrite A. apply claims_entries.
      - eapply ok_claim; [cbn beta; rewrite As; reflexivity|exact R3|discriminate|]. rewrite A. apply claims_some.
    Qed.
  End Tests.

  (** ** Operations *)
  Ltac requests := intros; eexists; split; [parts|split; [norm|wanted]].
  Ltac one_error B I := first
    [eapply (error_query _ _ _ B); [exact I|parts|norm|wanted]
    |eapply (error_path _ _ _ B); [exact I|wrong_parts|cbn [ro_path]; first [apply replace_behind; reflexivity|vm_compute; reflexivity]|norm|wanted]].
  Ltac evaluate := lazymatch goal with |- ?x = _ => let z := eval vm_compute in x in transitivity z; [vm_compute; reflexivity|reflexivity] end.
  Ltac negs B I := cbn [suite_of su_signature su_invoke_error su_tests ro_wrong];
    repeat first [apply N_nil|apply N_skip; [vm_compute; reflexivity|]|eapply N_take; [evaluate|evaluate|reflexivity|one_error B I|]].
  Ltac identified := first
    [apply claims_nothing
    |cbv beta iota; eapply claims_identified; [eassumption|]; intros j v s Be Ev; apply bears_model in Be;
     first [now apply (key_text j v)|eapply id_text; [|exact Be|exact Ev]; vm_compute; reflexivity]].
  Ltac tests B I Ha := cbn [suite_of su_tests ro_tests ro_path];
    repeat lazymatch goal with
    | |- Forall2 _ [] [] => apply Forall2_nil
    | |- Forall2 _ (pagination _ _ _) (paging Never) => eapply (ok_paging_never _ _ _ _ _ _ _ _ _ B I Ha); [reflexivity|assumption|assumption|requests]
    | |- Forall2 _ (pagination _ _ _) (paging _) => eapply (ok_paging _ _ _ _ _ _ _ _ _ B I Ha); [reflexivity|assumption|eassumption|requests]
    | |- Forall2 _ (_ ++ _) (_ ++ _) => apply Forall2_app
    | |- Forall2 _ (t_elements _ _ _) leveled => repeat apply Forall2_cons; [..|apply Forall2_nil]
    | |- Forall2 _ (t_levels _ _ _ _) (leveled_each _) => repeat apply Forall2_cons; [..|apply Forall2_nil]
    | |- Forall2 _ (_ :: _) (_ :: _) => apply Forall2_cons
    | |- context [t_invoke] => apply (ok_invoke _ _ _ _ _ _ _ _ _ B I Ha); requests
    | |- context [t_types] => eapply (ok_types _ _ _ _ _ _ _ _ _ B I Ha); [reflexivity|eassumption|requests]
    | |- context [t_by_id] => apply (ok_by_id _ _ _ _ _ _ _ _ _ B I Ha); [requests|discriminate|identified]
    | |- context [t_file] => eapply (ok_file _ _ _ _ _ _ _ _ _ B I Ha); [eassumption|requests]
    | |- context [t_filter_by_idshort _ _ _ true] => eapply (ok_filter_named _ _ _ _ _ _ _ _ _ B I Ha); [reflexivity|eassumption|requests]
    | |- context [t_filter_by_idshort _ _ _ false] => eapply (ok_filter _ _ _ _ _ _ _ _ _ B I Ha); [reflexivity|requests]
    end.
  Ltac case1 := let B := fresh "B" in let I := fresh "I" in let V := fresh "V" in let Ha := fresh "Ha" in let Pr := fresh "Pr" in
    intros t1 c pr i B I Pr Ha (V & ?); split; [rewrite V; negs B I|tests B I Ha].
  Ltac case2 := let B := fresh "B" in let I := fresh "I" in let V := fresh "V" in let Ha := fresh "Ha" in let Pr := fresh "Pr" in
    intros t1 c pr i B I Pr Ha (? & ? & V & ?); split; [rewrite V; negs B I|tests B I Ha].
  Ltac row L S P C := eapply row_of; [exact L|S|reflexivity|P|answer|is_handled|C].
  Ltac prep_cursor := eapply cursor_prepares; [intros; parts|norm|intros; wanted|handling; reflexivity|in_bodies|expects].
  Ltac same_setup := first [symmetry; apply app_nil_r|reflexivity].
  Lemma element_rows_fit p tp t before : leads before p tp -> Ext tp t -> Forall2 (fits_row show repr c0) (elements_suites show repr p) (element_rows t before).
  Proof.
    intros L E. unfold elements_suites, element_rows. cbv zeta. repeat apply Forall2_cons; [..|apply Forall2_nil].
    - row L ltac:(reflexivity) ltac:(prep_cursor) ltac:(case1).
    - row L ltac:(reflexivity) ltac:(prep_cursor) ltac:(case1).
    - row L ltac:(reflexivity) ltac:(prep_cursor) ltac:(case1).
    - row L ltac:(same_setup) ltac:(apply no_prepares) ltac:(case1).
    - row L ltac:(reflexivity) ltac:(prep_cursor) ltac:(case1).
    - row L ltac:(reflexivity) ltac:(eapply elements_prepares; norm) ltac:(case2).
    - row L ltac:(reflexivity) ltac:(eapply elements_prepares; norm) ltac:(case2).
    - row L ltac:(reflexivity) ltac:(eapply elements_prepares; norm) ltac:(case2).
    - row L ltac:(reflexivity) ltac:(eapply elements_prepares; norm) ltac:(case2).
    - row L ltac:(reflexivity) ltac:(eapply elements_prepares; norm) ltac:(case2).
    - row L ltac:(reflexivity) ltac:(eapply elements_prepares; norm) ltac:(case2).
  Qed.
  Lemma by_id_rows_fit p tp t before l src setup : leads before p tp -> Ext tp t -> prepares tp (List.length before) l (ById src) setup ->
    Forall2 (fits_row show repr c0) (by_id_suites show repr p setup) (by_id_rows t (before ++ l) src).
  Proof.
    intros L E S. unfold by_id_suites, by_id_rows. cbv zeta. repeat apply Forall2_cons; [..|apply Forall2_nil]; row L ltac:(reflexivity) ltac:(exact S) ltac:(case1).
  Qed.
  Lemma shell_rows_fit p tp t before : leads before p tp -> Ext tp t -> Forall2 (fits_row show repr c0) (shell_suites show repr p) (shell_rows t before).
  Proof.
    intros L E. unfold shell_suites, shell_rows. repeat apply Forall2_cons; [..|apply Forall2_nil].
    - row L ltac:(same_setup) ltac:(apply no_prepares) ltac:(case1).
    - row L ltac:(same_setup) ltac:(apply no_prepares) ltac:(case1).
    - row L ltac:(reflexivity) ltac:(eapply references_prepares; norm) ltac:(case1).
  Qed.
  Lemma simple_row_fit p tp o title T before name ans k : leads before p tp -> o_sig o = [] -> (forall t0, requests t0 tp T o None [] []) -> o_name o = name ->
    answer_to (lit name) = ans -> handled_as (o_handling o) ans k ->
    fits_row show repr c0 (p, simple_suite show repr o title) (Row name T before [] [once title []]).
  Proof.
    intros L S R N A H. eapply row_of; [exact L|symmetry; apply app_nil_r|exact N|apply no_prepares|exact A|exact H|]. intros t1 c pr i B I Pr Ha [V _].
    split; cbn [suite_of su_signature su_tests ro_wrong ro_tests ro_path].
    - rewrite S. constructor.
    - apply Forall2_cons; [|apply Forall2_nil]. apply (ok_invoke _ _ _ _ _ _ _ _ _ B I Ha). apply R.
  Qed.
  Lemma common_rows_fit p tp t : leads [] p tp -> Ext tp t ->
    Forall2 (fits_row show repr c0) [(p, GenerateSerialization show repr); (no_prefix, GetDescription show repr)] (common_rows t).
  Proof.
    intros L E. unfold common_rows. repeat apply Forall2_cons; [..|apply Forall2_nil].
    - row L ltac:(reflexivity) ltac:(eapply serialization_prepares; norm) ltac:(idtac). intros t1 c pr i B I Pr Ha (V & T1 & T2). split; [rewrite V; negs B I|tests B I Ha].
      + eapply (ok_claim _ _ _ _ _ _ _ _ _ B I Ha); [reflexivity|requests|discriminate|apply claims_nothing].
      + eapply (ok_claim _ _ _ _ _ _ _ _ _ B I Ha); [reflexivity|requests|discriminate|apply claims_nothing].
      + eapply (ok_claim _ _ _ _ _ _ _ _ _ B I Ha); [reflexivity|requests|discriminate|apply claims_concepts].
    - row (fixed_leads "") ltac:(reflexivity) ltac:(apply no_prepares) ltac:(idtac). intros t1 c pr i B I Pr Ha (V & T1). split; [rewrite V; negs B I|tests B I Ha].
      eapply (ok_claim _ _ _ _ _ _ _ _ _ B I Ha); [cbn beta; rewrite Pr; reflexivity|requests|discriminate|apply claims_profile].
  Qed.

  (** ** Suites *)
  Lemma ext_none : Ext (at_root "") at_root.
  Proof. split; [intros s r; reflexivity|exact ends_root]. Qed.
  Lemma ext_aas : Ext (at_root "/aas") in_aas.
  Proof. split; [intros s r; apply normal_join|exact ends_aas]. Qed.
  Lemma ext_submodel : Ext (at_root "/submodel") in_the_submodel.
  Proof. split; [intros s r; apply normal_join|exact ends_the_submodel]. Qed.
  Ltac shells_case := intros t1 c pr i B I Pr Ha ((V & Cu) & Sh & n & v & A1 & A2); split; [rewrite V; negs B I|];
    cbn [suite_of su_tests ro_tests ro_path]; apply Forall2_app; [eapply (ok_shells _ _ _ _ _ _ _ _ _ B I Ha _ _ n v); [reflexivity|exact A1|requests..]|tests B I Ha].
  Lemma repository_rows_fit : Forall2 (fits_row show repr c0)
    [(no_prefix, GetAllAas show repr); (no_prefix, GetAllAasRefs show repr); (no_prefix, GetAasById show repr); (no_prefix, GetAasByIdReference show repr)]
    (firstn 4 shell_repository_rows).
  Proof.
    pose proof (fixed_leads "") as L. unfold shell_repository_rows. cbn [firstn app]. repeat apply Forall2_cons; [..|apply Forall2_nil].
    - row L ltac:(reflexivity) ltac:(eapply all_shells_prepares; norm) ltac:(shells_case).
    - row L ltac:(reflexivity) ltac:(eapply all_shells_prepares; norm) ltac:(shells_case).
    - row L ltac:(reflexivity) ltac:(eapply valid_id_prepares; norm) ltac:(case1).
    - row L ltac:(reflexivity) ltac:(eapply valid_id_prepares; norm) ltac:(case1).
  Qed.
  Lemma all_submodels_fit name path t d b item e : normal (at_root "" ++ at_root path) = normal (at_root path) ->
    answer_to (lit name) = Checked (paged_body item) e -> In (ACls t, paged_body item) bodies ->
    fits_row show repr c0 (no_prefix, all_submodels_suite show repr (all_submodels_op name path t d) b) (submodels_row name path b).
  Proof.
    intros N A H. pose proof (fixed_leads "") as L. unfold all_submodels_suite, submodels_row.
    eapply row_of; [exact L|reflexivity|reflexivity|eapply submodels_prepares; norm|exact A|split; [reflexivity|exact H]|].
    intros t1 c pr i B I Pr Ha [V Cu]. split; [rewrite V|]; cbn [suite_of su_signature su_invoke_error su_tests ro_wrong ro_tests ro_path].
    - eapply N_take; [evaluate|evaluate|reflexivity|eapply (error_query _ _ _ B); [exact I|parts|exact N|wanted]|].
      apply N_skip; [vm_compute; reflexivity|]. apply N_nil.
    - assert (R1 : requests t1 (at_root "") (at_root path) (all_submodels_op name path t d) None [] []) by (eexists; split; [parts|split; [exact N|wanted]]).
      assert (R2 : requests t1 (at_root "") (at_root path) (all_submodels_op name path t d) None limit1 one) by (eexists; split; [parts|split; [exact N|wanted]]).
      destruct b; [apply Forall2_app|apply Forall2_cons];
      try (eapply (ok_paging _ _ _ _ _ _ _ _ _ B I Ha); [reflexivity|exact V|exact Cu|exact R2]);
      [apply Forall2_cons; [|apply Forall2_nil]|]; now apply (ok_invoke _ _ _ _ _ _ _ _ _ B I Ha).
  Qed.
  Ltac simple L := eapply simple_row_fit; [exact L|reflexivity|requests|reflexivity|answer|is_handled].
  Theorem suites_conducted : Forall2 (fun x y => fst x = fst y /\ Forall2 (fits_row show repr c0) (snd x) (snd y)) (available_suites show repr) conducted.
  Proof.
    pose proof (fixed_leads "") as L0. pose proof (fixed_leads "/aas") as LA. pose proof (fixed_leads "/submodel") as LS.
    unfold available_suites, conducted. repeat apply Forall2_cons; [..|apply Forall2_nil]; (split; [reflexivity|]); cbn [snd].
    - change shell_repository_rows with (firstn 4 shell_repository_rows ++ shell_rows in_shell [the_shells] ++
        by_id_rows in_shell ([the_shells] ++ [(in_shell "/submodel-refs", one)]) (first_reference 1) ++ element_rows in_shell_submodel [the_shells] ++ common_rows at_root).
      apply Forall2_app; [apply repository_rows_fit|]. apply Forall2_app; [apply (shell_rows_fit _ _ _ _ aas_repo_leads); split; [intros s r; reflexivity|exact ends_shell]|].
      apply Forall2_app; [apply (by_id_rows_fit _ _ _ _ _ _ _ aas_repo_leads); [split; [intros s r; reflexivity|exact ends_shell]|apply for_aas_prepares; [vm_compute; reflexivity|expects]]|].
      apply Forall2_app; [apply (element_rows_fit _ _ _ _ aas_repo_submodel_leads); split; [intros s r; reflexivity|exact ends_shell_submodel]|apply (common_rows_fit _ _ _ L0 ext_none)].
    - unfold submodel_repository_rows. apply Forall2_app.
      { repeat apply Forall2_cons; [..|apply Forall2_nil]; (eapply all_submodels_fit; [reflexivity|answer|in_bodies]). }
      apply Forall2_app; [apply (by_id_rows_fit _ _ _ [] [the_submodels] _ _ L0 ext_none); apply for_submodel_prepares; [vm_compute; reflexivity|expects]|].
      apply Forall2_app; [apply (element_rows_fit _ _ _ _ submodel_repo_leads); split; [intros s r; reflexivity|exact ends_submodel]|apply (common_rows_fit _ _ _ L0 ext_none)].
    - unfold shell_service_rows. apply Forall2_app.
      { repeat apply Forall2_cons; [..|apply Forall2_nil]; simple LA. }
      apply Forall2_app; [apply (shell_rows_fit _ _ _ _ LA ext_aas)|].
      apply Forall2_app; [apply (by_id_rows_fit _ _ _ [] [(in_aas "/submodel-refs", one)] _ _ LA ext_aas); apply for_aas_prepares; [vm_compute; reflexivity|expects]|].
      apply Forall2_app; [apply (element_rows_fit _ _ _ _ aas_submodel_leads); split; [intros s r; reflexivity|exact ends_aas_submodel]|apply (common_rows_fit _ _ _ LA ext_aas)].
    - unfold submodel_service_rows. apply Forall2_app.
      { repeat apply Forall2_cons; [..|apply Forall2_nil]; simple LS. }
      apply Forall2_app; [apply (element_rows_fit _ _ _ _ LS ext_submodel)|apply (common_rows_fit _ _ _ LS ext_submodel)].
  Qed.
End Suites.
