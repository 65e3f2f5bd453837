(** The exceptions of the setups, of the tests, and of all operations in the tables. *)
From Coq Require Import PeanoNat String List NArith ZArith Bool Lia.
From Verif Require Import PyStr PyStrFacts PyBase PyVal Codec CodecSpec CodecFacts ResultModel ResultFacts ContextModel HttpModel ConfigModel ReflectModel ReflectFacts MetaModel MetaSpec MetaFacts
  AdapterModel ParseModel ParseSpec ParseFacts ProgModel ProgSpec ProgFacts ApiModel ApiSpec ApiSuites ApiFacts ApiBody ApiFacts2 ApiFacts3
  TestSpec ApiValue TestFacts TestFacts2 TestFacts3 CrashSpec CrashValue CrashFacts CrashFacts2.
From Verif Require P_Cli.
Import ListNotations.
Local Open Scope string_scope.
Local Open Scope list_scope.
Local Opaque aas_v3_0_checked model_classes.

(** ** Members that are always there *)
Definition demanding (n m : string) : bool :=
  negb (str_eqb (lit m) (lit "modelType")) &&
  forallb (fun c => if fits_name (lit n) c then existsb (fun a => str_eqb (g_name a) (lit m) && g_required a) (gc_attrs c) else true) aas_v3_0_checked.
Lemma conforms_demanding n m kvs : demanding n m = true -> conforms (GObj (lit n)) (JObj kvs) -> lookup (lit m) kvs <> None.
Proof.
  intros H C. unfold demanding in H. apply andb_prop in H. destruct H as [Hm H].
  inversion C as [| | | | |n' v' c kvs' E Tg Me R K A]; subst.
  destruct (expected_fits _ _ _ E) as [Ic F]. pose proof (proj1 (forallb_forall _ _) H _ Ic) as Q. cbn beta in Q. rewrite F in Q.
  apply existsb_exists in Q. destruct Q as (a & Ia & Q). apply andb_prop in Q. destruct Q as [Qn Qp]. apply str_eqb_spec in Qn.
  cbn [json_view w_members] in Me. injection Me as <-. specialize (R a Ia Qp). rewrite Qn, (other_members _ _ Hm) in R. exact R.
Qed.
Lemma demanding_id n : In n ["AssetAdministrationShell"; "Submodel"] -> demanding n "id" = true.
Proof. intros [<-|[<-|[]]]; vm_compute; reflexivity. Qed.
Lemma identified_id n j v : In n ["AssetAdministrationShell"; "Submodel"] -> Solid n j v -> exists s, raw_id v = Val s.
Proof.
  intros I S. destruct (solid_text n "id" j v (having_id n I) S) as (kvs & x & -> & G & [(_ & L)|(s & k & _ & -> & _)]).
  - exfalso. exact (conforms_demanding n "id" kvs (demanding_id n I) (proj2 S) L).
  - exists s. unfold raw_id. change (get v "id") with (getattr v (snake_case (lit "id"))). rewrite G. reflexivity.
Qed.
Lemma identified_key j v : Solid "Reference" j v -> exists s, first_key v = Val s.
Proof.
  intros S. unfold first_key. destruct (solid_list "Reference" "keys" "Key" j v) as (kvs & x & -> & G & F); [vm_compute; reflexivity|exact S|].
  change (get v "keys") with (getattr v (snake_case (lit "keys"))). rewrite G. cbn [obind].
  destruct F as [(_ & L)|(l & xs & L & -> & N & F)].
  - exfalso. refine (conforms_demanding "Reference" "keys" kvs _ (proj2 S) L). vm_compute. reflexivity.
  - destruct F as [|y z l xs K F]; [congruence|]. cbn [first obind].
    destruct (solid_text "Key" "value" y z) as (kv' & x & -> & G' & [(_ & L')|(s & k & _ & -> & _)]); [vm_compute; reflexivity|exact K|..];
    change (get z "value") with (getattr z (snake_case (lit "value"))).
    + exfalso. refine (conforms_demanding "Key" "value" kv' _ (proj2 K) L'). vm_compute. reflexivity.
    + rewrite G'. exists s. reflexivity.
Qed.
Lemma xml_base64 s : Forall XmlChar s -> base64_string s = Val (VlBase64 s).
Proof.
  intros X. unfold base64_string. assert (B : sfv_construct (Sfv None None None None true) s = Built) by (apply sfv_spec; cbn; auto). now rewrite B.
Qed.
Lemma sayable_text s : Sayable s -> exists t, base64_text s = Val t.
Proof. intros S. destruct (sayable_base64 s S) as [E [t T]]. exists t. unfold base64_text. rewrite E. exact T. Qed.

(** ** Requests *)
Lemma low_scalar s : forallb (fun c => N.ltb c 55296) s = true -> Forall scalar s.
Proof. intros H. apply Forall_forall. intros c I. pose proof (proj1 (forallb_forall _ _) H c I) as L. apply N.ltb_lt in L. left. exact L. Qed.
Ltac scalars := first [assumption|apply xml_scalar; assumption|apply low_scalar; vm_compute; reflexivity].
Ltac fits := lazymatch goal with
  | |- fit_part _ (Text _) => exact Logic.I
  | |- fit_part _ (Arg _) => cbn [fit_part]; lazymatch goal with |- Path_fit ?v => let w := eval vm_compute in v in change (Path_fit w); cbn [Path_fit]; first [exact Logic.I|scalars] end
  | |- fit_query _ _ => split; [apply low_scalar; vm_compute; reflexivity|cbn [fst snd];
      lazymatch goal with |- Query_fit ?b ?v => let w := eval vm_compute in v in change (Query_fit b w); first [assumption|cbn [Query_fit]; first [exact Logic.I|scalars]] end]
  end.
Ltac reduce_op := cbv [o_endpoint e_path e_query simple_op all_submodels_op by_id_op by_path_op leveled_op o_references o_shells o_shell_refs o_shell
  o_shell_ref o_elements o_elements_meta o_elements_refs o_element o_element_meta o_element_value o_element_ref o_element_path o_file
  o_serialization o_description e_shells e_elements paged_endpoint q qe].
Ltac sendable_fit := apply fit_sendable; reduce_op; repeat (apply Forall_cons; [fits|]); apply Forall_nil.

Section Rows.
  Variable show : json -> str.
  Variable repr : str -> str.
  Variable c0 : client.

  Section Row.
    Variable row : row.
    Notation Untold := (Untold show repr row).
    Notation Steps := (Steps show repr row).
    Notation Ends := (Ends show repr row).
    (** what is read from an answer of the setup *)
    Definition Reads {X} (n : nat) (j : json) (o : outcome X) (R : X -> Prop) : Prop := match o with Val x => R x | Raise e => Untold n j e end.
    Definition wanted_at (n : nat) (p : list step) : Prop := (n < List.length (ro_setup row))%nat /\ In (n, p) (needed row).
    Lemma untold_at n p j e : wanted_at n p -> fault (Some j) p = Some e -> Untold n j e.
    Proof. intros [L I] F ct. now apply (Cr_untold show repr row n ct j p e). Qed.
    Lemma reads_val {X} n j (x : X) (R : X -> Prop) : R x -> Reads n j (Val x) R.
    Proof. auto. Qed.
    Lemma reads_step {X Y} n j (o : outcome X) x (f : X -> outcome Y) (R : Y -> Prop) : o = Val x -> Reads n j (f x) R -> Reads n j (obind o f) R.
    Proof. now intros ->. Qed.
    Lemma reads_tells {X Y} n j y q p (o : outcome X) (S : X -> Prop) (f : X -> outcome Y) (R : Y -> Prop) : Tells y p o S ->
      fault (Some j) q = fault (Some y) p -> wanted_at n q -> (forall x, S x -> Reads n j (f x) R) -> Reads n j (obind o f) R.
    Proof. unfold Tells. intros T E W F. destruct o as [x|e]; cbn [obind]; [now apply F|]. apply (untold_at n q); [exact W|]. now rewrite E. Qed.
    Lemma reads_first {Y} n p j v item (f : pyval -> outcome Y) (R : Y -> Prop) : Firm (paged_body item) j v -> wanted_at n (first_of p) ->
      (forall y z, Firm item y z -> (forall p, fault (Some j) (first_of p) = fault (Some y) p) -> Reads n j (f z) R) -> Reads n j (obind (first_result v) f) R.
    Proof.
      intros F W H. apply firm_first in F. destruct (first_result v) as [z|e]; cbn [obind].
      - destruct F as (y & Fy & _ & E). now apply (H y z).
      - destruct F as [_ E]. apply (untold_at n _ _ _ W). apply E.
    Qed.
    Lemma reads_submodel {Y} n j y z q (f : str -> outcome Y) (R : Y -> Prop) : Solid "AssetAdministrationShell" y z ->
      fault (Some j) q = fault (Some y) submodel_key -> wanted_at n q -> (forall s, Sayable s -> Reads n j (f s) R) ->
      Reads n j (let* l := get z "submodels" in let* m := first l in let* k := first_key m in f k) R.
    Proof.
      intros S E W F. apply solid_submodel in S. unfold Tells in S.
      destruct (get z "submodels") as [l|e]; cbn [obind] in *; [|apply (untold_at n q); [exact W|now rewrite E]].
      destruct (first l) as [m|e]; cbn [obind] in *; [|apply (untold_at n q); [exact W|now rewrite E]].
      destruct (first_key m) as [k|e]; cbn [obind] in *; [|apply (untold_at n q); [exact W|now rewrite E]]. now apply F.
    Qed.
    Lemma reads_raw {Y} n j y z q (f : str -> outcome Y) (R : Y -> Prop) : Solid "AssetAdministrationShell" y z ->
      fault (Some j) q = fault (Some y) [Member "idShort"] -> wanted_at n q -> (forall s, Sayable s -> Reads n j (f s) R) ->
      Reads n j (let* m := get z "id_short" in let* k := raw_value m in f k) R.
    Proof.
      intros S E W F. apply solid_short in S. unfold Tells in S.
      destruct (get z "id_short") as [l|e]; cbn [obind] in *; [|apply (untold_at n q); [exact W|now rewrite E]].
      destruct (raw_value l) as [m|e]; cbn [obind] in *; [|apply (untold_at n q); [exact W|now rewrite E]]. now apply F.
    Qed.
    Lemma reads_asset {Y} n j y z q (f : value -> outcome Y) (R : Y -> Prop) : Solid "AssetAdministrationShell" y z ->
      fault (Some j) q = fault (Some y) [Member "assetInformation"; Member "globalAssetId"] -> wanted_at n q -> (forall a b, Reads n j (f (VlAssetId a b)) R) ->
      Reads n j (let* info := get z "asset_information" in
          let* g := get info "global_asset_id" in let* global := raw_value g in
          let* asset :=
            match global with
            | _ :: _ => Val (VlAssetId (lit "globalAssetId") global)
            | [] => let* l := get info "specific_asset_ids" in let* x := first l in
                    let* n := get x "name" in let* n := raw_value n in
                    let* v := get x "value" in let* v := raw_value v in
                    Val (VlAssetId n v)
            end in f asset) R.
    Proof.
      intros S E W F. apply solid_asset in S.
      lazymatch goal with |- Reads n j ?o R => assert (Q : o = obind (shell_asset z) f) end.
      { unfold shell_asset. destruct (get z "asset_information") as [info|e]; [|reflexivity]. cbn [obind].
        destruct (get info "global_asset_id") as [g|e]; [|reflexivity]. cbn [obind]. destruct (raw_value g) as [global|e]; reflexivity. }
      rewrite Q. eapply reads_tells; [exact S|exact E|exact W|]. intros x (a & b & ->). apply F.
    Qed.

    (** ** Prefixes *)
    Definition Leading (p : client -> prog str) (k : nat) : Prop := Steps 0 k (p c0) (fun _ => True).
    Lemma fixed_leading s : Leading (fixed_prefix s) 0.
    Proof. now apply steps_ret. Qed.
    Ltac base := match goal with S : Sayable ?s |- _ => lazymatch goal with
      | |- context [base64_text s] => let t := fresh "t" in let T := fresh "T" in destruct (sayable_text s S) as [t T]; eapply reads_step; [exact T|]
      | |- context [base64_string s] => eapply reads_step; [exact (proj1 (sayable_base64 s S))|] end end.
    Lemma aas_repo_leading : wanted_at 0 (snd (first_id 0)) -> Leading (aas_repo_prefix show repr) 1.
    Proof.
      intros W. unfold Leading, aas_repo_prefix, get_all_shells. eapply steps_fetch; [sendable_fit|in_bodies|]. intros j v F.
      eapply (reads_first 0 _ j v _ _ _ F W). intros y z Fz E. apply firm_model in Fz.
      eapply reads_tells; [apply (solid_id "AssetAdministrationShell"); [now left|exact Fz]|apply (E [Member "id"])|exact W|]. intros s S. cbv beta. base. now apply reads_val.
    Qed.
    Lemma submodel_repo_leading : wanted_at 0 (snd (first_id 0)) -> Leading (submodel_repo_submodel_prefix show repr) 1.
    Proof.
      intros W. unfold Leading, submodel_repo_submodel_prefix, get_all_submodels. eapply steps_fetch; [sendable_fit|in_bodies|]. intros j v F.
      eapply (reads_first 0 _ j v _ _ _ F W). intros y z Fz E. apply firm_model in Fz.
      eapply reads_tells; [apply (solid_id "Submodel"); [right; now left|exact Fz]|apply (E [Member "id"])|exact W|]. intros s S. cbv beta. base. now apply reads_val.
    Qed.
    Lemma aas_submodel_leading : wanted_at 0 submodel_key -> Leading (aas_submodel_prefix show repr) 1.
    Proof.
      intros W. unfold Leading, aas_submodel_prefix, get_shell. eapply steps_fetch; [sendable_fit|in_bodies|]. intros j v F. apply firm_model in F.
      eapply (reads_submodel 0 j j v submodel_key _ _ F eq_refl W). intros s S. cbv beta. base. now apply reads_val.
    Qed.
    Lemma aas_repo_submodel_leading : wanted_at 0 (snd (first_id 0)) -> wanted_at 0 (snd (first_submodel 0)) -> Leading (aas_repo_submodel_prefix show repr) 1.
    Proof.
      intros W W'. unfold Leading, aas_repo_submodel_prefix, get_all_shells. eapply steps_fetch; [sendable_fit|in_bodies|]. intros j v F.
      eapply (reads_first 0 _ j v _ _ _ F W). intros y z Fz E. apply firm_model in Fz.
      eapply reads_tells; [apply (solid_id "AssetAdministrationShell"); [now left|exact Fz]|apply (E [Member "id"])|exact W|]. intros s S. cbv beta. eapply reads_step; [exact (proj1 (sayable_base64 s S))|].
      eapply reads_submodel; [exact Fz|apply (E submodel_key)|exact W'|]. intros s' S'. cbv beta. eapply reads_step; [exact (proj1 (sayable_base64 s' S'))|].
      destruct (proj2 (sayable_base64 s S)) as [t T]. destruct (proj2 (sayable_base64 s' S')) as [t' T'].
      eapply reads_step; [exact T|]. eapply reads_step; [exact T'|]. now apply reads_val.
    Qed.

    (** ** Setups *)
    Definition no_args (a : args) : Prop := a = [].
    Definition id_args (a : args) : Prop := exists s, a = [(lit "submodel_id", VlBase64 s)] /\ Forall scalar s.
    Definition path_args (a : args) : Prop := exists s, a = [(lit "id_short_path", VlStr s)].
    Definition Prepared (n k : nat) (va : args -> Prop) (setup : instance -> prog instance) : Prop :=
      forall c pr, Steps n k (setup (new_instance c pr)) (Sound_instance va).
    Ltac sound := repeat split; cbn [i_valid_arguments i_valid_id i_valid_id_short i_asset_id i_valid_submod_id i_paths set_argument set_valid_id set_cursor new_instance];
      try (apply Forall_nil); try exact Logic.I; try (exists []; reflexivity); try scalars.
    Lemma none_prepared n : Prepared n 0 no_args no_setup.
    Proof. intros c pr. apply steps_ret. sound. Qed.
    Lemma cursor_prepared n item j v c pr : Firm (paged_body item) j v ->
      Reads n j (let* x := cursor_of v in Val (set_cursor (new_instance c pr) x)) (Sound_instance no_args).
    Proof. intros F. destruct (firm_cursor item j v F) as [x E]. eapply reads_step; [exact E|]. apply reads_val. sound. Qed.
    Lemma references_prepared n : Prepared n 1 no_args (setup_references show repr).
    Proof.
      intros c pr. unfold setup_references, get_all_submodel_references. eapply steps_fetch; [sendable_fit|in_bodies|]. intros j v F. exact (cursor_prepared n _ j v c pr F).
    Qed.
    Lemma submodels_prepared n : Prepared n 1 no_args (setup_submodels show repr).
    Proof.
      intros c pr. unfold setup_submodels, get_all_submodels. eapply steps_fetch; [sendable_fit|in_bodies|]. intros j v F. exact (cursor_prepared n _ j v c pr F).
    Qed.
    Lemma own_cursor_prepared n o k item : accepts (o_sig o) limit1 = true -> o_handling o = Decoded k -> In (k, paged_body item) bodies -> Sendable (o_endpoint o) limit1 ->
      Prepared n 1 no_args (setup_cursor show repr o).
    Proof.
      intros A H I S c pr. unfold setup_cursor, invoke_success, call. rewrite A, H. eapply steps_fetch; [exact S|exact I|]. intros j v F.
      exact (cursor_prepared n _ j v c pr F).
    Qed.
    Lemma all_shells_prepared n : wanted_at n (first_of [Member "idShort"]) -> wanted_at n (first_of [Member "assetInformation"; Member "globalAssetId"]) ->
      Prepared n 1 no_args (setup_all_shells show repr).
    Proof.
      intros W W' c pr. unfold setup_all_shells, get_all_shells. eapply steps_fetch; [sendable_fit|in_bodies|]. intros j v F.
      eapply (reads_first n _ j v _ _ _ F W). intros y z Fz E. apply firm_model in Fz.
      eapply reads_raw; [exact Fz|apply (E [Member "idShort"])|exact W|]. intros s [S _].
      eapply reads_asset; [exact Fz|apply (E [Member "assetInformation"; Member "globalAssetId"])|exact W'|]. intros a b. cbv beta.
      destruct (firm_cursor _ j v F) as [x X]. eapply reads_step; [exact X|]. apply reads_val. sound.
    Qed.
    Lemma valid_id_prepared n : wanted_at n (first_of [Member "id"]) -> Prepared n 1 no_args (setup_valid_id show repr).
    Proof.
      intros W c pr. unfold setup_valid_id, get_all_shells. eapply steps_fetch; [sendable_fit|in_bodies|]. intros j v F.
      eapply (reads_first n _ j v _ _ _ F W). intros y z Fz E. apply firm_model in Fz.
      eapply reads_tells; [apply (solid_id "AssetAdministrationShell"); [now left|exact Fz]|apply (E [Member "id"])|exact W|]. intros s [S _]. apply reads_val. sound.
    Qed.
    Lemma for_submodel_prepared n : wanted_at n (first_of [Member "id"]) -> Prepared n 1 id_args (setup_for_submodel show repr).
    Proof.
      intros W c pr. unfold setup_for_submodel, get_all_submodels. eapply steps_fetch; [sendable_fit|in_bodies|]. intros j v F.
      eapply (reads_first n _ j v _ _ _ F W). intros y z Fz E. apply firm_model in Fz.
      eapply reads_tells; [apply (solid_id "Submodel"); [right; now left|exact Fz]|apply (E [Member "id"])|exact W|]. intros s [S N].
      eapply reads_step; [exact (xml_base64 s S)|]. apply reads_val. sound. exists s. split; [reflexivity|scalars].
    Qed.
    Lemma for_aas_prepared n : wanted_at n (snd (first_reference n)) -> Prepared n 1 id_args (setup_for_aas show repr).
    Proof.
      intros W c pr. unfold setup_for_aas, get_all_submodel_references. eapply steps_fetch; [sendable_fit|in_bodies|]. intros j v F.
      eapply (reads_first n _ j v _ _ _ F W). intros y z Fz E. apply firm_model in Fz.
      eapply reads_tells; [apply solid_key; exact Fz|apply E|exact W|]. intros s [S N].
      eapply reads_step; [exact (xml_base64 s S)|]. apply reads_val. sound. exists s. split; [reflexivity|scalars].
    Qed.
    Lemma serialization_prepared n : wanted_at n (first_of [Member "id"]) -> wanted_at n (first_of submodel_key) -> Prepared n 1 no_args (setup_serialization show repr).
    Proof.
      intros W W' c pr. unfold setup_serialization, get_all_shells. eapply steps_fetch; [sendable_fit|in_bodies|]. intros j v F.
      eapply (reads_first n _ j v _ _ _ F W). intros y z Fz E. apply firm_model in Fz.
      eapply reads_tells; [apply (solid_id "AssetAdministrationShell"); [now left|exact Fz]|apply (E [Member "id"])|exact W|]. intros s [S N].
      eapply reads_step; [exact (xml_base64 s S)|]. eapply reads_submodel; [exact Fz|apply (E submodel_key)|exact W'|]. intros s' [S' N'].
      eapply reads_step; [exact (xml_base64 s' S')|]. apply reads_val. sound.
    Qed.
    Lemma elements_prepared n : (n < List.length (ro_setup row))%nat -> In (Element n) (ro_path row) -> Prepared n 1 path_args (setup_elements show repr).
    Proof.
      intros L W c pr. unfold setup_elements, get_all_submodel_elements. eapply steps_fetch; [sendable_fit|in_bodies|]. intros j v F.
      lazymatch goal with |- match ?o with _ => _ end => assert (Q : o = let* r := read_paths v in
        Val (Instance c pr [(lit "id_short_path", VlStr (snd r))] None [] [] VlNone [] (fst r))) end.
      { unfold read_paths. destruct (get v "result") as [l|]; [|reflexivity]. cbn [obind]. destruct (as_items l) as [xs|]; [|reflexivity]. cbn [obind].
        destruct (collect_elements 0 xs [] []) as [[|[k [|p ps]] d]|]; reflexivity. }
      rewrite Q. destruct (read_paths v) as [[d p]|e] eqn:R; cbn [obind fst snd].
      - sound; [exists p; reflexivity|]. unfold read_paths in R. destruct (get v "result") as [l|] eqn:Gl; [|discriminate]. cbn [obind] in R.
        destruct (as_items l) as [xs|] eqn:As; [|discriminate]. cbn [obind] in R. destruct (collect_elements 0 xs [] []) as [d'|] eqn:Co; [|discriminate]. cbn [obind] in R.
        destruct (page_paths j v l xs d' (proj1 F) Gl As Co) as (js & _ & ->). exists (paths_of 0 js).
        destruct (fold_left add_to (paths_of 0 js) []) as [|[k [|p' ps]] d0]; cbn [obind] in R; [discriminate..|]. now injection R as <- _.
      - destruct (firm_paths j v e F R) as (l & V & [(-> & H)|(-> & H)]); intros ct; [eapply Cr_hollow; eassumption|eapply Cr_no_element; eassumption].
    Qed.
  End Row.
End Rows.
