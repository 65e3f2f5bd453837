(** The exceptions of the tests, and of all operations in the tables. *)
From Coq Require Import PeanoNat String List NArith ZArith Bool Lia.
From Verif Require Import PyStr PyStrFacts PyBase PyVal Codec CodecSpec CodecFacts ResultModel ResultFacts ContextModel HttpModel ConfigModel ReflectModel ReflectFacts MetaModel MetaSpec MetaFacts
  AdapterModel ParseModel ParseSpec ParseFacts ProgModel ProgSpec ProgFacts ApiModel ApiSpec ApiSuites ApiFacts ApiBody ApiFacts2 ApiFacts3
  TestSpec ApiValue TestFacts TestFacts2 TestFacts3 CrashSpec CrashValue CrashFacts CrashFacts2 CrashFacts3.
Import ListNotations.
Local Open Scope string_scope.
Local Open Scope list_scope.
Local Opaque aas_v3_0_checked model_classes.

Section Tests.
  Variable show : json -> str.
  Variable repr : str -> str.
  Variable row : row.
  Notation Ends := (Ends show repr row).
  Notation Late := (Late show repr row).
  Notation Told b := (Told b).

  Lemma ends_told o i a k b (f : pyval -> prog unit) : o_handling o = Decoded k -> In (k, b) bodies -> accepts (o_sig o) a = true -> Sendable (o_endpoint o) a ->
    (forall s ct j v, Firm b j v -> Runs (fun t => Late ([(s, Response 200 ct (Json j))] ++ t)) (f v) Any) -> Ends (let! r := invoke_success show repr o i a in f r).
  Proof.
    intros H I A S F. eapply runs_bind; [|now apply (success_runs show repr o i a k b)|].
    - apply basic_late.
    - intros t v (s & ct & j & -> & Fi). eapply runs_weak; [| |exact (F s ct j v Fi)]; auto.
  Qed.
  Lemma ends_after x (p : prog unit) : Ends p -> Runs (fun t => Late (x ++ t)) p Any.
  Proof. apply runs_weak; [intros t e m; apply late_app|auto]. Qed.
  Lemma ends_checked o i a k b (f : pyval -> prog unit) : o_handling o = Decoded k -> In (k, b) bodies -> accepts (o_sig o) a = true -> Sendable (o_endpoint o) a ->
    (forall j v, Firm b j v -> Ends (f v)) -> Ends (let! r := invoke_success show repr o i a in f r).
  Proof. intros H I A S F. eapply ends_told; [eassumption..|]. intros s ct j v Fi. apply ends_after. now apply (F j v). Qed.

  Section Test.
    Variables (o : op) (i : instance).
    Definition Callable (a : args) : Prop := accepts (o_sig o) a = true /\ Sendable (o_endpoint o) a.
    Notation Good := (Forall (fun t : test => Ends (snd t i))).
    Lemma invoke_good title a : handled o -> Callable a -> Ends (snd (t_invoke show repr o title a) i).
    Proof. intros H [A S]. apply ends_seq; [now apply success_ends|]. intros. apply ends_ret. Qed.
    Lemma length_good k item a b (f : nat -> bool) m : o_handling o = Decoded k -> In (k, paged_body item) bodies -> Callable a -> a = b ->
      Ends (let! r := invoke_success show repr o i b in let! n := lift (result_length r) in assert_ (f n) m ERROR).
    Proof.
      intros H I [A S] <-. eapply ends_checked; [exact H|exact I|exact A|exact S|]. intros j v F. destruct (firm_length _ j v F) as [n E].
      apply (ends_val _ _ _ _ _ _ E). apply ends_assert.
    Qed.
    Lemma paging_good k item : o_handling o = Decoded k -> In (k, paged_body item) bodies -> Callable limit1 -> i_valid_arguments i = [] -> Good (pagination show repr o).
    Proof.
      intros H I C V. assert (E : limit1 = limit1 ++ i_valid_arguments i) by now rewrite V, app_nil_r.
      repeat apply Forall_cons; [..|apply Forall_nil]; cbn [snd t_get_one t_pagination].
      - now apply (length_good k item limit1).
      - destruct (i_cursor i); [|apply ends_abort]. now apply (length_good k item limit1).
    Qed.
    Lemma shells_good k item : o_handling o = Decoded k -> In (k, paged_body item) bodies -> Callable [] -> Callable [(lit "id_short", VlStr (lit "does-not-exist"))] ->
      Callable [(lit "asset_id", i_asset_id i)] -> Good (t_shells show repr o).
    Proof.
      intros H I C1 C2 C3. repeat apply Forall_cons; [..|apply Forall_nil].
      - apply invoke_good; [unfold handled; rewrite H; eauto|exact C1].
      - eapply length_good; [exact H|exact I|exact C2|reflexivity].
      - eapply (length_good k item _ _ (fun n => negb (Nat.eqb n 0))); [exact H|exact I|exact C3|reflexivity].
    Qed.
    Lemma filter_good k item : o_handling o = Decoded k -> In (k, paged_body item) bodies -> Callable [(lit "id_short", VlStr (i_valid_id_short i))] ->
      Ends (snd (t_filter_by_idshort show repr o false) i).
    Proof.
      intros H I [A S]. cbn [snd t_filter_by_idshort]. eapply ends_checked; [exact H|exact I|exact A|exact S|]. intros j v F. destruct (firm_length _ j v F) as [n E].
      apply (ends_val _ _ _ _ _ _ E). apply ends_seq; [apply ends_assert|intros; apply ends_ret].
    Qed.
    Lemma filter_named_good k test src : o_handling o = Decoded k -> In (k, paged_body (b_obj "AssetAdministrationShell")) bodies ->
      Callable [(lit "id_short", VlStr (i_valid_id_short i))] -> In test (ro_tests row) -> ch_claim test = First_named src ->
      Ends (snd (t_filter_by_idshort show repr o true) i).
    Proof.
      intros H I [A S] It Ic. cbn [snd t_filter_by_idshort]. eapply ends_told; [exact H|exact I|exact A|exact S|]. intros s ct j v F. destruct (firm_length _ j v F) as [n E].
      apply (runs_val _ _ _ _ _ E). unfold assert_ at 1. destruct (Nat.ltb 0 n) eqn:Ln; [|apply runs_abort].
      lazymatch goal with |- Runs ?Q (pbind ?p ?f) ?R => apply (runs_bind Q Q p f (fun t _ => t = [])); [auto|now apply runs_write|] end.
      intros t _ ->. cbn [app]. pose proof F as F1. apply firm_first in F1. pose proof (page_length _ j v n (proj1 F) E) as Le.
      destruct (first_result v) as [z|e].
      - destruct F1 as (y & Fy & Vy & E1). apply firm_model in Fy. cbn [obind].
        destruct (solid_text "AssetAdministrationShell" "idShort" y z) as (kvs & x & -> & G & Cs); [vm_compute; reflexivity|exact Fy|].
        change (get z "id_short") with (getattr z (snake_case (lit "idShort"))). rewrite G. cbn [obind]. destruct Cs as [(-> & L)|(s' & k' & _ & -> & _)]; cbn [raw_value].
        + cbn [lift pbind]. apply runs_raise. exists [], s, (Response 200 ct (Json j)). split; [reflexivity|]. intros n0 Ge. destruct n as [|n]; [discriminate|].
          eapply Cr_unnamed; [exact Ge|exact It|exact Ic|exact Le|]. clear -Vy L. unfold first_of in *. cbn [value_at] in *.
          destruct j as [| | | | | |ms]; try discriminate Vy. destruct (lookup (lit "result") ms) as [w|]; [|discriminate]. destruct w as [| | | | |l|]; try discriminate Vy.
          destruct (nth_error l 0); [|discriminate]. injection Vy as ->. cbn [value_at]. now rewrite L.
        + unfold assert_. cbn [lift pbind]. destruct (str_eqb s' (i_valid_id_short i)); [now apply runs_write|apply runs_abort].
      - destruct F1 as [R0 _]. rewrite R0 in Le. injection Le as <-. discriminate.
    Qed.
    Lemma by_id_good title arg check : Forall XmlChar (i_valid_id i) -> Callable [(lit arg, VlBase64 (i_valid_id i))] ->
      match check with
      | None => handled o
      | Some (f, m) => exists k b, o_handling o = Decoded k /\ In (k, b) bodies /\ forall j v, Firm b j v -> exists s, f v = Val s
      end -> Ends (snd (t_by_id show repr o title arg check) i).
    Proof.
      intros X [A S] H. cbn [snd t_by_id]. apply (ends_val _ _ _ _ _ _ (xml_base64 _ X)). destruct check as [[f m]|].
      - destruct H as (k & b & H & I & Hf). eapply ends_checked; [exact H|exact I|exact A|exact S|]. intros j v F. destruct (Hf j v F) as [s E].
        apply (ends_val _ _ _ _ _ _ E). apply ends_assert.
      - apply ends_seq; [now apply success_ends|]. intros. apply ends_ret.
    Qed.
    Lemma types_good supported title kw : handled o -> (exists ps, i_paths i = fold_left add_to ps []) -> (forall p, Callable ((lit "id_short_path", VlStr p) :: kw)) ->
      Ends (snd (t_types show repr o supported title kw) i).
    Proof.
      intros H (ps & P) C. cbn [snd t_types]. generalize all_submodel_elements as ts. induction ts as [|ty ts IH]; cbn [check_types]; [apply ends_ret|].
      apply ends_seq; [|intros [? ?]; exact IH]. apply ends_block. rewrite P. pose proof (lookup_nonempty ty ps) as N.
      destruct (lookup (lit ty) (fold_left add_to ps [])) as [[|p l]|]; [congruence| |apply ends_abort].
      apply (ends_val _ _ _ (Val p) p _ eq_refl). destruct (C p) as [A S]. cbv beta zeta. destruct (existsb (String.eqb ty) supported); [now apply success_ends|now apply failure_ends].
    Qed.
    Lemma file_good : handled o -> (forall p, Callable [(lit "id_short_path", VlStr p)]) -> Ends (snd (t_file show repr o) i).
    Proof.
      intros H C. cbn [snd t_file]. destruct (lookup (lit "File") (i_paths i)) as [[|p l]|]; try apply ends_abort.
      destruct (C p) as [A S]. apply ends_seq; [now apply success_ends|]. intros. apply ends_ret.
    Qed.
  End Test.
End Tests.
