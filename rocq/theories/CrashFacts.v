(** The exceptions of the calls: programs that end with an exception only for a cause in the last exchange. *)
From Coq Require Import PeanoNat String List NArith ZArith Bool Lia.
From Verif Require Import PyStr PyStrFacts PyBase PyVal Codec CodecSpec CodecFacts ResultModel ResultFacts ContextModel HttpModel ConfigModel ReflectModel MetaModel MetaSpec MetaFacts
  AdapterModel ParseModel ConstraintModel ProgModel ProgSpec ProgFacts ParseSpec ApiModel ApiSpec ApiSuites ApiFacts ApiBody ApiTables ApiFacts2 ApiFacts3 ApiPart
  TestSpec TestFacts CrashSpec ApiValue CrashValue.
From Verif Require P_Cli JsonSpec JsonFacts.
Import ListNotations.
Local Open Scope string_scope.
Local Open Scope list_scope.

(** ** Programs *)
Definition Runs {X} (Q : trace -> exn -> str -> Prop) (p : prog X) (R : trace -> X -> Prop) : Prop :=
  forall srv h, match meaning p srv h with
                | (_, Ret x, h1) => exists t, h1 = h ++ t /\ R t x
                | (_, Abort _, _) => True
                | (_, Exc e m, h1) => exists t, h1 = h ++ t /\ Q t e m
                end.
Lemma runs_ret {X} (Q : trace -> exn -> str -> Prop) (x : X) (R : trace -> X -> Prop) : R [] x -> Runs Q (PRet x) R.
Proof. intros H srv h. cbn [meaning]. exists []. rewrite app_nil_r. auto. Qed.
Lemma runs_abort {X} (Q : trace -> exn -> str -> Prop) r (R : trace -> X -> Prop) : Runs Q (PAbort r) R.
Proof. intros srv h. exact I. Qed.
Lemma runs_write (Q : trace -> exn -> str -> Prop) r (R : trace -> unit -> Prop) : R [] tt -> Runs Q (pwrite r) R.
Proof. intros H srv h. cbn [pwrite meaning]. exists []. rewrite app_nil_r. auto. Qed.
Lemma runs_lift {X} (Q : trace -> exn -> str -> Prop) (o : outcome X) (R : trace -> X -> Prop) :
  match o with Val x => R [] x | Raise e => Q [] e [] end -> Runs Q (lift o) R.
Proof. intros H srv h. rewrite meaning_lift. destruct o; exists []; rewrite app_nil_r; auto. Qed.
Lemma runs_raise {X} (Q : trace -> exn -> str -> Prop) e m (R : trace -> X -> Prop) : Q [] e m -> Runs Q (PRaise e m) R.
Proof. intros H srv h. cbn [meaning]. exists []. rewrite app_nil_r. auto. Qed.
Lemma runs_val {X Y} (Q : trace -> exn -> str -> Prop) (o : outcome X) x (f : X -> prog Y) (R : trace -> Y -> Prop) : o = Val x -> Runs Q (f x) R -> Runs Q (let! y := lift o in f y) R.
Proof. now intros ->. Qed.
Lemma runs_weak {X} (Q Q' : trace -> exn -> str -> Prop) (p : prog X) (R R' : trace -> X -> Prop) :
  (forall t e m, Q t e m -> Q' t e m) -> (forall t x, R t x -> R' t x) -> Runs Q p R -> Runs Q' p R'.
Proof.
  intros A B H srv h. specialize (H srv h). destruct (meaning p srv h) as [[es [x|a|e m]] h1]; [|exact I|]; destruct H as (t & -> & H); eauto.
Qed.
Lemma runs_bind {X Y} (Q Q' : trace -> exn -> str -> Prop) (p : prog X) (f : X -> prog Y) (R : trace -> X -> Prop) (R' : trace -> Y -> Prop) :
  (forall t e m, Q t e m -> Q' t e m) -> Runs Q p R ->
  (forall t x, R t x -> Runs (fun t' => Q' (t ++ t')) (f x) (fun t' => R' (t ++ t'))) -> Runs Q' (pbind p f) R'.
Proof.
  intros A P F srv h. rewrite meaning_bind. specialize (P srv h). destruct (meaning p srv h) as [[es1 [x|a|e m]] h1]; cbn [andthen].
  - destruct P as (t & -> & P). specialize (F t x P srv (h ++ t)). destruct (meaning (f x) srv (h ++ t)) as [[es2 [y|b|e m]] h2]; [|exact I|];
      destruct F as (t' & -> & F); exists (t ++ t'); rewrite app_assoc; auto.
  - exact I.
  - destruct P as (t & -> & P). eauto.
Qed.
Lemma runs_block {X} (Q : trace -> exn -> str -> Prop) m (p : prog X) (R : trace -> X -> Prop) : Runs Q p R ->
  Runs Q (block m p) (fun t x => match fst x with Some y => R t y | None => True end).
Proof.
  intros P srv h. rewrite meaning_block. specialize (P srv h). pose proof (meaning_trace p srv h) as T.
  destruct (meaning p srv h) as [[es1 [x|a|e t]] h1]; cbn [fst].
  - destruct P as (t & -> & P). eauto.
  - destruct T as [t T]. cbn [snd] in T. eauto.
  - exact P.
Qed.
Lemma rename_exc {X} e f (p : prog X) : forall srv h,
  let '(es, c, h1) := meaning p srv h in
  match c with
  | Exc e' t => exists es', meaning (rename e f p) srv h = (es', Exc (if exn_eq_dec e' e then f else e') t, h1)
  | _ => meaning (rename e f p) srv h = (es, c, h1)
  end.
Proof.
  induction p as [X x|X r k IH|X r|X e0 t|X s k IH|X Y r c body IHb k IHk]; intros srv h; cbn [rename meaning].
  - reflexivity.
  - specialize (IH srv h). destruct (meaning k srv h) as [[es c] h1]. destruct c as [a|a|e' t].
    + now rewrite IH.
    + now rewrite IH.
    + destruct IH as (es' & E). rewrite E. eauto.
  - reflexivity.
  - destruct (exn_eq_dec e0 e); cbn [meaning]; eauto.
  - apply IH.
  - assert (K : forall o x h1, let '(es2, c2, h2) := let '(es2, c2, h2) := meaning (k o x) srv h1 in (x :: es2, c2, h2) in
       match c2 with
       | Exc e' t => exists es', (let '(es3, c3, h3) := meaning (rename e f (k o x)) srv h1 in (x :: es3, c3, h3)) = (es', Exc (if exn_eq_dec e' e then f else e') t, h2)
       | _ => (let '(es3, c3, h3) := meaning (rename e f (k o x)) srv h1 in (x :: es3, c3, h3)) = (es2, c2, h2)
       end).
    { intros o x h1. specialize (IHk o x srv h1). destruct (meaning (k o x) srv h1) as [[es2 c2] h2]. destruct c2 as [a|a|e' t].
      - now rewrite IHk.
      - now rewrite IHk.
      - destruct IHk as (es' & E). rewrite E. eauto. }
    destruct c.
    + destruct (meaning body srv h) as [[es c0] h1]. destruct c0; apply K.
    + specialize (IHb srv h). destruct (meaning body srv h) as [[es c0] h1]. destruct c0 as [a|a|e' t].
      * rewrite IHb. apply K.
      * rewrite IHb. apply K.
      * destruct IHb as (es' & E). rewrite E. eauto.
Qed.
Lemma runs_rename {X} e f (Q : trace -> exn -> str -> Prop) (p : prog X) (R : trace -> X -> Prop) : Runs Q p R ->
  Runs (fun t e1 m => exists e0, Q t e0 m /\ e1 = if exn_eq_dec e0 e then f else e0) (rename e f p) R.
Proof.
  intros P srv h. specialize (P srv h). pose proof (rename_exc e f p srv h) as N. destruct (meaning p srv h) as [[es [x|a|e' t]] h1].
  - now rewrite N.
  - now rewrite N.
  - destruct N as [es' ->]. destruct P as (t' & -> & P). eauto.
Qed.

(** ** Requests that can be sent *)
Definition Path_fit (v : value) : Prop := match v with VlBase64 s => Forall scalar s | _ => True end.
Definition Query_fit (enum : bool) (v : value) : Prop :=
  if enum then match v with VlNone => True | VlMember _ _ x => Forall scalar x | VlDummy x => Forall scalar x | _ => False end
  else match v with VlStr s | VlDummy s | VlBase64 s => Forall scalar s | VlMember _ _ _ => False | _ => True end.
Lemma graphic_scalar s : Forall P_Cli.graphic s -> Forall scalar s.
Proof. apply Forall_impl. unfold P_Cli.graphic, scalar. intros c H. lia. Qed.
Lemma asset_scalar n x : Forall scalar (lit "{" ++ json_text (lit "name") ++ lit ": " ++ json_text n ++ lit ", " ++ json_text (lit "value") ++ lit ": " ++ json_text x ++ lit "}").
Proof.
  apply graphic_scalar. repeat lazymatch goal with |- Forall _ (_ ++ _) => apply Forall_app; split end;
    lazymatch goal with |- Forall _ (json_text _) => apply P_Cli.json_text_graphic | _ => apply P_Cli.lit_graphic; reflexivity end.
Qed.
Lemma path_fit_text v : Path_fit v -> exists s, value_text v = Val s.
Proof.
  destruct v; cbn [Path_fit value_text]; intros F; eauto.
  - apply base64_urlsafe_total. exact F.
  - apply base64_urlsafe_total, asset_scalar.
Qed.
Lemma base64_scalar s t : base64_urlsafe s = Val t -> Forall scalar t.
Proof.
  intros E. apply base64_urlsafe_spec in E. destruct E as [_ F]. eapply Forall_impl; [|exact F]. unfold base64url_char, scalar. intros c H. lia.
Qed.
Lemma dec_scalar z : Forall scalar (str_of_Z z).
Proof.
  destruct (JsonFacts.number_Z z) as (_ & F & _). apply Forall_forall. intros c I. pose proof (proj1 (forallb_forall _ _) F c I) as H. left.
  unfold JsonSpec.in_number, JsonSpec.is_digit in H. apply orb_prop in H. destruct H as [H|H].
  - apply andb_prop in H. destruct H as [H1 H2]. apply N.leb_le in H1, H2. lia.
  - apply existsb_exists in H. destruct H as (d & D & H). apply N.eqb_eq in H. subst d. cbn [In] in D. intuition lia.
Qed.
Lemma query_fit_value enum v : Query_fit enum v -> exists x, (let* w := if enum : bool then unpack_enum v else Val v in query_value w) = Val x /\
  match qstr x with Some s => Forall scalar s | None => True end.
Proof.
  destruct enum; cbn [Query_fit].
  - destruct v; cbn [unpack_enum obind]; intros F; try contradiction; cbn [query_value value_text obind]; eexists; (split; [reflexivity|]); cbn [qstr]; auto.
  - destruct v; cbn [obind]; intros F; try contradiction; cbn [query_value value_text obind]; try (eexists; (split; [reflexivity|]); cbn [qstr]; auto; fail).
    + eexists. split; [reflexivity|]. cbn [qstr]. apply dec_scalar.
    + eexists. split; [reflexivity|]. cbn [qstr]. destruct b; repeat constructor; vm_compute; reflexivity.
    + destruct (proj1 (base64_urlsafe_total _) F) as [t E]. rewrite E. cbn [obind]. eexists. split; [reflexivity|]. cbn [qstr]. now apply (base64_scalar _ _ E).
    + destruct (proj1 (base64_urlsafe_total _) (asset_scalar name value)) as [t E]. rewrite E. cbn [obind]. eexists. split; [reflexivity|]. cbn [qstr]. now apply (base64_scalar _ _ E).
Qed.
Definition fit_part (a : args) (p : part) : Prop := match p with Arg n => Path_fit (argument a n) | Text _ => True end.
Definition fit_query (a : args) (q : str * str * bool) : Prop := Forall scalar (fst (fst q)) /\ Query_fit (snd q) (argument a (snd (fst q))).
Lemma fit_sendable e a : Forall (fit_part a) (e_path e) -> Forall (fit_query a) (e_query e) -> Sendable e a.
Proof.
  intros P Q hs. unfold request_of.
  assert (Ep : exists p, path_of (e_path e) a = Val p).
  { induction P as [|[s|n] l Hp P IH]; cbn [path_of]; [eauto|..]; destruct IH as [q ->].
    - cbn [obind]. eauto.
    - destruct (path_fit_text _ Hp) as [s ->]. cbn [obind]. eauto. }
  destruct Ep as [p ->]. cbn [obind].
  assert (Eq : exists q, query_of (e_query e) a = Val q /\ Forall (fun kv => Forall scalar (fst kv) /\ Forall scalar (snd kv)) (given_params q)).
  { induction Q as [|[[k n] enum] l [Hk Hv] Q IH]; cbn [query_of]; [exists []; split; [reflexivity|constructor]|]. destruct IH as (q & E & G). cbn [fst snd] in *.
    destruct (query_fit_value _ _ Hv) as (x & X & S). destruct (if enum then unpack_enum (argument a n) else Val (argument a n)) as [w|]; [|discriminate]. cbn [obind] in *.
    rewrite X. cbn [obind]. rewrite E. cbn [obind]. eexists. split; [reflexivity|]. cbn [given_params]. destruct (qstr x); [constructor; [split; assumption|exact G]|exact G]. }
  destruct Eq as (q & -> & G). cbn [obind]. unfold make_url.
  destruct (given_params q) as [|x l] eqn:E.
  - eexists _, _. split; [reflexivity|]. cbn [query_parameters HttpModel.path]. now rewrite E.
  - destruct (proj1 (urlencode_total _) G) as [u U]. eexists _, _. split; [reflexivity|]. cbn [query_parameters HttpModel.path]. now rewrite E, U.
Qed.

Section Calls.
  Variable show : json -> str.
  Variable repr : str -> str.

  (** no answer, or an exception in the check of a value of the right type *)
  Definition Basic (y : reply) (e : exn) (m : str) : Prop :=
    y = Failed e m \/ exists ct j k b, y = Response 200 ct (Json j) /\ m = [] /\ In (k, b) bodies /\ BodyOk b j /\ check_body show repr k j = Raise e.
  Definition Lost (y : reply) (e : exn) (m : str) : Prop := y = Failed e m.
  Definition Once (P : reply -> exn -> str -> Prop) (t : trace) (e : exn) (m : str) : Prop := exists s y, t = [(s, y)] /\ P y e m.
  Definition Told (b : body) (t : trace) (v : pyval) : Prop := exists s ct j, t = [(s, Response 200 ct (Json j))] /\ Firm b j v.

  Lemma check_raises k b j e : In (k, b) bodies -> check_body show repr k j = Raise e -> BodyOk b j.
  Proof.
    intros I E. destruct (body_clean show repr (fun _ => True) k b j I) as (x & fs & C & F & _). rewrite C in E. unfold parse_and_check in E. cbn [obind] in E.
    rewrite ok_append in E. unfold check_meta_model in E. rewrite ok_appends, findings_ok in E. destruct fs; [now apply F|discriminate].
  Qed.
  Lemma check_accepts k b j r v : In (k, b) bodies -> check_body show repr k j = Val (r, v) -> ok r = true -> Firm b j v.
  Proof.
    intros I E O. split; [eapply check_bears; eauto|]. apply (accepts_exact show repr k b j I). exists r, v. auto.
  Qed.
  Lemma invoke_runs c r u : make_url r = Val u -> Runs (Once Lost) (invoke c r) (fun t x => exists s ct, t = [(s, Response (fst x) ct (snd x))]).
  Proof.
    intros U srv h. destruct (invoke_meaning c r srv h) as [s ->]. destruct (sends c r u U) as [s' ->]. rewrite U.
    destruct (srv h s) as [st ct d|e t]; eexists; (split; [reflexivity|]).
    - exists s, ct. reflexivity.
    - exists s, (Failed e t). split; reflexivity.
  Qed.
  Lemma decode_runs c e a k b : Sendable e a -> In (k, b) bodies -> Runs (Once Basic) (invoke_and_decode show repr c e a k Success) (Told b).
  Proof.
    intros S I. unfold invoke_and_decode. destruct (S [(lit "content-type", lit "application/json")]) as (r & u & E & U). apply (runs_val _ _ _ _ _ E).
    eapply runs_bind; [|exact (invoke_runs c r u U)|].
    { intros t x m (s & y & -> & L). exists s, y. split; [reflexivity|]. left. exact L. }
    intros t [st d] (s & ct & ->). cbn [fst snd]. destruct (Z.leb 500 st); [apply runs_abort|]. destruct (status_in st Success) eqn:St; cbn [negb]; [|apply runs_abort].
    apply status_success in St. subst st. destruct (extract_cases d) as [(j & -> & C & X)|(N & m & X)]; rewrite X; [|apply runs_abort].
    cbn [pbind]. destruct (check_body show repr k j) as [[q y]|x] eqn:B; cbn [lift pbind].
    - destruct (ok q) eqn:O; [|apply runs_abort]. apply (runs_bind (fun _ _ _ => False) _ _ _ (fun t _ => t = [])); [now intros|now apply runs_write|].
      intros t _ ->. apply runs_ret. exists s, ct, j. split; [reflexivity|]. eapply check_accepts; eauto.
    - apply runs_raise. exists s, (Response 200 ct (Json j)). split; [reflexivity|]. right. exists ct, j, k, b. split; [reflexivity|]. split; [reflexivity|]. split; [exact I|].
      split; [eapply check_raises; eauto|exact B].
  Qed.
  Definition Any {X} (t : trace) (x : X) : Prop := True.
  Lemma error_runs c e a : Sendable e a -> Runs (Once Lost) (invoke_and_decode show repr c e a (ACls k_ErrorResult) ClientError) Any.
  Proof.
    intros S. unfold invoke_and_decode. destruct (S [(lit "content-type", lit "application/json")]) as (r & u & E & U). apply (runs_val _ _ _ _ _ E).
    eapply runs_bind; [|exact (invoke_runs c r u U)|]; [auto|].
    intros t [st d] (s & ct & ->). cbn [fst snd]. destruct (Z.leb 500 st); [apply runs_abort|]. destruct (status_in st ClientError); cbn [negb]; [|apply runs_abort].
    destruct (extract_cases d) as [(j & -> & C & X)|(N & m & X)]; rewrite X; [|apply runs_abort].
    cbn [pbind]. destruct (error_check show repr j) as (q & y & -> & _). cbn [lift pbind]. destruct (ok q); [|apply runs_abort].
    apply (runs_bind (fun _ _ _ => False) _ _ _ Any); [now intros|now apply runs_write|]. intros t _ _. now apply runs_ret.
  Qed.
  Lemma content_runs c e a : Sendable e a -> Runs (Once Lost) (invoke_content c e a) Any.
  Proof.
    intros S. unfold invoke_content. destruct (S []) as (r & u & E & U). apply (runs_val _ _ _ _ _ E).
    eapply runs_bind; [|exact (invoke_runs c r u U)|]; [auto|]. intros t x _. now apply runs_ret.
  Qed.
  Lemma json_runs c e a : Sendable e a -> Runs (Once Lost) (invoke_json c e a) Any.
  Proof.
    intros S. unfold invoke_json. destruct (S []) as (r & u & E & U). apply (runs_val _ _ _ _ _ E).
    eapply runs_bind; [|exact (invoke_runs c r u U)|]; [auto|]. intros t [st d] _. cbn [fst snd].
    destruct (extract_cases d) as [(j & -> & C & X)|(N & m & X)]; rewrite X; [|apply runs_abort]. now apply runs_ret.
  Qed.

  (** ** Aborts of the setup *)
  Definition Grave {X} (p : prog X) : Prop := forall srv h es a h1, meaning p srv h = (es, Abort a, h1) -> ok a = false.
  Lemma grave_ret {X} (x : X) : Grave (PRet x).
  Proof. intros srv h es a h1 [=]. Qed.
  Lemma grave_lift {X} (o : outcome X) : Grave (lift o).
  Proof. intros srv h es a h1. rewrite meaning_lift. destruct o; discriminate. Qed.
  Lemma grave_bind {X Y} (p : prog X) (f : X -> prog Y) : Grave p -> (forall x, Grave (f x)) -> Grave (pbind p f).
  Proof.
    intros P F srv h es a h1. rewrite meaning_bind. destruct (meaning p srv h) as [[es1 [x|b|e t]] h2] eqn:E; cbn [andthen].
    - destruct (meaning (f x) srv h2) as [[es2 c2] h3] eqn:E2. intros [= <- -> ->]. exact (F x _ _ _ _ _ E2).
    - intros [= <- <- <-]. exact (P _ _ _ _ _ E).
    - discriminate.
  Qed.
  Lemma grave_decode c e a k x : Grave (invoke_and_decode show repr c e a k x).
  Proof.
    intros srv h es b h1 E. apply (decode_exact show repr (fun _ => True)) in E; [|now intros hs r s _ _].
    destruct E as [(y & z & [=])|(s & y & _ & _ & O)]. inversion O as [st ct d b' Y L Q|st ct d b' Y L Q N|]; subst; [|exact Q].
    destruct b as [m l subs]. unfold ok. cbn [r_level] in *. subst l. reflexivity.
  Qed.

  (** ** Operations *)
  Section Operation.
    Variable row : row.
    Notation Cause := (Cause show repr row).
    Definition Late (t : trace) (e : exn) (m : str) : Prop := exists t' s y, t = t' ++ [(s, y)] /\ forall n, (List.length (ro_setup row) <= n)%nat -> Cause n y e m.
    Definition Ends {X} (p : prog X) : Prop := Runs Late p Any.
    Lemma late_app u t e m : Late t e m -> Late (u ++ t) e m.
    Proof. intros (t' & s & y & -> & C). exists (u ++ t'), s, y. split; [apply app_assoc|exact C]. Qed.
    Lemma basic_cause n y e m : Basic y e m -> Cause n y e m.
    Proof. intros [->|(ct & j & k & b & -> & -> & I & B & E)]; [constructor; now left|eapply Cr_check; eauto]. Qed.
    Lemma basic_late t e m : Once Basic t e m -> Late t e m.
    Proof. intros (s & y & -> & B). exists [], s, y. split; [reflexivity|]. intros n _. now apply basic_cause. Qed.
    Lemma lost_late t e m : Once Lost t e m -> Late t e m.
    Proof. intros (s & y & -> & B). apply basic_late. exists s, y. split; [reflexivity|]. now left. Qed.
    Lemma ends_ret {X} (x : X) : Ends (PRet x).
    Proof. now apply runs_ret. Qed.
    Lemma ends_abort {X} r : Ends (@PAbort X r).
    Proof. apply runs_abort. Qed.
    Lemma ends_bind {X Y} (p : prog X) (f : X -> prog Y) R : Runs Late p R -> (forall t x, R t x -> Ends (f x)) -> Ends (pbind p f).
    Proof.
      intros P F. apply (runs_bind Late _ _ _ R); [auto|exact P|]. intros t x H. eapply runs_weak; [| |exact (F t x H)]; [|now intros].
      intros t' e m. apply late_app.
    Qed.
    Lemma ends_seq {X Y} (p : prog X) (f : X -> prog Y) : Ends p -> (forall x, Ends (f x)) -> Ends (pbind p f).
    Proof. intros P F. now apply (ends_bind p f Any). Qed.
    Lemma ends_block {X} m (p : prog X) : Ends p -> Ends (block m p).
    Proof. intros P. eapply runs_weak; [| |apply runs_block, P]; [auto|now intros]. Qed.
    Lemma ends_assert b m l : Ends (assert_ b m l).
    Proof. unfold assert_. destruct b; [now apply runs_write|apply runs_abort]. Qed.
    Lemma ends_val {X Y} (o : outcome X) x (f : X -> prog Y) : o = Val x -> Ends (f x) -> Ends (let! y := lift o in f y).
    Proof. now intros ->. Qed.

    Lemma success_runs o i a k b : o_handling o = Decoded k -> In (k, b) bodies -> accepts (o_sig o) a = true -> Sendable (o_endpoint o) a ->
      Runs (Once Basic) (invoke_success show repr o i a) (Told b).
    Proof. intros H I A S. unfold invoke_success, call. rewrite A, H. now apply decode_runs. Qed.
    Definition handled (o : op) : Prop := match o_handling o with Decoded k => exists b, In (k, b) bodies | _ => True end.
    Lemma success_ends o i a : handled o -> accepts (o_sig o) a = true -> Sendable (o_endpoint o) a -> Ends (invoke_success show repr o i a).
    Proof.
      intros H A S. unfold invoke_success, call. rewrite A. unfold handled in H. destruct (o_handling o) as [k| |].
      - destruct H as [b I]. eapply runs_weak; [apply basic_late| |now apply decode_runs with (b := b)]. now intros.
      - eapply runs_weak; [apply lost_late| |now apply content_runs]. auto.
      - eapply runs_weak; [apply lost_late| |now apply json_runs]. auto.
    Qed.
    Lemma failure_runs o i a : accepts (o_sig o) a = true -> Sendable (o_endpoint o) a -> Runs (Once Lost) (invoke_error show repr o i a) Any.
    Proof. intros A S. unfold invoke_error, call. rewrite A. now apply error_runs. Qed.
    Lemma failure_ends o i a : accepts (o_sig o) a = true -> Sendable (o_endpoint o) a -> Ends (invoke_error show repr o i a).
    Proof. intros A S. eapply runs_weak; [apply lost_late| |now apply failure_runs]. auto. Qed.

    (** ** The negative tests *)
    Lemma renamed_ends (p : prog pyval) : Runs (Once Lost) p Any -> Ends (rename TypeError NotImplementedError p).
    Proof.
      intros P. eapply runs_weak; [| |apply runs_rename, P]; [|auto]. intros t e m (e0 & (s & y & -> & ->) & ->). exists [], s, (Failed e0 m). split; [reflexivity|].
      intros n L. constructor. destruct (exn_eq_dec e0 TypeError); [right; auto|now left].
    Qed.
    Lemma generate_ends f valid l : forallb known_argument l = true ->
      (forall p v, In p l -> generate_invalid_values (fst p) (strip_optional (snd p)) = Val [v] -> Runs (Once Lost) (f (assign (fst p) v valid)) Any) ->
      Ends (generate_calls f valid (List.map (fun p => FArg (fst p) (strip_optional (snd p)) (negb (has_default (snd p)))) l)).
    Proof.
      intros K F. induction l as [|p l IH]; cbn [List.map generate_calls fa_name fa_type forallb] in *; [apply ends_ret|].
      apply andb_prop in K. destruct K as [K1 K2]. destruct (generated p K1) as (vs & G & Wr).
      apply (ends_val _ _ _ G); cbv beta.
      apply ends_seq; [|intros _; apply IH; [exact K2|intros; eapply F; eauto; now right]].
      destruct (wrong_value (fst p) (snd p)) as [t|]; [|subst vs; apply ends_ret]. destruct Wr as (v & -> & T). cbn [generate_for].
      apply (ends_val _ _ _ T).
      apply ends_seq; [|intros [? ?]; apply ends_ret]. apply ends_block, renamed_ends. eapply F; [now left|exact G].
    Qed.
    Lemma tests_ends ts i : (forall t, In t ts -> Ends (snd t i)) -> Ends (execute_tests_of ts i).
    Proof.
      induction ts as [|[t b] ts IH]; cbn [execute_tests_of]; intros F; [apply ends_ret|].
      apply ends_seq; [apply ends_block, (F (t, b)); now left|]. intros _. apply IH. intros; apply F; now right.
    Qed.
    (** a suite for instances with such arguments *)
    Definition Sound_instance (va : args -> Prop) (i : instance) : Prop :=
      va (i_valid_arguments i) /\ Forall scalar (i_valid_id i) /\ Forall XmlChar (i_valid_id i) /\ Forall scalar (i_valid_id_short i) /\
      Forall scalar (i_valid_submod_id i) /\ Query_fit false (i_asset_id i) /\ exists ps, i_paths i = fold_left add_to ps [].
    Definition Suite_ends (va : args -> Prop) (s : suite) : Prop :=
      reflected s = true /\ forallb known_argument (su_signature s) = true /\
      (forall i p v, Sound_instance va i -> In p (su_signature s) -> generate_invalid_values (fst p) (strip_optional (snd p)) = Val [v] ->
        Runs (Once Lost) (su_invoke_error s i (assign (fst p) v (i_valid_arguments i))) Any) /\
      (forall i t, Sound_instance va i -> In t (su_tests s) -> Ends (snd t i)).
    Lemma suite_ends va s i : Suite_ends va s -> Sound_instance va i -> Ends (execute_suite s i).
    Proof.
      intros (R & K & F & T) V. unfold execute_suite. apply ends_seq; [|intros [? ?]; apply ends_seq; [|intros [? ?]; apply ends_ret]]; apply ends_block.
      - unfold execute_syntactic_tests. unfold reflected in R.
        destruct (reflect_function (su_signature s) (ACls k_ErrorResult)) as [f|] eqn:F1; [|discriminate].
        destruct (reflect_function (su_signature s) (su_success_type s)) as [g|] eqn:F2; [|discriminate].
        apply (ends_val _ _ _ eq_refl), (ends_val _ _ _ eq_refl). apply reflect_function_shape in F1, F2. rewrite <- F1 in F2. subst g.
        rewrite fargs_refl, F1. apply generate_ends; [exact K|]. intros p v I G. now apply F.
      - apply tests_ends. intros t I. now apply T.
    Qed.

    (** ** The setup *)
    Definition Upto (n : nat) (t : trace) (e : exn) (m : str) : Prop := exists t' s y, t = t' ++ [(s, y)] /\ Cause (n + List.length t') y e m.
    Definition Untold (n : nat) (j : json) (e : exn) : Prop := forall ct, Cause n (Response 200 ct (Json j)) e [].
    (** a program that sends so many requests, the first of them with this number *)
    Definition Steps {X} (n k : nat) (p : prog X) (R : X -> Prop) : Prop := Runs (Upto n) p (fun t x => List.length t = k /\ R x) /\ Grave p.
    Lemma steps_ret {X} n (x : X) (R : X -> Prop) : R x -> Steps n 0 (PRet x) R.
    Proof. intros H. split; [|apply grave_ret]. apply runs_ret. auto. Qed.
    Lemma steps_bind {X Y} n k l (p : prog X) (f : X -> prog Y) (R : X -> Prop) (R' : Y -> Prop) : Steps n k p R -> (forall x, R x -> Steps (n + k) l (f x) R') ->
      (forall x, Grave (f x)) -> Steps n (k + l) (pbind p f) R'.
    Proof.
      intros [P Gp] F Gf. split; [|now apply grave_bind]. eapply runs_bind; [|exact P|]; [auto|]. intros t x [L H].
      eapply runs_weak; [| |exact (proj1 (F x H))].
      - intros t1 e m (t' & s & y & -> & C). exists (t ++ t'), s, y. split; [apply app_assoc|]. rewrite app_length, L. now rewrite Nat.add_assoc.
      - intros t1 y [L1 H1]. rewrite app_length. split; [congruence|exact H1].
    Qed.
    Lemma steps_fetch {X} n c e a k b (f : pyval -> outcome X) (R : X -> Prop) : Sendable e a -> In (k, b) bodies ->
      (forall j v, Firm b j v -> match f v with Val x => R x | Raise x => Untold n j x end) ->
      Steps n 1 (let! v := invoke_and_decode show repr c e a k Success in lift (f v)) R.
    Proof.
      intros S I F. split; [|apply grave_bind; [apply grave_decode|intros; apply grave_lift]].
      eapply runs_bind; [|now apply decode_runs with (b := b)|].
      - intros t x m (s & y & -> & B). exists [], s, y. split; [reflexivity|]. now apply basic_cause.
      - intros t v (s & ct & j & -> & Fi). apply runs_lift. specialize (F j v Fi). destruct (f v) as [x|x].
        + auto.
        + exists [], s, (Response 200 ct (Json j)). split; [reflexivity|]. cbn [List.length]. rewrite Nat.add_0_r. apply F.
    Qed.
  End Operation.
End Calls.
