(** Which request every single test sends and which verdict it gives: requests, and programs that send a given number of requests. *)
From Coq Require Import PeanoNat String List NArith ZArith Bool Lia.
From Verif Require P_Http JsonSpec JsonFacts CliModel RequestSpec RequestFacts.
From Verif Require Import PyStr PyStrFacts PyBase PyVal Codec CodecSpec CodecFacts ResultModel ResultSpec ResultFacts ContextModel HttpModel ConfigModel ReflectModel MetaModel
  AdapterModel ParseModel ProgModel ProgSpec ProgFacts ApiModel ApiSpec ApiSuites ApiFacts ApiBody ApiFacts2 TestSpec ApiPart ApiValue VerdictSpec.
Import ListNotations.
Local Open Scope list_scope.

(** ** What a server has told does not change when it answers further requests *)
Lemma answered_ext t n j : answered t n = Some j -> forall t', answered (t ++ t') n = Some j.
Proof.
  unfold answered. intros E t'. destruct (nth_error t n) as [x|] eqn:N; [|discriminate].
  rewrite nth_error_app1; [now rewrite N|]. apply nth_error_Some. congruence.
Qed.
Lemma told_ext t src s : told t src = Some s -> forall t', told (t ++ t') src = Some s.
Proof. unfold told. intros E t'. destruct (answered t (fst src)) as [j|] eqn:A; [|discriminate]. now rewrite (answered_ext _ _ _ A). Qed.
Lemma asset_ext t n x : told_asset t n = Some x -> forall t', told_asset (t ++ t') n = Some x.
Proof. unfold told_asset. intros E t'. destruct (answered t n) as [j|] eqn:A; [|discriminate]. now rewrite (answered_ext _ _ _ A). Qed.
Lemma first_ext ty t n x : first_path ty (elements t n) = Some x -> forall t', first_path ty (elements (t ++ t') n) = Some x.
Proof.
  unfold elements. intros E t'. destruct (answered t n) as [j|] eqn:A; [now rewrite (answered_ext _ _ _ A)|]. now destruct ty.
Qed.
Lemma path_ext t ty r p : Path t ty r p -> forall t', Path (t ++ t') ty r p.
Proof. induction 1; intros t'; econstructor; eauto using told_ext, first_ext. Qed.
Lemma grants_ext t w x : Grants t w x -> forall t', Grants (t ++ t') w x.
Proof.
  destruct w as [s|src|n|src]; cbn [Grants].
  - auto.
  - intros (raw & T & D) t'. eauto using told_ext.
  - intros (k & v & T & D) t'. exists k, v. eauto using asset_ext.
  - intros T t'. now apply told_ext.
Qed.
Lemma sends_ext c t ty r ps s : Sends c t ty r ps s -> forall t', Sends c (t ++ t') ty r ps s.
Proof.
  intros (h & p & vs & u & v & B & P & G & U) t'. exists h, p, vs, u, v. split; [exact B|]. split; [now apply path_ext|]. split; [|exact U].
  clear -G. induction G as [|a b l m [K X] _ IH]; constructor; [|exact IH]. split; [exact K|now apply grants_ext].
Qed.

(** ** Paths *)
Section Paths.
  Variables (t0 : trace) (ty : option string).
  Lemma path_app t u p q : Path t0 ty t p -> Path t0 ty u q -> Path t0 ty (t ++ u) (p ++ q).
  Proof. induction 1; cbn [app]; intros; [assumption|rewrite <- app_assoc; econstructor; eauto..]. Qed.
  (** one way to write a path *)
  Fixpoint normal (r : route) : route :=
    match r with
    | [] => []
    | Word [] :: r => normal r
    | Word s :: r => match normal r with Word s' :: r' => Word (s ++ s') :: r' | r' => Word s :: r' end
    | x :: r => x :: normal r
    end.
  Lemma path_normal t p : Path t0 ty t p -> Path t0 ty (normal t) p.
  Proof.
    induction 1 as [|s t p M IH|src x raw t p E D M IH|n x t p E M IH]; cbn [normal]; [constructor| |econstructor; eauto|econstructor; eauto].
    destruct s as [|c s]; [exact IH|]. destruct (normal t) as [|[s'| |] r']; [now constructor| |now constructor|now constructor].
    inversion IH; subst. rewrite app_assoc. now constructor.
  Qed.
  Lemma normal_path t : forall p, Path t0 ty (normal t) p -> Path t0 ty t p.
  Proof.
    induction t as [|x t IH]; intros p M; cbn [normal] in M; [exact M|].
    destruct x as [s| |]; [|inversion M; subst; econstructor; eauto..].
    destruct s as [|c s]; [apply (P_word t0 ty [] t p); auto|].
    destruct (normal t) as [|[s'| |] r'] eqn:E.
    - inversion M; subst. constructor. auto.
    - inversion M; subst. change ((c :: s ++ s') ++ p0) with (((c :: s) ++ s') ++ p0). rewrite <- app_assoc. constructor. apply IH. now constructor.
    - inversion M; subst. constructor. auto.
    - inversion M; subst. constructor. auto.
  Qed.
  Lemma same_path t u p : normal t = normal u -> Path t0 ty t p -> Path t0 ty u p.
  Proof. intros E M. apply normal_path. rewrite <- E. now apply path_normal. Qed.

  (** the path of an endpoint with given arguments *)
  Inductive Parts (a : args) : list part -> route -> Prop :=
  | Pt_nil : Parts a [] []
  | Pt_text s l t : Parts a l t -> Parts a (Text s :: l) (Word s :: t)
  | Pt_id n raw src l t : argument a n = VlBase64 raw -> told t0 src = Some raw -> Parts a l t -> Parts a (Arg n :: l) (Ident src :: t)
  | Pt_path n s k l t : argument a n = VlStr s -> first_path ty (elements t0 k) = Some s -> Parts a l t -> Parts a (Arg n :: l) (Element k :: t)
  | Pt_wrong n s l t : argument a n = VlStr s -> Parts a l t -> Parts a (Arg n :: l) (Word s :: t).
  Lemma parts_path a l t : Parts a l t -> forall p, path_of l a = Val p -> Path t0 ty t p.
  Proof.
    induction 1 as [|s l t P IH|n raw src l t E T P IH|n s k l t E T P IH|n s l t E P IH]; intros p H; cbn [path_of] in H.
    - injection H as <-. constructor.
    - destruct (path_of l a) as [q|]; [|discriminate]. injection H as <-. constructor. now apply IH.
    - rewrite E in H. cbn [value_text] in H. destruct (base64_urlsafe raw) as [x|] eqn:B; [|discriminate]. cbn [obind] in H.
      destruct (path_of l a) as [q|]; [|discriminate]. injection H as <-. econstructor; [exact T| |now apply IH]. now apply base64_urlsafe_spec.
    - rewrite E in H. cbn [value_text obind] in H. destruct (path_of l a) as [q|]; [|discriminate]. injection H as <-. econstructor; [exact T|]. now apply IH.
    - rewrite E in H. cbn [value_text obind] in H. destruct (path_of l a) as [q|]; [|discriminate]. injection H as <-. constructor. now apply IH.
  Qed.

  (** ** Query parameters *)
  Definition given_as (kw : str * wish) (kv : str * str) : Prop := fst kv = fst kw /\ Grants t0 (snd kw) (snd kv).
  Definition Wanted (qs : list (str * str * bool)) (a : args) (ps : params) : Prop :=
    forall l vs, query_of qs a = Val l -> P_Http.kept l vs -> Forall2 given_as ps vs.
  Definition Meets (enum : bool) (v : value) (w : wish) : Prop :=
    forall x, (let* y := if enum then unpack_enum v else Val v in query_value y) = Val x -> exists t, qstr x = Some t /\ Grants t0 w t.
  Lemma query_cons k n enum qs a l : query_of ((k, n, enum) :: qs) a = Val l ->
    exists x r, (let* w := if enum : bool then unpack_enum (argument a n) else Val (argument a n) in query_value w) = Val x /\ query_of qs a = Val r /\ l = (k, x) :: r.
  Proof.
    cbn [query_of]. intros E.
    destruct (if enum : bool then unpack_enum (argument a n) else Val (argument a n)) as [w|]; [|discriminate]. cbn [obind] in *.
    destruct (query_value w) as [x|]; [|discriminate]. cbn [obind] in E. destruct (query_of qs a) as [t|]; [|discriminate]. injection E as <-. eauto.
  Qed.
  Lemma wanted_nil a : Wanted [] a [].
  Proof. intros l vs E K. injection E as <-. inversion K. constructor. Qed.
  Lemma wanted_skip k n enum qs a ps : argument a n = VlNone -> Wanted qs a ps -> Wanted ((k, n, enum) :: qs) a ps.
  Proof.
    intros N W l vs E K. destruct (query_cons _ _ _ _ _ _ E) as (x & r & X & R & ->). rewrite N in X. apply RequestFacts.missing_query in X. subst x.
    inversion K; subst. now apply (W r).
  Qed.
  Lemma wanted_take k n enum qs a w ps : Meets enum (argument a n) w -> Wanted qs a ps -> Wanted ((k, n, enum) :: qs) a ((k, w) :: ps).
  Proof.
    intros M W l vs E K. destruct (query_cons _ _ _ _ _ _ E) as (x & r & X & R & ->). destruct (M x X) as (t & T & G).
    inversion K; subst; cbn [qstr] in T; try discriminate; injection T as <-; (constructor; [split; [reflexivity|exact G]|now apply (W r)]).
  Qed.
  Lemma meets_int z : Meets false (VlInt z) (Is (str_of_Z z)).
  Proof. intros x [= <-]. eexists. split; reflexivity. Qed.
  Lemma meets_member c n s : Meets true (VlMember c n s) (Is s).
  Proof. intros x [= <-]. eexists. split; reflexivity. Qed.
  Lemma meets_dummy s : Meets true (VlDummy s) (Is s).
  Proof. intros x [= <-]. eexists. split; reflexivity. Qed.
  Lemma meets_str s : Meets false (VlStr s) (Is s).
  Proof. intros x [= <-]. eexists. split; reflexivity. Qed.
  Lemma meets_text s src : told t0 src = Some s -> Meets false (VlStr s) (The_text src).
  Proof. intros T x [= <-]. eexists. split; [reflexivity|exact T]. Qed.
  Lemma meets_true : Meets false (VlBool true) (Is (lit "True")).
  Proof. intros x [= <-]. eexists. split; reflexivity. Qed.
  Lemma meets_id raw src : told t0 src = Some raw -> Meets false (VlBase64 raw) (The_id src).
  Proof.
    intros T x E. cbn [obind query_value value_text] in E. destruct (base64_urlsafe raw) as [t|] eqn:B; [|discriminate]. cbn [obind] in E. injection E as <-.
    exists t. split; [reflexivity|]. exists raw. split; [exact T|]. now apply base64_urlsafe_spec.
  Qed.
  Lemma asset_decodes n v : Forall JsonSpec.code_point n -> Forall JsonSpec.code_point v ->
    JsonSpec.decode (lit "{" ++ json_text (lit "name") ++ lit ": " ++ json_text n ++ lit ", " ++ json_text (lit "value") ++ lit ": " ++ json_text v ++ lit "}") =
      Some (JObj [(lit "name", JStr (JsonSpec.joined n)); (lit "value", JStr (JsonSpec.joined v))]).
  Proof.
    intros A B. pose proof (JsonFacts.decode_dumps (JObj [(lit "name", JStr n); (lit "value", JStr v)])) as D.
    cbn [CliModel.json_dumps List.map fst snd join JsonSpec.joined_value] in D. rewrite <- !app_assoc in D. etransitivity; [|apply D].
    - reflexivity.
    - assert (N : forall s, forallb (fun c => N.ltb c 1114112) s = true -> Forall JsonSpec.code_point s).
      { intros s H. apply Forall_forall. intros x I. apply N.ltb_lt. exact (proj1 (forallb_forall _ _) H x I). }
      apply JsonSpec.W_obj. apply Forall_cons; [|apply Forall_cons; [|apply Forall_nil]]; cbn [fst snd]; (split; [apply N; reflexivity|apply JsonSpec.W_str; assumption]).
  Qed.
  Lemma meets_asset n v k : told_asset t0 k = Some (n, v) -> Meets false (VlAssetId n v) (The_asset k).
  Proof.
    intros T x E. cbn [obind query_value] in E. destruct (value_text (VlAssetId n v)) as [t|] eqn:B; [|discriminate]. cbn [obind] in E. injection E as <-.
    exists t. split; [reflexivity|]. cbn [value_text] in B. apply base64_urlsafe_spec in B. destruct B as [B _].
    exists n, v. split; [exact T|]. eexists. split; [exact B|]. apply asset_decodes.
  Qed.

  (** ** Requests *)
  Lemma endpoint_sends c0 c e a t t' T ps hs r s : Path t0 ty t (List.concat (prefixes c)) -> host c = host c0 -> verify c = verify c0 ->
    remove_path_prefix c = remove_path_prefix c0 -> Parts a (e_path e) t' -> normal (t ++ t') = normal T -> Wanted (e_query e) a ps ->
    request_of e hs a = Val r -> send c r = Val s -> Sends c0 t0 ty T ps s.
  Proof.
    intros M Hh Hv Hr Pa N W R S.
    unfold request_of in R. destruct (path_of (e_path e) a) as [p|] eqn:P; [|discriminate]. cbn [obind] in R.
    destruct (query_of (e_query e) a) as [qs|] eqn:Q; [|discriminate]. cbn [obind] in R. injection R as <-.
    assert (MU : exists u, make_url (Request p (lit "get") None qs hs) = Val u).
    { unfold send in S. destruct (make_url (Request p (lit "get") None qs hs)); [eauto|discriminate]. }
    destruct MU as [u MU]. destruct (P_Http.C14_query_roundtrip _ _ MU) as (vs & K & K0 & K1). cbn [path query_parameters] in *.
    destruct (P_Http.C18_rest_unchanged _ _ _ S) as (S1 & S2 & S3). cbn [method HttpModel.body] in *.
    unfold send in S. rewrite MU in S. cbn [obind] in S. injection S as <-. cbn [s_url] in *.
    exists (strip_host (host c)), (List.concat (prefixes c) ++ p), vs, (List.concat (prefixes c) ++ u), (remove_prefix (remove_path_prefix c) (List.concat (prefixes c) ++ u)).
    rewrite <- Hh, <- Hv, <- Hr. split.
    { destruct (strip_host_spec (host c)) as [(g & E & ->)|[E ->]]; [left; exact E|right; split; [reflexivity|exact E]]. }
    split; [apply (same_path (t ++ t')); [exact N|]; apply path_app; [exact M|now apply (parts_path a _ _ Pa)]|].
    split; [exact (W qs vs Q K)|]. split.
    { destruct vs as [|x vs]; [left|right].
      - split; [reflexivity|]. now rewrite K0.
      - destruct K1 as (q & -> & PQ & _); [discriminate|]. exists q. split; [now rewrite app_assoc|exact PQ]. }
    split; [|split; [reflexivity|]; split; [exact S1|]; split; [exact S2|exact S3]].
    destruct (remove_prefix_spec (remove_path_prefix c) (List.concat (prefixes c) ++ u)) as [(E & Np)|(E & Pf)].
    - right. split; [|exact E]. intros (rest & X). apply Np. exists rest. exact X.
    - left. split; [|exact E]. eexists. split; [exact E|exact Pf].
  Qed.
End Paths.

(** ** Levels *)
Definition flawless (r : result) : bool := match r_level r with INFO => true | _ => false end.
Lemma flawless_info r : flawless r = true <-> r_level r = INFO.
Proof. unfold flawless. destruct (r_level r); split; congruence. Qed.
Lemma flawless_ok r : flawless r = true -> ok r = true.
Proof. intros E. apply flawless_info in E. destruct r as [m l s]. cbn [r_level] in E. subst l. reflexivity. Qed.
Lemma flawless_all l : forallb flawless l = true -> forallb ok l = true.
Proof. rewrite !forallb_forall. intros H x I. apply flawless_ok, H, I. Qed.
Lemma info_appends m l : r_level (appends (new_result m INFO) l) = INFO <-> forallb flawless l = true.
Proof.
  rewrite appends_level. cbn [r_level new_result]. induction l as [|x l IH]; cbn [List.map fold_left forallb]; [split; reflexivity|].
  destruct (flawless x) eqn:F.
  - apply flawless_info in F. rewrite F. exact IH.
  - cbn [andb]. split; [|discriminate]. intros E. exfalso. unfold flawless in F.
    assert (W : worse_eq (r_level x) INFO). { rewrite <- E. apply (worse_eq_trans _ (level_or INFO (r_level x))); [apply level_or_ub_r|apply fold_or_ge]. }
    destruct (r_level x); [discriminate| | |]; cbn in W; try discriminate W; lia.
Qed.

(** ** Exact outcomes of the calls *)
Lemma bind_inv {X Y} (p : prog X) (f : X -> prog Y) srv h es k h2 : meaning (pbind p f) srv h = (es, k, h2) -> (exists e t, k = Exc e t) \/
  (exists b, k = Abort b /\ meaning p srv h = (es, Abort b, h2)) \/
  exists es1 x h1 es2, meaning p srv h = (es1, Ret x, h1) /\ meaning (f x) srv h1 = (es2, k, h2) /\ es = es1 ++ es2.
Proof.
  rewrite meaning_bind. destruct (meaning p srv h) as [[es1 [x|b|e t]] h1]; cbn [andthen].
  - destruct (meaning (f x) srv h1) as [[es2 c2] h3] eqn:E. intros [= <- <- <-]. right. right. exists es1, x, h1, es2. auto.
  - intros [= <- <- <-]. right. left. eauto.
  - intros [= <- <- <-]. left. eauto.
Qed.
Lemma lift_inv {X Y} (o : outcome X) (f : X -> prog Y) srv h es k h2 : meaning (pbind (lift o) f) srv h = (es, k, h2) -> (exists e t, k = Exc e t) \/
  exists x, o = Val x /\ meaning (f x) srv h = (es, k, h2).
Proof. destruct o as [x|e]; cbn [lift pbind]; [intros E; right; eauto|]. intros [= <- <- <-]. left. eauto. Qed.
Section Calls.
  Variable show : json -> str.
  Variable repr : str -> str.
  Notation Accepts := (Accepts show repr).
  Notation Spotless := (Spotless show repr).

  Lemma invoke_exact c r srv h es k h1 : meaning (invoke c r) srv h = (es, k, h1) -> (exists e t, k = Exc e t) \/
    exists s st ct d, send c r = Val s /\ k = Ret (st, d) /\ h1 = h ++ [(s, Response st ct d)] /\ forallb flawless es = true.
  Proof.
    unfold invoke. destruct (make_url r) as [u|e]; cbn [lift pbind]; [|intros [= <- <- <-]; left; eauto].
    unfold say, pwrite. cbn [pbind meaning]. destruct (send c r) as [s|e]; cbn [lift pbind meaning]; [|intros [= <- <- <-]; left; eauto].
    destruct (srv h s) as [st ct d|e t]; cbn [meaning]; intros [= <- <- <-]; [right|left; eauto]. exists s, st, ct, d. auto.
  Qed.
  Inductive Outcome (t : ann) (x : expected) (y : reply) (es : list result) : ctl pyval -> Prop :=
  | O_fatal st ct d b : y = Response st ct d -> (500 <= st)%Z -> r_level b = CRITICAL -> Outcome t x y es (Abort b)
  | O_bad st ct d b : y = Response st ct d -> (st < 500)%Z -> ok b = false ->
      (forall j, d = Json j -> status_in st x = true -> container j -> ~ Accepts t j) -> Outcome t x y es (Abort b)
  | O_good st ct j r v : y = Response st ct (Json j) -> (st < 500)%Z -> status_in st x = true -> container j -> check_body show repr t j = Val (r, v) -> ok r = true ->
      forallb ok es = true -> forallb flawless es = flawless r -> Outcome t x y es (Ret v).
  Definition requested (S : sent -> Prop) (c : client) (e : endpoint) (a : args) : Prop := forall hs r s, request_of e hs a = Val r -> send c r = Val s -> S s.
  Lemma extract_cases d : (exists j, d = Json j /\ container j /\ extract_json d = PRet j) \/
    ((forall j, d = Json j -> ~ container j) /\ exists m, extract_json d = fail_with m).
  Proof.
    destruct d as [j|m]; [|right; split; [intros ? [=]|cbn; eauto]].
    destruct j; cbn; try (left; eexists; split; [reflexivity|]; split; [exact Logic.I|reflexivity]);
      (right; split; [intros ? [= <-] F; exact F|eauto]).
  Qed.
  Lemma decode_exact (S : sent -> Prop) c e a t x srv h es k h1 : requested S c e a -> meaning (invoke_and_decode show repr c e a t x) srv h = (es, k, h1) ->
    (exists y z, k = Exc y z) \/ exists s y, h1 = h ++ [(s, y)] /\ S s /\ Outcome t x y es k.
  Proof.
    intros Rq. unfold invoke_and_decode. intros E. apply lift_inv in E. destruct E as [E|(r & R & E)]; [now left|].
    apply bind_inv in E. destruct E as [E|[(b & -> & E)|(es1 & x1 & h2 & es2 & E & M & ->)]]; [now left| |].
    { apply invoke_exact in E. destruct E as [(? & ? & [=])|(? & ? & ? & ? & _ & [=] & _)]. }
    apply invoke_exact in E. destruct E as [(? & ? & [=])|(s & st & ct & d & Sd & X1 & -> & Fl)]. injection X1 as ->. specialize (Rq _ _ _ R Sd).
    destruct (Z.leb_spec 500 st) as [L|L].
    { injection M as <- <- <-. right. exists s, (Response st ct d). split; [reflexivity|]. split; [exact Rq|]. eapply O_fatal; [reflexivity|exact L|reflexivity]. }
    destruct (status_in st x) eqn:I; cbn [negb] in M.
    2:{ injection M as <- <- <-. right. exists s, (Response st ct d). split; [reflexivity|]. split; [exact Rq|].
        eapply O_bad; [reflexivity|exact L|reflexivity|]. intros j _ Q. congruence. }
    rewrite meaning_bind in M. destruct (extract_cases d) as [(j & -> & C & X)|(N & m & X)]; rewrite X in M.
    2:{ cbn [fail_with meaning andthen] in M. injection M as <- <- <-. right. exists s, (Response st ct d). split; [reflexivity|]. split; [exact Rq|].
        eapply O_bad; [reflexivity|exact L|reflexivity|]. intros j D _ C. exfalso. exact (N j D C). }
    cbn [meaning andthen] in M. rewrite meaning_bind, meaning_lift in M. destruct (check_body show repr t j) as [[q y]|] eqn:B; cbn [andthen] in M.
    2:{ injection M as <- <- <-. left. eauto. }
    destruct (ok q) eqn:O; cbn [pbind pwrite meaning] in M; injection M as <- <- <-; right; exists s, (Response st ct (Json j)); (split; [reflexivity|]; split; [exact Rq|]).
    - cbn [app]. eapply O_good; [reflexivity|exact L|exact I|exact C|exact B|exact O|..]; rewrite forallb_app; cbn [forallb].
      + rewrite (flawless_all _ Fl), O. reflexivity.
      + rewrite Fl. cbn [andb]. apply andb_true_r.
    - eapply O_bad; [reflexivity|exact L|exact O|]. intros j' D _ _ (r' & v' & B' & O'). injection D as <-. congruence.
  Qed.
  Lemma content_exact (S : sent -> Prop) c e a srv h es k h1 : requested S c e a -> meaning (invoke_content c e a) srv h = (es, k, h1) ->
    (exists y z, k = Exc y z) \/ exists s y v, h1 = h ++ [(s, y)] /\ S s /\ k = Ret v /\ Acceptable (Unchecked false) y /\ forallb flawless es = true.
  Proof.
    intros Rq. unfold invoke_content. intros E. apply lift_inv in E. destruct E as [E|(r & R & E)]; [now left|].
    apply bind_inv in E. destruct E as [E|[(b & -> & E)|(es1 & x1 & h2 & es2 & E & M & ->)]]; [now left| |].
    { apply invoke_exact in E. destruct E as [(? & ? & [=])|(? & ? & ? & ? & _ & [=] & _)]. }
    apply invoke_exact in E. destruct E as [(? & ? & [=])|(s & st & ct & d & Sd & X1 & -> & Fl)]. injection X1 as ->. specialize (Rq _ _ _ R Sd). injection M as <- <- <-. right. exists s, (Response st ct d), VAny. rewrite app_nil_r.
    split; [reflexivity|]. split; [exact Rq|]. split; [reflexivity|]. split; [|exact Fl]. exists st, ct, d. split; [reflexivity|discriminate].
  Qed.
  Lemma json_exact (S : sent -> Prop) c e a srv h es k h1 : requested S c e a -> meaning (invoke_json c e a) srv h = (es, k, h1) ->
    (exists y z, k = Exc y z) \/ exists s y, h1 = h ++ [(s, y)] /\ S s /\
      ((exists v, k = Ret v /\ Acceptable (Unchecked true) y /\ forallb flawless es = true) \/
       (exists b, k = Abort b /\ ~ Acceptable (Unchecked true) y /\ ok b = false)).
  Proof.
    intros Rq. unfold invoke_json. intros E. apply lift_inv in E. destruct E as [E|(r & R & E)]; [now left|].
    apply bind_inv in E. destruct E as [E|[(b & -> & E)|(es1 & x1 & h2 & es2 & E & M & ->)]]; [now left| |].
    { apply invoke_exact in E. destruct E as [(? & ? & [=])|(? & ? & ? & ? & _ & [=] & _)]. }
    apply invoke_exact in E. destruct E as [(? & ? & [=])|(s & st & ct & d & Sd & X1 & -> & Fl)]. injection X1 as ->. specialize (Rq _ _ _ R Sd).
    rewrite meaning_bind in M. right. exists s, (Response st ct d). destruct (extract_cases d) as [(j & -> & C & X)|(N & m & X)]; rewrite X in M.
    - cbn [meaning andthen app] in M. injection M as <- <- <-. split; [reflexivity|]. split; [exact Rq|]. left. exists VAny. rewrite app_nil_r. split; [reflexivity|].
      split; [|exact Fl]. exists st, ct, (Json j). split; [reflexivity|]. eauto.
    - cbn [fail_with meaning andthen] in M. injection M as <- <- <-. split; [reflexivity|]. split; [exact Rq|]. right. eexists. split; [reflexivity|]. split; [|reflexivity].
      intros (st' & ct' & d' & Q & V). injection Q as <- <- <-. destruct (V eq_refl) as (v & -> & C). exact (N v eq_refl C).
  Qed.

  (** ** Calls that have to succeed *)
  Definition handled_as (h : handling) (a : answer) (k : ann) : Prop :=
    match h, a with
    | Decoded t, Checked b _ => t = k /\ In (k, b) bodies
    | Content, Unchecked false => True
    | JsonOnly, Unchecked true => True
    | _, _ => False
    end.
  Inductive Success_outcome (a : answer) (k : ann) (y : reply) (es : list result) : ctl pyval -> Prop :=
  | S_fatal b : checked a = true -> r_level b = CRITICAL -> (forall acc cl, ~ Passes a acc cl y) -> Success_outcome a k y es (Abort b)
  | S_bad b : ok b = false -> (forall cl, ~ Passes a (Accepts k) cl y) -> (checked a = true -> forall s, ~ ServerError (s, y)) -> Success_outcome a k y es (Abort b)
  | S_checked b e ct j r v : a = Checked b e -> y = Response 200 ct (Json j) -> container j -> check_body show repr k j = Val (r, v) -> ok r = true -> Bears b j v ->
      forallb ok es = true -> forallb flawless es = flawless r -> Success_outcome a k y es (Ret v)
  | S_unchecked e v : a = Unchecked e -> Acceptable a y -> forallb flawless es = true -> Success_outcome a k y es (Ret v).
  Lemma success_exact (S : sent -> Prop) o i args a k srv h es c h1 : handled_as (o_handling o) a k -> requested S (i_client i) (o_endpoint o) args ->
    meaning (invoke_success show repr o i args) srv h = (es, c, h1) ->
    (exists e t, c = Exc e t) \/ exists s y, h1 = h ++ [(s, y)] /\ S s /\ Success_outcome a k y es c.
  Proof.
    intros H Rq. unfold invoke_success, call. destruct (accepts (o_sig o) args); [|intros [= <- <- <-]; left; eauto].
    destruct (o_handling o) as [t| |], a as [b e|[|]]; cbn [handled_as] in H; try contradiction; intros E.
    - destruct H as [-> Ib]. apply (decode_exact S) in E; [|exact Rq]. destruct E as [E|(s & y & -> & Ss & O)]; [now left|right]. exists s, y. split; [reflexivity|]. split; [exact Ss|].
      destruct O as [st ct d q -> L Q|st ct d q -> L Q N|st ct j r v -> L St C B O F1 F2].
      + apply S_fatal; [reflexivity|exact Q|]. intros acc cl (ct' & j & X & _). injection X as -> _ _. lia.
      + apply S_bad; [exact Q| |].
        * intros cl (ct' & j & X & C & A & _). injection X as -> _ ->. exact (N j eq_refl eq_refl C A).
        * intros _ s0 (st' & ct' & d' & X & L'). cbn [snd] in X. injection X as <- _ _. lia.
      + apply status_success in St. subst st. eapply S_checked; [reflexivity|reflexivity|exact C|exact B|exact O| |exact F1|exact F2]. eapply check_bears; eauto.
    - apply (content_exact S) in E; [|exact Rq]. destruct E as [E|(s & y & v & -> & Ss & -> & A & F)]; [now left|right]. exists s, y.
      split; [reflexivity|]. split; [exact Ss|]. now apply (S_unchecked _ _ _ _ false).
    - apply (json_exact S) in E; [|exact Rq]. destruct E as [E|(s & y & -> & Ss & [(v & -> & A & F)|(b & -> & A & O)])]; [now left|right..]; exists s, y; (split; [reflexivity|]; split; [exact Ss|]).
      + now apply (S_unchecked _ _ _ _ true).
      + apply S_bad; [exact O|intros cl; exact A|discriminate].
  Qed.

  (** ** Verdicts *)
  (** the further steps of a test: they decide a claim *)
  Definition Decides {X} (P : Prop) (hard : bool) (p : prog X) : Prop := forall srv h es c h1, meaning p srv h = (es, c, h1) ->
    (exists e t, c = Exc e t) \/
    (h1 = h /\ forallb flawless es = true /\ ((P /\ exists x, c = Ret x) \/ (~ P /\ exists b, c = Abort b /\ r_level b = if hard then ERROR else WARNING))).
  Definition Tested {X} (S : sent -> Prop) (V : result -> reply -> Prop) (p : prog X) : Prop := forall m srv h es o r h1,
    meaning (block m p) srv h = (es, Ret (o, r), h1) -> exists s y, h1 = h ++ [(s, y)] /\ S s /\ V r y.
  Definition Claims {X} (suite : str) (t0 : trace) (a : answer) (cl : claim) (f : pyval -> prog X) : Prop :=
    match a with
    | Checked b _ => forall j v, Bears b j v -> Decides (Holds suite t0 cl j) (serious cl) (f v)
    | Unchecked _ => cl = Nothing /\ forall v, Decides True true (f v)
    end.
  Lemma level_hard b (hard : bool) : r_level b = (if hard then ERROR else WARNING) -> ok b = negb hard /\ flawless b = false.
  Proof. unfold flawless. destruct b as [m l s]. cbn [r_level ok]. intros ->. now destruct hard. Qed.
  Lemma success_tested {X} (S : sent -> Prop) o i args a k suite t0 cl (f : pyval -> prog X) : handled_as (o_handling o) a k ->
    requested S (i_client i) (o_endpoint o) args -> cl <> Refusal -> Claims suite t0 a cl f ->
    Tested S (Verdict a (Accepts k) (Spotless k) suite cl t0) (pbind (invoke_success show repr o i args) f).
  Proof.
    intros H Rq NR Cf m srv h es ov r h1 E. apply block_ret in E. destruct E as (_ & _ & es' & c & E & C). rewrite meaning_bind in E.
    destruct (meaning (invoke_success show repr o i args) srv h) as [[es1 c1] h2] eqn:M. apply (success_exact S _ _ _ a k) in M; [|exact H|exact Rq].
    destruct M as [(e & t & ->)|(s & y & -> & Ss & O)].
    { cbn [andthen] in E. injection E as <- <- <-. destruct C as [(? & [=] & _)|(? & [=] & _)]. }
    enough (G : h1 = h ++ [(s, y)] /\ (ok r = true <-> Passes a (Accepts k) (fun j => serious cl = true -> Holds suite t0 cl j) y) /\
      (r_level r = INFO <-> Passes a (Spotless k) (Holds suite t0 cl) y) /\ (checked a = true -> (exists s, ServerError (s, y)) -> r_level r = CRITICAL)).
    { exists s, y. destruct G as (-> & G1 & G2 & G3). split; [reflexivity|]. split; [exact Ss|].
      destruct cl; cbn [Verdict]; try congruence; (split; [exact G1|]; split; [exact G2|]; intros s0 A B; apply G3; eauto). }
    assert (Ps : forall (acc acc' cl cl' : json -> Prop) (y : reply), (forall j, acc j -> acc' j) -> (forall j, cl j -> cl' j) -> Passes a acc cl y -> Passes a acc' cl' y).
    { clear. intros acc acc' cl cl' y A1 A2. destruct a; cbn [Passes]; [|auto]. intros (ct & j & -> & C & A & B). eauto 8. }
    assert (SA : forall j, Spotless k j -> Accepts k j).
    { clear. intros j (r & v & B & L). exists r, v. split; [exact B|]. apply flawless_ok, flawless_info, L. }
    destruct O as [b K L N|b Ob N NS|b e ct j q v -> -> Cj B O Be F1 F2|e v -> Ac F].
    - cbn [andthen] in E. injection E as <- <- <-. destruct C as [(? & [=] & _)|(a' & [= <-] & _ & ->)]. split; [reflexivity|].
      assert (Lr : r_level (appends (new_result m INFO) (es1 ++ [b])) = CRITICAL).
      { rewrite appends_level. apply worst_critical. apply Exists_app. right. now constructor. }
      rewrite Lr. split; [|split; [|reflexivity]].
      + rewrite ok_appends, forallb_app. cbn [forallb]. replace (ok b) with false by (destruct b as [m' l' s']; cbn [r_level] in L; now subst l').
        rewrite !andb_false_r. split; [discriminate|]. intros P. now apply N in P.
      + split; [discriminate|]. intros P. now apply N in P.
    - cbn [andthen] in E. injection E as <- <- <-. destruct C as [(? & [=] & _)|(a' & [= <-] & _ & ->)]. split; [reflexivity|]. split; [|split].
      + rewrite ok_appends, forallb_app. cbn [forallb]. rewrite Ob, !andb_false_r. split; [discriminate|]. intros P. now apply N in P.
      + rewrite info_appends, forallb_app. cbn [forallb]. split.
        * intros G. apply andb_prop in G. destruct G as [_ G]. rewrite andb_true_r in G. apply flawless_ok in G. congruence.
        * intros P. apply (Ps _ (Accepts k) _ (Holds suite t0 cl) y SA (fun j z => z)) in P. now apply N in P.
      + intros A (s0 & D). now apply (NS A) in D.
    - cbn [andthen] in E. destruct (meaning (f v) srv (h ++ [(s, Response 200 ct (Json j))])) as [[es2 c2] h3] eqn:M. injection E as <- <- <-.
      apply (Cf j v Be) in M. destruct M as [(e' & t & ->)|(-> & Fl & D)]; [destruct C as [(? & [=] & _)|(? & [=] & _)]|]. split; [reflexivity|].
      assert (PA : forall clm : json -> Prop, Passes (Checked b e) (Accepts k) clm (Response 200 ct (Json j)) <-> clm j).
      { intros clm. split; [intros (ct' & j' & Q & _ & _ & P); injection Q as _ <-; exact P|]. intros P. exists ct, j. repeat split; auto. now exists q, v. }
      assert (PS : Passes (Checked b e) (Spotless k) (Holds suite t0 cl) (Response 200 ct (Json j)) <-> flawless q = true /\ Holds suite t0 cl j).
      { split; [intros (ct' & j' & Q & _ & (q' & v' & B' & L) & P); injection Q as _ <-|intros [L P]].
        - split; [|exact P]. apply flawless_info. congruence.
        - exists ct, j. repeat split; auto. exists q, v. split; [exact B|now apply flawless_info]. }
      rewrite PA, PS. split; [|split; [|intros _ (s0 & st & ct' & d & Q & L); cbn [snd] in Q; injection Q as <- _ _; lia]];
      (destruct D as [[P (x & ->)]|[NP (b' & -> & Lb)]]; [destruct C as [(? & [= <-] & _ & ->)|(? & [=] & _)]|destruct C as [(? & [=] & _)|(? & [= <-] & _ & ->)]; apply level_hard in Lb; destruct Lb as [Ob Fb]]).
      + rewrite ok_appends, forallb_app, F1, (flawless_all _ Fl). split; auto.
      + rewrite ok_appends, !forallb_app, F1, (flawless_all _ Fl). cbn [forallb]. rewrite Ob. change (ok (new_result m INFO)) with true. cbn [andb]. rewrite andb_true_r.
        destruct (serious cl); cbn [negb]; (split; [intros Q|intros Q]); [discriminate|now apply NP in Q|discriminate|reflexivity].
      + rewrite info_appends, forallb_app, F2, Fl, andb_true_r. split; [auto|now intros [? _]].
      + rewrite info_appends, !forallb_app. cbn [forallb]. rewrite Fb, !andb_false_r. split; [discriminate|]. intros [_ P]. contradiction.
    - cbn [andthen] in E. destruct (meaning (f v) srv (h ++ [(s, y)])) as [[es2 c2] h3] eqn:M. injection E as <- <- <-. destruct Cf as [-> Cf].
      apply (Cf v) in M. destruct M as [(e' & t & ->)|(-> & Fl & D)]; [destruct C as [(? & [=] & _)|(? & [=] & _)]|]. split; [reflexivity|].
      destruct D as [[_ (x & ->)]|[NP _]]; [|now destruct NP]. destruct C as [(? & [= <-] & _ & ->)|(? & [=] & _)].
      assert (G : forallb flawless (es1 ++ es2) = true) by (rewrite forallb_app, F, Fl; reflexivity). rewrite info_appends, G, ok_appends, (flawless_all _ G).
      cbn [Passes checked]. split; [now split|]. split; [now split|discriminate].
  Qed.
End Calls.

(** ** Steps that decide a claim *)
Lemma decides_iff {X} (P Q : Prop) hard (p : prog X) : (P <-> Q) -> Decides P hard p -> Decides Q hard p.
Proof. intros I D srv h es c h1 E. destruct (D _ _ _ _ _ E) as [?|(A & B & C)]; [now left|right]. rewrite I in C. auto. Qed.
Lemma decides_ret {X} (P : Prop) hard (x : X) : P -> Decides P hard (PRet x).
Proof. intros H srv h es c h1 [= <- <- <-]. right. repeat split. left. eauto. Qed.
Lemma decides_lift {X Y} (P : Prop) hard (o : outcome X) (f : X -> prog Y) : (forall x, o = Val x -> Decides P hard (f x)) -> Decides P hard (pbind (lift o) f).
Proof. intros D srv h es c h1 E. apply lift_inv in E. destruct E as [E|(x & V & E)]; [now left|]. exact (D x V _ _ _ _ _ E). Qed.
Lemma decides_assert (P : Prop) hard b m : (b = true <-> P) -> Decides P hard (assert_ b m (if hard then ERROR else WARNING)).
Proof.
  intros I srv h es c h1. unfold assert_. destruct b; intros [= <- <- <-]; right; (split; [reflexivity|]; split; [reflexivity|]).
  - left. split; [now apply I|eauto].
  - right. split; [|eexists; split; reflexivity]. intros Q. now apply I in Q.
Qed.
Lemma decides_and {X Y} (P Q : Prop) hard (p : prog X) (f : X -> prog Y) : Decides P hard p -> (forall x, P -> Decides Q hard (f x)) -> (Q -> P) -> Decides Q hard (pbind p f).
Proof.
  intros A B I srv h es c h1 E. apply bind_inv in E. destruct E as [E|[(b & -> & E)|(es1 & x & h2 & es2 & E & E2 & ->)]]; [now left| |].
  - destruct (A _ _ _ _ _ E) as [(? & ? & [=])|(-> & F & [(_ & ? & [=])|(N & b' & Q' & L)])]. injection Q' as <-. right.
    split; [reflexivity|]. split; [exact F|]. right. split; [tauto|eauto].
  - destruct (A _ _ _ _ _ E) as [(? & ? & [=])|(-> & F & [(Hp & _)|(_ & ? & [=] & _)])].
    destruct (B x Hp _ _ _ _ _ E2) as [?|(-> & F2 & C)]; [now left|right]. split; [reflexivity|]. split; [now rewrite forallb_app, F, F2|exact C].
Qed.

(** ** Programs that send exactly one request *)
Definition One {X} (S : sent -> Prop) (p : prog X) : Prop := forall srv h es c h1, meaning p srv h = (es, c, h1) ->
  (exists e t, c = Exc e t) \/ exists x, h1 = h ++ [x] /\ S (fst x).
Lemma one_rename {X} S e f (p : prog X) : One S p -> One S (rename e f p).
Proof.
  intros N srv h es c h1 E. pose proof (rename_ret e f p srv h) as R. destruct (meaning p srv h) as [[es' c'] h1'] eqn:M.
  destruct c' as [x|a|e' t].
  - rewrite R in E. injection E as <- <- <-. exact (N _ _ _ _ _ M).
  - rewrite R in E. injection E as <- <- <-. exact (N _ _ _ _ _ M).
  - destruct R as (es'' & e'' & t' & R). rewrite R in E. injection E as <- <- <-. left. eauto.
Qed.
Lemma block_one {X} S m (p : prog X) srv h es o r h1 : One S p -> meaning (block m p) srv h = (es, Ret (o, r), h1) -> exists x, h1 = h ++ [x] /\ S (fst x).
Proof.
  intros A E. apply block_ret in E. destruct E as (-> & _ & es' & c & E & C). destruct (A _ _ _ _ _ E) as [(e & t & ->)|H]; [|exact H].
  destruct C as [(? & [=] & _)|(? & [=] & _)].
Qed.
Section Tests.
  Variable show : json -> str.
  Variable repr : str -> str.
  Lemma one_error (S : sent -> Prop) o i a : requested S (i_client i) (o_endpoint o) a -> One S (invoke_error show repr o i a).
  Proof.
    intros H srv h es c h1. unfold invoke_error, call. destruct (accepts (o_sig o) a); [|intros [= <- <- <-]; left; eauto]. intros E.
    apply (decode_exact show repr S) in E; [|exact H]. destruct E as [E|(s & y & -> & Ss & _)]; [now left|right]. exists (s, y). auto.
  Qed.
  Lemma error_tested (S : sent -> Prop) o i args a acc spot suite t0 : requested S (i_client i) (o_endpoint o) args ->
    Tested S (Verdict a acc spot suite Refusal t0) (invoke_error show repr o i args).
  Proof.
    intros Rq m srv h es ov r h1 E. pose proof E as E'. apply (block_one S) in E'; [|now apply one_error]. destruct E' as ([s y] & -> & Ss).
    apply block_judged in E; [|apply error_negcall]. destruct E as (_ & _ & x & X & Ok & Cr). apply app_inv_head in X. injection X as <-.
    exists s, y. split; [reflexivity|]. split; [exact Ss|]. split; [exact Ok|].
    intros s0 (st & ct & d & Q & L). apply Cr. exists st, ct, d. auto.
  Qed.
  Lemma tested_bare {X} S V (p : prog X) : Tested S V (pbind p PRet) -> Tested S V p.
  Proof.
    intros T m srv h es o r h1 E. apply (T m srv h es o r h1). rewrite meaning_block in *. rewrite meaning_bind. destruct (meaning p srv h) as [[es1 [x|b|e t]] h2]; cbn [andthen meaning]; [|exact E..].
    now rewrite app_nil_r.
  Qed.
  Lemma tested_raise {X Y} S V (o : outcome X) (f : X -> prog Y) : (forall x, o = Val x -> Tested S V (f x)) -> Tested S V (pbind (lift o) f).
  Proof.
    intros T m srv h es ov r h1 E. destruct o as [x|e]; cbn [lift pbind] in E; [exact (T x eq_refl _ _ _ _ _ _ _ E)|].
    rewrite meaning_block in E. discriminate.
  Qed.
  Lemma skipped {X} m text : forall srv h es o r h1, meaning (block m (@PAbort X (new_result text WARNING))) srv h = (es, Ret (o, r), h1) ->
    h1 = h /\ r_level r = WARNING.
  Proof. intros srv h es o r h1 E. rewrite meaning_block in E. cbn [meaning] in E. injection E as <- <- <- <-. split; reflexivity. Qed.
  Lemma asked_if {A X} (g : option A) (S : sent -> Prop) (V : result -> reply -> Prop) (p : prog X) text :
    (match g with Some _ => Tested S V p | None => p = PAbort (new_result text WARNING) end) ->
    forall m srv h es o r h1, meaning (block m p) srv h = (es, Ret (o, r), h1) -> exists t, h1 = h ++ t /\ Asked_if g S (V r) r t.
  Proof.
    intros T m srv h es o r h1 E. unfold Asked_if. destruct g as [x|].
    - destruct (T _ _ _ _ _ _ _ E) as (s & y & -> & Ss & Vy). exists [(s, y)]. split; [reflexivity|]. exists s, y. auto.
    - subst p. apply skipped in E. destruct E as [-> L]. exists []. rewrite app_nil_r. split; [reflexivity|]. split; auto.
  Qed.

  Section Types.
    Variable J : judgement.
    Variable S : option string -> sent -> Prop.
    Variable o : op.
    Variable i : instance.
    Variable kw : args.
    Variable supported : list string.
    Variables (t0 : trace) (n : nat) (cl : claim).
    Hypothesis P : i_paths i = fold_left add_to (elements t0 n) [].
    Hypothesis H : forall ty p, first_path (Some ty) (elements t0 n) = Some p -> requested (S (Some ty)) (i_client i) (o_endpoint o) ((lit "id_short_path", VlStr p) :: kw).
    Hypothesis H1 : forall ty a, requested (S (Some ty)) (i_client i) (o_endpoint o) a -> Tested (S (Some ty)) (J cl t0) (invoke_success show repr o i a).
    Hypothesis H2 : forall ty a, requested (S (Some ty)) (i_client i) (o_endpoint o) a -> Tested (S (Some ty)) (J Refusal t0) (invoke_error show repr o i a).
    Lemma types_noabort ts : NoAbort (check_types show repr o supported kw ts i).
    Proof. induction ts as [|t ts IH]; cbn [check_types]; noabort. exact IH. Qed.
    Lemma types_meaning ts : forall srv h es h1, meaning (check_types show repr o supported kw ts i) srv h = (es, Ret tt, h1) ->
      exists tr, h1 = h ++ List.concat tr /\
        Forall3 (fun ty x t' => r_message x = lit "Checking " ++ lit ty /\ Asked_if (first_path (Some ty) (elements t0 n)) (S (Some ty))
          (J (if existsb (String.eqb ty) supported then cl else Refusal) t0 x) x t') ts es tr.
    Proof.
      induction ts as [|ty ts IH]; cbn [check_types]; intros srv h es h1 E.
      - injection E as <- <-. exists []. cbn [List.concat]. rewrite app_nil_r. split; [reflexivity|]. constructor.
      - apply bind_ret in E. destruct E as (es1 & [ov x] & h2 & es2 & E1 & E2 & ->). apply IH in E2. destruct E2 as (tr & -> & G).
        pose proof E1 as E0. apply block_ret in E0. destruct E0 as (-> & M & _).
        apply (asked_if (first_path (Some ty) (elements t0 n)) (S (Some ty)) (J (if existsb (String.eqb ty) supported then cl else Refusal) t0) _ (lit "No such element present")) in E1.
        + destruct E1 as (t1 & -> & A). exists (t1 :: tr). cbn [List.concat]. rewrite app_assoc. split; [reflexivity|]. constructor; [split; [exact M|exact A]|exact G].
        + clear M E1 G IH. specialize (H ty). rewrite first_type, P in *. pose proof (lookup_nonempty ty (elements t0 n)) as Ne.
          destruct (lookup (lit ty) (fold_left add_to (elements t0 n) [])) as [[|p l]|]; [congruence| |reflexivity].
          apply tested_raise. intros p' Q. injection Q as <-. specialize (H p eq_refl). destruct (existsb (String.eqb ty) supported); auto.
    Qed.
    Lemma types_tested : forall m srv h es ov r h1, meaning (block m (check_types show repr o supported kw all_submodel_elements i)) srv h = (es, Ret (ov, r), h1) ->
      exists t, h1 = h ++ t /\ exists ts, t = List.concat ts /\
        Forall3 (fun ty x t' => r_message x = lit "Checking " ++ lit ty /\ Asked_if (first_path (Some ty) (elements t0 n)) (S (Some ty))
          (J (if existsb (String.eqb ty) supported then cl else Refusal) t0 x) x t') element_types (r_subs r) ts.
    Proof.
      intros m srv h es ov r h1 E. apply block_ret_noabort in E; [|apply types_noabort]. destruct E as (-> & [] & es' & (_ & Sub & _) & _ & E).
      apply types_meaning in E. destruct E as (tr & -> & G). exists (List.concat tr). split; [reflexivity|]. exists tr. split; [reflexivity|]. rewrite Sub. exact G.
    Qed.
  End Types.

  (** ** Calls of the setup *)
  Lemma provides_exact k b j : In (k, b) bodies -> (TestSpec.Accepts show repr k j <-> Complies show repr b j).
  Proof. exact (accepts_exact show repr k b j). Qed.
  Definition Fetches (S : sent -> Prop) (b : body) (p : prog pyval) : Prop := forall srv h es c h1, meaning p srv h = (es, c, h1) ->
    (exists e t, c = Exc e t) \/ exists s y, h1 = h ++ [(s, y)] /\ S s /\
      (forall v, c = Ret v -> forallb ok es = true /\ Provides show repr b y /\ exists st ct j, y = Response st ct (Json j) /\ Bears b j v) /\
      (forall a, c = Abort a -> ~ Provides show repr b y).
  Lemma fetch_decode (S : sent -> Prop) c e a t b : In (t, b) bodies -> requested S c e a -> Fetches S b (invoke_and_decode show repr c e a t Success).
  Proof.
    intros I R srv h es k h1 E. apply (decode_exact show repr S) in E; [|exact R]. destruct E as [E|(s & y & -> & Ss & O)]; [now left|right].
    exists s, y. split; [reflexivity|]. split; [exact Ss|]. split.
    - intros v ->. inversion O as [| |st ct j r v' -> L St C B Ok F1 F2]. split; [exact F1|]. split.
      + apply status_success in St. subst st. exists ct, j. split; [reflexivity|]. split; [exact C|]. apply (provides_exact t b j I). exists r, v. now split.
      + exists st, ct, j. split; [reflexivity|]. eapply check_bears; eauto.
    - intros q -> (ct' & j & Y & C & M). inversion O as [st ct d q' Y' L Q|st ct d q' Y' L Q N|]; subst.
      + injection Y' as <- _ _. lia.
      + injection Y' as <- <- <-. apply (N j eq_refl eq_refl C). now apply (provides_exact t b j I).
  Qed.
  Lemma fetch_success (S : sent -> Prop) o i a t b : o_handling o = Decoded t -> In (t, b) bodies -> requested S (i_client i) (o_endpoint o) a ->
    Fetches S b (invoke_success show repr o i a).
  Proof.
    intros H I R srv h es k h1. unfold invoke_success, call. rewrite H. destruct (accepts (o_sig o) a); [|intros [= <- <- <-]; left; eauto].
    now apply fetch_decode.
  Qed.
End Tests.

(** ** Programs that send some requests one after the other *)
Section Follows.
  Variable show : json -> str.
  Variable repr : str -> str.
  Variable c0 : client.
  Notation Supplied := (Supplied show repr).
  Notation Provides := (Provides show repr).
  Definition Follows {X} (u : trace) (l : list (route * params)) (p : prog X) (V : trace -> X -> Prop) : Prop := forall srv h es c h1, meaning p srv h = (es, c, h1) ->
    match c with
    | Exc _ _ => True
    | Ret x => exists t, h1 = h ++ t /\ V (u ++ t) x /\ Setups c0 (u ++ t) l t /\ Supplied l t /\ forallb ok es = true
    | Abort _ => exists l1 k l2 b t s y, l = l1 ++ k :: l2 /\ h1 = h ++ t ++ [(s, y)] /\ Setups c0 (u ++ t ++ [(s, y)]) (l1 ++ [k]) (t ++ [(s, y)]) /\ Supplied l1 t /\
        Expects (fst k) b /\ ~ Provides b y
    end.
  Lemma setups_ext u l t t' : Setups c0 u l t -> Setups c0 (u ++ t') l t.
  Proof. unfold Setups. induction 1; constructor; [now apply sends_ext|assumption]. Qed.
  Lemma follows_ret {X} u (x : X) (V : trace -> X -> Prop) : V u x -> Follows u [] (PRet x) V.
  Proof. intros H srv h es c h1 [= <- <- <-]. exists []. rewrite !app_nil_r. split; [reflexivity|]. split; [exact H|]. repeat split; constructor. Qed.
  Lemma follows_bind {X Y} u l m (p : prog X) (f : X -> prog Y) (V : trace -> X -> Prop) (W : trace -> Y -> Prop) :
    Follows u l p V -> (forall t x, List.length t = List.length l -> V (u ++ t) x -> Follows (u ++ t) m (f x) W) -> Follows u (l ++ m) (pbind p f) W.
  Proof.
    intros A B srv h es c h1 E. apply bind_inv in E. destruct E as [(e & t & ->)|[(b & -> & E)|(es1 & x & h2 & es2 & E & E2 & ->)]]; [exact I|..]; specialize (A _ _ _ _ _ E); cbn beta iota in A.
    - destruct A as (l1 & k & l2 & q & t & s & y & -> & -> & F & R). exists l1, k, (l2 ++ m), q, t, s, y. split; [now rewrite <- app_assoc|]. split; [reflexivity|]. split; [exact F|exact R].
    - destruct A as (t & -> & Vx & F & P & O). assert (L : List.length t = List.length l) by (clear -F; induction F; cbn [List.length]; congruence). specialize (B t x L Vx _ _ _ _ _ E2).
      destruct c as [y|b|e t']; [| |exact I].
      + destruct B as (t2 & -> & Wy & F2 & P2 & O2). exists (t ++ t2). rewrite !app_assoc in *. split; [reflexivity|]. split; [exact Wy|]. split; [apply Forall2_app; [now apply setups_ext|exact F2]|].
        split; [now apply Forall2_app|]. now rewrite forallb_app, O, O2.
      + destruct B as (l1 & k & l2 & q & t2 & s & y & -> & -> & F2 & P2 & R). exists (l ++ l1), k, l2, q, (t ++ t2), s, y. rewrite <- !app_assoc in *. split; [reflexivity|]. split; [reflexivity|].
        split; [|split; [now apply Forall2_app|exact R]]. apply Forall2_app; [rewrite app_assoc; now apply setups_ext|exact F2].
  Qed.
  Lemma follows_weak {X} u l (p : prog X) (V W : trace -> X -> Prop) : (forall t x, V t x -> W t x) -> Follows u l p V -> Follows u l p W.
  Proof. intros I A srv h es c h1 E. specialize (A _ _ _ _ _ E). destruct c; [|exact A..]. destruct A as (t & A & B & C). eauto. Qed.
  Lemma follows_fetch {Y} u T ps b (p : prog pyval) (f : pyval -> outcome Y) (W : trace -> Y -> Prop) : Fetches show repr (Sends c0 u None T ps) b p -> Expects T b ->
    (forall t j v y, answered (u ++ t) (List.length u) = Some j -> Bears b j v -> f v = Val y -> W (u ++ t) y) ->
    Follows u [(T, ps)] (pbind p (fun x => lift (f x))) W.
  Proof.
    intros A X B srv h es c h1 E. apply bind_inv in E. destruct E as [(e & t & ->)|[(b' & -> & E)|(es1 & x & h2 & es2 & E & E2 & ->)]]; [exact I|..];
    (destruct (A _ _ _ _ _ E) as [(? & ? & [=])|(s & y & -> & Ss & H & H')]).
    - exists [], (T, ps), [], b, [], s, y. split; [reflexivity|]. split; [reflexivity|]. split; [constructor; [|constructor]; cbn [fst snd]; now apply sends_ext|].
      split; [constructor|]. split; [exact X|]. now apply (H' b').
    - rewrite meaning_lift in E2. destruct (f x) as [z|e] eqn:F; injection E2 as <- <- <-; [|exact I].
      destruct (H x eq_refl) as (O & Pr & st & ct & j & -> & Bj). exists [(s, Response st ct (Json j))]. split; [reflexivity|]. split.
      + apply (B _ j x z); [|exact Bj|exact F]. unfold answered. rewrite nth_error_app2 by lia. now rewrite Nat.sub_diag.
      + split; [constructor; [|constructor]; cbn [fst snd]; now apply sends_ext|]. split; [constructor; [|constructor]; eauto|]. now rewrite app_nil_r.
  Qed.
End Follows.
