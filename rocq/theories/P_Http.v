(** Properties C14 - C19. *)
From Coq Require Import List NArith ZArith Bool Lia.
From Coq Require Import String. Open Scope list_scope.
From Verif Require Import PyStr PyStrFacts PyBase Codec CodecSpec HttpModel CodecFacts.
Import ListNotations.
Open Scope N_scope.

(** parameters that are given, in order, as text *)
Inductive kept : list (str * qvalue) -> list (str * str) -> Prop :=
| kept_nil : kept [] []
| kept_none k r l : kept r l -> kept ((k, QNone) :: r) l
| kept_str k s r l : kept r l -> kept ((k, QStr s) :: r) ((k, s) :: l)
| kept_int k z r l : kept r l -> kept ((k, QInt z) :: r) ((k, str_of_Z z) :: l)
| kept_bool k b r l : kept r l -> kept ((k, QBool b) :: r) ((k, if b then lit "True" else lit "False") :: l).

Lemma kept_given l : kept l (given_params l).
Proof. induction l as [|[k v] l IH]; simpl; [constructor|]. destruct v; simpl; constructor; auto. Qed.

(** ** C14 *)
Theorem C14_query_roundtrip : forall r url, make_url r = Val url -> exists ps, kept (query_parameters r) ps
  /\ (ps = [] -> url = path r)
  /\ (ps <> [] -> exists q, url = path r ++ 63 :: q /\ parse_query q = Some ps
        /\ ~ In 63 q /\ ~ In 47 q /\ ~ In 35 q).
Proof.
  intros r url. unfold make_url. intros H. exists (given_params (query_parameters r)).
  split; [apply kept_given|]. destruct (given_params (query_parameters r)) as [|p ps] eqn:E.
  - inversion H; subst. split; [reflexivity|congruence].
  - split; [discriminate|]. intros _. destruct (urlencode (p :: ps)) as [q|] eqn:Eq; [|discriminate].
    cbn [obind] in H. inversion H; subst. exists q. split; [reflexivity|].
    split; [apply urlencode_roundtrip; [discriminate|exact Eq]|].
    unfold urlencode in Eq. destruct (urlencode_pairs (p :: ps)) as [l|] eqn:El; [|discriminate]. cbn [obind] in Eq.
    inversion Eq; subst. apply urlencode_pairs_spec in El.
    assert (G : forall c, In c (join [38] l) -> c <> 63 /\ c <> 47 /\ c <> 35).
    { clear - El. induction El as [|[k v] x d l (k' & v' & Hk & Hv & ->) El IH]; [intros c []|].
      intros c Hc. assert (Hx : In c (k' ++ [61] ++ v') -> c <> 63 /\ c <> 47 /\ c <> 35).
      { rewrite !in_app_iff. simpl. intros [Hi|[[<-|[]]|Hi]]; [|lia|]; eapply quote_plus_chars in Hi; eauto; tauto. }
      destruct l as [|y l]; [auto|]. rewrite join_cons in Hc by discriminate.
      apply in_app_iff in Hc as [Hc|Hc]; auto. apply in_app_iff in Hc as [[<-|[]]|Hc]; [lia|auto]. }
    repeat split; intros Hc; apply G in Hc; lia.
Qed.
(** it fails exactly for text that is not encodable *)
Theorem C14_always_possible : forall r, (exists url, make_url r = Val url) <->
  forall ps, kept (query_parameters r) ps -> Forall (fun kv => Forall scalar (fst kv) /\ Forall scalar (snd kv)) ps.
Proof.
  assert (U : forall l a b, kept l a -> kept l b -> a = b).
  { intros l a b Ha. revert b. induction Ha; intros b0 Hb; inversion Hb; subst; auto; f_equal; auto. }
  intros r. unfold make_url. split.
  - intros [url H] ps Hk. rewrite (U _ _ _ Hk (kept_given _)).
    destruct (given_params (query_parameters r)) as [|p l] eqn:E; [constructor|].
    apply urlencode_total. destruct (urlencode (p :: l)); [eauto|discriminate].
  - intros H. specialize (H _ (kept_given _)).
    destruct (given_params (query_parameters r)) as [|p l] eqn:E; [eauto|].
    apply urlencode_total in H as [q ->]. cbn [obind]. eauto.
Qed.
Print Assumptions C14_query_roundtrip.
Print Assumptions C14_always_possible.
Definition ex_req : request :=
  Request (lit "/shells") (lit "get") None
    [(lit "limit", QInt 1); (lit "cursor", QNone); (lit "id short", QStr (lit "a&b=c/+" ++ [228; 8364; 128512]))] [].
Example C14_ex : exists q, make_url ex_req = Val (lit "/shells?" ++ q)
  /\ q = lit "limit=1&id+short=a%26b%3Dc%2F%2B%C3%A4%E2%82%AC%F0%9F%98%80"
  /\ parse_query q = Some [(lit "limit", lit "1"); (lit "id short", lit "a&b=c/+" ++ [228; 8364; 128512])].
Proof. eexists. split; [vm_compute; reflexivity|]. split; vm_compute; reflexivity. Qed.

(** ** C15 *)
Theorem C15_host_and_path : forall h host_ ver ps hs r u s,
  (forall g, h <> g ++ [47]) -> (host_ = h \/ host_ = h ++ [47]) ->
  make_url r = Val u ->
  send (Client host_ ver [] ps hs) r = Val s ->
  s_url s = h ++ List.concat ps ++ u.
Proof.
  intros h host_ ver ps hs r u s Hh Hhost Hu Hs. unfold send in Hs. rewrite Hu in Hs. cbn [obind] in Hs.
  inversion Hs; subst; clear Hs. cbn [s_url remove_path_prefix prefixes host].
  assert (E1 : strip_host host_ = h).
  { destruct (strip_host_spec host_) as [(g & Eg & ->)|[Hn ->]].
    - destruct Hhost as [->| ->]; [exfalso; eapply Hh; eauto|]. apply app_inj_tail in Eg as [-> _]. reflexivity.
    - destruct Hhost as [->| ->]; auto. exfalso. eapply Hn. reflexivity. }
  assert (E2 : forall x, remove_prefix [] x = x).
  { intros x. destruct (remove_prefix_spec [] x) as [[H _]|[H _]]; auto. }
  now rewrite E1, E2.
Qed.
Print Assumptions C15_host_and_path.
Example C15_ex : exists s, send (new_client (lit "http://localhost:8080/") false [] []) (Request (lit "/shells") (lit "get") None [] []) = Val s
  /\ s_url s = lit "http://localhost:8080/shells".
Proof. eexists. split; [vm_compute; reflexivity|reflexivity]. Qed.

(** ** C16 *)
(** exact behaviour *)
Theorem C16_prefix_removed_exactly : forall c r u s, make_url r = Val u -> send c r = Val s ->
  exists url, s_url s = strip_host (host c) ++ url
  /\ ((exists rest, List.concat (prefixes c) ++ u = remove_path_prefix c ++ rest
        /\ (rest = [] \/ exists t, rest = 47 :: t) /\ url = rest)
      \/ (~ (exists rest, List.concat (prefixes c) ++ u = remove_path_prefix c ++ rest
        /\ (rest = [] \/ exists t, rest = 47 :: t)) /\ url = List.concat (prefixes c) ++ u)).
Proof.
  intros c r u s Hu Hs. unfold send in Hs. rewrite Hu in Hs. cbn [obind] in Hs. inversion Hs; subst; clear Hs.
  eexists. split; [reflexivity|].
  destruct (remove_prefix_spec (remove_path_prefix c) (List.concat (prefixes c) ++ u)) as [[H1 H2]|[H1 H2]].
  - right. auto.
  - left. eauto.
Qed.
(** requests without query parameters: the prefix is removed from every path at or below it *)
Theorem C16_prefix_removed_no_query : forall c p m b h rest, prefixes c = [] ->
  p = remove_path_prefix c ++ rest -> (rest = [] \/ exists t, rest = 47 :: t) ->
  exists s, send c (Request p m b [] h) = Val s /\ s_url s = strip_host (host c) ++ rest.
Proof.
  intros c p m b h rest Hc -> Hrest. unfold send. cbn [make_url query_parameters given_params path obind].
  unfold make_url. cbn [query_parameters given_params path obind]. eexists. split; [reflexivity|].
  cbn [s_url]. rewrite Hc. cbn [List.concat app].
  destruct (remove_prefix_spec (remove_path_prefix c) (remove_path_prefix c ++ rest)) as [[_ H]|[H _]].
  - exfalso. apply H. eauto.
  - apply app_inv_head in H. now rewrite <- H.
Qed.
(** the prefix itself with a query: not removed *)
Theorem C16_query_refuted : exists c r s, path r = remove_path_prefix c
  /\ send c r = Val s /\ s_url s = host c ++ remove_path_prefix c ++ lit "?limit=1".
Proof.
  exists (new_client (lit "http://h") false (lit "/shells") []), (Request (lit "/shells") (lit "get") None [(lit "limit", QInt 1)] []).
  eexists. split; [reflexivity|]. split; [vm_compute; reflexivity|]. vm_compute. reflexivity.
Qed.
Print Assumptions C16_prefix_removed_exactly.
Print Assumptions C16_prefix_removed_no_query.
Print Assumptions C16_query_refuted.
Example C16_ex : exists s, send (new_client (lit "http://h/") false (lit "/shells") []) (Request (lit "/shells/abc") (lit "get") None [(lit "limit", QInt 1)] []) = Val s
  /\ s_url s = lit "http://h/abc?limit=1".
Proof. eexists. split; [vm_compute; reflexivity|reflexivity]. Qed.
Example C16_ex2 : exists s, send (new_client (lit "http://h/") false (lit "/shells") []) (Request (lit "/shellsabc") (lit "get") None [] []) = Val s
  /\ s_url s = lit "http://h/shellsabc".
Proof. eexists. split; [vm_compute; reflexivity|reflexivity]. Qed.

(** ** C17 *)
Theorem C17_descend_exact : forall c p, descend c p = Client (host c) (verify c) (remove_path_prefix c) [p] (additional_headers c).
Proof. reflexivity. Qed.
Theorem C17_accumulate_refuted : exists c p q r s, send (descend (descend c p) q) r = Val s
  /\ s_url s = host c ++ q ++ path r /\ p <> [].
Proof.
  exists (new_client (lit "http://h") false [] []), (lit "/a"), (lit "/b"), (Request (lit "/c") (lit "get") None [] []).
  eexists. split; [vm_compute; reflexivity|]. split; [reflexivity|discriminate].
Qed.
(** one descent works *)
Theorem C17_descend_once : forall h v a p r u s, (forall g, h <> g ++ [47]) -> make_url r = Val u ->
  send (descend (new_client h v [] a) p) r = Val s -> s_url s = h ++ p ++ u.
Proof.
  intros h v a p r u s Hh Hu Hs. rewrite C17_descend_exact in Hs.
  erewrite (C15_host_and_path h h); eauto. simpl. now rewrite app_nil_r.
Qed.
Print Assumptions C17_descend_exact.
Print Assumptions C17_accumulate_refuted.
Print Assumptions C17_descend_once.

(** ** C18 *)
Theorem C18_headers_exact : forall c r s, send c r = Val s -> s_headers s = headers r.
Proof. intros c r s. unfold send. destruct (make_url r); cbn [obind]; [|discriminate]. intros H; inversion H; reflexivity. Qed.
Theorem C18_headers_refuted : exists c r s h, In h (additional_headers c) /\ send c r = Val s /\ ~ In h (s_headers s).
Proof.
  exists (new_client (lit "http://h") false [] [(lit "Authorization", lit "x")]), (Request (lit "/c") (lit "get") None [] []).
  eexists _, _. split; [left; reflexivity|]. split; [vm_compute; reflexivity|]. intros [].
Qed.
(** also the rest of the request is passed on unchanged *)
Theorem C18_rest_unchanged : forall c r s, send c r = Val s ->
  s_method s = method r /\ s_data s = body r /\ s_verify s = verify c.
Proof. intros c r s. unfold send. destruct (make_url r); cbn [obind]; [|discriminate]. intros H; inversion H; auto. Qed.
Print Assumptions C18_headers_exact.
Print Assumptions C18_headers_refuted.
Print Assumptions C18_rest_unchanged.
Example C18_ex : exists s, send (new_client (lit "http://h") true [] []) (Request (lit "/c") (lit "post") (Some (lit "{}")) [] [(lit "A", lit "b")]) = Val s.
Proof. eexists. vm_compute. reflexivity. Qed.

(** ** C19 *)
Theorem C19_base64url : forall s, Forall scalar s -> exists t, base64_urlsafe s = Val t
  /\ base64url_decode t = Some s /\ Forall base64url_char t.
Proof.
  intros s H. apply base64_urlsafe_total in H as [t H]. exists t. split; auto. now apply base64_urlsafe_spec.
Qed.
Theorem C19_injective : forall s s' t, base64_urlsafe s = Val t -> base64_urlsafe s' = Val t -> s = s'.
Proof.
  intros s s' t H H'. apply base64_urlsafe_spec in H as [H _]. apply base64_urlsafe_spec in H' as [H' _]. congruence.
Qed.
Theorem C19_only_failure : forall s e, base64_urlsafe s = Raise e -> e = UnicodeEncodeError /\ ~ Forall scalar s.
Proof.
  intros s e H. split.
  - unfold base64_urlsafe in H. destruct (utf8_encode s) eqn:E; [discriminate|]. cbn [obind] in H. inversion H; subst.
    now apply utf8_raise in E.
  - intros Hs. apply base64_urlsafe_total in Hs as [t Ht]. congruence.
Qed.
Print Assumptions C19_base64url.
Print Assumptions C19_injective.
Print Assumptions C19_only_failure.
Example C19_ex : base64_urlsafe (lit "https://example.com/ids/?sm~1" ++ [228]) = Val (lit "aHR0cHM6Ly9leGFtcGxlLmNvbS9pZHMvP3NtfjHDpA").
Proof. vm_compute. reflexivity. Qed.
Example C19_ex_scalar : Forall scalar (lit "https://example.com" ++ [228]).
Proof. repeat constructor; unfold scalar; lia. Qed.
