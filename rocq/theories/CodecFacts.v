From Coq Require Import List NArith ZArith Bool Lia ZifyN.
From Coq Require Import String. Open Scope list_scope.
From Verif Require Import PyStr PyStrFacts PyBase Codec CodecSpec HttpModel.
Import ListNotations.
Open Scope N_scope.
Ltac Zify.zify_post_hook ::= Z.div_mod_to_equations.

Ltac ifs := repeat match goal with
  | |- context[?a <? ?b] => destruct (N.ltb_spec a b)
  | |- context[?a <=? ?b] => destruct (N.leb_spec a b)
  | |- context[?a =? ?b] => destruct (N.eqb_spec a b)
  end; cbn [andb orb] in *; try lia.

Lemma utf8_char_total c : scalar c <-> exists b, utf8_char c = Some b.
Proof.
  unfold scalar, utf8_char. ifs; split; intros H'; try (eexists; reflexivity); try lia;
    destruct H' as [? H']; try discriminate; lia.
Qed.

Lemma cont_ok x : x < 64 -> cont (128 + x) = Some x.
Proof. intros H. unfold cont. ifs. f_equal. lia. Qed.

Lemma some_inj {A} (a b : A) : Some a = Some b -> a = b.
Proof. congruence. Qed.

Lemma utf8_decode_char c b r : utf8_char c = Some b ->
  utf8_decode (b ++ r) = option_map (cons c) (utf8_decode r).
Proof.
  unfold utf8_char. intros H.
  destruct (N.ltb_spec c 128).
  { apply some_inj in H; subst b. cbn [app utf8_decode]. ifs. reflexivity. }
  destruct (N.ltb_spec c 2048).
  { apply some_inj in H; subst b. cbn [app utf8_decode].
    destruct (N.ltb_spec (192 + c / 64) 128); [lia|]. destruct (N.ltb_spec (192 + c / 64) 192); [lia|].
    destruct (N.ltb_spec (192 + c / 64) 224); [|lia].
    rewrite cont_ok by lia. do 2 f_equal. lia. }
  destruct (N.ltb_spec c 65536).
  { destruct ((55296 <=? c) && (c <=? 57343)); [discriminate|]. apply some_inj in H; subst b. cbn [app utf8_decode].
    destruct (N.ltb_spec (224 + c / 4096) 128); [lia|]. destruct (N.ltb_spec (224 + c / 4096) 192); [lia|].
    destruct (N.ltb_spec (224 + c / 4096) 224); [lia|]. destruct (N.ltb_spec (224 + c / 4096) 240); [|lia].
    rewrite !cont_ok by lia. do 2 f_equal. lia. }
  destruct (N.ltb_spec c 1114112); [|discriminate].
  apply some_inj in H; subst b. cbn [app utf8_decode].
  destruct (N.ltb_spec (240 + c / 262144) 128); [lia|]. destruct (N.ltb_spec (240 + c / 262144) 192); [lia|].
  destruct (N.ltb_spec (240 + c / 262144) 224); [lia|]. destruct (N.ltb_spec (240 + c / 262144) 240); [lia|].
  rewrite !cont_ok by lia. do 2 f_equal. lia.
Qed.

Lemma utf8_roundtrip s b : utf8_encode s = Val b -> utf8_decode b = Some s.
Proof.
  revert b; induction s as [|c s IH]; simpl; intros b H.
  - inversion H; reflexivity.
  - destruct (utf8_char c) as [bc|] eqn:E; [|discriminate].
    destruct (utf8_encode s) as [bs|]; [|discriminate]. inversion H; subst.
    rewrite (utf8_decode_char c) by auto. rewrite (IH bs eq_refl). reflexivity.
Qed.

Lemma utf8_total s : Forall scalar s <-> exists b, utf8_encode s = Val b.
Proof.
  induction s as [|c s IH]; simpl.
  - split; [eauto|constructor].
  - split.
    + inversion 1; subst. apply utf8_char_total in H2 as [bc E]. apply IH in H3 as [bs E2]. rewrite E, E2. eauto.
    + intros [b H]. destruct (utf8_char c) as [bc|] eqn:E; [|discriminate].
      destruct (utf8_encode s) eqn:E2; [|discriminate]. constructor; [apply utf8_char_total; eauto|apply IH; eauto].
Qed.
Lemma utf8_raise s e : utf8_encode s = Raise e -> e = UnicodeEncodeError.
Proof.
  induction s as [|c s IH]; simpl; [discriminate|]. destruct (utf8_char c); [|now inversion 1].
  destruct (utf8_encode s); [discriminate|]. inversion 1; subst; auto.
Qed.

Lemma utf8_bytes s b : utf8_encode s = Val b -> Forall (fun x => x < 256) b.
Proof.
  revert b; induction s as [|c s IH]; simpl; intros b H.
  - inversion H; constructor.
  - destruct (utf8_char c) as [bc|] eqn:E; [|discriminate].
    destruct (utf8_encode s) as [bs|]; [|discriminate]. inversion H; subst.
    apply Forall_app; split; auto. revert E. unfold utf8_char.
    destruct (N.ltb_spec c 128); [intros E; apply some_inj in E; subst bc; repeat (apply Forall_cons || apply Forall_nil); lia|].
    destruct (N.ltb_spec c 2048); [intros E; apply some_inj in E; subst bc; repeat (apply Forall_cons || apply Forall_nil); lia|].
    destruct (N.ltb_spec c 65536).
    { destruct (_ && _); [discriminate|]. intros E; apply some_inj in E; subst bc; repeat (apply Forall_cons || apply Forall_nil); lia. }
    destruct (N.ltb_spec c 1114112); [|discriminate]. intros E; apply some_inj in E; subst bc; repeat (apply Forall_cons || apply Forall_nil); lia.
Qed.

(** ** percent encoding *)
Lemma hex_roundtrip n : n < 16 -> hex_value (hex_digit n) = Some n.
Proof. intros H. unfold hex_digit, hex_value. ifs; f_equal; lia. Qed.

Lemma url_safe_not b : url_safe b = true -> b <> 37 /\ b <> 43 /\ b <> 38 /\ b <> 61 /\ b <> 63 /\ b <> 47 /\ b <> 35.
Proof.
  unfold url_safe. rewrite !orb_true_iff, !andb_true_iff, !N.leb_le, !N.eqb_eq. lia.
Qed.

Lemma pct_roundtrip l : Forall (fun x => x < 256) l -> pct_decode (flat_map quote_byte l) = Some l.
Proof.
  induction 1 as [|b l Hb Hl IH]; [reflexivity|].
  cbn [flat_map]. unfold quote_byte at 1.
  destruct (url_safe b) eqn:E.
  - apply url_safe_not in E. cbn [app pct_decode]. ifs. now rewrite IH.
  - destruct (N.eqb_spec b 32).
    + subst. cbn [app pct_decode N.eqb Pos.eqb]. now rewrite IH.
    + cbn [app pct_decode N.eqb Pos.eqb]. rewrite !hex_roundtrip, IH by lia. cbn [option_map]. do 2 f_equal. lia.
Qed.

Lemma quote_plus_roundtrip s q : quote_plus s = Val q -> form_decode q = Some s.
Proof.
  unfold quote_plus, form_decode. destruct (utf8_encode s) as [b|] eqn:E; [|discriminate].
  intros H; inversion H; subst. rewrite pct_roundtrip by (eapply utf8_bytes; eauto).
  now apply utf8_roundtrip.
Qed.

Lemma quote_byte_chars b c : b < 256 -> In c (quote_byte b) -> c <> 38 /\ c <> 61 /\ c <> 63 /\ c <> 47 /\ c <> 35.
Proof.
  intros Hb. unfold quote_byte. destruct (url_safe b) eqn:E.
  - intros [<-|[]]. apply url_safe_not in E. tauto.
  - destruct (b =? 32).
    + intros [<-|[]]. lia.
    + assert (Hh : forall n, n < 16 -> hex_digit n <> 38 /\ hex_digit n <> 61 /\ hex_digit n <> 63 /\ hex_digit n <> 47 /\ hex_digit n <> 35).
      { intros n Hn. unfold hex_digit. destruct (N.ltb_spec n 10); lia. }
      intros [<-|[<-|[<-|[]]]]; [lia| |]; apply Hh; lia.
Qed.
Lemma quote_plus_chars s q c : quote_plus s = Val q -> In c q -> c <> 38 /\ c <> 61 /\ c <> 63 /\ c <> 47 /\ c <> 35.
Proof.
  unfold quote_plus. destruct (utf8_encode s) as [b|] eqn:E; [|discriminate].
  intros H; inversion H; subst. rewrite in_flat_map. intros (x & Hx & Hc).
  apply utf8_bytes in E. rewrite Forall_forall in E. eapply quote_byte_chars; eauto.
Qed.

Lemma urlencode_pairs_spec d l : urlencode_pairs d = Val l ->
  Forall2 (fun kv p => exists k v, quote_plus (fst kv) = Val k /\ quote_plus (snd kv) = Val v /\ p = k ++ [61] ++ v) d l.
Proof.
  revert l; induction d as [|[k v] d IH]; cbn [urlencode_pairs obind]; intros l H.
  - inversion H; constructor.
  - destruct (quote_plus k) as [k'|] eqn:Ek; [|discriminate]. cbn [obind] in H.
    destruct (quote_plus v) as [v'|] eqn:Ev; [|discriminate]. cbn [obind] in H.
    destruct (urlencode_pairs d) as [r|]; [|discriminate]. cbn [obind] in H. inversion H; subst.
    constructor; eauto 6.
Qed.

Lemma urlencode_roundtrip d q : d <> [] -> urlencode d = Val q -> parse_query q = Some d.
Proof.
  unfold urlencode. destruct (urlencode_pairs d) as [l|] eqn:E; [|discriminate]. cbn [obind].
  intros Hd H; inversion H; subst. apply urlencode_pairs_spec in E.
  unfold parse_query. rewrite join_split.
  - clear Hd H. induction E as [|[k v] p d l (k' & v' & Hk & Hv & ->) E IH]; [reflexivity|].
    cbn [map all_some]. simpl fst in Hk; simpl snd in Hv.
    assert (S1 : split_first 61 (k' ++ [61] ++ v') = Some (k', v')).
    { apply split_first_spec. split; [reflexivity|]. intros Hin. eapply quote_plus_chars in Hin; eauto. tauto. }
    rewrite S1. rewrite (quote_plus_roundtrip _ _ Hk), (quote_plus_roundtrip _ _ Hv). rewrite IH. reflexivity.
  - destruct E; [congruence|discriminate].
  - clear Hd H. induction E as [|[k v] p d l (k' & v' & Hk & Hv & ->) E IH]; constructor; auto.
    rewrite !in_app_iff. simpl. intros [Hin|[[Hin|[]]|Hin]]; [|discriminate|]; eapply quote_plus_chars in Hin; eauto; tauto.
Qed.

Lemma quote_plus_total s : Forall scalar s <-> exists q, quote_plus s = Val q.
Proof.
  rewrite utf8_total. unfold quote_plus. split; intros [b H]; [rewrite H; eauto|].
  destruct (utf8_encode s); [eauto|discriminate].
Qed.

Lemma urlencode_total d : Forall (fun kv => Forall scalar (fst kv) /\ Forall scalar (snd kv)) d <-> exists q, urlencode d = Val q.
Proof.
  assert (G : Forall (fun kv => Forall scalar (fst kv) /\ Forall scalar (snd kv)) d <-> exists l, urlencode_pairs d = Val l).
  { induction d as [|[k v] d IH]; cbn [urlencode_pairs].
    - split; eauto.
    - split.
      + inversion 1 as [|? ? [Hk Hv] Hd]; subst. simpl in Hk, Hv.
        apply quote_plus_total in Hk as [k' ->]. apply quote_plus_total in Hv as [v' ->]. apply IH in Hd as [l ->].
        cbn [obind]. eauto.
      + intros [l H]. destruct (quote_plus k) as [k'|] eqn:Ek; [|discriminate]. cbn [obind] in H.
        destruct (quote_plus v) as [v'|] eqn:Ev; [|discriminate]. cbn [obind] in H.
        destruct (urlencode_pairs d) as [r|]; [|discriminate].
        constructor; [split; apply quote_plus_total; eauto|apply IH; eauto]. }
  rewrite G. unfold urlencode. split; intros [l H].
  - rewrite H. cbn [obind]. eauto.
  - destruct (urlencode_pairs d); [eauto|discriminate].
Qed.

Lemma given_params_spec l : given_params l =
  flat_map (fun kv => match qstr (snd kv) with Some s => [(fst kv, s)] | None => [] end) l.
Proof. induction l as [|[k v] l IH]; simpl; auto. destruct (qstr v); simpl; now rewrite IH. Qed.

(** ** base64 *)
Lemma b64_char_ok n : n < 64 -> base64url_char (b64_char n) /\ b64_value (b64_char n) = Some n.
Proof.
  intros H. unfold b64_char, b64_value, base64url_char.
  destruct (N.ltb_spec n 26).
  { ifs. split; [lia|f_equal; lia]. }
  destruct (N.ltb_spec n 52).
  { ifs. split; [lia|f_equal; lia]. }
  destruct (N.ltb_spec n 62).
  { ifs. split; [lia|f_equal; lia]. }
  destruct (N.eqb_spec n 62).
  - subst. cbn. split; [lia|reflexivity].
  - assert (n = 63) by lia. subst. cbn. split; [lia|reflexivity].
Qed.

Fixpoint sextets (l : list N) : list N :=
  match l with
  | [] => []
  | [a] => [a / 4; a mod 4 * 16]
  | [a; b] => [a / 4; a mod 4 * 16 + b / 16; b mod 16 * 4]
  | a :: b :: c :: r => a / 4 :: a mod 4 * 16 + b / 16 :: b mod 16 * 4 + c / 64 :: c mod 64 :: sextets r
  end.

Lemma list3_ind (P : list N -> Prop) : P [] -> (forall a, P [a]) -> (forall a b, P [a; b]) ->
  (forall a b c r, P r -> P (a :: b :: c :: r)) -> forall l, P l.
Proof.
  intros H0 H1 H2 H3. fix IH 1. intros [|a [|b [|c r]]]; [apply H0|apply H1|apply H2|apply H3, IH].
Qed.

Lemma sextets_small l : Forall (fun x => x < 256) l -> Forall (fun x => x < 64) (sextets l).
Proof.
  induction l using list3_ind; intros H; repeat match goal with H : Forall _ (_ :: _) |- _ => inversion H; subst; clear H end;
    cbn [sextets]; repeat (apply Forall_cons || apply Forall_nil); try lia; auto.
Qed.
Lemma b64_bytes_sextets l : Forall (fun x => x < 256) l -> b64_bytes (sextets l) = Some l.
Proof.
  induction l using list3_ind; intros H; repeat match goal with H : Forall _ (_ :: _) |- _ => inversion H; subst; clear H end.
  - reflexivity.
  - cbn. do 2 f_equal. lia.
  - cbn. do 2 f_equal; [lia|]. f_equal. lia.
  - cbn [sextets b64_bytes]. rewrite IHl by auto. cbn [option_map]. do 2 f_equal; [lia|]. f_equal; [lia|]. f_equal. lia.
Qed.

Lemma b64_encode_sextets l : exists pad, b64_encode l = map b64_char (sextets l) ++ pad /\ Forall (eq 61) pad.
Proof.
  induction l using list3_ind.
  - exists []. auto.
  - exists [61; 61]. repeat constructor.
  - exists [61]. repeat constructor.
  - destruct IHl as (pad & E & Hp). exists pad. cbn [b64_encode sextets map app]. rewrite E. auto.
Qed.

Lemma drop_while_none f s : Forall (fun c => f c = false) s -> drop_while f s = s.
Proof. destruct 1; simpl; auto. now rewrite H. Qed.

Lemma strip_char_pad c s pad : Forall (fun x => x <> c) s -> Forall (eq c) pad -> strip_char c (s ++ pad) = s.
Proof.
  intros Hs Hp. unfold strip_char, rstrip, lstrip.
  assert (Hs' : Forall (fun x => N.eqb c x = false) s).
  { eapply Forall_impl; [|exact Hs]. intros x Hx. apply N.eqb_neq. congruence. }
  destruct s as [|x s].
  - simpl. replace (drop_while (N.eqb c) pad) with (@nil N); [reflexivity|].
    symmetry. apply drop_while_nil. eapply Forall_impl; [|exact Hp]. intros; subst; apply N.eqb_refl.
  - cbn [app drop_while]. inversion Hs'; subst. rewrite H1.
    change (x :: s ++ pad) with ((x :: s) ++ pad). rewrite rev_app_distr.
    rewrite drop_while_app.
    + rewrite drop_while_none by (apply Forall_rev; exact Hs'). apply rev_involutive.
    + apply Forall_rev. eapply Forall_impl; [|exact Hp]. intros; subst; apply N.eqb_refl.
Qed.

Lemma all_some_map (A B C : Type) (f : A -> B) (g : B -> option C) (h : A -> C) l :
  Forall (fun a => g (f a) = Some (h a)) l -> all_some (map g (map f l)) = Some (map h l).
Proof. induction 1; simpl; auto. rewrite H, IHForall. reflexivity. Qed.

Lemma base64_urlsafe_spec s t : base64_urlsafe s = Val t ->
  base64url_decode t = Some s /\ Forall base64url_char t.
Proof.
  unfold base64_urlsafe. destruct (utf8_encode s) as [b|] eqn:E; [|discriminate]. cbn [obind].
  intros H; inversion H; subst; clear H.
  pose proof (utf8_bytes _ _ E) as Hb. pose proof (sextets_small _ Hb) as Hs.
  destruct (b64_encode_sextets b) as (pad & -> & Hp).
  assert (Hc : Forall base64url_char (map b64_char (sextets b))).
  { apply Forall_map. eapply Forall_impl; [|exact Hs]. intros n Hn. now apply b64_char_ok. }
  rewrite strip_char_pad; auto.
  - split; auto. unfold base64url_decode. rewrite (all_some_map _ _ _ _ _ (fun n => n)).
    + rewrite map_id, b64_bytes_sextets by auto. now apply utf8_roundtrip.
    + eapply Forall_impl; [|exact Hs]. intros n Hn. now apply b64_char_ok.
  - eapply Forall_impl; [|exact Hc]. intros x Hx ->. unfold base64url_char in Hx. lia.
Qed.

Lemma base64_urlsafe_total s : Forall scalar s <-> exists t, base64_urlsafe s = Val t.
Proof.
  rewrite utf8_total. unfold base64_urlsafe. split; intros [b H].
  - rewrite H. cbn [obind]. eauto.
  - destruct (utf8_encode s); [eauto|discriminate].
Qed.

(** ** URL assembly *)
Lemma remove_prefix_spec p url : remove_prefix p url = url /\
     ~ (exists rest, url = p ++ rest /\ (rest = [] \/ exists r, rest = 47 :: r))
  \/ url = p ++ remove_prefix p url /\ (remove_prefix p url = [] \/ exists r, remove_prefix p url = 47 :: r).
Proof.
  unfold remove_prefix. destruct (startswith p url) eqn:E; cbn [andb].
  - apply startswith_spec in E as [t ->].
    assert (Hs : skipn (List.length p) (p ++ t) = t).
    { clear. induction p; simpl; auto. }
    assert (Hn : nth_error (p ++ t) (List.length p) = nth_error t 0).
    { clear. induction p; simpl; auto. }
    rewrite Hs, Hn. rewrite app_length.
    destruct t as [|c t].
    + simpl. rewrite Nat.add_0_r, Nat.eqb_refl. simpl. right. auto.
    + simpl. destruct (Nat.eqb_spec (List.length p + S (List.length t)) (List.length p)); [lia|]. cbn [orb].
      destruct (N.eqb_spec c 47).
      * subst. right. eauto.
      * left. split; auto. intros (rest & H & Hr). apply app_inv_head in H. subst.
        destruct Hr as [Hr|[r Hr]]; inversion Hr; congruence.
  - left. split; auto. intros (rest & H & _). subst. rewrite startswith_app in E. discriminate.
Qed.

Lemma strip_host_spec h : (exists g, h = g ++ [47] /\ strip_host h = g)
  \/ ((forall g, h <> g ++ [47]) /\ strip_host h = h).
Proof.
  unfold strip_host. destruct (endswith (lit "/") h) eqn:E.
  - left. apply endswith_spec in E as [g Eg]. change (lit "/") with [47] in Eg. exists g. split; auto. subst.
    rewrite removelast_app by discriminate. simpl. apply app_nil_r.
  - right. split; auto. intros g ->. assert (endswith (lit "/") (g ++ [47]) = true) by (apply endswith_spec; exists g; reflexivity).
    congruence.
Qed.
