(** Lemmas about floating point numbers, decimals and binary data. *)
From Coq Require Import String List NArith ZArith Znumtheory Bool Lia ZifyN.
From Verif Require Import PyStr PyStrFacts PyBase Regex DataTypesModel DataTypesSpec DataTypesFacts DataTypesFacts3.
Import ListNotations.
Local Open Scope Z_scope.

(** ** Rounding *)
Lemma rhe_lt a b M : 0 < b ->
  round_half_even a b < M <-> 2 * a < (2 * M - 1) * b \/ (2 * a = (2 * M - 1) * b /\ Z.even (M - 1) = true).
Proof.
  intros B. unfold round_half_even. pose proof (Z.div_mod a b ltac:(lia)) as E.
  pose proof (Z.mod_pos_bound a b B) as R. set (q := a / b) in *. set (r := a mod b) in *.
  destruct (Z.ltb_spec (2 * r) b) as [L|L]; [|destruct (Z.ltb_spec b (2 * r)) as [L'|L']].
  - split.
    + intros Q. left. assert (b * q <= b * (M - 1)) by (apply Z.mul_le_mono_nonneg_l; lia). lia.
    + intros H. destruct (Z.ltb_spec q M); [assumption|exfalso].
      assert (b * M <= b * q) by (apply Z.mul_le_mono_nonneg_l; lia). lia.
  - split.
    + intros Q. left. assert (b * q <= b * (M - 2)) by (apply Z.mul_le_mono_nonneg_l; lia). lia.
    + intros H. destruct (Z.ltb_spec (q + 1) M); [assumption|exfalso].
      assert (b * (M - 1) <= b * q) by (apply Z.mul_le_mono_nonneg_l; lia). lia.
  - assert (L2 : 2 * r = b) by lia.
    destruct (Z.even q) eqn:EV.
    + split.
      * intros Q. destruct (Z.eq_dec q (M - 1)) as [->|N]; [right; split; [lia|exact EV]|left].
        assert (b * q <= b * (M - 2)) by (apply Z.mul_le_mono_nonneg_l; lia). lia.
      * intros H. destruct (Z.ltb_spec q M); [assumption|exfalso].
        assert (b * M <= b * q) by (apply Z.mul_le_mono_nonneg_l; lia). lia.
    + split.
      * intros Q. left. assert (b * q <= b * (M - 2)) by (apply Z.mul_le_mono_nonneg_l; lia). lia.
      * intros H. destruct (Z.ltb_spec (q + 1) M); [assumption|exfalso].
        assert (b * (M - 1) <= b * q) by (apply Z.mul_le_mono_nonneg_l; lia).
        destruct H as [H|[H EM]]; [lia|].
        assert (b * q = b * (M - 1)) by lia. assert (q = M - 1) by (eapply Z.mul_reg_l; [|eassumption]; lia).
        congruence.
Qed.

Lemma rhe_le a b K : 0 < b -> a <= b * K -> round_half_even a b <= K.
Proof. intros B H. assert (round_half_even a b < K + 1); [|lia]. apply rhe_lt; [exact B|]. left. lia. Qed.

Lemma rhe_ge a b K : 0 < b -> b * K <= a -> K <= round_half_even a b.
Proof.
  intros B H. destruct (Z.ltb_spec (round_half_even a b) K) as [L|L]; [exfalso|exact L].
  apply rhe_lt in L; [|exact B]. lia.
Qed.

Lemma log2_lt n k : 0 <= k -> 0 <= n -> Z.log2 n < k -> n < 2 ^ k.
Proof.
  intros K N L. destruct (Z.eq_dec n 0) as [->|NZ]; [apply Z.pow_pos_nonneg; lia|].
  apply Z.log2_lt_pow2; lia.
Qed.

Lemma log2_ge n k : 0 <= n -> 0 < k -> k <= Z.log2 n -> 2 ^ k <= n.
Proof.
  intros N K L. destruct (Z.eq_dec n 0) as [->|NZ]; [simpl in L; lia|]. apply Z.log2_le_pow2; lia.
Qed.

Lemma double_units_nonneg p q : 0 <= p -> 0 < q -> 0 <= double_units p q.
Proof.
  intros P Q. unfold double_units. set (sh := Z.max 0 _).
  assert (0 <= sh) by lia. assert (0 < 2 ^ sh) by (apply Z.pow_pos_nonneg; lia).
  assert (0 < 2 ^ 1074) by (apply Z.pow_pos_nonneg; lia).
  apply Z.mul_nonneg_nonneg; [|lia]. apply rhe_ge; [nia|]. rewrite Z.mul_0_r. nia.
Qed.

Lemma double_units_lt p q M s : 0 <= p -> 0 < q -> 0 <= s -> 2 ^ 52 < M -> M <= 2 ^ 53 ->
  double_units p q < M * 2 ^ s <->
  2 * (p * 2 ^ 1074) < (2 * M - 1) * 2 ^ s * q \/
  (2 * (p * 2 ^ 1074) = (2 * M - 1) * 2 ^ s * q /\ Z.even (M - 1) = true).
Proof.
  intros P Q S M1 M2. unfold double_units.
  assert (A0 : 0 <= p * 2 ^ 1074) by (apply Z.mul_nonneg_nonneg; [exact P|apply Z.pow_nonneg; lia]).
  set (a := p * 2 ^ 1074) in *. clearbody a. set (n := a / q).
  assert (N0 : 0 <= n) by (apply Z.div_pos; lia).
  assert (PS : 0 < 2 ^ s) by (apply Z.pow_pos_nonneg; lia).
  pose proof (Z.div_mod a q ltac:(lia)) as DM. fold n in DM. pose proof (Z.mod_pos_bound a q Q) as MB.
  set (sh := Z.max 0 (Z.log2 n - 52)). assert (SH : 0 <= sh) by lia.
  assert (PSH : 0 < 2 ^ sh) by (apply Z.pow_pos_nonneg; lia).
  assert (QB : 0 < q * 2 ^ sh) by nia.
  destruct (Z.lt_trichotomy sh s) as [L|[->|L]].
  - (* far below the bound *)
    assert (NB : n < 2 ^ (s + 52)) by (apply log2_lt; lia).
    assert (AB : a < q * 2 ^ (s + 52)) by nia.
    assert (E : 2 ^ (s + 52) = 2 ^ s * 2 ^ 52) by (apply Z.pow_add_r; lia).
    assert (E2 : 2 ^ (s + 52) = 2 ^ sh * 2 ^ (s + 52 - sh)) by (rewrite <- Z.pow_add_r by lia; f_equal; lia).
    assert (R : round_half_even a (q * 2 ^ sh) <= 2 ^ (s + 52 - sh)).
    { apply rhe_le; [exact QB|]. rewrite <- Z.mul_assoc, <- E2. lia. }
    split; intros _.
    + left. rewrite E in AB. change (2 ^ 52) with 4503599627370496 in *.
      assert (X : q * 2 ^ s * 9007199254740992 <= q * 2 ^ s * (2 * M - 1)) by (apply Z.mul_le_mono_nonneg_l; [nia|lia]).
      lia.
    + apply Z.le_lt_trans with (2 ^ (s + 52 - sh) * 2 ^ sh); [apply Z.mul_le_mono_nonneg_r; lia|].
      rewrite Z.mul_comm, <- E2, E. rewrite (Z.mul_comm M). apply Z.mul_lt_mono_pos_l; lia.
  - rewrite <- Z.mul_lt_mono_pos_r by exact PS. rewrite rhe_lt by exact QB.
    replace ((2 * M - 1) * (q * 2 ^ s)) with ((2 * M - 1) * 2 ^ s * q) by ring. reflexivity.
  - (* far above *)
    assert (LN : Z.log2 n = sh + 52) by lia.
    assert (NB : 2 ^ (sh + 52) <= n) by (apply log2_ge; lia).
    assert (AB : q * 2 ^ (sh + 52) <= a) by nia.
    assert (E : 2 ^ (sh + 52) = 2 ^ sh * 2 ^ 52) by (apply Z.pow_add_r; lia).
    assert (E3 : 2 ^ (sh + 52) = 2 ^ s * 2 ^ (sh - s + 52)) by (rewrite <- Z.pow_add_r by lia; f_equal; lia).
    assert (E4 : 2 ^ 53 <= 2 ^ (sh - s + 52)) by (apply Z.pow_le_mono_r; lia).
    assert (R : 2 ^ 52 <= round_half_even a (q * 2 ^ sh)).
    { apply rhe_ge; [exact QB|]. rewrite <- Z.mul_assoc, <- E. exact AB. }
    assert (B1 : M * 2 ^ s <= 2 ^ (sh + 52)).
    { rewrite E3, Z.mul_comm. apply Z.mul_le_mono_nonneg_l; lia. }
    split.
    + intros H. exfalso. apply (Z.lt_irrefl (M * 2 ^ s)). apply Z.le_lt_trans with (2 := H).
      apply Z.le_trans with (1 := B1). rewrite E, Z.mul_comm. apply Z.mul_le_mono_nonneg_r; lia.
    + intros H. exfalso.
      assert (X : q * (M * 2 ^ s) <= q * 2 ^ (sh + 52)) by (apply Z.mul_le_mono_nonneg_l; lia).
      assert (Y : 0 < 2 ^ s * q) by nia. lia.
Qed.

Lemma double_of_decimal_nonneg m e : 0 <= m -> 0 <= double_of_decimal m e.
Proof.
  intros H. unfold double_of_decimal. destruct (Z.leb_spec 0 e).
  - apply double_units_nonneg; [|lia]. apply Z.mul_nonneg_nonneg; [lia|apply Z.pow_nonneg; lia].
  - apply double_units_nonneg; [exact H|apply Z.pow_pos_nonneg; lia].
Qed.

Lemma double_of_decimal_lt m e M s : 0 <= m -> 0 <= s -> 2 ^ 52 < M -> M <= 2 ^ 53 ->
  double_of_decimal m e < M * 2 ^ s <->
  2 * (m * 10 ^ Z.max e 0 * 2 ^ 1074) < (2 * M - 1) * 2 ^ s * 10 ^ Z.max (- e) 0 \/
  (2 * (m * 10 ^ Z.max e 0 * 2 ^ 1074) = (2 * M - 1) * 2 ^ s * 10 ^ Z.max (- e) 0 /\ Z.even (M - 1) = true).
Proof.
  intros P S M1 M2. unfold double_of_decimal. destruct (Z.leb_spec 0 e).
  - rewrite (Z.max_l e 0), (Z.max_r (- e) 0) by lia. change (10 ^ 0) with 1.
    apply double_units_lt; auto; lia.
  - rewrite (Z.max_r e 0), (Z.max_l (- e) 0) by lia. change (10 ^ 0) with 1. rewrite Z.mul_1_r.
    apply double_units_lt; auto. apply Z.pow_pos_nonneg; lia.
Qed.

Lemma double_bound : double_of_decimal 17976931348623158 292 = (2 ^ 53 - 1) * 2 ^ 2045.
Proof. vm_compute. reflexivity. Qed.

Lemma float_bound : double_of_decimal 34028234663852886 22 = (2 ^ 53 - 2 ^ 29) * 2 ^ 1149.
Proof. vm_compute. reflexivity. Qed.

Lemma double_below m e : 0 <= m ->
  double_of_decimal m e < double_of_decimal 17976931348623158 292 <-> dec_le m e ((2 ^ 54 - 3) * 2 ^ 970).
Proof.
  intros H. rewrite double_bound, double_of_decimal_lt by (try exact H; vm_compute; congruence).
  replace (Z.even (2 ^ 53 - 1 - 1)) with true by (vm_compute; reflexivity). unfold dec_le.
  set (X := m * 10 ^ Z.max e 0). set (Y := 10 ^ Z.max (- e) 0).
  replace (2 * (X * 2 ^ 1074)) with (2 ^ 1075 * X)
    by (change (2 ^ 1075) with (2 * 2 ^ 1074); ring).
  replace ((2 * (2 ^ 53 - 1) - 1) * 2 ^ 2045 * Y) with (2 ^ 1075 * ((2 ^ 54 - 3) * 2 ^ 970 * Y)).
  2:{ replace (2 ^ 2045) with (2 ^ 1075 * 2 ^ 970) by (vm_compute; reflexivity).
      change (2 * (2 ^ 53 - 1) - 1) with (2 ^ 54 - 3). ring. }
  assert (P : 0 < 2 ^ 1075) by (apply Z.pow_pos_nonneg; lia).
  set (K := (2 ^ 54 - 3) * 2 ^ 970 * Y). generalize dependent (2 ^ 1075). intros W P.
  split.
  - intros [L|[L _]]; [apply Z.lt_le_incl, (Z.mul_lt_mono_pos_l W)|apply Z.eq_le_incl, (Z.mul_reg_l _ _ W)]; lia.
  - intros L. apply Z.le_lteq in L as [L| ->]; [left; apply Z.mul_lt_mono_pos_l; lia|right; auto].
Qed.

Lemma float_below m e : 0 <= m ->
  double_of_decimal m e < double_of_decimal 34028234663852886 22 <-> dec_lt m e ((2 ^ 54 - 2 ^ 30 - 1) * 2 ^ 74).
Proof.
  intros H. rewrite float_bound, double_of_decimal_lt by (try exact H; vm_compute; congruence).
  replace (Z.even (2 ^ 53 - 2 ^ 29 - 1)) with false by (vm_compute; reflexivity). unfold dec_lt.
  set (X := m * 10 ^ Z.max e 0). set (Y := 10 ^ Z.max (- e) 0).
  replace (2 * (X * 2 ^ 1074)) with (2 ^ 1075 * X)
    by (change (2 ^ 1075) with (2 * 2 ^ 1074); ring).
  replace ((2 * (2 ^ 53 - 2 ^ 29) - 1) * 2 ^ 1149 * Y) with (2 ^ 1075 * ((2 ^ 54 - 2 ^ 30 - 1) * 2 ^ 74 * Y)).
  2:{ replace (2 ^ 1149) with (2 ^ 1075 * 2 ^ 74) by (vm_compute; reflexivity).
      change (2 * (2 ^ 53 - 2 ^ 29) - 1) with (2 ^ 54 - 2 ^ 30 - 1). ring. }
  assert (P : 0 < 2 ^ 1075) by (apply Z.pow_pos_nonneg; lia).
  set (K := (2 ^ 54 - 2 ^ 30 - 1) * 2 ^ 74 * Y). generalize dependent (2 ^ 1075). intros W P.
  split.
  - intros [L|[_ L]]; [|discriminate]. apply (Z.mul_lt_mono_pos_l W); lia.
  - intros L. left. apply Z.mul_lt_mono_pos_l; lia.
Qed.

Local Open Scope N_scope.

(** ** Reading the literals *)
Definition NumChar (c : N) : Prop := Digit c \/ c = 43 \/ c = 45 \/ c = 46 \/ c = 69 \/ c = 101.

Lemma drop_underscores_id s : ~ In 95 s -> forall p, p <> 95 -> drop_underscores p s = Some s.
Proof.
  induction s as [|c s IH]; intros N p P; simpl.
  - apply N.eqb_neq in P. now rewrite P.
  - assert (c <> 95) by (intros ->; apply N; now left).
    replace (c =? 95) with false by (symmetry; now apply N.eqb_neq).
    replace (p =? 95) with false by (symmetry; now apply N.eqb_neq). cbn [andb].
    rewrite IH; auto. intros I. apply N. now right.
Qed.

Lemma mantissa_chars s ip fp : Mantissa s ip fp -> Forall NumChar s.
Proof.
  intros (A & B & _ & H).
  assert (forall l, Forall Digit l -> Forall NumChar l) by (intros l; apply Forall_impl; left; auto).
  destruct H as [->|[-> _]]; auto. apply Forall_app. split; auto. constructor; [right; auto|auto].
Qed.

Lemma sign_chars s neg : Sign s neg -> Forall NumChar s.
Proof. intros [[_ [->| ->]]|[_ ->]]; (apply Forall_nil || (apply Forall_cons; [unfold NumChar; auto|apply Forall_nil])). Qed.

Lemma mantissa_head s ip fp : Mantissa s ip fp -> exists c t, s = c :: t /\ (Digit c \/ c = 46).
Proof.
  intros (A & B & N & [->|[-> ->]]); destruct ip as [|c ip]; simpl; eauto.
  - inversion A; subst; eauto.
  - simpl in N. congruence.
  - inversion A; subst; eauto.
Qed.

Definition Exponent (ex : str) (x : Z) : Prop :=
  (ex = [] /\ x = 0%Z) \/
  exists c sg' neg' ds, ex = c :: sg' ++ ds /\ (c = 101 \/ c = 69) /\ Sign sg' neg' /\
    Digits ds /\ x = signed neg' (numval ds).

Lemma exponent_chars ex x : Exponent ex x -> Forall NumChar ex.
Proof.
  intros [[-> _]|(c & sg & neg & ds & -> & C & S & [_ D] & _)]; constructor.
  - unfold NumChar. destruct C; auto 7.
  - apply Forall_app. split; [eapply sign_chars; eauto|]. eapply Forall_impl; [|exact D]. left. auto.
Qed.

Lemma split_sign_spec sg neg c t : Sign sg neg -> c <> 43 -> c <> 45 ->
  split_sign (sg ++ c :: t) = (neg, c :: t).
Proof.
  intros [[-> [->| ->]]|[-> ->]] A B; try reflexivity.
  simpl. apply N.eqb_neq in A, B. now rewrite A, B.
Qed.

Lemma parse_exponent_spec ex x : Exponent ex x -> parse_exponent ex = Some x.
Proof.
  intros [[-> ->]|(c & sg & neg & ds & -> & C & S & [NE D] & ->)]; [reflexivity|].
  cbn [parse_exponent]. replace ((c =? 101) || (c =? 69)) with true by (destruct C; subst; reflexivity).
  destruct ds as [|d ds]; [congruence|]. inversion D as [|? ? D1 _]; subst.
  rewrite (split_sign_spec sg neg) by (auto; unfold Digit in D1; lia).
  rewrite <- (app_nil_r (d :: ds)). rewrite span_digits_spec by (auto; discriminate).
  cbn [length Nat.eqb]. now rewrite app_nil_r, digits_value_numval.
Qed.

Lemma exponent_head ex x c t : Exponent ex x -> ex = c :: t -> ~ Digit c /\ c <> 46.
Proof.
  intros [[-> _]|(c' & sg & neg & ds & -> & C & _)]; [discriminate|]. intros [= <- _]. unfold Digit. lia.
Qed.

Lemma parse_number_spec mant ip fp ex x : Mantissa mant ip fp -> Exponent ex x ->
  parse_number (mant ++ ex) = Some (ip ++ fp, length fp, x).
Proof.
  intros (A & B & NE & H) E. unfold parse_number.
  assert (Z : (length ip + length fp =? 0)%nat = false).
  { apply Nat.eqb_neq. intros L. apply NE. destruct ip, fp; simpl in L; try lia. reflexivity. }
  destruct H as [->|[-> ->]].
  - rewrite <- app_assoc. rewrite span_digits_spec; auto.
    2:{ intros c t [= <- _]. unfold Digit. lia. }
    change ((lit "." ++ fp) ++ ex) with (46 :: (fp ++ ex)). cbn [N.eqb Pos.eqb].
    rewrite span_digits_spec; auto.
    2:{ intros c t Q. now apply (exponent_head _ _ _ _ E) in Q. }
    now rewrite Z, (parse_exponent_spec _ _ E).
  - rewrite span_digits_spec; auto.
    2:{ intros c t Q. now apply (exponent_head _ _ _ _ E) in Q. }
    assert (Q : match ex with c :: t => if c =? 46 then span_digits t else ([], ex) | [] => ([], ex) end = ([], ex)).
    { destruct ex as [|c t]; [reflexivity|]. destruct (exponent_head _ _ c t E eq_refl) as [_ N].
      apply N.eqb_neq in N. now rewrite N. }
    rewrite Q. rewrite Z, (parse_exponent_spec _ _ E). reflexivity.
Qed.

Lemma numchar_facts c : NumChar c -> c < 127 /\ c <> 95 /\ c_isspace c = false /\ is_space c = false.
Proof.
  intros H. assert (c_isspace c = false).
  { apply not_true_is_false. rewrite c_isspace_spec. unfold NumChar, Digit, AsciiSpace in *. lia. }
  assert (is_space c = false).
  { unfold NumChar, Digit in H.
    assert (c = 48 \/ c = 49 \/ c = 50 \/ c = 51 \/ c = 52 \/ c = 53 \/ c = 54 \/ c = 55 \/ c = 56 \/ c = 57
            \/ c = 43 \/ c = 45 \/ c = 46 \/ c = 69 \/ c = 101) as X by lia.
    repeat destruct X as [->|X]; try (vm_compute; reflexivity). subst. vm_compute. reflexivity. }
  repeat split; auto; unfold NumChar, Digit in H; lia.
Qed.

Lemma strip_by_id (p : N -> bool) s : Forall (fun c => p c = false) s -> rstrip p (lstrip p s) = s.
Proof.
  intros F. destruct s as [|c s]; [reflexivity|].
  pose proof (strip_by_ends p [] (c :: s) []) as E. rewrite app_nil_r in E. apply E; auto; try discriminate.
  - intros x t [= <- _]. now inversion F.
  - intros x t Q. rewrite Forall_forall in F. apply F. rewrite Q. apply in_or_app. right. now left.
Qed.

Lemma head_not_special c t : Digit c \/ c = 46 ->
  str_in (lower (c :: t)) [lit "inf"; lit "infinity"] = false /\ str_eqb (lower (c :: t)) (lit "nan") = false /\
  startswith (lit "nan") (lower (c :: t)) = false /\ startswith (lit "snan") (lower (c :: t)) = false.
Proof.
  intros H. assert (L : lower_ascii c <> 105 /\ lower_ascii c <> 110 /\ lower_ascii c <> 115).
  { unfold lower_ascii. unfold Digit in H. replace ((65 <=? c) && (c <=? 90)) with false
      by (symmetry; apply andb_false_iff; left; apply N.leb_gt; lia). lia. }
  destruct L as (L1 & L2 & L3). apply N.eqb_neq in L1, L2, L3.
  unfold str_in, str_eqb, lower. cbn [List.map]. simpl lit.
  repeat split; simpl; rewrite ?L1, ?L2, ?L3; try reflexivity.
  all: destruct (lower_ascii c) as [|q]; [reflexivity|].
  all: rewrite Pos.eqb_sym; cbn [N.eqb] in L2, L3; rewrite ?L2, ?L3; reflexivity.
Qed.

Lemma float_chars s m e : XsdFloat s m e -> Forall NumChar s.
Proof.
  intros (sg & neg & mant & ip & fp & ex & x & -> & S & M & E & _). apply Forall_app. split; [eapply sign_chars; eauto|].
  apply Forall_app. split; [eapply mantissa_chars; eauto|]. now apply (exponent_chars ex x).
Qed.

Lemma py_float_spec s m e : XsdFloat s m e -> exists neg, py_float s = Some (FNum neg m e) /\ (0 <= m)%Z.
Proof.
  intros X. pose proof (float_chars _ _ _ X) as C.
  destruct X as (sg & neg & mant & ip & fp & ex & x & -> & S & M & E & -> & ->). fold (Exponent ex x) in E.
  exists neg. split.
  2:{ apply numval_nonneg. destruct M as (A & B & _). now apply Forall_app. }
  unfold py_float. rewrite map_to_ascii_id.
  2:{ eapply Forall_impl; [|exact C]. intros c Q. now apply numchar_facts. }
  rewrite strip_by_id.
  2:{ eapply Forall_impl; [|exact C]. intros c Q. now apply numchar_facts. }
  rewrite drop_underscores_id by (try lia; intros I; rewrite Forall_forall in C; apply C, numchar_facts in I; lia).
  destruct (mantissa_head _ _ _ M) as (c & t & Q & H).
  replace (mant ++ ex) with (c :: (t ++ ex)) by (now rewrite Q).
  rewrite (split_sign_spec sg neg) by (auto; unfold Digit in H; lia).
  destruct (head_not_special c (t ++ ex) H) as (H1 & H2 & _). rewrite H1, H2.
  replace (c :: t ++ ex) with (mant ++ ex) by (now rewrite Q).
  rewrite (parse_number_spec _ _ _ _ _ M E). now rewrite digits_value_numval.
Qed.

Lemma float_not_special s m e : XsdFloat s m e -> str_in s [lit "INF"; lit "-INF"; lit "NaN"] = false.
Proof.
  intros X. apply float_chars in X. apply not_true_is_false. intros H. apply str_in_spec in H.
  assert (I : In 78 s) by (destruct H as [<-|[<-|[<-|[]]]]; vm_compute; tauto).
  rewrite Forall_forall in X. apply X in I. unfold NumChar, Digit in I. lia.
Qed.

Lemma bounded_double_read s neg m e lo hi x : str_in s [lit "INF"; lit "-INF"; lit "NaN"] = false ->
  py_float s = Some (FNum neg m e) -> (0 <= m)%Z -> (lo < 0)%Z -> hi = (- lo)%Z ->
  (0 < double_of_decimal hi x)%Z ->
  is_bounded_double s lo hi x = true <-> (double_of_decimal m e < double_of_decimal hi x)%Z.
Proof.
  intros S F NN L -> P. unfold is_bounded_double. rewrite S, F.
  replace (lo <? 0)%Z with true by (symmetry; apply Z.ltb_lt; lia).
  replace (- lo <? 0)%Z with false by (symmetry; apply Z.ltb_ge; lia).
  pose proof (double_of_decimal_nonneg m e NN). destruct neg; rewrite andb_true_iff, !Z.ltb_lt; lia.
Qed.

Lemma bounded_double_literal s m e lo hi x : XsdFloat s m e -> (lo < 0)%Z -> hi = (- lo)%Z ->
  (0 < double_of_decimal hi x)%Z ->
  is_bounded_double s lo hi x = true <-> (double_of_decimal m e < double_of_decimal hi x)%Z.
Proof.
  intros X L E P. destruct (py_float_spec _ _ _ X) as (neg & F & NN).
  eapply bounded_double_read; eauto. now apply (float_not_special _ _ _ X).
Qed.

Lemma double_bound_pos : (0 < double_of_decimal 17976931348623158 292)%Z.
Proof. rewrite double_bound. apply Z.mul_pos_pos; [lia|apply Z.pow_pos_nonneg; lia]. Qed.

Lemma float_bound_pos : (0 < double_of_decimal 34028234663852886 22)%Z.
Proof. rewrite float_bound. apply Z.mul_pos_pos; [lia|apply Z.pow_pos_nonneg; lia]. Qed.

Lemma is_double_literal s m e : XsdFloat s m e ->
  is_double s = true <-> dec_le m e ((2 ^ 54 - 3) * 2 ^ 970).
Proof.
  intros X. destruct (py_float_spec _ _ _ X) as (_ & _ & NN). unfold is_double.
  rewrite (bounded_double_literal s m e (-17976931348623158) 17976931348623158 292 X eq_refl eq_refl double_bound_pos). now apply double_below.
Qed.

Lemma is_float_literal s m e : XsdFloat s m e ->
  is_float s = true <-> dec_lt m e ((2 ^ 54 - 2 ^ 30 - 1) * 2 ^ 74).
Proof.
  intros X. destruct (py_float_spec _ _ _ X) as (_ & _ & NN). unfold is_float.
  rewrite (bounded_double_literal s m e (-34028234663852886) 34028234663852886 22 X eq_refl eq_refl float_bound_pos). now apply float_below.
Qed.

(** The same for everything [float] reads, as a computation. *)
Lemma is_double_read s neg m e : str_in s [lit "INF"; lit "-INF"; lit "NaN"] = false ->
  py_float s = Some (FNum neg m e) -> (0 <= m)%Z ->
  is_double s = (m * 10 ^ Z.max e 0 <=? (2 ^ 54 - 3) * 2 ^ 970 * 10 ^ Z.max (- e) 0)%Z.
Proof.
  intros S F NN. apply eq_true_iff_eq. rewrite Z.leb_le. fold (dec_le m e ((2 ^ 54 - 3) * 2 ^ 970)).
  rewrite <- (double_below m e NN). unfold is_double.
  apply (bounded_double_read s neg m e (-17976931348623158) 17976931348623158 292 S F NN eq_refl eq_refl double_bound_pos).
Qed.

Lemma is_float_read s neg m e : str_in s [lit "INF"; lit "-INF"; lit "NaN"] = false ->
  py_float s = Some (FNum neg m e) -> (0 <= m)%Z ->
  is_float s = (m * 10 ^ Z.max e 0 <? (2 ^ 54 - 2 ^ 30 - 1) * 2 ^ 74 * 10 ^ Z.max (- e) 0)%Z.
Proof.
  intros S F NN. apply eq_true_iff_eq. rewrite Z.ltb_lt. fold (dec_lt m e ((2 ^ 54 - 2 ^ 30 - 1) * 2 ^ 74)).
  rewrite <- (float_below m e NN). unfold is_float.
  apply (bounded_double_read s neg m e (-34028234663852886) 34028234663852886 22 S F NN eq_refl eq_refl float_bound_pos).
Qed.

(** Evaluates [is_double] and [is_float] on a given text without rounding. *)
Ltac float_text := first
  [ erewrite is_double_read; [|vm_compute; reflexivity|vm_compute; reflexivity|vm_compute; discriminate]
  | erewrite is_float_read; [|vm_compute; reflexivity|vm_compute; reflexivity|vm_compute; discriminate] ];
  vm_compute; reflexivity.

(** ** Decimals *)
Lemma drop_zeros_length s : (length (drop_zeros s) <= length s)%nat.
Proof. induction s as [|c s IH]; simpl; [lia|]. destruct (c =? 48); simpl; lia. Qed.

Lemma filter_all {A} (p : A -> bool) l : Forall (fun x => p x = true) l -> filter p l = l.
Proof. induction 1 as [|x l P F IH]; simpl; [reflexivity|]. now rewrite P, IH. Qed.

Lemma decimal_literal s : XsdDecimal s -> N.of_nat (length s) <= 10 ^ 18 -> is_decimal s = true.
Proof.
  intros (sg & neg & mant & ip & fp & -> & S & M) L. unfold is_decimal, decimal_ok.
  assert (C : Forall NumChar (sg ++ mant)).
  { apply Forall_app. split; [eapply sign_chars; eauto|eapply mantissa_chars; eauto]. }
  unfold strip. rewrite strip_by_id.
  2:{ eapply Forall_impl; [|exact C]. intros c Q. now apply numchar_facts. }
  rewrite map_to_ascii_id.
  2:{ eapply Forall_impl; [|exact C]. intros c Q. now apply numchar_facts. }
  rewrite filter_all.
  2:{ eapply Forall_impl; [|exact C]. intros c Q. apply numchar_facts in Q as (_ & Q & _).
      apply N.eqb_neq in Q. now rewrite Q. }
  destruct (mantissa_head _ _ _ M) as (c & t & Q & H).
  rewrite Q at 1. rewrite (split_sign_spec sg neg) by (auto; unfold Digit in H; lia). rewrite <- Q.
  assert (P : parse_number mant = Some (ip ++ fp, length fp, 0%Z)).
  { rewrite <- (app_nil_r mant). apply parse_number_spec; [exact M|]. left. auto. }
  rewrite P. rewrite orb_true_iff. right. unfold exponent_ok.
  assert (LE : (length ip + length fp <= length mant)%nat).
  { destruct M as (_ & _ & _ & [->|[-> ->]]); rewrite ?app_length; simpl; lia. }
  rewrite app_length in L. pose proof (drop_zeros_length (ip ++ fp)) as DZ. rewrite app_length in DZ.
  unfold min_etiny, max_emax. apply andb_true_iff. split; [lia|].
  destruct (_ =? 0)%Z; lia.
Qed.

(** ** hexBinary *)
Lemma is_hex_spec c : is_hex c = true <-> HexDigit c.
Proof.
  unfold is_hex, HexDigit. rewrite !orb_true_iff, !andb_true_iff, !N.leb_le, is_digit_spec. tauto.
Qed.

Lemma hex_not_space c : HexDigit c -> c_isspace c = false.
Proof. intros H. apply not_true_is_false. rewrite c_isspace_spec. unfold HexDigit, Digit, AsciiSpace in *. lia. Qed.

Lemma fromhex_spec s : (fromhex_ok false s = true <-> PyHex s) /\
  (fromhex_ok true s = true <-> exists c t, s = c :: t /\ HexDigit c /\ PyHex t).
Proof.
  induction s as [|c s [IH1 IH2]]; split.
  - split; [|reflexivity]. intros _. exists [], []. simpl. auto.
  - split; [discriminate|]. intros (c & t & [=] & _).
  - cbn [fromhex_ok]. destruct (c_isspace c) eqn:S.
    + rewrite IH1. apply c_isspace_spec in S. split.
      * intros (w & l & -> & W & L). exists (c :: w), l. split; [reflexivity|]. split; [constructor; auto|exact L].
      * intros (w & l & E & W & L). destruct w as [|x w].
        -- destruct l as [|[[a b] v] l]; [discriminate|]. cbn in E. injection E as -> _.
           inversion L as [|? ? (HA & _) _]; subst. cbn in HA. apply hex_not_space in HA.
           apply c_isspace_spec in S. congruence.
        -- injection E as <- ->. inversion W; subst. exists w, l. auto.
    + rewrite andb_true_iff, is_hex_spec, IH2. split.
      * intros [H (d & t & -> & HD & w & l & -> & W & L)].
        exists [], ((c, d, w) :: l). split; [reflexivity|]. split; [constructor|]. constructor; auto.
      * intros (w & l & E & W & L). destruct w as [|x w].
        -- destruct l as [|[[a b] v] l]; [discriminate|]. cbn in E. injection E as -> ->.
           inversion L as [|? ? (HA & HB & V) L']; subst. cbn in HA, HB, V. split; [exact HA|].
           exists b. eexists. split; [reflexivity|]. split; [exact HB|]. exists v, l. auto.
        -- injection E as <- ->. inversion W as [|? ? W1 _]; subst. apply c_isspace_spec in W1. congruence.
  - cbn [fromhex_ok]. rewrite andb_true_iff, is_hex_spec, IH1. split.
    + intros [H P]. eauto 6.
    + intros (d & t & [= <- <-] & H & P). auto.
Qed.

Lemma is_hex_binary_spec s : is_hex_binary s = true <-> PyHex s.
Proof. apply fromhex_spec. Qed.

Lemma fromhex_plain s : Forall (fun c => ~ AsciiSpace c) s ->
  (fromhex_ok false s = true <-> XsdHexBinary s) /\
  (fromhex_ok true s = true <-> Forall HexDigit s /\ Nat.Odd (length s)).
Proof.
  induction 1 as [|c s C F [IH1 IH2]].
  - split; simpl.
    + split; [|reflexivity]. intros _. split; [constructor|]. now exists 0%nat.
    + split; [discriminate|]. intros [_ [k K]]. simpl in K. lia.
  - assert (S : c_isspace c = false) by (apply not_true_is_false; now rewrite c_isspace_spec).
    split; cbn [fromhex_ok]; rewrite ?S, andb_true_iff, is_hex_spec.
    + rewrite IH2. unfold XsdHexBinary. rewrite Forall_cons_iff. cbn [length]. rewrite Nat.Even_succ. tauto.
    + rewrite IH1. unfold XsdHexBinary. rewrite Forall_cons_iff. cbn [length]. rewrite Nat.Odd_succ. tauto.
Qed.

(** ** base64Binary *)
Lemma is_b64_spec c : is_b64 c = true <-> B64Char c.
Proof.
  unfold is_b64, B64Char. rewrite !orb_true_iff, !andb_true_iff, !N.leb_le, !N.eqb_eq, is_digit_spec. tauto.
Qed.

Lemma b64_not_pad c : B64Char c -> c =? 61 = false.
Proof. intros H. apply N.eqb_neq. unfold B64Char, Digit in H. lia. Qed.

(** Blanks are skipped. *)
Lemma a2b_blanks s : forall quad pads,
  a2b_ok quad pads s = a2b_ok quad pads (filter (fun c => negb (c =? 32)) s).
Proof.
  induction s as [|c s IH]; intros; [reflexivity|]. cbn [filter].
  destruct (N.eqb_spec c 32) as [->|NE]; cbn [negb].
  - cbn [a2b_ok]. change (is_b64 32) with false. cbn [N.eqb Pos.eqb]. apply IH.
  - cbn [a2b_ok]. destruct (c =? 61); [|destruct (is_b64 c); apply IH].
    destruct (2 <=? quad)%nat; [|apply IH]. destruct (4 <=? _)%nat; [reflexivity|apply IH].
Qed.

Lemma a2b_alphabet s : Forall B64Char s -> forall quad, (quad < 4)%nat ->
  a2b_ok quad 0 s = true <-> Nat.divide 4 (quad + length s).
Proof.
  induction 1 as [|c s C F IH]; intros quad Q; cbn [a2b_ok length].
  - rewrite Nat.eqb_eq. split; [intros ->; now exists 0%nat|]. intros [k K]. lia.
  - rewrite (b64_not_pad _ C). rewrite (proj2 (is_b64_spec c) C).
    destruct (Nat.eqb_spec quad 3) as [->|N].
    + rewrite IH by lia. split; intros [k K]; [exists (S k)|exists (pred k)]; lia.
    + rewrite IH by lia. replace (S quad + length s)%nat with (quad + S (length s))%nat by lia. reflexivity.
Qed.

Lemma a2b_group g s : length g = 4%nat -> Forall B64Char g -> a2b_ok 0 0 (g ++ s) = a2b_ok 0 0 s.
Proof.
  destruct g as [|a [|b [|c [|d [|e g]]]]]; try discriminate. intros _ F.
  repeat match goal with H : Forall _ (_ :: _) |- _ => inversion H; clear H; subst end.
  cbn [app a2b_ok]. repeat (rewrite b64_not_pad by assumption).
  repeat match goal with H : B64Char ?x |- context [is_b64 ?x] => rewrite (proj2 (is_b64_spec x) H) end.
  reflexivity.
Qed.

Lemma b64_groups_ok s : B64Groups s -> a2b_ok 0 0 s = true.
Proof.
  intros (q & f & -> & F & H). induction F as [|g q [L G] F IH].
  - cbn [concat app]. destruct H as [->|[(a & b & c & -> & A & B & C)|(a & b & -> & A & B)]]; [reflexivity| |].
    + assert (C' : B64Char c).
      { apply is_b64_spec. vm_compute in C. repeat destruct C as [<-|C]; try reflexivity. destruct C. }
      cbn [a2b_ok]. rewrite !b64_not_pad by assumption.
      rewrite (proj2 (is_b64_spec a) A), (proj2 (is_b64_spec b) B), (proj2 (is_b64_spec c) C'). reflexivity.
    + assert (B' : B64Char b).
      { apply is_b64_spec. vm_compute in B. repeat destruct B as [<-|B]; try reflexivity. destruct B. }
      cbn [a2b_ok]. rewrite !b64_not_pad by assumption.
      rewrite (proj2 (is_b64_spec a) A), (proj2 (is_b64_spec b) B'). reflexivity.
  - cbn [concat]. rewrite <- app_assoc. now rewrite a2b_group.
Qed.

Lemma b64_groups_chars s : B64Groups s -> Forall (fun c => c < 128) s.
Proof.
  assert (BC : forall c, B64Char c -> c < 128) by (intros c; unfold B64Char, Digit; lia).
  intros (q & f & -> & F & H). apply Forall_app. split.
  - induction F as [|g q [_ G] F IH]; cbn [concat]; [constructor|]. apply Forall_app. split; [|exact IH].
    eapply Forall_impl; [|exact G]. exact BC.
  - destruct H as [->|[(a & b & c & -> & A & B & C)|(a & b & -> & A & B)]]; [constructor| |].
    + assert (c < 128).
      { vm_compute in C. repeat destruct C as [<-|C]; try reflexivity. destruct C. }
      repeat constructor; auto.
    + assert (b < 128).
      { vm_compute in B. repeat destruct B as [<-|B]; try reflexivity. destruct B. }
      repeat constructor; auto.
Qed.

Lemma base64_literal s : XsdBase64 s -> is_base64_binary s = true.
Proof.
  intros (G & _). unfold is_base64_binary, b64decode_ok. rewrite a2b_blanks, (b64_groups_ok _ G), andb_true_r.
  apply b64_groups_chars in G. apply forallb_forall. intros c I. apply N.ltb_lt.
  rewrite Forall_forall in G. destruct (N.eqb_spec c 32) as [->|N]; [lia|]. apply G.
  apply filter_In. split; [exact I|]. apply N.eqb_neq in N. now rewrite N.
Qed.

Lemma base64_alphabet s : Forall B64Char s ->
  is_base64_binary s = true <-> Nat.divide 4 (length s).
Proof.
  intros F. unfold is_base64_binary, b64decode_ok. rewrite andb_true_iff, (a2b_alphabet s F 0) by lia.
  split; [tauto|]. intros D. split; [|exact D]. apply forallb_forall. rewrite Forall_forall in F.
  intros c I. apply F in I. unfold B64Char, Digit in I. apply N.ltb_lt. lia.
Qed.
