(** Lemmas about dates, times and durations. *)
From Coq Require Import String List NArith ZArith Znumtheory Bool Lia ZifyN.
From Verif Require Import PyStr PyStrFacts PyBase Regex DataTypesModel DataTypesSpec.
Import ListNotations.
Local Open Scope N_scope.

Lemma lang_rlit x s : lang (r_lit x) s <-> s = lit x.
Proof. apply lang_rstr. Qed.

Lemma in_cls1 a b c : in_cls [(a, b)] c = true <-> a <= c /\ c <= b.
Proof. unfold in_cls. simpl. rewrite orb_false_r, andb_true_iff, !N.leb_le. tauto. Qed.

Lemma lang_range a b s : lang (r_range a b) s <-> exists c, s = [c] /\ a <= c /\ c <= b.
Proof. unfold r_range. rewrite lang_rcls. setoid_rewrite in_cls1. reflexivity. Qed.

Lemma lang_digit s : lang r_digit s <-> exists c, s = [c] /\ Digit c.
Proof. apply lang_range. Qed.

Lemma lang_cat2 a b s : lang (RCat a b) s <-> exists u v, s = u ++ v /\ lang a u /\ lang b v.
Proof. reflexivity. Qed.

Lemma lang_alt2 a b s : lang (RAlt a b) s <-> lang a s \/ lang b s.
Proof. reflexivity. Qed.

Lemma forall_digit s : Forall (fun c => in_cls [(48, 57)] c = true) s <-> Forall Digit s.
Proof. split; apply Forall_impl; intros c; apply in_cls1. Qed.

Lemma lang_rplus_digit s : lang (rplus r_digit) s <-> Digits s.
Proof. unfold r_digit. rewrite lang_rplus_cls, forall_digit. reflexivity. Qed.

Lemma lang_star_digit s : lang (RStar r_digit) s <-> Forall Digit s.
Proof. unfold r_digit. rewrite lang_star_cls, forall_digit. reflexivity. Qed.

Lemma lang_rrep_digit n s : lang (rrep n r_digit) s <-> length s = n /\ Forall Digit s.
Proof. unfold r_digit. rewrite lang_rrep_cls, forall_digit. reflexivity. Qed.

(** Decompose membership in a pattern. *)
Ltac dl := repeat match goal with
  | H : exists _, _ |- _ => destruct H
  | H : _ /\ _ |- _ => destruct H
  | H : lang (r_lit _) _ |- _ => apply lang_rlit in H
  | H : lang (r_range _ _) _ |- _ => apply lang_range in H
  | H : lang r_digit _ |- _ => apply lang_digit in H
  | H : lang (rplus r_digit) _ |- _ => apply lang_rplus_digit in H
  | H : lang (RStar r_digit) _ |- _ => apply lang_star_digit in H
  | H : lang (rrep _ r_digit) _ |- _ => apply lang_rrep_digit in H
  | H : lang (RCat _ _) _ |- _ => apply (proj1 (lang_cat2 _ _ _)) in H
  | H : lang (RAlt _ _) _ |- _ => apply (proj1 (lang_alt2 _ _ _)) in H
  | H : lang (ropt _) _ |- _ => apply (proj1 (lang_ropt _ _)) in H
  | H : lang (rseq _) _ |- _ => cbn [rseq] in H
  | H : lang (ralts _) _ |- _ => cbn [ralts] in H
  end.

Lemma numval2 a b : numval [a; b] = (10 * (Z.of_N a - 48) + (Z.of_N b - 48))%Z.
Proof.
  cbn [numval length]. change (10 ^ Z.of_nat 1)%Z with 10%Z. change (10 ^ Z.of_nat 0)%Z with 1%Z. lia.
Qed.

Lemma two_spec s n : Two s n <-> exists a b, s = [a; b] /\ Digit a /\ Digit b /\
  n = (10 * (Z.of_N a - 48) + (Z.of_N b - 48))%Z.
Proof.
  unfold Two. split.
  - intros (L & F & ->). destruct s as [|a [|b [|? ?]]]; try discriminate.
    inversion F as [|? ? A F']; inversion F' as [|? ? B ?]; subst. exists a, b.
    split; [reflexivity|]. split; [exact A|]. split; [exact B|]. apply numval2.
  - intros (a & b & -> & A & B & ->). repeat split; auto. symmetry. apply numval2.
Qed.

Lemma two_nonneg s n : Two s n -> (0 <= n <= 99)%Z.
Proof. rewrite two_spec. intros (a & b & -> & A & B & ->). unfold Digit in *. lia. Qed.

Lemma two_fun s n m : Two s n -> Two s m -> n = m.
Proof. unfold Two. intuition congruence. Qed.

Lemma lang_month s : lang r_month s <-> exists m, Two s m /\ (1 <= m <= 12)%Z.
Proof.
  setoid_rewrite two_spec. unfold r_month. cbn [ralts rseq]. split.
  - intros H. dl. destruct H as [H|H]; dl; subst.
    + exists (Z.of_N x1 - 48)%Z. split; [|lia]. exists 48, x1. unfold Digit. repeat split; lia.
    + exists (10 + Z.of_N x1 - 48)%Z. split; [|lia]. exists 49, x1. unfold Digit. repeat split; lia.
  - intros (m & (a & b & -> & A & B & ->) & M). unfold Digit in *.
    assert (E : (a = 48 /\ 49 <= b) \/ (a = 49 /\ b <= 50)) by lia. destruct E as [[-> E]|[-> E]].
    + left. exists [48], [b]. rewrite lang_rlit, lang_range. repeat split; auto. exists b. repeat split; lia.
    + right. exists [49], [b]. rewrite lang_rlit, lang_range. repeat split; auto. exists b. repeat split; lia.
Qed.

Ltac two_chars :=
  setoid_rewrite two_spec; cbn [ralts rseq]; split.

Lemma lang_day s : lang r_day s <-> exists d, Two s d /\ (1 <= d <= 31)%Z.
Proof.
  unfold r_day. two_chars.
  - intros H. dl. destruct H as [H|H]; dl; subst; [|destruct H as [H|H]; dl; subst].
    + exists (Z.of_N x1 - 48)%Z. split; [|lia]. exists 48, x1. unfold Digit. repeat split; lia.
    + exists (10 * (Z.of_N x1 - 48) + (Z.of_N x2 - 48))%Z. unfold Digit in *. split; [|lia].
      exists x1, x2. repeat split; lia.
    + exists (30 + Z.of_N x1 - 48)%Z. split; [|lia]. exists 51, x1. unfold Digit. repeat split; lia.
  - intros (m & (a & b & -> & A & B & ->) & M). unfold Digit in *.
    assert (E : (a = 48 /\ 49 <= b) \/ (49 <= a /\ a <= 50) \/ (a = 51 /\ b <= 49)) by lia.
    destruct E as [[-> E]|[[E F]|[-> E]]].
    + left. exists [48], [b]. rewrite lang_rlit, lang_range. repeat split; auto. exists b. repeat split; lia.
    + right. left. exists [a], [b]. rewrite lang_digit, lang_range. repeat split; eauto.
    + right. right. exists [51], [b]. rewrite lang_rlit, lang_range. repeat split; auto. exists b. repeat split; lia.
Qed.

Lemma lang_hour s : lang r_hour s <-> exists h, Two s h /\ (h <= 23)%Z.
Proof.
  unfold r_hour. two_chars.
  - intros H. dl. destruct H as [H|H]; dl; subst; unfold Digit in *.
    + exists (10 * (Z.of_N x1 - 48) + (Z.of_N x2 - 48))%Z. split; [|lia]. exists x1, x2. unfold Digit. repeat split; lia.
    + exists (20 + Z.of_N x1 - 48)%Z. split; [|lia]. exists 50, x1. unfold Digit. repeat split; lia.
  - intros (m & (a & b & -> & A & B & ->) & M). unfold Digit in *.
    assert (E : a <= 49 \/ (a = 50 /\ b <= 51)) by lia. destruct E as [E|[-> E]].
    + left. exists [a], [b]. rewrite lang_digit, lang_range. unfold Digit. repeat split; eauto; eexists; repeat split; lia.
    + right. exists [50], [b]. rewrite lang_rlit, lang_range. repeat split; auto. exists b. repeat split; lia.
Qed.

Lemma lang_minute s : lang r_minute s <-> exists m, Two s m /\ (m <= 59)%Z.
Proof.
  unfold r_minute. two_chars.
  - intros H. dl. subst. unfold Digit in *.
    exists (10 * (Z.of_N x1 - 48) + (Z.of_N x2 - 48))%Z. split; [|lia]. exists x1, x2. unfold Digit. repeat split; lia.
  - intros (m & (a & b & -> & A & B & ->) & M). unfold Digit in *.
    exists [a], [b]. rewrite lang_digit, lang_range. unfold Digit. repeat split; eauto; eexists; repeat split; lia.
Qed.

Lemma lang_timezone s : lang r_timezone s <-> XsdTimezone s.
Proof.
  unfold r_timezone, XsdTimezone. cbn [ralts rseq]. rewrite lang_alt2, lang_rlit. split.
  - intros [->|(sg & r & -> & S & [(hs & r' & -> & Hh & c & ms & -> & C & Hm)|E])]; [now left| |]; right;
      apply (proj1 (lang_alt2 _ _ _)) in S; rewrite !lang_rlit in S.
    + apply lang_rlit in C. subst. apply lang_minute in Hm as (m & Tm & M).
      assert (exists h, Two hs h /\ (h <= 13)%Z) as (h & Th & H13).
      { destruct Hh as [(u & v & -> & U & V)|(u & v & -> & U & V)]; apply lang_rlit in U;
          [apply lang_digit in V|apply lang_range in V]; destruct V as (x & -> & V); subst;
          setoid_rewrite two_spec; unfold Digit in *.
        - exists (Z.of_N x - 48)%Z. split; [|lia]. exists 48, x. repeat split; lia.
        - exists (10 + Z.of_N x - 48)%Z. split; [|lia]. exists 49, x. repeat split; lia. }
      exists sg, hs, h, ms, m. split; [reflexivity|]. repeat split; try assumption; try lia;
        (apply Th || apply Tm).
    + apply lang_rlit in E. subst.
      exists sg, (lit "14"), 14%Z, (lit "00"), 0%Z. split; [reflexivity|].
      rewrite !two_spec. split; [exact S|]. split; [|split; [|lia]].
      * exists 49, 52. unfold Digit. repeat split; lia.
      * exists 48, 48. unfold Digit. repeat split; lia.
  - intros [->|(sg & hs & h & ms & m & -> & S & Th & Tm & M & B)]; [now left|right].
    exists sg, (hs ++ lit ":" ++ ms). split; [reflexivity|]. split.
    { rewrite lang_alt2, !lang_rlit. exact S. }
    pose proof (two_nonneg _ _ Th). pose proof (two_nonneg _ _ Tm).
    destruct (Z_le_gt_dec h 13) as [E|E].
    + left. exists hs, (lit ":" ++ ms). split; [reflexivity|]. split.
      * apply two_spec in Th as (a & b & -> & A & C & ->). unfold Digit in *.
        assert (F : a = 48 \/ (a = 49 /\ b <= 51)) by lia. destruct F as [->|[-> F]].
        -- left. exists [48], [b]. rewrite lang_rlit, lang_digit. unfold Digit. repeat split; eauto.
        -- right. exists [49], [b]. rewrite lang_rlit, lang_range. repeat split; auto. exists b. repeat split; lia.
      * exists (lit ":"), ms. rewrite lang_rlit, lang_minute. repeat split; eauto.
    + right. apply lang_rlit. assert (h = 14%Z) by lia. assert (m = 0%Z) by lia. subst.
      apply two_spec in Th as (a & b & -> & A & C & E1). apply two_spec in Tm as (c & d & -> & A' & C' & E2).
      unfold Digit in *. assert (a = 49) by lia. assert (b = 52) by lia. assert (c = 48) by lia.
      assert (d = 48) by lia. now subst.
Qed.

Lemma lang_timezone_opt s : lang (ropt r_timezone) s <-> XsdTimezoneOpt s.
Proof. rewrite lang_ropt, lang_timezone. reflexivity. Qed.

Lemma lang_timezone_utc s : lang r_timezone_utc s <-> UtcZone s.
Proof.
  unfold r_timezone_utc, UtcZone. cbn [ralts]. rewrite !lang_alt2, !lang_rlit. simpl In. intuition.
Qed.

(** ** Years *)
Definition YearDigits (ds : str) : Prop :=
  Forall Digit ds /\ (4 <= length ds)%nat /\ ((5 <= length ds)%nat -> nth 0 ds 0 <> 48).

Lemma year_digits_cases ds : YearDigits ds <->
  (exists a t, ds = a :: t /\ 49 <= a /\ a <= 57 /\ (3 <= length t)%nat /\ Forall Digit t) \/
  (exists t, ds = 48 :: t /\ length t = 3%nat /\ Forall Digit t).
Proof.
  unfold YearDigits. split.
  - intros (F & L & Z0). destruct ds as [|a t]; [simpl in L; lia|]. inversion F as [|? ? A F']; subst.
    unfold Digit in A. simpl in L, Z0. destruct (N.eq_dec a 48) as [->|NE].
    + right. exists t. repeat split; auto. assert (~ (5 <= S (length t))%nat) by (intros X; now apply Z0 in X). lia.
    + left. exists a, t. repeat split; auto; lia.
  - intros [(a & t & -> & A1 & A2 & L & F)|(t & -> & L & F)]; simpl.
    + repeat split; [constructor; auto; unfold Digit; lia|lia|lia].
    + repeat split; [constructor; auto; unfold Digit; lia|lia|lia].
Qed.

Lemma lang_opt_minus_cat r s : lang (RCat (ropt (r_lit "-")) r) s <->
  exists ds, lang r ds /\ (s = ds \/ s = lit "-" ++ ds).
Proof.
  rewrite lang_cat2. split.
  - intros (u & v & -> & A & B). apply (proj1 (lang_ropt _ _)) in A. rewrite lang_rlit in A. exists v. split; auto.
    destruct A as [->| ->]; auto.
  - intros (ds & R & [->| ->]).
    + exists [], ds. rewrite lang_ropt. auto.
    + exists (lit "-"), ds. rewrite lang_ropt, lang_rlit. auto.
Qed.

Lemma xsd_year_iff s : (exists ds y, XsdYear s ds y) <-> exists ds, YearDigits ds /\ (s = ds \/ s = lit "-" ++ ds).
Proof.
  unfold XsdYear, YearDigits. split.
  - intros (ds & y & A & B). exists ds. split; [exact B|]. tauto.
  - intros (ds & A & [B|B]); exists ds; eauto.
Qed.

Lemma lang_year s : lang r_year s <-> exists ds y, XsdYear s ds y.
Proof.
  rewrite xsd_year_iff. unfold r_year. cbn [rseq]. rewrite lang_opt_minus_cat.
  assert (E : forall ds, lang (ralts [rseq [r_range 49 57; r_digit; r_digit; rplus r_digit];
               rseq [r_lit "0"; r_digit; r_digit; r_digit]]) ds <-> YearDigits ds).
  { intros ds. rewrite year_digits_cases. cbn [ralts rseq]. split.
    - intros [(u & v & -> & U & b & w & -> & B & c & t & -> & C & T)|(u & v & -> & U & b & w & -> & B & c & t & -> & C & T)].
      + apply lang_range in U as (x & -> & X). apply lang_digit in B as (y & -> & Y).
        apply lang_digit in C as (z & -> & Z). apply lang_rplus_digit in T as [T T'].
        left. exists x, (y :: z :: t). split; [reflexivity|]. split; [apply X|]. split; [apply X|]. split.
        * destruct t; [congruence|simpl; lia].
        * auto.
      + apply lang_rlit in U. apply lang_digit in B as (y & -> & Y).
        apply lang_digit in C as (z & -> & Z). apply lang_digit in T as (x & -> & X). subst.
        right. exists [y; z; x]. repeat split; auto.
    - intros [(a & t & -> & A1 & A2 & L & F)|(t & -> & L & F)].
      + destruct t as [|b [|c [|d t]]]; simpl in L; try lia. left.
        inversion F as [|? ? B F1]; inversion F1 as [|? ? C F2]; subst.
        exists [a], (b :: c :: d :: t). rewrite lang_range. repeat split; eauto.
        exists [b], (c :: d :: t). rewrite lang_digit. repeat split; eauto.
        exists [c], (d :: t). rewrite lang_digit. repeat split; eauto.
        rewrite lang_rplus_digit. split; [discriminate|auto].
      + destruct t as [|b [|c [|d [|? ?]]]]; try discriminate. right.
        inversion F as [|? ? B F1]; inversion F1 as [|? ? C F2]; inversion F2 as [|? ? D F3]; subst.
        exists [48], [b; c; d]. rewrite lang_rlit. repeat split; auto.
        exists [b], [c; d]. rewrite lang_digit. repeat split; eauto.
        exists [c], [d]. rewrite !lang_digit. repeat split; eauto. }
  split; intros (ds & A & B); exists ds; split; auto; now apply E.
Qed.

Lemma lang_g_year_number s : lang r_g_year_number s <-> exists ds y, XsdYear s ds y.
Proof.
  rewrite xsd_year_iff. unfold r_g_year_number. cbn [rseq]. rewrite lang_opt_minus_cat.
  assert (E : forall ds, lang (ralts [rseq [r_range 49 57; rrep 3 r_digit; RStar r_digit];
               rseq [r_lit "0"; rrep 3 r_digit]]) ds <-> YearDigits ds).
  { intros ds. rewrite year_digits_cases. cbn [ralts rseq]. split.
    - intros [(u & v & -> & U & b & t & -> & B & T)|(u & v & -> & U & V)].
      + apply lang_range in U as (x & -> & X). apply lang_rrep_digit in B as [B B'].
        apply lang_star_digit in T.
        left. exists x, (b ++ t). split; [reflexivity|]. split; [apply X|]. split; [apply X|]. split.
        * rewrite app_length. lia.
        * now apply Forall_app.
      + apply lang_rlit in U. apply lang_rrep_digit in V. subst. right. exists v. split; [reflexivity|]. exact V.
    - intros [(a & t & -> & A1 & A2 & L & F)|(t & -> & L & F)].
      + left. exists [a], t. rewrite lang_range. repeat split; eauto.
        exists (firstn 3 t), (skipn 3 t). rewrite lang_rrep_digit, lang_star_digit, firstn_skipn.
        rewrite <- (firstn_skipn 3 t) in F. apply Forall_app in F as [F G]. repeat split; auto.
        rewrite firstn_length. lia.
      + right. exists [48], t. rewrite lang_rlit, lang_rrep_digit. repeat split; auto. }
  split; intros (ds & A & B); exists ds; split; auto; now apply E.
Qed.

(** ** Splitting a date into its parts *)
Definition DateParts (s ys ms es tz : str) : Prop :=
  s = ys ++ lit "-" ++ ms ++ lit "-" ++ es ++ tz.

Lemma lang_date s : lang r_xs_date s <-> exists ds y m d, XsdDateLex s ds y m d.
Proof.
  unfold r_xs_date, XsdDateLex, XsdYmd, MonthDayRange. cbn [rseq]. split.
  - intros (ys & r1 & -> & Y & a & r2 & -> & A & ms & r3 & -> & M & b & r4 & -> & B & es & tz & -> & D & T).
    apply lang_rlit in A, B. subst. apply lang_year in Y as (ds & y & Y).
    apply lang_month in M as (m & M & M'). apply lang_day in D as (d & D & D').
    apply lang_timezone_opt in T.
    exists ds, y, m, d, (ys ++ lit "-" ++ ms ++ lit "-" ++ es), tz. split.
    + now rewrite !app_assoc.
    + split; [|tauto]. exists ys, ms, es. auto.
  - intros (ds & y & m & d & u & tz & -> & (ys & ms & es & -> & Y & M & D) & (M' & D') & T).
    exists ys, (lit "-" ++ ms ++ lit "-" ++ es ++ tz). split; [now rewrite !app_assoc|]. split.
    { apply lang_year. eauto. }
    exists (lit "-"), (ms ++ lit "-" ++ es ++ tz). split; [reflexivity|]. rewrite lang_rlit. split; [reflexivity|].
    exists ms, (lit "-" ++ es ++ tz). split; [reflexivity|]. split; [apply lang_month; eauto|].
    exists (lit "-"), (es ++ tz). split; [reflexivity|]. rewrite lang_rlit. split; [reflexivity|].
    exists es, tz. split; [reflexivity|]. split; [apply lang_day; eauto|now apply lang_timezone_opt].
Qed.

(** ** Reading numbers *)
Lemma digits_value_from s : forall acc,
  fold_left (fun acc c => (10 * acc + (Z.of_N c - 48))%Z) s acc = (acc * 10 ^ Z.of_nat (length s) + numval s)%Z.
Proof.
  induction s as [|c s IH]; intros acc.
  - simpl. lia.
  - cbn [fold_left numval length]. rewrite IH, Nat2Z.inj_succ, Z.pow_succ_r by lia. lia.
Qed.

Lemma digits_value_numval s : digits_value s = numval s.
Proof. unfold digits_value. rewrite digits_value_from. lia. Qed.

Lemma numval_nonneg s : Forall Digit s -> (0 <= numval s)%Z.
Proof.
  induction 1 as [|c s D _ IH]; cbn [numval]; [lia|]. unfold Digit in D.
  assert (0 < 10 ^ Z.of_nat (length s))%Z by (apply Z.pow_pos_nonneg; lia). nia.
Qed.

Lemma is_digit_spec c : is_digit c = true <-> Digit c.
Proof. unfold is_digit, Digit. rewrite andb_true_iff, !N.leb_le. reflexivity. Qed.

Lemma not_digit_spec c : is_digit c = false <-> ~ Digit c.
Proof. rewrite <- is_digit_spec. destruct (is_digit c); intuition congruence. Qed.

Lemma to_ascii_ascii c : c < 127 -> to_ascii c = c.
Proof. intros H. unfold to_ascii. apply N.ltb_lt in H. now rewrite H. Qed.

Lemma map_to_ascii_id s : Forall (fun c => c < 127) s -> List.map to_ascii s = s.
Proof. induction 1; simpl; [reflexivity|]. now rewrite to_ascii_ascii, IHForall. Qed.

Lemma underscored_digits_plain s : Forall Digit s -> forall b, (b = true \/ s <> []) -> underscored_digits b s = Some s.
Proof.
  induction 1 as [|c s D _ IH]; intros b H; simpl.
  - destruct H as [->|H]; [reflexivity|congruence].
  - apply is_digit_spec in D. rewrite D, IH by auto. reflexivity.
Qed.

Lemma strip_space_id (p : N -> bool) s : Forall (fun c => p c = false) s -> rstrip p (lstrip p s) = s.
Proof.
  intros F. unfold rstrip, lstrip. rewrite (drop_while_id p s).
  - rewrite drop_while_id; [apply rev_involutive|]. intros c t E.
    assert (In c s) by (apply in_rev; rewrite E; now left). rewrite Forall_forall in F. auto.
  - intros c t ->. now inversion F.
Qed.

Lemma digit_not_space c : Digit c -> c_isspace c = false.
Proof.
  unfold Digit, c_isspace. intros [A B]. apply not_true_is_false.
  rewrite orb_true_iff, andb_true_iff, !N.leb_le, N.eqb_eq. lia.
Qed.

(** [int] on an XSD integer literal. *)
Lemma py_int_xsd s ds v : XsdInteger s ds v ->
  py_int s = if int_max_str_digits <? N.of_nat (length ds) then Raise ValueError else Val v.
Proof.
  intros (sg & neg & -> & S & (NE & F) & ->).
  assert (A : Forall (fun c => c < 127) ds) by (eapply Forall_impl; [|exact F]; unfold Digit; intros; lia).
  assert (SP : Forall (fun c => c_isspace c = false) ds)
    by (eapply Forall_impl; [|exact F]; intros; now apply digit_not_space).
  unfold py_int. rewrite map_to_ascii_id.
  2:{ apply Forall_app. split; auto. destruct S as [[_ [->| ->]]|[_ ->]]; repeat constructor. }
  rewrite strip_space_id.
  2:{ apply Forall_app. split; auto. destruct S as [[_ [->| ->]]|[_ ->]]; repeat constructor. }
  assert (E : split_sign (sg ++ ds) = (neg, ds)).
  { destruct S as [[-> [->| ->]]|[-> ->]]; simpl; auto.
    destruct ds as [|c ds]; [congruence|]. simpl. inversion F as [|? ? D _]; subst. unfold Digit in D.
    replace (c =? 45) with false by (symmetry; apply N.eqb_neq; lia).
    replace (c =? 43) with false by (symmetry; apply N.eqb_neq; lia). reflexivity. }
  rewrite E, underscored_digits_plain by auto. rewrite digits_value_numval. destruct neg; reflexivity.
Qed.

Lemma two_xsd s n : Two s n -> XsdInteger s s n.
Proof.
  intros (L & F & ->). exists [], false. split; [reflexivity|]. split; [left; auto|]. split; [|reflexivity].
  split; auto. intros ->. discriminate.
Qed.

Lemma py_int_two s n : Two s n -> py_int s = Val n.
Proof. intros T. rewrite (py_int_xsd _ _ _ (two_xsd _ _ T)). destruct T as (-> & _ & _). reflexivity. Qed.

Lemma year_xsd s ds y : XsdYear s ds y -> XsdInteger s ds y.
Proof.
  intros (H & F & L & _).
  assert (D : Digits ds) by (split; auto; intros ->; simpl in L; lia).
  destruct H as [[-> ->]|[-> ->]].
  - exists [], false. repeat split; try apply D. left; auto.
  - exists (lit "-"), true. repeat split; try apply D. right; auto.
Qed.

Lemma py_int_year s ds y : XsdYear s ds y ->
  py_int s = if int_max_str_digits <? N.of_nat (length ds) then Raise ValueError else Val y.
Proof. intros H. now apply py_int_xsd, year_xsd. Qed.

Lemma span_digits_spec ds r : Forall Digit ds -> (forall c t, r = c :: t -> ~ Digit c) ->
  span_digits (ds ++ r) = (ds, r).
Proof.
  intros F H. induction F as [|c ds D F IH]; simpl.
  - destruct r as [|c t]; [reflexivity|]. simpl.
    replace (is_digit c) with false; [reflexivity|]. symmetry. apply not_digit_spec. eauto.
  - apply is_digit_spec in D. now rewrite D, IH.
Qed.

Lemma date_prefix_spec ys ds y ms m es d r :
  XsdYear ys ds y -> Two ms m -> Two es d ->
  date_prefix (ys ++ lit "-" ++ ms ++ lit "-" ++ es ++ r) = Some (ys, ms, es).
Proof.
  intros (H & F & L & _) M D.
  apply two_spec in M as (a & b & -> & A & B & _). apply two_spec in D as (c & e & -> & C & E & _).
  apply is_digit_spec in A, B, C, E.
  assert (X : span_digits (ds ++ lit "-" ++ [a; b] ++ lit "-" ++ [c; e] ++ r)
              = (ds, lit "-" ++ [a; b] ++ lit "-" ++ [c; e] ++ r)).
  { apply span_digits_spec; auto. intros x t [= <- _]. unfold Digit. lia. }
  unfold date_prefix. destruct H as [[-> _]|[-> _]].
  - destruct ds as [|y0 ds]; [simpl in L; lia|]. cbn [app] in *.
    assert (y0 =? 45 = false) as ->.
    { inversion F as [|? ? D0 _]; subst. unfold Digit in D0. apply N.eqb_neq. lia. }
    rewrite X. simpl. rewrite A, B, C, E. reflexivity.
  - change ((lit "-" ++ ds) ++ lit "-" ++ [a; b] ++ lit "-" ++ [c; e] ++ r)
      with (45 :: (ds ++ lit "-" ++ [a; b] ++ lit "-" ++ [c; e] ++ r)).
    cbn [N.eqb Pos.eqb]. rewrite X. destruct ds as [|y0 ds]; [simpl in L; lia|].
    simpl. rewrite A, B, C, E. reflexivity.
Qed.

(** ** Calendar *)
Lemma mod_pos_div (a n : Z) : (0 < n)%Z -> (0 <? a mod n)%Z = true <-> ~ (n | a)%Z.
Proof.
  intros H. rewrite Z.ltb_lt. pose proof (Z.mod_pos_bound a n H).
  rewrite <- Z.mod_divide by lia. lia.
Qed.

Lemma leap_spec y : y <> 0%Z -> is_leap_year y = true <-> Leap y.
Proof.
  intros NZ. unfold is_leap_year, Leap, Astronomical.
  set (a := if (y <? 0)%Z then (Z.abs y - 1)%Z else y).
  set (b := if (y <? 0)%Z then (y + 1)%Z else y).
  assert (E : forall n, (n | a)%Z <-> (n | b)%Z).
  { intros n. subst a b. destruct (Z.ltb_spec y 0); [|reflexivity].
    replace (Z.abs y - 1)%Z with (- (y + 1))%Z by lia. apply Z.divide_opp_r. }
  rewrite <- !E. clearbody a b. clear E b.
  destruct (0 <? a mod 4)%Z eqn:E4; [apply mod_pos_div in E4; [|lia]; intuition congruence|].
  assert (D4 : (4 | a)%Z).
  { destruct (Zdivide_dec 4 a); auto. apply mod_pos_div in n; [congruence|lia]. }
  destruct (0 <? a mod 100)%Z eqn:E1; [apply mod_pos_div in E1; [|lia]; intuition congruence|].
  assert (D1 : (100 | a)%Z).
  { destruct (Zdivide_dec 100 a); auto. apply mod_pos_div in n; [congruence|lia]. }
  destruct (0 <? a mod 400)%Z eqn:E2.
  - apply mod_pos_div in E2; [|lia]. intuition congruence.
  - assert (D2 : (400 | a)%Z).
    { destruct (Zdivide_dec 400 a); auto. apply mod_pos_div in n; [congruence|lia]. }
    tauto.
Qed.

Ltac enum m := 
  let H := fresh in
  assert (H : (m = 1 \/ m = 2 \/ m = 3 \/ m = 4 \/ m = 5 \/ m = 6 \/ m = 7 \/ m = 8 \/ m = 9 \/ m = 10 \/ m = 11 \/ m = 12)%Z) by lia;
  repeat (destruct H as [H|H]); subst m.

(** The decision made after the pattern has matched. *)
Lemma existing_day_decide y m d : MonthDayRange m d ->
  (if (y =? 0)%Z then Val false
   else if (d <=? 0)%Z then Val false
   else if ((m <=? 0) || (13 <=? m))%Z then Val false
   else
     let* max_days := if (m =? 2)%Z then Val (if is_leap_year y then 29 else 28)%Z else days_in_month_lookup m in
     Val (negb (max_days <? d)%Z)) = Val true <-> ExistingDay y m d.
Proof.
  intros (M & D). unfold ExistingDay.
  destruct (Z.eqb_spec y 0) as [->|NZ]; [split; [discriminate|intuition congruence]|].
  destruct (Z.leb_spec d 0); [lia|].
  replace ((m <=? 0) || (13 <=? m))%Z with false by (symmetry; apply orb_false_iff; lia).
  enum m; cbn [Z.eqb Pos.eqb obind days_in_month_lookup find days_in_month_table fst snd In];
    try (split; [intros [= E]; apply negb_true_iff, Z.ltb_ge in E; lia
                |intros E; f_equal; apply negb_true_iff, Z.ltb_ge; lia]).
  pose proof (leap_spec y NZ) as LS. destruct (is_leap_year y).
  - split; [intros [= E]; apply negb_true_iff, Z.ltb_ge in E|intros E; f_equal; apply negb_true_iff, Z.ltb_ge; lia].
    split; auto. split; [lia|]. right; right. split; auto.
    assert (d <= 28 \/ d = 29)%Z as [X|X] by lia; [auto|right; tauto].
  - split; [intros [= E]; apply negb_true_iff, Z.ltb_ge in E; split; auto; split; [lia|]; right; right; auto|].
    intros E. f_equal. apply negb_true_iff, Z.ltb_ge.
    destruct E as (_ & _ & [[X _]|[[X _]|(_ & [X|[_ X]])]]); try (exfalso; lia); auto.
    apply LS in X. discriminate.
Qed.

Lemma existing_day_total y m d : MonthDayRange m d ->
  exists b,
  (if (y =? 0)%Z then Val false
   else if (d <=? 0)%Z then Val false
   else if ((m <=? 0) || (13 <=? m))%Z then Val false
   else
     let* max_days := if (m =? 2)%Z then Val (if is_leap_year y then 29 else 28)%Z else days_in_month_lookup m in
     Val (negb (max_days <? d)%Z)) = Val b.
Proof.
  intros (M & D).
  destruct (y =? 0)%Z; [eauto|]. destruct (d <=? 0)%Z; [eauto|].
  destruct ((m <=? 0) || (13 <=? m))%Z; [eauto|].
  enum m; cbn [Z.eqb Pos.eqb obind days_in_month_lookup find days_in_month_table fst snd]; eauto.
Qed.

(** ** The date check *)
Definition date_verdict (ds : str) (y m d : Z) : outcome bool :=
  if int_max_str_digits <? N.of_nat (length ds) then Raise ValueError
  else if (y =? 0)%Z then Val false
  else if (d <=? 0)%Z then Val false
  else if ((m <=? 0) || (13 <=? m))%Z then Val false
  else
    let* max_days := if (m =? 2)%Z then Val (if is_leap_year y then 29 else 28)%Z else days_in_month_lookup m in
    Val (negb (max_days <? d)%Z).

Lemma is_xs_date_lex s r ds y m d : XsdDateLex s ds y m d -> r = [] \/ r = [10] ->
  is_xs_date (s ++ r) = date_verdict ds y m d.
Proof.
  intros L R. unfold is_xs_date.
  assert (matches_dollar r_xs_date (s ++ r) = true) as ->.
  { apply matches_dollar_spec. assert (LL : lang r_xs_date s) by (apply lang_date; eauto 6).
    destruct R as [->| ->]; [rewrite app_nil_r; auto|eauto]. }
  cbn [negb]. destruct L as (u & tz & -> & (ys & ms & es & -> & Y & M & D) & _).
  replace (((ys ++ lit "-" ++ ms ++ lit "-" ++ es) ++ tz) ++ r)
    with (ys ++ lit "-" ++ ms ++ lit "-" ++ es ++ (tz ++ r)) by now rewrite !app_assoc.
  rewrite (date_prefix_spec _ _ _ _ _ _ _ _ Y M D), (py_int_year _ _ _ Y), (py_int_two _ _ M), (py_int_two _ _ D).
  unfold date_verdict. destruct (int_max_str_digits <? N.of_nat (length ds)); reflexivity.
Qed.

(** [s] has the form of a date, possibly followed by a line feed. *)
Lemma is_xs_date_cases s :
  (exists t r ds y m d, s = t ++ r /\ (r = [] \/ r = [10]) /\ XsdDateLex t ds y m d /\
     is_xs_date s = date_verdict ds y m d) \/
  ((forall ds y m d, ~ UpToLineFeed (fun t => XsdDateLex t ds y m d) s) /\ is_xs_date s = Val false).
Proof.
  destruct (matches_dollar r_xs_date s) eqn:E.
  - left. apply matches_dollar_spec in E as [E|(t & -> & E)]; apply lang_date in E as (ds & y & m & d & E).
    + exists s, [], ds, y, m, d. rewrite app_nil_r. repeat split; auto.
      rewrite <- (app_nil_r s). now apply is_xs_date_lex; auto.
    + exists t, [10], ds, y, m, d. repeat split; auto. now apply is_xs_date_lex; auto.
  - right. split.
    + intros ds y m d [H|(t & -> & H)].
      * assert (matches_dollar r_xs_date s = true); [|congruence].
        apply matches_dollar_spec. left. apply lang_date. eauto 6.
      * assert (matches_dollar r_xs_date (t ++ [10]) = true); [|congruence].
        apply matches_dollar_spec. right. exists t. split; auto. apply lang_date. eauto 6.
    + unfold is_xs_date. now rewrite E.
Qed.

Lemma date_verdict_true ds y m d : MonthDayRange m d -> date_verdict ds y m d = Val true <->
  (N.of_nat (length ds) <= 4300 /\ ExistingDay y m d).
Proof.
  intros R. unfold date_verdict. rewrite <- (existing_day_decide y m d R).
  unfold int_max_str_digits. destruct (N.ltb_spec 4300 (N.of_nat (length ds))).
  - split; [discriminate|lia].
  - tauto.
Qed.

Lemma date_verdict_raise ds y m d e : MonthDayRange m d -> date_verdict ds y m d = Raise e <->
  (4300 < N.of_nat (length ds) /\ e = ValueError).
Proof.
  intros R. unfold date_verdict, int_max_str_digits.
  destruct (N.ltb_spec 4300 (N.of_nat (length ds))).
  - split; [intros [= <-]; auto|intros [_ ->]; auto].
  - destruct (existing_day_total y m d R) as [b ->]. split; [discriminate|lia].
Qed.

Lemma date_lex_range s ds y m d : XsdDateLex s ds y m d -> MonthDayRange m d.
Proof. intros (u & tz & _ & _ & R & _). exact R. Qed.

(** ** Uniqueness of the parts *)
Lemma app_digits_inj a b r t : Forall Digit a -> Forall Digit b ->
  (forall c x, r = c :: x -> ~ Digit c) -> (forall c x, t = c :: x -> ~ Digit c) ->
  a ++ r = b ++ t -> a = b /\ r = t.
Proof.
  intros A B R T E. pose proof (span_digits_spec a r A R) as X. rewrite E in X.
  rewrite (span_digits_spec b t B T) in X. now injection X.
Qed.

Lemma date_lex_fun s ds y m d ds' y' m' d' :
  XsdDateLex s ds y m d -> XsdDateLex s ds' y' m' d' -> ds = ds' /\ y = y' /\ m = m' /\ d = d'.
Proof.
  intros (u & tz & -> & (ys & ms & es & -> & Y & M & D) & _) (u' & tz' & E & (ys' & ms' & es' & -> & Y' & M' & D') & _).
  assert (P1 := date_prefix_spec ys ds y ms m es d tz Y M D).
  assert (P2 := date_prefix_spec ys' ds' y' ms' m' es' d' tz' Y' M' D').
  repeat rewrite <- app_assoc in E. cbn [app] in *. rewrite E in P1. rewrite P1 in P2.
  injection P2 as <- <- <-.
  pose proof (two_fun _ _ _ M M'). pose proof (two_fun _ _ _ D D'). subst.
  destruct Y as (Y & F & L & _), Y' as (Y' & F' & L' & _).
  destruct Y as [[-> ->]|[-> ->]], Y' as [[E1 ->]|[E1 ->]].
  - now subst.
  - subst. inversion F as [|? ? X _]. unfold Digit in X. lia.
  - subst. inversion F' as [|? ? X _]. unfold Digit in X. lia.
  - injection E1 as ->. auto.
Qed.
