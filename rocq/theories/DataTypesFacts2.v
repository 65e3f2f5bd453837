(** Lemmas about date-times, fragments of dates and durations. *)
From Coq Require Import String List NArith ZArith Znumtheory Bool Lia ZifyN.
From Verif Require Import PyStr PyStrFacts PyBase Regex DataTypesModel DataTypesSpec DataTypesFacts.
Import ListNotations.
Local Open Scope N_scope.

Lemma lang_rseq2 a b l s : lang (rseq (a :: b :: l)) s <->
  exists u v, s = u ++ v /\ lang a u /\ lang (rseq (b :: l)) v.
Proof. reflexivity. Qed.
Lemma lang_rseq1 a s : lang (rseq [a]) s <-> lang a s.
Proof. reflexivity. Qed.

Lemma lang_fraction s : lang (ropt (rseq [r_lit "."; rplus r_digit])) s <-> XsdFraction s.
Proof.
  rewrite lang_ropt. unfold XsdFraction. rewrite lang_rseq2. split.
  - intros [->|(u & v & -> & U & V)]; [now left|right]. apply lang_rlit in U. subst. rewrite lang_rseq1 in V.
    apply lang_rplus_digit in V. eauto.
  - intros [->|(ds & -> & D)]; [now left|right]. exists (lit "."), ds. rewrite lang_rlit, lang_rseq1, lang_rplus_digit.
    auto.
Qed.

Lemma lang_plus_zero s : lang (rplus (r_lit "0")) s <-> s <> [] /\ Forall (eq 48) s.
Proof.
  rewrite lang_rplus. split.
  - intros (l & NE & -> & F). split.
    + destruct l as [|x l]; [congruence|]. inversion F as [|? ? X _]; subst. apply lang_rlit in X. subst. discriminate.
    + clear NE. induction F as [|x l X F IH]; [constructor|]. apply lang_rlit in X. subst. simpl. constructor; auto.
  - intros [NE F]. exists (List.map (fun c => [c]) s). split; [destruct s; [congruence|discriminate]|]. split.
    + clear NE F. induction s; simpl; congruence.
    + clear NE. induction F as [|c s <- F IH]; cbn [List.map]; constructor; [now apply lang_rlit|exact IH].
Qed.

Lemma lang_zero_fraction s : lang (ropt (rseq [r_lit "."; rplus (r_lit "0")])) s <-> XsdZeroFraction s.
Proof.
  rewrite lang_ropt. unfold XsdZeroFraction. rewrite lang_rseq2. split.
  - intros [->|(u & v & -> & U & V)]; [now left|right]. apply lang_rlit in U. subst. rewrite lang_rseq1 in V.
    apply lang_plus_zero in V. eauto.
  - intros [->|(ds & -> & D)]; [now left|right]. exists (lit "."), ds. rewrite lang_rlit, lang_rseq1, lang_plus_zero.
    auto.
Qed.

Lemma two_of_digits a b : Digit a -> Digit b -> Two [a; b] (numval [a; b]).
Proof. intros A B. split; [reflexivity|]. split; [auto|reflexivity]. Qed.

Lemma two_eq s n a b : Two s n -> n = numval [a; b] -> Digit a -> Digit b -> s = [a; b].
Proof.
  rewrite two_spec, numval2. intros (x & y & -> & X & Y & ->) E A B. unfold Digit in *.
  assert (x = a) by lia. assert (y = b) by lia. now subst.
Qed.

Lemma lang_time_of_day s : lang r_time_of_day s <-> XsdTimeOfDay s.
Proof.
  unfold r_time_of_day, XsdTimeOfDay, r_end_of_day, r_second. cbn [ralts]. rewrite lang_alt2, !lang_rseq2. split.
  - intros [(hs & r1 & -> & H & V)|(u & v & -> & U & V)].
    + rewrite lang_rseq2 in V. destruct V as (a & r2 & -> & A & V).
      rewrite lang_rseq2 in V. destruct V as (ms & r3 & -> & M & V).
      rewrite lang_rseq2 in V. destruct V as (b & r4 & -> & B & V).
      rewrite lang_rseq1, lang_rseq2 in V. destruct V as (ss & fr & -> & S & F).
      rewrite lang_rseq1 in F. apply lang_fraction in F. apply lang_rlit in A, B. subst.
      apply lang_hour in H as (h & H & H'). apply lang_minute in M as (m & M & M').
      apply lang_minute in S as (sec & S & S').
      exists hs, h, ms, m, ss, sec, fr. split; [reflexivity|]. repeat (split; [assumption|]). left. auto.
    + rewrite lang_rseq1 in V. apply lang_zero_fraction in V. apply lang_rlit in U. subst.
      exists (lit "24"), 24%Z, (lit "00"), 0%Z, (lit "00"), 0%Z, v. split; [reflexivity|].
      assert (D : Digit 48 /\ Digit 50 /\ Digit 52) by (unfold Digit; lia).
      repeat split; auto; try (apply Forall_cons; [apply D|apply Forall_cons; [apply D|constructor]]).
  - intros (hs & h & ms & m & ss & sec & fr & -> & H & M & S & [((H' & M' & S') & F)|((-> & -> & ->) & F)]).
    + left. exists hs, (lit ":" ++ ms ++ lit ":" ++ ss ++ fr). split; [reflexivity|].
      split; [apply lang_hour; eauto|]. rewrite lang_rseq2.
      exists (lit ":"), (ms ++ lit ":" ++ ss ++ fr). rewrite lang_rlit, lang_rseq2. split; [reflexivity|].
      split; [reflexivity|]. exists ms, (lit ":" ++ ss ++ fr). split; [reflexivity|].
      split; [apply lang_minute; eauto|]. rewrite lang_rseq2. exists (lit ":"), (ss ++ fr). split; [reflexivity|].
      rewrite lang_rlit. split; [reflexivity|]. rewrite lang_rseq1, lang_rseq2. exists ss, fr. split; [reflexivity|].
      split; [apply lang_minute; eauto|]. rewrite lang_rseq1. now apply lang_fraction.
    + right. exists (lit "24:00:00"), fr. rewrite lang_rlit, lang_rseq1, lang_zero_fraction.
      assert (D : Digit 48 /\ Digit 50 /\ Digit 52) by (unfold Digit; lia).
      rewrite (two_eq hs 24 50 52), (two_eq ms 0 48 48), (two_eq ss 0 48 48); auto; tauto.
Qed.

Lemma lang_time s : lang r_time s <-> XsdTime s.
Proof.
  unfold r_time, XsdTime. rewrite lang_rseq2. setoid_rewrite lang_rseq1.
  setoid_rewrite lang_time_of_day. setoid_rewrite lang_timezone_opt. reflexivity.
Qed.

(** ** Date-times *)
Lemma lang_date_time_gen r zone s :
  (forall t, lang r t <-> zone t) ->
  lang (rseq [r_year; r_lit "-"; r_month; r_lit "-"; r_day; r_lit "T"; r_time_of_day; r]) s <->
  exists ds y m d, XsdDateTimeLex zone s ds y m d.
Proof.
  intros Z. unfold XsdDateTimeLex, XsdYmd, MonthDayRange. split.
  - intros (ys & r1 & -> & Y & a & r2 & -> & A & ms & r3 & -> & M & b & r4 & -> & B & es & r5 & -> & D &
            c & r6 & -> & C & t & tz & -> & T & TZ).
    apply lang_rlit in A, B, C. subst. apply lang_year in Y as (ds & y & Y).
    apply lang_month in M as (m & M & M'). apply lang_day in D as (d & D & D').
    apply lang_time_of_day in T. apply Z in TZ.
    exists ds, y, m, d, (ys ++ lit "-" ++ ms ++ lit "-" ++ es), t, tz. split.
    + now rewrite <- !app_assoc.
    + split; [|tauto]. exists ys, ms, es. auto.
  - intros (ds & y & m & d & u & t & tz & -> & (ys & ms & es & -> & Y & M & D) & (M' & D') & T & TZ).
    exists ys, (lit "-" ++ ms ++ lit "-" ++ es ++ lit "T" ++ t ++ tz). split; [now rewrite <- !app_assoc|].
    split; [apply lang_year; eauto|].
    exists (lit "-"), (ms ++ lit "-" ++ es ++ lit "T" ++ t ++ tz). split; [reflexivity|]. split; [now apply lang_rlit|].
    exists ms, (lit "-" ++ es ++ lit "T" ++ t ++ tz). split; [reflexivity|]. split; [apply lang_month; eauto|].
    exists (lit "-"), (es ++ lit "T" ++ t ++ tz). split; [reflexivity|]. split; [now apply lang_rlit|].
    exists es, (lit "T" ++ t ++ tz). split; [reflexivity|]. split; [apply lang_day; eauto|].
    exists (lit "T"), (t ++ tz). split; [reflexivity|]. split; [now apply lang_rlit|].
    exists t, tz. split; [reflexivity|]. split; [now apply lang_time_of_day|now apply Z].
Qed.

Definition NoT (s : str) : Prop := ~ In 84 s.

Lemma digit_no_t s : Forall Digit s -> NoT s.
Proof. intros F H. rewrite Forall_forall in F. apply F in H. unfold Digit in H. lia. Qed.

Lemma two_no_t s n : Two s n -> NoT s.
Proof. intros (_ & F & _). now apply digit_no_t. Qed.

Lemma no_t_app a b : NoT a -> NoT b -> NoT (a ++ b).
Proof. unfold NoT. intros A B H. apply in_app_iff in H. tauto. Qed.

Lemma ymd_no_t u ds y m d : XsdYmd u ds y m d -> NoT u.
Proof.
  intros (ys & ms & es & -> & (Y & F & _) & M & D).
  repeat apply no_t_app; try (intros [E|[]]; discriminate); try (eapply two_no_t; eassumption).
  destruct Y as [[-> _]|[-> _]]; [now apply digit_no_t|].
  apply no_t_app; [intros [E|[]]; discriminate|now apply digit_no_t].
Qed.

Lemma fraction_no_t s : XsdFraction s -> NoT s.
Proof.
  intros [->|(ds & -> & _ & F)]; [intros []|]. apply no_t_app; [intros [E|[]]; discriminate|now apply digit_no_t].
Qed.

Lemma zero_fraction_is_fraction s : XsdZeroFraction s -> XsdFraction s.
Proof.
  intros [->|(ds & -> & N & F)]; [now left|right]. exists ds. split; [reflexivity|]. split; [exact N|].
  eapply Forall_impl; [|exact F]. intros c <-. unfold Digit. lia.
Qed.

Lemma time_no_t s : XsdTimeOfDay s -> NoT s.
Proof.
  intros (hs & h & ms & m & ss & sec & fr & -> & H & M & S & F).
  repeat apply no_t_app; try (intros [E|[]]; discriminate); try (eapply two_no_t; eassumption).
  apply fraction_no_t. destruct F as [[_ F]|[_ F]]; [exact F|now apply zero_fraction_is_fraction].
Qed.

Lemma zone_no_t s : XsdTimezoneOpt s -> NoT s.
Proof.
  intros [->|[->|(sg & hs & h & ms & m & -> & S & H & M & _)]].
  - intros [].
  - intros [E|[]]. discriminate.
  - repeat apply no_t_app; try (intros [E|[]]; discriminate); try (eapply two_no_t; eassumption).
    destruct S as [->| ->]; intros [E|[]]; discriminate.
Qed.

Lemma utc_no_t s : UtcZone s -> NoT s.
Proof.
  intros [<-|[<-|[<-|[]]]]; unfold NoT; vm_compute; intuition discriminate.
Qed.

Lemma check_date_part_lex (zone : str -> Prop) s r ds y m d : (forall t, zone t -> NoT t) ->
  XsdDateTimeLex zone s ds y m d -> r = [] \/ r = [10] ->
  check_date_part (s ++ r) = date_verdict ds y m d.
Proof.
  intros NZ (u & t & tz & -> & U & R & T & TZ) HR. unfold check_date_part.
  replace ((u ++ lit "T" ++ t ++ tz) ++ r) with (u ++ 84 :: (t ++ tz ++ r)) by (now rewrite <- !app_assoc).
  assert (NoT r) by (destruct HR as [->| ->]; [intros []|intros [E|[]]; discriminate]).
  rewrite split_on_app by (now apply ymd_no_t in U).
  rewrite split_on_none.
  2:{ repeat apply no_t_app; auto. now apply time_no_t. }
  rewrite <- (app_nil_r u). apply is_xs_date_lex; auto.
  exists u, []. rewrite app_nil_r. repeat split; auto; try apply R. now left.
Qed.

Lemma date_time_cases (zone : str -> Prop) r s :
  (forall t, zone t -> NoT t) -> (forall t, lang r t <-> zone t) ->
  let f s := if negb (matches_dollar
       (rseq [r_year; r_lit "-"; r_month; r_lit "-"; r_day; r_lit "T"; r_time_of_day; r]) s)
     then Val false else check_date_part s in
  (exists t x ds y m d, s = t ++ x /\ (x = [] \/ x = [10]) /\ XsdDateTimeLex zone t ds y m d /\
     f s = date_verdict ds y m d) \/
  ((forall ds y m d, ~ UpToLineFeed (fun t => XsdDateTimeLex zone t ds y m d) s) /\ f s = Val false).
Proof.
  intros NZ Z f. subst f. cbn beta.
  pose proof (fun s => lang_date_time_gen r zone s Z) as LG.
  destruct (matches_dollar _ s) eqn:E; cbn [negb].
  - left. apply matches_dollar_spec in E as [E|(t & -> & E)]; apply LG in E as (ds & y & m & d & E).
    + exists s, [], ds, y, m, d. rewrite app_nil_r. repeat split; auto.
      rewrite <- (app_nil_r s). eapply check_date_part_lex; eauto.
    + exists t, [10], ds, y, m, d. repeat split; auto. eapply check_date_part_lex; eauto.
  - right. split; [|reflexivity].
    intros ds y m d H. apply not_true_iff_false in E. apply E, matches_dollar_spec.
    destruct H as [H|(t & -> & H)]; [left|right; exists t; split; [reflexivity|]]; apply LG; eauto 6.
Qed.

Lemma date_time_lex_range (zone : str -> Prop) s ds y m d : XsdDateTimeLex zone s ds y m d -> MonthDayRange m d.
Proof. intros (u & t & tz & _ & _ & R & _). exact R. Qed.

Lemma date_time_lex_fun (zone : str -> Prop) s ds y m d ds' y' m' d' : (forall t, zone t -> NoT t) ->
  XsdDateTimeLex zone s ds y m d -> XsdDateTimeLex zone s ds' y' m' d' ->
  ds = ds' /\ y = y' /\ m = m' /\ d = d'.
Proof.
  intros NZ (u & t & tz & -> & U & R & T & TZ) (u' & t' & tz' & E & U' & R' & T' & TZ').
  assert (u = u').
  { pose proof (split_on_app 84 u (t ++ tz) (ymd_no_t _ _ _ _ _ U)) as S1.
    pose proof (split_on_app 84 u' (t' ++ tz') (ymd_no_t _ _ _ _ _ U')) as S2.
    change (u ++ 84 :: t ++ tz) with (u ++ lit "T" ++ t ++ tz) in S1. rewrite E in S1.
    change (u' ++ 84 :: t' ++ tz') with (u' ++ lit "T" ++ t' ++ tz') in S2. rewrite S1 in S2. congruence. }
  subst u'. eapply (date_lex_fun u).
  - exists u, []. rewrite app_nil_r. repeat split; eauto; try apply R. now left.
  - exists u, []. rewrite app_nil_r. repeat split; eauto; try apply R'. now left.
Qed.

(** ** Fragments *)
Lemma lang_g_year s : lang r_g_year s <-> XsdGYear s.
Proof.
  unfold r_g_year, XsdGYear. rewrite lang_rseq2. split.
  - intros (u & v & -> & U & V). rewrite lang_rseq1 in V. apply lang_timezone_opt in V.
    apply lang_g_year_number in U as (ds & y & U). exists u, ds, y, v. auto.
  - intros (ys & ds & y & tz & -> & Y & T). exists ys, tz. split; [reflexivity|].
    split; [apply lang_g_year_number; eauto|now apply lang_timezone_opt].
Qed.

Lemma lang_g_year_month s : lang r_g_year_month s <-> XsdGYearMonth s.
Proof.
  unfold r_g_year_month, XsdGYearMonth. split.
  - intros (u & r1 & -> & U & a & r2 & -> & A & ms & tz & -> & M & V). apply lang_rlit in A. subst.
    apply lang_timezone_opt in V. apply lang_g_year_number in U as (ds & y & U).
    apply lang_month in M as (m & M & M'). exists u, ds, y, ms, m, tz. auto.
  - intros (ys & ds & y & ms & m & tz & -> & Y & M & M' & T).
    exists ys, (lit "-" ++ ms ++ tz). split; [reflexivity|]. split; [apply lang_g_year_number; eauto|].
    exists (lit "-"), (ms ++ tz). split; [reflexivity|]. split; [now apply lang_rlit|].
    exists ms, tz. split; [reflexivity|]. split; [apply lang_month; eauto|now apply lang_timezone_opt].
Qed.

Lemma lang_g_month s : lang r_g_month s <-> XsdGMonth s.
Proof.
  unfold r_g_month, XsdGMonth. split.
  - intros (a & r2 & -> & A & ms & tz & -> & M & V). apply lang_rlit in A. subst.
    apply lang_timezone_opt in V. apply lang_month in M as (m & M & M'). exists ms, m, tz. auto.
  - intros (ms & m & tz & -> & M & M' & T).
    exists (lit "--"), (ms ++ tz). split; [reflexivity|]. split; [now apply lang_rlit|].
    exists ms, tz. split; [reflexivity|]. split; [apply lang_month; eauto|now apply lang_timezone_opt].
Qed.

Lemma lang_g_day s : lang r_g_day s <-> XsdGDay s.
Proof.
  unfold r_g_day, XsdGDay. split.
  - intros (a & r2 & -> & A & ms & tz & -> & M & V). apply lang_rlit in A. subst.
    apply lang_timezone_opt in V. apply lang_day in M as (m & M & M'). exists ms, m, tz. auto.
  - intros (ms & m & tz & -> & M & M' & T).
    exists (lit "---"), (ms ++ tz). split; [reflexivity|]. split; [now apply lang_rlit|].
    exists ms, tz. split; [reflexivity|]. split; [apply lang_day; eauto|now apply lang_timezone_opt].
Qed.

Definition GMonthDayLex (s : str) (m d : Z) : Prop :=
  exists ms es tz, s = lit "--" ++ ms ++ lit "-" ++ es ++ tz /\
    Two ms m /\ Two es d /\ XsdTimezoneOpt tz /\ MonthDayRange m d.

Lemma lang_g_month_day s : lang r_xs_g_month_day s <-> exists m d, GMonthDayLex s m d.
Proof.
  unfold r_xs_g_month_day, GMonthDayLex, MonthDayRange. split.
  - intros (a & r1 & -> & A & ms & r2 & -> & M & b & r3 & -> & B & es & tz & -> & D & V). apply lang_rlit in A, B. subst.
    apply lang_timezone_opt in V. apply lang_month in M as (m & M & M'). apply lang_day in D as (d & D & D').
    exists m, d, ms, es, tz. tauto.
  - intros (m & d & ms & es & tz & -> & M & D & T & M' & D').
    exists (lit "--"), (ms ++ lit "-" ++ es ++ tz). split; [reflexivity|]. split; [now apply lang_rlit|].
    exists ms, (lit "-" ++ es ++ tz). split; [reflexivity|]. split; [apply lang_month; eauto|].
    exists (lit "-"), (es ++ tz). split; [reflexivity|]. split; [now apply lang_rlit|].
    exists es, tz. split; [reflexivity|]. split; [apply lang_day; eauto|now apply lang_timezone_opt].
Qed.

Lemma slice_app2 (a m r : str) : length m = 2%nat ->
  slice (length a) (2 + length a) (a ++ m ++ r) = m.
Proof.
  intros L. unfold slice. replace (2 + length a - length a)%nat with 2%nat by lia.
  rewrite skipn_app, skipn_all, Nat.sub_diag. cbn [skipn app].
  destruct m as [|? [|? [|? ?]]]; try discriminate. reflexivity.
Qed.

Lemma g_month_day_lex s r m d : GMonthDayLex s m d -> r = [] \/ r = [10] ->
  exists mx, days_in_month_lookup m = Val mx /\ is_xs_g_month_day (s ++ r) = Val (d <=? mx)%Z.
Proof.
  intros L R. unfold is_xs_g_month_day.
  assert (matches_dollar r_xs_g_month_day (s ++ r) = true) as ->.
  { apply matches_dollar_spec. assert (LL : lang r_xs_g_month_day s) by (apply lang_g_month_day; eauto).
    destruct R as [->| ->]; [rewrite app_nil_r; auto|eauto]. }
  cbn [negb]. destruct L as (ms & es & tz & -> & M & D & _ & (MR & DR)).
  assert (E1 : slice 2 4 ((lit "--" ++ ms ++ lit "-" ++ es ++ tz) ++ r) = ms).
  { rewrite <- app_assoc. rewrite <- app_assoc. apply (slice_app2 (lit "--") ms). apply M. }
  assert (E2 : slice 5 7 ((lit "--" ++ ms ++ lit "-" ++ es ++ tz) ++ r) = es).
  { replace ((lit "--" ++ ms ++ lit "-" ++ es ++ tz) ++ r)
      with ((lit "--" ++ ms ++ lit "-") ++ es ++ (tz ++ r)) by (now rewrite <- !app_assoc).
    replace 5%nat with (length (lit "--" ++ ms ++ lit "-")).
    2:{ rewrite !app_length. destruct M as (-> & _). reflexivity. }
    apply (slice_app2 (lit "--" ++ ms ++ lit "-") es). apply D. }
  rewrite E1, E2, (py_int_two _ _ M), (py_int_two _ _ D). cbn [obind].
  enum m; eexists; (split; [reflexivity|]; reflexivity).
Qed.

Lemma existing_some_year m d : MonthDayRange m d ->
  (exists y, ExistingDay y m d) <-> exists mx, days_in_month_lookup m = Val mx /\ (d <= mx)%Z.
Proof.
  intros (M & D). unfold ExistingDay. split.
  - intros (y & NZ & D1 & H). enum m; eexists; (split; [vm_compute; reflexivity|]); simpl In in H; intuition lia.
  - intros (mx & E & B). exists 4%Z. split; [lia|]. split; [lia|].
    assert (LP : Leap 4).
    { unfold Leap, Astronomical. simpl. split; [exists 1%Z; reflexivity|left]. intros [k K]. lia. }
    enum m; injection E as <-; simpl In; try lia.
    right; right. split; [reflexivity|]. assert (d <= 28 \/ d = 29)%Z as [X|X] by lia; auto.
Qed.

Lemma g_month_day_spec s : is_xs_g_month_day s = Val true <-> UpToLineFeed XsdGMonthDay s.
Proof.
  unfold UpToLineFeed, XsdGMonthDay.
  destruct (matches_dollar r_xs_g_month_day s) eqn:E.
  - pose proof E as E'. apply matches_dollar_spec in E'.
    assert (X : exists t r m d, s = t ++ r /\ (r = [] \/ r = [10]) /\ GMonthDayLex t m d).
    { destruct E' as [E'|(t & -> & E')]; apply lang_g_month_day in E' as (m & d & E').
      - exists s, [], m, d. rewrite app_nil_r. auto.
      - exists t, [10], m, d. auto. }
    destruct X as (t & r & m & d & -> & R & L).
    destruct (g_month_day_lex t r m d L R) as (mx & MX & ->).
    pose proof L as (ms & es & tz & ET & M & D & TZ & RG).
    assert (K : (d <=? mx)%Z = true <-> exists y, ExistingDay y m d).
    { rewrite existing_some_year, Z.leb_le by exact RG. split.
      - eauto.
      - intros (mx' & E1 & E2). congruence. }
    split.
    + intros [= H]. apply K in H. destruct R as [->| ->].
      * left. rewrite app_nil_r. exists ms, m, es, d, tz. auto.
      * right. exists t. split; [reflexivity|]. exists ms, m, es, d, tz. auto.
    + intros H. f_equal. apply K.
      assert (H' : exists r' ms' m' es' d' tz', t ++ r = (lit "--" ++ ms' ++ lit "-" ++ es' ++ tz') ++ r' /\
                Two ms' m' /\ Two es' d' /\ exists y, ExistingDay y m' d').
      { destruct H as [(ms' & m' & es' & d' & tz' & H1 & H2 & H3 & H4 & H5)
                      |(t' & HT & ms' & m' & es' & d' & tz' & H1 & H2 & H3 & H4 & H5)].
        - exists [], ms', m', es', d', tz'. rewrite app_nil_r. auto.
        - exists [10], ms', m', es', d', tz'. rewrite HT, H1. auto. }
      destruct H' as (r' & ms' & m' & es' & d' & tz' & H1 & H2 & H3 & H5).
      subst t. assert (ms = ms' /\ es = es') as [<- <-].
      { pose proof M as (M1 & _). pose proof D as (D1 & _). pose proof H2 as (M2 & _). pose proof H3 as (D2 & _).
        destruct ms as [|? [|? [|? ?]]], ms' as [|? [|? [|? ?]]], es as [|? [|? [|? ?]]], es' as [|? [|? [|? ?]]];
          try discriminate. cbn in H1. injection H1. intros. now subst. }
      now rewrite (two_fun _ _ _ M H2), (two_fun _ _ _ D H3).
  - unfold is_xs_g_month_day. rewrite E. cbn [negb]. split; [discriminate|]. intros H. exfalso.
    apply not_true_iff_false in E. apply E, matches_dollar_spec.
    assert (K : forall t, (exists ms m es d tz, t = lit "--" ++ ms ++ lit "-" ++ es ++ tz /\
        Two ms m /\ Two es d /\ XsdTimezoneOpt tz /\ exists y, ExistingDay y m d) -> lang r_xs_g_month_day t).
    { intros t (ms & m & es & d & tz & -> & M & D & T & y & NZ & D1 & H'). apply lang_g_month_day.
      exists m, d, ms, es, tz. repeat split; auto; try apply M; try apply D; simpl In in H'; intuition lia. }
    destruct H as [H|(t & -> & H)]; [left; now apply K|right; exists t; split; [reflexivity|now apply K]].
Qed.

Lemma g_month_day_total s : exists b, is_xs_g_month_day s = Val b.
Proof.
  destruct (matches_dollar r_xs_g_month_day s) eqn:E.
  - apply matches_dollar_spec in E as [E|(t & -> & E)]; apply lang_g_month_day in E as (m & d & E).
    + destruct (g_month_day_lex s [] m d E) as (mx & _ & H); [auto|]. rewrite app_nil_r in H. eauto.
    + destruct (g_month_day_lex t [10] m d E) as (mx & _ & H); [auto|]. eauto.
  - exists false. unfold is_xs_g_month_day. now rewrite E.
Qed.

(** ** Durations *)
Lemma lang_part x s : lang (r_part x) s <-> exists ds, s = ds ++ lit x /\ Digits ds.
Proof.
  unfold r_part, r_num. split.
  - intros (u & v & -> & U & V). apply lang_rplus_digit in U. apply lang_rlit in V. subst. eauto.
  - intros (ds & -> & D). exists ds, (lit x). split; [reflexivity|]. split; [now apply lang_rplus_digit|now apply lang_rlit].
Qed.

Lemma lang_part_opt x s : lang (ropt (r_part x)) s <-> DurPart x s.
Proof. rewrite lang_ropt, lang_part. reflexivity. Qed.

Lemma lang_dur_seconds s : lang r_dur_seconds s <->
  exists ds fr, s = ds ++ fr ++ lit "S" /\ Digits ds /\ XsdFraction fr.
Proof.
  unfold r_dur_seconds, r_num. split.
  - intros (u & r & -> & U & v & w & -> & V & W). apply lang_rplus_digit in U. apply lang_fraction in V.
    apply lang_rlit in W. subst. eauto.
  - intros (ds & fr & -> & D & F). exists ds, (fr ++ lit "S"). split; [reflexivity|].
    split; [now apply lang_rplus_digit|]. exists fr, (lit "S"). split; [reflexivity|].
    split; [now apply lang_fraction|now apply lang_rlit].
Qed.

Lemma lang_dur_seconds_opt s : lang (ropt r_dur_seconds) s <-> DurSeconds s.
Proof. rewrite lang_ropt, lang_dur_seconds. reflexivity. Qed.

Lemma part_nonempty x ds : Digits ds -> ds ++ lit x <> [].
Proof. intros [N _] E. apply app_eq_nil in E. tauto. Qed.

Lemma lang_dur_time s : lang r_dur_time s <->
  exists h mi sec, s = lit "T" ++ h ++ mi ++ sec /\ DurPart "H" h /\ DurPart "M" mi /\ DurSeconds sec /\
    h ++ mi ++ sec <> [].
Proof.
  unfold r_dur_time. cbn [rseq ralts]. split.
  - intros (u & v & -> & U & [V|[V|V]]); apply lang_rlit in U; subst.
    + destruct V as (h & r & -> & H & mi & sec & -> & M & S).
      apply lang_part in H as (ds & -> & H). apply lang_part_opt in M. apply lang_dur_seconds_opt in S.
      exists (ds ++ lit "H"), mi, sec. split; [reflexivity|].
      repeat split; auto; [right; eauto|]. intros E. apply app_eq_nil in E as [E _]. now apply part_nonempty in E.
    + destruct V as (mi & sec & -> & M & S).
      apply lang_part in M as (ds & -> & M). apply lang_dur_seconds_opt in S.
      exists [], (ds ++ lit "M"), sec. split; [reflexivity|].
      repeat split; auto; [left; auto|right; eauto|]. simpl. intros E. apply app_eq_nil in E as [E _].
      now apply part_nonempty in E.
    + apply lang_dur_seconds in V as (ds & fr & -> & D & F).
      exists [], [], (ds ++ fr ++ lit "S"). split; [reflexivity|].
      repeat split; auto; [left; auto|left; auto|right; eauto|]. simpl. intros E. apply app_eq_nil in E as [E _].
      destruct D; congruence.
  - intros (h & mi & sec & -> & H & M & S & NE). exists (lit "T"), (h ++ mi ++ sec). split; [reflexivity|].
    split; [now apply lang_rlit|].
    destruct H as [->|H]; [destruct M as [->|M]; [destruct S as [->|S]|]|].
    + now elim NE.
    + right; right. now apply lang_dur_seconds.
    + right; left. exists mi, sec. split; [reflexivity|]. split; [now apply lang_part|now apply lang_dur_seconds_opt].
    + left. exists h, (mi ++ sec). split; [reflexivity|]. split; [now apply lang_part|].
      exists mi, sec. split; [reflexivity|]. split; [now apply lang_part_opt|now apply lang_dur_seconds_opt].
Qed.

Lemma lang_dur_date s : lang r_dur_date s <->
  exists y mo d, s = y ++ mo ++ d /\ DurPart "Y" y /\ DurPart "M" mo /\ DurPart "D" d /\ y ++ mo ++ d <> [].
Proof.
  unfold r_dur_date. cbn [ralts]. split.
  - intros [V|[V|V]].
    + destruct V as (h & r & -> & H & mi & sec & -> & M & S).
      apply lang_part in H as (ds & -> & H). apply lang_part_opt in M, S.
      exists (ds ++ lit "Y"), mi, sec. split; [reflexivity|].
      repeat split; auto; [right; eauto|]. intros E. apply app_eq_nil in E as [E _]. now apply part_nonempty in E.
    + destruct V as (mi & sec & -> & M & S).
      apply lang_part in M as (ds & -> & M). apply lang_part_opt in S.
      exists [], (ds ++ lit "M"), sec. split; [reflexivity|].
      repeat split; auto; [left; auto|right; eauto|]. simpl. intros E. apply app_eq_nil in E as [E _].
      now apply part_nonempty in E.
    + apply lang_part in V as (ds & -> & D).
      exists [], [], (ds ++ lit "D"). split; [reflexivity|].
      repeat split; auto; [left; auto|left; auto|right; eauto|]. simpl. intros E.
      now apply part_nonempty in E.
  - intros (h & mi & sec & -> & H & M & S & NE).
    destruct H as [->|H]; [destruct M as [->|M]; [destruct S as [->|S]|]|].
    + now elim NE.
    + right; right. now apply lang_part.
    + right; left. exists mi, sec. split; [reflexivity|]. split; [now apply lang_part|now apply lang_part_opt].
    + left. exists h, (mi ++ sec). split; [reflexivity|]. split; [now apply lang_part|].
      exists mi, sec. split; [reflexivity|]. split; now apply lang_part_opt.
Qed.

Lemma lang_duration s : lang r_duration s <-> XsdDuration s.
Proof.
  unfold r_duration, XsdDuration. cbn [rseq]. rewrite lang_opt_minus_cat. split.
  - intros (t & (p & r & -> & P & H) & S). apply lang_rlit in P. subst p.
    assert (X : exists sg, s = sg ++ lit "P" ++ r /\ (sg = [] \/ sg = lit "-")).
    { destruct S as [->| ->]; [exists []|exists (lit "-")]; auto. }
    destruct X as (sg & -> & SG). exists sg. cbn [ralts] in H.
    destruct H as [(u & v & -> & U & V)|H].
    + apply lang_dur_date in U as (y & mo & d & -> & Y & M & D & NE).
      cbn [rseq] in V. apply (proj1 (lang_ropt _ _)) in V. rewrite lang_dur_time in V.
      exists y, mo, d, v. split; [now rewrite <- !app_assoc|]. repeat (split; [assumption|]).
      intros E. apply NE. rewrite !app_assoc in *. now apply app_eq_nil in E.
    + apply lang_dur_time in H. exists [], [], [], r. split; [reflexivity|]. split; [exact SG|].
      split; [now left|]. split; [now left|]. split; [now left|]. split; [now right|].
      destruct H as (? & ? & ? & -> & _). discriminate.
  - intros (sg & y & mo & d & t & -> & SG & Y & M & D & T & NE).
    exists (lit "P" ++ y ++ mo ++ d ++ t). split; [|destruct SG as [->| ->]; auto].
    exists (lit "P"), (y ++ mo ++ d ++ t). split; [reflexivity|]. split; [now apply lang_rlit|].
    cbn [ralts rseq].
    assert (DEC : y ++ mo ++ d = [] \/ y ++ mo ++ d <> []) by (destruct (y ++ mo ++ d); [left|right]; congruence).
    destruct DEC as [E|E].
    + right. apply app_eq_nil in E as [-> E]. apply app_eq_nil in E as [-> ->]. simpl in *.
      destruct T as [->|T]; [congruence|]. now apply lang_dur_time.
    + left. exists (y ++ mo ++ d), t. split; [now rewrite <- !app_assoc|]. split.
      * apply lang_dur_date. exists y, mo, d. auto.
      * rewrite lang_ropt, lang_dur_time. exact T.
Qed.
