(** Properties C59 - C70: the values of the XSD types, language tags and IRI references. *)
From Coq Require Import String List NArith ZArith Znumtheory Bool Lia ZifyN.
From Verif Require Import PyStr PyStrFacts PyBase Regex DataTypesModel DataTypesSpec
  DataTypesFacts DataTypesFacts2 DataTypesFacts3 DataTypesFacts4 DataTypesFacts5.
Import ListNotations.
Local Open Scope N_scope.

(** The text in an example. *)
Local Notation "# s" := (lit s) (at level 5, format "# s").

Lemma up_to_lf_free p s : ~ In 10 s -> UpToLineFeed p s <-> p s.
Proof.
  intros H. split; [|left; auto]. intros [P|(t & -> & _)]; [exact P|].
  exfalso. apply H. apply in_or_app. right. now left.
Qed.

(** ** C59 *)
Lemma date_exact s : is_xs_date s = Val true <->
  exists ds y m d, UpToLineFeed (fun t => XsdDateLex t ds y m d) s /\ ExistingDay y m d /\ N.of_nat (length ds) <= 4300.
Proof.
  split.
  - intros H. destruct (is_xs_date_cases s) as [(t & r & ds & y & m & d & E & R & L & V)|[_ V]]; [|congruence].
    rewrite V in H. apply date_verdict_true in H; [|eapply date_lex_range; eauto].
    exists ds, y, m, d. split; [|tauto]. subst s. destruct R as [->| ->]; [rewrite app_nil_r; now left|right; eauto].
  - intros (ds & y & m & d & [L|(t & -> & L)] & X & N).
    + rewrite <- (app_nil_r s). rewrite (is_xs_date_lex s [] ds y m d L) by auto.
      apply date_verdict_true; [eapply date_lex_range; eauto|auto].
    + rewrite (is_xs_date_lex t [10] ds y m d L) by auto.
      apply date_verdict_true; [eapply date_lex_range; eauto|auto].
Qed.

(** Exactly the dates of XSD, for values without a line feed and with years of at most
    4300 digits (for the others see C69 and C70). *)
Theorem C59_date : forall s, ~ In 10 s ->
  (forall ds y m d, XsdDateLex s ds y m d -> N.of_nat (length ds) <= 4300) ->
  validate_xsd X_date s = Val true <-> XsdDate s.
Proof.
  intros s H B. change (validate_xsd X_date s) with (is_xs_date s). rewrite date_exact. unfold XsdDate. split.
  - intros (ds & y & m & d & L & X & _). rewrite up_to_lf_free in L by exact H. eauto 6.
  - intros (ds & y & m & d & L & X). exists ds, y, m, d. rewrite up_to_lf_free by exact H. eauto.
Qed.
Print Assumptions C59_date.

(** The complete classification, for every string. *)
Theorem C59_date_exact : forall s, validate_xsd X_date s = Val true <->
  exists ds y m d, UpToLineFeed (fun t => XsdDateLex t ds y m d) s /\ ExistingDay y m d /\ N.of_nat (length ds) <= 4300.
Proof. exact date_exact. Qed.
Print Assumptions C59_date_exact.

Example C59_example :
  List.map (fun s => validate_xsd X_date s)
    [#"2024-02-29"; #"2023-02-29"; #"-0001-02-29"; #"0000-01-01"; #"12024-12-31+14:00"; #"2024-04-31"; #"01999-01-01"]
  = List.map Val [true; false; true; false; true; false; false].
Proof. vm_compute. reflexivity. Qed.

Example C59_example_spec : XsdDate #"-0005-02-29Z" /\ ~ XsdDate #"-0004-02-29".
Proof.
  assert (S1 : forall ds y m d, XsdDateLex #"-0005-02-29Z" ds y m d -> N.of_nat (length ds) <= 4300).
  { intros ds y m d L. assert (X : is_xs_date #"-0005-02-29Z" = Val true) by (vm_compute; reflexivity).
    pose proof (is_xs_date_lex _ [] _ _ _ _ L) as V. rewrite app_nil_r, X in V. symmetry in V.
    specialize (V (or_introl eq_refl)). apply date_verdict_true in V; [tauto|eapply date_lex_range; eauto]. }
  assert (S2 : forall ds y m d, XsdDateLex #"-0004-02-29" ds y m d -> N.of_nat (length ds) <= 4300).
  { intros ds y m d L. assert (X : is_xs_date #"-0004-02-29" = Val false) by (vm_compute; reflexivity).
    pose proof (is_xs_date_lex _ [] _ _ _ _ L) as V. rewrite app_nil_r, X in V.
    specialize (V (or_introl eq_refl)). destruct (N.leb_spec (N.of_nat (length ds)) 4300) as [|G]; [assumption|].
    assert (date_verdict ds y m d = Raise ValueError) by (apply date_verdict_raise; [eapply date_lex_range; eauto|auto]).
    congruence. }
  split.
  - apply C59_date; [vm_compute; intuition discriminate|exact S1|vm_compute; reflexivity].
  - intros H. apply C59_date in H; [vm_compute in H; discriminate|vm_compute; intuition discriminate|exact S2].
Qed.

(** ** C60 *)
Lemma date_time_exact (zone : str -> Prop) r s :
  (forall t, zone t -> NoT t) -> (forall t, lang r t <-> zone t) ->
  (if negb (matches_dollar
       (rseq [r_year; r_lit "-"; r_month; r_lit "-"; r_day; r_lit "T"; r_time_of_day; r]) s)
     then Val false else check_date_part s) = Val true <->
  exists ds y m d, UpToLineFeed (fun t => XsdDateTimeLex zone t ds y m d) s /\ ExistingDay y m d /\ N.of_nat (length ds) <= 4300.
Proof.
  intros NZ Z. pose proof (date_time_cases zone r s NZ Z) as C. cbn beta zeta in C.
  pose proof (fun s => lang_date_time_gen r zone s Z) as LG.
  split.
  - intros H. destruct C as [(t & x & ds & y & m & d & E & R & L & V)|[_ V]]; [|congruence].
    rewrite V in H. apply date_verdict_true in H; [|eapply date_time_lex_range; eauto].
    exists ds, y, m, d. split; [|tauto]. subst s. destruct R as [->| ->]; [rewrite app_nil_r; now left|right; eauto].
  - intros (ds & y & m & d & L & X & N).
    assert (M : matches_dollar (rseq [r_year; r_lit "-"; r_month; r_lit "-"; r_day; r_lit "T"; r_time_of_day; r]) s = true).
    { apply matches_dollar_spec. destruct L as [L|(t & -> & L)]; [left|right; exists t; split; [reflexivity|]]; apply LG; eauto. }
    rewrite M. cbn [negb].
    assert (R : MonthDayRange m d) by (destruct L as [L|(t & -> & L)]; eapply date_time_lex_range; eauto).
    destruct L as [L|(t & -> & L)].
    + rewrite <- (app_nil_r s). rewrite (check_date_part_lex zone s [] ds y m d NZ) by auto. now apply date_verdict_true.
    + rewrite (check_date_part_lex zone t [10] ds y m d NZ) by auto. now apply date_verdict_true.
Qed.

Theorem C60_date_time_exact : forall s, validate_xsd X_dateTime s = Val true <->
  exists ds y m d, UpToLineFeed (fun t => XsdDateTimeLex XsdTimezoneOpt t ds y m d) s /\ ExistingDay y m d /\ N.of_nat (length ds) <= 4300.
Proof. intros s. apply (date_time_exact XsdTimezoneOpt (ropt r_timezone) s zone_no_t lang_timezone_opt). Qed.
Print Assumptions C60_date_time_exact.

Theorem C60_date_time_utc_exact : forall s, is_xs_date_time_utc s = Val true <->
  exists ds y m d, UpToLineFeed (fun t => XsdDateTimeLex UtcZone t ds y m d) s /\ ExistingDay y m d /\ N.of_nat (length ds) <= 4300.
Proof. intros s. apply (date_time_exact UtcZone r_timezone_utc s utc_no_t lang_timezone_utc). Qed.
Print Assumptions C60_date_time_utc_exact.

Theorem C60_date_time : forall s, ~ In 10 s ->
  (forall ds y m d, XsdDateTimeLex XsdTimezoneOpt s ds y m d -> N.of_nat (length ds) <= 4300) ->
  validate_xsd X_dateTime s = Val true <-> XsdDateTime XsdTimezoneOpt s.
Proof.
  intros s H B. rewrite C60_date_time_exact. unfold XsdDateTime. split.
  - intros (ds & y & m & d & L & X & _). rewrite up_to_lf_free in L by exact H. eauto 6.
  - intros (ds & y & m & d & L & X). exists ds, y, m, d. rewrite up_to_lf_free by exact H. eauto.
Qed.
Print Assumptions C60_date_time.

Theorem C60_date_time_utc : forall s, ~ In 10 s ->
  (forall ds y m d, XsdDateTimeLex UtcZone s ds y m d -> N.of_nat (length ds) <= 4300) ->
  is_xs_date_time_utc s = Val true <-> XsdDateTime UtcZone s.
Proof.
  intros s H B. rewrite C60_date_time_utc_exact. unfold XsdDateTime. split.
  - intros (ds & y & m & d & L & X & _). rewrite up_to_lf_free in L by exact H. eauto 6.
  - intros (ds & y & m & d & L & X). exists ds, y, m, d. rewrite up_to_lf_free by exact H. eauto.
Qed.
Print Assumptions C60_date_time_utc.

Example C60_example :
  List.map (fun s => (validate_xsd X_dateTime s, is_xs_date_time_utc s))
    [#"2024-02-29T24:00:00.000Z"; #"2024-02-29T23:59:59.999+00:00"; #"2024-02-29T12:00:00-14:00";
     #"2024-02-30T12:00:00Z"; #"2024-02-29T12:00Z"; #"2024-02-29T12:00:00"; #"2024-02-29T24:00:00.1Z"]
  = List.map (fun p => (Val (fst p), Val (snd p)))
    [(true, true); (true, true); (true, false); (false, false); (false, false); (true, false); (false, false)].
Proof. vm_compute. reflexivity. Qed.

(** ** C61 *)
Lemma val_matches r p s : (forall s, lang r s <-> p s) -> Val (matches r s) = Val true <-> p s.
Proof. intros H. rewrite <- H, <- matches_spec. split; [congruence|now intros ->]. Qed.

Theorem C61_g_year : forall s, validate_xsd X_gYear s = Val true <-> XsdGYear s.
Proof. intros s. apply (val_matches r_g_year), lang_g_year. Qed.
Print Assumptions C61_g_year.
Theorem C61_g_year_month : forall s, validate_xsd X_gYearMonth s = Val true <-> XsdGYearMonth s.
Proof. intros s. apply (val_matches r_g_year_month), lang_g_year_month. Qed.
Print Assumptions C61_g_year_month.
Theorem C61_g_month : forall s, validate_xsd X_gMonth s = Val true <-> XsdGMonth s.
Proof. intros s. apply (val_matches r_g_month), lang_g_month. Qed.
Print Assumptions C61_g_month.
Theorem C61_g_day : forall s, validate_xsd X_gDay s = Val true <-> XsdGDay s.
Proof. intros s. apply (val_matches r_g_day), lang_g_day. Qed.
Print Assumptions C61_g_day.
Theorem C61_time : forall s, validate_xsd X_time s = Val true <-> XsdTime s.
Proof. intros s. apply (val_matches r_time), lang_time. Qed.
Print Assumptions C61_time.
(** A line feed at the end is the subject of C69. *)
Theorem C61_g_month_day : forall s, ~ In 10 s -> validate_xsd X_gMonthDay s = Val true <-> XsdGMonthDay s.
Proof.
  intros s H. change (validate_xsd X_gMonthDay s) with (is_xs_g_month_day s).
  rewrite g_month_day_spec. now apply up_to_lf_free.
Qed.
Print Assumptions C61_g_month_day.
Theorem C61_g_month_day_exact : forall s, validate_xsd X_gMonthDay s = Val true <-> UpToLineFeed XsdGMonthDay s.
Proof. exact g_month_day_spec. Qed.
Print Assumptions C61_g_month_day_exact.

Example C61_example :
  List.map (fun p => validate_xsd (fst p) (snd p))
    [(X_gYear, #"-12345Z"); (X_gYear, #"01234"); (X_gYear, #"123"); (X_gYearMonth, #"2024-13"); (X_gYearMonth, #"2024-12+01:00");
     (X_gMonth, #"--12"); (X_gMonth, #"--00"); (X_gDay, #"---31"); (X_gDay, #"---32");
     (X_gMonthDay, #"--02-29"); (X_gMonthDay, #"--02-30"); (X_gMonthDay, #"--04-31Z");
     (X_time, #"24:00:00"); (X_time, #"24:00:01"); (X_time, #"12:34:56.789-05:30")]
  = List.map Val [true; false; false; false; true; true; false; true; false; true; false; false; true; false; true].
Proof. vm_compute. reflexivity. Qed.

(** ** C62 *)
Theorem C62_duration : forall s, validate_xsd X_duration s = Val true <-> XsdDuration s.
Proof. intros s. apply (val_matches r_duration), lang_duration. Qed.
Print Assumptions C62_duration.

Example C62_example :
  List.map (validate_xsd X_duration)
    [#"P1Y2M3DT4H5M6.7S"; #"-P400D"; #"PT0S"; #"P"; #"PT"; #"P1YT"; #"P1D2M"; #"P-1D"; #"PT.5S"]
  = List.map Val [true; true; true; false; false; false; false; false; false].
Proof. vm_compute. reflexivity. Qed.

(** ** C63 *)
Lemma validate_integer t r s : int_range t = Some r ->
  validate_xsd t s = Val (is_bounded_integer s (fst r) (snd r)).
Proof. destruct t; try discriminate; intros [= <-]; reflexivity. Qed.

(** Numerals of more than 4300 digits denoting a value in the range are rejected. *)
Theorem C63_ranges_refuted : exists s ds v,
  XsdInteger s ds v /\ in_range (None, None) v /\ int_range X_integer = Some (None, None) /\
  validate_xsd X_integer s = Val false.
Proof.
  pose proof (ones_integer (N.to_nat 4300)) as X. set (n := S (N.to_nat 4300)) in X.
  assert (L : N.of_nat n = 4301) by (subst n; lia). clearbody n.
  exists (ones n), (ones n), (numval (ones n)).
  split; [exact X|]. split; [split; exact I|]. split; [reflexivity|].
  rewrite (validate_integer _ (None, None)) by reflexivity. f_equal. unfold is_bounded_integer.
  rewrite (py_int_xsd _ _ _ X), ones_length, L. reflexivity.
Qed.
Print Assumptions C63_ranges_refuted.

(** Up to that length the numerals accepted for a type are those in its value range. *)
Theorem C63_ranges : forall t r s ds v, int_range t = Some r -> XsdInteger s ds v ->
  N.of_nat (length ds) <= 4300 -> validate_xsd t s = Val true <-> in_range r v.
Proof.
  intros t [lo hi] s ds v T X L. rewrite (validate_integer _ _ _ T).
  split.
  - intros [= H]. apply bounded_integer_spec in H as (w & P & R). now apply (xsd_py_integer _ _ _ _ X L) in P as ->.
  - intros R. f_equal. apply bounded_integer_spec. exists v. split; [|exact R]. now apply (xsd_py_integer _ _ _ _ X L).
Qed.
Print Assumptions C63_ranges.

(** All bounded types are covered in full: their literals are rejected beyond that length
    only if they are out of range or padded with zeros. *)
Theorem C63_long_numerals : forall t r s ds v, int_range t = Some r -> XsdInteger s ds v ->
  4300 < N.of_nat (length ds) -> validate_xsd t s = Val false.
Proof.
  intros t r s ds v T X L. rewrite (validate_integer _ _ _ T). f_equal. unfold is_bounded_integer.
  rewrite (py_int_xsd _ _ _ X). unfold int_max_str_digits.
  replace (4300 <? N.of_nat (length ds)) with true by (symmetry; apply N.ltb_lt; lia). reflexivity.
Qed.
Print Assumptions C63_long_numerals.

Example C63_example :
  List.map (fun p => validate_xsd (fst p) (snd p))
    [(X_byte, #"-128"); (X_byte, #"-129"); (X_byte, #"127"); (X_byte, #"128");
     (X_unsignedLong, #"18446744073709551615"); (X_unsignedLong, #"18446744073709551616");
     (X_long, #"-9223372036854775808"); (X_long, #"9223372036854775808");
     (X_positiveInteger, #"0"); (X_nonNegativeInteger, #"-0"); (X_negativeInteger, #"-1"); (X_nonPositiveInteger, #"+1");
     (X_integer, #"123456789012345678901234567890")]
  = List.map Val [true; false; true; false; true; false; true; false; false; true; true; false; true].
Proof. vm_compute. reflexivity. Qed.

(** ** C64 *)
Theorem C64_literals_refuted : exists t r s, int_range t = Some r /\ validate_xsd t s = Val true /\
  forall ds v, ~ XsdInteger s ds v.
Proof.
  exists X_int, (Some (-2147483648)%Z, Some 2147483647%Z), #"1_0". split; [reflexivity|]. split; [vm_compute; reflexivity|].
  intros ds v (sg & neg & E & S & [_ D] & _).
  assert (I : In 95 (sg ++ ds)) by (rewrite <- E; vm_compute; auto).
  apply in_app_or in I as [I|I].
  - destruct S as [[_ [->| ->]]|[_ ->]]; vm_compute in I; intuition discriminate.
  - rewrite Forall_forall in D. apply D in I. unfold Digit in I. lia.
Qed.
Print Assumptions C64_literals_refuted.

(** What is accepted, for every string. *)
Theorem C64_accepted_exact : forall t r s, int_range t = Some r ->
  validate_xsd t s = Val true <-> exists v, PyInteger s v /\ in_range r v.
Proof.
  intros t [lo hi] s T. rewrite (validate_integer _ _ _ T). cbn [fst snd]. rewrite <- bounded_integer_spec.
  split; [congruence|now intros ->].
Qed.
Print Assumptions C64_accepted_exact.

(** Among ASCII texts without white space and underscores only XSD literals are accepted. *)
Theorem C64_plain_literals : forall t r s, int_range t = Some r ->
  Forall (fun c => c < 127 /\ ~ AsciiSpace c /\ c <> 95) s ->
  validate_xsd t s = Val true -> exists ds v, XsdInteger s ds v.
Proof.
  intros t r s T P H. apply (C64_accepted_exact t r s T) in H as (v & I & _).
  destruct (py_integer_plain _ _ I P) as (ds & X). eauto.
Qed.
Print Assumptions C64_plain_literals.

Example C64_example :
  List.map (validate_xsd X_int) [#"1_0"; #" 1 "; [1633; 1634]; #"+7"; #"1__0"; #"_1"; #"0x10"; #"1.0"; #""; #"--1"]
  = List.map Val [true; true; true; true; false; false; false; false; false; false].
Proof. vm_compute. reflexivity. Qed.

Example C64_example_spec : PyInteger [1633; 95; 50; 32] 12.
Proof. apply py_int_spec. vm_compute. reflexivity. Qed.

(** ** C65 *)
(** The largest double and the largest float are rejected. *)
Theorem C65_range_refuted :
  (exists s m e, XsdFloat s m e /\ dec_le m e max_double /\ validate_xsd X_double s = Val false) /\
  (exists s m e, XsdFloat s m e /\ dec_le m e max_float /\ validate_xsd X_float s = Val false).
Proof.
  split.
  - exists #"1.7976931348623157E308", 17976931348623157%Z, 292%Z. split; [|split; [vm_compute; discriminate|]].
    2:{ change (Val (is_double #"1.7976931348623157E308") = Val false). apply (f_equal Val). float_text. }
    exists [], false, #"1.7976931348623157", #"1", #"7976931348623157", #"E308", 308%Z.
    split; [reflexivity|]. split; [left; auto|]. split.
    { split; [apply forallb_forall_digit; reflexivity|]. split; [apply forallb_forall_digit; reflexivity|].
      split; [discriminate|]. left. reflexivity. }
    split; [|split; vm_compute; reflexivity].
    right. exists 69, [], false, #"308". split; [reflexivity|]. split; [auto|]. split; [left; auto|].
    split; [split; [discriminate|apply forallb_forall_digit; reflexivity]|]. vm_compute. reflexivity.
  - exists #"340282346638528859811704183484516925440", 340282346638528859811704183484516925440%Z, 0%Z.
    split; [|split; [vm_compute; discriminate|]].
    2:{ change (Val (is_float #"340282346638528859811704183484516925440") = Val false). apply (f_equal Val). float_text. }
    exists [], false, #"340282346638528859811704183484516925440", #"340282346638528859811704183484516925440", [], [], 0%Z.
    split; [reflexivity|]. split; [left; auto|]. split.
    { split; [apply forallb_forall_digit; reflexivity|]. split; [constructor|]. split; [discriminate|]. right. auto. }
    split; [left; auto|]. split; vm_compute; reflexivity.
Qed.
Print Assumptions C65_range_refuted.

(** Exactly the literals are accepted whose magnitude does not exceed the midpoint between
    the largest and the second largest double. *)
Theorem C65_double : forall s m e, XsdFloat s m e ->
  validate_xsd X_double s = Val true <-> dec_le m e ((2 ^ 54 - 3) * 2 ^ 970).
Proof.
  intros s m e X. rewrite <- (is_double_literal s m e X).
  change (validate_xsd X_double s) with (Val (is_double s)). split; [congruence|now intros ->].
Qed.
Print Assumptions C65_double.

(** ... that lie below the midpoint between the largest float and the double before it. *)
Theorem C65_float : forall s m e, XsdFloat s m e ->
  validate_xsd X_float s = Val true <-> dec_lt m e ((2 ^ 54 - 2 ^ 30 - 1) * 2 ^ 74).
Proof.
  intros s m e X. rewrite <- (is_float_literal s m e X).
  change (validate_xsd X_float s) with (Val (is_float s)). split; [congruence|now intros ->].
Qed.
Print Assumptions C65_float.

(** Consequences: what is out of range is rejected, *)
Theorem C65_out_of_range : forall s m e, XsdFloat s m e ->
  (~ dec_le m e max_double -> validate_xsd X_double s = Val false) /\
  (~ dec_le m e max_float -> validate_xsd X_float s = Val false).
Proof.
  intros s m e X. split; intros H.
  - change (validate_xsd X_double s) with (Val (is_double s)). f_equal. apply not_true_is_false. intros D.
    apply (is_double_literal _ _ _ X) in D. apply H. unfold dec_le in *. eapply Z.le_trans; [exact D|].
    apply Z.mul_le_mono_nonneg_r; [apply Z.pow_nonneg; lia|]. vm_compute. discriminate.
  - change (validate_xsd X_float s) with (Val (is_float s)). f_equal. apply not_true_is_false. intros D.
    apply (is_float_literal _ _ _ X) in D. apply H. unfold dec_le, dec_lt in *. apply Z.lt_le_incl. eapply Z.lt_le_trans; [exact D|].
    apply Z.mul_le_mono_nonneg_r; [apply Z.pow_nonneg; lia|]. vm_compute. discriminate.
Qed.
Print Assumptions C65_out_of_range.

(** and what is at most the second largest value of the type is accepted. *)
Theorem C65_in_range : forall s m e, XsdFloat s m e ->
  (dec_le m e ((2 ^ 53 - 2) * 2 ^ 971) -> validate_xsd X_double s = Val true) /\
  (dec_le m e ((2 ^ 24 - 2) * 2 ^ 104) -> validate_xsd X_float s = Val true).
Proof.
  intros s m e X. split; intros H.
  - apply (C65_double _ _ _ X). unfold dec_le in *. eapply Z.le_trans; [exact H|].
    apply Z.mul_le_mono_nonneg_r; [apply Z.pow_nonneg; lia|]. vm_compute. discriminate.
  - apply (C65_float _ _ _ X). unfold dec_le, dec_lt in *. eapply Z.le_lt_trans; [exact H|].
    apply Z.mul_lt_mono_pos_r; [apply Z.pow_pos_nonneg; lia|]. vm_compute. reflexivity.
Qed.
Print Assumptions C65_in_range.

(** The special values. *)
Theorem C65_special : forall s, In s [#"INF"; #"-INF"; #"NaN"] ->
  validate_xsd X_double s = Val true /\ validate_xsd X_float s = Val true.
Proof. intros s [<-|[<-|[<-|[]]]]; split; vm_compute; reflexivity. Qed.
Print Assumptions C65_special.

(** Decimals have no range; only texts of more than 10^18 characters could be rejected. *)
Theorem C65_decimal : forall s, XsdDecimal s -> N.of_nat (length s) <= 10 ^ 18 ->
  validate_xsd X_decimal s = Val true.
Proof.
  intros s X L. change (validate_xsd X_decimal s) with (Val (is_decimal s)). f_equal. now apply decimal_literal.
Qed.
Print Assumptions C65_decimal.

Example C65_example_double :
  is_double #"1.7976931348623156E308" = true /\ is_double #"1.7976931348623157E308" = false /\
  is_double #"-1e-400" = true /\ is_double #"1e400" = false /\ is_double #".5" = true /\ is_double #"5." = true /\
  is_double #"-0" = true /\ is_float #"3.4028234E38" = true /\ is_float #"-3.4028235E38" = false.
Proof. repeat apply conj; float_text. Qed.

Example C65_example :
  List.map (validate_xsd X_double) [#"+INF"; #"1,5"; #"nan"; #"e5"; #"infinity"] = List.map Val [false; false; false; false; false]
  /\ List.map (validate_xsd X_decimal) [#"-1.50"; #".5"; #"+210"; #"1,5"; #""; #"."]
  = List.map Val [true; true; true; false; false; false].
Proof. split; vm_compute; reflexivity. Qed.

(** ** C66 *)
Theorem C66_boolean : forall s, validate_xsd X_boolean s = Val true <-> XsdBoolean s.
Proof.
  intros s. change (validate_xsd X_boolean s) with (Val (str_in s [#"true"; #"false"; #"1"; #"0"])).
  unfold XsdBoolean. split.
  - intros H. assert (E : str_in s [#"true"; #"false"; #"1"; #"0"] = true) by congruence.
    apply str_in_spec in E. cbn [In] in E. intuition.
  - intros H. f_equal. apply str_in_spec. cbn [In]. intuition.
Qed.
Print Assumptions C66_boolean.

(** Blanks between the bytes are accepted, and characters outside the alphabet of base64. *)
Theorem C66_binary_refuted :
  (exists s, validate_xsd X_hexBinary s = Val true /\ ~ XsdHexBinary s) /\
  (exists s, validate_xsd X_base64Binary s = Val true /\ ~ XsdBase64 s).
Proof.
  split.
  - exists #"0a 0b". split; [vm_compute; reflexivity|]. intros [F _]. rewrite Forall_forall in F.
    specialize (F 32). unfold HexDigit, Digit in F. assert (I : In 32 #"0a 0b") by (vm_compute; auto). apply F in I. lia.
  - exists #"!!!!". split; [vm_compute; reflexivity|].
    intros [(q & f & E & Q & H) _]. change (filter (fun c => negb (c =? 32)) #"!!!!") with #"!!!!" in E.
    assert (I : forall c, In c (concat q ++ f) -> c = 33) by (rewrite <- E; vm_compute; intuition).
    destruct Q as [|g q [L G] Q].
    + cbn [concat app] in *. destruct H as [->|[(a & b & c & -> & A & _)|(a & b & -> & A & _)]]; [discriminate| |];
        specialize (I a (or_introl eq_refl)); subst; unfold B64Char, Digit in A; lia.
    + destruct g as [|c g]; [discriminate|]. inversion G as [|? ? C _]; subst.
      specialize (I c (or_introl eq_refl)). subst. unfold B64Char, Digit in C. lia.
Qed.
Print Assumptions C66_binary_refuted.

(** hexBinary: exactly what [bytes.fromhex] reads; XSD literals unless white space occurs. *)
Theorem C66_hex_exact : forall s, validate_xsd X_hexBinary s = Val true <-> PyHex s.
Proof.
  intros s. rewrite <- is_hex_binary_spec. change (validate_xsd X_hexBinary s) with (Val (is_hex_binary s)).
  split; [congruence|now intros ->].
Qed.
Print Assumptions C66_hex_exact.

Theorem C66_hex : forall s, Forall (fun c => ~ AsciiSpace c) s ->
  validate_xsd X_hexBinary s = Val true <-> XsdHexBinary s.
Proof.
  intros s H. destruct (fromhex_plain s H) as [<- _].
  change (validate_xsd X_hexBinary s) with (Val (fromhex_ok false s)). split; [congruence|now intros ->].
Qed.
Print Assumptions C66_hex.

(** base64Binary: every XSD literal is accepted; over the plain alphabet the length decides. *)
Theorem C66_base64_complete : forall s, XsdBase64 s -> validate_xsd X_base64Binary s = Val true.
Proof.
  intros s X. change (validate_xsd X_base64Binary s) with (Val (is_base64_binary s)). f_equal. now apply base64_literal.
Qed.
Print Assumptions C66_base64_complete.

Theorem C66_base64_alphabet : forall s, Forall B64Char s ->
  validate_xsd X_base64Binary s = Val true <-> Nat.divide 4 (length s).
Proof.
  intros s F. rewrite <- (base64_alphabet s F). change (validate_xsd X_base64Binary s) with (Val (is_base64_binary s)).
  split; [congruence|now intros ->].
Qed.
Print Assumptions C66_base64_alphabet.

Example C66_example :
  List.map (fun p => validate_xsd (fst p) (snd p))
    [(X_boolean, #"true"); (X_boolean, #"True"); (X_boolean, #"1"); (X_boolean, #"");
     (X_hexBinary, #"0aFF"); (X_hexBinary, #"0aF"); (X_hexBinary, #""); (X_hexBinary, #"0g"); (X_hexBinary, #"0 a");
     (X_base64Binary, #"YQ=="); (X_base64Binary, #"YWI="); (X_base64Binary, #"YWJj"); (X_base64Binary, #"YWJ");
     (X_base64Binary, #"Y Q = ="); (X_base64Binary, #"YQ"); (X_base64Binary, #"YQ=")]
  = List.map Val [true; false; true; false; true; false; true; false; false; true; true; true; false; true; false; false].
Proof. vm_compute. reflexivity. Qed.

Example C66_example_spec : XsdBase64 #"Y Q = =".
Proof.
  split.
  - exists [], #"YQ==". split; [reflexivity|]. split; [constructor|]. right. right. exists 89, 81.
    split; [reflexivity|]. split; [unfold B64Char; lia|vm_compute; auto].
  - split; [intros [t E]; discriminate|]. split.
    + intros [t E]. change #"Y Q = =" with (#"Y Q = " ++ [61]) in E. apply app_inj_tail in E as [_ E]. discriminate.
    + intros (t & u & E).
      assert (A : nth (length t) #"Y Q = =" 0 = 32 /\ nth (S (length t)) #"Y Q = =" 0 = 32).
      { rewrite E. split; rewrite app_nth2 by lia; [rewrite Nat.sub_diag; reflexivity|].
        replace (S (length t) - length t)%nat with 1%nat by lia. reflexivity. }
      generalize dependent (length t). intros k [A B].
      do 8 (destruct k as [|k]; [vm_compute in A, B; discriminate|]). destruct k; discriminate.
Qed.

(** ** C67 *)
(** Tags without regular structure are only recognized as spelled in the registry. *)
Theorem C67_tags_refuted : exists s, WellFormedTag s /\ is_bcp_lang_string s = false.
Proof.
  exists #"I-KLINGON". split; [|vm_compute; reflexivity]. right. apply Exists_exists. exists #"i-klingon".
  split; [|vm_compute; reflexivity]. apply in_or_app. left. vm_compute. tauto.
Qed.
Print Assumptions C67_tags_refuted.

(** Apart from the case of these tags and from a line feed (C69) the check is exact. *)
Theorem C67_tags : forall s, ~ In 10 s -> is_bcp_lang_string s = true <-> WellFormedTagCased s.
Proof. intros s H. rewrite bcp_lang_string_spec. now apply up_to_lf_free. Qed.
Print Assumptions C67_tags.

Theorem C67_tags_exact : forall s, is_bcp_lang_string s = true <-> UpToLineFeed WellFormedTagCased s.
Proof. exact bcp_lang_string_spec. Qed.
Print Assumptions C67_tags_exact.

(** Nothing but well-formed tags is accepted. *)
Theorem C67_tags_sound : forall s, ~ In 10 s -> is_bcp_lang_string s = true -> WellFormedTag s.
Proof.
  intros s H A. apply (C67_tags s H) in A as [A|A]; [left; exact A|right].
  apply Exists_exists. exists s. split; [exact A|reflexivity].
Qed.
Print Assumptions C67_tags_sound.

Example C67_example :
  List.map is_bcp_lang_string
    [#"en"; #"de-CH-1996"; #"sl-Latn-IT-nedis"; #"zh-cmn-Hans-CN"; #"de-a-value-x-private"; #"x-whatever";
     #"i-klingon"; #"e"; #"de_DE"; #"de-419-DE"; #"a-DE"; #"de-a"; #"en-"]
  = [true; true; true; true; true; true; true; false; false; false; false; false; false].
Proof. vm_compute. reflexivity. Qed.

Example C67_example_spec : WellFormedTag #"de-a-value-x-private".
Proof. apply C67_tags_sound; [vm_compute; intuition discriminate|vm_compute; reflexivity]. Qed.

(** ** C68 *)
(** Abbreviated IPv6 addresses are rejected. *)
Theorem C68_iri_refuted : exists s, IriReference s /\ is_any_uri s = false.
Proof.
  exists #"//[1:2::]". split; [|vm_compute; reflexivity].
  right. exists #"//[1:2::]", []. split; [reflexivity|]. split.
  2:{ exists [], []. split; [reflexivity|]. split; left; reflexivity. }
  left. exists #"//", #"[1:2::]". split; [reflexivity|]. split; [reflexivity|].
  exists #"[1:2::]", []. split; [reflexivity|]. split.
  2:{ exists []. repeat split; auto. }
  exists [], #"[1:2::]". split; [reflexivity|]. split; [left; reflexivity|].
  exists #"[1:2::]", []. split; [reflexivity|]. split; [|left; reflexivity].
  left. exists #"[", #"1:2::]". split; [reflexivity|]. split; [reflexivity|].
  exists #"1:2::", #"]". split; [reflexivity|]. split; [|reflexivity].
  left. unfold ipv6. do 8 right. exists #"1:2", #"::". split; [reflexivity|]. split; [|reflexivity].
  assert (H16 : forall c, HexDigit c -> h16 [c]).
  { intros c C. exists [[c]]. split; [reflexivity|]. split; [constructor; [exists c; auto|constructor]|]. simpl. lia. }
  right. exists #"1:", #"2". split; [reflexivity|]. split; [|apply H16; left; unfold Digit; vm_compute; split; discriminate].
  exists [#"1:"]. split; [reflexivity|]. split; [|simpl; lia]. constructor; [|constructor].
  exists #"1", #":". split; [reflexivity|]. split; [apply H16; left; unfold Digit; vm_compute; split; discriminate|reflexivity].
Qed.
Print Assumptions C68_iri_refuted.

(** The complete classification: IRI references whose IPv6 addresses are written out as far
    as the grammar permits, up to a line feed (C69). *)
Theorem C68_iri_exact : forall s,
  validate_xsd X_anyURI s = Val true <-> UpToLineFeed (IriReferenceWith ipv6_full) s.
Proof.
  intros s. rewrite <- any_uri_spec. change (validate_xsd X_anyURI s) with (Val (is_any_uri s)).
  split; [congruence|now intros ->].
Qed.
Print Assumptions C68_iri_exact.

(** Only IRI references are accepted. *)
Theorem C68_iri_sound : forall s, ~ In 10 s -> validate_xsd X_anyURI s = Val true -> IriReference s.
Proof.
  intros s H A. apply C68_iri_exact in A. rewrite up_to_lf_free in A by exact H.
  eapply iri_reference_mono; [apply ipv6_full_sub|exact A].
Qed.
Print Assumptions C68_iri_sound.

(** All IRI references without IPv6 addresses are accepted. *)
Theorem C68_iri_complete : forall s, IriReferenceWith (fun _ => False) s -> validate_xsd X_anyURI s = Val true.
Proof.
  intros s H. apply C68_iri_exact. left. eapply iri_reference_mono; [|exact H]. intros t [].
Qed.
Print Assumptions C68_iri_complete.

Example C68_example :
  List.map is_any_uri
    [#"http://example.com/a?b#c"; #"urn:example:a"; #""; #"../a"; #"http://[2001:db8::1]/"; #"//[1:2:3:4:5:6:7:8]";
     #"//256.1.1.1"; #"a b"; #"http://ex%zz"; [104; 116; 58; 228]; #"#"; #"::"]
  = [true; true; true; true; false; true; true; false; false; true; true; false].
Proof. vm_compute. reflexivity. Qed.

Example C68_example_spec : IriReferenceWith (fun _ => False) #"urn:x".
Proof.
  left. exists #"urn", #":x". split; [reflexivity|]. split.
  { exists #"u", #"rn". split; [reflexivity|]. split; [exists 117; split; [reflexivity|unfold Alpha; lia]|].
    exists [#"r"; #"n"]. split; [reflexivity|]. split; [|simpl; lia].
    constructor; [exists 114; split; [reflexivity|unfold AlphaNum, Alpha; lia]|].
    constructor; [exists 110; split; [reflexivity|unfold AlphaNum, Alpha; lia]|constructor]. }
  exists #":", #"x". split; [reflexivity|]. split; [reflexivity|].
  exists #"x", []. split; [reflexivity|]. split.
  2:{ exists [], []. split; [reflexivity|]. split; left; reflexivity. }
  right. right. left. exists #"x", []. split; [reflexivity|]. split.
  - exists [#"x"]. split; [reflexivity|]. split; [|simpl; lia].
    constructor; [|constructor]. left. exists 120. split; [reflexivity|]. left. left. left. unfold Alpha. lia.
  - exists []. repeat split; auto.
Qed.

(** ** C69 *)
(** A line feed after a value is accepted, among others for dates, URIs and languages. *)
Theorem C69_line_feed_refuted :
  Forall (fun p => validate_xsd (fst p) (snd p ++ [10]) = Val true)
    [(X_date, #"2024-01-01"); (X_dateTime, #"2024-01-01T00:00:00"); (X_gMonthDay, #"--01-01"); (X_anyURI, #"a");
     (X_int, #"1"); (X_decimal, #"1"); (X_hexBinary, #"00"); (X_base64Binary, #"YWJj")]
  /\ is_double (#"1" ++ [10]) = true
  /\ is_bcp_lang_string (#"en" ++ [10]) = true /\ is_version_string (#"1" ++ [10]) = true.
Proof.
  split; [|split; [float_text|split; vm_compute; reflexivity]].
  repeat (constructor; [vm_compute; reflexivity|]). constructor.
Qed.
Print Assumptions C69_line_feed_refuted.

(** For these types a value never contains a line feed. *)
Theorem C69_no_line_feed : forall t s,
  In t [X_boolean; X_gYear; X_gYearMonth; X_gMonth; X_gDay; X_time; X_duration] ->
  validate_xsd t s = Val true -> ~ In 10 s.
Proof.
  assert (D : forall ds, Forall Digit ds -> ~ In 10 ds).
  { intros ds F I. rewrite Forall_forall in F. apply F in I. unfold Digit in I. lia. }
  assert (T2 : forall x n, Two x n -> ~ In 10 x) by (intros x n (_ & F & _); auto).
  assert (L : forall (x s : str), s = x -> str_in [10] (List.map (fun c => [c]) x) = false -> ~ In 10 s).
  { intros x s -> H I. apply not_true_iff_false in H. apply H, str_in_spec, in_map_iff. eauto. }
  assert (A : forall a b : str, ~ In 10 a -> ~ In 10 b -> ~ In 10 (a ++ b)).
  { intros a b Ha Hb I. apply in_app_or in I. tauto. }
  assert (TZ : forall z, XsdTimezoneOpt z -> ~ In 10 z).
  { intros z [->|[->|(sg & hs & h & ms & m & -> & S & H & M & _)]]; [intros []|eapply L; reflexivity|].
    assert (~ In 10 sg) by (destruct S as [->| ->]; eapply L; reflexivity).
    repeat apply A; eauto; try (eapply L; reflexivity). }
  assert (Y : forall ys ds y, XsdYear ys ds y -> ~ In 10 ys).
  { intros ys ds y ([[-> _]|[-> _]] & F & _); [auto|]. apply A; [eapply L; reflexivity|auto]. }
  assert (FR : forall f, XsdFraction f -> ~ In 10 f).
  { intros f [->|(ds & -> & [_ F])]; [intros []|]. apply A; [eapply L; reflexivity|auto]. }
  assert (P : forall x s, DurPart x s -> str_in [10] (List.map (fun c => [c]) (lit x)) = false -> ~ In 10 s).
  { intros x s [->|(ds & -> & [_ F])] H; [intros []|]. apply A; [auto|eapply L; eauto]. }
  intros t s H V. cbn [In] in H. destruct H as [<-|[<-|[<-|[<-|[<-|[<-|[<-|[]]]]]]]].
  - apply C66_boolean in V as [->|[->|[->| ->]]]; eapply L; reflexivity.
  - apply C61_g_year in V as (ys & ds & y & tz & -> & V & Z). apply A; eauto.
  - apply C61_g_year_month in V as (ys & ds & y & ms & m & tz & -> & V & M & _ & Z).
    repeat apply A; eauto; try (eapply L; reflexivity).
  - apply C61_g_month in V as (ms & m & tz & -> & M & _ & Z). repeat apply A; eauto; try (eapply L; reflexivity).
  - apply C61_g_day in V as (es & d & tz & -> & M & _ & Z). repeat apply A; eauto; try (eapply L; reflexivity).
  - apply C61_time in V as (u & tz & -> & (hs & h & ms & m & ss & sec & fr & -> & HH & MM & SS & Q) & Z).
    apply A; [|auto].
    assert (F : ~ In 10 fr).
    { destruct Q as [[_ Q]|[_ [->|(ds & -> & _ & Q)]]]; [auto|intros []|]. apply A; [eapply L; reflexivity|].
      intros I. rewrite Forall_forall in Q. apply Q in I. discriminate. }
    repeat apply A; eauto; try (eapply L; reflexivity).
  - apply C62_duration in V as (sg & y & mo & d & t & -> & S & Y' & M & D' & Q & _).
    assert (T : ~ In 10 t).
    { destruct Q as [->|(h & mi & sec & -> & H & MI & SE & _)]; [intros []|].
      assert (~ In 10 sec); [|repeat apply A; auto; try (eapply L; reflexivity); eapply P; eauto].
      destruct SE as [->|(ds & fr & -> & [_ F] & R)]; [intros []|]. repeat apply A; auto; try (eapply L; reflexivity). }
    assert (~ In 10 sg) by (destruct S as [->| ->]; [intros []|eapply L; reflexivity]).
    repeat apply A; auto; try (eapply L; reflexivity); eapply P; eauto.
Qed.
Print Assumptions C69_no_line_feed.

Example C69_example : validate_xsd X_duration (#"P1D" ++ [10]) = Val false /\ validate_xsd X_duration #"P1D" = Val true.
Proof. split; vm_compute; reflexivity. Qed.

(** ** C70 *)
Theorem C70_members : length xsd_members = 30%nat /\ NoDup (List.map fst xsd_members) /\
  NoDup (List.map snd xsd_members) /\ (forall t, In t (List.map fst xsd_members)) /\
  (forall t, In t (List.map fst validators)).
Proof.
  split; [reflexivity|].
  assert (N : NoDup (List.map fst xsd_members)).
  { cbn. repeat (constructor; [cbn; intuition discriminate|]). constructor. }
  split; [exact N|]. split.
  { assert (E : forallb (fun p => (length (filter (fun q => str_eqb (snd p) (snd q)) xsd_members) =? 1)%nat) xsd_members = true)
      by (vm_compute; reflexivity).
    apply (NoDup_map_inv_str _ E). }
  split; intros t; destruct t; cbn; tauto.
Qed.
Print Assumptions C70_members.

(** Dates with a year of more than 4300 digits raise a ValueError. *)
Theorem C70_total_refuted : exists s, XsdDate s /\ validate_xsd X_date s = Raise ValueError.
Proof.
  pose proof (ones_nonzero (N.to_nat 4300)) as NZ. set (n := S (N.to_nat 4300)) in NZ.
  assert (L : N.of_nat n = 4301) by (subst n; lia). clearbody n.
  assert (X := ones_date n ltac:(lia)).
  exists (ones n ++ #"-01-01"). split.
  - exists (ones n), (numval (ones n)), 1%Z, 1%Z. split; [exact X|]. split; [exact NZ|]. split; [lia|]. left. split; [now left|lia].
  - change (validate_xsd X_date (ones n ++ #"-01-01")) with (is_xs_date (ones n ++ #"-01-01")).
    rewrite <- (app_nil_r (ones n ++ #"-01-01")). rewrite (is_xs_date_lex _ [] _ _ _ _ X) by auto.
    apply date_verdict_raise; [eapply date_lex_range; eauto|]. rewrite ones_length. split; [lia|reflexivity].
Qed.
Print Assumptions C70_total_refuted.

(** Otherwise validation always gives an answer. *)
Theorem C70_total : forall t s e, validate_xsd t s = Raise e ->
  e = ValueError /\
  ((t = X_date /\ exists ds y m d, UpToLineFeed (fun u => XsdDateLex u ds y m d) s /\ 4300 < N.of_nat (length ds)) \/
   (t = X_dateTime /\ exists ds y m d, UpToLineFeed (fun u => XsdDateTimeLex XsdTimezoneOpt u ds y m d) s /\
      4300 < N.of_nat (length ds))).
Proof.
  intros t s e H. destruct t; try (cbv [validate_xsd validators List.find fst snd xsd_eq_dec xsd_rec xsd_rect] in H; discriminate).
  - change (validate_xsd X_date s) with (is_xs_date s) in H.
    destruct (is_xs_date_cases s) as [(t & r & ds & y & m & d & E & R & L & V)|[_ V]]; [|congruence].
    rewrite V in H. apply date_verdict_raise in H as [N ->]; [|eapply date_lex_range; eauto]. split; [reflexivity|left].
    split; [reflexivity|]. exists ds, y, m, d. split; [|exact N]. subst s.
    destruct R as [->| ->]; [rewrite app_nil_r; now left|right; eauto].
  - change (validate_xsd X_dateTime s) with (is_xs_date_time s) in H.
    pose proof (date_time_cases XsdTimezoneOpt (ropt r_timezone) s zone_no_t lang_timezone_opt) as C. cbn beta zeta in C.
    destruct C as [(t & r & ds & y & m & d & E & R & L & V)|[_ V]].
    + change (is_xs_date_time s = date_verdict ds y m d) in V.
      rewrite V in H. apply date_verdict_raise in H as [N ->]; [|eapply date_time_lex_range; eauto]. split; [reflexivity|right].
      split; [reflexivity|]. exists ds, y, m, d. split; [|exact N]. subst s.
      destruct R as [->| ->]; [rewrite app_nil_r; now left|right; eauto].
    + change (is_xs_date_time s = Val false) in V. congruence.
  - change (validate_xsd X_gMonthDay s) with (is_xs_g_month_day s) in H.
    destruct (g_month_day_total s) as [b B]. congruence.
Qed.
Print Assumptions C70_total.

(** Strings need no check at all. *)
Theorem C70_string : forall s, validate_xsd X_string s = Val true.
Proof. reflexivity. Qed.
Print Assumptions C70_string.

Example C70_example :
  List.map (fun t => validate_xsd t #"1")
    [X_anyURI; X_base64Binary; X_boolean; X_byte; X_date; X_decimal; X_duration; X_gDay; X_hexBinary; X_negativeInteger; X_string; X_time]
  = List.map Val [true; false; true; true; false; true; false; false; false; false; true; false].
Proof. vm_compute. reflexivity. Qed.
