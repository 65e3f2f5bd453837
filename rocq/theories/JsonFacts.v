(** Lemmas on JSON texts: what [json.dumps] writes is decoded to the same value. *)
From Coq Require Import PeanoNat String List NArith ZArith Bool Lia.
From Verif Require Import PyStr PyStrFacts PyBase Codec HttpModel ApiModel ArgModel CliModel JsonSpec.
Import ListNotations.
Local Open Scope N_scope.
Local Open Scope list_scope.

(** ** Numbers *)
Lemma decimal_aux k : forall n acc, n < 2 ^ N.of_nat k -> fold_left (fun n c => 10 * n + (c - 48)) (dec_aux k n acc) 0 =
  fold_left (fun n c => 10 * n + (c - 48)) acc n.
Proof.
  induction k as [|k IH]; intros n acc H.
  - cbn in H. assert (n = 0) by lia. subst. reflexivity.
  - cbn [dec_aux]. destruct (n <? 10) eqn:E.
    + apply N.ltb_lt in E. cbn [fold_left]. rewrite N.mod_small by exact E. f_equal. lia.
    + apply N.ltb_ge in E. rewrite IH.
      * cbn [fold_left]. f_equal. rewrite (N.add_comm 48), N.add_sub. symmetry. now apply N.div_mod.
      * rewrite Nat2N.inj_succ, N.pow_succ_r in H by apply N.le_0_l. apply N.div_lt_upper_bound; [discriminate|]. generalize dependent (2 ^ N.of_nat k). intros. lia.
Qed.
Lemma log2_fuel n : n < 2 ^ N.of_nat (S (N.to_nat (N.log2 n))).
Proof.
  rewrite Nat2N.inj_succ, N2Nat.id. destruct (N.eq_dec n 0) as [->|H]; [reflexivity|]. apply N.log2_spec. lia.
Qed.
Lemma decimal_dec n : decimal (dec_of_N n) = n.
Proof. unfold decimal, dec_of_N. rewrite decimal_aux; [reflexivity|apply log2_fuel]. Qed.
Lemma digit_char n : is_digit (48 + n mod 10) = true.
Proof. unfold is_digit. assert (H : n mod 10 < 10) by now apply N.mod_lt. generalize dependent (n mod 10). intros m H. apply andb_true_iff. split; apply N.leb_le; lia. Qed.
Lemma dec_aux_shape k : forall n acc, n <> 0 -> n < 2 ^ N.of_nat k -> forallb is_digit acc = true ->
  exists c r, dec_aux k n acc = c :: r /\ is_digit c = true /\ c <> 48 /\ forallb is_digit r = true.
Proof.
  induction k as [|k IH]; intros n acc Z H A.
  - cbn in H. lia.
  - cbn [dec_aux]. destruct (n <? 10) eqn:E.
    + apply N.ltb_lt in E. exists (48 + n mod 10), acc. repeat split; [apply digit_char|rewrite N.mod_small by exact E; lia|exact A].
    + apply N.ltb_ge in E. apply IH.
      * intros D. apply N.div_small_iff in D; lia.
      * rewrite Nat2N.inj_succ, N.pow_succ_r in H by apply N.le_0_l. apply N.div_lt_upper_bound; [discriminate|]. generalize dependent (2 ^ N.of_nat k). intros. lia.
      * cbn [forallb]. now rewrite digit_char.
Qed.
Lemma natural_dec n : natural (dec_of_N n) = true /\ forallb is_digit (dec_of_N n) = true /\ dec_of_N n <> [].
Proof.
  destruct (N.eq_dec n 0) as [->|Z]; [repeat split; discriminate|].
  destruct (dec_aux_shape (S (N.to_nat (N.log2 n))) n [] Z (log2_fuel n) eq_refl) as (c & r & E & D & C & R).
  unfold dec_of_N. rewrite E. split; [|split; [cbn [forallb]; now rewrite D|discriminate]].
  unfold natural. destruct r as [|d r]; [exact D|]. rewrite D, R. apply N.eqb_neq in C. now rewrite C.
Qed.
Lemma digit_in_number c : is_digit c = true -> in_number c = true.
Proof. unfold in_number. now intros ->. Qed.
Lemma digits_in_number s : forallb is_digit s = true -> forallb in_number s = true.
Proof. rewrite !forallb_forall. intros H x I. now apply digit_in_number, H. Qed.
Lemma digit_not_minus c : is_digit c = true -> c =? 45 = false.
Proof. unfold is_digit. rewrite andb_true_iff, !N.leb_le. intros H. apply N.eqb_neq. lia. Qed.
Lemma unsigned_digits s : forallb is_digit s = true -> unsigned s = (false, s).
Proof. destruct s as [|c r]; [reflexivity|]. cbn [forallb unsigned]. intros H. apply andb_true_iff in H. now rewrite digit_not_minus. Qed.
Lemma number_Z z : number (str_of_Z z) = Some (JInt z) /\ forallb in_number (str_of_Z z) = true /\
  exists c r, str_of_Z z = c :: r /\ existsb (N.eqb c) [34; 91; 123; 116; 102; 110; 32; 9; 10; 13] = false.
Proof.
  assert (U : forall n, exists c r, dec_of_N n = c :: r /\ existsb (N.eqb c) [34; 91; 123; 116; 102; 110; 32; 9; 10; 13] = false).
  { intros n. destruct (natural_dec n) as (_ & D & E). destruct (dec_of_N n) as [|c r]; [congruence|]. exists c, r. split; [reflexivity|].
    cbn [forallb] in D. apply andb_true_iff in D. destruct D as (D & _). unfold is_digit in D. rewrite andb_true_iff, !N.leb_le in D.
    cbn [existsb]. rewrite !orb_false_iff, !N.eqb_neq. lia. }
  destruct z as [|p|p].
  - repeat split. exists 48, []. split; reflexivity.
  - cbn [str_of_Z]. destruct (natural_dec (N.pos p)) as (A & B & C). unfold number. rewrite (unsigned_digits _ B), A, decimal_dec.
    repeat split; [now apply digits_in_number|apply U].
  - cbn [str_of_Z]. destruct (natural_dec (N.pos p)) as (A & B & C). unfold number. cbn [lit]. change (lit "-") with [45]. cbn [app unsigned].
    replace (45 =? 45) with true by reflexivity. rewrite A, decimal_dec. repeat split; [|].
    + cbn [forallb]. now rewrite digits_in_number.
    + exists 45, (dec_of_N (N.pos p)). split; reflexivity.
Qed.
Lemma span_all f s rest : forallb f s = true -> (forall c r, rest = c :: r -> f c = false) -> span f (s ++ rest) = (s, rest).
Proof.
  intros H R. induction s as [|c s IH].
  - destruct rest as [|c r]; [reflexivity|]. cbn [app span]. now rewrite (R c r eq_refl).
  - cbn [forallb] in H. apply andb_true_iff in H. destruct H as (A & B). cbn [app span]. now rewrite A, IH.
Qed.
Lemma span_split f s : s = fst (span f s) ++ snd (span f s) /\ forallb f (fst (span f s)) = true.
Proof.
  induction s as [|c s (IH & F)]; [split; reflexivity|]. cbn [span]. destruct (f c) eqn:E; [|split; reflexivity].
  destruct (span f s) as [a b]. cbn [fst snd app forallb] in *. rewrite E, F. split; [now rewrite <- IH|reflexivity].
Qed.
Lemma natural_digits s : natural s = true -> forallb is_digit s = true.
Proof.
  destruct s as [|c [|d r]]; cbn [natural forallb]; [discriminate|now intros ->|].
  intros H. apply andb_true_iff in H. destruct H as (H & R). apply andb_true_iff in H. destruct H as (-> & _). exact R.
Qed.
Lemma digits_all s : digits s = true -> forallb is_digit s = true.
Proof. destruct s; [discriminate|trivial]. Qed.
Lemma fractional_shape s : fractional s = true -> forallb in_number s = true /\ natural (snd (unsigned s)) = false /\ s <> [] /\
  exists c r, s = c :: r /\ existsb (N.eqb c) [34; 91; 123; 116; 102; 110; 32; 9; 10; 13] = false.
Proof.
  unfold fractional. destruct (unsigned s) as [neg t] eqn:U. destruct (span is_digit t) as [i u] eqn:S.
  intros H. apply andb_true_iff in H. destruct H as (Ni & H).
  assert (Ht : t = i ++ u) by (pose proof (proj1 (span_split is_digit t)) as X; now rewrite S in X).
  assert (Hs : s = (if neg then [45] else []) ++ t).
  { destruct s as [|c r]; cbn [unsigned] in U; [injection U as <- <-; reflexivity|].
    destruct (c =? 45) eqn:E; injection U as <- <-; [|reflexivity]. apply N.eqb_eq in E. now subst. }
  assert (Di := natural_digits i Ni).
  assert (Hu : forallb in_number u = true /\ exists c r, u = c :: r /\ is_digit c = false).
  { destruct u as [|c r]; [discriminate|].
    assert (EXP : forall s, (match s with
       | c :: r => ((c =? 69) || (c =? 101)) && digits (match r with d :: r' => if (d =? 43) || (d =? 45) then r' else r | [] => [] end)
       | [] => false end) = true -> forallb in_number s = true).
    { intros [|x y]; [discriminate|]. intros E. apply andb_true_iff in E. destruct E as (X & Y). cbn [forallb]. apply andb_true_iff. split.
      - unfold in_number. cbn [existsb]. apply orb_true_iff in X. destruct X as [X|X]; rewrite X; rewrite !orb_true_r; reflexivity.
      - destruct y as [|d y]; [discriminate|]. destruct ((d =? 43) || (d =? 45)) eqn:Sg.
        + cbn [forallb]. rewrite (digits_in_number y) by now apply digits_all. unfold in_number. cbn [existsb].
          apply orb_true_iff in Sg. destruct Sg as [Sg|Sg]; rewrite Sg; rewrite ?orb_true_r; reflexivity.
        + now apply digits_in_number, digits_all. }
    split.
    - destruct (c =? 46) eqn:Dot.
      + destruct (span is_digit r) as [f r'] eqn:S'. apply andb_true_iff in H. destruct H as (F & H).
        assert (Hr : r = f ++ r') by (pose proof (proj1 (span_split is_digit r)) as X; now rewrite S' in X).
        cbn [forallb]. rewrite Hr, forallb_app, (digits_in_number f) by now apply digits_all.
        replace (in_number c) with true by (unfold in_number; cbn [existsb]; rewrite Dot, !orb_true_r; reflexivity).
        destruct r' as [|x y]; [reflexivity|]. cbn [andb]. now apply EXP.
      + now apply EXP.
    - exists c, r. split; [reflexivity|]. apply not_true_is_false. intros D. unfold is_digit in D. rewrite andb_true_iff, !N.leb_le in D.
      destruct (c =? 46) eqn:Dot; [apply N.eqb_eq in Dot; lia|]. apply andb_true_iff in H. destruct H as (H & _).
      apply orb_true_iff in H. rewrite !N.eqb_eq in H. lia. }
  destruct Hu as (Nu & c & r & Eu & Ec).
  assert (Nt : forallb in_number t = true) by (rewrite Ht, forallb_app, (digits_in_number i Di); exact Nu).
  repeat split.
  - rewrite Hs, forallb_app, Nt. destruct neg; reflexivity.
  - cbn [snd]. apply not_true_is_false. intros X. apply natural_digits in X. rewrite Ht, forallb_app, Eu in X. cbn [forallb] in X.
    rewrite Ec, andb_false_r in X. cbn in X. now rewrite ?andb_false_r in X.
  - rewrite Hs, Ht, Eu. destruct neg, i; discriminate.
  - rewrite Hs, Ht. destruct neg; [eexists _, _; split; reflexivity|]. destruct i as [|x y]; [discriminate|]. exists x, (y ++ u). split; [reflexivity|].
    cbn [forallb] in Di. apply andb_true_iff in Di. destruct Di as (D & _). unfold is_digit in D. rewrite andb_true_iff, !N.leb_le in D.
    cbn [existsb]. rewrite !orb_false_iff, !N.eqb_neq. lia.
Qed.

(** ** Texts *)
Lemma hex_digit_value n : n < 16 -> hex_value (hex_digit n) = Some n.
Proof.
  intros H. unfold hex_digit, hex_value. destruct (n <? 10) eqn:E.
  - apply N.ltb_lt in E. replace (48 <=? 48 + n) with true by (symmetry; apply N.leb_le; lia).
    replace (48 + n <=? 57) with true by (symmetry; apply N.leb_le; lia). cbn [andb]. f_equal. lia.
  - apply N.ltb_ge in E. replace (87 + n <=? 57) with false by (symmetry; apply N.leb_gt; lia). rewrite andb_false_r.
    replace (97 <=? 87 + n) with true by (symmetry; apply N.leb_le; lia).
    replace (87 + n <=? 102) with true by (symmetry; apply N.leb_le; lia). cbn [andb]. f_equal. lia.
Qed.
Lemma code_unit_hex4 n r : n < 65536 -> code_unit (hex4 n ++ r) = Some (n, r).
Proof.
  intros H. unfold hex4. cbn [List.map app code_unit]. rewrite !hex_digit_value by now apply N.mod_lt. f_equal. f_equal.
  rewrite (N.mod_small (n / 4096)) by (apply N.div_lt_upper_bound; lia).
  pose proof (N.div_mod n 16 ltac:(discriminate)) as A.
  pose proof (N.div_mod (n / 16) 16 ltac:(discriminate)) as B. rewrite N.div_div in B by discriminate.
  pose proof (N.div_mod (n / 256) 16 ltac:(discriminate)) as C. rewrite N.div_div in C by discriminate.
  change (16 * 16) with 256 in B. change (256 * 16) with 4096 in C.
  generalize dependent (n / 4096). generalize dependent ((n / 256) mod 16). generalize dependent (n / 256).
  generalize dependent ((n / 16) mod 16). generalize dependent (n / 16). generalize dependent (n mod 16). intros. lia.
Qed.
(** the characters that are written as four hexadecimal digits *)
Definition short_escape (c : N) : bool := existsb (N.eqb c) [34; 92; 10; 13; 9; 12; 8].
Lemma json_char_cases c : c < 1114112 ->
  (short_escape c = true /\ exists e, json_char c = [92; e] /\ e <> 117 /\ escaped e = Some c) \/
  (32 <= c <= 126 /\ c <> 34 /\ c <> 92 /\ json_char c = [c]) \/
  (c < 65536 /\ json_char c = 92 :: 117 :: hex4 c) \/
  (65536 <= c /\ exists u v, json_char c = (92 :: 117 :: hex4 u) ++ 92 :: 117 :: hex4 v /\ high_surrogate u = true /\ low_surrogate v = true /\
     u < 65536 /\ v < 65536 /\ pair_value u v = c).
Proof.
  intros H. unfold json_char, short_escape. cbn [existsb].
  destruct (N.eqb_spec c 34) as [->|N34]; [left; split; [reflexivity|]; eexists; repeat split; discriminate|].
  destruct (N.eqb_spec c 92) as [->|N92]; [left; split; [reflexivity|]; eexists; repeat split; discriminate|].
  destruct (N.eqb_spec c 10) as [->|N10]; [left; split; [reflexivity|]; eexists; repeat split; discriminate|].
  destruct (N.eqb_spec c 13) as [->|N13]; [left; split; [reflexivity|]; eexists; repeat split; discriminate|].
  destruct (N.eqb_spec c 9) as [->|N9]; [left; split; [reflexivity|]; eexists; repeat split; discriminate|].
  destruct (N.eqb_spec c 12) as [->|N12]; [left; split; [reflexivity|]; eexists; repeat split; discriminate|].
  destruct (N.eqb_spec c 8) as [->|N8]; [left; split; [reflexivity|]; eexists; repeat split; discriminate|].
  right. destruct ((32 <=? c) && (c <=? 126)) eqn:E; [left; apply andb_true_iff in E; rewrite !N.leb_le in E; tauto|]. right.
  destruct (c <? 65536) eqn:L; [left; apply N.ltb_lt in L; tauto|]. right. apply N.ltb_ge in L. split; [exact L|].
  pose proof (N.div_mod (c - 65536) 1024 ltac:(discriminate)) as D. pose proof (N.mod_lt (c - 65536) 1024 ltac:(discriminate)) as M.
  assert (Q : (c - 65536) / 1024 < 1024) by (apply N.div_lt_upper_bound; lia).
  eexists _, _. split; [reflexivity|]. unfold high_surrogate, low_surrogate, pair_value. rewrite !andb_true_iff, !N.leb_le.
  generalize dependent ((c - 65536) / 1024). generalize dependent ((c - 65536) mod 1024). intros. repeat split; lia.
Qed.

(** where the decoding of an escape sequence with four digits ends *)
Lemma escape_alone u s : u < 65536 -> (high_surrogate u = true -> forall r, s <> 92 :: 117 :: r) -> unicode_escape (hex4 u ++ s) = Some (u, s).
Proof.
  intros L H. unfold unicode_escape. rewrite code_unit_hex4 by exact L. destruct (high_surrogate u); [|reflexivity]. specialize (H eq_refl).
  destruct s as [|b [|x r]]; try reflexivity. destruct ((b =? 92) && (x =? 117)) eqn:E; [|reflexivity].
  apply andb_true_iff in E. rewrite !N.eqb_eq in E. destruct E as (-> & ->). now elim (H r).
Qed.
Lemma escape_two u v s : u < 65536 -> v < 65536 -> high_surrogate u = true ->
  unicode_escape (hex4 u ++ 92 :: 117 :: hex4 v ++ s) =
  Some (if low_surrogate v then (pair_value u v, s) else (u, 92 :: 117 :: hex4 v ++ s)).
Proof.
  intros L M H. unfold unicode_escape. rewrite code_unit_hex4, H by exact L.
  replace ((92 =? 92) && (117 =? 117)) with true by reflexivity. rewrite code_unit_hex4 by exact M. destruct (low_surrogate v); reflexivity.
Qed.
Lemma not_both u : high_surrogate u = true -> low_surrogate u = false.
Proof. unfold high_surrogate, low_surrogate. rewrite andb_true_iff, andb_false_iff, !N.leb_le, !N.leb_gt. lia. Qed.
Lemma low_char v : low_surrogate v = true -> v < 65536 /\ json_char v = 92 :: 117 :: hex4 v.
Proof.
  unfold low_surrogate. rewrite andb_true_iff, !N.leb_le. intros H. destruct (json_char_cases v) as [(A & _)|[(A & _)|[A|(A & _)]]]; try lia; [|exact A].
  unfold short_escape in A. cbn [existsb] in A. rewrite !orb_true_iff, !N.eqb_eq in A. lia.
Qed.
Lemma small_not_high c : c < 256 \/ 65536 <= c -> high_surrogate c = false.
Proof. unfold high_surrogate. rewrite andb_false_iff, !N.leb_gt. lia. Qed.
Lemma short_small c : short_escape c = true -> c < 256.
Proof. unfold short_escape. cbn [existsb]. rewrite !orb_true_iff, !N.eqb_eq. lia. Qed.
(** an escaped surrogate followed by an escaped text *)
Lemma escape_high u s rest : u < 65536 -> high_surrogate u = true -> Forall code_point s ->
  unicode_escape (hex4 u ++ flat_map json_char s ++ 34 :: rest) =
  Some (match s with
        | v :: s' => if low_surrogate v then (pair_value u v, flat_map json_char s' ++ 34 :: rest) else (u, flat_map json_char s ++ 34 :: rest)
        | [] => (u, 34 :: rest)
        end).
Proof.
  intros L H F. destruct s as [|v s].
  - apply escape_alone; [exact L|]. intros _ r. discriminate.
  - cbn [flat_map]. rewrite <- app_assoc. pose proof (Forall_inv F) as Cv. unfold code_point in Cv.
    destruct (low_surrogate v) eqn:Lv.
    + destruct (low_char v Lv) as (B & ->). cbn [app]. rewrite escape_two by assumption. now rewrite Lv.
    + destruct (json_char_cases v Cv) as [(_ & e & -> & N & _)|[(R & _ & N & ->)|[(B & ->)|(_ & a & b & -> & Ha & Hb & La & Lb & _)]]].
      * cbn [app]. apply escape_alone; [exact L|]. intros _ r E. congruence.
      * cbn [app]. apply escape_alone; [exact L|]. intros _ r E. congruence.
      * cbn [app]. rewrite escape_two by assumption. now rewrite Lv.
      * rewrite <- app_assoc. cbn [app]. rewrite escape_two by assumption. now rewrite (not_both a Ha).
Qed.

Lemma text_body_text : forall k s rest n, (List.length s <= k)%nat -> (List.length s < n)%nat -> Forall code_point s ->
  text_body n (flat_map json_char s ++ 34 :: rest) = Some (joined s, rest).
Proof.
  induction k as [|k IH]; intros s rest n K Hn F.
  - destruct s; [|cbn in K; lia]. destruct n; [lia|]. reflexivity.
  - destruct s as [|c s]; [destruct n; [lia|reflexivity]|].
    destruct n as [|n]; [lia|]. cbn [List.length] in K, Hn. pose proof (Forall_inv F) as C. pose proof (Forall_inv_tail F) as F'.
    assert (ONE : text_body n (flat_map json_char s ++ 34 :: rest) = Some (joined s, rest)) by (apply IH; [lia|lia|exact F']).
    assert (J : high_surrogate c = false -> joined (c :: s) = c :: joined s) by (intros X; destruct s; cbn [joined]; [reflexivity|now rewrite X]).
    cbn [flat_map]. rewrite <- app_assoc.
    destruct (json_char_cases c C) as [(Sm & e & -> & N & E)|[(R & N34 & N92 & ->)|[(B & ->)|(B & u & v & -> & Hu & Hv & Lu & Lv & P)]]].
    + cbn [app text_body]. replace (92 =? 34) with false by reflexivity. replace (92 =? 92) with true by reflexivity.
      replace (e =? 117) with false by (symmetry; now apply N.eqb_neq). rewrite E, ONE, J; [reflexivity|].
      apply small_not_high. left. now apply short_small.
    + cbn [app text_body]. replace (c =? 34) with false by (symmetry; now apply N.eqb_neq). replace (c =? 92) with false by (symmetry; now apply N.eqb_neq).
      replace (c <? 32) with false by (symmetry; apply N.ltb_ge; lia). rewrite ONE, J; [reflexivity|]. apply small_not_high. lia.
    + cbn [app text_body]. replace (92 =? 34) with false by reflexivity. replace (92 =? 92) with true by reflexivity.
      replace (117 =? 117) with true by reflexivity.
      destruct (high_surrogate c) eqn:Hc.
      * rewrite escape_high by assumption. destruct s as [|v s].
        -- cbn [flat_map app] in ONE. rewrite ONE. reflexivity.
        -- cbn [joined]. rewrite Hc. cbn [andb]. destruct (low_surrogate v).
           ++ rewrite IH; [reflexivity|cbn in K; lia|cbn in Hn; lia|exact (Forall_inv_tail F')].
           ++ rewrite ONE. reflexivity.
      * rewrite escape_alone by (congruence || assumption). rewrite ONE, J by reflexivity. reflexivity.
    + rewrite <- app_assoc. cbn [app text_body]. replace (92 =? 34) with false by reflexivity. replace (92 =? 92) with true by reflexivity.
      replace (117 =? 117) with true by reflexivity. rewrite escape_two, Hv, P by assumption. rewrite ONE, J; [reflexivity|]. apply small_not_high. lia.
Qed.
Lemma json_char_length c : (1 <= List.length (json_char c))%nat.
Proof.
  unfold json_char. repeat match goal with |- context [if ?b then _ else _] => destruct b end; cbn; try rewrite ?app_length; cbn; lia.
Qed.
Lemma text_length s : (List.length s <= List.length (flat_map json_char s))%nat.
Proof. induction s as [|c s IH]; [cbn; lia|]. cbn [flat_map List.length]. rewrite app_length. pose proof (json_char_length c). lia. Qed.
Lemma text_value s rest n : Forall code_point s -> (0 < n)%nat -> value n (json_text s ++ rest) = Some (JStr (joined s), rest).
Proof.
  intros F L. destruct n as [|n]; [lia|]. unfold json_text. rewrite <- !app_assoc. cbn [app value skip_blanks].
  replace (blank 34) with false by reflexivity. replace (34 =? 34) with true by reflexivity.
  rewrite text_body_text with (k := List.length s); [reflexivity|lia| |exact F].
  rewrite app_length. pose proof (text_length s). lia.
Qed.

(** ** Values *)
Definition Stops (rest : str) : Prop := forall c r, rest = c :: r -> in_number c = false.
Lemma value_blank n c s : blank c = true -> value n (c :: s) = value n s.
Proof. intros B. destruct n; [reflexivity|]. cbn [value skip_blanks]. now rewrite B. Qed.
Lemma items_blank n c s : blank c = true -> items n (c :: s) = items n s.
Proof. intros B. destruct n; [reflexivity|]. cbn [items]. now rewrite value_blank. Qed.
Lemma members_blank n c s : blank c = true -> members n (c :: s) = members n s.
Proof. intros B. destruct n; [reflexivity|]. cbn [members]. now rewrite value_blank. Qed.

Lemma number_value t v rest n : number t = Some v -> forallb in_number t = true ->
  (exists c r, t = c :: r /\ existsb (N.eqb c) [34; 91; 123; 116; 102; 110; 32; 9; 10; 13] = false) -> Stops rest -> (0 < n)%nat ->
  value n (t ++ rest) = Some (v, rest).
Proof.
  intros E F (c & r & -> & X) S L. destruct n as [|n]; [lia|]. cbn [app value skip_blanks].
  cbn [existsb] in X. rewrite !orb_false_iff in X. destruct X as (X1 & X2 & X3 & X4 & X5 & X6 & X7 & X8 & X9 & X10 & _).
  unfold blank. cbn [existsb]. rewrite X7, X8, X9, X10. cbn [orb]. rewrite X1, X2, X3, X4, X5, X6.
  change (c :: r ++ rest) with ((c :: r) ++ rest). rewrite (span_all in_number (c :: r) rest F S). now rewrite E.
Qed.
Lemma first_char j : Writable j -> exists c r, json_dumps j = c :: r /\ blank c = false /\ c <> 93 /\ c <> 125.
Proof.
  intros W. destruct j as [|b|z|t|s|l|kvs].
  - eexists _, _. repeat split; discriminate.
  - destruct b; eexists _, _; repeat split; discriminate.
  - destruct (number_Z z) as (_ & F & c & r & E & X). exists c, r. cbn [json_dumps]. split; [exact E|].
    rewrite E in F. cbn [forallb] in F. apply andb_true_iff in F. destruct F as (F & _).
    cbn [existsb] in X. rewrite !orb_false_iff in X. unfold blank. cbn [existsb]. rewrite !orb_false_iff. repeat split; try tauto;
    intros ->; discriminate.
  - inversion W as [| | |? Fr| | |]; subst. destruct (fractional_shape t Fr) as (F & _ & _ & c & r & E & X). exists c, r. cbn [json_dumps]. split; [exact E|].
    rewrite E in F. cbn [forallb] in F. apply andb_true_iff in F. destruct F as (F & _).
    cbn [existsb] in X. rewrite !orb_false_iff in X. unfold blank. cbn [existsb]. rewrite !orb_false_iff. repeat split; try tauto;
    intros ->; discriminate.
  - eexists _, _. repeat split; discriminate.
  - eexists _, _. repeat split; discriminate.
  - eexists _, _. repeat split; discriminate.
Qed.
Definition Decodes (j : json) : Prop := forall n rest, (2 * List.length (json_dumps j) < n)%nat -> Stops rest ->
  value n (json_dumps j ++ rest) = Some (joined_value j, rest).
Lemma stops_char c rest : in_number c = false -> Stops (c :: rest).
Proof. intros H x r E. injection E as <- <-. exact H. Qed.
Lemma items_join l : l <> [] -> Forall Decodes l -> forall n rest, (2 * List.length (join (lit ", ") (List.map json_dumps l)) + 1 < n)%nat ->
  items n (join (lit ", ") (List.map json_dumps l) ++ 93 :: rest) = Some (List.map joined_value l, rest).
Proof.
  induction l as [|x l IH]; [congruence|]. intros _ F n rest L. pose proof (Forall_inv F) as D. pose proof (Forall_inv_tail F) as F'.
  destruct n as [|n]; [lia|]. destruct l as [|y l].
  - cbn [List.map join] in *. cbn [items]. rewrite D; [|lia|now apply stops_char]. reflexivity.
  - cbn [List.map]. rewrite join_cons2. cbn [List.map] in L. rewrite join_cons2, !app_length in L. change (List.length (lit ", ")) with 2%nat in L.
    change (json_dumps y :: List.map json_dumps l) with (List.map json_dumps (y :: l)) in *.
    rewrite <- !app_assoc. change (lit ", ") with [44; 32] at 1. cbn [app items].
    rewrite D; [|lia|now apply stops_char]. cbn [skip_blanks]. replace (blank 44) with false by reflexivity.
    replace (44 =? 93) with false by reflexivity. replace (44 =? 44) with true by reflexivity.
    rewrite items_blank by reflexivity. rewrite IH; [reflexivity|discriminate|exact F'|lia].
Qed.
Definition member_text (kv : str * json) : str := json_text (fst kv) ++ lit ": " ++ json_dumps (snd kv).
Lemma members_join l : l <> [] -> Forall (fun kv => Forall code_point (fst kv) /\ Decodes (snd kv)) l ->
  forall n rest, (2 * List.length (join (lit ", ") (List.map member_text l)) + 1 < n)%nat ->
  members n (join (lit ", ") (List.map member_text l) ++ 125 :: rest) = Some (List.map (fun kv => (joined (fst kv), joined_value (snd kv))) l, rest).
Proof.
  assert (ONE : forall kv n rest, Forall code_point (fst kv) -> Decodes (snd kv) -> (2 * List.length (member_text kv) + 1 < S n)%nat -> Stops rest ->
    members (S n) (member_text kv ++ rest) =
    match skip_blanks rest with
    | c :: r => if c =? 125 then Some ([(joined (fst kv), joined_value (snd kv))], r)
                else if c =? 44 then match members n r with Some (l, r) => Some ((joined (fst kv), joined_value (snd kv)) :: l, r) | None => None end
                else None
    | [] => None
    end).
  { intros (k & v) n rest K D L S. unfold member_text in *. cbn [fst snd] in *. rewrite !app_length in L. change (List.length (lit ": ")) with 2%nat in L.
    rewrite <- !app_assoc. change (lit ": ") with [58; 32]. cbn [app members]. rewrite text_value; [|exact K|lia]. cbn [skip_blanks].
    replace (blank 58) with false by reflexivity. replace (58 =? 58) with true by reflexivity. rewrite value_blank by reflexivity.
    rewrite D; [reflexivity|lia|exact S]. }
  induction l as [|x l IH]; [congruence|]. intros _ F n rest L. destruct (Forall_inv F) as (K & D). pose proof (Forall_inv_tail F) as F'.
  destruct n as [|n]; [lia|]. destruct l as [|y l].
  - cbn [List.map join] in *. rewrite ONE; [reflexivity|exact K|exact D|lia|now apply stops_char].
  - cbn [List.map]. rewrite join_cons2. cbn [List.map] in L. rewrite join_cons2, !app_length in L. change (List.length (lit ", ")) with 2%nat in L.
    change (member_text y :: List.map member_text l) with (List.map member_text (y :: l)) in *.
    rewrite <- !app_assoc. change (lit ", ") with [44; 32] at 1. cbn [app].
    rewrite ONE; [|exact K|exact D|lia|now apply stops_char]. cbn [skip_blanks]. replace (blank 44) with false by reflexivity.
    replace (44 =? 125) with false by reflexivity. replace (44 =? 44) with true by reflexivity.
    rewrite members_blank by reflexivity. rewrite IH; [reflexivity|discriminate|exact F'|lia].
Qed.
Lemma join_head sep x l c r : x = c :: r -> exists r', join sep (x :: l) = c :: r'.
Proof. intros ->. destruct l; cbn [join app]; eexists; reflexivity. Qed.
Theorem dumps_decodes : forall j, Writable j -> Decodes j.
Proof.
  induction j as [|b|z|t|s|l IH|kvs IH] using json_ind'; intros W n rest L S.
  - destruct n; [lia|]. reflexivity.
  - destruct n; [lia|]. destruct b; reflexivity.
  - destruct (number_Z z) as (E & F & X). cbn [json_dumps joined_value]. apply number_value; [exact E|exact F|exact X|exact S|lia].
  - inversion W as [| | |? Fr| | |]; subst. destruct (fractional_shape t Fr) as (F & N & _ & X). cbn [json_dumps joined_value].
    apply number_value; [|exact F|exact X|exact S|lia]. unfold number. destruct (unsigned t) as [neg d] eqn:U. cbn [snd] in N. now rewrite N, Fr.
  - inversion W; subst. cbn [json_dumps joined_value]. apply text_value; [assumption|lia].
  - inversion W as [| | | | |? FW|]; subst.
    assert (FD : Forall Decodes l) by (rewrite Forall_forall in *; intros x I; apply IH; [exact I|apply FW, I]).
    cbn [json_dumps joined_value] in *. destruct n as [|n]; [lia|]. change (lit "[") with [91] in *. change (lit "]") with [93] in *. rewrite <- !app_assoc.
    rewrite !app_length in L. cbn [List.length] in L.
    cbn [app value skip_blanks]. replace (blank 91) with false by reflexivity. replace (91 =? 34) with false by reflexivity.
    replace (91 =? 91) with true by reflexivity. destruct l as [|x l].
    + cbn [List.map join app skip_blanks]. reflexivity.
    + destruct (first_char x (Forall_inv FW)) as (c & r & E & B & N1 & N2).
      destruct (join_head (lit ", ") (json_dumps x) (List.map json_dumps l) c r E) as (r' & J).
      pose proof (items_join (x :: l) ltac:(discriminate) FD n rest) as I. change (join (lit ", ") (List.map json_dumps (x :: l)) = c :: r') in J.
      rewrite J in L, I |- *. cbn [app] in *.
      assert (SB : skip_blanks (c :: r' ++ 93 :: rest) = c :: r' ++ 93 :: rest) by (cbn [skip_blanks]; now rewrite B). rewrite SB.
      replace (c =? 93) with false by (symmetry; now apply N.eqb_neq). rewrite I; [reflexivity|]. cbn [List.length] in *. lia.
  - inversion W as [| | | | | |? FW]; subst.
    assert (FD : Forall (fun kv => Forall code_point (fst kv) /\ Decodes (snd kv)) kvs).
    { rewrite Forall_forall in *. intros kv I. destruct (FW kv I) as (K & V). split; [exact K|]. now apply IH. }
    cbn [json_dumps joined_value] in *. fold (member_text) in *. change (fun kv : str * json => json_text (fst kv) ++ lit ": " ++ json_dumps (snd kv)) with member_text in *.
    destruct n as [|n]; [lia|]. change (lit "{") with [123] in *. change (lit "}") with [125] in *. rewrite <- !app_assoc.
    rewrite !app_length in L. cbn [List.length] in L.
    cbn [app value skip_blanks]. replace (blank 123) with false by reflexivity. replace (123 =? 34) with false by reflexivity.
    replace (123 =? 91) with false by reflexivity. replace (123 =? 123) with true by reflexivity. destruct kvs as [|x l].
    + cbn [List.map join app skip_blanks]. reflexivity.
    + assert (E : member_text x = 34 :: (flat_map json_char (fst x) ++ [34]) ++ lit ": " ++ json_dumps (snd x)) by reflexivity.
      destruct (join_head (lit ", ") (member_text x) (List.map member_text l) _ _ E) as (r' & J).
      pose proof (members_join (x :: l) ltac:(discriminate) FD n rest) as I.
      match goal with |- context [join ?a ?b] => change (join a b = 34 :: r') in J end. rewrite J.
      match type of L with context [join ?a ?b] => change (join a b = 34 :: r') in J end. rewrite J in L.
      match type of I with context [join ?a ?b] => change (join a b = 34 :: r') in J end. rewrite J in I. cbn [app] in *.
      assert (SB : skip_blanks (34 :: r' ++ 125 :: rest) = 34 :: r' ++ 125 :: rest) by reflexivity. rewrite SB.
      replace (34 =? 125) with false by reflexivity. rewrite I; [reflexivity|]. cbn [List.length] in *. lia.
Qed.
Theorem decode_dumps j : Writable j -> decode (json_dumps j) = Some (joined_value j).
Proof.
  intros W. unfold decode. pose proof (dumps_decodes j W (2 * List.length (json_dumps j) + 2)%nat []) as D. rewrite app_nil_r in D.
  rewrite D; [reflexivity|lia|]. intros c r E. discriminate.
Qed.

(** ** Texts without surrogates that belong together *)
Lemma joined_cons2 u v s : joined (u :: v :: s) = if high_surrogate u && low_surrogate v then pair_value u v :: joined s else u :: joined (v :: s).
Proof. reflexivity. Qed.
Lemma joined_length : forall k s, (List.length s <= k)%nat -> (List.length (joined s) <= List.length s)%nat.
Proof.
  induction k as [|k IH]; intros s K; [destruct s; [cbn; lia|cbn in K; lia]|].
  destruct s as [|u [|v s]]; [cbn; lia|cbn; lia|]. cbn [List.length] in K. rewrite joined_cons2. destruct (high_surrogate u && low_surrogate v).
  - cbn [List.length]. specialize (IH s). lia.
  - specialize (IH (v :: s)). cbn [List.length] in *. lia.
Qed.
Lemma joined_fix s : joined s = s <-> Unpaired s.
Proof.
  split.
  - intros E a u v b ->. revert E. induction a as [|c a IH]; cbn [app]; intros E.
    + destruct (high_surrogate u && low_surrogate v) eqn:P; [|reflexivity]. rewrite joined_cons2, P in E.
      apply (f_equal (@List.length N)) in E. cbn [List.length] in E. pose proof (joined_length _ b (le_n _)). lia.
    + apply IH. destruct (a ++ u :: v :: b) as [|d r] eqn:R; [destruct a; discriminate|]. rewrite joined_cons2 in E. destruct (high_surrogate c && low_surrogate d).
      * apply (f_equal (@List.length N)) in E. cbn [List.length] in E. pose proof (joined_length _ r (le_n _)). lia.
      * now injection E.
  - induction s as [|u s IH]; intros U; [reflexivity|]. destruct s as [|v s]; [reflexivity|]. rewrite joined_cons2.
    rewrite (U [] u v s eq_refl). f_equal. apply IH. intros a x y b E. apply (U (u :: a) x y b). now rewrite E.
Qed.
