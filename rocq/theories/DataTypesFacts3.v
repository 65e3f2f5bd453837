(** Lemmas about integers, floating point numbers and binary data. *)
From Coq Require Import String List NArith ZArith Znumtheory Bool Lia ZifyN.
From Verif Require Import PyStr PyStrFacts PyBase Regex DataTypesModel DataTypesSpec DataTypesFacts.
Import ListNotations.
Local Open Scope N_scope.

(** ** What [int] accepts *)
Lemma find_spec (p : N -> bool) l z : List.find p l = Some z -> In z l /\ p z = true.
Proof. apply find_some. Qed.

Definition digit_list : list N := [0; 1; 2; 3; 4; 5; 6; 7; 8; 9].

Lemma digit_list_spec d : d <= 9 -> In d digit_list.
Proof.
  intros H. assert (d = 0 \/ d = 1 \/ d = 2 \/ d = 3 \/ d = 4 \/ d = 5 \/ d = 6 \/ d = 7 \/ d = 8 \/ d = 9) by lia.
  unfold digit_list. simpl. intuition.
Qed.

Lemma table_check :
  forallb (fun z => forallb (fun d => to_ascii (z + d) =? 48 + d) digit_list) decimal_zeros = true.
Proof. vm_compute. reflexivity. Qed.

Lemma to_ascii_digit c d : UnicodeDigit c d -> to_ascii c = 48 + d.
Proof.
  intros (z & I & -> & D). pose proof table_check as T. rewrite forallb_forall in T. apply T in I.
  rewrite forallb_forall in I. apply N.eqb_eq, I. now apply digit_list_spec.
Qed.

Lemma is_digit_48 d : d <= 9 -> is_digit (48 + d) = true.
Proof. intros. apply is_digit_spec. unfold Digit. lia. Qed.

Lemma to_ascii_cases c :
  (c < 127 /\ to_ascii c = c) \/ (127 <= c /\ is_space c = true /\ to_ascii c = 32) \/
  (127 <= c /\ exists d, UnicodeDigit c d /\ to_ascii c = 48 + d) \/
  (127 <= c /\ is_space c = false /\ to_ascii c = 63).
Proof.
  destruct (N.ltb_spec c 127) as [H|H].
  - left. split; auto. now apply to_ascii_ascii.
  - right. unfold to_ascii. replace (c <? 127) with false by (symmetry; apply N.ltb_ge; lia).
    destruct (is_space c) eqn:S; [auto|]. right. unfold decimal_value.
    destruct (find _ _) as [z|] eqn:F; simpl; [|auto]. left. split; auto.
    apply find_spec in F as [I P]. apply andb_true_iff in P as [A B]. apply N.leb_le in A, B.
    exists (c - z). split; [|reflexivity]. exists z. split; auto. lia.
Qed.

Lemma digit_to_ascii c : is_digit (to_ascii c) = true -> UnicodeDigit c (to_ascii c - 48).
Proof.
  intros D. apply is_digit_spec in D. unfold Digit in D.
  destruct (to_ascii_cases c) as [[H E]|[(H & S & E)|[(H & d & U & E)|(H & S & E)]]]; rewrite E in *; try lia.
  - exists 48. split; [now left|]. lia.
  - replace (48 + d - 48) with d by lia. exact U.
Qed.

Lemma to_ascii_inv c x : x < 127 -> x <> 32 -> x <> 63 -> ~ Digit x -> to_ascii c = x -> c = x.
Proof.
  intros X N1 N2 ND E.
  destruct (to_ascii_cases c) as [[H E']|[(H & S & E')|[(H & d & (z & I & C & D) & E')|(H & S & E')]]]; rewrite E' in E.
  - exact E.
  - congruence.
  - subst x. elim ND. unfold Digit. lia.
  - congruence.
Qed.

Lemma c_isspace_spec c : c_isspace c = true <-> AsciiSpace c.
Proof. unfold c_isspace, AsciiSpace. rewrite orb_true_iff, andb_true_iff, !N.leb_le, N.eqb_eq. tauto. Qed.

Definition int_space (c : N) : bool := c_isspace (to_ascii c).

Lemma int_space_spec c : int_space c = true <-> IntSpace c.
Proof.
  unfold int_space. rewrite c_isspace_spec. unfold AsciiSpace, IntSpace.
  destruct (to_ascii_cases c) as [[H E]|[(H & S & E)|[(H & d & (z & I & C & D) & E)|(H & S & E)]]]; rewrite E.
  - split; [intros [?|?]; auto|]. intros [?|[?|[? ?]]]; auto. lia.
  - split; [|auto]. intros _. right. right. split; auto.
    assert (c <> 127) by (intros ->; vm_compute in S; discriminate). lia.
  - split; [lia|]. intros [?|[?|[? S]]]; try lia. exfalso.
    assert (E' : to_ascii c = 32).
    { unfold to_ascii. replace (c <? 127) with false by (symmetry; apply N.ltb_ge; lia). now rewrite S. }
    lia.
  - split; [lia|]. intros [?|[?|[? S']]]; try lia. congruence.
Qed.

Lemma drop_while_map (p : N -> bool) (f : N -> N) s :
  drop_while p (List.map f s) = List.map f (drop_while (fun c => p (f c)) s).
Proof. induction s as [|c s IH]; simpl; [reflexivity|]. destruct (p (f c)); auto. Qed.

Lemma strip_map p f s :
  rstrip p (lstrip p (List.map f s)) = List.map f (rstrip (fun c => p (f c)) (lstrip (fun c => p (f c)) s)).
Proof. unfold rstrip, lstrip. rewrite drop_while_map, <- map_rev, drop_while_map, <- map_rev. reflexivity. Qed.

Lemma strip_by_split (p : N -> bool) s : exists a b,
  s = a ++ rstrip p (lstrip p s) ++ b /\ Forall (fun c => p c = true) a /\ Forall (fun c => p c = true) b.
Proof.
  unfold rstrip, lstrip. destruct (drop_while_split p s) as (a & E & A).
  destruct (drop_while_split p (rev (drop_while p s))) as (b & E' & B).
  exists a, (rev b). split; [|split; [exact A|now apply Forall_rev]].
  rewrite <- rev_app_distr, <- E', rev_involutive. exact E.
Qed.

Lemma strip_by_ends (p : N -> bool) a s b :
  Forall (fun c => p c = true) a -> Forall (fun c => p c = true) b ->
  (forall c t, s = c :: t -> p c = false) -> (forall c t, s = t ++ [c] -> p c = false) -> s <> [] ->
  rstrip p (lstrip p (a ++ s ++ b)) = s.
Proof.
  intros A B H1 H2 NE. unfold rstrip, lstrip.
  assert (E1 : drop_while p (a ++ s ++ b) = s ++ b).
  { rewrite drop_while_app by exact A. apply drop_while_id. intros c t E. destruct s as [|x s]; [congruence|].
    injection E as <- _. eauto. }
  rewrite E1, rev_app_distr.
  rewrite drop_while_app by (now apply Forall_rev). rewrite drop_while_id; [apply rev_involutive|].
  intros c t E. apply (H2 c (rev t)). rewrite <- (rev_involutive s), E. reflexivity.
Qed.

Lemma underscore_join (g : str) groups : join (lit "_") (g :: groups) =
  g ++ match groups with [] => [] | _ => lit "_" ++ join (lit "_") groups end.
Proof. destruct groups; simpl; [now rewrite app_nil_r|reflexivity]. Qed.

Definition shift (ds : list N) : str := List.map (fun d => 48 + d) ds.

(** [b]: a digit has been read just before. *)
Lemma underscored_groups body : forall b ds,
  underscored_digits b (List.map to_ascii body) = Some ds ->
  exists g groups ds', body = join (lit "_") (g :: groups) /\ (b = false -> g <> []) /\
    Forall (fun g => g <> []) groups /\ Forall2 UnicodeDigit (concat (g :: groups)) ds' /\ ds = shift ds'.
Proof.
  induction body as [|c body IH]; intros b ds H; cbn [List.map underscored_digits] in H.
  - destruct b; [|discriminate]. injection H as <-. exists [], [], []. repeat split; auto; [discriminate|constructor].
  - destruct (is_digit (to_ascii c)) eqn:D.
    + destruct (underscored_digits true (List.map to_ascii body)) as [ds0|] eqn:E; [|discriminate].
      injection H as <-. apply IH in E as (g & groups & ds' & -> & _ & G & F & ->).
      exists (c :: g), groups, ((to_ascii c - 48) :: ds'). split.
      { rewrite !underscore_join. reflexivity. }
      split; [discriminate|]. split; [exact G|]. split.
      * simpl. constructor; [now apply digit_to_ascii|exact F].
      * unfold shift. cbn [List.map]. f_equal. apply is_digit_spec in D. unfold Digit in D. lia.
    + destruct ((to_ascii c =? 95) && b) eqn:U; [|discriminate]. apply andb_true_iff in U as [U ->].
      apply N.eqb_eq in U. apply to_ascii_inv in U; [|lia|lia|lia|unfold Digit; lia]. subst c.
      apply IH in H as (g & groups & ds' & -> & NE & G & F & ->).
      exists [], (g :: groups), ds'. split; [reflexivity|]. split; [discriminate|].
      split; [constructor; auto|]. split; [exact F|reflexivity].
Qed.

Lemma underscored_digits_true_app g rest ds : Forall2 UnicodeDigit g ds -> forall b, (b = true \/ g <> []) ->
  underscored_digits b (List.map to_ascii (g ++ rest)) =
  option_map (app (shift ds)) (underscored_digits true (List.map to_ascii rest)).
Proof.
  induction 1 as [|c d g ds U F IH]; intros b HB.
  - destruct HB as [->|HB]; [|congruence]. simpl. destruct (underscored_digits true _); reflexivity.
  - cbn [app List.map underscored_digits]. rewrite (to_ascii_digit _ _ U).
    assert (D9 : d <= 9) by (destruct U as (z & _ & _ & ?); auto). rewrite is_digit_48 by exact D9.
    rewrite IH by auto. destruct (underscored_digits true _); reflexivity.
Qed.

Lemma underscored_groups_rev groups : forall ds, groups <> [] -> Forall (fun g => g <> []) groups ->
  Forall2 UnicodeDigit (concat groups) ds ->
  underscored_digits false (List.map to_ascii (join (lit "_") groups)) = Some (shift ds).
Proof.
  induction groups as [|g groups IH]; intros ds NE G F; [congruence|].
  inversion G as [|? ? G1 G2]; subst. simpl concat in F. apply Forall2_app_inv_l in F as (d1 & d2 & F1 & F2 & ->).
  rewrite underscore_join, (underscored_digits_true_app _ _ _ F1) by auto.
  destruct groups as [|g' groups].
  - simpl in F2. inversion F2; subst. simpl. unfold shift. now rewrite map_app.
  - cbn [List.map app underscored_digits].
    change (underscored_digits true (List.map to_ascii (lit "_" ++ join (lit "_") (g' :: groups))))
      with (underscored_digits false (List.map to_ascii (join (lit "_") (g' :: groups)))).
    rewrite (IH d2) by (auto; discriminate). simpl. unfold shift. now rewrite map_app.
Qed.

Lemma numval_shift ds : numval (shift ds) = decval ds.
Proof.
  induction ds as [|d ds IH]; [reflexivity|]. cbn [shift List.map numval decval].
  fold (shift ds). rewrite IH. unfold shift at 1. rewrite map_length. lia.
Qed.

Lemma split_sign_ascii core neg body' : split_sign (List.map to_ascii core) = (neg, body') ->
  exists sg body, core = sg ++ body /\ Sign sg neg /\ body' = List.map to_ascii body.
Proof.
  destruct core as [|c core]; cbn [List.map split_sign].
  - intros [= <- <-]. exists [], []. repeat split. left. auto.
  - destruct (N.eqb_spec (to_ascii c) 45) as [E|E].
    + apply to_ascii_inv in E; [|lia|lia|lia|unfold Digit; lia]. subst. intros [= <- <-].
      exists (lit "-"), core. repeat split. right. auto.
    + destruct (N.eqb_spec (to_ascii c) 43) as [E'|E'].
      * apply to_ascii_inv in E'; [|lia|lia|lia|unfold Digit; lia]. subst. intros [= <- <-].
        exists (lit "+"), core. repeat split. left. auto.
      * intros [= <- <-]. exists [], (c :: core). repeat split. left. auto.
Qed.

Lemma signed_eq (neg : bool) v : (if neg then (- v)%Z else v) = signed neg v.
Proof. reflexivity. Qed.

Lemma last_char_join groups : groups <> [] -> Forall (fun g => g <> []) groups ->
  forall c t, join (lit "_") groups = t ++ [c] -> exists u, concat groups = u ++ [c].
Proof.
  induction groups as [|g groups IH]; intros NE G c t H; [congruence|].
  inversion G as [|? ? G1 G2]; subst. destruct groups as [|g' groups].
  - simpl in *. rewrite app_nil_r. eauto.
  - rewrite underscore_join in H.
    assert (J : join (lit "_") (g' :: groups) <> []).
    { inversion G2; subst. rewrite underscore_join. intros E. apply app_eq_nil in E. tauto. }
    destruct (exists_last J) as (x & c' & EJ).
    rewrite EJ, app_assoc, app_assoc in H. apply app_inj_tail in H as [_ <-].
    destruct (IH ltac:(discriminate) G2 _ _ EJ) as (u & U). exists (g ++ u).
    cbn [concat] in *. rewrite U. now rewrite app_assoc.
Qed.

Lemma forall2_in_l {A B} (R : A -> B -> Prop) l m x : Forall2 R l m -> In x l -> exists y, R x y.
Proof. induction 1; intros []; subst; eauto. Qed.

Lemma unicode_digit_not_space c d : UnicodeDigit c d -> int_space c = false.
Proof.
  intros U. unfold int_space. rewrite (to_ascii_digit _ _ U). apply not_true_is_false.
  rewrite c_isspace_spec. unfold AsciiSpace. destruct U as (z & _ & _ & ?). lia.
Qed.

Lemma join_head groups : groups <> [] -> Forall (fun g => g <> []) groups ->
  exists c t u, join (lit "_") groups = c :: t /\ concat groups = c :: u.
Proof.
  intros NE G. destruct groups as [|g groups]; [congruence|]. inversion G; subst.
  destruct g as [|c g]; [congruence|]. rewrite underscore_join. simpl. eauto 6.
Qed.

Lemma shift_length ds : length (shift ds) = length ds.
Proof. apply map_length. Qed.

Theorem py_int_spec s v : py_int s = Val v <-> PyInteger s v.
Proof.
  unfold py_int, PyInteger. rewrite strip_map. fold int_space.
  change (fun c => c_isspace (to_ascii c)) with int_space.
  split.
  - intros H. destruct (strip_by_split int_space s) as (w1 & w2 & E & W1 & W2).
    set (core := rstrip int_space (lstrip int_space s)) in *.
    destruct (split_sign (List.map to_ascii core)) as [neg body'] eqn:S.
    apply split_sign_ascii in S as (sg & body & EC & S & ->).
    destruct (underscored_digits false (List.map to_ascii body)) as [ds|] eqn:U; [|discriminate].
    apply underscored_groups in U as (g & groups & ds' & -> & NE & G & F & ->).
    rewrite shift_length, digits_value_numval, numval_shift in H.
    unfold int_max_str_digits in H. destruct (N.ltb_spec 4300 (N.of_nat (length ds'))); [discriminate|].
    rewrite signed_eq in H. injection H as <-.
    exists w1, sg, neg, (g :: groups), w2, ds'. split; [now rewrite E, EC, <- app_assoc|].
    split; [eapply Forall_impl; [|exact W1]; intros; now apply int_space_spec|].
    split; [eapply Forall_impl; [|exact W2]; intros; now apply int_space_spec|].
    split; [exact S|]. split; [discriminate|]. split; [constructor; auto|]. split; [exact F|]. split; [assumption|reflexivity].
  - intros (w1 & sg & neg & groups & w2 & ds & -> & W1 & W2 & S & NE & G & F & L & ->).
    assert (Q1 : Forall (fun c => int_space c = true) w1) by (eapply Forall_impl; [|exact W1]; intros; now apply int_space_spec).
    assert (Q2 : Forall (fun c => int_space c = true) w2) by (eapply Forall_impl; [|exact W2]; intros; now apply int_space_spec).
    destruct (join_head groups NE G) as (c0 & t0 & u0 & J & C0).
    assert (D0 : exists d, UnicodeDigit c0 d) by (rewrite C0 in F; inversion F; subst; eauto).
    rewrite (app_assoc sg). rewrite strip_by_ends; auto.
    2:{ intros c t E. destruct S as [[_ [->| ->]]|[_ ->]].
        - rewrite J in E. injection E as <- _. destruct D0 as [d D0]. eapply unicode_digit_not_space; eauto.
        - injection E as <- _. reflexivity.
        - injection E as <- _. reflexivity. }
    2:{ intros c t E.
        assert (JN : join (lit "_") groups <> []) by (rewrite J; discriminate).
        destruct (exists_last JN) as (x & c' & EJ). rewrite EJ, app_assoc in E. apply app_inj_tail in E as [_ <-].
        destruct (last_char_join groups NE G _ _ EJ) as (u & U).
        assert (In c' (concat groups)) by (rewrite U; apply in_or_app; right; now left).
        destruct (forall2_in_l _ _ _ _ F H) as (d & D). eapply unicode_digit_not_space; eauto. }
    2:{ rewrite J. intros E. apply app_eq_nil in E as [_ E]. discriminate. }
    rewrite map_app.
    assert (E : split_sign (List.map to_ascii sg ++ List.map to_ascii (join (lit "_") groups)) =
                (neg, List.map to_ascii (join (lit "_") groups))).
    { destruct S as [[-> [->| ->]]|[-> ->]]; try reflexivity.
      rewrite J. cbn [List.map app split_sign]. destruct D0 as [d D0]. rewrite (to_ascii_digit _ _ D0).
      replace (48 + d =? 45) with false by (symmetry; apply N.eqb_neq; lia).
      replace (48 + d =? 43) with false by (symmetry; apply N.eqb_neq; lia). reflexivity. }
    rewrite E, (underscored_groups_rev groups ds NE G F), shift_length.
    unfold int_max_str_digits. replace (4300 <? N.of_nat (length ds)) with false by (symmetry; apply N.ltb_ge; lia).
    now rewrite digits_value_numval, numval_shift.
Qed.

Lemma py_int_raises s e : py_int s = Raise e -> e = ValueError.
Proof.
  unfold py_int. destruct (split_sign _) as [neg body]. destruct (underscored_digits false body); [|congruence].
  destruct (_ <? _); congruence.
Qed.

Lemma bounded_integer_spec s lo hi : is_bounded_integer s lo hi = true <->
  exists v, PyInteger s v /\ in_range (lo, hi) v.
Proof.
  unfold is_bounded_integer, in_range. cbn [fst snd]. split.
  - destruct (py_int s) as [v|] eqn:E; [|discriminate]. apply py_int_spec in E. intros H.
    apply andb_true_iff in H as [A B]. exists v. split; [exact E|].
    split; [destruct lo|destruct hi]; auto; lia.
  - intros (v & P & A & B). apply py_int_spec in P. rewrite P. apply andb_true_iff.
    split; [destruct lo|destruct hi]; auto; lia.
Qed.

(** An XSD literal is read by [int] unless it is too long, and denotes the same number. *)
Lemma xsd_py_integer s ds v w : XsdInteger s ds v -> N.of_nat (length ds) <= 4300 ->
  PyInteger s w <-> w = v.
Proof.
  intros X L. rewrite <- py_int_spec, (py_int_xsd _ _ _ X). unfold int_max_str_digits.
  replace (4300 <? N.of_nat (length ds)) with false by (symmetry; apply N.ltb_ge; lia).
  split; [congruence|now intros ->].
Qed.

(** Without white space, underscores and non-ASCII characters only XSD literals remain. *)
Lemma py_integer_plain s v : PyInteger s v ->
  Forall (fun c => c < 127 /\ ~ AsciiSpace c /\ c <> 95) s -> exists ds, XsdInteger s ds v.
Proof.
  intros (w1 & sg & neg & groups & w2 & ds & -> & W1 & W2 & S & NE & G & F & L & ->) P.
  apply Forall_app in P as [P1 P]. apply Forall_app in P as [P2 P]. apply Forall_app in P as [P3 P4].
  assert (NS : forall w, Forall IntSpace w -> Forall (fun c => c < 127 /\ ~ AsciiSpace c /\ c <> 95) w -> w = []).
  { intros [|c w] A B; [reflexivity|]. inversion A as [|? ? A1 _]; inversion B as [|? ? B1 _]; subst.
    unfold IntSpace, AsciiSpace in *. lia. }
  rewrite (NS w1), (NS w2), app_nil_r; auto. cbn [app].
  destruct groups as [|g [|g' groups]]; [congruence| |].
  - exists g. exists sg, neg. simpl. split; [reflexivity|]. split; [exact S|].
    inversion G; subst. simpl in F, P3. rewrite app_nil_r in F.
    assert (E : Forall Digit g /\ decval ds = numval g).
    { clear -F P3. revert P3. induction F as [|c d g ds U F IH]; intros P; [split; [constructor|reflexivity]|].
      inversion P as [|? ? (A & _) P']; subst. destruct (IH P') as [I1 I2].
      pose proof (to_ascii_digit _ _ U) as T. rewrite to_ascii_ascii in T by exact A.
      destruct U as (z & _ & _ & D9). split; [constructor; auto; unfold Digit; lia|].
      cbn [decval numval]. rewrite I2.
      assert (length g = length ds) as -> by (clear -F; induction F; simpl; congruence). lia. }
    destruct E as [E1 ->]. split; [split; auto|reflexivity].
  - exfalso. rewrite underscore_join in P3. apply Forall_app in P3 as [_ P3].
    inversion P3 as [|? ? (_ & _ & X) _]. now apply X.
Qed.
