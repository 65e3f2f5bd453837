(** Regular expressions over code points.  Models the fragment of Python's [re] used by
    aas_test_engines/data_types.py: character classes, concatenation, alternation,
    repetition and the anchors [^] and [$].

    Trusted reading of Python's [re]: the backtracking matcher reports a match exactly
    if one exists.  The fragment has no look-around, back-references or atomic groups. *)
From Coq Require Import List NArith Bool Lia.
From Verif Require Import PyStr.
Import ListNotations.
Local Open Scope N_scope.

Inductive re :=
| REmp
| REps
| RCls (ranges : list (N * N))
| RCat (a b : re)
| RAlt (a b : re)
| RStar (a : re).

Definition in_cls (l : list (N * N)) (c : N) : bool :=
  existsb (fun r => (fst r <=? c) && (c <=? snd r)) l.

(** The language of an expression. *)
Fixpoint lang (r : re) (s : str) : Prop :=
  match r with
  | REmp => False
  | REps => s = []
  | RCls l => exists c, s = [c] /\ in_cls l c = true
  | RCat a b => exists u v, s = u ++ v /\ lang a u /\ lang b v
  | RAlt a b => lang a s \/ lang b s
  | RStar a => exists l, s = concat l /\ Forall (lang a) l
  end.

(** ** Derivative matcher *)
Fixpoint nullable (r : re) : bool :=
  match r with
  | REmp => false
  | REps => true
  | RCls _ => false
  | RCat a b => nullable a && nullable b
  | RAlt a b => nullable a || nullable b
  | RStar _ => true
  end.

Definition ranges_eqb (a b : list (N * N)) : bool :=
  (fix go a b := match a, b with
   | [], [] => true
   | (x, y) :: a, (z, w) :: b => (x =? z) && (y =? w) && go a b
   | _, _ => false
   end) a b.

Fixpoint re_eqb (a b : re) : bool :=
  match a, b with
  | REmp, REmp => true
  | REps, REps => true
  | RCls l, RCls m => ranges_eqb l m
  | RCat a b, RCat c d => re_eqb a c && re_eqb b d
  | RAlt a b, RAlt c d => re_eqb a c && re_eqb b d
  | RStar a, RStar b => re_eqb a b
  | _, _ => false
  end.

Definition cat (a b : re) : re :=
  match a, b with
  | REmp, _ => REmp
  | _, REmp => REmp
  | REps, b => b
  | a, _ => RCat a b
  end.

Definition alt (a b : re) : re :=
  match a, b with
  | REmp, b => b
  | a, REmp => a
  | a, b => if re_eqb a b then a else RAlt a b
  end.

Fixpoint deriv (c : N) (r : re) : re :=
  match r with
  | REmp => REmp
  | REps => REmp
  | RCls l => if in_cls l c then REps else REmp
  | RCat a b => if nullable a then alt (cat (deriv c a) b) (deriv c b) else cat (deriv c a) b
  | RAlt a b => alt (deriv c a) (deriv c b)
  | RStar a => cat (deriv c a) (RStar a)
  end.

(** [re.fullmatch(r, s) is not None] *)
Fixpoint matches (r : re) (s : str) : bool :=
  match s with
  | [] => nullable r
  | c :: t => matches (deriv c r) t
  end.

(** [re.match("^" r "$", s) is not None]: without the MULTILINE flag [$] holds at the end
    of the string and just before a line feed that ends the string. *)
Definition matches_dollar (r : re) (s : str) : bool :=
  matches r s ||
  match rev s with
  | c :: t => (c =? 10) && matches r (rev t)
  | [] => false
  end.

(** ** Derived forms *)
Definition rchr (c : N) : re := RCls [(c, c)].
Fixpoint rstr (s : str) : re :=
  match s with [] => REps | c :: t => RCat (rchr c) (rstr t) end.
Definition ropt (r : re) : re := RAlt REps r.
Definition rplus (r : re) : re := RCat r (RStar r).
Fixpoint rrep (n : nat) (r : re) : re :=
  match n with O => REps | S n => RCat r (rrep n r) end.
(** [r{lo,lo+extra}] *)
Fixpoint rupto (n : nat) (r : re) : re :=
  match n with O => REps | S n => ropt (RCat r (rupto n r)) end.
Definition rrange (lo extra : nat) (r : re) : re := RCat (rrep lo r) (rupto extra r).
Fixpoint ralts (l : list re) : re :=
  match l with [] => REmp | [r] => r | r :: l => RAlt r (ralts l) end.
Fixpoint rseq (l : list re) : re :=
  match l with [] => REps | [r] => r | r :: l => RCat r (rseq l) end.

(** ** Correctness *)
Lemma ranges_eqb_eq a : forall b, ranges_eqb a b = true -> a = b.
Proof.
  induction a as [|[x y] a IH]; intros [|[z w] b]; simpl; try discriminate; auto.
  rewrite !andb_true_iff, !N.eqb_eq. intros [[-> ->] H]. f_equal. now apply IH.
Qed.

Lemma re_eqb_eq a : forall b, re_eqb a b = true -> a = b.
Proof.
  induction a; intros []; simpl; try discriminate; auto;
    rewrite ?andb_true_iff; intros; f_equal; auto; try (now apply ranges_eqb_eq); intuition.
Qed.

Lemma nullable_spec r : nullable r = true <-> lang r [].
Proof.
  induction r; simpl.
  - split; [discriminate|tauto].
  - tauto.
  - split; [discriminate|]. intros (c & H & _). discriminate.
  - rewrite andb_true_iff, IHr1, IHr2. split.
    + intros [? ?]. now exists [], [].
    + intros (u & v & E & ? & ?). symmetry in E. apply app_eq_nil in E as [-> ->]. auto.
  - now rewrite orb_true_iff, IHr1, IHr2.
  - split; auto. intros _. now exists [].
Qed.

Lemma lang_cat a b s : lang (cat a b) s <-> lang (RCat a b) s.
Proof.
  destruct a; try (destruct b); simpl;
    try tauto;
    try (split; [tauto | intros (?&?&?&?&?); tauto]);
    split;
    try (intros (u & v & -> & -> & ?); now simpl);
    try (intros H; exists [], s; simpl; auto).
Qed.

Lemma lang_alt a b s : lang (alt a b) s <-> lang a s \/ lang b s.
Proof.
  assert (E : re_eqb a b = true -> lang a s <-> lang a s \/ lang b s).
  { intros H. apply re_eqb_eq in H. subst. tauto. }
  unfold alt.
  destruct a; try (simpl; tauto); destruct b; try (simpl; tauto);
    (destruct (re_eqb _ _) eqn:H; [apply E; reflexivity | simpl; tauto]).
Qed.

Lemma deriv_spec r : forall c s, lang (deriv c r) s <-> lang r (c :: s).
Proof.
  induction r; intros c s; simpl.
  - tauto.
  - split; [tauto|discriminate].
  - destruct (in_cls ranges c) eqn:E; simpl.
    + split; [intros ->; eauto | intros (d & H & _); now injection H].
    + split; [tauto|]. intros (d & H & D). injection H as <- _. congruence.
  - assert (H : lang (cat (deriv c r1) r2) s <->
                exists u v, s = u ++ v /\ lang r1 (c :: u) /\ lang r2 v).
    { rewrite lang_cat. simpl. split; intros (u & v & E & A & B); exists u, v;
        (split; [exact E|split; [now apply IHr1|exact B]]). }
    destruct (nullable r1) eqn:N1.
    + rewrite lang_alt, H, IHr2. split.
      * intros [(u & v & -> & A & B) | A].
        -- exists (c :: u), v. auto.
        -- exists [], (c :: s). split; [reflexivity|]. split; auto. now apply nullable_spec.
      * intros ([|d u] & v & E & A & B); simpl in E.
        -- right. now subst.
        -- injection E as <- ->. left. eauto.
    + rewrite H. split.
      * intros (u & v & -> & A & B). exists (c :: u), v. auto.
      * intros ([|d u] & v & E & A & B); simpl in E.
        -- apply nullable_spec in A. congruence.
        -- injection E as <- ->. eauto.
  - now rewrite lang_alt, IHr1, IHr2.
  - rewrite lang_cat. simpl. split.
    + intros (u & v & -> & A & (l & -> & F)). exists ((c :: u) :: l). split; [reflexivity|].
      constructor; auto. now apply IHr.
    + intros (l & E & F). induction l as [|x l IH].
      * discriminate.
      * inversion F as [|? ? A F']; subst. destruct x as [|d x].
        -- apply IH; auto.
        -- simpl in E. injection E as <- ->. exists x, (concat l).
           split; [reflexivity|]. split; [now apply IHr|]. eauto.
Qed.

Lemma matches_spec s : forall r, matches r s = true <-> lang r s.
Proof.
  induction s as [|c s IH]; intros r; simpl.
  - apply nullable_spec.
  - rewrite IH. apply deriv_spec.
Qed.

Lemma matches_dollar_spec r s :
  matches_dollar r s = true <-> lang r s \/ exists t, s = t ++ [10] /\ lang r t.
Proof.
  unfold matches_dollar. rewrite orb_true_iff, matches_spec.
  assert (H : (match rev s with c :: t => (c =? 10) && matches r (rev t) | [] => false end) = true
              <-> exists t, s = t ++ [10] /\ lang r t); [|now rewrite H].
  destruct (rev s) as [|c t] eqn:E.
  - apply (f_equal (@rev N)) in E. rewrite rev_involutive in E. subst. simpl. split; [discriminate|].
    intros (t & H & _). destruct t; discriminate.
  - apply (f_equal (@rev N)) in E. rewrite rev_involutive in E. simpl in E. subst.
    rewrite andb_true_iff, N.eqb_eq, matches_spec. split.
    + intros [-> H]. eauto.
    + intros (u & H & L). apply app_inj_tail in H as [<- ->]. auto.
Qed.

(** ** The derived forms denote what they should *)
Lemma in_cls_spec l c : in_cls l c = true <-> Exists (fun r => fst r <= c /\ c <= snd r) l.
Proof.
  unfold in_cls. rewrite existsb_exists, Exists_exists.
  split; intros (x & ? & H); exists x; split; auto;
    rewrite ?andb_true_iff, ?N.leb_le in *; auto.
Qed.

Lemma lang_rchr c s : lang (rchr c) s <-> s = [c].
Proof.
  simpl. unfold in_cls. simpl. split.
  - intros (d & -> & H). rewrite orb_false_r, andb_true_iff, !N.leb_le in H. f_equal. lia.
  - intros ->. exists c. split; auto. rewrite orb_false_r, andb_true_iff, !N.leb_le. lia.
Qed.

Lemma lang_rstr t : forall s, lang (rstr t) s <-> s = t.
Proof.
  induction t as [|c t IH]; intros s.
  - simpl. tauto.
  - cbn [rstr lang]. split.
    + intros (u & v & -> & A & B). apply lang_rchr in A. apply IH in B. now subst.
    + intros ->. exists [c], t. split; [reflexivity|]. split; [now apply lang_rchr|now apply IH].
Qed.

Lemma lang_ropt r s : lang (ropt r) s <-> s = [] \/ lang r s.
Proof. reflexivity. Qed.

Lemma lang_rplus r s : lang (rplus r) s <-> exists l, l <> [] /\ s = concat l /\ Forall (lang r) l.
Proof.
  simpl. split.
  - intros (u & v & -> & A & l & -> & F). exists (u :: l). repeat split; auto. discriminate.
  - intros ([|u l] & H & -> & F); [congruence|]. inversion F; subst. exists u, (concat l). eauto.
Qed.

Lemma lang_rrep n r : forall s,
  lang (rrep n r) s <-> exists l, length l = n /\ s = concat l /\ Forall (lang r) l.
Proof.
  induction n; intros s; simpl.
  - split; [intros ->; now exists []|]. intros ([|? ?] & ? & -> & ?); [reflexivity|discriminate].
  - split.
    + intros (u & v & -> & A & B). apply IHn in B as (l & <- & -> & F). exists (u :: l). auto.
    + intros ([|u l] & L & -> & F); [discriminate|]. inversion F; subst. injection L as L.
      exists u, (concat l). split; [reflexivity|]. split; auto. apply IHn. eauto.
Qed.

Lemma lang_rupto n r : forall s,
  lang (rupto n r) s <-> exists l, (length l <= n)%nat /\ s = concat l /\ Forall (lang r) l.
Proof.
  induction n; intros s; simpl.
  - split; [intros ->; now exists []|]. intros ([|? ?] & ? & -> & ?); [reflexivity|simpl in *; lia].
  - split.
    + intros [-> | (u & v & -> & A & B)].
      * exists []. simpl. repeat split; auto. lia.
      * apply IHn in B as (l & L & -> & F). exists (u :: l). simpl. repeat split; auto. lia.
    + intros ([|u l] & L & -> & F); [now left|right]. inversion F; subst. simpl in L.
      exists u, (concat l). split; [reflexivity|]. split; auto. apply IHn. exists l.
      repeat split; auto. lia.
Qed.

Lemma lang_rrange lo extra r s :
  lang (rrange lo extra r) s <->
  exists l, (lo <= length l <= lo + extra)%nat /\ s = concat l /\ Forall (lang r) l.
Proof.
  unfold rrange. cbn [lang]. split.
  - intros (u & v & -> & A & B). apply lang_rrep in A as (l & <- & -> & F).
    apply lang_rupto in B as (m & L & -> & G). exists (l ++ m).
    rewrite app_length, concat_app. repeat split; try lia. now apply Forall_app.
  - intros (l & L & -> & F). rewrite <- (firstn_skipn lo l) in F. apply Forall_app in F as [F G].
    exists (concat (firstn lo l)), (concat (skipn lo l)).
    rewrite <- concat_app, firstn_skipn. split; [reflexivity|]. split.
    + apply lang_rrep. exists (firstn lo l). repeat split; auto. apply firstn_length_le. lia.
    + apply lang_rupto. exists (skipn lo l). repeat split; auto. rewrite skipn_length. lia.
Qed.

Lemma lang_ralts l s : lang (ralts l) s <-> Exists (fun r => lang r s) l.
Proof.
  induction l as [|r l IH]; [simpl; split; [tauto|intros H; inversion H]|].
  rewrite Exists_cons, <- IH. destruct l; simpl; [|reflexivity]. tauto.
Qed.

Lemma lang_rcls l s : lang (RCls l) s <-> exists c, s = [c] /\ in_cls l c = true.
Proof. reflexivity. Qed.

(** Repetition of a single-character class: the string itself, character by character. *)
Lemma concat_single l (p : N -> Prop) (s : str) :
  (exists k : list str, s = concat k /\ length k = l /\ Forall (fun t => exists c, t = [c] /\ p c) k)
  <-> length s = l /\ Forall p s.
Proof.
  revert s. induction l; intros s; split.
  - intros ([|? ?] & -> & ? & ?); [simpl; auto|discriminate].
  - intros [H _]. destruct s; [|discriminate]. exists []. auto.
  - intros ([|t k] & -> & L & F); [discriminate|]. inversion F as [|? ? (c & -> & Pc) F']; subst.
    simpl. injection L as L. destruct (proj1 (IHl (concat k))) as [A B]; [eauto|].
    split; [now rewrite A|]. now constructor.
  - intros [H F]. destruct s as [|c s]; [discriminate|]. injection H as H. inversion F; subst.
    destruct (proj2 (IHl s)) as (k & -> & L & G); [auto|]. exists ([c] :: k).
    simpl. repeat split; auto. constructor; eauto.
Qed.

Lemma lang_star_cls l s : lang (RStar (RCls l)) s <-> Forall (fun c => in_cls l c = true) s.
Proof.
  cbn [lang]. split.
  - intros (k & -> & F). apply (proj1 (concat_single (length k) _ _)). eauto.
  - intros F. destruct (proj2 (concat_single (length s) (fun c => in_cls l c = true) s)) as (k & E & _ & G);
      [auto|]. eauto.
Qed.

Lemma lang_rplus_cls l s : lang (rplus (RCls l)) s <-> s <> [] /\ Forall (fun c => in_cls l c = true) s.
Proof.
  rewrite lang_rplus. split.
  - intros (k & N & E & F). destruct (proj1 (concat_single (length k) (fun c => in_cls l c = true) s)) as [A B];
      [eauto|]. split; auto. intros ->. destruct k; [congruence|discriminate].
  - intros [N F]. destruct (proj2 (concat_single (length s) (fun c => in_cls l c = true) s)) as (k & E & L & G);
      [auto|]. exists k. repeat split; auto. intros ->. now destruct s.
Qed.

Lemma lang_rrep_cls n l s :
  lang (rrep n (RCls l)) s <-> length s = n /\ Forall (fun c => in_cls l c = true) s.
Proof.
  rewrite lang_rrep, <- concat_single. split; intros (k & ? & ? & ?); exists k; auto.
Qed.

Lemma lang_rrange_cls lo extra l s :
  lang (rrange lo extra (RCls l)) s <->
  (lo <= length s <= lo + extra)%nat /\ Forall (fun c => in_cls l c = true) s.
Proof.
  rewrite lang_rrange. split.
  - intros (k & L & E & F).
    destruct (proj1 (concat_single (length k) (fun c => in_cls l c = true) s)) as [A B]; [eauto|].
    split; auto. lia.
  - intros [L F]. destruct (proj2 (concat_single (length s) (fun c => in_cls l c = true) s)) as (k & E & M & G);
      [auto|]. exists k. unfold str in *. rewrite M. auto.
Qed.
