From Coq Require Import List NArith ZArith Bool Lia.
From Coq Require Import String. Open Scope list_scope.
From Verif Require Import PyStr PyStrFacts PyBase ConfigModel ConfigSpec.
Import ListNotations.
Open Scope N_scope.

(** ** Bracket classes *)

(** left-to-right reading of a class *)
Fixpoint items (b : str) : list (N * N) :=
  match b with
  | [] => []
  | x :: r =>
      match r with
      | y :: hi :: r' => if N.eqb y 45 then (x, hi) :: items r' else (x, x) :: items r
      | _ => (x, x) :: items r
      end
  end.

Lemma strong_str_ind (P : str -> Prop) :
  (forall s, (forall t, (List.length t < List.length s)%nat -> P t) -> P s) -> forall s, P s.
Proof.
  intros H s. assert (G : forall n t, (List.length t < n)%nat -> P t).
  { induction n; intros t Ht; [lia|]. apply H. intros u Hu. apply IHn. lia. }
  apply (G (S (List.length s))). lia.
Qed.

(** case analysis of a class body: empty, range, single *)
Lemma body_cases b :
  b = [] \/ (exists lo hi r, b = lo :: 45 :: hi :: r)
  \/ (exists x r, b = x :: r /\ ~ is_range b /\ items b = (x, x) :: items r).
Proof.
  destruct b as [|x [|y [|hi r]]].
  - auto.
  - right; right. exists x, []. repeat split. intros (?&?&?&H). discriminate.
  - right; right. exists x, [y]. repeat split. intros (?&?&?&H). discriminate.
  - destruct (N.eqb_spec y 45).
    + subst. right; left. eauto.
    + right; right. exists x, (y :: hi :: r). repeat split.
      * intros (?&?&?&H). inversion H. auto.
      * simpl. destruct (N.eqb_spec y 45); [contradiction|reflexivity].
Qed.

Lemma items_range lo hi r : items (lo :: 45 :: hi :: r) = (lo, hi) :: items r.
Proof. reflexivity. Qed.

Lemma listed_items b c : listed b c <-> existsb (in_range c) (items b) = true.
Proof.
  induction b as [b IH] using strong_str_ind.
  destruct (body_cases b) as [->|[(lo & hi & r & ->)|(x & r & -> & Hn & Hi)]].
  - simpl. split; [inversion 1|discriminate].
  - rewrite items_range. simpl. rewrite orb_true_iff. rewrite <- IH by (simpl; lia).
    unfold in_range; simpl. rewrite andb_true_iff, !N.leb_le. split.
    + inversion 1; subst; auto; exfalso; match goal with H : ~ is_range _ |- _ => apply H; red; eauto end.
    + intros [[? ?]|?]; [apply l_range|apply l_range_next]; auto.
  - rewrite Hi. simpl. rewrite orb_true_iff. rewrite <- IH by (simpl; lia).
    unfold in_range; simpl. rewrite andb_true_iff, !N.leb_le. split.
    + inversion 1; subst.
      * exfalso. apply Hn. red; eauto.
      * exfalso. apply Hn. red; eauto.
      * left; split; reflexivity.
      * auto.
    + intros [[? ?]|?].
      * assert (c = x) by lia. subst. now apply l_single.
      * now apply l_single_next.
Qed.

Definition F (b : str) : list str := fix_last (chunks_aux 1 b).

Lemma chunks_aux_ne k b : chunks_aux k b <> [].
Proof. destruct b; simpl; [congruence|]. destruct (_ && _); [congruence|]. unfold cons_head. destruct chunks_aux; congruence. Qed.

Lemma fix_last_ne l : l <> [] -> fix_last l <> [].
Proof. destruct l as [|a [|[|] []]]; simpl; congruence. Qed.

Lemma fix_last_cons_head x l : l <> [] -> fix_last (cons_head x l) = cons_head x (fix_last l).
Proof. intros H. destruct l as [|a r]; [congruence|]. destruct r as [|[|b c] [|d e]]; reflexivity. Qed.

Lemma F_ne b : F b <> [].
Proof. apply fix_last_ne, chunks_aux_ne. Qed.

Lemma F_range lo hi r : F (lo :: 45 :: hi :: r) = [lo] :: cons_head hi (F r).
Proof.
  assert (E : forall l, l <> [] -> fix_last (cons_head lo ([] :: cons_head hi l)) = [lo] :: cons_head hi (fix_last l)).
  { intros l Hl. rewrite fix_last_cons_head by congruence.
    destruct l as [|a l]; [congruence|]. simpl. destruct l as [|[|b c] [|d e]]; reflexivity. }
  unfold F. rewrite <- E by apply chunks_aux_ne. cbn [chunks_aux Nat.eqb]. rewrite !andb_false_r. reflexivity.
Qed.

Lemma chunks_aux_10 r : (forall t, r <> 45 :: t) -> r <> [] -> chunks_aux 0 r = chunks_aux 1 r.
Proof.
  destruct r as [|y r]; [congruence|]. intros H _. simpl.
  destruct (N.eqb_spec y 45); [subst; exfalso; eapply H; reflexivity|]. reflexivity.
Qed.

Lemma F_single x r : ~ is_range (x :: r) -> F (x :: r) = cons_head x (F r).
Proof.
  intros H. unfold F. destruct r as [|y r].
  - simpl. rewrite andb_false_r. reflexivity.
  - destruct (N.eqb_spec y 45).
    + subst y. destruct r as [|hi r]; [|exfalso; apply H; red; eauto].
      simpl. now rewrite andb_false_r.
    + cbn [chunks_aux]. rewrite !andb_false_r. cbn [pred].
      destruct (N.eqb_spec y 45); [contradiction|]. cbn [andb].
      rewrite fix_last_cons_head.
      * reflexivity.
      * unfold cons_head. destruct chunks_aux; congruence.
Qed.

(** the first chunk is only empty if there is nothing *)
Lemma F_head b : b <> [] -> exists c h t, F b = (c :: h) :: t.
Proof.
  destruct (body_cases b) as [->|[(lo & hi & r & ->)|(x & r & -> & Hn & _)]]; intros H; [congruence| |].
  - rewrite F_range. eauto.
  - rewrite F_single by auto. pose proof (F_ne r). destruct (F r) as [|h t]; [congruence|]. simpl. eauto.
Qed.

Lemma last_cons {A} (x y : A) l d : last (x :: y :: l) d = last (y :: l) d.
Proof. reflexivity. Qed.

Lemma merge_ne l : l <> [] -> merge l <> [].
Proof. destruct l as [|a l]; simpl; [congruence|]. destruct (merge l); [congruence|]. destruct (_ <? _); congruence. Qed.

Lemma merge_cons_head x c h t : merge (cons_head x ((c :: h) :: t)) = cons_head x (merge ((c :: h) :: t)).
Proof.
  cbn [cons_head merge]. destruct (merge t) as [|d r']; [reflexivity|].
  rewrite last_cons. destruct (_ <? _); reflexivity.
Qed.

Lemma merge_F_cons x b : merge (cons_head x (F b)) = cons_head x (merge (F b)).
Proof.
  destruct b as [|y b]; [reflexivity|].
  destruct (F_head (y :: b)) as (c & h & t & E); [congruence|]. rewrite E. apply merge_cons_head.
Qed.

Definition J (b : str) : list tok := join_chunks (merge (F b)).

Lemma join_cons_head x l : l <> [] -> join_chunks (cons_head x l) = TLit x :: join_chunks l.
Proof. destruct l as [|a [|b c]]; simpl; congruence. Qed.

Lemma J_range lo hi r : J (lo :: 45 :: hi :: r) =
  if hi <? lo then J r else TLit lo :: TOp :: TLit hi :: J r.
Proof.
  unfold J. rewrite F_range. cbn [merge]. rewrite merge_F_cons.
  pose proof (merge_ne (F r) (F_ne r)) as Hm. destruct (merge (F r)) as [|d t]; [congruence|].
  cbn [cons_head hd last removelast app tl].
  destruct (hi <? lo); [reflexivity|]. destruct t; reflexivity.
Qed.

Lemma J_single x r : ~ is_range (x :: r) -> J (x :: r) = TLit x :: J r.
Proof.
  intros H. unfold J. rewrite F_single, merge_F_cons by auto. apply join_cons_head, merge_ne, F_ne.
Qed.

Lemma J_not_op b t : J b <> TOp :: t.
Proof.
  revert t. induction b as [b IH] using strong_str_ind; intros t.
  destruct (body_cases b) as [->|[(lo & hi & r & ->)|(x & r & -> & Hn & _)]].
  - discriminate.
  - rewrite J_range. destruct (hi <? lo); [apply IH; simpl; lia|discriminate].
  - rewrite J_single by auto. discriminate.
Qed.

Lemma re_set_J b : re_set (J b) = filter (fun r => fst r <=? snd r) (items b).
Proof.
  induction b as [b IH] using strong_str_ind.
  destruct (body_cases b) as [->|[(lo & hi & r & ->)|(x & r & -> & Hn & Hi)]].
  - reflexivity.
  - rewrite J_range, items_range. cbn [filter fst snd].
    destruct (N.ltb_spec hi lo); destruct (N.leb_spec lo hi); try lia.
    + apply IH; simpl; lia.
    + cbn [re_set tok_chr]. f_equal. apply IH; simpl; lia.
  - rewrite J_single, Hi by auto. cbn [filter fst snd]. rewrite N.leb_refl.
    transitivity ((x, x) :: re_set (J r)).
    + cbn [re_set tok_chr]. destruct (J r) as [|[c|] t] eqn:E; try reflexivity.
      exfalso. eapply J_not_op; eauto.
    + f_equal. apply IH; simpl; lia.
Qed.

Lemma filter_ranges c l :
  existsb (in_range c) (filter (fun r => fst r <=? snd r) l) = existsb (in_range c) l.
Proof.
  induction l as [|[lo hi] l IH]; simpl; auto. destruct (N.leb_spec lo hi); simpl; rewrite IH; auto.
  unfold in_range at 2; simpl. destruct (N.leb_spec lo c), (N.leb_spec c hi); simpl; auto; lia.
Qed.

Lemma chunks_bang b : chunks (33 :: b) = cons_head 33 (F b).
Proof. unfold chunks. cbn -[fix_last chunks_aux]. cbn [chunks_aux N.eqb Pos.eqb andb pred].
  rewrite fix_last_cons_head by apply chunks_aux_ne. reflexivity. Qed.
Lemma chunks_plain x b : x <> 33 -> chunks (x :: b) = F (x :: b).
Proof. intros H. unfold chunks. destruct (N.eqb_spec x 33); [contradiction|reflexivity]. Qed.

Lemma J_bang_leads b r : J b = TLit 33 :: r -> leads_bang b.
Proof.
  revert r. induction b as [b IH] using strong_str_ind; intros r0.
  destruct (body_cases b) as [->|[(lo & hi & r & ->)|(x & r & -> & Hn & _)]].
  - discriminate.
  - rewrite J_range. destruct (N.ltb_spec hi lo).
    + intros E. apply lb_skip; auto. eapply IH; [simpl; lia|eauto].
    + intros E. inversion E; subst. apply lb_here. intros h r' Er. inversion Er; subst. lia.
  - rewrite J_single by auto. intros E. inversion E; subst. apply lb_here.
    intros h r' Er. exfalso. apply Hn. subst. red; eauto.
Qed.

Lemma bracket_spec body c : class_body body -> ~ odd_class body ->
  piece_char (bracket body) c = true <-> class_member body c.
Proof.
  intros (neg & x & b & E & Hb & Hneg) Hodd. unfold bracket.
  destruct Hneg as [->|[-> Hx]]; simpl in E; subst body.
  - rewrite chunks_bang, merge_F_cons. rewrite join_cons_head by apply merge_ne, F_ne.
    cbn [N.eqb Pos.eqb class_member].
    fold (J (x :: b)). rewrite listed_items.
    assert (H : piece_char (match J (x :: b) with [] => PAny | _ :: _ => PSet true (re_set (J (x :: b))) end) c
                = negb (existsb (in_range c) (items (x :: b)))).
    { rewrite <- filter_ranges, <- re_set_J. destruct (J (x :: b)); [reflexivity|]. cbn [piece_char]. apply xorb_true_l. }
    rewrite H. rewrite negb_true_iff. rewrite not_true_iff_false. reflexivity.
  - rewrite chunks_plain by auto. cbn [class_member].
    destruct (N.eqb_spec x 33); [contradiction|].
    fold (J (x :: b)). rewrite listed_items, <- filter_ranges, <- re_set_J.
    destruct (J (x :: b)) as [|[d|] r] eqn:EJ.
    + simpl. split; discriminate.
    + destruct (N.eqb_spec d 33).
      * subst d. exfalso. apply Hodd. split; [intros r' Er; inversion Er; congruence|]. eapply J_bang_leads; eauto.
      * cbn [piece_char]. rewrite xorb_false_l. reflexivity.
    + exfalso. eapply J_not_op; eauto.
Qed.

(** ** Finding the closing bracket *)
Lemma app_sep_eq (a b : str) x y c : ~ In c a -> ~ In c b -> a ++ c :: x = b ++ c :: y -> a = b /\ x = y.
Proof.
  revert b; induction a as [|d a IH]; intros [|e b] Ha Hb E; simpl in *; inversion E; subst; auto.
  - tauto.
  - tauto.
  - destruct (IH b) as [-> ->]; auto.
Qed.

Lemma scan_some s body rest : scan_bracket s = Some (body, rest) -> class_body body /\ s = body ++ 93 :: rest.
Proof.
  unfold scan_bracket, class_body.
  destruct s as [|c s].
  - simpl. discriminate.
  - destruct (N.eqb_spec c 33).
    + subst c. destruct s as [|d s]; [discriminate|]. destruct (N.eqb_spec d 93).
      * subst d. destruct (split_first 93 s) as [[b r]|] eqn:E; [|discriminate].
        intros H; inversion H; subst. apply split_first_spec in E as [-> Hn].
        split; [|reflexivity]. exists [33], 93, b. auto.
      * destruct (split_first 93 (d :: s)) as [[b r]|] eqn:E; [|discriminate].
        intros H; inversion H; subst. apply split_first_spec in E as [E Hn].
        destruct b as [|d' b]; [simpl in E; inversion E; congruence|]. simpl in E; inversion E; subst.
        split; [|reflexivity]. exists [33], d', b. simpl in Hn. repeat split; auto.
    + destruct (N.eqb_spec c 93).
      * subst c. destruct (split_first 93 s) as [[b r]|] eqn:E; [|discriminate].
        intros H; inversion H; subst. apply split_first_spec in E as [-> Hn].
        split; [|reflexivity]. exists [], 93, b. repeat split; auto.
      * destruct (split_first 93 (c :: s)) as [[b r]|] eqn:E; [|discriminate].
        intros H; inversion H; subst. apply split_first_spec in E as [E Hn].
        destruct body as [|d' b]; [simpl in E; inversion E; congruence|]. simpl in E; inversion E; subst.
        split; [|reflexivity]. exists [], d', b. simpl in Hn. repeat split; auto.
Qed.

Lemma scan_none s : scan_bracket s = None -> forall body q, class_body body -> s <> body ++ 93 :: q.
Proof.
  intros H body q (neg & x & b & -> & Hb & Hneg) ->. revert H. unfold scan_bracket.
  assert (G : forall t, ~ In 93 b -> split_first 93 (b ++ 93 :: t) = Some (b, t)).
  { intros t Hn. apply split_first_spec. auto. }
  destruct Hneg as [->|[-> Hx]]; cbn [app].
  - cbn [N.eqb Pos.eqb]. destruct (N.eqb_spec x 93).
    + rewrite G by auto. discriminate.
    + destruct (split_first 93 (x :: b ++ 93 :: q)) as [[? ?]|] eqn:E; [discriminate|].
      apply split_first_none in E. exfalso. apply E. simpl. right. apply in_or_app. simpl; auto.
  - destruct (N.eqb_spec x 33); [contradiction|]. destruct (N.eqb_spec x 93).
    + rewrite G by auto. discriminate.
    + destruct (split_first 93 (x :: b ++ 93 :: q)) as [[? ?]|] eqn:E; [discriminate|].
      apply split_first_none in E. exfalso. apply E. simpl. right. apply in_or_app. simpl; auto.
Qed.

Lemma class_body_unique b1 b2 q1 q2 : class_body b1 -> class_body b2 ->
  b1 ++ 93 :: q1 = b2 ++ 93 :: q2 -> b1 = b2 /\ q1 = q2.
Proof.
  intros (n1 & x1 & c1 & -> & H1 & N1) (n2 & x2 & c2 & -> & H2 & N2) E.
  destruct N1 as [->|[-> Hx1]], N2 as [->|[-> Hx2]]; simpl in E; inversion E; subst; try congruence.
  - apply app_sep_eq in H3 as [-> ->]; auto.
  - apply app_sep_eq in H3 as [-> ->]; auto.
Qed.

(** ** Matching *)
Lemma Forall2_length {A B} (R : A -> B -> Prop) l l' : Forall2 R l l' -> List.length l = List.length l'.
Proof. induction 1; simpl; auto. Qed.

Inductive gmatch : list piece -> str -> Prop :=
| g_nil : gmatch [] []
| g_star ps x s : gmatch ps s -> gmatch (PStar :: ps) (x ++ s)
| g_one p ps c s : piece_char p c = true -> gmatch ps s -> gmatch (p :: ps) (c :: s).

Definition nostar (g : list piece) : Prop := Forall (fun p => p <> PStar) g.

Lemma match_fixed_spec g s r : match_fixed g s = Some r <->
  exists x, s = x ++ r /\ Forall2 (fun p c => piece_char p c = true) g x.
Proof.
  revert s; induction g as [|p g IH]; intros s; simpl.
  - split.
    + intros H; inversion H; subst. exists []. auto.
    + intros (x & -> & H). inversion H. reflexivity.
  - destruct s as [|c s].
    + split; [discriminate|]. intros (x & E & H). inversion H; subst. discriminate.
    + destruct (piece_char p c) eqn:E.
      * rewrite IH. split; intros (x & Ex & H).
        -- subst. exists (c :: x). split; auto.
        -- inversion H; subst. inversion Ex; subst. eauto.
      * split; [discriminate|]. intros (x & Ex & H). inversion H; subst. inversion Ex; subst. congruence.
Qed.

Lemma gmatch_fixed_app g ps s : nostar g -> gmatch (g ++ ps) s <->
  exists x r, s = x ++ r /\ Forall2 (fun p c => piece_char p c = true) g x /\ gmatch ps r.
Proof.
  intros Hn. revert s. induction Hn as [|p g Hp Hn IH]; intros s; simpl.
  - split.
    + intros H. exists [], s. auto.
    + intros (x & r & -> & H & Hg). inversion H; subst. auto.
  - split.
    + intros H. inversion H; subst; [congruence|]. apply IH in H4 as (x & r & -> & Hx & Hg).
      exists (c :: x), r. auto.
    + intros (x & r & -> & H & Hg). inversion H; subst. simpl. apply g_one; auto. apply IH. eauto.
Qed.

Lemma gmatch_fixed_app' g ps s : nostar g -> gmatch (g ++ ps) s <->
  exists r, match_fixed g s = Some r /\ gmatch ps r.
Proof.
  intros Hn. rewrite gmatch_fixed_app by auto. split.
  - intros (x & r & E & H & Hg). exists r. split; auto. apply match_fixed_spec. eauto.
  - intros (r & H & Hg). apply match_fixed_spec in H as (x & E & H). eauto.
Qed.

Fixpoint ungroup (gs : list (list piece)) : list piece :=
  match gs with [] => [] | g :: r => PStar :: g ++ ungroup r end.

Lemma groups_spec ps f gs : groups ps = (f, gs) -> ps = f ++ ungroup gs /\ nostar f /\ Forall nostar gs.
Proof.
  revert f gs; induction ps as [|p ps IH]; intros f gs; simpl.
  - intros H; inversion H; subst. repeat split; constructor.
  - destruct (groups ps) as [f0 gs0]. destruct (IH f0 gs0 eq_refl) as (-> & Hf & Hgs).
    destruct p; intros H; inversion H; subst; simpl; repeat split; auto; constructor; auto; discriminate.
Qed.

Lemma gmatch_star_iff ps s : gmatch (PStar :: ps) s <-> exists x r, s = x ++ r /\ gmatch ps r.
Proof.
  split.
  - inversion 1; subst; eauto. discriminate.
  - intros (x & r & -> & H). now constructor.
Qed.

Lemma gmatch_star_cons ps c s : gmatch (PStar :: ps) s -> gmatch (PStar :: ps) (c :: s).
Proof.
  rewrite !gmatch_star_iff. intros (x & r & -> & H). exists (c :: x), r. auto.
Qed.
Lemma gmatch_star_app ps x s : gmatch (PStar :: ps) s -> gmatch (PStar :: ps) (x ++ s).
Proof. induction x; simpl; auto using gmatch_star_cons. Qed.

Lemma match_end_spec g s : match_end g s = true <-> exists x y, s = x ++ y /\ match_fixed g y = Some [].
Proof.
  induction s as [|c s IH].
  - simpl. destruct (match_fixed g []) as [[|a l]|] eqn:E; split; try discriminate; auto.
    + intros _. exists [], []. auto.
    + intros (x & y & H & M). symmetry in H. apply app_eq_nil in H as [-> ->]. congruence.
    + intros (x & y & H & M). symmetry in H. apply app_eq_nil in H as [-> ->]. congruence.
  - cbn [match_end]. destruct (match_fixed g (c :: s)) as [[|a l]|] eqn:E.
    + split; auto. intros _. exists [], (c :: s). auto.
    + rewrite IH. split; intros (x & y & H & M).
      * subst. exists (c :: x), y. auto.
      * destruct x as [|d x]; simpl in H; [subst; congruence|]. inversion H; subst. eauto.
    + rewrite IH. split; intros (x & y & H & M).
      * subst. exists (c :: x), y. auto.
      * destruct x as [|d x]; simpl in H; [subst; congruence|]. inversion H; subst. eauto.
Qed.

(** the leftmost occurrence leaves the longest rest *)
Lemma find_first_some g s r : find_first g s = Some r ->
  (exists x y, s = x ++ y /\ match_fixed g y = Some r)
  /\ (forall x y r', s = x ++ y -> match_fixed g y = Some r' -> exists z, r = z ++ r').
Proof.
  assert (Hlen : forall y r', match_fixed g y = Some r' -> List.length y = (List.length g + List.length r')%nat).
  { intros y r' H. apply match_fixed_spec in H as (x & -> & H). apply Forall2_length in H.
    rewrite app_length. lia. }
  revert r. induction s as [|c s IH]; intros r.
  - simpl. destruct (match_fixed g []) as [r0|] eqn:E; [|discriminate].
    intros H; inversion H; subst. split.
    + exists [], []. auto.
    + intros x y r' Hxy M. symmetry in Hxy. apply app_eq_nil in Hxy as [-> ->].
      exists []. simpl. congruence.
  - cbn [find_first]. destruct (match_fixed g (c :: s)) as [r0|] eqn:E.
    + intros H; inversion H; subst. split.
      * exists [], (c :: s). auto.
      * intros x y r' Hxy M.
        pose proof E as E'. apply match_fixed_spec in E as (u & Eu & Hu).
        pose proof M as M'. apply match_fixed_spec in M as (v & -> & Hv).
        pose proof (Hlen _ _ E') as L1. pose proof (Hlen _ _ M') as L2.
        (* both r and r' are suffixes of c :: s, r the longer one *)
        apply Forall2_length in Hu. apply Forall2_length in Hv.
        rewrite Hxy in Eu. rewrite app_assoc in Eu.
        assert (Hl : (List.length u <= List.length (x ++ v))%nat) by (rewrite app_length; lia).
        clear - Eu Hl. revert Eu Hl. generalize (x ++ v) as w. induction u as [|d u IHu]; intros w Eu Hl.
        -- simpl in Eu. eauto.
        -- destruct w as [|e w]; simpl in *; [lia|]. inversion Eu; subst. eapply IHu; eauto. lia.
    + intros H. destruct (IH _ H) as [(x & y & -> & M) Hall]. split.
      * exists (c :: x), y. auto.
      * intros x' y' r' Hxy M'. destruct x' as [|d x']; simpl in Hxy.
        -- subst y'. congruence.
        -- inversion Hxy; subst. eapply Hall; eauto.
Qed.
Lemma find_first_none g s : find_first g s = None -> forall x y, s = x ++ y -> match_fixed g y = None.
Proof.
  induction s as [|c s IH].
  - simpl. destruct (match_fixed g []) eqn:E; [discriminate|]. intros _ x y H.
    symmetry in H. apply app_eq_nil in H as [-> ->]. auto.
  - cbn [find_first]. destruct (match_fixed g (c :: s)) eqn:E; [discriminate|].
    intros H x y Hxy. destruct x as [|d x]; simpl in Hxy; [subst; auto|]. inversion Hxy; subst. eauto.
Qed.

Lemma match_groups_spec gs s : Forall nostar gs -> match_groups gs s = true <-> gmatch (ungroup gs) s.
Proof.
  intros Hn. revert s. induction Hn as [|g gs Hg Hn IH]; intros s.
  - simpl. destruct s; split; try discriminate; auto; [constructor|inversion 1].
  - destruct gs as [|g2 gs].
    + cbn [match_groups ungroup]. rewrite match_end_spec, gmatch_star_iff.
      split; intros (x & y & -> & H); exists x, y; split; auto.
      * apply gmatch_fixed_app'; auto. exists []. split; auto. constructor.
      * apply gmatch_fixed_app' in H as (r & H & Hr); auto. inversion Hr; subst. auto.
    + change (match_groups (g :: g2 :: gs) s) with
        (match find_first g s with Some s' => match_groups (g2 :: gs) s' | None => false end).
      change (ungroup (g :: g2 :: gs)) with (PStar :: g ++ ungroup (g2 :: gs)).
      rewrite gmatch_star_iff. destruct (find_first g s) as [s'|] eqn:E.
      * destruct (find_first_some _ _ _ E) as [(x & y & -> & M) Hall].
        rewrite IH. split.
        -- intros H. exists x, y. split; auto. apply gmatch_fixed_app'; eauto.
        -- intros (x' & y' & Hxy & H). apply gmatch_fixed_app' in H as (r' & M' & Hr'); auto.
           destruct (Hall _ _ _ Hxy M') as [z ->]. apply gmatch_star_app. exact Hr'.
      * split; [discriminate|]. intros (x & y & -> & H).
        apply gmatch_fixed_app' in H as (r' & M' & Hr'); auto.
        rewrite (find_first_none _ _ E x y eq_refl) in M'. discriminate.
Qed.

Lemma match_pieces_spec ps s : match_pieces ps s = true <-> gmatch ps s.
Proof.
  unfold match_pieces. destruct (groups ps) as [f gs] eqn:E.
  destruct (groups_spec _ _ _ E) as (-> & Hf & Hgs).
  rewrite gmatch_fixed_app' by auto.
  destruct (match_fixed f s) as [r|].
  - rewrite match_groups_spec by auto. split; [eauto|]. intros (r' & H & Hr). inversion H; subst; auto.
  - split; [discriminate|]. intros (r' & H & Hr). discriminate.
Qed.

(** ** translate *)
Lemma translate_skip n star s t : List.length s = n -> translate_aux n star (s ++ t) = translate_aux 0 star t.
Proof. revert s; induction n; intros [|c s] H; simpl in *; try discriminate; auto. Qed.

Lemma gmatch_star_star ps s : gmatch (PStar :: PStar :: ps) s <-> gmatch (PStar :: ps) s.
Proof.
  split.
  - rewrite gmatch_star_iff. intros (x & r & -> & H). now apply gmatch_star_app.
  - intros H. change s with ([] ++ s). now constructor.
Qed.

(** the star compression does not change what is matched *)
Lemma translate_star s name :
  gmatch (PStar :: translate_aux 0 true s) name <-> gmatch (PStar :: translate_aux 0 false s) name.
Proof.
  destruct s as [|c s]; [reflexivity|]. cbn [translate_aux].
  destruct (c =? 42); [|reflexivity]. now rewrite gmatch_star_star.
Qed.

Lemma regular_tail a pat : regular_pattern (a ++ pat) -> regular_pattern pat.
Proof. intros H pre body post ->. apply (H (a ++ pre) body post). now rewrite <- app_assoc. Qed.

Lemma translate_spec pat : regular_pattern pat -> forall name, gmatch (translate pat) name <-> denotes pat name.
Proof.
  unfold translate. induction pat as [pat IH] using strong_str_ind; intros Hreg name.
  destruct pat as [|c p].
  - simpl. split; inversion 1; constructor.
  - assert (IHp : forall name, gmatch (translate_aux 0 false p) name <-> denotes p name).
    { apply IH; [simpl; lia|]. apply (regular_tail [c]). exact Hreg. }
    cbn [translate_aux].
    destruct (N.eqb_spec c 42).
    { subst c. rewrite translate_star, gmatch_star_iff. split.
      - intros (x & r & -> & H). constructor. now apply IHp.
      - inversion 1; subst; try congruence. exists x, s. split; auto. now apply IHp. }
    destruct (N.eqb_spec c 63).
    { subst c. split.
      - inversion 1; subst. constructor. now apply IHp.
      - inversion 1; subst; try congruence. apply g_one; [reflexivity|]. now apply IHp. }
    destruct (N.eqb_spec c 91).
    { subst c. destruct (scan_bracket p) as [[stuff rest]|] eqn:E.
      - destruct (scan_some _ _ _ E) as [Hb ->].
        assert (Hodd : ~ odd_class stuff) by (apply (Hreg [] stuff rest); reflexivity).
        assert (Hrest : forall name, gmatch (translate_aux 0 false rest) name <-> denotes rest name).
        { apply IH; [simpl; rewrite app_length; simpl; lia|].
          apply (regular_tail (91 :: stuff ++ [93])). simpl. rewrite <- app_assoc. exact Hreg. }
        change (stuff ++ 93 :: rest) with (stuff ++ [93] ++ rest). rewrite app_assoc.
        rewrite translate_skip by (rewrite app_length; simpl; lia).
        rewrite <- app_assoc.
        split.
        + intros H. inversion H; subst.
          * exfalso. destruct (bracket_spec stuff 0 Hb Hodd) as [_ _].
            assert (Hp : bracket stuff <> PStar).
            { unfold bracket. destruct join_chunks as [|[d|] r]; try discriminate.
              destruct (d =? 33); [destruct r|]; discriminate. }
            congruence.
          * apply d_class; auto; [now apply bracket_spec|now apply Hrest].
        + inversion 1; subst; try congruence.
          * destruct (class_body_unique stuff body rest p Hb) as [-> ->]; auto.
            apply g_one; [now apply bracket_spec|now apply Hrest].
          * exfalso. match goal with Hx : forall body q, _ -> _ <> _ |- _ => eapply (Hx stuff rest Hb); reflexivity end.
      - split.
        + inversion 1; subst. match goal with Hx : piece_char _ _ = true |- _ => simpl in Hx; apply N.eqb_eq in Hx; subst end.
          apply d_open; [now apply scan_none|now apply IHp].
        + inversion 1; subst; try congruence.
          * exfalso. eapply scan_none; eauto.
          * apply g_one; [reflexivity|now apply IHp]. }
    split.
    + inversion 1; subst. match goal with Hx : piece_char _ _ = true |- _ => simpl in Hx; apply N.eqb_eq in Hx; subst end.
      apply d_char; auto. now apply IHp.
    + inversion 1; subst; try congruence. apply g_one; [apply N.eqb_refl|now apply IHp].
Qed.

Lemma fnmatch_spec pat name : regular_pattern pat -> fnmatch pat name = true <-> denotes pat name.
Proof. intros H. unfold fnmatch. rewrite match_pieces_spec. now apply translate_spec. Qed.

(** ** Filters *)
Lemma split_on_app_gen c a s : exists l, l <> [] /\ split_on c (a ++ c :: s) = l ++ split_on c s.
Proof.
  induction a as [|d a (l & Hl & IH)]; simpl.
  - rewrite N.eqb_refl. exists [[]]. split; [discriminate|reflexivity].
  - destruct (d =? c).
    + exists ([] :: l). split; [discriminate|]. now rewrite IH.
    + rewrite IH. destruct l as [|t ts]; [congruence|]. simpl. exists ((d :: t) :: ts). split; [discriminate|reflexivity].
Qed.

Lemma in_split_on c part p : In p (split_on c part) <->
  ~ In c p /\ exists pre post, part = pre ++ p ++ post
    /\ (pre = [] \/ exists a, pre = a ++ [c]) /\ (post = [] \/ exists b, post = c :: b).
Proof.
  split.
  - intros H. split.
    + pose proof (split_on_no_sep c part) as Hn. rewrite Forall_forall in Hn. auto.
    + apply in_split in H as (l1 & l2 & E).
      assert (Hj : part = join [c] (l1 ++ p :: l2)) by (rewrite <- E; symmetry; apply split_join).
      assert (Hpost : forall l2, exists post, join [c] (p :: l2) = p ++ post /\ (post = [] \/ exists b, post = c :: b)).
      { intros [|y l]; [exists []; simpl; rewrite app_nil_r; auto|].
        exists (c :: join [c] (y :: l)). rewrite join_cons2. split; eauto. }
      destruct l1 as [|x l1].
      * simpl in Hj. destruct (Hpost l2) as (post & E2 & Hp). exists [], post. simpl. rewrite <- E2. auto.
      * destruct (Hpost l2) as (post & E2 & Hp).
        exists (join [c] (x :: l1) ++ [c]), post. split; [|split; eauto].
        rewrite Hj. rewrite <- app_assoc. rewrite <- E2. clear.
        revert x. induction l1 as [|y l1 IH]; intros x; [reflexivity|].
        change ((x :: y :: l1) ++ p :: l2) with (x :: (y :: l1) ++ p :: l2).
        rewrite join_cons by discriminate. rewrite IH. rewrite (join_cons [c] x (y :: l1)) by discriminate.
        now rewrite <- !app_assoc.
  - intros (Hn & pre & post & -> & Hpre & Hpost).
    assert (H1 : In p (split_on c (p ++ post))).
    { destruct Hpost as [->|[b ->]].
      - rewrite app_nil_r, split_on_none by auto. simpl; auto.
      - rewrite split_on_app by auto. simpl; auto. }
    destruct Hpre as [->|[a ->]]; [exact H1|].
    rewrite <- app_assoc. simpl.
    destruct (split_on_app_gen c a (p ++ post)) as (l & _ & E). rewrite E. apply in_or_app; auto.
Qed.

Lemma not_blank p : (match strip p with [] => false | _ => true end) = true <-> exists c, In c p /\ is_space c = false.
Proof.
  destruct (strip p) as [|d t] eqn:E; split; try discriminate; auto.
  - intros (c & Hc & Hs). apply strip_nil in E. rewrite Forall_forall in E. rewrite (E c Hc) in Hs. discriminate.
  - intros _. destruct (Forall_Exists_dec (fun c => is_space c = true)) with (l := p) as [H|H].
    + intros c. destruct (is_space c); [left; auto|right; discriminate].
    + apply strip_nil in H. congruence.
    + apply Exists_exists in H as (c & Hc & Hn). exists c. split; auto. now destruct (is_space c).
Qed.

Lemma compile_patterns_spec part ps : In ps (compile_patterns part) <-> exists p, pattern_of part p /\ ps = translate p.
Proof.
  unfold compile_patterns, pattern_of. rewrite in_map_iff. split.
  - intros (p & <- & H). apply filter_In in H as [H Hb]. apply not_blank in Hb. apply in_split_on in H as [Hn H].
    exists p. auto.
  - intros (p & (Hn & Hb & H) & ->). exists p. split; auto. apply filter_In. split.
    + apply in_split_on. auto.
    + now apply not_blank.
Qed.

Lemma split_tilde f :
  match split_on 126 f with
  | [a] => parts f a []
  | [a; b] => parts f a b
  | _ => exists a b c, f = a ++ 126 :: b ++ 126 :: c
  end.
Proof.
  pose proof (split_join 126 f) as Hj. pose proof (split_on_no_sep 126 f) as Hn.
  pose proof (split_on_nonempty 126 f) as Hne.
  destruct (split_on 126 f) as [|a [|b [|c l]]]; [congruence| | |].
  - simpl in Hj. subst a. left. inversion Hn; auto.
  - simpl in Hj. inversion Hn as [|? ? H1 H2]; subst. inversion H2; subst. right. auto.
  - exists a, b, (join [126] (c :: l)). rewrite <- Hj. rewrite !join_cons by discriminate. reflexivity.
Qed.

Lemma parts_unique f i e i' e' : parts f i e -> parts f i' e' -> i = i' /\ e = e'.
Proof.
  intros [(H1 & -> & ->)|(-> & H1 & H2)] [(H3 & -> & ->)|(E & H3 & H4)]; auto.
  - exfalso. apply H1. subst. apply in_or_app. simpl; auto.
  - exfalso. apply H3. apply in_or_app. simpl; auto.
  - apply app_sep_eq in E; auto.
Qed.

Lemma count_two (a b c : str) i e : parts (a ++ 126 :: b ++ 126 :: c) i e -> False.
Proof.
  intros [(H1 & _ & _)|(E & H1 & H2)].
  - apply H1. apply in_or_app. simpl; auto.
  - revert i E H1. induction a as [|x a IH]; intros [|y i] E H1; simpl in *; inversion E; subst.
    + apply H2. apply in_or_app. simpl; auto.
    + tauto.
    + apply H2. apply in_or_app. simpl; auto.
    + eapply IH; eauto.
Qed.

Lemma new_filter_spec f : 
  (new_filter f = Raise InvalidFilterException <-> exists a b c, f = a ++ 126 :: b ++ 126 :: c)
  /\ (forall flt, new_filter f = Val flt <-> exists i e, parts f i e /\ flt = Filter (compile_patterns i) (compile_patterns e)).
Proof.
  pose proof (split_tilde f) as H. unfold new_filter.
  assert (K : forall i e, parts f i e -> ~ exists a b c, f = a ++ 126 :: b ++ 126 :: c).
  { intros i e Hp (a & b & c & ->). eapply count_two; eauto. }
  destruct (split_on 126 f) as [|a [|b [|c l]]].
  - split; [split; auto|]. intros flt. split; [discriminate|]. intros (i & e & Hp & _). exfalso. eapply K; eauto.
  - split; [split; [discriminate|intros X; exfalso; eapply K; eauto]|].
    intros flt. split.
    + intros E; inversion E; subst. eauto.
    + intros (i & e & Hp & ->). destruct (parts_unique _ _ _ _ _ H Hp) as [<- <-]. reflexivity.
  - split; [split; [discriminate|intros X; exfalso; eapply K; eauto]|].
    intros flt. split.
    + intros E; inversion E; subst. eauto.
    + intros (i & e & Hp & ->). destruct (parts_unique _ _ _ _ _ H Hp) as [<- <-]. reflexivity.
  - split; [split; auto|]. intros flt. split; [discriminate|]. intros (i & e & Hp & _). exfalso. eapply K; eauto.
Qed.

Lemma selects_spec f i e flt name : parts f i e -> new_filter f = Val flt ->
  selects flt name = true <->
  ((forall p, ~ pattern_of i p) \/ exists p, pattern_of i p /\ fnmatch p name = true)
  /\ ~ exists p, pattern_of e p /\ fnmatch p name = true.
Proof.
  intros Hp Hf. apply new_filter_spec in Hf as (i' & e' & Hp' & ->).
  destruct (parts_unique _ _ _ _ _ Hp Hp') as [<- <-]. clear Hp'.
  assert (HI : forall part, existsb (fun x => match_pieces x name) (compile_patterns part) = true
               <-> exists p, pattern_of part p /\ fnmatch p name = true).
  { intros part. rewrite existsb_exists. split.
    - intros (ps & Hin & Hm). apply compile_patterns_spec in Hin as (p & Hpat & ->). eauto.
    - intros (p & Hpat & Hm). exists (translate p). split; auto. apply compile_patterns_spec. eauto. }
  assert (HN : forall part, nonempty (compile_patterns part) = false <-> forall p, ~ pattern_of part p).
  { intros part. destruct (compile_patterns part) as [|ps l] eqn:E; simpl; split; auto; try discriminate.
    - intros _ p Hpat. assert (In (translate p) []) by (rewrite <- E; apply compile_patterns_spec; eauto). auto.
    - intros H. assert (In ps (compile_patterns part)) by (rewrite E; simpl; auto).
      apply compile_patterns_spec in H0 as (p & Hpat & _). exfalso. eapply H; eauto. }
  unfold selects; cbn [includes excludes].
  destruct (nonempty (compile_patterns i)) eqn:Ei.
  - cbn [andb]. destruct (existsb _ (compile_patterns i)) eqn:Xi; cbn [negb].
    + apply HI in Xi. destruct (existsb _ (compile_patterns e)) eqn:Xe.
      * apply HI in Xe. destruct (nonempty (compile_patterns e)) eqn:Ee; cbn [andb].
        -- split; [discriminate|]. tauto.
        -- exfalso. destruct Xe as (p & Hpat & _). eapply (proj1 (HN e)); eauto.
      * rewrite andb_false_r. split; [|reflexivity]. intros _. split; auto.
        rewrite <- HI. congruence.
    + split; [discriminate|]. intros [[H|H] _].
      * pose proof (proj2 (HN i) H). congruence.
      * apply HI in H. congruence.
  - cbn [andb]. pose proof (proj1 (HN i) Ei) as Ei'. destruct (existsb _ (compile_patterns e)) eqn:Xe.
    + apply HI in Xe. destruct (nonempty (compile_patterns e)) eqn:Ee; cbn [andb].
      * split; [discriminate|]. tauto.
      * exfalso. destruct Xe as (p & Hpat & _). eapply (proj1 (HN e)); eauto.
    + rewrite andb_false_r. split; [|reflexivity]. intros _. split; auto.
      rewrite <- HI. congruence.
Qed.
