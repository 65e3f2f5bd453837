(** Proofs about reports. *)
From Coq Require Import List NArith ZArith Bool Lia Sorted.
From Coq Require Import String. Open Scope list_scope.
From Verif Require Import PyStr PyStrFacts PyBase ResultModel HeapModel ResultSpec.
Import ListNotations.

Lemma worse_eq_refl a : worse_eq a a.
Proof. destruct a; exact I. Qed.
Lemma worse_eq_trans a b c : worse_eq a b -> worse_eq b c -> worse_eq a c.
Proof. destruct a, b, c; simpl; tauto. Qed.
Lemma worse_eq_antisym a b : worse_eq a b -> worse_eq b a -> a = b.
Proof. destruct a, b; simpl; tauto. Qed.
Lemma level_or_ub_l a b : worse_eq a (level_or a b).
Proof. destruct a, b; exact I. Qed.
Lemma level_or_ub_r a b : worse_eq b (level_or a b).
Proof. destruct a, b; exact I. Qed.
Lemma level_or_either a b : level_or a b = a \/ level_or a b = b.
Proof. unfold level_or. destruct (_ <=? _)%Z; auto. Qed.
Lemma level_or_lub a b c : worse_eq a c -> worse_eq b c -> worse_eq (level_or a b) c.
Proof. destruct (level_or_either a b) as [->| ->]; auto. Qed.
Lemma level_or_absorb a b : worse_eq b a -> level_or a b = a.
Proof. destruct a, b; simpl; auto; tauto. Qed.
Lemma level_ok_or a b : level_ok (level_or a b) = level_ok a && level_ok b.
Proof. destruct a, b; reflexivity. Qed.
Lemma level_ok_spec l : level_ok l = true <-> l <> ERROR /\ l <> CRITICAL.
Proof. destruct l; simpl; split; intros H; repeat split; try congruence; destruct H; congruence. Qed.
Lemma level_ok_mono a b : worse_eq a b -> level_ok b = true -> level_ok a = true.
Proof. destruct a, b; simpl; auto; tauto. Qed.

Lemma append_level r c : r_level (append r c) = level_or (r_level r) (r_level c).
Proof. destruct r; reflexivity. Qed.
Lemma append_subs r c : r_subs (append r c) = r_subs r ++ [c].
Proof. destruct r; reflexivity. Qed.
Lemma append_message r c : r_message (append r c) = r_message r.
Proof. destruct r; reflexivity. Qed.
Lemma ok_append r c : ok (append r c) = ok r && ok c.
Proof. unfold ok. rewrite append_level. apply level_ok_or. Qed.

#[global] Arguments appends : simpl never.
Lemma appends_nil r : appends r [] = r.
Proof. reflexivity. Qed.
Lemma appends_cons r c cs : appends r (c :: cs) = appends (append r c) cs.
Proof. reflexivity. Qed.
Lemma appends_app r a b : appends r (a ++ b) = appends (appends r a) b.
Proof. apply fold_left_app. Qed.
Lemma appends_snoc r a c : appends r (a ++ [c]) = append (appends r a) c.
Proof. rewrite appends_app. reflexivity. Qed.
Lemma ok_appends r cs : ok (appends r cs) = ok r && forallb ok cs.
Proof.
  revert r; induction cs as [|c cs IH]; intros r; simpl.
  - now rewrite andb_true_r.
  - rewrite appends_cons, IH, ok_append. now rewrite andb_assoc.
Qed.
Lemma appends_subs r cs : r_subs (appends r cs) = r_subs r ++ cs.
Proof.
  revert r; induction cs as [|c cs IH]; intros r; simpl.
  - now rewrite app_nil_r.
  - rewrite appends_cons, IH, append_subs. now rewrite <- app_assoc.
Qed.
Lemma appends_message r cs : r_message (appends r cs) = r_message r.
Proof.
  revert r; induction cs as [|c cs IH]; intros r; simpl; auto. rewrite appends_cons, IH. apply append_message.
Qed.
Lemma appends_level r cs : r_level (appends r cs) = fold_left level_or (map r_level cs) (r_level r).
Proof.
  revert r; induction cs as [|c cs IH]; intros r; simpl; auto. rewrite appends_cons, IH, append_level. reflexivity.
Qed.
Lemma result_eta r : r = Res (r_message r) (r_level r) (r_subs r).
Proof. destruct r; reflexivity. Qed.

(* C01 *)
Lemma assembled_level r ls :
  assembled r ls -> In (r_level r) ls /\ (forall l, In l ls -> worse_eq l (r_level r)).
Proof.
  induction 1 as [m l|r rl c cl Hr [IH1 IH2] Hc [IH3 IH4]].
  - simpl. split; auto. intros l' [->|[]]. apply worse_eq_refl.
  - rewrite append_level. split.
    + apply in_or_app. destruct (level_or_either (r_level r) (r_level c)) as [-> | ->]; auto.
    + intros l Hl. apply in_app_or in Hl as [Hl|Hl].
      * eapply worse_eq_trans; [apply IH2; auto|apply level_or_ub_l].
      * eapply worse_eq_trans; [apply IH4; auto|apply level_or_ub_r].
Qed.

Lemma occurs_append x r c : occurs x (append r c) -> x = append r c \/ occurs x r \/ occurs x c.
Proof.
  destruct r as [m l s]. simpl. intros H. inversion H; subst; auto.
  match goal with H : In _ (_ ++ _) |- _ => apply in_app_or in H as [Hi|Hi] end.
  - right; left. eapply occ_below; eauto.
  - simpl in Hi. destruct Hi as [->|[]]. auto.
Qed.

Lemma assembled_consistent r ls :
  assembled r ls -> consistent r.
Proof.
  unfold consistent. induction 1 as [m l|r rl c cl Hr IHr Hc IHc]; intros x d Hx Hd.
  - inversion Hx; subst; simpl in *; tauto.
  - apply occurs_append in Hx as [->|[Hx|Hx]].
    + rewrite append_subs in Hd. rewrite append_level. apply in_app_or in Hd as [Hd|[->|[]]].
      * eapply worse_eq_trans; [apply (IHr r d)|apply level_or_ub_l]; auto. constructor.
      * apply level_or_ub_r.
    + apply (IHr x d Hx Hd).
    + apply (IHc x d Hx Hd).
Qed.

Lemma occurs_sub x c r : In c (r_subs r) -> occurs x c -> occurs x r.
Proof. destruct r; simpl; intros. eapply occ_below; eauto. Qed.

Lemma consistent_sub r c : consistent r -> In c (r_subs r) -> consistent c.
Proof. intros H Hc x d Hx Hd. apply (H x d); auto. eapply occurs_sub; eauto. Qed.

Lemma consistent_level r x : consistent r -> occurs x r -> worse_eq (r_level x) (r_level r).
Proof.
  intros Hc Hx. induction Hx as [|m l s c Hin Hx IH].
  - apply worse_eq_refl.
  - assert (consistent c) as Hcc by (eapply consistent_sub; eauto).
    eapply worse_eq_trans; [apply IH; auto|].
    apply (Hc (Res m l s) c); simpl; auto. constructor.
Qed.

Lemma verdict_is_worst r ls :
  assembled r ls ->
  In (r_level r) ls /\ (forall l, In l ls -> worse_eq l (r_level r))
  /\ (forall x, occurs x r -> worse_eq (r_level x) (r_level r)).
Proof.
  intros H. destruct (assembled_level _ _ H). repeat split; auto.
  intros x Hx. apply consistent_level; auto. eapply assembled_consistent; eauto.
Qed.

Lemma ok_no_errors r ls :
  assembled r ls -> (ok r = true <-> ~ In ERROR ls /\ ~ In CRITICAL ls).
Proof.
  intros H. destruct (assembled_level _ _ H) as [H1 H2]. unfold ok. rewrite level_ok_spec. split.
  - intros [Ha Hb]. split; intros Hi; apply H2 in Hi; destruct (r_level r); simpl in Hi; tauto.
  - intros [Ha Hb]. split; intros E; rewrite E in H1; tauto.
Qed.

Lemma ok_all_entries r ls :
  assembled r ls -> (ok r = true <-> forall x, occurs x r -> r_level x <> ERROR /\ r_level x <> CRITICAL).
Proof.
  intros H. unfold ok. split.
  - intros Ho x Hx. apply level_ok_spec. eapply level_ok_mono; [|apply Ho].
    apply consistent_level; auto. eapply assembled_consistent; eauto.
  - intros Ha. apply level_ok_spec. apply Ha. constructor.
Qed.

(* C03 *)
Lemma fold_or_absorb l ls : (forall x, In x ls -> worse_eq x l) -> fold_left level_or ls l = l.
Proof.
  revert l; induction ls as [|a ls IH]; intros l H; simpl; auto.
  rewrite level_or_absorb by (apply H; simpl; auto). apply IH. intros; apply H; simpl; auto.
Qed.
Lemma fold_or_ge l ls : worse_eq l (fold_left level_or ls l).
Proof.
  revert l; induction ls as [|a ls IH]; intros l; simpl; [apply worse_eq_refl|].
  eapply worse_eq_trans; [apply level_or_ub_l|apply IH].
Qed.
Lemma fold_or_ge_in l ls x : In x ls -> worse_eq x (fold_left level_or ls l).
Proof.
  revert l; induction ls as [|a ls IH]; intros l; simpl; [tauto|]. intros [->|H]; auto.
  eapply worse_eq_trans; [apply (level_or_ub_r l)|apply fold_or_ge].
Qed.

Fixpoint items_outcome (l : list json) : outcome (list result) :=
  match l with
  | [] => Val []
  | x :: l' => match from_json x with
               | Raise e => Raise e
               | Val r' => match items_outcome l' with Raise e => Raise e | Val rs => Val (r' :: rs) end
               end
  end.

Lemma from_json_dict m l items :
  from_json (JObj [ (lit "m", JStr m); (lit "l", JInt (level_value l)); (lit "s", JArr items) ])
  = match items_outcome items with Raise e => Raise e | Val rs => Val (appends (new_result m l) rs) end.
Proof.
  assert (forall l, level_of_value (level_value l) = Val l) as Hl by (intros []; reflexivity).
  assert (H : forall its, (fix items_go (l : list json) : outcome (list result) :=
            match l with
            | [] => Val []
            | x :: l' =>
                match from_json x with
                | Raise e => Raise e
                | Val r' => match items_go l' with
                            | Raise e => Raise e
                            | Val rs => Val (r' :: rs)
                            end
                end
            end) its = items_outcome its).
  { reflexivity. }
  cbn -[level_of_value items_outcome appends new_result]. rewrite Hl.
  cbn -[level_of_value items_outcome appends new_result]. rewrite H. reflexivity.
Qed.

(** The report read back: levels become the maximum over the sub tree. *)
Lemma from_json_raised r : exists r', from_json (to_dict r) = Val r' /\ raised r r' /\ consistent r'.
Proof.
  induction r as [m l s IH] using result_ind'. simpl to_dict.
  assert (exists s', items_outcome (map to_dict s) = Val s' /\ Forall2 raised s s' /\ Forall consistent s')
    as (s' & Hs1 & Hs2 & Hs3).
  { induction IH as [|c s (r' & H1 & H2 & H3) _ (s' & H4 & H5 & H6)]; simpl.
    - exists []. auto.
    - exists (r' :: s'). rewrite H1, H4. auto. }
  rewrite from_json_dict, Hs1. eexists. split; [reflexivity|].
  rewrite (result_eta (appends _ _)). rewrite appends_message, appends_subs, appends_level. simpl.
  split.
  - constructor; auto. apply fold_or_ge.
  - intros x d Hx Hd. inversion Hx; subst.
    + simpl in *. apply fold_or_ge_in. apply in_map; auto.
    + rewrite Forall_forall in Hs3. match goal with Hc : In ?c s' |- _ => apply (Hs3 c Hc x d); auto end.
Qed.

Lemma from_json_consistent r : consistent r -> from_json (to_dict r) = Val r.
Proof.
  induction r as [m l s IH] using result_ind'. intros Hc. simpl to_dict.
  assert (items_outcome (map to_dict s) = Val s) as Hs.
  { assert (forall c, In c s -> consistent c) as Hall.
    { intros c Hin. eapply consistent_sub; eauto. }
    clear Hc. induction IH as [|c s H1 _ IH2]; simpl; auto.
    rewrite H1 by (apply Hall; simpl; auto). rewrite IH2 by (intros; apply Hall; simpl; auto). reflexivity. }
  rewrite from_json_dict, Hs. f_equal. rewrite (result_eta (appends _ _)).
  rewrite appends_message, appends_subs, appends_level. simpl. f_equal.
  apply fold_or_absorb. intros x Hx. apply in_map_iff in Hx as (c & <- & Hin).
  apply (Hc (Res m l s) c); simpl; auto. constructor.
Qed.

Lemma roundtrip_iff r : from_json (to_dict r) = Val r <-> consistent r.
Proof.
  split; [|apply from_json_consistent].
  intros H. destruct (from_json_raised r) as (r' & H1 & _ & H2). assert (r' = r) by congruence. subst. exact H2.
Qed.

(* C05 *)
Fixpoint paths (r : result) : list (list nat) :=
  match r with
  | Res _ _ s => [] :: (fix go i l := match l with
                                      | [] => []
                                      | c :: l' => map (cons i) (paths c) ++ go (S i) l'
                                      end) O s
  end.
Fixpoint sub_paths (i : nat) (l : list result) : list (list nat) :=
  match l with [] => [] | c :: l' => map (cons i) (paths c) ++ sub_paths (S i) l' end.
Lemma paths_eq m l s : paths (Res m l s) = [] :: sub_paths 0 s.
Proof. reflexivity. Qed.

Lemma in_sub_paths i l p :
  In p (sub_paths i l) <-> exists k q c, p = (i + k) :: q /\ nth_error l k = Some c /\ In q (paths c).
Proof.
  revert i; induction l as [|c l IH]; intros i; simpl.
  - split; [tauto|]. intros (k & q & c & _ & H & _). destruct k; discriminate.
  - rewrite in_app_iff, in_map_iff, IH. split.
    + intros [(q & <- & Hq)|(k & q & c' & -> & H1 & H2)].
      * exists 0, q, c. rewrite Nat.add_0_r. auto.
      * exists (S k), q, c'. rewrite <- plus_n_Sm. auto.
    + intros (k & q & c' & -> & H1 & H2). destruct k as [|k]; simpl in H1.
      * inversion H1; subst. left. exists q. rewrite Nat.add_0_r. auto.
      * right. exists k, q, c'. rewrite <- plus_n_Sm. auto.
Qed.

Lemma in_paths r p : In p (paths r) <-> exists x, node_at r p = Some x.
Proof.
  revert p; induction r as [m l s IH] using result_ind'. intros p. rewrite paths_eq. simpl.
  rewrite Forall_forall in IH. split.
  - intros [<-|H]; [simpl; eauto|]. apply in_sub_paths in H as (k & q & c & -> & H1 & H2). simpl.
    rewrite H1. apply IH; auto. eapply nth_error_In; eauto.
  - intros (x & Hx). destruct p as [|i q]; auto. right. simpl in Hx.
    destruct (nth_error s i) as [c|] eqn:E; [|discriminate].
    apply in_sub_paths. exists i, q, c. repeat split; auto. apply IH; eauto. eapply nth_error_In; eauto.
Qed.

Lemma before_trans p q r : before p q -> before q r -> before p r.
Proof.
  intros H; revert r; induction H; intros r Hr; inversion Hr; subst; try constructor; auto; lia.
Qed.
Lemma before_irrefl p : ~ before p p.
Proof. induction p; intros H; inversion H; subst; auto; lia. Qed.

Lemma sorted_map_cons i l : StronglySorted before l -> StronglySorted before (map (cons i) l).
Proof.
  induction 1; simpl; constructor; auto. rewrite Forall_forall in *. intros q Hq.
  apply in_map_iff in Hq as (q' & <- & Hq'). apply before_eq; auto.
Qed.
Lemma sorted_app (a b : list (list nat)) :
  StronglySorted before a -> StronglySorted before b -> (forall x y, In x a -> In y b -> before x y) ->
  StronglySorted before (a ++ b).
Proof.
  induction 1 as [|x a Ha IH Hx]; simpl; intros Hb Hab; auto. constructor.
  - apply IH; auto.
  - rewrite Forall_forall in *. intros y Hy. apply in_app_or in Hy as [Hy|Hy]; auto.
Qed.
Lemma sub_paths_sorted i l : Forall (fun c => StronglySorted before (paths c)) l -> StronglySorted before (sub_paths i l).
Proof.
  intros H; revert i; induction H as [|c l Hc _ IH]; intros i; simpl; [constructor|].
  apply sorted_app; auto using sorted_map_cons.
  intros x y Hx Hy. apply in_map_iff in Hx as (q & <- & _).
  apply in_sub_paths in Hy as (k & q' & c' & -> & _). constructor; lia.
Qed.
Lemma paths_sorted r : StronglySorted before (paths r).
Proof.
  induction r as [m l s IH] using result_ind'. rewrite paths_eq. constructor.
  - apply sub_paths_sorted; auto.
  - rewrite Forall_forall. intros p Hp. apply in_sub_paths in Hp as (k & q & c & -> & _). constructor.
Qed.

Definition render (d : nat) (r : result) (p : list nat) : str :=
  match node_at r p with Some x => line_of (d + List.length p) x | None => [] end.

Lemma spaces n : repeat_str n (lit "   ") = List.repeat 32%N (3 * n).
Proof.
  induction n as [|n IH]; auto. unfold repeat_str in *. simpl List.concat. rewrite IH.
  replace (3 * S n) with (3 + 3 * n) by lia. reflexivity.
Qed.
Lemma color_ansi l : level_color l = ansi l.
Proof. destruct l; reflexivity. Qed.

Lemma to_lines_paths r d : to_lines r d = map (render d r) (paths r).
Proof.
  revert d; induction r as [m l s IH] using result_ind'. intros d. rewrite paths_eq.
  simpl. f_equal.
  - unfold render, line_of. simpl node_at. cbn [r_level r_message List.length].
    now rewrite Nat.add_0_r, spaces, color_ansi.
  - rewrite Forall_forall in IH.
    assert (forall i s1 s2, s = s1 ++ s2 -> i = List.length s1 ->
       flat_map (fun c => to_lines c (d + 1)) s2 = map (render d (Res m l s)) (sub_paths i s2)) as H.
    { intros i s1 s2; revert i s1; induction s2 as [|c s2 IH2]; intros i s1 Hs Hi; simpl; auto.
      rewrite map_app. f_equal.
      - rewrite IH by (subst s; apply in_or_app; simpl; auto). rewrite map_map. apply map_ext. intros q.
        unfold render. simpl. subst i s. rewrite nth_error_app2 by lia. rewrite Nat.sub_diag. simpl.
        destruct (node_at c q); auto. f_equal. lia.
      - apply (IH2 (S i) (s1 ++ [c])).
        + rewrite <- app_assoc. exact Hs.
        + rewrite app_length. simpl. lia. }
    apply (H 0 [] s); auto.
Qed.

Lemma text_report_complete r :
  exists ps, StronglySorted before ps
    /\ (forall p, In p ps <-> exists x, node_at r p = Some x)
    /\ Forall2 (fun p line => exists x, node_at r p = Some x /\ line = line_of (List.length p) x) ps (to_lines r 0).
Proof.
  exists (paths r). split; [apply paths_sorted|]. split; [apply in_paths|].
  rewrite to_lines_paths.
  assert (forall l, (forall p, In p l -> In p (paths r)) -> Forall2 (fun p line => exists x, node_at r p = Some x /\ line = line_of (List.length p) x) l (map (render 0 r) l)) as H.
  { induction l as [|p l IH]; intros Hl; simpl; constructor.
    - destruct (proj1 (in_paths r p) (Hl p (or_introl eq_refl))) as (x & Hx). exists x. split; auto.
      unfold render. now rewrite Hx.
    - apply IH. intros; apply Hl; simpl; auto. }
  apply H; auto.
Qed.

(* C07 *)
Lemma escape_plain s : plain (html_escape s) /\ ~ In 34%N (html_escape s) /\ ~ In 39%N (html_escape s).
Proof.
  unfold plain, html_escape. induction s as [|c s IH]; simpl.
  - tauto.
  - destruct IH as [[H1 H2] [H3 H4]].
    assert (forall x, (x = 60 \/ x = 62 \/ x = 34 \/ x = 39)%N -> ~ In x (escape_char c)) as Hc.
    { intros x Hx. unfold escape_char.
      destruct (N.eqb_spec c 38); [simpl; intuition lia|].
      destruct (N.eqb_spec c 60); [simpl; intuition lia|].
      destruct (N.eqb_spec c 62); [simpl; intuition lia|].
      destruct (N.eqb_spec c 34); [simpl; intuition lia|].
      destruct (N.eqb_spec c 39); [simpl; intuition lia|].
      simpl. intuition lia. }
    repeat split; intros Hi; apply in_app_or in Hi as [Hi|Hi]; try tauto; revert Hi; apply Hc; auto.
Qed.

Lemma unescape_escape s : forall fuel, (List.length (html_escape s) < fuel)%nat -> unescape fuel (html_escape s) = s.
Proof.
  induction s as [|c s IH]; intros fuel Hf.
  - destruct fuel; [simpl in Hf; lia|reflexivity].
  - destruct fuel as [|f]; [lia|]. unfold html_escape in *. simpl flat_map in *. rewrite app_length in Hf.
    unfold escape_char in *.
    destruct (N.eqb_spec c 38) as [->|N1].
    { simpl. rewrite IH; auto. simpl in Hf; lia. }
    destruct (N.eqb_spec c 60) as [->|N2].
    { simpl. rewrite IH; auto. simpl in Hf; lia. }
    destruct (N.eqb_spec c 62) as [->|N3].
    { simpl. rewrite IH; auto. simpl in Hf; lia. }
    destruct (N.eqb_spec c 34) as [->|N4].
    { simpl. rewrite IH; auto. simpl in Hf; lia. }
    destruct (N.eqb_spec c 39) as [->|N5].
    { simpl. rewrite IH; auto. simpl in Hf; lia. }
    assert (forall t r, startswith (38%N :: t) (c :: r) = false) as Hs.
    { intros. cbn [startswith]. destruct (N.eqb_spec 38 c); [congruence|reflexivity]. }
    cbn [app unescape].
    change (lit "&amp;") with (38%N :: lit "amp;"). change (lit "&lt;") with (38%N :: lit "lt;").
    change (lit "&gt;") with (38%N :: lit "gt;"). change (lit "&quot;") with (38%N :: lit "quot;").
    change (lit "&#x27;") with (38%N :: lit "#x27;").
    rewrite !Hs. rewrite IH; auto. simpl in Hf; lia.
Qed.

Lemma browser_text_escape s : browser_text (html_escape s) = s.
Proof. apply unescape_escape. lia. Qed.

(* C06 *)
Lemma plain_app a b : plain a -> plain b -> plain (a ++ b).
Proof. unfold plain. rewrite !in_app_iff. tauto. Qed.

Lemma dec_aux_digits fuel n acc :
  Forall (fun c => 48 <= c <= 57)%N acc -> Forall (fun c => 48 <= c <= 57)%N (dec_aux fuel n acc).
Proof.
  revert n acc; induction fuel as [|f IH]; intros n acc H; cbn [dec_aux]; auto.
  assert (48 <= 48 + n mod 10 <= 57)%N.
  { assert (n mod 10 < 10)%N by (apply N.mod_lt; lia). generalize dependent (n mod 10)%N. intros; lia. }
  destruct (n <? 10)%N.
  - constructor; auto.
  - apply IH. constructor; auto.
Qed.
Lemma dec_digits n : Forall (fun c => 48 <= c <= 57)%N (dec_of_nat n).
Proof. apply dec_aux_digits. constructor. Qed.
Lemma digits_not_in x s : Forall (fun c => 48 <= c <= 57)%N s -> ~ (48 <= x <= 57)%N -> ~ In x s.
Proof. intros H Hx Hi. rewrite Forall_forall in H. apply Hx, H, Hi. Qed.

Ltac not_in := vm_compute; intros HH; repeat (destruct HH as [HH|HH]; [discriminate|]); exact HH.

Lemma class_attr v : plain v -> ~ In 34%N v -> attributes (32%N :: lit "class" ++ lit "=" ++ 34%N :: v ++ 34%N :: []).
Proof.
  intros H1 H2. apply (attrs_cons (lit "class") v []); auto.
  - discriminate.
  - repeat (apply Forall_cons; [left; vm_compute; split; discriminate|]); apply Forall_nil.
  - constructor.
Qed.

Lemma html_class_plain l : plain (html_class l) /\ ~ In 34%N (html_class l).
Proof. destruct l; repeat split; not_in. Qed.

Lemma name_div : lit "div" <> [] /\ Forall name_char (lit "div").
Proof. split; [discriminate|]. repeat (apply Forall_cons; [left; vm_compute; split; discriminate|]); apply Forall_nil. Qed.
Lemma name_span : lit "span" <> [] /\ Forall name_char (lit "span").
Proof. split; [discriminate|]. repeat (apply Forall_cons; [left; vm_compute; split; discriminate|]); apply Forall_nil. Qed.

Lemma nl_plain : plain nl.
Proof. split; not_in. Qed.

Lemma div_markup body : markup body -> markup (lit "<div>" ++ body ++ lit "</div>").
Proof.
  intros H. destruct name_div as [H1 H2].
  pose proof (mk_elem (lit "div") [] body H1 H2 attrs_nil H) as Hm.
  change (lit "<" ++ lit "div" ++ [] ++ lit ">" ++ body ++ lit "</" ++ lit "div" ++ lit ">")
    with (lit "<div>" ++ body ++ lit "</" ++ lit "div" ++ lit ">") in Hm. exact Hm.
Qed.
Lemma div_class_markup v body : plain v -> ~ In 34%N v -> markup body ->
  markup (lit "<div class=" ++ dq ++ v ++ dq ++ lit ">" ++ body ++ lit "</div>").
Proof.
  intros Hv1 Hv2 H. destruct name_div as [H1 H2].
  pose proof (mk_elem (lit "div") _ body H1 H2 (class_attr v Hv1 Hv2) H) as Hm.
  match goal with |- markup ?x => match type of Hm with markup ?y => replace x with y; auto end end.
  simpl. repeat (f_equal; []). rewrite <- !app_assoc. reflexivity.
Qed.
Lemma span_class_markup v : plain v -> ~ In 34%N v ->
  markup (lit "<span class=" ++ dq ++ v ++ dq ++ lit "/>").
Proof.
  intros Hv1 Hv2. destruct name_span as [H1 H2].
  pose proof (mk_empty (lit "span") _ H1 H2 (class_attr v Hv1 Hv2)) as Hm.
  match goal with |- markup ?x => match type of Hm with markup ?y => replace x with y; auto end end.
  simpl. repeat (f_equal; []). rewrite <- !app_assoc. reflexivity.
Qed.

Lemma caret_plain depth (o : bool) :
  let v := lit "caret level-" ++ dec_of_nat depth ++ lit " " ++ (if o then [] else lit "caret-down") in
  plain v /\ ~ In 34%N v.
Proof.
  cbv zeta. pose proof (dec_digits depth) as Hd.
  assert (forall x, (x = 60 \/ x = 62 \/ x = 34)%N ->
    ~ In x (lit "caret level-" ++ dec_of_nat depth ++ lit " " ++ (if o then [] else lit "caret-down"))) as H.
  { intros x Hx. rewrite !in_app_iff. intros [H|[H|[H|H]]].
    - destruct Hx as [->|[->| ->]]; revert H; not_in.
    - revert H. apply digits_not_in; auto. lia.
    - destruct Hx as [->|[->| ->]]; revert H; not_in.
    - destruct o; [destruct H|]. destruct Hx as [->|[->| ->]]; revert H; not_in. }
  repeat split; apply H; auto.
Qed.
Lemma subres_plain (o : bool) :
  let v := lit "sub-results " ++ (if o then [] else lit "visible") in plain v /\ ~ In 34%N v.
Proof. destruct o; repeat split; not_in. Qed.

Lemma html_markup r depth : markup (to_html_frag r depth).
Proof.
  revert depth; induction r as [m l s IH] using result_ind'. intros depth.
  assert (markup (flat_map (fun c => to_html_frag c (depth + 1)) s)) as Hs.
  { induction IH; simpl; [constructor|]. apply mk_app; auto. }
  cbn [to_html_frag].
  destruct (html_class_plain l) as [Hc1 Hc2].
  destruct (escape_plain m) as [Hm _].
  assert (forall x, markup x -> markup (x ++ nl)) as Hnl.
  { intros x Hx. apply mk_app; auto. apply mk_text, nl_plain. }
  assert (forall x, markup x -> markup (nl ++ x)) as Hnl'.
  { intros x Hx. apply mk_app; auto. apply mk_text, nl_plain. }
  match goal with |- markup ((lit "<div>" ++ nl) ++ ?b ++ (lit "</div>" ++ nl)) =>
    assert (markup b) as Hb; [|
      replace ((lit "<div>" ++ nl) ++ b ++ (lit "</div>" ++ nl)) with ((lit "<div>" ++ (nl ++ b) ++ lit "</div>") ++ nl)
        by (rewrite <- !app_assoc; reflexivity);
      apply Hnl, div_markup, Hnl', Hb]
  end.
  destruct s as [|c s].
  - replace (lit "<div class=" ++ dq ++ html_class l ++ dq ++ lit ">" ++ html_escape m ++ lit "</div>" ++ nl)
      with ((lit "<div class=" ++ dq ++ html_class l ++ dq ++ lit ">" ++ html_escape m ++ lit "</div>") ++ nl)
      by (rewrite <- !app_assoc; reflexivity).
    apply Hnl, div_class_markup; auto. apply mk_text; auto.
  - set (o := level_ok l). set (subs := c :: s) in *.
    destruct (caret_plain depth o) as [Hd1 Hd2]. destruct (subres_plain o) as [He1 He2].
    match goal with |- markup (?a ++ ?b ++ ?c ++ ?d) =>
      replace (a ++ b ++ c ++ d) with
       (((lit "<div class=" ++ dq ++ html_class l ++ dq ++ lit ">"
          ++ (html_escape m ++ (lit "<span class=" ++ dq ++ (lit "caret level-" ++ dec_of_nat depth ++ lit " " ++ (if o then [] else lit "caret-down")) ++ dq ++ lit "/>"))
          ++ lit "</div>") ++ nl)
        ++ ((lit "<div class=" ++ dq ++ (lit "sub-results " ++ (if o then [] else lit "visible")) ++ dq ++ lit ">"
          ++ (nl ++ c) ++ lit "</div>") ++ nl))
    end.
    + apply mk_app; apply Hnl; apply div_class_markup; auto.
      apply mk_app; [apply mk_text; auto|]. apply span_class_markup; auto.
    + change (lit "/></div>") with (lit "/>" ++ lit "</div>").
      rewrite <- !app_assoc. reflexivity.
Qed.

(* messages occur escaped *)
Lemma contains_app_r sub a b : contains sub b = true -> contains sub (a ++ b) = true.
Proof. rewrite !contains_spec. intros (x & y & ->). exists (a ++ x), y. now rewrite <- app_assoc. Qed.
Lemma contains_app_l sub a b : contains sub a = true -> contains sub (a ++ b) = true.
Proof. rewrite !contains_spec. intros (x & y & ->). exists x, (y ++ b). now rewrite <- !app_assoc. Qed.
Lemma contains_flat_map {A} sub (f : A -> str) l x : In x l -> contains sub (f x) = true -> contains sub (flat_map f l) = true.
Proof.
  induction l as [|a l IH]; simpl; [tauto|]. intros [->|H] Hc; [apply contains_app_l|apply contains_app_r]; auto.
Qed.
Lemma html_contains_message x r : occurs x r -> forall depth,
  contains (lit ">" ++ html_escape (r_message x) ++ lit "<") (to_html_frag r depth) = true.
Proof.
  induction 1 as [|m l s c Hin Hx IH]; intros depth.
  - destruct x as [m l s]. cbn [to_html_frag r_message]. apply contains_app_r, contains_app_l.
    destruct s as [|c s].
    + do 4 apply contains_app_r. apply contains_spec. exists [], (lit "/div>" ++ nl).
      change (lit "</div>") with (lit "<" ++ lit "/div>"). rewrite <- !app_assoc. reflexivity.
    + apply contains_app_l. do 4 apply contains_app_r. apply contains_spec.
      eexists [], _. rewrite <- !app_assoc. change (lit "<span class=") with (lit "<" ++ lit "span class=").
      rewrite <- !app_assoc. reflexivity.
  - cbn [to_html_frag]. apply contains_app_r, contains_app_l.
    destruct s as [|c' s]; [destruct Hin|]. do 2 apply contains_app_r. apply contains_app_l.
    eapply contains_flat_map; eauto.
Qed.

(* template replacement *)
Lemma startswith_len p s : startswith p s = true -> s = p ++ skipn (List.length p) s.
Proof.
  revert s; induction p as [|x p IH]; intros s; simpl; auto. destruct s as [|y s]; [congruence|].
  rewrite andb_true_iff, N.eqb_eq. intros [<- H]. f_equal. auto.
Qed.

Lemma replace_none old new s : contains old s = false -> replace_aux old new 0 s = s.
Proof.
  induction s as [|c s IH]; auto. intros H. simpl contains in H. apply orb_false_iff in H as [H1 H2].
  cbn [replace_aux]. change (startswith old (c :: s)) with (startswith old (c :: s)) in *.
  rewrite H1. f_equal. auto.
Qed.
Lemma replace_skip old new a s : replace_aux old new (List.length a) (a ++ s) = replace_aux old new 0 s.
Proof. induction a; simpl; auto. Qed.

Lemma replace_at old new pre post :
  old <> [] ->
  (forall a b, pre ++ old ++ post = a ++ old ++ b -> a = pre) ->
  replace old new (pre ++ old ++ post) = pre ++ new ++ post.
Proof.
  unfold replace. intros Hold. induction pre as [|c pre IH]; intros Hu.
  - destruct old as [|o old]; [congruence|]. cbn [app replace_aux].
    replace (startswith (o :: old) (o :: old ++ post)) with true
      by (symmetry; apply (startswith_app (o :: old))).
    simpl. rewrite Nat.sub_0_r, replace_skip. f_equal. apply replace_none.
    destruct (contains (o :: old) post) eqn:E; auto. exfalso.
    apply contains_spec in E as (a & b & ->).
    assert ((o :: old) ++ a = []) as H; [|discriminate].
    apply (Hu _ b). simpl. rewrite <- !app_assoc. reflexivity.
  - cbn [app replace_aux].
    destruct (startswith old (c :: pre ++ old ++ post)) eqn:E.
    + exfalso. apply startswith_spec in E as [t Ht]. assert ([] = c :: pre); [|discriminate].
      apply (Hu [] t). exact Ht.
    + f_equal. apply IH. intros a b H. assert (c :: a = c :: pre) as Hx; [|congruence].
      apply (Hu (c :: a) b). simpl. now rewrite H.
Qed.

Lemma to_html_page pre post r :
  single_placeholder pre post -> to_html (pre ++ placeholder ++ post) r = pre ++ to_html_frag r 0 ++ post.
Proof. intros H. apply replace_at; auto. discriminate. Qed.

(* C04: heap *)
Lemma update_length {A} i f (l : list A) : List.length (update i f l) = List.length l.
Proof. revert i; induction l as [|x l IH]; intros [|i]; simpl; auto. Qed.
Lemma nth_update_same {A} i f (l : list A) x : nth_error l i = Some x -> nth_error (update i f l) i = Some (f x).
Proof. revert i; induction l as [|y l IH]; intros [|i]; simpl; try congruence; auto. Qed.
Lemma nth_update_other {A} i j f (l : list A) : i <> j -> nth_error (update i f l) j = nth_error l j.
Proof. revert i j; induction l as [|y l IH]; intros [|i] [|j] H; simpl; auto; congruence. Qed.

Lemma hrun_snoc ops o : hrun (ops ++ [o]) = hstep (hrun ops) o.
Proof. unfold hrun. now rewrite fold_left_app. Qed.

(** invariant: every edge was created by an append, and goes to an existing, at most as severe object *)
Lemma bottom_up_edges ops : bottom_up ops -> forall i n k,
  nth_error (hrun ops) i = Some n -> In k (n_subs n) ->
  In (HAppend i k) ops /\ exists c, nth_error (hrun ops) k = Some c /\ worse_eq (n_level c) (n_level n).
Proof.
  induction 1 as [|ops m l Hb IH|ops i j Hb IH Hij Hfresh]; intros a n k Ha Hk.
  - destruct a; discriminate.
  - rewrite hrun_snoc in *. cbn [hstep] in *. rewrite in_app_iff.
    destruct (Nat.lt_ge_cases a (List.length (hrun ops))) as [Hlt|Hge].
    + rewrite nth_error_app1 in Ha by auto. destruct (IH _ _ _ Ha Hk) as (H1 & c & H2 & H3). split; auto.
      exists c. split; auto. rewrite nth_error_app1; auto. apply nth_error_Some. congruence.
    + rewrite nth_error_app2 in Ha by auto. destruct (a - _); simpl in Ha.
      * inversion Ha; subst. destruct Hk.
      * destruct n0; discriminate.
  - rewrite hrun_snoc in *. cbn [hstep] in *.
    destruct (nth_error (hrun ops) i) as [ni|] eqn:Ei.
    2: { destruct (IH _ _ _ Ha Hk) as (H1 & c & H2 & H3). rewrite in_app_iff. split; eauto. }
    destruct (nth_error (hrun ops) j) as [nj|] eqn:Ej.
    2: { destruct (IH _ _ _ Ha Hk) as (H1 & c & H2 & H3). rewrite in_app_iff. split; eauto. }
    rewrite in_app_iff.
    set (f := fun n => Node (n_message n) (level_or (n_level n) (n_level nj)) (n_subs n ++ [j])) in *.
    destruct (Nat.eq_dec i a) as [<-|Hne].
    + rewrite (nth_update_same _ _ _ _ Ei) in Ha. inversion Ha; subst n. simpl in Hk.
      apply in_app_or in Hk as [Hk|[<-|[]]].
      * destruct (IH _ _ _ Ei Hk) as (H1 & c & H2 & H3). split; auto.
        assert (i <> k) by (intros <-; apply (Hfresh i); auto).
        exists c. rewrite nth_update_other by auto. split; auto. simpl.
        eapply worse_eq_trans; [exact H3|apply level_or_ub_l].
      * split; [right; simpl; auto|]. exists nj. rewrite nth_update_other by auto. split; auto. simpl. apply level_or_ub_r.
    + rewrite nth_update_other in Ha by auto. destruct (IH _ _ _ Ha Hk) as (H1 & c & H2 & H3). split; auto.
      assert (i <> k) by (intros ->; apply (Hfresh a); auto).
      exists c. rewrite nth_update_other by auto. auto.
Qed.

Lemma bottom_up_sound ops i j ni nj :
  bottom_up ops -> reach (hrun ops) i j ->
  nth_error (hrun ops) i = Some ni -> nth_error (hrun ops) j = Some nj ->
  worse_eq (n_level nj) (n_level ni).
Proof.
  intros Hb Hr. revert ni nj. induction Hr as [i|i k j n Hn Hk Hr IH]; intros ni nj Hi Hj.
  - replace nj with ni by congruence. apply worse_eq_refl.
  - assert (n = ni) by congruence; subst n.
    destruct (bottom_up_edges ops Hb i ni k Hi Hk) as (_ & c & Hc & Hle).
    eapply worse_eq_trans; [apply (IH c nj Hc Hj)|exact Hle].
Qed.
