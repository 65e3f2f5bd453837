(** Properties C01 - C10. *)
From Coq Require Import List NArith ZArith Bool Sorted.
From Coq Require Import String. Open Scope list_scope.
From Verif Require Import PyStr PyStrFacts PyBase ResultModel HeapModel ContextModel ResultSpec ContextSpec ResultFacts ContextFacts.
Import ListNotations.

(** ** C01 *)
Theorem C01_verdict_is_worst : forall r ls, assembled r ls ->
  In (r_level r) ls /\ (forall l, In l ls -> worse_eq l (r_level r))
  /\ (forall x, occurs x r -> worse_eq (r_level x) (r_level r)).
Proof. exact verdict_is_worst. Qed.
Theorem C01_ok_iff_no_error : forall r ls, assembled r ls ->
  (ok r = true <-> ~ In ERROR ls /\ ~ In CRITICAL ls).
Proof. exact ok_no_errors. Qed.
Theorem C01_ok_iff_all_entries : forall r ls, assembled r ls ->
  (ok r = true <-> forall x, occurs x r -> r_level x <> ERROR /\ r_level x <> CRITICAL).
Proof. exact ok_all_entries. Qed.
Print Assumptions C01_verdict_is_worst.
Print Assumptions C01_ok_iff_no_error.
Print Assumptions C01_ok_iff_all_entries.

Definition ex_tree : result :=
  append (append (new_result (lit "root") INFO)
                 (append (new_result (lit "a") INFO) (new_result (lit "a1") WARNING)))
         (append (new_result (lit "b") INFO) (append (new_result (lit "b1") INFO) (new_result (lit "b11") ERROR))).
Example ex_tree_assembled : assembled ex_tree [INFO; INFO; WARNING; INFO; INFO; ERROR].
Proof.
  apply (asm_append _ [INFO; INFO; WARNING] _ [INFO; INFO; ERROR]).
  - apply (asm_append _ [INFO] _ [INFO; WARNING]); [constructor|].
    apply (asm_append _ [INFO] _ [WARNING]); constructor.
  - apply (asm_append _ [INFO] _ [INFO; ERROR]); [constructor|].
    apply (asm_append _ [INFO] _ [ERROR]); constructor.
Qed.
Example ex_tree_level : r_level ex_tree = ERROR /\ ok ex_tree = false.
Proof. split; reflexivity. Qed.

(** ** C02 *)
Theorem C02_append : forall r c,
  worse_eq (r_level r) (r_level (append r c))
  /\ worse_eq (r_level c) (r_level (append r c))
  /\ (r_level (append r c) = r_level r \/ r_level (append r c) = r_level c)
  /\ r_subs (append r c) = r_subs r ++ [c]
  /\ r_message (append r c) = r_message r
  /\ (ok (append r c) = true <-> ok r = true /\ ok c = true).
Proof.
  intros r c. rewrite append_level, append_subs, append_message, ok_append, andb_true_iff.
  repeat split; auto using level_or_ub_l, level_or_ub_r, level_or_either; tauto.
Qed.
Print Assumptions C02_append.
Example C02_ex : ok (append (new_result (lit "x") WARNING) (new_result (lit "y") CRITICAL)) = false
  /\ ok (append (new_result (lit "x") INFO) (new_result (lit "y") WARNING)) = true.
Proof. split; reflexivity. Qed.

(** ** C03 *)
Theorem C03_roundtrip_iff : forall r, from_json (to_dict r) = Val r <-> consistent r.
Proof. exact roundtrip_iff. Qed.
Theorem C03_assembled_roundtrip : forall r ls, assembled r ls -> from_json (to_dict r) = Val r.
Proof. intros r ls H. apply roundtrip_iff. eapply assembled_consistent; eauto. Qed.
Theorem C03_always_readable : forall r, exists r', from_json (to_dict r) = Val r' /\ raised r r' /\ consistent r'.
Proof. exact from_json_raised. Qed.
Print Assumptions C03_roundtrip_iff.
Print Assumptions C03_assembled_roundtrip.
Print Assumptions C03_always_readable.
Example C03_ex : from_json (to_dict ex_tree) = Val ex_tree.
Proof. vm_compute. reflexivity. Qed.

(** ** C04: false in general, true for bottom-up use *)
Definition late_ops : list hop :=
  [HNew (lit "parent") INFO; HNew (lit "child") INFO; HNew (lit "late") ERROR; HAppend 0 1; HAppend 1 2].
Theorem C04_late_finding_refuted : exists ops i j ni nj,
  reach (hrun ops) i j /\ nth_error (hrun ops) i = Some ni /\ nth_error (hrun ops) j = Some nj
  /\ n_level nj = ERROR /\ level_ok (n_level ni) = true.
Proof.
  exists late_ops, 0, 2. eexists _, _. split; [|split; [reflexivity|split; [reflexivity|split; reflexivity]]].
  eapply reach_step with (k := 1); [reflexivity|simpl; auto|].
  eapply reach_step with (k := 2); [reflexivity|simpl; auto|]. constructor.
Qed.
Theorem C04_bottom_up : forall ops i j ni nj, bottom_up ops -> reach (hrun ops) i j ->
  nth_error (hrun ops) i = Some ni -> nth_error (hrun ops) j = Some nj ->
  worse_eq (n_level nj) (n_level ni).
Proof. exact bottom_up_sound. Qed.
Print Assumptions C04_late_finding_refuted.
Print Assumptions C04_bottom_up.
Example C04_ex : bottom_up [HNew (lit "p") INFO; HNew (lit "c") INFO; HNew (lit "e") ERROR; HAppend 1 2; HAppend 0 1].
Proof.
  change (bottom_up (([HNew (lit "p") INFO; HNew (lit "c") INFO; HNew (lit "e") ERROR] ++ [HAppend 1 2]) ++ [HAppend 0 1])).
  apply bu_append; [|discriminate|].
  - apply bu_append; [|discriminate|].
    + repeat (match goal with
              | |- bottom_up [HNew ?a ?b; HNew ?c ?d; HNew ?e ?f] => change (bottom_up ([HNew a b; HNew c d] ++ [HNew e f])); apply bu_new
              | |- bottom_up [HNew ?a ?b; HNew ?c ?d] => change (bottom_up ([HNew a b] ++ [HNew c d])); apply bu_new
              | |- bottom_up [HNew ?a ?b] => change (bottom_up ([] ++ [HNew a b])); apply bu_new
              end). constructor.
    + intros k. simpl. intros [H|[H|[H|[]]]]; discriminate.
  - intros k. simpl. intros [H|[H|[H|[H|[]]]]]; discriminate.
Qed.

(** ** C05 *)
Theorem C05_text_report : forall r, exists ps,
  StronglySorted before ps
  /\ (forall p, In p ps <-> exists x, node_at r p = Some x)
  /\ Forall2 (fun p line => exists x, node_at r p = Some x /\ line = line_of (List.length p) x) ps (to_lines r 0).
Proof. exact text_report_complete. Qed.
Print Assumptions C05_text_report.
Example C05_ex : List.length (to_lines ex_tree 0) = 6.
Proof. reflexivity. Qed.

(** ** C06 *)
Theorem C06_html_well_formed : forall r depth, markup (to_html_frag r depth).
Proof. exact html_markup. Qed.
Theorem C06_html_page : forall pre post r, single_placeholder pre post ->
  to_html (pre ++ placeholder ++ post) r = pre ++ to_html_frag r 0 ++ post.
Proof. exact to_html_page. Qed.
Print Assumptions C06_html_well_formed.
Print Assumptions C06_html_page.

(** ** C07 *)
Theorem C07_no_injection : forall m,
  ~ In 60%N (html_escape m) /\ ~ In 62%N (html_escape m) /\ ~ In 34%N (html_escape m) /\ ~ In 39%N (html_escape m)
  /\ browser_text (html_escape m) = m.
Proof.
  intros m. destruct (escape_plain m) as [[H1 H2] [H3 H4]]. repeat split; auto. apply browser_text_escape.
Qed.
Theorem C07_every_message_shown_escaped : forall x r depth, occurs x r ->
  contains (lit ">" ++ html_escape (r_message x) ++ lit "<") (to_html_frag r depth) = true.
Proof. intros x r depth H. now apply html_contains_message. Qed.
Print Assumptions C07_no_injection.
Print Assumptions C07_every_message_shown_escaped.
Example C07_ex : html_escape (lit "<script>alert('x') & y</script>")
  = lit "&lt;script&gt;alert(&#x27;x&#x27;) &amp; y&lt;/script&gt;".
Proof. vm_compute. reflexivity. Qed.

(** ** C08 *)
Theorem C08_stack_restored : forall c f rest n, exists n',
  exec c (MState (f :: rest) n)
  = (snd (meaning c), MState (Frame (f_id f) (appends (f_result f) (fst (meaning c))) :: rest) n').
Proof. exact exec_refines. Qed.
Theorem C08_stack_restored_toplevel : forall c n, exists n', exec c (MState [] n) = (toplevel c, MState [] n').
Proof. exact exec_toplevel. Qed.
Print Assumptions C08_stack_restored.
Print Assumptions C08_stack_restored_toplevel.
Definition ex_prog : cmd :=
  CSeq (CWith (new_result (lit "one") INFO) false
          (CSeq (CWrite (new_result (lit "w") INFO))
                (CSeq (CWith (new_result (lit "two") INFO) false
                         (CSeq (CAbort (new_result (lit "stop") ERROR)) (CWrite (new_result (lit "never") INFO))))
                      (CWrite (new_result (lit "after") INFO)))))
       (CWith (new_result (lit "three") INFO) true (CRaise KeyError (lit "boom"))).
Example C08_ex : meaning ex_prog =
  ([ Res (lit "one") ERROR [new_result (lit "w") INFO; Res (lit "two") ERROR [new_result (lit "stop") ERROR]; new_result (lit "after") INFO];
     Res (lit "three") CRITICAL [new_result (lit "Internal error: boom") CRITICAL] ], Ret tt).
Proof. vm_compute. reflexivity. Qed.

(** ** C09: after code [pre] that runs to its end, an abort ends the block; the rest [post] of the
    block is not executed, the continuation [k] is. *)
Theorem C09_abort_is_local : forall r catch pre a post k f rest n,
  snd (meaning pre) = Ret tt ->
  exists n', exec (CSeq (CWith r catch (CSeq pre (CSeq (CAbort a) post))) k) (MState (f :: rest) n)
    = (snd (meaning k),
       MState (Frame (f_id f)
         (appends (append (f_result f) (append (appends r (fst (meaning pre))) a)) (fst (meaning k))) :: rest) n').
Proof. exact with_abort. Qed.
Print Assumptions C09_abort_is_local.
Example C09_ex : snd (meaning (CSeq (CWrite (new_result (lit "w") INFO)) CSkip)) = Ret tt.
Proof. reflexivity. Qed.

(** ** C10 *)
Theorem C10_catch_all : forall r body st,
  exists v st', exec (CWith r true body) st = (Ret v, st').
Proof.
  intros r body [[|f rest] n].
  - destruct (exec_toplevel (CWith r true body) n) as [n' H]. rewrite H. simpl.
    destruct (snd (meaning body)); eexists _, _; reflexivity.
  - destruct (exec_refines (CWith r true body) f rest n) as [n' H]. rewrite H. simpl.
    destruct (meaning body) as [es [?|?|? ?]]; eexists _, _; reflexivity.
Qed.
Theorem C10_catch_all_is_critical : forall r body f rest n es e t,
  meaning body = (es, Exc e t) ->
  exists n' c, exec (CWith r true body) (MState (f :: rest) n)
      = (Ret tt, MState (Frame (f_id f) (append (f_result f) c) :: rest) n')
    /\ r_level c = CRITICAL /\ In (new_result (lit "Internal error: " ++ t) CRITICAL) (r_subs c)
    /\ (forall x, In x es -> In x (r_subs c)).
Proof.
  intros r body f rest n es e t Hb. destruct (exec_refines (CWith r true body) f rest n) as [n' H].
  simpl in H. rewrite Hb in H. simpl in H.
  eexists n', _. split; [exact H|]. split; [|split].
  - rewrite appends_snoc, append_level. destruct (r_level (appends r es)); reflexivity.
  - rewrite appends_subs. apply in_or_app; right. apply in_or_app; simpl; auto.
  - intros x Hx. rewrite appends_subs. apply in_or_app; right. apply in_or_app; auto.
Qed.
Theorem C10_propagated_unchanged : forall r body f rest n es e t,
  meaning body = (es, Exc e t) ->
  exists n', exec (CWith r false body) (MState (f :: rest) n)
      = (Exc e t, MState (Frame (f_id f) (f_result f) :: rest) n').
Proof.
  intros r body f rest n es e t Hb. destruct (exec_refines (CWith r false body) f rest n) as [n' H].
  simpl in H. rewrite Hb in H. eexists. exact H.
Qed.
Print Assumptions C10_catch_all.
Print Assumptions C10_catch_all_is_critical.
Print Assumptions C10_propagated_unchanged.
Example C10_ex : meaning (CSeq (CWrite (new_result (lit "w") INFO)) (CRaise ValueError (lit "v")))
  = ([new_result (lit "w") INFO], Exc ValueError (lit "v")).
Proof. reflexivity. Qed.
