(** Property C92: the JSON texts that the command line tool prints. *)
From Coq Require Import PeanoNat String List NArith ZArith Bool Lia.
From Verif Require Import PyStr PyStrFacts PyBase ResultModel ResultSpec ResultFacts CliModel CliSpec JsonSpec JsonFacts P_Cli.
Import ListNotations.
Local Open Scope list_scope.

(** * C92 *)
(** all messages of a report *)
Inductive Messages (P : str -> Prop) : result -> Prop :=
| Messages_at r : P (r_message r) -> Forall (Messages P) (r_subs r) -> Messages P r.
(** a report with changed messages *)
Fixpoint with_messages (f : str -> str) (r : result) : result :=
  match r with Res m l s => Res (f m) l (List.map (with_messages f) s) end.

Lemma report_writable r : Messages (Forall code_point) r -> Writable (to_dict r).
Proof.
  induction r as [m l s IH] using result_ind'. intros M. inversion_clear M as [? A B]. cbn [r_message r_subs] in *. cbn [to_dict].
  apply W_obj. apply Forall_cons; [|apply Forall_cons; [|apply Forall_cons; [|apply Forall_nil]]]; cbn [fst snd]; (split; [repeat constructor|]).
  - now constructor.
  - constructor.
  - constructor. apply Forall_forall. intros j I. apply in_map_iff in I. destruct I as (x & <- & I).
    apply (proj1 (Forall_forall _ _) IH x I). exact (proj1 (Forall_forall _ _) B x I).
Qed.
Lemma report_joined r : joined_value (to_dict r) = to_dict (with_messages joined r).
Proof.
  induction r as [m l s IH] using result_ind'. cbn [to_dict joined_value with_messages List.map fst snd]. repeat f_equal.
  rewrite !map_map. apply map_ext_in. intros x I. exact (proj1 (Forall_forall _ _) IH x I).
Qed.
Lemma level_value_inj a b : level_value a = level_value b -> a = b.
Proof. destruct a, b; cbn; congruence. Qed.
Lemma to_dict_inj : forall r r', to_dict r = to_dict r' -> r = r'.
Proof.
  induction r as [m l s IH] using result_ind'. intros [m' l' s'] E. cbn [to_dict] in E. injection E as E1 E2 E3. apply level_value_inj in E2. subst m' l'. f_equal.
  revert s' E3. induction IH as [|x s H IH' IH2]; intros [|y s'] E; [reflexivity|discriminate..|]. cbn [List.map] in E. injection E as E1 E2. f_equal; auto.
Qed.
Lemma with_messages_fix f r : with_messages f r = r <-> Messages (fun m => f m = m) r.
Proof.
  induction r as [m l s IH] using result_ind'. cbn [with_messages]. split.
  - intros E. injection E as E1 E2. constructor; [exact E1|]. cbn [r_subs].
    clear E1. induction IH as [|x s H IH' IH2]; [constructor|]. cbn [List.map] in E2. injection E2 as E2 E3. constructor; [now apply H|now apply IH2].
  - intros M. inversion_clear M as [? A B]. cbn [r_message r_subs] in *. rewrite A. f_equal. clear A.
    induction IH as [|x s H IH' IH2]; [reflexivity|]. cbn [List.map]. f_equal; [apply H, (Forall_inv B)|apply IH2, (Forall_inv_tail B)].
Qed.
Lemma messages_iff (P R : str -> Prop) r : (forall m, P m <-> R m) -> Messages P r <-> Messages R r.
Proof.
  intros E. assert (X : forall P R : str -> Prop, (forall m, P m -> R m) -> forall r, Messages P r -> Messages R r).
  { clear. intros P R E r. induction r as [m l s IH] using result_ind'. intros M. inversion_clear M as [? A B]. cbn [r_message r_subs] in *.
    constructor; [now apply E|]. cbn [r_subs]. apply Forall_forall. intros x I. apply (proj1 (Forall_forall _ _) IH x I). exact (proj1 (Forall_forall _ _) B x I). }
  split; apply X; intros m; apply E.
Qed.

(** Every value is written as a JSON text for this value, up to pairs of surrogates. *)
Theorem C92_decode : forall j, Writable j -> decode (json_dumps j) = Some (joined_value j).
Proof. exact decode_dumps. Qed.
Print Assumptions C92_decode.
Theorem C92_report : forall r, Messages (Forall code_point) r -> decode (json_dumps (to_dict r)) = Some (to_dict (with_messages joined r)).
Proof. intros r M. rewrite decode_dumps by now apply report_writable. now rewrite report_joined. Qed.
Print Assumptions C92_report.
(** The report is read back exactly if no message contains such a pair. *)
Theorem C92_exact : forall r, Messages (Forall code_point) r ->
  (decode (json_dumps (to_dict r)) = Some (to_dict r) <-> Messages Unpaired r).
Proof.
  intros r M. rewrite (C92_report r M). rewrite <- (messages_iff (fun m => joined m = m) Unpaired r joined_fix), <- with_messages_fix. split.
  - intros E. injection E as E. now apply to_dict_inj.
  - now intros ->.
Qed.
Print Assumptions C92_exact.
(** Different reports have different texts. *)
Theorem C92_distinct : forall r r', Messages (Forall code_point) r -> Messages (Forall code_point) r' -> Messages Unpaired r -> Messages Unpaired r' ->
  json_dumps (to_dict r) = json_dumps (to_dict r') -> r = r'.
Proof.
  intros r r' A B U V E. apply (C92_exact r A) in U. apply (C92_exact r' B) in V. rewrite E, V in U. injection U as U. symmetry. now apply to_dict_inj.
Qed.
Print Assumptions C92_distinct.
(** Without the restriction they need not. *)
Theorem C92_refuted : exists r r', Messages (Forall code_point) r /\ Messages (Forall code_point) r' /\ r <> r' /\
  json_dumps (to_dict r) = json_dumps (to_dict r').
Proof.
  exists (new_result [55357; 56832]%N INFO), (new_result [128512]%N INFO). split; [|split; [|split]].
  - repeat constructor; unfold code_point; lia.
  - repeat constructor; unfold code_point; lia.
  - discriminate.
  - vm_compute. reflexivity.
Qed.
Print Assumptions C92_refuted.

(** What the tool prints on request is the text of the report. *)
Theorem C92_main : forall show repr w argv r h, (forall s, Forall graphic s -> w_prints w s = true) -> Reaches show repr w argv r h Ojson ->
  Messages (Forall code_point) r -> Messages Unpaired r ->
  exists text, main show repr w argv = Outputs [text] h [] (Exits (exit_status r)) /\ decode text = Some (to_dict r).
Proof.
  intros show repr w argv r h W R M U. exists (json_dumps (to_dict r)). split; [now apply C85_json|]. now apply C92_exact.
Qed.
Print Assumptions C92_main.

Definition sample : result :=
  append (new_result (lit "Check ""x""") INFO) (append (new_result [10; 228; 8364; 128512]%N WARNING) (new_result [92; 127]%N ERROR)).
Example C92_text : json_dumps (to_dict sample) =
  lit "{""m"": ""Check \""x\"""", ""l"": 2, ""s"": [{""m"": ""\n\u00e4\u20ac\ud83d\ude00"", ""l"": 2, ""s"": [{""m"": ""\\\u007f"", ""l"": 2, ""s"": []}]}]}".
Proof. vm_compute. reflexivity. Qed.
Example C92_sample : decode (json_dumps (to_dict sample)) = Some (to_dict sample).
Proof. vm_compute. reflexivity. Qed.
(** the decoder accepts other spellings, and no other texts *)
Example C92_spelling : decode (lit " { ""l"" : [ 1.5e3 , -0 , true , null ] } ") = Some (JObj [(lit "l", JArr [JFloat (lit "1.5e3"); JInt 0; JBool true; JNull])]).
Proof. vm_compute. reflexivity. Qed.
Example C92_wrong : List.map decode [lit "{'m': 1}"; lit "[1, ]"; lit "[1 2]"; lit "True"; lit "01"; lit "{""m"" 1}"; lit """a"; lit "[] []"; []] = repeat None 9.
Proof. vm_compute. reflexivity. Qed.
