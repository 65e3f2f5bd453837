(** Property C93: the reports of the tool, their levels and the exit status. *)
From Coq Require Import PeanoNat String List NArith ZArith Bool Lia.
From Verif Require Import PyStr PyStrFacts PyBase ResultModel ResultSpec ResultFacts ContextModel ConfigModel HttpModel ProgModel ApiModel ApiSpec ApiSuites
  CliModel CliSpec JsonSpec ReportFacts P_Cli P_Json.
Import ListNotations.
Local Open Scope list_scope.

(** * C93 *)
(** Every report is made by creating entries and appending finished reports, so everything that is proved about such
    reports holds for it (C01, C02, C03). *)
Theorem C93_file : forall show repr fmt model_type f r, check_file show repr fmt model_type f = Val r -> exists levels, assembled r levels.
Proof. exact file_assembled. Qed.
Print Assumptions C93_file.
Theorem C93_server : forall show repr c conf srv r m h, prefixes c = [] -> Returns (check_api show repr c conf) srv (r, m) h -> exists levels, assembled r levels.
Proof. exact server_assembled. Qed.
Print Assumptions C93_server.
(** The exit status is zero exactly if no entry of the report is an error. *)
Theorem C93_exit : forall show repr w argv r h o, Reaches show repr w argv r h o ->
  (exit_status r = 0 <-> forall x, occurs x r -> r_level x = INFO \/ r_level x = WARNING) /\ (exit_status r = 0 \/ exit_status r = 1).
Proof.
  intros show repr w argv r h o R. destruct (tool_assembled _ _ _ _ _ _ _ R) as [ls A]. apply ok_all_entries in A. unfold exit_status. split.
  - destruct (ok r) eqn:O.
    + split; [|reflexivity]. intros _ x X. destruct (proj1 A eq_refl x X). destruct (r_level x); tauto.
    + split; [discriminate|]. intros H. exfalso. assert (false = true); [|discriminate]. apply A. intros x X. destruct (H x X) as [-> | ->]; split; discriminate.
  - destruct (ok r); auto.
Qed.
Print Assumptions C93_exit.
(** No entry is less severe than an entry below it. *)
Theorem C93_levels : forall show repr w argv r h o, Reaches show repr w argv r h o -> consistent r.
Proof. intros show repr w argv r h o R. destruct (tool_assembled _ _ _ _ _ _ _ R) as [ls A]. now apply assembled_consistent in A. Qed.
Print Assumptions C93_levels.
(** The printed JSON text can be read back to the same report. *)
Theorem C93_read_back : forall show repr w argv r h, (forall s, Forall graphic s -> w_prints w s = true) -> Reaches show repr w argv r h Ojson ->
  Messages (Forall code_point) r -> Messages Unpaired r ->
  exists text status j, main show repr w argv = Outputs [text] h [] (Exits status) /\ decode text = Some j /\ from_json j = Val r /\
    (status = 0 <-> forall x, occurs x r -> r_level x = INFO \/ r_level x = WARNING).
Proof.
  intros show repr w argv r h W R M U. destruct (C92_main _ _ _ _ _ _ W R M U) as (text & E & D). exists text, (exit_status r), (to_dict r).
  split; [exact E|]. split; [exact D|]. split; [apply from_json_consistent, (C93_levels _ _ _ _ _ _ _ R)|]. exact (proj1 (C93_exit _ _ _ _ _ _ _ R)).
Qed.
Print Assumptions C93_read_back.

(** a file that is accepted and one that is not: in one report no entry is an error, in the other at least one is *)
Example C93_ex : forall show repr,
  (exists r, Reaches show repr example_world [[]; lit "check_file"; lit "good"; lit "--format"; lit "json"] r [] Otext /\
     forall x, occurs x r -> r_level x = INFO \/ r_level x = WARNING) /\
  (exists r x, Reaches show repr example_world [[]; lit "check_file"; lit "bad"; lit "--format"; lit "json"] r [] Otext /\
     occurs x r /\ (r_level x = ERROR \/ r_level x = CRITICAL)).
Proof.
  intros show repr. destruct P_Template.C71_example as (G & B & _). split.
  - destruct (reaches_example show repr "good" _ _ _ eq_refl ltac:(is_plain) G) as (r & R & O). exists r. split; [exact R|].
    apply (C93_exit _ _ _ _ _ _ _ R). unfold exit_status. now rewrite O.
  - destruct (reaches_example show repr "bad" _ _ _ eq_refl ltac:(is_plain) B) as (r & R & O). exists r, r. split; [exact R|]. split; [constructor|].
    unfold ok in O. destruct (r_level r); try discriminate; auto.
Qed.
