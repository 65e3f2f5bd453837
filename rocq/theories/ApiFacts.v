(** Facts about the check of a server. *)
From Coq Require Import PeanoNat String List NArith ZArith Bool Lia.
From Verif Require Import PyStr PyStrFacts PyBase PyVal Codec ResultModel ResultFacts ContextModel HttpModel ConfigModel ReflectModel MetaModel
  AdapterModel ParseModel ConstraintModel ProgModel ProgSpec ProgFacts ApiModel ApiSpec ApiSuites.
Import ListNotations.
Local Open Scope nat_scope.
Local Open Scope list_scope.

Lemma new_subs m es : r_subs (appends (new_result m INFO) es) = es.
Proof. now rewrite appends_subs. Qed.
Lemma new_message m es : r_message (appends (new_result m INFO) es) = m.
Proof. now rewrite appends_message. Qed.

(** ** Programs that end normally or with an exception, not by an abort *)
Definition NoAbort {X} (p : prog X) : Prop := forall srv h a, snd (fst (meaning p srv h)) <> Abort a.

Lemma noabort_ret {X} (x : X) : NoAbort (PRet x).
Proof. intros srv h a. discriminate. Qed.
Lemma noabort_raise {X} e t : NoAbort (@PRaise X e t).
Proof. intros srv h a. discriminate. Qed.
Lemma noabort_lift {X} (o : outcome X) : NoAbort (lift o).
Proof. intros srv h a. destruct o; discriminate. Qed.
Lemma noabort_write r : NoAbort (pwrite r).
Proof. intros srv h a. discriminate. Qed.
Lemma noabort_block {X} m (p : prog X) : NoAbort (block m p).
Proof. intros srv h a. rewrite meaning_block. destruct (meaning p srv h) as [[es [x|b|e t]] h1]; discriminate. Qed.
Lemma noabort_bind {X Y} (p : prog X) (f : X -> prog Y) : NoAbort p -> (forall x, NoAbort (f x)) -> NoAbort (pbind p f).
Proof.
  intros A B srv h a. rewrite meaning_bind. specialize (A srv h). destruct (meaning p srv h) as [[es c] h1]. cbn [andthen].
  destruct c as [x|b|e t].
  - specialize (B x srv h1 a). destruct (meaning (f x) srv h1) as [[? ?] ?]. exact B.
  - specialize (A b). now destruct A.
  - discriminate.
Qed.
Lemma noabort_send {X} s (k : reply -> prog X) : (forall r, NoAbort (k r)) -> NoAbort (PSend s k).
Proof. intros A srv h a. apply A. Qed.

Ltac noabort := repeat first
  [ apply noabort_bind; [|intros ?] | apply noabort_block | apply noabort_ret | apply noabort_raise
  | apply noabort_lift | apply noabort_write | apply noabort_send; intros ? ].

(** Inversion of the meaning of a sequence that ends normally *)
Lemma bind_ret {X Y} (p : prog X) (f : X -> prog Y) srv h es y h2 :
  meaning (pbind p f) srv h = (es, Ret y, h2) ->
  exists es1 x h1 es2, meaning p srv h = (es1, Ret x, h1) /\ meaning (f x) srv h1 = (es2, Ret y, h2) /\ es = es1 ++ es2.
Proof.
  rewrite meaning_bind. destruct (meaning p srv h) as [[es1 [x|b|e t]] h1]; cbn [andthen]; try discriminate.
  destruct (meaning (f x) srv h1) as [[es2 c2] h3] eqn:E. intros [= <- -> ->]. exists es1, x, h1, es2. auto.
Qed.
Lemma lift_ret {X} (o : outcome X) srv h es x h1 : meaning (lift o) srv h = (es, Ret x, h1) -> o = Val x /\ es = [] /\ h1 = h.
Proof. rewrite meaning_lift. destruct o; [|discriminate]. now intros [= <- -> <-]. Qed.
Lemma block_ret {X} m (p : prog X) srv h es o r h1 : meaning (block m p) srv h = (es, Ret (o, r), h1) ->
  es = [r] /\ r_message r = m /\ exists es' c, meaning p srv h = (es', c, h1) /\
    ((exists x, c = Ret x /\ o = Some x /\ r = appends (new_result m INFO) es') \/
     (exists a, c = Abort a /\ o = None /\ r = appends (new_result m INFO) (es' ++ [a]))).
Proof.
  rewrite meaning_block. destruct (meaning p srv h) as [[es1 [x|b|e t]] h2]; try discriminate.
  - intros [= <- <- <- <-]. rewrite new_message. repeat split. exists es1, (Ret x). split; [reflexivity|]. left. exists x. auto.
  - intros [= <- <- <- <-]. rewrite new_message. repeat split. exists es1, (Abort b). split; [reflexivity|]. right. exists b. auto.
Qed.
Lemma entry_appends m es : entry_of m es (appends (new_result m INFO) es).
Proof. repeat split; [apply new_message|apply new_subs|apply appends_level]. Qed.
Lemma block_ret_noabort {X} m (p : prog X) srv h es o r h1 : NoAbort p -> meaning (block m p) srv h = (es, Ret (o, r), h1) ->
  es = [r] /\ exists x es', entry_of m es' r /\ o = Some x /\ meaning p srv h = (es', Ret x, h1).
Proof.
  intros A E. apply block_ret in E. destruct E as (-> & M & es' & c & E & [(x & -> & -> & ->)|(a & -> & -> & ->)]).
  - split; auto. exists x, es'. auto using entry_appends.
  - specialize (A srv h a). rewrite E in A. now destruct A.
Qed.

(** ** Programs whose answers are checked *)
Definition passed {X} (es : list result) (c : ctl X) : bool :=
  forallb ok es && match c with Ret _ => true | Abort a => ok a | Exc _ _ => false end.
Definition CriticalIn {X} (es : list result) (c : ctl X) : Prop :=
  Exists (fun r => r_level r = CRITICAL) es \/ exists a, c = Abort a /\ r_level a = CRITICAL.
Definition Sound {X} (chk : bool) (acc : reply -> Prop) (p : prog X) : Prop := forall srv h es c t, meaning p srv h = (es, c, h ++ t) ->
  (exists e x, c = Exc e x) \/
  ((passed es c = true -> Forall (fun x => acc (snd x)) t) /\ (chk = true -> Exists ServerError t -> CriticalIn es c)).

Lemma same_trace {A} (h t : list A) : h = h ++ t -> t = [].
Proof. intros E. apply (app_inv_head h). now rewrite app_nil_r. Qed.
Lemma sound_quiet {X} chk acc (p : prog X) : (forall srv h, snd (meaning p srv h) = h) -> Sound chk acc p.
Proof.
  intros Q srv h es c t E. specialize (Q srv h). rewrite E in Q. cbn [snd] in Q. symmetry in Q. apply same_trace in Q. subst t.
  right. split; [constructor|]. intros _ F. inversion F.
Qed.
Lemma sound_ret {X} chk acc (x : X) : Sound chk acc (PRet x).
Proof. now apply sound_quiet. Qed.
Lemma sound_abort {X} chk acc r : Sound chk acc (@PAbort X r).
Proof. now apply sound_quiet. Qed.
Lemma sound_raise {X} chk acc e t : Sound chk acc (@PRaise X e t).
Proof. now apply sound_quiet. Qed.
Lemma sound_lift {X} chk acc (o : outcome X) : Sound chk acc (lift o).
Proof. apply sound_quiet. intros. now destruct o. Qed.
Lemma sound_write chk acc r : Sound chk acc (pwrite r).
Proof. now apply sound_quiet. Qed.
Lemma sound_assert chk acc b m l : Sound chk acc (assert_ b m l).
Proof. destruct b; [apply sound_write|apply sound_abort]. Qed.
Lemma passed_app {X} a b (c : ctl X) : passed (a ++ b) c = forallb ok a && passed b c.
Proof. unfold passed. now rewrite forallb_app, andb_assoc. Qed.
Lemma sound_bind {X Y} chk acc (p : prog X) (f : X -> prog Y) : Sound chk acc p -> (forall x, Sound chk acc (f x)) -> Sound chk acc (pbind p f).
Proof.
  intros A B srv h es c t E. rewrite meaning_bind in E. destruct (meaning_trace p srv h) as [t1 T1].
  destruct (meaning p srv h) as [[es1 c1] h1] eqn:E1. cbn [snd] in T1. subst h1. specialize (A _ _ _ _ _ E1).
  destruct c1 as [x|a|e y]; cbn [andthen] in E.
  - destruct (meaning_trace (f x) srv (h ++ t1)) as [t2 T2]. destruct (meaning (f x) srv (h ++ t1)) as [[es2 c2] h2] eqn:E2.
    cbn [snd] in T2. subst h2. injection E as <- <- E. rewrite <- app_assoc in E. apply app_inv_head in E. subst t.
    destruct (B x _ _ _ _ _ E2) as [?|[B1 B2]]; [now left|]. destruct A as [(? & ? & [=])|[A1 A2]]. right. split.
    + rewrite passed_app. intros P. apply andb_prop in P. destruct P as [P1 P2]. apply Forall_app. split; [|auto].
      apply A1. unfold passed. now rewrite P1.
    + intros C F. apply Exists_app in F. destruct F as [F|F].
      * destruct (A2 C F) as [G|(? & [=] & _)]. left. apply Exists_app. auto.
      * destruct (B2 C F) as [G|G]; [left; apply Exists_app; auto|now right].
  - injection E as <- <- E. apply app_inv_head in E. subst t. right. destruct A as [(? & ? & [=])|[A1 A2]]. split; [exact A1|].
    intros C F. destruct (A2 C F) as [G|(b & [= <-] & G)]; [now left|right; eauto].
  - injection E as <- <- E. left. eauto.
Qed.
Lemma sound_mono {X} chk chk' (acc acc' : reply -> Prop) (p : prog X) : (chk' = true -> chk = true) -> (forall r, acc r -> acc' r) -> Sound chk acc p -> Sound chk' acc' p.
Proof.
  intros C M A srv h es c t E. destruct (A _ _ _ _ _ E) as [?|[A1 A2]]; [now left|]. right. split; [|auto].
  intros P. eapply Forall_impl; [|apply (A1 P)]. intros. now apply M.
Qed.
Lemma worst_critical l : Exists (fun r => r_level r = CRITICAL) l -> fold_left level_or (List.map r_level l) INFO = CRITICAL.
Proof.
  intros E. apply Exists_exists in E. destruct E as (x & I & L). assert (W := fold_or_ge_in INFO (List.map r_level l) CRITICAL).
  apply worse_eq_antisym; [|apply W; rewrite <- L; now apply in_map]. destruct (fold_left level_or (List.map r_level l) INFO); cbn; auto.
Qed.
Lemma block_covers {X} chk acc m (p : prog X) srv h es o r t : Sound chk acc p -> meaning (block m p) srv h = (es, Ret (o, r), h ++ t) ->
  es = [r] /\ r_message r = m /\ Covers chk acc r t.
Proof.
  intros A E. apply block_ret in E. destruct E as (-> & M & es' & c & E & C). split; [reflexivity|]. split; [exact M|].
  destruct (A _ _ _ _ _ E) as [(e & y & ->)|[A1 A2]]; [destruct C as [(? & [=] & _)|(? & [=] & _)]|].
  unfold passed in A1. destruct C as [(x & -> & _ & ->)|(a & -> & _ & ->)]; split.
  - rewrite ok_appends. intros P. apply A1. now rewrite andb_true_r.
  - intros C F. rewrite appends_level. apply worst_critical. destruct (A2 C F) as [G|(? & [=] & _)]. exact G.
  - rewrite ok_appends, forallb_app. cbn [forallb]. rewrite andb_true_r. exact A1.
  - intros C F. rewrite appends_level. apply worst_critical. apply Exists_app.
    destruct (A2 C F) as [G|(? & [= <-] & G)]; [now left|right; now constructor].
Qed.
Lemma sound_block {X} chk acc m (p : prog X) : Sound chk acc p -> Sound chk acc (block m p).
Proof.
  intros A srv h es c t E. destruct c as [[o r]|a|e x].
  - right. destruct (block_covers _ _ _ _ _ _ _ _ _ _ A E) as (-> & _ & C1 & C2). split.
    + unfold passed. cbn [forallb]. rewrite !andb_true_r. exact C1.
    + intros C F. left. constructor. auto.
  - apply (f_equal (fun x => snd (fst x))) in E. now apply noabort_block in E.
  - left. eauto.
Qed.

(** ** Titles *)
Lemma trace_of {X} (p : prog X) srv h es c h1 : meaning p srv h = (es, c, h1) -> exists t, h1 = h ++ t.
Proof. intros E. destruct (meaning_trace p srv h) as [t T]. rewrite E in T. now exists t. Qed.

Lemma tests_titles chk acc ts i : (forall t, In t ts -> Sound chk acc (snd t i)) ->
  forall srv h es h1, meaning (execute_tests_of ts i) srv h = (es, Ret tt, h1) ->
  List.map r_message es = List.map fst ts /\ exists tr, h1 = h ++ List.concat tr /\ Forall2 (Covers chk acc) es tr.
Proof.
  induction ts as [|[t b] r IH]; cbn [execute_tests_of]; intros S srv h es h1 E.
  - injection E as <- <-. split; [reflexivity|]. exists []. cbn [List.concat]. rewrite app_nil_r. split; [reflexivity|constructor].
  - apply bind_ret in E. destruct E as (es1 & [o x] & h2 & es2 & E1 & E2 & ->). destruct (trace_of _ _ _ _ _ _ E1) as [t1 ->].
    eapply block_covers in E1; [|apply (S (t, b)); now left]. destruct E1 as (-> & M & C).
    apply IH in E2; [|intros y I; apply S; now right]. destruct E2 as (Ms & tr & -> & F).
    cbn [List.map app fst]. rewrite M, Ms. split; [reflexivity|]. exists (t1 :: tr). cbn [List.concat]. rewrite <- app_assoc.
    split; [reflexivity|]. constructor; assumption.
Qed.
Lemma tests_noabort ts i : NoAbort (execute_tests_of ts i).
Proof. induction ts as [|[t b] r IH]; cbn [execute_tests_of]; noabort. assumption. Qed.

Lemma generate_for_noabort f valid n vs : NoAbort (generate_for f valid n vs).
Proof. induction vs as [|v r IH]; cbn [generate_for]; noabort. assumption. Qed.
Lemma generate_noabort f valid l : NoAbort (generate_calls f valid l).
Proof. induction l as [|a r IH]; cbn [generate_calls]; noabort; [apply generate_for_noabort|assumption]. Qed.
Lemma syntactic_noabort s i : NoAbort (execute_syntactic_tests s i).
Proof. unfold execute_syntactic_tests. noabort. destruct (fargs_eqb x x0); [apply generate_noabort|noabort]. Qed.
Lemma suite_noabort s i : NoAbort (execute_suite s i).
Proof. unfold execute_suite. noabort. destruct x as [? n]. noabort. destruct x as [? p]. noabort. Qed.

(** ** Reflection of the signatures *)
Lemma reflect_args_shape s : forall st l, reflect_args s st = Val l ->
  l = List.map (fun p => FArg (fst p) (strip_optional (snd p)) (negb (has_default (snd p)))) s.
Proof.
  induction s as [|[n a] r IH]; cbn [reflect_args]; intros st l E; [now injection E as <-|].
  destruct (unwrap_optional a) as [[q t]|] eqn:U; [|discriminate]. cbn [obind] in E.
  destruct (reflect_fuel api_classes api_globals (reflect_bound api_classes t) t st) as [st'|]; [|discriminate]. cbn [obind] in E.
  destruct (reflect_args r st') as [l'|] eqn:E'; [|discriminate]. cbn [obind] in E. injection E as <-.
  apply IH in E'. subst. cbn [List.map fst snd]. f_equal. destruct a; cbn in U |- *; congruence.
Qed.
Lemma reflect_function_shape s a l : reflect_function s a = Val l ->
  l = List.map (fun p => FArg (fst p) (strip_optional (snd p)) (negb (has_default (snd p)))) s.
Proof. unfold reflect_function. destruct (reflect_fuel _ _ _ _ _); [|discriminate]. apply reflect_args_shape. Qed.

(** the values generated for the arguments that occur *)
Definition known_argument (p : str * ann) : bool :=
  match strip_optional (snd p) with
  | AInt => str_eqb (fst p) (lit "limit")
  | AStr | ABool => true
  | ACls c => Nat.eqb c k_Base64String || Nat.eqb c k_AssetId || Nat.eqb c k_Level || Nat.eqb c k_Extent
  | _ => false
  end.
Lemma kind_base64 : exists f, kind_of api_classes k_Base64String = KSfv f /\ s_base64 f = true.
Proof. eexists. split; [vm_compute; reflexivity|reflexivity]. Qed.
Lemma kind_asset_id : match kind_of api_classes k_AssetId with KSfv _ | KEnum _ => false | _ => true end = true.
Proof. vm_compute. reflexivity. Qed.
Definition longest (k : ckind) : nat :=
  match k with KEnum (m :: ms) => list_max (List.map (fun m => length (snd m)) (m :: ms)) | _ => 0 end.
Lemma kind_level : longest (kind_of api_classes k_Level) = 4 /\ longest (kind_of api_classes k_Extent) = 16.
Proof. split; vm_compute; reflexivity. Qed.
Lemma generated_enum n c : longest (kind_of api_classes c) <> 0 ->
  generate_invalid_values n (ACls c) = Val [VlDummy (repeat 35%N (longest (kind_of api_classes c) + 1))].
Proof. cbn [generate_invalid_values]. destruct (kind_of api_classes c) as [ms| | |]; cbn [longest]; try congruence. destruct ms; [congruence|reflexivity]. Qed.
Lemma generated_class n c :
  Nat.eqb c k_Base64String || Nat.eqb c k_AssetId || Nat.eqb c k_Level || Nat.eqb c k_Extent = true ->
  exists v t, generate_invalid_values n (ACls c) = Val [v] /\ value_text v = Val t /\ wrong_value n (ACls c) = Some t.
Proof.
  intros K. repeat (apply orb_prop in K; destruct K as [K|K]); apply Nat.eqb_eq in K; subst c.
  - destruct kind_base64 as (f & E & B). cbn [generate_invalid_values]. rewrite E, B. do 2 eexists. split; [reflexivity|]. split; reflexivity.
  - pose proof kind_asset_id as E. cbn [generate_invalid_values]. destruct (kind_of api_classes k_AssetId); try discriminate;
    (do 2 eexists; split; [reflexivity|]; split; reflexivity).
  - pose proof (proj1 kind_level) as E. rewrite generated_enum, E by (rewrite E; discriminate). do 2 eexists. split; [reflexivity|]. split; reflexivity.
  - pose proof (proj2 kind_level) as E. rewrite generated_enum, E by (rewrite E; discriminate). do 2 eexists. split; [reflexivity|]. split; reflexivity.
Qed.
Lemma generated p : known_argument p = true ->
  exists vs, generate_invalid_values (fst p) (strip_optional (snd p)) = Val vs /\
    match wrong_value (fst p) (snd p) with
    | None => vs = []
    | Some t => exists v, vs = [v] /\ value_text v = Val t
    end.
Proof.
  destruct p as [n a]. unfold known_argument, wrong_value. cbn [fst snd].
  destruct (strip_optional a) as [| | | | | |c|m|b|b|b|t|t]; try discriminate; intros K; [| | |]; [cbn [generate_invalid_values]..|].
  - eexists; split; [reflexivity|]. eexists; split; reflexivity.
  - eexists; split; reflexivity.
  - rewrite K. eexists; split; [reflexivity|]. eexists; split; reflexivity.
  - destruct (generated_class n c K) as (v & t & G & T & W). cbn [wrong_value strip_optional] in W. eexists. split; [exact G|].
    rewrite W. eauto.
Qed.

(** A call with one exchange whose result is ok exactly if the server rejects it *)
Definition NegCall {X} (p : prog X) : Prop := forall srv h es c h1, meaning p srv h = (es, c, h1) ->
  (exists e t, c = Exc e t) \/ exists x, h1 = h ++ [x] /\ (passed es c = true <-> Rejected (snd x)) /\ (ServerError x -> CriticalIn es c).

Lemma rename_passed {X} e f (p : prog X) : NegCall p -> NegCall (rename e f p).
Proof.
  intros N srv h es c h1 E. pose proof (rename_ret e f p srv h) as R. destruct (meaning p srv h) as [[es' c'] h1'] eqn:M.
  destruct c' as [x|a|e' t].
  - rewrite R in E. injection E as <- <- <-. exact (N _ _ _ _ _ M).
  - rewrite R in E. injection E as <- <- <-. exact (N _ _ _ _ _ M).
  - destruct R as (es'' & e'' & t' & R). rewrite R in E. injection E as <- <- <-. left. eauto.
Qed.
Lemma block_judged {X} m (p : prog X) srv h es o r h1 : NegCall p -> meaning (block m p) srv h = (es, Ret (o, r), h1) ->
  es = [r] /\ r_message r = m /\ exists x, h1 = h ++ [x] /\ (ok r = true <-> Rejected (snd x)) /\ (ServerError x -> r_level r = CRITICAL).
Proof.
  intros N E. apply block_ret in E. destruct E as (-> & M & es' & c & E & C). split; [reflexivity|]. split; [exact M|].
  destruct (N _ _ _ _ _ E) as [(e & t & ->)|(x & -> & I & K)]; [destruct C as [(? & [=] & _)|(? & [=] & _)]|].
  exists x. split; [reflexivity|]. rewrite <- I. unfold passed. destruct C as [(y & -> & _ & ->)|(a & -> & _ & ->)]; split.
  - rewrite ok_appends, andb_true_r. reflexivity.
  - intros F. rewrite appends_level. apply worst_critical. destruct (K F) as [G|(? & [=] & _)]. exact G.
  - rewrite ok_appends, forallb_app. cbn [forallb]. rewrite andb_true_r. reflexivity.
  - intros F. rewrite appends_level. apply worst_critical. apply Exists_app.
    destruct (K F) as [G|(? & [= <-] & G)]; [now left|right; now constructor].
Qed.

Lemma generate_titles f valid s : (forall a, NegCall (f a)) -> forallb known_argument s = true -> forall srv h es h1,
  meaning (generate_calls f valid (List.map (fun p => FArg (fst p) (strip_optional (snd p)) (negb (has_default (snd p)))) s)) srv h
    = (es, Ret tt, h1) -> List.map r_message es = negative_titles s /\ exists t, h1 = h ++ t /\ Judged es t.
Proof.
  intros N. induction s as [|p r IH]; cbn [forallb List.map generate_calls]; intros K srv h es h1 E.
  { injection E as <- <-. split; [reflexivity|]. exists []. rewrite app_nil_r. split; [reflexivity|constructor]. }
  apply andb_prop in K. destruct K as [K1 K2]. cbn [fa_name fa_type] in E.
  apply bind_ret in E. destruct E as (es1 & vs & h2 & es2 & E1 & E2 & ->). apply lift_ret in E1. destruct E1 as (G & -> & ->).
  apply bind_ret in E2. destruct E2 as (es3 & [] & h3 & es4 & E3 & E4 & ->). apply (IH K2) in E4. destruct E4 as (E4 & t4 & -> & J4).
  destruct (generated p K1) as (vs' & G' & W). rewrite G in G'. injection G' as <-.
  unfold negative_titles, wrong_arguments. cbn [flat_map]. rewrite map_app. cbn [app]. rewrite map_app, E4.
  destruct (wrong_value (fst p) (snd p)) as [t|].
  - destruct W as (v & -> & T). cbn [generate_for] in E3.
    apply bind_ret in E3. destruct E3 as (es5 & t' & h5 & es6 & E5 & E6 & ->). apply lift_ret in E5. destruct E5 as (T' & -> & ->).
    rewrite T in T'. injection T' as <-.
    apply bind_ret in E6. destruct E6 as (es7 & [o x] & h7 & es8 & E7 & E8 & ->).
    apply block_judged in E7; [|apply rename_passed, N]. destruct E7 as (-> & M & y & -> & I).
    injection E8 as <- <-. cbn [app List.map fst snd]. split; [now rewrite M|]. exists (y :: t4). split; [now rewrite <- app_assoc|].
    constructor; assumption.
  - subst vs. injection E3 as <- <-. split; [reflexivity|]. exists t4. auto.
Qed.

(** A suite with arguments for which values are generated, and whose answers are checked *)
Definition negative_ok (s : suite) : Prop := forallb known_argument (su_signature s) = true /\
  (su_signature s = [] \/ forall i a, NegCall (su_invoke_error s i a)).
Definition positive_ok (s : suite) : Prop := forall i t, In t (su_tests s) ->
  Sound (checked (answer_to (su_operation s))) (Acceptable (answer_to (su_operation s))) (snd t i).
Definition good_entry (e : entry) : Prop :=
  (forall c, Sound true Usable (fst e c)) /\ (forall i, Sound true Usable (su_setup (snd e) i)) /\
  negative_ok (snd e) /\ positive_ok (snd e).

Lemma syntactic_titles s i srv h es h1 : negative_ok s -> meaning (execute_syntactic_tests s i) srv h = (es, Ret tt, h1) ->
  List.map r_message es = negative_titles (su_signature s) /\ exists t, h1 = h ++ t /\ Judged es t.
Proof.
  intros [G N] E. unfold execute_syntactic_tests in E.
  apply bind_ret in E. destruct E as (es1 & f & h2 & es2 & E1 & E & ->). apply lift_ret in E1. destruct E1 as (F & -> & ->).
  apply bind_ret in E. destruct E as (es1 & g & h3 & es3 & E1 & E & ->). apply lift_ret in E1. destruct E1 as (F' & -> & ->).
  destruct (fargs_eqb f g); [|discriminate]. apply reflect_function_shape in F. subst f. cbn [app]. destruct N as [N|N].
  - rewrite N in *. injection E as <- <-. split; [reflexivity|]. exists []. rewrite app_nil_r. split; [reflexivity|constructor].
  - eapply generate_titles; eauto.
Qed.

Lemma filter_split {A} (f : A -> bool) l : length l - length (filter f l) = length (filter (fun x => negb (f x)) l).
Proof.
  assert (B : length (filter f l) <= length l) by (induction l as [|x l IH]; cbn [filter length]; [lia|]; destruct (f x); cbn [length]; lia).
  revert B. induction l as [|x l IH]; [reflexivity|]. cbn [filter length]. intros B.
  assert (length (filter f l) <= length l) by (clear; induction l as [|x l IH]; cbn [filter length]; [lia|]; destruct (f x); cbn [length]; lia).
  destruct (f x); cbn [negb length] in *; lia.
Qed.

Lemma suite_report s i srv h es m h1 : negative_ok s -> positive_ok s -> meaning (execute_suite s i) srv h = (es, Ret m, h1) ->
  exists neg pos ns ps t1 t2, es = [neg; pos] /\ h1 = h ++ t1 ++ List.concat t2 /\
    entry_of (lit "Negative Tests") ns neg /\ List.map r_message ns = negative_titles (su_signature s) /\ Judged ns t1 /\
    entry_of (lit "Positive Tests") ps pos /\ List.map r_message ps = List.map fst (su_tests s) /\
    Forall2 (Covers (checked (answer_to (su_operation s))) (Acceptable (answer_to (su_operation s)))) ps t2 /\
    Counts m ns ps.
Proof.
  intros G P E. unfold execute_suite in E.
  apply bind_ret in E. destruct E as (es1 & [o neg] & h2 & es2 & E1 & E & ->).
  apply block_ret_noabort in E1; [|apply syntactic_noabort]. destruct E1 as (-> & [] & ns & Mn & -> & En).
  apply bind_ret in E. destruct E as (es1 & [o pos] & h3 & es3 & E1 & E & ->).
  apply block_ret_noabort in E1; [|apply tests_noabort]. destruct E1 as (-> & [] & ps & Mp & -> & Ep).
  injection E as <- <- <-. destruct (syntactic_titles _ _ _ _ _ _ G En) as (Tn & t1 & -> & J).
  eapply tests_titles in Ep; [|exact (P i)]. destruct Ep as (Tp & t2 & -> & F).
  exists neg, pos, ns, ps, t1, t2. unfold Counts. cbn [app invalid_rejected invalid_accepted valid_accepted valid_rejected].
  assert (Sn : r_subs neg = ns) by apply Mn. assert (Sp : r_subs pos = ps) by apply Mp.
  unfold count_ok. rewrite !filter_split, <- app_assoc, Sn, Sp.
  repeat match goal with |- (_ = _) /\ _ => split; [reflexivity|] | |- _ /\ _ => split; [assumption|] | |- _ = _ => reflexivity end.
Qed.

Lemma Counts_zero : Counts zero_matrix [] [].
Proof. repeat split. Qed.
Lemma Counts_add m n a b c d : Counts m a b -> Counts n c d -> Counts (add_matrix m n) (a ++ c) (b ++ d).
Proof.
  intros (A1 & A2 & A3 & A4) (B1 & B2 & B3 & B4). unfold Counts. cbn [add_matrix invalid_rejected invalid_accepted valid_accepted valid_rejected].
  rewrite !filter_app, !app_length. lia.
Qed.

(** ** One operation *)
Definition s_neg : str := lit "Negative Tests".
Definition s_pos : str := lit "Positive Tests".

Definition well_reported (l : list entry) (parts : list (result * trace)) : Prop :=
  Forall2 (fun e rt => operation_report (su_operation (snd e)) (negative_titles (su_signature (snd e)))
                        (List.map fst (su_tests (snd e))) (fst rt) (snd rt)) l parts.

Lemma operation_body_noabort c profile e mat : NoAbort
  (let! (i, setup) := block (lit "Setup") (let! prefix := fst e c in su_setup (snd e) (new_instance (descend c prefix) profile)) in
   if ok setup then
     match i with
     | Some i => let! m := execute_suite (snd e) i in PRet (add_matrix mat m)
     | None => PRaise UnboundLocalError []
     end
   else PRet mat).
Proof.
  noabort. destruct x as [[i|] r], (ok r); [|noabort..]. apply noabort_bind; [apply suite_noabort|intros ?; noabort].
Qed.

Lemma operation_ret c profile e mat srv h es m h1 : good_entry e ->
  meaning (check_operation false c profile e mat) srv h = (es, Ret m, h1) ->
  exists r n t, es = [r] /\ h1 = h ++ t /\
    operation_report (su_operation (snd e)) (negative_titles (su_signature (snd e))) (List.map fst (su_tests (snd e))) r t /\
    m = add_matrix mat n /\ Counts n (tests_of s_neg r) (tests_of s_pos r).
Proof.
  intros (G1 & G2 & G3 & G4) E. destruct e as [pp s]. cbn [fst snd] in *. unfold check_operation in E.
  apply bind_ret in E. destruct E as (es1 & [o r] & h2 & es2 & E1 & E & ->).
  apply block_ret_noabort in E1; [|apply (operation_body_noabort c profile (pp, s) mat)]. destruct E1 as (-> & x & subs & M & -> & E1).
  injection E as <- <- <-. exists r. cbn [app].
  assert (S : r_subs r = subs) by apply M.
  apply bind_ret in E1. destruct E1 as (es1 & [i setup] & h3 & es2 & E1 & E & ->).
  destruct (trace_of _ _ _ _ _ _ E1) as [t0 ->].
  eapply block_covers in E1; [|apply sound_bind; [exact (G1 c)|intros prefix; apply G2]].
  destruct E1 as (-> & Ms & C0). destruct (ok setup) eqn:O.
  - destruct i as [i|]; [|discriminate]. apply bind_ret in E. destruct E as (es3 & n & h4 & es4 & E1 & E & ->).
    injection E as <- <- <-. apply suite_report in E1; [|assumption..].
    destruct E1 as (neg & pos & ns & ps & t1 & t2 & -> & -> & Mn & Tn & J & Mp & Tp & F & C).
    exists n, (t0 ++ t1 ++ List.concat t2). split; [reflexivity|]. split; [now rewrite <- app_assoc|]. split; [|split; [reflexivity|]].
    + eapply Executed; eauto. exact M.
    + destruct Mn as (Mn & Sn & _). destruct Mp as (Mp & Sp & _).
      unfold tests_of, parts. rewrite S. cbn [app filter]. rewrite Ms, Mn, Mp.
      change (str_eqb (lit "Setup") s_neg) with false. change (str_eqb (lit "Negative Tests") s_neg) with true.
      change (str_eqb (lit "Positive Tests") s_neg) with false. change (str_eqb (lit "Setup") s_pos) with false.
      change (str_eqb (lit "Negative Tests") s_pos) with false. change (str_eqb (lit "Positive Tests") s_pos) with true.
      cbn [flat_map app]. now rewrite !app_nil_r, Sn, Sp.
  - injection E as <- <- <-. exists zero_matrix, t0. split; [reflexivity|]. split; [reflexivity|]. split; [|split].
    + eapply Setup_failed; eauto.
    + destruct mat. unfold add_matrix. cbn. now rewrite !Nat.add_0_r.
    + unfold tests_of, parts. rewrite S. cbn [app filter]. rewrite Ms.
      change (str_eqb (lit "Setup") s_neg) with false. change (str_eqb (lit "Setup") s_pos) with false. apply Counts_zero.
Qed.

Lemma operation_noabort dry c profile e mat : NoAbort (check_operation dry c profile e mat).
Proof. destruct e as [pp s]. unfold check_operation. noabort. destruct x. noabort. Qed.
Lemma operations_noabort dry f c profile l : forall mat, NoAbort (check_operations dry f c profile l mat).
Proof.
  induction l as [|e l IH]; cbn [check_operations]; intros mat; [noabort|]. destruct (selected f _); [|apply IH].
  apply noabort_bind; [apply operation_noabort|apply IH].
Qed.

Definition chosen (f : option test_filter) (l : list entry) : list entry := filter (fun e => selected f (su_operation (snd e))) l.

Lemma operations_chosen dry f c profile l : forall mat srv h,
  meaning (check_operations dry f c profile l mat) srv h = meaning (check_operations dry None c profile (chosen f l) mat) srv h.
Proof.
  induction l as [|e l IH]; cbn [check_operations chosen filter]; intros mat srv h; [reflexivity|]. fold (chosen f l).
  destruct (selected f (su_operation (snd e))); [|apply IH]. cbn [check_operations selected].
  rewrite !meaning_bind. destruct (meaning (check_operation dry c profile e mat) srv h) as [[es [m|a|x t]] h1]; cbn [andthen]; try reflexivity.
  now rewrite IH.
Qed.

Lemma operations_ret c profile l : forall mat srv h es m h1, Forall good_entry l ->
  meaning (check_operations false None c profile l mat) srv h = (es, Ret m, h1) ->
  exists parts, es = List.map fst parts /\ h1 = h ++ List.concat (List.map snd parts) /\ well_reported l parts /\
    exists n, m = add_matrix mat n /\ Counts n (flat_map (tests_of s_neg) es) (flat_map (tests_of s_pos) es).
Proof.
  induction l as [|e l IH]; cbn [check_operations selected]; intros mat srv h es m h1 G E.
  - injection E as <- <- <-. exists []. cbn [List.map List.concat]. rewrite app_nil_r. split; [reflexivity|]. split; [reflexivity|].
    split; [constructor|]. exists zero_matrix. split; [|apply Counts_zero].
    destruct mat. unfold add_matrix. cbn. now rewrite !Nat.add_0_r.
  - apply Forall_cons_iff in G. destruct G as [G1 G2].
    apply bind_ret in E. destruct E as (es1 & m1 & h2 & es2 & E1 & E2 & ->).
    apply operation_ret in E1; [|exact G1]. destruct E1 as (r & n & t & -> & -> & R & -> & C).
    apply IH in E2; [|exact G2]. destruct E2 as (ps & -> & -> & W & n2 & -> & C2).
    exists ((r, t) :: ps). cbn [List.map List.concat fst snd]. rewrite <- app_assoc. split; [reflexivity|]. split; [reflexivity|].
    split; [constructor; assumption|].
    exists (add_matrix n n2). split; [unfold add_matrix; cbn; now rewrite !Nat.add_assoc|]. cbn [app flat_map]. now apply Counts_add.
Qed.

Lemma operations_dry f c profile l : forall mat srv h,
  meaning (check_operations true f c profile l mat) srv h =
    (List.map (fun e => new_result (lit "Checking " ++ su_operation (snd e)) INFO) (chosen f l), Ret mat, h).
Proof.
  induction l as [|e l IH]; cbn [check_operations chosen filter]; intros mat srv h; [reflexivity|]. fold (chosen f l).
  destruct (selected f (su_operation (snd e))); [|apply IH]. rewrite meaning_bind. destruct e as [pp s]. unfold check_operation.
  rewrite meaning_bind, meaning_block. cbn [meaning andthen app]. rewrite IH. cbn [List.map snd]. reflexivity.
Qed.

(** ** The whole run *)
Definition root_body (c : client) (conf : config) (l : list entry) : prog matrix :=
  let! reached := check_server (cf_dry conf) c in
  if reached then
    let! mat := check_operations (cf_dry conf) (cf_filter conf) c (cf_suite conf) l zero_matrix in
    summary mat;; PRet mat
  else PRet zero_matrix.
Definition root_title (conf : config) : str := lit "Checking compliance to " ++ cf_suite conf.

Lemma server_noabort dry c : NoAbort (check_server dry c).
Proof. unfold check_server. noabort. destruct x. noabort. Qed.
Lemma summary_noabort m : NoAbort (summary m).
Proof. unfold summary. noabort. Qed.
Lemma root_noabort c conf l : NoAbort (root_body c conf l).
Proof.
  unfold root_body. apply noabort_bind; [apply server_noabort|]. intros [|]; [|noabort].
  apply noabort_bind; [apply operations_noabort|]. intros m. apply noabort_bind; [apply summary_noabort|intros ?; noabort].
Qed.

Lemma run_root suites c conf l srv : lookup (cf_suite conf) suites = Some l ->
  run (execute_tests suites c conf) srv =
    match meaning (root_body c conf l) srv [] with
    | (es, Ret m, h) => (Ret (appends (new_result (root_title conf) INFO) es, m), h)
    | (es, Abort a, h) => (Ret (appends (new_result (root_title conf) INFO) (es ++ [a]), zero_matrix), h)
    | (es, Exc e t, h) => (Exc e t, h)
    end.
Proof.
  intros L. unfold run, execute_tests. rewrite L.
  destruct (exec_block (new_result (root_title conf) INFO) (root_body c conf l)
              (fun o root => (root, match o with Some m => m | None => zero_matrix end)) srv 0 []) as [n E].
  change (exec (let! (o, root) := block _ _ in _) srv (MState [] 0) [])
    with (exec (PWith (new_result (root_title conf) INFO) false (root_body c conf l)
              (fun o root => PRet (root, match o with Some m => m | None => zero_matrix end))) srv (MState [] 0) []).
  rewrite E. clear E. cbn [meaning]. destruct (meaning (root_body c conf l) srv []) as [[es [m|a|e t]] h]; reflexivity.
Qed.

Lemma run_ret suites c conf srv r m h : Returns (execute_tests suites c conf) srv (r, m) h ->
  exists l, lookup (cf_suite conf) suites = Some l /\ r = appends (new_result (root_title conf) INFO) (r_subs r) /\
    meaning (root_body c conf l) srv [] = (r_subs r, Ret m, h).
Proof.
  unfold Returns. intros R. destruct (lookup (cf_suite conf) suites) as [l|] eqn:L.
  - exists l. split; [reflexivity|]. rewrite (run_root _ _ _ _ _ L) in R. pose proof (root_noabort c conf l srv []) as A.
    destruct (meaning (root_body c conf l) srv []) as [[es [m'|a|e t]] h'].
    + injection R as <- <- <-. rewrite new_subs. auto.
    + now destruct (A a).
    + discriminate.
  - unfold run, execute_tests in R. rewrite L in R. discriminate.
Qed.

(** The request with which the server is tried *)
Lemma reach_request c : exists s, send c (Request [] (lit "get") None [] []) = Val s.
Proof. eexists. reflexivity. Qed.

Lemma server_ret dry c srv h es b h1 : meaning (check_server dry c) srv h = (es, Ret b, h1) ->
  exists r, es = [r] /\ r_message r = lit "Trying to reach " ++ host c /\ tests_of s_neg r = [] /\ tests_of s_pos r = [] /\
    if dry then b = true /\ h1 = h
    else exists s, h1 = h ++ [(s, srv h s)] /\
      match srv h s with
      | Response _ _ _ => b = true /\ ok r = true
      | Failed e _ => e = RequestException /\ b = false /\ r_level r = CRITICAL
      end.
Proof.
  unfold check_server. intros E. apply bind_ret in E. destruct E as (es1 & [o r] & h2 & es2 & E1 & E & ->).
  injection E as <- <- <-. rewrite meaning_block in E1. exists r. rewrite app_nil_r. destruct dry.
  - cbn in E1. injection E1 as <- <- <- <-. repeat split.
  - destruct (reach_request c) as [s S]. rewrite S in E1. cbn [lift pbind meaning] in E1.
    destruct (srv h s) as [status content data|e t] eqn:V.
    + cbn in E1. injection E1 as <- <- <- <-. repeat split. exists s. rewrite V. auto.
    + destruct e; try discriminate. cbn -[lit] in E1. injection E1 as <- <- <- <-. repeat split. exists s. rewrite V. auto.
Qed.

Lemma summary_meaning m srv h : exists r, meaning (summary m) srv h = ([r], Ret tt, h) /\ r_message r = lit "Summary:" /\
  tests_of s_neg r = [] /\ tests_of s_pos r = [] /\ ok r = true.
Proof. eexists. split; [reflexivity|]. repeat split. Qed.

(** Shape of every report that is returned *)
Lemma report_shape suites c conf srv root m h : cf_dry conf = false ->
  (forall l, lookup (cf_suite conf) suites = Some l -> Forall good_entry l) ->
  Returns (execute_tests suites c conf) srv (root, m) h ->
  exists l reach rest s h', lookup (cf_suite conf) suites = Some l /\
    r_message reach = lit "Trying to reach " ++ host c /\ entry_of (root_title conf) (reach :: rest) root /\
    h = (s, srv [] s) :: h' /\
    Counts m (tests_reported s_neg root) (tests_reported s_pos root) /\
    match srv [] s with
    | Failed e _ => e = RequestException /\ r_level reach = CRITICAL /\ rest = [] /\ h' = [] /\ m = zero_matrix
    | Response _ _ _ => ok reach = true /\ exists parts sum, rest = List.map fst parts ++ [sum] /\ r_message sum = lit "Summary:" /\
        ok sum = true /\ No_tests reach /\ No_tests sum /\ h' = List.concat (List.map snd parts) /\ well_reported (chosen (cf_filter conf) l) parts
    end.
Proof.
  intros D G R. apply run_ret in R. destruct R as (l & L & Root & E). specialize (G l L). exists l.
  assert (Ro : entry_of (root_title conf) (r_subs root) root).
  { rewrite Root at 2. apply entry_appends. }
  unfold root_body in E. rewrite D in E. apply bind_ret in E. destruct E as (es1 & b & h1 & es2 & E1 & E & Es).
  apply server_ret in E1. destruct E1 as (reach & -> & M & T1 & T2 & s & -> & S). exists reach, es2, s. cbn [app] in E, Es.
  unfold tests_reported. rewrite Es in *. cbn [flat_map]. rewrite T1, T2. cbn [app].
  destruct (srv [] s) as [status content data|e t].
  - destruct S as [-> O]. apply bind_ret in E. destruct E as (es3 & mat & h3 & es4 & E1 & E & ->).
    rewrite operations_chosen in E1.
    apply operations_ret in E1.
    2:{ now apply Forall_forall; intros x I; apply filter_In in I; destruct I; apply (proj1 (Forall_forall _ _) G). }
    destruct E1 as (ps & -> & -> & W & n & -> & C). rewrite meaning_bind in E.
    match type of E with context [meaning (summary ?m) srv ?h3] => destruct (summary_meaning m srv h3) as (r & Q0 & Mr & Q1 & Q2 & Q3) end.
    rewrite Q0 in E. cbn [andthen meaning] in E. injection E as <- <- <-.
    exists (List.concat (List.map snd ps)). rewrite !flat_map_app. cbn [flat_map]. rewrite Q1, Q2, !app_nil_r.
    split; [exact L|]. split; [exact M|]. split; [exact Ro|]. split; [reflexivity|]. split; [exact C|].
    split; [exact O|]. exists ps, r. do 3 (split; [assumption || reflexivity|]). split; [now split|]. split; [now split|]. auto.
  - destruct S as (-> & -> & O). injection E as <- <- <-. exists [].
    split; [exact L|]. split; [exact M|]. split; [exact Ro|]. split; [reflexivity|]. split; [apply Counts_zero|]. auto.
Qed.
