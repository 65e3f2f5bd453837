(** Property C66, continued: exactly which texts are accepted as base64Binary. *)
From Coq Require Import PeanoNat String List NArith ZArith Bool Lia ZifyN.
From Verif Require Import PyStr PyStrFacts PyBase Regex DataTypesModel DataTypesSpec DataTypesFacts DataTypesFacts3 DataTypesFacts4 BinarySpec.
From Verif Require P_DataTypes.
Import ListNotations.
Local Open Scope N_scope.

Lemma skips_total s : exists w, Skips s w.
Proof.
  induction s as [|c s [w IH]]; [exists []; constructor|]. destruct (N.eqb_spec c 61) as [->|N]; [exists (61 :: w); apply Sk_keep; auto|].
  destruct (is_b64 c) eqn:B.
  - exists (c :: w). apply Sk_keep; [left; now apply is_b64_spec|exact IH].
  - exists w. apply Sk_skip; [|exact N|exact IH]. intros H. apply is_b64_spec in H. congruence.
Qed.
Lemma skips_unique s w : Skips s w -> forall w', Skips s w' -> w = w'.
Proof.
  induction 1 as [|c s w K S IH|c s w N1 N2 S IH]; intros w' H; inversion H; subst; try reflexivity; try (f_equal; auto; fail); try (exfalso; tauto); auto.
Qed.
Lemma skips_a2b s w : Skips s w -> forall q p, a2b_ok q p s = a2b_ok q p w.
Proof.
  induction 1 as [|c s w K S IH|c s w N1 N2 S IH]; intros q p; [reflexivity|..]; cbn [a2b_ok].
  - destruct (c =? 61); [|destruct (is_b64 c); apply IH]. destruct (2 <=? q)%nat; [|apply IH]. destruct (4 <=? _)%nat; [reflexivity|apply IH].
  - replace (c =? 61) with false; [|symmetry; now apply N.eqb_neq]. replace (is_b64 c) with false; [apply IH|].
    destruct (is_b64 c) eqn:B; [|reflexivity]. exfalso. apply N1. now apply is_b64_spec.
Qed.
Lemma data_pad w : data (61 :: w) = data w.
Proof. reflexivity. Qed.
Lemma data_char c w : c <> 61 -> data (c :: w) = S (data w).
Proof. intros N. unfold data. cbn [filter]. apply N.eqb_neq in N. now rewrite N. Qed.
Lemma data_nil : data [] = 0%nat.
Proof. reflexivity. Qed.
(** from a state of the decoder *)
Definition Rest (q p : nat) (w : str) : Prop :=
  (exists k, q + data w = 4 * k)%nat \/ (exists a r k, w = a ++ 61%N :: r /\ q + data a = 4 * k + 3)%nat \/
  (exists a r k, w = a ++ 61%N :: 61%N :: r /\ q + data a = 4 * k + 2)%nat \/ (p = 1%nat /\ exists r, w = 61%N :: r).
Lemma a2b_exact s w : Skips s w -> forall q p, (q < 4)%nat -> (p = 0 \/ p = 1 /\ q = 2)%nat -> (a2b_ok q p w = true <-> Rest q p w).
Proof.
  induction 1 as [|c s w K S IH|c s w N1 N2 S IH]; intros q p Q P; [..|now apply IH].
  - cbn [a2b_ok]. rewrite Nat.eqb_eq. split.
    + intros ->. left. exists 0%nat. reflexivity.
    + intros [[k E]|[(a & r & k & E & _)|[(a & r & k & E & _)|(_ & r & E)]]]; [rewrite data_nil in E; lia|destruct a; discriminate E..|discriminate E].
  - cbn [a2b_ok]. destruct (N.eqb_spec c 61) as [->|N].
    + assert (C : (q = 3 \/ q = 2 /\ p = 1 \/ q = 2 /\ p = 0 \/ q < 2 /\ p = 0)%nat) by lia.
      destruct C as [->|[[-> ->]|[[-> ->]|[L ->]]]]; [cbn [Nat.leb Nat.add]..|].
      * split; [|destruct p; reflexivity]. intros _. right. left. exists [], w, 0%nat. auto.
      * split; [|reflexivity]. intros _. right. right. right. eauto.
      * rewrite (IH 2%nat 1%nat) by lia. split.
        -- intros [[k E]|[(a & r & k & -> & E)|[(a & r & k & -> & E)|(_ & r & ->)]]].
           ++ left. exists k. now rewrite data_pad.
           ++ right. left. exists (61 :: a), r, k. now rewrite data_pad.
           ++ right. right. left. exists (61 :: a), r, k. now rewrite data_pad.
           ++ right. right. left. exists [], r, 0%nat. auto.
        -- intros [[k E]|[(a & r & k & E & D)|[(a & r & k & E & D)|([=] & _)]]].
           ++ left. exists k. now rewrite data_pad in E.
           ++ destruct a as [|x a]; cbn [app] in E; [rewrite data_nil in D; lia|]. injection E as <- ->. rewrite data_pad in D. right. left. eauto.
           ++ destruct a as [|x a]; cbn [app] in E; [injection E as ->; right; right; right; eauto|]. injection E as <- ->. rewrite data_pad in D. right. right. left. eauto.
      * destruct (Nat.leb_spec 2 q) as [L'|_]; [lia|]. rewrite (IH q 0%nat) by lia. split.
        -- intros [[k E]|[(a & r & k & -> & E)|[(a & r & k & -> & E)|([=] & _)]]].
           ++ left. exists k. now rewrite data_pad.
           ++ right. left. exists (61 :: a), r, k. now rewrite data_pad.
           ++ right. right. left. exists (61 :: a), r, k. now rewrite data_pad.
        -- intros [[k E]|[(a & r & k & E & D)|[(a & r & k & E & D)|([=] & _)]]].
           ++ left. exists k. now rewrite data_pad in E.
           ++ destruct a as [|x a]; cbn [app] in E; [rewrite data_nil in D; lia|]. injection E as <- ->. rewrite data_pad in D. right. left. eauto.
           ++ destruct a as [|x a]; cbn [app] in E; [rewrite data_nil in D; lia|]. injection E as <- ->. rewrite data_pad in D. right. right. left. eauto.
    + destruct K as [K|K]; [|contradiction]. rewrite (proj2 (is_b64_spec c) K). set (q' := if (q =? 3)%nat then 0%nat else Datatypes.S q).
      assert (Q' : (q' = Datatypes.S q /\ q < 3 \/ q' = 0 /\ q = 3)%nat) by (unfold q'; destruct (Nat.eqb_spec q 3); lia). clearbody q'.
      rewrite (IH q' 0%nat) by lia. split.
      * intros [[k E]|[(a & r & k & -> & E)|[(a & r & k & -> & E)|([=] & _)]]].
        -- left. rewrite data_char by exact N. destruct Q' as [[-> _]|[-> ->]]; [exists k; lia|exists (Datatypes.S k); lia].
        -- right. left. exists (c :: a), r. rewrite data_char by exact N. destruct Q' as [[-> _]|[-> ->]]; [exists k|exists (Datatypes.S k)]; (split; [reflexivity|lia]).
        -- right. right. left. exists (c :: a), r. rewrite data_char by exact N. destruct Q' as [[-> _]|[-> ->]]; [exists k|exists (Datatypes.S k)]; (split; [reflexivity|lia]).
      * intros [[k E]|[(a & r & k & E & D)|[(a & r & k & E & D)|(_ & r & E)]]].
        -- rewrite data_char in E by exact N. left. destruct Q' as [[-> _]|[-> ->]]; [exists k; lia|exists (pred k); lia].
        -- destruct a as [|x a]; cbn [app] in E; [congruence|]. injection E as <- ->. rewrite data_char in D by exact N. right. left. exists a, r.
           destruct Q' as [[-> _]|[-> ->]]; [exists k|exists (pred k)]; (split; [reflexivity|lia]).
        -- destruct a as [|x a]; cbn [app] in E; [congruence|]. injection E as <- ->. rewrite data_char in D by exact N. right. right. left. exists a, r.
           destruct Q' as [[-> _]|[-> ->]]; [exists k|exists (pred k)]; (split; [reflexivity|lia]).
        -- congruence.
Qed.
(** base64Binary: exactly what python decodes, including texts with foreign characters, and texts of which the end is never read. *)
Theorem C66_base64_exact : forall s, validate_xsd X_base64Binary s = Val true <-> PyBase64 s.
Proof.
  intros s. change (validate_xsd X_base64Binary s) with (Val (is_base64_binary s)). transitivity (is_base64_binary s = true); [split; [congruence|now intros ->]|].
  unfold is_base64_binary, b64decode_ok, PyBase64. rewrite andb_true_iff.
  assert (A : forallb (fun c => c <? 128) s = true <-> Forall (fun c => c < 128) s).
  { rewrite forallb_forall, Forall_forall. split; intros H c I; [apply N.ltb_lt|apply N.ltb_lt]; auto. }
  rewrite A. destruct (skips_total s) as [w W]. rewrite (skips_a2b s w W), (a2b_exact s w W) by (auto; lia). clear A. apply and_iff_compat_l.
  change (lit "=") with [61]. change (lit "==") with [61; 61]. split.
  - intros [H|[H|[H|([=] & _)]]]; exists w; (split; [exact W|]); [left|right; left|right; right]; exact H.
  - intros (w' & W' & H). rewrite <- (skips_unique s w W w' W') in H. destruct H as [H|[H|H]]; [left|right; left|right; right; left]; exact H.
Qed.
Print Assumptions C66_base64_exact.
(** Behind the padding everything is ignored; padding in front or in between is ignored as well; a text without any data is accepted. *)
Example C66_base64_odd : List.map (validate_xsd X_base64Binary) (List.map lit ["YQ==YQ"; "YWI=!?"; "=YW=Jj"; "==="; "Y=Q=="; "YQ=="; "YQ="; "Y==="; "YQ=?="; "YQ=I"]%string) =
  List.map Val [true; true; true; true; true; true; false; false; true; false].
Proof. vm_compute. reflexivity. Qed.
Example C66_base64_read : PyBase64 (lit "YQ==YQ") /\ ~ PyBase64 (lit "YQ=").
Proof.
  split; [apply C66_base64_exact; vm_compute; reflexivity|]. intros H. apply C66_base64_exact in H. vm_compute in H. discriminate H.
Qed.
