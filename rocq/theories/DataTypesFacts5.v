(** Lemmas about language tags, IRI references, versions and English tags. *)
From Coq Require Import String List NArith ZArith Znumtheory Bool Lia ZifyN.
From Verif Require Import PyStr PyStrFacts PyBase Regex DataTypesModel DataTypesSpec DataTypesFacts.
Import ListNotations.
Local Open Scope N_scope.

(** ** Regular expressions and sets of strings *)
Definition eqv (r : re) (l : lng) : Prop := forall s, lang r s <-> l s.

Lemma eqv_cat a b l m : eqv a l -> eqv b m -> eqv (RCat a b) (l_seq l m).
Proof.
  intros A B s. unfold l_seq. cbn [lang]. split; intros (u & v & E & U & V); exists u, v.
  - apply A in U. apply B in V. auto.
  - apply A in U. apply B in V. auto.
Qed.

Lemma eqv_alt a b l m : eqv a l -> eqv b m -> eqv (RAlt a b) (l_alt l m).
Proof. intros A B s. unfold l_alt. cbn [lang]. rewrite (A s), (B s). reflexivity. Qed.

Lemma eqv_opt a l : eqv a l -> eqv (ropt a) (l_opt l).
Proof. intros A s. unfold l_opt. rewrite lang_ropt, (A s). reflexivity. Qed.

Lemma eqv_forall a l k : eqv a l -> Forall (lang a) k <-> Forall l k.
Proof. intros A. split; apply Forall_impl; intros s; apply A. Qed.

Lemma eqv_star a l : eqv a l -> eqv (RStar a) (l_many 0 None l).
Proof.
  intros A s. unfold l_many. cbn [lang]. split.
  - intros (k & E & F). apply (eqv_forall _ _ _ A) in F. exists k. repeat split; auto. lia.
  - intros (k & E & F & _). apply (eqv_forall _ _ _ A) in F. eauto.
Qed.

Lemma eqv_plus a l : eqv a l -> eqv (rplus a) (l_many 1 None l).
Proof.
  intros A s. rewrite lang_rplus. unfold l_many. split.
  - intros (k & N & E & F). apply (eqv_forall _ _ _ A) in F. exists k. repeat split; auto.
    destruct k; [congruence|simpl; lia].
  - intros (k & E & F & L & _). apply (eqv_forall _ _ _ A) in F. exists k. repeat split; auto.
    intros ->. simpl in L. lia.
Qed.

Lemma eqv_rep n a l : eqv a l -> eqv (rrep n a) (times n l).
Proof.
  intros A s. rewrite lang_rrep. unfold times, l_many. split.
  - intros (k & N & E & F). apply (eqv_forall _ _ _ A) in F. exists k. repeat split; auto; lia.
  - intros (k & E & F & L & L'). apply (eqv_forall _ _ _ A) in F. exists k. repeat split; auto. lia.
Qed.

Lemma eqv_range lo ex hi a l : eqv a l -> hi = (lo + ex)%nat -> eqv (rrange lo ex a) (l_many lo (Some hi) l).
Proof.
  intros A -> s. rewrite lang_rrange. unfold l_many. split.
  - intros (k & N & E & F). apply (eqv_forall _ _ _ A) in F. exists k. repeat split; auto; lia.
  - intros (k & E & F & L & L'). apply (eqv_forall _ _ _ A) in F. exists k. repeat split; auto. 
Qed.

Lemma eqv_lit x : eqv (r_lit x) (l_lit x).
Proof. intros s. apply lang_rlit. Qed.

Lemma eqv_chr cls p : (forall c, in_cls cls c = true <-> p c) -> eqv (RCls cls) (l_chr p).
Proof.
  intros A s. rewrite lang_rcls. unfold l_chr. split; intros (c & E & H); exists c; split; auto; now apply A.
Qed.

Lemma eqv_ext a l m : eqv a l -> (forall s, l s <-> m s) -> eqv a m.
Proof. intros A B s. now rewrite (A s). Qed.

Lemma l_alt_chr p q s : l_alt (l_chr p) (l_chr q) s <-> l_chr (fun c => p c \/ q c) s.
Proof. unfold l_alt, l_chr. split; [intros [(c & E & H)|(c & E & H)]; eauto|intros (c & E & [H|H]); eauto]. Qed.

Ltac cls := let c := fresh "c" in intros c; rewrite in_cls_spec; unfold c_hexdig, c_alpha, c_ucschar, c_unreserved, Ucschar, Iprivate, SubDelim;
  repeat rewrite Exists_cons; rewrite Exists_nil; cbn [fst snd].

Ltac eq1 := first [apply eqv_cat|apply eqv_alt|apply eqv_opt|apply eqv_star|apply eqv_plus|apply eqv_rep|apply eqv_lit].

Lemma eqv_hexdig : eqv r_hexdig (l_chr HexDigit).
Proof. apply eqv_chr. cls. unfold HexDigit, Digit. lia. Qed.

Lemma eqv_digit : eqv r_digit (l_chr Digit).
Proof. intros s. apply lang_digit. Qed.

Lemma eqv_ucschar : eqv r_ucschar (l_chr Ucschar).
Proof.
  apply eqv_chr. cls. split.
  - intros H. repeat match type of H with _ \/ _ => destruct H as [H|H] end; try tauto.
    all: try (right; right; right; left).
    1: exists 1. 2: exists 2. 3: exists 3. 4: exists 4. 5: exists 5. 6: exists 6. 7: exists 7.
    8: exists 8. 9: exists 9. 10: exists 10. 11: exists 11. 12: exists 12. 13: exists 13.
    all: lia.
  - intros [H|[H|[H|[(p & P1 & P2 & L & U)|H]]]]; try tauto.
    assert (X : p = 1 \/ p = 2 \/ p = 3 \/ p = 4 \/ p = 5 \/ p = 6 \/ p = 7 \/ p = 8 \/ p = 9 \/ p = 10 \/ p = 11 \/ p = 12 \/ p = 13) by lia.
    repeat destruct X as [->|X]; try subst p; cbn in L, U; tauto.
Qed.

Lemma eqv_unreserved : eqv r_unreserved (l_chr Unreserved).
Proof. apply eqv_chr. unfold c_unreserved, c_alpha. cbn [app]. cls. unfold Unreserved, AlphaNum, Alpha, Digit. lia. Qed.

Lemma eqv_iunreserved : eqv r_iunreserved iunreserved.
Proof.
  eapply eqv_ext; [apply eqv_alt; [apply eqv_unreserved|apply eqv_ucschar]|]. intros s. apply l_alt_chr.
Qed.

Lemma eqv_pct : eqv r_pct_encoded pct_encoded.
Proof. apply eqv_cat; [apply eqv_lit|]. apply eqv_cat; apply eqv_hexdig. Qed.

Lemma eqv_sub_delims : eqv r_sub_delims sub_delims.
Proof.
  apply eqv_chr. unfold c_sub_delims. intros c. rewrite in_cls_spec.
  repeat rewrite Exists_cons; rewrite Exists_nil; cbn [fst snd]. unfold SubDelim.
  set (x := lit "!$&'()*+,;="). vm_compute in x. subst x. cbn [In].
  assert (E : forall a, a <= c /\ c <= a <-> a = c) by (intros; lia). now rewrite !E.
Qed.

Lemma eqv_ipchar : eqv r_ipchar ipchar.
Proof.
  apply eqv_alt; [apply eqv_iunreserved|]. apply eqv_alt; [apply eqv_pct|]. apply eqv_alt; [apply eqv_sub_delims|].
  intros s. rewrite lang_rcls. unfold l_alt, l_lit. split.
  - intros (c & -> & H). apply in_cls_spec in H. rewrite !Exists_cons, Exists_nil in H. cbn [fst snd] in H.
    assert (C : c = 58 \/ c = 64) by lia. destruct C as [->| ->]; auto.
  - intros [->| ->]; eexists; split; reflexivity.
Qed.

Lemma eqv_iuserinfo : eqv r_iuserinfo iuserinfo.
Proof.
  apply eqv_star. apply eqv_alt; [apply eqv_iunreserved|]. apply eqv_alt; [apply eqv_pct|].
  apply eqv_alt; [apply eqv_sub_delims|apply eqv_lit].
Qed.

Lemma eqv_h16 : eqv r_h16 h16.
Proof. apply eqv_range; [apply eqv_hexdig|reflexivity]. Qed.

Lemma numval_1 a : numval [a] = (Z.of_N a - 48)%Z.
Proof. cbn [numval length]. change (10 ^ Z.of_nat 0)%Z with 1%Z. lia. Qed.
Lemma numval_3 a b c : numval [a; b; c] = ((Z.of_N a - 48) * 100 + (Z.of_N b - 48) * 10 + (Z.of_N c - 48))%Z.
Proof.
  cbn [numval length]. change (10 ^ Z.of_nat 0)%Z with 1%Z. change (10 ^ Z.of_nat 1)%Z with 10%Z.
  change (10 ^ Z.of_nat 2)%Z with 100%Z. lia.
Qed.

Lemma dec_octet_long a b c d s : Forall Digit (a :: b :: c :: d :: s) -> a <> 48 -> (999 < numval (a :: b :: c :: d :: s))%Z.
Proof.
  intros F NZ. inversion F as [|? ? FA F']; subst. pose proof (numval_nonneg _ F') as NN.
  unfold Digit in FA. cbn [numval] in *. cbn [length] in *.
  assert (P : (10 ^ 3 <= 10 ^ Z.of_nat (S (S (S (length s)))))%Z) by (apply Z.pow_le_mono_r; lia).
  change (10 ^ 3)%Z with 1000%Z in P. nia.
Qed.

Ltac fd := repeat apply Forall_cons; try apply Forall_nil; unfold Digit in *; lia.

Lemma eqv_dec_octet : eqv r_dec_octet dec_octet.
Proof.
  intros s. unfold dec_octet. split.
  - intros H. unfold r_dec_octet in H. apply lang_ralts in H.
    rewrite !Exists_cons, Exists_nil in H. destruct H as [H|[H|[H|[H|[H|[]]]]]].
    + apply lang_digit in H as (c & -> & C). split; [split; [discriminate|fd]|].
      rewrite numval_1. unfold Digit in C. split; [lia|]. simpl. lia.
    + destruct H as (u & v & -> & U & V). apply lang_range in U as (a & -> & A). apply lang_digit in V as (b & -> & B).
      unfold Digit in *. split; [split; [discriminate|fd]|].
      cbn [app]. rewrite numval2. split; [lia|]. simpl. lia.
    + destruct H as (u & v & -> & U & V). apply lang_rlit in U. subst u.
      apply (proj1 (lang_rrep_digit _ _)) in V as [L F]. destruct v as [|a [|b [|]]]; try discriminate.
      change (lit "1" ++ [a; b]) with [49; a; b].
      inversion F as [|? ? A F']; inversion F' as [|? ? B _]; subst. unfold Digit in *.
      split; [split; [discriminate|fd]|].
      rewrite numval_3. split; [lia|]. simpl. lia.
    + destruct H as (u & v & -> & U & (w & x & -> & W & X)). apply lang_rlit in U. subst u.
      apply lang_range in W as (a & -> & A). apply lang_digit in X as (b & -> & B).
      change (lit "2" ++ [a] ++ [b]) with [50; a; b]. unfold Digit in *.
      split; [split; [discriminate|fd]|].
      rewrite numval_3. split; [lia|]. simpl. lia.
    + destruct H as (u & v & -> & U & V). apply lang_rlit in U. subst u.
      apply lang_range in V as (a & -> & A).
      change (lit "25" ++ [a]) with [50; 53; a]. unfold Digit in *.
      split; [split; [discriminate|fd]|].
      rewrite numval_3. split; [lia|]. simpl. lia.
  - intros ([NE F] & L & Z). unfold r_dec_octet. apply lang_ralts. rewrite !Exists_cons.
    destruct s as [|a [|b [|c [|d s]]]]; [congruence| | | |].
    + left. apply lang_digit. inversion F; subst. eauto.
    + right. left. inversion F as [|? ? A F']; inversion F' as [|? ? B _]; subst.
      specialize (Z ltac:(simpl; lia)). simpl in Z. unfold Digit in A.
      exists [a], [b]. split; [reflexivity|]. split; [apply lang_range; exists a; split; [reflexivity|lia]|].
      apply lang_digit. eauto.
    + inversion F as [|? ? A F']; inversion F' as [|? ? B F'']; inversion F'' as [|? ? C _]; subst.
      specialize (Z ltac:(simpl; lia)). simpl in Z. rewrite numval_3 in L. unfold Digit in A, B, C.
      assert (X : a = 49 \/ a = 50) by lia. destruct X as [->| ->].
      * right. right. left. exists (lit "1"), [b; c]. split; [reflexivity|]. split; [now apply lang_rlit|].
        apply lang_rrep_digit. split; [reflexivity|]. fd.
      * destruct (N.leb_spec b 52).
        -- right. right. right. left. exists (lit "2"), [b; c]. split; [reflexivity|]. split; [now apply lang_rlit|].
           exists [b], [c]. split; [reflexivity|]. split; [apply lang_range; exists b; split; [reflexivity|lia]|].
           apply lang_digit. exists c. split; [reflexivity|exact C].
        -- right. right. right. right. left. assert (b = 53) by (unfold Digit in *; lia). subst.
           exists (lit "25"), [c]. split; [reflexivity|]. split; [now apply lang_rlit|].
           apply lang_range. exists c. split; [reflexivity|]. unfold Digit in *. lia.
    + exfalso. specialize (Z ltac:(simpl; lia)). simpl in Z. pose proof (dec_octet_long _ _ _ _ _ F Z). lia.
Qed.

Lemma eqv_ipv4 : eqv r_ipv4 ipv4.
Proof. repeat (apply eqv_cat; [first [apply eqv_dec_octet|apply eqv_lit]|]). apply eqv_dec_octet. Qed.

Lemma eqv_ls32 : eqv r_ls32 ls32.
Proof.
  apply eqv_alt; [|apply eqv_ipv4]. apply eqv_cat; [apply eqv_h16|]. apply eqv_cat; [apply eqv_lit|apply eqv_h16].
Qed.

Lemma eqv_h16c : eqv r_h16c h16c.
Proof. apply eqv_cat; [apply eqv_h16|apply eqv_lit]. Qed.

Lemma l_seq_assoc a b c s : l_seq (l_seq a b) c s <-> l_seq a (l_seq b c) s.
Proof.
  unfold l_seq. split.
  - intros (u & v & -> & (w & x & -> & W & X) & V). exists w, (x ++ v). rewrite app_assoc. eauto 10.
  - intros (u & v & -> & U & (w & x & -> & W & X)). exists (u ++ w), x. rewrite app_assoc. eauto 10.
Qed.

Lemma l_alt_ext a b a' b' : (forall s : str, a s <-> a' s) -> (forall s : str, b s <-> b' s) -> forall s, l_alt a b s <-> l_alt a' b' s.
Proof. intros A B s. unfold l_alt. now rewrite A, B. Qed.

Lemma eqv_ipv6 : eqv r_ipv6 ipv6_full.
Proof.
  unfold r_ipv6, ipv6_full. cbn [ralts].
  apply eqv_alt; [apply eqv_cat; [apply eqv_rep, eqv_h16c|apply eqv_ls32]|].
  apply eqv_alt; [apply eqv_cat; [apply eqv_lit|apply eqv_cat; [apply eqv_rep, eqv_h16c|apply eqv_ls32]]|].
  apply eqv_alt; [apply eqv_cat; [apply eqv_opt, eqv_h16|apply eqv_cat; [apply eqv_lit|apply eqv_cat; [apply eqv_rep, eqv_h16c|apply eqv_ls32]]]|].
  apply eqv_alt; [apply eqv_cat; [apply eqv_opt, eqv_cat; [apply eqv_opt, eqv_h16c|apply eqv_h16]|apply eqv_cat; [apply eqv_lit|apply eqv_cat; [apply eqv_rep, eqv_h16c|apply eqv_ls32]]]|].
  apply eqv_alt; [apply eqv_cat; [apply eqv_opt, eqv_cat; [apply eqv_rep, eqv_h16c|apply eqv_h16]|apply eqv_cat; [apply eqv_lit|apply eqv_cat; [apply eqv_rep, eqv_h16c|apply eqv_ls32]]]|].
  apply eqv_alt.
  { apply eqv_cat; [apply eqv_opt, eqv_cat; [apply eqv_rep, eqv_h16c|apply eqv_h16]|apply eqv_cat; [apply eqv_lit|]].
    eapply eqv_ext; [apply eqv_cat; [apply eqv_h16|apply eqv_cat; [apply eqv_lit|apply eqv_ls32]]|].
    intros s. symmetry. apply l_seq_assoc. }
  apply eqv_alt; [apply eqv_cat; [apply eqv_opt, eqv_cat; [apply eqv_rep, eqv_h16c|apply eqv_h16]|apply eqv_cat; [apply eqv_lit|apply eqv_ls32]]|].
  apply eqv_alt; [apply eqv_cat; [apply eqv_opt, eqv_cat; [apply eqv_rep, eqv_h16c|apply eqv_h16]|apply eqv_cat; [apply eqv_lit|apply eqv_h16]]|].
  apply eqv_cat; [apply eqv_opt, eqv_cat; [apply eqv_rep, eqv_h16c|apply eqv_h16]|apply eqv_lit].
Qed.

Lemma eqv_ipvfuture : eqv r_ipvfuture ipvfuture.
Proof.
  apply eqv_cat.
  { intros s. rewrite lang_rcls. unfold l_alt, l_lit. split.
    - intros (c & -> & H). apply in_cls_spec in H. rewrite !Exists_cons, Exists_nil in H. cbn [fst snd] in H.
      assert (C : c = 118 \/ c = 86) by lia. destruct C as [->| ->]; auto.
    - intros [->| ->]; eexists; split; reflexivity. }
  apply eqv_cat; [apply eqv_plus, eqv_hexdig|]. apply eqv_cat; [apply eqv_lit|].
  apply eqv_plus. eapply eqv_ext; [apply eqv_alt; [apply eqv_unreserved|apply eqv_alt; [apply eqv_sub_delims|apply eqv_lit]]|].
  intros s. rewrite <- l_alt_chr. apply l_alt_ext; [reflexivity|]. intros t. rewrite <- l_alt_chr.
  apply l_alt_ext; [reflexivity|]. intros u. unfold l_lit, l_chr. split; [intros ->; exists 58; auto|intros (c & -> & ->); reflexivity].
Qed.

Lemma eqv_slash_question a l : eqv a l -> eqv (ralts [a; r_slash_question]) (l_alt l (l_alt (l_lit "/") (l_lit "?"))).
Proof.
  intros A. apply eqv_alt; [exact A|].
  intros s. unfold r_slash_question. rewrite lang_rcls. unfold l_alt, l_lit. split.
  - intros (c & -> & H). apply in_cls_spec in H. rewrite !Exists_cons, Exists_nil in H. cbn [fst snd] in H.
    assert (C : c = 47 \/ c = 63) by lia. destruct C as [->| ->]; auto.
  - intros [->| ->]; eexists; split; reflexivity.
Qed.

Lemma eqv_iprivate : eqv r_iprivate (l_chr Iprivate).
Proof. apply eqv_chr. cls. tauto. Qed.

Lemma eqv_host : eqv r_ihost (ihost ipv6_full).
Proof.
  apply eqv_alt; [apply eqv_cat; [apply eqv_lit|apply eqv_cat; [apply eqv_alt; [apply eqv_ipv6|apply eqv_ipvfuture]|apply eqv_lit]]|].
  apply eqv_alt; [apply eqv_ipv4|]. apply eqv_star.
  apply eqv_alt; [apply eqv_iunreserved|apply eqv_alt; [apply eqv_pct|apply eqv_sub_delims]].
Qed.

Lemma eqv_authority : eqv r_iauthority (iauthority ipv6_full).
Proof.
  apply eqv_cat; [apply eqv_opt, eqv_cat; [apply eqv_iuserinfo|apply eqv_lit]|].
  apply eqv_cat; [apply eqv_host|]. apply eqv_opt, eqv_cat; [apply eqv_lit|apply eqv_star, eqv_digit].
Qed.

Lemma eqv_abempty : eqv r_ipath_abempty ipath_abempty.
Proof. apply eqv_star, eqv_cat; [apply eqv_lit|apply eqv_star, eqv_ipchar]. Qed.

Lemma eqv_absolute : eqv r_ipath_absolute ipath_absolute.
Proof.
  apply eqv_cat; [apply eqv_lit|]. apply eqv_opt, eqv_cat; [apply eqv_plus, eqv_ipchar|apply eqv_abempty].
Qed.

Lemma eqv_rootless : eqv r_ipath_rootless ipath_rootless.
Proof. apply eqv_cat; [apply eqv_plus, eqv_ipchar|apply eqv_abempty]. Qed.

Lemma eqv_noscheme : eqv r_ipath_noscheme ipath_noscheme.
Proof.
  apply eqv_cat; [apply eqv_plus|apply eqv_abempty].
  apply eqv_alt; [apply eqv_iunreserved|apply eqv_alt; [apply eqv_pct|apply eqv_alt; [apply eqv_sub_delims|apply eqv_lit]]].
Qed.

Lemma eqv_empty : eqv r_ipath_empty ipath_empty.
Proof. intros s. reflexivity. Qed.

Lemma eqv_hier_part : eqv r_ihier_part (ihier_part ipv6_full).
Proof.
  apply eqv_alt; [apply eqv_cat; [apply eqv_lit|apply eqv_cat; [apply eqv_authority|apply eqv_abempty]]|].
  apply eqv_alt; [apply eqv_absolute|]. apply eqv_alt; [apply eqv_rootless|apply eqv_empty].
Qed.

Lemma eqv_relative_part : eqv r_irelative_part (irelative_part ipv6_full).
Proof.
  apply eqv_alt; [apply eqv_cat; [apply eqv_lit|apply eqv_cat; [apply eqv_authority|apply eqv_abempty]]|].
  apply eqv_alt; [apply eqv_absolute|]. apply eqv_alt; [apply eqv_noscheme|apply eqv_empty].
Qed.

Lemma eqv_tail : eqv (rseq [r_query_opt; r_fragment_opt]) tail_parts.
Proof.
  apply eqv_cat; apply eqv_opt; (apply eqv_cat; [apply eqv_lit|]); apply eqv_star.
  - apply eqv_alt; [apply eqv_ipchar|]. apply (eqv_slash_question r_iprivate), eqv_iprivate.
  - apply (eqv_slash_question r_ipchar), eqv_ipchar.
Qed.

Lemma eqv_scheme : eqv r_scheme scheme.
Proof.
  apply eqv_cat.
  - apply eqv_chr. unfold c_alpha. cls. unfold Alpha. lia.
  - apply eqv_star, eqv_chr. unfold c_alpha. cbn [app]. cls. unfold AlphaNum, Alpha, Digit. lia.
Qed.

Lemma eqv_iri_reference : eqv r_iri_reference (IriReferenceWith ipv6_full).
Proof.
  apply eqv_alt.
  - apply eqv_cat; [apply eqv_scheme|]. apply eqv_cat; [apply eqv_lit|].
    apply (eqv_cat r_ihier_part (rseq [r_query_opt; r_fragment_opt])); [apply eqv_hier_part|apply eqv_tail].
  - apply (eqv_cat r_irelative_part (rseq [r_query_opt; r_fragment_opt])); [apply eqv_relative_part|apply eqv_tail].
Qed.

Lemma any_uri_spec s : is_any_uri s = true <-> UpToLineFeed (IriReferenceWith ipv6_full) s.
Proof.
  unfold is_any_uri, UpToLineFeed. rewrite matches_dollar_spec. rewrite (eqv_iri_reference s).
  split; (intros [H|(t & E & H)]; [auto|right; exists t; split; auto; now apply eqv_iri_reference]).
Qed.

(** *** The grammar is monotone in the IPv6 addresses *)
Definition sub (a b : lng) : Prop := forall s, a s -> b s.
Lemma sub_refl a : sub a a. Proof. intros s H. exact H. Qed.
Lemma sub_seq a b a' b' : sub a a' -> sub b b' -> sub (l_seq a b) (l_seq a' b').
Proof. intros A B s (u & v & E & U & V). exists u, v. auto. Qed.
Lemma sub_alt a b a' b' : sub a a' -> sub b b' -> sub (l_alt a b) (l_alt a' b').
Proof. intros A B s [H|H]; [left|right]; auto. Qed.
Lemma sub_opt a a' : sub a a' -> sub (l_opt a) (l_opt a').
Proof. intros A s [H|H]; [left|right]; auto. Qed.

Lemma sub_times n a : sub (times n a) (upto n a).
Proof. intros s (l & E & F & L & U). exists l. repeat split; auto. lia. Qed.

Lemma sub_opt_upto a : sub (l_opt a) (upto 1 a).
Proof.
  intros s [->|H]; [exists []; repeat split; auto; simpl; lia|].
  exists [s]. simpl. rewrite app_nil_r. repeat split; auto.
Qed.

Ltac mono := repeat match goal with
  | |- sub ?a ?a => apply sub_refl
  | |- sub (l_seq _ _) (l_seq _ _) => apply sub_seq
  | |- sub (l_alt _ _) (l_alt _ _) => apply sub_alt
  | |- sub (l_opt _) (l_opt _) => apply sub_opt
  | |- sub (times _ _) (upto _ _) => apply sub_times
  | |- sub (l_opt _) (upto 1 _) => apply sub_opt_upto
  | H : sub ?a ?b |- sub ?a ?b => exact H
  end.

Lemma iri_reference_mono a b : sub a b -> sub (IriReferenceWith a) (IriReferenceWith b).
Proof.
  intros H. unfold IriReferenceWith, Iri, IrelativeRef, ihier_part, irelative_part, iauthority, ihost, ip_literal. mono.
Qed.

Lemma ipv6_full_sub : sub ipv6_full ipv6.
Proof. unfold ipv6_full, ipv6. mono. Qed.

(** ** Language tags *)
Definition dash (l : list str) : str := concat (List.map (cons 45) l).

Lemma join_dash a l : join (lit "-") (a :: l) = a ++ dash l.
Proof.
  revert a. induction l as [|b l IH]; intros a; [simpl; now rewrite app_nil_r|].
  change (join (lit "-") (a :: b :: l)) with (a ++ lit "-" ++ join (lit "-") (b :: l)). rewrite IH. reflexivity.
Qed.

Lemma dash_app l m : dash (l ++ m) = dash l ++ dash m.
Proof. unfold dash. now rewrite map_app, concat_app. Qed.

Lemma join_dash_app l m : l <> [] -> join (lit "-") (l ++ m) = join (lit "-") l ++ dash m.
Proof. destruct l as [|a l]; [congruence|]. intros _. cbn [app]. now rewrite !join_dash, dash_app, app_assoc. Qed.

Lemma dash_cons a l : dash (a :: l) = lit "-" ++ join (lit "-") (a :: l).
Proof. rewrite join_dash. reflexivity. Qed.

Lemma dash_one a : dash [a] = lit "-" ++ a.
Proof. unfold dash. simpl. now rewrite app_nil_r. Qed.

Definition subtag_cls (p : N -> Prop) (cls : list (N * N)) : Prop := forall c, in_cls cls c = true <-> p c.

Lemma cls_alpha : subtag_cls Alpha c_alpha.
Proof. unfold c_alpha. cls. unfold Alpha. lia. Qed.
Lemma cls_alphanum : subtag_cls AlphaNum (c_alpha ++ [(48, 57)]).
Proof. unfold c_alpha. cbn [app]. cls. unfold AlphaNum, Alpha, Digit. lia. Qed.
Lemma cls_digit : subtag_cls Digit [(48, 57)].
Proof. cls. unfold Digit. lia. Qed.

Lemma forall_cls p cls s : subtag_cls p cls -> Forall (fun c => in_cls cls c = true) s <-> Forall p s.
Proof. intros H. split; apply Forall_impl; intros c; apply H. Qed.

Lemma lang_subtag p cls lo ex hi s : subtag_cls p cls -> hi = (lo + ex)%nat ->
  lang (rrange lo ex (RCls cls)) s <-> Subtag p lo hi s.
Proof. intros H ->. rewrite lang_rrange_cls, (forall_cls _ _ _ H). reflexivity. Qed.

Lemma lang_subtag_n p cls n s : subtag_cls p cls -> lang (rrep n (RCls cls)) s <-> Subtag p n n s.
Proof.
  intros H. rewrite lang_rrep_cls, (forall_cls _ _ _ H). unfold Subtag. intuition lia.
Qed.

Lemma lang_dash r s : lang (rseq [r_lit "-"; r]) s <-> exists a, s = dash [a] /\ lang r a.
Proof.
  cbn [rseq]. split.
  - intros (u & v & -> & U & V). apply lang_rlit in U. subst. exists v. split; [|exact V].
    unfold dash. simpl. now rewrite app_nil_r.
  - intros (a & -> & A). exists (lit "-"), a. split; [unfold dash; simpl; now rewrite app_nil_r|].
    split; [now apply lang_rlit|exact A].
Qed.

Lemma lang_dash_list r k : Forall (lang (rseq [r_lit "-"; r])) k <-> exists l, k = List.map (fun a => dash [a]) l /\ Forall (lang r) l.
Proof.
  induction k as [|x k IH].
  - split; [exists []; auto|constructor].
  - rewrite Forall_cons_iff, lang_dash, IH. split.
    + intros [(a & -> & A) (l & -> & L)]. exists (a :: l). auto.
    + intros (l & E & F). destruct l as [|a l]; [discriminate|]. injection E as -> ->. inversion F; subst. split; [exists a|exists l]; auto.
Qed.

Lemma concat_dash l : concat (List.map (fun a => dash [a]) l) = dash l.
Proof.
  induction l as [|a l IH]; [reflexivity|].
  change (dash [a] ++ concat (List.map (fun a => dash [a]) l) = dash ([a] ++ l)). now rewrite IH, dash_app.
Qed.

Lemma lang_dash_star r s : lang (RStar (rseq [r_lit "-"; r])) s <-> exists l, s = dash l /\ Forall (lang r) l.
Proof.
  change (lang (RStar (rseq [r_lit "-"; r])) s) with (exists k, s = concat k /\ Forall (lang (rseq [r_lit "-"; r])) k). split.
  - intros (k & -> & F). apply lang_dash_list in F as (l & -> & F). exists l. split; [apply concat_dash|exact F].
  - intros (l & -> & F). exists (List.map (fun a => dash [a]) l). split; [symmetry; apply concat_dash|].
    apply lang_dash_list. eauto.
Qed.

Lemma lang_dash_plus r s : lang (rplus (rseq [r_lit "-"; r])) s <-> exists l, l <> [] /\ s = dash l /\ Forall (lang r) l.
Proof.
  rewrite lang_rplus. split.
  - intros (k & N & -> & F). apply lang_dash_list in F as (l & -> & F). exists l. split; [intros ->; now apply N|].
    split; [apply concat_dash|exact F].
  - intros (l & N & -> & F). exists (List.map (fun a => dash [a]) l). split; [destruct l; [congruence|discriminate]|].
    split; [symmetry; apply concat_dash|]. apply lang_dash_list. eauto.
Qed.

Lemma lang_dash_upto n r s : lang (rupto n (rseq [r_lit "-"; r])) s <-> exists l, (length l <= n)%nat /\ s = dash l /\ Forall (lang r) l.
Proof.
  rewrite lang_rupto. split.
  - intros (k & N & -> & F). apply lang_dash_list in F as (l & -> & F). exists l. rewrite map_length in N.
    split; [exact N|]. split; [apply concat_dash|exact F].
  - intros (l & N & -> & F). exists (List.map (fun a => dash [a]) l). rewrite map_length. split; [exact N|].
    split; [symmetry; apply concat_dash|]. apply lang_dash_list. eauto.
Qed.

Lemma lang_dash_opt r s : lang (ropt (rseq [r_lit "-"; r])) s <-> s = [] \/ exists a, s = dash [a] /\ lang r a.
Proof. rewrite lang_ropt, lang_dash. reflexivity. Qed.

Lemma forall_iff {A} (p q : A -> Prop) l : (forall x, p x <-> q x) -> Forall p l <-> Forall q l.
Proof. intros H. split; apply Forall_impl; intros x; apply H. Qed.

Lemma lang_extlang s : lang r_extlang s <-> exists l, l <> [] /\ (length l <= 3)%nat /\ s = join (lit "-") l /\ Forall (Subtag Alpha 3 3) l.
Proof.
  unfold r_extlang, r_alpha. split.
  - intros (u & v & -> & U & V). apply (proj1 (lang_subtag_n _ _ _ _ cls_alpha)) in U.
    apply (proj1 (lang_dash_upto _ _ _)) in V as (l & L & -> & F).
    exists (u :: l). split; [discriminate|]. split; [simpl; lia|]. split; [now rewrite join_dash|].
    constructor; [exact U|]. eapply forall_iff; [|exact F]. intros x. symmetry. exact (lang_subtag_n _ _ _ _ cls_alpha).
  - intros (l & N & L & -> & F). destruct l as [|a l]; [congruence|]. inversion F as [|? ? F1 F2]; subst. rewrite join_dash.
    exists a, (dash l). split; [reflexivity|]. split; [exact (proj2 (lang_subtag_n _ _ _ _ cls_alpha) F1)|].
    apply (proj2 (lang_dash_upto _ _ _)). exists l. split; [simpl in L; lia|]. split; [reflexivity|].
    eapply forall_iff; [|exact F2]. intros x. exact (lang_subtag_n _ _ _ _ cls_alpha).
Qed.

Lemma lang_language s : lang r_language s <-> exists la, LangSubtags la /\ s = join (lit "-") la.
Proof.
  unfold r_language, r_alpha. rewrite lang_ralts, !Exists_cons, Exists_nil. split.
  - intros [H|[H|[H|[]]]].
    + destruct H as (u & v & -> & U & V). apply (proj1 (lang_subtag Alpha _ 2 1 3%nat _ cls_alpha eq_refl)) in U.
      apply (proj1 (lang_dash_opt _ _)) in V as [->|(x & -> & X)].
      * exists [u]. split; [|simpl; now rewrite app_nil_r]. left. exists u, []. repeat split; auto; apply U.
      * apply lang_extlang in X as (l & N & L & -> & F). exists (u :: l). split.
        -- left. exists u, l. auto.
        -- destruct l as [|y l]; [congruence|]. rewrite (join_dash u). f_equal. rewrite dash_one, dash_cons. reflexivity.
    + apply (proj1 (lang_subtag_n _ _ _ _ cls_alpha)) in H. exists [s]. split; [right; exists s; split; [reflexivity|]|reflexivity].
      destruct H. split; [lia|assumption].
    + apply (proj1 (lang_subtag Alpha _ 5 3 8%nat _ cls_alpha eq_refl)) in H. exists [s]. split; [right; exists s; split; [reflexivity|]|reflexivity].
      destruct H. split; [lia|assumption].
  - intros (la & [(a & ext & -> & A & L & F)|(a & -> & [L F])] & ->).
    + left. rewrite join_dash. exists a, (dash ext). split; [reflexivity|].
      split; [exact (proj2 (lang_subtag Alpha _ 2 1 3%nat _ cls_alpha eq_refl) A)|].
      apply (proj2 (lang_dash_opt _ _)). destruct ext as [|x ext]; [left; reflexivity|]. right.
      exists (join (lit "-") (x :: ext)). split.
      * rewrite dash_one, dash_cons. reflexivity.
      * apply lang_extlang. exists (x :: ext). repeat split; auto. discriminate.
    + cbn [join]. assert (X : length a = 4%nat \/ (5 <= length a <= 8)%nat) by lia. destruct X.
      * right. left. apply (proj2 (lang_subtag_n Alpha _ 4 _ cls_alpha)). split; [lia|exact F].
      * right. right. left. apply (proj2 (lang_subtag Alpha _ 5 3 8%nat _ cls_alpha eq_refl)). split; [lia|exact F].
Qed.

Lemma lang_optional r (p : str -> Prop) s : (forall a, lang r a <-> p a) ->
  lang (ropt (rseq [r_lit "-"; r])) s <-> exists l, Optional p l /\ s = dash l.
Proof.
  intros H. rewrite lang_dash_opt. split.
  - intros [->|(a & -> & A)]; [exists []; split; [left|]; reflexivity|]. apply H in A. exists [a]. split; [right; eauto|reflexivity].
  - intros (l & [->|(a & -> & A)] & ->); [left; reflexivity|]. apply H in A. right. eauto.
Qed.

Lemma lang_region s : lang r_region s <-> RegionSubtag s.
Proof.
  unfold r_region, r_alpha, r_digit, RegionSubtag. rewrite lang_ralts, !Exists_cons, Exists_nil.
  rewrite (lang_subtag_n _ _ _ _ cls_alpha), (lang_subtag_n _ _ _ _ cls_digit). tauto.
Qed.

Lemma lang_variant s : lang r_variant s <-> VariantSubtag s.
Proof.
  unfold r_variant, r_alphanum, VariantSubtag. rewrite lang_ralts, !Exists_cons, Exists_nil.
  rewrite (lang_subtag AlphaNum _ 5 3 8%nat _ cls_alphanum eq_refl). split.
  - intros [H|[H|[]]]; [auto|right]. destruct H as (u & v & -> & U & V). apply lang_digit in U as (c & -> & C).
    apply (proj1 (lang_subtag_n _ _ _ _ cls_alphanum)) in V as [L F]. split; [|exact C].
    split; [simpl; lia|]. constructor; [right; exact C|exact F].
  - intros [H|[[L F] D]]; [auto|right; left]. destruct s as [|c s]; [simpl in L; lia|].
    exists [c], s. split; [reflexivity|]. split; [apply lang_digit; eauto|].
    apply (proj2 (lang_subtag_n AlphaNum _ 3 _ cls_alphanum)). inversion F; subst. simpl in L. split; [lia|assumption].
Qed.

Lemma lang_singleton s : lang r_singleton s <-> Singleton s.
Proof.
  unfold r_singleton. rewrite lang_rcls. unfold Singleton. split; intros (c & -> & H); exists c; (split; [reflexivity|]).
  - apply in_cls_spec in H. rewrite !Exists_cons, Exists_nil in H. cbn [fst snd] in H. unfold AlphaNum, Alpha, Digit. lia.
  - apply in_cls_spec. rewrite !Exists_cons, Exists_nil. cbn [fst snd]. unfold AlphaNum, Alpha, Digit in H. lia.
Qed.

Lemma lang_extension s : lang r_extension s <-> exists l, ExtensionSubtags l /\ s = join (lit "-") l.
Proof.
  unfold r_extension, r_alphanum. split.
  - intros (u & v & -> & U & V). apply lang_singleton in U.
    apply (proj1 (lang_dash_plus _ _)) in V as (l & N & -> & F).
    exists (u :: l). split; [|now rewrite join_dash]. exists u, l. repeat split; auto.
    eapply forall_iff; [|exact F]. intros x. symmetry. exact (lang_subtag AlphaNum _ 2 6 8%nat _ cls_alphanum eq_refl).
  - intros (l & (a & t & -> & A & N & F) & ->). rewrite join_dash. exists a, (dash t).
    split; [reflexivity|]. split; [now apply lang_singleton|]. apply (proj2 (lang_dash_plus _ _)). exists t. repeat split; auto.
    eapply forall_iff; [|exact F]. intros x. exact (lang_subtag AlphaNum _ 2 6 8%nat _ cls_alphanum eq_refl).
Qed.

Lemma lang_privateuse s : lang r_privateuse s <-> exists l, PrivateSubtags l /\ s = join (lit "-") l.
Proof.
  unfold r_privateuse, r_alphanum. split.
  - intros (u & v & -> & U & V). apply lang_rcls in U as (c & -> & C).
    apply (proj1 (lang_dash_plus _ _)) in V as (l & N & -> & F).
    exists ([c] :: l). split; [|now rewrite join_dash]. exists [c], l. split; [reflexivity|]. split.
    { apply in_cls_spec in C. rewrite !Exists_cons, Exists_nil in C. cbn [fst snd] in C.
      assert (X : c = 120 \/ c = 88) by lia. destruct X as [->| ->]; auto. }
    split; [exact N|].
    eapply forall_iff; [|exact F]. intros x. symmetry. exact (lang_subtag AlphaNum _ 1 7 8%nat _ cls_alphanum eq_refl).
  - intros (l & (a & t & -> & A & N & F) & ->). rewrite join_dash. exists a, (dash t).
    split; [reflexivity|]. split; [destruct A as [->| ->]; eexists; split; reflexivity|].
    apply (proj2 (lang_dash_plus _ _)). exists t. repeat split; auto.
    eapply forall_iff; [|exact F]. intros x. exact (lang_subtag AlphaNum _ 1 7 8%nat _ cls_alphanum eq_refl).
Qed.

Lemma dash_join_list (p : list str -> Prop) k : (forall l, p l -> l <> []) ->
  Forall (fun x => exists l, p l /\ x = join (lit "-") l) k ->
  exists ls, Forall p ls /\ dash k = dash (concat ls).
Proof.
  intros NE. induction 1 as [|x k (l & P & ->) F (ls & Q & E)]; [exists []; split; [constructor|reflexivity]|].
  exists (l :: ls). split; [constructor; auto|]. cbn [concat]. rewrite dash_app, <- E.
  destruct l as [|a l]; [now apply NE in P|]. change (join (lit "-") (a :: l) :: k) with ([join (lit "-") (a :: l)] ++ k).
  rewrite dash_app. f_equal. rewrite dash_one, dash_cons. reflexivity.
Qed.

Lemma join_dash_list (p : list str -> Prop) ls : (forall l, p l -> l <> []) -> Forall p ls ->
  exists k, Forall (fun x => exists l, p l /\ x = join (lit "-") l) k /\ dash k = dash (concat ls).
Proof.
  intros NE. induction 1 as [|l ls P F (k & Q & E)]; [exists []; split; [constructor|reflexivity]|].
  exists (join (lit "-") l :: k). split; [constructor; eauto|]. cbn [concat]. rewrite dash_app, <- E.
  destruct l as [|a l]; [now apply NE in P|]. change (join (lit "-") (a :: l) :: k) with ([join (lit "-") (a :: l)] ++ k).
  rewrite dash_app. f_equal. rewrite dash_one, dash_cons. reflexivity.
Qed.

Lemma lang_subtags_ne l : LangSubtags l -> l <> [].
Proof. intros [(a & e & -> & _)|(a & -> & _)]; discriminate. Qed.
Lemma extension_ne l : ExtensionSubtags l -> l <> [].
Proof. intros (a & t & -> & _). discriminate. Qed.
Lemma private_ne l : PrivateSubtags l -> l <> [].
Proof. intros (a & t & -> & _). discriminate. Qed.

Lemma lang_extensions s : lang (RStar (rseq [r_lit "-"; r_extension])) s <->
  exists ex, Forall ExtensionSubtags ex /\ s = dash (concat ex).
Proof.
  rewrite lang_dash_star. split.
  - intros (k & -> & F). apply (forall_iff _ _ _ lang_extension) in F.
    destruct (dash_join_list _ _ extension_ne F) as (ls & P & E). eauto.
  - intros (ex & F & ->). destruct (join_dash_list _ _ extension_ne F) as (k & P & E). exists k. split; [auto|].
    now apply (forall_iff _ _ _ lang_extension).
Qed.

Lemma lang_private_opt s : lang (ropt (rseq [r_lit "-"; r_privateuse])) s <->
  exists pr, (pr = [] \/ PrivateSubtags pr) /\ s = dash pr.
Proof.
  assert (D : forall pr, pr <> [] -> dash [join (lit "-") pr] = dash pr).
  { intros [|a pr]; [congruence|]. intros _. rewrite dash_one, dash_cons. reflexivity. }
  rewrite lang_dash_opt. split.
  - intros [->|(a & -> & A)]; [exists []; auto|]. apply lang_privateuse in A as (l & P & ->). exists l.
    split; [auto|]. apply D. now apply private_ne.
  - intros (pr & [->|P] & ->); [auto|right]. exists (join (lit "-") pr). split.
    + symmetry. apply D. now apply private_ne.
    + apply lang_privateuse. eauto.
Qed.

Lemma lang_langtag s : lang r_langtag s <-> exists l, s = join (lit "-") l /\ LangTag l.
Proof.
  split.
  - intros (u & ? & -> & U & (v & ? & -> & V & (w & ? & -> & W & (x & ? & -> & X & (y & z & -> & Y & Z))))).
    apply lang_language in U as (la & LA & ->).
    apply (proj1 (lang_optional _ (Subtag Alpha 4 4) _ (fun a => lang_subtag_n _ _ _ a cls_alpha))) in V as (sc & SC & ->).
    apply (proj1 (lang_optional _ RegionSubtag _ lang_region)) in W as (rg & RG & ->).
    apply (proj1 (lang_dash_star _ _)) in X as (va & -> & VA). apply (forall_iff _ _ _ lang_variant) in VA.
    apply (proj1 (lang_extensions _)) in Y as (ex & EX & ->).
    apply (proj1 (lang_private_opt _)) in Z as (pr & PR & ->).
    exists (la ++ sc ++ rg ++ va ++ concat ex ++ pr). split.
    + rewrite join_dash_app by (now apply lang_subtags_ne). now rewrite !dash_app.
    + exists la, sc, rg, va, ex, pr. auto 10.
  - intros (l & -> & (la & sc & rg & va & ex & pr & -> & LA & SC & RG & VA & EX & PR)).
    rewrite join_dash_app by (now apply lang_subtags_ne). rewrite !dash_app.
    exists (join (lit "-") la). eexists. split; [reflexivity|]. split; [apply lang_language; eauto|].
    exists (dash sc). eexists. split; [reflexivity|].
    split; [apply (proj2 (lang_optional _ (Subtag Alpha 4 4) _ (fun a => lang_subtag_n _ _ _ a cls_alpha))); eauto|].
    exists (dash rg). eexists. split; [reflexivity|].
    split; [apply (proj2 (lang_optional _ RegionSubtag _ lang_region)); eauto|].
    exists (dash va). eexists. split; [reflexivity|].
    split; [apply (proj2 (lang_dash_star _ _)); exists va; split; [reflexivity|now apply (forall_iff _ _ _ lang_variant)]|].
    exists (dash (concat ex)), (dash pr). split; [reflexivity|].
    split; [apply (proj2 (lang_extensions _)); eauto|apply (proj2 (lang_private_opt _)); eauto].
Qed.

Lemma lang_lits xs s : lang (ralts (List.map r_lit xs)) s <-> In s (List.map lit xs).
Proof.
  rewrite lang_ralts. rewrite Exists_exists, in_map_iff. split.
  - intros (r & I & L). apply in_map_iff in I as (x & <- & I). apply lang_rlit in L. subst. eauto.
  - intros (x & <- & I). exists (r_lit x). split; [now apply in_map|]. now apply lang_rlit.
Qed.

Lemma lang_language_tag s : lang r_language_tag s <-> WellFormedTagCased s.
Proof.
  unfold r_language_tag, WellFormedTagCased. rewrite lang_ralts, !Exists_cons, Exists_nil.
  rewrite lang_langtag, lang_privateuse. unfold r_grandfathered. rewrite lang_ralts, !Exists_cons, Exists_nil.
  unfold r_irregular, r_regular. rewrite !lang_lits. rewrite in_app_iff.
  change (In s irregular_tags) with (In s (List.map lit ["en-GB-oed"; "i-ami"; "i-bnn"; "i-default"; "i-enochian"; "i-hak"; "i-klingon"; "i-lux"; "i-mingo";
     "i-navajo"; "i-pwn"; "i-tao"; "i-tay"; "i-tsu"; "sgn-BE-FR"; "sgn-BE-NL"; "sgn-CH-DE"]%string)).
  change (In s regular_tags) with (In s (List.map lit ["art-lojban"; "cel-gaulish"; "no-bok"; "no-nyn"; "zh-guoyu"; "zh-hakka"; "zh-min"; "zh-min-nan"; "zh-xiang"]%string)).
  split.
  - intros [(l & E & H)|[(l & P & E)|[[H|[H|[]]]|[]]]]; eauto 6.
  - intros [(l & E & [H|H])|[H|H]]; eauto 8.
Qed.

Lemma bcp_lang_string_spec s : is_bcp_lang_string s = true <-> UpToLineFeed WellFormedTagCased s.
Proof.
  unfold is_bcp_lang_string, UpToLineFeed. rewrite matches_dollar_spec, lang_language_tag.
  split; (intros [H|(t & E & H)]; [auto|right; exists t; split; auto; now apply lang_language_tag]).
Qed.

(** ** Versions *)
Lemma lang_version s : lang r_version s <-> VersionText s.
Proof.
  unfold r_version, VersionText, Digits. rewrite lang_ralts, !Exists_cons, Exists_nil, lang_rlit. split.
  - intros [->|[H|[]]].
    + split; [split; [discriminate|apply Forall_cons; [vm_compute; split; congruence|apply Forall_nil]]|auto].
    + destruct H as (u & v & -> & U & V). apply lang_range in U as (a & -> & A). apply (proj1 (lang_star_digit _)) in V.
      split; [split; [discriminate|constructor; [unfold Digit; lia|exact V]]|]. right. simpl. lia.
  - intros [[NE F] [->|H]]; [auto|]. right. left. destruct s as [|a s]; [congruence|]. simpl in H.
    inversion F as [|? ? A F']; subst. exists [a], s. split; [reflexivity|]. split.
    + apply lang_range. exists a. split; [reflexivity|]. unfold Digit in A. lia.
    + now apply lang_star_digit.
Qed.

Lemma version_string_spec s : is_version_string s = true <-> UpToLineFeed VersionText s.
Proof.
  unfold is_version_string, UpToLineFeed. rewrite matches_dollar_spec, lang_version.
  split; (intros [H|(t & E & H)]; [auto|right; exists t; split; auto; now apply lang_version]).
Qed.

(** ** Deciding the side conditions of examples *)
Lemma forallb_forall_digit s : forallb is_digit s = true -> Forall Digit s.
Proof. intros H. apply Forall_forall. intros c I. apply is_digit_spec. rewrite forallb_forall in H. auto. Qed.

Lemma filter_once {A} (f : A -> bool) x l : f x = true -> In x l -> (1 <= length (filter f l))%nat.
Proof.
  intros H I. assert (X : In x (filter f l)) by (apply filter_In; auto). destruct (filter f l); [destruct X|simpl; lia].
Qed.

Lemma NoDup_map_inv_str {A} (l : list (A * str)) (X := l) :
  forallb (fun p => (length (filter (fun q => str_eqb (snd p) (snd q)) X) =? 1)%nat) l = true -> NoDup (List.map snd l).
Proof.
  assert (G : forall k, incl k X -> (forall p, In p k -> length (filter (fun q => str_eqb (snd p) (snd q)) k) = 1%nat) -> NoDup (List.map snd k)).
  { induction k as [|p k IH]; intros S H; [constructor|]. cbn [List.map].
    assert (E : forall q, In q k -> str_eqb (snd p) (snd q) = false).
    { intros q I. specialize (H p (or_introl eq_refl)). cbn [filter] in H. rewrite str_eqb_refl in H. cbn [length] in H.
      destruct (str_eqb (snd p) (snd q)) eqn:Q; [|reflexivity].
      pose proof (filter_once (fun q => str_eqb (snd p) (snd q)) q k Q I). lia. }
    constructor.
    - intros I. apply in_map_iff in I as (q & Q & I). apply E in I. rewrite Q, str_eqb_refl in I. discriminate.
    - apply IH; [intros q I; apply S; now right|]. intros q I. specialize (H q (or_intror I)). cbn [filter] in H.
      replace (str_eqb (snd q) (snd p)) with false in H; [exact H|]. symmetry. specialize (E q I).
      destruct (str_eqb (snd q) (snd p)) eqn:Q; [|reflexivity]. apply str_eqb_spec in Q. rewrite Q, str_eqb_refl in E. discriminate. }
  intros H. rewrite forallb_forall in H. apply G; [apply incl_refl|]. intros p I. apply H in I. now apply Nat.eqb_eq.
Qed.

(** A numeral of [n] digits. *)
Definition ones (n : nat) : str := List.repeat 49 n.

Lemma ones_length n : length (ones n) = n.
Proof. apply repeat_length. Qed.

Lemma ones_digits n : Forall Digit (ones n).
Proof. apply Forall_forall. intros c I. apply repeat_spec in I. subst. unfold Digit. lia. Qed.

Lemma ones_integer n : XsdInteger (ones (S n)) (ones (S n)) (numval (ones (S n))).
Proof.
  exists [], false. split; [reflexivity|]. split; [left; auto|]. split; [|reflexivity].
  split; [discriminate|]. apply ones_digits.
Qed.

Lemma ones_date n : (4 <= n)%nat -> XsdDateLex (ones n ++ lit "-01-01") (ones n) (numval (ones n)) 1 1.
Proof.
  intros L. exists (ones n ++ lit "-01-01"), []. split; [now rewrite app_nil_r|]. split; [|split; [unfold MonthDayRange; lia|left; reflexivity]].
  exists (ones n), (lit "01"), (lit "01"). split; [reflexivity|]. split.
  - split; [left; auto|]. split; [apply ones_digits|]. rewrite ones_length. split; [exact L|]. intros _.
    destruct n; [lia|]. discriminate.
  - split; (split; [reflexivity|]; split; [apply forallb_forall_digit; reflexivity|reflexivity]).
Qed.

Lemma ones_nonzero n : (numval (ones (S n)) <> 0)%Z.
Proof.
  cbn [ones List.repeat numval]. fold (ones n). pose proof (numval_nonneg _ (ones_digits n)).
  assert (0 < 10 ^ Z.of_nat (length (ones n)))%Z by (apply Z.pow_pos_nonneg; lia). lia.
Qed.
