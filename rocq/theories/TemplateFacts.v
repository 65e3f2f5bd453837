(** The template check decides the template specification. *)
From Coq Require Import PeanoNat String List NArith Bool Lia.
From Verif Require Import PyStr PyStrFacts PyBase PyVal ResultModel ReflectModel ReflectFacts MetaModel MetaFacts AdapterModel ParseModel ParseFacts ConstraintModel CheckModel TypeSpec TypeFacts TypeFacts2 ConstraintSpec ConstraintFacts PathSpec PathFacts TemplateModel TemplateSpec.
Import ListNotations.
Local Open Scope list_scope.

(** * Types of the elements *)
Definition only_ok (cls : string) (e : str * pfields) : bool := Bool.eqb (str_in (lit cls) (supers (fst e))) (str_eqb (fst e) (lit cls)).
Lemma property_only : forallb (only_ok "Property") model_types = true. Proof. vm_compute. reflexivity. Qed.
Lemma mlp_only : forallb (only_ok "MultiLanguageProperty") model_types = true. Proof. vm_compute. reflexivity. Qed.
Lemma smc_only : forallb (only_ok "SubmodelElementCollection") model_types = true. Proof. vm_compute. reflexivity. Qed.
Lemma sml_only : forallb (only_ok "SubmodelElementList") model_types = true. Proof. vm_compute. reflexivity. Qed.
Definition is_container (c : str) : bool := str_eqb c (lit "SubmodelElementCollection") || str_eqb c (lit "SubmodelElementList").
(** the types of values that are no lists of elements *)
Definition no_elements (t : ptype) : bool :=
  match t with
  | TyOpt TyText => true
  | TyOpt (TyObj _) => true
  | TyOpt (TyList true (TyObj [c])) => str_eqb c (lit "MultiLanguageTextType")
  | _ => false
  end.
Definition value_ok (e : str * pfields) : bool :=
  if str_in (lit "SubmodelElement") (supers (fst e)) && negb (is_container (fst e))
  then match lookup (lit "value") (snd e) with None => true | Some t => no_elements t end else true.
Lemma values_ok : forallb value_ok model_types = true. Proof. vm_compute. reflexivity. Qed.
Definition mlt_ok (e : str * pfields) : bool :=
  negb (str_eqb (fst e) (lit "MultiLanguageTextType")) || match lookup (lit "semantic_id") (snd e) with None => true | Some _ => false end.
Lemma mlts_ok : forallb mlt_ok model_types = true. Proof. vm_compute. reflexivity. Qed.

Lemma k_semantic_id : field_ok "SubmodelElement" "semantic_id" (AOptK (AInst "Reference")) = true. Proof. vm_compute. reflexivity. Qed.
Lemma k_keys : field_ok "Reference" "keys" (AListK true (AInst "Key")) = true. Proof. vm_compute. reflexivity. Qed.
Lemma k_key_value : field_ok "Key" "value" AText = true. Proof. vm_compute. reflexivity. Qed.
Lemma k_value : field_ok "Property" "value" (AOptK AText) = true. Proof. vm_compute. reflexivity. Qed.
Lemma k_value_type : field_ok "Property" "value_type" (AEnum "DataTypeDefXsd" (fun _ => true)) = true. Proof. vm_compute. reflexivity. Qed.
Lemma k_mlp : field_ok "MultiLanguageProperty" "value" (AOptK (AListK true (AInst "MultiLanguageTextType"))) = true. Proof. vm_compute. reflexivity. Qed.
Lemma k_smc : field_ok "SubmodelElementCollection" "value" (AOptK (AListK true (AInst "SubmodelElement"))) = true. Proof. vm_compute. reflexivity. Qed.
Lemma k_sml : field_ok "SubmodelElementList" "value" (AOptK (AListK true (AInst "SubmodelElement"))) = true. Proof. vm_compute. reflexivity. Qed.
Lemma k_submodel_elements : field_ok "Submodel" "submodel_elements" (AOptK (AListK true (AInst "SubmodelElement"))) = true. Proof. vm_compute. reflexivity. Qed.
Lemma k_submodel_semantic_id : field_ok "Submodel" "semantic_id" (AOptK (AInst "Reference")) = true. Proof. vm_compute. reflexivity. Qed.
Lemma k_submodel_id : field_ok "Submodel" "id" AText = true. Proof. vm_compute. reflexivity. Qed.
Lemma k_submodels : field_ok "Environment" "submodels" (AOptK (AListK true (AInst "Submodel"))) = true. Proof. vm_compute. reflexivity. Qed.
Local Opaque model_types model_classes model_supers.

Definition El := Inst "SubmodelElement".
Lemma only_class cls c kvs : forallb (only_ok cls) model_types = true -> El (VObj c kvs) ->
  is_a model_classes c (lit cls) = str_eqb c (lit cls).
Proof.
  intros F (c' & kvs' & E & S & T). assert (c' = c /\ kvs' = kvs) as [-> ->] by (split; congruence).
  destruct (typed_field _ _ _ T) as (fs & I & _). unfold is_a. rewrite (supers_eq _ _ I).
  apply (proj1 (forallb_forall _ _) F) in I as O. apply eqb_prop in O. exact O.
Qed.
Lemma instance_is cls e c kvs : forallb (only_ok cls) model_types = true -> El e -> e = VObj c kvs -> instance_of e (lit cls) = str_eqb c (lit cls).
Proof. intros F H ->. cbn [instance_of]. exact (only_class _ _ _ F H). Qed.
Lemma only_inst cls c kvs : forallb (only_ok cls) model_types = true -> El (VObj c kvs) -> c = lit cls -> Inst cls (VObj c kvs).
Proof.
  intros F E ->. pose proof (only_class _ _ _ F E) as O. destruct E as (c' & kvs' & E & S & T).
  assert (lit cls = c' /\ kvs = kvs') as [Ec ->] by (split; congruence). rewrite <- Ec in *.
  exists (lit cls), kvs'. split; [reflexivity|]. split; [|exact T]. rewrite O. now apply str_eqb_spec.
Qed.
Lemma not_class c cls : c <> lit cls <-> str_eqb c (lit cls) = false.
Proof. destruct (str_eqb c (lit cls)) eqn:E; [apply str_eqb_spec in E; split; [contradiction|discriminate]|]. split; [reflexivity|]. intros _ H. apply str_eqb_spec in H. congruence. Qed.

(** ** Semantic ids *)
Lemma ref_id r : Inst "Reference" r -> exists s, first_key r = Val s /\ id_of_reference r = Some s.
Proof.
  intros I. destruct (inst_attr _ _ _ _ k_keys I) as [G (l & E & N & H)]. unfold first_key, id_of_reference, items. rewrite G, E. cbn [obind as_items].
  destruct l as [|k l]; [now destruct (N eq_refl)|]. destruct (inst_attr _ _ _ _ k_key_value (H k (or_introl eq_refl))) as [G' (c & s & E')].
  rewrite G', E'. cbn [obind raw_value]. unfold text. rewrite E'. cbn [chars]. eauto.
Qed.
Lemma inst_truthy cls x : Inst cls x -> truthy x = true.
Proof. intros (c & kvs & -> & _). reflexivity. Qed.
(** the pairs of [by_semantic_id] *)
Definition pairs (l : list pyval) : list (str * pyval) :=
  flat_map (fun e => match semantic_id e with Some s => [(s, e)] | None => [] end) l.
Lemma by_semantic_id_eq l : (forall e, In e l -> El e) -> by_semantic_id l = Val (pairs l).
Proof.
  induction l as [|e l IH]; intros H; [reflexivity|]. cbn [by_semantic_id pairs flat_map].
  destruct (inst_attr _ _ _ _ k_semantic_id (H e (or_introl eq_refl))) as [G [E|I]].
  - rewrite G, E. cbn [obind truthy]. rewrite IH by (intros; apply H; now right). unfold semantic_id. rewrite E. reflexivity.
  - rewrite G. cbn [obind]. rewrite (inst_truthy _ _ I). destruct (ref_id _ I) as (s & -> & E). cbn [obind].
    rewrite IH by (intros; apply H; now right). unfold semantic_id. rewrite E. reflexivity.
Qed.
Lemma with_semantic_id_eq s l : with_semantic_id s (pairs l) = having s l.
Proof.
  unfold with_semantic_id, having. induction l as [|e l IH]; [reflexivity|]. cbn [pairs flat_map]. rewrite filter_app, map_app.
  fold (pairs l). rewrite IH. cbn [filter]. unfold has_id at 2. destruct (semantic_id e) as [k|]; [|reflexivity].
  cbn [filter fst]. destruct (str_eqb k s); reflexivity.
Qed.
Lemma having_in s l x : In x (having s l) -> In x l /\ Has_id s x.
Proof.
  unfold having, Has_id. intros I. apply filter_In in I as [I H]. split; [exact I|]. unfold has_id in H.
  destruct (semantic_id x); [|discriminate]. apply str_eqb_spec in H. now subst.
Qed.

(** * Dates *)
Ltac ands := repeat match goal with |- _ /\ _ => split end.
Lemma digit_spec c d : digit c = Some d <-> (48 <= c <= 57)%N /\ d = (c - 48)%N.
Proof.
  unfold digit. destruct (N.leb_spec 48 c) as [A|A]; [destruct (N.leb_spec c 57) as [B|B]|]; cbn [andb].
  - split; [intros [= <-]; split; [lia|reflexivity]|intros [_ ->]; reflexivity].
  - split; [discriminate|lia].
  - split; [discriminate|lia].
Qed.
Lemma number_spec n : forall acc s m r, number n acc s = Some (m, r) <->
  exists ds, s = ds ++ r /\ length ds = n /\ (forall c, In c ds -> (48 <= c <= 57)%N) /\ m = fold_left (fun a c => 10 * a + (c - 48))%N ds acc.
Proof.
  induction n as [|n IH]; intros acc s m r; cbn [number].
  - split.
    + intros E. injection E as <- <-. exists []. ands; try reflexivity. intros c [].
    + intros (ds & -> & L & _ & ->). destruct ds; [reflexivity|discriminate].
  - destruct s as [|c s]; [split; [discriminate|intros (ds & E & L & _); destruct ds; discriminate]|].
    destruct (digit c) as [d|] eqn:E.
    + apply digit_spec in E as [K ->]. rewrite IH. split.
      * intros (ds & -> & L & H & ->). exists (c :: ds). ands; [reflexivity|cbn; congruence|intros x [<-|I]; auto|reflexivity].
      * intros (ds & E & L & H & ->). destruct ds as [|c' ds]; [discriminate|]. cbn [app] in E. injection E as <- ->.
        exists ds. ands; [reflexivity|cbn in L; congruence|intros x I; apply H; now right|reflexivity].
    + split; [discriminate|]. intros (ds & E' & L & H & _). destruct ds as [|c' ds]; [discriminate|]. cbn [app] in E'. injection E' as <- ->.
      assert (D : digit c = Some (c - 48)%N) by (apply digit_spec; split; [apply H; now left|reflexivity]). congruence.
Qed.
Lemma dash_spec s r : dash s = Some r <-> s = lit "-" ++ r.
Proof.
  change (lit "-") with [45%N]. unfold dash. destruct s as [|c s]; [split; discriminate|]. cbn [app].
  destruct (N.eqb c 45) eqn:E; [apply N.eqb_eq in E; subst; split; [intros [= ->]; reflexivity|intros [= ->]; reflexivity]|].
  split; [discriminate|]. intros [= -> _]. discriminate.
Qed.
Lemma leap_spec y : leap_year y = true <-> LeapYear y.
Proof.
  unfold leap_year, LeapYear. rewrite andb_true_iff, orb_true_iff, negb_true_iff, !N.eqb_eq, N.eqb_neq. split.
  - intros [A B]. exists (y / 4)%N. split; [rewrite (N.div_mod y 4) at 1 by lia; lia|]. destruct B as [B|B].
    + left. intros j ->. apply B. rewrite N.mul_comm. now apply N.mod_mul.
    + right. exists (y / 400)%N. rewrite (N.div_mod y 400) at 1 by lia. lia.
  - intros (k & -> & B). split; [rewrite N.mul_comm; now apply N.mod_mul|]. destruct B as [B|(j & ->)].
    + left. intros E. apply (B (4 * k / 100)%N). rewrite (N.div_mod (4 * k) 100) at 1 by lia. lia.
    + right. rewrite N.mul_comm. now apply N.mod_mul.
Qed.
Lemma month_spec y m d : (1 <= m <= 12)%N -> (d <= days_in_month y m)%N <-> exists n, MonthLength y m n /\ (d <= n)%N.
Proof.
  intros B. assert (M : In m [1; 2; 3; 4; 5; 6; 7; 8; 9; 10; 11; 12]%N) by (cbn [In]; lia). clear B.
  unfold days_in_month. destruct (N.eqb_spec m 2) as [->|N2].
  - pose proof (leap_spec y) as L. destruct (leap_year y).
    + assert (LeapYear y) by (now apply L). split; [intros D; exists 29%N; split; [now constructor|exact D]|].
      intros (n & Q & D). inversion Q as [m' I|m' I|J|J]; subst; [cbn [In] in I; lia|cbn [In] in I; lia|exact D|contradiction].
    + assert (~ LeapYear y) by (intros J; apply L in J; discriminate). split; [intros D; exists 28%N; split; [now constructor|exact D]|].
      intros (n & Q & D). inversion Q as [m' I|m' I|J|J]; subst; [cbn [In] in I; lia|cbn [In] in I; lia|contradiction|exact D].
  - destruct (existsb (N.eqb m) _) eqn:E.
    + apply existsb_exists in E as (q & I & E). apply N.eqb_eq in E. subst q. split; [intros D; exists 30%N; split; [now constructor|exact D]|].
      intros (n & Q & D). inversion Q as [m' J|m' J|J|J]; subst; [cbn [In] in I, J; lia|exact D|lia|lia].
    + assert (I : In m [1; 3; 5; 7; 8; 10; 12]%N).
      { cbn [In] in M |- *. cbn [existsb] in E. repeat (apply orb_false_iff in E as [?E E]).
        repeat match goal with H : N.eqb _ _ = false |- _ => apply N.eqb_neq in H end. lia. }
      split; [intros D; exists 31%N; split; [now constructor|exact D]|].
      intros (n & Q & D). inversion Q as [m' J|m' J|J|J]; subst; [exact D|cbn [In] in I, J; lia|lia|lia].
Qed.
Lemma month_range y m n : MonthLength y m n -> (1 <= m <= 12)%N.
Proof. intros [k I|k I| |]; cbn [In] in *; lia. Qed.
Lemma iso_date_spec s : iso_date s = true <-> IsoDate s.
Proof.
  unfold iso_date, IsoDate. split.
  - destruct (number 4 0 s) as [[y s1]|] eqn:E1; [|discriminate]. destruct (dash s1) as [s2|] eqn:E2; [|discriminate].
    destruct (number 2 0 s2) as [[m s3]|] eqn:E3; [|discriminate]. destruct (dash s3) as [s4|] eqn:E4; [|discriminate].
    destruct (number 2 0 s4) as [[d s5]|] eqn:E5; [|discriminate]. destruct s5; [|discriminate].
    unfold valid_date. rewrite !andb_true_iff, !N.leb_le. intros ((((Y & M1) & M2) & D1) & D2).
    apply number_spec in E1 as (ys & -> & L1 & H1 & V1). apply dash_spec in E2 as ->.
    apply number_spec in E3 as (ms & -> & L2 & H2 & V2). apply dash_spec in E4 as ->.
    apply number_spec in E5 as (ds & -> & L3 & H3 & V3). rewrite app_nil_r.
    apply (month_spec y m d (conj M1 M2)) in D2 as (n & Q & D2). exists ys, ms, ds, y, m, d, n. unfold Digits. ands; auto.
  - intros (ys & ms & ds & y & m & d & n & -> & L1 & L2 & L3 & [H1 V1] & [H2 V2] & [H3 V3] & Y & Q & D1 & D2).
    rewrite (proj2 (number_spec 4 0 _ y (lit "-" ++ ms ++ lit "-" ++ ds)) (ex_intro _ ys (conj eq_refl (conj L1 (conj H1 V1))))).
    rewrite (proj2 (dash_spec _ (ms ++ lit "-" ++ ds)) eq_refl).
    rewrite (proj2 (number_spec 2 0 _ m (lit "-" ++ ds)) (ex_intro _ ms (conj eq_refl (conj L2 (conj H2 V2))))).
    rewrite (proj2 (dash_spec _ ds) eq_refl).
    rewrite (proj2 (number_spec 2 0 ds d []) (ex_intro _ ds (conj (eq_sym (app_nil_r ds)) (conj L3 (conj H3 V3))))).
    pose proof (month_range _ _ _ Q) as [M1 M2]. unfold valid_date. rewrite !andb_true_iff, !N.leb_le. repeat split; auto.
    apply (month_spec y m d (conj M1 M2)). eauto.
Qed.

(** * Elements of the simple types *)
Lemma property_of ty e c kvs : El e -> e = VObj c kvs ->
  (c = lit "Property" /\ exists n w, getattr e (lit "value") = Val (attr e "value") /\ getattr e (lit "value_type") = Val (VEnum (lit "DataTypeDefXsd") n w) /\
     attr e "value_type" = VEnum (lit "DataTypeDefXsd") n w /\
     (attr e "value" = VNone /\ ~ PropertyOf ty e \/
      exists k s, attr e "value" = VSfv k s /\ (w = lit ty /\ PropertyOf ty e \/ w <> lit ty /\ ~ PropertyOf ty e)))
  \/ (c <> lit "Property" /\ ~ PropertyOf ty e).
Proof.
  intros H E. rewrite E in H. destruct (str_eqb c (lit "Property")) eqn:C; [apply str_eqb_spec in C|apply not_class in C].
  - left. split; [exact C|]. pose proof (only_inst _ _ _ property_only H C) as I. rewrite <- E in *.
    destruct (inst_attr _ _ _ _ k_value I) as [G V]. destruct (inst_attr _ _ _ _ k_value_type I) as [G' (n & w & W & _)].
    exists n, w. rewrite G', W. ands; try reflexivity; try exact G. unfold PropertyOf, Present, Is. rewrite W.
    destruct V as [V|(k & s & V)]; [left; split; [exact V|intros (_ & P & _); contradiction]|]. right. exists k, s. split; [exact V|].
    destruct (str_eqb w (lit ty)) eqn:Q.
    + apply str_eqb_spec in Q. left. split; [exact Q|]. ands; [|congruence|exists (lit "DataTypeDefXsd"), n; congruence].
      unfold Of_class. rewrite E. exact C.
    + apply not_class in Q. right. split; [exact Q|]. intros (_ & _ & c' & m' & B). congruence.
  - right. split; [exact C|]. intros (O & _). apply C. unfold Of_class in O. rewrite E in O. exact O.
Qed.
Lemma is_xs n w ty : has_value_type (VEnum (lit "DataTypeDefXsd") n w) ty = str_eqb w ty.
Proof. unfold has_value_type. rewrite (proj2 (str_eqb_spec _ _) eq_refl). reflexivity. Qed.
Lemma parse_text_out e p r : El e ->
  (parse_text e p r = Val (VStr (text e "value"), r) /\ PropertyOf "xs:string" e) \/
  (exists m, parse_text e p r = Val (VNone, r ++ [m]) /\ ~ PropertyOf "xs:string" e).
Proof.
  intros H. assert (H' := H). destruct H' as (c & kvs & E & _). pose proof (property_of "xs:string" e c kvs H E) as Q.
  unfold parse_text. rewrite (instance_is _ _ _ _ property_only H E).
  destruct Q as [(C & n & w & G & G' & W & Q)|(C & Q)].
  - rewrite (proj2 (str_eqb_spec _ _) C). cbn [negb]. rewrite G. cbn [obind].
    destruct Q as [(V & Q)|(k & s & V & Q)]; rewrite V.
    + cbn [truthy negb]. right. eauto.
    + cbn [truthy negb]. rewrite G'. cbn [obind]. rewrite is_xs. destruct Q as [(Ew & Q)|(Ew & Q)].
      * rewrite (proj2 (str_eqb_spec _ _) Ew). cbn [negb raw_value obind]. left. split; [|exact Q]. unfold text. rewrite V. reflexivity.
      * rewrite (proj1 (not_class _ _) Ew). cbn [negb]. right. eauto.
  - rewrite (proj1 (not_class _ _) C). cbn [negb]. right. eauto.
Qed.
Lemma parse_date_out e p r : El e ->
  (parse_date e p r = Val (VAny, r) /\ PropertyOf "xs:date" e /\ IsoDate (text e "value")) \/
  (parse_date e p r = Raise ValueError /\ PropertyOf "xs:date" e /\ ~ IsoDate (text e "value")) \/
  (exists m, parse_date e p r = Val (VNone, r ++ [m]) /\ ~ PropertyOf "xs:date" e).
Proof.
  intros H. assert (H' := H). destruct H' as (c & kvs & E & _). pose proof (property_of "xs:date" e c kvs H E) as Q.
  unfold parse_date. rewrite (instance_is _ _ _ _ property_only H E).
  destruct Q as [(C & n & w & G & G' & W & Q)|(C & Q)].
  - rewrite (proj2 (str_eqb_spec _ _) C). cbn [negb]. rewrite G. cbn [obind].
    destruct Q as [(V & Q)|(k & s & V & Q)]; rewrite V.
    + cbn [truthy negb]. right. right. eauto.
    + cbn [truthy negb]. rewrite G'. cbn [obind]. rewrite is_xs. destruct Q as [(Ew & Q)|(Ew & Q)].
      * rewrite (proj2 (str_eqb_spec _ _) Ew). cbn [negb raw_value obind]. unfold from_iso_format, text. rewrite V. cbn [chars].
        pose proof (iso_date_spec s) as D. destruct (iso_date s).
        -- left. split; [reflexivity|]. split; [exact Q|now apply D].
        -- right. left. split; [reflexivity|]. split; [exact Q|]. intros J. apply D in J. discriminate.
      * rewrite (proj1 (not_class _ _) Ew). cbn [negb]. right. right. eauto.
  - rewrite (proj1 (not_class _ _) C). cbn [negb]. right. right. eauto.
Qed.
Lemma parse_lang_out e p r : El e ->
  (parse_lang_string e p r = Val (VAny, r) /\ Conforms TtLang e) \/
  (exists m, parse_lang_string e p r = Val (VNone, r ++ [m]) /\ ~ Conforms TtLang e).
Proof.
  intros H. assert (H' := H). destruct H' as (c & kvs & E & _).
  assert (H' := H). rewrite E in H'. unfold parse_lang_string. rewrite (instance_is _ _ _ _ mlp_only H E).
  destruct (str_eqb c (lit "MultiLanguageProperty")) eqn:C; cbn [negb].
  - apply str_eqb_spec in C. pose proof (only_inst _ _ _ mlp_only H' C) as I. rewrite <- E in I.
    destruct (inst_attr _ _ _ _ k_mlp I) as [G [V|(l & V & N & _)]]; rewrite G, V; cbn [obind truthy negb].
    + right. eexists. split; [reflexivity|]. intros Q. inversion Q as [| |e' O J| |]; subst. apply J. unfold items. rewrite V. reflexivity.
    + destruct l as [|x l]; [now destruct (N eq_refl)|]. cbn [negb as_items obind]. left. split; [reflexivity|].
      constructor; [unfold Of_class; rewrite E; exact C|]. unfold items. rewrite V. discriminate.
  - apply not_class in C. right. eexists. split; [reflexivity|]. intros Q. inversion Q as [| |e' O J| |]; subst. apply C. exact O.
Qed.

(** * Classes *)
Section Ind.
  Variable P : ttype -> Prop.
  Hypothesis Hs : P TtStr.
  Hypothesis Hd : P TtDate.
  Hypothesis Hl : P TtLang.
  Hypothesis He : forall n ms, P (TtEnum n ms).
  Hypothesis Hc : forall n fs, Forall (fun f => P (tf_type f)) fs -> P (TtClass n fs).
  Fixpoint ttype_ind' (t : ttype) : P t :=
    match t with
    | TtStr => Hs | TtDate => Hd | TtLang => Hl | TtEnum n ms => He n ms
    | TtClass n fs => Hc n fs ((fix go fs : Forall (fun f => P (tf_type f)) fs :=
        match fs with [] => Forall_nil _ | f :: r => Forall_cons f (ttype_ind' (tf_type f)) (go r) end) fs)
    end.
End Ind.

Section Parse.
Variable repr : str -> str.
Lemma parse_element_eq n fs e p r : parse_element repr (TtClass n fs) e p r =
  (let* v := getattr e (lit "value") in
   if is_none v then Val (VInvalid, r ++ [at_path (lit "No elements") p]) else
   let* l := as_items v in
   let* elements := by_semantic_id l in
   let* (args, r) := parse_fields repr fs [] elements p r in
   Val (VObj n args, r)).
Proof.
  cbn [parse_element]. destruct (getattr e _) as [v|]; cbn [obind]; [|reflexivity]. destruct (is_none v); [reflexivity|].
  destruct (as_items v) as [l|]; cbn [obind]; [|reflexivity]. destruct (by_semantic_id l) as [els|]; cbn [obind]; [|reflexivity].
  f_equal. generalize (@nil str). revert r. induction fs as [|f fs IH]; intros r seen; [reflexivity|]. cbn [parse_fields].
  destruct (str_in _ _); [reflexivity|]. destruct (parse_field _ _ _ _ _) as [[x r1]|]; cbn [obind]; [|reflexivity]. now rewrite IH.
Qed.

(** [Decided o r C G Good]: the outcome [o] of a check starting with the messages [r] is an
    exception if [G] holds; otherwise messages are added unless [C] holds. *)
Definition Decided {X} (o : outcome (X * messages)) (r : messages) (C G : Prop) (Good : X -> Prop) : Prop :=
  (exists ex, o = Raise ex /\ G) \/
  (exists x m, o = Val (x, r ++ m) /\ ~ G /\ (r = [] -> (m = [] <-> C) /\ (m = [] -> Good x))).
Lemma decided_iff {X} (o : outcome (X * messages)) r C C' G G' (Q Q' : X -> Prop) :
  Decided o r C G Q -> (C <-> C') -> (G <-> G') -> (forall x, r = [] -> C' -> Q x -> Q' x) -> Decided o r C' G' Q'.
Proof.
  intros [(ex & E & K)|(x & m & E & K & H)] EC EG EQ; [left; exists ex; tauto|]. right. exists x, m. split; [exact E|]. split; [tauto|].
  intros R. destruct (H R) as [A B]. split; [tauto|]. intros M. apply EQ; [exact R| |now apply B]. apply EC. now apply A.
Qed.
Lemma decided_bind {X Y} (o : outcome (X * messages)) (k : X * messages -> outcome (Y * messages)) r C1 G1 Q1 C2 G2 Q2 :
  Decided o r C1 G1 Q1 -> (forall x r', (r' = [] -> Q1 x) -> Decided (k (x, r')) r' C2 G2 Q2) ->
  Decided (obind o k) r (C1 /\ C2) (G1 \/ G2) Q2.
Proof.
  intros [(ex & -> & K)|(x & m & -> & K & H)] N; [left; exists ex; cbn [obind]; tauto|]. cbn [obind].
  assert (N1 : r ++ m = [] -> Q1 x) by (intros E; apply app_eq_nil in E as [R M]; now apply (H R)).
  destruct (N x (r ++ m) N1) as [(ex & -> & L)|(y & m' & -> & L & H')]; [left; eauto|]. right. exists y, (m ++ m').
  rewrite app_assoc. split; [reflexivity|]. split; [tauto|]. intros R. destruct (H R) as [A B]. split.
  - split.
    + intros E. apply app_eq_nil in E as [-> ->]. split; [now apply A|]. apply (H' ltac:(now rewrite R)). reflexivity.
    + intros [E1 E2]. apply A in E1. subst m. rewrite R in H'. apply (H' eq_refl) in E2. now rewrite E2.
  - intros E. apply app_eq_nil in E as [-> ->]. rewrite R in H'. now apply (H' eq_refl).
Qed.
Lemma decided_ret {X} (x : X) r : Decided (Val (x, r)) r True False (fun y => y = x).
Proof. right. exists x, []. rewrite app_nil_r. split; [reflexivity|]. split; [tauto|]. intros _. split; [tauto|reflexivity]. Qed.
Lemma decided_error {X} (x : X) m r (C G : Prop) Q : ~ C -> ~ G -> Decided (Val (x, r ++ [m])) r C G Q.
Proof. intros H K. right. exists x, [m]. split; [reflexivity|]. split; [exact K|]. intros _. split; [split; [discriminate|contradiction]|discriminate]. Qed.
Lemma decided_raise {X} ex r (C G : Prop) (Q : X -> Prop) : G -> Decided (Raise ex) r C G Q.
Proof. intros H. left. eauto. Qed.

(** the names of the classes of a template *)
Fixpoint classes_in (t : ttype) : list str :=
  match t with
  | TtClass n fs => n :: List.concat (List.map (fun f => classes_in (tf_type f)) fs)
  | _ => []
  end.
Definition Image (t : ttype) (x : pyval) : Prop :=
  x <> VNone /\ (forall l, x <> VList l) /\ forall q c kvs, Occurs x q (VObj c kvs) -> In c (classes_in t).
(** the attribute for the field [f] when the elements are [l] *)
Definition FieldImage (l : list pyval) (f : tfield ttype) (x : pyval) : Prop :=
  (x = VNone <-> having (tf_sid f) l = []) /\
  (x = VNone \/ Image (tf_type f) x \/ exists xs, x = VList xs /\ forall y, In y xs -> Image (tf_type f) y).
Definition FieldsImage (l : list pyval) (fs : list (tfield ttype)) (args : list (str * pyval)) : Prop :=
  Forall2 (fun f kv => fst kv = tf_name f /\ FieldImage l f (snd kv)) fs args.

Definition Checks (t : ttype) : Prop := forall e p r, El e ->
  Decided (parse_element repr t e p r) r (Conforms t e) (GivesUp t e) (Image t).
Lemma image_simple t x : x <> VNone -> (forall l, x <> VList l) -> (forall c kvs, x <> VObj c kvs) -> Image t x.
Proof.
  intros A B C. split; [exact A|]. split; [exact B|]. intros q c kvs O.
  inversion O as [v E1 E2 E3|c' kvs' k v q' w I N O' E1 E2 E3|c' kvs' k l i v q' w I N O' E1 E2 E3]; subst; exfalso; eapply C; reflexivity.
Qed.

Lemma decided_map {X Y} (o : outcome (X * messages)) (f : X -> Y) r C G Q :
  Decided o r C G Q -> Decided (let* (x, r') := o in Val (f x, r')) r C G (fun y => exists x, y = f x /\ Q x).
Proof.
  intros [(ex & -> & K)|(x & m & -> & K & H)]; cbn [obind]; [left; eauto|]. right. exists (f x), m. split; [reflexivity|]. split; [exact K|].
  intros R. destruct (H R) as [A B]. split; [exact A|]. intros M. eauto.
Qed.

Lemma checks_each t l : Checks t -> forall i p r, (forall e, In e l -> El e) ->
  Decided (parse_each (parse_element repr t) i l p r) r (forall e, In e l -> Conforms t e) (exists e, In e l /\ GivesUp t e)
    (fun xs => length xs = length l /\ forall y, In y xs -> Image t y).
Proof.
  intros K. induction l as [|e l IH]; intros i p r H; cbn [parse_each].
  - eapply decided_iff; [apply decided_ret| | |]; [split; [intros _ e []|easy]|split; [easy|intros (e & [] & _)]|intros x _ _ ->; split; [reflexivity|intros y []]].
  - eapply decided_iff.
    + eapply decided_bind with (Q2 := fun xs => length xs = S (length l) /\ forall y, In y xs -> Image t y); [apply K; apply H; now left|]. intros x r1 H1. cbv beta iota.
      eapply decided_iff; [apply decided_map; apply IH; intros; apply H; now right|reflexivity|reflexivity|].
      intros ys R _ (xs & -> & L & J). split; [cbn [length]; congruence|]. intros y [<-|I]; auto.
    + split; [intros [A B] e' [<-|I]; auto|]. intros A. split; [apply A; now left|]. intros e' I. apply A. now right.
    + split; [intros [A|(e' & I & A)]; [exists e; split; [now left|exact A]|exists e'; split; [now right|exact A]]|].
      intros (e' & [<-|I] & A); [now left|right; eauto].
    + intros xs _ _ Q. exact Q.
Qed.
Lemma allowed_unwrap s n : Allowed s n <-> fst (unwrap s) <= n /\ match snd (unwrap s) with Some m => n <= m | None => True end.
Proof. destruct s; cbn [Allowed unwrap fst snd]; lia. Qed.
Lemma unwrap_max s : snd (unwrap s) = Some 1 \/ snd (unwrap s) = None.
Proof. destruct s; cbn; auto. Qed.

Definition FieldConforms (l : list pyval) (f : tfield ttype) : Prop :=
  Allowed (tf_shape f) (length (having (tf_sid f) l)) /\ forall x, In x (having (tf_sid f) l) -> Conforms (tf_type f) x.
Definition FieldGivesUp (l : list pyval) (f : tfield ttype) : Prop :=
  Allowed (tf_shape f) (length (having (tf_sid f) l)) /\ exists x, In x (having (tf_sid f) l) /\ GivesUp (tf_type f) x.
Lemma checks_field f l p r : Checks (tf_type f) -> (forall e, In e l -> El e) ->
  Decided (parse_field f (parse_element repr (tf_type f)) (pairs l) p r) r (FieldConforms l f) (FieldGivesUp l f) (FieldImage l f).
Proof.
  intros K H. assert (H' : forall e, In e (having (tf_sid f) l) -> El e) by (intros e I; apply having_in in I as [I _]; auto).
  unfold parse_field, FieldConforms, FieldGivesUp, FieldImage. rewrite with_semantic_id_eq.
  destruct (unwrap (tf_shape f)) as [mn mx] eqn:U. pose proof (allowed_unwrap (tf_shape f) (length (having (tf_sid f) l))) as A. rewrite U in A. cbn [fst snd] in A.
  pose proof (unwrap_max (tf_shape f)) as M. rewrite U in M. cbn [snd] in M. set (sub := having (tf_sid f) l) in *.
  destruct (match mx with Some m => m <? length sub | None => false end) eqn:B1.
  { destruct mx as [m|]; [|discriminate]. apply Nat.ltb_lt in B1. apply decided_error; intros (Q & _); apply A in Q; lia. }
  destruct (length sub <? mn) eqn:B2.
  { apply Nat.ltb_lt in B2. apply decided_error; intros (Q & _); apply A in Q; lia. }
  apply Nat.ltb_ge in B2.
  assert (A' : Allowed (tf_shape f) (length sub)).
  { apply A. split; [exact B2|]. destruct mx; [|exact I]. now apply Nat.ltb_ge in B1. }
  destruct sub as [|e sub'] eqn:S.
  { eapply decided_iff; [apply decided_ret| | |].
    - split; [intros _; split; [exact A'|intros x []]|easy].
    - split; [easy|intros (_ & x & [] & _)].
    - intros x _ _ ->. split; [tauto|now left]. }
  destruct M as [->| ->].
  - apply Nat.ltb_ge in B1. destruct sub'; [|cbn in B1; lia].
    eapply decided_iff; [apply K; apply H'; now left| | |].
    + split; [intros Q; split; [exact A'|intros x [<-|[]]; exact Q]|]. intros [_ Q]. apply Q. now left.
    + split; [intros Q; split; [exact A'|exists e; split; [now left|exact Q]]|]. intros (_ & x & [<-|[]] & Q). exact Q.
    + intros x _ _ Q. split; [split; [intros ->; now destruct Q|discriminate]|right; now left].
  - eapply decided_iff; [apply decided_map; apply checks_each; [exact K|exact H']| | |].
    + tauto.
    + tauto.
    + intros x _ _ (xs & -> & L & Q). split; [split; discriminate|right; right; eauto].
Qed.
Lemma checks_fields fs l : Forall (fun f => Checks (tf_type f)) fs -> (forall e, In e l -> El e) -> forall seen p r,
  NoDup (List.map tf_sid fs) -> (forall f, In f fs -> ~ In (tf_sid f) seen) ->
  Decided (parse_fields repr fs seen (pairs l) p r) r (forall f, In f fs -> FieldConforms l f) (exists f, In f fs /\ FieldGivesUp l f)
    (FieldsImage l fs).
Proof.
  intros K H. induction K as [|f fs Kf K IH]; intros seen p r N D; cbn [parse_fields].
  - eapply decided_iff; [apply decided_ret| | |]; [split; [intros _ f []|easy]|split; [easy|intros (f & [] & _)]|intros x _ _ ->; constructor].
  - assert (E : str_in (tf_sid f) seen = false).
    { destruct (str_in (tf_sid f) seen) eqn:E; [|reflexivity]. apply str_in_spec in E. destruct (D f (or_introl eq_refl) E). }
    rewrite E. cbn [List.map] in N. inversion N as [|? ? N1 N2]; subst. eapply decided_iff.
    + eapply decided_bind with (Q2 := FieldsImage l (f :: fs)); [apply checks_field; [exact Kf|exact H]|]. intros x r1 H1. cbv beta iota.
      eapply decided_iff; [apply decided_map; apply IH; [exact N2|]|reflexivity|reflexivity|].
      * intros g I [Q|Q]; [apply N1; rewrite Q; apply in_map; exact I|]. apply (D g); [now right|exact Q].
      * intros ys R _ (xs & -> & J). constructor; [split; [reflexivity|now apply H1]|exact J].
    + split; [intros [A B] g [<-|I]; auto|]. intros A. split; [apply A; now left|]. intros g I. apply A. now right.
    + split; [intros [A|(g & I & A)]; [exists f; split; [now left|exact A]|exists g; split; [now right|exact A]]|].
      intros (g & [<-|I] & A); [now left|right; eauto].
    + intros xs _ _ Q. exact Q.
Qed.
Lemma fields_image_classes l fs args : FieldsImage l fs args -> forall k x, In (k, x) args ->
  exists f, In f fs /\ k = tf_name f /\ FieldImage l f x.
Proof.
  induction 1 as [|f [k' x'] fs args [Q1 Q2] F IH]; intros k x I; [destruct I|]. cbn [fst snd] in *. destruct I as [I|I].
  - assert (k' = k /\ x' = x) as [<- <-] by (split; congruence). exists f. split; [now left|]. split; [exact Q1|exact Q2].
  - destruct (IH _ _ I) as (g & J & Q). exists g. split; [now right|exact Q].
Qed.
Lemma image_obj n l fs args : FieldsImage l fs args -> forall q c kvs, Occurs (VObj n args) q (VObj c kvs) ->
  (q = [] /\ c = n /\ kvs = args) \/ In c (List.concat (List.map (fun f => classes_in (tf_type f)) fs)).
Proof.
  intros F q c kvs O. remember (VObj n args) as v eqn:Ev. remember (VObj c kvs) as w eqn:Ew.
  destruct O as [v|c' kvs' k x q y I N O|c' kvs' k xs i x q y I N O].
  - left. subst v. split; [reflexivity|]. split; congruence.
  - right. assert (kvs' = args) by congruence. subst kvs' y. destruct (fields_image_classes _ _ _ F _ _ I) as (f & J & _ & _ & Q).
    apply in_concat. exists (classes_in (tf_type f)). split; [apply (in_map (fun f => classes_in (tf_type f)) _ _ J)|]. destruct Q as [->|[Q|(xs & -> & Q)]].
    + inversion O.
    + eapply Q. exact O.
    + now destruct (N xs).
  - right. assert (kvs' = args) by congruence. subst kvs' y. destruct (fields_image_classes _ _ _ F _ _ I) as (f & J & _ & _ & Q).
    apply in_concat. exists (classes_in (tf_type f)). split; [apply (in_map (fun f => classes_in (tf_type f)) _ _ J)|]. destruct Q as [Q|[Q|(ys & E & Q)]].
    + discriminate.
    + now destruct (proj1 (proj2 Q) xs).
    + assert (ys = xs) by congruence. subst ys. apply nth_error_In in N. apply (Q _ N) in O. exact O.
Qed.

(** ** Collections *)
Lemma container_spec c kvs : Container (VObj c kvs) <-> is_container c = true.
Proof. unfold Container, Of_class, is_container. cbn [class_of_obj]. rewrite orb_true_iff, !str_eqb_spec. reflexivity. Qed.
Lemma container_value e : El e -> Container e -> getattr e (lit "value") = Val (attr e "value") /\
  (attr e "value" = VNone \/ exists l, attr e "value" = VList l /\ l <> [] /\ forall x, In x l -> El x).
Proof.
  intros H C. assert (H' := H). destruct H' as (c & kvs & -> & _). destruct C as [C|C]; unfold Of_class in C; cbn [class_of_obj] in C.
  - destruct (inst_attr _ _ _ _ k_smc (only_inst _ _ _ smc_only H C)) as [G [V|(l & V & N & Q)]]; (split; [exact G|]); [now left|right].
    exists l. split; [exact V|]. split; [now apply N|exact Q].
  - destruct (inst_attr _ _ _ _ k_sml (only_inst _ _ _ sml_only H C)) as [G [V|(l & V & N & Q)]]; (split; [exact G|]); [now left|right].
    exists l. split; [exact V|]. split; [now apply N|exact Q].
Qed.
Lemma no_semantic_id_raises x l : Ty (TyObj [lit "MultiLanguageTextType"]) x -> by_semantic_id (x :: l) = Raise AttributeError.
Proof.
  intros T. cbn [by_semantic_id]. destruct (getattr x (lit "semantic_id")) as [y|ex] eqn:G.
  - exfalso. apply typed_obj in T as (c & fs & kvs & -> & [<-|[]] & J & Kv & _). apply (proj1 (forallb_forall _ _) mlts_ok) in J as M.
    unfold mlt_ok in M. cbn [fst snd] in M. rewrite (proj2 (str_eqb_spec _ _) eq_refl) in M. cbn [negb orb] in M.
    cbn [getattr] in G. destruct (lookup (lit "semantic_id") kvs) as [z|] eqn:E; [|discriminate]. apply lookup_In in E.
    assert (I : In (lit "semantic_id") (List.map fst fs)) by (rewrite <- Kv; exact (in_map fst _ _ E)).
    apply in_map_iff in I as ([k t] & Ek & I). cbn [fst] in Ek. subst k. apply (lookup_nodup _ _ _ (types_nodup _ _ J)) in I. rewrite I in M. discriminate.
  - cbn [obind]. apply typed_obj in T as (c & fs & kvs & -> & _). cbn [getattr] in G. destruct (lookup _ _); congruence.
Qed.
(** other elements: the value is None or the check gives up *)
Lemma other_value e : El e -> ~ Container e ->
  (NoCollection e /\ exists ex, (let* v := getattr e (lit "value") in if is_none v then Val [] else let* l := as_items v in by_semantic_id l) = Raise ex) \/
  (~ NoCollection e /\ getattr e (lit "value") = Val VNone).
Proof.
  intros H C. assert (H' := H). destruct H' as (c & kvs & -> & S & T). destruct (typed_field _ _ _ T) as (fs & I & _ & Kv & M).
  apply (proj1 (forallb_forall _ _) values_ok) in I as F. unfold value_ok in F. cbn [fst snd] in F.
  unfold is_a in S. rewrite (supers_eq _ _ I) in S. rewrite S in F.
  assert (B : is_container c = false) by (destruct (is_container c) eqn:B; [destruct C; now apply container_spec|reflexivity]).
  rewrite B in F. cbn [andb negb] in F. unfold NoCollection. cbn [getattr].
  destruct (lookup (lit "value") kvs) as [v|] eqn:L.
  - destruct (lookup (lit "value") fs) as [t|] eqn:Lf.
    + destruct (ty_attr _ _ _ _ _ _ T I Lf) as (y & G & Y). cbn [getattr] in G. rewrite L in G. assert (v = y) by congruence. subst y. clear G.
      destruct (is_none v) eqn:Nv.
      * right. destruct v; try discriminate. split; [|reflexivity]. intros [_ Q]. now apply (Q c kvs eq_refl).
      * left. split; [split; [exact C|]|].
        -- intros c' kvs' E. assert (kvs' = kvs) by congruence. subst kvs'. rewrite L. intros E'. assert (v = VNone) by congruence. subst v. discriminate.
        -- cbn [obind]. rewrite Nv. destruct t as [| | | | | |t|]; try discriminate F. cbn [no_elements] in F. apply typed_opt in Y as [->|Y]; [discriminate|].
           destruct t as [| | | |cs|[] [| | | |[|c1 []]| | |]| |]; try discriminate F.
           ++ apply typed_text in Y as (k & s & ->). cbn [as_items obind]. eauto.
           ++ apply typed_obj in Y as (c' & fs' & kvs' & -> & _). cbn [as_items obind]. eauto.
           ++ apply str_eqb_spec in F. apply typed_list in Y as (xs & -> & N & Q). cbn [as_items obind].
              destruct xs as [|x xs]; [now destruct (N eq_refl)|]. exists AttributeError. apply no_semantic_id_raises. rewrite <- F. apply Q. now left.
    + exfalso. apply lookup_In in L. assert (J : In (lit "value") (List.map fst fs)) by (rewrite <- Kv; exact (in_map fst _ _ L)).
      apply in_map_iff in J as ([k t] & Ek & J). cbn [fst] in Ek. subst k. apply (lookup_nodup _ _ _ (types_nodup _ _ I)) in J. congruence.
  - left. split; [split; [exact C|]|].
    + intros c' kvs' E. assert (kvs' = kvs) by congruence. subst kvs'. rewrite L. discriminate.
    + cbn [obind]. eauto.
Qed.

Theorem checks t : WellFormed t -> Checks t.
Proof.
  induction t as [| | |n ms|n fs IH] using ttype_ind'; intros W e p r H.
  - cbn [parse_element]. destruct (parse_text_out e p r H) as [(-> & Q)|(m & -> & Q)].
    + eapply decided_iff; [apply decided_ret| | |]; [split; [intros _; now constructor|easy]|split; [easy|inversion 1]|intros x _ _ ->; now apply image_simple].
    + apply decided_error; [inversion 1; contradiction|inversion 1].
  - cbn [parse_element]. destruct (parse_date_out e p r H) as [(-> & Q & D)|[(-> & Q & D)|(m & -> & Q)]].
    + eapply decided_iff; [apply decided_ret| | |]; [split; [intros _; now constructor|easy]|split; [easy|inversion 1; contradiction]|intros x _ _ ->; now apply image_simple].
    + apply decided_raise. now constructor.
    + apply decided_error; inversion 1; contradiction.
  - cbn [parse_element]. destruct (parse_lang_out e p r H) as [(-> & Q)|(m & -> & Q)].
    + eapply decided_iff; [apply decided_ret| | |]; [split; [intros _; exact Q|easy]|split; [easy|inversion 1]|intros x _ _ ->; now apply image_simple].
    + apply decided_error; [exact Q|inversion 1].
  - cbn [parse_element]. unfold parse_template_enum. destruct (parse_text_out e p r H) as [(-> & Q)|(m & -> & Q)]; cbn [obind].
    + destruct r as [|m0 r].
      * destruct (find _ ms) as [q|] eqn:F.
        -- apply find_some in F as [I E]. apply str_eqb_spec in E. eapply decided_iff; [apply decided_ret| | |].
           ++ split; [intros _; constructor; [exact Q|]|easy]. rewrite <- E. now apply in_map.
           ++ split; [easy|inversion 1].
           ++ intros x _ _ ->. now apply image_simple.
        -- apply (decided_error _ _ []); [|inversion 1]. inversion 1 as [| | |? ? ? J1 J2|]; subst. apply in_map_iff in J2 as (q & E & I).
           apply (find_none _ _ F) in I. rewrite E, (proj2 (str_eqb_spec _ _) eq_refl) in I. discriminate.
      * right. exists VInvalid, []. rewrite app_nil_r. split; [reflexivity|]. split; [inversion 1|discriminate].
    + destruct (r ++ [m]) as [|m0 r'] eqn:E; [apply app_eq_nil in E as [_ E]; discriminate|]. rewrite <- E.
      apply decided_error; [inversion 1; contradiction|inversion 1].
  - inversion W as [| | | |? ? N Wf]; subst.
    assert (K : Forall (fun f => Checks (tf_type f)) fs).
    { apply Forall_forall. intros f I. apply (proj1 (Forall_forall _ _) IH f I). auto. }
    rewrite parse_element_eq. assert (D : Container e \/ ~ Container e).
    { destruct H as (c & kvs & -> & _). rewrite container_spec. destruct (is_container c); [now left|right; discriminate]. }
    destruct D as [D|D].
    + destruct (container_value e H D) as [G [V|(l & V & Nl & L)]]; rewrite G, V; cbn [obind is_none].
      * apply decided_error; [inversion 1 as [| | | |? ? ? Q1 Q2 _ _]; subst; contradiction|].
        inversion 1 as [|? ? ? [Q _]|? ? ? ? ? Q1 Q2 Q3 Q4 Q5]; subst; [contradiction|]. unfold items in Q4. rewrite V in Q4. destruct Q4.
      * cbn [as_items obind]. rewrite (by_semantic_id_eq l L). cbn [obind].
        assert (It : items e "value" = l) by (unfold items; now rewrite V).
        eapply decided_iff; [apply decided_map; apply (checks_fields fs l K L); [exact N|intros f _ []]| | |].
        -- split.
           ++ intros Q. constructor; [exact D|unfold Present; rewrite V; discriminate| |]; rewrite It; intros f; [intros I; apply (Q f I)|intros x I; apply (Q f I)].
           ++ inversion 1 as [| | | |? ? ? _ _ Q3 Q4]; subst. intros f I. split; [now apply Q3|]. intros x. now apply Q4.
        -- split.
           ++ intros (f & I & A & x & J & Q). rewrite <- It in *. eapply Gi_below; eauto.
           ++ inversion 1 as [|? ? ? [Q _]|? ? ? f x _ Q2 Q3 Q4 Q5]; subst; [contradiction|]. exists f. split; [exact Q2|]. split; [exact Q3|eauto].
        -- intros x _ _ (args & -> & Q). split; [discriminate|]. split; [discriminate|]. intros q c kvs O. cbn [classes_in].
           destruct (image_obj _ _ _ _ Q _ _ _ O) as [(_ & -> & _)|J]; [now left|now right].
    + destruct (other_value e H D) as [(Q & ex & E)|(Q & E)].
      * left. exists ex. split; [|now constructor]. destruct (getattr e (lit "value")) as [v|]; cbn [obind] in *; [|injection E as ->; reflexivity].
        destruct (is_none v); [discriminate|]. destruct (as_items v) as [l|]; cbn [obind] in *; [|injection E as ->; reflexivity].
        destruct (by_semantic_id l); cbn [obind] in *; [discriminate|injection E as ->; reflexivity].
      * rewrite E. cbn [obind is_none]. apply decided_error; [inversion 1; contradiction|]. inversion 1; contradiction.
Qed.
End Parse.
