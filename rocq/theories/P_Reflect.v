(** Properties C40 and C41: the symbol table derived from the annotated classes. *)
From Coq Require Import PeanoNat String List NArith Bool Lia.
From Verif Require Import PyStr PyStrFacts PyBase PyVal Regex DataTypesModel DataTypesSpec.
From Verif Require Import ReflectModel ReflectSpec ReflectFacts ParseModel MetaModel MetaSpec MetaFacts.
Import ListNotations.
Local Open Scope list_scope.

(** ** C40 *)

(** The classes of model.py yield a symbol table, and this table has exactly the classes of the
    meta model with exactly their attributes, optionality, types, literals and subclasses -
    apart from the differences that make up [aas_v3_0_checked]. *)
Theorem C40_meta_model :
  exists i T, reflect model_classes model_globals (ACls k_Environment) = Val (i, T) /\
              Describes_meta_model model_classes T aas_v3_0_checked.
Proof. exists 0, model_table. split; [exact model_table_eq|exact model_describes]. Qed.
Print Assumptions C40_meta_model.

(** The classes in which both meta models differ. *)
Definition differing : list string :=
  ["BasicEventElement"; "Blob"; "SubmodelElementList"; "SubmodelElement"; "DataSpecificationIec61360";
   "LangStringNameType"; "LangStringTextType"; "LangStringPreferredNameTypeIec61360";
   "LangStringShortNameTypeIec61360"; "LangStringDefinitionTypeIec61360";
   (* only modelType *)
   "RelationshipElement"; "AnnotatedRelationshipElement"; "Capability"; "Entity"; "File";
   "MultiLanguageProperty"; "Operation"; "Property"; "Range"; "ReferenceElement"; "SubmodelElementCollection"]%string.

(** All other classes are the classes of the specification. *)
Theorem C40_unchanged : forall g, In g aas_v3_0 -> ~ In (gc_name g) (List.map lit differing) ->
  exists i, ClassFits model_classes model_table i g.
Proof.
  intros g I N. apply (proj1 model_describes).
  assert (D : In (gc_name g) (List.map lit differing) \/ In g aas_v3_0_checked).
  2:{ destruct D; [contradiction|assumption]. }
  clear N. unfold aas_v3_0 in I. cbv beta iota delta [app] in I.
  repeat (destruct I as [<-|I]; [first [left; apply str_in_spec; vm_compute; reflexivity
                                       |right; unfold aas_v3_0_checked; apply in_or_app; left;
                                        vm_compute; tauto]|]).
  destruct I.
Qed.
Print Assumptions C40_unchanged.


Lemma class_in_table (T : table) c :
  existsb (fun e => match snd e with RClass d _ _ _ => Nat.eqb d c | _ => false end) T = true ->
  exists j k attrs static subs, nth_error T j = Some (k, RClass c attrs static subs).
Proof.
  rewrite existsb_exists. intros ([k d] & I & H). apply In_nth_error in I. destruct I as [j N]. simpl in H.
  destruct d; try discriminate. apply Nat.eqb_eq in H. subst. eauto 6.
Qed.

(** The table does not describe the specified meta model: it has a concrete class EventElement
    (model.py:873-875 lacks @abstract). *)
Theorem C40_refuted : forall T i, reflect model_classes model_globals (ACls k_Environment) = Val (i, T) ->
  ~ Describes_meta_model model_classes T aas_v3_0.
Proof.
  intros T i E [_ D]. assert (T = model_table) by (rewrite model_table_eq in E; congruence). subst T.
  destruct (class_in_table model_table k_EventElement) as (j & k & attrs & static & subs & N); [vm_compute; reflexivity|].
  destruct (D _ _ _ _ _ _ N) as (g & I & F).
  inversion F as [? ? c at' st' su' ? N' NM]; subst. rewrite N in N'. assert (c = k_EventElement) by congruence. subst c.
  assert (B : In (spec_name (name_of model_classes k_EventElement)) (List.map gc_name aas_v3_0)).
  { rewrite <- NM. now apply in_map. }
  apply str_in_spec in B. vm_compute in B. discriminate.
Qed.
Print Assumptions C40_refuted.

(** Further differences: the type of the attribute in the table accepts a text that the
    specified type does not have. *)
Definition too_wide (c a s : string) : Prop :=
  (exists j k d attrs static subs x k' e f,
     nth_error model_table j = Some (k, RClass d attrs static subs) /\ name_of model_classes d = lit c /\
     In x attrs /\ json_name x = lit a /\ nth_error model_table (a_type x) = Some (k', RSfv e) /\
     kind_of model_classes e = KSfv f /\ sfv_construct f (lit s) = Built) /\
  (exists g x t, In g aas_v3_0 /\ gc_name g = lit c /\ In x (gc_attrs g) /\ g_name x = lit a /\
                 g_type x = GText t /\ ~ text_ok t (lit s)).
Definition accepts_at (c a s : string) : bool :=
  existsb (fun y => match snd y with
    | RClass d attrs _ _ => str_eqb (name_of model_classes d) (lit c) &&
        existsb (fun x => str_eqb (json_name x) (lit a) &&
                   match nth_error model_table (a_type x) with
                   | Some (_, RSfv e) => match kind_of model_classes e with
                                         | KSfv f => match sfv_construct f (lit s) with Built => true | _ => false end
                                         | _ => false end
                   | _ => false end) attrs
    | _ => false end) model_table.
Lemma accepts_at_ok c a s : accepts_at c a s = true ->
  exists j k d attrs static subs x k' e f,
     nth_error model_table j = Some (k, RClass d attrs static subs) /\ name_of model_classes d = lit c /\
     In x attrs /\ json_name x = lit a /\ nth_error model_table (a_type x) = Some (k', RSfv e) /\
     kind_of model_classes e = KSfv f /\ sfv_construct f (lit s) = Built.
Proof.
  unfold accepts_at. rewrite existsb_exists. intros ([k d] & I & H). apply In_nth_error in I. destruct I as [j N].
  unfold snd in H. destruct d as [| | | | | | | |d attrs static subs|]; try discriminate.
  apply andb_true_iff in H. destruct H as [H1 H2]. apply str_eqb_spec in H1. apply existsb_exists in H2.
  destruct H2 as (x & I & H2). apply andb_true_iff in H2. destruct H2 as [H2 H3]. apply str_eqb_spec in H2.
  destruct (nth_error model_table (a_type x)) as [[k' []]|] eqn:T; try discriminate.
  destruct (kind_of model_classes c0) as [|f| |] eqn:K; try discriminate.
  destruct (sfv_construct f (lit s)) eqn:B; try discriminate.
  exists j, k, d, attrs, static, subs, x, k', c0, f. auto 10.
Qed.
Lemma spec_attr c a t : existsb (fun g => str_eqb (gc_name g) (lit c) &&
    existsb (fun x => str_eqb (g_name x) (lit a) && match g_type x with GText u => text_eqb u t | _ => false end) (gc_attrs g)) aas_v3_0 = true ->
  exists g x, In g aas_v3_0 /\ gc_name g = lit c /\ In x (gc_attrs g) /\ g_name x = lit a /\ g_type x = GText t.
Proof.
  rewrite existsb_exists. intros (g & I & H). apply andb_true_iff in H. destruct H as [H1 H2]. apply str_eqb_spec in H1.
  apply existsb_exists in H2. destruct H2 as (x & J & H2). apply andb_true_iff in H2. destruct H2 as [H2 H3].
  apply str_eqb_spec in H2. destruct (g_type x) eqn:G; try discriminate. apply text_eqb_eq in H3. subst t0.
  exists g, x. auto.
Qed.
Theorem C40_texts_refuted :
  too_wide "BasicEventElement" "lastUpdate" "2024-01-01T12:00:00+01:00" /\
  too_wide "Blob" "value" "not base64!".
Proof.
  split; (split; [apply accepts_at_ok; vm_compute; reflexivity|]).
  - destruct (spec_attr "BasicEventElement" "lastUpdate" (Text 1 None FUtc)) as (g & x & A & B & C & D & E); [vm_compute; reflexivity|].
    exists g, x, (Text 1 None FUtc). repeat apply conj; auto. intros (_ & _ & _ & F); vm_compute in F; discriminate.
  - destruct (spec_attr "Blob" "value" (Text 0 None (FXsd X_base64Binary))) as (g & x & A & B & C & D & E); [vm_compute; reflexivity|].
    exists g, x, (Text 0 None (FXsd X_base64Binary)). repeat apply conj; auto. intros (_ & _ & _ & F); vm_compute in F; discriminate.
Qed.
Print Assumptions C40_texts_refuted.

(** The attributes of a class and the literals of an enumeration, as derived. *)
Example C40_example :
  match symbol_lookup model_table (lit "Property") with
  | Val i => match nth_error model_table i with
             | Some (_, RClass _ attrs _ _) =>
                 List.map json_name attrs = List.map lit
                   ["embeddedDataSpecifications"; "qualifiers"; "semanticId"; "supplementalSemanticIds"; "extensions";
                    "category"; "idShort"; "displayName"; "description"; "valueType"; "value"; "valueId"]%string /\
                 List.map (fun a => json_name a) (filter a_required attrs) = [lit "valueType"]
             | _ => False
             end
  | Raise _ => False
  end.
Proof. vm_compute. split; reflexivity. Qed.

(** ** C41 *)

(** Deriving a symbol table terminates, for every program and every annotation. *)
Theorem C41_terminates : forall P env a, reflect P env a <> Raise OutOfFuel.
Proof. exact reflect_terminates. Qed.
Print Assumptions C41_terminates.

(** It succeeds if all types that can be reached are supported. *)
Theorem C41_total : forall P env a, (forall b, Reach P env a b -> Supported P env b) ->
  exists i t, reflect P env a = Val (i, t).
Proof. exact reflect_total. Qed.
Print Assumptions C41_total.

(** The table has one entry for each key, the requested type is at the returned position, each
    entry describes a type that can be reached and refers to entries of the table only. *)
Theorem C41_closed : forall P env a i t, reflect P env a = Val (i, t) ->
  NoDup (List.map fst t) /\ nth_error (List.map fst t) i = Some (key P a) /\
  forall k d, In (k, d) t -> exists b d0, k = key P b /\ Reach P env a b /\ Describes P env b d0 /\
                                          Resolved P (List.map fst t) d0 d.
Proof. exact reflect_closed. Qed.
Print Assumptions C41_closed.

(** Each type that can be reached has an entry. *)
Theorem C41_complete : forall P env a i t b, wf_program P ->
  (forall x y, Reach P env a x -> Reach P env a y -> key P x = key P y -> x = y) ->
  reflect P env a = Val (i, t) -> Reach P env a b -> In (key P b) (List.map fst t).
Proof. exact reflect_complete. Qed.
Print Assumptions C41_complete.

(** A class that can be reached is found by its name if no other such class has this name. *)
Theorem C41_found : forall P env a i0 t c, wf_program P ->
  (forall x y, Reach P env a x -> Reach P env a y -> key P x = key P y -> x = y) ->
  reflect P env a = Val (i0, t) ->
  (forall d, Reach P env a (ACls d) -> simple_name (name_of P d)) ->
  (forall d, Reach P env a (ACls d) -> name_of P d = name_of P c -> d = c) ->
  Reach P env a (ACls c) ->
  exists i, symbol_lookup t (name_of P c) = Val i /\ nth_error (List.map fst t) i = Some (key P (ACls c)).
Proof. exact lookup_found. Qed.
Print Assumptions C41_found.

(** A name that no class has is not found. *)
Theorem C41_unknown : forall P env a i0 t n, reflect P env a = Val (i0, t) -> simple_name n ->
  (forall d, Reach P env a (ACls d) -> simple_name (name_of P d) /\ name_of P d <> n) ->
  symbol_lookup t n = Raise ValueError.
Proof. exact lookup_unknown. Qed.
Print Assumptions C41_unknown.

(** An ambiguous name is refused, whatever the entries are. *)
Theorem C41_ambiguous : forall (t : table) n i j k k' d d' p p', i <> j ->
  nth_error t i = Some (k, d) -> k = p ++ lit "." ++ n ++ lit "'>" ->
  nth_error t j = Some (k', d') -> k' = p' ++ lit "." ++ n ++ lit "'>" ->
  symbol_lookup t n = Raise ValueError.
Proof.
  intros t n i j k k' d d' p p' NE Ni Ki Nj Kj. generalize (symbol_lookup_spec t n).
  destruct (symbol_lookup t n) as [x|e].
  - intros [M U]. exfalso. apply NE.
    assert (Mi : Matches t n i) by (exists k, d, p; auto). assert (Mj : Matches t n j) by (exists k', d', p'; auto).
    rewrite (U i Mi), (U j Mj). reflexivity.
  - now intros [-> _].
Qed.
Print Assumptions C41_ambiguous.

(** Two classes that refer to each other, one of them through a list, with a subclass. *)
Definition mutual : list classdecl := [
  Class (lit "m") (lit "Node") [] (KData [Field (lit "edges") (AOpt (AList (AFwd (lit "Edge")))) None None]) true false;
  Class (lit "m") (lit "Edge") [] (KData [Field (lit "target") (ACls 0) None None; Field (lit "label") AStr None None]) false false;
  Class (lit "m") (lit "Leaf") [0] (KData [Field (lit "size") (AOpt AInt) None None]) false false;
  Class (lit "n") (lit "Edge") [] (KData []) false false ].
Definition mutual_globals := [(lit "Node", 0); (lit "Edge", 1); (lit "Leaf", 2)].
Example C41_example : exists t,
  reflect mutual mutual_globals (ACls 0) = Val (0, t) /\
  List.map fst t = List.map lit ["<class 'm.Node'>"; "typing.List[ForwardRef('Edge')]"; "<class 'm.Edge'>";
                                 "<class 'str'>"; "<class 'm.Leaf'>"; "<class 'int'>"]%string /\
  symbol_lookup t (lit "Edge") = Val 2 /\ symbol_lookup t (lit "Leaf") = Val 4 /\
  symbol_lookup t (lit "Other") = Raise ValueError.
Proof. eexists. vm_compute. repeat apply conj; reflexivity. Qed.
(** Two classes of the same name in different modules. *)
Example C41_ambiguous_example : exists t,
  reflect (mutual ++ [Class (lit "x") (lit "Both") [] (KData [Field (lit "a") (ACls 1) None None; Field (lit "b") (ACls 3) None None]) false false])
          mutual_globals (ACls 4) = Val (0, t) /\ symbol_lookup t (lit "Edge") = Raise ValueError.
Proof. eexists. vm_compute. repeat apply conj; reflexivity. Qed.
(** Every class of the meta model is found. *)
Example C41_model_example :
  forallb (fun e => match snd e with
             | RClass c _ _ _ => match symbol_lookup model_table (name_of model_classes c) with
                                 | Val i => match nth_error (List.map fst model_table) i with
                                            | Some k => str_eqb k (fst e)
                                            | None => false end
                                 | Raise _ => false end
             | _ => true end) model_table = true.
Proof. vm_compute. reflexivity. Qed.
