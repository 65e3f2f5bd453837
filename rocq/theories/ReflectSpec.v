(** Specification of reflection: what a type description has to say about an annotation. *)
From Coq Require Import String List NArith Bool.
From Verif Require Import PyStr PyBase PyVal ReflectModel.
Import ListNotations.
Local Open Scope list_scope.

Section Spec.
  Variable P : list classdecl.
  Variable env : list (str * nat).

  (** A program can only be executed if the bases of a class are defined before the class. *)
  Definition wf_program : Prop :=
    forall c k b, nth_error P c = Some k -> In b (c_bases k) -> b < c.

  (** [Below c d]: [d] is a proper subclass of [c]. *)
  Inductive Below (c : nat) : nat -> Prop :=
  | Below_one d k : nth_error P d = Some k -> In c (c_bases k) -> Below c d
  | Below_step e d k : Below c e -> nth_error P d = Some k -> In e (c_bases k) -> Below c d.

  Definition Abstract (c : nat) : Prop := exists k, nth_error P c = Some k /\ c_abstract k = true.

  (** Meaning of an annotation in which a class is named by a string. *)
  Inductive Named : ann -> ann -> Prop :=
  | Named_fwd n c : lookup n env = Some c -> Named (AFwd n) (ACls c)
  | Named_other a : (forall n, a <> AFwd n) -> Named a a.

  (** Optional[x] stands for an attribute that is not required. *)
  Inductive Optionality : ann -> bool -> ann -> Prop :=
  | Opt_yes x : Optionality (AOpt x) false x
  | Opt_no a : (forall x, a <> AOpt x) -> (forall t, a <> AUnion t) -> Optionality a true a.

  Inductive DescribesField : field -> list (attribute ann) -> list (str * pyval) -> Prop :=
  | DF_excluded f x o t : f_exclude f = Some x -> Optionality (f_ann f) o t ->
      DescribesField f [] [(f_name f, x)]
  | DF_attr f required t u : f_exclude f = None -> Optionality (f_ann f) required t -> Named t u ->
      DescribesField f [Attr (f_name f) u required (f_force f)] [].

  Inductive DescribesFields : list field -> list (attribute ann) -> list (str * pyval) -> Prop :=
  | DFs_nil : DescribesFields [] [] []
  | DFs_cons f r a1 s1 a2 s2 : DescribesField f a1 s1 -> DescribesFields r a2 s2 ->
      DescribesFields (f :: r) (a1 ++ a2) (s1 ++ s2).

  (** A type description fits an annotation. *)
  Inductive Describes : ann -> rtype ann -> Prop :=
  | D_none : Describes ANone RNone
  | D_bool : Describes ABool RBool
  | D_str : Describes AStr RString
  | D_any : Describes AAny RAny
  | D_int : Describes AInt RNumber
  | D_bytes : Describes ABytes RBytes
  | D_list x y : Named x y -> Describes (AList x) (RList y true)
  | D_nonempty x y : Named x y -> Describes (ANonEmpty x) (RList y false)
  | D_enum c ms : kind_of P c = KEnum ms -> Describes (ACls c) (REnum c)
  | D_sfv c s : kind_of P c = KSfv s -> Describes (ACls c) (RSfv c)
  | D_class c fs attrs static subs :
      (forall ms, kind_of P c <> KEnum ms) -> (forall s, kind_of P c <> KSfv s) ->
      fields_of P c = Some fs ->
      DescribesFields fs attrs static ->
      (wf_program -> forall d, In (ACls d) subs <-> Below c d /\ ~ Abstract d) ->
      (forall a, In a subs -> exists d, a = ACls d) ->
      Describes (ACls c) (RClass c attrs static subs).

  (** The annotations a type description refers to. *)
  Definition refs {T} (t : rtype T) : list T :=
    match t with
    | RClass _ attrs _ subs => List.map a_type attrs ++ subs
    | RList x _ => [x]
    | _ => []
    end.

  (** A class whose instances are objects with attributes: neither an enumeration nor a kind of string. *)
  Definition Object (c : nat) : Prop :=
    (forall ms, kind_of P c <> KEnum ms) /\ (forall s, kind_of P c <> KSfv s).

  (** Annotations that can be reached: items, types of fields, concrete subclasses. *)
  Inductive Child : ann -> ann -> Prop :=
  | Child_list x y : Named x y -> Child (AList x) y
  | Child_nonempty x y : Named x y -> Child (ANonEmpty x) y
  | Child_field c fs f o t u : Object c -> fields_of P c = Some fs -> In f fs -> f_exclude f = None ->
      Optionality (f_ann f) o t -> Named t u -> Child (ACls c) u
  | Child_subclass c d : Object c -> Below c d -> ~ Abstract d -> Child (ACls c) (ACls d).
  Inductive Reach (a : ann) : ann -> Prop :=
  | Reach_refl : Reach a a
  | Reach_step b x : Reach a b -> Child b x -> Reach a x.

  (** The annotations for which there is a type description. *)
  Inductive Supported : ann -> Prop :=
  | Sup_basic a : In a [ANone; ABool; AStr; AAny; AInt; ABytes] -> Supported a
  | Sup_list x y : Named x y -> Supported (AList x)
  | Sup_nonempty x y : Named x y -> Supported (ANonEmpty x)
  | Sup_enum c ms : kind_of P c = KEnum ms -> Supported (ACls c)
  | Sup_sfv c s : kind_of P c = KSfv s -> Supported (ACls c)
  | Sup_class c fs : fields_of P c = Some fs ->
      (forall f, In f fs -> exists o t, Optionality (f_ann f) o t /\
                            (f_exclude f = None -> exists u, Named t u)) ->
      Supported (ACls c).

  (** Replacing annotations by positions in a table. *)
  Definition Points (keys : list str) (a : ann) (i : nat) : Prop := nth_error keys i = Some (key P a).
  Inductive Resolved (keys : list str) : rtype ann -> rtype nat -> Prop :=
  | Res_none : Resolved keys RNone RNone
  | Res_bool : Resolved keys RBool RBool
  | Res_str : Resolved keys RString RString
  | Res_any : Resolved keys RAny RAny
  | Res_num : Resolved keys RNumber RNumber
  | Res_bytes : Resolved keys RBytes RBytes
  | Res_enum c : Resolved keys (REnum c) (REnum c)
  | Res_sfv c : Resolved keys (RSfv c) (RSfv c)
  | Res_list a i e : Points keys a i -> Resolved keys (RList a e) (RList i e)
  | Res_class c attrs attrs' st subs subs' :
      Forall2 (fun a a' => a_name a' = a_name a /\ a_required a' = a_required a /\ a_force a' = a_force a
                           /\ Points keys (a_type a) (a_type a')) attrs attrs' ->
      Forall2 (Points keys) subs subs' ->
      Resolved keys (RClass c attrs st subs) (RClass c attrs' st subs').

  (** A class without dots in its name. *)
  Definition simple_name (s : str) : Prop := ~ In 46%N s.
End Spec.
