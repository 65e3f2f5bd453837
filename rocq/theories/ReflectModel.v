(** aas_test_engines/reflect.py: deriving type descriptions from annotated classes.

    A python program is represented by the list of its class statements in the order of their
    execution; a class object is its position in this list.  The annotations of fields are
    represented by their structure ([ann]). *)
From Coq Require Import String List NArith Bool.
From Verif Require Import PyStr PyBase PyVal Regex.
Import ListNotations.
Local Open Scope list_scope.

(** * Annotations *)
Inductive ann :=
| ANone | ABool | AStr | AAny | AInt | ABytes
| ACls (c : nat)            (* a class of the program *)
| AFwd (name : str)         (* a string, i.e. typing.ForwardRef; only class names are supported *)
| AList (a : ann)           (* typing.List[a] *)
| ANonEmpty (a : ann)       (* NonEmptyList[a] *)
| AOpt (a : ann)            (* typing.Optional[a] *)
| AUnion (text : str)       (* any other union, with its str() *)
| AOther (text : str).      (* any other generic alias, with its str() *)

(** * Class statements *)

(** reflect.py:55-84 and the subclasses in model.py: class attributes and the additional test
    of an overridden [__init__] with the message of its ValueError *)
Record sfv := Sfv {
  s_min : option N; s_max : option N;
  s_pattern : option (str * re);           (* text of the pattern and its meaning *)
  s_check : option ((str -> outcome bool) * str);
  s_base64 : bool
}.

(** A field of a dataclass: [name: ann = field(metadata=...)] *)
Record field := Field {
  f_name : str; f_ann : ann;
  f_exclude : option pyval;                (* metadata["exclude_as"] *)
  f_force : option str                     (* metadata["force_name"] *)
}.

Inductive ckind :=
| KEnum (members : list (str * str))       (* subclass of Enum: names and values of the members *)
| KSfv (s : sfv)                           (* subclass of StringFormattedValue *)
| KData (own : list field)                 (* decorated with @dataclass *)
| KPlain.                                  (* neither; may inherit from a dataclass *)

Record classdecl := Class {
  c_module : str; c_name : str;
  c_bases : list nat;
  c_kind : ckind;
  c_abstract : bool;                       (* @abstract *)
  c_model_type : bool                      (* @requires_model_type, parse.py:36-38 *)
}.

(** * The results of reflection *)

(** reflect.py:176-181 [ClassType.Attribute]; the type is an annotation before and a position
    in the symbol table after resolution *)
Record attribute (T : Type) := Attr { a_name : str; a_type : T; a_required : bool; a_force : option str }.
Arguments Attr {T}. Arguments a_name {T}. Arguments a_type {T}. Arguments a_required {T}. Arguments a_force {T}.

(** reflect.py:112-213 the type descriptions *)
Inductive rtype (T : Type) :=
| RNone | RString | RBool | RAny | RNumber | RBytes
| REnum (c : nat)
| RSfv (c : nat)
| RClass (c : nat) (attrs : list (attribute T)) (static : list (str * pyval)) (subclasses : list T)
| RList (item : T) (allow_empty : bool).
Arguments RNone {T}. Arguments RString {T}. Arguments RBool {T}. Arguments RAny {T}. Arguments RNumber {T}.
Arguments RBytes {T}. Arguments REnum {T}. Arguments RSfv {T}. Arguments RClass {T}. Arguments RList {T}.

Section Program.
  Variable P : list classdecl.

  Definition class_of (c : nat) : option classdecl := nth_error P c.
  Definition name_of (c : nat) : str := match class_of c with Some d => c_name d | None => [] end.
  Definition bases_of (c : nat) : list nat := match class_of c with Some d => c_bases d | None => [] end.
  Definition kind_of (c : nat) : ckind := match class_of c with Some d => c_kind d | None => KPlain end.

  (** ** Names of annotations *)
  Definition full_name (c : nat) : str :=
    match class_of c with Some d => c_module d ++ lit "." ++ c_name d | None => [] end.

  (** [typing._type_repr], used for the arguments of generic aliases *)
  Fixpoint type_repr (a : ann) : str :=
    match a with
    | ANone => lit "NoneType" | ABool => lit "bool" | AStr => lit "str" | AInt => lit "int" | ABytes => lit "bytes"
    | AAny => lit "<built-in function any>"
    | ACls c => full_name c
    | AFwd n => lit "ForwardRef('" ++ n ++ lit "')"
    | AList x => lit "typing.List[" ++ type_repr x ++ lit "]"
    | ANonEmpty x => lit "aas_test_engines.reflect.NonEmptyList[" ++ type_repr x ++ lit "]"
    | AOpt x => lit "typing.Optional[" ++ type_repr x ++ lit "]"
    | AUnion t => t | AOther t => t
    end.

  (** [str(cls)], reflect.py:292 *)
  Definition key (a : ann) : str :=
    match a with
    | ANone => lit "None"
    | ABool => lit "<class 'bool'>" | AStr => lit "<class 'str'>" | AInt => lit "<class 'int'>"
    | ABytes => lit "<class 'bytes'>"
    | ACls c => lit "<class '" ++ full_name c ++ lit "'>"
    | _ => type_repr a
    end.

  (** ** Classes *)

  (** [cls.__subclasses__()]: the direct subclasses in the order of their definition *)
  Definition direct_subclasses (c : nat) : list nat :=
    filter (fun d => existsb (Nat.eqb c) (bases_of d)) (seq 0 (length P)).

  (** reflect.py:19-26 (the attribute name contains the class, so it is not inherited) *)
  Definition is_abstract (c : nat) : bool := match class_of c with Some d => c_abstract d | None => false end.

  (** reflect.py:222-226; a subclass is defined after its bases, so the chain is not longer
      than the program *)
  Fixpoint collect_subclasses (fuel : nat) (c : nat) : list nat :=
    match fuel with
    | O => []
    | S f => flat_map (fun i => (if is_abstract i then [] else [i]) ++ collect_subclasses f i) (direct_subclasses c)
    end.

  (** [cls.__mro__] without [object]: C3 linearisation; None is the TypeError of an
      inconsistent hierarchy *)
  Definition good_head (ls : list (list nat)) (h : nat) : bool :=
    forallb (fun l => negb (existsb (Nat.eqb h) (List.tl l))) ls.
  Fixpoint merge (fuel : nat) (ls : list (list nat)) : option (list nat) :=
    let ls := filter (fun l => match l with [] => false | _ => true end) ls in
    match ls with
    | [] => Some []
    | _ =>
      match fuel with
      | O => None
      | S f =>
        match find (good_head ls) (flat_map (fun l => match l with h :: _ => [h] | [] => [] end) ls) with
        | None => None
        | Some h =>
          option_map (cons h)
            (merge f (List.map (fun l => match l with x :: r => if Nat.eqb x h then r else l | [] => [] end) ls))
        end
      end
    end.
  Fixpoint mro_fuel (fuel : nat) (c : nat) : option (list nat) :=
    match fuel with
    | O => None
    | S f =>
      let bs := bases_of c in
      let ms := List.map (mro_fuel f) bs in
      if forallb (fun m => match m with Some _ => true | None => false end) ms then
        let ls := List.map (fun m => match m with Some l => l | None => [] end) ms ++ [bs] in
        option_map (cons c) (merge (length (List.concat ls)) ls)
      else None
    end.
  Definition mro (c : nat) : list nat :=
    match mro_fuel (S c) c with Some l => l | None => [] end.

  (** parse.py:41-42: the attribute is inherited *)
  Definition has_requires_model_type (c : nat) : bool :=
    existsb (fun d => match class_of d with Some k => c_model_type k | None => false end) (mro c).

  (** [dataclasses.fields(cls)] and its lookup through the bases
      (CPython dataclasses.py [_process_class]): the fields of the bases in reverse MRO order,
      then the own fields; a redefinition keeps the position.  None: not a dataclass. *)
  Definition add_field (fs : list (str * field)) (f : field) : list (str * field) := assign (f_name f) f fs.
  Fixpoint dataclass_fields (fuel : nat) (c : nat) : option (list (str * field)) :=
    match fuel with
    | O => None
    | S n =>
      match kind_of c with
      | KData own =>
        let inherited :=
          fold_left (fun fs b => match dataclass_fields n b with
                                 | Some bf => fold_left add_field (List.map snd bf) fs
                                 | None => fs
                                 end) (rev (List.tl (mro c))) [] in
        Some (fold_left add_field own inherited)
      | _ =>
        (* attribute lookup of __dataclass_fields__ along the MRO *)
        (fix first (l : list nat) :=
           match l with
           | [] => None
           | b :: r => match kind_of b with KData _ => dataclass_fields n b | _ => first r end
           end) (List.tl (mro c))
      end
    end.
  Definition fields_of (c : nat) : option (list field) :=
    option_map (List.map snd) (dataclass_fields (S c) c).

  (** ** Reflection *)

  (** reflect.py:29-38; the AssertionError is raised for unions that are not optional types *)
  Definition unwrap_optional (a : ann) : outcome (bool * ann) :=
    match a with
    | AOpt x => Val (false, x)
    | AUnion _ => Raise AssertionError
    | _ => Val (true, a)
    end.

  Variable env : list (str * nat).   (* globals() and locals(): names of classes *)

  (** reflect.py:41-52; an unknown name raises an Exception *)
  Definition unwrap_forward_ref (a : ann) : outcome ann :=
    match a with
    | AFwd n => match lookup n env with Some c => Val (ACls c) | None => Raise GenericException end
    | _ => Val a
    end.

  Definition symbols := list (str * option (rtype ann)).

  Section Body.
    Variable reflect_rec : ann -> symbols -> outcome symbols.

    (** reflect.py:261-264 *)
    Definition reflect_list (item : ann) (allow_empty : bool) (st : symbols) : outcome (rtype ann * symbols) :=
      let* item := unwrap_forward_ref item in
      let* st := reflect_rec item st in
      Val (RList item allow_empty, st).

    (** reflect.py:271-282 *)
    Fixpoint reflect_fields (fs : list field) (st : symbols)
      : outcome (list (attribute ann) * list (str * pyval) * symbols) :=
      match fs with
      | [] => Val ([], [], st)
      | f :: r =>
        let* u := unwrap_optional (f_ann f) in
        let '(required, t) := u in
        match f_exclude f with
        | Some x =>
          let* y := reflect_fields r st in
          let '(attrs, static, st) := y in
          Val (attrs, (f_name f, x) :: static, st)
        | None =>
          let* t := unwrap_forward_ref t in
          let* st := reflect_rec t st in
          let* y := reflect_fields r st in
          let '(attrs, static, st) := y in
          Val (Attr (f_name f) t required (f_force f) :: attrs, static, st)
        end
      end.

    (** reflect.py:284-287 *)
    Fixpoint reflect_subclasses (l : list nat) (st : symbols) : outcome symbols :=
      match l with
      | [] => Val st
      | c :: r => let* st := reflect_rec (ACls c) st in reflect_subclasses r st
      end.

    (** reflect.py:267-288 *)
    Definition reflect_class (c : nat) (fs : list field) (st : symbols) : outcome (rtype ann * symbols) :=
      let* y := reflect_fields fs st in
      let '(attrs, static, st) := y in
      let subs := collect_subclasses (length P) c in
      let* st := reflect_subclasses subs st in
      Val (RClass c attrs static (List.map ACls subs), st).

    (** reflect.py:303-339 *)
    Definition reflect_unsafe (a : ann) (st : symbols) : outcome (rtype ann * symbols) :=
      match a with
      | AList x => reflect_list x true st
      | ANonEmpty x => reflect_list x false st
      | AOpt _ | AUnion _ | AOther _ => Raise NotImplementedError
      | ANone => Val (RNone, st)
      | ABool => Val (RBool, st)
      | AStr => Val (RString, st)
      | AAny => Val (RAny, st)
      | AInt => Val (RNumber, st)
      | ABytes => Val (RBytes, st)
      | AFwd _ => Raise TypeError          (* issubclass() arg 1 must be a class *)
      | ACls c =>
        match kind_of c with
        | KEnum _ => Val (REnum c, st)
        | KSfv _ => Val (RSfv c, st)
        | _ =>
          match fields_of c with
          | None => Raise GenericException (* Classes must be dataclasses *)
          | Some fs => reflect_class c fs st
          end
        end
      end.
  End Body.

  (** reflect.py:291-300 *)
  Fixpoint reflect_fuel (fuel : nat) (a : ann) (st : symbols) : outcome symbols :=
    match fuel with
    | O => Raise OutOfFuel
    | S f =>
      match lookup (key a) st with
      | Some _ => Val st
      | None =>
        let* y := reflect_unsafe (reflect_fuel f) a (st ++ [(key a, None)]) in
        let '(t, st) := y in
        Val (assign (key a) (Some t) st)
      end
    end.

  (** Position of a key in the symbol table *)
  Fixpoint index_of (k : str) (l : list str) : option nat :=
    match l with
    | [] => None
    | x :: r => if str_eqb k x then Some 0 else option_map S (index_of k r)
    end.

  Definition table := list (str * rtype nat).

  (** reflect.py:249-258: [self.symbols[str(ref)]] *)
  Definition resolve_ref (keys : list str) (a : ann) : outcome nat :=
    match index_of (key a) keys with Some i => Val i | None => Raise KeyError end.
  Fixpoint omap {A B} (f : A -> outcome B) (l : list A) : outcome (list B) :=
    match l with
    | [] => Val []
    | x :: r => let* y := f x in let* ys := omap f r in Val (y :: ys)
    end.
  Definition resolve_type (keys : list str) (t : rtype ann) : outcome (rtype nat) :=
    match t with
    | RNone => Val RNone | RString => Val RString | RBool => Val RBool | RAny => Val RAny
    | RNumber => Val RNumber | RBytes => Val RBytes
    | REnum c => Val (REnum c) | RSfv c => Val (RSfv c)
    | RClass c attrs static subs =>
      let* attrs := omap (fun a => let* i := resolve_ref keys (a_type a) in
                                   Val (Attr (a_name a) i (a_required a) (a_force a))) attrs in
      let* subs := omap (resolve_ref keys) subs in
      Val (RClass c attrs static subs)
    | RList item e => let* i := resolve_ref keys item in Val (RList i e)
    end.
  (** A symbol that is still None is none of the classes distinguished in [_resolve]; it
      remains None and is represented here as a KeyError (it never occurs, see the theorems) *)
  Definition resolve (st : symbols) : outcome table :=
    let keys := List.map fst st in
    omap (fun e => match snd e with
                   | Some t => let* t := resolve_type keys t in Val (fst e, t)
                   | None => Raise KeyError
                   end) st.

  (** Number of annotations below an annotation *)
  Fixpoint ann_size (a : ann) : nat :=
    match a with AList x | ANonEmpty x | AOpt x => S (ann_size x) | _ => 1 end.
  (** Fuel for the recursion: not less than the number of different annotations that can be
      reached from [a] *)
  Definition reflect_bound (a : ann) : nat :=
    2 + (ann_size a + length P
       + list_sum (List.map (fun d => match c_kind d with
                                      | KData own => list_sum (List.map (fun f => ann_size (f_ann f)) own)
                                      | _ => 0
                                      end) P)).

  (** reflect.py:342-346; the type returned first is the entry of the symbol table for [a] *)
  Definition reflect (a : ann) : outcome (nat * table) :=
    let* st := reflect_fuel (reflect_bound a) a [] in
    let* i := resolve_ref (List.map fst st) a in
    let* t := resolve st in
    Val (i, t).

  (** reflect.py:240-247 *)
  Definition symbol_lookup (t : table) (type_name : str) : outcome nat :=
    match filter (fun e => endswith (lit "." ++ type_name ++ lit "'>") (fst (snd e)))
                 (combine (seq 0 (length t)) t) with
    | [] => Raise ValueError
    | [e] => Val (fst e)
    | _ => Raise ValueError
    end.
End Program.
