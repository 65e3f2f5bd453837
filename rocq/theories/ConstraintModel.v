(** aas_test_engines/test_cases/v3_0/model.py: the methods of the classes, and
    [check_constraints] of parse.py that calls them. *)
From Coq Require Import String List NArith ZArith Bool PeanoNat.
From Verif Require Import PyStr PyBase PyVal Regex DataTypesModel ResultModel ReflectModel MetaModel AdapterModel ParseModel.
Import ListNotations.
Local Open Scope list_scope.

(** * Dispatch *)

(** The class with a name; the names of the classes of model.py are unique. *)
Fixpoint class_named_from (i : nat) (P : list classdecl) (n : str) : option nat :=
  match P with
  | [] => None
  | d :: r => if str_eqb (c_name d) n then Some i else class_named_from (S i) r n
  end.
Definition class_named (P : list classdecl) (n : str) : option nat := class_named_from 0 P n.
(** names of the classes in the method resolution order of a class *)
Definition mro_names (P : list classdecl) (n : str) : list str :=
  match class_named P n with
  | Some c => List.map (name_of P) (mro P c)
  | None => []
  end.
(** [isinstance(obj, cls)] for an object of the class named [n] *)
Definition is_a (P : list classdecl) (n cls : str) : bool := str_in cls (mro_names P n).

(** * Paths of submodel elements *)

(** model.py:33-36 *)
Definition path_add (p : id_short_path) (t : token) : id_short_path :=
  IdPath (ip_id_short p) (ip_id p) (ip_tokens p ++ [t]).
(** model.py:39-46 *)
Definition token_text (t : token) : str :=
  match t with TNone => lit "?" | TIndex n => dec_of_nat n | TName s => s end.
(** model.py:38-50 *)
Definition id_path_text (p : id_short_path) : str :=
  join (lit ".") (List.map token_text (ip_tokens p)) ++ lit " in Submodel "
  ++ match ip_id_short p with Some s => s | None => [] end ++ lit "[" ++ ip_id p ++ lit "]".
(** [f"{v}"] for the attribute id_short_path *)
Definition show_path (v : pyval) : str :=
  match v with VPath p => id_path_text p | _ => lit "None" end.

(** [path + el.id_short]; other values do not occur as idShort *)
Definition token_of (v : pyval) : outcome token :=
  match v with
  | VNone => Val TNone
  | VSfv _ s => Val (TName s)
  | _ => Raise TypeError
  end.

(** model.py:819-820, 1103-1107 and 1129-1133 [_set_path].  The loop over the attributes stands
    for the access to [self.value]: attributes have different names. *)
Fixpoint set_path (v : pyval) (p : id_short_path) {struct v} : outcome pyval :=
  match v with
  | VObj c kvs =>
      if is_a model_classes c (lit "SubmodelElement") then
        let collection := is_a model_classes c (lit "SubmodelElementCollection") in
        let list_ := is_a model_classes c (lit "SubmodelElementList") in
        let* kvs :=
          (fix attrs (kvs : list (str * pyval)) : outcome (list (str * pyval)) :=
             match kvs with
             | [] => Val []
             | (k, x) :: r =>
                 let* x' :=
                   if str_eqb k (lit "value") && (collection || list_) then
                     match x with
                     | VList l =>
                         let* l' :=
                           (fix items (i : nat) (l : list pyval) : outcome (list pyval) :=
                              match l with
                              | [] => Val []
                              | y :: l' =>
                                  let* t := if collection
                                            then let* n := getattr y (lit "id_short") in token_of n
                                            else Val (TIndex i) in
                                  let* y' := set_path y (path_add p t) in
                                  let* ys := items (S i) l' in
                                  Val (y' :: ys)
                              end) 0 l in
                         Val (VList l')
                     | VNone => Val VNone
                     | _ => Raise TypeError
                     end
                   else Val x in
                 let* r' := attrs r in
                 Val ((k, x') :: r')
             end) kvs in
        setattr (VObj c kvs) (lit "id_short_path") (VPath p)
      else Raise AttributeError
  | _ => Raise AttributeError
  end.

(** model.py:1271-1278 [Submodel.post_parse] *)
Fixpoint set_paths (root : id_short_path) (l : list pyval) : outcome (list pyval) :=
  match l with
  | [] => Val []
  | e :: r =>
      let* n := getattr e (lit "id_short") in
      let* t := token_of n in
      let* e' := set_path e (path_add root t) in
      let* r' := set_paths root r in
      Val (e' :: r')
  end.
Definition submodel_post_parse (v : pyval) : outcome pyval :=
  let* els := getattr v (lit "submodel_elements") in
  match els with
  | VNone => Val v
  | _ =>
      let* l := as_items els in
      let* n := getattr v (lit "id_short") in
      let* id := getattr v (lit "id") in
      let* id := raw_value id in
      let root := IdPath (match n with VSfv _ s => Some s | _ => None end) id [] in
      let* l' := set_paths root l in
      setattr v (lit "submodel_elements") (VList l')
  end.
(** parse.py:167-169: [getattr(obj, "post_parse", None)] *)
Definition model_post_parse (n : str) : option (pyval -> outcome pyval) :=
  if is_a model_classes n (lit "Submodel") then Some submodel_post_parse else None.

(** * Constraints *)

(** What a method check_... does: it returns, raises a CheckConstraintException with a level
    and a message (parse.py:21-25), or another exception. *)
Definition verdict := outcome (option (level * str)).
Definition fine : verdict := Val None.
Definition violated (m : str) : verdict := Val (Some (ERROR, m)).
Definition warned (m : str) : verdict := Val (Some (WARNING, m)).
Definition and_then (a b : verdict) : verdict :=
  let* x := a in match x with None => b | Some _ => Val x end.
Definition method := pyval -> verdict.

(** [for idx, el in enumerate(l): ...] *)
Fixpoint for_each (f : nat -> pyval -> verdict) (i : nat) (l : list pyval) : verdict :=
  match l with
  | [] => fine
  | x :: r => and_then (f i x) (for_each f (S i) r)
  end.
(** [any(... for i in l)] *)
Fixpoint py_any (f : pyval -> outcome bool) (l : list pyval) : outcome bool :=
  match l with
  | [] => Val false
  | x :: r => let* b := f x in if b then Val true else py_any f r
  end.

(** [v == E.X] for a member of an enumeration, given by its value *)
Definition enum_is (v : pyval) (value : string) : bool :=
  match v with VEnum _ _ x => str_eqb x (lit value) | _ => false end.
(** [v in {E.X, E.Y}] *)
Definition enum_in (v : pyval) (values : list string) : bool := existsb (enum_is v) values.
Definition py_len (v : pyval) : outcome nat :=
  match v with VList l => Val (length l) | VStr s => Val (length s) | _ => Raise TypeError end.
Definition as_str (v : pyval) : outcome str := match v with VStr s => Val s | _ => Raise TypeError end.

(** model.py:53-59; [value_type] is a key of the table of validators *)
Definition validate (value : str) (value_type : pyval) (path : pyval) : verdict :=
  match value_type with
  | VEnum _ _ x =>
      match find (fun m => str_eqb (snd m) x) xsd_members with
      | None => Raise KeyError
      | Some m =>
          let* b := validate_xsd (fst m) value in
          if b then fine
          else violated (lit "Value '" ++ value ++ lit "' is not a '" ++ x ++ lit "'"
                         ++ match path with VPath p => lit " @ " ++ id_path_text p | _ => [] end)
      end
  | _ => Raise KeyError
  end.

(** ** Language strings *)
(** model.py:74-80 *)
Definition lang_check_language : method := fun v =>
  let* l := getattr v (lit "language") in
  let* s := as_str l in
  if negb (is_bcp_lang_string s)
  then violated (lit "Constraint violated: Property 'language' does not contain a language according to BCP46")
  else match s with
       | [] => violated (lit "Constraint violated: Property 'language' must not be empty")
       | _ => fine
       end.
(** model.py:70-72: the class attribute [_max_len_text] *)
Definition max_len_text (cls : str) : option N :=
  match find (fun p => str_eqb (lit (fst p)) cls)
    [("MultiLanguageNameType", 128%N); ("MultiLanguageTextType", 1023%N); ("DefinitionTypeIec61360", 1023%N);
     ("PreferredNameTypeIec61360", 255%N); ("ShortNameTypeIec61360", 18%N)]%string with
  | Some p => Some (snd p)
  | None => None
  end.
Definition class_name (v : pyval) : str := match v with VObj c _ => c | _ => [] end.
(** model.py:82-88 *)
Definition lang_check_text : method := fun v =>
  let* t := getattr v (lit "text") in
  let* s := as_str t in
  match s with
  | [] => violated (lit "Constraint violated: Property 'text' must not be empty")
  | _ =>
      match max_len_text (class_name v) with
      | None => Raise AttributeError
      | Some m =>
          if N.ltb m (N.of_nat (length s))
          then violated (lit "Constraint violated: Property 'text' is too long (" ++ dec_of_nat (length s)
                         ++ lit " > " ++ dec_of_N m)
          else fine
      end
  end.

(** ** References *)
(** model.py:240-277 *)
Definition aas_submodel_elements : list string :=
  ["AnnotatedRelationshipElement"; "BasicEventElement"; "Blob"; "Capability"; "DataElement"; "Entity";
   "EventElement"; "File"; "MultiLanguageProperty"; "Operation"; "Property"; "Range"; "ReferenceElement";
   "RelationshipElement"; "SubmodelElement"; "SubmodelElementCollection"; "SubmodelElementList"]%string.
Definition generic_globally_identifiables : list string := ["GlobalReference"]%string.
Definition aas_identifiables : list string :=
  ["AssetAdministrationShell"; "ConceptDescription"; "Identifiable"; "Submodel"]%string.
Definition generic_fragment_keys : list string := ["FragmentReference"]%string.
Definition globally_identifiables : list string := aas_identifiables ++ generic_globally_identifiables.
Definition fragment_keys : list string := generic_fragment_keys ++ aas_submodel_elements.

(** [keys[0]] and [keys[-1]] *)
Definition first_item (v : pyval) : outcome pyval :=
  let* l := as_items v in match l with x :: _ => Val x | [] => Raise IndexError end.
Definition last_item (v : pyval) : outcome pyval :=
  let* l := as_items v in match rev l with x :: _ => Val x | [] => Raise IndexError end.
Definition key_type (k : pyval) : outcome pyval := getattr k (lit "type").
Definition has_type (v : pyval) (t : string) : outcome bool :=
  let* x := getattr v (lit "type") in Val (enum_is x t).

(** model.py:303-313 *)
Definition ref_121 : method := fun v =>
  let* ks := getattr v (lit "keys") in
  if negb (truthy ks) then fine else
  let* k := first_item ks in
  let* t := key_type k in
  if enum_in t globally_identifiables then fine
  else violated (lit "Constraint AASd-121 violated: first key must be one of GloballyIdentifiables").
(** model.py:315-325 *)
Definition ref_122 : method := fun v =>
  let* e := has_type v "ExternalReference" in
  let* ks := getattr v (lit "keys") in
  if negb e || is_none ks then fine else
  let* k := first_item ks in
  let* t := key_type k in
  if enum_in t generic_globally_identifiables then fine
  else violated (lit "Constraint AASd-122 violated: first key must be one of GenericGloballyIdentifiables").
(** model.py:327-335 *)
Definition ref_123 : method := fun v =>
  let* m := has_type v "ModelReference" in
  let* ks := getattr v (lit "keys") in
  if negb m || is_none ks then fine else
  let* k := first_item ks in
  let* t := key_type k in
  if enum_in t aas_identifiables then fine
  else violated (lit "Constraint AASd-123 violated: first key must be one of AasIdentifiables").
(** model.py:337-348 *)
Definition ref_124 : method := fun v =>
  let* e := has_type v "ExternalReference" in
  let* ks := getattr v (lit "keys") in
  if negb e || is_none ks then fine else
  let* k := last_item ks in
  let* t := key_type k in
  if negb (enum_in t generic_globally_identifiables) && negb (enum_in t generic_fragment_keys)
  then violated (lit "Constraint AASd-124 violated: last key must one of GenericGloballyIdentifiables or GenericFragmentKeys")
  else fine.
(** model.py:350-360 *)
Definition ref_125 : method := fun v =>
  let* m := has_type v "ModelReference" in
  let* ks := getattr v (lit "keys") in
  if negb m || is_none ks then fine else
  let* l := as_items ks in
  for_each (fun idx k =>
    let* t := key_type k in
    if enum_in t fragment_keys then fine
    else violated (lit "Constraint AASd-125 violated: key " ++ dec_of_nat idx ++ lit " must be a FragmentKey")) 0 (List.tl l).
(** model.py:362-374 *)
Definition ref_126 : method := fun v =>
  let* m := has_type v "ModelReference" in
  let* ks := getattr v (lit "keys") in
  if negb m || is_none ks then fine else
  let* l := as_items ks in
  if Nat.leb (length l) 1 then fine else
  for_each (fun idx k =>
    let* t := key_type k in
    if enum_in t generic_fragment_keys
    then violated (lit "Constraint AASd-126 violated: key " ++ dec_of_nat idx ++ lit " must not be a GenericFragmentKey")
    else fine) 0 (removelast l).
(** model.py:376-390 *)
Definition ref_127 : method := fun v =>
  let* m := has_type v "ModelReference" in
  let* ks := getattr v (lit "keys") in
  if negb m || is_none ks then fine else
  let* l := as_items ks in
  if Nat.leb (length l) 1 then fine else
  for_each (fun idx k =>
    let* t := key_type k in
    if enum_is t "FragmentReference" && Nat.leb 1 idx then
      match nth_error l (idx - 1) with
      | None => Raise IndexError
      | Some p =>
          let* u := key_type p in
          if enum_in u ["File"; "Blob"]%string then fine
          else violated (lit "Constraint AASd-127 violated: key " ++ dec_of_nat idx ++ lit " must be preceded by File or Blob")
      end
    else fine) 0 l.
(** model.py:392-405 *)
Definition ref_128 : method := fun v =>
  let* m := has_type v "ModelReference" in
  let* ks := getattr v (lit "keys") in
  if negb m || is_none ks then fine else
  let* l := as_items ks in
  for_each (fun idx k =>
    let* t := key_type k in
    if enum_is t "SubmodelElementList" && Nat.ltb idx (length l - 1) then
      match nth_error l (idx + 1) with
      | None => Raise IndexError
      | Some n =>
          let* x := getattr n (lit "value") in
          let* s := raw_value x in
          if is_bounded_integer s (Some 0%Z) None then fine
          else violated (lit "Constraint AASd-128 violated: key " ++ dec_of_nat idx ++ lit " must be followed by an integer")
      end
    else fine) 0 l.

(** [==] of members of enumerations and of string formatted values (reflect.py:86-87); other
    values do not occur *)
Definition scalar_eq (a b : pyval) : outcome bool :=
  match a, b with
  | VEnum c _ x, VEnum d _ y => Val (str_eqb c d && str_eqb x y)
  | VSfv _ x, VSfv _ y => Val (str_eqb x y)
  | _, _ => Raise TypeError
  end.
(** model.py:285-286; [and] evaluates its second argument only if the first is true *)
Definition key_eq (a b : pyval) : outcome bool :=
  let* ta := getattr a (lit "type") in
  let* tb := getattr b (lit "type") in
  let* e := scalar_eq ta tb in
  if e then
    let* va := getattr a (lit "value") in
    let* vb := getattr b (lit "value") in
    scalar_eq va vb
  else Val false.
Fixpoint keys_eq (a b : list pyval) : outcome bool :=
  match a, b with
  | x :: a', y :: b' => let* e := key_eq x y in if e then keys_eq a' b' else Val false
  | _, _ => Val true
  end.
(** model.py:407-415 [Reference.__eq__] *)
Definition ref_eq (a b : pyval) : outcome bool :=
  let* ta := getattr a (lit "type") in
  let* tb := getattr b (lit "type") in
  let* e := scalar_eq ta tb in
  if negb e then Val false else
  let* ka := getattr a (lit "keys") in
  let* kb := getattr b (lit "keys") in
  let* la := as_items ka in
  let* lb := as_items kb in
  if negb (Nat.eqb (length la) (length lb)) then Val false else keys_eq la lb.
(** model.py:288-289 and 417-422 [__str__] *)
Definition key_text (k : pyval) : outcome str := let* v := getattr k (lit "value") in raw_value v.
Definition ref_text (v : pyval) : outcome str :=
  let* t := getattr v (lit "type") in
  let* ks := getattr v (lit "keys") in
  let* l := as_items ks in
  let* texts := omap key_text l in
  Val (match t with VEnum _ _ x => x | _ => [] end ++ join (lit "/") texts).

(** ** Data specifications *)
(** model.py:438-456 *)
Definition eds_deprecated : list str := List.map lit
  ["https://adminshell.io/DataSpecificationTemplates/DataSpecificationIec61360/3/0";
   "http://adminshell.io/DataSpecificationTemplates/DataSpecificationIec61360/3/0";
   "https://adminshell.io/DataSpecificationTemplates/DataSpecificationIEC61360/3/0";
   "http://adminshell.io/DataSpecificationTemplates/DataSpecificationIEC61360/3/0"]%string.
Definition eds_expected : str :=
  lit "https://admin-shell.io/DataSpecificationTemplates/DataSpecificationIec61360/3".
Definition eds_reference : method := fun v =>
  let* d := getattr v (lit "data_specification") in
  let* ks := getattr d (lit "keys") in
  let* n := py_len ks in
  if negb (Nat.eqb n 1) then warned (lit "dataSpecification/keys must have exactly one entry") else
  let* k := first_item ks in
  let* x := getattr k (lit "value") in
  let* key := raw_value x in
  if str_in key eds_deprecated
  then warned (lit "dataSpecification/keys[0] has deprecated value " ++ key ++ lit ", expected " ++ eds_expected)
  else if negb (str_eqb key eds_expected)
  then warned (lit "dataSpecification/keys[0] has unexpected value " ++ key ++ lit ", expected " ++ eds_expected)
  else fine.
(** [is_bcp_47_for_english(i.language)] *)
Definition is_english (v : pyval) : outcome bool :=
  let* l := getattr v (lit "language") in
  let* s := as_str l in
  Val (is_bcp_47_for_english s).
(** model.py:541-547 *)
Definition iec_002 : method := fun v =>
  let* n := getattr v (lit "preferred_name") in
  let* l := as_items n in
  let* b := py_any is_english l in
  if b then fine else violated (lit "Constraint AASc-3a-002 violated: English language is missing").
(** model.py:549-564 *)
Definition iec_009 : method := fun v =>
  let* t := getattr v (lit "data_type") in
  let* u := getattr v (lit "unit") in
  let* ui := getattr v (lit "unit_id") in
  if enum_in t ["INTEGER_MEASURE"; "REAL_MEASURE"; "RATIONAL_MEASURE"; "INTEGER_CURRENCY"; "REAL_CURRENCY"]%string
     && (is_none u && is_none ui)
  then violated (lit "Constraint AASc-3a-009 violated: neither unit nor unit_id is set")
  else fine.
(** model.py:566-574 *)
Definition iec_010 : method := fun v =>
  let* x := getattr v (lit "value") in
  let* l := getattr v (lit "value_list") in
  if negb (is_none x) && negb (is_none l)
  then violated (lit "Constraint AASc-3a-010 violated: value and value_list cannot be set simultaneously")
  else fine.

(** ** Common classes *)
(** model.py:587-596 *)
Definition sem_118 : method := fun v =>
  let* s := getattr v (lit "supplemental_semantic_ids") in
  let* i := getattr v (lit "semantic_id") in
  if negb (is_none s) && is_none i
  then violated (lit "Constraint AASd-118 violated: supplementalSemanticId is given but semanticId is missing")
  else fine.
(** model.py:611-613 *)
Definition ext_value_type : method := fun v =>
  let* x := getattr v (lit "value") in
  let* t := getattr v (lit "value_type") in
  if truthy x && truthy t then let* s := raw_value x in validate s t VNone else fine.
(** model.py:632-638 *)
Definition r_id_short : re :=
  rseq [RCls [(97, 122); (65, 90)]%N; RStar (RCls [(97, 122); (65, 90); (48, 57); (95, 95)]%N)].
Definition ref_002 : method := fun v =>
  let* n := getattr v (lit "id_short") in
  if negb (truthy n) then fine else
  let* s := raw_value n in
  if matches r_id_short s then fine
  else violated (lit "Constraint AASd-002 violated: idShort shall match [a-zA-Z][a-zA-Z0-9_]*").
(** model.py:664-671 *)
Definition adm_005 : method := fun v =>
  let* r := getattr v (lit "revision") in
  let* w := getattr v (lit "version") in
  if negb (is_none r) && is_none w
  then violated (lit "Constraint AASd-005 violated: version is given but no revision")
  else fine.
(** model.py:703-721; AASd-006 and AASd-020 are not checked *)
Definition nothing : method := fun _ => fine.
Definition qual_value_type : method := fun v =>
  let* x := getattr v (lit "value") in
  if negb (truthy x) then fine else
  let* t := getattr v (lit "value_type") in
  let* s := raw_value x in
  validate s t VNone.
(** model.py:738-744 *)
Definition sai_133 : method := fun v =>
  let* e := getattr v (lit "external_subject_id") in
  if negb (truthy e) then fine else
  let* b := has_type e "ExternalReference" in
  if b then fine else violated (lit "Constraint AASd-133 violated: type must be ExternalReference").
(** model.py:767-775 *)
Definition ai_131 : method := fun v =>
  let* g := getattr v (lit "global_asset_id") in
  let* s := getattr v (lit "specific_asset_ids") in
  if negb (truthy g) && negb (truthy s)
  then violated (lit "Constraint AASd-131 violated: neither globalAssetId nor specificAssetIds given")
  else fine.
(** model.py:777-788 *)
Definition ai_116 : method := fun v =>
  let* s := getattr v (lit "specific_asset_ids") in
  if is_none s then fine else
  let* l := as_items s in
  for_each (fun idx x =>
    let* n := getattr x (lit "name") in
    let* n := raw_value n in
    if str_eqb n (lit "globalAssetId")
    then violated (lit "Constraint AASd-116 violated: specific asset id " ++ dec_of_nat idx ++ lit " must not have name 'globalAssetId'")
    else fine) 0 l.

(** ** idShorts *)
(** model.py:192-204 *)
Definition ensure_have_id_shorts (elements path : pyval) : verdict :=
  if is_none elements then fine else
  let* l := as_items elements in
  for_each (fun idx x =>
    let* n := getattr x (lit "id_short") in
    if is_none n
    then violated (lit "Constraint AASd-117 violated: element " ++ dec_of_nat idx ++ lit " has no idShort"
                   ++ match path with VPath p => lit " @ " ++ id_path_text p | _ => [] end)
    else fine) 0 l.
(** model.py:794-808; the argument [path] is not used *)
Fixpoint unique_id_shorts (l : list pyval) (seen : list str) : verdict :=
  match l with
  | [] => fine
  | x :: r =>
      let* n := getattr x (lit "id_short") in
      if is_none n then unique_id_shorts r seen else
      let* s := raw_value n in
      if str_in s seen then violated (lit "AASd-022 violated: Duplicate idShort '" ++ s ++ lit "'")
      else unique_id_shorts r (s :: seen)
  end.
Definition ensure_unique_id_shorts (v : pyval) : verdict :=
  if is_none v then fine else let* l := as_items v in unique_id_shorts l [].

(** ** Submodel elements *)
Definition id_short_path_of (v : pyval) : outcome pyval := getattr v (lit "id_short_path").
(** model.py:838-848 *)
Definition data_090 : method := fun v =>
  let* c := getattr v (lit "category") in
  if is_none c then fine else
  let* s := raw_value c in
  if str_in s (List.map lit ["CONSTANT"; "PARAMETER"; "VARIABLE"]%string) then fine else
  let* p := id_short_path_of v in
  violated (lit "Constraint AASd-090 violated: category " ++ s
            ++ lit " is not one of ['CONSTANT', 'PARAMETER', 'VARIABLE'] @ " ++ show_path p).
(** model.py:866-867 *)
Definition are_117 : method := fun v =>
  let* a := getattr v (lit "annotations") in
  let* p := id_short_path_of v in
  ensure_have_id_shorts a p.
(** model.py:902-906 *)
Definition ev_observed : method := fun v =>
  let* o := getattr v (lit "observed") in
  let* b := has_type o "ModelReference" in
  if b then fine else
  let* p := id_short_path_of v in
  violated (lit "Constraint violated: Property 'observed' must be a model reference @ " ++ show_path p).
(** model.py:908-912 *)
Definition ev_message_broker : method := fun v =>
  let* m := getattr v (lit "message_broker") in
  if negb (truthy m) then fine else
  let* b := has_type m "ModelReference" in
  if b then fine else
  let* p := id_short_path_of v in
  violated (lit "Constraint violated: Property 'observed' must be a model reference @ " ++ show_path p).
(** model.py:947-961 *)
Definition ent_014 : method := fun v =>
  let* t := getattr v (lit "entity_type") in
  let* g := getattr v (lit "global_asset_id") in
  let* s := getattr v (lit "specific_asset_ids") in
  let* p := id_short_path_of v in
  if enum_is t "SelfManagedEntity" then
    if is_none g && is_none s
    then violated (lit "Constraint AASd-014 violated: entity is self-manged but neither globalAssetId nor specificAssetId are set @ " ++ show_path p)
    else fine
  else
    if truthy g || truthy s
    then violated (lit "Constraint AASd-014 violated: entity is co-manged but either globalAssetId or specificAssetId are set @ " ++ show_path p)
    else fine.
(** model.py:963-964 *)
Definition ent_117 : method := fun v =>
  let* s := getattr v (lit "statements") in
  let* p := id_short_path_of v in
  ensure_have_id_shorts s p.
(** model.py:1002-1008; [self.id_short_path] raises an AttributeError: OperationVariable is not
    a SubmodelElement *)
Definition opv_117 : method := fun v =>
  let* x := getattr v (lit "value") in
  let* n := getattr x (lit "id_short") in
  if is_none n then
    let* p := id_short_path_of v in
    violated (lit "Constraint AASd-117 is violated: idShort missing @ " ++ show_path p)
  else fine.
(** model.py:1017-1027; the set of idShorts is returned *)
Fixpoint op_check_list (l : list pyval) (path : pyval) (seen : list str) : outcome (option str * list str) :=
  match l with
  | [] => Val (None, seen)
  | i :: r =>
      let* x := getattr i (lit "value") in
      let* n := getattr x (lit "id_short") in
      if is_none n then op_check_list r path seen else
      let* s := raw_value n in
      if str_in s seen
      then Val (Some (lit "Constraint AASd-134 violated: duplicate id short @ " ++ show_path path), seen)
      else op_check_list r path (s :: seen)
  end.
Fixpoint op_check_lists (ls : list pyval) (path : pyval) (seen : list str) : verdict :=
  match ls with
  | [] => fine
  | v :: r =>
      if is_none v then op_check_lists r path seen else
      let* l := as_items v in
      let* (m, seen) := op_check_list l path seen in
      match m with Some m => violated m | None => op_check_lists r path seen end
  end.
(** model.py:1029-1037 *)
Definition op_134 : method := fun v =>
  let* i := getattr v (lit "input_variables") in
  let* o := getattr v (lit "output_variables") in
  let* io := getattr v (lit "inoutput_variables") in
  let* p := id_short_path_of v in
  op_check_lists [i; o; io] p [].
(** model.py:1059-1061, 1073-1079 *)
Definition value_type_of (attr : string) : method := fun v =>
  let* x := getattr v (lit attr) in
  if negb (truthy x) then fine else
  let* s := raw_value x in
  let* t := getattr v (lit "value_type") in
  let* p := id_short_path_of v in
  validate s t p.
(** model.py:1109-1113 *)
Definition coll_022 : method := fun v => let* x := getattr v (lit "value") in ensure_unique_id_shorts x.
Definition coll_117 : method := fun v =>
  let* x := getattr v (lit "value") in
  let* p := id_short_path_of v in
  ensure_have_id_shorts x p.

(** ** Submodel element lists *)
(** model.py:1141-1145 *)
Definition list_type : method := fun v =>
  let* t := getattr v (lit "type_value_list_element") in
  if enum_in t aas_submodel_elements then fine else
  let* p := id_short_path_of v in
  violated (lit "Constraint violated: type_value_list_element must be a AasSubmodelElement @ " ++ show_path p).
(** model.py:1147-1160 *)
Definition list_107 : method := fun v =>
  let* x := getattr v (lit "value") in
  let* s := getattr v (lit "semantic_id_list_element") in
  let* p := id_short_path_of v in
  if negb (truthy x) || negb (truthy s) then fine else
  let* l := as_items x in
  for_each (fun idx el =>
    let* i := getattr el (lit "semantic_id") in
    if is_none i then fine else
    let* e := ref_eq i s in
    if e then fine else
    let* ti := ref_text i in
    let* ts := ref_text s in
    violated (lit "Constraint AASd-107 violated: Element " ++ dec_of_nat idx ++ lit " has invalid semantic id " ++ ti
              ++ lit ", should be " ++ ts ++ lit " @ " ++ show_path p)) 0 l.
(** model.py:1162-1179 *)
Fixpoint same_semantic_ids (idx : nat) (l : list pyval) (seen : option pyval) (p : pyval) : verdict :=
  match l with
  | [] => fine
  | el :: r =>
      let* i := getattr el (lit "semantic_id") in
      if negb (truthy i) then same_semantic_ids (S idx) r seen p else
      match seen with
      | None => same_semantic_ids (S idx) r (Some i) p
      | Some s =>
          let* e := ref_eq i s in
          if e then same_semantic_ids (S idx) r seen p else
          let* ts := ref_text s in
          violated (lit "Constraint AASd-114 violated: Element " ++ dec_of_nat idx ++ lit " must have semanticId " ++ ts
                    ++ lit " @ " ++ show_path p)
      end
  end.
Definition list_114 : method := fun v =>
  let* x := getattr v (lit "value") in
  let* p := id_short_path_of v in
  if negb (truthy x) then fine else
  let* l := as_items x in
  same_semantic_ids 0 l None p.
(** model.py:1190-1204 and 236-237 *)
Definition list_108 : method := fun v =>
  let* x := getattr v (lit "value") in
  let* t := getattr v (lit "type_value_list_element") in
  let* p := id_short_path_of v in
  if negb (truthy x) then fine else
  if negb (truthy t) then fine else
  let* l := as_items x in
  for_each (fun idx el =>
    match t with
    | VEnum _ _ n =>
        if str_eqb (class_name el) n then fine
        else violated (lit "Constraint AASd-108 violated: Element " ++ dec_of_nat idx ++ lit " must be " ++ n ++ lit " @ " ++ show_path p)
    | _ => Raise AttributeError
    end) 0 l.
(** model.py:1206-1224 *)
Definition list_109 : method := fun v =>
  let* x := getattr v (lit "value") in
  let* vt := getattr v (lit "value_type_list_element") in
  let* p := id_short_path_of v in
  if negb (truthy x) then fine else
  let* l := as_items x in
  for_each (fun idx el =>
    if is_a model_classes (class_name el) (lit "Property") || is_a model_classes (class_name el) (lit "Range") then
      if is_none vt
      then violated (lit "Constraint AASd-109 violated: valueTypeListElement must be set since there are Properties/Ranges @ " ++ show_path p)
      else
        let* t := getattr el (lit "value_type") in
        let* e := scalar_eq t vt in
        if e then fine
        else violated (lit "Constraint AASd-109 violated: value type of element " ++ dec_of_nat idx
                       ++ lit " does not match valueTypeListElement @ " ++ show_path p)
    else fine) 0 l.
(** model.py:1226-1239 *)
Definition list_120 : method := fun v =>
  let* x := getattr v (lit "value") in
  let* p := id_short_path_of v in
  if negb (truthy x) then fine else
  let* l := as_items x in
  for_each (fun idx el =>
    let* n := getattr el (lit "id_short") in
    if is_none n then fine
    else violated (lit "Constraint AASd-120 violated: element " ++ dec_of_nat idx ++ lit " must not have an idShort @ " ++ show_path p)) 0 l.

(** ** Identifiables *)
(** model.py:1249-1253; [self.id_short_path] raises an AttributeError *)
Definition aas_derived_from : method := fun v =>
  let* d := getattr v (lit "derived_from") in
  if negb (truthy d) then fine else
  let* b := has_type d "ModelReference" in
  if b then fine else
  let* p := id_short_path_of v in
  violated (lit "Constraint violated: derivedFrom must be a model reference @ " ++ show_path p).
(** model.py:1255-1261; likewise *)
Definition aas_submodels : method := fun v =>
  let* s := getattr v (lit "submodels") in
  if negb (truthy s) then fine else
  let* l := as_items s in
  for_each (fun _ i =>
    let* b := has_type i "ModelReference" in
    if b then fine else
    let* p := id_short_path_of v in
    violated (lit "Constraint violated: submodels must contain only model references @ " ++ show_path p)) 0 l.
(** model.py:1286-1290 *)
Definition sm_022 : method := fun v => let* x := getattr v (lit "submodel_elements") in ensure_unique_id_shorts x.
Definition sm_117 : method := fun v => let* x := getattr v (lit "submodel_elements") in ensure_have_id_shorts x VNone.
(** [any(qualifier.kind == QualifierKind.TemplateQualifier for qualifier in qualifiers)] *)
Definition has_template_qualifier (l : list pyval) : outcome bool :=
  py_any (fun q => let* k := getattr q (lit "kind") in Val (enum_is k "TemplateQualifier")) l.
Definition kind_must_be_template : str :=
  lit "Constraint AASd-129 violated: kind must be Template as at least one qualifier is a TemplateQualifier".
(** model.py:1292-1304 *)
Definition sm_119 : method := fun v =>
  let* q := getattr v (lit "qualifiers") in
  if is_none q then fine else
  let* l := as_items q in
  let* b := has_template_qualifier l in
  if negb b then fine else
  let* k := getattr v (lit "kind") in
  if enum_is k "Template" then fine else violated kind_must_be_template.
(** model.py:1306-1322 *)
Definition sm_129 : method := fun v =>
  let* e := getattr v (lit "submodel_elements") in
  if is_none e then fine else
  let* l := as_items e in
  let* k := getattr v (lit "kind") in
  for_each (fun _ el =>
    let* q := getattr el (lit "qualifiers") in
    if is_none q then fine else
    let* l := as_items q in
    let* b := has_template_qualifier l in
    if negb b then fine else
    if enum_is k "Template" then fine else violated kind_must_be_template) 0 l.

(** ** Concept descriptions *)
(** [v in types] for a set of strings: a member of an enumeration is not equal to a string *)
Definition in_str_set (v : pyval) (l : list string) : bool :=
  match v with VStr s => str_in s (List.map lit l) | _ => false end.
Definition iec_content (ds : pyval) : outcome (option pyval) :=
  let* c := getattr ds (lit "data_specification_content") in
  Val (if is_a model_classes (class_name c) (lit "DataSpecificationIec61360") then Some c else None).
(** model.py:1333-1343 *)
Definition check_iec_61360 (categories types : list string) (constraint : string) : method := fun v =>
  let* c := getattr v (lit "category") in
  if is_none c then fine else
  let* s := raw_value c in
  if negb (str_in s (List.map lit categories)) then fine else
  let* e := getattr v (lit "embedded_data_specifications") in
  if is_none e then fine else
  let* l := as_items e in
  for_each (fun idx ds =>
    let* x := iec_content ds in
    match x with
    | None => fine
    | Some content =>
        let* t := getattr content (lit "data_type") in
        if in_str_set t types then fine
        else violated (lit "Constraint " ++ lit constraint ++ lit " violated: embeddedDataSpecifications["
                       ++ dec_of_nat idx ++ lit "].dataType is invalid")
    end) 0 l.
(** model.py:1345-1372 *)
Definition cd_004 : method := check_iec_61360 ["PROPERTY"; "VALUE"]%string
  ["DATE"; "STRING"; "STRING_TRANSLATABLE"; "INTEGER_MEASURE"; "INTEGER_COUNT"; "INTEGER_CURRENCY"; "REAL_MEASURE";
   "REAL_COUNT"; "REAL_CURRENCY"; "BOOLEAN"; "RATIONAL"; "RATIONAL_MEASURE"; "TIME"; "TIMESTAMP"]%string "AASc-3a-004".
(** model.py:1374-1390 *)
Definition cd_005 : method := check_iec_61360 ["REFERENCE"]%string ["STRING"; "IRI"; "IRDI"]%string "AASc-3a-005".
(** model.py:1392-1408 *)
Definition cd_006 : method := check_iec_61360 ["DOCUMENT"]%string ["FILE"; "BLOB"; "HTML"]%string "AASc-3a-006".
(** model.py:1410-1425 *)
Definition cd_007 : method := fun v =>
  let* c := getattr v (lit "category") in
  if is_none c then fine else
  let* s := raw_value c in
  if negb (str_eqb s (lit "QUALIFIER_TYPE")) then fine else
  let* e := getattr v (lit "embedded_data_specifications") in
  if is_none e then fine else
  let* l := as_items e in
  for_each (fun idx ds =>
    let* x := iec_content ds in
    match x with
    | None => fine
    | Some content =>
        let* t := getattr content (lit "data_type") in
        if is_none t
        then violated (lit "Constraint AASc-3a-007 violated: embeddedDataSpecifications[" ++ dec_of_nat idx ++ lit "].dataType is missing")
        else fine
    end) 0 l.
(** model.py:1427-1447 *)
Definition cd_008 : method := fun v =>
  let* e := getattr v (lit "embedded_data_specifications") in
  if is_none e then fine else
  let* l := as_items e in
  for_each (fun idx ds =>
    let* x := iec_content ds in
    match x with
    | None => fine
    | Some content =>
        let* w := getattr content (lit "value") in
        if negb (is_none w) then fine else
        let* d := getattr content (lit "definition") in
        if is_none d
        then violated (lit "Constraint AASc-3a-008 violated: embeddedDataSpecifications[" ++ dec_of_nat idx ++ lit "].definition is missing")
        else
          let* ls := as_items d in
          let* b := py_any is_english ls in
          if b then fine
          else violated (lit "Constraint AASc-3a-008 violated: embeddedDataSpecifications[" ++ dec_of_nat idx
                         ++ lit "].definition.language is missing English.")
    end) 0 l.

(** ** The methods of each class statement *)
Local Open Scope string_scope.
Definition own_methods : list (string * list (string * method)) := [
  ("LangStringSet", [("check_language", lang_check_language); ("check_text", lang_check_text)]);
  ("Reference", [("check_aasd_121", ref_121); ("check_aasd_122", ref_122); ("check_aasd_123", ref_123);
                 ("check_aasd_124", ref_124); ("check_aasd_125", ref_125); ("check_aasd_126", ref_126);
                 ("check_aasd_127", ref_127); ("check_aasd_128", ref_128)]);
  ("EmbeddedDataSpecification", [("check_reference", eds_reference)]);
  ("DataSpecificationIec61360", [("check_aasc_3a_002", iec_002); ("check_aasc_3a_009", iec_009); ("check_aasc_3a_010", iec_010)]);
  ("HasSemantics", [("check_aasd_118", sem_118)]);
  ("Extension", [("check_value_type", ext_value_type)]);
  ("Referable", [("check_constraint_aasd_002", ref_002)]);
  ("AdministrativeInformation", [("check_constraint_aasd_005", adm_005)]);
  ("Qualifier", [("check_aasd_006", nothing); ("check_aasd_020", nothing); ("check_value_type", qual_value_type)]);
  ("SpecificAssetId", [("check_aasd_133", sai_133)]);
  ("AssetInformation", [("check_aasd_131", ai_131); ("check_aasd_116", ai_116)]);
  ("SubmodelElement", [("check_aasc_3a_050", nothing)]);
  ("DataElement", [("check_aasd_090", data_090)]);
  ("AnnotatedRelationshipElement", [("check_aasd_117", are_117)]);
  ("BasicEventElement", [("check_observed", ev_observed); ("check_message_broker", ev_message_broker)]);
  ("Entity", [("check_aasd_014", ent_014); ("check_aad_117", ent_117)]);
  ("MultiLanguageProperty", [("check_constraint_aasd_012", nothing)]);
  ("OperationVariable", [("check_aasd_117", opv_117)]);
  ("Operation", [("check_aasd_134", op_134)]);
  ("Property", [("check_aasd_007", nothing); ("check_value_type", value_type_of "value")]);
  ("Range", [("check_value_type_min", value_type_of "min"); ("check_value_type_max", value_type_of "max")]);
  ("SubmodelElementCollection", [("check_aasd_022", coll_022); ("check_aasd_117", coll_117)]);
  ("SubmodelElementList", [("check_type_value_list_element", list_type); ("check_aasd_107", list_107);
     ("check_aasd_114", list_114); ("check_aasd_115", nothing); ("check_aasd_108", list_108);
     ("check_aasd_109", list_109); ("check_aasd_120", list_120)]);
  ("AssetAdministrationShell", [("check_derived_from", aas_derived_from); ("check_submodels", aas_submodels)]);
  ("Submodel", [("check_aasd_022", sm_022); ("check_aasd_117", sm_117); ("check_aasd_119", sm_119); ("check_aasd_129", sm_129)]);
  ("ConceptDescription", [("check_aasc_3a_004", cd_004); ("check_aasc_3a_005", cd_005); ("check_aasc_3a_006", cd_006);
     ("check_aasc_3a_007", cd_007); ("check_aasc_3a_008", cd_008); ("check_aasc_3a_003", nothing)])
].
Local Close Scope string_scope.

(** parse.py:193 [dir(obj)]: the names of all methods along the method resolution order, sorted,
    each bound to its first definition *)
Fixpoint str_ltb (a b : str) : bool :=
  match a, b with
  | _, [] => false
  | [], _ :: _ => true
  | x :: a', y :: b' => if N.eqb x y then str_ltb a' b' else N.ltb x y
  end.
Fixpoint insert_sorted (n : str) (m : method) (l : list (str * method)) : list (str * method) :=
  match l with
  | [] => [(n, m)]
  | (k, x) :: r =>
      if str_eqb n k then l
      else if str_ltb n k then (n, m) :: l
      else (k, x) :: insert_sorted n m r
  end.
Definition own_methods_of (own : list (string * list (string * method))) (cls : str) : list (str * method) :=
  match find (fun p => str_eqb (lit (fst p)) cls) own with
  | Some p => List.map (fun q => (lit (fst q), snd q)) (snd p)
  | None => []
  end.
Definition dir_methods (P : list classdecl) (own : list (string * list (string * method))) (cls : str) : list (str * method) :=
  fold_left (fun acc q => insert_sorted (fst q) (snd q) acc)
    (List.concat (List.map (own_methods_of own) (mro_names P cls))) [].

(** * parse.py:190-207 check_constraints *)
Record cfinding := CFinding { cf_level : level; cf_text : str; cf_path : path }.
Definition cfinding_result (f : cfinding) : result :=
  new_result (cf_text f ++ lit " @ " ++ path_text (cf_path f)) (cf_level f).

Section CheckConstraints.
  (** the check methods of a class *)
  Variable methods : str -> list (str * method).

  Fixpoint run_methods (ms : list (str * method)) (v : pyval) (p : path) : outcome (list cfinding) :=
    match ms with
    | [] => Val []
    | (_, m) :: r =>
        let* x := m v in
        let* fs := run_methods r v p in
        Val (match x with Some (l, t) => CFinding l t p :: fs | None => fs end)
    end.

  (** The attributes that are excluded from parsing hold an IdShortPath or None, neither of
      which is a dataclass, so that their position among the fields does not matter. *)
  Fixpoint check_constraints (v : pyval) (p : path) {struct v} : outcome (list cfinding) :=
    match v with
    | VObj c kvs =>
        let* own := run_methods (methods c) v p in
        let* rest :=
          (fix attrs (kvs : list (str * pyval)) : outcome (list cfinding) :=
             match kvs with
             | [] => Val []
             | (k, x) :: r =>
                 let* a :=
                   match x with
                   | VList l =>
                       (fix items (i : nat) (l : list pyval) : outcome (list cfinding) :=
                          match l with
                          | [] => Val []
                          | y :: l' =>
                              let* a := check_constraints y (p ++ [SKey k; SIdx i]) in
                              let* b := items (S i) l' in
                              Val (a ++ b)
                          end) 0 l
                   | _ => check_constraints x (p ++ [SKey k])
                   end in
                 let* b := attrs r in
                 Val (a ++ b)
             end) kvs in
        Val (own ++ rest)
    | _ => Val []
    end.
End CheckConstraints.

(** the check methods of the classes of model.py *)
Definition model_methods : str -> list (str * method) := dir_methods model_classes own_methods.
Definition check_model (v : pyval) : outcome (list result) :=
  let* fs := check_constraints model_methods v [] in Val (List.map cfinding_result fs).
