(** aas_test_engines/test_cases/v3_0/parse_submodel.py and submodel_templates.py: the check of
    submodels against submodel templates; __init__.py: the complete check of a document. *)
From Coq Require Import PeanoNat String List NArith Bool.
From Verif Require Import PyStr PyBase PyXml PyVal ResultModel ReflectModel MetaModel AdapterModel ParseModel ConstraintModel CheckModel.
Import ListNotations.
Local Open Scope list_scope.

(** * Templates *)
(** The annotations of fields: T, List[T], Optional[T] and Optional[List[T]]; LangString is a T *)
Inductive shape := Plain | Lst | Opt | OptList.
(** A field of a dataclass with its name, metadata["semantic_id"] and annotation.  Every field
    of submodel_templates.py has a semantic id. *)
Record tfield (T : Type) := TField { tf_name : str; tf_sid : str; tf_shape : shape; tf_type : T }.
Arguments TField {T}. Arguments tf_name {T}. Arguments tf_sid {T}. Arguments tf_shape {T}. Arguments tf_type {T}.
(** str, datetime.date, LangString, an enumeration with its members, a dataclass with its fields *)
Inductive ttype :=
| TtStr | TtDate | TtLang
| TtEnum (name : str) (members : list (str * str))
| TtClass (name : str) (fields : list (tfield ttype)).

(** parse_submodel.py:25-53 [_unwrap]: minimal and maximal cardinality (None is infinity) *)
Definition unwrap (s : shape) : nat * option nat :=
  match s with Plain => (1, Some 1) | Lst => (1, None) | Opt => (0, Some 1) | OptList => (0, None) end.

(** parse_submodel.py:21-22 [to_camel_case] for names of ASCII letters and underscores *)
Definition to_camel_case (s : str) : str := List.concat (List.map capitalize (split_on 95 s)).

(** * parse_submodel.py *)
(** A report is a list of messages, all of level ERROR, in the order of their creation. *)
Definition messages := list str.
Section Messages.
  (** [repr(s)]; it only occurs in messages *)
  Variable repr : str -> str.

  Definition at_path (m : str) (p : path) : str := m ++ lit " @ " ++ path_text p.
  (** [element.value_type != DataTypeDefXsd.x] *)
  Definition has_value_type (v : pyval) (x : str) : bool :=
    match v with VEnum c _ w => str_eqb c (lit "DataTypeDefXsd") && str_eqb w x | _ => false end.
  (** [isinstance(e, cls)] *)
  Definition instance_of (e : pyval) (cls : str) : bool := match e with VObj c _ => is_a model_classes c cls | _ => false end.
  Definition value_text (v : pyval) : str := match v with VSfv _ s => s | _ => [] end.

  (** parse_submodel.py:56-78 *)
  Definition parse_text (e : pyval) (p : path) (r : messages) : outcome (pyval * messages) :=
    if negb (instance_of e (lit "Property"))
    then Val (VNone, r ++ [at_path (lit "Cannot convert to string: must be a Property") p])
    else
      let* v := getattr e (lit "value") in
      if negb (truthy v) then Val (VNone, r ++ [at_path (lit "Cannot convert to string: no value") p]) else
      let* t := getattr e (lit "value_type") in
      if negb (has_value_type t (lit "xs:string"))
      then Val (VNone, r ++ [at_path (lit "Cannot convert '" ++ value_text v ++ lit "' to string: valueType must be xs:string") p])
      else let* s := raw_value v in Val (VStr s, r).

  (** [datetime.date.fromisoformat(s)] for a string of the form YYYY-MM-DD.  (CPython 3.11 also reads
      YYYYMMDD and week dates.  These never get here: as the type of the value is xs:date, the
      constraint check has rejected them.  They are modelled as a ValueError.) *)
  Definition digit (c : N) : option N := if N.leb 48 c && N.leb c 57 then Some (c - 48)%N else None.
  Fixpoint number (n : nat) (acc : N) (s : str) : option (N * str) :=
    match n with
    | O => Some (acc, s)
    | S n' => match s with [] => None | c :: s => match digit c with Some d => number n' (10 * acc + d)%N s | None => None end end
    end.
  Definition dash (s : str) : option str := match s with c :: s => if N.eqb c 45 then Some s else None | [] => None end.
  Definition leap_year (y : N) : bool := N.eqb (y mod 4) 0 && (negb (N.eqb (y mod 100) 0) || N.eqb (y mod 400) 0).
  Definition days_in_month (y m : N) : N :=
    if N.eqb m 2 then (if leap_year y then 29 else 28)%N
    else if existsb (N.eqb m) [4; 6; 9; 11]%N then 30%N else 31%N.
  Definition valid_date (y m d : N) : bool :=
    N.leb 1 y && N.leb 1 m && N.leb m 12 && N.leb 1 d && N.leb d (days_in_month y m).
  Definition iso_date (s : str) : bool :=
    match number 4 0 s with
    | Some (y, s) => match dash s with None => false | Some s =>
    match number 2 0 s with
    | Some (m, s) => match dash s with None => false | Some s =>
    match number 2 0 s with
    | Some (d, []) => valid_date y m d
    | _ => false end end | None => false end end | None => false end.
  Definition from_iso_format (s : str) : outcome pyval := if iso_date s then Val VAny else Raise ValueError.

  (** parse_submodel.py:81-103 *)
  Definition parse_date (e : pyval) (p : path) (r : messages) : outcome (pyval * messages) :=
    if negb (instance_of e (lit "Property"))
    then Val (VNone, r ++ [at_path (lit "Cannot convert to date: must be a Property") p])
    else
      let* v := getattr e (lit "value") in
      if negb (truthy v) then Val (VNone, r ++ [at_path (lit "Cannot convert to date: no value") p]) else
      let* t := getattr e (lit "value_type") in
      if negb (has_value_type t (lit "xs:date"))
      then Val (VNone, r ++ [at_path (lit "Cannot convert '" ++ value_text v ++ lit "' to date: valueType must be xs:date") p])
      else let* s := raw_value v in let* d := from_iso_format s in Val (d, r).

  (** parse_submodel.py:106-122; the contents of the dictionary are not modelled *)
  Definition parse_lang_string (e : pyval) (p : path) (r : messages) : outcome (pyval * messages) :=
    if negb (instance_of e (lit "MultiLanguageProperty"))
    then Val (VNone, r ++ [at_path (lit "Cannot convert to lang string: not a MultiLanguageProperty") p])
    else
      let* v := getattr e (lit "value") in
      if negb (truthy v) then Val (VNone, r ++ [at_path (lit "Cannot convert to lang string: no value") p]) else
      let* l := as_items v in Val (VAny, r).

  (** parse_submodel.py:187-196 *)
  Definition parse_template_enum (n : str) (members : list (str * str)) (e : pyval) (p : path) (r : messages) : outcome (pyval * messages) :=
    let* (v, r) := parse_text e p r in
    match r with
    | _ :: _ => Val (VInvalid, r)
    | [] =>
        let s := match v with VStr s => s | _ => [] end in
        match find (fun m => str_eqb (snd m) s) members with
        | Some m => Val (VEnum n (fst m) (snd m), r)
        | None => Val (VInvalid, r ++ [at_path (repr s ++ lit " is not a valid " ++ n) p])
        end
    end.

  (** parse_submodel.py:139-143: the elements with their semantic ids *)
  Definition first_key (v : pyval) : outcome str :=
    let* ks := getattr v (lit "keys") in
    let* l := as_items ks in
    match l with
    | [] => Raise IndexError
    | k :: _ => let* x := getattr k (lit "value") in raw_value x
    end.
  Fixpoint by_semantic_id (l : list pyval) : outcome (list (str * pyval)) :=
    match l with
    | [] => Val []
    | e :: r =>
        let* s := getattr e (lit "semantic_id") in
        if truthy s then
          let* k := first_key s in
          let* q := by_semantic_id r in
          Val ((k, e) :: q)
        else by_semantic_id r
    end.
  Definition with_semantic_id (s : str) (l : list (str * pyval)) : list pyval :=
    List.map snd (filter (fun q => str_eqb (fst q) s) l).

  (** parse_submodel.py:183 *)
  Fixpoint parse_each (rec : pyval -> path -> messages -> outcome (pyval * messages)) (i : nat) (l : list pyval) (p : path) (r : messages)
    : outcome (list pyval * messages) :=
    match l with
    | [] => Val ([], r)
    | e :: l' =>
        let* (x, r) := rec e (p ++ [SIdx i]) r in
        let* (xs, r) := parse_each rec (S i) l' p r in
        Val (x :: xs, r)
    end.
  (** parse_submodel.py:157-185 *)
  Definition parse_field (f : tfield ttype) (rec : pyval -> path -> messages -> outcome (pyval * messages))
      (elements : list (str * pyval)) (p : path) (r : messages) : outcome (pyval * messages) :=
    let (min_card, max_card) := unwrap (tf_shape f) in
    let sub := with_semantic_id (tf_sid f) elements in
    let name := to_camel_case (tf_name f) in
    let found := lit "Field " ++ name ++ lit ": found " ++ dec_of_nat (length sub) ++ lit " elements with semanticId " ++ tf_sid f in
    if match max_card with Some m => Nat.ltb m (length sub) | None => false end
    then Val (VInvalid, r ++ [found ++ lit ", but at most " ++ match max_card with Some m => dec_of_nat m | None => lit "inf" end ++ lit " allowed"])
    else if Nat.ltb (length sub) min_card
    then Val (VInvalid, r ++ [found ++ lit ", but at least " ++ dec_of_nat min_card ++ lit " required"])
    else match sub with
         | [] => Val (VNone, r)
         | e :: _ =>
             match max_card with
             | Some 1 => rec e (p ++ [SKey name]) r
             | _ => let* (xs, r) := parse_each rec 0 sub (p ++ [SKey name]) r in Val (VList xs, r)
             end
         end.

  (** parse_submodel.py:125-136, 199-216 [_parse]; 138-186 [_parse_elements] *)
  Fixpoint parse_element (t : ttype) (e : pyval) (p : path) (r : messages) {struct t} : outcome (pyval * messages) :=
    match t with
    | TtStr => parse_text e p r
    | TtDate => parse_date e p r
    | TtLang => parse_lang_string e p r
    | TtEnum n members => parse_template_enum n members e p r
    | TtClass n fields =>
        let* v := getattr e (lit "value") in
        if is_none v then Val (VInvalid, r ++ [at_path (lit "No elements") p]) else
        let* l := as_items v in
        let* elements := by_semantic_id l in
        let* (args, r) :=
          (fix loop (fields : list (tfield ttype)) (seen : list str) (r : messages) : outcome (list (str * pyval) * messages) :=
             match fields with
             | [] => Val ([], r)
             | f :: fs =>
                 if str_in (tf_sid f) seen then Raise GenericException else
                 let* (x, r) := parse_field f (parse_element (tf_type f)) elements p r in
                 let* (xs, r) := loop fs (tf_sid f :: seen) r in
                 Val ((tf_name f, x) :: xs, r)
             end) fields [] r in
        Val (VObj n args, r)
    end.
  Fixpoint parse_fields (fields : list (tfield ttype)) (seen : list str) (elements : list (str * pyval)) (p : path) (r : messages)
    : outcome (list (str * pyval) * messages) :=
    match fields with
    | [] => Val ([], r)
    | f :: fs =>
        if str_in (tf_sid f) seen then Raise GenericException else
        let* (x, r) := parse_field f (parse_element (tf_type f)) elements p r in
        let* (xs, r) := parse_fields fs (tf_sid f :: seen) elements p r in
        Val ((tf_name f, x) :: xs, r)
    end.
  (** parse_submodel.py:219-220 [parse_submodel] for a template class *)
  Definition parse_submodel (t : ttype) (submodel : pyval) : outcome (pyval * messages) :=
    match t with
    | TtClass n fields =>
        let* v := getattr submodel (lit "submodel_elements") in
        let* l := as_items v in
        let* elements := by_semantic_id l in
        let* (args, r) := parse_fields fields [] elements [] [] in
        Val (VObj n args, r)
    | _ => Raise TypeError
    end.
End Messages.

(** * submodel_templates.py *)
Definition fld (n s : string) (sh : shape) (t : ttype) : tfield ttype := TField (lit n) (lit s) sh t.
Definition Ts := TtStr. Definition Tl := TtLang. Definition Td := TtDate.
(** submodel_templates.py:25-30 *)
Definition T_RoleOfContactPerson : ttype := TtEnum (lit "RoleOfContactPerson") (List.map (fun m => (lit (fst m), lit (snd m)))
  [("Administrative", "0173-1#07-AAS927#001"); ("Commercial", "0173-1#07-AAS928#001"); ("Other", "0173-1#07-AAS929#001"); ("HazardousGoods", "0173-1#07-AAS930#001"); ("Technical", "0173-1#07-AAS931#001")])%string.
(** submodel_templates.py:33-39 *)
Definition T_TypeOfTelephone : ttype := TtEnum (lit "TypeOfTelephone") (List.map (fun m => (lit (fst m), lit (snd m)))
  [("Office", "0173-1#07-AAS754#001"); ("OfficeMobile", "0173-1#07-AAS755#001"); ("Secretary", "0173-1#07-AAS756#001"); ("Substitute", "0173-1#07-AAS757#001"); ("Home", "0173-1#07-AAS758#001"); ("PrivateMobile", "0173-1#07-AAS759#001")])%string.
(** submodel_templates.py:43-54 *)
Definition T_Phone : ttype := TtClass (lit "Phone") [
   fld "telephone_number" "0173-1#02-AAO136#002" Plain Tl;
   fld "type_of_telephone" "0173-1#02-AAO137#003" Opt T_TypeOfTelephone;
   fld "available_time" "https://admin-shell.io/zvei/nameplate/1/0/ContactInformations/ContactInformation/AvailableTime/" Opt Tl].
(** submodel_templates.py:57-60 *)
Definition T_TypeOfFaxNumber : ttype := TtEnum (lit "TypeOfFaxNumber") (List.map (fun m => (lit (fst m), lit (snd m)))
  [("Office", "0173-1#07-AAS754#001"); ("Secretary", "0173-1#07-AAS756#001"); ("Home", "0173-1#07-AAS758#001")])%string.
(** submodel_templates.py:64-74 *)
Definition T_Fax : ttype := TtClass (lit "Fax") [
   fld "fax_number" "0173-1#02-AAO195#002" Plain Tl;
   fld "type_of_fax_number" "0173-1#02-AAO196#003" Opt T_TypeOfFaxNumber].
(** submodel_templates.py:77-81 *)
Definition T_TypeOfEmailAddress : ttype := TtEnum (lit "TypeOfEmailAddress") (List.map (fun m => (lit (fst m), lit (snd m)))
  [("Office", "0173-1#07-AAS754#001"); ("Secretary", "0173-1#07-AAS756#001"); ("Substitute", "0173-1#07-AAS757#001"); ("Home", "0173-1#07-AAS758#001")])%string.
(** submodel_templates.py:85-97 *)
Definition T_Email : ttype := TtClass (lit "Email") [
   fld "email_address" "0173-1#02-AAO198#002" Plain Ts;
   fld "public_key" "0173-1#02-AAO200#002" Opt Tl;
   fld "type_of_email_address" "0173-1#02-AAO199#003" Opt T_TypeOfEmailAddress;
   fld "type_of_public_key" "0173-1#02-AAO201#002" Opt Tl].
(** submodel_templates.py:101-116 *)
Definition T_IPCommunication : ttype := TtClass (lit "IPCommunication") [
   fld "address_of_additional_link" "0173-1#02-AAQ326#002" Plain Ts;
   fld "type_of_communication" "https://admin-shell.io/zvei/nameplate/1/0/ContactInformations/ContactInformation/IPCommunication/TypeOfCommunication" Opt Ts;
   fld "available_time" "https://admin-shell.io/zvei/nameplate/1/0/ContactInformations/ContactInformation/AvailableTime/" Opt Ts].
(** submodel_templates.py:120-236 *)
Definition T_ContactInformation : ttype := TtClass (lit "ContactInformation") [
   fld "role_of_contact_person" "0173-1#02-AAO204#003" Opt T_RoleOfContactPerson;
   fld "national_code" "0173-1#02-AAO134#002" Opt Tl;
   fld "language" "https://admin-shell.io/zvei/nameplate/1/0/ContactInformations/ContactInformation/Language" OptList Ts;
   fld "time_zone" "https://admin-shell.io/zvei/nameplate/1/0/ContactInformations/ContactInformation/TimeZone" Opt Ts;
   fld "city_town" "0173-1#02-AAO132#002" Opt Tl;
   fld "company" "0173-1#02-AAW001#001" Opt Tl;
   fld "department" "0173-1#02-AAO127#003" Opt Tl;
   fld "phone" "https://admin-shell.io/zvei/nameplate/1/0/ContactInformations/ContactInformation/Phone" Opt T_Phone;
   fld "fax" "0173-1#02-AAQ834#005" Opt T_Fax;
   fld "email" "0173-1#02-AAQ836#005" Opt T_Email;
   fld "ipc_communication" "https://admin-shell.io/zvei/nameplate/1/0/ContactInformations/ContactInformation/IPCommunication" OptList T_IPCommunication;
   fld "street" "0173-1#02-AAO128#002" Opt Tl;
   fld "zip_code" "0173-1#02-AAO129#002" Opt Tl;
   fld "po_box" "0173-1#02-AAO130#002" Opt Tl;
   fld "zip_code_of_po_box" "0173-1#02-AAO131#002" Opt Tl;
   fld "state_county" "0173-1#02-AAO133#002" Opt Tl;
   fld "name_of_contact" "0173-1#02-AAO205#002" Opt Tl;
   fld "first_name" "0173-1#02-AAO206#002" Opt Tl;
   fld "middle_name" "0173-1#02-AAO207#002" Opt Tl;
   fld "title" "0173-1#02-AAO208#003" Opt Tl;
   fld "academic_title" "0173-1#02-AAO209#003" Opt Tl;
   fld "further_details_of_contact" "0173-1#02-AAO210#002" Opt Tl;
   fld "address_of_additional_link" "0173-1#02-AAQ326#002" Opt Ts].
(** submodel_templates.py:241-246 *)
Definition T_ContactInformations : ttype := TtClass (lit "ContactInformations") [
   fld "contact_information" "https://admin-shell.io/zvei/nameplate/1/0/ContactInformations/ContactInformation" Lst T_ContactInformation].
(** submodel_templates.py:251-330 *)
Definition T_DigitalNameplate : ttype := TtClass (lit "DigitalNameplate") [
   fld "uri_of_the_product" "0173-1#02-AAY811#001" Plain Ts;
   fld "manufacturer_name" "0173-1#02-AAO677#002" Plain Tl;
   fld "manufacturer_product_designation" "0173-1#02-AAW338#001" Plain Tl;
   fld "contact_information" "https://admin-shell.io/zvei/nameplate/1/0/ContactInformations/ContactInformation" Plain T_ContactInformation;
   fld "manufacturer_product_root" "0173-1#02-AAU732#001" Opt Tl;
   fld "manufacturer_product_family" "0173-1#02-AAU731#001" Opt Tl;
   fld "manufacturer_product_type" "0173-1#02-AAO057#002" Opt Tl;
   fld "order_code_of_manufacturer" "0173-1#02-AAO227#002" Opt Tl;
   fld "product_article_number_of_manufacturer" "0173-1#02-AAO676#003" Opt Tl;
   fld "serial_number" "0173-1#02-AAM556#002" Opt Ts;
   fld "year_of_construction" "0173-1#02-AAP906#001" Plain Ts;
   fld "date_of_manufacture" "0173-1#02-AAR972#002" Opt Td;
   fld "hardware_version" "0173-1#02-AAN270#002" Opt Tl;
   fld "firmware_version" "0173-1#02-AAM985#002" Opt Tl;
   fld "software_version" "0173-1#02-AAM737#002" Opt Tl;
   fld "country_of_origin" "0173-1#02-AAO259#004" Opt Ts].
(** submodel_templates.py:12-22, 234, 244: the templates by their semantic ids *)
Definition templates : list (str * ttype) := [
  (lit "https://admin-shell.io/zvei/nameplate/1/0/ContactInformations", T_ContactInformations);
  (lit "https://admin-shell.io/zvei/nameplate/2/0/Nameplate", T_DigitalNameplate)].
Definition template_name (t : ttype) : str := match t with TtClass n _ => n | _ => [] end.

(** submodel_templates.py:323-325 [check_family_or_type_present] *)
Definition check_family_or_type_present : method := fun v =>
  let* a := getattr v (lit "manufacturer_product_family") in
  if negb (is_none a) then fine else
  let* b := getattr v (lit "manufacturer_product_type") in
  if is_none b then violated (lit "Either ManufacturerProductFamily or ManufacturerProductType is required") else fine.
Definition template_methods (c : str) : list (str * method) :=
  if str_eqb c (lit "DigitalNameplate") then [(lit "check_family_or_type_present", check_family_or_type_present)] else [].

Section Check.
  Variable repr : str -> str.
  (** the templates by their semantic ids *)
  Variable known : list (str * ttype).
  (** submodel_templates.py:337-345, the check of one submodel with a known semantic id *)
  Definition check_template (sid : str) (t : ttype) (id : str) (submodel : pyval) : outcome result :=
    let sub := append (new_result (lit "Check submodel '" ++ id ++ lit "'") INFO)
                      (new_result (lit "Template: " ++ template_name t ++ lit " (" ++ sid ++ lit ")") INFO) in
    let* (x, r) := parse_submodel repr t submodel in
    let sub := appends sub (List.map (fun m => new_result m ERROR) r) in
    if ok sub then
      let* fs := check_constraints template_methods x [] in
      Val (appends sub (List.map cfinding_result fs))
    else Val sub.
  (** submodel_templates.py:328-346: the loop.  The result of a submodel with an unknown semantic id is dropped. *)
  Fixpoint check_templates (l : list pyval) (root : result) : outcome result :=
    match l with
    | [] => Val root
    | s :: r =>
        let* sem := getattr s (lit "semantic_id") in
        if negb (truthy sem) then check_templates r root else
        let* ks := getattr sem (lit "keys") in
        if negb (truthy ks) then check_templates r root else
        let* sid := first_key sem in
        let* id := getattr s (lit "id") in
        let* id := raw_value id in
        match lookup sid known with
        | None => check_templates r root
        | Some t => let* sub := check_template sid t id s in check_templates r (append root sub)
        end
    end.
  (** submodel_templates.py:328-329 *)
  Definition parse_submodel_templates (root : result) (env : pyval) : outcome result :=
    let* v := getattr env (lit "submodels") in
    if truthy v then let* l := as_items v in check_templates l root else Val root.

  (** __init__.py:9-22 *)
  Definition with_templates (o : outcome (result * pyval)) : outcome (result * pyval) :=
    let* (rep, x) := o in
    if ok rep then let* rep := parse_submodel_templates rep x in Val (rep, x) else Val (rep, x).
  Definition json_to_obj (show : json -> str) (v : json) (n : str) : outcome (result * pyval) :=
    with_templates (check_json show repr n v).
  Definition xml_to_obj (e : xml) (n : str) : outcome (result * pyval) :=
    with_templates (check_xml repr n e).
End Check.
