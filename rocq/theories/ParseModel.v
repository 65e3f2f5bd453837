(** aas_test_engines/test_cases/v3_0/parse.py: building objects from documents. *)
From Coq Require Import String List NArith Bool PeanoNat.
From Verif Require Import PyStr PyBase PyXml PyVal Regex ReflectModel AdapterModel ResultModel.
Import ListNotations.
Local Open Scope list_scope.

(** parse.py:31-33 for ASCII names; [x.capitalize()] of a lower case ASCII string.  The
    IndexError of an empty name is modelled by the empty string (no field has an empty name). *)
Definition capitalize (s : str) : str :=
  match s with [] => [] | c :: r => upper_ascii c :: List.map lower_ascii r end.
Definition to_lower_camel_case (s : str) : str :=
  let camel := List.concat (List.map capitalize (split_on 95 (List.map lower_ascii s))) in
  match s with
  | [] => []
  | c :: _ => lower_ascii c :: List.tl camel
  end.

(** [StringFormattedValue.__init__]: accepted, refused by a ValueError, or another exception *)
Inductive built := Built | Refused (msg : str) | Crashed (e : exn).

(** reflect.py:73-79: the characters of XML 1.0 *)
Definition c_xml : list (N * N) :=
  [(9, 9); (10, 10); (13, 13); (32, 55295); (57344, 65533); (65536, 1114111)]%N.

(** reflect.py:61-84, followed by the test of an overriding [__init__] in model.py.  The text of
    the ValueError of CPython's limit for the conversion of integers is shortened. *)
Definition sfv_construct (f : sfv) (s : str) : built :=
  let len := N.of_nat (length s) in
  if match s_min f with Some m => N.ltb len m | None => false end
  then Refused (lit "String is shorter than " ++ match s_min f with Some m => dec_of_N m | None => [] end ++ lit " characters")
  else if match s_max f with Some m => N.ltb m len | None => false end
  then Refused (lit "String is longer than " ++ match s_max f with Some m => dec_of_N m | None => [] end ++ lit " characters")
  else if negb (matches (RStar (RCls c_xml)) s)
  then Refused (lit "Constraint AASd-130 violated: String is not XML serializable")
  else if match s_pattern f with Some (_, r) => negb (matches r s) | None => false end
  then Refused (lit "String '" ++ s ++ lit "' does not match pattern "
                ++ match s_pattern f with Some (t, _) => t | None => [] end)
  else match s_check f with
       | None => Built
       | Some (check, msg) =>
           match check s with
           | Val true => Built
           | Val false => Refused msg
           | Raise ValueError => Refused (lit "Exceeds the limit (4300 digits) for integer string conversion")
           | Raise e => Crashed e
           end
       end.

(** An entry of the report: the text before " @ " and the position behind it.  All entries of
    the meta model check have level ERROR. *)
Record finding := Finding { f_text : str; f_path : path }.
Definition finding_result (f : finding) : result :=
  new_result (f_text f ++ lit " @ " ++ path_text (f_path f)) ERROR.

Section Parse.
  Variable V : Type.
  Variable A : adapter V.
  Variable P : list classdecl.      (* the program *)
  Variable T : table.               (* its symbol table *)
  (** [repr(s)]; it only occurs in messages *)
  Variable repr : str -> str.
  (** the methods [post_parse] of the classes, by name *)
  Variable post_parse : str -> option (pyval -> outcome pyval).

  (** The report is passed through; [result.ok()] means that it is empty. *)
  Definition parser := path -> V -> list finding -> outcome (pyval * list finding).
  Definition refuse (text : str) (p : path) (r : list finding) : outcome (pyval * list finding) :=
    Val (VInvalid, r ++ [Finding text p]).

  (** parse.py:45-52 *)
  Definition parse_sfv (c : nat) : parser := fun p v r =>
    match ad_string A v with
    | ACrash e => Raise e
    | ABad m => refuse m p r
    | AOk s =>
        match kind_of P c with
        | KSfv f => match sfv_construct f s with
                    | Built => Val (VSfv (name_of P c) s, r)
                    | Refused m => refuse m p r
                    | Crashed e => Raise e
                    end
        | _ => Raise TypeError
        end
    end.
  (** parse.py:64-69 *)
  Definition parse_bool : parser := fun p v r =>
    match ad_bool A v with
    | ACrash e => Raise e
    | ABad m => refuse m p r
    | AOk b => Val (VBool b, r)
    end.
  (** parse.py:72-77 *)
  Definition parse_string : parser := fun p v r =>
    match ad_string A v with
    | ACrash e => Raise e
    | ABad m => refuse m p r
    | AOk s => Val (VStr s, r)
    end.
  (** parse.py:80-90; [cls(value)] finds the member with this value *)
  Definition parse_enum (c : nat) : parser := fun p v r =>
    match ad_string A v with
    | ACrash e => Raise e
    | ABad m => refuse m p r
    | AOk s =>
        match kind_of P c with
        | KEnum members =>
            match find (fun m => str_eqb (snd m) s) members with
            | Some m => Val (VEnum (name_of P c) (fst m) (snd m), r)
            | None => refuse (repr s ++ lit " is not a valid " ++ name_of P c) p r
            end
        | _ => Raise TypeError
        end
    end.

  Section Rec.
    Variable rec : nat -> parser.

    (** parse.py:61 *)
    Fixpoint parse_items (ty : nat) (p : path) (i : nat) (l : list V) (r : list finding)
      : outcome (list pyval * list finding) :=
      match l with
      | [] => Val ([], r)
      | v :: l' =>
          let* (x, r) := rec ty (p ++ [SIdx i]) v r in
          let* (xs, r) := parse_items ty p (S i) l' r in
          Val (x :: xs, r)
      end.
    (** parse.py:55-61 *)
    Definition parse_list (item : nat) (allow_empty : bool) : parser := fun p v r =>
      match ad_list A allow_empty v with
      | ACrash e => Raise e
      | ABad m => refuse m p r
      | AOk l => let* (xs, r) := parse_items item p 0 l r in Val (VList xs, r)
      end.

    Definition json_name (a : attribute nat) : str :=
      match a_force a with
      | Some (c :: n) => c :: n
      | _ => to_lower_camel_case (a_name a)
      end.
    (** parse.py:130-147 *)
    Fixpoint parse_attrs (attrs : list (attribute nat)) (obj : list (str * V)) (p : path) (r : list finding)
      : outcome (list (str * pyval) * list finding) :=
      match attrs with
      | [] => Val ([], r)
      | a :: rest =>
          let n := json_name a in
          let* (x, r) := match lookup n obj with
                         | Some v => rec (a_type a) (p ++ [SKey n]) v r
                         | None => if a_required a
                                   then refuse (lit "Missing attribute " ++ n) p r
                                   else Val (VNone, r)
                         end in
          let* (xs, r) := parse_attrs rest obj p r in
          Val ((a_name a, x) :: xs, r)
      end.
    (** parse.py:149-157 *)
    Definition unknown_attrs (attrs : list (attribute nat)) (obj : list (str * V)) (p : path) : list finding :=
      List.map (fun kv => Finding (lit "Unknown additional attribute " ++ fst kv) p)
        (filter (fun kv => negb (str_in (fst kv) (List.map json_name attrs))) obj).
    (** parse.py:118-125 *)
    Definition check_model_type (c : nat) (p : path) (v : V) (r : list finding) : outcome (list finding) :=
      if has_requires_model_type P c then
        match ad_model_type A v with
        | ACrash e => Raise e
        | ABad _ => Val (r ++ [Finding (lit "Model typ missing") p])
        | AOk m => if match mt_name m with Some n => str_eqb n (name_of P c) | None => false end
                   then Val r
                   else Val (r ++ [Finding (lit "Wrong model type") p])
        end
      else Val r.
    (** parse.py:112-157; [{**args, **static_attrs}] *)
    Definition parse_concrete (c : nat) (attrs : list (attribute nat)) (static : list (str * pyval)) : parser :=
      fun p v r =>
      match ad_object A v with
      | ACrash e => Raise e
      | ABad m => refuse m p r
      | AOk obj =>
          let* r := check_model_type c p v r in
          let* (args, r) := parse_attrs attrs obj p r in
          let r := r ++ unknown_attrs attrs obj p in
          Val (VObj (name_of P c) (args ++ static), r)
      end.
    (** parse.py:102-104 *)
    Fixpoint find_subclass (n : option str) (subs : list nat)
      : option (nat * list (attribute nat) * list (str * pyval)) :=
      match subs with
      | [] => None
      | i :: rest =>
          match nth_error T i with
          | Some (_, RClass c attrs static _) =>
              if match n with Some n => str_eqb (name_of P c) n | None => false end
              then Some (c, attrs, static)
              else find_subclass n rest
          | _ => find_subclass n rest
          end
      end.
    (** parse.py:93-109 *)
    Definition parse_abstract (subs : list nat) : parser := fun p v r =>
      match ad_model_type A v with
      | ACrash e => Raise e
      | ABad m => refuse m p r
      | AOk m =>
          match find_subclass (mt_name m) subs with
          | Some (c, attrs, static) => parse_concrete c attrs static p v r
          | None => refuse (lit "Invalid model type " ++ mt_text m) p r
          end
      end.
  End Rec.

  (** parse.py:160-187.  [fuel] bounds the nesting; an index that is not in the table cannot
      occur, see C41. *)
  Fixpoint parse (fuel : nat) (ty : nat) (p : path) (v : V) (r : list finding) : outcome (pyval * list finding) :=
    match fuel with
    | O => Raise OutOfFuel
    | S f =>
        match nth_error T ty with
        | None => Raise KeyError
        | Some (_, t) =>
            match t with
            | RList item e => parse_list (parse f) item e p v r
            | RClass c attrs static subs =>
                if is_abstract P c then parse_abstract (parse f) subs p v r
                else
                  let* (obj, r) := parse_concrete (parse f) c attrs static p v r in
                  match obj with
                  | VObj n _ =>
                      match post_parse n, r with
                      | Some g, [] => let* obj := g obj in Val (obj, r)
                      | _, _ => Val (obj, r)
                      end
                  | _ => Val (obj, r)
                  end
            | RBool => parse_bool p v r
            | RString => parse_string p v r
            | RAny => Val (VAny, r)
            | REnum c => parse_enum c p v r
            | RSfv c => parse_sfv c p v r
            | RNone | RNumber | RBytes => Raise NotImplementedError
            end
        end
    end.
End Parse.

(** Nesting of documents: fuel for [parse] *)
Fixpoint json_depth (v : json) : nat :=
  match v with
  | JArr l => S (list_max (List.map json_depth l))
  | JObj kvs => S (list_max (List.map (fun kv => json_depth (snd kv)) kvs))
  | _ => 1
  end.
Fixpoint xml_depth (e : xml) : nat :=
  match e with El _ _ _ c => S (list_max (List.map xml_depth c)) end.

(** parse.py:208-219.  [check_constraints] of the parsed object, given as the list of the
    appended results, is a parameter. *)
Section Check.
  Variable check_constraints : pyval -> outcome (list result).
  Definition check_meta_model (r : list finding) : result :=
    appends (new_result (lit "Check meta model") INFO) (List.map finding_result r).
  Definition parse_and_check (parsed : outcome (pyval * list finding)) : outcome (result * pyval) :=
    let root := new_result (lit "Check") INFO in
    let* (env, r) := parsed in
    let root := append root (check_meta_model r) in
    if ok root then
      let* cs := check_constraints env in
      Val (append root (appends (new_result (lit "Check constraints") INFO) cs), env)
    else Val (append root (new_result (lit "Skipped checking of constraints") WARNING), env).
End Check.
