(** What submodel templates demand: cardinalities and types of elements at every nesting level.
    Stated about objects; nothing in here refers to the functions of parse_submodel.py, only to
    the template definitions (shapes and types of fields). *)
From Coq Require Import PeanoNat String List NArith Bool.
From Verif Require Import PyStr PyBase PyVal ConstraintSpec PathSpec TemplateModel.
Import ListNotations.
Local Open Scope list_scope.

(** * Elements *)
(** the first key of the reference *)
Definition id_of_reference (r : pyval) : option str :=
  match items r "keys" with k :: _ => Some (text k "value") | [] => None end.
Definition semantic_id (e : pyval) : option str := id_of_reference (attr e "semantic_id").
Definition Has_id (s : str) (e : pyval) : Prop := semantic_id e = Some s.
Definition has_id (s : str) (e : pyval) : bool := match semantic_id e with Some s' => str_eqb s' s | None => false end.
(** the elements with this semantic id *)
Definition having (s : str) (l : list pyval) : list pyval := filter (has_id s) l.

(** * Templates *)
(** T: exactly one; List[T]: at least one; Optional[T]: at most one; Optional[List[T]]: any number *)
Definition Allowed (s : shape) (n : nat) : Prop :=
  match s with Plain => n = 1 | Lst => 1 <= n | Opt => n <= 1 | OptList => True end.

(** a date of the calendar in the form YYYY-MM-DD *)
Definition Digits (s : str) (n : N) : Prop :=
  (forall c, In c s -> (48 <= c <= 57)%N) /\ n = fold_left (fun a c => 10 * a + (c - 48))%N s 0%N.
Definition LeapYear (y : N) : Prop := exists k, (y = 4 * k)%N /\ ((forall j, y <> 100 * j)%N \/ exists j, (y = 400 * j)%N).
Inductive MonthLength (y : N) : N -> N -> Prop :=
| Ml_31 m : In m [1; 3; 5; 7; 8; 10; 12]%N -> MonthLength y m 31
| Ml_30 m : In m [4; 6; 9; 11]%N -> MonthLength y m 30
| Ml_29 : LeapYear y -> MonthLength y 2 29
| Ml_28 : ~ LeapYear y -> MonthLength y 2 28.
Definition IsoDate (s : str) : Prop :=
  exists ys ms ds y m d n, s = ys ++ lit "-" ++ ms ++ lit "-" ++ ds /\ length ys = 4 /\ length ms = 2 /\ length ds = 2 /\
    Digits ys y /\ Digits ms m /\ Digits ds d /\ (1 <= y)%N /\ MonthLength y m n /\ (1 <= d <= n)%N.

(** Collections and lists have elements. *)
Definition Container (e : pyval) : Prop := Of_class e "SubmodelElementCollection" \/ Of_class e "SubmodelElementList".
(** A property with a value of this type *)
Definition PropertyOf (type : string) (e : pyval) : Prop :=
  Of_class e "Property" /\ Present e "value" /\ Is e "value_type" type.

(** [Conforms t e]: the element [e] has the form that [t] demands. *)
Inductive Conforms : ttype -> pyval -> Prop :=
| Co_str e : PropertyOf "xs:string" e -> Conforms TtStr e
| Co_date e : PropertyOf "xs:date" e -> IsoDate (text e "value") -> Conforms TtDate e
| Co_lang e : Of_class e "MultiLanguageProperty" -> items e "value" <> [] -> Conforms TtLang e
| Co_enum n members e : PropertyOf "xs:string" e -> In (text e "value") (List.map snd members) -> Conforms (TtEnum n members) e
| Co_class n fields e : Container e -> Present e "value" ->
    (forall f, In f fields -> Allowed (tf_shape f) (length (having (tf_sid f) (items e "value")))) ->
    (forall f x, In f fields -> In x (having (tf_sid f) (items e "value")) -> Conforms (tf_type f) x) ->
    Conforms (TtClass n fields) e.
(** the elements [l] of a submodel or a collection are those of a class *)
Definition ConformAll (fields : list (tfield ttype)) (l : list pyval) : Prop :=
  (forall f, In f fields -> Allowed (tf_shape f) (length (having (tf_sid f) l))) /\
  (forall f x, In f fields -> In x (having (tf_sid f) l) -> Conforms (tf_type f) x).

(** * Where the check gives up *)
(** The element [e] is taken for a collection, but it has no attribute value, or a value that is no list of elements. *)
Definition NoCollection (e : pyval) : Prop := ~ Container e /\ forall c kvs, e = VObj c kvs -> lookup (lit "value") kvs <> Some VNone.
Inductive GivesUp : ttype -> pyval -> Prop :=
| Gi_date e : PropertyOf "xs:date" e -> ~ IsoDate (text e "value") -> GivesUp TtDate e
| Gi_class n fields e : NoCollection e -> GivesUp (TtClass n fields) e
| Gi_below n fields e f x : Container e -> In f fields -> Allowed (tf_shape f) (length (having (tf_sid f) (items e "value"))) ->
    In x (having (tf_sid f) (items e "value")) -> GivesUp (tf_type f) x -> GivesUp (TtClass n fields) e.
Definition GivesUpAmong (fields : list (tfield ttype)) (l : list pyval) : Prop :=
  exists f x, In f fields /\ Allowed (tf_shape f) (length (having (tf_sid f) l)) /\ In x (having (tf_sid f) l) /\ GivesUp (tf_type f) x.

(** * Well-formed templates: no semantic id occurs twice in a class *)
Inductive WellFormed : ttype -> Prop :=
| Wf_str : WellFormed TtStr
| Wf_date : WellFormed TtDate
| Wf_lang : WellFormed TtLang
| Wf_enum n ms : WellFormed (TtEnum n ms)
| Wf_class n fields : NoDup (List.map tf_sid fields) -> (forall f, In f fields -> WellFormed (tf_type f)) -> WellFormed (TtClass n fields).
Definition fields_of (t : ttype) : list (tfield ttype) := match t with TtClass _ fs => fs | _ => [] end.

(** * Cardinality violations at every nesting level *)
(** [Reaches fields l f l']: the check of the elements [l] comes to the field [f] of some class, for which it looks in [l']. *)
Inductive Reaches : list (tfield ttype) -> list pyval -> tfield ttype -> list pyval -> Prop :=
| Re_here fields l f : In f fields -> Reaches fields l f l
| Re_below fields l f n gs x g l' : In f fields -> tf_type f = TtClass n gs -> Allowed (tf_shape f) (length (having (tf_sid f) l)) ->
    In x (having (tf_sid f) l) -> Present x "value" -> Reaches gs (items x "value") g l' -> Reaches fields l g l'.
(** What is reported: some message names the semantic id and the number of elements. *)
Definition Reported (messages : list str) (f : tfield ttype) (n : nat) : Prop :=
  exists name, In (lit "Field " ++ name ++ lit ": found " ++ dec_of_nat n ++ lit " elements with semanticId " ++ tf_sid f ++
    (if Nat.eqb n 0 then lit ", but at least 1 required" else lit ", but at most 1 allowed")) messages.

(** * Elements unknown to the template *)
Definition Unknown (fields : list (tfield ttype)) (u : pyval) : Prop := forall f, In f fields -> ~ Has_id (tf_sid f) u.
(** [e'] is [e] with another list of elements *)
Definition with_value (e : pyval) (l : list pyval) : pyval :=
  match e with VObj c kvs => VObj c (assign (lit "value") (VList l) kvs) | _ => e end.
(** [Inserted fields l l']: [l'] arises from [l] by inserting an element unknown to the template at any position and at any nesting level *)
Inductive Inserted : list (tfield ttype) -> list pyval -> list pyval -> Prop :=
| In_here fields a u b : Unknown fields u -> Inserted fields (a ++ b) (a ++ u :: b)
| In_below fields a e b l' f n gs : In f fields -> Has_id (tf_sid f) e -> tf_type f = TtClass n gs -> Container e -> Present e "value" ->
    Inserted gs (items e "value") l' -> Inserted fields (a ++ e :: b) (a ++ with_value e l' :: b).

(** * The additional rule of the nameplate *)
Definition nameplate_family : str := lit "0173-1#02-AAU731#001".
Definition nameplate_type : str := lit "0173-1#02-AAO057#002".
(** [t] is the template for submodels with the semantic id [sid]. *)
Definition TemplateOf (sid : str) (t : ttype) : Prop := In (sid, t) templates.
Definition Nameplate (t : ttype) : Prop := t = T_DigitalNameplate.
Definition FamilyOrType (l : list pyval) : Prop := having nameplate_family l <> [] \/ having nameplate_type l <> [].

(** * Submodels *)
Definition SubmodelConforms (t : ttype) (s : pyval) : Prop :=
  ConformAll (fields_of t) (items s "submodel_elements") /\ (Nameplate t -> FamilyOrType (items s "submodel_elements")).
Definition SubmodelGivesUp (t : ttype) (s : pyval) : Prop :=
  Absent s "submodel_elements" \/ GivesUpAmong (fields_of t) (items s "submodel_elements").
(** A submodel for which there is a template. *)
Definition Templated (s : pyval) (t : ttype) : Prop := exists sid, Has_id sid s /\ TemplateOf sid t.
