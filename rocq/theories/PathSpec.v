(** How submodel elements are addressed: "Specification of the Asset Administration Shell, Part 2",
    idShortPath.  Stated about objects; nothing in here refers to the methods of model.py. *)
From Coq Require Import PeanoNat String List NArith Bool.
From Verif Require Import PyStr PyBase PyVal ConstraintSpec.
Import ListNotations.
Local Open Scope list_scope.

(** the idShort of an element as a part of a path *)
Definition id_token (e : pyval) : token := match attr e "id_short" with VSfv _ s => TName s | _ => TNone end.
Definition Of_class (x : pyval) (n : string) : Prop := class_of_obj x = lit n.

(** [Contains x t e]: the collection or list [x] contains [e], which is addressed by [t]. *)
Inductive Contains (x : pyval) : token -> pyval -> Prop :=
| Con_collection e : Of_class x "SubmodelElementCollection" -> In e (items x "value") -> Contains x (id_token e) e
| Con_list i e : Of_class x "SubmodelElementList" -> nth_error (items x "value") i = Some e -> Contains x (TIndex i) e.
(** the other elements that have elements *)
Inductive Holds (x : pyval) : token -> pyval -> Prop :=
| Ho_contains t e : Contains x t e -> Holds x t e
| Ho_statement e : Of_class x "Entity" -> In e (items x "statements") -> Holds x (id_token e) e
| Ho_annotation e : Of_class x "AnnotatedRelationshipElement" -> In e (items x "annotations") -> Holds x (id_token e) e
| Ho_variable n v : Of_class x "Operation" -> In n ["input_variables"; "output_variables"; "inoutput_variables"]%string ->
    In v (items x n) -> Holds x (id_token (attr v "value")) (attr v "value").

Section Address.
  Variable step : pyval -> token -> pyval -> Prop.
  (** [Below x ts e]: from the element [x] the element [e] is reached by the tokens [ts]. *)
  Inductive Below (x : pyval) : list token -> pyval -> Prop :=
  | Be_here : Below x [] x
  | Be_step t y ts e : step x t y -> Below y ts e -> Below x (t :: ts) e.
  (** [Addressed s ts e]: [e] is the element of the submodel [s] with the path [ts]. *)
  Inductive Addressed (s : pyval) : list token -> pyval -> Prop :=
  | Ad_below y ts e : In y (items s "submodel_elements") -> Below y ts e -> Addressed s (id_token y :: ts) e.
End Address.

(** The element [e] knows its path, including the names of the submodel. *)
Definition Knows (s : pyval) (ts : list token) (e : pyval) : Prop :=
  attr e "id_short_path" = VPath (IdPath (match attr s "id_short" with VSfv _ n => Some n | _ => None end) (text s "id") ts).
