(** Specification of package checking. *)
From Coq Require Import List NArith ZArith Bool.
From Coq Require Import String. Open Scope list_scope.
From Verif Require Import PyStr PyBase PyXml ResultModel ResultSpec OpcModel OpcSpec FileModel.
Import ListNotations.

Section Verdict.
  Variable json_to_obj : json -> str -> outcome result.
  Variable xml_to_obj : xml -> str -> outcome result.
  (** [verdict c name r]: report [r] about a file with contents [c] *)
  Inductive verdict (c : content) (name : str) : result -> Prop :=
  | vd_xml d r : endswith (lit ".xml") name = true -> as_xml c = POk d ->
      xml_to_obj d (lit "Environment") = Val r -> verdict c name r
  | vd_xml_bad m : endswith (lit ".xml") name = true -> as_xml c = PBad m ->
      verdict c name (new_result (lit "Invalid xml: " ++ m) ERROR)
  | vd_json d r : endswith (lit ".json") name = true -> as_json c = POk d ->
      json_to_obj d (lit "Environment") = Val r -> verdict c name r
  | vd_json_bad m : endswith (lit ".json") name = true -> as_json c = PBad m ->
      verdict c name (new_result (lit "Invalid JSON: " ++ m) ERROR)
  | vd_other : endswith (lit ".xml") name = false -> endswith (lit ".json") name = false ->
      verdict c name (new_result (lit "Unknown filetype") WARNING).
End Verdict.

(** the files that are aas-spec of an origin, according to the relationships found *)
Definition spec_file (rels : list rel) (t : str) : Prop :=
  exists o s, In o rels /\ rel_type o = lit "http://admin-shell.io/aasx/relationships/aasx-origin"
    /\ In s (rel_subs o) /\ rel_type s = lit "http://admin-shell.io/aasx/relationships/aas-spec"
    /\ rel_target s = t.
Definition is_origin (r : rel) : Prop := rel_type r = lit "http://admin-shell.io/aasx/relationships/aasx-origin".
Definition is_spec (r : rel) : Prop := rel_type r = lit "http://admin-shell.io/aasx/relationships/aas-spec".

(** neither checker raises KeyError *)
Definition no_key_error (j : json -> str -> outcome result) (x : xml -> str -> outcome result) (z : archive) : Prop :=
  (forall d m, j d m <> Raise KeyError) /\ (forall d m, x d m <> Raise KeyError)
  /\ (forall n c, In (n, c) z -> as_xml c <> PCrash KeyError /\ as_json c <> PCrash KeyError).

(** official and deprecated names of the relationship types *)
Inductive origin_type : str -> Prop :=
| ot_new : origin_type (lit "http://admin-shell.io/aasx/relationships/aasx-origin")
| ot_old : origin_type (lit "http://www.admin-shell.io/aasx/relationships/aasx-origin").
Inductive spec_type : str -> Prop :=
| st_new : spec_type (lit "http://admin-shell.io/aasx/relationships/aas-spec")
| st_old : spec_type (lit "http://www.admin-shell.io/aasx/relationships/aas-spec").
