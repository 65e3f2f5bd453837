(** aas_test_engines/opc.py *)
From Coq Require Import List NArith ZArith Bool.
From Coq Require Import String. Open Scope list_scope.
From Verif Require Import PyStr PyBase PyXml ResultModel.
Import ListNotations.

(** opc.py:6-7 *)
Definition NS_CONTENT_TYPES := lit "{http://schemas.openxmlformats.org/package/2006/content-types}".
Definition NS_RELATIONSHIPS := lit "{http://schemas.openxmlformats.org/package/2006/relationships}".

(** opc.py:21-28: the loop over the segments; [result] is kept in reverse *)
Fixpoint norm_loop (tokens : list str) (result : list str) : list str :=
  match tokens with
  | [] => rev result
  | t :: r =>
      if str_eqb (strip t) [] || str_eqb t (lit ".") then norm_loop r result
      else if str_eqb t (lit "..") then norm_loop r (tl result)
      else norm_loop r (t :: result)
  end.

(** opc.py:10-32 *)
Definition normpath (p : str) : str :=
  let path := strip p in
  match path with
  | [] => []
  | _ =>
      let result := norm_loop (split_on 47 path) [] in
      if startswith (lit "/") path then lit "/" ++ join (lit "/") result else join (lit "/") result
  end.

(** opc.py:35-42 *)
Definition splitpath (p : str) : str * str := rpartition 47 p.

(** A zip archive: the members in order, each with the outcome of reading it as XML and as
    JSON.  Reading errors of a member (bad checksum, encryption) are part of the outcome; KeyError is
    not among them.  The recursion limit of the interpreter is not modelled. *)
Record content := Content { as_xml : parsed xml; as_json : parsed json }.
Definition archive := list (str * content).
(** [zipfile.open(name)]: KeyError ([None]) if there is no such member; the last of several
    members of the same name wins *)
Definition zopen (z : archive) (name : str) : option content := lookup name (rev z).
Definition namelist (z : archive) : list str := map fst z.

(** opc.py:45-50 *)
Inductive rel := Rel (type target : str) (subs : list rel).
Definition rel_type (r : rel) := match r with Rel t _ _ => t end.
Definition rel_target (r : rel) := match r with Rel _ t _ => t end.
Definition rel_subs (r : rel) := match r with Rel _ _ s => s end.
(** opc.py:52-53, on the list of sub relationships *)
Definition by_type (l : list rel) (t : str) : list rel := filter (fun r => str_eqb (rel_type r) t) l.

(** opc.py:62-79 *)
Definition content_types_xml := lit "[Content_Types].xml".
Definition check_content_type (z : archive) : outcome result :=
  let result := new_result (lit "Checking " ++ content_types_xml) INFO in
  match zopen z content_types_xml with
  | None => Val (append result (new_result (content_types_xml ++ lit " not found") ERROR))
  | Some c =>
      match as_xml c with
      | PBad _ => Raise XmlParseError
      | PCrash e => Raise e
      | POk root =>
          let expected := NS_CONTENT_TYPES ++ lit "Types" in
          if str_eqb (x_tag root) expected then Val result
          else Val (append result (new_result (lit "root must have tag " ++ expected ++ lit ", got " ++ x_tag root) ERROR))
      end
  end.

(** What [_scan_relationships] returns and changes: its report (None if there is no
    relationship file), the sub relationships added to [parent_rel], the visited targets;
    and, as instrumentation, the targets whose relationship file was looked up. *)
Record sres := SRes {
  sr_result : option result; sr_rels : list rel; sr_visited : list str; sr_scanned : list str }.

(** [rels_name dir file]: the archive member read at opc.py:91 *)
Definition rels_name (dir file : str) : str := dir ++ lit "_rels/" ++ file ++ lit ".rels".

(** opc.py:118-126: type and warning for a deprecated type *)
Definition map_type (dep : list (str * str)) (type : str) : str * list result :=
  match lookup type dep with
  | Some new => (new, [new_result (lit "Deprecated type " ++ type ++ lit ", considering as " ++ new) WARNING])
  | None => (type, [])
  end.
(** opc.py:128-132 *)
Definition resolve_target (dir target : str) : str :=
  normpath (if startswith (lit "/") target then tl target else dir ++ target).

(** opc.py:107-147: loop over the relationship elements.  State: report so far, sub
    relationships so far, visited targets, instrumentation. *)
Section Loop.
  Variable rec : str -> str -> list str -> outcome sres.
  Variable dep : list (str * str).
  Variable z : archive.
  Variable dir : str.
  Fixpoint rel_loop (els : list xml) (res : result) (rels : list rel) (visited scanned : list str) : outcome sres :=
    match els with
    | [] => Val (SRes (Some res) rels visited scanned)
    | e :: els' =>
        if negb (str_eqb (x_tag e) (NS_RELATIONSHIPS ++ lit "Relationship")) then
          rel_loop els' (append res (new_result (lit "Invalid tag " ++ x_tag e) ERROR)) rels visited scanned
        else
          match lookup (lit "Type") (x_attrs e), lookup (lit "Target") (x_attrs e) with
          | None, _ => rel_loop els' (append res (new_result (lit "Attribute 'Type' is missing") ERROR)) rels visited scanned
          | Some _, None => rel_loop els' (append res (new_result (lit "Attribute 'Target' is missing") ERROR)) rels visited scanned
          | Some type0, Some target0 =>
              let '(type, warn) := map_type dep type0 in
              let res1 := appends res warn in
              let target := resolve_target dir target0 in
              let '(sub_dir, file) := splitpath target in
              let res2 := append res1 (new_result (lit "Relationship " ++ target ++ lit " is of type " ++ type) INFO) in
              if str_in target visited then
                rel_loop els' (append res2 (new_result (lit "Already checked " ++ target) INFO))
                         (rels ++ [Rel type target []]) visited scanned
              else
                let visited1 := target :: visited in
                if negb (str_in target (namelist z)) then
                  rel_loop els' (append res2 (new_result (lit "Relationship has non-existing target " ++ target) ERROR))
                           (rels ++ [Rel type target []]) visited1 scanned
                else
                  match rec (sub_dir ++ lit "/") file visited1 with
                  | Raise e => Raise e
                  | Val s =>
                      rel_loop els' (match sr_result s with Some r => append res2 r | None => res2 end)
                               (rels ++ [Rel type target (sr_rels s)]) (sr_visited s)
                               (scanned ++ target :: sr_scanned s)
                  end
          end
    end.
End Loop.

(** opc.py:82-149 *)
Fixpoint scan (fuel : nat) (dep : list (str * str)) (z : archive) (dir file : str) (visited : list str) : outcome sres :=
  match fuel with
  | O => Raise OutOfFuel
  | S k =>
      match zopen z (rels_name dir file) with
      | None => Val (SRes None [] visited [])
      | Some c =>
          match as_xml c with
          | PBad _ => Raise XmlParseError
          | PCrash e => Raise e
          | POk root =>
              let expected := NS_RELATIONSHIPS ++ lit "Relationships" in
              if negb (str_eqb (x_tag root) expected) then
                Val (SRes (Some (new_result (lit "Invalid root tag " ++ x_tag root ++ lit ", expected " ++ expected) ERROR)) [] visited [])
              else
                let res := match dir with
                           | [] => new_result (lit "Checking root relationship") INFO
                           | _ => new_result (lit "Checking relationships of " ++ dir ++ file) INFO
                           end in
                rel_loop (scan k dep z) dep z dir (x_children root) res [] visited []
          end
      end
  end.

(** enough fuel: one level per member of the archive *)
Definition enough (z : archive) : nat := S (S (List.length z)).

(** opc.py:152-162; also returns the sub relationships of the root and the instrumentation *)
Definition check_relationships (dep : list (str * str)) (z : archive) : outcome (result * sres) :=
  let result := new_result (lit "Checking relationships") INFO in
  let* s := scan (enough z) dep z [] [] [] in
  match sr_result s with
  | Some r => Val (append result r, s)
  | None => Val (append result (new_result (lit "Root relationship does not exist") ERROR), s)
  end.

(** opc.py:165-176 *)
Definition read_opc (dep : list (str * str)) (z : archive) (root_result : result) : outcome (result * list rel) :=
  let* c := check_content_type z in
  let r1 := append root_result c in
  if negb (ok r1) then Val (r1, [])
  else
    let* rs := check_relationships dep z in
    Val (append r1 (fst rs), sr_rels (snd rs)).
