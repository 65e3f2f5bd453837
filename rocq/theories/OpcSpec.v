(** Specification of package paths and of the relationship graph of a package. *)
From Coq Require Import List NArith ZArith Bool.
From Coq Require Import String. Open Scope list_scope.
From Verif Require Import PyStr PyBase PyXml ResultModel ResultSpec OpcModel.
Import ListNotations.
Local Open Scope N_scope.

Definition blank (s : str) : Prop := Forall (fun c => is_space c = true) s.

(** [segments s l]: [l] are the pieces of [s] between slashes *)
Inductive segments : str -> list str -> Prop :=
| seg_one s : ~ In 47 s -> segments s [s]
| seg_more a s l : ~ In 47 a -> segments s l -> segments (a ++ 47 :: s) (a :: l).

(** resolving segments from left to right, [done] being the directory reached so far *)
Inductive resolves : list str -> list str -> list str -> Prop :=
| rs_end done : resolves done [] done
| rs_skip done t r out : blank t \/ t = [46] -> resolves done r out -> resolves done (t :: r) out
| rs_up done d r out : resolves done r out -> resolves (done ++ [d]) ([46; 46] :: r) out
| rs_up_root r out : resolves [] r out -> resolves [] ([46; 46] :: r) out
| rs_down done t r out : ~ blank t -> t <> [46] -> t <> [46; 46] ->
    resolves (done ++ [t]) r out -> resolves done (t :: r) out.

(** [trimmed p q]: [q] is [p] without surrounding blanks *)
Definition trimmed (p q : str) : Prop :=
  exists a b, p = a ++ q ++ b /\ blank a /\ blank b
    /\ (forall c t, q = c :: t -> is_space c = false) /\ (forall c t, q = t ++ [c] -> is_space c = false).

(** [e] is a well-formed relationship element (type, target) of the relationship file [name] *)
Definition relation_in (z : archive) (name : str) (type target : str) : Prop :=
  exists c root e, zopen z name = Some c /\ as_xml c = POk root
    /\ x_tag root = NS_RELATIONSHIPS ++ lit "Relationships"
    /\ In e (x_children root) /\ x_tag e = NS_RELATIONSHIPS ++ lit "Relationship"
    /\ lookup (lit "Type") (x_attrs e) = Some type /\ lookup (lit "Target") (x_attrs e) = Some target.

(** [e] is a relationship element with these attributes *)
Definition elem_rel (e : xml) (type target : str) : Prop :=
  x_tag e = NS_RELATIONSHIPS ++ lit "Relationship"
  /\ lookup (lit "Type") (x_attrs e) = Some type /\ lookup (lit "Target") (x_attrs e) = Some target.

(** directory (with trailing slash, empty at top level) and base name of a part *)
Definition part_name (p dir base : str) : Prop :=
  p = dir ++ base /\ ~ In 47 base /\ (dir = [] \/ exists d, dir = d ++ [47]).

(** the part that a target denotes, seen from directory [dir] *)
Definition denoted (dir target t : str) : Prop :=
  (exists a, target = 47 :: a /\ t = normpath a) \/ ((forall a, target <> 47 :: a) /\ t = normpath (dir ++ target)).

(** part [t] is referred to by the root, or by part [q] *)
Definition from_root (z : archive) (t : str) : Prop :=
  exists ty tg, relation_in z (lit "_rels/.rels") ty tg /\ denoted [] tg t.
Definition refers (z : archive) (q t : str) : Prop :=
  exists dir base ty tg, part_name q dir base /\ relation_in z (dir ++ lit "_rels/" ++ base ++ lit ".rels") ty tg
    /\ denoted dir tg t.
Definition exists_in (z : archive) (p : str) : Prop := exists c, In (p, c) z.

(** parts reachable from the root *)
Inductive reachable (z : archive) : str -> Prop :=
| rc_root t : from_root z t -> reachable z t
| rc_step q t : reachable z q -> exists_in z q -> refers z q t -> reachable z t.
(** ... through parts that are not at the top level *)
Inductive nested_reachable (z : archive) : str -> Prop :=
| nr_root t : from_root z t -> nested_reachable z t
| nr_step q t : nested_reachable z q -> exists_in z q -> In 47 q -> refers z q t -> nested_reachable z t.

(** relationships found, at any depth *)
Inductive found : rel -> list rel -> Prop :=
| f_here r l : In r l -> found r l
| f_deep r x l : In x l -> found r (rel_subs x) -> found r l.

(** replacing deprecated types by the official ones in all relationship files *)
Section Upgrade.
  Variable dep : list (str * str).
  Definition official (t : str) : str := match lookup t dep with Some n => n | None => t end.
  Definition upgrade_attr (kv : str * str) : str * str :=
    if str_eqb (fst kv) (lit "Type") then (fst kv, official (snd kv)) else kv.
  Definition upgrade_el (e : xml) : xml :=
    match e with El t a x c => El t (map upgrade_attr a) x c end.
  Definition upgrade_root (e : xml) : xml :=
    match e with El t a x c => El t a x (map upgrade_el c) end.
  Definition upgrade_content (c : content) : content :=
    Content (match as_xml c with POk e => POk (upgrade_root e) | x => x end) (as_json c).
  Definition upgrade (z : archive) : archive :=
    map (fun kv => (fst kv, if endswith (lit ".rels") (fst kv) then upgrade_content (snd kv) else snd kv)) z.

  Definition dep_warning (t n : str) : result :=
    new_result (lit "Deprecated type " ++ t ++ lit ", considering as " ++ n) WARNING.
  (** equal up to warnings about deprecated types *)
  Inductive same : result -> result -> Prop :=
  | same_res m l l' s s' : level_ok l = level_ok l' -> same_list s s' -> same (Res m l s) (Res m l' s')
  with same_list : list result -> list result -> Prop :=
  | sl_nil : same_list [] []
  | sl_cons a b s s' : same a b -> same_list s s' -> same_list (a :: s) (b :: s')
  | sl_dep t n s s' : lookup t dep = Some n -> same_list s s' -> same_list (dep_warning t n :: s) s'.
End Upgrade.
