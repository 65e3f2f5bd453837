(** Specification of glob patterns and of the filter syntax. *)
From Coq Require Import List NArith ZArith Bool.
From Verif Require Import PyStr.
Import ListNotations.
Open Scope N_scope.

Definition is_range (b : str) : Prop := exists lo hi r, b = lo :: 45 :: hi :: r.

(** the characters listed in a bracket class: ranges [lo-hi] and single characters, read from
    left to right *)
Inductive listed : str -> N -> Prop :=
| l_range lo hi r c : lo <= c -> c <= hi -> listed (lo :: 45 :: hi :: r) c
| l_range_next lo hi r c : listed r c -> listed (lo :: 45 :: hi :: r) c
| l_single x r : ~ is_range (x :: r) -> listed (x :: r) x
| l_single_next x r c : ~ is_range (x :: r) -> listed r c -> listed (x :: r) c.

(** a leading exclamation mark negates *)
Definition class_member (body : str) (c : N) : Prop :=
  match body with
  | x :: b => if x =? 33 then ~ listed b c else listed body c
  | [] => False
  end.

(** what may stand between brackets: a closing bracket only as first character (behind the
    optional exclamation mark) *)
Definition class_body (body : str) : Prop :=
  exists neg x b, body = neg ++ x :: b /\ ~ In 93 b
    /\ ((neg = [33] ) \/ (neg = [] /\ x <> 33)).

Inductive denotes : str -> str -> Prop :=
| d_nil : denotes [] []
| d_star p x s : denotes p s -> denotes (42 :: p) (x ++ s)
| d_any p c s : denotes p s -> denotes (63 :: p) (c :: s)
| d_class body p c s : class_body body -> class_member body c -> denotes p s ->
    denotes (91 :: body ++ 93 :: p) (c :: s)
| d_open p s : (forall body q, class_body body -> p <> body ++ 93 :: q) -> denotes p s ->
    denotes (91 :: p) (91 :: s)
| d_char c p s : c <> 42 -> c <> 63 -> c <> 91 -> denotes p s -> denotes (c :: p) (c :: s).

(** A class in which only empty ranges ([b-a]) precede an exclamation mark: the standard
    library takes that mark for a negation. *)
Inductive leads_bang : str -> Prop :=
| lb_here r : (forall hi r', r = 45 :: hi :: r' -> 33 <= hi) -> leads_bang (33 :: r)
| lb_skip lo hi r : hi < lo -> leads_bang r -> leads_bang (lo :: 45 :: hi :: r).
Definition odd_class (body : str) : Prop :=
  (forall r, body <> 33 :: r) /\ leads_bang body.
Definition regular_pattern (pat : str) : Prop :=
  forall pre body post, pat = pre ++ 91 :: body ++ 93 :: post -> ~ odd_class body.

(** [p] is one of the ':'-separated patterns of [part], and not blank *)
Definition pattern_of (part p : str) : Prop :=
  ~ In 58 p /\ (exists c, In c p /\ is_space c = false)
  /\ exists pre post, part = pre ++ p ++ post
     /\ (pre = [] \/ exists a, pre = a ++ [58]) /\ (post = [] \/ exists b, post = 58 :: b).

(** include and exclude part *)
Definition parts (f inc exc : str) : Prop :=
  (~ In 126 f /\ inc = f /\ exc = [])
  \/ (f = inc ++ 126 :: exc /\ ~ In 126 inc /\ ~ In 126 exc).
