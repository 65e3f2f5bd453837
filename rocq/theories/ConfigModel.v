(** aas_test_engines/config.py: test case filter, and [fnmatch.translate] of the python
    standard library (CPython 3.11, fnmatch.py:71-186) which it uses. *)
From Coq Require Import List NArith ZArith Bool.
From Coq Require Import String. Open Scope list_scope.
From Verif Require Import PyStr PyBase.
Import ListNotations.

(** The items of the list [res] built by [translate]: STAR, ".", an escaped character,
    "(?!)" and a bracket expression with negation flag and ranges. *)
Inductive piece :=
| PStar
| PAny
| PChr (c : N)
| PNever
| PSet (neg : bool) (items : list (N * N)).

(** fnmatch.py:94-101: the scan for the closing bracket.  Returns [stuff] and the rest
    behind the closing bracket. *)
Definition scan_bracket (s : str) : option (str * str) :=
  let '(p1, s1) := match s with c :: r => if N.eqb c 33 then ([c], r) else ([], s) | [] => ([], s) end in
  let '(p2, s2) := match s1 with c :: r => if N.eqb c 93 then ([c], r) else ([], s1) | [] => ([], s1) end in
  match split_first 93 s2 with
  | Some (b, r) => Some (p1 ++ p2 ++ b, r)
  | None => None
  end.

Definition cons_head (c : N) (l : list str) : list str :=
  match l with [] => [[c]] | h :: t => (c :: h) :: t end.

(** fnmatch.py:108-116: split into chunks at range hyphens; [skip] is the number of
    characters in which a hyphen is not yet searched. *)
Fixpoint chunks_aux (skip : nat) (s : str) : list str :=
  match s with
  | [] => [[]]
  | c :: s' =>
      if N.eqb c 45 && Nat.eqb skip 0 then [] :: chunks_aux 2 s'
      else cons_head c (chunks_aux (pred skip) s')
  end.

(** fnmatch.py:117-121: an empty last chunk means that the last hyphen is literal *)
Fixpoint fix_last (l : list str) : list str :=
  match l with
  | [a; []] => [a ++ [45%N]]
  | a :: r => a :: fix_last r
  | [] => []
  end.

(** fnmatch.py:107-121 *)
Definition chunks (s : str) : list str :=
  fix_last (chunks_aux (match s with c :: _ => if N.eqb c 33 then 2 else 1 | [] => 1 end) s).

(** fnmatch.py:122-126, from right to left.  ([chunks[k-1][-1]] and [chunks[k][0]] always exist.) *)
Fixpoint merge (l : list str) : list str :=
  match l with
  | [] => []
  | a :: r =>
      match merge r with
      | [] => [a]
      | d :: r' =>
          if N.ltb (hd 0%N d) (last a 0%N) then (removelast a ++ tl d) :: r' else a :: d :: r'
      end
  end.

(** fnmatch.py:127-130: the text of the bracket expression.  [TLit c] is a character that
    stands for itself (escaped where needed), [TOp] the unescaped hyphen between chunks. *)
Inductive tok := TLit (c : N) | TOp.
Fixpoint join_chunks (l : list str) : list tok :=
  match l with
  | [] => []
  | [a] => map TLit a
  | a :: r => map TLit a ++ TOp :: join_chunks r
  end.

Definition tok_chr (t : tok) : N := match t with TLit c => c | TOp => 45%N end.

(** How [re] reads the inside of a bracket expression. *)
Fixpoint re_set (l : list tok) : list (N * N) :=
  match l with
  | [] => []
  | t :: r =>
      match r with
      | TOp :: t2 :: r2 => (tok_chr t, tok_chr t2) :: re_set r2
      | _ => (tok_chr t, tok_chr t) :: re_set r
      end
  end.

(** fnmatch.py:104-146.  Without a hyphen in [stuff] the chunk computation is the identity,
    so both branches of the code are one here. *)
Definition bracket (stuff : str) : piece :=
  match join_chunks (merge (chunks stuff)) with
  | [] => PNever
  | TLit c :: r =>
      if N.eqb c 33 then match r with [] => PAny | _ => PSet true (re_set r) end
      else PSet false (re_set (TLit c :: r))
  | TOp :: r => PSet false (re_set (TOp :: r))
  end.

(** fnmatch.py:83-148.  [skip]: characters already consumed by a bracket expression;
    [star]: the last item of [res] is STAR. *)
Fixpoint translate_aux (skip : nat) (star : bool) (s : str) : list piece :=
  match s with
  | [] => []
  | c :: s' =>
      match skip with
      | S k => translate_aux k star s'
      | O =>
          if N.eqb c 42 then
            (if star then translate_aux 0 true s' else PStar :: translate_aux 0 true s')
          else if N.eqb c 63 then PAny :: translate_aux 0 false s'
          else if N.eqb c 91 then
            match scan_bracket s' with
            | None => PChr 91 :: translate_aux 0 false s'
            | Some (stuff, _) => bracket stuff :: translate_aux (S (List.length stuff)) false s'
            end
          else PChr c :: translate_aux 0 false s'
      end
  end.
Definition translate (s : str) : list piece := translate_aux 0 false s.

Definition in_range (c : N) (r : N * N) : bool := N.leb (fst r) c && N.leb c (snd r).
(** one character against one item *)
Definition piece_char (p : piece) (c : N) : bool :=
  match p with
  | PStar => false
  | PAny => true
  | PChr d => N.eqb c d
  | PNever => false
  | PSet neg items => xorb neg (existsb (in_range c) items)
  end.

(** a sequence of items without STAR at the start of [s]; the rest of [s] *)
Fixpoint match_fixed (ps : list piece) (s : str) : option str :=
  match ps, s with
  | [], _ => Some s
  | p :: ps', c :: s' => if piece_char p c then match_fixed ps' s' else None
  | _ :: _, [] => None
  end.

(** fnmatch.py:150-186: pieces before the first STAR, and the pieces behind each STAR *)
Fixpoint groups (ps : list piece) : list piece * list (list piece) :=
  match ps with
  | [] => ([], [])
  | PStar :: r => let '(f, gs) := groups r in ([], f :: gs)
  | p :: r => let '(f, gs) := groups r in (p :: f, gs)
  end.

(** [(?>.*?fixed)]: leftmost occurrence, never reconsidered *)
Fixpoint find_first (g : list piece) (s : str) : option str :=
  match match_fixed g s with
  | Some r => Some r
  | None => match s with [] => None | _ :: s' => find_first g s' end
  end.
(** [.*fixed\Z] *)
Fixpoint match_end (g : list piece) (s : str) : bool :=
  match match_fixed g s with
  | Some [] => true
  | _ => match s with [] => false | _ :: s' => match_end g s' end
  end.

Fixpoint match_groups (gs : list (list piece)) (s : str) : bool :=
  match gs with
  | [] => match s with [] => true | _ => false end
  | [g] => match_end g s
  | g :: r => match find_first g s with Some s' => match_groups r s' | None => false end
  end.

(** [re.compile(fnmatch.translate(pat)).match(s)] *)
Definition match_pieces (ps : list piece) (s : str) : bool :=
  let '(f, gs) := groups ps in
  match match_fixed f s with
  | Some s' => match_groups gs s'
  | None => false
  end.
Definition fnmatch (pat s : str) : bool := match_pieces (translate pat) s.

(** config.py:10-25: a filter holds the compiled patterns *)
Record test_filter := Filter { includes : list (list piece); excludes : list (list piece) }.

(** config.py:24: the pattern list comprehension *)
Definition compile_patterns (part : str) : list (list piece) :=
  map translate (filter (fun i => match strip i with [] => false | _ => true end) (split_on 58 part)).

(** config.py:14-25 *)
Definition new_filter (f : str) : outcome test_filter :=
  match split_on 126 f with
  | [a] => Val (Filter (compile_patterns a) (compile_patterns []))
  | [a; b] => Val (Filter (compile_patterns a) (compile_patterns b))
  | _ => Raise InvalidFilterException
  end.

Definition nonempty {A} (l : list A) : bool := match l with [] => false | _ => true end.
(** config.py:27-32 *)
Definition selects (f : test_filter) (name : str) : bool :=
  if nonempty (includes f) && negb (existsb (fun i => match_pieces i name) (includes f)) then false
  else if nonempty (excludes f) && existsb (fun i => match_pieces i name) (excludes f) then false
  else true.
