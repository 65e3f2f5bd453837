(** Python strings as lists of unicode code points, and the string functions of the
    python standard library that the modelled code uses. *)
From Coq Require Import List NArith ZArith Bool Lia String Ascii.
Import ListNotations.

(** A python [str]: a sequence of code points (0 .. 0x10FFFF, surrogates included). *)
Definition str := list N.

(** ASCII literals. *)
Definition lit (x : string) : str := List.map N_of_ascii (list_ascii_of_string x).

Fixpoint str_eqb (a b : str) : bool :=
  match a, b with
  | [], [] => true
  | x :: a', y :: b' => N.eqb x y && str_eqb a' b'
  | _, _ => false
  end.

(** [x in l] for lists of strings *)
Definition str_in (x : str) (l : list str) : bool := existsb (str_eqb x) l.

(** [s.startswith(p)] *)
Fixpoint startswith (p s : str) : bool :=
  match p, s with
  | [], _ => true
  | x :: p', y :: s' => N.eqb x y && startswith p' s'
  | _ :: _, [] => false
  end.

(** [s.endswith(p)] *)
Definition endswith (p s : str) : bool := startswith (rev p) (rev s).

(** [c.isspace()] for the characters removed by [str.strip()] (CPython 3, all 29 of them). *)
Definition is_space (c : N) : bool :=
  (((9 <=? c) && (c <=? 13)) || ((28 <=? c) && (c <=? 32)) || (c =? 133) || (c =? 160)
  || (c =? 5760) || ((8192 <=? c) && (c <=? 8202)) || (c =? 8232) || (c =? 8233)
  || (c =? 8239) || (c =? 8287) || (c =? 12288))%N.

Fixpoint drop_while (f : N -> bool) (s : str) : str :=
  match s with
  | [] => []
  | c :: s' => if f c then drop_while f s' else s
  end.

Definition lstrip (f : N -> bool) (s : str) : str := drop_while f s.
Definition rstrip (f : N -> bool) (s : str) : str := rev (drop_while f (rev s)).

(** [s.strip()] *)
Definition strip (s : str) : str := rstrip is_space (lstrip is_space s).
(** [s.strip(chars)] for one character *)
Definition strip_char (c : N) (s : str) : str := rstrip (N.eqb c) (lstrip (N.eqb c) s).

(** [s.split(sep)] for a one-character separator; never empty. *)
Fixpoint split_on (sep : N) (s : str) : list str :=
  match s with
  | [] => [[]]
  | c :: s' =>
      if N.eqb c sep then [] :: split_on sep s'
      else match split_on sep s' with
           | [] => [[c]]
           | t :: ts => (c :: t) :: ts
           end
  end.

(** [sep.join(l)] *)
Fixpoint join (sep : str) (l : list str) : str :=
  match l with
  | [] => []
  | [x] => x
  | x :: l' => x ++ sep ++ join sep l'
  end.

(** first occurrence of a character: [s.split(c, 1)] with exactly two parts, else None *)
Fixpoint split_first (sep : N) (s : str) : option (str * str) :=
  match s with
  | [] => None
  | c :: s' =>
      if N.eqb c sep then Some ([], s')
      else match split_first sep s' with
           | Some (a, b) => Some (c :: a, b)
           | None => None
           end
  end.

(** [s.rpartition(sep)] for a one-character separator, as (head, tail); without an
    occurrence the head is empty. *)
Definition rpartition (sep : N) (s : str) : str * str :=
  match split_first sep (rev s) with
  | Some (a, b) => (rev b, rev a)
  | None => ([], s)
  end.

(** [sub in s] *)
Fixpoint contains (sub s : str) : bool :=
  startswith sub s || match s with [] => false | _ :: s' => contains sub s' end.

(** [s.replace(old, new)] for non-empty [old]: leftmost, non-overlapping.
    [skip] counts the characters of a match still to be dropped. *)
Fixpoint replace_aux (old new : str) (skip : nat) (s : str) : str :=
  match s with
  | [] => []
  | c :: s' =>
      match skip with
      | S k => replace_aux old new k s'
      | O => if startswith old s then new ++ replace_aux old new (List.length old - 1) s'
             else c :: replace_aux old new O s'
      end
  end.
Definition replace (old new s : str) : str := replace_aux old new O s.

(** ASCII part of [str.upper] on one character (the code only applies it to ASCII names). *)
Definition upper_ascii (c : N) : N := if (97 <=? c)%N && (c <=? 122)%N then (c - 32)%N else c.
Definition lower_ascii (c : N) : N := if (65 <=? c)%N && (c <=? 90)%N then (c + 32)%N else c.

(** decimal representation of a natural number: [str(n)] *)
Fixpoint dec_aux (fuel : nat) (n : N) (acc : str) : str :=
  match fuel with
  | O => acc
  | S f => let acc' := ((48 + N.modulo n 10) :: acc)%N in
           if (n <? 10)%N then acc' else dec_aux f (N.div n 10) acc'
  end.
Definition dec_of_N (n : N) : str := dec_aux (S (N.to_nat (N.log2 n))) n [].
Definition dec_of_nat (n : nat) : str := dec_of_N (N.of_nat n).

Definition repeat_str (n : nat) (s : str) : str := List.concat (List.repeat s n).
