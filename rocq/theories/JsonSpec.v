(** JSON texts (RFC 8259), given by a decoder. *)
From Coq Require Import PeanoNat String List NArith ZArith Bool.
From Verif Require Import PyStr PyBase.
Import ListNotations.
Local Open Scope N_scope.
Local Open Scope list_scope.

(** section 2: white space *)
Definition blank (c : N) : bool := existsb (N.eqb c) [32; 9; 10; 13].
Fixpoint skip_blanks (s : str) : str :=
  match s with c :: r => if blank c then skip_blanks r else s | [] => [] end.

(** ** Texts, section 7 *)
Definition hex_value (c : N) : option N :=
  if (48 <=? c) && (c <=? 57) then Some (c - 48)
  else if (97 <=? c) && (c <=? 102) then Some (c - 87)
  else if (65 <=? c) && (c <=? 70) then Some (c - 55)
  else None.
(** four hexadecimal digits *)
Definition code_unit (s : str) : option (N * str) :=
  match s with
  | a :: b :: c :: d :: r =>
      match hex_value a, hex_value b, hex_value c, hex_value d with
      | Some a, Some b, Some c, Some d => Some (4096 * a + 256 * b + 16 * c + d, r)
      | _, _, _, _ => None
      end
  | _ => None
  end.
Definition high_surrogate (u : N) : bool := (55296 <=? u) && (u <=? 56319).
Definition low_surrogate (u : N) : bool := (56320 <=? u) && (u <=? 57343).
(** the character that two surrogates stand for *)
Definition pair_value (u v : N) : N := 65536 + 1024 * (u - 55296) + (v - 56320).
(** the other escape sequences *)
Definition escapes : list (N * N) := [(34, 34); (92, 92); (47, 47); (98, 8); (102, 12); (110, 10); (114, 13); (116, 9)].
Definition escaped (e : N) : option N := match find (fun p => fst p =? e) escapes with Some p => Some (snd p) | None => None end.

(** what follows the "u" of an escape sequence: surrogates that belong together are one character *)
Definition unicode_escape (r : str) : option (N * str) :=
  match code_unit r with
  | None => None
  | Some (u, r1) =>
      if high_surrogate u then
        match r1 with
        | b :: x :: r2 =>
            if (b =? 92) && (x =? 117) then
              match code_unit r2 with
              | Some (v, r3) => if low_surrogate v then Some (pair_value u v, r3) else Some (u, r1)
              | None => None
              end
            else Some (u, r1)
        | _ => Some (u, r1)
        end
      else Some (u, r1)
  end.
(** what follows an opening quotation mark; control characters must be escaped *)
Fixpoint text_body (fuel : nat) (s : str) : option (str * str) :=
  match fuel, s with
  | S n, c :: r =>
      let continue (x : option (N * str)) :=
        match x with
        | Some (c, r) => match text_body n r with Some (t, r) => Some (c :: t, r) | None => None end
        | None => None
        end in
      if c =? 34 then Some ([], r)
      else if c =? 92 then
        match r with
        | e :: r => if e =? 117 then continue (unicode_escape r)
                    else continue (match escaped e with Some c => Some (c, r) | None => None end)
        | [] => None
        end
      else if c <? 32 then None
      else continue (Some (c, r))
  | _, _ => None
  end.

(** ** Numbers, section 6 *)
Definition is_digit (c : N) : bool := (48 <=? c) && (c <=? 57).
Definition in_number (c : N) : bool := is_digit c || existsb (N.eqb c) [43; 45; 46; 69; 101].
Fixpoint span (f : N -> bool) (s : str) : str * str :=
  match s with
  | c :: r => if f c then let '(a, b) := span f r in (c :: a, b) else ([], s)
  | [] => ([], [])
  end.
Definition decimal (s : str) : N := fold_left (fun n c => 10 * n + (c - 48)) s 0.
(** digits without a superfluous zero at the beginning *)
Definition natural (s : str) : bool :=
  match s with
  | [] => false
  | [c] => is_digit c
  | c :: r => is_digit c && negb (c =? 48) && forallb is_digit r
  end.
Definition unsigned (s : str) : bool * str := match s with c :: r => if c =? 45 then (true, r) else (false, s) | [] => (false, []) end.
Definition digits (s : str) : bool := match s with [] => false | _ => forallb is_digit s end.
(** a number with a fraction or an exponent *)
Definition fractional (s : str) : bool :=
  let '(_, s) := unsigned s in
  let '(i, s) := span is_digit s in
  natural i &&
  let exponent (s : str) :=
    match s with
    | c :: r => ((c =? 69) || (c =? 101)) &&
                digits (match r with d :: r' => if (d =? 43) || (d =? 45) then r' else r | [] => [] end)
    | [] => false
    end in
  match s with
  | c :: r => if c =? 46 then let '(f, r) := span is_digit r in digits f && match r with [] => true | _ => exponent r end
              else exponent s
  | [] => false
  end.
Definition number (s : str) : option json :=
  let '(neg, d) := unsigned s in
  if natural d then Some (JInt (if neg then - Z.of_N (decimal d) else Z.of_N (decimal d)))
  else if fractional s then Some (JFloat s)
  else None.

(** ** Values, sections 3 to 5 *)
Definition expect (word : str) (v : json) (s : str) : option (json * str) :=
  if startswith word s then Some (v, skipn (List.length word) s) else None.
Fixpoint value (fuel : nat) (s : str) : option (json * str) :=
  match fuel with
  | O => None
  | S n =>
      match skip_blanks s with
      | [] => None
      | c :: r =>
          if c =? 34 then match text_body (S (List.length r)) r with Some (t, r) => Some (JStr t, r) | None => None end
          else if c =? 91 then
            match skip_blanks r with
            | d :: r' => if d =? 93 then Some (JArr [], r')
                         else match items n r with Some (l, r) => Some (JArr l, r) | None => None end
            | [] => None
            end
          else if c =? 123 then
            match skip_blanks r with
            | d :: r' => if d =? 125 then Some (JObj [], r')
                         else match members n r with Some (l, r) => Some (JObj l, r) | None => None end
            | [] => None
            end
          else if c =? 116 then expect (lit "true") (JBool true) (c :: r)
          else if c =? 102 then expect (lit "false") (JBool false) (c :: r)
          else if c =? 110 then expect (lit "null") JNull (c :: r)
          else let '(a, b) := span in_number (c :: r) in match number a with Some v => Some (v, b) | None => None end
      end
  end
with items (fuel : nat) (s : str) : option (list json * str) :=
  match fuel with
  | O => None
  | S n =>
      match value n s with
      | None => None
      | Some (v, r) =>
          match skip_blanks r with
          | c :: r => if c =? 93 then Some ([v], r)
                      else if c =? 44 then match items n r with Some (l, r) => Some (v :: l, r) | None => None end
                      else None
          | [] => None
          end
      end
  end
with members (fuel : nat) (s : str) : option (list (str * json) * str) :=
  match fuel with
  | O => None
  | S n =>
      match value n s with
      | Some (JStr k, r) =>
          match skip_blanks r with
          | c :: r =>
              if c =? 58 then
                match value n r with
                | None => None
                | Some (v, r) =>
                    match skip_blanks r with
                    | c :: r => if c =? 125 then Some ([(k, v)], r)
                                else if c =? 44 then match members n r with Some (l, r) => Some ((k, v) :: l, r) | None => None end
                                else None
                    | [] => None
                    end
                end
              else None
          | [] => None
          end
      | _ => None
      end
  end.
(** the value of a JSON text *)
Definition decode (s : str) : option json :=
  match value (2 * List.length s + 2) s with
  | Some (v, r) => match skip_blanks r with [] => Some v | _ => None end
  | None => None
  end.

(** ** Texts with surrogates *)
(** Characters of Python texts are code points, surrogates included.  A JSON text cannot distinguish a high surrogate
    followed by a low one from the character they stand for. *)
Fixpoint joined (s : str) : str :=
  match s with
  | [] => []
  | u :: r =>
      match r with
      | v :: r' => if high_surrogate u && low_surrogate v then pair_value u v :: joined r' else u :: joined r
      | [] => [u]
      end
  end.
Fixpoint joined_value (j : json) : json :=
  match j with
  | JStr s => JStr (joined s)
  | JArr l => JArr (List.map joined_value l)
  | JObj kvs => JObj (List.map (fun kv => (joined (fst kv), joined_value (snd kv))) kvs)
  | _ => j
  end.
(** no high surrogate is followed by a low one *)
Definition Unpaired (s : str) : Prop :=
  forall a u v b, s = a ++ u :: v :: b -> high_surrogate u && low_surrogate v = false.
Definition code_point (c : N) : Prop := c < 1114112.
(** the values that have a JSON text *)
Inductive Writable : json -> Prop :=
| W_null : Writable JNull
| W_bool b : Writable (JBool b)
| W_int z : Writable (JInt z)
| W_float t : fractional t = true -> Writable (JFloat t)
| W_str s : Forall code_point s -> Writable (JStr s)
| W_arr l : Forall Writable l -> Writable (JArr l)
| W_obj kvs : Forall (fun kv => Forall code_point (fst kv) /\ Writable (snd kv)) kvs -> Writable (JObj kvs).
