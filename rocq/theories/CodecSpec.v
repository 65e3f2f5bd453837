(** Decoders: the receiving side of a request. *)
From Coq Require Import List NArith ZArith Bool.
From Verif Require Import PyStr.
Import ListNotations.
Open Scope N_scope.

(** Unicode scalar values *)
Definition scalar (c : N) : Prop := c < 55296 \/ (57344 <= c /\ c < 1114112).

Definition cont (b : N) : option N := if (128 <=? b) && (b <? 192) then Some (b - 128) else None.

Fixpoint utf8_decode (l : list N) : option str :=
  match l with
  | [] => Some []
  | b :: r =>
      if b <? 128 then option_map (cons b) (utf8_decode r)
      else if b <? 192 then None
      else if b <? 224 then
        match r with
        | b2 :: r2 => match cont b2 with
                      | Some x => option_map (cons ((b - 192) * 64 + x)) (utf8_decode r2)
                      | None => None
                      end
        | _ => None
        end
      else if b <? 240 then
        match r with
        | b2 :: b3 :: r3 => match cont b2, cont b3 with
                            | Some x, Some y => option_map (cons (((b - 224) * 64 + x) * 64 + y)) (utf8_decode r3)
                            | _, _ => None
                            end
        | _ => None
        end
      else
        match r with
        | b2 :: b3 :: b4 :: r4 => match cont b2, cont b3, cont b4 with
                                  | Some x, Some y, Some z =>
                                      option_map (cons ((((b - 240) * 64 + x) * 64 + y) * 64 + z)) (utf8_decode r4)
                                  | _, _, _ => None
                                  end
        | _ => None
        end
  end.

Definition hex_value (c : N) : option N :=
  if (48 <=? c) && (c <=? 57) then Some (c - 48)
  else if (65 <=? c) && (c <=? 70) then Some (c - 55)
  else if (97 <=? c) && (c <=? 102) then Some (c - 87) else None.

(** percent decoding to bytes *)
Fixpoint pct_decode (s : str) : option (list N) :=
  match s with
  | [] => Some []
  | c :: r =>
      if c =? 37 then
        match r with
        | h :: l :: r2 => match hex_value h, hex_value l with
                          | Some x, Some y => option_map (cons (x * 16 + y)) (pct_decode r2)
                          | _, _ => None
                          end
        | _ => None
        end
      else if c =? 43 then option_map (cons 32) (pct_decode r)
      else option_map (cons c) (pct_decode r)
  end.
Definition form_decode (s : str) : option str :=
  match pct_decode s with Some b => utf8_decode b | None => None end.

Fixpoint all_some {A} (l : list (option A)) : option (list A) :=
  match l with
  | [] => Some []
  | None :: _ => None
  | Some x :: r => option_map (cons x) (all_some r)
  end.

(** application/x-www-form-urlencoded *)
Definition parse_query (q : str) : option (list (str * str)) :=
  all_some (map (fun p => match split_first 61 p with
                          | Some (k, v) => match form_decode k, form_decode v with
                                           | Some k', Some v' => Some (k', v')
                                           | _, _ => None
                                           end
                          | None => None
                          end) (split_on 38 q)).

(** base64url without padding *)
Definition b64_value (c : N) : option N :=
  if (65 <=? c) && (c <=? 90) then Some (c - 65)
  else if (97 <=? c) && (c <=? 122) then Some (c - 71)
  else if (48 <=? c) && (c <=? 57) then Some (c + 4)
  else if c =? 45 then Some 62 else if c =? 95 then Some 63 else None.
Fixpoint b64_bytes (l : list N) : option (list N) :=
  match l with
  | [] => Some []
  | [a; b] => Some [a * 4 + b / 16]
  | [a; b; c] => Some [a * 4 + b / 16; b mod 16 * 16 + c / 4]
  | a :: b :: c :: d :: r =>
      option_map (fun t => a * 4 + b / 16 :: b mod 16 * 16 + c / 4 :: c mod 4 * 64 + d :: t) (b64_bytes r)
  | _ => None
  end.
Definition base64url_decode (s : str) : option str :=
  match all_some (map b64_value s) with
  | Some l => match b64_bytes l with Some b => utf8_decode b | None => None end
  | None => None
  end.
Definition base64url_char (c : N) : Prop :=
  (65 <= c /\ c <= 90) \/ (97 <= c /\ c <= 122) \/ (48 <= c /\ c <= 57) \/ c = 45 \/ c = 95.
