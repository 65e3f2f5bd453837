(** Encodings of the python standard library used by the code: [str.encode()] (utf-8),
    [urllib.parse.urlencode], [base64.urlsafe_b64encode]. *)
From Coq Require Import List NArith ZArith Bool.
From Coq Require Import String. Open Scope list_scope.
From Verif Require Import PyStr PyBase.
Import ListNotations.
Open Scope N_scope.

(** [s.encode()]: strict utf-8; surrogates raise UnicodeEncodeError.  Code points above
    0x10FFFF do not exist in python strings. *)
Definition utf8_char (c : N) : option (list N) :=
  if c <? 128 then Some [c]
  else if c <? 2048 then Some [192 + c / 64; 128 + c mod 64]
  else if c <? 65536 then
    if (55296 <=? c) && (c <=? 57343) then None
    else Some [224 + c / 4096; 128 + (c / 64) mod 64; 128 + c mod 64]
  else if c <? 1114112 then
    Some [240 + c / 262144; 128 + (c / 4096) mod 64; 128 + (c / 64) mod 64; 128 + c mod 64]
  else None.
Fixpoint utf8_encode (s : str) : outcome (list N) :=
  match s with
  | [] => Val []
  | c :: s' =>
      match utf8_char c with
      | None => Raise UnicodeEncodeError
      | Some b => match utf8_encode s' with Val r => Val (b ++ r) | Raise e => Raise e end
      end
  end.

(** [_ALWAYS_SAFE] of urllib.parse *)
Definition url_safe (b : N) : bool :=
  ((65 <=? b) && (b <=? 90)) || ((97 <=? b) && (b <=? 122)) || ((48 <=? b) && (b <=? 57))
  || (b =? 95) || (b =? 46) || (b =? 45) || (b =? 126).
Definition hex_digit (n : N) : N := if n <? 10 then 48 + n else 55 + n.
(** one byte under [quote_plus]: safe bytes stay, a blank becomes '+', others '%XX' *)
Definition quote_byte (b : N) : str :=
  if url_safe b then [b] else if b =? 32 then [43] else [37; hex_digit (b / 16); hex_digit (b mod 16)].
Definition quote_plus (s : str) : outcome str :=
  match utf8_encode s with Val b => Val (flat_map quote_byte b) | Raise e => Raise e end.

(** [urlencode(d)] for a list of pairs of strings *)
Fixpoint urlencode_pairs (d : list (str * str)) : outcome (list str) :=
  match d with
  | [] => Val []
  | (k, v) :: r =>
      let* k' := quote_plus k in
      let* v' := quote_plus v in
      let* r' := urlencode_pairs r in
      Val ((k' ++ [61] ++ v') :: r')
  end.
Definition urlencode (d : list (str * str)) : outcome str :=
  let* l := urlencode_pairs d in Val (join [38] l).

(** base64 alphabet, URL-safe variant *)
Definition b64_char (n : N) : N :=
  if n <? 26 then 65 + n else if n <? 52 then 71 + n else if n <? 62 then n - 4
  else if n =? 62 then 45 else 95.
Fixpoint b64_encode (l : list N) : str :=
  match l with
  | [] => []
  | [a] => [b64_char (a / 4); b64_char (a mod 4 * 16); 61; 61]
  | [a; b] => [b64_char (a / 4); b64_char (a mod 4 * 16 + b / 16); b64_char (b mod 16 * 4); 61]
  | a :: b :: c :: r =>
      b64_char (a / 4) :: b64_char (a mod 4 * 16 + b / 16) :: b64_char (b mod 16 * 4 + c / 64)
      :: b64_char (c mod 64) :: b64_encode r
  end.

(** data_types.py:412-413 [base64_urlsafe] *)
Definition base64_urlsafe (s : str) : outcome str :=
  let* b := utf8_encode s in Val (strip_char 61 (b64_encode b)).
