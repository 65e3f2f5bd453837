(** Model of aas_test_engines/data_types.py: the lexical checks of XSD values.

    The CPython built-ins used there ([int], [float], [decimal.Decimal], [bytes.fromhex],
    [base64.b64decode]) are modelled as CPython 3.11 implements them. *)
From Coq Require Import String List NArith ZArith Bool.
From Verif Require Import PyStr PyBase Regex.
Import ListNotations.
Local Open Scope N_scope.

(** * CPython built-ins *)

(** The code points of the 66 zeros of the Unicode category Nd (Unicode 14); the digit [d]
    of each block is the zero plus [d]. *)
Definition decimal_zeros : list N :=
  [48; 1632; 1776; 1984; 2406; 2534; 2662; 2790; 2918; 3046; 3174; 3302; 3430; 3558; 3664; 3792;
   3872; 4160; 4240; 6112; 6160; 6470; 6608; 6784; 6800; 6992; 7088; 7232; 7248; 42528; 43216;
   43264; 43472; 43504; 43600; 44016; 65296; 66720; 68912; 69734; 69872; 69942; 70096; 70384;
   70736; 70864; 71248; 71360; 71472; 71904; 72016; 72784; 73040; 73120; 92768; 92864; 93008;
   120782; 120792; 120802; 120812; 120822; 123200; 123632; 125264; 130032].

Definition decimal_value (c : N) : option N :=
  option_map (fun z => c - z) (List.find (fun z => (z <=? c) && (c <=? z + 9)) decimal_zeros).

(** [_PyUnicode_TransformDecimalAndSpaceToASCII]: spaces become a blank, Unicode decimals
    ASCII digits, everything else outside ASCII a question mark. *)
Definition to_ascii (c : N) : N :=
  if c <? 127 then c
  else if is_space c then 32
  else match decimal_value c with Some d => 48 + d | None => 63 end.

(** [Py_ISSPACE] *)
Definition c_isspace (c : N) : bool := ((9 <=? c) && (c <=? 13)) || (c =? 32).

Definition is_digit (c : N) : bool := (48 <=? c) && (c <=? 57).

(** Value of a sequence of ASCII digits. *)
Definition digits_value (s : str) : Z :=
  fold_left (fun acc c => (10 * acc + (Z.of_N c - 48))%Z) s 0%Z.

Definition split_sign (s : str) : bool * str :=
  match s with
  | c :: t => if c =? 45 then (true, t) else if c =? 43 then (false, t) else (false, s)
  | [] => (false, [])
  end.

(** Digits with single underscores between them; [prev] says whether a digit precedes. *)
Fixpoint underscored_digits (prev : bool) (s : str) : option str :=
  match s with
  | [] => if prev then Some [] else None
  | c :: t =>
    if is_digit c then option_map (cons c) (underscored_digits true t)
    else if (c =? 95) && prev then underscored_digits false t
    else None
  end.

(** [sys.get_int_max_str_digits()], the default since CPython 3.10.7 *)
Definition int_max_str_digits : N := 4300.

(** [int(s)] *)
Definition py_int (s : str) : outcome Z :=
  let t := rstrip c_isspace (lstrip c_isspace (List.map to_ascii s)) in
  let (neg, body) := split_sign t in
  match underscored_digits false body with
  | None => Raise ValueError
  | Some ds =>
    if int_max_str_digits <? N.of_nat (length ds) then Raise ValueError
    else Val (if neg then (- digits_value ds)%Z else digits_value ds)
  end.

(** ** Decimal floating point literals *)
Fixpoint span_digits (s : str) : str * str :=
  match s with
  | c :: t => if is_digit c then let (a, b) := span_digits t in (c :: a, b) else ([], s)
  | [] => ([], [])
  end.

(** The part after the mantissa: nothing, or [e]/[E], a sign and digits. *)
Definition parse_exponent (s : str) : option Z :=
  match s with
  | [] => Some 0%Z
  | c :: t =>
    if (c =? 101) || (c =? 69) then
      let (neg, body) := split_sign t in
      match span_digits body with
      | (ds, []) =>
        if (length ds =? 0)%nat then None
        else Some (if neg then (- digits_value ds)%Z else digits_value ds)
      | _ => None
      end
    else None
  end.

(** An unsigned number: all its digits, the length of the fraction, the exponent. *)
Definition parse_number (s : str) : option (str * nat * Z) :=
  let (ip, r) := span_digits s in
  let (fp, r) := match r with
                 | c :: t => if c =? 46 then span_digits t else ([], r)
                 | [] => ([], r)
                 end in
  if (length ip + length fp =? 0)%nat then None
  else match parse_exponent r with
       | Some e => Some (ip ++ fp, length fp, e)
       | None => None
       end.

Definition lower (s : str) : str := List.map lower_ascii s.

(** A python float before rounding: a special value or [(-1)^neg * m * 10^e]. *)
Inductive fnum :=
| FInf (neg : bool)
| FNan
| FNum (neg : bool) (m e : Z).

(** Underscores are only allowed between two digits (pystrtod / [float_from_string]). *)
Fixpoint drop_underscores (prev : N) (s : str) : option str :=
  match s with
  | [] => if prev =? 95 then None else Some []
  | c :: t =>
    if c =? 95 then (if is_digit prev then drop_underscores c t else None)
    else if (prev =? 95) && negb (is_digit c) then None
    else option_map (cons c) (drop_underscores c t)
  end.

(** [float(s)], not yet rounded; [None] is a [ValueError]. *)
Definition py_float (s : str) : option fnum :=
  let t := rstrip c_isspace (lstrip c_isspace (List.map to_ascii s)) in
  match drop_underscores 0 t with
  | None => None
  | Some t =>
    let (neg, body) := split_sign t in
    if str_in (lower body) [lit "inf"; lit "infinity"] then Some (FInf neg)
    else if str_eqb (lower body) (lit "nan") then Some FNan
    else match parse_number body with
         | Some (ds, k, e) => Some (FNum neg (digits_value ds) (e - Z.of_nat k)%Z)
         | None => None
         end
  end.

(** Rounding to IEEE-754 binary64, to nearest with ties to even.  Magnitudes are counted in
    multiples of 2^-1074, the least positive double. *)
Definition round_half_even (a b : Z) : Z :=
  let q := (a / b)%Z in
  let r := (a mod b)%Z in
  if (2 * r <? b)%Z then q
  else if (b <? 2 * r)%Z then (q + 1)%Z
  else if Z.even q then q else (q + 1)%Z.

(** The double nearest to [p / q] for [0 <= p], [0 < q].  A result of at least 2^2098 units
    is the infinity; comparing it with a finite double gives the same answer. *)
Definition double_units (p q : Z) : Z :=
  let a := (p * 2 ^ 1074)%Z in
  let n := (a / q)%Z in
  let sh := Z.max 0 (Z.log2 n - 52) in
  (round_half_even a (q * 2 ^ sh) * 2 ^ sh)%Z.

(** The double nearest to [m * 10^e]. *)
Definition double_of_decimal (m e : Z) : Z :=
  if (0 <=? e)%Z then double_units (m * 10 ^ e) 1 else double_units m (10 ^ (- e)).

(** ** [decimal.Decimal(s)] (libmpdec), [false] is a [DecimalException] *)
Definition max_emax : Z := 999999999999999999.
Definition min_etiny : Z := -1999999999999999997.

Fixpoint drop_zeros (s : str) : str :=
  match s with c :: t => if c =? 48 then drop_zeros t else s | [] => [] end.

Definition exponent_ok (ds : str) (k : nat) (e : Z) : bool :=
  let e' := (e - Z.of_nat k)%Z in
  let nd := Z.of_nat (length (drop_zeros ds)) in
  ((min_etiny <=? e') && (if (nd =? 0) then e' <=? max_emax else e' + nd - 1 <=? max_emax))%Z.

Definition all_digits (s : str) : bool := forallb is_digit s.

Definition decimal_ok (s : str) : bool :=
  let t := filter (fun c => negb (c =? 95)) (List.map to_ascii (strip s)) in
  let (_, body) := split_sign t in
  let b := lower body in
  str_in b [lit "inf"; lit "infinity"]
  || (startswith (lit "nan") b && all_digits (skipn 3 b))
  || (startswith (lit "snan") b && all_digits (skipn 4 b))
  || match parse_number body with
     | Some (ds, k, e) => exponent_ok ds k e
     | None => false
     end.

(** ** [bytes.fromhex(s)], [false] is a [ValueError] *)
Definition is_hex (c : N) : bool :=
  is_digit c || ((65 <=? c) && (c <=? 70)) || ((97 <=? c) && (c <=? 102)).

(** [high]: a first hex digit of a byte has been read. *)
Fixpoint fromhex_ok (high : bool) (s : str) : bool :=
  match s with
  | [] => negb high
  | c :: t =>
    if high then is_hex c && fromhex_ok false t
    else if c_isspace c then fromhex_ok false t
    else is_hex c && fromhex_ok true t
  end.

(** ** [base64.b64decode(s)] without validation ([binascii.a2b_base64], not strict);
    [false] is a [binascii.Error] or, for text outside ASCII, a [ValueError] *)
Definition is_b64 (c : N) : bool :=
  is_digit c || ((65 <=? c) && (c <=? 90)) || ((97 <=? c) && (c <=? 122)) || (c =? 43) || (c =? 47).

Fixpoint a2b_ok (quad pads : nat) (s : str) : bool :=
  match s with
  | [] => (quad =? 0)%nat
  | c :: t =>
    if c =? 61 then
      if (2 <=? quad)%nat then
        if (4 <=? quad + S pads)%nat then true else a2b_ok quad (S pads) t
      else a2b_ok quad pads t
    else if is_b64 c then a2b_ok (if (quad =? 3)%nat then 0 else S quad) 0 t
    else a2b_ok quad pads t
  end.

Definition b64decode_ok (s : str) : bool :=
  forallb (fun c => c <? 128) s && a2b_ok 0 0 s.

(** * data_types.py *)

(** data_types.py 8-13 *)
Definition is_decimal (s : str) : bool := decimal_ok s.

(** data_types.py 16-23; the bounds are doubles written as [m * 10^e] *)
Definition is_bounded_double (s : str) (min_m max_m e : Z) : bool :=
  if str_in s [lit "INF"; lit "-INF"; lit "NaN"] then true
  else match py_float s with
       | Some (FNum neg m e') =>
         let bound b := if (b <? 0)%Z then (- double_of_decimal (- b) e)%Z else double_of_decimal b e in
         let v := if neg then (- double_of_decimal m e')%Z else double_of_decimal m e' in
         ((bound min_m <? v) && (v <? bound max_m))%Z
       | Some (FInf _) => false
       | Some FNan => false
       | None => false
       end.

(** data_types.py 26-27 *)
Definition is_float (s : str) : bool :=
  is_bounded_double s (-34028234663852886) 34028234663852886 22.

(** data_types.py 30-31 *)
Definition is_double (s : str) : bool :=
  is_bounded_double s (-17976931348623158) 17976931348623158 292.

(** data_types.py 34-39; [None] is the infinity of the respective sign *)
Definition is_bounded_integer (s : str) (min max : option Z) : bool :=
  match py_int s with
  | Val v =>
    (match min with Some m => m <=? v | None => true end
     && match max with Some m => v <=? m | None => true end)%Z
  | Raise _ => false
  end.

(** data_types.py 42-47 *)
Definition is_hex_binary (s : str) : bool := fromhex_ok false s.

(** data_types.py 50-59 *)
Definition is_leap_year (year : Z) : bool :=
  let year := (if year <? 0 then Z.abs year - 1 else year)%Z in
  if (0 <? year mod 4)%Z then false
  else if (0 <? year mod 100)%Z then true
  else if (0 <? year mod 400)%Z then false
  else true.

(** data_types.py 62-77 and 181-194 (the same table twice) *)
Definition days_in_month_table : list (Z * Z) :=
  [(1, 31); (2, 29); (3, 31); (4, 30); (5, 31); (6, 30);
   (7, 31); (8, 31); (9, 30); (10, 31); (11, 30); (12, 31)]%Z.

(** [_DAYS_IN_MONTH[month]] *)
Definition days_in_month_lookup (month : Z) : outcome Z :=
  match List.find (fun p => (fst p =? month)%Z) days_in_month_table with
  | Some p => Val (snd p)
  | None => Raise KeyError
  end.

(** Fragments of the patterns; data_types.py 80-95, 127-137, 154-164 *)
Definition r_digit := RCls [(48, 57)].
Definition r_lit (x : string) := rstr (lit x).
Definition r_range (a b : N) := RCls [(a, b)].

Definition r_year : re :=
  rseq [ropt (r_lit "-");
        ralts [rseq [r_range 49 57; r_digit; r_digit; rplus r_digit];
               rseq [r_lit "0"; r_digit; r_digit; r_digit]]].
Definition r_month : re :=
  ralts [rseq [r_lit "0"; r_range 49 57]; rseq [r_lit "1"; r_range 48 50]].
Definition r_day : re :=
  ralts [rseq [r_lit "0"; r_range 49 57]; rseq [r_range 49 50; r_digit]; rseq [r_lit "3"; r_range 48 49]].
Definition r_hour : re := ralts [rseq [r_range 48 49; r_digit]; rseq [r_lit "2"; r_range 48 51]].
Definition r_minute : re := rseq [r_range 48 53; r_digit].
Definition r_second : re := rseq [rseq [r_range 48 53; r_digit]; ropt (rseq [r_lit "."; rplus r_digit])].
Definition r_end_of_day : re := rseq [r_lit "24:00:00"; ropt (rseq [r_lit "."; rplus (r_lit "0")])].
Definition r_timezone : re :=
  ralts [r_lit "Z";
         rseq [ralts [r_lit "+"; r_lit "-"];
               ralts [rseq [ralts [rseq [r_lit "0"; r_digit]; rseq [r_lit "1"; r_range 48 51]];
                            r_lit ":"; r_minute];
                      r_lit "14:00"]]].
Definition r_timezone_utc : re := ralts [r_lit "Z"; r_lit "+00:00"; r_lit "-00:00"].

(** data_types.py 88-89 *)
Definition r_xs_date : re :=
  rseq [r_year; r_lit "-"; r_month; r_lit "-"; r_day; ropt r_timezone].

(** data_types.py 96: [^(-?[0-9]+)-([0-9]{2})-([0-9]{2})], the three groups.  The groups are
    determined by the string because a run of digits must be followed by a hyphen. *)
Definition date_prefix (s : str) : option (str * str * str) :=
  let (sgn, r) := match s with
                  | c :: t => if c =? 45 then ([45], t) else ([], s)
                  | [] => ([], [])
                  end in
  match span_digits r with
  | (y0 :: y, d1 :: m1 :: m2 :: d2 :: e1 :: e2 :: _) =>
    if (d1 =? 45) && is_digit m1 && is_digit m2 && (d2 =? 45) && is_digit e1 && is_digit e2
    then Some (sgn ++ y0 :: y, [m1; m2], [e1; e2]) else None
  | _ => None
  end.

(** data_types.py 99-124 *)
Definition is_xs_date (s : str) : outcome bool :=
  if negb (matches_dollar r_xs_date s) then Val false
  else
    match date_prefix s with
    | None => Raise AssertionError
    | Some (ys, ms, ds) =>
      let* year := py_int ys in
      let* month := py_int ms in
      let* day := py_int ds in
      if (year =? 0)%Z then Val false
      else if (day <=? 0)%Z then Val false
      else if ((month <=? 0) || (13 <=? month))%Z then Val false
      else
        let* max_days :=
          if (month =? 2)%Z then Val (if is_leap_year year then 29 else 28)%Z
          else days_in_month_lookup month in
        Val (negb (max_days <? day)%Z)
    end.

Definition r_time_of_day : re :=
  ralts [rseq [r_hour; r_lit ":"; r_minute; r_lit ":"; r_second]; r_end_of_day].

(** data_types.py 127-139 *)
Definition r_xs_date_time : re :=
  rseq [r_year; r_lit "-"; r_month; r_lit "-"; r_day; r_lit "T"; r_time_of_day; ropt r_timezone].

(** data_types.py 154-166 *)
Definition r_xs_date_time_utc : re :=
  rseq [r_year; r_lit "-"; r_month; r_lit "-"; r_day; r_lit "T"; r_time_of_day; r_timezone_utc].

(** [date, _ = s.split("T")] and the check of the date *)
Definition check_date_part (s : str) : outcome bool :=
  match split_on 84 s with
  | [date; _] => is_xs_date date
  | _ => Raise ValueError
  end.

(** data_types.py 145-151 *)
Definition is_xs_date_time (s : str) : outcome bool :=
  if negb (matches_dollar r_xs_date_time s) then Val false else check_date_part s.

(** data_types.py 172-178 *)
Definition is_xs_date_time_utc (s : str) : outcome bool :=
  if negb (matches_dollar r_xs_date_time_utc s) then Val false else check_date_part s.

(** data_types.py 204-242 *)
Definition c_alpha : list (N * N) := [(97, 122); (65, 90)].
Definition c_hexdig : list (N * N) := [(48, 57); (65, 70); (97, 102)].
Definition r_hexdig := RCls c_hexdig.
Definition r_scheme : re :=
  rseq [RCls c_alpha; RStar (RCls (c_alpha ++ [(48, 57); (43, 43); (45, 45); (46, 46)]))].
Definition c_ucschar : list (N * N) :=
  [(160, 55295); (63744, 64975); (65008, 65519);
   (65536, 131069); (131072, 196605); (196608, 262141); (262144, 327677); (327680, 393213);
   (393216, 458749); (458752, 524285); (524288, 589821); (589824, 655357); (655360, 720893);
   (720896, 786429); (786432, 851965); (851968, 917501); (921600, 983037)].
Definition r_ucschar := RCls c_ucschar.
Definition c_unreserved : list (N * N) := c_alpha ++ [(48, 57); (45, 45); (46, 46); (95, 95); (126, 126)].
Definition r_unreserved := RCls c_unreserved.
Definition r_iunreserved : re := ralts [RCls c_unreserved; r_ucschar].
Definition r_pct_encoded : re := rseq [r_lit "%"; r_hexdig; r_hexdig].
Definition c_sub_delims : list (N * N) :=
  [(33, 33); (36, 36); (38, 38); (39, 39); (40, 40); (41, 41); (42, 42); (43, 43); (44, 44); (59, 59); (61, 61)].
Definition r_sub_delims := RCls c_sub_delims.
Definition r_iuserinfo : re := RStar (ralts [r_iunreserved; r_pct_encoded; r_sub_delims; r_lit ":"]).
Definition r_h16 : re := rrange 1 3 r_hexdig.
Definition r_dec_octet : re :=
  ralts [r_digit; rseq [r_range 49 57; r_digit]; rseq [r_lit "1"; rrep 2 r_digit];
         rseq [r_lit "2"; r_range 48 52; r_digit]; rseq [r_lit "25"; r_range 48 53]].
Definition r_ipv4 : re :=
  rseq [r_dec_octet; r_lit "."; r_dec_octet; r_lit "."; r_dec_octet; r_lit "."; r_dec_octet].
Definition r_ls32 : re := ralts [rseq [r_h16; r_lit ":"; r_h16]; r_ipv4].
Definition r_h16c : re := rseq [r_h16; r_lit ":"].
Definition r_ipv6 : re :=
  ralts [rseq [rrep 6 r_h16c; r_ls32];
         rseq [r_lit "::"; rrep 5 r_h16c; r_ls32];
         rseq [ropt r_h16; r_lit "::"; rrep 4 r_h16c; r_ls32];
         rseq [ropt (rseq [ropt r_h16c; r_h16]); r_lit "::"; rrep 3 r_h16c; r_ls32];
         rseq [ropt (rseq [rrep 2 r_h16c; r_h16]); r_lit "::"; rrep 2 r_h16c; r_ls32];
         rseq [ropt (rseq [rrep 3 r_h16c; r_h16]); r_lit "::"; r_h16; r_lit ":"; r_ls32];
         rseq [ropt (rseq [rrep 4 r_h16c; r_h16]); r_lit "::"; r_ls32];
         rseq [ropt (rseq [rrep 5 r_h16c; r_h16]); r_lit "::"; r_h16];
         rseq [ropt (rseq [rrep 6 r_h16c; r_h16]); r_lit "::"]].
Definition r_ipvfuture : re :=
  rseq [RCls [(118, 118); (86, 86)]; rplus r_hexdig; r_lit "."; rplus (ralts [r_unreserved; r_sub_delims; r_lit ":"])].
Definition r_ip_literal : re := rseq [r_lit "["; ralts [r_ipv6; r_ipvfuture]; r_lit "]"].
Definition r_ireg_name : re := RStar (ralts [r_iunreserved; r_pct_encoded; r_sub_delims]).
Definition r_ihost : re := ralts [r_ip_literal; r_ipv4; r_ireg_name].
Definition r_port : re := RStar r_digit.
Definition r_iauthority : re :=
  rseq [ropt (rseq [r_iuserinfo; r_lit "@"]); r_ihost; ropt (rseq [r_lit ":"; r_port])].
Definition r_ipchar : re := ralts [r_iunreserved; r_pct_encoded; r_sub_delims; RCls [(58, 58); (64, 64)]].
Definition r_isegment : re := RStar r_ipchar.
Definition r_ipath_abempty : re := RStar (rseq [r_lit "/"; r_isegment]).
Definition r_isegment_nz : re := rplus r_ipchar.
Definition r_ipath_absolute : re :=
  rseq [r_lit "/"; ropt (rseq [r_isegment_nz; RStar (rseq [r_lit "/"; r_isegment])])].
Definition r_ipath_rootless : re := rseq [r_isegment_nz; RStar (rseq [r_lit "/"; r_isegment])].
Definition r_ipath_empty : re := rrep 0 r_ipchar.
Definition r_ihier_part : re :=
  ralts [rseq [r_lit "//"; r_iauthority; r_ipath_abempty]; r_ipath_absolute; r_ipath_rootless; r_ipath_empty].
Definition r_iprivate := RCls [(57344, 63743); (983040, 1048573); (1048576, 1114109)].
Definition r_slash_question := RCls [(47, 47); (63, 63)].
Definition r_iquery : re := RStar (ralts [r_ipchar; r_iprivate; r_slash_question]).
Definition r_ifragment : re := RStar (ralts [r_ipchar; r_slash_question]).
Definition r_isegment_nz_nc : re := rplus (ralts [r_iunreserved; r_pct_encoded; r_sub_delims; r_lit "@"]).
Definition r_ipath_noscheme : re := rseq [r_isegment_nz_nc; RStar (rseq [r_lit "/"; r_isegment])].
Definition r_irelative_part : re :=
  ralts [rseq [r_lit "//"; r_iauthority; r_ipath_abempty]; r_ipath_absolute; r_ipath_noscheme; r_ipath_empty].
Definition r_query_opt : re := ropt (rseq [r_lit "?"; r_iquery]).
Definition r_fragment_opt : re := ropt (rseq [r_lit "#"; r_ifragment]).
Definition r_irelative_ref : re := rseq [r_irelative_part; r_query_opt; r_fragment_opt].
Definition r_iri : re := rseq [r_scheme; r_lit ":"; r_ihier_part; r_query_opt; r_fragment_opt].
Definition r_iri_reference : re := ralts [r_iri; r_irelative_ref].

(** data_types.py 268-269 *)
Definition is_any_uri (s : str) : bool := matches_dollar r_iri_reference s.

(** data_types.py 245-249; [0[1-9]|1[0-2]] etc. are the fragments above *)
Definition r_xs_g_month_day : re :=
  rseq [r_lit "--"; r_month; r_lit "-"; r_day; ropt r_timezone].

(** [s[a:b]] *)
Definition slice (a b : nat) (s : str) : str := firstn (b - a) (skipn a s).

(** data_types.py 255-262 *)
Definition is_xs_g_month_day (s : str) : outcome bool :=
  if negb (matches_dollar r_xs_g_month_day s) then Val false
  else
    let* month := py_int (slice 2 4 s) in
    let* day := py_int (slice 5 7 s) in
    let* max_days := days_in_month_lookup month in
    Val (day <=? max_days)%Z.

(** data_types.py 272-277 *)
Definition is_base64_binary (s : str) : bool := b64decode_ok s.

(** data_types.py 280-296 *)
Definition r_alpha := RCls c_alpha.
Definition r_alphanum := RCls (c_alpha ++ [(48, 57)]).
Definition r_singleton := RCls [(48, 57); (65, 87); (89, 90); (97, 119); (121, 122)].
Definition r_extension : re := rseq [r_singleton; rplus (rseq [r_lit "-"; rrange 2 6 r_alphanum])].
Definition r_extlang : re := rseq [rrep 3 r_alpha; rupto 2 (rseq [r_lit "-"; rrep 3 r_alpha])].
Definition r_irregular : re :=
  ralts (List.map r_lit
    ["en-GB-oed"; "i-ami"; "i-bnn"; "i-default"; "i-enochian"; "i-hak"; "i-klingon"; "i-lux"; "i-mingo";
     "i-navajo"; "i-pwn"; "i-tao"; "i-tay"; "i-tsu"; "sgn-BE-FR"; "sgn-BE-NL"; "sgn-CH-DE"]%string).
Definition r_regular : re :=
  ralts (List.map r_lit
    ["art-lojban"; "cel-gaulish"; "no-bok"; "no-nyn"; "zh-guoyu"; "zh-hakka"; "zh-min"; "zh-min-nan"; "zh-xiang"]%string).
Definition r_grandfathered : re := ralts [r_irregular; r_regular].
Definition r_language : re :=
  ralts [rseq [rrange 2 1 r_alpha; ropt (rseq [r_lit "-"; r_extlang])]; rrep 4 r_alpha; rrange 5 3 r_alpha].
Definition r_script : re := rrep 4 r_alpha.
Definition r_region : re := ralts [rrep 2 r_alpha; rrep 3 r_digit].
Definition r_variant : re := ralts [rrange 5 3 r_alphanum; rseq [r_digit; rrep 3 r_alphanum]].
Definition r_privateuse : re :=
  rseq [RCls [(120, 120); (88, 88)]; rplus (rseq [r_lit "-"; rrange 1 7 r_alphanum])].
Definition r_langtag : re :=
  rseq [r_language; ropt (rseq [r_lit "-"; r_script]); ropt (rseq [r_lit "-"; r_region]);
        RStar (rseq [r_lit "-"; r_variant]); RStar (rseq [r_lit "-"; r_extension]);
        ropt (rseq [r_lit "-"; r_privateuse])].
Definition r_language_tag : re := ralts [r_langtag; r_privateuse; r_grandfathered].

(** data_types.py 302-304 *)
Definition is_bcp_lang_string (s : str) : bool := matches_dollar r_language_tag s.

(** data_types.py 307-316 *)
Definition r_version : re := ralts [r_lit "0"; rseq [r_range 49 57; RStar r_digit]].
Definition is_version_string (s : str) : bool := matches_dollar r_version s.

(** data_types.py 319-323; [.] is any character but a line feed *)
Definition r_any : re := RCls [(0, 9); (11, 1114111)].
Definition r_english : re := rseq [ralts [r_lit "en"; r_lit "EN"]; ropt (rseq [r_lit "-"; RStar r_any])].
Definition is_bcp_47_for_english (s : str) : bool := matches_dollar r_english s.

(** data_types.py 326-356 *)
Inductive xsd :=
| X_anyURI | X_base64Binary | X_boolean | X_byte | X_date | X_dateTime | X_decimal | X_double
| X_duration | X_float | X_gDay | X_gMonth | X_gMonthDay | X_gYear | X_gYearMonth | X_hexBinary
| X_int | X_integer | X_long | X_negativeInteger | X_nonNegativeInteger | X_nonPositiveInteger
| X_positiveInteger | X_short | X_string | X_time | X_unsignedByte | X_unsignedInt
| X_unsignedLong | X_unsignedShort.

(** The members of the enumeration in the order of their definition, with their values. *)
Definition xsd_members : list (xsd * str) :=
  [(X_anyURI, lit "xs:anyURI"); (X_base64Binary, lit "xs:base64Binary"); (X_boolean, lit "xs:boolean");
   (X_byte, lit "xs:byte"); (X_date, lit "xs:date"); (X_dateTime, lit "xs:dateTime");
   (X_decimal, lit "xs:decimal"); (X_double, lit "xs:double"); (X_duration, lit "xs:duration");
   (X_float, lit "xs:float"); (X_gDay, lit "xs:gDay"); (X_gMonth, lit "xs:gMonth");
   (X_gMonthDay, lit "xs:gMonthDay"); (X_gYear, lit "xs:gYear"); (X_gYearMonth, lit "xs:gYearMonth");
   (X_hexBinary, lit "xs:hexBinary"); (X_int, lit "xs:int"); (X_integer, lit "xs:integer");
   (X_long, lit "xs:long"); (X_negativeInteger, lit "xs:negativeInteger");
   (X_nonNegativeInteger, lit "xs:nonNegativeInteger"); (X_nonPositiveInteger, lit "xs:nonPositiveInteger");
   (X_positiveInteger, lit "xs:positiveInteger"); (X_short, lit "xs:short"); (X_string, lit "xs:string");
   (X_time, lit "xs:time"); (X_unsignedByte, lit "xs:unsignedByte"); (X_unsignedInt, lit "xs:unsignedInt");
   (X_unsignedLong, lit "xs:unsignedLong"); (X_unsignedShort, lit "xs:unsignedShort")].

Definition xsd_eq_dec (a b : xsd) : {a = b} + {a <> b}.
Proof. decide equality. Defined.

(** data_types.py 382-383: the year of gYear and gYearMonth is written [[1-9][0-9]{3,}|0[0-9]{3}] *)
Definition r_g_year_number : re :=
  rseq [ropt (r_lit "-");
        ralts [rseq [r_range 49 57; rrep 3 r_digit; RStar r_digit]; rseq [r_lit "0"; rrep 3 r_digit]]].
Definition r_g_year_month : re := rseq [r_g_year_number; r_lit "-"; r_month; ropt r_timezone].
Definition r_g_day : re := rseq [r_lit "---"; r_day; ropt r_timezone].
Definition r_g_month : re := rseq [r_lit "--"; r_month; ropt r_timezone].
Definition r_g_year : re := rseq [r_g_year_number; ropt r_timezone].
(** data_types.py 397-401 *)
Definition r_time : re := rseq [r_time_of_day; ropt r_timezone].
(** data_types.py 402-406 *)
Definition r_num : re := rplus r_digit.
Definition r_part (x : string) : re := rseq [r_num; r_lit x].
Definition r_dur_seconds : re := rseq [r_num; ropt (rseq [r_lit "."; r_num]); r_lit "S"].
Definition r_dur_time : re :=
  rseq [r_lit "T";
        ralts [rseq [r_part "H"; ropt (r_part "M"); ropt r_dur_seconds];
               rseq [r_part "M"; ropt r_dur_seconds];
               r_dur_seconds]].
Definition r_dur_date : re :=
  ralts [rseq [r_part "Y"; ropt (r_part "M"); ropt (r_part "D")];
         rseq [r_part "M"; ropt (r_part "D")];
         r_part "D"].
Definition r_duration : re :=
  rseq [ropt (r_lit "-"); r_lit "P"; ralts [rseq [r_dur_date; ropt r_dur_time]; r_dur_time]].

(** data_types.py 359-409 *)
Definition validators : list (xsd * (str -> outcome bool)) :=
  [(X_string, fun _ => Val true);
   (X_boolean, fun s => Val (str_in s [lit "true"; lit "false"; lit "1"; lit "0"]));
   (X_decimal, fun s => Val (is_decimal s));
   (X_integer, fun s => Val (is_bounded_integer s None None));
   (X_float, fun s => Val (is_float s));
   (X_double, fun s => Val (is_double s));
   (X_byte, fun s => Val (is_bounded_integer s (Some (-128)%Z) (Some 127%Z)));
   (X_short, fun s => Val (is_bounded_integer s (Some (-32768)%Z) (Some 32767%Z)));
   (X_int, fun s => Val (is_bounded_integer s (Some (-2147483648)%Z) (Some 2147483647%Z)));
   (X_long, fun s => Val (is_bounded_integer s (Some (-9223372036854775808)%Z) (Some 9223372036854775807%Z)));
   (X_unsignedByte, fun s => Val (is_bounded_integer s (Some 0%Z) (Some 255%Z)));
   (X_unsignedShort, fun s => Val (is_bounded_integer s (Some 0%Z) (Some 65535%Z)));
   (X_unsignedInt, fun s => Val (is_bounded_integer s (Some 0%Z) (Some 4294967295%Z)));
   (X_unsignedLong, fun s => Val (is_bounded_integer s (Some 0%Z) (Some 18446744073709551615%Z)));
   (X_positiveInteger, fun s => Val (is_bounded_integer s (Some 1%Z) None));
   (X_nonNegativeInteger, fun s => Val (is_bounded_integer s (Some 0%Z) None));
   (X_negativeInteger, fun s => Val (is_bounded_integer s None (Some (-1)%Z)));
   (X_nonPositiveInteger, fun s => Val (is_bounded_integer s None (Some 0%Z)));
   (X_date, is_xs_date);
   (X_dateTime, is_xs_date_time);
   (X_gMonthDay, is_xs_g_month_day);
   (X_gYearMonth, fun s => Val (matches r_g_year_month s));
   (X_gDay, fun s => Val (matches r_g_day s));
   (X_gMonth, fun s => Val (matches r_g_month s));
   (X_gYear, fun s => Val (matches r_g_year s));
   (X_time, fun s => Val (matches r_time s));
   (X_duration, fun s => Val (matches r_duration s));
   (X_anyURI, fun s => Val (is_any_uri s));
   (X_base64Binary, fun s => Val (is_base64_binary s));
   (X_hexBinary, fun s => Val (is_hex_binary s))].

(** [validators[t](s)] *)
Definition validate_xsd (t : xsd) (s : str) : outcome bool :=
  match List.find (fun p => if xsd_eq_dec (fst p) t then true else false) validators with
  | Some p => snd p s
  | None => Raise KeyError
  end.
