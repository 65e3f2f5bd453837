(** What XML Schema Part 2, RFC 5646 and RFC 3987 say about the values checked by
    data_types.py.  Nothing in here refers to the patterns or functions of the model;
    the only thing shared with the model is the enumeration [xsd] and the Unicode table
    [decimal_zeros] (used to describe what python's [int] accepts beyond XSD). *)
From Coq Require Import String List NArith ZArith Bool.
From Verif Require Import PyStr PyBase DataTypesModel.
Import ListNotations.
Local Open Scope N_scope.

(** ** Digits and numbers *)
Definition Digit (c : N) : Prop := 48 <= c /\ c <= 57.
Definition Digits (s : str) : Prop := s <> [] /\ Forall Digit s.

(** Positional value. *)
Fixpoint numval (s : str) : Z :=
  match s with
  | [] => 0
  | c :: t => (Z.of_N c - 48) * 10 ^ Z.of_nat (length t) + numval t
  end%Z.

(** Exactly two digits denoting [n]. *)
Definition Two (s : str) (n : Z) : Prop :=
  length s = 2%nat /\ Forall Digit s /\ n = numval s.

(** ** Dates and times *)
Definition XsdTimezone (s : str) : Prop :=
  s = lit "Z" \/
  exists sg hs h ms m,
    s = sg ++ hs ++ lit ":" ++ ms /\ (sg = lit "+" \/ sg = lit "-") /\
    Two hs h /\ Two ms m /\ (m <= 59)%Z /\ (60 * h + m <= 14 * 60)%Z.

Definition XsdTimezoneOpt (s : str) : Prop := s = [] \/ XsdTimezone s.

(** A year: at least four digits, no superfluous leading zero; [ds] are its digits. *)
Definition XsdYear (s ds : str) (y : Z) : Prop :=
  ((s = ds /\ y = numval ds) \/ (s = lit "-" ++ ds /\ y = (- numval ds)%Z)) /\
  Forall Digit ds /\ (4 <= length ds)%nat /\ ((5 <= length ds)%nat -> nth 0 ds 0 <> 48).

(** Proleptic Gregorian calendar without a year 0: the year -1 precedes the year 1. *)
Definition Astronomical (y : Z) : Z := if (y <? 0)%Z then (y + 1)%Z else y.
Definition Leap (y : Z) : Prop :=
  let a := Astronomical y in ((4 | a) /\ (~ (100 | a) \/ (400 | a)))%Z.

Definition ExistingDay (y m d : Z) : Prop :=
  (y <> 0 /\ 1 <= d /\
   ((In m [1; 3; 5; 7; 8; 10; 12] /\ d <= 31) \/
    (In m [4; 6; 9; 11] /\ d <= 30) \/
    (m = 2 /\ (d <= 28 \/ (d = 29 /\ Leap y)))))%Z.

(** year-month-day *)
Definition XsdYmd (s ds : str) (y m d : Z) : Prop :=
  exists ys ms es, s = ys ++ lit "-" ++ ms ++ lit "-" ++ es /\
    XsdYear ys ds y /\ Two ms m /\ Two es d.

(** A month between 1 and 12 and a day between 1 and 31, whether or not the day exists *)
Definition MonthDayRange (m d : Z) : Prop := (1 <= m <= 12 /\ 1 <= d <= 31)%Z.

(** Lexical form of a date; [ds] are the digits of the year. *)
Definition XsdDateLex (s ds : str) (y m d : Z) : Prop :=
  exists u tz, s = u ++ tz /\ XsdYmd u ds y m d /\ MonthDayRange m d /\ XsdTimezoneOpt tz.

Definition XsdDate (s : str) : Prop :=
  exists ds y m d, XsdDateLex s ds y m d /\ ExistingDay y m d.

Definition XsdFraction (s : str) : Prop := s = [] \/ exists ds, s = lit "." ++ ds /\ Digits ds.
Definition XsdZeroFraction (s : str) : Prop :=
  s = [] \/ exists ds, s = lit "." ++ ds /\ ds <> [] /\ Forall (eq 48) ds.

(** hh:mm:ss with optional fraction, or the end of the day 24:00:00 *)
Definition XsdTimeOfDay (s : str) : Prop :=
  exists hs h ms m ss sec fr,
    s = hs ++ lit ":" ++ ms ++ lit ":" ++ ss ++ fr /\
    Two hs h /\ Two ms m /\ Two ss sec /\
    (((h <= 23 /\ m <= 59 /\ sec <= 59)%Z /\ XsdFraction fr) \/
     ((h = 24 /\ m = 0 /\ sec = 0)%Z /\ XsdZeroFraction fr)).

Definition XsdTime (s : str) : Prop :=
  exists t tz, s = t ++ tz /\ XsdTimeOfDay t /\ XsdTimezoneOpt tz.

(** date "T" time zone; [zone] says which zones are allowed *)
Definition XsdDateTimeLex (zone : str -> Prop) (s ds : str) (y m d : Z) : Prop :=
  exists u t tz, s = u ++ lit "T" ++ t ++ tz /\
    XsdYmd u ds y m d /\ MonthDayRange m d /\ XsdTimeOfDay t /\ zone tz.

Definition XsdDateTime (zone : str -> Prop) (s : str) : Prop :=
  exists ds y m d, XsdDateTimeLex zone s ds y m d /\ ExistingDay y m d.

Definition UtcZone (s : str) : Prop := In s [lit "Z"; lit "+00:00"; lit "-00:00"].

Definition XsdGYear (s : str) : Prop :=
  exists ys ds y tz, s = ys ++ tz /\ XsdYear ys ds y /\ XsdTimezoneOpt tz.
Definition XsdGYearMonth (s : str) : Prop :=
  exists ys ds y ms m tz, s = ys ++ lit "-" ++ ms ++ tz /\
    XsdYear ys ds y /\ Two ms m /\ (1 <= m <= 12)%Z /\ XsdTimezoneOpt tz.
Definition XsdGMonth (s : str) : Prop :=
  exists ms m tz, s = lit "--" ++ ms ++ tz /\ Two ms m /\ (1 <= m <= 12)%Z /\ XsdTimezoneOpt tz.
Definition XsdGDay (s : str) : Prop :=
  exists es d tz, s = lit "---" ++ es ++ tz /\ Two es d /\ (1 <= d <= 31)%Z /\ XsdTimezoneOpt tz.
(** The 29th of February exists in some year. *)
Definition XsdGMonthDay (s : str) : Prop :=
  exists ms m es d tz, s = lit "--" ++ ms ++ lit "-" ++ es ++ tz /\
    Two ms m /\ Two es d /\ XsdTimezoneOpt tz /\ exists y, ExistingDay y m d.

(** ** Durations *)
(** A number followed by the designator [x], or nothing. *)
Definition DurPart (x : string) (s : str) : Prop := s = [] \/ exists ds, s = ds ++ lit x /\ Digits ds.
Definition DurSeconds (s : str) : Prop :=
  s = [] \/ exists ds fr, s = ds ++ fr ++ lit "S" /\ Digits ds /\ XsdFraction fr.
Definition XsdDuration (s : str) : Prop :=
  exists sg y mo d t,
    s = sg ++ lit "P" ++ y ++ mo ++ d ++ t /\ (sg = [] \/ sg = lit "-") /\
    DurPart "Y" y /\ DurPart "M" mo /\ DurPart "D" d /\
    (t = [] \/ exists h mi sec, t = lit "T" ++ h ++ mi ++ sec /\
                DurPart "H" h /\ DurPart "M" mi /\ DurSeconds sec /\ h ++ mi ++ sec <> []) /\
    y ++ mo ++ d ++ t <> [].

(** ** Integers *)
Definition Sign (s : str) (neg : bool) : Prop :=
  (neg = false /\ (s = [] \/ s = lit "+")) \/ (neg = true /\ s = lit "-").

Definition signed (neg : bool) (v : Z) : Z := if neg then (- v)%Z else v.

(** An XSD integer literal with digits [ds] denoting [v]. *)
Definition XsdInteger (s ds : str) (v : Z) : Prop :=
  exists sg neg, s = sg ++ ds /\ Sign sg neg /\ Digits ds /\ v = signed neg (numval ds).

(** Value ranges of the integer types (XML Schema Part 2, 3.4.13 to 3.4.25). *)
Definition int_range (t : xsd) : option (option Z * option Z) :=
  (match t with
   | X_integer => Some (None, None)
   | X_long => Some (Some (- 2 ^ 63), Some (2 ^ 63 - 1))
   | X_int => Some (Some (- 2 ^ 31), Some (2 ^ 31 - 1))
   | X_short => Some (Some (- 2 ^ 15), Some (2 ^ 15 - 1))
   | X_byte => Some (Some (- 2 ^ 7), Some (2 ^ 7 - 1))
   | X_unsignedLong => Some (Some 0, Some (2 ^ 64 - 1))
   | X_unsignedInt => Some (Some 0, Some (2 ^ 32 - 1))
   | X_unsignedShort => Some (Some 0, Some (2 ^ 16 - 1))
   | X_unsignedByte => Some (Some 0, Some (2 ^ 8 - 1))
   | X_positiveInteger => Some (Some 1, None)
   | X_nonNegativeInteger => Some (Some 0, None)
   | X_nonPositiveInteger => Some (None, Some 0)
   | X_negativeInteger => Some (None, Some (-1))
   | _ => None
   end)%Z.

Definition in_range (r : option Z * option Z) (v : Z) : Prop :=
  (match fst r with Some lo => lo <= v | None => True end /\
   match snd r with Some hi => v <= hi | None => True end)%Z.

(** What python's [int] reads: Unicode decimals in groups separated by single underscores,
    surrounded by white space. *)
Definition UnicodeDigit (c d : N) : Prop := exists z, In z decimal_zeros /\ c = z + d /\ d <= 9.
Definition IntSpace (c : N) : Prop :=
  (9 <= c /\ c <= 13) \/ c = 32 \/ (127 < c /\ is_space c = true).

(** Number denoted by decimals [ds] given as numbers from 0 to 9. *)
Fixpoint decval (ds : list N) : Z :=
  match ds with
  | [] => 0
  | d :: t => Z.of_N d * 10 ^ Z.of_nat (length t) + decval t
  end%Z.

Definition PyInteger (s : str) (v : Z) : Prop :=
  exists w1 sg neg groups w2 ds,
    s = w1 ++ sg ++ join (lit "_") groups ++ w2 /\
    Forall IntSpace w1 /\ Forall IntSpace w2 /\ Sign sg neg /\
    groups <> [] /\ Forall (fun g => g <> []) groups /\
    Forall2 UnicodeDigit (concat groups) ds /\ N.of_nat (length ds) <= 4300 /\
    v = signed neg (decval ds).

(** ** Decimals and floating point numbers *)
(** Unsigned decimal notation: integral digits [ip], fraction digits [fp]. *)
Definition Mantissa (s ip fp : str) : Prop :=
  Forall Digit ip /\ Forall Digit fp /\ ip ++ fp <> [] /\
  (s = ip ++ lit "." ++ fp \/ (s = ip /\ fp = [])).

Definition XsdDecimal (s : str) : Prop :=
  exists sg neg m ip fp, s = sg ++ m /\ Sign sg neg /\ Mantissa m ip fp.

(** A finite float or double literal with magnitude [m * 10^e]. *)
Definition XsdFloat (s : str) (m e : Z) : Prop :=
  exists sg neg mant ip fp ex x,
    s = sg ++ mant ++ ex /\ Sign sg neg /\ Mantissa mant ip fp /\
    ((ex = [] /\ x = 0%Z) \/
     exists c sg' neg' ds, ex = c :: sg' ++ ds /\ (c = 101 \/ c = 69) /\ Sign sg' neg' /\
       Digits ds /\ x = signed neg' (numval ds)) /\
    m = numval (ip ++ fp) /\ e = (x - Z.of_nat (length fp))%Z.

(** [m * 10^e <= b] and [m * 10^e < b] without fractions *)
Definition dec_le (m e b : Z) : Prop := (m * 10 ^ Z.max e 0 <= b * 10 ^ Z.max (- e) 0)%Z.
Definition dec_lt (m e b : Z) : Prop := (m * 10 ^ Z.max e 0 < b * 10 ^ Z.max (- e) 0)%Z.

(** The largest finite values of xs:float and xs:double *)
Definition max_float : Z := ((2 ^ 24 - 1) * 2 ^ 104)%Z.
Definition max_double : Z := ((2 ^ 53 - 1) * 2 ^ 971)%Z.

(** ** boolean, hexBinary, base64Binary *)
Definition XsdBoolean (s : str) : Prop :=
  s = lit "true" \/ s = lit "false" \/ s = lit "1" \/ s = lit "0".

Definition HexDigit (c : N) : Prop := Digit c \/ (65 <= c /\ c <= 70) \/ (97 <= c /\ c <= 102).
Definition XsdHexBinary (s : str) : Prop := Forall HexDigit s /\ Nat.Even (length s).

(** What [bytes.fromhex] reads: bytes with ASCII white space around them. *)
Definition AsciiSpace (c : N) : Prop := (9 <= c /\ c <= 13) \/ c = 32.
Definition PyHex (s : str) : Prop :=
  exists w (l : list (N * N * str)),
    s = w ++ concat (List.map (fun x => fst (fst x) :: snd (fst x) :: snd x) l) /\
    Forall AsciiSpace w /\
    Forall (fun x => HexDigit (fst (fst x)) /\ HexDigit (snd (fst x)) /\ Forall AsciiSpace (snd x)) l.

Definition B64Char (c : N) : Prop :=
  Digit c \/ (65 <= c /\ c <= 90) \/ (97 <= c /\ c <= 122) \/ c = 43 \/ c = 47.

(** Four characters; the last group may be padded, then the unused bits are zero
    (the lexical form of XSD, with the optional blanks removed). *)
Definition B64Groups (s : str) : Prop :=
  exists q f, s = concat q ++ f /\
    Forall (fun g => length g = 4%nat /\ Forall B64Char g) q /\
    (f = [] \/
     (exists a b c, f = [a; b; c; 61] /\ B64Char a /\ B64Char b /\ In c (lit "AEIMQUYcgkosw048")) \/
     (exists a b, f = [a; b; 61; 61] /\ B64Char a /\ In b (lit "AQgw"))).

(** Blanks may follow every character but the last, one at a time. *)
Definition XsdBase64 (s : str) : Prop :=
  B64Groups (filter (fun c => negb (c =? 32)) s) /\
  ~ (exists t, s = lit " " ++ t) /\ ~ (exists t, s = t ++ lit " ") /\
  ~ (exists t u, s = t ++ lit "  " ++ u).

(** ** Language tags: RFC 5646, 2.1.  A tag is a list of subtags joined by hyphens. *)
Definition Alpha (c : N) : Prop := (65 <= c /\ c <= 90) \/ (97 <= c /\ c <= 122).
Definition AlphaNum (c : N) : Prop := Alpha c \/ Digit c.

Definition Subtag (p : N -> Prop) (lo hi : nat) (s : str) : Prop :=
  (lo <= length s <= hi)%nat /\ Forall p s.

Definition LangSubtags (l : list str) : Prop :=
  (exists a ext, l = a :: ext /\ Subtag Alpha 2 3 a /\ (length ext <= 3)%nat /\ Forall (Subtag Alpha 3 3) ext) \/
  (exists a, l = [a] /\ Subtag Alpha 4 8 a).
Definition Optional (p : str -> Prop) (l : list str) : Prop := l = [] \/ exists a, l = [a] /\ p a.
Definition RegionSubtag (s : str) : Prop := Subtag Alpha 2 2 s \/ Subtag Digit 3 3 s.
Definition VariantSubtag (s : str) : Prop :=
  Subtag AlphaNum 5 8 s \/ (Subtag AlphaNum 4 4 s /\ Digit (nth 0 s 0)).
Definition Singleton (s : str) : Prop := exists c, s = [c] /\ AlphaNum c /\ c <> 120 /\ c <> 88.
Definition ExtensionSubtags (l : list str) : Prop :=
  exists a t, l = a :: t /\ Singleton a /\ t <> [] /\ Forall (Subtag AlphaNum 2 8) t.
Definition PrivateSubtags (l : list str) : Prop :=
  exists a t, l = a :: t /\ (a = lit "x" \/ a = lit "X") /\ t <> [] /\ Forall (Subtag AlphaNum 1 8) t.
Definition LangTag (l : list str) : Prop :=
  exists la sc re va ex pr, l = la ++ sc ++ re ++ va ++ concat ex ++ pr /\
    LangSubtags la /\ Optional (Subtag Alpha 4 4) sc /\ Optional RegionSubtag re /\
    Forall VariantSubtag va /\ Forall ExtensionSubtags ex /\ (pr = [] \/ PrivateSubtags pr).

Definition irregular_tags : list str :=
  List.map lit ["en-GB-oed"; "i-ami"; "i-bnn"; "i-default"; "i-enochian"; "i-hak"; "i-klingon"; "i-lux";
    "i-mingo"; "i-navajo"; "i-pwn"; "i-tao"; "i-tay"; "i-tsu"; "sgn-BE-FR"; "sgn-BE-NL"; "sgn-CH-DE"]%string.
Definition regular_tags : list str :=
  List.map lit ["art-lojban"; "cel-gaulish"; "no-bok"; "no-nyn"; "zh-guoyu"; "zh-hakka"; "zh-min";
    "zh-min-nan"; "zh-xiang"]%string.

(** The same letters up to upper and lower case. *)
Definition same_ignoring_case (a b : str) : Prop := List.map lower_ascii a = List.map lower_ascii b.

(** Literals of the ABNF are matched without regard to case (RFC 5234, 2.3). *)
Definition WellFormedTag (s : str) : Prop :=
  (exists l, s = join (lit "-") l /\ (LangTag l \/ PrivateSubtags l)) \/
  Exists (same_ignoring_case s) (irregular_tags ++ regular_tags).

(** The same with the irregular tags spelled as registered. *)
Definition WellFormedTagCased (s : str) : Prop :=
  (exists l, s = join (lit "-") l /\ (LangTag l \/ PrivateSubtags l)) \/
  In s (irregular_tags ++ regular_tags).

(** ** IRI references: RFC 3987, 2.2, as sets of strings *)
Definition lng := str -> Prop.
Definition l_seq (a b : lng) : lng := fun s => exists u v, s = u ++ v /\ a u /\ b v.
Definition l_alt (a b : lng) : lng := fun s => a s \/ b s.
Definition l_opt (a : lng) : lng := fun s => s = [] \/ a s.
Definition l_many (lo : nat) (hi : option nat) (a : lng) : lng :=
  fun s => exists l, s = concat l /\ Forall a l /\ (lo <= length l)%nat /\
           match hi with Some h => (length l <= h)%nat | None => True end.
Definition l_lit (x : string) : lng := fun s => s = lit x.
Definition l_chr (p : N -> Prop) : lng := fun s => exists c, s = [c] /\ p c.
Declare Scope lng_scope.
Delimit Scope lng_scope with lng.
Local Notation "a ;; b" := (l_seq a b) (at level 60, right associativity) : lng_scope.
Local Notation "a // b" := (l_alt a b) (at level 62, right associativity) : lng_scope.
Local Notation "'*' a" := (l_many 0 None a) (at level 45) : lng_scope.
Local Open Scope lng_scope.

Definition Unreserved (c : N) : Prop :=
  AlphaNum c \/ c = 45 \/ c = 46 \/ c = 95 \/ c = 126. (* - . _ ~ *)
(** ucschar: the planes 0 to 14 without surrogates, private use and noncharacters *)
Definition Ucschar (c : N) : Prop :=
  (160 <= c /\ c <= 55295) \/ (63744 <= c /\ c <= 64975) \/ (65008 <= c /\ c <= 65519) \/
  (exists plane, 1 <= plane /\ plane <= 13 /\ plane * 65536 <= c /\ c <= plane * 65536 + 65533) \/
  (921600 <= c /\ c <= 983037).
Definition Iprivate (c : N) : Prop :=
  (57344 <= c /\ c <= 63743) \/ (983040 <= c /\ c <= 1048573) \/ (1048576 <= c /\ c <= 1114109).
Definition SubDelim (c : N) : Prop := In c (lit "!$&'()*+,;=").

Definition iunreserved : lng := l_chr (fun c => Unreserved c \/ Ucschar c).
Definition pct_encoded : lng := l_lit "%" ;; l_chr HexDigit ;; l_chr HexDigit.
Definition sub_delims : lng := l_chr SubDelim.
Definition ipchar : lng := iunreserved // pct_encoded // sub_delims // l_lit ":" // l_lit "@".
Definition iuserinfo : lng := * (iunreserved // pct_encoded // sub_delims // l_lit ":").
Definition h16 : lng := l_many 1 (Some 4%nat) (l_chr HexDigit).
(** a decimal number from 0 to 255 without leading zeros *)
Definition dec_octet : lng :=
  fun s => Digits s /\ (numval s <= 255)%Z /\ ((2 <= length s)%nat -> nth 0 s 0 <> 48).
Definition ipv4 : lng :=
  dec_octet ;; l_lit "." ;; dec_octet ;; l_lit "." ;; dec_octet ;; l_lit "." ;; dec_octet.
Definition ls32 : lng := (h16 ;; l_lit ":" ;; h16) // ipv4.
Definition h16c : lng := h16 ;; l_lit ":".
Definition times (n : nat) (a : lng) : lng := l_many n (Some n) a.
Definition upto (n : nat) (a : lng) : lng := l_many 0 (Some n) a.
Definition ipv6 : lng :=
     (times 6 h16c ;; ls32)
  // (l_lit "::" ;; times 5 h16c ;; ls32)
  // (l_opt h16 ;; l_lit "::" ;; times 4 h16c ;; ls32)
  // (l_opt (upto 1 h16c ;; h16) ;; l_lit "::" ;; times 3 h16c ;; ls32)
  // (l_opt (upto 2 h16c ;; h16) ;; l_lit "::" ;; times 2 h16c ;; ls32)
  // (l_opt (upto 3 h16c ;; h16) ;; l_lit "::" ;; h16c ;; ls32)
  // (l_opt (upto 4 h16c ;; h16) ;; l_lit "::" ;; ls32)
  // (l_opt (upto 5 h16c ;; h16) ;; l_lit "::" ;; h16)
  // (l_opt (upto 6 h16c ;; h16) ;; l_lit "::").
Definition ipvfuture : lng :=
  (l_lit "v" // l_lit "V") ;; l_many 1 None (l_chr HexDigit) ;; l_lit "." ;;
  l_many 1 None (l_chr (fun c => Unreserved c \/ SubDelim c \/ c = 58)).

(** The same with exactly as many groups before the [::] as the grammar allows at most. *)
Definition ipv6_full : lng :=
     (times 6 h16c ;; ls32)
  // (l_lit "::" ;; times 5 h16c ;; ls32)
  // (l_opt h16 ;; l_lit "::" ;; times 4 h16c ;; ls32)
  // (l_opt (l_opt h16c ;; h16) ;; l_lit "::" ;; times 3 h16c ;; ls32)
  // (l_opt (times 2 h16c ;; h16) ;; l_lit "::" ;; times 2 h16c ;; ls32)
  // (l_opt (times 3 h16c ;; h16) ;; l_lit "::" ;; h16c ;; ls32)
  // (l_opt (times 4 h16c ;; h16) ;; l_lit "::" ;; ls32)
  // (l_opt (times 5 h16c ;; h16) ;; l_lit "::" ;; h16)
  // (l_opt (times 6 h16c ;; h16) ;; l_lit "::").

(** The grammar over a given notion of IPv6 address. *)
Section Iri.
  Variable ipv6address : lng.
  Definition ip_literal : lng := l_lit "[" ;; (ipv6address // ipvfuture) ;; l_lit "]".
  Definition ireg_name : lng := * (iunreserved // pct_encoded // sub_delims).
  Definition ihost : lng := ip_literal // ipv4 // ireg_name.
  Definition iauthority : lng :=
    l_opt (iuserinfo ;; l_lit "@") ;; ihost ;; l_opt (l_lit ":" ;; * l_chr Digit).
  Definition isegment : lng := * ipchar.
  Definition isegment_nz : lng := l_many 1 None ipchar.
  Definition isegment_nz_nc : lng :=
    l_many 1 None (iunreserved // pct_encoded // sub_delims // l_lit "@").
  Definition ipath_abempty : lng := * (l_lit "/" ;; isegment).
  Definition ipath_absolute : lng := l_lit "/" ;; l_opt (isegment_nz ;; ipath_abempty).
  Definition ipath_noscheme : lng := isegment_nz_nc ;; ipath_abempty.
  Definition ipath_rootless : lng := isegment_nz ;; ipath_abempty.
  Definition ipath_empty : lng := fun s => s = [].
  Definition scheme : lng :=
    l_chr Alpha ;; * l_chr (fun c => AlphaNum c \/ c = 43 \/ c = 45 \/ c = 46).
  Definition iquery : lng := * (ipchar // l_chr Iprivate // l_lit "/" // l_lit "?").
  Definition ifragment : lng := * (ipchar // l_lit "/" // l_lit "?").
  Definition ihier_part : lng :=
    (l_lit "//" ;; iauthority ;; ipath_abempty) // ipath_absolute // ipath_rootless // ipath_empty.
  Definition irelative_part : lng :=
    (l_lit "//" ;; iauthority ;; ipath_abempty) // ipath_absolute // ipath_noscheme // ipath_empty.
  Definition tail_parts : lng := l_opt (l_lit "?" ;; iquery) ;; l_opt (l_lit "#" ;; ifragment).
  Definition Iri : lng := scheme ;; l_lit ":" ;; ihier_part ;; tail_parts.
  Definition IrelativeRef : lng := irelative_part ;; tail_parts.
  Definition IriReferenceWith : lng := Iri // IrelativeRef.
End Iri.

Definition IriReference : lng := IriReferenceWith ipv6.

(** ** Version numbers and English language tags *)
(** A natural number without leading zeros. *)
Definition VersionText (s : str) : Prop := Digits s /\ (s = lit "0" \/ nth 0 s 0 <> 48).

(** [t] followed by at most one line feed. *)
Definition UpToLineFeed (p : str -> Prop) (s : str) : Prop :=
  p s \/ exists t, s = t ++ [10] /\ p t.
