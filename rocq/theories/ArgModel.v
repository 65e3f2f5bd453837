(** The part of [argparse] (CPython 3.11, argparse.py) that aas_test_engines/__main__.py uses.

    Parsers have positional arguments that take one string each, options that take no, one or at
    least one string, no option with one dash but "-h", and no groups, subcommands or argument
    files.  Texts of messages are not modelled. *)
From Coq Require Import PeanoNat String List NArith Bool.
From Verif Require Import PyStr PyBase ConfigModel.
Import ListNotations.
Local Open Scope list_scope.

Inductive nargs := Zero | One | Many.
(** The option strings in the order of their declaration, with the name of the setting
    ([dest]), and the names of the positional arguments *)
Record parser := Parser { options : list (str * (str * nargs)); positionals : list str }.
(** argparse.py:1744-1752: every parser has the option for help *)
Definition help : str := lit "help".
Definition with_help (l : list (str * (str * nargs))) : list (str * (str * nargs)) :=
  (lit "-h", (help, Zero)) :: (lit "--help", (help, Zero)) :: l.

(** An option string with the text behind it in the same string: [Some (true, e)] is "=e",
    [Some (false, e)] is "-he" *)
Record found := Found { f_dest : str; f_nargs : nargs; f_long : bool; f_explicit : option (bool * str) }.
(** 'A', '-' and 'O' of argparse.py:1935-1961; [Unknown] is an option that does not exist *)
Inductive kind := Argument | Dashes | Option (f : found) | Unknown.
Definition item := (str * kind)%type.

Definition is_long (o : str) : bool := startswith (lit "--") o.
Definition find (o : str * (str * nargs)) (e : option (bool * str)) : found :=
  Found (fst (snd o)) (snd (snd o)) (is_long (fst o)) e.

(** [re] class \d: characters of category Nd (Unicode 14) *)
Definition decimal_digits : list (N * N) :=
  [(48, 57); (1632, 1641); (1776, 1785); (1984, 1993); (2406, 2415); (2534, 2543); (2662, 2671); (2790, 2799); (2918, 2927);
   (3046, 3055); (3174, 3183); (3302, 3311); (3430, 3439); (3558, 3567); (3664, 3673); (3792, 3801); (3872, 3881); (4160, 4169);
   (4240, 4249); (6112, 6121); (6160, 6169); (6470, 6479); (6608, 6617); (6784, 6793); (6800, 6809); (6992, 7001); (7088, 7097);
   (7232, 7241); (7248, 7257); (42528, 42537); (43216, 43225); (43264, 43273); (43472, 43481); (43504, 43513); (43600, 43609);
   (44016, 44025); (65296, 65305); (66720, 66729); (68912, 68921); (69734, 69743); (69872, 69881); (69942, 69951); (70096, 70105);
   (70384, 70393); (70736, 70745); (70864, 70873); (71248, 71257); (71360, 71369); (71472, 71481); (71904, 71913); (72016, 72025);
   (72784, 72793); (73040, 73049); (73120, 73129); (92768, 92777); (92864, 92873); (93008, 93017); (120782, 120831);
   (123200, 123209); (123632, 123641); (125264, 125273); (130032, 130041)]%N.
Definition is_decimal_digit (c : N) : bool := existsb (in_range c) decimal_digits.

(** argparse.py:1732 [re.compile(r'^-\d+$|^-\d*\.\d+$')]; "$" also matches before a final line break *)
Definition cut_newline (s : str) : str := match rev s with c :: r => if N.eqb c 10 then rev r else s | [] => s end.
Definition digits (s : str) : bool := nonempty s && forallb is_decimal_digit s.
Definition negative_number (s : str) : bool :=
  match s with
  | c :: t =>
      N.eqb c 45 &&
      (let t := cut_newline t in
       digits t || match split_first 46 t with Some (a, b) => forallb is_decimal_digit a && digits b | None => false end)
  | [] => false
  end.

(** argparse.py:2287-2325 [_get_option_tuples] for a string of at least two characters, the first being "-" *)
Definition option_tuples (opts : list (str * (str * nargs))) (s : str) : list found :=
  if startswith (lit "--") s then
    let '(prefix, e) := match split_first 61 s with Some (a, b) => (a, Some (true, b)) | None => (s, None) end in
    List.map (fun o => find o e) (filter (fun o => startswith prefix (fst o)) opts)
  else
    flat_map (fun o => if str_eqb (fst o) (firstn 2 s) then [find o (Some (false, skipn 2 s))]
                       else if startswith s (fst o) then [find o None] else []) opts.

Definition lookup_option (opts : list (str * (str * nargs))) (s : str) : option (str * (str * nargs)) :=
  match lookup s opts with Some x => Some (s, x) | None => None end.

(** argparse.py:2233-2285 [_parse_optional]; [None] is the error for ambiguous options *)
Definition classify (opts : list (str * (str * nargs))) (s : str) : option kind :=
  match s with
  | [] => Some Argument
  | c :: t =>
      if negb (N.eqb c 45) then Some Argument else
      match lookup_option opts s with
      | Some o => Some (Option (find o None))
      | None =>
          match t with
          | [] => Some Argument
          | _ =>
              match match split_first 61 s with
                    | Some (a, b) => match lookup_option opts a with Some o => Some (find o (Some (true, b))) | None => None end
                    | None => None
                    end with
              | Some f => Some (Option f)
              | None =>
                  match option_tuples opts s with
                  | _ :: _ :: _ => None
                  | [f] => Some (Option f)
                  | [] => if negative_number s then Some Argument
                          else if existsb (N.eqb 32) s then Some Argument else Some Unknown
                  end
              end
          end
      end
  end.

(** argparse.py:1935-1964 *)
Fixpoint classify_all (opts : list (str * (str * nargs))) (l : list str) : option (list item) :=
  match l with
  | [] => Some []
  | s :: r =>
      if str_eqb s (lit "--") then Some ((s, Dashes) :: List.map (fun x => (x, Argument)) r)
      else match classify opts s, classify_all opts r with
           | Some k, Some l => Some ((s, k) :: l)
           | _, _ => None
           end
  end.

(** argparse.py:2448-2453: the first "--" is removed from the strings of a positional argument *)
Fixpoint remove_dashes (l : list str) : list str :=
  match l with [] => [] | s :: r => if str_eqb s (lit "--") then r else s :: remove_dashes r end.

Fixpoint take_dashes (l : list item) : list str * list item :=
  match l with
  | (s, Dashes) :: r => let '(a, b) := take_dashes r in (s :: a, b)
  | _ => ([], l)
  end.
(** the pattern of a positional argument, one "A" with any number of "-" on both sides, argparse.py:2336-2337 *)
Definition take_one (l : list item) : option (list str * list item) :=
  let '(a, l) := take_dashes l in
  match l with
  | (s, Argument) :: l => let '(b, l) := take_dashes l in Some (a ++ s :: b, l)
  | _ => None
  end.
(** [take_action]: the name of a setting and the strings for it *)
Definition event := (str * list str)%type.
(** argparse.py:2070-2088 [consume_positionals] with argparse.py:2215-2231 [_match_arguments_partial]: as many as possible.
    (The pattern of one argument takes all dashes that follow, so the longest match is found from left to right.) *)
Fixpoint take_positionals (ps : list str) (l : list item) : list event * list str * list item :=
  match ps with
  | [] => ([], [], l)
  | p :: r =>
      match take_one l with
      | None => ([], ps, l)
      | Some (a, l) => let '(ev, ps, l) := take_positionals r l in ((p, remove_dashes a) :: ev, ps, l)
      end
  end.

(** the patterns [(A)] and [(A+)] of options, argparse.py:2336-2384 *)
Fixpoint take_arguments (l : list item) : list str * list item :=
  match l with
  | (s, Argument) :: r => let '(a, b) := take_arguments r in (s :: a, b)
  | _ => ([], l)
  end.

(** argparse.py:2011-2039 for "-h" with further characters in the same string: "-hh" is "-h -h".  Does not fail? *)
Fixpoint help_tail (sep : bool) (e : str) : bool :=
  match e with
  | [] => false
  | c :: r =>
      if sep || N.eqb c 45 then false
      else if N.eqb c 104 then
        match r with
        | [] => true
        | d :: r' => if N.eqb d 61 then help_tail true r' else help_tail false r
        end
      else true
  end.

(** argparse.py:1995-2067 [consume_optional]; [None] is an ArgumentError *)
Definition take_option (f : found) (l : list item) : option (event * list item) :=
  match f_explicit f, f_nargs f with
  | None, Zero => Some ((f_dest f, []), l)
  | None, One => match l with (s, Argument) :: r => Some ((f_dest f, [s]), r) | _ => None end
  | None, Many => match take_arguments l with ([], _) => None | (a, r) => Some ((f_dest f, a), r) end
  | Some (sep, e), Zero => if negb (f_long f) && help_tail sep e then Some ((f_dest f, []), l) else None
  | Some (_, e), _ => Some ((f_dest f, [e]), l)
  end.

Definition is_option (i : item) : bool := match snd i with Option _ | Unknown => true | _ => false end.
Fixpoint up_to_option (l : list item) : list str * list item :=
  match l with
  | i :: r => if is_option i then ([], l) else let '(a, b) := up_to_option r in (fst i :: a, b)
  | [] => ([], [])
  end.

(** How scanning the command line ends: with an ArgumentError, or with the positional arguments that
    are missing and the strings that were not used.  [OutOfSteps] does not occur. *)
Inductive scanned := Wrong | Scanned (missing : list str) (extras : list str) | OutOfSteps.
Definition after (ev : list event) (x : list event * scanned) : list event * scanned := (ev ++ fst x, snd x).

(** argparse.py:2090-2130: the loop; the events in the order of [take_action] *)
Fixpoint scan_items (fuel : nat) (ps : list str) (l : list item) (extras : list str) : list event * scanned :=
  match fuel with
  | O => ([], OutOfSteps)
  | S n =>
      if existsb is_option l then
        match l with
        | (_, Option f) :: r =>
            match take_option f r with
            | None => ([], Wrong)
            | Some (ev, r) => after [ev] (scan_items n ps r extras)
            end
        | (s, Unknown) :: r => scan_items n ps r (extras ++ [s])
        | _ =>
            match take_positionals ps l with
            | ([], _, _) => let '(a, r) := up_to_option l in scan_items n ps r (extras ++ a)
            | (ev, ps, r) => after ev (scan_items n ps r extras)
            end
        end
      else
        let '(ev, ps, r) := take_positionals ps l in (ev, Scanned ps (extras ++ List.map fst r))
  end.
Definition scan_args (p : parser) (argv : list str) : list event * scanned :=
  match classify_all (options p) argv with
  | None => ([], Wrong)
  | Some l => scan_items (S (List.length l)) (positionals p) l []
  end.

(** What [type] and [choices] make of a string: a value, an error message (ArgumentTypeError, TypeError, ValueError), or
    another exception, which is not caught *)
Inductive converted (V : Type) := Converted (v : V) | Refused | Crashed (e : exn).
Arguments Converted {V}. Arguments Refused {V}. Arguments Crashed {V}.

(** How [parse_args] ends *)
Inductive parse_end (V : Type) := Parsed (settings : list (str * V)) | ParserExits (code : nat) | ParserDies (e : exn).
Arguments Parsed {V}. Arguments ParserExits {V}. Arguments ParserDies {V}.

Section Values.
  Context {V : Type}.
  (** the conversion of the strings for a setting *)
  Variable convert : str -> list str -> converted V.

  (** argparse.py:1976-1991 [take_action], one after the other; [_HelpAction] ends the program with status 0
      (argparse.py:1087-1089), errors with status 2 (argparse.py:2630-2642).  The settings, the last one first. *)
  Fixpoint take_actions (l : list event) (ns : list (str * V)) : parse_end V :=
    match l with
    | [] => Parsed ns
    | (d, a) :: r =>
        if str_eqb d help then ParserExits 0
        else match convert d a with
             | Converted v => take_actions r ((d, v) :: ns)
             | Refused => ParserExits 2
             | Crashed e => ParserDies e
             end
    end.
  (** argparse.py:1873-1878 [parse_args] *)
  Definition parse_args (p : parser) (argv : list str) : parse_end V :=
    let '(ev, s) := scan_args p argv in
    match take_actions ev [] with
    | Parsed ns => match s with Scanned [] [] => Parsed ns | _ => ParserExits 2 end
    | x => x
    end.
End Values.
