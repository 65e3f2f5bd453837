(** The scripts of bin/ that guard a release: check_version_strings.py and check_readme.py. *)
From Coq Require Import String List NArith Bool.
From Verif Require Import PyStr PyBase Regex ArgModel.
Import ListNotations.
Local Open Scope N_scope.

(** io.TextIOWrapper with newline=None ("universal newlines"): "\r\n" and "\r" are read as "\n".  Decoding is not modelled, texts are given as
    lists of code points. *)
Fixpoint universal (s : str) : str :=
  match s with
  | [] => []
  | c :: t =>
    if c =? 13 then 10 :: match t with d :: u => if d =? 10 then universal u else universal t | [] => [] end
    else c :: universal t
  end.
(** [f.readlines()]: lines with their line breaks; only the last one can be without *)
Fixpoint cut_lines (line s : str) : list str :=
  match s with
  | [] => match line with [] => [] | _ => [line] end
  | c :: t => if c =? 10 then (line ++ [c]) :: cut_lines [] t else cut_lines (line ++ [c]) t
  end.
Definition readlines (file : str) : list str := cut_lines [] (universal file).

(** ** check_version_strings.py *)
(** what is printed, and the message of the [RuntimeError] that ends the script, if any *)
Definition ending := (list str * option str)%type.

(** check_version_strings.py:15-23 [assert_line_in_file]; the file is given by its name and its text *)
Definition assert_line_in_file (expected name text : str) : ending :=
  if existsb (fun line => str_eqb line (expected ++ [10])) (readlines text)
  then ([name ++ lit " is ok."], None)
  else ([], Some (lit "'" ++ expected ++ lit "' not found in " ++ name)).

(** check_version_strings.py:31 [r'v\d+\.\d+\.\d+'] *)
Definition re_tag : re :=
  let number := rplus (RCls decimal_digits) in
  RCat (rchr 118) (RCat number (RCat (rchr 46) (RCat number (RCat (rchr 46) number)))).

Definition then_ (a b : ending) : ending :=
  match a with (out, None) => (out ++ fst b, snd b) | _ => a end.

(** check_version_strings.py:10-12, 26-38: the whole script, given the decoded output of [git tag --points-at HEAD] and the texts of both files *)
Definition check_version_strings (git_output pyproject init : str) : ending :=
  let tag := strip git_output in
  match tag with
  | [] => ([], Some (lit "Commit is not tagged"))
  | _ =>
    then_ ([lit "Tag: '" ++ tag ++ lit "'"], None)
      (if matches re_tag tag then
         let tag := skipn 1 tag in
         then_ (assert_line_in_file (lit "version = """ ++ tag ++ lit """") (lit "pyproject.toml") pyproject)
               (assert_line_in_file (lit "    return """ ++ tag ++ lit """") (lit "aas_test_engines/__init__.py") init)
       else ([], Some (lit "Tag has invalid format")))
  end.

(** ** check_readme.py *)
(** check_readme.py:21-25 *)
Record block := { lang : str; check : bool; content : str }.

(** check_readme.py:8 *)
Definition disable_check : str := lit "<!-- no-check -->".

(** check_readme.py:28-47: the loop over the lines with [blocks] (newest first), [last_block] and [check_next] *)
Fixpoint scan_readme (blocks : list block) (last_block : option block) (check_next : bool) (lines : list str) : outcome (list block) :=
  match lines with
  | [] => Val (rev blocks)
  | line :: rest =>
    if startswith (lit "```") line then
      match last_block with
      | None => scan_readme blocks (Some {| lang := strip (skipn 3 line); check := check_next; content := [] |}) true rest
      | Some b => scan_readme (b :: blocks) None check_next rest
      end
    else if startswith disable_check line then
      match last_block with
      | Some _ => Raise GenericException
      | None => scan_readme blocks last_block false rest
      end
    else
      match last_block with
      | Some b => scan_readme blocks (Some {| lang := lang b; check := check b; content := content b ++ line |}) check_next rest
      | None => scan_readme blocks None check_next rest
      end
  end.

(** how the script ends: it found so many blocks and executed these snippets; unless [last_ok], [subprocess.check_call] raised for the last of them *)
Inductive readme_ending := Bad_readme (e : exn) | Snippets (found : nat) (executed : list str) (last_ok : bool).

(** check_readme.py:57-68: [works] says whether python ends with status 0 when executing a snippet in the prepared directory; it gets the snippets
    that were executed before, since all share that directory.  The printed texts but the number of blocks are left out. *)
Fixpoint execute_snippets (works : list str -> str -> bool) (before : list str) (blocks : list block) : list str * bool :=
  match blocks with
  | [] => (before, true)
  | b :: rest =>
    if check b then
      if works before (content b) then execute_snippets works (before ++ [content b]) rest else (before ++ [content b], false)
    else execute_snippets works before rest
  end.

Definition check_readme (works : list str -> str -> bool) (readme : str) : readme_ending :=
  match scan_readme [] None true (readlines readme) with
  | Raise e => Bad_readme e
  | Val blocks => let '(executed, ok) := execute_snippets works [] blocks in Snippets (length blocks) executed ok
  end.
