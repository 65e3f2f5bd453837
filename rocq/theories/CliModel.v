(** aas_test_engines/__main__.py: the command line tool. *)
From Coq Require Import PeanoNat String List NArith ZArith Bool.
From Verif Require Import PyStr PyBase PyXml PyVal ResultModel ContextModel ConfigModel HttpModel OpcModel FileModel TemplateModel ProgModel
  ApiModel ApiSpec ApiSuites ArgModel.
Import ListNotations.
Local Open Scope nat_scope.
Local Open Scope list_scope.

(** A file as a zip archive, as XML and as JSON (file.py:32-33, 48-49, 111-112) *)
Record file := File { f_zip : parsed archive; f_content : content }.
(** Everything outside of the program *)
Record world := World {
  w_file : str -> option file;        (* opening a file for reading; "-" is the standard input *)
  w_server : server;
  w_exists : str -> bool;             (* os.path.exists *)
  w_mkdir : str -> option exn;        (* os.mkdir, with the exception it raises *)
  w_prints : str -> bool;             (* the encoding of the standard output has all characters of the text *)
  w_template : str }.                 (* data/template.html *)

(** How the program ends: [sys.exit(code)], or an exception that is not handled.  (Python ends with status 1
    after such an exception.)  The end of [main] is [Exits 0]. *)
Inductive ending := Exits (code : nat) | Dies (e : exn).
(** What the program does: lines on the standard output, requests, directories *)
Record outputs := Outputs { out : list str; requests : trace; created : list str; ended : ending }.
Definition ends (e : ending) : outputs := Outputs [] [] [] e.

(** [print] line by line *)
Fixpoint print_all (prints : str -> bool) (l : list str) : list str * bool :=
  match l with
  | [] => ([], true)
  | s :: r => if prints s then let '(o, b) := print_all prints r in (s :: o, b) else ([], false)
  end.
(** [print] of some lines followed by [sys.exit(code)] *)
Definition print_exit (w : world) (h : trace) (l : list str) (code : nat) : outputs :=
  let '(o, b) := print_all (w_prints w) l in Outputs o h [] (if b then Exits code else Dies UnicodeEncodeError).

(** [json.dumps] (CPython json/encoder.py), for dictionaries with texts as keys *)
Fixpoint json_dumps (j : json) : str :=
  match j with
  | JNull => lit "null"
  | JBool b => if b then lit "true" else lit "false"
  | JInt z => str_of_Z z
  | JFloat t => t
  | JStr s => json_text s
  | JArr l => lit "[" ++ join (lit ", ") (List.map json_dumps l) ++ lit "]"
  | JObj kvs => lit "{" ++ join (lit ", ") (List.map (fun kv => json_text (fst kv) ++ lit ": " ++ json_dumps (snd kv)) kvs) ++ lit "}"
  end.

(** __main__.py:15-21, 24-27 *)
Inductive input_format := Fxml | Fjson | Faasx.
Inductive output_format := Otext | Ojson | Ohtml.
Definition input_formats : list (str * input_format) := [(lit "xml", Fxml); (lit "json", Fjson); (lit "aasx", Faasx)].
Definition output_formats : list (str * output_format) := [(lit "text", Otext); (lit "json", Ojson); (lit "html", Ohtml)].

(** __main__.py:30-35 *)
Definition parse_header_value (s : str) : outcome (str * str) :=
  match split_first 58 s with
  | Some (k, v) => Val (strip k, strip v)
  | None => Raise ArgumentTypeError
  end.

(** The values of settings.  [SNothing] is the empty list, which [argparse] gives for a positional argument "--" behind
    another "--" (argparse.py:2448-2453, 2493-2497). *)
Inductive setting :=
| SText (s : str) | SFile (f : file) | SInput (f : input_format) | SOutput (f : output_format)
| SHeaders (l : list (str * str)) | SFilter (f : test_filter) | STrue | SNothing.

(** argparse.py:2502-2530 [_get_value]: these exceptions are reported, others are not *)
Definition conversion {A} (f : A -> setting) (o : outcome A) : converted setting :=
  match o with
  | Val x => Converted (f x)
  | Raise ArgumentTypeError | Raise TypeError | Raise ValueError => Refused
  | Raise e => Crashed e
  end.
(** a list of values, argparse.py:2493-2497 *)
Fixpoint map_outcome {A B} (f : A -> outcome B) (l : list A) : outcome (list B) :=
  match l with [] => Val [] | x :: r => let* y := f x in let* ys := map_outcome f r in Val (y :: ys) end.

(** the [type] of each setting, __main__.py:40-54, 77-103, 151.  Files that cannot be opened are reported
    (argparse.py:1313-1341 [FileType]); enumerations raise ValueError for other values. *)
Definition convert (w : world) (d : str) (a : list str) : converted setting :=
  if str_eqb d (lit "header") then conversion SHeaders (map_outcome parse_header_value a)
  else if str_eqb d (lit "dry") then Converted STrue
  else if str_eqb d (lit "no_verify") then Converted STrue
  else match a with
  | [s] =>
      if str_eqb d (lit "file") then match w_file w s with Some f => Converted (SFile f) | None => Refused end
      else if str_eqb d (lit "format") then match lookup s input_formats with Some f => Converted (SInput f) | None => Refused end
      else if str_eqb d (lit "output") then match lookup s output_formats with Some f => Converted (SOutput f) | None => Refused end
      else if str_eqb d (lit "filter") then conversion SFilter (new_filter s)
      else Converted (SText s)
  | _ => Converted SNothing
  end.

(** __main__.py:39-54 *)
Definition opt (o d : string) (n : nargs) : str * (str * nargs) := (lit o, (lit d, n)).
Definition output_option := opt "--output" "output" One.
Definition file_parser : parser :=
  Parser (with_help [opt "--model_type" "model_type" One; opt "--format" "format" One; output_option]) [lit "file"].
(** __main__.py:77-103 *)
Definition server_parser : parser :=
  Parser (with_help [opt "--header" "header" Many; opt "--dry" "dry" Zero; opt "--version" "version" One; opt "--no-verify" "no_verify" Zero;
                     opt "--filter" "filter" One; opt "--remove-path-prefix" "remove_path_prefix" One; output_option])
         [lit "server"; lit "suite"].
(** __main__.py:150-151 *)
Definition generate_parser : parser := Parser (with_help []) [lit "directory"].

Definition setting_of (ns : list (str * setting)) (d : string) (default : setting) : setting :=
  match lookup (lit d) ns with Some v => v | None => default end.
Definition text_of (x : setting) : str := match x with SText s => s | _ => [] end.
Definition output_of (ns : list (str * setting)) : output_format :=
  match setting_of ns "output" (SOutput Otext) with SOutput o => o | _ => Otext end.
Definition is_true (ns : list (str * setting)) (d : string) : bool := match setting_of ns d SNothing with STrue => true | _ => false end.

(** __main__.py:65-73, 138-146: the report and the exit code *)
Definition report_lines (w : world) (o : output_format) (r : result) : list str :=
  match o with
  | Otext => to_lines r 0
  | Ohtml => [to_html (w_template w) r]
  | Ojson => [json_dumps (to_dict r)]
  end.
Definition report (w : world) (h : trace) (o : output_format) (r : result) : outputs :=
  print_exit w h (report_lines w o r) (if ok r then 0 else 1).

(** [dict(pairs)]: the last value of a key at the place of the first *)
Fixpoint dict_set (k v : str) (l : list (str * str)) : list (str * str) :=
  match l with
  | [] => [(k, v)]
  | (k', v') :: r => if str_eqb k k' then (k, v) :: r else (k', v') :: dict_set k v r
  end.
Definition dict_of (l : list (str * str)) : list (str * str) := fold_left (fun d kv => dict_set (fst kv) (snd kv) d) l [].

Section Messages.
  (** Texts of values in messages, see AdapterModel.v and ParseModel.v *)
  Variable show : json -> str.
  Variable repr : str -> str.

  (** test_cases/v3_0/__init__.py:9-22; file.py:27, 42 drop the object *)
  Definition json_report (v : json) (n : str) : outcome result := let* (r, _) := json_to_obj repr templates show v n in Val r.
  Definition xml_report (e : xml) (n : str) : outcome result := let* (r, _) := xml_to_obj repr templates e n in Val r.

  (** __main__.py:57-64: the check of a file *)
  Definition check_file (fmt : input_format) (model_type : str) (f : file) : outcome result :=
    match fmt with
    | Faasx => if str_eqb model_type (lit "Environment") then check_aasx_file json_report xml_report (f_zip f)
               else Raise GenericException
    | Fjson => check_json_file json_report (as_json (f_content f)) model_type
    | Fxml => check_xml_file xml_report (as_xml (f_content f)) model_type
    end.
  (** __main__.py:38-73 *)
  Definition run_file_test (w : world) (argv : list str) : outputs :=
    match parse_args (convert w) file_parser argv with
    | ParserExits n => ends (Exits n)
    | ParserDies e => ends (Dies e)
    | Parsed ns =>
        match setting_of ns "file" SNothing with
        | SFile f =>
            let fmt := match setting_of ns "format" (SInput Faasx) with SInput x => x | _ => Faasx end in
            match check_file fmt (text_of (setting_of ns "model_type" (SText (lit "Environment")))) f with
            | Val r => report w [] (output_of ns) r
            | Raise e => ends (Dies e)
            end
        | _ => ends (Dies AttributeError)   (* does not occur: the argument is always a file *)
        end
    end.

  (** aas_test_engines/api.py:12-13 [supported_versions] *)
  Definition suite_names : list str := List.map fst (available_suites show repr).
  Definition versions : list (str * list str) := [(lit "3.0", suite_names)].

  (** __main__.py:124-146: the check of a server *)
  Definition check_suite (w : world) (ns : list (str * setting)) (version suite : str) : outputs :=
    let client := new_client (text_of (setting_of ns "server" SNothing)) (negb (is_true ns "no_verify"))
                             (text_of (setting_of ns "remove_path_prefix" (SText [])))
                             (dict_of (match setting_of ns "header" (SHeaders []) with SHeaders l => l | _ => [] end)) in
    let conf := Config suite (Some version) (is_true ns "dry")
                       (match setting_of ns "filter" SNothing with SFilter f => Some f | _ => None end) in
    match run (check_api show repr client conf) (w_server w) with
    | (Ret (r, _), h) => report w h (output_of ns) r
    | (Abort _, h) => Outputs [] h [] (Dies (OtherException 0))   (* ResultException; does not occur *)
    | (Exc e _, h) => Outputs [] h [] (Dies e)
    end.
  (** __main__.py:76-146 *)
  Definition run_api_test (w : world) (argv : list str) : outputs :=
    match parse_args (convert w) server_parser argv with
    | ParserExits n => ends (Exits n)
    | ParserDies e => ends (Dies e)
    | Parsed ns =>
        let version := text_of (setting_of ns "version" (SText (lit "3.0"))) in
        match lookup version versions with
        | None => ends (Dies UnboundLocalError)   (* __main__.py:108-110: the message is written, but the program continues *)
        | Some available =>
            match setting_of ns "suite" SNothing with
            | SText s =>
                match filter (contains s) available with
                | [suite] => check_suite w ns version suite
                | _ => ends (Exits 1)
                end
            | _ => ends (Dies TypeError)           (* [[] in i] *)
            end
        end
    end.

  (** __main__.py:149-161: the function [file.generate] does not exist *)
  Definition generate_files (w : world) (argv : list str) : outputs :=
    match parse_args (convert w) generate_parser argv with
    | ParserExits n => ends (Exits n)
    | ParserDies e => ends (Dies e)
    | Parsed ns =>
        let d := text_of (setting_of ns "directory" SNothing) in
        if w_exists w d then print_exit w [] [lit "Directory '" ++ d ++ lit "' already exists, please remove it"] 1
        else match w_mkdir w d with
             | Some e => ends (Dies e)
             | None => Outputs [] [] [d] (Dies AttributeError)
             end
    end.

  (** __main__.py:164-168 *)
  Definition commands : list (str * (world -> list str -> outputs)) :=
    [(lit "check_file", run_file_test); (lit "check_server", run_api_test); (lit "generate_files", generate_files)].
  (** __main__.py:171-188; [argv] is [sys.argv], which has at least one element *)
  Definition main (w : world) (argv : list str) : outputs :=
    match argv with
    | name :: command :: args =>
        match lookup command commands with
        | Some f => f w args
        | None => print_exit w [] [lit "Unknown command '" ++ command ++ lit "', must be one of " ++ join (lit ", ") (List.map fst commands)] 1
        end
    | _ =>
        print_exit w []
          [lit "Usage: " ++ hd [] argv ++ lit " COMMAND OPTIONS..."; lit "Available commands:";
           lit "  check_file      Check a file for compliance."; lit "  check_server    Check a server instance for compliance.";
           lit "  generate_files  Generate files for testing"] 1
    end.
End Messages.
