(** Specification of the command line tool. *)
From Coq Require Import PeanoNat String List NArith ZArith Bool.
From Verif Require Import PyStr PyBase ResultModel ContextModel ConfigModel HttpModel ProgModel ApiModel ApiSpec ApiSuites ArgModel CliModel.
Import ListNotations.
Local Open Scope nat_scope.
Local Open Scope list_scope.

(** ** Texts *)
Definition Substring (s t : str) : Prop := exists a b, t = a ++ s ++ b.
Definition Blank (s : str) : Prop := Forall (fun c => is_space c = true) s.
(** [t] is [s] without the blanks at both ends *)
Definition Stripped (s t : str) : Prop :=
  exists a b, s = a ++ t ++ b /\ Blank a /\ Blank b /\
    (forall c r, t = c :: r -> is_space c = false) /\ (forall c r, t = r ++ [c] -> is_space c = false).

(** ** Command lines *)
(** An argument, "--option value", "--option=value", "--flag", and an option with several values *)
Inductive word := Plain (s : str) | Given (o v : str) | Joined (o v : str) | Flag (o : str) | Several (o : str) (vs : list str).
Definition spell (w : word) : list str :=
  match w with
  | Plain s => [s]
  | Given o v => [o; v]
  | Joined o v => [o ++ lit "=" ++ v]
  | Flag o => [o]
  | Several o vs => o :: vs
  end.
(** does not look like an option *)
Definition plain (s : str) : Prop := forall r, s = 45%N :: r -> r = [].
Definition starts_plain (ws : list word) : bool := match ws with Plain _ :: _ => true | _ => false end.

(** What the words mean: the positional arguments in their order, the options by their names.  An option with several
    values must not be followed by a positional argument. *)
Inductive Means (p : parser) : list str -> list word -> list event -> Prop :=
| M_nil : Means p [] [] []
| M_plain d ps s ws ev : plain s -> Means p ps ws ev -> Means p (d :: ps) (Plain s :: ws) ((d, [s]) :: ev)
| M_given ps o d v ws ev : In (o, (d, One)) (options p) -> plain v -> Means p ps ws ev -> Means p ps (Given o v :: ws) ((d, [v]) :: ev)
| M_joined ps o d n v ws ev : In (o, (d, n)) (options p) -> n <> Zero -> Means p ps ws ev -> Means p ps (Joined o v :: ws) ((d, [v]) :: ev)
| M_flag ps o d ws ev : In (o, (d, Zero)) (options p) -> Means p ps ws ev -> Means p ps (Flag o :: ws) ((d, []) :: ev)
| M_several ps o d vs ws ev : In (o, (d, Many)) (options p) -> vs <> [] -> Forall plain vs -> starts_plain ws = false -> Means p ps ws ev ->
    Means p ps (Several o vs :: ws) ((d, vs) :: ev).
Definition Command (p : parser) (argv : list str) (ev : list event) : Prop :=
  exists ws, argv = flat_map spell ws /\ Means p (positionals p) ws ev.

(** ** Runs *)
Definition exit_status (r : result) : nat := if ok r then 0 else 1.
Definition version_of (ns : list (str * setting)) : str := text_of (setting_of ns "version" (SText (lit "3.0"))).
(** The names of the suites *)
Definition ssp_names : list str := List.map (fun p => lit (fst p)) suite_operations.
Definition Selects (s suite : str) : Prop :=
  In suite ssp_names /\ Substring s suite /\ forall other, In other ssp_names -> Substring s other -> other = suite.

Definition client_of (ns : list (str * setting)) : client :=
  Client (text_of (setting_of ns "server" SNothing)) (negb (is_true ns "no_verify")) (text_of (setting_of ns "remove_path_prefix" (SText []))) []
         (dict_of (match setting_of ns "header" (SHeaders []) with SHeaders l => l | _ => [] end)).
Definition config_of (ns : list (str * setting)) (suite : str) : config :=
  Config suite (Some (lit "3.0")) (is_true ns "dry") (match setting_of ns "filter" SNothing with SFilter f => Some f | _ => None end).

(** The program comes to a verdict for a command line: after reading the settings it checks a file or a server. *)
Inductive Reaches (show : json -> str) (repr : str -> str) (w : world) : list str -> result -> trace -> output_format -> Prop :=
| Reaches_file name args ns f fmt r :
    parse_args (convert w) file_parser args = Parsed ns -> lookup (lit "file") ns = Some (SFile f) ->
    setting_of ns "format" (SInput Faasx) = SInput fmt ->
    check_file show repr fmt (text_of (setting_of ns "model_type" (SText (lit "Environment")))) f = Val r ->
    Reaches show repr w (name :: lit "check_file" :: args) r [] (output_of ns)
| Reaches_server name args ns s suite r m h :
    parse_args (convert w) server_parser args = Parsed ns -> version_of ns = lit "3.0" ->
    lookup (lit "suite") ns = Some (SText s) -> Selects s suite ->
    Returns (check_api show repr (client_of ns) (config_of ns suite)) (w_server w) (r, m) h ->
    Reaches show repr w (name :: lit "check_server" :: args) r h (output_of ns).

(** The command line asks for help (an option for help is read before any error is found). *)
Definition Asks_help (w : world) (argv : list str) : Prop :=
  exists name c args p, argv = name :: c :: args /\
    In (c, p) [(lit "check_file", file_parser); (lit "check_server", server_parser); (lit "generate_files", generate_parser)] /\
    exists before a after, fst (scan_args p args) = before ++ (help, a) :: after /\ Forall (fun e => exists v, convert w (fst e) (snd e) = Converted v) before.
