(** Independent vocabulary for the properties of reports. *)
From Coq Require Import List NArith ZArith Bool Lia.
From Coq Require Import String. Open Scope list_scope.
From Verif Require Import PyStr PyBase ResultModel HeapModel.
Import ListNotations.

(** The severity order INFO < WARNING < ERROR < CRITICAL, independent of the numeric values. *)
Definition worse_eq (a b : level) : Prop :=   (* a is at most as severe as b *)
  match a, b with
  | INFO, _ => True
  | WARNING, INFO => False | WARNING, _ => True
  | ERROR, INFO => False | ERROR, WARNING => False | ERROR, _ => True
  | CRITICAL, CRITICAL => True | CRITICAL, _ => False
  end.

(** [x] occurs as an entry somewhere in the report. *)
Inductive occurs (x : result) : result -> Prop :=
| occ_here : occurs x x
| occ_below m l s c : In c s -> occurs x c -> occurs x (Res m l s).

(** Reports made by creating results and appending finished reports, together with all
    levels that were given at creation. *)
Inductive assembled : result -> list level -> Prop :=
| asm_new m l : assembled (new_result m l) [l]
| asm_append r rl c cl : assembled r rl -> assembled c cl -> assembled (append r c) (rl ++ cl).

(** Every entry is at least as severe as the entries below it. *)
Definition consistent (r : result) : Prop :=
  forall x c, occurs x r -> In c (r_subs x) -> worse_eq (r_level c) (r_level x).

(** Same messages and nesting, levels possibly raised. *)
Inductive raised : result -> result -> Prop :=
| raised_intro m l l' s s' : worse_eq l l' -> Forall2 raised s s' -> raised (Res m l s) (Res m l' s').

(** Addressing entries by position. *)
Fixpoint node_at (r : result) (p : list nat) : option result :=
  match p with
  | [] => Some r
  | i :: p' => match nth_error (r_subs r) i with Some c => node_at c p' | None => None end
  end.

(** Order of recording: parents before children, earlier siblings (with everything below
    them) before later ones. *)
Inductive before : list nat -> list nat -> Prop :=
| before_nil i p : before [] (i :: p)
| before_lt i j p q : i < j -> before (i :: p) (j :: q)
| before_eq i p q : before p q -> before (i :: p) (i :: q).

(** The line for an entry at a given depth. *)
Definition ansi (l : level) : str :=
  match l with
  | INFO => 27%N :: lit "[92m" | WARNING => 27%N :: lit "[93m"
  | ERROR => 27%N :: lit "[91m" | CRITICAL => 27%N :: lit "[94m"
  end.
Definition line_of (depth : nat) (x : result) : str :=
  List.repeat 32%N (3 * depth) ++ ansi (r_level x) ++ r_message x ++ 27%N :: lit "[0m".

(** ** Well-formed markup: text without angle brackets, properly closed elements,
    empty elements; attributes are name="value" pairs. *)
Definition plain (s : str) : Prop := ~ In 60%N s /\ ~ In 62%N s.
Definition name_char (c : N) : Prop := (97 <= c <= 122)%N \/ (65 <= c <= 90)%N.
Inductive attributes : str -> Prop :=
| attrs_nil : attributes []
| attrs_cons n v rest : n <> [] -> Forall name_char n -> plain v -> ~ In 34%N v -> attributes rest ->
    attributes (32%N :: n ++ lit "=" ++ 34%N :: v ++ 34%N :: rest).
Inductive markup : str -> Prop :=
| mk_nil : markup []
| mk_text s : plain s -> markup s
| mk_app a b : markup a -> markup b -> markup (a ++ b)
| mk_elem n at_ body : n <> [] -> Forall name_char n -> attributes at_ -> markup body ->
    markup (lit "<" ++ n ++ at_ ++ lit ">" ++ body ++ lit "</" ++ n ++ lit ">")
| mk_empty n at_ : n <> [] -> Forall name_char n -> attributes at_ ->
    markup (lit "<" ++ n ++ at_ ++ lit "/>").

(** Decoding of the five entities a browser has to resolve. *)
Fixpoint unescape (fuel : nat) (s : str) : str :=
  match fuel with
  | O => []
  | S f =>
      match s with
      | [] => []
      | c :: s' =>
          if startswith (lit "&amp;") s then 38%N :: unescape f (skipn 5 s)
          else if startswith (lit "&lt;") s then 60%N :: unescape f (skipn 4 s)
          else if startswith (lit "&gt;") s then 62%N :: unescape f (skipn 4 s)
          else if startswith (lit "&quot;") s then 34%N :: unescape f (skipn 6 s)
          else if startswith (lit "&#x27;") s then 39%N :: unescape f (skipn 6 s)
          else c :: unescape f s'
      end
  end.
Definition browser_text (s : str) : str := unescape (S (List.length s)) s.

(** The placeholder occurs at exactly one place of the template. *)
Definition single_placeholder (pre post : str) : Prop :=
  forall a b, pre ++ placeholder ++ post = a ++ placeholder ++ b -> a = pre.

(** ** Shared report objects *)
(** [reach h i j]: the report of object [i] contains object [j]. *)
Inductive reach (h : heap) : nat -> nat -> Prop :=
| reach_here i : reach h i i
| reach_step i k j n : nth_error h i = Some n -> In k (n_subs n) -> reach h k j -> reach h i j.

(** Bottom-up use: an object that has been appended somewhere is not extended afterwards. *)
Inductive bottom_up : list hop -> Prop :=
| bu_nil : bottom_up []
| bu_new ops m l : bottom_up ops -> bottom_up (ops ++ [HNew m l])
| bu_append ops i j : bottom_up ops -> i <> j ->
    (forall k, ~ In (HAppend k i) ops) -> bottom_up (ops ++ [HAppend i j]).
