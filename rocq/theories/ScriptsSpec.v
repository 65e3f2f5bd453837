(** What a release and its README need. *)
From Coq Require Import String List NArith.
From Verif Require Import PyStr PyBase DataTypesSpec CliSpec ScriptsModel.
Import ListNotations.
Local Open Scope N_scope.

Definition Breaks (c : N) : Prop := c = 10 \/ c = 13.
(** a line of a text that is not empty and ends with a line break of any kind *)
Definition HasLine (text line : str) : Prop :=
  exists before c after, text = before ++ line ++ c :: after /\ Breaks c /\ (before = [] \/ exists b d, before = b ++ [d] /\ Breaks d).

(** a number in digits of any script *)
Definition Number (s : str) : Prop := s <> [] /\ Forall (fun c => exists d, UnicodeDigit c d) s.
Definition Version (v : str) : Prop := exists a b c, Number a /\ Number b /\ Number c /\ v = a ++ lit "." ++ b ++ lit "." ++ c.
Definition Says_project (v pyproject : str) : Prop := HasLine pyproject (lit "version = """ ++ v ++ lit """").
Definition Says_package (v init : str) : Prop := HasLine init (lit "    return """ ++ v ++ lit """").

(** ** Snippets of a README *)
Definition Fence (line : str) : Prop := exists r, line = lit "```" ++ r.
Definition Marker (line : str) : Prop := exists r, line = lit "<!-- no-check -->" ++ r.
Definition Other (line : str) : Prop := ~ Fence line /\ ~ Marker line.
(** a document and its blocks with their language, whether they are to be checked, and their content; the first argument tells that a marker
    was seen since the last block.  A block that is not closed is none. *)
Inductive Document : bool -> list str -> list block -> Prop :=
| D_end m : Document m [] []
| D_text m l ls bs : Other l -> Document m ls bs -> Document m (l :: ls) bs
| D_marker m l ls bs : Marker l -> Document true ls bs -> Document m (l :: ls) bs
| D_block m lg name body close ls bs : Stripped name lg -> Forall Other body -> Fence close -> Document false ls bs ->
    Document m ((lit "```" ++ name) :: body ++ close :: ls) ({| lang := lg; check := negb m; content := concat body |} :: bs)
| D_open m o body : Fence o -> Forall Other body -> Document m (o :: body) [].
(** lines with each opening fence closed *)
Inductive Outside : list str -> Prop :=
| O_nil : Outside []
| O_line l ls : ~ Fence l -> Outside ls -> Outside (l :: ls)
| O_block o body c ls : Fence o -> Forall (fun l => ~ Fence l) body -> Fence c -> Outside ls -> Outside (o :: body ++ c :: ls).
(** a marker within a block, closed or not *)
Definition Misplaced (lines : list str) : Prop :=
  exists before o body m after, lines = before ++ o :: body ++ m :: after /\ Outside before /\ Fence o /\ Forall (fun l => ~ Fence l) body /\ Marker m.
(** the contents that are to be executed, in order *)
Inductive Checked : list block -> list str -> Prop :=
| C_nil : Checked [] []
| C_on lg c bs cs : Checked bs cs -> Checked ({| lang := lg; check := true; content := c |} :: bs) (c :: cs)
| C_off lg c bs cs : Checked bs cs -> Checked ({| lang := lg; check := false; content := c |} :: bs) cs.
(** each of the snippets works behind those before it *)
Definition All_work (works : list str -> str -> bool) (cs : list str) : Prop :=
  forall before c after, cs = before ++ c :: after -> works before c = true.
