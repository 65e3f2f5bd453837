(** aas_test_engines/result.py: reports. *)
From Coq Require Import List NArith ZArith Bool.
From Coq Require Import String. Open Scope list_scope.
From Verif Require Import PyStr PyBase.
Import ListNotations.

(** result.py:12-16 *)
Inductive level := INFO | WARNING | ERROR | CRITICAL.

Definition level_value (l : level) : Z :=
  match l with INFO => 0 | WARNING => 1 | ERROR => 2 | CRITICAL => 3 end%Z.

(** [Level(v)], ValueError for unknown values *)
Definition level_of_value (v : Z) : outcome level :=
  if Z.eqb v 0 then Val INFO else if Z.eqb v 1 then Val WARNING
  else if Z.eqb v 2 then Val ERROR else if Z.eqb v 3 then Val CRITICAL else Raise ValueError.

(** result.py:18-19 [__or__]: the level with the larger value *)
Definition level_or (a b : level) : level :=
  if Z.leb (level_value a) (level_value b) then b else a.

Definition esc : str := [27%N].
(** result.py:21-28 *)
Definition level_color (l : level) : str :=
  if Z.eqb (level_value l) 0 then esc ++ lit "[92m"
  else if Z.eqb (level_value l) 1 then esc ++ lit "[93m"
  else if Z.eqb (level_value l) 2 then esc ++ lit "[91m"
  else esc ++ lit "[94m".

(** result.py:31-37: message, level, sub_results.  Object identity is not represented here
    (HeapModel does). *)
Inductive result := Res (message : str) (lvl : level) (subs : list result).

Definition r_message (r : result) : str := match r with Res m _ _ => m end.
Definition r_level (r : result) : level := match r with Res _ l _ => l end.
Definition r_subs (r : result) : list result := match r with Res _ _ s => s end.

(** result.py:33-37 [AasTestResult(message, level)] *)
Definition new_result (m : str) (l : level) : result := Res m l [].

(** result.py:39-41 *)
Definition append (r c : result) : result :=
  match r with Res m l s => Res m (level_or l (r_level c)) (s ++ [c]) end.

Definition appends (r : result) (cs : list result) : result := fold_left append cs r.

(** result.py:43-44 *)
Definition level_ok (l : level) : bool := match l with INFO | WARNING => true | _ => false end.
Definition ok (r : result) : bool := level_ok (r_level r).

(** result.py:51-55 *)
Definition endc : str := esc ++ lit "[0m".
Fixpoint to_lines (r : result) (indent : nat) : list str :=
  match r with
  | Res m l s =>
      (repeat_str indent (lit "   ") ++ level_color l ++ m ++ endc)
      :: flat_map (fun c => to_lines c (indent + 1)) s
  end.

(** [html.escape(s)] of the python standard library (quote=True): the chain of replacements
    acts character by character because '&' is replaced first. *)
Definition escape_char (c : N) : str :=
  if N.eqb c 38 then lit "&amp;"
  else if N.eqb c 60 then lit "&lt;"
  else if N.eqb c 62 then lit "&gt;"
  else if N.eqb c 34 then lit "&quot;"
  else if N.eqb c 39 then lit "&#x27;"
  else [c].
Definition html_escape (s : str) : str := flat_map escape_char s.

Definition nl : str := [10%N].
Definition dq : str := [34%N].

(** result.py:58-63 *)
Definition html_class (l : level) : str :=
  match l with
  | INFO => lit "info" | WARNING => lit "warning" | ERROR => lit "error" | CRITICAL => lit "critical"
  end.

(** result.py:57-77 *)
Fixpoint to_html_frag (r : result) (depth : nat) : str :=
  match r with
  | Res m l s =>
      let cls := html_class l in
      let msg := html_escape m in
      let body :=
        match s with
        | _ :: _ =>
            let c1 := if level_ok l then [] else lit "caret-down" in
            let c2 := if level_ok l then [] else lit "visible" in
            (lit "<div class=" ++ dq ++ cls ++ dq ++ lit ">" ++ msg
              ++ lit "<span class=" ++ dq ++ lit "caret level-" ++ dec_of_nat depth ++ lit " " ++ c1 ++ dq ++ lit "/></div>" ++ nl)
            ++ (lit "<div class=" ++ dq ++ lit "sub-results " ++ c2 ++ dq ++ lit ">" ++ nl)
            ++ flat_map (fun c => to_html_frag c (depth + 1)) s
            ++ (lit "</div>" ++ nl)
        | [] =>
            lit "<div class=" ++ dq ++ cls ++ dq ++ lit ">" ++ msg ++ lit "</div>" ++ nl
        end in
      (lit "<div>" ++ nl) ++ body ++ (lit "</div>" ++ nl)
  end.

(** result.py:79-89; the text of data/template.html is a parameter *)
Definition placeholder : str := lit "<!-- CONTENT -->".
Definition to_html (template : str) (r : result) : str :=
  replace placeholder (to_html_frag r 0) template.

(** result.py:91-96 *)
Fixpoint to_dict (r : result) : json :=
  match r with
  | Res m l s => JObj [ (lit "m", JStr m); (lit "l", JInt (level_value l)); (lit "s", JArr (map to_dict s)) ]
  end.

(** result.py:98-103.  Missing keys raise KeyError, an unknown level ValueError; a message
    that is not a string is not rejected by the code: modelled as TypeError (simplification,
    never reached from [to_dict]).  Strings and dictionaries are iterable in python, too;
    iterating them is modelled as TypeError (the elements would fail anyway unless empty). *)
Fixpoint from_json (j : json) : outcome result :=
  match j with
  | JObj kvs =>
      match lookup (lit "m") kvs with
      | None => Raise KeyError
      | Some (JStr m) =>
          match lookup (lit "l") kvs with
          | None => Raise KeyError
          | Some (JInt v) =>
              match level_of_value v with
              | Raise e => Raise e
              | Val l =>
                  (* parse all nested lists once, then pick the one of key "s" *)
                  let subs :=
                    (fix go (kvs : list (str * json)) : list (str * outcome (list result)) :=
                       match kvs with
                       | [] => []
                       | (k, v) :: r =>
                           (k, match v with
                               | JArr items =>
                                   (fix items_go (l : list json) : outcome (list result) :=
                                      match l with
                                      | [] => Val []
                                      | x :: l' =>
                                          match from_json x with
                                          | Raise e => Raise e
                                          | Val r' => match items_go l' with
                                                      | Raise e => Raise e
                                                      | Val rs => Val (r' :: rs)
                                                      end
                                          end
                                      end) items
                               | _ => Raise TypeError
                               end) :: go r
                       end) kvs in
                  match lookup (lit "s") subs with
                  | None => Raise KeyError
                  | Some (Raise e) => Raise e
                  | Some (Val rs) => Val (appends (new_result m l) rs)
                  end
              end
          | Some _ => Raise ValueError
          end
      | Some _ => Raise TypeError
      end
  | _ => Raise TypeError
  end.

Section ResultInd.
  Variable P : result -> Prop.
  Hypothesis H : forall m l s, Forall P s -> P (Res m l s).
  Fixpoint result_ind' (r : result) : P r :=
    match r with
    | Res m l s => H m l s ((fix go l := match l return Forall P l with
                                         | [] => Forall_nil _
                                         | x :: r => Forall_cons x (result_ind' x) (go r)
                                         end) s)
    end.
End ResultInd.
