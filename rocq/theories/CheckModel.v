(** aas_test_engines/test_cases/v3_0: the meta model check of a document of a given type. *)
From Coq Require Import String List NArith Bool.
From Verif Require Import PyStr PyBase PyXml PyVal ResultModel ReflectModel MetaModel AdapterModel ParseModel ConstraintModel.
Import ListNotations.
Local Open Scope list_scope.

(** model.py:1469 [r_environment, symbol_table = reflect(Environment, globals(), locals())] *)
Definition model_symbols : outcome table :=
  let* (_, t) := reflect model_classes model_globals (ACls k_Environment) in Val t.

Section Messages.
  (** Texts of values in messages, see AdapterModel.v and ParseModel.v *)
  Variable show : json -> str.
  Variable repr : str -> str.

  (** __init__.py:10, 19 [symbol_table.lookup(model_type)] followed by [parse], parse.py:160-187 *)
  Definition meta_check_json (n : str) (v : json) : outcome (pyval * list finding) :=
    let* t := model_symbols in
    let* i := symbol_lookup t n in
    parse json (json_adapter show) model_classes t repr model_post_parse (S (json_depth v)) i [] v [].
  Definition meta_check_xml (n : str) (e : xml) : outcome (pyval * list finding) :=
    let* t := model_symbols in
    let* i := symbol_lookup t n in
    parse xml xml_adapter model_classes t repr model_post_parse (S (xml_depth e)) i [] e [].

  (** parse.py:222-227: [parse_and_check_json] and [parse_and_check_xml] *)
  Definition check_json (n : str) (v : json) : outcome (result * pyval) :=
    parse_and_check check_model (meta_check_json n v).
  Definition check_xml (n : str) (e : xml) : outcome (result * pyval) :=
    parse_and_check check_model (meta_check_xml n e).
End Messages.
