(** Which servers pass the check: the answers that the requests of the setups, the negative tests and the positive tests have to get, given as
    a property of the exchanges with the server alone. *)
From Coq Require Import PeanoNat String List NArith ZArith Bool.
From Verif Require Import PyStr PyBase PyVal ResultModel HttpModel ReflectModel CheckModel ProgModel ApiModel ApiSpec ApiSuites TestSpec.
Import ListNotations.
Local Open Scope string_scope.
Local Open Scope list_scope.

Section Verdict.
  Variable show : json -> str.
  Variable repr : str -> str.

  (** A value has the structure of a description, and all its parts that are objects of the meta model would be accepted as the content of a
      file. *)
  Definition Complies (b : body) (j : json) : Prop :=
    BodyOk b j /\ forall n w, Part b j n w -> exists r x, check_json show repr n w = Val (r, x) /\ ok r = true.
  (** a success with such a value *)
  Definition Provides (b : body) (y : reply) : Prop := exists content j, y = Response 200 content (Json j) /\ container j /\ Complies b j.

  (** The values that the requests of the setups ask for, by the ends of their paths *)
  Definition setup_answers : list (string * body) :=
    [("/shells", paged_body (b_obj "AssetAdministrationShell"));
     ("/", b_obj "AssetAdministrationShell");
     ("/submodel-refs", paged_body (b_obj "Reference"));
     ("/submodels", paged_body (b_obj "Submodel"));
     ("/submodel-elements", paged_body (b_obj "SubmodelElement"));
     ("/submodel-elements/$metadata", paged_body (b_obj "SubmodelElement"));
     ("/submodel-elements/$value", paged_body BAny);
     ("/submodel-elements/$path", paged_body BText)].
  Definition Expects (r : route) (b : body) : Prop := exists r' x w, r = r' ++ [Word (x ++ lit w)] /\ In (w, b) setup_answers.
  (** the requests of a setup have got such values *)
  Definition Supplied (l : list (route * params)) (t : trace) : Prop :=
    Forall2 (fun k x => exists b, Expects (fst k) b /\ Provides b (snd x)) l t.

  (** An answer with which a test passes: the test of an unsupported type of elements needs an error, other tests need a value that meets the
      description of the answers to the operation, and of which the claim holds, if its violation is more than a warning. *)
  Definition Right_answer (a : answer) (suite : str) (t0 : trace) (cl : claim) (y : reply) : Prop :=
    match cl with
    | Refusal => Rejected y
    | _ => Passes a (match a with Checked b _ => Complies b | Unchecked _ => fun _ => True end) (fun j => serious cl = true -> Holds suite t0 cl j) y
    end.
  Definition Granted {A} (given : option A) (S : sent -> Prop) (V : reply -> Prop) (t : trace) : Prop :=
    match given with Some _ => exists s y, t = [(s, y)] /\ S s /\ V y | None => t = [] end.
  (** the exchanges of a positive test that passes *)
  Definition Right (c : client) (suite : str) (row : row) (t0 : trace) (test : check) (t : trace) : Prop :=
    let S ty := Sends c t0 ty (ro_path row) (ch_params test) in
    let V cl := Right_answer (answer_to (lit (ro_name row))) suite t0 cl in
    match ch_times test with
    | Once => Granted (Some tt) (S None) (V (ch_claim test)) t
    | If_told src => Granted (told t0 src) (S None) (V (ch_claim test)) t
    | Never => t = []
    | For_type n ty => Granted (first_path (Some ty) (elements t0 n)) (S (Some ty)) (V (ch_claim test)) t
    | For_each_type n supported =>
        exists ts, t = List.concat ts /\
          Forall2 (fun ty => Granted (first_path (Some ty) (elements t0 n)) (S (Some ty))
            (V (if existsb (String.eqb ty) supported then ch_claim test else Refusal))) element_types ts
    end.
  (** The exchanges for an operation of which all tests pass: the setup gets what it asks for, each wrong value is rejected, and each
      positive test passes. *)
  Definition Upright (c : client) (suite : str) (row : row) (t : trace) : Prop :=
    exists t0 t1 t2, t = t0 ++ t1 ++ List.concat t2 /\
      Setups c t0 (ro_setup row) t0 /\ Supplied (ro_setup row) t0 /\
      Forall2 (fun w x => Wrong_request c t0 row w (fst x) /\ Rejected (snd x)) (ro_wrong row) t1 /\
      Forall2 (Right c suite row t0) (ro_tests row) t2.
  (** The exchanges with a server that passes: it answers the first request, whatever the answer is, and all operations are upright. *)
  Definition Compliant (c : client) (suite : str) (rows : list row) (h : trace) : Prop :=
    exists s status content data pieces, h = (s, Response status content data) :: List.concat pieces /\
      Sends c [] None [] [] s /\ Forall2 (Upright c suite) rows pieces.
End Verdict.
