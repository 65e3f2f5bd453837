(** What python reads as base64. *)
From Coq Require Import String List NArith.
From Verif Require Import PyStr PyBase DataTypesSpec.
Import ListNotations.
Local Open Scope N_scope.

(** the characters of the alphabet and "=" without those between them *)
Inductive Skips : str -> str -> Prop :=
| Sk_nil : Skips [] []
| Sk_keep c s w : B64Char c \/ c = 61 -> Skips s w -> Skips (c :: s) (c :: w)
| Sk_skip c s w : ~ B64Char c -> c <> 61 -> Skips s w -> Skips (c :: s) w.
(** the number of characters other than "=" *)
Definition data (w : str) : nat := length (filter (fun c => negb (c =? 61)) w).
(** ASCII text in which all characters but those of the alphabet and "=" are skipped.  Either the number of characters of the alphabet is a
    multiple of four, wherever there is padding; or a group of three is followed by "=", or a group of two by "==", whatever comes behind. *)
Definition PyBase64 (s : str) : Prop :=
  Forall (fun c => c < 128) s /\
  exists w, Skips s w /\
    ((exists k, data w = 4 * k)%nat \/
     (exists p r k, w = p ++ lit "=" ++ r /\ data p = 4 * k + 3)%nat \/
     (exists p r k, w = p ++ lit "==" ++ r /\ data p = 4 * k + 2)%nat).
