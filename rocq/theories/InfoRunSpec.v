(** What users of [cot info] see for each package. *)
From Coq Require Import List ZArith.
Import ListNotations.
From Verif Require Import PyBase ItemModel InfoModel InfoRunModel.

Section Spec.
Variable open_package : str -> result (env * info_vm).
Variable pretty_text : str -> result str.
Variable wrap_hyphens : Z -> str -> str -> str -> result (list str).

(** the package is described, or there is a message that it cannot be read *)
Inductive reported (width : Z) (verb : verbosity) (package : str) : seen -> Prop :=
  | Described E m text : open_package package = Ok (E, m) -> info_string E pretty_text wrap_hyphens m width verb = Ok text ->
      reported width verb package (Printed text)
  | Unreadable : open_package package = Err EVMInitError -> reported width verb package (Complained package)
  | Unreadable_inside E m : open_package package = Ok (E, m) -> info_string E pretty_text wrap_hyphens m width verb = Err EVMInitError ->
      reported width verb package (Complained package).
End Spec.
(** what is seen, with an empty line between two packages *)
Fixpoint apart (l : list seen) : list seen :=
  match l with
  | [] => []
  | [x] => [x]
  | x :: l' => x :: Printed [] :: apart l'
  end.
