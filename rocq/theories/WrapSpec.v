(** What wrapping a text means, without reference to how it is done. *)
From Coq Require Import List Ascii ZArith Bool.
Import ListNotations.
From Verif Require Import PyBase.
Local Open Scope nat_scope.

Definition len (s : str) : Z := Z.of_nat (length s).

(** [bodies] behind their indents: the first line has its own *)
Definition indented (ini sub : str) (bodies : list str) : list str :=
  match bodies with
  | [] => []
  | b :: bs => (ini ++ b) :: map (fun x => sub ++ x) bs
  end.

(** a tab, line feed, vertical tab, form feed, carriage return or space *)
Definition blank (c : ascii) : Prop := In (code c) [9; 10; 11; 12; 13; 32]%N.
Definition one_piece (s : str) : Prop := forall c, In c s -> ~ blank c.

(** a line that fits in the width, or holds a single piece that cannot *)
Definition fits_or_one (width : Z) (indent body : str) : Prop :=
  (len indent + len body <= width)%Z \/ one_piece body.
Definition all_fit (width : Z) (ini sub : str) (bodies : list str) : Prop :=
  match bodies with
  | [] => True
  | b :: bs => fits_or_one width ini b /\ Forall (fits_or_one width sub) bs
  end.

(** a word: not empty, no white space of any kind *)
Definition word (w : str) : Prop := w <> [] /\ forall c, In c w -> is_space c = false.

(** [lines] hold the words in order, separated by single blanks: each line is as long as the
    width allows, and at least one word *)
Inductive filled (width : Z) (sub : str) : str -> list str -> list str -> Prop :=
  | filled_nothing ini : filled width sub ini [] []
  | filled_line ini some rest lines :
      some <> [] ->
      (len ini + len (join (L " ") some) <= width)%Z \/ length some = 1 ->
      (forall w rest', rest = w :: rest' -> (width < len ini + len (join (L " ") (some ++ [w])))%Z) ->
      filled width sub sub rest lines ->
      filled width sub ini (some ++ rest) ((ini ++ join (L " ") some) :: lines).
