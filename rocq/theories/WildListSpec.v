(** Independent vocabulary for numbered name lists. *)
From Verif Require Import PyBase ValidationModel ValidationSpec.

(** A wildcard is a number in braces. *)
Definition wildcard (d : str) : str := L "{" ++ d ++ L "}".
Definition a_number (d : str) : Prop := all_digits d /\ d <> [].

Definition no_wildcard (t : str) : Prop :=
  forall a d b, a_number d -> t <> a ++ wildcard d ++ b.

(** [filled v pattern out]: [out] is [pattern] with [v] for each wildcard. *)
Inductive filled (v : N) : str -> str -> Prop :=
| filled_end t : no_wildcard t -> filled v t t
| filled_more t d s out :
    no_wildcard t -> a_number d -> filled v s out ->
    filled v (t ++ wildcard d ++ s) (t ++ dec v ++ out).

(** The number in the first wildcard, 0 if there is none. *)
Inductive starts_at : str -> N -> Prop :=
| starts_none t : no_wildcard t -> starts_at t 0
| starts_some t d s : no_wildcard t -> a_number d -> starts_at (t ++ wildcard d ++ s) (digits_val d).

(** [numbered pattern v l]: [l] is [pattern] filled with v, v+1, v+2, ... *)
Inductive numbered (pattern : str) : N -> list str -> Prop :=
| numbered_nil v : numbered pattern v []
| numbered_cons v x l : filled v pattern x -> numbered pattern (v + 1) l -> numbered pattern v (x :: l).

(** No number in the text is written with leading zeros. *)
Definition plain_numbers (s : str) : Prop :=
  forall a d b, s = a ++ L "0" ++ d ++ b -> a_number d ->
    exists a' c, a = a' ++ [c] /\ is_digit c = true.

Definition ends_in_digit (s : str) : Prop := exists a c, s = a ++ [c] /\ is_digit c = true.
Definition starts_with_digit (s : str) : Prop := exists a c, s = c :: a /\ is_digit c = true.

(** [counting p q n l]: [l] is p n q, p (n+1) q, p (n+2) q, ... *)
Fixpoint counting (p q : str) (n : N) (count : nat) : list str :=
  match count with
  | O => []
  | S k => (p ++ dec n ++ q) :: counting p q (n + 1) k
  end.
