(** Independent vocabulary for choices made by the user. *)
From Verif Require Import PyBase ValidationSpec.

Definition has_prefix (p o : str) : Prop := exists t, o = p ++ t.

(** Exactly one place in the list holds an option with that prefix, namely [o]. *)
Definition only_with_prefix (p : str) (options : list str) (o : str) : Prop :=
  exists a b, options = a ++ o :: b /\ has_prefix p o /\
    (forall x, In x a -> ~ has_prefix p x) /\ (forall x, In x b -> ~ has_prefix p x).

(** [o] is option number [k], counting from 1; numbers from 0 downwards count
    backwards from the last option. *)
Definition option_number (options : list str) (k : Z) (o : str) : Prop :=
  exists a b, options = a ++ o :: b /\
    (k = 1 + Z.of_nat (length a) \/ k = - Z.of_nat (length b))%Z.

(** What an input selects. *)
Inductive selects (options : list str) (default input : str) : str -> Prop :=
| sel_exact : input = default \/ In input options -> selects options default input input
| sel_prefix o : input <> default -> ~ In input options ->
    only_with_prefix input options o -> selects options default input o
| sel_number k o : input <> default -> ~ In input options ->
    (forall o', ~ only_with_prefix input options o') ->
    int_text input k -> option_number options k o -> selects options default input o.

(** What the user entered: an empty line stands for the default. *)
Definition entered (default typed input : str) : Prop :=
  (typed = [] /\ input = default) \/ (typed <> [] /\ input = typed).

(** [x] is [c] with blanks around it. *)
Definition blanks (s : str) : Prop := forall c, In c s -> is_space c = true.
Definition means (answers : list str) (typed : str) : Prop :=
  exists a c b, typed = a ++ c ++ b /\ blanks a /\ blanks b /\ In c answers.
