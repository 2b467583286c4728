(** Python-level primitives used by the model.

    [str] models Python [str] restricted to the code points 0..255 (Latin-1):
    each [ascii] value is one code point.  Exceptions are values of [exn]. *)
From Coq Require Export List Ascii String ZArith NArith Bool.
Export ListNotations.
(* [length] and [++] are those of lists; [String.append] & co. stay qualified. *)
From Coq Require Export List.
Open Scope list_scope.

Definition str := list ascii.

(** String literals: [L "abc"]. *)
Definition L (s : string) : str := list_ascii_of_string s.

(** Exceptions raised by COT, one constructor per Python class that callers can
    tell apart.  COT/data_validation.py:596-661 defines the subclass relation:
    the two range errors are [ValueUnsupportedError]s, which are
    [InvalidInputError]s, and all of those and [ValueMismatchError] are
    [ValueError]s. *)
Inductive exn : Type :=
| EValueError            (* plain ValueError *)
| EValueMismatch         (* ValueMismatchError(ValueError) *)
| EInvalidInput          (* InvalidInputError(ValueError) *)
| EValueUnsupported      (* ValueUnsupportedError(InvalidInputError) *)
| EValueTooLow           (* ValueTooLowError(ValueUnsupportedError) *)
| EValueTooHigh          (* ValueTooHighError(ValueUnsupportedError) *)
| EKeyError
| EIndexError
| ELookupError
| ETypeError
| EAttributeError
| EOverflowError
| ENotImplemented
| ERuntimeError
| EAssertion
| EEnvironment           (* EnvironmentError / OSError / IOError *)
| EVMInitError           (* VMInitError(EnvironmentError) *)
| EHelperError           (* HelperError(EnvironmentError) *)
| EHelperNotFound        (* HelperNotFoundError(OSError) *)
| EOVFItemData           (* OVFItemDataError(Exception) *)
| EOVFHardwareData       (* OVFHardwareDataError(Exception) *)
| ESystemExit
| EKeyboardInterrupt
| EEOFError
| ENameError             (* NameError, UnboundLocalError *)
| EOutOfFuel.            (* not a Python exception: the loop did not end *)

Definition exn_eq_dec (a b : exn) : {a = b} + {a <> b}.
Proof. decide equality. Defined.

(** [isinstance(exc, ValueError)] *)
Definition is_value_error (e : exn) : bool :=
  match e with
  | EValueError | EValueMismatch | EInvalidInput | EValueUnsupported
  | EValueTooLow | EValueTooHigh => true
  | _ => false
  end.

(** [isinstance(exc, InvalidInputError)] *)
Definition is_invalid_input (e : exn) : bool :=
  match e with
  | EInvalidInput | EValueUnsupported | EValueTooLow | EValueTooHigh => true
  | _ => false
  end.

(** [isinstance(exc, ValueUnsupportedError)] *)
Definition is_value_unsupported (e : exn) : bool :=
  match e with
  | EValueUnsupported | EValueTooLow | EValueTooHigh => true
  | _ => false
  end.

(** [isinstance(exc, EnvironmentError)] *)
Definition is_environment_error (e : exn) : bool :=
  match e with
  | EEnvironment | EVMInitError | EHelperError | EHelperNotFound => true
  | _ => false
  end.

Inductive result (A : Type) : Type :=
| Ok (a : A)
| Err (e : exn).
Arguments Ok {A} a.
Arguments Err {A} e.

Definition rbind {A B} (r : result A) (f : A -> result B) : result B :=
  match r with Ok a => f a | Err e => Err e end.
Notation "'do' x <- r ; k" := (rbind r (fun x => k))
  (at level 200, x pattern, r at level 100, k at level 200, right associativity).

Definition is_ok {A} (r : result A) : bool :=
  match r with Ok _ => true | Err _ => false end.

(** ** Characters *)

Definition code (c : ascii) : N := N_of_ascii c.

Definition in_range (lo hi : N) (c : ascii) : bool :=
  (lo <=? code c)%N && (code c <=? hi)%N.

(** [0-9] *)
Definition is_digit (c : ascii) : bool := in_range 48 57 c.

(** [[0-9a-fA-F]] *)
Definition is_hex (c : ascii) : bool :=
  is_digit c || in_range 97 102 c || in_range 65 70 c.

(** [str.isspace] on Latin-1: \t\n\v\f\r, \x1c-\x1f, space, \x85, \xa0.
    Also the class [\s] of [re] for [str] patterns. *)
Definition is_space (c : ascii) : bool :=
  in_range 9 13 c || in_range 28 32 c || (code c =? 133)%N || (code c =? 160)%N.

Definition NL : ascii := ascii_of_N 10.

(** Lower-casing of one ASCII letter.  Latin-1 letters above 127 are left
    alone: every use in COT compares with ASCII words only. *)
Definition lower_char (c : ascii) : ascii :=
  if in_range 65 90 c then ascii_of_N (code c + 32) else c.
Definition lower (s : str) : str := map lower_char s.

Definition upper_char (c : ascii) : ascii :=
  if in_range 97 122 c then ascii_of_N (code c - 32) else c.
Definition upper (s : str) : str := map upper_char s.

(** ** Strings *)

Fixpoint str_eqb (a b : str) : bool :=
  match a, b with
  | [], [] => true
  | x :: a', y :: b' => Ascii.eqb x y && str_eqb a' b'
  | _, _ => false
  end.

Definition str_eq_dec (a b : str) : {a = b} + {a <> b}.
Proof. decide equality; apply ascii_dec. Defined.

(** [s.startswith(p)] *)
Fixpoint starts_with (p s : str) : bool :=
  match p, s with
  | [], _ => true
  | x :: p', y :: s' => Ascii.eqb x y && starts_with p' s'
  | _ :: _, [] => false
  end.

(** [s.endswith(p)] *)
Definition ends_with (p s : str) : bool := starts_with (rev p) (rev s).

(** [p in s] for strings *)
Fixpoint contains (p s : str) : bool :=
  starts_with p s || match s with [] => false | _ :: s' => contains p s' end.

(** [x in l] for a list of strings *)
Definition mem_str (x : str) (l : list str) : bool := existsb (str_eqb x) l.

Fixpoint lstrip (s : str) : str :=
  match s with
  | c :: s' => if is_space c then lstrip s' else s
  | [] => []
  end.
Definition rstrip (s : str) : str := rev (lstrip (rev s)).
(** [s.strip()] *)
Definition strip (s : str) : str := rstrip (lstrip s).

(** [s.split()]: maximal runs of non-space characters. *)
Fixpoint words_aux (cur : str) (s : str) : list str :=
  match s with
  | [] => match cur with [] => [] | _ => [rev cur] end
  | c :: s' =>
      if is_space c
      then match cur with [] => words_aux [] s' | _ => rev cur :: words_aux [] s' end
      else words_aux (c :: cur) s'
  end.
Definition words (s : str) : list str := words_aux [] s.

(** [s.split(sep)] for a one-character separator *)
Fixpoint split_on_aux (sep : ascii) (cur : str) (s : str) : list str :=
  match s with
  | [] => [rev cur]
  | c :: s' => if Ascii.eqb c sep then rev cur :: split_on_aux sep [] s'
               else split_on_aux sep (c :: cur) s'
  end.
Definition split_on (sep : ascii) (s : str) : list str := split_on_aux sep [] s.

(** [sep.join(l)] *)
Fixpoint join (sep : str) (l : list str) : str :=
  match l with
  | [] => []
  | [x] => x
  | x :: l' => x ++ sep ++ join sep l'
  end.

(** ** Decimal text *)

Definition digit_char (d : N) : ascii := ascii_of_N (48 + d).
Definition digit_val (c : ascii) : N := (code c - 48)%N.

Fixpoint dec_aux (fuel : nat) (n : N) (acc : str) : str :=
  match fuel with
  | O => acc
  | S f =>
      let acc' := digit_char (n mod 10)%N :: acc in
      if (n / 10 =? 0)%N then acc' else dec_aux f (n / 10)%N acc'
  end.
(** [str(n)] for a non-negative integer.  The fuel (number of bits) is always
    enough, see [digits_val_dec]. *)
Definition dec (n : N) : str := dec_aux (S (N.to_nat (N.log2 n))) n [].

(** [str(z)] *)
Definition zdec (z : Z) : str :=
  match z with
  | Z0 => dec 0
  | Zpos p => dec (Npos p)
  | Zneg p => "-"%char :: dec (Npos p)
  end.

(** Value of a string of decimal digits. *)
Definition digits_val_from (acc : N) (s : str) : N :=
  fold_left (fun a c => (a * 10 + digit_val c)%N) s acc.
Definition digits_val (s : str) : N := digits_val_from 0 s.

(** Digits with single underscores between them, as accepted by [int] since
    Python 3.6.  Returns the digits without the underscores. *)
Fixpoint int_digits (prev_digit : bool) (s : str) : option str :=
  match s with
  | [] => if prev_digit then Some [] else None
  | c :: s' =>
      if is_digit c then
        match int_digits true s' with Some r => Some (c :: r) | None => None end
      else if Ascii.eqb c "_"%char && prev_digit then int_digits false s'
      else None
  end.

(** [int(s)] for a [str] argument; [None] is ValueError. *)
Definition py_int (s : str) : option Z :=
  match strip s with
  | [] => None
  | c :: s' =>
      if Ascii.eqb c "-"%char then
        match int_digits false s' with
        | Some d => Some (- Z.of_N (digits_val d))%Z | None => None end
      else if Ascii.eqb c "+"%char then
        match int_digits false s' with
        | Some d => Some (Z.of_N (digits_val d)) | None => None end
      else
        match int_digits false (c :: s') with
        | Some d => Some (Z.of_N (digits_val d)) | None => None end
  end.
