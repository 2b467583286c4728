(** Model of COT/vm_description/ovf/utilities.py:78-164: byte counts and OVF
    "programmatic units". *)
From Verif Require Import PyBase PyRegex.
Open Scope Z_scope.

(** Rounding of an integer to a Python float (IEEE double, round half to even),
    as done by [int / int] when the exact quotient is an integer.  The exponent
    range is checked by [py_int_truediv_1024]. *)
Definition round53 (z : Z) : Z :=
  let a := Z.abs z in
  let e := Z.log2 a - 52 in
  if e <=? 0 then z else
  let p := 2 ^ e in
  let q := a / p in
  let r := a mod p in
  let up := (p <? 2 * r) || ((2 * r =? p) && Z.odd q) in
  Z.sgn z * ((if up then q + 1 else q) * p).

(** [byte_value /= 1024] on an [int] divisible by 1024 (utilities.py:160):
    the result is the float nearest to the exact quotient; OverflowError when
    it is out of the range of a double. *)
Definition py_int_truediv_1024 (z : Z) : result Z :=
  let r := round53 (z / 1024) in
  if 2 ^ 1024 <=? Z.abs r then Err EOverflowError else Ok r.

(** The [while byte_value % 1024 == 0] loop, utilities.py:156-160.  After the
    first iteration [byte_value] is a float holding an integer; dividing it by
    1024 while it is divisible is exact.  [fuel] bounds the iterations and
    [EOutOfFuel] means that the loop is still running. *)
Fixpoint units_loop (fuel : nat) (is_float : bool) (v shift : Z) : result (Z * Z) :=
  match fuel with
  | O => Err EOutOfFuel
  | S k =>
      if v mod 1024 =? 0 then
        do v' <- (if is_float then Ok (v / 1024) else py_int_truediv_1024 v);
        units_loop k true v' (shift + 10)
      else Ok (v, shift)
  end.

(** int_bytes_to_programmatic_units, utilities.py:133-164 (for an [int]
    argument). *)
Definition int_bytes_to_programmatic_units (fuel : nat) (byte_value : Z)
  : result (str * str) :=
  do vs <- units_loop fuel false byte_value 0;
  let (v, shift) := vs : Z * Z in
  let byte_str := zdec v in
  if shift =? 0 then Ok (byte_str, L "byte")
  else Ok (byte_str, L "byte * 2^" ++ zdec shift).

(** r"2\^(\d+)", utilities.py:112 *)
Definition re_pow2 : re := RSeq (RStr (L "2^")) (RGroup 1 (RPlus (RChr is_digit))).

(** ^(.* )bytes$ (without the blank) with IGNORECASE, utilities.py:118 *)
Definition re_si : re :=
  RSeq (RGroup 1 (RStar RDot)) (RSeq (RStrI (L "bytes")) REnd).

(** si_prefixes, utilities.py:117 *)
Definition si_prefixes : list str :=
  [L ""; L "kilo"; L "mega"; L "giga"; L "tera"].

(** [list.index]; [None] is ValueError *)
Fixpoint list_index (x : str) (l : list str) : option Z :=
  match l with
  | [] => None
  | y :: l' => if str_eqb x y then Some 0
               else match list_index x l' with Some i => Some (i + 1) | None => None end
  end.

Definition int_or_err (s : str) : result Z :=
  match py_int s with Some z => Ok z | None => Err EValueError end.

Definition group_or_empty (n : nat) (g : groups) : str :=
  match group n g with Some w => w | None => [] end.

(** programmatic_bytes_to_int, utilities.py:78-130.  [None] units are the empty
    string; the warning for unknown units is not modelled. *)
Definition programmatic_bytes_to_int (base units : str) : result Z :=
  match units with
  | [] => int_or_err base
  | _ =>
    match re_search re_pow2 units with
    | Some g =>
        do b <- int_or_err base;
        do n <- int_or_err (group_or_empty 1 g);
        Ok (Z.shiftl b n)
    | None =>
      match re_match re_si units with
      | Some g =>
          match list_index (lower (group_or_empty 1 g)) si_prefixes with
          | Some shift => do b <- int_or_err base; Ok (Z.shiftl b (10 * shift))
          | None => Err EValueError
          end
      | None => int_or_err base
      end
    end
  end.
