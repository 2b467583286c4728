(** Model of pretty_bytes, COT/utilities.py:99-160.

    A finite float is a rational number here.  The divisions and multiplications
    by 1024 of the loops are exact on floats (they only change the exponent; a
    value below 1 cannot overflow), so the loops compute the same numbers.
    Infinity (for which the first loop does not end), NaN and negative values are
    not modelled: [byte_value] is a finite float [>= 0]. *)
From Coq Require Import QArith Qround.
From Verif Require Import PyBase.
Local Open Scope Q_scope.

(** tags, utilities.py:146 *)
Definition tags : list str :=
  [L "B"; L "KiB"; L "MiB"; L "GiB"; L "TiB"; L "PiB"; L "EiB"; L "ZiB"; L "YiB"].

(** The first loop, utilities.py:149-151; [None] if the fuel runs out, see
    [enough_for]. *)
Fixpoint scale_up (fuel : nat) (v : Q) (shift : nat) : option (Q * nat) :=
  if Qle_bool 1024 v then
    match fuel with
    | O => None
    | S f => scale_up f (v / 1024) (S shift)
    end
  else Some (v, shift).

(** The second loop, utilities.py:152-154, ends with shift 0 at the latest. *)
Fixpoint scale_down (v : Q) (shift : nat) : Q * nat :=
  match shift with
  | O => (v, O)
  | S s => if Qle_bool 1 v then (v, S s) else scale_down (v * 1024) s
  end.

(** [round(x)] of a non-negative float: half to even. *)
Definition round_half_even (q : Q) : Z :=
  let f := Qfloor q in
  let r := q - inject_Z f in
  match Qcompare r (1 # 2) with
  | Lt => f
  | Gt => (f + 1)%Z
  | Eq => if Z.even f then f else (f + 1)%Z
  end.

(** [n] written with at least [k] digits *)
Definition pad (k : nat) (s : str) : str := repeat "0"%char (k - List.length s) ++ s.
Definition strip_zeros (s : str) : str :=
  rev ((fix go (l : str) := match l with
        | c :: l' => if Ascii.eqb c "0" then go l' else c :: l'
        | [] => [] end) (rev s)).

(** [n / 10^k] in decimal without trailing zeros *)
Definition decimal (n : N) (k : nat) : str :=
  let p := (10 ^ N.of_nat k)%N in
  let frac := strip_zeros (match k with O => [] | S _ => pad k (dec (n mod p)) end) in
  dec (n / p) ++ match frac with [] => [] | _ :: _ => L "." ++ frac end.

(** ["{0:.4g}"] of a float in [0, 10000): four significant digits, correctly rounded
    (half to even), without trailing zeros.  Values between 0 and 1 do not occur,
    see [scale_down] and the rounding of bytes, so they are not treated apart. *)
Definition format_4g (v : Q) : str :=
  let k := if Qle_bool 1000 v then 0%nat else if Qle_bool 100 v then 1%nat
           else if Qle_bool 10 v then 2%nat else 3%nat in
  decimal (Z.to_N (round_half_even (v * inject_Z (10 ^ Z.of_nat k)))) k.

(** Enough steps for the first loop. *)
Definition enough_for (v : Q) : nat := Z.to_nat (Z.log2 (Qceiling v)).

(** pretty_bytes, utilities.py:99-160 *)
Definition pretty_bytes (byte_value : Q) (base_shift : Z) : result str :=
  if (base_shift <? 0)%Z then Err EValueError
  else
    match scale_up (enough_for byte_value) byte_value (Z.to_nat base_shift) with
    | None => Err EOutOfFuel
    | Some (v1, s1) =>
        let '(v2, s2) := scale_down v1 s1 in
        let v3 := match s2 with O => inject_Z (round_half_even v2) | S _ => v2 end in
        match nth_error tags s2 with
        | Some tag => Ok (format_4g v3 ++ L " " ++ tag)
        | None => Err EIndexError
        end
    end.
