(** Independent vocabulary for printed sizes. *)
From Coq Require Import QArith Qabs.
From Verif Require Import PyBase ValidationModel ValidationSpec.
Local Open Scope Q_scope.

(** [q] of the unit with number [s] (B, KiB, MiB, ...) are [bytes] bytes. *)
Definition bytes_of (q : Q) (s : nat) : Q := q * inject_Z (1024 ^ Z.of_nat s).

(** The number a decimal text stands for. *)
Inductive decimal_text : str -> Q -> Prop :=
| decimal_int a : all_digits a -> a <> [] -> decimal_text a (inject_Z (Z.of_N (digits_val a)))
| decimal_frac a b r : all_digits a -> a <> [] -> all_digits b -> b <> [] -> (forall t, b <> t ++ L "0") ->
    r == inject_Z (Z.of_N (digits_val a)) + inject_Z (Z.of_N (digits_val b)) / inject_Z (10 ^ Z.of_nat (length b)) ->
    decimal_text (a ++ L "." ++ b) r.

(** Half a unit in the last of four significant digits. *)
Definition four_digits (q : Q) : Q :=
  if Qlt_le_dec q 10 then 1 # 2000
  else if Qlt_le_dec q 100 then 1 # 200
  else if Qlt_le_dec q 1000 then 1 # 20
  else 1 # 2.

Definition unit_name (s : nat) : option str :=
  match s with
  | 0 => Some (L "B") | 1 => Some (L "KiB") | 2 => Some (L "MiB") | 3 => Some (L "GiB")
  | 4 => Some (L "TiB") | 5 => Some (L "PiB") | 6 => Some (L "EiB") | 7 => Some (L "ZiB")
  | 8 => Some (L "YiB") | _ => None
  end%nat.
