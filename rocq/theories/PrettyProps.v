(** C40: printed sizes. *)
From Coq Require Import QArith Qabs.
From Verif Require Import PyBase ValidationModel ValidationSpec PrettyModel PrettySpec PrettyProofs PrettyLenProofs.
Local Open Scope Q_scope.

(** A size is printed as a decimal number and a unit.  Before rounding the number is
    below 1024, at least 1 unless the unit is B, and exactly the size; bytes are
    rounded to the nearest integer (half to even), other units to four significant
    digits.  A size beyond the last unit is an IndexError. *)
Theorem C40_printed : forall v base, 0 <= v ->
  exists q s, bytes_of q s == bytes_of v base /\ 0 <= q /\ q < 1024 /\ (s <> 0%nat -> 1 <= q) /\
    match unit_name s with
    | None => pretty_bytes v (Z.of_nat base) = Err EIndexError
    | Some u => exists t r, pretty_bytes v (Z.of_nat base) = Ok (t ++ L " " ++ u) /\ decimal_text t r /\
        (s <> 0%nat -> Qabs (r - q) <= four_digits q) /\
        (s = 0%nat -> exists z, r == inject_Z z /\ Qabs (r - q) <= 1 # 2 /\ (Qabs (r - q) == 1 # 2 -> Z.even z = true))
    end.
Proof. exact pretty_spec. Qed.
Print Assumptions C40_printed.

(** Number and unit are determined by the size. *)
Theorem C40_unique : forall q s q' s', 0 <= q -> q < 1024 -> (s <> 0%nat -> 1 <= q) ->
  0 <= q' -> q' < 1024 -> (s' <> 0%nat -> 1 <= q') -> bytes_of q s == bytes_of q' s' -> s = s' /\ q == q'.
Proof. exact unit_unique. Qed.
Print Assumptions C40_unique.

(** It fails exactly for 1024 YiB or more, and for a negative shift. *)
Theorem C40_range : forall v base, 0 <= v ->
  (pretty_bytes v (Z.of_nat base) = Err EIndexError <-> inject_Z (1024 ^ 9) <= bytes_of v base).
Proof. exact pretty_range. Qed.
Print Assumptions C40_range.
Theorem C40_negative_shift : forall v base, (base < 0)%Z -> pretty_bytes v base = Err EValueError.
Proof. intros v base H. unfold pretty_bytes. apply Z.ltb_lt in H. now rewrite H. Qed.
Print Assumptions C40_negative_shift.

(** The printed number itself can be 1024: the bound holds only before rounding. *)
Theorem C40_below_1024_refuted : exists v, 0 <= v /\ pretty_bytes v 0 = Ok (L "1024 KiB").
Proof. exists (1048575 # 1). split; [discriminate|]. vm_compute. reflexivity. Qed.
Print Assumptions C40_below_1024_refuted.

(** A printed size has at most nine characters, so it fits its column of a table. *)
Theorem C40_length : forall v base t, 0 <= v -> pretty_bytes v (Z.of_nat base) = Ok t -> (length t <= 9)%nat.
Proof. exact pretty_length. Qed.
Print Assumptions C40_length.

Example C40_example :
  pretty_bytes (65547 # 1) 0 = Ok (L "64.01 KiB") /\ pretty_bytes (1 # 10000) 3 = Ok (L "104.9 KiB") /\
  pretty_bytes (65530 # 1) 3 = Ok (L "63.99 TiB") /\ pretty_bytes (2560 # 1) 0 = Ok (L "2.5 KiB") /\
  pretty_bytes (5 # 2) 0 = Ok (L "2 B") /\ pretty_bytes (0 # 1) 2 = Ok (L "0 B") /\
  pretty_bytes (1024 # 1) 8 = Err EIndexError.
Proof. do 6 (split; [vm_compute; reflexivity|]). vm_compute. reflexivity. Qed.
