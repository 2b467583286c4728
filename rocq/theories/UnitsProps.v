(** C02: disk capacities in OVF units. *)
From Verif Require Import PyBase UnitsModel UnitsSpec UnitsProofs.
Open Scope Z_scope.

(** With enough loop iterations ([fuel]) the conversion of a non-zero byte count
    ends, and the pair that is written reads back as the same count exactly
    when the count is not a multiple of 1024 or its quotient by 1024 is exact in
    double precision. *)
Theorem C02_capacity_round_trip : forall z, z <> 0 ->
  exists enough, forall fuel, (enough <= fuel)%nat ->
  int_bytes_to_programmatic_units fuel z <> Err EOutOfFuel /\
  ((exists base units,
      int_bytes_to_programmatic_units fuel z = Ok (base, units) /\
      programmatic_bytes_to_int base units = Ok z)
   <-> (z mod 1024 <> 0 \/ double_exact (z / 1024))).
Proof. exact roundtrip_with_fuel. Qed.
Print Assumptions C02_capacity_round_trip.

(** In particular every capacity up to 8 EiB survives. *)
Theorem C02_capacity_round_trip_below_8EiB : forall z, 0 < z < 2 ^ 63 ->
  exists enough, forall fuel, (enough <= fuel)%nat ->
  exists base units,
    int_bytes_to_programmatic_units fuel z = Ok (base, units) /\
    programmatic_bytes_to_int base units = Ok z.
Proof. exact roundtrip_below_8EiB. Qed.
Print Assumptions C02_capacity_round_trip_below_8EiB.

Example C02_example :
  int_bytes_to_programmatic_units 100 (3 * 2 ^ 30) = Ok (L "3", L "byte * 2^30") /\
  programmatic_bytes_to_int (L "3") (L "byte * 2^30") = Ok (3 * 2 ^ 30) /\
  double_exact (3 * 2 ^ 30 / 1024).
Proof.
  split; [vm_compute; reflexivity|]. split; [vm_compute; reflexivity|].
  exists 3, 20. repeat split; vm_compute; congruence.
Qed.

(** The unconditional claim is false: a count of zero bytes never returns, ... *)
Theorem C02_zero_never_returns_refuted : forall fuel,
  int_bytes_to_programmatic_units fuel 0 = Err EOutOfFuel.
Proof. exact zero_never_returns. Qed.
Print Assumptions C02_zero_never_returns_refuted.

(** ... and a large count comes back as a different count. *)
Theorem C02_large_capacity_changes_refuted : exists z base units z',
  0 < z /\ int_bytes_to_programmatic_units 100 z = Ok (base, units) /\
  programmatic_bytes_to_int base units = Ok z' /\ z' <> z.
Proof. exact large_changes. Qed.
Print Assumptions C02_large_capacity_changes_refuted.

(** Units spelled out ("MegaBytes", in any letter case) are powers of 1024. *)
Theorem C02_named_units : forall base b units i p,
  py_int base = Some b ->
  nth_error [L ""; L "kilo"; L "mega"; L "giga"; L "tera"] i = Some p ->
  lower units = p ++ L "bytes" ->
  programmatic_bytes_to_int base units = Ok (b * 1024 ^ Z.of_nat i).
Proof. exact named_units. Qed.
Print Assumptions C02_named_units.

Example C02_named_example :
  programmatic_bytes_to_int (L "512") (L "MegaBytes") = Ok 536870912 /\
  lower (L "MegaBytes") = L "mega" ++ L "bytes".
Proof. split; vm_compute; reflexivity. Qed.

(** Any other word ending in "bytes" is a ValueError rather than a warning. *)
Theorem C02_unknown_units_raise_refuted :
  programmatic_bytes_to_int (L "1") (L "PetaBytes") = Err EValueError.
Proof. exact unknown_units_raise. Qed.
Print Assumptions C02_unknown_units_raise_refuted.
