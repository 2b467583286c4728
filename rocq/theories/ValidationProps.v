(** C04-C08 and C41: sorting and validating user input. *)
From Coq Require Import Sorting.Sorted Permutation.
From Verif Require Import PyBase ValidationModel ValidationSpec ValidationProofs.

(** * C04 natural_sort *)

(** Every string has exactly one cut into texts and maximal digit runs. *)
Theorem C04_split_unique : forall s,
  exists ts, splits s ts /\ forall ts', splits s ts' -> ts' = ts.
Proof. exact splits_exists_unique. Qed.
Print Assumptions C04_split_unique.

(** alphanum_split computes it, unless some text piece consists of superscript
    digits only: then int() raises ValueError. *)
Theorem C04_split_value : forall s ts, splits s ts ->
  ((forall t, In (TText t) ts -> ~ only_superscripts t) /\ alphanum_split s = Ok ts) \/
  ((exists t, In (TText t) ts /\ only_superscripts t) /\ alphanum_split s = Err EValueError).
Proof. exact alphanum_split_spec. Qed.
Print Assumptions C04_split_value.

(** Natural order is total: of two strings, exactly one of "before", "equal key"
    and "after" holds. *)
Theorem C04_order_total : forall a b,
  (natural_lt a b /\ ~ natural_eq a b /\ ~ natural_lt b a) \/
  (~ natural_lt a b /\ natural_eq a b /\ ~ natural_lt b a) \/
  (~ natural_lt a b /\ ~ natural_eq a b /\ natural_lt b a).
Proof. exact natural_order. Qed.
Print Assumptions C04_order_total.

(** For texts without superscript digits, natural_sort returns the one stably
    sorted permutation of its input. *)
Theorem C04_natural_sort : forall l, (forall s, In s l -> plain_text s) ->
  exists out, natural_sort l = Ok out /\ stably_sorted l out /\
    forall out', stably_sorted l out' -> out' = out.
Proof. exact natural_sort_ok. Qed.
Print Assumptions C04_natural_sort.

(** Whatever it returns is stably sorted, without hypothesis. *)
Theorem C04_natural_sort_sound : forall l out, natural_sort l = Ok out -> stably_sorted l out.
Proof. exact natural_sort_sound. Qed.
Print Assumptions C04_natural_sort_sound.

(** Not every list of strings can be sorted. *)
Theorem C04_total_refuted : exists s, s <> [] /\ natural_sort [s] = Err EValueError.
Proof. exact superscript_error. Qed.
Print Assumptions C04_total_refuted.

Example C04_example :
  natural_sort [L "eth10"; L "eth9"; L "x"; L "eth09"; L "2"; L "10a"] =
  Ok [L "2"; L "10a"; L "eth9"; L "eth09"; L "eth10"; L "x"] /\
  (forall s, In s [L "eth10"; L "eth9"; L "x"; L "eth09"; L "2"; L "10a"] -> plain_text s).
Proof.
  split; [reflexivity|]. intros s Hs c Hc. cbn in Hs.
  repeat (destruct Hs as [<-|Hs];
    [cbn in Hc; repeat (destruct Hc as [<-|Hc]; [reflexivity|]); destruct Hc|]).
  destruct Hs.
Qed.

(** * C05 check_for_conflict *)

Theorem C05_check_for_conflict : forall (A : Type) (eqb : A -> A -> bool),
  (forall a b, eqb a b = true <-> a = b) -> forall refs : list (option A),
  (check_for_conflict eqb refs = Ok None <-> forall y, ~ In (Some y) refs) /\
  (forall x, check_for_conflict eqb refs = Ok (Some x) <->
     In (Some x) refs /\ forall y, In (Some y) refs -> y = x) /\
  (check_for_conflict eqb refs = Err EValueMismatch <->
     exists x y, In (Some x) refs /\ In (Some y) refs /\ x <> y) /\
  (forall e, check_for_conflict eqb refs = Err e -> e = EValueMismatch).
Proof. intros A eqb H. exact (check_for_conflict_spec eqb H). Qed.
Print Assumptions C05_check_for_conflict.

Theorem C05_match_or_die : forall (A : Type) (eqb : A -> A -> bool),
  (forall a b, eqb a b = true <-> a = b) -> forall x y,
  (match_or_die eqb x y = Ok tt <-> x = y) /\
  (match_or_die eqb x y = Err EValueMismatch <-> x <> y).
Proof.
  intros A eqb H x y. unfold match_or_die. destruct (eqb x y) eqn:E.
  - apply H in E. subst. split; split; congruence.
  - assert (x <> y) by (intros ->; rewrite (proj2 (H y y) eq_refl) in E; discriminate).
    split; split; congruence.
Qed.
Print Assumptions C05_match_or_die.

Example C05_example :
  check_for_conflict Nat.eqb [None; Some 3; None; Some 3] = Ok (Some 3) /\
  check_for_conflict Nat.eqb [Some 3; None; Some 3; Some 4] = Err EValueMismatch /\
  (forall a b, Nat.eqb a b = true <-> a = b).
Proof. split; [|split]; [reflexivity|reflexivity|exact PeanoNat.Nat.eqb_eq]. Qed.

(** * C06 integers *)

(** Text that is no integer is rejected as unsupported, any other text is
    treated as the integer it denotes. *)
Theorem C06_validate_int_text : forall s lo hi,
  ((forall z, ~ int_text s z) -> validate_int (AStr s) lo hi = Err EValueUnsupported) /\
  (forall z, int_text s z -> validate_int (AStr s) lo hi = validate_int (AInt z) lo hi).
Proof. exact validate_int_text. Qed.
Print Assumptions C06_validate_int_text.

Theorem C06_validate_int_range : forall z lo hi,
  (validate_int (AInt z) lo hi = Err EValueTooLow <-> exists m, lo = Some m /\ (z < m)%Z) /\
  (validate_int (AInt z) lo hi = Err EValueTooHigh <->
     (forall m, lo = Some m -> (m <= z)%Z) /\ exists m, hi = Some m /\ (m < z)%Z) /\
  (forall r, validate_int (AInt z) lo hi = Ok r <->
     r = z /\ (forall m, lo = Some m -> (m <= z)%Z) /\ (forall m, hi = Some m -> (z <= m)%Z)) /\
  (forall e, validate_int (AInt z) lo hi = Err e -> e = EValueTooLow \/ e = EValueTooHigh).
Proof. exact validate_int_int. Qed.
Print Assumptions C06_validate_int_range.

Theorem C06_bounded_ints : forall z,
  (non_negative_int (AInt z) = if (0 <=? z)%Z then Ok z else Err EValueTooLow) /\
  (positive_int (AInt z) = if (1 <=? z)%Z then Ok z else Err EValueTooLow).
Proof. exact bounded_ints. Qed.
Print Assumptions C06_bounded_ints.

(** Text denotes at most one integer, and str(z) denotes z. *)
Theorem C06_int_text_functional : forall s z1 z2, int_text s z1 -> int_text s z2 -> z1 = z2.
Proof. intros s z1 z2 H1 H2. apply py_int_spec in H1, H2. congruence. Qed.
Print Assumptions C06_int_text_functional.
Theorem C06_int_text_str : forall z, int_text (zdec z) z.
Proof. exact int_text_zdec. Qed.
Print Assumptions C06_int_text_str.

Example C06_example :
  validate_int (AStr (L " +1_0 ")) (Some 1%Z) (Some 10%Z) = Ok 10%Z /\
  validate_int (AStr (L "11")) (Some 1%Z) (Some 10%Z) = Err EValueTooHigh /\
  validate_int (AStr (L "1__0")) (Some 1%Z) (Some 10%Z) = Err EValueUnsupported.
Proof. repeat split. Qed.

(** * C07 MAC and device addresses *)

Theorem C07_mac_address : forall s t, mac_address s = Ok t <-> trimmed_of s t /\ mac_form t.
Proof. exact mac_address_spec. Qed.
Print Assumptions C07_mac_address.

Theorem C07_device_address : forall s t,
  device_address s = Ok t <-> trimmed_of s t /\ device_form t.
Proof. exact device_address_spec. Qed.
Print Assumptions C07_device_address.

Theorem C07_no_whitespace : forall s,
  (forall t, no_whitespace s = Ok t -> trimmed_of s t /\ spaceless t) /\
  (forall t, t <> [] -> trimmed_of s t -> spaceless t -> no_whitespace s = Ok t) /\
  (spaceless (strip s) \/ no_whitespace s = Err EInvalidInput).
Proof. exact no_whitespace_spec. Qed.
Print Assumptions C07_no_whitespace.

Theorem C07_revalidate : forall s t,
  (mac_address s = Ok t -> mac_address t = Ok t) /\
  (device_address s = Ok t -> device_address t = Ok t) /\
  (no_whitespace s = Ok t -> no_whitespace t = Ok t).
Proof. exact revalidate. Qed.
Print Assumptions C07_revalidate.

(** Rejection is always an InvalidInputError. *)
Theorem C07_errors : forall s e,
  (mac_address s = Err e -> e = EInvalidInput) /\
  (device_address s = Err e -> e = EInvalidInput).
Proof.
  intros s e. split; [apply mac_address_error|].
  unfold device_address. destruct (PyRegex.re_test _ _); congruence.
Qed.
Print Assumptions C07_errors.

Example C07_example :
  mac_address (L " 01:23:45:67:89:aB ") = Ok (L "01:23:45:67:89:aB") /\
  mac_address (L "0123.4567.89ab") = Ok (L "0123.4567.89ab") /\
  mac_address (L "01:23-45:67:89:ab") = Err EInvalidInput /\
  device_address (L "1:15") = Ok (L "1:15") /\
  no_whitespace (L " a b ") = Err EInvalidInput.
Proof. repeat split. Qed.

(** * C08 canonical names *)

(** The result is the canonical name of the first alias in the table that the
    input starts with (any case, blanks allowed between words); if there is none
    the input is rejected. *)
Theorem C08_nic : forall s, s <> [] ->
  (forall r, canonicalize_nic_subtype (Some s) = Ok r <->
     exists c, r = Some c /\ first_alias nic_aliases s c) /\
  (forall e, canonicalize_nic_subtype (Some s) = Err e <->
     e = EValueUnsupported /\ forall ws c, In (ws, c) nic_aliases -> ~ alias_prefix ws s).
Proof. intros s. exact (canonicalize_spec nic_aliases s nic_nonempty). Qed.
Print Assumptions C08_nic.
Theorem C08_ide : forall s, s <> [] ->
  (forall r, canonicalize_ide_subtype (Some s) = Ok r <->
     exists c, r = Some c /\ first_alias ide_aliases s c) /\
  (forall e, canonicalize_ide_subtype (Some s) = Err e <->
     e = EValueUnsupported /\ forall ws c, In (ws, c) ide_aliases -> ~ alias_prefix ws s).
Proof. intros s. exact (canonicalize_spec ide_aliases s ide_nonempty). Qed.
Print Assumptions C08_ide.
Theorem C08_scsi : forall s, s <> [] ->
  (forall r, canonicalize_scsi_subtype (Some s) = Ok r <->
     exists c, r = Some c /\ first_alias scsi_aliases s c) /\
  (forall e, canonicalize_scsi_subtype (Some s) = Err e <->
     e = EValueUnsupported /\ forall ws c, In (ws, c) scsi_aliases -> ~ alias_prefix ws s).
Proof. intros s. exact (canonicalize_spec scsi_aliases s scsi_nonempty). Qed.
Print Assumptions C08_scsi.

(** Results are documented names and map to themselves. *)
Theorem C08_idempotent : forall s c,
  (canonicalize_ide_subtype (Some s) = Ok (Some c) ->
     In c [L "PIIX4"; L "virtio"] /\ canonicalize_ide_subtype (Some c) = Ok (Some c)) /\
  (canonicalize_nic_subtype (Some s) = Ok (Some c) ->
     In c [L "E1000e"; L "E1000"; L "PCNet32"; L "virtio"; L "VMXNET3"] /\
     canonicalize_nic_subtype (Some c) = Ok (Some c)) /\
  (canonicalize_scsi_subtype (Some s) = Ok (Some c) ->
     In c [L "buslogic"; L "lsilogicsas"; L "lsilogic"; L "virtio"; L "VirtualSCSI"] /\
     canonicalize_scsi_subtype (Some c) = Ok (Some c)).
Proof.
  intros s c. split; [|split].
  - apply (canonicalize_idem ide_aliases s c ide_nonempty).
    intros d Hd. cbn in Hd. intuition (subst; reflexivity).
  - apply (canonicalize_idem nic_aliases s c nic_nonempty).
    intros d Hd. cbn in Hd. intuition (subst; reflexivity).
  - apply (canonicalize_idem scsi_aliases s c scsi_nonempty).
    intros d Hd. cbn in Hd. intuition (subst; reflexivity).
Qed.
Print Assumptions C08_idempotent.

Theorem C08_case_blind : forall s1 s2, lower s1 = lower s2 ->
  canonicalize_ide_subtype (Some s1) = canonicalize_ide_subtype (Some s2) /\
  canonicalize_nic_subtype (Some s1) = canonicalize_nic_subtype (Some s2) /\
  canonicalize_scsi_subtype (Some s1) = canonicalize_scsi_subtype (Some s2).
Proof.
  intros s1 s2 H. split; [|split].
  - exact (canonicalize_case ide_aliases s1 s2 ide_nonempty H).
  - exact (canonicalize_case nic_aliases s1 s2 nic_nonempty H).
  - exact (canonicalize_case scsi_aliases s1 s2 scsi_nonempty H).
Qed.
Print Assumptions C08_case_blind.

Theorem C08_empty :
  canonicalize_ide_subtype None = Ok None /\ canonicalize_ide_subtype (Some []) = Ok None /\
  canonicalize_nic_subtype None = Ok None /\ canonicalize_nic_subtype (Some []) = Ok None /\
  canonicalize_scsi_subtype None = Ok None /\ canonicalize_scsi_subtype (Some []) = Ok None.
Proof. exact subtype_empty. Qed.
Print Assumptions C08_empty.

Example C08_example :
  canonicalize_nic_subtype (Some (L "e1000E-foo")) = Ok (Some (L "E1000e")) /\
  canonicalize_nic_subtype (Some (L "VmxNet   3")) = Ok (Some (L "VMXNET3")) /\
  canonicalize_scsi_subtype (Some (L "LSI Logic  SAS")) = Ok (Some (L "lsilogicsas")) /\
  canonicalize_scsi_subtype (Some (L "LSI Logic  ATA")) = Ok (Some (L "lsilogic")) /\
  canonicalize_ide_subtype (Some (L " piix4")) = Err EValueUnsupported.
Proof. repeat split. Qed.

(** * C41 truth values *)

Theorem C41_truth_value : forall s b,
  truth_value (inr s) = Ok b <->
  In (lower s) (if b then [L "y"; L "yes"; L "t"; L "true"; L "on"; L "1"]
                else [L "n"; L "no"; L "f"; L "false"; L "off"; L "0"]).
Proof. exact truth_value_spec. Qed.
Print Assumptions C41_truth_value.
Theorem C41_truth_value_bool : forall b, truth_value (inl b) = Ok b.
Proof. reflexivity. Qed.
Print Assumptions C41_truth_value_bool.
Theorem C41_truth_value_error : forall v e, truth_value v = Err e -> e = EValueUnsupported.
Proof. exact truth_value_error. Qed.
Print Assumptions C41_truth_value_error.
Example C41_example :
  truth_value (inr (L "YeS")) = Ok true /\ truth_value (inr (L "oFF")) = Ok false /\
  truth_value (inr (L "yess")) = Err EValueUnsupported.
Proof. repeat split. Qed.
