(** C12: the controller and address options of add-disk. *)
From Verif Require Import PyBase ValidationModel ValidationSpec DiskOptModel DiskOptSpec DiskOptProofs.

(** After any assignments, accepted or not, the stored pair is a valid combination. *)
Theorem C12_history : forall l, valid_pair (o_controller (assign_all l)) (o_address (assign_all l)).
Proof. exact history_valid. Qed.
Print Assumptions C12_history.

(** An assignment is accepted exactly if it makes a valid combination; it then changes
    just this option, and otherwise nothing. *)
Theorem C12_address : forall o a,
  (valid_pair (o_controller o) a -> assign o (Address a) = (Ok tt, mkOptions (o_image o) (o_controller o) a)) /\
  (~ valid_pair (o_controller o) a -> exists e, assign o (Address a) = (Err e, o)).
Proof. exact assign_address. Qed.
Print Assumptions C12_address.
Theorem C12_controller : forall o c,
  (valid_pair c (o_address o) -> assign o (Controller c) = (Ok tt, mkOptions (o_image o) c (o_address o))) /\
  (~ valid_pair c (o_address o) -> exists e, assign o (Controller c) = (Err e, o)).
Proof. exact assign_controller. Qed.
Print Assumptions C12_controller.

(** An address given on the command line has two non-negative parts, so that limits of
    SCSI and IDE hold from both sides. *)
Theorem C12_checked : forall s a m n, device_address s = Ok a -> within m n a ->
  exists x y u w, a = x ++ L ":" ++ y /\ int_text x u /\ int_text y w /\ (0 <= u <= m)%Z /\ (0 <= w <= n)%Z.
Proof. exact checked_within. Qed.
Print Assumptions C12_checked.

(** The command only runs with an image, and with an address only with a controller. *)
Theorem C12_ready : forall o base, ready_to_run o base = true <->
  o_image o = true /\ base = true /\ (o_address o <> None -> o_controller o <> None).
Proof.
  intros [[] [c|] [a|]] []; cbn; split; intros H; try discriminate; try (split; [reflexivity|split; [reflexivity|congruence]]);
    try reflexivity; destruct H as (H1 & H2 & H3); try discriminate. now destruct (H3 ltac:(discriminate)).
Qed.
Print Assumptions C12_ready.
(** After any assignments: there is an image exactly if one could be opened. *)
Theorem C12_ready_history : forall l base, ready_to_run (assign_all l) base = true <->
  In (Image true) l /\ base = true /\ (o_address (assign_all l) <> None -> o_controller (assign_all l) <> None).
Proof. intros l base. rewrite C12_ready, image_history. reflexivity. Qed.
Print Assumptions C12_ready_history.

Example C12_ready_example : ready_to_run (assign_all [Image false; Image true; Image false; Controller (Some (L "ide")); Address (Some (L "0:1"))]) true = true.
Proof. reflexivity. Qed.

Example C12_example :
  assign_all [Address (Some (L "2:0")); Controller (Some (L "ide")); Controller (Some (L "scsi"));
              Address (Some (L "3:16")); Address (Some (L "3:15")); Controller (Some (L "ide"))] =
    mkOptions false (Some (L "scsi")) (Some (L "3:15")) /\
  device_address (L " 3:15 ") = Ok (L "3:15") /\
  ~ valid_pair (Some (L "ide")) (Some (L "3:15")) /\ valid_pair (Some (L "scsi")) (Some (L "3:15")).
Proof.
  split; [reflexivity|]. split; [reflexivity|]. split.
  - rewrite <- validate_valid. vm_compute. discriminate.
  - apply validate_valid. reflexivity.
Qed.

(** A negative number is only stopped by the parser of the option. *)
Example C12_negative : assign new_options (Address (Some (L "-1:0"))) = (Ok tt, mkOptions false None (Some (L "-1:0"))) /\
  valid_pair (Some (L "ide")) (Some (L "-1:0")) /\ device_address (L "-1:0") = Err EInvalidInput.
Proof. split; [reflexivity|]. split; [apply validate_valid; reflexivity|reflexivity]. Qed.
