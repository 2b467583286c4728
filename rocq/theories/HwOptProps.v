(** C27: memory amounts; C46: the quantity options of edit-hardware. *)
From Verif Require Import PyBase ValidationModel ValidationSpec PlatformModel PlatformSpec
  HwOptModel HwOptSpec HwOptProofs.
Local Open Scope Z_scope.

(** A text is accepted exactly if it is a positive number with an optional unit;
    the value is the amount in MiB; everything else is invalid input. *)
Theorem C27_memory : forall s,
  (forall v, memory_value s = Ok v <-> memory_text s v) /\
  (forall e, memory_value s = Err e -> e = EInvalidInput).
Proof. exact memory_value_spec. Qed.
Print Assumptions C27_memory.

(** A text has only one meaning. *)
Theorem C27_unique : forall s v v', memory_text s v -> memory_text s v' -> v = v'.
Proof. exact memory_text_unique. Qed.
Print Assumptions C27_unique.

Example C27_example :
  memory_value (L "4096M") = Ok 4096 /\ memory_value (L " 4 GB ") = Ok 4096 /\ memory_value (L "2 GiB") = Ok 2048 /\
  memory_value (L "64") = Ok 65536 /\ memory_value (L "65") = Ok 65 /\ memory_value (L "1 TB") = Err EInvalidInput /\
  memory_value (L "0 MB") = Err EInvalidInput /\ memory_value (L "-1M") = Err EInvalidInput /\
  memory_text (L "2 GiB") 2048.
Proof.
  do 8 (split; [vm_compute; reflexivity|]). apply C27_memory. vm_compute. reflexivity.
Qed.

(** Without a unit a greater number can mean less memory. *)
Theorem C27_monotone_refuted : exists a b x y, int_text a 64 /\ int_text b 65 /\
  memory_value a = Ok x /\ memory_value b = Ok y /\ y < x.
Proof.
  exists (L "64"), (L "65"), 65536, 65.
  split; [apply ValidationProofs.py_int_spec; reflexivity|].
  split; [apply ValidationProofs.py_int_spec; reflexivity|].
  split; [reflexivity|]. split; [reflexivity|]. reflexivity.
Qed.
Print Assumptions C27_monotone_refuted.

(** ** C46 *)

(** The text of a quantity option is accepted for what it stands for. *)
Theorem C46_value : forall h s,
  (forall v, option_value h s = Ok v <-> wanted h s v) /\
  (forall e, option_value h s = Err e -> is_invalid_input e = true).
Proof. exact option_value_spec. Qed.
Print Assumptions C46_value.

(** After any assignments, a quantity is stored exactly if the platform supports it,
    or it was given before (and the CPU count is possible), or the user agrees; the
    other quantities keep their values, and so do all if it is refused. *)
Theorem C46_assign : forall p l h text answer v, wanted h text v ->
  let o := after_options p no_hw_options l in
  let r := set_option p o h text answer in
  ((supported p h v \/ (tried l h v /\ ~ bad_cpu_count p h v) \/ answer = true) /\
   fst r = Ok tt /\ stored (snd r) h = Some v /\ forall h', h' <> h -> stored (snd r) h' = stored o h') \/
  (~ (supported p h v \/ (tried l h v /\ ~ bad_cpu_count p h v) \/ answer = true) /\
   (exists e, fst r = Err e /\ is_value_unsupported e = true) /\ forall h', stored (snd r) h' = stored o h').
Proof. exact assign_spec. Qed.
Print Assumptions C46_assign.

Theorem C46_reject : forall p l h text answer, (forall v, ~ wanted h text v) ->
  let o := after_options p no_hw_options l in
  exists e, set_option p o h text answer = (Err e, o) /\ is_invalid_input e = true.
Proof. exact reject_spec. Qed.
Print Assumptions C46_reject.

(** Every stored quantity was given, and is supported, or agreed to, or given twice. *)
Theorem C46_history : forall p l h v, stored (after_options p no_hw_options l) h = Some v ->
  exists l1 text answer l2, l = l1 ++ (h, text, answer) :: l2 /\ wanted h text v /\
    (supported p h v \/ answer = true \/ (tried l1 h v /\ ~ bad_cpu_count p h v)).
Proof. exact history_spec. Qed.
Print Assumptions C46_history.

(** "Without the user's agreement only supported quantities are stored" is false: a
    value refused once is accepted the second time. *)
Theorem C46_refused_refuted : exists p l v,
  (forall h text answer, In (h, text, answer) l -> answer = false) /\
  stored (after_options p no_hw_options l) HNics = Some v /\ ~ supported p HNics v.
Proof.
  exists CSR1000V, [(HNics, L "30", false); (HNics, L "30", false)], 30.
  split; [|split].
  - intros h text answer [E|[E|[]]]; now injection E as _ _ <-.
  - vm_compute. reflexivity.
  - intros (_ & H & _). apply H. cbn. reflexivity.
Qed.
Print Assumptions C46_refused_refuted.

Example C46_example :
  let o := after_options CSR1000V no_hw_options
    [(HNics, L " 5", false); (HCpus, L "3", false); (HMemory, L "16 GiB", true); (HNics, L "99", false); (HSerials, L "-1", true)] in
  o_nics o = Some 5 /\ o_cpus o = None /\ o_memory o = Some 16384 /\ o_serials o = None /\
  wanted HNics (L " 5") 5 /\ supported CSR1000V HNics 5 /\ ~ supported CSR1000V HMemory 16384.
Proof.
  cbn zeta. do 4 (split; [vm_compute; reflexivity|]). split; [apply C46_value; vm_compute; reflexivity|].
  split; [repeat split; cbn; intros H; (discriminate H || exact H)|].
  intros (_ & H & _). apply H. cbn. reflexivity.
Qed.
