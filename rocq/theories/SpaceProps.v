(** Property theorems C28: disk space checks. *)
From Coq Require Import Lia.
From Verif Require Import PyBase PyBaseProofs SpaceModel SpaceSpec SpaceProofs.
Local Open Scope Z_scope.

(** After any history of checks: a check succeeds only if the user has just agreed,
    or the space just measured suffices, or the space measured last in that directory
    did. *)
Theorem C28_safe : forall h k d last asked, checked_dir k d -> standing h d last ->
  fst (check_disk_space (after_checks h) k) = (Ok true, asked) ->
  (asked = true /\ k_answer k = true) \/
  (measures k last /\ k_required k <= k_available k d) \/
  (exists r a, last = Some (r, a) /\ ~ measures k last /\ k_required k <= a).
Proof. exact check_safe. Qed.
Print Assumptions C28_safe.

(** Exactly what a measuring check does: the user is asked only if the space does
    not suffice, and a refusal makes the check fail or ends the program. *)
Theorem C28_measured : forall h k d last, checked_dir k d -> standing h d last -> measures k last ->
  fst (check_disk_space (after_checks h) k) =
  if k_required k <=? k_available k d then (Ok true, false)
  else if k_answer k then (Ok true, true)
  else if k_die k then (Err ESystemExit, true) else (Ok false, true).
Proof. exact check_measured. Qed.
Print Assumptions C28_measured.

(** Any other check compares with the last measurement and does not ask. *)
Theorem C28_remembered : forall h k d last, checked_dir k d -> standing h d last -> ~ measures k last ->
  exists r a, last = Some (r, a) /\
  fst (check_disk_space (after_checks h) k) = (Ok (k_required k <=? a), false).
Proof. exact check_remembered. Qed.
Print Assumptions C28_remembered.

(** Every location has one directory that is checked and one standing measurement. *)
Theorem C28_total : forall h k, exists d last, checked_dir k d /\ standing h d last /\
  forall d' last', checked_dir k d' -> standing h d' last' -> d' = d /\ last' = last.
Proof. exact check_total. Qed.
Print Assumptions C28_total.

(** A repeated check with the same requirement does not ask again. *)
Theorem C28_repeat : forall h k1 k2 d, checked_dir k1 d -> checked_dir k2 d ->
  k_force k2 = false -> k_required k2 = k_required k1 ->
  snd (fst (check_disk_space (after_checks (h ++ [k1])) k2)) = false.
Proof. exact check_repeat. Qed.
Print Assumptions C28_repeat.

(** But the user's consent is not remembered: the repeated check fails, even with
    [die], where a failure should end the program. *)
Theorem C28_consent_refuted : exists h k, 
  fst (check_disk_space (after_checks h) k) = (Ok true, true) /\ k_die k = true /\
  fst (check_disk_space (after_checks (h ++ [k])) k) = (Ok false, false).
Proof.
  exists [], (mkcheck 100 [L "tmp"; L "x.ova"] false true (fun p => path_eqb p [L "tmp"]) (fun _ => 50) true).
  vm_compute. auto.
Qed.
Print Assumptions C28_consent_refuted.

(** Non-vacuity: a second, larger requirement in the same directory is measured anew. *)
Definition sample_check (required available : Z) (answer : bool) : check :=
  mkcheck required [L "tmp"; L "x.ova"] false false (fun p => path_eqb p [L "tmp"]) (fun _ => available) answer.
Example C28_case :
  checked_dir (sample_check 10 50 true) [L "tmp"] /\
  standing [sample_check 10 50 true] [L "tmp"] (Some (10, 50)) /\
  measures (sample_check 60 55 false) (Some (10, 50)) /\
  ~ measures (sample_check 9 5 false) (Some (10, 50)) /\
  fst (check_disk_space (after_checks [sample_check 10 50 true]) (sample_check 60 55 false)) = (Ok false, true) /\
  fst (check_disk_space (after_checks [sample_check 10 50 true]) (sample_check 9 5 false)) = (Ok true, false).
Proof.
  assert (forall r a b, checked_dir (sample_check r a b) [L "tmp"]) as C.
  { intros r a b. exact (check_dir_spec (sample_check r a b)). }
  split; [apply C|]. split.
  { exact (st_measured [] (sample_check 10 50 true) [L "tmp"] None (st_none _) (C 10 50 true) (or_intror I)). }
  split; [right; cbn; lia|]. split; [intros [F|F]; [discriminate|cbn in F; lia]|]. vm_compute. auto.
Qed.
