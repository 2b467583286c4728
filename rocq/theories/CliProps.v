(** C36: what a command does happens in order, nothing is written before the work is done and
    accepted, the exit code tells, and working directories are removed.

    Every step outside can succeed, say no, or raise any exception: [oracle] is arbitrary. *)
From Coq Require Import Permutation.
From Verif Require Import PyBase PyBaseProofs TarModel CliModel CliSpec CliProofs CliCleanProofs CliMainProofs.
Local Open Scope nat_scope.

(** However the steps turn out, what happens is a beginning of what should happen: all
    attributes are set, the command is ready, the work is done step by step, the user accepts,
    and only then the output is written, under the name given (or that of the package), once.
    The code is 0 only if all of this happened, and a package was named if one is needed,
    unless an exception from outside itself asks for the code 0. *)
Theorem C36_order : forall oracle abspath k args n, (forall p, abspath p <> []) ->
  (k = Writer -> named_package (attribute_order args) <> Some []) ->
  let (s, code) := process oracle abspath k args n start in
  prefix (s_trace s) (script abspath k (attribute_order args) n) /\
  (code = 0%Z -> (s_trace s = script abspath k (attribute_order args) n /\ (k <> Plain -> named_package (attribute_order args) <> None)) \/
                 raised oracle (fun e => handled e = 0%Z)).
Proof. intros oracle abspath k args n H. exact (process_spec oracle abspath H k args n). Qed.
Print Assumptions C36_order.

(** If nothing goes wrong outside then all of it happens and the code is 0. *)
Theorem C36_success : forall oracle abspath k attrs n, (forall p, abspath p <> []) -> (forall i, oracle i = Says true) ->
  (k <> Plain -> exists p, named_package attrs = Some p /\ (k = Writer -> p <> [] /\ writable (abspath p))) ->
  (k = Writer -> forall v, v <> [] -> In (L "output", v) attrs -> writable (abspath v)) ->
  let (s, code) := main oracle abspath k attrs n start in s_trace s = script abspath k attrs n /\ code = 0%Z.
Proof. intros oracle abspath k attrs n H W. exact (main_well oracle abspath H W k attrs n). Qed.
Print Assumptions C36_success.

(** When the process has ended, every working directory that still exists is one whose
    removal was tried and raised an exception. *)
Theorem C36_clean_process : forall oracle abspath k args n, let s := fst (process oracle abspath k args n start) in
  (forall d, In d (s_dirs s) -> In d (s_stuck s)) /\ (s_stuck s <> [] -> raised oracle (fun _ => True)).
Proof. exact process_clean. Qed.
Print Assumptions C36_clean_process.
(** The same when main has ended, except for loading that was interrupted by something that
    is no [Exception]. *)
Theorem C36_clean_main : forall oracle abspath k attrs n, let s := fst (main oracle abspath k attrs n start) in
  (forall d, In d (s_dirs s) -> In d (s_stuck s) \/ In d (s_leaked s)) /\
  (forall d, In d (s_dirs s) -> In d (s_hooks s) \/ In d (s_stuck s)) /\
  (s_stuck s <> [] -> raised oracle (fun _ => True)) /\ (s_leaked s <> [] -> raised oracle (fun e => base_exception e = true)).
Proof. exact main_clean. Qed.
Print Assumptions C36_clean_main.
(** So if nothing outside raises an exception, no directory is left. *)
Theorem C36_no_directories : forall oracle abspath k args n, (forall i e, oracle i <> Raises e) ->
  s_dirs (fst (main oracle abspath k (attribute_order args) n start)) = [] /\ s_dirs (fst (process oracle abspath k args n start)) = [].
Proof.
  intros oracle abspath k args n H. pose proof (main_clean oracle abspath k (attribute_order args) n) as (A & _ & B & C). pose proof (process_clean oracle abspath k args n) as (D & E).
  assert (N : forall bad, ~ raised oracle bad) by (intros bad (i & e & F & _); exact (H i e F)).
  split.
  - destruct (s_dirs _) as [|d l]; [reflexivity|]. exfalso. destruct (A d (or_introl eq_refl)) as [F|F]; [apply (N (fun _ => True)), B|apply (N (fun e => base_exception e = true)), C]; intros G; now rewrite G in F.
  - destruct (s_dirs (fst (process oracle abspath k args n start))) as [|d l]; [reflexivity|]. exfalso. specialize (D d (or_introl eq_refl)). apply (N (fun _ => True)), E. intros G. now rewrite G in D.
Qed.
Print Assumptions C36_no_directories.

(** The arguments that are mandatory (upper case) are set first, with their names in lower
    case, then the options; each that has a value is set exactly once, except "instance". *)
Theorem C36_attributes : forall args, exists A B, attribute_order args = map (fun x => (lower (fst x), snd x)) A ++ B /\
  Permutation (A ++ B) (filter (fun x => mandatory (fst x) || negb (str_eqb (fst x) (L "instance"))) (given args)) /\
  (forall x, In x A -> mandatory (fst x) = true) /\ (forall x, In x B -> mandatory (fst x) = false).
Proof. exact attribute_order_spec. Qed.
Print Assumptions C36_attributes.

(** [with VMDescription.factory(...) as vm: block]: written only after the block, if it did
    not fail; and the working directory is removed. *)
Theorem C36_with : forall oracle out n, let (s, r) := with_vm oracle out (work oracle 0 n) start in
  (prefix (s_trace s) (block_script out n) /\ (forall u, r = inr u -> s_trace s = block_script out n)) /\
  forall d, In d (s_dirs s) -> In d (s_stuck s) \/ In d (s_leaked s).
Proof.
  intros oracle out n. pose proof (with_spec oracle out n) as H. pose proof (with_clean oracle out n start (start_clean oracle) eq_refl) as D. cbv zeta in D.
  destruct (with_vm oracle out (work oracle 0 n) start) as [s r]. now split.
Qed.
Print Assumptions C36_with.

(** ** What does not hold *)
Definition root (p : str) : str := L "/" ++ p.
Definition edit : list (str * option str) := [(L "output", Some (L "new.ova")); (L "instance", None); (L "PACKAGE", Some (L "in.ova"))].
Definition except_at (n : nat) (a : answer) (i : nat) : answer := if Nat.eqb i n then a else Says true.

Lemma let_pair : forall (x : st * Z) (P : st -> Z -> Prop), (let (s, c) := x in P s c) -> P (fst x) (snd x).
Proof. now intros [s c] P. Qed.

(** A command that fails can leave half of the output: the existing package is replaced by a
    broken one. *)
Theorem C36_half_written_refuted : ~ forall oracle abspath k args n, (forall p, abspath p <> []) ->
  let (s, code) := process oracle abspath k args n start in
  code <> 0%Z -> forall p, ~ In (WriteBegun p) (s_trace s).
Proof.
  intros H. specialize (H (except_at 16 (Raises (XEnvironment (Some 28%Z)))) root Writer [(L "PACKAGE", Some (L "in.ova"))] 2 ltac:(discriminate)).
  apply let_pair in H; cbv beta in H.
  refine (H _ (L "/in.ova") _); [vm_compute; discriminate|].
  assert (E : s_trace (fst (process (except_at 16 (Raises (XEnvironment (Some 28%Z)))) root Writer [(L "PACKAGE", Some (L "in.ova"))] 2 start)) =
    [AttrSet (L "package"); IsReady; WorkStep 0; WorkStep 1; Accepted; WriteBegun (L "/in.ova")]) by (vm_compute; reflexivity).
  rewrite E. apply (in_or_app [_; _; _; _; _] [_]). right. now left.
Qed.
Print Assumptions C36_half_written_refuted.

(** An error of the system whose number is a multiple of 256 looks like success. *)
Theorem C36_exit_zero_refuted : ~ forall oracle abspath k args n, (forall p, abspath p <> []) -> (forall i, oracle i <> Raises (XExit 0)) ->
  let (s, code) := process oracle abspath k args n start in
  code = 0%Z -> s_trace s = script abspath k (attribute_order args) n.
Proof.
  intros H. specialize (H (except_at 10 (Raises (XEnvironment (Some 256%Z)))) root Writer edit 2 ltac:(discriminate)).
  assert (N : forall i, except_at 10 (Raises (XEnvironment (Some 256%Z))) i <> Raises (XExit 0)) by (intros i; unfold except_at; destruct (Nat.eqb i 10); discriminate).
  specialize (H N). apply let_pair in H; cbv beta in H.
  assert (E : snd (process (except_at 10 (Raises (XEnvironment (Some 256%Z)))) root Writer edit 2 start) = 0%Z) by (vm_compute; reflexivity).
  specialize (H E). apply (f_equal (@length event)) in H. vm_compute in H. discriminate.
Qed.
Print Assumptions C36_exit_zero_refuted.

(** An output that cannot be written is only noticed after the work is done and accepted. *)
Theorem C36_box_refuted : ~ forall oracle abspath k args n, (forall p, abspath p <> []) -> (forall i, oracle i = Says true) ->
  let (s, code) := process oracle abspath k args n start in
  In Accepted (s_trace s) -> code = 0%Z.
Proof.
  intros H. specialize (H (fun _ => Says true) root Writer [(L "PACKAGE", Some (L "in.ova")); (L "output", Some (L "out.box"))] 2 ltac:(discriminate) ltac:(reflexivity)).
  apply let_pair in H; cbv beta in H.
  assert (E : s_trace (fst (process (fun _ => Says true) root Writer [(L "PACKAGE", Some (L "in.ova")); (L "output", Some (L "out.box"))] 2 start)) =
    [AttrSet (L "package"); AttrSet (L "output"); IsReady; WorkStep 0; WorkStep 1; Accepted]) by (vm_compute; reflexivity).
  rewrite E in H. specialize (H (in_or_app [_; _; _; _; _] [_] _ (or_intror (or_introl eq_refl)))). vm_compute in H. discriminate.
Qed.
Print Assumptions C36_box_refuted.

(** An interrupt while the package is loaded leaves the directory until the process ends. *)
Theorem C36_interrupted_refuted : ~ forall oracle abspath k attrs n, let s := fst (main oracle abspath k attrs n start) in
  forall d, In d (s_dirs s) -> In d (s_stuck s).
Proof. intros H. specialize (H (except_at 3 (Raises XInterrupt)) root Writer [(L "package", L "in.ova")] 2 0). vm_compute in H. apply H. now left. Qed.
Print Assumptions C36_interrupted_refuted.

(** ** Examples *)
Example attributes_1 : attribute_order edit = [(L "package", L "in.ova"); (L "output", L "new.ova")].
Proof. reflexivity. Qed.
Example goes_well : snd (process (fun _ => Says true) root Writer edit 2 start) = 0%Z /\
  s_trace (fst (process (fun _ => Says true) root Writer edit 2 start)) =
    [AttrSet (L "package"); AttrSet (L "output"); IsReady; WorkStep 0; WorkStep 1; Accepted; WriteBegun (L "/new.ova"); WriteDone (L "/new.ova")] /\
  s_dirs (fst (process (fun _ => Says true) root Writer edit 2 start)) = [].
Proof. split; [|split]; vm_compute; reflexivity. Qed.
(** the user does not accept: nothing written, code 1, nothing left *)
Example declined : exists i, let (s, code) := process (except_at i (Says false)) root Writer edit 2 start in
  s_trace s = [AttrSet (L "package"); AttrSet (L "output"); IsReady; WorkStep 0; WorkStep 1] /\ code = 1%Z /\ s_dirs s = [].
Proof. exists 12. vm_compute. repeat split. Qed.
(** the directory cannot be removed *)
Example stuck_1 : exists i, let (s, code) := process (fun j => if Nat.leb i j then Raises XOther else Says true) root Writer edit 2 start in
  s_dirs s = [0] /\ s_stuck s = [0; 0] /\ code = 1%Z.
Proof. exists 17. vm_compute. repeat split. Qed.
Example success_hyp : (exists p, named_package (attribute_order edit) = Some p /\ p <> [] /\ writable (root p)) /\ writable (root (L "new.ova")).
Proof. split; [exists (L "in.ova"); split; [reflexivity|split; [discriminate|left; reflexivity]]|left; reflexivity]. Qed.
