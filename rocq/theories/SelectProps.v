(** Property theorems C37: which helper and which disk format is used. *)
From Coq Require Import Lia.
From Verif Require Import PyBase PyBaseProofs SelectModel SelectSpec SelectProofs.

(** The first installed helper that is recent enough is used, and nothing is
    installed; if there is none, helpers are installed in the order of preference
    until one is recent enough. *)
Theorem C37_helper : forall System Version installed installable version at_least install
    (s : System) (choices : list (str * option Version)) name s',
  helper_select System Version installed installable version at_least install s choices = (Ok name, s') <->
  (s' = s /\ exists a c b, choices = a ++ c :: b /\ fst c = name /\
     usable System Version installed version at_least s c /\
     forall c', In c' a -> unusable System Version installed version at_least s c') \/
  ((forall c, In c choices -> unusable System Version installed version at_least s c) /\
   install_until System Version installable version at_least install s choices name s').
Proof. exact helper_select_spec. Qed.
Print Assumptions C37_helper.

Theorem C37_no_helper : forall System Version installed installable version at_least install
    (s : System) (choices : list (str * option Version)),
  (forall c, In c choices -> unusable System Version installed version at_least s c) ->
  (forall c, In c choices -> installable s (fst c) = false) ->
  helper_select System Version installed installable version at_least install s choices = (Err EHelperNotFound, s).
Proof. exact helper_select_not_found. Qed.
Print Assumptions C37_no_helper.

(** A failed installation ends the search, although a later choice might succeed. *)
Theorem C37_install_fails : forall System Version installed installable version at_least install
    (s : System) (choices : list (str * option Version)) a c b e s1,
  (forall c, In c choices -> unusable System Version installed version at_least s c) -> choices = a ++ c :: b ->
  (forall c', In c' a -> installable s (fst c') = false) ->
  installable s (fst c) = true -> install s (fst c) = (Err e, s1) ->
  helper_select System Version installed installable version at_least install s choices = (Err e, s1).
Proof. exact helper_select_install_fails. Qed.
Print Assumptions C37_install_fails.

(** A file is an ISO image if isoinfo (or the mark in the file) says so; otherwise
    the format named by qemu-img decides. *)
Theorem C37_format : forall w c path out f iso, w_exists w path = true -> fresh w c ->
  is_iso w path iso -> w_qemu w path = Ok out -> reports out f ->
  exists c', from_file w c path = (taken_for iso f, c') /\ fresh w c'.
Proof. exact from_file_spec. Qed.
Print Assumptions C37_format.

Theorem C37_missing : forall w c path, w_exists w path = false -> from_file w c path = (Err EEnvironment, c).
Proof. exact from_file_missing. Qed.
Print Assumptions C37_missing.

Theorem C37_no_format : forall w c path out iso, w_exists w path = true -> fresh w c ->
  is_iso w path iso -> w_qemu w path = Ok out -> (forall f, ~ reports out f) ->
  fst (from_file w c path) = Err ERuntimeError.
Proof. exact from_file_no_format. Qed.
Print Assumptions C37_no_format.

Theorem C37_class : forall f cls, class_for_format f = Some cls <-> disk_format cls = f.
Proof. exact class_for_format_spec. Qed.
Print Assumptions C37_class.

(** The output of qemu-img is remembered by path: after a file has been replaced,
    it is still taken for what it was.  ([fresh] fails then.) *)
Definition disk_world (format : str) : world :=
  mkworld (fun _ => true) (fun _ => []) None (fun _ => Ok (L "image: d" ++ [NL] ++ L "file format: " ++ format ++ [NL])).
Theorem C37_replaced_file_refuted : exists path c1,
  from_file (disk_world (L "vmdk")) (mkcaches [] []) path = (Ok VMDK, c1) /\
  fst (from_file (disk_world (L "qcow2")) c1 path) = Ok VMDK /\
  fst (from_file (disk_world (L "qcow2")) (mkcaches [] []) path) = Ok QCOW2.
Proof. exists (L "d"). eexists. split; [vm_compute; reflexivity|]. split; vm_compute; reflexivity. Qed.
Print Assumptions C37_replaced_file_refuted.

(** Non-vacuity. *)
Definition sample_select (s : list str) (choices : list (str * option N)) :=
  helper_select (list str) N (fun s n => mem_str n s) (fun _ n => negb (str_eqb n (L "fatdisk")))
    (fun s n => Ok (N.of_nat (length n))) (fun v m => (m <=? v)%N) (fun s n => (Ok tt, n :: s)) s choices.
Example C37_helper_case :
  sample_select [L "genisoimage"; L "xorriso"] [(L "mkisofs", None); (L "xorriso", Some 9%N); (L "genisoimage", None)] =
    (Ok (L "genisoimage"), [L "genisoimage"; L "xorriso"]) /\
  sample_select [L "xorriso"] [(L "fatdisk", None); (L "xorriso", Some 9%N); (L "genisoimage", Some 3%N)] =
    (Ok (L "genisoimage"), [L "genisoimage"; L "xorriso"; L "xorriso"]).
Proof. vm_compute. auto. Qed.
Example C37_format_case :
  reports (L "image: d" ++ [NL] ++ L "file format: qcow2" ++ [NL]) (L "qcow2") /\
  is_iso (disk_world (L "qcow2")) (L "d") false /\ fresh (disk_world (L "qcow2")) (mkcaches [] []).
Proof.
  split; [|split].
  - exists (L "image: d" ++ [NL]), [NL]. split; [reflexivity|]. split; [|split].
    + intros c H. cbn in H. repeat (destruct H as [<- |H]; [reflexivity|]). destruct H.
    + intros c t E. now injection E as <- _.
    + intros a' t E. destruct (Nat.le_gt_cases (length (L "image: d" ++ [NL])) (length a')) as [|Hl]; [assumption|exfalso].
      cbn in Hl. do 9 (destruct a' as [|? a']; [discriminate|cbn in E; injection E as <- E; cbn in Hl]). lia.
  - unfold is_iso. cbn. split; [discriminate|]. intros (p & t & E & _). destruct p; discriminate.
  - split; discriminate.
Qed.
