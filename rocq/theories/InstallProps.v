(** C56: running helper programs.  C57: installing them, and install-helpers. *)
From Verif Require Import PyBase PyBaseProofs PyRegex SelectModel PathModel RawModel ProgModel InstallModel InstallSpec InstallProofs InstallRunProofs.
Local Open Scope Z_scope.

(** ** A machine for the examples *)

(** The programs that can be found, the directories, and the files: path and where the contents come from *)
Record toy : Type := mktoy { t_progs : list str; t_dirs : list str; t_files : str -> option str }.
Definition put (f : str -> option str) (p c : str) : str -> option str :=
  fun x => if str_eqb x p then Some c else f x.
Definition is_some {A} (o : option A) : bool := match o with Some _ => true | None => false end.

(** Programs answer the question for their version, package managers install what they are
    asked for, and there is no sudo. *)
Definition toy_spawn (w : toy) (dir : option str) (args : list str) : outcome * toy :=
  match args with
  | [] => (Refused ENOENT, w)
  | c :: rest =>
      if str_eqb c (L "sudo") then (Refused ENOENT, w)
      else if str_eqb c (L "./RUNME") then (Exited 0 [], w)
      else if str_eqb c (L "dpkg") then (Exited 1 (L "no such package"), w)
      else match rest with
           | [a] =>
               if str_eqb a (L "--version") || str_eqb a (L "-V")
               then (Exited 0 (c ++ L " version 1.2.3 (" ++ c ++ L " 1.2.3)"), w)
               else (Exited 0 [], w)
           | a :: b :: [] =>
               (Exited 0 [], if str_eqb c (L "make") then mktoy (L "vmdktool" :: t_progs w) (t_dirs w) (t_files w)
                             else w)
           | a :: b :: p =>
               if str_eqb c (L "apt-get")
               then (Exited 0 [], mktoy (match p with
                                         | [x] => if str_eqb x (L "qemu-utils") then [L "qemu-img"] else [x]
                                         | _ => p end ++ t_progs w) (t_dirs w) (t_files w))
               else (Exited 0 [], w)
           | [] => (Exited 0 [], w)
           end
  end.

Definition toy_machine (system : str) (fetch : toy -> str -> result str * toy) : machine toy :=
  mkmachine toy system
    (fun w n => if mem_str n (t_progs w) then Some (L "/usr/bin/" ++ n) else None)
    toy_spawn
    (fun w d => mem_str d (t_dirs w))
    (fun w p => mem_str p (t_dirs w) || is_some (t_files w p))
    (fun w a b => match t_files w b with Some c => str_eqb c a | None => false end)
    (fun w d => match t_files w d with
                | Some _ => (false, w)
                | None => (true, mktoy (t_progs w) (d :: t_dirs w) (t_files w))
                end)
    (fun w a b => (true, mktoy (basename a :: t_progs w) (t_dirs w) (put (t_files w) b a)))
    fetch
    (fun w d => w)
    None
    (fun out => if forallb (fun c => (code c <? 128)%N) out then Some out else None)
    [] (L "/usr/local").

Definition online : machine toy := toy_machine (L "Linux") (fun w url => (Ok (L "/tmp/cot"), w)).
Definition offline : machine toy := toy_machine (L "Linux") (fun w url => (Err EEnvironment, w)).
Definition mac : machine toy := toy_machine (L "Darwin") (fun w url => (Ok (L "/tmp/cot"), w)).
Definition nothing : str -> option str := fun _ => None.
Definition debian : toy := mktoy [L "apt-get"; L "dpkg"; L "ovftool"] [] nothing.
Definition bare : toy := mktoy [] [] nothing.

(** ** C56 *)

(** A command is run once, and once more as superuser exactly if that was asked for and
    the first attempt was not allowed or (when success is required) failed.  The caller
    learns how the last attempt ended. *)
Theorem C56_check_call : forall W (m : machine W) dir args require retry s r s',
  check_call m dir args require retry s = (r, s') ->
  s_helpers s' = s_helpers s
  /\ exists o w1, m_spawn m (s_world s) dir args = (o, w1)
     /\ ((~ (retry = true /\ denied require o)
          /\ since s s' [Ran dir args] /\ s_world s' = w1 /\ ends require args o r)
         \/ (retry = true /\ denied require o
             /\ exists o2 w2, m_spawn m w1 dir (L "sudo" :: args) = (o2, w2)
                /\ since s s' [Ran dir args; Ran dir (L "sudo" :: args)] /\ s_world s' = w2
                /\ ends require (L "sudo" :: args) o2 r)).
Proof.
  intros W m dir args require retry s r s' H. apply call_spec in H.
  destruct H as (A & _ & _ & H). exact (conj A H).
Qed.
Print Assumptions C56_check_call.

(** The same for a command whose output is wanted: the text of a successful run is its
    output without the bytes above 127; a second attempt is made only after a failure,
    not if the command was not allowed. *)
Theorem C56_check_output : forall W (m : machine W) dir args require retry s r s',
  check_output m dir args require retry s = (r, s') ->
  s_helpers s' = s_helpers s
  /\ exists o w1, m_spawn m (s_world s) dir args = (o, w1)
     /\ let again := retry = true /\ require = true
                     /\ exists c out text, o = Exited c out /\ c <> 0 /\ m_utf8 m out = Some text in
        ((~ again /\ since s s' [Ran dir args] /\ s_world s' = w1 /\ prints (m_utf8 m) require o r)
         \/ (again
             /\ exists o2 w2, m_spawn m w1 dir (L "sudo" :: args) = (o2, w2)
                /\ since s s' [Ran dir args; Ran dir (L "sudo" :: args)] /\ s_world s' = w2
                /\ prints (m_utf8 m) require o2 r)).
Proof.
  intros W m dir args require retry s r s' H. apply output_spec in H.
  destruct H as (A & _ & _ & H). exact (conj A H).
Qed.
Print Assumptions C56_check_output.

(** Making a directory: nothing is done if it is there; something else of that name is an
    error; otherwise it is made, as superuser if it has to be. *)
Theorem C56_mkdir : forall W (m : machine W) d s r s', mkdir m d s = (r, s') ->
  (m_isdir m (s_world s) d = true /\ r = Ok tt /\ s' = s)
  \/ (m_isdir m (s_world s) d = false /\ m_exists m (s_world s) d = true
      /\ r = Err ERuntimeError /\ s' = s)
  \/ (m_isdir m (s_world s) d = false /\ m_exists m (s_world s) d = false
      /\ exists ok w1, m_makedirs m (s_world s) d = (ok, w1)
      /\ ((ok = true /\ r = Ok tt /\ s_world s' = w1 /\ since s s' [MakeDirs d])
          \/ (ok = false
              /\ since s s' [MakeDirs d; Ran None [L "sudo"; L "mkdir"; L "-p"; L "-m"; L "755"; d]]
              /\ exists o, m_spawn m w1 None [L "sudo"; L "mkdir"; L "-p"; L "-m"; L "755"; d]
                            = (o, s_world s') /\ rescued o r))).
Proof. intros W m d s r s' H. apply mkdir_spec in H. apply H. Qed.
Print Assumptions C56_mkdir.

Theorem C56_copy_file : forall W (m : machine W) a b s r s', copy_file m a b s = (r, s') ->
  exists ok w1, m_copy m (s_world s) a b = (ok, w1)
     /\ ((ok = true /\ r = Ok tt /\ s_world s' = w1 /\ since s s' [Copy a b])
         \/ (ok = false /\ since s s' [Copy a b; Ran None [L "sudo"; L "cp"; a; b]]
             /\ exists o, m_spawn m w1 None [L "sudo"; L "cp"; a; b] = (o, s_world s') /\ rescued o r)).
Proof. intros W m a b s r s' H. apply copy_spec in H. apply H. Qed.
Print Assumptions C56_copy_file.

(** "if the command gets an exception, prepend sudo to the command and try again" is false
    of check_output for a command that may not be run. *)
Definition locked (o : outcome) : machine toy :=
  mkmachine toy (L "Linux") (fun _ _ => None)
    (fun w dir args => if is_sudo args then (Exited 0 (L "fine"), w) else (o, w))
    (fun _ _ => false) (fun _ _ => false) (fun _ _ _ => false) (fun w _ => (false, w))
    (fun w _ _ => (false, w)) (fun w _ => (Err EEnvironment, w)) (fun w _ => w) None
    (fun out => if forallb (fun c => (code c <? 128)%N) out then Some out else None) [] [].
Theorem C56_output_retry_refuted :
  exists W (m : machine W) args s,
    m_spawn m (s_world s) None args = (Refused EACCES, s_world s)
    /\ fst (check_call m None args true true s) = Ok tt
    /\ fst (check_output m None args true true s) = Err EEnvironment.
Proof. exists toy, (locked (Refused EACCES)), [L "x"], (started bare). vm_compute. repeat split. Qed.
Print Assumptions C56_output_retry_refuted.

(** A failure that the caller did not want to hear about is an error if the output is not
    valid text. *)
Theorem C56_undecodable_refuted :
  exists W (m : machine W) args s out,
    m_spawn m (s_world s) None args = (Exited 1 out, s_world s)
    /\ fst (check_output m None args false false s) = Err EValueError.
Proof.
  exists toy, (locked (Exited 1 ["255"%char])), [L "x"], (started bare), ["255"%char].
  vm_compute. repeat split.
Qed.
Print Assumptions C56_undecodable_refuted.

(** "That failed too - re-raise the original exception" is false if there is no sudo. *)
Definition no_sudo : machine toy :=
  mkmachine toy (L "Linux") (fun _ _ => None) (fun w _ _ => (Refused ENOENT, w))
    (fun _ _ => false) (fun _ _ => false) (fun _ _ _ => false) (fun w _ => (false, w))
    (fun w _ _ => (false, w)) (fun w _ => (Err EEnvironment, w)) (fun w _ => w) None
    (fun out => Some out) [] [].
Theorem C56_original_error_refuted :
  exists W (m : machine W) a b s,
    fst (m_copy m (s_world s) a b) = false /\ fst (copy_file m a b s) = Err EHelperNotFound.
Proof. exists toy, no_sudo, (L "a"), (L "b"), (started bare). vm_compute. repeat split. Qed.
Print Assumptions C56_original_error_refuted.

(** Non-vacuity: a command that fails, and then works as superuser *)
Example C56_example :
  let (r, s) := check_call (locked (Exited 3 [])) None [L "apt-get"; L "update"] true true (started bare) in
  r = Ok tt /\ s_done s = [Ran None [L "apt-get"; L "update"]; Ran None [L "sudo"; L "apt-get"; L "update"]].
Proof. vm_compute. repeat split. Qed.

(** ** C57 *)

(** When COT starts, its knowledge of the helpers is consistent. *)
Theorem C57_start : forall W (w : W), consistent (started w).
Proof.
  intros W w n. unfold found. cbn. split; [discriminate | intros [p H]; discriminate H].
Qed.
Print Assumptions C57_start.

(** Installing a helper: if it succeeds then COT has found the program; nothing is done
    for one found before; whatever happens, the machine is changed only by the listed
    commands, and as superuser only after the same was tried without. *)
Theorem C57_install : forall W (m : machine W) n s r s', consistent s -> install m n s = (r, s') ->
  consistent s'
  /\ (forall k p, found s k p -> found s' k p)
  /\ (r = Ok tt -> exists p, found s' n p)
  /\ ((exists p, found s n p) -> r = Ok tt /\ s' = s)
  /\ exists l, since s s' l /\ orderly installs l.
Proof.
  intros W m n s r s' C H.
  assert (K := H). apply (stays_install m installs (fun b a X => X)) in K. destruct (K C) as (C1 & F & L).
  split; [exact C1 | ]. split; [exact F | ]. split; [ | split; [ | exact L]].
  - intros ->. now apply (install_found m n s).
  - intros [p P]. rewrite (install_known m n s p C P) in H. injection H as <- <-. auto.
Qed.
Print Assumptions C57_install.

(** Without a package manager nothing is done (only fatdisk under Linux can do without);
    RuntimeError if the helper could be installed with one, NotImplementedError if not. *)
Theorem C57_no_manager : forall W (m : machine W) n s r s', consistent s -> absent m s n ->
  (forall k, In k [L "apt-get"; L "yum"; L "port"; L "brew"] -> absent m s k) ->
  (n = L "fatdisk" -> m_system m <> L "Linux") ->
  install m n s = (r, s') ->
  since s s' [] /\ s_world s' = s_world s
  /\ ((wants_manager (m_system m) n /\ r = Err ERuntimeError)
      \/ (~ wants_manager (m_system m) n /\ r = Err ENotImplemented)).
Proof.
  intros W m n s r s' C A M F H. apply (install_absent m n s r s' C A M F) in H.
  destruct H as (Q & _ & R). destruct Q as (Q1 & _ & _ & Q4 & _).
  split; [unfold since; now rewrite app_nil_r | ]. split; [exact Q1 | exact R].
Qed.
Print Assumptions C57_no_manager.

(** The command line: if the results are printed, the command succeeds exactly if errors
    are to be ignored or the report says that all is well, and the error is
    EnvironmentError. *)
Theorem C57_exit : forall W (m : machine W) verify_only ignore_errors src man pages s results r s',
  install_helpers m verify_only ignore_errors src man pages s = (Some results, r, s') ->
  exists four iso last, report results four iso last
    /\ ((r = Ok tt /\ (ignore_errors = true \/ all_well four iso last))
        \/ (r = Err EEnvironment /\ ignore_errors = false /\ ~ all_well four iso last)).
Proof. exact @run_report. Qed.
Print Assumptions C57_exit.

(** If the command succeeds (without --verify-only and --ignore-errors), COT has found
    every helper that it needs and one of the ISO tools, and the manual pages are in
    place. *)
Theorem C57_success : forall W (m : machine W) src man pages s res s', consistent s ->
  files_behave m ->
  (forall l f, pages = Some l -> In f l -> ~ In "/"%char f) ->
  install_helpers m false false src man pages s = (res, Ok tt, s') ->
  (forall n, In n needed -> exists p, found s' n p)
  /\ (exists n, In n iso_tools /\ exists p, found s' n p)
  /\ (exists l, pages = Some l /\ forall f, In f l -> in_place m src man (s_world s') f).
Proof.
  intros W m src man pages s res s' C FB N H. apply run_found in H; [ | exact C].
  destruct H as (A & B & s1 & msg & P & _). split; [exact A | ]. split; [exact B | ].
  destruct pages as [l | ]; [ | discriminate P]. exists l. split; [reflexivity | ].
  cbn in P. apply (install_manpages_done m FB src man l s1 msg s'); [ | exact P].
  intros f. now apply (N l f).
Qed.
Print Assumptions C57_success.

(** With --verify-only the machine is touched by nothing but the question for its
    version, put to programs that were found. *)
Theorem C57_verify_only : forall W (m : machine W) ignore_errors src man pages s res r s',
  consistent s -> install_helpers m true ignore_errors src man pages s = (res, r, s') ->
  exists l, since s s' l /\ after m (s_world s) l (s_world s')
    /\ forall e, In e l -> exists n args, e = Ran None args /\ asks_version n args
                                          /\ exists p, found s' n p.
Proof.
  intros W m ig src man pages s res r s' C H. apply run_inquires in H; [ | exact C].
  destruct H as [I _]. destruct (I C) as (_ & _ & L). exact L.
Qed.
Print Assumptions C57_verify_only.

(** In every mode: only what installing does, and questions for versions. *)
Theorem C57_orderly : forall W (m : machine W) verify_only ignore_errors src man pages s res r s',
  consistent s -> install_helpers m verify_only ignore_errors src man pages s = (res, r, s') ->
  consistent s' /\ exists l, since s s' l
    /\ orderly (fun b args => installs b args \/ (b = false /\ exists n, asks_version n args)) l.
Proof.
  intros W m vo ig src man pages s res r s' C H. apply run_keeps in H.
  destruct (H C) as (C1 & _ & L). exact (conj C1 L).
Qed.
Print Assumptions C57_orderly.

(** The check of the manual pages changes nothing and says "no updates needed" exactly if
    every page is in place. *)
Theorem C57_verify_pages : forall W (m : machine W) src man l s r s',
  manpages_helper m true src man (Some l) s = (r, s') ->
  s' = s /\ exists msg, r = Ok (true, msg)
  /\ (msg = UpToDate <-> forall f, In f l -> in_place m src man (s_world s) f).
Proof. intros W m src man l s r s' H. exact (verify_same m src man l s r s' H). Qed.
Print Assumptions C57_verify_pages.

(** Installing the manual pages: if it is reported as a success, they are in place. *)
Theorem C57_install_pages : forall W (m : machine W) src man l s msg s', files_behave m ->
  (forall f, In f l -> ~ In "/"%char f) ->
  manpages_helper m false src man (Some l) s = (Ok (true, msg), s') ->
  forall f, In f l -> in_place m src man (s_world s') f.
Proof. intros W m src man l s msg s' FB N H. exact (install_manpages_done m FB src man l s msg s' N H). Qed.
Print Assumptions C57_install_pages.

(** ... and what is said about them is true: that nothing was to be done, if every page was
    in place before, and that they were updated, if one of them was there and differed. *)
Theorem C57_pages_message : forall W (m : machine W) src man l s msg s', files_behave m ->
  (forall f, In f l -> ~ In "/"%char f) ->
  manpages_helper m false src man (Some l) s = (Ok (true, msg), s') ->
  (l <> [] -> (forall f, In f l -> in_place m src man (s_world s) f) -> msg = UpToDate)
  /\ ((exists f, In f l /\ m_exists m (s_world s) (page man f) = true
         /\ m_same m (s_world s) (PathModel.path_join src f) (page man f) = false) -> msg = PagesUpdated man).
Proof. intros W m src man l s msg s' FB N H. exact (install_message m FB src man l s msg s' N H). Qed.
Print Assumptions C57_pages_message.

(** "Verify all helper tools" is no verification: with --verify-only the command succeeds
    whenever the results are printed, whatever is missing ... *)
Theorem C57_verify_always_succeeds : forall W (m : machine W) ignore_errors src man l s results r s',
  consistent s ->
  install_helpers m true ignore_errors src man (Some l) s = (Some results, r, s') -> r = Ok tt.
Proof.
  intros W m ig src man l s results r s' C H. apply run_inquires in H; [ | exact C].
  destruct H as [_ H]. apply (H results eq_refl). discriminate.
Qed.
Print Assumptions C57_verify_always_succeeds.
(** ... and an ISO tool that is there is not reported if mkisofs is missing. *)
Theorem C57_verify_refuted :
  exists W (m : machine W) w results s',
    m_find m w (L "genisoimage") <> None
    /\ (forall n, In n needed -> m_find m w n = None)
    /\ install_helpers m true false (L "src") (L "/man") (Some [L "cot.1"]) (started w)
       = (Some results, Ok tt, s')
    /\ results = [(L "fatdisk", NotFound); (L "ovftool", NotFound); (L "qemu-img", NotFound);
                  (L "vmdktool", NotFound); (L "mkisofs", NotFound);
                  (L "COT manpages", DirectoryNotFound (L "/man/man1"))].
Proof.
  exists toy, online, (mktoy [L "genisoimage"] [] nothing). eexists. eexists.
  split; [vm_compute; discriminate | ]. split.
  { intros n H. cbn [In needed] in H. repeat (destruct H as [<- | H]; [reflexivity | ]). destruct H. }
  split; vm_compute; reflexivity.
Qed.
Print Assumptions C57_verify_refuted.

(** "install any that are missing", reporting the failures: on a Mac without a package
    manager the command stops at the first missing helper, with no report at all and
    --ignore-errors or not. *)
Theorem C57_abort_refuted : forall W (m : machine W) ignore_errors src man pages s,
  consistent s -> m_system m = L "Darwin" -> absent m s (L "fatdisk") ->
  (forall k, In k [L "apt-get"; L "yum"; L "port"; L "brew"] -> absent m s k) ->
  exists s', install_helpers m false ignore_errors src man pages s = (None, Err ERuntimeError, s')
             /\ since s s' [].
Proof.
  intros W m ig src man pages s C D A M.
  unfold install_helpers. unfold andthen at 1. cbn [each_helper]. unfold andthen at 1.
  destruct (install_helper m false (L "fatdisk") s) as [r s1] eqn:E.
  assert (K : r = Err ERuntimeError /\ since s s1 []).
  { unfold install_helper in E. unfold andthen at 1 in E.
    destruct (installed m (L "fatdisk") s) as [r1 s2] eqn:I1.
    apply installed_absent in I1; [ | exact C | exact A]. destruct I1 as (-> & Q & C2).
    unfold catching, andthen at 1 in E.
    destruct (install m (L "fatdisk") s2) as [r3 s3] eqn:I3.
    apply install_absent in I3; [ | exact C2 | now apply quiet_absent with s | | ].
    - destruct I3 as (Q3 & _ & [[_ ->] | [X _]]).
      + injection E as <- <-. split; [reflexivity | ].
        assert (Q4 := quiet_trans m _ _ _ Q Q3). destruct Q4 as (_ & _ & _ & Q4 & _).
        unfold since. now rewrite app_nil_r.
      + exfalso. apply X. left. split; [exact D | ]. cbn. tauto.
    - intros k X. apply quiet_absent with s; [exact Q | now apply M].
    - intros _ X. rewrite D in X. discriminate X. }
  destruct K as [-> K]. exists s1. split; [reflexivity | exact K].
Qed.
Print Assumptions C57_abort_refuted.
Example C57_abort_example :
  consistent (started bare) /\ m_system mac = L "Darwin" /\ absent mac (started bare) (L "fatdisk")
  /\ absent mac (started bare) (L "brew").
Proof. split; [apply C57_start | ]. vm_compute. repeat split. Qed.

(** Under Linux without a package manager qemu-img ends the command in the same way; a
    failed download does so too. *)
Theorem C57_abort_linux_refuted :
  (exists s', install_helpers online false true (L "src") (L "/man") (Some []) (started bare)
              = (None, Err ERuntimeError, s'))
  /\ (exists s', install_helpers offline false true (L "src") (L "/man") (Some []) (started debian)
                 = (None, Err EEnvironment, s')
                 /\ In (Ran None [L "apt-get"; L "-q"; L "install"; L "make"]) (s_done s')).
Proof.
  split.
  - eexists. vm_compute. reflexivity.
  - eexists. split; [vm_compute; reflexivity | ]. vm_compute. tauto.
Qed.
Print Assumptions C57_abort_linux_refuted.

(** Non-vacuity: a run on a machine with apt-get that installs everything *)
Example C57_example :
  let '(res, r, s) := install_helpers online false false (L "src") (L "/man") (Some [L "cot.1"; L "cot-info.1"])
                        (started debian) in
  r = Ok tt
  /\ res = Some [(L "fatdisk", InstalledTo (L "/usr/bin/fatdisk") (L "1.2.3"));
                 (L "ovftool", Present (L "1.2.3") (L "/usr/bin/ovftool"));
                 (L "qemu-img", InstalledTo (L "/usr/bin/qemu-img") (L "1.2.3"));
                 (L "vmdktool", InstalledTo (L "/usr/bin/vmdktool") (L "1.2.3"));
                 (L "mkisofs", Failed ENotImplemented);
                 (L "genisoimage", InstalledTo (L "/usr/bin/genisoimage") (L "1.2.3"));
                 (L "COT manpages", PagesInstalled (L "/man"))].
Proof. vm_compute. repeat split. Qed.

(** The file operations of this machine behave *)
Lemma put_same : forall f p c, put f p c p = Some c.
Proof. intros. unfold put. now rewrite str_eqb_refl. Qed.
Lemma put_other : forall f p c x, x <> p -> put f p c x = f x.
Proof. intros f p c x H. unfold put. apply str_eqb_neq in H. now rewrite H. Qed.
Example C57_files : files_behave online.
Proof.
  constructor; cbn [online toy_machine m_isdir m_exists m_makedirs m_copy m_same m_spawn].
  - intros w d H. now rewrite H.
  - intros w d w' H. destruct (t_files w d); [discriminate H | ]. injection H as <-. cbn [t_dirs mem_str existsb].
    now rewrite str_eqb_refl.
  - intros w d out w' H. discriminate H.
  - intros w a b w' H. injection H as <-. cbn [t_files]. rewrite put_same, orb_true_r.
    split; [reflexivity | apply str_eqb_refl].
  - intros w a b out w' H. discriminate H.
  - intros w d ok w' x H E. destruct (t_files w d) eqn:D; injection H as <- <-; [auto | ].
    cbn [t_files t_dirs mem_str existsb]. split; [ | reflexivity].
    change (str_eqb x d || mem_str x (t_dirs w) || is_some (t_files w x) = true).
    rewrite <- orb_assoc, E. apply orb_true_r.
  - intros w d o w' x H E. injection H as <- <-. auto.
  - intros w a b ok w' x H E. injection H as <- <-. cbn [t_files t_dirs].
    destruct (str_eqb_dec x b) as [[_ ->] | [_ N]].
    + rewrite put_same. split; [apply orb_true_r | ]. intros X. contradiction.
    + rewrite put_other by assumption. auto.
  - intros w a b o w' x H E. injection H as <- <-. auto.
Qed.

(** Non-vacuity of C57_pages_message: the pages are installed, again (nothing to do), and,
    once one of them has been overwritten, updated. *)
Example C57_pages_example :
  let pages := Some [L "cot.1"; L "cot-info.1"] in
  let '(r1, s1) := manpages_helper online false (L "src") (L "/man") pages (started debian) in
  let '(r2, s2) := manpages_helper online false (L "src") (L "/man") pages s1 in
  let '(_, s3) := copy_file online (L "other") (L "/man/man1/cot.1") s2 in
  let '(r4, _) := manpages_helper online false (L "src") (L "/man") pages s3 in
  r1 = Ok (true, PagesInstalled (L "/man")) /\ r2 = Ok (true, UpToDate) /\ r4 = Ok (true, PagesUpdated (L "/man")).
Proof. vm_compute. repeat split. Qed.
