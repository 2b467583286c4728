(** C77: what exactly is run when a helper program is installed, and which version it has. *)
From Verif Require Import PyBase PathModel ProgModel InstallModel InstallSpec InstallExactSpec InstallExactProofs.
From Verif Require InstallProps.
Local Open Scope Z_scope.
Local Open Scope list_scope.

(** A helper that was installed came from the first package manager in its list that is there,
    as the package given for that manager, by these commands and no others; nothing is run for a
    helper that is there already. *)
Theorem C77_package : forall W (m : machine W) n s s', consistent s -> n <> "fatdisk"%string -> n <> "vmdktool"%string ->
  install m (L n) s = (Ok tt, s') -> exists l, since s s' l /\ got m s n l.
Proof. exact (@install_plain_exact). Qed.
Print Assumptions C77_package.

(** fatdisk: the same, and without brew and MacPorts on Linux it is built from its source. *)
Theorem C77_fatdisk : forall W (m : machine W) s s', consistent s -> install m (L "fatdisk") s = (Ok tt, s') ->
  exists l, since s s' l /\
    (got m s "fatdisk" l \/
     (~ counts m s (L "fatdisk") /\ m_system m = L "Linux" /\ ~ counts m s (L "brew") /\ ~ counts m s (L "port") /\ fatdisk_built m s l)).
Proof. exact (@install_fatdisk_exact). Qed.
Print Assumptions C77_fatdisk.

Theorem C77_vmdktool : forall W (m : machine W) s s', consistent s -> install m (L "vmdktool") s = (Ok tt, s') ->
  exists l, since s s' l /\
    (got m s "vmdktool" l \/
     (~ counts m s (L "vmdktool") /\ m_system m = L "Linux" /\ ~ counts m s (L "brew") /\ ~ counts m s (L "port") /\ vmdktool_built m s l)).
Proof. exact (@install_vmdktool_exact). Qed.
Print Assumptions C77_vmdktool.

(** When COT starts it does not know how old the lists of packages are: before the first package
    is installed, they are brought up to date. *)
Theorem C77_up_to_date : forall W (m : machine W) n w s', n <> "fatdisk"%string -> n <> "vmdktool"%string ->
  install m (L n) (started w) = (Ok tt, s') -> forall before p after,
  (s_done s' = before ++ Ran None (L "apt-get" :: L "-q" :: L "install" :: p) :: after -> In (Ran None [L "apt-get"; L "-q"; L "update"]) before) /\
  (s_done s' = before ++ Ran None (L "port" :: L "install" :: p) :: after -> In (Ran None [L "port"; L "selfupdate"]) before).
Proof. exact (@updated_first). Qed.
Print Assumptions C77_up_to_date.

(** The version is the first run of digits and dots after the word that the program prints
    before it; it must consist of two or three numbers.  It is asked for by one command. *)
Theorem C77_version : forall W (m : machine W) n s r s' p args,
  consistent s -> found s (L n) p -> h_version (s_helpers s (L n)) = None -> asks_version (L n) args ->
  version m (L n) s = (r, s') ->
  since s s' [Ran None args] /\ exists o, m_spawn m (s_world s) None args = (o, s_world s') /\
  ((exists text v, prints (m_utf8 m) false o (Ok text) /\ version_in (word_before n) text v /\
      ((two_or_three v /\ r = Ok (Some v) /\ h_version (s_helpers s' (L n)) = Some v) \/ (~ two_or_three v /\ r = Err EValueError))) \/
   (exists text, prints (m_utf8 m) false o (Ok text) /\ (forall v, ~ version_in (word_before n) text v) /\ r = Err ERuntimeError) \/
   (exists e, prints (m_utf8 m) false o (Err e) /\ r = Err e)).
Proof. exact (@version_exact). Qed.
Print Assumptions C77_version.

(** "The version of a helper that is installed is known" is false: a program that calls itself
    version 4, or 1.2.3.4, makes COT fail with a ValueError. *)
Definition numbered (v : string) : machine InstallProps.toy :=
  mkmachine InstallProps.toy (L "Linux") (fun _ n => Some (L "/usr/bin/" ++ n)) (fun w _ _ => (Exited 0 (L "qemu-img version " ++ L v ++ L ", free"), w))
    (fun _ _ => false) (fun _ _ => false) (fun _ _ _ => false) (fun w _ => (false, w))
    (fun w _ _ => (false, w)) (fun w _ => (Err EEnvironment, w)) (fun w _ => w) None (fun out => Some out) [] [].
Theorem C77_any_version_refuted : exists W (m : machine W) s n text,
  fst (installed m (L n) s) = Ok true /\ fst (m_spawn m (s_world s) None [L n; L "--version"]) = Exited 0 text /\
  version_in (word_before n) text (L "4") /\ fst (version m (L n) s) = Err EValueError.
Proof.
  exists InstallProps.toy, (numbered "4"), (started InstallProps.bare), "qemu-img"%string, (L "qemu-img version 4, free").
  split; [vm_compute; reflexivity|]. split; [vm_compute; reflexivity|]. split; [|vm_compute; reflexivity].
  exists [], (L ", free"). split; [reflexivity|]. split; [discriminate|]. split; [intros c [<-|[]]; cbn; tauto|]. split.
  - intros c t E. injection E as <- _. cbn. intros X. repeat (destruct X as [X|X]; [discriminate X|]). destruct X.
  - intros a' c t _ _. apply Nat.le_0_l.
Qed.
Print Assumptions C77_any_version_refuted.

(** Non-vacuity *)
Example C77_package_example :
  consistent (started InstallProps.debian) /\
  let (r, s) := install InstallProps.online (L "qemu-img") (started InstallProps.debian) in
  r = Ok tt /\ s_done s = [Ran None [L "dpkg"; L "-s"; L "qemu-utils"]; Ran None [L "apt-get"; L "-q"; L "update"];
                           Ran None [L "apt-get"; L "-q"; L "install"; L "qemu-utils"]].
Proof. split; [apply InstallProps.C57_start|]. vm_compute. split; reflexivity. Qed.
Example C77_fatdisk_example :
  let (r, s) := install InstallProps.online (L "fatdisk") (started InstallProps.debian) in
  r = Ok tt /\ s_done s =
    [Ran None [L "dpkg"; L "-s"; L "make"]; Ran None [L "apt-get"; L "-q"; L "update"]; Ran None [L "apt-get"; L "-q"; L "install"; L "make"];
     Ran None [L "dpkg"; L "-s"; L "gcc"]; Ran None [L "apt-get"; L "-q"; L "install"; L "gcc"];
     Fetch (L "https://github.com/goblinhack/fatdisk/archive/v1.0.0-beta.tar.gz");
     Ran (Some (L "/tmp/cot/fatdisk-1.0.0-beta")) [L "./RUNME"]; MakeDirs (L "/usr/local/bin");
     Copy (L "/tmp/cot/fatdisk-1.0.0-beta/fatdisk") (L "/usr/local/bin"); Release (L "/tmp/cot")].
Proof. vm_compute. split; reflexivity. Qed.
Example C77_vmdktool_example :
  let (r, s) := install InstallProps.online (L "vmdktool") (started InstallProps.debian) in
  r = Ok tt /\ skipn 5 (s_done s) =
    [Fetch (L "http://people.freebsd.org/~brian/vmdktool/vmdktool-1.4.tar.gz");
     Ran (Some (L "/tmp/cot/vmdktool-1.4")) [L "make"; L "CFLAGS=""-D_GNU_SOURCE -g -O -pipe"""];
     MakeDirs (L "/usr/local/man/man8"); MakeDirs (L "/usr/local/bin");
     Ran (Some (L "/tmp/cot/vmdktool-1.4")) [L "make"; L "install"; L "PREFIX=/usr/local"]; Release (L "/tmp/cot")].
Proof. vm_compute. split; reflexivity. Qed.
Example C77_version_example :
  let s := snd (installed InstallProps.online (L "ovftool") (started InstallProps.debian)) in
  found s (L "ovftool") (L "/usr/bin/ovftool") /\ h_version (s_helpers s (L "ovftool")) = None /\
  fst (version InstallProps.online (L "ovftool") s) = Ok (Some (L "1.2.3")).
Proof. vm_compute. repeat split. Qed.
