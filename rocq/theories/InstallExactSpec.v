(** What exactly is run when a helper program is installed. *)
From Coq Require Import List Ascii String ZArith Bool.
Import ListNotations.
From Verif Require Import PyBase ProgModel InstallSpec.
From Verif Require PathModel.
Local Open Scope list_scope.

(** The package managers that offer a helper, in the order of preference, and the package. *)
Definition manager_table : list (string * list (string * list string)) := [
  ("qemu-img", [("apt-get", ["qemu-utils"]); ("brew", ["qemu"]); ("port", ["qemu"]); ("yum", ["qemu-img"])]);
  ("mkisofs", [("brew", ["cdrtools"]); ("port", ["cdrtools"])]);
  ("genisoimage", [("apt-get", ["genisoimage"]); ("yum", ["genisoimage"])]);
  ("xorriso", [("apt-get", ["xorriso"])]);
  ("isoinfo", [("apt-get", ["genisoimage"]); ("brew", ["cdrtools"]); ("port", ["cdrtools"])]);
  ("make", [("apt-get", ["make"]); ("yum", ["make"])]);
  ("gcc", [("apt-get", ["gcc"]); ("yum", ["gcc"])]);
  ("fatdisk", [("brew", ["glennmatthews/fatdisk/fatdisk"; "--devel"]); ("port", ["fatdisk"])]);
  ("vmdktool", [("brew", ["vmdktool"]); ("port", ["vmdktool"])])]%string.
Definition managers (n : string) : list (string * list string) :=
  match find (fun x => String.eqb (fst x) n) manager_table with Some x => snd x | None => [] end.

(** A program counts as there if it was found before, or was not looked for before and is found now. *)
Definition counts {W} (m : machine W) (s : state W) (n : str) : Prop :=
  h_installed (s_helpers s n) = Some true \/ (h_installed (s_helpers s n) = None /\ exists p, m_find m (s_world s) n = Some p).

(** The first in the list that counts as there. *)
Definition chosen {W} (m : machine W) (s : state W) (l : list (string * list string)) (pm : string) (p : list string) : Prop :=
  exists before after, l = before ++ (pm, p) :: after /\ counts m s (L pm) /\ forall x, In x before -> ~ counts m s (L (fst x)).

(** A command, run again as superuser if it was refused. *)
Inductive runs (dir : option str) (args : list str) : list event -> Prop :=
| r_once : runs dir args [Ran dir args]
| r_twice : runs dir args [Ran dir args; Ran dir (L "sudo" :: args)].

Definition dpkg (p : list string) : list str := L "dpkg" :: L "-s" :: map L p.
(** dpkg says that the package is there. *)
Definition says_there {W} (m : machine W) (w : W) (p : list string) : Prop :=
  exists c out text, fst (m_spawn m w None (dpkg p)) = Exited c out /\
    (if (c =? 0)%Z then text = filter (fun c => (N_of_ascii c <? 128)%N) out else m_utf8 m out = Some text) /\
    exists a b, text = a ++ L "install ok installed" ++ b.
(** Before dpkg is run for the first time the user may have to be asked about it. *)
Inductive asked {W} (m : machine W) (w : W) : list event -> W -> Prop :=
| a_not : asked m w [] w
| a_yes f w1 : m_confirm m = Some f -> f w (L "dpkg") = (true, w1) -> asked m w [Ask (L "dpkg")] w1.

(** What a package manager does for one package.  The lists of packages are brought up to date
    once while COT runs. *)
Inductive packaged {W} (m : machine W) (s : state W) (p : list string) : string -> list event -> Prop :=
| k_there la w : asked m (s_world s) la w -> says_there m w p -> packaged m s p "apt-get" (la ++ [Ran None (dpkg p)])
| k_apt la w lu li : asked m (s_world s) la w -> ~ says_there m w p ->
    (if s_apt s then lu = [] else runs None [L "apt-get"; L "-q"; L "update"] lu) ->
    runs None (L "apt-get" :: L "-q" :: L "install" :: map L p) li ->
    packaged m s p "apt-get" (la ++ [Ran None (dpkg p)] ++ lu ++ li)
| k_yum li : runs None (L "yum" :: L "--quiet" :: L "install" :: map L p) li -> packaged m s p "yum" li
| k_port lu li : (if s_port s then lu = [] else runs None [L "port"; L "selfupdate"] lu) ->
    runs None (L "port" :: L "install" :: map L p) li -> packaged m s p "port" (lu ++ li)
| k_brew : packaged m s p "brew" [Ran None (L "brew" :: L "install" :: map L p)].

(** The state after [l] has been done: programs found stay found, the lists of packages are up to
    date if they were or if [l] has done it, and if nothing was done nothing has changed. *)
Definition later {W} (m : machine W) (s : state W) (l : list event) (s1 : state W) : Prop :=
  since s s1 l /\ (forall n p, found s n p -> found s1 n p) /\
  (s_apt s1 = true <-> s_apt s = true \/ In (Ran None [L "apt-get"; L "-q"; L "update"]) l) /\
  (s_port s1 = true <-> s_port s = true \/ In (Ran None [L "port"; L "selfupdate"]) l) /\
  (l = [] -> s_world s1 = s_world s /\ forall n, counts m s1 n <-> counts m s n).

(** A program is there already, or comes with a package. *)
Definition got {W} (m : machine W) (s : state W) (n : string) (l : list event) : Prop :=
  (counts m s (L n) /\ l = []) \/
  (~ counts m s (L n) /\ exists pm p, chosen m s (managers n) pm p /\ packaged m s p pm l).

(** One of the programs counts as there, or none does. *)
Definition if_any {W} (m : machine W) (s : state W) (names : list string) (yes no : Prop) : Prop :=
  ((exists n, In n names /\ counts m s (L n)) /\ yes) \/ ((forall n, In n names -> ~ counts m s (L n)) /\ no).

(** A directory is made unless it is there; a file is copied: as superuser if it must be. *)
Definition made (d : str) (l : list event) : Prop :=
  l = [] \/ l = [MakeDirs d] \/ l = [MakeDirs d; Ran None [L "sudo"; L "mkdir"; L "-p"; L "-m"; L "755"; d]].
Definition copied (a b : str) (l : list event) : Prop :=
  l = [Copy a b] \/ l = [Copy a b; Ran None [L "sudo"; L "cp"; a; b]].

(** Where programs and manual pages go: below PREFIX, and that below DESTDIR if it is set. *)
Definition target {W} (m : machine W) : str :=
  match m_destdir m with [] => m_prefix m | d => PathModel.path_join d (PathModel.lstrip_slashes (m_prefix m)) end.
Definition below (d : str) (f : string) : str := PathModel.path_join d (L f).

(** fatdisk is built from its source, with make and a compiler: clang, gcc or g++. *)
Definition fatdisk_built {W} (m : machine W) (s : state W) (l : list event) : Prop :=
  exists lm s1 lc lb lf dir, let d := below dir "fatdisk-1.0.0-beta" in
    got m s "make" lm /\ later m s lm s1 /\
    (if_any m s1 ["clang"; "gcc"; "g++"]%string (lc = []) (got m s1 "gcc" lc)) /\
    made (below (target m) "bin") lb /\ copied (below d "fatdisk") (below (target m) "bin") lf /\
    l = lm ++ lc ++ [Fetch (L "https://github.com/goblinhack/fatdisk/archive/v1.0.0-beta.tar.gz"); Ran (Some d) [L "./RUNME"]] ++ lb ++ lf ++ [Release dir].

(** vmdktool is built from its source, with make and zlib. *)
Definition vmdktool_built {W} (m : machine W) (s : state W) (l : list event) : Prop :=
  exists lm s1 pm p lz lb1 lb2 li dir, let d := below dir "vmdktool-1.4" in
    got m s "make" lm /\ later m s lm s1 /\
    chosen m s1 [("apt-get", ["zlib1g-dev"]); ("yum", ["zlib-devel"])]%string pm p /\ packaged m s1 p pm lz /\
    made (below (below (target m) "man") "man8") lb1 /\ made (below (target m) "bin") lb2 /\
    runs (Some d) ([L "make"; L "install"; L "PREFIX=" ++ m_prefix m] ++
                   match m_destdir m with [] => [] | dd => [L "DESTDIR=" ++ dd] end) li /\
    l = lm ++ lz ++ [Fetch (L "http://people.freebsd.org/~brian/vmdktool/vmdktool-1.4.tar.gz");
                     Ran (Some d) [L "make"; L "CFLAGS=""-D_GNU_SOURCE -g -O -pipe"""]] ++ lb1 ++ lb2 ++ li ++ [Release dir].

(** ** The version of a helper program *)

(** What stands before the version in what the program prints. *)
Definition version_words : list (string * string) := [
  ("fatdisk", "version "); ("vmdktool", "vmdktool version "); ("ovftool", "ovftool "); ("qemu-img", "qemu-img version ");
  ("mkisofs", "mkisofs "); ("genisoimage", "genisoimage "); ("xorriso", "xorriso "); ("isoinfo", "isoinfo ");
  ("apt-get", "apt "); ("brew", "Homebrew ")]%string.
Definition word_before (n : string) : str :=
  match find (fun x => String.eqb (fst x) n) version_words with Some x => L (snd x) | None => [] end.

(** The first run of digits and dots that follows the word. *)
Definition dot_or_digit (c : ascii) : Prop := In c (L ".0123456789").
Definition version_in (word text v : str) : Prop :=
  exists a b, text = a ++ word ++ v ++ b /\ v <> [] /\ (forall c, In c v -> dot_or_digit c) /\
    (forall c t, b = c :: t -> ~ dot_or_digit c) /\
    forall a' c t, text = a' ++ word ++ c :: t -> dot_or_digit c -> (length a <= length a')%nat.

(** Two or three numbers with dots between them. *)
Definition number (x : str) : Prop := x <> [] /\ forall c, In c x -> In c (L "0123456789").
Definition two_or_three (v : str) : Prop :=
  exists x y, number x /\ number y /\ (v = x ++ L "." ++ y \/ exists z, number z /\ v = x ++ L "." ++ y ++ L "." ++ z).
