(** What a user of the helper programs and of "cot install-helpers" relies on. *)
From Verif Require Import PyBase ProgModel.
From Verif Require SelectModel PathModel.
Local Open Scope Z_scope.

(** ** Running one command *)

(** How the caller of a command learns how it ended *)
Inductive ends (require : bool) (args : list str) : outcome -> result unit -> Prop :=
| ends_well : forall out, ends require args (Exited 0 out) (Ok tt)
| ends_badly : forall c out, c <> 0 -> require = true ->
    ends require args (Exited c out) (Err EHelperError)
| ends_anyhow : forall c out, c <> 0 -> require = false ->
    ends require args (Exited c out) (Ok tt)
| ends_missing : ends require args (Refused ENOENT) (Err EHelperNotFound)
| ends_no_sudo : forall rest, args = L "sudo" :: rest ->
    ends require args (Refused ENOEXEC) (Err EHelperError)
| ends_refused : forall e, e <> ENOENT ->
    (e = ENOEXEC -> forall rest, args <> L "sudo" :: rest) ->
    ends require args (Refused e) (Err EEnvironment).

(** The first attempt failed in a way that calls for another one as superuser *)
Definition denied (require : bool) (o : outcome) : Prop :=
  o = Refused EPERM \/ o = Refused EACCES
  \/ (require = true /\ exists c out, o = Exited c out /\ c <> 0).

(** The same for a command whose output is wanted; [utf8] decodes the output *)
Inductive prints (utf8 : list ascii -> option str) (require : bool)
  : outcome -> result str -> Prop :=
| prints_text : forall out text,
    text = filter (fun c => (N_of_ascii c <? 128)%N) out ->
    prints utf8 require (Exited 0 out) (Ok text)
| prints_anyhow : forall c out text, c <> 0 -> require = false -> utf8 out = Some text ->
    prints utf8 require (Exited c out) (Ok text)
| prints_badly : forall c out text, c <> 0 -> require = true -> utf8 out = Some text ->
    prints utf8 require (Exited c out) (Err EHelperError)
| prints_garbage : forall c out, c <> 0 -> utf8 out = None ->
    prints utf8 require (Exited c out) (Err EValueError)
| prints_missing : prints utf8 require (Refused ENOENT) (Err EHelperNotFound)
| prints_refused : forall e, e <> ENOENT -> prints utf8 require (Refused e) (Err EEnvironment).

(** A file operation that failed is repeated by a command run as superuser: how that
    ends.  The error is that of the file operation, unless there is no sudo. *)
Inductive rescued : outcome -> result unit -> Prop :=
| resc_ok : forall out, rescued (Exited 0 out) (Ok tt)
| resc_failed : forall c out, c <> 0 -> rescued (Exited c out) (Err EEnvironment)
| resc_no_sudo : rescued (Refused ENOENT) (Err EHelperNotFound)
| resc_refused : forall e, e <> ENOENT -> rescued (Refused e) (Err EEnvironment).

(** ** What COT may do to the machine while it installs something *)

(** The packages, by package manager *)
Definition package (pm : string) (p : list string) : Prop :=
  match pm with
  | "apt-get" => In p [["qemu-utils"]; ["genisoimage"]; ["xorriso"]; ["make"]; ["gcc"]; ["zlib1g-dev"]]
  | "yum" => In p [["qemu-img"]; ["genisoimage"]; ["make"]; ["gcc"]; ["zlib-devel"]]
  | "port" => In p [["qemu"]; ["cdrtools"]; ["fatdisk"]; ["vmdktool"]]
  | "brew" => In p [["qemu"]; ["cdrtools"]; ["glennmatthews/fatdisk/fatdisk"; "--devel"]; ["vmdktool"]]
  | _ => False
  end%string.
Definition is_package (pm : string) (p : list str) : Prop :=
  exists q, package pm q /\ p = map L q.

(** The commands that installing may run; the flag tells whether a failure is followed by
    a second attempt as superuser. *)
Inductive installs : bool -> list str -> Prop :=
| in_dpkg : forall p, is_package "apt-get" p -> installs false (L "dpkg" :: L "-s" :: p)
| in_apt_update : installs true [L "apt-get"; L "-q"; L "update"]
| in_apt : forall p, is_package "apt-get" p -> installs true (L "apt-get" :: L "-q" :: L "install" :: p)
| in_yum : forall p, is_package "yum" p -> installs true (L "yum" :: L "--quiet" :: L "install" :: p)
| in_port_update : installs true [L "port"; L "selfupdate"]
| in_port : forall p, is_package "port" p -> installs true (L "port" :: L "install" :: p)
| in_brew : forall p, is_package "brew" p -> installs false (L "brew" :: L "install" :: p)
| in_runme : installs false [L "./RUNME"]
| in_make : installs false [L "make"; L "CFLAGS=""-D_GNU_SOURCE -g -O -pipe"""]
| in_make_install : forall vars, installs true (L "make" :: L "install" :: vars).

(** A list of events in which every command is one of [P], superuser rights are used
    only to repeat what has just been tried without, and downloads come from two
    places. *)
Inductive orderly (P : bool -> list str -> Prop) : list event -> Prop :=
| or_nil : orderly P []
| or_run : forall b dir args l, P b args -> orderly P l -> orderly P (Ran dir args :: l)
| or_again : forall dir args l, P true args -> orderly P l ->
    orderly P (Ran dir args :: Ran dir (L "sudo" :: args) :: l)
| or_mkdir : forall d l, orderly P l -> orderly P (MakeDirs d :: l)
| or_mkdir_again : forall d l, orderly P l ->
    orderly P (MakeDirs d :: Ran None [L "sudo"; L "mkdir"; L "-p"; L "-m"; L "755"; d] :: l)
| or_copy : forall a b l, orderly P l -> orderly P (Copy a b :: l)
| or_copy_again : forall a b l, orderly P l ->
    orderly P (Copy a b :: Ran None [L "sudo"; L "cp"; a; b] :: l)
| or_fetch : forall url l,
    In url [L "https://github.com/goblinhack/fatdisk/archive/v1.0.0-beta.tar.gz";
            L "http://people.freebsd.org/~brian/vmdktool/vmdktool-1.4.tar.gz"] ->
    orderly P l -> orderly P (Fetch url :: l)
| or_release : forall d l, orderly P l -> orderly P (Release d :: l)
| or_ask : forall n l, orderly P l -> orderly P (Ask n :: l).

(** COT has found the program [n] *)
Definition found {W} (s : state W) (n : str) (p : str) : Prop := h_path (s_helpers s n) = Some p.

(** The memory of the helpers is that of a running COT: a helper counts as installed
    exactly if its path is known.  True when COT starts. *)
Definition consistent {W} (s : state W) : Prop :=
  forall n, h_installed (s_helpers s n) = Some true <-> exists p, found s n p.

(** The program is not there, and COT has not found it earlier *)
Definition absent {W} (m : machine W) (s : state W) (n : str) : Prop :=
  h_path (s_helpers s n) = None /\ m_find m (s_world s) n = None.

(** What happened between two states *)
Definition since {W} (s s' : state W) (l : list event) : Prop := s_done s' = s_done s ++ l.

(** The question for its version put to the program [n] *)
Definition asks_version (n : str) (args : list str) : Prop :=
  args = n :: (if str_eqb n (L "vmdktool") then [L "-V"]
               else if str_eqb n (L "port") then [L "version"] else [L "--version"]).

(** The machine after these commands, in order *)
Inductive after {W} (m : machine W) : W -> list event -> W -> Prop :=
| after_nil : forall w, after m w [] w
| after_run : forall w dir args o w1 l w2, m_spawn m w dir args = (o, w1) ->
    after m w1 l w2 -> after m w (Ran dir args :: l) w2.

Definition needed : list str := [L "fatdisk"; L "ovftool"; L "qemu-img"; L "vmdktool"].
Definition iso_tools : list str := [L "mkisofs"; L "genisoimage"; L "xorriso"].

(** The helpers that COT could install with a package manager if there were one *)
Definition wants_manager (system n : str) : Prop :=
  (system = L "Darwin" /\ In n [L "qemu-img"; L "mkisofs"; L "isoinfo"; L "fatdisk"; L "vmdktool"])
  \/ (system = L "Linux"
      /\ In n [L "qemu-img"; L "genisoimage"; L "xorriso"; L "isoinfo"; L "make"; L "gcc"]).

(** ** The manual pages *)

(** Where the page [f] goes: man_dir/man<section>/f *)
Definition page_dir (man_dir f : str) : str :=
  PathModel.path_join man_dir (L "man" ++ tl (SelectModel.splitext_ext f)).
Definition page (man_dir f : str) : str := PathModel.path_join (page_dir man_dir f) f.

(** The page is there, with the contents that COT brings *)
Definition in_place {W} (m : machine W) (src man_dir : str) (w : W) (f : str) : Prop :=
  m_exists m w (page_dir man_dir f) = true
  /\ m_exists m w (page man_dir f) = true
  /\ m_same m w (PathModel.path_join src f) (page man_dir f) = true.

(** What is assumed about files: making a directory and copying a file do what they say
    (also as superuser; the target of a copy is no directory), and leave the other files
    alone. *)
Record files_behave {W} (m : machine W) : Prop := {
  fb_isdir : forall w d, m_isdir m w d = true -> m_exists m w d = true;
  fb_mkdir : forall w d w', m_makedirs m w d = (true, w') -> m_exists m w' d = true;
  fb_mkdir_sudo : forall w d out w',
    m_spawn m w None [L "sudo"; L "mkdir"; L "-p"; L "-m"; L "755"; d] = (Exited 0 out, w') ->
    m_exists m w' d = true;
  fb_copy : forall w a b w', m_copy m w a b = (true, w') ->
    m_exists m w' b = true /\ m_same m w' a b = true;
  fb_copy_sudo : forall w a b out w',
    m_spawn m w None [L "sudo"; L "cp"; a; b] = (Exited 0 out, w') ->
    m_exists m w' b = true /\ m_same m w' a b = true;
  fb_mkdir_rest : forall w d ok w' x, m_makedirs m w d = (ok, w') -> m_exists m w x = true ->
    m_exists m w' x = true /\ forall a, m_same m w' a x = m_same m w a x;
  fb_mkdir_sudo_rest : forall w d o w' x,
    m_spawn m w None [L "sudo"; L "mkdir"; L "-p"; L "-m"; L "755"; d] = (o, w') ->
    m_exists m w x = true ->
    m_exists m w' x = true /\ forall a, m_same m w' a x = m_same m w a x;
  fb_copy_rest : forall w a b ok w' x, m_copy m w a b = (ok, w') -> m_exists m w x = true ->
    m_exists m w' x = true /\ (x <> b -> forall c, m_same m w' c x = m_same m w c x);
  fb_copy_sudo_rest : forall w a b o w' x,
    m_spawn m w None [L "sudo"; L "cp"; a; b] = (o, w') -> m_exists m w x = true ->
    m_exists m w' x = true /\ (x <> b -> forall c, m_same m w' c x = m_same m w c x)
}.

(** ** The results printed by install-helpers *)
From Verif Require InstallModel.

(** The result of one helper, or of the manual pages, is a failure *)
Definition failed (x : str * InstallModel.message) : Prop :=
  match snd x with InstallModel.Failed _ | InstallModel.NoPages => True | _ => False end.

(** What is printed: one line per needed helper, one per ISO tool tried (the tools after
    the first good one are not tried), one for the manual pages *)
Definition report (results four iso : list (str * InstallModel.message))
  (pages : InstallModel.message) : Prop :=
  results = four ++ iso ++ [(L "COT manpages", pages)]
  /\ map fst four = needed
  /\ (exists untried, map fst iso ++ untried = iso_tools
                      /\ (untried <> [] -> ~ failed (last iso ([], InstallModel.NoPages))))
  /\ (forall before x after, iso = before ++ x :: after -> after <> [] -> failed x).

(** Everything needed is there, according to the report *)
Definition all_well (four iso : list (str * InstallModel.message)) (pages : InstallModel.message) : Prop :=
  (forall x, In x four -> ~ failed x)
  /\ (exists x, In x iso /\ ~ failed x)
  /\ ~ failed (L "COT manpages", pages).
