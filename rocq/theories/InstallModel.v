(** Installing helper programs: COT/helpers/helper.py:240-443 and the other modules of
    COT/helpers, and the command install-helpers, COT/commands/install_helpers.py. *)
From Verif Require Import PyBase PyRegex SelectModel PathModel RawModel ProgModel.
Local Open Scope Z_scope.

(** The attributes _provider_package: the package managers and the parameters given to
    them, in the order of the dictionary.  qemu_img.py:28-33, mkisofs.py:41-44, 55-58,
    73-75, isoinfo.py:31-35, make.py:25-28, gcc.py:25-28, fatdisk.py:42-45,
    vmdktool.py:38-41; helper.py:204 for all the others. *)
Definition provider (n : str) : list (str * list str) :=
  if str_eqb n (L "qemu-img") then
    [(L "apt-get", [L "qemu-utils"]); (L "brew", [L "qemu"]); (L "port", [L "qemu"]);
     (L "yum", [L "qemu-img"])]
  else if str_eqb n (L "mkisofs") then
    [(L "brew", [L "cdrtools"]); (L "port", [L "cdrtools"])]
  else if str_eqb n (L "genisoimage") then
    [(L "apt-get", [L "genisoimage"]); (L "yum", [L "genisoimage"])]
  else if str_eqb n (L "xorriso") then [(L "apt-get", [L "xorriso"])]
  else if str_eqb n (L "isoinfo") then
    [(L "apt-get", [L "genisoimage"]); (L "brew", [L "cdrtools"]); (L "port", [L "cdrtools"])]
  else if str_eqb n (L "make") then [(L "apt-get", [L "make"]); (L "yum", [L "make"])]
  else if str_eqb n (L "gcc") then [(L "apt-get", [L "gcc"]); (L "yum", [L "gcc"])]
  else if str_eqb n (L "fatdisk") then
    [(L "brew", [L "glennmatthews/fatdisk/fatdisk"; L "--devel"]); (L "port", [L "fatdisk"])]
  else if str_eqb n (L "vmdktool") then
    [(L "brew", [L "vmdktool"]); (L "port", [L "vmdktool"])]
  else [].

(** _version_args, helper.py:189-191, vmdktool.py:48, port.py:36 *)
Definition version_args (n : str) : list str :=
  if str_eqb n (L "vmdktool") then [L "-V"]
  else if str_eqb n (L "port") then [L "version"]
  else [L "--version"].

(** _version_regexp: a word and "([0-9.]+)"; helper.py:171 for the helpers without one of
    their own *)
Definition version_word (n : str) : str :=
  if str_eqb n (L "fatdisk") then L "version "
  else if str_eqb n (L "vmdktool") then L "vmdktool version "
  else if str_eqb n (L "ovftool") then L "ovftool "
  else if str_eqb n (L "qemu-img") then L "qemu-img version "
  else if str_eqb n (L "mkisofs") then L "mkisofs "
  else if str_eqb n (L "genisoimage") then L "genisoimage "
  else if str_eqb n (L "xorriso") then L "xorriso "
  else if str_eqb n (L "isoinfo") then L "isoinfo "
  else if str_eqb n (L "apt-get") then L "apt "
  else if str_eqb n (L "brew") then L "Homebrew "
  else [].
Definition version_re (n : str) : re :=
  RSeq (RStr (version_word n))
       (RGroup 1 (RPlus (RChr (fun c => is_digit c || Ascii.eqb c "."%char)))).

(** distutils.version.StrictVersion.version_re:
    ^(\d+) \. (\d+) (\. (\d+))? ([ab](\d+))?$ *)
Definition RDigits : re := RPlus (RChr is_digit).
Definition strict_re : re :=
  RSeq RDigits (RSeq (RLit "."%char) (RSeq RDigits
    (RSeq (ROpt (RSeq (RLit "."%char) RDigits))
      (RSeq (ROpt (RSeq (RChr (fun c => Ascii.eqb c "a"%char || Ascii.eqb c "b"%char)) RDigits))
            REnd)))).

(** What install_helper says, install_helpers.py:160-184; the version is the text found in
    the output (StrictVersion prints it without a final ".0") *)
Inductive message : Type :=
| Present (version path : str)
| NotFound
| InstalledTo (path version : str)
| Failed (e : exn)
| DirectoryNotFound (dir : str)          (* the next four: manual pages *)
| NeedsUpdate
| UpToDate
| PagesInstalled (dir : str)
| PagesUpdated (dir : str)
| NoPages.

Section Install.
Context {W : Type}.
Variable m : machine W.

(** the keys of _provider_package *)
Definition provided_by (pm n : str) : bool := mem_str pm (map fst (provider n)).

(** [any of the named helpers is installed], stopping at the first *)
Fixpoint any_installed (l : list str) : act W bool :=
  match l with
  | [] => ret false
  | n :: l' => py b <- installed m n; if b then ret true else any_installed l'
  end.

(** Helper.installable, helper.py:240-246 *)
Definition installable_plain (n : str) : act W bool := any_installed (map fst (provider n)).

(** Helper.unsure_how_to_install, helper.py:360-389, and ovftool.py:43-53.  The message
    is not modelled, the lookups made for it are. *)
Definition unsure (n : str) : act W exn :=
  if str_eqb n (L "ovftool") then ret ENotImplemented
  else if str_eqb (m_system m) (L "Darwin") then
    py _ <- (if provided_by (L "brew") n then installed m (L "brew") else ret true);
    py _ <- (if provided_by (L "port") n then installed m (L "port") else ret true);
    ret (if provided_by (L "brew") n || provided_by (L "port") n
         then ERuntimeError else ENotImplemented)
  else if str_eqb (m_system m) (L "Linux")
          && (provided_by (L "apt-get") n || provided_by (L "yum") n) then
    py b <- any_installed [L "apt-get"; L "yum"];
    ret (if b then ENotImplemented else ERuntimeError)
  else ret ENotImplemented.

Definition fail_unsure {A} (n : str) : act W A := py e <- unsure n; raise e.

(** The beginning of Helper.call, helper.py:300-309; [install] is self.install *)
Definition ready (n : str) (install : act W unit) : act W unit :=
  py p <- path m n;
  match p with
  | Some _ => ret tt
  | None =>
      match m_confirm m with
      | None => install
      | Some f =>
          py yes <- step (Ask n) (fun w => f w n);
          if yes then install else raise EHelperNotFound
      end
  end.

(** Helper.install, helper.py:332-358, of a helper without _provider_package (the package
    managers, dpkg, clang, g++): it is never installable *)
Definition install_bare (n : str) : act W unit :=
  py b <- installed m n;
  if b then ret tt else fail_unsure n.

(** Helper.call of such a helper, with and without capture_output.  The cache is never
    filled by these helpers. *)
Definition call_output (n : str) (args : list str) (require : bool) : act W str :=
  py _ <- ready n (install_bare n);
  check_output m None (n :: args) require false.
Definition call_shown (n : str) (args : list str) (retry : bool) : act W unit :=
  py _ <- ready n (install_bare n);
  check_call m None (n :: args) true retry.

(** [re.search(r"install ok installed", text)] *)
Definition says_installed (text : str) : bool :=
  match re_search (RStr (L "install ok installed")) text with Some _ => true | None => false end.

Definition apt_updated : act W bool := fun s => (Ok (s_apt s), s).
Definition port_updated : act W bool := fun s => (Ok (s_port s), s).
Definition set_apt : act W unit :=
  fun s => (Ok tt, mkstate (s_world s) (s_helpers s) true (s_port s) (s_done s)).
Definition set_port : act W unit :=
  fun s => (Ok tt, mkstate (s_world s) (s_helpers s) (s_apt s) true (s_done s)).

(** PackageManager.install_package: apt_get.py:36-53, yum.py:33-40, port.py:38-50,
    brew.py:37-49; helper.py:518 for any other *)
Definition install_package (pm : str) (package : list str) : act W unit :=
  if str_eqb pm (L "apt-get") then
    py text <- call_output (L "dpkg") (L "-s" :: package) false;
    if says_installed text then ret tt else
    py u <- apt_updated;
    py _ <- (if u then ret tt
              else py _ <- call_shown pm [L "-q"; L "update"] true; set_apt);
    call_shown pm (L "-q" :: L "install" :: package) true
  else if str_eqb pm (L "yum") then
    call_shown pm (L "--quiet" :: L "install" :: package) true
  else if str_eqb pm (L "port") then
    py u <- port_updated;
    py _ <- (if u then ret tt
              else py _ <- call_shown pm [L "selfupdate"] true; set_port);
    call_shown pm (L "install" :: package) true
  else if str_eqb pm (L "brew") then call_shown pm (L "install" :: package) false
  else raise ENotImplemented.

(** Helper._install, helper.py:391-405: the first package manager that is installed *)
Fixpoint install_from (n : str) (l : list (str * list str)) : act W unit :=
  match l with
  | [] => fail_unsure n
  | (pm, package) :: l' =>
      py b <- installed m pm;
      if b then install_package pm package else install_from n l'
  end.
Definition install_default (n : str) : act W unit := install_from n (provider n).

(** Helper.install, helper.py:332-358, with the helper's own installable and _install *)
Definition install_with (n : str) (installable : act W bool) (how : act W unit) : act W unit :=
  py b <- installed m n;
  if b then ret tt else
  py c <- installable;
  if negb c then fail_unsure n else
  py _ <- how;
  py p <- path m n;
  match p with Some _ => ret tt | None => raise EHelperNotFound end.

(** Helper.install of a helper that overrides neither *)
Definition install_plain (n : str) : act W unit :=
  install_with n (installable_plain n) (install_default n).

(** helper_select(choices) for names without versions, helper.py:708-759 *)
Fixpoint select_installable_name (l : list str) : act W bool :=
  match l with
  | [] => ret false
  | n :: l' =>
      py b <- installable_plain n;
      if b then py _ <- install_plain n; ret true else select_installable_name l'
  end.
Fixpoint all_unsure (l : list str) : act W unit :=
  match l with [] => ret tt | n :: l' => py _ <- unsure n; all_unsure l' end.
Definition select_names (l : list str) : act W unit :=
  py b <- any_installed l;
  if b then ret tt else
  py c <- select_installable_name l;
  if c then ret tt else
  py _ <- all_unsure l; raise EHelperNotFound.

(** FatDisk.installable, fatdisk.py:47-54.  [helpers['make'].installable] is a bool. *)
Definition fatdisk_installable : act W bool :=
  py a <- any_installed [L "brew"; L "port"];
  if a then ret true else
  if negb (str_eqb (m_system m) (L "Linux")) then ret false else
  py b <- installed m (L "make");
  py c <- (if b then ret true else installable_plain (L "make"));
  if negb c then ret false else
  py d <- any_installed [L "clang"; L "gcc"; L "g++"];
  if d then ret true else installable_plain (L "gcc").

(** [with self.download_and_expand_tgz(url) as directory: body], helper.py:406-443 *)
Definition with_archive (url : str) (body : str -> act W unit) : act W unit :=
  py r <- step (Fetch url) (fun w => m_fetch m w url);
  match r with
  | Err e => raise e
  | Ok dir =>
      fun s =>
        match body dir s with
        | (x, s') => match step (Release dir) (fun w => (tt, m_release m w dir)) s' with
                     | (_, s'') => (x, s'')
                     end
        end
  end.

(** [destdir != ''] makes the prefix relative, fatdisk.py:80-84, vmdktool.py:95-101 *)
Definition prefix : str :=
  if str_eqb (m_destdir m) [] then m_prefix m else lstrip_slashes (m_prefix m).

(** [try: super()._install() ... except NotImplementedError: (Linux only) ...],
    fatdisk.py:58-65, vmdktool.py:61-68 *)
Definition or_build (n : str) (build : act W unit) : act W unit :=
  catching (install_default n)
    (fun e => match e with
              | ENotImplemented =>
                  if str_eqb (m_system m) (L "Linux") then Some build else None
              | _ => None
              end).

(** FatDisk._install, fatdisk.py:56-89 *)
Definition build_fatdisk : act W unit :=
  py _ <- install_plain (L "make");
  py _ <- select_names [L "clang"; L "gcc"; L "g++"];
  with_archive (L "https://github.com/goblinhack/fatdisk/archive/v1.0.0-beta.tar.gz")
    (fun directory =>
       let new_d := path_join directory (L "fatdisk-1.0.0-beta") in
       py _ <- check_call m (Some new_d) [L "./RUNME"] true false;
       let destination := path_join (path_join (m_destdir m) prefix) (L "bin") in
       py _ <- mkdir m destination;
       copy_file m (path_join new_d (L "fatdisk")) destination).

(** VMDKTool.installable, vmdktool.py:51-57 *)
Definition vmdktool_installable : act W bool :=
  any_installed [L "apt-get"; L "brew"; L "port"; L "yum"].

(** VMDKTool._install, vmdktool.py:59-107 *)
Definition build_vmdktool : act W unit :=
  py _ <- install_plain (L "make");
  py a <- installed m (L "apt-get");
  py _ <- (if a then install_package (L "apt-get") [L "zlib1g-dev"]
            else py y <- installed m (L "yum");
                 if y then install_package (L "yum") [L "zlib-devel"]
                 else raise ENotImplemented);
  with_archive (L "http://people.freebsd.org/~brian/vmdktool/vmdktool-1.4.tar.gz")
    (fun directory =>
       let new_d := path_join directory (L "vmdktool-1.4") in
       py _ <- check_call m (Some new_d)
                  [L "make"; L "CFLAGS=""-D_GNU_SOURCE -g -O -pipe"""] true false;
       let args := [L "make"; L "install"; L "PREFIX=" ++ m_prefix m]
                   ++ (if str_eqb (m_destdir m) [] then [] else [L "DESTDIR=" ++ m_destdir m]) in
       py _ <- mkdir m (path_join (path_join (path_join (m_destdir m) prefix) (L "man")) (L "man8"));
       py _ <- mkdir m (path_join (path_join (m_destdir m) prefix) (L "bin"));
       check_call m (Some new_d) args true true).

(** helpers[n].install() *)
Definition install (n : str) : act W unit :=
  if str_eqb n (L "fatdisk") then
    install_with n fatdisk_installable (or_build n build_fatdisk)
  else if str_eqb n (L "vmdktool") then
    install_with n vmdktool_installable (or_build n build_vmdktool)
  else install_plain n.    (* ovftool, ovftool.py:38-41: no provider *)

(** helpers[n].call(args, ...), helper.py:263-325; the cache of qemu-img and isoinfo (C37)
    is not used for the arguments below and left out *)
Definition call (n : str) (args : list str) (require retry : bool) : act W str :=
  py _ <- ready n (install n);
  check_output m None (n :: args) require retry.

(** helpers[n].version, helper.py:248-261.  [None]: not installed *)
Definition version (n : str) : act W (option str) :=
  py b <- installed m n;
  py x <- recall n;
  match b, h_version x with
  | true, None =>
      py text <- call n (version_args n) false false;
      match re_search (version_re n) text with
      | None => raise ERuntimeError
      | Some g =>
          match group 1 g with
          | None => raise ERuntimeError     (* not reachable: the group is not optional *)
          | Some v =>
              if re_test strict_re v then
                py y <- recall n;
                py _ <- remember n (mkmemory (h_path y) (h_installed y) (Some v));
                ret (Some v)
              else raise EValueError
          end
      end
  | _, v => ret v
  end.

(** ** install-helpers *)

(** str(helper.path), str(helper.version) *)
Definition or_none (o : option str) : str := match o with Some s => s | None => L "None" end.

(** COTInstallHelpers.install_helper, install_helpers.py:160-184 *)
Definition install_helper (verify_only : bool) (n : str) : act W (bool * message) :=
  py b <- installed m n;
  if b then
    py v <- version n;
    py p <- path m n;
    ret (true, Present (or_none v) (or_none p))
  else if verify_only then ret (true, NotFound)
  else
    catching
      (py _ <- install n;
       py p <- path m n;
       py v <- version n;
       ret (true, InstalledTo (or_none p) (or_none v)))
      (fun e => match e with
                | ENotImplemented | EHelperError | EHelperNotFound => Some (ret (false, Failed e))
                | _ => None
                end).

(** [os.path.splitext(filename)[1][1:]] *)
Definition man_section (filename : str) : str := tl (splitext_ext filename).
Definition man_dest (man_dir filename : str) : str :=
  path_join man_dir (L "man" ++ man_section filename).

(** verify_manpages, install_helpers.py:52-78; [src] is the directory of the pages *)
Fixpoint verify_manpages (src man_dir : str) (pages : list str) : act W (bool * message) :=
  match pages with
  | [] => ret (true, UpToDate)
  | f :: l =>
      let dest := man_dest man_dir f in
      py x <- look (fun w => m_exists m w dest);
      if negb x then ret (true, DirectoryNotFound dest) else
      py y <- look (fun w => m_exists m w (path_join dest f));
      if negb y then ret (true, NotFound) else
      py z <- look (fun w => m_same m w (path_join src f) (path_join dest f));
      if z then verify_manpages src man_dir l else ret (true, NeedsUpdate)
  end.

(** _install_manpage, install_helpers.py:81-108: previously installed, updated *)
Definition install_manpage (src man_dir f : str) : act W (bool * bool) :=
  let dest := man_dest man_dir f in
  py _ <- mkdir m dest;
  let dest_path := path_join dest f in
  py x <- look (fun w => m_exists m w dest_path);
  py z <- (if x then look (fun w => m_same m w (path_join src f) dest_path) else ret false);
  if x && z then ret (true, false) else
  py _ <- copy_file m (path_join src f) dest_path;
  ret (x, true).

(** the loop of install_manpages: whether some page was there, whether some was copied *)
Fixpoint install_pages (src man_dir : str) (pages : list str) (some any : bool)
  : act W (bool * bool) :=
  match pages with
  | [] => ret (some, any)
  | f :: l =>
      py (prev, new) <- install_manpage src man_dir f;
      install_pages src man_dir l (some || prev) (any || new)
  end.

(** install_manpages, install_helpers.py:111-140 *)
Definition install_manpages (src man_dir : str) (pages : list str) : act W (bool * message) :=
  catching
    (py (some, any) <- install_pages src man_dir pages false false;
     ret (true, if some then (if any then PagesUpdated man_dir else UpToDate)
                else PagesInstalled man_dir))
    (fun e => if is_environment_error e then Some (ret (false, Failed e)) else None).

(** manpages_helper, install_helpers.py:186-202.  [pages]: resource_listdir, if the
    directory exists; guess_manpath (install_helpers.py:35-49) is [man_dir]. *)
Definition manpages_helper (verify_only : bool) (src man_dir : str) (pages : option (list str))
  : act W (bool * message) :=
  match pages with
  | None => ret (false, NoPages)
  | Some l => if verify_only then verify_manpages src man_dir l
              else install_manpages src man_dir l
  end.

(** The first loop of run: the results so far and whether all are good *)
Fixpoint each_helper (verify_only : bool) (l : list str) (good : bool)
  (results : list (str * message)) : act W (bool * list (str * message)) :=
  match l with
  | [] => ret (good, results)
  | n :: l' =>
      py (rc, msg) <- install_helper verify_only n;
      each_helper verify_only l' (good && rc) (results ++ [(n, msg)])
  end.

(** The second loop, which stops at the first success *)
Fixpoint first_helper (verify_only : bool) (l : list str) (results : list (str * message))
  : act W (bool * list (str * message)) :=
  match l with
  | [] => ret (false, results)
  | n :: l' =>
      py (rc, msg) <- install_helper verify_only n;
      if rc then ret (true, results ++ [(n, msg)])
      else first_helper verify_only l' (results ++ [(n, msg)])
  end.

(** COTInstallHelpers.run, install_helpers.py:204-235: the results, printed in the order
    of their names (the order and the layout are not modelled), and then the end of the
    command: an error, unless all went well or errors are ignored.  The results are
    [None] if the command ends before printing them. *)
Definition install_helpers (verify_only ignore_errors : bool) (src man_dir : str)
  (pages : option (list str)) (s : state W)
  : option (list (str * message)) * result unit * state W :=
  match (py (good, results) <- each_helper verify_only
                [L "fatdisk"; L "ovftool"; L "qemu-img"; L "vmdktool"] true [];
         py (iso, results) <- first_helper verify_only
                [L "mkisofs"; L "genisoimage"; L "xorriso"] results;
         py (rc, msg) <- manpages_helper verify_only src man_dir pages;
         ret (good && iso && rc, results ++ [(L "COT manpages", msg)])) s with
  | (Err e, s') => (None, Err e, s')
  | (Ok (good, results), s') =>
      (Some results, if negb good && negb ignore_errors then Err EEnvironment else Ok tt, s')
  end.
End Install.
