(** Running helper programs: COT/helpers/helper.py:446-705, and the state that the
    helper objects keep between calls, helper.py:167-260. *)
From Verif Require Import PyBase PyRegex.
Local Open Scope Z_scope.

(** The errno values that the code compares with (Linux and macOS) *)
Definition EPERM : Z := 1.
Definition ENOENT : Z := 2.
Definition ENOEXEC : Z := 8.
Definition EACCES : Z := 13.

(** What starting a program leads to: it cannot be started (OSError with an errno),
    or it ends with an exit status, having written some bytes (standard output and
    error together).  A process killed by a signal has a negative status. *)
Inductive outcome : Type :=
| Refused (errno : Z)
| Exited (status : Z) (output : list ascii).

(** What COT does to the machine, in order *)
Inductive event : Type :=
| Ran (dir : option str) (args : list str)   (* subprocess, in a directory if given *)
| MakeDirs (dir : str)                       (* os.makedirs *)
| Copy (src dest : str)                      (* shutil.copy *)
| Fetch (url : str)                          (* download and unpack *)
| Release (dir : str)                        (* remove the temporary directory *)
| Ask (program : str).                       (* "... Try to install it?" *)

(** The machine: a state [W] and the operations of the operating system on it, all
    of them arbitrary functions.  [m_utf8] is [bytes.decode()]. *)
Record machine (W : Type) : Type := mkmachine {
  m_system : str;                                       (* platform.system() *)
  m_find : W -> str -> option str;                      (* find_executable *)
  m_spawn : W -> option str -> list str -> outcome * W;
  m_isdir : W -> str -> bool;
  m_exists : W -> str -> bool;
  m_same : W -> str -> str -> bool;                     (* filecmp.cmp *)
  m_makedirs : W -> str -> bool * W;                    (* false: OSError *)
  m_copy : W -> str -> str -> bool * W;                 (* false: OSError *)
  m_fetch : W -> str -> result str * W;                 (* the temporary directory *)
  m_release : W -> str -> W;
  m_confirm : option (W -> str -> bool * W);            (* None: no USER_INTERFACE *)
  m_utf8 : list ascii -> option str;
  m_destdir : str;                                      (* os.getenv('DESTDIR', '') *)
  m_prefix : str                                        (* os.getenv('PREFIX', '/usr/local') *)
}.
Arguments m_system {W}. Arguments m_find {W}. Arguments m_spawn {W}. Arguments m_isdir {W}.
Arguments m_exists {W}. Arguments m_same {W}. Arguments m_makedirs {W}. Arguments m_copy {W}.
Arguments m_fetch {W}. Arguments m_release {W}. Arguments m_confirm {W}. Arguments m_utf8 {W}.
Arguments m_destdir {W}. Arguments m_prefix {W}.

(** What a helper object remembers, helper.py:185-187: the path, whether it is
    installed ([None]: not looked yet) and the version *)
Record memory : Type := mkmemory {
  h_path : option str; h_installed : option bool; h_version : option str }.

(** The state: the machine, the helper objects (the dictionary [helpers] makes one on
    first use, helper.py:120-131), the class attributes AptGet._updated and
    Port._updated, and everything done so far, in order. *)
Record state (W : Type) : Type := mkstate {
  s_world : W; s_helpers : str -> memory; s_apt : bool; s_port : bool; s_done : list event }.
Arguments mkstate {W}. Arguments s_world {W}. Arguments s_helpers {W}. Arguments s_apt {W}.
Arguments s_port {W}. Arguments s_done {W}.

(** The state when COT starts *)
Definition started {W} (w : W) : state W :=
  mkstate w (fun _ => mkmemory None None None) false false [].

(** Code that may change the state and then return or raise *)
Definition act (W A : Type) : Type := state W -> result A * state W.
Definition ret {W A} (a : A) : act W A := fun s => (Ok a, s).
Definition raise {W A} (e : exn) : act W A := fun s => (Err e, s).
Definition andthen {W A B} (x : act W A) (f : A -> act W B) : act W B :=
  fun s => match x s with
           | (Ok a, s') => f a s'
           | (Err e, s') => (Err e, s')
           end.
Notation "'py' x <- r ; k" := (andthen r (fun x => k))
  (at level 200, x pattern, r at level 100, k at level 200, right associativity).
(** [try: x  except e if caught(e): f] *)
Definition catching {W A} (x : act W A) (f : exn -> option (act W A)) : act W A :=
  fun s => match x s with
           | (Ok a, s') => (Ok a, s')
           | (Err e, s') => match f e with Some y => y s' | None => (Err e, s') end
           end.

(** One step on the machine, noted in [s_done] *)
Definition step {W A} (e : event) (f : W -> A * W) : act W A :=
  fun s => let (a, w) := f (s_world s) in
           (Ok a, mkstate w (s_helpers s) (s_apt s) (s_port s) (s_done s ++ [e])).
(** Looking at the machine *)
Definition look {W A} (f : W -> A) : act W A := fun s => (Ok (f (s_world s)), s).

Section Programs.
Context {W : Type}.
Variable m : machine W.

(** [subprocess.check_call] / [check_output] up to the translation of the outcome *)
Definition spawn (dir : option str) (args : list str) : act W outcome :=
  step (Ran dir args) (fun w => m_spawn m w dir args).

(** [args[0] == 'sudo'] *)
Definition is_sudo (args : list str) : bool :=
  match args with a :: _ => str_eqb a (L "sudo") | [] => false end.

(** check_call with retry_with_sudo=False, helper.py:572-614 *)
Definition check_call_once (dir : option str) (args : list str) (require : bool) : act W unit :=
  py o <- spawn dir args;
  match o with
  | Refused e =>
      if (e =? ENOEXEC) && is_sudo args then raise EHelperError
      else if negb (e =? ENOENT) then raise EEnvironment
      else raise EHelperNotFound
  | Exited c _ =>
      if c =? 0 then ret tt
      else if require then raise EHelperError else ret tt
  end.

(** check_call, helper.py:521-614; [retry] is retry_with_sudo.  The log messages are
    not modelled. *)
Definition check_call (dir : option str) (args : list str) (require retry : bool) : act W unit :=
  py o <- spawn dir args;
  match o with
  | Refused e =>
      if retry && ((e =? EPERM) || (e =? EACCES))
      then check_call_once dir (L "sudo" :: args) require
      else if (e =? ENOEXEC) && is_sudo args then raise EHelperError
      else if negb (e =? ENOENT) then raise EEnvironment
      else raise EHelperNotFound
  | Exited c _ =>
      if c =? 0 then ret tt
      else if require then
        (if retry then check_call_once dir (L "sudo" :: args) require
         else raise EHelperError)
      else ret tt
  end.

(** [.decode('ascii', 'ignore')] *)
Definition ascii_only (b : list ascii) : str := filter (fun c => (code c <? 128)%N) b.

(** check_output with retry_with_sudo=False, helper.py:671-705.  UnicodeDecodeError
    is a ValueError. *)
Definition check_output_once (dir : option str) (args : list str) (require : bool) : act W str :=
  py o <- spawn dir args;
  match o with
  | Refused e => if negb (e =? ENOENT) then raise EEnvironment else raise EHelperNotFound
  | Exited c out =>
      if c =? 0 then ret (ascii_only out)
      else match m_utf8 m out with
           | None => raise EValueError
           | Some t => if require then raise EHelperError else ret t
           end
  end.

(** check_output, helper.py:617-705 *)
Definition check_output (dir : option str) (args : list str) (require retry : bool) : act W str :=
  py o <- spawn dir args;
  match o with
  | Refused e => if negb (e =? ENOENT) then raise EEnvironment else raise EHelperNotFound
  | Exited c out =>
      if c =? 0 then ret (ascii_only out)
      else match m_utf8 m out with
           | None => raise EValueError
           | Some t =>
               if require then
                 (if retry then check_output_once dir (L "sudo" :: args) require
                  else raise EHelperError)
               else ret t
           end
  end.

(** The [except HelperError: raise exc] of mkdir and copy_file *)
Definition or_original (e : exn) (x : act W unit) : act W unit :=
  catching x (fun e' => match e' with EHelperError => Some (raise e) | _ => None end).

(** Helper.mkdir with the default permissions, helper.py:446-475; 493 is 755 in octal *)
Definition mkdir (dir : str) : act W unit :=
  py d <- look (fun w => m_isdir m w dir);
  if d then ret tt else
  py x <- look (fun w => m_exists m w dir);
  if x then raise ERuntimeError else
  py ok <- step (MakeDirs dir) (fun w => m_makedirs m w dir);
  if ok then ret tt
  else or_original EEnvironment
         (check_call None [L "sudo"; L "mkdir"; L "-p"; L "-m"; L "755"; dir] true false).

(** Helper.copy_file, helper.py:478-501 *)
Definition copy_file (src dest : str) : act W unit :=
  py ok <- step (Copy src dest) (fun w => m_copy m w src dest);
  if ok then ret tt
  else or_original EEnvironment (check_call None [L "sudo"; L "cp"; src; dest] true false).

(** The helper called [n] changes what it remembers *)
Definition remember (n : str) (x : memory) : act W unit :=
  fun s => (Ok tt, mkstate (s_world s) (fun k => if str_eqb k n then x else s_helpers s k)
                           (s_apt s) (s_port s) (s_done s)).
Definition recall (n : str) : act W memory := fun s => (Ok (s_helpers s n), s).

(** Helper.path, helper.py:220-231 *)
Definition path (n : str) : act W (option str) :=
  py x <- recall n;
  match h_path x with
  | Some p => ret (Some p)
  | None =>
      py f <- look (fun w => m_find m w n);
      match f with
      | Some p => py _ <- remember n (mkmemory (Some p) (Some true) (h_version x)); ret (Some p)
      | None => ret None
      end
  end.

(** Helper.installed and bool(helper), helper.py:197-202, 233-238 *)
Definition installed (n : str) : act W bool :=
  py x <- recall n;
  match h_installed x with
  | Some b => ret b
  | None =>
      py p <- path n;
      py y <- recall n;
      let b := match p with Some _ => true | None => false end in
      py _ <- remember n (mkmemory (h_path y) (Some b) (h_version y));
      ret b
  end.
End Programs.
