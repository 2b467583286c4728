(** The command [cot info]: COT/commands/info.py:42-108, and the width of the terminal,
    COT/ui/cli.py:107-120. *)
From Coq Require Import List Ascii ZArith Bool.
Import ListNotations.
From Verif Require Import PyBase ItemModel InfoModel.
Local Open Scope nat_scope.

(** What the user sees: a text printed, or an error message about a package.  The wording
    of the message is left out. *)
Inductive seen : Type := Printed (s : str) | Complained (package : str).

(** info.py:42-75: the fields.  [verbosity] has one of the three allowed values once set. *)
Record info_cmd : Type := mkInfoCmd { ic_packages : option (list str); ic_verbosity : verbosity }.
Definition new_info : info_cmd := mkInfoCmd None Normal.

Section Run.
(** [os.path.exists] *)
Variable path_exists : str -> bool.
(** [VMDescription.factory(package, None)]: the environment of the package and its contents *)
Variable open_package : str -> result (env * info_vm).
Variable pretty_text : str -> result str.
Variable wrap_hyphens : Z -> str -> str -> str -> result (list str).

(** info.py:57-62 *)
Definition set_package_list (c : info_cmd) (l : list str) : result info_cmd :=
  if forallb path_exists l then Ok (mkInfoCmd (Some l) (ic_verbosity c)) else Err EInvalidInput.
(** info.py:69-74; [None] for Python's None *)
Definition set_verbosity (c : info_cmd) (o : option str) : result info_cmd :=
  match o with
  | None => Ok (mkInfoCmd (ic_packages c) Normal)
  | Some s => if str_eqb s (L "brief") then Ok (mkInfoCmd (ic_packages c) Brief)
              else if str_eqb s (L "verbose") then Ok (mkInfoCmd (ic_packages c) Verbose)
              else Err EInvalidInput
  end.
(** info.py:76-84; the command has no package of its own to check the disk space for *)
Definition info_ready (c : info_cmd) : bool :=
  match ic_packages c with None | Some [] => false | Some _ => true end.

(** info.py:97-108 the loop *)
Fixpoint show_all (width : Z) (verb : verbosity) (first : bool) (l : list str) : list seen * result unit :=
  match l with
  | [] => ([], Ok tt)
  | p :: l' =>
      let gap := if first then [] else [Printed []] in
      let go_on x := let (o, r) := show_all width verb false l' in (gap ++ x :: o, r) in
      match (do m <- open_package p; info_string (fst m) pretty_text wrap_hyphens (snd m) width verb) with
      | Ok s => go_on (Printed s)
      | Err EVMInitError => go_on (Complained p)
      | Err e => (gap, Err e)
      end
  end.
(** info.py:86-108 run *)
Definition run_info (terminal : Z) (c : info_cmd) : list seen * result unit :=
  if info_ready c
  then show_all (terminal - 1) (ic_verbosity c) true (match ic_packages c with Some l => l | None => [] end)
  else ([], Err EInvalidInput).
End Run.

(** cli.py:107-120: [stored] is the width kept so far, [size] what the terminal says *)
Definition terminal_width (stored : option Z) (size : result Z) : result Z :=
  match stored with
  | Some w => Ok w
  | None => match size with
            | Ok w => Ok (if (w <=? 0)%Z then 80%Z else w)
            | Err e => if is_value_error e then Ok 80%Z else Err e
            end
  end.
