(** Model of how a command is run: CLI.main (COT/ui/cli.py), Command, ReadCommand and
    ReadWriteCommand (COT/commands/command.py), and the life of a VM description
    (COT/vm_description/vm_description.py, OVF.__init__ and OVF.write).

    What a step does outside of this (reading files, asking the user, the work of the
    particular command) is not modelled: it gives a boolean or raises an exception, as an
    oracle says, which is consulted with the number of such steps so far.  So every step can
    fail in every way.  Exceptions that arrive between the steps (a KeyboardInterrupt while
    COT's own code runs) are not modelled. *)
From Verif Require Import PyBase TarModel.
Local Open Scope nat_scope.

(** Exceptions as CLI.main distinguishes them. *)
Inductive exc : Type :=
| XInvalid                       (* InvalidInputError, other than the next *)
| XUnsupported                   (* ValueUnsupportedError and its subclasses *)
| XMismatch                      (* ValueMismatchError *)
| XNotImplemented
| XEnvironment (errno : option Z)
| XInterrupt                     (* KeyboardInterrupt *)
| XEnd                           (* EOFError *)
| XExit (code : Z)               (* SystemExit *)
| XOther.                        (* any other Exception *)
(** [except Exception] does not catch these *)
Definition base_exception (e : exc) : bool := match e with XInterrupt | XExit _ => true | _ => false end.

Inductive answer : Type := Says (b : bool) | Raises (e : exc).

(** What can be observed: attributes set, the checks passed, steps of the work, the last
    check before writing, and output that is begun and complete. *)
Inductive event : Type :=
| AttrSet (name : str)
| IsReady
| WorkStep (n : nat)
| Accepted
| WriteBegun (path : str)
| WriteDone (path : str).

Record st : Type := mkSt {
  s_clock : nat;                          (* steps outside so far *)
  s_fresh : nat;                          (* the next working directory *)
  s_dirs : list nat;                      (* working directories that exist *)
  s_hooks : list nat;                     (* those registered with atexit *)
  s_vm : option (nat * str);              (* the VM: its working directory and output file *)
  s_pkg : option str;
  s_out : str;
  s_trace : list event;
  s_stuck : list nat;                     (* ghost: those that could not be removed *)
  s_leaked : list nat }.                  (* ghost: those left by an interrupted load *)

Definition m (A : Type) : Type := st -> st * (exc + A).
Definition ret {A : Type} (a : A) : m A := fun s => (s, inr a).
Definition fail {A : Type} (e : exc) : m A := fun s => (s, inl e).
Definition bind {A B : Type} (x : m A) (f : A -> m B) : m B :=
  fun s => let (s', r) := x s in match r with inl e => (s', inl e) | inr a => f a s' end.
Notation "'let!' x := a 'in' b" := (bind a (fun x => b)) (at level 200, x name, a at level 100, b at level 200, right associativity).
Notation "a ;; b" := (bind a (fun _ => b)) (at level 100, b at level 200, right associativity).

Definition modify (f : st -> st) : m unit := fun s => (f s, inr tt).
Definition set_clock c s := mkSt c (s_fresh s) (s_dirs s) (s_hooks s) (s_vm s) (s_pkg s) (s_out s) (s_trace s) (s_stuck s) (s_leaked s).
Definition set_dirs f d h s := mkSt (s_clock s) f d h (s_vm s) (s_pkg s) (s_out s) (s_trace s) (s_stuck s) (s_leaked s).
Definition set_vm v s := mkSt (s_clock s) (s_fresh s) (s_dirs s) (s_hooks s) v (s_pkg s) (s_out s) (s_trace s) (s_stuck s) (s_leaked s).
Definition set_pkg p s := mkSt (s_clock s) (s_fresh s) (s_dirs s) (s_hooks s) (s_vm s) p (s_out s) (s_trace s) (s_stuck s) (s_leaked s).
Definition set_out o s := mkSt (s_clock s) (s_fresh s) (s_dirs s) (s_hooks s) (s_vm s) (s_pkg s) o (s_trace s) (s_stuck s) (s_leaked s).
Definition add_event e s := mkSt (s_clock s) (s_fresh s) (s_dirs s) (s_hooks s) (s_vm s) (s_pkg s) (s_out s) (s_trace s ++ [e]) (s_stuck s) (s_leaked s).
Definition add_stuck d s := mkSt (s_clock s) (s_fresh s) (s_dirs s) (s_hooks s) (s_vm s) (s_pkg s) (s_out s) (s_trace s) (d :: s_stuck s) (s_leaked s).
Definition add_leaked d s := mkSt (s_clock s) (s_fresh s) (s_dirs s) (s_hooks s) (s_vm s) (s_pkg s) (s_out s) (s_trace s) (s_stuck s) (d :: s_leaked s).
Definition emit (e : event) : m unit := modify (add_event e).

(** Kinds of commands: Command itself, ReadCommand, ReadWriteCommand. *)
Inductive kind : Type := Plain | Reader | Writer.

Section Program.
  Variable oracle : nat -> answer.
  Variable abspath : str -> str.

  (** a step outside *)
  Definition outside : m bool := fun s =>
    (set_clock (S (s_clock s)) s, match oracle (s_clock s) with Says b => inr b | Raises e => inl e end).
  Definition require (e : exc) : m unit := let! b := outside in if b then ret tt else fail e.
  (** ui.py:129-141 confirm_or_die: [sys.exit] with a text means code 1 *)
  Definition confirm_or_die : m unit := require (XExit 1).

  (** vm_description.py:211-228 VMDescription.destroy *)
  Definition vm_destroy (d : nat) : m unit := fun s =>
    if existsb (Nat.eqb d) (s_dirs s) then
      match outside s with
      | (s', inl e) => (add_stuck d s', inl e)
      | (s', inr _) => (set_dirs (s_fresh s') (filter (fun x => negb (Nat.eqb d x)) (s_dirs s')) (s_hooks s') s', inr tt)
      end
    else (s, inr tt).

  (** [except Exception: self.destroy(); raise], ovf.py:266-268 *)
  Definition destroying {A : Type} (d : nat) (x : m A) : m A := fun s =>
    match x s with
    | (s', inl e) => if base_exception e then (add_leaked d s', inl e)
                     else match vm_destroy d s' with
                          | (s'', inl e') => (s'', inl e')
                          | (s'', inr _) => (s'', inl e)
                          end
    | r => r
    end.

  (** vm_description.py:125-170 factory, 172-193 __init__ and ovf.py:146-268 OVF.__init__, the
      output file setter ovf.py:387-392.  The package is loaded by one step outside. *)
  Definition factory (out : str) : m unit :=
    require (XEnvironment (Some 2%Z)) ;;
    outside ;;
    let! d := (fun s => (set_dirs (S (s_fresh s)) (s_fresh s :: s_dirs s) (s_hooks s) s, inr (s_fresh s))) in
    (fun s => match destroying d
        ((match out with [] => ret tt | _ => match detect_type out with Ok _ => ret tt | Err _ => fail XUnsupported end end) ;;
         modify (fun s => set_dirs (s_fresh s) (s_dirs s) (d :: s_hooks s) s) ;;
         outside) s with
      | (s', inl XUnsupported) => (s', inl (XEnvironment (Some 2%Z)))
      | (s', inl e) => (s', inl e)
      | (s', inr _) => (set_vm (Some (d, out)) s', inr tt)
      end).

  (** command.py:107-111 Command.destroy *)
  Definition cmd_destroy : m unit := fun s =>
    match s_vm s with
    | None => (s, inr tt)
    | Some (d, _) => (vm_destroy d ;; modify (set_vm None)) s
    end.

  (** command.py:230-242 and 289-303 the package setters *)
  Definition set_package (k : kind) (v : str) : m unit :=
    require XInvalid ;;
    cmd_destroy ;;
    (fun s => factory (match k with Writer => s_out s | _ => [] end) s) ;;
    modify (set_pkg (Some v)).

  (** command.py:315-344 the output setter *)
  Definition set_output (v : str) : m unit := fun s =>
    let v := match v with [] => [] | _ => abspath v end in
    if str_eqb v (s_out s) then (s, inr tt)
    else ((match v with
           | [] => ret tt
           | _ => let! exists_ := outside in
                  if exists_ then require XInvalid ;; confirm_or_die
                  else require XInvalid ;; require XInvalid
           end) ;;
          modify (set_out v) ;;
          (fun s => match s_vm s with
                    | None => (s, inr tt)
                    | Some (d, _) => match v with
                                     | [] => (set_vm (Some (d, v)) s, inr tt)
                                     | _ => match detect_type v with
                                            | Ok _ => (set_vm (Some (d, v)) s, inr tt)
                                            | Err _ => (s, inl XUnsupported)
                                            end
                                     end
                    end)) s.

  (** [setattr] in cli.py:551-558 *)
  Definition set_attr (k : kind) (name v : str) : m unit :=
    (match k with
     | Plain => outside ;; ret tt
     | _ => if str_eqb name (L "package") then set_package k v
            else match k with
                 | Writer => if str_eqb name (L "output") then set_output v else outside ;; ret tt
                 | _ => outside ;; ret tt
                 end
     end) ;;
    emit (AttrSet name).
  Fixpoint set_attrs (k : kind) (l : list (str * str)) : m unit :=
    match l with
    | [] => ret tt
    | (name, v) :: rest => set_attr k name v ;; set_attrs k rest
    end.
End Program.

(** [arg[0].isupper()], cli.py:551 *)
Definition mandatory (name : str) : bool := match name with c :: _ => in_range 65 90 c | [] => false end.
(** cli.py:542-558 set_instance_attributes: the order in which attributes are set.  Attributes
    whose value is None are left out. *)
Definition attribute_order (args : list (str * option str)) : list (str * str) :=
  let given := flat_map (fun x => match snd x with Some v => [(fst x, v)] | None => [] end) args in
  map (fun x => (lower (fst x), snd x)) (filter (fun x => mandatory (fst x)) given) ++
  filter (fun x => negb (mandatory (fst x)) && negb (str_eqb (fst x) (L "instance"))) given.

Section Main.
  Variable oracle : nat -> answer.
  Variable abspath : str -> str.
  Notation outside := (outside oracle).
  Notation require := (require oracle).

  (** ready_to_run: command.py:67-86, 244-251, 346-365, and the checks of the particular
      command, which come first *)
  Definition ready (k : kind) : m unit :=
    require XInvalid ;;
    (match k with
     | Plain => ret tt
     | _ => fun s => match s_pkg s with None => (s, inl XInvalid) | Some _ => (s, inr tt) end
     end) ;;
    (fun s => match s_vm s with None => (s, inr tt) | Some _ => require XInvalid s end) ;;
    (match k with Writer => require XInvalid | _ => ret tt end) ;;
    emit IsReady.

  (** the work of the command, in [n] steps *)
  Fixpoint work (from n : nat) : m unit :=
    match n with
    | O => ret tt
    | S n' => outside ;; emit (WorkStep from) ;; work (S from) n'
    end.

  (** run: command.py:88-97 and 367-380 *)
  Definition run (k : kind) (n : nat) : m unit :=
    ready k ;;
    (match k with
     | Writer => fun s => match s_out s, s_pkg s with
                          | [], Some p => set_output oracle abspath p s
                          | _, _ => (s, inr tt)
                          end
     | _ => ret tt
     end) ;;
    work 0 n.

  (** ovf.py:810-854 write *)
  Definition write (out : str) : m unit :=
    match out with
    | [] => ret tt
    | _ =>
        outside ;;
        match detect_type out with
        | Err _ => fail XNotImplemented
        | Ok e =>
            if str_eqb e (L ".ova") then
              outside ;; outside ;;                                    (* write_xml, generate_manifest *)
              emit (WriteBegun out) ;; outside ;; emit (WriteDone out)   (* tar *)
            else if str_eqb e (L ".ovf") then
              emit (WriteBegun out) ;;
              outside ;; outside ;; outside ;;                         (* write_xml, copy_to, generate_manifest *)
              emit (WriteDone out)
            else fail XNotImplemented
        end
    end.

  (** finished: command.py:99-105, 382-390 *)
  Definition finished (k : kind) : m unit :=
    match k with
    | Writer => fun s => match s_vm s with
                         | None => (s, inr tt)
                         | Some (_, out) => (confirm_or_die oracle ;; emit Accepted ;; write out) s
                         end
    | _ => ret tt
    end.

  (** cli.py:596-599 *)
  Definition body (k : kind) (attrs : list (str * str)) (n : nat) : m unit :=
    set_attrs oracle abspath k attrs ;; run k n ;; finished k.

  (** cli.py:600-622: the exit code of the process; [sys.exit] with a text gives 1, an
      uncaught exception also, and the system keeps eight bits *)
  Definition handled (e : exc) : Z :=
    match e with
    | XInvalid | XUnsupported | XMismatch => 2
    | XNotImplemented => 1
    | XEnvironment (Some n) => Z.modulo n 256
    | XEnvironment None => 1
    | XInterrupt | XEnd => 1
    | XExit c => Z.modulo c 256
    | XOther => 1
    end.
  Definition uncaught (e : exc) : Z := match e with XExit c => Z.modulo c 256 | _ => 1 end.
  (** cli.py:560-633 main, after the parser: final state, and exit code *)
  Definition main (k : kind) (attrs : list (str * str)) (n : nat) (s : st) : st * Z :=
    let (s1, r) := body k attrs n s in
    let (s2, r2) := cmd_destroy oracle s1 in
    (s2, match r2 with
         | inl e => uncaught e
         | inr _ => match r with inl e => handled e | inr _ => 0%Z end
         end).

  (** the handlers registered with atexit, last first; exceptions are only printed *)
  Definition at_exit (s : st) : st := fold_left (fun s d => fst (vm_destroy oracle d s)) (s_hooks s) s.
  Definition process (k : kind) (args : list (str * option str)) (n : nat) (s : st) : st * Z :=
    let (s', code) := main k (attribute_order args) n s in (at_exit s', code).

  (** vm_description.py:195-209: [with factory(...) as vm: block] *)
  Definition with_vm (out : str) (block : m unit) : m unit :=
    factory oracle out ;;
    (fun s => match s_vm s with
              | None => (s, inr tt)
              | Some (d, _) =>
                  let (s1, r) := block s in
                  let (s2, r2) := match r with
                                  | inr _ => match s_vm s1 with Some (_, o) => write o s1 | None => (s1, inr tt) end
                                  | inl e => (s1, inl e)
                                  end in
                  match vm_destroy oracle d s2 with
                  | (s3, inl e) => (s3, inl e)
                  | (s3, inr _) => (s3, r2)
                  end
              end).
End Main.

(** Before anything happened. *)
Definition start : st := mkSt 0 0 [] [] None None [] [] [] [].
