(** What should become of the command line. *)
From Coq Require Import List Ascii ZArith Bool.
Import ListNotations.
From Verif Require Import PyBase ArgsModel.
Local Open Scope nat_scope.

(** Messages by severity, with the levels of the logging module. *)
Inductive severity : Type := Critical | Error | Warning | Notice | Info | Verbose | Debug | Spam.
Definition level (s : severity) : Z :=
  match s with
  | Critical => 50 | Error => 40 | Warning => 30 | Notice => 25
  | Info => 20 | Verbose => 15 | Debug => 10 | Spam => 5
  end.
(** How many -v, less the number of -q, it takes to see them. *)
Definition takes (s : severity) : option Z :=
  match s with
  | Critical => None                       (* always seen *)
  | Error => Some (-2) | Warning => Some (-1) | Notice => Some 0
  | Info => Some 1 | Verbose => Some 2 | Debug => Some 3 | Spam => Some 4
  end%Z.
Definition seen (net : Z) (s : severity) : Prop := match takes s with None => True | Some n => (n <= net)%Z end.

(** The same for the parts of a log line. *)
Definition least (f : field) : option Z :=
  match f with FLevel => None | FTime => Some 3 | FModule => Some 1 | FLine => Some 3 | FFunction => Some 2 end%Z.

(** Occurrences of an option that takes several values are gathered in order; every other
    value stays as it is. *)
Inductive gathered : value -> value -> Prop :=
  | occurrences occs : gathered (VList (map VList occs)) (VList (concat occs))
  | other v : (forall occs, v <> VList (map VList occs)) -> gathered v v.

Definition upper_start (n : str) : Prop := exists c s, n = c :: s /\ (65 <= N_of_ascii c <= 90)%N.
(** [n] was given the value [v], and is meant for the command *)
Definition given (args : namespace) (n : str) (v : value) : Prop :=
  In (n, v) args /\ v <> VNone /\ ~ In n [L "_verbosity"; L "_force"; L "_subcommand"; L "instance"].
(** What attribute [a] of the command should be: an option under its own name, or a mandatory
    argument under its name in lower case. *)
Definition intended (args : namespace) (a : str) (v : value) : Prop :=
  (exists v0, given args a v0 /\ ~ upper_start a /\ gathered v0 v) \/
  ((forall v0, given args a v0 -> upper_start a) /\
   exists n v0, given args n v0 /\ upper_start n /\ lower n = a /\ gathered v0 v).

(** A namespace as argparse makes it. *)
Definition parsed (args : namespace) (force : bool) (v q : Z) (command : str) : Prop :=
  NoDup (map fst args) /\ In (L "_force", VTruth force) args /\ In (L "_verbosity", VNumber v) args
  /\ In (L "_quietude", VNumber q) args /\ In (L "_subcommand", VText command) args /\ command <> [].

(** The names of a command. *)
Definition names (r : registration) : list str := r_title r :: r_aliases r.
Definition full_names (r : registration) : list str := map (fun n => r_prefix r ++ n) (names r).
(** A typed name belongs to command number [p]. *)
Definition command_named (l : list registration) (s : str) (p : nat) : Prop :=
  exists r, nth_error l p = Some r /\ r_nested r = false /\ In s (names r).
(** A name with its prefix. *)
Definition parser_named (l : list registration) (s : str) (p : nat) : Prop :=
  exists r, nth_error l p = Some r /\ In s (full_names r).

(** The words that may follow "cot", and the command each starts. *)
Definition cot_words : list (str * str) :=
  [(L "add-disk", L "add-disk"); (L "add-drive", L "add-disk"); (L "add-file", L "add-file"); (L "deploy", L "deploy");
   (L "edit-hardware", L "edit-hardware");
   (L "edit-product", L "edit-product"); (L "set-product", L "edit-product"); (L "set-version", L "edit-product");
   (L "edit-properties", L "edit-properties"); (L "set-properties", L "edit-properties");
   (L "edit-environment", L "edit-properties"); (L "set-environment", L "edit-properties");
   (L "help", L "help"); (L "info", L "info"); (L "describe", L "info");
   (L "inject-config", L "inject-config"); (L "add-bootstrap", L "inject-config"); (L "install-helpers", L "install-helpers");
   (L "remove-file", L "remove-file"); (L "delete-file", L "remove-file")].
(** The words that may follow "cot help" in addition: kinds of deployment. *)
Definition deploy_words : list (str * str) :=
  [(L "deploy-esxi", L "esxi"); (L "deploy-vcenter", L "esxi"); (L "deploy-vmware", L "esxi"); (L "deploy-vsphere", L "esxi")].
(** Command number [p] has this title. *)
Definition titled (p : nat) (t : str) : Prop := exists r, nth_error commands p = Some r /\ r_title r = t.
