(** From the parsed command line to the command: COT/ui/cli.py:268-311 (verbosity), 385-401,
    466-558 (subparsers, parsed arguments), 584-597 (the beginning of main), 682-712 (log
    format), and COT/commands/help.py:50-72.  What argparse itself does is not modelled: its
    result, a namespace, is the input. *)
From Coq Require Import List Ascii ZArith Bool.
Import ListNotations.
From Verif Require Import PyBase PyDict CliModel.
Local Open Scope nat_scope.

(** Values in a namespace: None, texts, numbers, booleans, lists, and a command object. *)
Inductive value : Type :=
| VNone
| VText (s : str)
| VNumber (z : Z)
| VTruth (b : bool)
| VList (l : list value)
| VCommand.
Definition namespace : Type := list (str * value).
Definition is_list (v : value) : bool := match v with VList _ => true | _ => false end.
Definition items (v : value) : list value := match v with VList l => l | _ => [] end.

(** The levels of logging: CRITICAL, ERROR, WARNING, NOTICE, INFO, VERBOSE, DEBUG, SPAM
    (module logging and package verboselogs), cli.py:279-284 *)
Definition verbosity_levels : list Z := [50; 40; 30; 25; 20; 15; 10; 5]%Z.
(** cli.py:268-291 adjust_verbosity: the level that is set.  NOTICE has index 3. *)
Definition adjust_verbosity (delta : Z) : Z :=
  let v := (3 + delta)%Z in
  let v := if (v <? 0)%Z then 0%Z
           else if (Z.of_nat (length verbosity_levels) <=? v)%Z then (Z.of_nat (length verbosity_levels) - 1)%Z
           else v in
  nth (Z.to_nat v) verbosity_levels 0%Z.
(** logging: a record is shown if its level is at least that of the logger and of the handler,
    which set_verbosity (cli.py:293-311) makes equal *)
Definition logged (level record : Z) : bool := (level <=? record)%Z.
(** cli.py:682-712: the fields of a log line *)
Inductive field : Type := FLevel | FTime | FModule | FLine | FFunction.
Definition log_fields (level : Z) : list field :=
  [FLevel] ++
  (if (level <=? 10)%Z then [FTime] else []) ++
  (if (level <=? 20)%Z then [FModule] else []) ++
  (if (level <=? 10)%Z then [FLine] else []) ++
  (if (level <=? 15)%Z then [FFunction] else []).

(** cli.py:499-515 parse_args, after argparse *)
Definition parse_args (stdin_tty stdout_tty : bool) (args : namespace) : namespace :=
  if stdin_tty && stdout_tty then args else dset str_eqb (L "_force") (VTruth true) args.

(** cli.py:518-539 args_to_dict *)
Definition flatten (v : value) : value :=
  match v with
  | VList l => if forallb is_list l then VList (flat_map items l) else v
  | _ => v
  end.
Definition delete (k : str) (d : namespace) : result namespace :=
  if dmem str_eqb k d then Ok (ddel str_eqb k d) else Err EKeyError.
Definition args_to_dict (args : namespace) : result namespace :=
  do d <- delete (L "_verbosity") args;
  do d <- delete (L "_force") d;
  do d <- delete (L "_subcommand") d;
  Ok (map (fun x => (fst x, flatten (snd x))) d).

(** cli.py:542-558 set_instance_attributes: the calls of setattr in order *)
Definition is_none (v : value) : bool := match v with VNone => true | _ => false end.
Definition set_calls (d : namespace) : list (str * value) :=
  map (fun x => (lower (fst x), snd x)) (filter (fun x => mandatory (fst x) && negb (is_none (snd x))) d) ++
  filter (fun x => negb (str_eqb (fst x) (L "instance")) && (negb (mandatory (fst x)) && negb (is_none (snd x)))) d.
(** the attributes of an object after these calls *)
Definition attributes (calls : list (str * value)) : namespace :=
  fold_left (fun o x => dset str_eqb (fst x) (snd x) o) calls [].

(** cli.py:466-497 add_subparser.  Parsers are numbered.  [nested] is true if there is a
    parent.  The first map is that of argparse for the parser of cot itself
    (argparse._SubParsersAction.add_parser), the second is [subparser_lookup]. *)
Record registration : Type := mkReg { r_title : str; r_aliases : list str; r_prefix : str; r_nested : bool }.
Record registry : Type := mkRegistry { g_next : nat; g_accepted : list (str * nat); g_lookup : list (str * nat) }.
Definition enter (p : nat) (prefix : str) (names : list str) (d : list (str * nat)) : list (str * nat) :=
  fold_left (fun d n => dset str_eqb (prefix ++ n) p d) names d.
Definition add_subparser (r : registration) (g : registry) : registry :=
  let p := g_next g in
  let names := r_title r :: r_aliases r in
  mkRegistry (S p) (if r_nested r then g_accepted g else enter p [] names (g_accepted g))
             (enter p (r_prefix r) names (g_lookup g)).
Definition create_subparsers (l : list registration) : registry :=
  fold_left (fun g r => add_subparser r g) l (mkRegistry 0 [] []).
(** The commands of COT: COT/commands/__init__.py:50-61 and the calls of add_subparser in
    add_disk.py:215, add_file.py:114, deploy.py:402, deploy_esxi.py:485, edit_hardware.py:597,
    edit_product.py:148, edit_properties.py:304, help.py:74, info.py:112,
    inject_config.py:264, install_helpers.py:239, remove_file.py:120 *)
Definition commands : list registration :=
  [mkReg (L "add-disk") [L "add-drive"] [] false;
   mkReg (L "add-file") [] [] false;
   mkReg (L "deploy") [] [] false;
   mkReg (L "esxi") [L "vcenter"; L "vmware"; L "vsphere"] (L "deploy-") true;
   mkReg (L "edit-hardware") [] [] false;
   mkReg (L "edit-product") [L "set-product"; L "set-version"] [] false;
   mkReg (L "edit-properties") [L "set-properties"; L "edit-environment"; L "set-environment"] [] false;
   mkReg (L "help") [] [] false;
   mkReg (L "info") [L "describe"] [] false;
   mkReg (L "inject-config") [L "add-bootstrap"] [] false;
   mkReg (L "install-helpers") [] [] false;
   mkReg (L "remove-file") [L "delete-file"] [] false].

(** help.py:50-72: the setter of [subcommand] and run.  [None] is the help of cot itself. *)
Definition help (g : registry) (subcommand : option str) : result (option nat) :=
  match subcommand with
  | None => Ok None
  | Some s => if dmem str_eqb s (g_lookup g)
              then match s with
                   | [] => Ok None
                   | _ => match dget str_eqb s (g_lookup g) with Some p => Ok (Some p) | None => Err EKeyError end
                   end
              else Err EInvalidInput
  end.

(** cli.py:584-597: main up to the call of run.  parser.error exits. *)
Record started : Type := mkStarted { b_force : bool; b_level : Z; b_parser : nat; b_calls : list (str * value) }.
Definition number (d : namespace) (k : str) : result Z :=
  match dget str_eqb k d with Some (VNumber z) => Ok z | Some _ => Err ETypeError | None => Err EAttributeError end.
Definition begin_main (g : registry) (args : namespace) : result started :=
  do force <- match dget str_eqb (L "_force") args with Some (VTruth b) => Ok b | Some _ => Err ETypeError | None => Err EAttributeError end;
  do v <- number args (L "_verbosity");
  do q <- number args (L "_quietude");
  match dget str_eqb (L "_subcommand") args with
  | None => Err EAttributeError
  | Some (VText (c :: s)) =>
      match dget str_eqb (c :: s) (g_lookup g) with
      | None => Err EKeyError
      | Some p => do d <- args_to_dict args;
                  Ok (mkStarted force (adjust_verbosity (v - q)) p (set_calls d))
      end
  | Some (VText []) | Some VNone => Err ESystemExit
  | Some _ => Err ETypeError
  end.
