(** Model of "cot deploy ... esxi": COT/commands/deploy.py:333-385 and
    COT/commands/deploy_esxi.py:56-473, with get_serial_connectivity and
    get_serial_count of COT/vm_description/ovf/ovf.py.  The settings that are checked when
    they are given (serial connections, network map) are in [SerialModel].

    Not modelled: how ovftool and the server work (what they do is part of the [world]),
    splitting of the text given for ovftool ([shlex.split]), log messages, the texts of the
    questions. *)
From Verif Require Import PyBase PyDict NamesModel ItemModel HardwareModel SerialModel ChooseModel RawModel SelectModel PathModel.
Local Open Scope nat_scope.

(** The questions. *)
Inductive question : Type := QPorts | QEnvironment | QCertificate.

(** How a serial port is connected: VirtualSerialPort.DeviceBackingInfo or
    URIBackingInfo with its direction. *)
Inductive backing : Type :=
| Device (name : str)
| Uri (uri : str) (server : bool).

(** What can be observed from outside. *)
Inductive event : Type :=
| ChoseProfile (options : list str) (answer : option str)
| Asked (q : question) (answer : option bool)     (* [None]: the input ended *)
| RanOvftool (args : list str)
| Connected (server user password : str)
| Reconfigured (vm : nat) (ports : list backing).

Inductive connecting : Type := Accepts | BadCertificate | Fails (e : exn).

(** All that the command finds outside: the package, the user, ovftool, the server. *)
Record world : Type := mkWorld {
  w_env : env;                               (* the profiles of the package *)
  w_hw : hw;                                 (* its hardware *)
  w_props : list str;                        (* its environment properties *)
  w_force : bool;                            (* --force *)
  w_choice : list str;                       (* lines typed to choose a profile *)
  w_lines : question -> list str;            (* lines typed to answer a question *)
  w_space : bool;                            (* enough disk space, or the user does not mind *)
  w_user : str;                              (* getpass.getuser() *)
  w_password : str;                          (* the password typed *)
  w_version : result (Z * Z * Z);            (* ovftool's version, compared as numbers *)
  w_ovftool : list str -> result unit;
  w_server : connecting;
  w_retry : result unit;                     (* connecting with an accepted certificate *)
  w_inventory : list (nat * str) }.          (* the server's VMs and their names afterwards *)

(** The settings of the command, deploy.py:207-219 and deploy_esxi.py:240-253. *)
Record cmd : Type := mkCmd {
  d_package : option str;
  d_hypervisor : option str;
  d_locator : option str;
  d_configuration : option str;
  d_username : option str;
  d_password : option str;
  d_power_on : bool;
  d_vm_name : option str;
  d_network_map : option (list str);
  d_serial : list conn;
  d_datastore : option str;
  d_ovftool_args : list str }.

(** A step: settings and events so far to those afterwards, and how it ends. *)
Definition st : Type := (cmd * list event)%type.
Definition m (A : Type) : Type := st -> st * result A.
Definition ret {A : Type} (a : A) : m A := fun s => (s, Ok a).
Definition fail {A : Type} (e : exn) : m A := fun s => (s, Err e).
Definition lift {A : Type} (r : result A) : m A := fun s => (s, r).
Definition bind {A B : Type} (x : m A) (f : A -> m B) : m B :=
  fun s => match x s with (s', Ok a) => f a s' | (s', Err e) => (s', Err e) end.
Notation "'let!' x := a 'in' b" := (bind a (fun x => b)) (at level 200, x name, a at level 100, b at level 200, right associativity).
Notation "a ;; b" := (bind a (fun _ => b)) (at level 100, b at level 200, right associativity).
Definition settings : m cmd := fun s => (s, Ok (fst s)).
Definition emit (e : event) : m unit := fun s => ((fst s, snd s ++ [e]), Ok tt).

Definition with_configuration (p : option str) (c : cmd) : cmd :=
  mkCmd (d_package c) (d_hypervisor c) (d_locator c) p (d_username c) (d_password c) (d_power_on c)
        (d_vm_name c) (d_network_map c) (d_serial c) (d_datastore c) (d_ovftool_args c).
Definition with_serial (l : list conn) (c : cmd) : cmd :=
  mkCmd (d_package c) (d_hypervisor c) (d_locator c) (d_configuration c) (d_username c) (d_password c) (d_power_on c)
        (d_vm_name c) (d_network_map c) l (d_datastore c) (d_ovftool_args c).
Definition with_login (u p : option str) (c : cmd) : cmd :=
  mkCmd (d_package c) (d_hypervisor c) (d_locator c) (d_configuration c) u p (d_power_on c)
        (d_vm_name c) (d_network_map c) (d_serial c) (d_datastore c) (d_ovftool_args c).
Definition with_vm_name (n : option str) (c : cmd) : cmd :=
  mkCmd (d_package c) (d_hypervisor c) (d_locator c) (d_configuration c) (d_username c) (d_password c) (d_power_on c)
        n (d_network_map c) (d_serial c) (d_datastore c) (d_ovftool_args c).
Definition change (f : cmd -> cmd) : m unit := fun s => ((f (fst s), snd s), Ok tt).

(** deploy.py:253-258 the hypervisor setter and 287-291 the power_on setter (a value that
    is not a boolean is [None]) *)
Definition set_hypervisor (v : str) (c : cmd) : cmd * result unit :=
  if str_eqb v (L "esxi")
  then (mkCmd (d_package c) (Some v) (d_locator c) (d_configuration c) (d_username c) (d_password c) (d_power_on c)
        (d_vm_name c) (d_network_map c) (d_serial c) (d_datastore c) (d_ovftool_args c), Ok tt)
  else (c, Err EInvalidInput).
(** deploy.py:269-278 the configuration setter of a command that has a package *)
Definition set_configuration (profiles : list str) (v : option str) (c : cmd) : cmd * result unit :=
  match v with
  | Some p => if mem_str p profiles then (with_configuration v c, Ok tt) else (c, Err EInvalidInput)
  | None => (with_configuration v c, Ok tt)
  end.

(** ovf.py:1769-1779 get_serial_connectivity: the value is read without naming the
    profile.  Values are text or missing; a list (not possible for an Address) has no
    [strip]. *)
Fixpoint serial_strings (E : env) (h : hw) (ks : list str) : result (list (option str)) :=
  match ks with
  | [] => Ok []
  | k :: ks' =>
      do i <- hitem k h;
      do v <- get_value E (i_props i) ADDRESS None;
      do r <- serial_strings E h ks';
      match v with
      | Some (VStr s) => Ok (Some s :: r)
      | Some (VTuple _) => Err EAttributeError
      | None => Ok (None :: r)
      end
  end.
Definition get_serial_connectivity (E : env) (h : hw) (p : profile) : result (list (option str)) :=
  do ks <- find_all_items E h (Some (L "serial")) [] [p];
  serial_strings E h ks.

(** [from_cli_string] treats None like an empty string, deploy.py:63-67 *)
Definition or_empty (s : option str) : str := match s with Some s => s | None => [] end.

Section Run.
  Variable w : world.

  (** ui.py:129-141 confirm_or_die on CLI.confirm *)
  Definition confirm_or_die (q : question) : m unit :=
    let answer := cli_confirm (w_force w) (w_lines w q) in
    emit (Asked q answer) ;;
    match answer with
    | Some true => ret tt
    | Some false => fail ESystemExit
    | None => fail EEOFError
    end.

  (** deploy_esxi.py:287-295, deploy.py:332-340, command.py:244-252, 68-87: ready_to_run; then
      command.py:89-97 Command.run *)
  Definition ready : m unit :=
    let! c := settings in
    match d_locator c, d_hypervisor c, d_package c with
    | Some _, Some _, Some _ => if w_space w then ret tt else fail EInvalidInput
    | _, _, _ => fail EInvalidInput
    end.

  (** deploy.py:346-364 choosing a profile.  [choose_from_list] does not wait for input
      with --force.  The default is the first profile. *)
  Definition choose_profile : m unit :=
    let! c := settings in
    match d_configuration c, e_profiles (w_env w) with
    | Some _, _ | None, [] => ret tt
    | None, [p] => change (with_configuration (Some p))
    | None, (p :: _) as options =>
        let answer := choose_from_list (w_force w) options p (if w_force w then [[]] else w_choice w) in
        emit (ChoseProfile options answer) ;;
        match answer with
        | Some a =>
            if mem_str a options then change (with_configuration (Some a)) else fail EInvalidInput
        | None => fail EEOFError
        end
    end.

  (** deploy.py:366-369 *)
  Definition default_serial : m unit :=
    let! c := settings in
    match d_serial c with
    | [] =>
        let! l := lift (get_serial_connectivity (w_env w) (w_hw w) (d_configuration c)) in
        let (conns, r) := set_connections_esxi (map or_empty l) (d_serial c) in
        change (with_serial conns) ;; lift r
    | _ => ret tt
    end.

  (** deploy.py:371-385 *)
  Definition check_ports : m unit :=
    let! c := settings in
    let! n := lift (get_item_count (w_env w) (w_hw w) (Some (L "serial")) (d_configuration c)) in
    if (n <? Z.of_nat (length (d_serial c)))%Z then confirm_or_die QPorts else ret tt.

  (** deploy_esxi.py:353-357; cli.py:385-401 get_password *)
  Definition log_in : m unit :=
    let! c := settings in
    let user := match d_username c with Some u => u | None => w_user w end in
    change (with_login (Some user) (d_password c)) ;;
    match d_password c with
    | Some _ => ret tt
    | None => if w_force w then fail EInvalidInput
              else change (with_login (Some user) (Some (w_password w)))
    end.

  (** [StrictVersion("4.0.0")] *)
  Definition older_than_4 (v : Z * Z * Z) : bool := let '(a, _, _) := v in (a <? 4)%Z.

  (** deploy_esxi.py:369-404; the arguments that follow *)
  Definition environment_args : m (list str) :=
    let! c := settings in
    let args := d_ovftool_args c in
    match w_props w with
    | [] => ret args
    | _ =>
        if contains (L "/host/") (or_empty (d_locator c)) then ret args
        else
          let! v := lift (w_version w) in
          if older_than_4 v then confirm_or_die QEnvironment ;; ret args
          else if negb (d_power_on c) then confirm_or_die QEnvironment ;; ret args
          else ret (args ++ [L "--X:injectOvfEnv"])
    end.

  (** deploy_esxi.py:359-360 *)
  Definition target (c : cmd) : str :=
    L "vi://" ++ or_empty (d_username c) ++ L ":" ++ or_empty (d_password c) ++ L "@" ++ or_empty (d_locator c).

  (** deploy_esxi.py:297-342 fixup_ovftool_args *)
  Definition fixup_ovftool_args (args : list str) (target : str) : m (list str) :=
    let! c := settings in
    let args := match d_configuration c with Some p => args ++ [L "--deploymentOption=" ++ p] | None => args end in
    let args := match d_network_map c with
                | Some l => fold_left (fun a n => a ++ [L "--net:" ++ n]) l args
                | None => args
                end in
    let name := match d_vm_name c with
                | Some n => n
                | None => splitext_root (basename (or_empty (d_package c)))
                end in
    change (with_vm_name (Some name)) ;;
    let args := args ++ [L "--name=" ++ name] in
    let args := if d_power_on c then args ++ [L "--powerOn"] else args in
    let args := match d_datastore c with Some d => args ++ [L "--datastore=" ++ d] | None => args end in
    ret (args ++ [or_empty (d_package c); target]).

  (** deploy_esxi.py:446-473 _create_serial_port: the port added to the specification *)
  Definition create_serial_port (c : conn) : result backing :=
    if str_eqb (c_kind c) (L "device") then Ok (Device (c_value c))
    else if str_eqb (c_kind c) (L "telnet") || str_eqb (c_kind c) (L "tcp")
    then Ok (Uri (c_kind c ++ L "://" ++ c_value c) (dmem str_eqb (L "server") (c_options c)))
    else Err ENotImplemented.
  Fixpoint create_serial_ports (l : list conn) : result (list backing) :=
    match l with
    | [] => Ok []
    | c :: l' => do b <- create_serial_port c; do r <- create_serial_ports l'; Ok (b :: r)
    end.

  (** deploy_esxi.py:66-103 SmarterConnection.__enter__ *)
  Definition connect (server user password : str) : m unit :=
    match w_server w with
    | Accepts => emit (Connected server user password)
    | BadCertificate =>
        confirm_or_die QCertificate ;;
        lift (w_retry w) ;;
        emit (Connected server user password)
    | Fails e => fail e
    end.

  (** deploy_esxi.py:158-172 and 194-211 PyVmomiVMReconfigSpec.__init__ and lookup_object *)
  Definition lookup_vm (name : str) : result nat :=
    match find (fun v => str_eqb (snd v) name) (w_inventory w) with
    | Some v => Ok (fst v)
    | None => Err ELookupError
    end.

  (** deploy_esxi.py:420-444 fixup_serial_ports, with 183-192 PyVmomiVMReconfigSpec.__exit__ and
      262-266 the server part of the locator *)
  Definition fixup_serial_ports : m unit :=
    let! c := settings in
    connect (hd [] (split_on "/"%char (or_empty (d_locator c)))) (or_empty (d_username c)) (or_empty (d_password c)) ;;
    let! vm := lift (lookup_vm (or_empty (d_vm_name c))) in
    let! ports := lift (create_serial_ports (d_serial c)) in
    emit (Reconfigured vm ports).

  (** deploy_esxi.py:344-418 COTDeployESXi.run and deploy.py:341-385 COTDeploy.run *)
  Definition run : m unit :=
    ready ;;
    choose_profile ;;
    default_serial ;;
    check_ports ;;
    log_in ;;
    let! args := environment_args in
    let! c := settings in
    let! args := fixup_ovftool_args args (target c) in
    emit (RanOvftool args) ;;
    lift (w_ovftool w args) ;;
    let! c := settings in
    match d_serial c with [] => ret tt | _ => fixup_serial_ports end.
End Run.

(** A run from the settings [c]: the settings afterwards, all events, and how it ends. *)
Definition deploy (w : world) (c : cmd) : cmd * list event * result unit :=
  match run w (c, []) with ((c', t), r) => (c', t, r) end.
