(** What users rely on when a package is deployed. *)
From Verif Require Import PyBase NamesModel ItemModel ItemSpec HardwareModel CountSpec FindSpec ChooseSpec SerialModel DeployModel.
Local Open Scope nat_scope.

(** The profile that is deployed: the one asked for; or else the only one; or else what the
    user selects (the first one, with --force); none if the package has none. *)
Definition profile_for (w : world) (c : cmd) (p : option str) : Prop :=
  match d_configuration c with
  | Some q => p = Some q
  | None =>
      match e_profiles (w_env w) with
      | [] => p = None
      | [q] => p = Some q
      | (first :: _) as options =>
          exists q, p = Some q /\ In q options /\
            if w_force w then q = first
            else exists typed input, In typed (w_choice w) /\ entered first typed input /\ selects options first input q
      end
  end.

(** The serial ports in a profile, and the connection texts they have in the package: the only
    Address of the device, or nothing if there is none or there are several. *)
Definition serial_devices (w : world) (p : profile) (ks : list str) : Prop :=
  are_devices (w_env w) (w_hw w) (L "serial") p ks.
Definition only_address (i : item) (a : option str) : Prop :=
  match a with
  | Some s => only_value (i_props i) ADDRESS (VStr s)
  | None => forall v, ~ only_value (i_props i) ADDRESS v
  end.
Definition package_strings (w : world) (p : profile) (l : list (option str)) : Prop :=
  exists ks, serial_devices w p ks /\
    Forall2 (fun k a => exists i, In (k, i) (w_hw w) /\ only_address i a) ks l.

(** The connections that are made: those given; or else those of the package. *)
Definition connections (w : world) (c : cmd) (p : profile) (conns : list conn) : Prop :=
  match d_serial c with
  | [] => exists l rs, package_strings w p l /\ length l <= 4 /\
            Forall2 (fun s r => match s with Some s => from_cli_string s = Ok r | None => r = None end) l rs /\
            conns = flat_map (fun r => match r with Some x => [x] | None => [] end) rs
  | given => conns = given
  end.
Definition too_few_ports (w : world) (p : profile) (conns : list conn) : Prop :=
  exists ks, serial_devices w p ks /\ length ks < length conns.

(** The package has environment properties, and the target is not a host of a vCenter, so
    the properties get lost unless they are injected; and whether they can be. *)
Definition on_vcenter (locator : str) : Prop := exists a b, locator = a ++ L "/host/" ++ b.
Definition needs_injection (w : world) (locator : str) : Prop := w_props w <> [] /\ ~ on_vcenter locator.
Definition can_inject (w : world) (c : cmd) : Prop :=
  d_power_on c = true /\ exists x y z, w_version w = Ok (x, y, z) /\ (4 <= x)%Z.

(** The name of the new VM: the one given; or else the package's file name without directory
    and extension. *)
Definition dots (s : str) : Prop := forall x, In x s -> x = "."%char.
Definition file_stem (path name : str) : Prop :=
  exists dir ext, path = dir ++ name ++ ext /\ (dir = [] \/ exists d, dir = d ++ ["/"%char]) /\
    ~ In "/"%char (name ++ ext) /\
    ((ext = [] /\ forall a b, name = a ++ "."%char :: b -> dots a) \/
     (exists e, ext = "."%char :: e /\ ~ In "."%char e /\ ~ dots name)).
Definition name_for (c : cmd) (package name : str) : Prop :=
  match d_vm_name c with Some n => name = n | None => file_stem package name end.

(** The command line of ovftool. *)
Definition option_arg (prefix : str) (o : option str) : list str :=
  match o with Some x => [prefix ++ x] | None => [] end.
Definition command_line (c : cmd) (inject : bool) (p : option str) (name package user password locator : str) : list str :=
  d_ovftool_args c ++
  (if inject then [L "--X:injectOvfEnv"] else []) ++
  option_arg (L "--deploymentOption=") p ++
  map (fun n => L "--net:" ++ n) (match d_network_map c with Some l => l | None => [] end) ++
  [L "--name=" ++ name] ++
  (if d_power_on c then [L "--powerOn"] else []) ++
  option_arg (L "--datastore=") (d_datastore c) ++
  [package; L "vi://" ++ user ++ L ":" ++ password ++ L "@" ++ locator].

Definition user_for (w : world) (c : cmd) (u : str) : Prop :=
  u = match d_username c with Some u => u | None => w_user w end.
Definition password_for (w : world) (c : cmd) (p : str) : Prop :=
  match d_password c with Some q => p = q | None => w_force w = false /\ p = w_password w end.

(** Events before anything is deployed. *)
Definition quiet (e : event) : Prop :=
  match e with
  | ChoseProfile _ _ | Asked QPorts _ | Asked QEnvironment _ => True
  | _ => False
  end.

(** The port that is made for a connection. *)
Definition port_for (c : conn) (b : backing) : Prop :=
  (c_kind c = L "device" /\ b = Device (c_value c)) \/
  ((c_kind c = L "tcp" \/ c_kind c = L "telnet") /\
   exists s, b = Uri (c_kind c ++ L "://" ++ c_value c) s /\
     (s = true <-> exists v, In (L "server", v) (c_options c))).
Definition supported (c : conn) : Prop := In (c_kind c) [L "device"; L "tcp"; L "telnet"].

(** The text before the first slash. *)
Definition server_of (locator server : str) : Prop :=
  ~ In "/"%char server /\ (locator = server \/ exists rest, locator = server ++ "/"%char :: rest).

(** The first VM of that name that the server lists. *)
Definition first_named (inventory : list (nat * str)) (name : str) (vm : nat) : Prop :=
  exists a b, inventory = a ++ (vm, name) :: b /\ forall v, In v a -> snd v <> name.
