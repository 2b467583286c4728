(** Model of "cot edit-hardware", COT/commands/edit_hardware.py:306-549, with the
    methods of the VM that it calls (COT/vm_description/ovf/ovf.py:631-658,
    1600-1806).

    The options are those stored by the setters of the command (C27, C46); the
    answers of the user and of the platform are arbitrary functions.  Log output is
    not modelled.  An operation that fails returns the exception only: the
    description in memory is not written in that case (C36). *)
From Verif Require Import PyBase PyDict ValidationModel PlatformModel XmlModel NamesModel ItemModel
  HardwareModel ProfileModel NetworkModel WildListModel.

(** The state: the document with its profiles and devices, whether
    [self.network_section] is not None, the VirtualHardwareSection as far as its
    System child is concerned, and what the user was asked and answered. *)
Inductive prompt : Type :=
| AskSystemTypes                           (* edit_hardware.py:384-388 *)
| AskDescriptions                          (* edit_hardware.py:390-394 *)
| AskCreate (p : str)                      (* edit_hardware.py:345-347 *)
| AskLabel (p : str)                       (* edit_hardware.py:348-350 *)
| AskDescription (p : str)                 (* edit_hardware.py:351-353 *)
| AskDeleteAll                             (* edit_hardware.py:363-366 *)
| AskDelete (p : str)                      (* edit_hardware.py:373 *)
| AskDropNics (p : profile) (have : Z)     (* edit_hardware.py:455-459 *)
| AskNetwork (n : str)                     (* edit_hardware.py:506-508 *)
| AskNetworkDescription (n : str)          (* edit_hardware.py:510-512 *)
| AskDropSerials (p : profile) (have : Z)  (* edit_hardware.py:533-537 *)
| AskUnreachable (p : profile) (have : Z). (* edit_hardware.py:543-550 *)
Inductive entry : Type :=
| Confirmed (q : prompt) (yes : bool)
| Entered (q : prompt) (text : str).

Record vm : Type := mkVm {
  v_doc : pdoc;
  v_net : bool;
  v_sec : elem;
  v_log : list entry }.
Definition with_doc (d : pdoc) (m : vm) : vm := mkVm d (v_net m) (v_sec m) (v_log m).
Definition with_sec (s : elem) (m : vm) : vm := mkVm (v_doc m) (v_net m) s (v_log m).
Definition with_log (e : entry) (m : vm) : vm := mkVm (v_doc m) (v_net m) (v_sec m) (v_log m ++ [e]).

(** The user: the answers may depend on all that was asked before.  [u_order] is the
    order of [list(set(a) - set(b))], edit_hardware.py:369-370. *)
Record user : Type := mkUser {
  u_confirm : list entry -> prompt -> bool;
  u_input : list entry -> prompt -> str -> str;
  u_order : list str -> list str }.

(** The platform: its validation of numbers and NIC types, and its names of NICs. *)
Record hw_platform : Type := mkHwPlatform {
  hp_valid : hardware -> Z -> result unit;
  hp_nic_types : list str -> result unit;
  hp_nic_name : Z -> str }.

(** The options of the command, edit_hardware.py:84-123. *)
Record settings : Type := mkSettings {
  s_profiles : option (list str);
  s_delete_others : bool;
  s_system_types : option (list str);
  s_cpus : option Z;
  s_memory : option Z;
  s_nics : option Z;
  s_nic_types : option (list str);
  s_macs : option (list str);
  s_networks : option (list str);
  s_net_descs : option (list str);
  s_nic_names : option (list str);
  s_serials : option Z;
  s_connectivity : option (list str);
  s_scsi : option (list str);
  s_ide : option (list str) }.

Definition given {A} (o : option A) : bool := match o with Some _ => true | None => false end.
(** edit_hardware.py:306-334 ready_to_run, without that of the superclass.  (The list there
    holds [self.delete_all_other_profiles], which is False unless given.) *)
Definition some_work (s : settings) : bool :=
  given (s_profiles s) || s_delete_others s || given (s_cpus s) || given (s_memory s) ||
  given (s_nics s) || given (s_nic_types s) || given (s_macs s) || given (s_networks s) ||
  given (s_nic_names s) || given (s_net_descs s) || given (s_serials s) ||
  given (s_connectivity s) || given (s_scsi s) || given (s_ide s) || given (s_system_types s).

(** [self.ui.confirm], [confirm_or_die] and [get_input] (ui.py:100-141). *)
Definition confirm (U : user) (m : vm) (q : prompt) : bool * vm :=
  let b := u_confirm U (v_log m) q in (b, with_log (Confirmed q b) m).
Definition confirm_or_die (U : user) (m : vm) (q : prompt) : result vm :=
  let (b, m') := confirm U m q in if b then Ok m' else Err ESystemExit.
Definition get_input (U : user) (m : vm) (q : prompt) (default : str) : str * vm :=
  let s := u_input U (v_log m) q default in (s, with_log (Entered q s) m).

(** The profile list as it is passed to the hardware: None and [] are the same there,
    except in set_item_values_per_profile. *)
Definition plist (s : settings) : list profile :=
  match s_profiles s with Some l => map Some l | None => [] end.
Definition plist_opt (s : settings) : option (list profile) := option_map (map Some) (s_profiles s).

Section Run.
Variables (E : env) (U : user) (P : hw_platform).
Notation v := (e_ver E).

(** [self.ovf] as seen by the hardware, and the networks of the document *)
Definition henv (m : vm) : env := hw_env E (v_doc m).
Definition profiles_of (m : vm) : list str := named (fst (config_profiles v (v_doc m))).
Definition with_hw (m : vm) (h : hw) : vm :=
  with_doc (mkPdoc (p_env (v_doc m)) (p_deploy (v_doc m)) h (p_cache (v_doc m))) m.
Definition net_of (m : vm) : netdoc := mkNet (p_env (v_doc m)) (v_net m).
Definition with_net (m : vm) (d : netdoc) : vm :=
  mkVm (mkPdoc (n_env d) (p_deploy (v_doc m)) (p_hw (v_doc m)) (p_cache (v_doc m)))
    (n_attached d) (v_sec m) (v_log m).
(** Run an operation on the hardware. *)
Definition on_hw (m : vm) (f : env -> hw -> result hw) : result vm :=
  do h <- f (henv m) (p_hw (v_doc m)); Ok (with_hw m h).

(** edit_hardware.py:336-355 _run_create_new_profiles *)
Definition create_one (known : list str) (m : vm) (p : str) : result vm :=
  if mem_str p known then Ok m
  else
    do m1 <- confirm_or_die U m (AskCreate p);
    let (label, m2) := get_input U m1 (AskLabel p) p in
    let (desc, m3) := get_input U m2 (AskDescription p) label in
    do d <- create_profile v (v_doc m3) p (Some label) (Some desc);
    Ok (with_doc d m3).
Definition create_new_profiles (m : vm) (l : list str) : result vm :=
  fold_result (create_one (profiles_of m)) l m.

(** edit_hardware.py:357-378 _run_delete_other_profiles *)
Definition delete_one (m : vm) (p : str) : result vm :=
  do d <- delete_profile E (v_doc m) p; Ok (with_doc d m).
Definition delete_asked (m : vm) (p : str) : result vm :=
  let (b, m') := confirm U m (AskDelete p) in
  if b then delete_one m' p else Ok m'.
(** [set(a) - set(b)] *)
Fixpoint dedup (l : list str) : list str :=
  match l with
  | [] => []
  | x :: l' => if mem_str x l' then dedup l' else x :: dedup l'
  end.
Definition set_minus (a b : list str) : list str := filter (fun x => negb (mem_str x b)) (dedup a).
Definition delete_other_profiles (m : vm) (s : settings) : result vm :=
  match s_profiles s with
  | None => do m1 <- confirm_or_die U m AskDeleteAll;
            fold_result delete_one (profiles_of m) m1
  | Some l => fold_result delete_asked (u_order U (set_minus (profiles_of m) l)) m
  end.

(** edit_hardware.py:380-402 _run_update_profiles *)
Definition update_profiles (m : vm) (s : settings) : result vm :=
  do m1 <- (match s_profiles s with
            | None => Ok m
            | Some l =>
                do a <- (if given (s_system_types s) then confirm_or_die U m AskSystemTypes else Ok m);
                do b <- (if given (s_net_descs s) then confirm_or_die U a AskDescriptions else Ok a);
                create_new_profiles b l
            end);
  if s_delete_others s then delete_other_profiles m1 s else Ok m1.

(** name_helper.py:135, 281 *)
Definition VIRTUAL_SYSTEM_TYPE : str := VSSD v ++ L "VirtualSystemType".

(** ovf.py:631-643 [system_types] *)
Definition system_types (sec : elem) : option (list str) :=
  match findall (SYSTEM v) sec with
  | [] => None
  | sys :: _ => match findtext VIRTUAL_SYSTEM_TYPE sys with
                | [] => None
                | t => Some (split_on " "%char t)
                end
  end.
(** ovf.py:645-658 the setter.  [find] gives the first System; as the children of a new
    System decide nothing about its place, it is filled before it is put in place. *)
Definition set_system_types (sec : elem) (l : list str) : result elem :=
  let text := join (L " ") l in
  match findall (SYSTEM v) sec with
  | sys :: _ =>
      do r <- set_or_make_child sys VIRTUAL_SYSTEM_TYPE (Some text) [] [];
      Ok (set_children (update_first (fun c => str_eqb (etag c) (SYSTEM v)) (fun _ => fst r)
                          (echildren sec)) sec)
  | [] =>
      do r1 <- set_or_make_child (Elem (SYSTEM v) [] None None []) (VSSD v ++ L "ElementName")
                 (Some (L "Virtual System Type")) [] [];
      do r2 <- set_or_make_child (fst r1) (VSSD v ++ L "InstanceID") (Some (L "0")) [] [];
      do r3 <- set_or_make_child (fst r2) VIRTUAL_SYSTEM_TYPE (Some text) [] [];
      Ok (add_child sec (fst r3) [INFO v; SYSTEM v; ITEM v])
  end.

(** ovf.py:1600-1614 set_cpu_count *)
Definition set_cpu_count (m : vm) (n : Z) (s : settings) : result vm :=
  do _ <- hp_valid P HCpus n;
  on_hw m (fun E' h => set_value_for_all_items E' h (L "cpu") VIRTUAL_QUANTITY (IStr (zdec n)) (plist s) true).
(** ovf.py:1616-1634 set_memory *)
Definition set_memory (m : vm) (n : Z) (s : settings) : result vm :=
  do _ <- hp_valid P HMemory n;
  do m1 <- on_hw m (fun E' h => set_value_for_all_items E' h (L "memory") VIRTUAL_QUANTITY (IStr (zdec n)) (plist s) true);
  on_hw m1 (fun E' h => set_value_for_all_items E' h (L "memory") ALLOCATION_UNITS (IStr (L "byte * 2^20")) (plist s) false).

(** ovf.py:1650-1660, 1746-1755 get_nic_count, get_serial_count *)
Definition get_counts (m : vm) (rt : str) (s : settings) : result counts :=
  item_counts (henv m) (p_hw (v_doc m)) (Some rt) (plist s).
(** [max(d.values())]; the dictionary has at least one entry *)
Definition max_count (c : counts) : Z := fold_left (fun a pc => Z.max a (snd pc)) c 0%Z.

(** The names of the networks.  A Network without a name is None in Python; the model
    gives an error for it at once. *)
Definition all_names (l : list (option str)) : result (list str) :=
  fold_result (fun acc o => match o with Some n => Ok (acc ++ [n]) | None => Err ETypeError end) l [].

(** edit_hardware.py:404-448 _run_infer_networks_from_nics; returns the new values of
    [self.nic_networks] and [self.network_descriptions] *)
Definition infer_networks (m : vm) (s : settings) : result (option (list str) * option (list str)) :=
  match s_nics s, s_networks s with
  | Some n, None =>
      do c <- get_counts m (L "ethernet") s;
      let current := max_count c in
      if (n <=? current)%Z || (current <? 2)%Z then Ok (s_networks s, s_net_descs s)
      else if negb (current =? Z.of_nat (length (networks v (net_of m))))%Z
           then Ok (s_networks s, s_net_descs s)
      else
        do names <- all_names (networks v (net_of m));
        do g <- guess_list_wildcard names;
        match s_net_descs s with
        | Some l => Ok (g, Some l)
        | None => do gd <- guess_list_wildcard (network_descriptions v (net_of m)); Ok (g, gd)
        end
  | _, _ => Ok (s_networks s, s_net_descs s)
  end.

(** ovf.py:1636-1648 set_nic_types *)
Fixpoint canonical_types (l : list str) : result (list (option str)) :=
  match l with
  | [] => Ok []
  | t :: l' => do c <- canonicalize_nic_subtype (Some t); do r <- canonical_types l'; Ok (c :: r)
  end.
(** The canonical names.  [canonicalize_nic_subtype] gives None for the empty text only, which
    Python would store; the model refuses it with an error. *)
Definition set_nic_types (m : vm) (l : list str) (s : settings) : result vm :=
  do cs <- canonical_types l;
  do types <- all_names cs;
  do _ <- hp_nic_types P types;
  on_hw m (fun E' h => set_value_for_all_items E' h (L "ethernet") RESOURCE_SUB_TYPE (ISeq types) (plist s) false).

(** The dialogues before devices are dropped: edit_hardware.py:452-459, 530-537 *)
Definition ask_drop (mk : profile -> Z -> prompt) (n : Z) (m : vm) (pc : profile * Z) : result vm :=
  if (n <? snd pc)%Z then confirm_or_die U m (mk (fst pc) (snd pc)) else Ok m.
(** ovf.py:1662-1672 set_nic_count *)
Definition set_nic_count (m : vm) (n : Z) (s : settings) : result vm :=
  do _ <- hp_valid P HNics n;
  on_hw m (fun E' h => set_item_count E' (hp_nic_name P) h (L "ethernet") n (plist s)).

(** [network_list[-1]] and the like *)
Definition last_of (l : list str) : result str :=
  match l with [] => Err EIndexError | _ => Ok (last l []) end.
(** ovf.py:1691-1744, 1757-1784: set_nic_networks, set_nic_mac_addresses, set_nic_names,
    set_serial_count, set_serial_connectivity *)
Definition set_each (rt n : str) (l : list str) (default : inval) (s : settings) (m : vm) : result vm :=
  on_hw m (fun E' h => set_item_values_per_profile E' h rt n (map IStr l) (plist_opt s) default).
Definition set_nic_networks (m : vm) (l : list str) (s : settings) : result vm :=
  do d <- last_of l; set_each (L "ethernet") CONNECTION l (IStr d) s m.
Definition set_nic_mac_addresses (m : vm) (l : list str) (s : settings) : result vm :=
  do d <- last_of l; set_each (L "ethernet") ADDRESS l (IStr d) s m.
Definition set_nic_names (m : vm) (l : list str) (s : settings) : result vm :=
  set_each (L "ethernet") (ELEMENT_NAME v) l INone s m.
Definition set_serial_count (m : vm) (n : Z) (s : settings) : result vm :=
  on_hw m (fun E' h => set_item_count E' (hp_nic_name P) h (L "serial") n (plist s)).
Definition set_serial_connectivity (m : vm) (l : list str) (s : settings) : result vm :=
  set_each (L "serial") ADDRESS l (IStr []) s m.
(** ovf.py:1786-1806 set_scsi_subtypes, set_ide_subtypes *)
Definition set_subtypes (rt : str) (m : vm) (l : list str) (s : settings) : result vm :=
  on_hw m (fun E' h => set_value_for_all_items E' h rt RESOURCE_SUB_TYPE (ISeq l) (plist s) false).

(** edit_hardware.py:450-470 _run_update_nics *)
Definition update_nics (m : vm) (s : settings) : result vm :=
  do c <- get_counts m (L "ethernet") s;
  do m1 <- (match s_nics s with
            | None => Ok m
            | Some n => do a <- fold_result (ask_drop AskDropNics n) c m; set_nic_count a n s
            end);
  do m2 <- (match s_nic_types s with None => Ok m1 | Some l => set_nic_types m1 l s end);
  match s_macs s with None => Ok m2 | Some l => set_nic_mac_addresses m2 l s end.

(** ovf.py:1674-1689 create_network *)
Definition define_network (m : vm) (name : str) (desc : option str) : result vm :=
  do d <- create_network v (net_of m) name desc; Ok (with_net m d).
(** edit_hardware.py:486-494, the loop over existing networks *)
Fixpoint rename_networks (m : vm) (names descs : list str) : result vm :=
  match names, descs with
  | n :: names', d :: descs' => do m' <- define_network m n (Some d); rename_networks m' names' descs'
  | _, _ => Ok m
  end.
(** edit_hardware.py:498-515, the loop over the requested networks.  (The descriptions are
    popped from the list of the command itself, which is not used again.) *)
Fixpoint request_networks (existing : list (option str)) (m : vm) (names descs : list str) : result vm :=
  match names with
  | [] => Ok m
  | n :: names' =>
      let desc := match descs with d :: _ => Some d | [] => None end in
      do dm <- (if mem_opt (Some n) existing then Ok (desc, m)
                else do m1 <- confirm_or_die U m (AskNetwork n);
                     match desc with
                     | Some (c :: t) => Ok (Some (c :: t), m1)
                     | _ => let (x, m2) := get_input U m1 (AskNetworkDescription n) n in Ok (Some x, m2)
                     end);
      let (desc', m') := (dm : option str * vm) in
      do m2 <- define_network m' n desc';
      request_networks existing m2 names' (tl descs)
  end.
(** edit_hardware.py:472-517 _run_update_networks *)
Definition DEFAULT_NETWORK : str := L "VM Network".
Definition wildcards (l : option (list str)) (n : Z) : list str :=
  match l with None => [] | Some l => expand_list_wildcard l (Z.to_nat n) end.
Definition update_networks (m : vm) (s : settings) (nets descs : option (list str)) : result vm :=
  do c <- get_counts m (L "ethernet") s;
  let most := max_count c in
  let existing := networks v (net_of m) in
  let nets := if (0 <? most)%Z && is_nil existing && negb (given nets) then Some [DEFAULT_NETWORK] else nets in
  let new_descs := wildcards descs most in
  match nets, descs with
  | None, Some _ => do names <- all_names existing; rename_networks m names new_descs
  | None, None => Ok m
  | Some l, _ =>
      let new := expand_list_wildcard l (Z.to_nat most) in
      do m1 <- request_networks existing m new new_descs;
      set_nic_networks m1 new s
  end.

(** edit_hardware.py:519-526 _run_update_nic_names *)
Definition update_nic_names (m : vm) (s : settings) : result vm :=
  match s_nic_names s with
  | None => Ok m
  | Some l => do c <- get_counts m (L "ethernet") s;
              set_nic_names m (wildcards (Some l) (max_count c)) s
  end.

(** edit_hardware.py:528-553 _run_update_serial *)
Definition ask_unreachable (n : Z) (m : vm) (pc : profile * Z) : result vm := ask_drop AskUnreachable n m pc.
Definition update_serial (m : vm) (s : settings) : result vm :=
  do m1 <- (match s_serials s with
            | None => Ok m
            | Some n => do c <- get_counts m (L "serial") s;
                        do a <- fold_result (ask_drop AskDropSerials n) c m;
                        set_serial_count a n s
            end);
  match s_connectivity s with
  | None => Ok m1
  | Some l => do c <- get_counts m1 (L "serial") s;
              do a <- fold_result (ask_unreachable (Z.of_nat (length l))) c m1;
              set_serial_connectivity a l s
  end.

Definition if_given {A} (o : option A) (f : A -> vm -> result vm) (m : vm) : result vm :=
  match o with None => Ok m | Some x => f x m end.
(** edit_hardware.py:555-594 run *)
Definition edit_hardware (m : vm) (s : settings) : result vm :=
  if negb (some_work s) then Err EInvalidInput
  else
    do m1 <- update_profiles m s;
    do m2 <- if_given (s_system_types s) (fun l m => do sec <- set_system_types (v_sec m) l; Ok (with_sec sec m)) m1;
    do m3 <- if_given (s_cpus s) (fun n m => set_cpu_count m n s) m2;
    do m4 <- if_given (s_memory s) (fun n m => set_memory m n s) m3;
    do nd <- infer_networks m4 s;
    do m5 <- update_nics m4 s;
    do m6 <- update_networks m5 s (fst nd) (snd nd);
    do m7 <- update_nic_names m6 s;
    do m8 <- update_serial m7 s;
    do m9 <- if_given (s_scsi s) (fun l m => set_subtypes (L "scsi") m l s) m8;
    if_given (s_ide s) (fun l m => set_subtypes (L "ide") m l s) m9.
End Run.

(** The VM as it is after reading a document, ovf.py:210-247. *)
Definition open_vm (E : env) (envelope sec : elem) : result vm :=
  do n <- open_networks (e_ver E) envelope;
  do d <- open_profiles E envelope sec;
  Ok (mkVm d (n_attached n) sec []).
