(** Model of the command edit-properties: COT/commands/edit_properties.py:204-300, and of
    the environment transports: COT/vm_description/ovf/ovf.py:589-608.

    The document is the VirtualSystem element, as in EnvPropModel.  What the user types is
    a list of lines; reading when there is none left is EOFError. *)
From Verif Require Import PyBase PyDict XmlModel NamesModel NetworkModel EnvPropModel PropArgModel ChooseModel.

(** name_helper.py:262, 270, 383, 463, 522-524 *)
Definition VIRTUAL_HW_SECTION (v : version) : str :=
  OVF_NS v ++ match v with V0 => L "Section" | _ => L "VirtualHardwareSection" end.
Definition VIRTUAL_HW_SECTION_ATTRIB (v : version) : list (str * str) :=
  match v with V0 => [(XSI_TYPE, L "ovf:VirtualHardwareSection_Type")] | _ => [] end.
Definition ENVIRONMENT_TRANSPORT (v : version) : str := OVF_NS v ++ L "transport".

(** [self.virtual_hw_section], ovf.py:241-245; loading a package without it fails *)
Definition virtual_hw_section (v : version) (vs : elem) : result (option elem) :=
  find_child vs (VIRTUAL_HW_SECTION v) (VIRTUAL_HW_SECTION_ATTRIB v) true.

(** [environment_transports], ovf.py:589-597; None stands for None *)
Definition environment_transports (v : version) (vs : elem) : result (option (list str)) :=
  match v with
  | V0 => Ok None
  | _ => do o <- virtual_hw_section v vs;
         Ok (match o with
             | None => None
             | Some sec =>
                 match get_attr sec (ENVIRONMENT_TRANSPORT v) with
                 | Some (c :: s) => Some (split_on " "%char (c :: s))
                 | _ => None
                 end
             end)
  end.

(** The setter, ovf.py:599-608 *)
Definition set_environment_transports (v : version) (vs : elem) (transports : list str) : elem * result unit :=
  match v with
  | V0 => (vs, Err ENotImplemented)
  | _ => match virtual_hw_section v vs with
         | Err e => (vs, Err e)
         | Ok None => (vs, Err EAttributeError)
         | Ok (Some _) =>
             (set_children (update_first (child_match (VIRTUAL_HW_SECTION v) (VIRTUAL_HW_SECTION_ATTRIB v))
                              (set_attr (ENVIRONMENT_TRANSPORT v) (join (L " ") transports))
                              (echildren vs)) vs, Ok tt)
         end
  end.

(** ** Interactive mode, edit_properties.py:243-300 *)

(** [[p['key'] for p in proparray]], 249; formatting a missing key with a width at 250 is
    a TypeError in Python 3 *)
Fixpoint key_list (proparray : list prop_info) : option (list str) :=
  match proparray with
  | [] => Some []
  | p :: l => match pi_key p, key_list l with
              | Some k, Some ks => Some (k :: ks)
              | _, _ => None
              end
  end.

(** [p['key'] == user_input] and [next(p for p in proparray if ...)], 263 *)
Definition key_is (k : str) (p : prop_info) : bool :=
  match pi_key p with Some x => str_eqb x k | None => false end.

(** The place where the two nested loops wait for a line: for a choice (253, where the
    loop in [choose_from_list] is part of the waiting) or for a new value (281). *)
Inductive place : Type :=
| Choosing
| Editing (p : prop_info).

Definition same_value (a b : option str) : bool :=
  match a, b with
  | None, None => true
  | Some x, Some y => str_eqb x y
  | _, _ => false
  end.

(** The two loops, 248-300, one line after the other; the text shown is not modelled.
    [proparray] is read again only after a value was accepted (292). *)
Fixpoint dialogue (v : version) (uc : option bool) (vs : elem) (proparray : list prop_info) (at_ : place)
    (typed : list str) : elem * result unit :=
  match at_ with
  | Choosing =>
      match key_list proparray with
      | None => (vs, Err ETypeError)
      | Some keys =>
          match typed with
          | [] => (vs, Err EEOFError)
          | t :: typed' =>
              match choose_once keys (L "q") (get_input false (L "q") t) with
              | None => dialogue v uc vs proparray Choosing typed'
              | Some k =>
                  if str_eqb k (L "q") || str_eqb k (L "Q") then (vs, Ok tt)
                  else match find (key_is k) proparray with
                       | None => (vs, Err ERuntimeError)  (* StopIteration *)
                       | Some p => dialogue v uc vs proparray (Editing p) typed'
                       end
              end
          end
      end
  | Editing p =>
      match typed with
      | [] => (vs, Err EEOFError)
      | t :: typed' =>
          (* [get_input] with the old value as default, which may be None *)
          let new_value := match t with [] => pi_value p | _ => Some t end in
          if same_value new_value (pi_value p) then dialogue v uc vs proparray Choosing typed'
          else
            let key := match pi_key p with Some k => k | None => [] end in
            match set_property v vs key new_value uc None None None with
            | (vs', Ok _) =>
                match environment_properties v vs' with
                | Err e => (vs', Err e)
                | Ok proparray' => dialogue v uc vs' proparray' Choosing typed'
                end
            | (vs', Err e) =>
                if is_value_unsupported e then dialogue v uc vs' proparray (Editing p) typed'
                else (vs', Err e)
            end
      end
  end.

(** [edit_properties_interactive]; with --force the first choice is 'q' without reading
    a line *)
Definition edit_properties_interactive (force : bool) (v : version) (uc : option bool) (vs : elem)
    (typed : list str) : elem * result unit :=
  match environment_properties v vs with
  | Err e => (vs, Err e)
  | Ok proparray =>
      if force then
        match key_list proparray with
        | None => (vs, Err ETypeError)
        | Some _ => (vs, Ok tt)
        end
      else dialogue v uc vs proparray Choosing typed
  end.

(** ** The run, edit_properties.py:204-241 *)

(** [confirm], as in ChooseModel, with the lines that are left; None is EOFError *)
Fixpoint confirm_lines (typed : list str) : option (bool * list str) :=
  match typed with
  | [] => None
  | t :: typed' => match confirm_once t with Some b => Some (b, typed') | None => confirm_lines typed' end
  end.
Definition confirm (force : bool) (typed : list str) : option (bool * list str) :=
  if force then Some (true, typed) else confirm_lines typed.

(** [self.labels[index] if self.labels else None], 219-220 *)
Definition note_at (notes : list str) (index : nat) : result (option str) :=
  match notes with
  | [] => Ok None
  | _ => match nth_error notes index with Some n => Ok (Some n) | None => Err EIndexError end
  end.

(** The document, the keys the user was asked about, the lines left, and how it ended. *)
Record outcome : Type := mkOut { o_doc : elem; o_asked : list str; o_left : list str; o_result : result unit }.

(** The loop, 217-232 *)
Fixpoint set_each (force : bool) (v : version) (uc : option bool) (labels descs : list str)
    (vs : elem) (typed : list str) (index : nat) (todo : list property) : outcome :=
  match todo with
  | [] => mkOut vs [] typed (Ok tt)
  | (key, value, ptype) :: todo' =>
      match note_at labels index with
      | Err e => mkOut vs [] typed (Err e)
      | Ok label =>
        match note_at descs index with
        | Err e => mkOut vs [] typed (Err e)
        | Ok desc =>
          match get_property_value v vs key with
          | Err e => mkOut vs [] typed (Err e)
          | Ok curr =>
              let go typed asked :=
                match set_property v vs key value uc ptype label desc with
                | (vs', Err e) => mkOut vs' asked typed (Err e)
                | (vs', Ok _) =>
                    let o := set_each force v uc labels descs vs' typed (S index) todo' in
                    mkOut (o_doc o) (asked ++ o_asked o) (o_left o) (o_result o)
                end in
              match curr with
              | Some _ => go typed []
              | None =>
                  match confirm force typed with
                  | None => mkOut vs [key] [] (Err EEOFError)
                  | Some (false, typed') => mkOut vs [key] typed' (Err ESystemExit)
                  | Some (true, typed') => go typed' [key]
                  end
              end
          end
        end
      end
  end.

(** What the command was given: PropArgModel's part, the text of the configuration file
    if one was named (reading it is not modelled) and --user-configurable. *)
Record edit_args : Type := mkArgs { a_edit : edit_props; a_config : option str; a_user : option bool }.

(** [run]; [super_ready] as in PropArgModel; [literal] is the platform's
    LITERAL_CLI_STRING *)
Definition run (force super_ready : bool) (v : version) (literal : option str) (vs : elem)
    (typed : list str) (a : edit_args) : outcome :=
  let e := a_edit a in
  if negb (ready_to_run super_ready e) then mkOut vs [] typed (Err EInvalidInput)
  else
    match (match a_config a with
           | Some text => config_file_to_properties v vs literal (a_user a) text
           | None => (vs, Ok tt)
           end) with
    | (vs1, Err x) => mkOut vs1 [] typed (Err x)
    | (vs1, Ok _) =>
        let o := set_each force v (a_user a) (ep_labels e) (ep_descriptions e) vs1 typed 0 (ep_properties e) in
        match o_result o with
        | Err x => o
        | Ok _ =>
            let (vs2, r) := match ep_transports e with
                            | [] => (o_doc o, Ok tt)
                            | ts => set_environment_transports v (o_doc o) ts
                            end in
            match r with
            | Err x => mkOut vs2 (o_asked o) (o_left o) (Err x)
            | Ok _ =>
                match a_config a, ep_properties e, ep_transports e with
                | None, [], [] =>
                    let (vs3, r3) := edit_properties_interactive force v (a_user a) vs2 (o_left o) in
                    mkOut vs3 (o_asked o) [] r3
                | _, _, _ => mkOut vs2 (o_asked o) (o_left o) (Ok tt)
                end
            end
        end
    end.
