(** Configuration profiles of a document: COT/vm_description/ovf/ovf.py.

    The state is the envelope, the section object that
    [self.deploy_opt_section] refers to, the hardware, and the cached list.  An
    operation that fails returns the exception only. *)
From Verif Require Import PyBase PyDict XmlModel NamesModel ItemModel HardwareModel.

(** name_helper.py:199-208, 235, 458 *)
Definition DEPLOY_OPT_SECTION (v : version) : str := OVF_NS v ++ L "DeploymentOptionSection".
Definition CONFIG (v : version) : str := OVF_NS v ++ L "Configuration".
Definition CONFIG_ID (v : version) : str := OVF_NS v ++ L "id".
Definition CONFIG_DEFAULT (v : version) : str := OVF_NS v ++ L "default".
Definition CFG_LABEL (v : version) : str := OVF_NS v ++ L "Label".
Definition CFG_DESC (v : version) : str := OVF_NS v ++ L "Description".
Definition VIRTUAL_SYSTEM (v : version) : str :=
  OVF_NS v ++ match v with V0 => L "Content" | _ => L "VirtualSystem" end.

(** ovf.py:224-227 [self.deploy_opt_section]: none, the child of the envelope with
    this tag, or an element that has been removed from the envelope *)
Inductive deploy_ref : Type := NoSection | Attached | Detached (sec : elem).

Record pdoc : Type := mkPdoc {
  p_env : elem;
  p_deploy : deploy_ref;
  p_hw : hw;
  p_cache : option (list (option str)) }.

Definition is_deploy (v : version) (e : elem) : bool := str_eqb (etag e) (DEPLOY_OPT_SECTION v).
Definition deploy_section (v : version) (d : pdoc) : option elem :=
  match p_deploy d with
  | NoSection => None
  | Attached => find (is_deploy v) (echildren (p_env d))
  | Detached sec => Some sec
  end.

(** ovf.py:550-552 *)
Definition is_default (v : version) (c : elem) : bool :=
  match get_attr c (CONFIG_DEFAULT v) with
  | Some s => str_eqb s (L "true") || str_eqb s (L "1")
  | None => false
  end.
(** ovf.py:547-555 *)
Definition config_ids (v : version) (sec : elem) : list (option str) :=
  fold_left (fun ids c => if is_default v c then get_attr c (CONFIG_ID v) :: ids
                          else ids ++ [get_attr c (CONFIG_ID v)])
    (find_all_children sec [CONFIG v] []) [].
Definition current_ids (v : version) (d : pdoc) : list (option str) :=
  match deploy_section v d with Some sec => config_ids v sec | None => [] end.
(** ovf.py:538-559 config_profiles: the list and the state with the cache filled *)
Definition config_profiles (v : version) (d : pdoc) : list (option str) * pdoc :=
  match p_cache d with
  | Some l => (l, d)
  | None => let l := current_ids v d in
            (l, mkPdoc (p_env d) (p_deploy d) (p_hw d) (Some l))
  end.
(** The profiles as the hardware sees them.  A Configuration without an id gives None
    in Python, which the hardware takes for the default; here it is left out. *)
Definition named (l : list (option str)) : list str :=
  flat_map (fun o => match o with Some s => [s] | None => [] end) l.
Definition with_profiles (E : env) (l : list str) : env :=
  mkEnv (e_ver E) l (e_re_sub E) (e_seq_repr E) (e_tostring E) (e_fromstring E).
Definition hw_env (E : env) (d : pdoc) : env :=
  with_profiles E (named (fst (config_profiles (e_ver E) d))).

(** ovf.py:2832-2838 insertion before the VirtualSystem *)
Fixpoint insert_before (tag : str) (new : elem) (cs : list elem) : list elem :=
  match cs with
  | [] => [new]
  | c :: cs' => if str_eqb (etag c) tag then new :: cs else c :: insert_before tag new cs'
  end.
(** ovf.py:2802-2843 _ensure_section; returns the parent and the section.  Whether a
    new section is filled before or after it is put in place makes no difference. *)
Definition ensure_section (v : version) (parent : elem) (tag info : str)
    (attrib : list (str * str)) : result (elem * elem) :=
  match find_child parent tag attrib false with
  | Err e => Err e
  | Ok (Some sec) => Ok (parent, sec)
  | Ok None =>
      do r <- set_or_make_child (Elem tag attrib None None []) (INFO v) (Some info) [] [];
      let sec := fst r in
      Ok (set_children (insert_before (VIRTUAL_SYSTEM v) sec (echildren parent)) parent, sec)
  end.

(** ovf.py:1540-1561 create_configuration_profile *)
Definition create_profile (v : version) (d : pdoc) (pid : str) (label desc : option str)
    : result pdoc :=
  do r <- ensure_section v (p_env d) (DEPLOY_OPT_SECTION v) (L "Configuration Profiles") [];
  let '(env, sec) := (r : elem * elem) in
  do o <- find_child sec (CONFIG v) [(CONFIG_ID v, pid)] false;
  let cfg := match o with
             | Some c => c
             | None => Elem (CONFIG v) [(CONFIG_ID v, pid)] None None []
             end in
  do r1 <- set_or_make_child cfg (CFG_LABEL v) label [] [];
  do r2 <- set_or_make_child (fst r1) (CFG_DESC v) desc [] [];
  let cfg' := fst r2 in
  let sec' := match o with
              | Some _ => set_children (update_first (child_match (CONFIG v) [(CONFIG_ID v, pid)])
                                          (fun _ => cfg') (echildren sec)) sec
              | None => set_children (echildren sec ++ [cfg']) sec
              end in
  Ok (mkPdoc (set_children (update_first (is_deploy v) (fun _ => sec') (echildren env)) env)
        Attached (p_hw d) None).

(** [parent.remove(child)] for the first child with property [f] *)
Fixpoint remove_first (f : elem -> bool) (cs : list elem) : list elem :=
  match cs with
  | [] => []
  | c :: cs' => if f c then cs' else c :: remove_first f cs'
  end.

(** ovf.py:1563-1597 delete_configuration_profile.  [find_child] asserts that there
    is a section (xml_file.py:178). *)
Definition delete_profile (E : env) (d : pdoc) (p : str) : result pdoc :=
  let v := e_ver E in
  match deploy_section v d with
  | None => Err EAssertion
  | Some sec =>
      do o <- find_child sec (CONFIG v) [(CONFIG_ID v, p)] false;
      match o with
      | None => Err ELookupError
      | Some _ =>
          do h' <- drop_profile (hw_env E d) (p_hw d) p;
          let sec' := set_children (remove_first (child_match (CONFIG v) [(CONFIG_ID v, p)])
                                      (echildren sec)) sec in
          match p_deploy d with
          | NoSection => Err EAssertion
          | Detached _ =>
              match find_all_children sec' [CONFIG v] [] with
              | [] => Err EValueError
              | _ => Ok (mkPdoc (p_env d) (Detached sec') h' None)
              end
          | Attached =>
              match find_all_children sec' [CONFIG v] [] with
              | [] => Ok (mkPdoc (set_children (remove_first (is_deploy v) (echildren (p_env d)))
                                    (p_env d)) (Detached sec') h' None)
              | _ => Ok (mkPdoc (set_children (update_first (is_deploy v) (fun _ => sec')
                                                 (echildren (p_env d))) (p_env d))
                           Attached h' None)
              end
          end
      end
  end.

(** ovf.py:210-227, 247: the state after reading; [sec] is the hardware section *)
Definition open_profiles (E : env) (envelope sec : elem) : result pdoc :=
  let v := e_ver E in
  do o <- find_child envelope (DEPLOY_OPT_SECTION v) [] false;
  let d := mkPdoc envelope (match o with Some _ => Attached | None => NoSection end) [] None in
  let (l, d) := config_profiles v d in
  do h <- read_hardware (with_profiles E (named l)) sec;
  Ok (mkPdoc (p_env d) (p_deploy d) h (p_cache d)).
