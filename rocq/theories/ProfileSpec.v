(** What users rely on when configuration profiles are created and deleted. *)
From Verif Require Import PyBase PyDict XmlModel XmlSpec NamesModel ItemModel ItemSpec HardwareModel
  HardwareSpec ProfileModel.

(** The Configuration elements that the document declares. *)
Definition deploy_sections (v : version) (envelope : elem) : list elem :=
  filter (fun c => str_eqb (etag c) (DEPLOY_OPT_SECTION v)) (echildren envelope).
Definition declared (v : version) (envelope : elem) : list elem :=
  flat_map (fun s => filter (fun c => str_eqb (etag c) (CONFIG v)) (echildren s))
    (deploy_sections v envelope).

(** Profile IDs in the order in which they are listed: those declared as default
    first, the last one foremost; then the others in document order. *)
Definition listed (v : version) (cs : list elem) : list (option str) :=
  map (fun c => get_attr c (CONFIG_ID v)) (rev (filter (is_default v) cs)) ++
  map (fun c => get_attr c (CONFIG_ID v)) (filter (fun c => negb (is_default v c)) cs).

(** A document through any sequence of lookups of the profiles, creations, deletions
    and changes of the hardware. *)
Inductive pdoc_reachable (ver : version) : pdoc -> Prop :=
| P_open : forall E envelope sec d, e_ver E = ver -> open_profiles E envelope sec = Ok d ->
    pdoc_reachable ver d
| P_look : forall d, pdoc_reachable ver d -> pdoc_reachable ver (snd (config_profiles ver d))
| P_create : forall d pid label desc d', pdoc_reachable ver d ->
    create_profile ver d pid label desc = Ok d' -> pdoc_reachable ver d'
| P_delete : forall E d p d', e_ver E = ver -> pdoc_reachable ver d ->
    delete_profile E d p = Ok d' -> pdoc_reachable ver d'
| P_hardware : forall d h', pdoc_reachable ver d -> hw_step ver (p_hw d) h' ->
    pdoc_reachable ver (mkPdoc (p_env d) (p_deploy d) h' (p_cache d)).

(** The envelope apart from its deployment option section. *)
Definition other_sections (v : version) (envelope : elem) : list elem :=
  filter (fun c => negb (str_eqb (etag c) (DEPLOY_OPT_SECTION v))) (echildren envelope).

(** What deleting profile [p] does to a device: nothing if it is not in [p];
    otherwise its records under [p] go and all others stay, so that every other
    profile gets the same answers. *)
Definition loses_profile (E : env) (p : str) (i i' : item) : Prop :=
  if has_profile E i (Some p) then
    (forall n v, ~ own (i_props i') n (Some p) v) /\
    (forall n q v, q <> Some p -> (own (i_props i') n q v <-> own (i_props i) n q v)) /\
    (forall n q, q <> Some p -> reports E i' n q = reports E i n q) /\
    i_modified i' = true
  else i' = i.

(** Not the profile [p]. *)
Definition not_id (p : str) (o : option str) : bool :=
  match o with Some s => negb (str_eqb s p) | None => true end.

(** The children of [e] with this tag. *)
Definition with_tag (tag : str) (e : elem) : list elem :=
  filter (fun c => str_eqb (etag c) tag) (echildren e).

(** [c'] is the Configuration [c] with the given label and description, if any: it has
    one of each, and its attributes and other children are those of [c]. *)
Record config_made (v : version) (label desc : option str) (c c' : elem) : Prop := {
  cm_same : same_but_children c c';
  cm_label : exists e, with_tag (CFG_LABEL v) c' = [e] /\ (forall l, label = Some l -> etext e = Some l);
  cm_desc : exists e, with_tag (CFG_DESC v) c' = [e] /\ (forall l, desc = Some l -> etext e = Some l);
  cm_rest : forall t, t <> CFG_LABEL v -> t <> CFG_DESC v -> with_tag t c' = with_tag t c }.
