(** What users rely on when properties are edited, in terms of the descriptor and of the
    lines they type. *)
From Verif Require Import PyBase PyDict XmlModel XmlSpec NamesModel PropArgModel ChooseSpec
  EnvPropModel EnvPropSpec EditPropModel.

(** The properties with a key. *)
Definition with_key (v : version) (vs : elem) (key : str) : list elem := filter (has_key v key) (properties v vs).

(** Something was asked for on the command line, so there is no interactive mode. *)
Definition something_given (a : edit_args) : Prop :=
  a_config a <> None \/ ep_properties (a_edit a) <> [] \/ ep_transports (a_edit a) <> [].

(** A key that the configuration file may set. *)
Definition config_sets (literal : option str) (a : edit_args) (key : str) : Prop :=
  a_config a <> None /\ exists l i, literal = Some l /\ 1 <= i /\ numbered_key l i key.

(** The user was asked about each of these keys and agreed: with --force without typing
    anything, else by lines that mean yes, after any number of lines that mean nothing. *)
Definition yes : list str := [[]; L "y"; L "Y"].
Definition no : list str := [L "n"; L "N"].
Inductive agreed (force : bool) : list str -> list str -> list str -> Prop :=
| ag_none : forall typed, agreed force typed [] typed
| ag_force : forall typed k ks rest, force = true -> agreed force typed ks rest -> agreed force typed (k :: ks) rest
| ag_yes : forall before t typed k ks rest, force = false ->
    (forall t', In t' before -> ~ means (yes ++ no) t') -> means yes t ->
    agreed force typed ks rest -> agreed force (before ++ t :: typed) (k :: ks) rest.

(** The only difference is that the hardware section now has this transport attribute. *)
Definition transport_set (v : version) (text : str) (vs vs' : elem) : Prop :=
  same_but_children vs vs' /\
  exists A sec sec' B, echildren vs = A ++ sec :: B /\ echildren vs' = A ++ sec' :: B /\
    etag sec = VIRTUAL_HW_SECTION v /\ (forall x, In x (A ++ B) -> etag x <> VIRTUAL_HW_SECTION v) /\
    etag sec' = etag sec /\ etext sec' = etext sec /\ etail sec' = etail sec /\ echildren sec' = echildren sec /\
    get_attr sec' (ENVIRONMENT_TRANSPORT v) = Some text /\
    forall k, k <> ENVIRONMENT_TRANSPORT v -> get_attr sec' k = get_attr sec k.

(** Keys and values of all properties, in order. *)
Definition shown (v : version) (vs : elem) : list (option str * option str) :=
  map (fun p => (key_of v p, value_of v p)) (properties v vs).
(** Every property has a key, and there is only one section of properties. *)
Definition presentable (v : version) (vs : elem) : Prop :=
  v <> V0 /\ (forall p, In p (properties v vs) -> key_of v p <> None) /\
  forall A x M y B, echildren vs = A ++ x :: M ++ y :: B ->
    answers (PRODUCT_SECTION v) (PRODUCT_SECTION_ATTRIB v) x ->
    ~ answers (PRODUCT_SECTION v) (PRODUCT_SECTION_ATTRIB v) y.
Definition keys_of (v : version) (vs : elem) : list str :=
  flat_map (fun p => match key_of v p with Some k => [k] | None => [] end) (properties v vs).
