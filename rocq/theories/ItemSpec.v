(** What users rely on about hardware items, in terms of the recorded values. *)
From Verif Require Import PyBase ValidationSpec XmlModel NamesModel ItemModel.

(** Under profile [p] property [n] is recorded with value [v]. *)
Definition own (ps : props) (n : str) (p : profile) (v : value) : Prop :=
  exists d s, In (n, d) ps /\ In (v, s) d /\ In p s.
(** A profile without a record of its own inherits that of the default profile. *)
Definition holds (ps : props) (n : str) (p : profile) (v : value) : Prop :=
  own ps n p v \/ ((forall w, ~ own ps n p w) /\ own ps n None v).

(** One dictionary of values: no value twice, no empty value, no empty set; the
    default profile stays alone; no profile under two values. *)
Definition good_values (d : vdict) : Prop :=
  NoDup (map fst d) /\
  (forall v s, In (v, s) d ->
     truthy v = true /\ s <> [] /\ NoDup s /\ (In None s -> s = [None])) /\
  (forall v s w t p, In (v, s) d -> In (w, t) d -> In p s -> In p t -> v = w).

(** Well-formed properties of an item: in addition, one instance ID and one
    resource type at most. *)
Definition good_props (ver : version) (ps : props) : Prop :=
  NoDup (map fst ps) /\
  (forall n d, In (n, d) ps -> good_values d) /\
  (forall n d, In (n, d) ps -> n = INSTANCE_ID ver \/ n = RESOURCE_TYPE -> length d <= 1).

(** Items that arise by any sequence of successful operations, with the
    configuration profiles of the document changing arbitrarily in between. *)
Inductive reachable (ver : version) : item -> Prop :=
| R_new : forall E, e_ver E = ver -> reachable ver (new_ovfitem E)
| R_read : forall E i x i', e_ver E = ver -> reachable ver i ->
    add_item E i x = Ok i' -> reachable ver i'
| R_set : forall E i n x P ow i', e_ver E = ver -> reachable ver i ->
    set_property E i n x P ow = Ok i' -> reachable ver i'
| R_add_profile : forall E i p from i', e_ver E = ver -> reachable ver i ->
    add_profile E i p from = Ok i' -> reachable ver i'
| R_remove_profile : forall E i p split i', e_ver E = ver -> reachable ver i ->
    remove_profile E i p split = Ok i' -> reachable ver i'
| R_clone : forall i cfg, reachable ver i ->
    reachable ver (mkItem (i_props i) (i_ns i) (i_modified i) cfg)
| R_saved : forall i b, reachable ver i -> reachable ver (with_modified b i).

(** The profiles a call of set_property is about: those given, otherwise all that
    have a value of this property, otherwise the default. *)
Definition requested (ps : props) (n : str) (P : list profile) (p : profile) : Prop :=
  match P with
  | [] => (exists v, own ps n p v) \/ ((forall q v, ~ own ps n q v) /\ p = None)
  | _ => In p P
  end.

(** The properties with free text, in which wildcards may be used. *)
Definition text_property (ver : version) (n : str) : Prop :=
  n = ELEMENT_NAME ver \/ n = ITEM_DESCRIPTION.

(** Device subtypes are tuples, everything else is a string. *)
Definition well_typed (ps : props) : Prop :=
  forall n p v, own ps n p v ->
    if str_eqb n RESOURCE_SUB_TYPE then exists l, v = VTuple l else exists s, v = VStr s.

(** The value a new profile takes over from [ps]: the default, or the only value
    there is. *)
Definition source_value (ps : props) (n : str) (v : value) : Prop :=
  own ps n None v \/
  ((exists p, own ps n p v) /\ forall q w, own ps n q w -> w = v).

(** What the item answers when asked for property [n] under profile [p]. *)
Definition reports (E : env) (i : item) (n : str) (p : profile) : result (option value) :=
  get_value E (i_props i) n (Some [p]).

(** A call of set_property reaches profile [p] if it names [p], or names the default
    profile when [p] has no value of its own. *)
Definition reaches (ps : props) (n : str) (P : list profile) (p : profile) : Prop :=
  requested ps n P p \/ (requested ps n P None /\ forall u, ~ own ps n p u).

(** ** Wildcards *)

(** The words that stand between underscores for another property: the element
    name, the subtype, the quantity, the connection. *)
Definition placeholder_words : list str := map L ["EN"; "RST"; "VQ"; "CONN"]%string.

(** [embeds E ps Q n w x]: in text [n], for the profiles [Q], the word [w] stands for
    the text [x]. *)
Inductive embeds (E : env) (ps : props) (Q : list profile) : str -> str -> str -> Prop :=
| embeds_vq n v : get_value E ps VIRTUAL_QUANTITY (Some Q) = Ok (Some v) ->
    embeds E ps Q n (L "VQ") (vtext E v)
| embeds_rst n v : get_value E ps RESOURCE_SUB_TYPE (Some Q) = Ok (Some v) ->
    embeds E ps Q n (L "RST") (slashed v)
| embeds_conn n v : get_value E ps CONNECTION (Some Q) = Ok (Some v) ->
    embeds E ps Q n (L "CONN") (vtext E v)
| embeds_en v : get_value E ps (ELEMENT_NAME (e_ver E)) (Some Q) = Ok (Some v) ->
    embeds E ps Q ITEM_DESCRIPTION (L "EN") (vtext E v).

Definition no_underscore (s : str) : Prop := ~ In "_"%char s.

(** A value that can be found and put back: not empty, without underscores and
    characters special to regular expressions, and no part of a placeholder. *)
Definition harmless_value (x : str) : Prop :=
  plain_pattern x = true /\ no_underscore x /\
  forall w, In w placeholder_words -> contains x w = false.

(** All values that may be put into text [n] for some of the requested profiles. *)
Definition safe_values (E : env) (ps : props) (n : str) (P : list profile) : Prop :=
  forall Q w x, Q <> [] -> (forall q, In q Q -> requested ps n P q) ->
    embeds E ps Q n w x -> harmless_value x.

(** A text without underscores, in which no placeholder word stands exactly between
    two such values. *)
Definition safe_text (E : env) (ps : props) (n : str) (P : list profile) (t : str) : Prop :=
  no_underscore t /\
  forall Q a w1 x w w2 y b, Q <> [] -> (forall q, In q Q -> requested ps n P q) ->
    embeds E ps Q n w1 x -> embeds E ps Q n w2 y -> In w placeholder_words ->
    t <> a ++ x ++ w ++ y ++ b.

(** The property a placeholder word stands for. *)
Definition property_of (ver : version) (w : str) : str :=
  if str_eqb w (L "EN") then ELEMENT_NAME ver
  else if str_eqb w (L "RST") then RESOURCE_SUB_TYPE
  else if str_eqb w (L "VQ") then VIRTUAL_QUANTITY
  else CONNECTION.
(** The values that may be put into a text under profile [p] have no backslashes. *)
Definition no_backslashes (ver : version) (ps : props) (p : profile) : Prop :=
  forall w v, In w placeholder_words -> holds ps (property_of ver w) p v ->
    ~ In "\"%char (slashed v).
