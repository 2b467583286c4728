(** What it means to write a hardware item as XML elements and to read it back. *)
From Verif Require Import PyBase ValidationSpec XmlModel NamesModel ItemModel ItemSpec.

(** A child element of the Item element, or an attribute of it. *)
Definition simple_name (v : version) (n : str) : Prop :=
  In n (ITEM_CHILDREN v) \/
  exists k, n = k ++ ATTRIB_KEY_SUFFIX /\ ~ In NL k /\ k <> ITEM_CONFIG v.

(** The text of a value in XML: subtypes are separated by blanks. *)
Definition xml_text (v : value) : str :=
  match v with VStr s => s | VTuple l => join (L " ") l end.

(** The profiles an Item element is for: the words of its [configuration] attribute,
    the default profile without that attribute. *)
Definition element_profiles (v : version) (x : elem) : list profile :=
  match get_attr x (ITEM_CONFIG v) with None => [None] | Some c => map Some (words c) end.

(** The element gives property [n] the text [t]: as the only child of that name, or as
    an attribute. *)
Definition element_says (ns : str) (x : elem) (n t : str) : Prop :=
  (exists c, filter (fun c => str_eqb (etag c) (ns ++ n)) (echildren x) = [c] /\
     etext c = Some t /\ eattrib c = [] /\ echildren c = []) \/
  (exists k, n = k ++ ATTRIB_KEY_SUFFIX /\ get_attr x k = Some t).

(** What an item must satisfy to survive being written and read. *)
Record writable (E : env) (i : item) : Prop := {
  (* only usual properties *)
  w_names : forall n p v, own (i_props i) n p v -> simple_name (e_ver E) n;
  (* profile names are single words *)
  w_words : forall n x v, own (i_props i) n (Some x) v -> x <> [] /\ spaceless x;
  (* subtypes are not empty and have no blanks *)
  w_subtypes : forall p l w, own (i_props i) RESOURCE_SUB_TYPE p (VTuple l) -> In w l ->
    w <> [] /\ ~ In " "%char w;
  (* free texts are not confused with the values they mention *)
  w_texts : forall n q t, text_property (e_ver E) n -> reports E i n q = Ok (Some (VStr t)) ->
    t <> [] /\ safe_values E (i_props i) n [q] /\ safe_text E (i_props i) n [q] t }.
