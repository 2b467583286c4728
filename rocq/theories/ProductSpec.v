(** What users of edit-product rely on, in terms of the elements of the descriptor. *)
From Verif Require Import PyBase PyDict XmlModel XmlSpec NamesModel ProfileModel ProfileSpec EnvPropModel EnvPropSpec PlatformModel ProductModel.

(** The element that holds each text, and the text that is asked for *)
Definition texts (v : version) (o : options) : list (str * option str) :=
  [(PRODUCT v, o_product o); (VENDOR v, o_vendor o); (VERSION v, o_version o); (FULL_VERSION v, o_full o);
   (PRODUCT_URL v, o_product_url o); (VENDOR_URL v, o_vendor_url o); (APPLICATION_URL v, o_app_url o)].

Definition is_section (v : version) (e : elem) : Prop := answers (PRODUCT_SECTION v) (PRODUCT_SECTION_ATTRIB v) e.
Definition fresh_section (v : version) : elem :=
  Elem (PRODUCT_SECTION v) (PRODUCT_SECTION_ATTRIB v) None None [Elem (INFO v) [] (Some (L "Product Information")) None []].
(** The VirtualSystem [vs] holds the product section [sec] before (a new one counts as
    there), [vs'] holds [sec'] in its place; all else is the same. *)
Definition section_replaced (v : version) (vs vs' sec sec' : elem) : Prop :=
  same_but_children vs vs' /\ is_section v sec /\ is_section v sec' /\
  exists A B, echildren vs' = A ++ sec' :: B /\ (forall x, In x (A ++ B) -> ~ is_section v x) /\
    (echildren vs = A ++ sec :: B \/ (echildren vs = A ++ B /\ sec = fresh_section v)).

(** [sec'] is [sec] with the class and the texts asked for; other attributes, other elements
    and their order are as before. *)
Record section_edited (v : version) (o : options) (sec sec' : elem) : Prop := {
  se_class : get_attr sec' (PRODUCT_CLASS v) = match o_class o with Some c => Some c | None => get_attr sec (PRODUCT_CLASS v) end;
  se_attrs : forall k, k <> PRODUCT_CLASS v -> get_attr sec' k = get_attr sec k;
  se_set : forall tag t, In (tag, Some t) (texts v o) -> exists e, with_tag tag sec' = [e] /\ etext e = Some t;
  se_rest : forall keep : str -> bool, (forall tag t, In (tag, Some t) (texts v o) -> keep tag = false) ->
    filter (fun c => keep (etag c)) (echildren sec') = filter (fun c => keep (etag c)) (echildren sec) }.

(** Nothing but empty texts is given. *)
Definition nothing_given (o : options) : Prop :=
  forall x, In x (o_class o :: map snd (texts V1 o)) -> x = None \/ x = Some [].
(** Two elements of a kind that is to be set *)
Definition doubled (v : version) (o : options) (vs : elem) : Prop :=
  exists sec tag t A x B y C, In sec (echildren vs) /\ is_section v sec /\ In (tag, Some t) (texts v o) /\
    echildren sec = A ++ x :: B ++ y :: C /\ etag x = tag /\ etag y = tag.
