(** What users rely on for environment properties, in terms of the elements of the
    descriptor. *)
From Verif Require Import PyBase PyDict XmlModel XmlSpec NamesModel ValidationSpec ProfileSpec EnvPropModel.

(** The Property elements of the document. *)
Definition properties (v : version) (vs : elem) : list elem :=
  flat_map (with_tag (PROPERTY v))
    (filter (child_match (PRODUCT_SECTION v) (PRODUCT_SECTION_ATTRIB v)) (echildren vs)).
(** The rest of the document. *)
Definition outside_product (v : version) (vs : elem) : list elem :=
  filter (fun c => negb (child_match (PRODUCT_SECTION v) (PRODUCT_SECTION_ATTRIB v) c)) (echildren vs).
Definition other_product_content (v : version) (vs : elem) : list elem :=
  flat_map (fun s => filter (fun c => negb (str_eqb (etag c) (PROPERTY v))) (echildren s))
    (filter (child_match (PRODUCT_SECTION v) (PRODUCT_SECTION_ATTRIB v)) (echildren vs)).
Definition key_of (v : version) (p : elem) : option str := get_attr p (PROP_KEY v).
Definition value_of (v : version) (p : elem) : option str := get_attr p (PROP_VALUE v).
Definition has_key (v : version) (key : str) (p : elem) : bool :=
  match key_of v p with Some k => str_eqb k key | None => false end.

(** The first "name(number)" in the qualifiers says [n]. *)
Definition says (name qual : str) (n : N) : Prop :=
  exists a ds b, qual = a ++ name ++ L "(" ++ ds ++ L ")" ++ b /\ all_digits ds /\ ds <> [] /\
    n = digits_val ds /\
    forall a' ds' b', qual = a' ++ name ++ L "(" ++ ds' ++ L ")" ++ b' -> all_digits ds' -> ds' <> [] ->
      length a <= length a'.

(** What a value of this type is stored as. *)
Definition stored_as (ptype value w : str) : Prop :=
  (ptype = L "boolean" ->
     (In (lower value) [L "true"; L "1"; L "t"; L "y"; L "yes"] /\ w = L "true") \/
     (In (lower value) [L "false"; L "0"; L "f"; L "n"; L "no"] /\ w = L "false")) /\
  (ptype <> L "boolean" -> w = value).

(** The stored value obeys type and qualifiers. *)
Record conforms (ptype qual w : str) : Prop := {
  cf_bool : ptype = L "boolean" -> w = L "true" \/ w = L "false";
  cf_max : forall n, says (L "MaxLen") qual n -> (N.of_nat (length w) <= n)%N;
  cf_min : forall n, says (L "MinLen") qual n -> (n <= N.of_nat (length w))%N }.
Definition prop_conforms (v : version) (p : elem) : Prop :=
  forall w, value_of v p = Some w ->
  conforms (get_attr_or p (PROP_TYPE v) []) (get_attr_or p (PROP_QUAL v) []) w.

(** [p'] is the property [p] with these settings, those that are given, and the value
    [w]; every other attribute and child is as in [p]. *)
Record property_set (v : version) (uc : option bool) (ptype label desc w : option str) (p p' : elem) : Prop := {
  ps_tag : etag p' = etag p; ps_text : etext p' = etext p; ps_tail : etail p' = etail p;
  ps_value : value_of v p' = match w with Some x => Some x | None => value_of v p end;
  ps_type : get_attr p' (PROP_TYPE v) = match ptype with Some t => Some t | None => get_attr p (PROP_TYPE v) end;
  ps_user : get_attr p' (PROP_USER_CONFIGABLE v) =
            match uc with Some true => Some (L "true") | Some false => Some (L "false")
                        | None => get_attr p (PROP_USER_CONFIGABLE v) end;
  ps_attr : forall k, k <> PROP_VALUE v -> k <> PROP_TYPE v -> k <> PROP_USER_CONFIGABLE v ->
            get_attr p' k = get_attr p k;
  ps_label : match label with
             | Some t => exists e, with_tag (PROPERTY_LABEL v) p' = [e] /\ etext e = Some t
             | None => with_tag (PROPERTY_LABEL v) p' = with_tag (PROPERTY_LABEL v) p
             end;
  ps_desc : match desc with
            | Some t => exists e, with_tag (PROPERTY_DESC v) p' = [e] /\ etext e = Some t
            | None => with_tag (PROPERTY_DESC v) p' = with_tag (PROPERTY_DESC v) p
            end;
  ps_rest : forall t, t <> PROPERTY_LABEL v -> t <> PROPERTY_DESC v -> with_tag t p' = with_tag t p }.

Definition new_property (v : version) (key : str) : elem := Elem (PROPERTY v) [(PROP_KEY v, key)] None None [].

(** [p] is the property with this key before or, if [isnew], a new one appended; [p']
    is it after; all other properties are where they were. *)
Definition edited_at (v : version) (vs vs' : elem) (key : str) (isnew : bool) (p p' : elem) : Prop :=
  exists pre post, properties v vs' = pre ++ p' :: post /\
    key_of v p' = Some key /\ (forall x, In x (pre ++ post) -> key_of v x <> Some key) /\
    (if isnew then post = [] /\ properties v vs = pre /\ p = new_property v key
     else properties v vs = pre ++ p :: post).

(** The type to be set: a new property gets one in any case. *)
Definition type_set (isnew : bool) (property_type : option str) : option str :=
  match property_type with
  | Some t => Some t
  | None => if isnew then Some (L "string") else None
  end.

(** The value to be checked: the one given or, if the type is set, the one there is. *)
Definition value_checked (v : version) (isnew : bool) (property_type value : option str) (p : elem) : option str :=
  match value, type_set isnew property_type with
  | Some x, _ => Some x
  | None, Some _ => value_of v p
  | None, None => None
  end.

(** There is at most one product section and at most one property with a key. *)
Definition unambiguous (v : version) (vs : elem) (key : str) : Prop :=
  (forall A x M y B, echildren vs = A ++ x :: M ++ y :: B ->
     answers (PRODUCT_SECTION v) (PRODUCT_SECTION_ATTRIB v) x ->
     ~ answers (PRODUCT_SECTION v) (PRODUCT_SECTION_ATTRIB v) y) /\
  (forall A x M y B, properties v vs = A ++ x :: M ++ y :: B ->
     key_of v x = Some key -> key_of v y <> Some key) /\
  (forall x, In x (properties v vs) -> key_of v x = Some key ->
     length (with_tag (PROPERTY_LABEL v) x) <= 1 /\ length (with_tag (PROPERTY_DESC v) x) <= 1).

(** The lines of a text that count: cut at the newline characters (line feed and
    carriage return), without blanks at the ends, not empty, not comments. *)
Inductive cut : str -> list str -> Prop :=
| cut_last : forall s, (forall c, In c s -> c <> ascii_of_nat 10 /\ c <> ascii_of_nat 13) -> cut s [s]
| cut_more : forall s c rest ls, (forall c, In c s -> c <> ascii_of_nat 10 /\ c <> ascii_of_nat 13) ->
    c = ascii_of_nat 10 \/ c = ascii_of_nat 13 -> cut rest ls -> cut (s ++ c :: rest) (s :: ls).
Inductive meaningful : list str -> list str -> Prop :=
| mf_nil : meaningful [] []
| mf_blank : forall l ls ms, trimmed_of l [] -> meaningful ls ms -> meaningful (l :: ls) ms
| mf_comment : forall l t ls ms, trimmed_of l ("!"%char :: t) -> meaningful ls ms -> meaningful (l :: ls) ms
| mf_line : forall l c t ls ms, trimmed_of l (c :: t) -> c <> "!"%char -> meaningful ls ms ->
    meaningful (l :: ls) ((c :: t) :: ms).

(** The i-th key: the number in decimal with at least four digits. *)
Definition numbered_key (literal : str) (n : nat) (key : str) : Prop :=
  exists ds, key = literal ++ L "-" ++ ds /\ all_digits ds /\ digits_val ds = N.of_nat n /\
    4 <= length ds /\ (length ds = 4 \/ forall d t, ds = d :: t -> d <> "0"%char).

(** The type that a property with this key has, or gets when it is created. *)
Definition declared_type (v : version) (vs : elem) (key : str) : str :=
  match filter (has_key v key) (properties v vs) with
  | p :: _ => get_attr_or p (PROP_TYPE v) []
  | [] => L "string"
  end.
