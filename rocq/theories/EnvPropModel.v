(** Model of the environment properties of an OVF: COT/vm_description/ovf/ovf.py:561-586
    and 1808-1963.

    The document is the VirtualSystem element [vs]; [self.product_section] is its child
    found by [find_child] (ovf.py:233-236); nothing in COT removes that section, so the
    attribute is None exactly if there is no such child.  Values are texts; the code
    also takes other objects and uses [str] of them.  Operations return the document
    they leave behind even when they raise. *)
From Verif Require Import PyBase PyDict PyRegex XmlModel NamesModel ProfileModel NetworkModel.

(** name_helper.py:236, 249-260, 381, 459-461, 516-518 *)
Definition PRODUCT_SECTION (v : version) : str :=
  OVF_NS v ++ match v with V0 => L "Section" | _ => L "ProductSection" end.
Definition PRODUCT_SECTION_ATTRIB (v : version) : list (str * str) :=
  match v with V0 => [(XSI_TYPE, L "ovf:ProductSection_Type")] | _ => [] end.
Definition PROPERTY (v : version) : str := OVF_NS v ++ L "Property".
Definition PROP_KEY (v : version) : str := OVF_NS v ++ L "key".
Definition PROP_VALUE (v : version) : str :=
  OVF_NS v ++ match v with V0 => L "defaultValue" | _ => L "value" end.
Definition PROP_QUAL (v : version) : str := OVF_NS v ++ L "qualifiers".
Definition PROP_TYPE (v : version) : str := OVF_NS v ++ L "type".
Definition PROP_USER_CONFIGABLE (v : version) : str :=
  OVF_NS v ++ match v with V0 => L "configurableByUser" | _ => L "userConfigurable" end.
Definition PROPERTY_LABEL (v : version) : str := OVF_NS v ++ L "Label".
Definition PROPERTY_DESC (v : version) : str := OVF_NS v ++ L "Description".

(** ovf.py:233-236 *)
Definition product_section (v : version) (vs : elem) : result (option elem) :=
  find_child vs (PRODUCT_SECTION v) (PRODUCT_SECTION_ATTRIB v) false.

(** ** Reading *)

(** [environment_properties], ovf.py:561-586: key, value, qualifiers, type,
    user_configurable, label, description *)
Record prop_info : Type := mkInfo {
  pi_key : option str; pi_value : option str; pi_qual : str; pi_type : str;
  pi_user : str; pi_label : str; pi_desc : str }.
Definition get_attr_or (e : elem) (k : str) (d : str) : str :=
  match get_attr e k with Some x => x | None => d end.
Definition info_of (v : version) (e : elem) : prop_info :=
  mkInfo (get_attr e (PROP_KEY v)) (get_attr e (PROP_VALUE v)) (get_attr_or e (PROP_QUAL v) [])
    (get_attr_or e (PROP_TYPE v) []) (get_attr_or e (PROP_USER_CONFIGABLE v) [])
    (findtext (PROPERTY_LABEL v) e) (findtext (PROPERTY_DESC v) e).
Definition environment_properties (v : version) (vs : elem) : result (list prop_info) :=
  match v with
  | V0 => Ok []
  | _ => do o <- product_section v vs;
         Ok (match o with
             | None => []
             | Some sec => map (info_of v) (findall (PROPERTY v) sec)
             end)
  end.

(** [get_property_value], ovf.py:1808-1823 *)
Definition get_property_value (v : version) (vs : elem) (key : str) : result (option str) :=
  match v with
  | V0 => Ok None
  | _ => do o <- product_section v vs;
         match o with
         | None => Ok None
         | Some sec =>
             do p <- find_child sec (PROPERTY v) [(PROP_KEY v, key)] false;
             Ok (match p with None => None | Some e => get_attr e (PROP_VALUE v) end)
         end
  end.

(** ** Checking a value, ovf.py:1825-1875 *)

Definition yes_words : list str := [L "true"; L "1"; L "t"; L "y"; L "yes"].
Definition no_words : list str := [L "false"; L "0"; L "f"; L "n"; L "no"].

(** ["MaxLen\((\d+)\)"] and ["MinLen\((\d+)\)"] *)
Definition LIMIT (name : str) : re :=
  RSeq (RStr (name ++ L "(")) (RSeq (RGroup 1 (RPlus (RChr is_digit))) (RLit ")"%char)).

(** [int(match.group(1))] for the first occurrence, if there is one *)
Definition limit (name qual : str) : option N :=
  match re_search (LIMIT name) qual with
  | Some g => match group 1 g with Some d => Some (digits_val d) | None => None end
  | None => None
  end.

(** The type: canonical form of the value *)
Definition canonical (ptype value : str) : result str :=
  if str_eqb ptype (L "boolean") then
    if mem_str (lower value) yes_words then Ok (L "true")
    else if mem_str (lower value) no_words then Ok (L "false")
    else Err EValueUnsupported
  else Ok value.

Definition too_long (qual value : str) : bool :=
  match limit (L "MaxLen") qual with
  | Some n => (n <? N.of_nat (length value))%N
  | None => false
  end.
Definition too_short (qual value : str) : bool :=
  match limit (L "MinLen") qual with
  | Some n => (N.of_nat (length value) <? n)%N
  | None => false
  end.

Definition validate_value (v : version) (prop : elem) (value : str) : result str :=
  do w <- canonical (get_attr_or prop (PROP_TYPE v) []) value;
  let qual := get_attr_or prop (PROP_QUAL v) [] in
  if too_long qual w then Err EValueUnsupported
  else if too_short qual w then Err EValueUnsupported
  else Ok w.

(** ** Setting a property, ovf.py:1877-1934 *)

(** The document with the property as edited so far: [old] is the element found, None
    if a new one was appended. *)
Definition put_property (v : version) (vs sec : elem) (key : str) (old : option elem) (prop : elem) : elem :=
  let sec' := match old with
              | Some _ => set_children (update_first (child_match (PROPERTY v) [(PROP_KEY v, key)])
                                          (fun _ => prop) (echildren sec)) sec
              | None => set_children (echildren sec ++ [prop]) sec
              end in
  set_children (update_first (child_match (PRODUCT_SECTION v) (PRODUCT_SECTION_ATTRIB v))
                  (fun _ => sec') (echildren vs)) vs.

(** [if text is not None: set_or_make_child(prop, tag, text)] *)
Definition set_note (prop : elem) (tag : str) (text : option str) : result elem :=
  match text with
  | None => Ok prop
  | Some t => do r <- set_or_make_child prop tag (Some t) [] []; Ok (fst r)
  end.

Definition set_opt_attr (k : str) (x : option str) (e : elem) : elem :=
  match x with Some t => set_attr k t e | None => e end.

(** [str(user_configurable).lower()] *)
Definition bool_str (b : bool) : str := if b then L "true" else L "false".

Definition set_property (v : version) (vs : elem) (key : str) (value : option str)
    (user_configurable : option bool) (property_type label description : option str)
    : elem * result (option str) :=
  match v with
  | V0 => (vs, Err ENotImplemented)
  | _ =>
    match ensure_section v vs (PRODUCT_SECTION v) (L "Product Information") (PRODUCT_SECTION_ATTRIB v) with
    | Err e => (vs, Err e)
    | Ok (vs1, sec) =>
      match find_child sec (PROPERTY v) [(PROP_KEY v, key)] false with
      | Err e => (vs1, Err e)
      | Ok old =>
        let prop0 := match old with
                     | Some p => p
                     | None => Elem (PROPERTY v) [(PROP_KEY v, key)] None None []
                     end in
        let ptype := match old, property_type with
                     | None, None => Some (L "string")
                     | _, _ => property_type
                     end in
        let prop1 := set_opt_attr (PROP_USER_CONFIGABLE v) (option_map bool_str user_configurable) prop0 in
        let prop2 := set_opt_attr (PROP_TYPE v) ptype prop1 in
        let value1 := match ptype, value with
                      | Some _, None => get_attr prop2 (PROP_VALUE v)
                      | _, _ => value
                      end in
        match (match value1 with
               | None => Ok None
               | Some x => do w <- validate_value v prop2 x; Ok (Some w)
               end) with
        | Err e => (put_property v vs1 sec key old prop2, Err e)
        | Ok w =>
          let prop3 := set_opt_attr (PROP_VALUE v) w prop2 in
          match set_note prop3 (PROPERTY_LABEL v) label with
          | Err e => (put_property v vs1 sec key old prop3, Err e)
          | Ok prop4 =>
            match set_note prop4 (PROPERTY_DESC v) description with
            | Err e => (put_property v vs1 sec key old prop4, Err e)
            | Ok prop5 => (put_property v vs1 sec key old prop5, Ok w)
            end
          end
        end
      end
    end
  end.

(** ** Importing a configuration file, ovf.py:1936-1963 *)

Definition CR : ascii := ascii_of_N 13.

(** A file opened in text mode: "\r\n" and "\r" are read as "\n" *)
Fixpoint universal_newlines (s : str) : str :=
  match s with
  | [] => []
  | c :: s' =>
      if Ascii.eqb c CR then
        NL :: match s' with
              | d :: s'' => if Ascii.eqb d NL then universal_newlines s'' else universal_newlines s'
              | [] => []
              end
      else c :: universal_newlines s'
  end.

(** [for line in fileobj], each without its newline.  After a final newline this gives
    one more empty line than Python does; empty lines are skipped. *)
Definition file_lines (text : str) : list str := split_on NL (universal_newlines text).

(** [(not line) or line[0] == '!'] for the stripped line *)
Definition skipped (line : str) : bool :=
  match line with [] => true | c :: _ => Ascii.eqb c "!"%char end.

(** ["{0}-{1:04d}".format(literal, n)] *)
Definition config_key (literal : str) (n : N) : str :=
  literal ++ L "-" ++ repeat "0"%char (4 - length (dec n)) ++ dec n.

Fixpoint import_lines (v : version) (vs : elem) (literal : str) (uc : option bool) (num : N)
    (lines : list str) : elem * result unit :=
  match lines with
  | [] => (vs, Ok tt)
  | line :: lines' =>
      let line := strip line in
      if skipped line then import_lines v vs literal uc num lines'
      else
        let num := (num + 1)%N in
        match set_property v vs (config_key literal num) (Some line) uc None None None with
        | (vs', Err e) => (vs', Err e)
        | (vs', Ok _) => import_lines v vs' literal uc num lines'
        end
  end.

(** [config_file_to_properties]; [literal] is the platform's LITERAL_CLI_STRING, which
    is None or a non-empty text *)
Definition config_file_to_properties (v : version) (vs : elem) (literal : option str) (uc : option bool)
    (text : str) : elem * result unit :=
  match literal with
  | None => (vs, Err ENotImplemented)
  | Some l => import_lines v vs l uc 0 (file_lines text)
  end.
