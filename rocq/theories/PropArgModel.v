(** Model of the arguments of "cot edit-properties":
    COT/commands/edit_properties.py:60-202. *)
From Verif Require Import PyBase PyRegex.

(** [[^=+]] *)
Definition word_char (c : ascii) : bool :=
  negb (Ascii.eqb c "="%char || Ascii.eqb c "+"%char).

(** [r"^([^=+]+)(=.*?)?(\+[^=+]+?)?$"], edit_properties.py:139 *)
Definition re_property : re :=
  RSeq (RGroup 1 (RPlus (RChr word_char)))
 (RSeq (ROpt (RGroup 2 (RSeq (RLit "="%char) (RLazy RDot))))
 (RSeq (ROpt (RGroup 3 (RSeq (RLit "+"%char) (RPlusLazy (RChr word_char)))))
       REnd)).

(** [match.group(n)[1:] if match.group(n) else None], edit_properties.py:146-147 *)
Definition tail_of (g : option str) : option str :=
  match g with
  | Some (_ :: s) => Some s
  | _ => None
  end.

(** A property as stored: key, value, type. *)
Definition property : Type := (str * option str * option str)%type.

(** One turn of the loop, edit_properties.py:139-152 *)
Definition parse_property (prop : str) : result property :=
  match re_match re_property prop with
  | None => Err EInvalidInput
  | Some g =>
      match group 1 g with
      | Some key => Ok (key, tail_of (group 2 g), tail_of (group 3 g))
      | None => Err EAttributeError
      end
  end.

(** The loop, edit_properties.py:129-152 *)
Fixpoint parse_properties (value : list str) : result (list property) :=
  match value with
  | [] => Ok []
  | prop :: value' =>
      do p <- parse_property prop;
      do l <- parse_properties value';
      Ok (p :: l)
  end.

(** The attributes of the command: properties, transports, labels, descriptions,
    edit_properties.py:60-70. *)
Record edit_props : Type := mkep {
  ep_properties : list property;
  ep_transports : list str;
  ep_labels : list str;
  ep_descriptions : list str
}.

(** [properties.setter], edit_properties.py:127-154: the attribute is assigned once,
    after the loop.  The pair is the state afterwards and how the call ended. *)
Definition set_properties (value : list str) (e : edit_props) : edit_props * result unit :=
  match parse_properties value with
  | Ok l => (mkep l (ep_transports e) (ep_labels e) (ep_descriptions e), Ok tt)
  | Err x => (e, Err x)
  end.

(** [_KNOWN_TRANSPORTS], edit_properties.py:156-161 *)
Definition known_transports : list (str * str) :=
  [(L "iso", L "iso"); (L "vmware", L "com.vmware.guestInfo");
   (L "ibm", L "http://www.ibm.com/xmlns/ovf/transport/filesystem/etc/ovf-transport")].

Fixpoint alias (t : list (str * str)) (v : str) : str :=
  match t with
  | [] => v
  | (k, x) :: t' => if str_eqb v k then x else alias t' v
  end.

(** [transports.setter], edit_properties.py:168-178 (the warning about an unknown
    value is only logged and is not modelled). *)
Definition set_transports (value : list str) (e : edit_props) : edit_props :=
  mkep (ep_properties e) (map (alias known_transports) value) (ep_labels e) (ep_descriptions e).

Definition nonempty {A : Type} (l : list A) : bool := match l with [] => false | _ => true end.

(** [ready_to_run], edit_properties.py:180-202; [super_ready] is the answer of the
    general check in command.py, which is asked last. *)
Definition ready_to_run (super_ready : bool) (e : edit_props) : bool :=
  let n := length (ep_properties e) in
  if nonempty (ep_labels e) && negb (nonempty (ep_properties e)) then false
  else if nonempty (ep_descriptions e) && negb (nonempty (ep_properties e)) then false
  else if nonempty (ep_labels e) && negb (Nat.eqb (length (ep_labels e)) n) then false
  else if nonempty (ep_descriptions e) && negb (Nat.eqb (length (ep_descriptions e)) n) then false
  else super_ready.
