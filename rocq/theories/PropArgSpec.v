(** What a "key[=value][+type]" argument means, without reference to the regular
    expression that reads it. *)
From Verif Require Import PyBase.

Definition NLc : ascii := ascii_of_nat 10.

(** keys and types: not empty, without "=" and "+" *)
Definition word (w : str) : Prop :=
  w <> [] /\ ~ In "="%char w /\ ~ In "+"%char w.

(** the text of an argument *)
Definition prop_text (key : str) (value type : option str) : str :=
  key ++ match value with Some v => "="%char :: v | None => [] end
      ++ match type with Some t => "+"%char :: t | None => [] end.

(** [v] ends with "+" and a word, so that it reads as a value and a type *)
Definition ends_typed (v : str) : Prop :=
  exists v' t, v = v' ++ "+"%char :: t /\ word t.

(** [means prop key value type]: [prop] is the text of the key, value and type, and
    whatever can be read as a type is. *)
Definition means (prop key : str) (value type : option str) : Prop :=
  prop = prop_text key value type /\ word key /\
  match type with
  | Some t => word t
  | None => forall v, value = Some v -> ~ ends_typed v
  end.

(** What a word given for a transport stands for. *)
Inductive means_transport : str -> str -> Prop :=
| t_iso : means_transport (L "iso") (L "iso")
| t_vmware : means_transport (L "vmware") (L "com.vmware.guestInfo")
| t_ibm : means_transport (L "ibm") (L "http://www.ibm.com/xmlns/ovf/transport/filesystem/etc/ovf-transport")
| t_other s : ~ In s [L "iso"; L "vmware"; L "ibm"] -> means_transport s s.
