(** The subtype of the controllers that add-disk adds or uses (C75). *)
From Coq Require Import List Ascii.
Import ListNotations.
From Verif Require Import PyBase PyDict NamesModel ItemModel ItemSpec HardwareModel HardwareSpec CountSpec FindSpec.

(** All of the devices [ks], in this order, have the subtype [x], but for some at the start that
    have no subtype, or different ones in different profiles. *)
Definition share (h : hw) (ks : list str) (x : value) : Prop :=
  exists ks1 ks2, ks = ks1 ++ ks2 /\ ks2 <> [] /\
    (forall k i w, In k ks1 -> In (k, i) h -> ~ only_value (i_props i) RESOURCE_SUB_TYPE w) /\
    (forall k i, In k ks2 -> In (k, i) h -> only_value (i_props i) RESOURCE_SUB_TYPE x).

(** [t] is [s] in upper case: every small letter is the capital letter at the same place of the
    alphabet, everything else is as it was. *)
Definition small_letters : str := L "abcdefghijklmnopqrstuvwxyz".
Definition capital_letters : str := L "ABCDEFGHIJKLMNOPQRSTUVWXYZ".
Definition in_capitals (s t : str) : Prop :=
  Forall2 (fun a b => In (a, b) (combine small_letters capital_letters) \/ (a = b /\ ~ In a small_letters)) s t.
