(** Independent vocabulary for the validators. *)
From Verif Require Import PyBase ValidationModel.
From Coq Require Import Sorting.Sorted Permutation.

(** ** Natural order *)

Definition all_digits (s : str) : Prop := forall c, In c s -> is_digit c = true.
Definition no_digits (s : str) : Prop := forall c, In c s -> is_digit c = false.

(** [splits s ts]: cutting [s] at its maximal digit runs gives [ts]: text,
    number, text, ..., text, where only the first and the last text may be
    empty. *)
Inductive splits_after : str -> list token -> Prop :=
| splits_end t : no_digits t -> splits_after t [TText t]
| splits_more t d s ts :
    no_digits t -> t <> [] -> all_digits d -> d <> [] -> splits_after s ts ->
    splits_after (t ++ d ++ s) (TText t :: TNum (digits_val d) :: ts).
Inductive splits : str -> list token -> Prop :=
| splits_text s ts : splits_after s ts -> splits s ts
| splits_number d s ts :
    all_digits d -> d <> [] -> splits_after s ts ->
    splits (d ++ s) (TText [] :: TNum (digits_val d) :: ts).

(** Order of strings by code points. *)
Inductive str_lt : str -> str -> Prop :=
| lt_nil y b : str_lt [] (y :: b)
| lt_head x y a b : (code x < code y)%N -> str_lt (x :: a) (y :: b)
| lt_tail x a b : str_lt a b -> str_lt (x :: a) (x :: b).

(** Numbers compare as numbers, text as text, at the first difference. *)
Inductive key_lt : list token -> list token -> Prop :=
| klt_nil y b : key_lt [] (y :: b)
| klt_text x y a b : str_lt x y -> key_lt (TText x :: a) (TText y :: b)
| klt_num m n a b : (m < n)%N -> key_lt (TNum m :: a) (TNum n :: b)
| klt_tail x a b : key_lt a b -> key_lt (x :: a) (x :: b).

Definition natural_lt (s1 s2 : str) : Prop :=
  exists k1 k2, splits s1 k1 /\ splits s2 k2 /\ key_lt k1 k2.
Definition natural_eq (s1 s2 : str) : Prop := exists k, splits s1 k /\ splits s2 k.

(** One or more of the superscripts two, three and one. *)
Definition only_superscripts (t : str) : Prop :=
  t <> [] /\ forall c, In c t -> code c = 178%N \/ code c = 179%N \/ code c = 185%N.

(** No superscript digits (see [is_unicode_digit]). *)
Definition plain_text (s : str) : Prop :=
  forall c, In c s -> is_digit c = is_unicode_digit c.

(** [out] lists the elements of [l] in natural order, elements that compare
    equal in their old order. *)
Definition stably_sorted (l out : list str) : Prop :=
  Permutation l out /\
  StronglySorted (fun a b => ~ natural_lt b a) out /\
  (forall k (same : str -> bool),
     (forall s, same s = true <-> splits s k) -> filter same out = filter same l).

(** ** Strings *)

(** [t] is [s] without blanks at both ends. *)
Definition trimmed_of (s t : str) : Prop :=
  exists a b, s = a ++ t ++ b /\
    (forall c, In c a -> is_space c = true) /\ (forall c, In c b -> is_space c = true) /\
    (forall c r, t = c :: r -> is_space c = false) /\
    (forall c r, t = r ++ [c] -> is_space c = false).

(** No blanks anywhere. *)
Definition spaceless (s : str) : Prop := forall c, In c s -> is_space c = false.

(** [m] groups of [n] hexadecimal digits separated by [sep]. *)
Definition hex_groups (n m : nat) (sep : ascii) (s : str) : Prop :=
  exists gs : list str, s = join [sep] gs /\ length gs = m /\
    Forall (fun g => length g = n /\ forall c, In c g -> is_hex c = true) gs.

Definition mac_form (s : str) : Prop :=
  hex_groups 2 6 ":"%char s \/ hex_groups 2 6 "-"%char s \/ hex_groups 4 3 "."%char s.

Definition device_form (s : str) : Prop :=
  exists a b, s = a ++ L ":" ++ b /\ a <> [] /\ b <> [] /\ all_digits a /\ all_digits b.

(** ** Aliases: words separated by any number of blanks, in any case *)
Inductive alias_prefix : list str -> str -> Prop :=
| alias_last w v rest : lower v = lower w -> alias_prefix [w] (v ++ rest)
| alias_more w ws v blanks rest :
    ws <> [] -> lower v = lower w -> (forall c, In c blanks -> c = " "%char) ->
    alias_prefix ws rest -> alias_prefix (w :: ws) (v ++ blanks ++ rest).

Definition ide_aliases : list (list str * str) :=
  [([L "piix4"], L "PIIX4"); ([L "virtio"], L "virtio")].
Definition nic_aliases : list (list str * str) :=
  [([L "e1000e"], L "E1000e"); ([L "e1000"], L "E1000"); ([L "pcnet32"], L "PCNet32");
   ([L "virtio"], L "virtio"); ([L "vmxnet"; L "3"], L "VMXNET3")].
Definition scsi_aliases : list (list str * str) :=
  [([L "bus"; L "logic"], L "buslogic"); ([L "lsi"; L "logic"; L "sas"], L "lsilogicsas");
   ([L "lsi"; L "logic"], L "lsilogic"); ([L "virtio"], L "virtio");
   ([L "virtual"; L "scsi"], L "VirtualSCSI")].

(** The first alias of the table that [s] starts with. *)
Definition first_alias (table : list (list str * str)) (s c : str) : Prop :=
  exists i ws, nth_error table i = Some (ws, c) /\ alias_prefix ws s /\
    forall j ws' c', (j < i)%nat -> nth_error table j = Some (ws', c') -> ~ alias_prefix ws' s.

(** ** Integers as text *)

(** [digits_text t ds]: [t] is [ds], with single underscores allowed between
    digits. *)
Inductive digits_text : str -> str -> Prop :=
| dt_last c : is_digit c = true -> digits_text [c] [c]
| dt_next c t ds : is_digit c = true -> digits_text t ds -> digits_text (c :: t) (c :: ds)
| dt_under c t ds : is_digit c = true -> digits_text t ds ->
    digits_text (c :: "_"%char :: t) (c :: ds).

(** [int_text s z]: [s] is [z] in decimal, with optional blanks around and an
    optional sign. *)
Definition int_text (s : str) (z : Z) : Prop :=
  exists a sign t b ds,
    s = a ++ sign ++ t ++ b /\
    (forall c, In c a -> is_space c = true) /\ (forall c, In c b -> is_space c = true) /\
    digits_text t ds /\
    ((sign = L "-" /\ z = (- Z.of_N (digits_val ds))%Z) \/
     ((sign = [] \/ sign = L "+") /\ z = Z.of_N (digits_val ds))).
