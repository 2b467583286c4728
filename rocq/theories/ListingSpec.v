(** What the outputs of the disk programs say. *)
From Verif Require Import PyBase.

(** The number before the first " bytes" that has a number before it. *)
Definition is_number (n : str) : Prop := n <> [] /\ forall c, In c n -> is_digit c = true.
Definition byte_count (out n : str) : Prop :=
  exists a b, out = a ++ n ++ L " bytes" ++ b /\ is_number n /\
    (forall x c, a = x ++ [c] -> is_digit c = false) /\
    (forall a' c b', out = a' ++ c :: L " bytes" ++ b' -> is_digit c = true -> length (a ++ n) <= length (a' ++ [c])).

(** A line of words with blanks between them. *)
Definition is_word (w : str) : Prop := w <> [] /\ forall c, In c w -> is_space c = false.
Definition blank (s : str) : Prop := forall c, In c s -> is_space c = true.
Inductive spread : list str -> str -> Prop :=
| spread_none s : blank s -> spread [] s
| spread_last s w s' : blank s -> is_word w -> blank s' -> spread [w] (s ++ w ++ s')
| spread_more s w s' ws t : blank s -> is_word w -> blank s' -> s' <> [] -> spread ws t -> spread (w :: ws) (s ++ w ++ s' ++ t).

Definition one_line (s : str) : Prop := ~ In "010"%char s.
Definition text_of (lines : list str) : str := join ["010"%char] lines.

(** "-----aD        13706       2016 Aug 04 input.ovf" *)
Definition fat_entry (name line : str) : Prop :=
  one_line line /\ (forall t, line <> L "Listed" ++ t) /\ exists a b c d e, spread [a; b; c; d; e; name] line.
(** A line about no file. *)
Definition fat_remark (line : str) : Prop := one_line line /\ ((exists t, line = L "Listed" ++ t) \/ blank line).

(** A line of isoinfo about this file, and one about no file. *)
Definition iso_entry (name line : str) : Prop := one_line line /\ line = L "/" ++ name.
(** Without Rock Ridge the name is shown in upper case and with the version 1. *)
Definition iso_plain (name line : str) : Prop := exists shown, one_line line /\ line = L "/" ++ shown ++ L ";1" /\ name = lower shown.
Definition iso_remark (line : str) : Prop := one_line line /\ forall t, line <> L "/" ++ t.

(** Some lines are about files, the others are not. *)
Inductive listing (entry : str -> str -> Prop) (remark : str -> Prop) : list str -> list str -> Prop :=
| li_nil : listing entry remark [] []
| li_file n l ns ls : entry n l -> listing entry remark ns ls -> listing entry remark (n :: ns) (l :: ls)
| li_other l ns ls : remark l -> listing entry remark ns ls -> listing entry remark ns (l :: ls).

(** The header of a VMDK: the sub-format is in quotes on its line, after which there are no
    other quotes. *)
Definition declares (header sub : str) : Prop :=
  exists a b c, header = a ++ L "createType=""" ++ sub ++ L """" ++ b ++ c /\
    one_line sub /\ one_line b /\ ~ In """"%char b /\ (c = [] \/ exists t, c = "010"%char :: t) /\
    forall a' t, header = a' ++ L "createType=""" ++ t -> length a <= length a'.
