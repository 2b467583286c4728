(** Vocabulary for manifests. *)
From Verif Require Import PyBase PyDict.

(** A file name that fits on one manifest line. *)
Definition file_name_ok (name : str) : Prop := name <> [] /\ ~ In NL name.

(** A non-empty string of lower-case hexadecimal digits. *)
Definition hex_digest (sum : str) : Prop :=
  sum <> [] /\ forall c, In c sum -> In c (L "0123456789abcdef").

(** The algorithm names COT writes. *)
Definition algorithm_name (algo : str) : Prop := algo = L "SHA1" \/ algo = L "SHA256".

(** What a reader should see for [name]: the checksum of the last line written
    for it (the descriptor line comes first, then the File elements). *)
Definition expected_entry (algo ovf_name ovf_sum : str) (elems : list str)
  (refs : list (str * str)) (name : str) : option (str * str) :=
  if mem_str name elems then
    match dget str_eqb name refs with Some sum => Some (algo, sum) | None => None end
  else if str_eqb name ovf_name then Some (algo, ovf_sum) else None.

Definition no_newline (s : str) : Prop := ~ In NL s.

(** Only blanks. *)
Definition blanks (s : str) : Prop := forallb is_space s = true.
