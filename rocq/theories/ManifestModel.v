(** Model of the manifest writer and reader:
    COT/vm_description/ovf/ovf.py:2709-2742 and
    COT/vm_description/ovf/utilities.py:35-75. *)
From Verif Require Import PyBase PyRegex PyDict.

(** "{algo}({file})= {sum}\n", ovf.py:2726-2730 and 2736-2739.  The encoding to
    UTF-8 is not modelled. *)
Definition manifest_line (algo name sum : str) : str :=
  algo ++ L "(" ++ name ++ L ")= " ++ sum ++ [NL].

(** The loop over the File elements, ovf.py:2732-2739.  [elems] are their href
    attributes in document order, [refs] maps an href to the checksum of its
    FileReference. *)
Fixpoint manifest_files (algo : str) (elems : list str) (refs : list (str * str))
  : result str :=
  match elems with
  | [] => Ok []
  | href :: rest =>
      match dget str_eqb href refs with
      | None => Err EKeyError
      | Some sum =>
          do tail <- manifest_files algo rest refs;
          Ok (manifest_line algo href sum ++ tail)
      end
  end.

(** OVF.generate_manifest, ovf.py:2709-2742: the text written to the .mf file.
    [algo] is the upper-cased checksum algorithm, [ovf_name] the base name of
    the descriptor and [ovf_sum] its checksum. *)
Definition generate_manifest (algo ovf_name ovf_sum : str)
  (elems : list str) (refs : list (str * str)) : result str :=
  do tail <- manifest_files algo elems refs;
  Ok (manifest_line algo ovf_name ovf_sum ++ tail).

(** [A-Z0-9] *)
Definition is_algo_char (c : ascii) : bool := in_range 65 90 c || is_digit c.
(** [0-9a-f] *)
Definition is_sum_char (c : ascii) : bool := is_digit c || in_range 97 102 c.

(** r"^\s*([A-Z0-9]+)\s*\((.+)\)\s*=\s*([0-9a-f]+)\s*$", utilities.py:68 *)
Definition re_manifest : re :=
  RSeq (RStar (RChr is_space))
  (RSeq (RGroup 1 (RPlus (RChr is_algo_char)))
  (RSeq (RStar (RChr is_space))
  (RSeq (RLit "("%char)
  (RSeq (RGroup 2 (RPlus RDot))
  (RSeq (RLit ")"%char)
  (RSeq (RStar (RChr is_space))
  (RSeq (RLit "="%char)
  (RSeq (RStar (RChr is_space))
  (RSeq (RGroup 3 (RPlus (RChr is_sum_char)))
  (RSeq (RStar (RChr is_space)) REnd)))))))))).

(** One manifest line: (file name, (algorithm, checksum)) *)
Definition parse_manifest_line (line : str) : option (str * (str * str)) :=
  match re_match re_manifest line with
  | Some g =>
      match group 1 g, group 2 g, group 3 g with
      | Some algo, Some name, Some sum => Some (name, (algo, sum))
      | _, _, _ => None
      end
  | None => None
  end.

(** parse_manifest, utilities.py:35-75 (bad lines are only logged) *)
Definition parse_manifest (text : str) : list (str * (str * str)) :=
  fold_left (fun result line =>
    match line with
    | [] => result
    | _ => match parse_manifest_line line with
           | Some (name, v) => dset str_eqb name v result
           | None => result
           end
    end) (split_on NL text) [].
