(** Model of the quantity options of edit-hardware (cpus, memory, nics,
    serial_ports), COT/commands/edit_hardware.py:125-181,225-234. *)
From Verif Require Import PyBase PyRegex ValidationModel PlatformModel.
Local Open Scope Z_scope.

(** MEMORY_REGEXP, edit_hardware.py:137:
    optional blanks, digits, optional blanks, an optional letter of mMgG, an
    optional i, an optional b or B, optional blanks. *)
Definition is_unit (c : ascii) : bool :=
  Ascii.eqb c "m" || Ascii.eqb c "M" || Ascii.eqb c "g" || Ascii.eqb c "G".
Definition is_byte (c : ascii) : bool := Ascii.eqb c "b" || Ascii.eqb c "B".
Definition re_memory : re :=
  RSeq (RStar (RChr is_space)) (RSeq (RGroup 1 (RPlus (RChr is_digit)))
  (RSeq (RStar (RChr is_space)) (RSeq (ROpt (RGroup 2 (RChr is_unit)))
  (RSeq (ROpt (RLit "i"%char)) (RSeq (ROpt (RChr is_byte))
  (RSeq (RStar (RChr is_space)) REnd)))))).

(** The value computed by the setter of [memory], edit_hardware.py:145-173, in
    MiB.  Group 1 is all digits, so that [int] is its decimal value. *)
Definition memory_value (value : str) : result Z :=
  match re_match re_memory value with
  | None => Err EInvalidInput
  | Some g =>
      let mem_value :=
        match group 1 g with Some d => Z.of_N (digits_val d) | None => 0 end in
      if mem_value <=? 0 then Err EInvalidInput
      else
        match group 2 g with
        | Some u =>
            if str_eqb u (L "M") || str_eqb u (L "m") then Ok mem_value
            else if str_eqb u (L "G") || str_eqb u (L "g") then Ok (mem_value * 1024)
            else if mem_value <=? 64 then Ok (mem_value * 1024) else Ok mem_value
        | None => if mem_value <=? 64 then Ok (mem_value * 1024) else Ok mem_value
        end
  end.

(** [int(value)] of a text and the checks before the platform's:
    cpus edit_hardware.py:126-132, nics 183-188, serial_ports 229-234. *)
Definition option_value (h : hardware) (value : str) : result Z :=
  match h with
  | HMemory => memory_value value
  | HCpus =>
      match py_int value with
      | None => Err EInvalidInput
      | Some z => if z <? 1 then Err EInvalidInput else Ok z
      end
  | HNics | HSerials =>
      match py_int value with
      | None => Err EInvalidInput
      | Some z => non_negative_int (AInt z)
      end
  end.

(** The options with the platform's memory of checked values. *)
Record hw_options : Type := mkHwOptions {
  o_cpus : option Z; o_memory : option Z; o_nics : option Z; o_serials : option Z;
  o_checked : cache }.
Definition no_hw_options : hw_options := mkHwOptions None None None None [].

Definition store (h : hardware) (z : Z) (o : hw_options) : hw_options :=
  match h with
  | HCpus => mkHwOptions (Some z) (o_memory o) (o_nics o) (o_serials o) (o_checked o)
  | HMemory => mkHwOptions (o_cpus o) (Some z) (o_nics o) (o_serials o) (o_checked o)
  | HNics => mkHwOptions (o_cpus o) (o_memory o) (Some z) (o_serials o) (o_checked o)
  | HSerials => mkHwOptions (o_cpus o) (o_memory o) (o_nics o) (Some z) (o_checked o)
  end.
Definition with_checked (o : hw_options) (c : cache) : hw_options :=
  mkHwOptions (o_cpus o) (o_memory o) (o_nics o) (o_serials o) c.

(** UI.validate_value, COT/ui/ui.py:143-158, with the user's [answer] to the
    question, if it comes to that.  Only a ValueError is caught. *)
Definition validate_value (r : result unit) (answer : bool) : result unit :=
  match r with
  | Ok _ => Ok tt
  | Err e => if is_value_error e then (if answer then Ok tt else Err e) else Err e
  end.

(** The setters, edit_hardware.py:125-181,225-234: the text given for option
    [h] and the user's answer. *)
Definition set_option (p : platform) (o : hw_options) (h : hardware) (value : str) (answer : bool)
  : result unit * hw_options :=
  match option_value h value with
  | Err e => (Err e, o)
  | Ok z =>
      let '(r, c) := validate p h z (o_checked o) in
      let o' := with_checked o c in
      match validate_value r answer with
      | Err e => (Err e, o')
      | Ok _ => (Ok tt, store h z o')
      end
  end.
