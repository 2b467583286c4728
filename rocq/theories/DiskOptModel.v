(** Model of the options of the add-disk command, COT/commands/add_disk.py. *)
From Verif Require Import PyBase ValidationModel.

(** [int(s) > n] *)
Definition int_above (s : str) (n : Z) : result bool :=
  match py_int s with Some z => Ok (n <? z)%Z | None => Err EValueError end.
(** [int(a) > m or int(b) > n], evaluated from the left *)
Definition either_above (a : str) (m : Z) (b : str) (n : Z) : result bool :=
  do x <- int_above a m; if x : bool then Ok true else int_above b n.

(** add_disk.py:52-93 validate_controller_address; the logging is left out *)
Definition validate_controller_address (controller address : option str) : result unit :=
  match controller, address with
  | Some c, Some a =>
      match split_on ":"%char a with
      | ctrl_addr :: disk_addr :: _ =>
          if str_eqb c (L "scsi") then
            do bad <- either_above ctrl_addr 3 disk_addr 15;
            if bad : bool then Err EInvalidInput else Ok tt
          else if str_eqb c (L "ide") then
            do bad <- either_above ctrl_addr 1 disk_addr 1;
            if bad : bool then Err EInvalidInput else Ok tt
          else Ok tt
      | _ => Err EIndexError
      end
  | _, _ => Ok tt
  end.

(** COTAddDisk, add_disk.py:96-136: the two options, initially None, and whether a disk
    image was given *)
Record options : Type := mkOptions {
  o_image : bool;
  o_controller : option str;
  o_address : option str }.
Definition new_options : options := mkOptions false None None.

(** add_disk.py:160-164 the setter of [address]: the outcome and the state after it *)
Definition set_address (o : options) (a : option str) : result unit * options :=
  match validate_controller_address (o_controller o) a with
  | Ok _ => (Ok tt, mkOptions (o_image o) (o_controller o) a)
  | Err e => (Err e, o)
  end.
(** add_disk.py:175-179 the setter of [controller] *)
Definition set_controller (o : options) (c : option str) : result unit * options :=
  match validate_controller_address c (o_address o) with
  | Ok _ => (Ok tt, mkOptions (o_image o) c (o_address o))
  | Err e => (Err e, o)
  end.
(** add_disk.py:147-149 the setter of [disk_image]; [ok] tells whether the file could be
    opened as a disk image *)
Definition set_image (o : options) (ok : bool) : result unit * options :=
  if ok then (Ok tt, mkOptions true (o_controller o) (o_address o)) else (Err EEnvironment, o).

(** add_disk.py:181-192 ready_to_run; [base] is the answer of the superclass *)
Definition ready_to_run (o : options) (base : bool) : bool :=
  if negb (o_image o) then false
  else match o_address o, o_controller o with
       | Some _, None => false
       | _, _ => base
       end.
