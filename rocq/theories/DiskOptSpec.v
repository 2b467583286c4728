(** What users rely on about the controller and address options of add-disk. *)
From Verif Require Import PyBase ValidationSpec DiskOptModel.

(** [a] has the form "x:y", or "x:y:..." *)
Definition address_parts (a x y : str) : Prop :=
  ~ In ":"%char x /\ ~ In ":"%char y /\
  (a = x ++ L ":" ++ y \/ exists rest, a = x ++ L ":" ++ y ++ L ":" ++ rest).
(** Both parts are numbers, at most [m] and [n]. *)
Definition within (m n : Z) (a : str) : Prop :=
  exists x y u w, address_parts a x y /\ int_text x u /\ int_text y w /\ (u <= m)%Z /\ (w <= n)%Z.

(** A valid combination of controller type and address. *)
Definition valid_pair (controller address : option str) : Prop :=
  match controller, address with
  | Some c, Some a => (c = L "scsi" -> within 3 15 a) /\ (c = L "ide" -> within 1 1 a) /\ In ":"%char a
  | _, _ => True
  end.

(** One assignment. *)
Inductive assignment : Type :=
| Controller (c : option str)
| Address (a : option str)
| Image (ok : bool).
Definition assign (o : options) (x : assignment) : result unit * options :=
  match x with
  | Controller c => set_controller o c
  | Address a => set_address o a
  | Image b => set_image o b
  end.
Definition assign_all (l : list assignment) : options :=
  fold_left (fun o x => snd (assign o x)) l new_options.
