(** Paths as they are followed from the root of the file system. *)
From Verif Require Import PyBase.

(** One step: into a directory, up, or nowhere. *)
Definition walk (at_ : list str) (c : str) : list str :=
  if str_eqb c [] || str_eqb c (L ".") then at_
  else if str_eqb c (L "..") then removelast at_
  else at_ ++ [c].
(** Where a path leads from a directory (one that starts with a slash: from the root). *)
Definition follow (from : list str) (p : str) : list str :=
  fold_left walk (split_on "/"%char p) (if starts_with (L "/") p then [] else from).
Definition place (p : str) : list str := follow [] p.

(** The name of a file or directory. *)
Definition proper (c : str) : Prop := c <> [] /\ c <> L "." /\ c <> L ".." /\ ~ In "/"%char c.
(** The path of a place. *)
Definition path_of (l : list str) : str := flat_map (fun c => "/"%char :: c) l.
