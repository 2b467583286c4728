(** Model of the functions of os.path that COT uses (posixpath.py of the standard library):
    paths with the separator "/", without symbolic links. *)
From Verif Require Import PyBase RawModel SelectModel.
Local Open Scope nat_scope.

(** [os.path.join] of two parts *)
Definition path_join (a b : str) : str :=
  if starts_with (L "/") b then b
  else match a with
       | [] => b
       | _ => if ends_with (L "/") a then a ++ b else a ++ L "/" ++ b
       end.

(** the body of the loop of [os.path.normpath]; the components so far are in reverse order *)
Definition norm_step (rooted : bool) (acc : list str) (c : str) : list str :=
  if str_eqb c [] || str_eqb c (L ".") then acc
  else if negb (str_eqb c (L "..")) ||
          (negb rooted && match acc with [] => true | _ => false end) ||
          match acc with x :: _ => str_eqb x (L "..") | [] => false end
       then c :: acc
       else tl acc.
Definition norm_parts (rooted : bool) (p : str) : list str :=
  rev (fold_left (norm_step rooted) (split_on "/"%char p) []).
(** the slashes that are kept at the start: two only if there are exactly two *)
Definition first_slashes (p : str) : str :=
  if starts_with (L "///") p then L "/"
  else if starts_with (L "//") p then L "//"
  else if starts_with (L "/") p then L "/" else [].
(** [os.path.normpath] *)
Definition normpath (p : str) : str :=
  match first_slashes p ++ join (L "/") (norm_parts (starts_with (L "/") p) p) with
  | [] => L "."
  | r => r
  end.

(** [os.path.splitext]: the extension is [splitext_ext] *)
Definition splitext_root (p : str) : str := firstn (length p - length (splitext_ext p)) p.

(** [s.lstrip("/")] *)
Fixpoint lstrip_slashes (s : str) : str :=
  match s with
  | c :: s' => if Ascii.eqb c "/"%char then lstrip_slashes s' else s
  | [] => []
  end.
