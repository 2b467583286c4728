(** Model of the dialogue with the user: COT/ui/ui.py:160-197 and
    COT/ui/cli.py:326-377. *)
From Verif Require Import PyBase.

(** [option_list[i]], with negative indices counted from the end. *)
Definition py_index {A : Type} (l : list A) (i : Z) : option A :=
  let n := Z.of_nat (length l) in
  if (0 <=? i)%Z then nth_error l (Z.to_nat i)
  else if (0 <=? n + i)%Z then nth_error l (Z.to_nat (n + i)) else None.

(** The decision about one input, ui.py:184-197; [None] is "Please try again". *)
Definition choose_once (options : list str) (default result : str) : option str :=
  if str_eqb result default || mem_str result options then Some result else
  match filter (starts_with result) options with
  | [o] => Some o
  | _ =>
      match py_int result with
      | Some index => py_index options (index - 1)
      | None => None
      end
  end.

(** [CLI.get_input], cli.py:359-377, on the text typed by the user. *)
Definition get_input (force : bool) (default typed : str) : str :=
  if force then default else match typed with [] => default | _ => typed end.

(** [choose_from_list], ui.py:181-197, with the lines the user types; [None] means
    that it is still waiting for another line.  The prompt is not modelled here
    ([choose_prompt] is). *)
Fixpoint choose_from_list (force : bool) (options : list str) (default : str)
                          (typed : list str) : option str :=
  match typed with
  | [] => None
  | t :: typed' =>
      match choose_once options default (get_input force default t) with
      | Some r => Some r
      | None => choose_from_list force options default typed'
      end
  end.

(** ["{0:2}) {1}".format(i, inf.strip())], ui.py:177-178 *)
Definition pad2 (s : str) : str := match s with [c] => [" "%char; c] | _ => s end.
Fixpoint numbered (i : N) (infos : list str) : list str :=
  match infos with
  | [] => []
  | inf :: l => (pad2 (dec i) ++ L ") " ++ strip inf) :: numbered (i + 1) l
  end.
Definition choose_prompt (header footer : str) (options infos : list str) : list str :=
  let infos := match infos with [] => options | _ => infos end in
  header :: numbered 1 infos ++ [footer].

(** [CLI.confirm], cli.py:338-357 (wrapping of the prompt is not modelled) *)
Definition confirm_once (typed : str) : option bool :=
  let ans := strip typed in
  if str_eqb ans [] || str_eqb ans (L "y") || str_eqb ans (L "Y") then Some true
  else if str_eqb ans (L "n") || str_eqb ans (L "N") then Some false
  else None.
Fixpoint confirm_loop (typed : list str) : option bool :=
  match typed with
  | [] => None
  | t :: typed' => match confirm_once t with Some b => Some b | None => confirm_loop typed' end
  end.
Definition cli_confirm (force : bool) (typed : list str) : option bool :=
  if force then Some true else confirm_loop typed.
