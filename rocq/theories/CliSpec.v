(** What users rely on when a command is run. *)
From Verif Require Import PyBase CliModel.
Local Open Scope nat_scope.

(** The package and the output that were named, the later the better. *)
Definition named_package (attrs : list (str * str)) : option str :=
  fold_left (fun p x => if str_eqb (fst x) (L "package") then Some (snd x) else p) attrs None.
Definition named_output (abspath : str -> str) (attrs : list (str * str)) : str :=
  fold_left (fun o x => if str_eqb (fst x) (L "output") then match snd x with [] => [] | v => abspath v end else o) attrs [].
(** Where the result goes: to the output named, or else back to the package. *)
Definition destination (abspath : str -> str) (attrs : list (str * str)) (package : str) : str :=
  match named_output abspath attrs with [] => abspath package | o => o end.

(** All that should happen, in this order. *)
Definition script (abspath : str -> str) (k : kind) (attrs : list (str * str)) (n : nat) : list event :=
  map (fun x => AttrSet (fst x)) attrs ++
  match k, named_package attrs with
  | Plain, _ | Reader, Some _ => IsReady :: map WorkStep (seq 0 n)
  | Writer, Some p => IsReady :: map WorkStep (seq 0 n) ++ [Accepted; WriteBegun (destination abspath attrs p); WriteDone (destination abspath attrs p)]
  | _, None => []
  end.
Definition prefix {A : Type} (a b : list A) : Prop := exists c, b = a ++ c.
(** Something outside went wrong, in this way. *)
Definition raised (oracle : nat -> answer) (bad : exc -> Prop) : Prop := exists i e, oracle i = Raises e /\ bad e.
(** A package can be written under this path. *)
Definition writable (path : str) : Prop := TarModel.detect_type path = Ok (L ".ova") \/ TarModel.detect_type path = Ok (L ".ovf").
(** The arguments that have a value. *)
Definition given (args : list (str * option str)) : list (str * str) := flat_map (fun x => match snd x with Some v => [(fst x, v)] | None => [] end) args.
(** All that should happen with a block of [n] steps and this output. *)
Definition block_script (out : str) (n : nat) : list event := map WorkStep (seq 0 n) ++ match out with [] => [] | _ => [WriteBegun out; WriteDone out] end.
