(** What the texts of the interface should look like. *)
From Coq Require Import List Ascii ZArith Bool.
Import ListNotations.
From Verif Require Import PyBase WrapSpec InfoMoreSpec.
Local Open Scope nat_scope.

(** what is visible of a text *)
Definition ink (s : str) : str := filter (fun c => negb (is_space c)) s.

Definition no_ink (s : str) : Prop := forall c, In c s -> is_space c = true.
(** [s] ends here or goes on with white space *)
Definition word_ends (s : str) : Prop := forall c t, s = c :: t -> is_space c = true.
(** no [c] and no line feed *)
Definition free_of (c : ascii) (s : str) : Prop := ~ In c s /\ ~ In NL s.

(** a parameter in parentheses or brackets: it ends with the first closing one and those
    that follow at once *)
Definition enclosed (opening closing : ascii) (g : str) (after : str) : Prop :=
  exists x n, free_of closing x /\ 1 <= n /\ g = opening :: x ++ repeat closing n
    /\ (forall t, after <> closing :: t).
(** an option with its value *)
Definition option_value (g : str) (after : str) : Prop :=
  exists w gap x, word w /\ gap <> [] /\ no_ink gap /\ word x /\ word_ends after
    /\ g = "-"%char :: w ++ gap ++ x.
(** the same with a single blank *)
Definition option_value1 (g : str) (after : str) : Prop :=
  exists w x, word w /\ word x /\ word_ends after /\ g = "-"%char :: w ++ L " " ++ x.

(** How a usage string is taken apart: from the left, what is enclosed stays together, an
    option stays with its value, and everything else is a word. *)
Definition usage_unit (g after : str) : Prop :=
  enclosed "(" ")" g after \/ enclosed "[" "]" g after \/ option_value g after.
Inductive usage_parts : str -> list str -> Prop :=
  | up_end : usage_parts [] []
  | up_space c s l : is_space c = true -> usage_parts s l -> usage_parts (c :: s) l
  | up_unit g s l : usage_unit g s -> usage_parts s l -> usage_parts (g ++ s) (g :: l)
  | up_word g s l : word g -> word_ends s -> (forall u t, g ++ s = u ++ t -> ~ usage_unit u t) ->
      usage_parts s l -> usage_parts (g ++ s) (g :: l).

(** The same for an example. *)
Inductive example_parts : str -> list str -> Prop :=
  | ep_end : example_parts [] []
  | ep_space c s l : is_space c = true -> example_parts s l -> example_parts (c :: s) l
  | ep_unit g s l : option_value1 g s -> example_parts s l -> example_parts (g ++ s) (g :: l)
  | ep_word g s l : word g -> word_ends s -> (forall u t, g ++ s = u ++ t -> ~ option_value1 u t) ->
      example_parts s l -> example_parts (g ++ s) (g :: l).

(** parts behind the beginning of a line, a blank before each *)
Definition row (start : str) (gs : list str) : str := start ++ concat (map (fun g => L " " ++ g) gs).
(** how much a line may hold: a continuation line at least one part *)
Definition room_for (width : Z) (continued : bool) (start : str) (gs : list str) : Prop :=
  (continued = false /\ gs = []) \/ (gs <> [] /\ (len (row start gs) <= width)%Z) \/ (continued = true /\ length gs = 1).

(** The parts laid out in order, each line as full as possible; [ending] marks a line that
    goes on. *)
Inductive laid (width : Z) (ending indent : str) : bool -> str -> list str -> list str -> Prop :=
  | laid_last b start gs : room_for width b start gs -> laid width ending indent b start gs [row start gs]
  | laid_more b start now g later lines :
      room_for width b start now -> (width < len (row start (now ++ [g])))%Z ->
      laid width ending indent true indent (g :: later) lines ->
      laid width ending indent b start (now ++ g :: later) ((row start now ++ ending) :: lines).

(** every part fits behind the subcommand *)
Definition all_short (width : Z) (prefix : str) (gs : list str) : Prop :=
  forall g, In g gs -> (len prefix + len g < width)%Z.

(** How a usage string is shown: continuation lines begin below the end of the subcommand, or
    after five blanks if that leaves too little room for some part. *)
Definition usage_shown (width : Z) (prefix u : str) (lines : list str) : Prop :=
  exists gs indent, usage_parts u gs /\ gs <> []
    /\ (all_short width prefix gs -> indent = spaces (length prefix))
    /\ (~ all_short width prefix gs -> indent = spaces 5)
    /\ laid width [] indent false prefix gs lines.

(** What wrapping with cut words should give: every visible character in order, no line
    longer than the width, and no word cut unless it is too long for a line. *)
Definition cut_wrapped (width : Z) (indent text : str) (lines : list str) : Prop :=
  exists bodies, lines = map (fun b => indent ++ b) bodies
    /\ ink (concat bodies) = ink text
    /\ Forall (fun l => (len l <= width)%Z) lines
    /\ Forall (fun b => b <> []) bodies
    /\ ((forall a p b, text = a ++ p ++ b -> one_piece p -> (len indent + len p <= width)%Z) ->
        flat_map words bodies = words text).

(** Lines that go on end with a backslash. *)
Fixpoint continued (rows : list str) : list str :=
  match rows with
  | [] => []
  | [r] => [r]
  | r :: rows' => (r ++ L " \") :: continued rows'
  end.

(** How an example is shown: several lines as they are, one line laid out to the width. *)
Definition example_shown (width : Z) (lines_in : list str) (example : str) (lines : list str) : Prop :=
  (2 <= length lines_in /\ lines = map (fun l => L "    " ++ l) lines_in)
  \/ (length lines_in <= 1 /\ exists gs, example_parts example gs /\ laid (width - 4) (L " \") (spaces 7) false (spaces 3) gs lines).

(** blocks of lines with an empty line between *)
Fixpoint blank_between (l : list (list str)) : list str :=
  match l with
  | [] => []
  | [b] => b
  | b :: l' => b ++ [[]] ++ blank_between l'
  end.
(** a description, an empty line, and the example *)
Definition block_shown (width : Z) (x : str * str) (block : list str) : Prop :=
  exists d lines_in ex, block = d ++ [[]] ++ ex
    /\ cut_wrapped (width - 1) (spaces 2) (fst x) d
    /\ lines_of (snd x) lines_in /\ example_shown width lines_in (snd x) ex.
