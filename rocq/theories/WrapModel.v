(** Wrapping of texts to a width: what [textwrap.TextWrapper] does with the settings of
    COT/vm_description/ovf/ovf.py:1391-1393 (no breaking of words, neither anywhere nor at
    hyphens).  The standard library's class is followed because most of what [cot info]
    prints goes through it. *)
From Coq Require Import List Ascii ZArith Lia Bool.
Import ListNotations.
From Verif Require Import PyBase.
Local Open Scope nat_scope.

(** [TextWrapper.whitespace]: the ASCII white space (ovf.py:1391, textwrap) *)
Definition is_blank (c : ascii) : bool := in_range 9 13 c || (code c =? 32)%N.
Definition SP : ascii := " "%char.

(** [TextWrapper._munge_whitespace]: [str.expandtabs] (a line feed or carriage return starts
    a new line), then every white space character becomes a space (ovf.py:1391, textwrap) *)
Fixpoint expandtabs (column : nat) (s : str) : str :=
  match s with
  | [] => []
  | c :: s' =>
      if (code c =? 9)%N then repeat SP (8 - column mod 8) ++ expandtabs 0 s'
      else if (code c =? 10)%N || (code c =? 13)%N then c :: expandtabs 0 s'
      else c :: expandtabs (S column) s'
  end.
Definition munge (s : str) : str := map (fun c => if is_blank c then SP else c) (expandtabs 0 s).

(** [TextWrapper._split] without hyphens: the maximal runs of blanks and of other characters
    (ovf.py:1391-1393, textwrap) *)
Fixpoint chunks (s : str) : list str :=
  match s with
  | [] => []
  | c :: s' => match chunks s' with
               | (d :: r) :: l => if Bool.eqb (is_blank c) (is_blank d) then (c :: d :: r) :: l
                                  else [c] :: (d :: r) :: l
               | l => [c] :: l
               end
  end.

(** [chunk.strip() == ''] *)
Definition empty_looking (s : str) : bool := match strip s with [] => true | _ => false end.
Definition zlen (s : str) : Z := Z.of_nat (length s).

(** The inner loop of [TextWrapper._wrap_chunks]: as many chunks as fit
    (ovf.py:1391-1393, textwrap) *)
Fixpoint take_fit (room used : Z) (l : list str) : list str * list str :=
  match l with
  | [] => ([], [])
  | c :: l' => if (used + zlen c <=? room)%Z
               then let (a, b) := take_fit room (used + zlen c) l' in (c :: a, b)
               else ([], l)
  end.
(** [cur_line[-1].strip() == '': del cur_line[-1]] *)
Definition drop_last_empty (l : list str) : list str :=
  match rev l with
  | c :: r => if empty_looking c then rev r else l
  | [] => l
  end.

(** [TextWrapper._wrap_chunks] with [break_long_words=False], [drop_whitespace=True] and no
    [max_lines]; [first]: there are no lines yet (ovf.py:1391-1393, textwrap) *)
Fixpoint wrap_chunks (fuel : nat) (width : Z) (first : bool) (ini sub : str) (l : list str) : result (list str) :=
  match l with
  | [] => Ok []
  | c :: l' =>
      match fuel with
      | O => Err EOutOfFuel
      | S fuel' =>
          let indent := if first then ini else sub in
          let room := (width - zlen indent)%Z in
          let l1 := if empty_looking c && negb first then l' else l in
          let (cur, rest) := take_fit room 0 l1 in
          let '(cur, rest) := match cur, rest with
                              | [], x :: rest' => if (room <? zlen x)%Z then ([x], rest') else (cur, rest)
                              | _, _ => (cur, rest)
                              end in
          match drop_last_empty cur with
          | [] => wrap_chunks fuel' width first ini sub rest
          | cur => do lines <- wrap_chunks fuel' width false ini sub rest;
                   Ok ((indent ++ concat cur) :: lines)
          end
      end
  end.

(** [TextWrapper.wrap] (ovf.py:1391-1393, textwrap): a width below 1 is a ValueError *)
Definition wrap (width : Z) (ini sub : str) (text : str) : result (list str) :=
  if (width <=? 0)%Z then Err EValueError
  else let l := chunks (munge text) in wrap_chunks (S (length l)) width true ini sub l.
