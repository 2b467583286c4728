(** The texts of the command line interface: COT/ui/cli.py:122-266 (fill_usage and
    fill_examples) and cli.py:342-350 (the prompt of [confirm]). *)
From Coq Require Import List Ascii ZArith Bool.
Import ListNotations.
From Verif Require Import PyBase PyRegex WrapModel InfoModel.
Local Open Scope nat_scope.

(** [re.findall] of a pattern without groups that does not match the empty string
    (cli.py:161, 258): [skip] characters belong to the match before *)
Definition matched (r : re) (s : str) : option str :=
  match run r (mkst s []) with
  | [] => None
  | x :: _ => Some (firstn (length s - length (rest x)) s)
  end.
Fixpoint re_findall (r : re) (skip : nat) (s : str) : list str :=
  match s with
  | [] => []
  | c :: s' =>
      match skip with
      | S k => re_findall r k s'
      | O => match matched r s with
             | Some w => w :: re_findall r (length w - 1) s'
             | None => re_findall r 0 s'
             end
      end
  end.

Definition RBlank : re := RChr is_space.                       (* \s *)
Definition RInk : re := RChr (fun c => negb (is_space c)).     (* \S *)
Definition OPEN : ascii := "("%char.
Definition CLOSE : ascii := ")"%char.
Definition BRA : ascii := "["%char.
Definition KET : ascii := "]"%char.
Definition DASH : ascii := "-"%char.
Definition QUOTE : ascii := """"%char.

(** cli.py:152-157 the splitter of usage strings, written as [re.VERBOSE] *)
Definition usage_re : re :=
  RAlt (RSeq (RLit OPEN) (RSeq (RLazy RDot) (RPlus (RLit CLOSE))))
  (RAlt (RSeq (RLit BRA) (RSeq (RLazy RDot) (RPlus (RLit KET))))
  (RAlt (RSeq (RLit DASH) (RSeq (RPlus RInk) (RSeq (RPlus RBlank) (RPlus RInk))))
        (RPlus RInk))).
Definition usage_groups (s : str) : list str := re_findall usage_re 0 s.

(** cli.py:231-235 the splitter of examples *)
Definition REither : re := RChr (fun c => Ascii.eqb c " " || Ascii.eqb c "=").   (* [ =] *)
Definition example_re : re :=
  RAlt (RSeq (RLit DASH) (RSeq (RPlus RInk) (RSeq REither (RPlus RInk))))
  (RAlt (RSeq (RLit DASH) (RSeq (RPlus RInk) (RSeq REither (RSeq (RLit QUOTE) (RSeq (RLazy RDot) (RLit QUOTE))))))
        (RPlus RInk)).
Definition example_params (s : str) : list str := re_findall example_re 0 s.

(** cli.py:183-190 and 257-263: the loop over the groups of one string.  A line that is
    given up gets an [ending]; a group is refused by the line at [limit]. *)
Fixpoint lay (limit : Z) (ending indent : str) (cur : str) (gs : list str) : list str :=
  match gs with
  | [] => [cur]
  | g :: gs' =>
      if (limit <=? zlen cur + zlen g)%Z
      then (cur ++ ending) :: lay limit ending indent (indent ++ L " " ++ g) gs'
      else lay limit ending indent (cur ++ L " " ++ g) gs'
  end.

(** cli.py:160-190, one usage string: [max] of no groups is a ValueError *)
Definition usage_lines (width : Z) (prefix line : str) : result (list str) :=
  match usage_groups line with
  | [] => Err EValueError
  | gs => let indent := if (width <=? zlen prefix + Z.of_nat (longest gs))%Z then blanks 5 else blanks (length prefix) in
          Ok (lay width [] indent prefix gs)
  end.
(** cli.py:122-191 fill_usage *)
Definition fill_usage (width : Z) (subcommand : str) (usages : list str) : result str :=
  do lines <- each (usage_lines width (L "  cot <opts> " ++ subcommand)) usages;
  Ok (join [NL] (([NL] ++ L "  cot " ++ subcommand ++ L " --help") :: lines)).

(** [TextWrapper._wrap_chunks] with [break_long_words=True]: what does not fit a line of its
    own is cut at the end of the line (cli.py:91, textwrap) *)
Fixpoint break_chunks (fuel : nat) (width : Z) (first : bool) (ini sub : str) (l : list str) : result (list str) :=
  match l with
  | [] => Ok []
  | c :: l' =>
      match fuel with
      | O => Err EOutOfFuel
      | S fuel' =>
          let indent := if first then ini else sub in
          let room := (width - zlen indent)%Z in
          let l1 := if empty_looking c && negb first then l' else l in
          let (cur, rest) := take_fit room 0 l1 in
          let '(cur, rest) := match rest with
                              | x :: rest' =>
                                  if (room <? zlen x)%Z
                                  then let left := if (room <? 1)%Z then 1 else Z.to_nat (room - zlen (concat cur)) in
                                       (cur ++ [firstn left x], skipn left x :: rest')
                                  else (cur, rest)
                              | [] => (cur, rest)
                              end in
          match drop_last_empty cur with
          | [] => break_chunks fuel' width first ini sub rest
          | cur => do lines <- break_chunks fuel' width false ini sub rest;
                   Ok ((indent ++ concat cur) :: lines)
          end
      end
  end.
(** [TextWrapper.wrap] of the interface's own wrapper, which cuts long words but not at
    hyphens (cli.py:91, 240, 347) *)
Definition wrap_break (fuel : nat) (width : Z) (ini sub : str) (text : str) : result (list str) :=
  if (width <=? 0)%Z then Err EValueError
  else break_chunks fuel width true ini sub (chunks (munge text)).
(** enough for every text that is wrapped at all *)
Definition wrap_fuel (text : str) : nat := S (length (munge text) + length (chunks (munge text))).

(** cli.py:241-264, one example *)
Definition example_lines (width : Z) (x : str * str) : result (list str) :=
  let (desc, example) := x in
  do d <- wrap_break (wrap_fuel desc) (width - 1) (L "  ") (L "  ") desc;
  Ok (d ++ [[]] ++
      match splitlines example with
      | l1 :: l2 :: ls => map (fun line => L "    " ++ line) (l1 :: l2 :: ls)
      | _ => lay (width - 4) (L " \") (L "       ") (L "   ") (example_params example)
      end).
Fixpoint all_examples (width : Z) (first : bool) (l : list (str * str)) : result (list str) :=
  match l with
  | [] => Ok []
  | x :: l' => do a <- example_lines width x;
               do r <- all_examples width false l';
               Ok ((if first then [] else [[]]) ++ a ++ r)
  end.
(** cli.py:196-266 fill_examples *)
Definition fill_examples (width : Z) (l : list (str * str)) : result str :=
  do lines <- all_examples width true l;
  Ok (join [NL] (L "Examples:" :: lines)).

(** cli.py:342-352: what [confirm] asks, when it asks *)
Definition confirm_prompt (width : Z) (prompt : str) : result str :=
  do lines <- each (fun line => wrap_break (wrap_fuel line) (width - 1) [] [] line) (splitlines prompt);
  Ok (join [NL] lines ++ L " [y] ").
