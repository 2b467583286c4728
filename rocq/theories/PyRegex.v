(** Regular expressions with Python [re] (backtracking) semantics.

    [run r st] is the list of all ways to match [r] at the current position,
    in the order in which the Python engine tries them; [re.match] takes the
    first one.  A state is the remaining input with the captured groups. *)
From Verif Require Import PyBase.

Inductive re : Type :=
| RChr (p : ascii -> bool)        (* one character of a class *)
| REps
| RSeq (a b : re)
| RAlt (a b : re)                 (* a|b, a first *)
| RStar (a : re)                  (* a*   greedy *)
| RLazy (a : re)                  (* a*?  lazy *)
| RGroup (n : nat) (a : re)       (* (...) number n *)
| REnd.                           (* $ : at the end or before a final newline *)

Definition groups := list (nat * str).

Record st : Type := mkst { rest : str; caps : groups }.

(** Greedy and lazy repetition.  An iteration that consumes nothing is not
    repeated (Python's engine does the same). *)
Fixpoint star_run (f : st -> list st) (lazy : bool) (fuel : nat) (s : st) : list st :=
  match fuel with
  | O => [s]
  | S k =>
      let more :=
        flat_map (fun s' =>
          if Nat.ltb (List.length (rest s')) (List.length (rest s))
          then star_run f lazy k s' else []) (f s) in
      if lazy then s :: more else more ++ [s]
  end.

Fixpoint run (r : re) (s : st) : list st :=
  match r with
  | REps => [s]
  | RChr p =>
      match rest s with
      | c :: t => if p c then [mkst t (caps s)] else []
      | [] => []
      end
  | RSeq a b => flat_map (run b) (run a s)
  | RAlt a b => run a s ++ run b s
  | RStar a => star_run (run a) false (List.length (rest s)) s
  | RLazy a => star_run (run a) true (List.length (rest s)) s
  | RGroup n a =>
      map (fun s' =>
             mkst (rest s')
               ((n, firstn (List.length (rest s) - List.length (rest s')) (rest s))
                  :: caps s')) (run a s)
  | REnd =>
      match rest s with
      | [] => [s]
      | [c] => if Ascii.eqb c NL then [s] else []
      | _ => []
      end
  end.

(** [re.match(r, s)]: the first way to match at the start. *)
Definition re_match (r : re) (s : str) : option groups :=
  match run r (mkst s []) with
  | [] => None
  | x :: _ => Some (caps x)
  end.

(** [bool(re.match(r, s))] *)
Definition re_test (r : re) (s : str) : bool :=
  match re_match r s with Some _ => true | None => false end.

(** [re.search(r, s)]: first match at the leftmost position. *)
Fixpoint re_search (r : re) (s : str) : option groups :=
  match re_match r s with
  | Some g => Some g
  | None => match s with [] => None | _ :: s' => re_search r s' end
  end.

(** [match.group(n)] *)
Fixpoint group (n : nat) (g : groups) : option str :=
  match g with
  | [] => None
  | (m, w) :: g' => if Nat.eqb n m then Some w else group n g'
  end.

(** Derived forms *)
Definition ROpt (a : re) : re := RAlt a REps.          (* a? *)
Definition RPlus (a : re) : re := RSeq a (RStar a).    (* a+ *)
Definition RPlusLazy (a : re) : re := RSeq a (RLazy a). (* a+? *)
Fixpoint RRep (n : nat) (a : re) : re :=               (* a{n} *)
  match n with O => REps | S k => RSeq a (RRep k a) end.
Definition RLit (c : ascii) : re := RChr (Ascii.eqb c).
Fixpoint RStr (s : str) : re :=
  match s with [] => REps | c :: s' => RSeq (RLit c) (RStr s') end.
(** literal characters with re.IGNORECASE *)
Definition RLitI (c : ascii) : re :=
  RChr (fun d => Ascii.eqb (lower_char c) (lower_char d)).
Fixpoint RStrI (s : str) : re :=
  match s with [] => REps | c :: s' => RSeq (RLitI c) (RStrI s') end.
(** [.] : any character but a newline *)
Definition RDot : re := RChr (fun c => negb (Ascii.eqb c NL)).
