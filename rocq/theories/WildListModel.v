(** Model of the numbered name lists of edit-hardware,
    COT/commands/edit_hardware.py:732-835. *)
From Verif Require Import PyBase PyRegex ValidationModel.

(** [re.sub(r, rep, s)] for a replacement without escapes and a regex that
    matches no empty string: replace the first match from the left, go on behind
    it.  [skip] counts the characters of the last match still to be passed. *)
Fixpoint re_sub_aux (r : re) (rep : str) (skip : nat) (s : str) : str :=
  match s with
  | [] => []
  | c :: s' =>
      match skip with
      | S k => re_sub_aux r rep k s'
      | O =>
          match run r (mkst s []) with
          | x :: _ => rep ++ re_sub_aux r rep (List.length s' - List.length (rest x)) s'
          | [] => c :: re_sub_aux r rep 0 s'
          end
      end
  end.
Definition re_sub (r : re) (rep s : str) : str := re_sub_aux r rep 0 s.

(** The pattern ["{(\d+)}"], edit_hardware.py:769; [re_wild] is also used for
    ["{\d+}"], edit_hardware.py:775. *)
Definition re_wild : re :=
  RSeq (RLit "{"%char) (RSeq (RGroup 1 (RPlus (RChr is_digit))) (RLit "}"%char)).

(** [str(value)] is put for the wildcard, edit_hardware.py:775 *)
Definition fill_wildcard (pattern : str) (value : N) : str := re_sub re_wild (dec value) pattern.

(** The first index, edit_hardware.py:768-773.  The group is all digits, so that
    [int] is its decimal value. *)
Definition first_index (pattern : str) : N :=
  match re_search re_wild pattern with
  | Some g => match group 1 g with Some d => digits_val d | None => 0%N end
  | None => 0%N
  end.

(** The loop of edit_hardware.py:774-776: [count] more names. *)
Fixpoint number_names (pattern : str) (value : N) (count : nat) : list str :=
  match count with
  | O => []
  | S k => fill_wildcard pattern value :: number_names pattern (value + 1) k
  end.

(** expand_list_wildcard, edit_hardware.py:732-780.  [None] for the list is
    treated as the empty list; the length is a non-negative integer.  Log output
    is not modelled. *)
Definition expand_list_wildcard (name_list : list str) (length : nat) : list str :=
  match name_list with
  | [] => []
  | _ :: _ =>
      if Nat.ltb (List.length name_list) length then
        let pattern := last name_list [] in
        let names := removelast name_list in
        names ++ number_names pattern (first_index pattern) (length - List.length names)
      else name_list
  end.

(** [str(k)] of a token, edit_hardware.py:812-813 *)
Definition token_str (t : token) : str :=
  match t with TText s => s | TNum n => dec n end.

Fixpoint strs_eqb (a b : list str) : bool :=
  match a, b with
  | [], [] => true
  | x :: a', y :: b' => str_eqb x y && strs_eqb a' b'
  | _, _ => false
  end.

(** The inner loop, edit_hardware.py:808-831: [before] are the tokens already
    passed, [next] is the following value. *)
Fixpoint guess_token (known : list str) (index : nat) (next : str)
                     (before after : list token) : option (list str) :=
  match after with
  | [] => None
  | TText s :: after' => guess_token known index next (before ++ [TText s]) after'
  | TNum n :: after' =>
      let prefix := concat (map token_str before) in
      let suffix := concat (map token_str after') in
      let names := firstn index known ++ [prefix ++ L "{" ++ dec n ++ L "}" ++ suffix] in
      if str_eqb next (prefix ++ dec (n + 1) ++ suffix) &&
         strs_eqb (expand_list_wildcard names (List.length known)) known
      then Some names
      else guess_token known index next (before ++ [TNum n]) after'
  end.

(** The outer loop, edit_hardware.py:805-831 *)
Fixpoint guess_value (known : list str) (index : nat) (values : list str)
  : result (option (list str)) :=
  match values with
  | current :: ((next :: _) as values') =>
      do tokens <- alphanum_split current;
      match guess_token known index next [] tokens with
      | Some names => Ok (Some names)
      | None => guess_value known (S index) values'
      end
  | _ => Ok None
  end.

(** guess_list_wildcard, edit_hardware.py:783-835 *)
Definition guess_list_wildcard (known : list str) : result (option (list str)) :=
  guess_value known 0 known.
