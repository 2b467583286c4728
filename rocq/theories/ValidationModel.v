(** Model of COT/data_validation.py. *)
From Verif Require Import PyBase PyRegex.
Local Open Scope N_scope.

(** ** Natural sort *)

(** Tokens of [alphanum_split]: text or number. *)
Inductive token : Type :=
| TText (s : str)
| TNum (n : N).

(** [re.split('([0-9]+)', key)], data_validation.py:91: pieces of text and digit
    runs in turn, beginning and ending with (possibly empty) text. *)
Fixpoint split_digits (in_digits : bool) (cur : str) (s : str) : list str :=
  match s with
  | [] => if in_digits then [rev cur; []] else [rev cur]
  | c :: s' =>
      if Bool.eqb (is_digit c) in_digits then split_digits in_digits (c :: cur) s'
      else rev cur :: split_digits (is_digit c) [c] s'
  end.

(** [str.isdigit] on Latin-1: 0-9 and the superscripts two, three and one. *)
Definition is_unicode_digit (c : ascii) : bool :=
  is_digit c || (code c =? 178) || (code c =? 179) || (code c =? 185).

Definition py_isdigit (s : str) : bool :=
  match s with [] => false | _ => forallb is_unicode_digit s end.

(** text_to_int, data_validation.py:81-89 *)
Definition text_to_int (text : str) : result token :=
  if py_isdigit text then
    match py_int text with
    | Some z => Ok (TNum (Z.to_N z))
    | None => Err EValueError
    end
  else Ok (TText text).

Fixpoint rmap {A B} (f : A -> result B) (l : list A) : result (list B) :=
  match l with
  | [] => Ok []
  | x :: l' => do y <- f x; do ys <- rmap f l'; Ok (y :: ys)
  end.

(** alphanum_split, data_validation.py:66-91 *)
Definition alphanum_split (key : str) : result (list token) :=
  rmap text_to_int (split_digits false [] key).

(** [a < b] on strings: by code points. *)
Fixpoint str_ltb (a b : str) : bool :=
  match a, b with
  | [], [] => false
  | [], _ :: _ => true
  | _ :: _, [] => false
  | x :: a', y :: b' =>
      if code x =? code y then str_ltb a' b' else code x <? code y
  end.

(** [a < b] on lists of tokens (Python compares the first differing elements).
    Comparing text with a number would raise TypeError; tokens of both kinds
    never meet, see [split_shape]. *)
Fixpoint key_ltb (a b : list token) : bool :=
  match a, b with
  | [], [] => false
  | [], _ :: _ => true
  | _ :: _, [] => false
  | TText x :: a', TText y :: b' => if str_eqb x y then key_ltb a' b' else str_ltb x y
  | TNum m :: a', TNum n :: b' => if m =? n then key_ltb a' b' else m <? n
  | TText _ :: _, TNum _ :: _ => false
  | TNum _ :: _, TText _ :: _ => false
  end.

(** [sorted] is a stable sort that only uses [<]: modelled as insertion sort. *)
Fixpoint insert_by_key (x : list token * str) (l : list (list token * str))
  : list (list token * str) :=
  match l with
  | [] => [x]
  | y :: l' => if key_ltb (fst y) (fst x) then y :: insert_by_key x l' else x :: l
  end.
Definition sort_by_key (l : list (list token * str)) : list (list token * str) :=
  fold_right insert_by_key [] l.

(** natural_sort, data_validation.py:94-114 *)
Definition natural_sort (l : list str) : result (list str) :=
  do keyed <- rmap (fun s => do k <- alphanum_split s; Ok (k, s)) l;
  Ok (map snd (sort_by_key keyed)).

(** ** Conflicts *)

(** match_or_die, data_validation.py:117-141 *)
Definition match_or_die {A} (eqb : A -> A -> bool) (first second : A) : result unit :=
  if eqb first second then Ok tt else Err EValueMismatch.

(** Inner loop of check_for_conflict, data_validation.py:310-316 *)
Fixpoint conflict_with {A} (eqb : A -> A -> bool) (x : A) (l : list (option A)) : bool :=
  match l with
  | [] => false
  | None :: l' => conflict_with eqb x l'
  | Some y :: l' => negb (eqb x y) || conflict_with eqb x l'
  end.

(** check_for_conflict, data_validation.py:281-318 *)
Fixpoint check_for_conflict_from {A} (eqb : A -> A -> bool) (obj : option A)
  (refs : list (option A)) : result (option A) :=
  match refs with
  | [] => Ok obj
  | None :: refs' => check_for_conflict_from eqb obj refs'
  | Some x :: refs' =>
      if conflict_with eqb x refs' then Err EValueMismatch
      else check_for_conflict_from eqb (Some x) refs'
  end.
Definition check_for_conflict {A} (eqb : A -> A -> bool) (refs : list (option A))
  : result (option A) := check_for_conflict_from eqb None refs.

(** ** Strings given by the user *)

(** r"([0-9a-fA-F]{2}:){5}[0-9a-fA-F]{2}$" etc., data_validation.py:382-384.
    The groups are not captured because the code does not use them. *)
Definition re_mac (n m : nat) (sep : ascii) : re :=
  RSeq (RRep m (RSeq (RRep n (RChr is_hex)) (RLit sep)))
       (RSeq (RRep n (RChr is_hex)) REnd).

(** mac_address, data_validation.py:364-388 *)
Definition mac_address (s : str) : result str :=
  let s := strip s in
  if re_test (re_mac 2 5 ":"%char) s || re_test (re_mac 2 5 "-"%char) s
     || re_test (re_mac 4 2 "."%char) s
  then Ok s else Err EInvalidInput.

(** r"\d+:\d+$", data_validation.py:414 *)
Definition re_device : re :=
  RSeq (RPlus (RChr is_digit)) (RSeq (RLit ":"%char) (RSeq (RPlus (RChr is_digit)) REnd)).

(** device_address, data_validation.py:391-417 *)
Definition device_address (s : str) : result str :=
  let s := strip s in
  if re_test re_device s then Ok s else Err EInvalidInput.

(** no_whitespace, data_validation.py:420-444 *)
Definition no_whitespace (s : str) : result str :=
  let s := strip s in
  if Nat.ltb 1 (length (words s)) then Err EInvalidInput else Ok s.

(** Argument of validate_int: text, an integer or None. *)
Inductive int_arg : Type :=
| AStr (s : str)
| AInt (z : Z)
| ANone.

(** validate_int, data_validation.py:447-492 *)
Definition validate_int (arg : int_arg) (minimum maximum : option Z) : result Z :=
  do value <-
    match arg with
    | AStr s => match py_int s with Some z => Ok z | None => Err EValueUnsupported end
    | AInt z => Ok z
    | ANone => Err ETypeError       (* int(None); only ValueError is caught *)
    end;
  if match minimum with Some m => (value <? m)%Z | None => false end
  then Err EValueTooLow
  else if match maximum with Some m => (m <? value)%Z | None => false end
  then Err EValueTooHigh
  else Ok value.

(** non_negative_int, data_validation.py:495-521 *)
Definition non_negative_int (arg : int_arg) : result Z := validate_int arg (Some 0%Z) None.
(** positive_int, data_validation.py:524-548 *)
Definition positive_int (arg : int_arg) : result Z := validate_int arg (Some 1%Z) None.

(** distutils.util.strtobool *)
Definition strtobool (s : str) : option bool :=
  let v := lower s in
  if mem_str v [L "y"; L "yes"; L "t"; L "true"; L "on"; L "1"] then Some true
  else if mem_str v [L "n"; L "no"; L "f"; L "false"; L "off"; L "0"] then Some false
  else None.

(** truth_value, data_validation.py:551-589: a bool or a string *)
Definition truth_value (v : bool + str) : result bool :=
  match v with
  | inl b => Ok b
  | inr s => match strtobool s with Some b => Ok b | None => Err EValueUnsupported end
  end.

(** ** Canonical names *)

(** canonicalize_helper, data_validation.py:144-163 *)
Fixpoint first_mapping (user_input : str) (mappings : list (re * str)) : result (option str) :=
  match mappings with
  | [] => Err EValueUnsupported
  | (expr, canonical) :: rest =>
      if re_test expr user_input then Ok (Some canonical) else first_mapping user_input rest
  end.
Definition canonicalize_helper (user_input : option str) (mappings : list (re * str))
  : result (option str) :=
  match user_input with
  | None => Ok None
  | Some [] => Ok None
  | Some s => first_mapping s mappings
  end.

(** "word *word *word" with re.IGNORECASE *)
Fixpoint re_words (ws : list str) : re :=
  match ws with
  | [] => REps
  | [w] => RStrI w
  | w :: ws' => RSeq (RStrI w) (RSeq (RStar (RLit " "%char)) (re_words ws'))
  end.

(** data_validation.py:193-196 *)
Definition ide_mappings : list (re * str) :=
  [ (re_words [L "piix4"], L "PIIX4");
    (re_words [L "virtio"], L "virtio") ].

(** _NIC_MAPPINGS, data_validation.py:200-206 *)
Definition nic_mappings : list (re * str) :=
  [ (re_words [L "e1000e"], L "E1000e");
    (re_words [L "e1000"], L "E1000");
    (re_words [L "pcnet32"], L "PCNet32");
    (re_words [L "virtio"], L "virtio");
    (re_words [L "vmxnet"; L "3"], L "VMXNET3") ].

(** data_validation.py:271-277 *)
Definition scsi_mappings : list (re * str) :=
  [ (re_words [L "bus"; L "logic"], L "buslogic");
    (re_words [L "lsi"; L "logic"; L "sas"], L "lsilogicsas");
    (re_words [L "lsi"; L "logic"], L "lsilogic");
    (re_words [L "virtio"], L "virtio");
    (re_words [L "virtual"; L "scsi"], L "VirtualSCSI") ].

(** NIC_TYPES, data_validation.py:208 *)
Definition NIC_TYPES : list str := map snd nic_mappings.

(** canonicalize_ide_subtype, data_validation.py:166-197 *)
Definition canonicalize_ide_subtype (s : option str) := canonicalize_helper s ide_mappings.
(** canonicalize_nic_subtype, data_validation.py:212-238 *)
Definition canonicalize_nic_subtype (s : option str) := canonicalize_helper s nic_mappings.
(** canonicalize_scsi_subtype, data_validation.py:241-278 *)
Definition canonicalize_scsi_subtype (s : option str) := canonicalize_helper s scsi_mappings.
