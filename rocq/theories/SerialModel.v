(** Model of serial connection strings: COT/commands/deploy.py:36-188, and of the
    settings of "cot deploy" that are checked when given: deploy.py:247-335 and
    COT/commands/deploy_esxi.py:266-295. *)
From Verif Require Import PyBase PyRegex PyDict.

(** [[a-z]] and [[^ \t,]] *)
Definition lower_letter (c : ascii) : bool := in_range 97 122 c.
Definition TAB : ascii := ascii_of_N 9.
Definition value_char (c : ascii) : bool :=
  negb (Ascii.eqb c " "%char || Ascii.eqb c TAB || Ascii.eqb c ","%char).

(** [r"^([a-z]* ):?([^ \t,]+),?(.* )$"] (without the blanks after the stars),
    deploy.py:67 *)
Definition re_serial : re :=
  RSeq (RGroup 1 (RStar (RChr lower_letter)))
 (RSeq (ROpt (RLit ":"%char))
 (RSeq (RGroup 2 (RPlus (RChr value_char)))
 (RSeq (ROpt (RLit ","%char))
 (RSeq (RGroup 3 (RStar RDot)) REnd)))).

(** The value of an option: [True] or text. *)
Inductive optval : Type := OTrue | OText (s : str).
Definition options : Type := list (str * optval).

(** [r"([^=]+)=?(.* )"] (without the blank), deploy.py:77 *)
Definition re_option : re :=
  RSeq (RGroup 1 (RPlus (RChr (fun c => negb (Ascii.eqb c "="%char)))))
 (RSeq (ROpt (RLit "="%char)) (RGroup 2 (RStar RDot))).

(** The loop over the entries, deploy.py:74-83 *)
Definition option_entry (o : options) (entry : str) : options :=
  match entry with
  | [] => o
  | _ =>
      match re_match re_option entry with
      | Some g =>
          match group 1 g with
          | Some key =>
              let value := match group 2 g with Some (c :: s) => OText (c :: s) | _ => OTrue end in
              dset str_eqb key value o
          | None => o
          end
      | None => o
      end
  end.
Definition parse_options (text : str) : options :=
  fold_left option_entry (split_on ","%char text) [].

(** [SerialConnection], deploy.py:176-183 *)
Record conn : Type := mkconn { c_kind : str; c_value : str; c_options : options }.

(** [validate_kind], deploy.py:87-112 *)
Definition valid_kinds : list str := [L "device"; L "file"; L "pipe"; L "tcp"; L "telnet"].
Definition validate_kind (kind : str) : result str :=
  let kind := lower kind in
  let kind := if str_eqb kind [] then L "device" else kind in
  if mem_str kind valid_kinds then Ok kind else Err EValueUnsupported.

(** [r'/?/?(.*:\d+)'], deploy.py:137 *)
Definition re_address : re :=
  RSeq (ROpt (RLit "/"%char)) (RSeq (ROpt (RLit "/"%char))
    (RGroup 1 (RSeq (RStar RDot) (RSeq (RLit ":"%char) (RPlus (RChr is_digit)))))).

(** [validate_value], deploy.py:114-146 *)
Definition validate_value (kind value : str) : result str :=
  if str_eqb kind (L "device") || str_eqb kind (L "file") || str_eqb kind (L "pipe") then Ok value
  else if str_eqb kind (L "tcp") || str_eqb kind (L "telnet") then
    match re_match re_address value with
    | Some g => match group 1 g with Some a => Ok a | None => Err EAttributeError end
    | None => Err EInvalidInput
    end
  else Err ENotImplemented.

(** [validate_options], deploy.py:148-167 *)
Definition validate_options (kind : str) (o : options) : result options :=
  if str_eqb kind (L "file") then
    if dmem str_eqb (L "datastore") o then Ok o else Err EInvalidInput
  else Ok o.

(** [SerialConnection.__init__], deploy.py:169-183 *)
Definition serial_init (kind value : str) (o : options) : result conn :=
  do kind <- validate_kind kind;
  do value <- validate_value kind value;
  do o <- validate_options kind o;
  Ok (mkconn kind value o).

(** [from_cli_string], deploy.py:39-85, for a string that is not None. *)
Definition from_cli_string (cli_string : str) : result (option conn) :=
  let s := strip cli_string in
  match s with
  | [] => Ok None
  | _ =>
      match re_match re_serial s with
      | None => Err EInvalidInput
      | Some g =>
          match group 1 g, group 2 g, group 3 g with
          | Some k, Some v, Some o =>
              do c <- serial_init k v (parse_options o); Ok (Some c)
          | _, _, _ => Err EAttributeError
          end
      end
  end.

(** [serial_connection.setter], deploy.py:323-330: the list is emptied first and
    filled as the strings are read.  The pair is the list afterwards and how the
    call ended. *)
Fixpoint add_connections (acc : list conn) (value : list str) : list conn * result unit :=
  match value with
  | [] => (acc, Ok tt)
  | s :: value' =>
      match from_cli_string s with
      | Err e => (acc, Err e)
      | Ok None => add_connections acc value'
      | Ok (Some c) => add_connections (acc ++ [c]) value'
      end
  end.
Definition set_connections (value : list str) : list conn * result unit :=
  add_connections [] value.

(** The override for ESXi, deploy_esxi.py:274-285; [old] is the list before. *)
Definition set_connections_esxi (value : list str) (old : list conn) : list conn * result unit :=
  if Nat.ltb 4 (length value) then (old, Err EValueUnsupported) else set_connections value.

(** [key_value_pair.split('=', 1)], deploy.py:304: the two parts, if there is "=" *)
Fixpoint split_eq (s : str) : option (str * str) :=
  match s with
  | [] => None
  | c :: s' =>
      if Ascii.eqb c "="%char then Some ([], s')
      else match split_eq s' with Some (a, b) => Some (c :: a, b) | None => None end
  end.
Definition map_ok (pair : str) : bool :=
  match split_eq pair with
  | Some (k, v) => negb (str_eqb k [] || str_eqb v [])
  | None => false
  end.
(** [network_map.setter], deploy.py:301-316: the strings are stored as given. *)
Definition set_network_map (value : list str) (old : option (list str)) : option (list str) * result unit :=
  if forallb map_ok value then (Some value, Ok tt) else (old, Err EInvalidInput).
