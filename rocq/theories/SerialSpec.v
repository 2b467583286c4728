(** What a serial connection string means, without the regular expressions. *)
From Verif Require Import PyBase.
From Verif Require Import ValidationSpec SerialModel.

Definition NLc : ascii := ascii_of_nat 10.
Definition lowercase (s : str) : Prop := forall c, In c s -> (97 <= N_of_ascii c <= 122)%N.
Definition separator (c : ascii) : Prop := c = " "%char \/ c = ascii_of_nat 9 \/ c = ","%char.

(** The text before the options: "kind:value", or "value" alone, in which case
    lowercase letters at its start are taken for the kind. *)
Inductive head_means : str -> str -> str -> Prop :=
| hm_colon kind value : lowercase kind -> value <> [] ->
    head_means (kind ++ ":"%char :: value) kind value
| hm_plain kind c value : lowercase kind -> ~ lowercase [c] -> (c = ":"%char -> value = []) ->
    head_means (kind ++ c :: value) kind (c :: value)
| hm_letters kind c : lowercase kind -> lowercase [c] ->
    head_means (kind ++ [c]) kind [c].

(** The options are what follows the first comma or blank. *)
Inductive tail_means : str -> str -> Prop :=
| tm_none : tail_means [] []
| tm_comma o : tail_means (","%char :: o) o
| tm_blank c o : separator c -> c <> ","%char -> tail_means (c :: o) (c :: o).

Definition reads (s kind value opts : str) : Prop :=
  exists head tail, s = head ++ tail /\ (forall c, In c head -> ~ separator c) /\
    tail_means tail opts /\ ~ In NLc tail /\ head_means head kind value.

(** The kinds. *)
Definition kind_means (given kind : str) : Prop :=
  (given = [] /\ kind = L "device") \/
  (given = kind /\ In kind [L "device"; L "file"; L "pipe"; L "tcp"; L "telnet"]).

(** "[//]host:port": [v] up to the end of its first line, without at most two
    slashes and up to the end of the last number that follows a colon. *)
Definition port_at (s : str) : Prop :=
  exists d t, s = ":"%char :: d :: t /\ (48 <= N_of_ascii d <= 57)%N.
Definition number (s : str) : Prop :=
  s <> [] /\ forall c, In c s -> (48 <= N_of_ascii c <= 57)%N.
Definition address (v a : str) : Prop :=
  exists slashes host port rest more,
    v = slashes ++ (host ++ ":"%char :: port) ++ rest ++ more /\ a = host ++ ":"%char :: port /\
    (slashes = [] \/ slashes = L "/" \/ slashes = L "//") /\
    (length slashes < 2 -> forall t, skipn (length slashes) v <> "/"%char :: t) /\
    number port /\
    ~ In NLc (host ++ ":"%char :: port ++ rest) /\ (more = [] \/ exists t, more = NLc :: t) /\
    (forall c t, rest = c :: t -> ~ number [c]) /\
    (forall x y, rest = x ++ y -> ~ port_at y).

Definition value_means (kind given value : str) : Prop :=
  if str_eqb kind (L "tcp") || str_eqb kind (L "telnet") then address given value
  else value = given.

(** Options: entries between commas, "key=text", "key=" or "key"; the last entry for
    a key counts, and entries that begin with "=" are ignored. *)
Definition entry_means (e key : str) (v : optval) : Prop :=
  key <> [] /\ ~ In "="%char key /\
  ((e = key /\ v = OTrue) \/ (e = key ++ L "=" /\ v = OTrue) \/
   (exists t, t <> [] /\ e = key ++ "="%char :: t /\ v = OText t)).
Definition entries_of (text : str) (es : list str) : Prop :=
  es <> [] /\ text = join (L ",") es /\ forall e, In e es -> ~ In ","%char e.
Definition option_given (text key : str) (v : optval) : Prop :=
  exists before e after, entries_of text (before ++ e :: after) /\ entry_means e key v /\
    forall e' v', In e' after -> ~ entry_means e' key v'.

(** a network map entry *)
Definition mapping (s : str) : Prop :=
  exists k v, s = k ++ "="%char :: v /\ k <> [] /\ v <> [] /\ ~ In "="%char k.

(** [s], apart from blanks around it, describes the connection [c]. *)
Definition denotes (s : str) (c : conn) : Prop :=
  exists t k v o, trimmed_of s t /\ reads t k v o /\
    kind_means k (c_kind c) /\ value_means (c_kind c) v (c_value c) /\
    (forall key w, In (key, w) (c_options c) <-> option_given o key w) /\
    NoDup (map fst (c_options c)) /\
    (c_kind c = L "file" -> exists w, option_given o (L "datastore") w).

(** a value without blanks and commas *)
Definition plain_value (v : str) : Prop :=
  v <> [] /\ forall c, In c v -> ~ separator c /\ is_space c = false.
