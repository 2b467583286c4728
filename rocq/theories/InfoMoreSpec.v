(** What users rely on about the other parts of the output of [cot info]. *)
From Coq Require Import List Ascii ZArith.
Import ListNotations.
From Verif Require Import PyBase PyDict NamesModel XmlModel XmlSpec ItemModel ItemSpec HardwareModel FindSpec
  NetworkModel EnvPropModel ProductModel InfoModel InfoSpec WrapSpec.
Local Open Scope nat_scope.

(** ** Elements and texts *)

(** the one child that answers; [None] if there is none *)
Definition only_child (tag : str) (attrib : list (str * str)) (e : elem) (o : option elem) : Prop :=
  match o with
  | None => forall x, In x (echildren e) -> ~ answers tag attrib x
  | Some s => exists A B, echildren e = A ++ s :: B /\ answers tag attrib s /\ forall x, In x (A ++ B) -> ~ answers tag attrib x
  end.
(** the text of the first child with the tag: empty if that has none, [None] if there is no such child *)
Definition first_text (tag : str) (o : option elem) : option str :=
  match o with
  | Some e => match below tag e with
              | c :: _ => Some (match etext c with Some t => t | None => [] end)
              | [] => None
              end
  | None => None
  end.
(** there is a text, and it is not empty *)
Definition says_something (o : option str) : Prop := exists t, o = Some t /\ t <> [].

(** [text] broken into lines: behind the indents are its words in order, each line fits in
    the width or is a single piece, no line is empty *)
Definition wrapped (width : Z) (ini sub text : str) (lines : list str) : Prop :=
  exists bodies, lines = indented ini sub bodies /\ flat_map words bodies = words text
    /\ all_fit width ini sub bodies /\ Forall (fun b => b <> []) bodies.
(** the same for a line of a longer text: an empty line stays *)
Definition wrapped_line (width : Z) (ini sub line : str) (lines : list str) : Prop :=
  (line = [] /\ lines = [[]]) \/ (line <> [] /\ wrapped width ini sub line lines).

(** a character that ends a line *)
Definition ends_line (c : ascii) : Prop := In (code c) [10; 11; 12; 13; 28; 29; 30; 133]%N.
(** [lines] are the lines of the text; CR LF is a single end *)
Inductive lines_of : str -> list str -> Prop :=
  | No_lines : lines_of [] []
  | Last_line s : s <> [] -> (forall c, In c s -> ~ ends_line c) -> lines_of s [s]
  | A_line s c rest lines : (forall x, In x s -> ~ ends_line x) -> ends_line c ->
      (code c = 13%N -> forall d r, rest = d :: r -> code d <> 10%N) ->
      lines_of rest lines -> lines_of (s ++ c :: rest) (s :: lines)
  | A_line_crlf s c d rest lines : (forall x, In x s -> ~ ends_line x) -> code c = 13%N -> code d = 10%N ->
      lines_of rest lines -> lines_of (s ++ c :: d :: rest) (s :: lines).

Definition spaces (n : nat) : str := repeat " "%char n.
Definition in_quotes (s : str) : str := L """" ++ s ++ L """".

(** ** Product *)

(** the rows about the product: label, element, and what is shown without the element *)
Definition product_table (v : version) (brief : bool) : list (str * str * str) :=
  [(L "Product:  ", PRODUCT v, L "(No product string)")]
  ++ (if brief then [] else [(L "          ", PRODUCT_URL v, L "(No product URL)")])
  ++ [(L "Vendor:   ", VENDOR v, L "(No vendor string)")]
  ++ (if brief then [] else [(L "          ", VENDOR_URL v, L "(No vendor URL)")])
  ++ [(L "Version:  ", VERSION v, L "(No version string)")]
  ++ (if brief then [] else [(L "          ", FULL_VERSION v, L "(No detailed version string)")]).
Definition product_row_shown (width : Z) (sec : option elem) (r : str * str * str) (block : list str) : Prop :=
  let '(label, tag, without) := r in
  wrapped width [] (spaces 10) (label ++ match first_text tag sec with Some t => t | None => without end) block.

(** ** Licenses *)

(** what is shown of a license section: nothing without a text; otherwise what it is about,
    and the text if everything is to be shown *)
Definition eula_shown (v : version) (width : Z) (verbose : bool) (eula : elem) (block : list str) : Prop :=
  (~ says_something (first_text (EULA_LICENSE v) (Some eula)) /\ block = [])
  \/ exists t a b, first_text (EULA_LICENSE v) (Some eula) = Some t /\ t <> [] /\ block = a ++ b
     /\ (forall i, first_text (INFO v) (Some eula) = Some i -> i <> [] -> wrapped width (spaces 2) (spaces 2) i a)
     /\ (~ says_something (first_text (INFO v) (Some eula)) -> a = [])
     /\ (verbose = false -> b = [L "    (not displayed, use 'cot info --verbose' if desired)"])
     /\ (verbose = true -> exists lines blocks, lines_of t lines /\ b = concat blocks /\ Forall2 (wrapped_line width (spaces 4) (spaces 4)) lines blocks).

(** ** Networks *)

(** how a network is shown when the longest name has [n] characters; [room] is the space for
    a description, if descriptions are to be cut *)
Inductive network_shown (width : Z) (n : nat) (room : option Z) (name : str) : option str -> list str -> Prop :=
  | Net_plain d : ~ says_something d -> network_shown width n room name d [L "  " ++ name]
  | Net_cut r t cut : room = Some r -> t <> [] -> (r < Z.of_nat (length t))%Z ->
      (exists rest, t = cut ++ rest) -> ((3 <= r)%Z -> Z.of_nat (length cut) = (r - 3)%Z) ->
      network_shown width n room name (Some t) [L "  " ++ to_left n name ++ L "  " ++ in_quotes (cut ++ L "...")]
  | Net_full t block : t <> [] -> (forall r, room = Some r -> (Z.of_nat (length t) <= r)%Z) ->
      wrapped width (L "  ") (spaces (5 + n)) (to_left n name ++ L "  " ++ in_quotes t) block ->
      network_shown width n room name (Some t) block.

(** ** NICs *)

(** what the device reports for a property over all its profiles (see C39, C45) *)
Definition reports (E : env) (i : item) (n : str) (o : option value) : Prop := get_value E (i_props i) n None = Ok o.
Definition text_or_none (E : env) (o : option value) : str := match o with Some x => vtext E x | None => L "None" end.
(** the row of a NIC, and its description *)
Inductive nic_shown (E : env) (width : Z) (verbose : bool) (w : nat) (i : item) : list str -> Prop :=
  | Nic_shown net name cell desc caption block :
      reports E i CONNECTION net -> reports E i (ELEMENT_NAME (e_ver E)) name ->
      (forall x, name = Some x -> cell = vtext E x) ->
      (name = None -> exists id, reports E i (INSTANCE_ID (e_ver E)) id /\ cell = L "<instance " ++ text_or_none E id ++ L ">") ->
      (verbose = false -> block = []) ->
      (verbose = true -> reports E i ITEM_DESCRIPTION desc /\ (desc = None -> reports E i CAPTION caption) /\
         match (match desc with Some x => Some x | None => caption end) with
         | Some x => wrapped width (spaces 4) (spaces 4) (vtext E x) block
         | None => block = []
         end) ->
      nic_shown E width verbose w i ((L "  " ++ to_left w cell ++ L " : " ++ text_or_none E net) :: block).

(** ** Properties *)

Definition value_cell (p : prop_info) : str := match pi_value p with Some t => in_quotes t | None => L "--" end.
Definition key_cell (p : prop_info) : str := L "<" ++ name_or_none (pi_key p) ++ L ">".
Definition name_of_prop (p : prop_info) : str := match pi_label p with [] => key_cell p | t => t end.
(** the length of the longest of some texts *)
Definition is_longest (l : list str) (n : nat) : Prop :=
  (forall s, In s l -> length s <= n) /\ (l <> [] -> exists s, In s l /\ length s = n).
(** the row of a property when the key is shown beside the label *)
Definition row_with_key (kw lw : nat) (p : prop_info) : str :=
  L "  " ++ to_left kw (key_cell p) ++ L "  " ++ to_left lw (pi_label p) ++ L "  " ++ value_cell p.
Definition row_without_key (w : nat) (p : prop_info) : str :=
  L "  " ++ to_left w (name_of_prop p) ++ L "  " ++ value_cell p.

(** ** Hardware variants *)

(** [t] is a subtype of some device of the type, whatever profile it is in *)
Definition subtype_of (E : env) (h : hw) (rt t : str) : Prop :=
  exists k i q l, In (k, i) h /\ wanted E (Some rt) [] [] i /\
    own (i_props i) RESOURCE_SUB_TYPE q (VTuple l) /\ In t l.
(** a row with some words; nothing if there are none *)
Definition words_row (width : Z) (label : str) (ws block : list str) : Prop :=
  (ws = [] /\ block = []) \/ (ws <> [] /\ wrapped width label (spaces 28) (join (L " ") ws) block).

(** The kinds of products that are known, with the names shown for them. *)
Definition PRODUCT_TITLES : list (str * str) :=
  [ (L "com.cisco.vwlc", L "Cisco C9800-CL"); (L "com.cisco.csr1000v", L "Cisco CSR1000V"); (L "com.cisco.iosv", L "Cisco IOSv");
    (L "com.cisco.ios-xrv", L "Cisco IOS XRv"); (L "com.cisco.ios-xrv.rp", L "Cisco IOS XRv route processor card"); (L "com.cisco.ios-xrv.lc", L "Cisco IOS XRv line card");
    (L "com.cisco.ios-xrv9000", L "Cisco IOS XRv 9000"); (L "com.cisco.ios-xrv64", L "Cisco IOS XRv 9000");
    (L "com.cisco.n9k", L "Cisco Nexus 9000v"); (L "com.cisco.nx-osv", L "Cisco NX-OSv") ].
(** The line for the kind of product; none if it is unknown. *)
Definition platform_line (class : option str) (lines : list str) : Prop :=
  (exists c n, class = Some c /\ In (c, n) PRODUCT_TITLES /\ lines = [L "COT detected platform type: " ++ n]) \/
  ((forall c n, In (c, n) PRODUCT_TITLES -> class <> Some c) /\ lines = []).
