(** C24: values of environment properties obey their declarations.
    C25: a configuration file becomes numbered properties. *)
From Verif Require Import PyBase PyBaseProofs PyDict XmlModel XmlSpec NamesModel ValidationSpec ProfileSpec
  PlatformModel EnvPropModel EnvPropSpec EnvPropProofs ConfigPropProofs.

(** For the examples: a host name of at most eight characters and a boolean. *)
Definition prop (key type qual value : str) : elem :=
  Elem (PROPERTY V1) [(PROP_KEY V1, key); (PROP_TYPE V1, type); (PROP_QUAL V1, qual); (PROP_VALUE V1, value)] None None
    [Elem (PROPERTY_LABEL V1) [] (Some key) None []].
Definition product (props : list elem) : elem :=
  Elem (PRODUCT_SECTION V1) [] None None (Elem (INFO V1) [] (Some (L "about")) None [] :: props).
Definition system (sections : list elem) : elem := Elem (OVF_NS V1 ++ L "VirtualSystem") [] None None sections.
Definition vs0 : elem :=
  system [product [prop (L "hostname") (L "string") (L "MinLen(2) MaxLen(8)") (L "router");
                   prop (L "login") (L "boolean") [] (L "true")]].

(** ** C24 *)

(** Success: the property with this key, created if need be, has the settings given and
    a value that is the one given in its canonical form and obeys the type and the
    qualifiers; reading gives that value. *)
Theorem C24_set : forall v vs key value uc ty label desc vs' w,
  set_property v vs key value uc ty label desc = (vs', Ok w) ->
  exists nw p p', edited_at v vs vs' key nw p p' /\
    property_set v uc (type_set nw ty) label desc w p p' /\
    get_property_value v vs' key = Ok (value_of v p') /\
    let T := get_attr_or p' (PROP_TYPE v) [] in
    let Q := get_attr_or p' (PROP_QUAL v) [] in
    match value_checked v nw ty value p with
    | None => w = None
    | Some x => exists y, w = Some y /\ stored_as T x y /\ conforms T Q y
    end.
Proof. exact set_ok. Qed.
Print Assumptions C24_set.

Example C24_set_case :
  set_property V1 vs0 (L "login") (Some (L "No")) None None None None =
    (system [product [prop (L "hostname") (L "string") (L "MinLen(2) MaxLen(8)") (L "router");
                      prop (L "login") (L "boolean") [] (L "false")]], Ok (Some (L "false"))) /\
  set_property V1 vs0 (L "hostname") (Some (L "switch-1")) None None (Some (L "Name")) None =
    (system [product [Elem (PROPERTY V1) [(PROP_KEY V1, L "hostname"); (PROP_TYPE V1, L "string");
                        (PROP_QUAL V1, L "MinLen(2) MaxLen(8)"); (PROP_VALUE V1, L "switch-1")] None None
                        [Elem (PROPERTY_LABEL V1) [] (Some (L "Name")) None []];
                      prop (L "login") (L "boolean") [] (L "true")]], Ok (Some (L "switch-1"))) /\
  snd (set_property V1 (system []) (L "new") (Some (L "x")) (Some true) None None None) = Ok (Some (L "x")).
Proof. do 2 (split; [vm_compute; reflexivity|]). vm_compute. reflexivity. Qed.

(** Whatever the outcome, the other properties, in their order, and the rest of the
    document are untouched, except that a product section is made if there is none. *)
Theorem C24_others_untouched : forall v vs key value uc ty label desc vs' r,
  set_property v vs key value uc ty label desc = (vs', r) ->
  filter (fun x => negb (has_key v key x)) (properties v vs') =
    filter (fun x => negb (has_key v key x)) (properties v vs) /\
  same_but_children vs vs' /\ outside_product v vs' = outside_product v vs /\
  (other_product_content v vs' = other_product_content v vs \/
   ((forall x, In x (echildren vs) -> ~ answers (PRODUCT_SECTION v) (PRODUCT_SECTION_ATTRIB v) x) /\
    other_product_content v vs' = [Elem (INFO v) [] (Some (L "Product Information")) None []])).
Proof. exact others_untouched. Qed.
Print Assumptions C24_others_untouched.

(** Reading any other property gives what it gave before. *)
Theorem C24_others_read : forall v vs key value uc ty label desc vs' w k,
  set_property v vs key value uc ty label desc = (vs', Ok w) -> k <> key ->
  get_property_value v vs' k = get_property_value v vs k.
Proof. exact get_other. Qed.
Print Assumptions C24_others_read.

Example C24_others_case :
  get_property_value V1 (fst (set_property V1 vs0 (L "login") (Some (L "No")) None None None None)) (L "hostname") =
    Ok (Some (L "router")).
Proof. vm_compute. reflexivity. Qed.

(** The ways to fail: OVF 0.9; an ambiguous document; a value that cannot be stored so
    that it obeys the declaration - then only the type and the user_configurable mark
    given are set. *)
Theorem C24_refused : forall v vs key value uc ty label desc vs' e,
  set_property v vs key value uc ty label desc = (vs', Err e) ->
  (e = ENotImplemented /\ v = V0 /\ vs' = vs) \/
  (e = ELookupError /\ ~ unambiguous v vs key) \/
  (e = EValueUnsupported /\ exists nw p p' x, edited_at v vs vs' key nw p p' /\
     property_set v uc (type_set nw ty) None None None p p' /\
     value_checked v nw ty value p = Some x /\
     ~ exists y, stored_as (get_attr_or p' (PROP_TYPE v) []) x y /\
         conforms (get_attr_or p' (PROP_TYPE v) []) (get_attr_or p' (PROP_QUAL v) []) y).
Proof. exact set_refused. Qed.
Print Assumptions C24_refused.

(** When a value is refused no value changes; at most a property without a value is new. *)
Theorem C24_refused_values_kept : forall v vs key value uc ty label desc vs',
  set_property v vs key value uc ty label desc = (vs', Err EValueUnsupported) ->
  (map (fun p => (key_of v p, value_of v p)) (properties v vs') =
   map (fun p => (key_of v p, value_of v p)) (properties v vs)) \/
  (map (fun p => (key_of v p, value_of v p)) (properties v vs') =
   map (fun p => (key_of v p, value_of v p)) (properties v vs) ++ [(Some key, None)]).
Proof. exact refused_values. Qed.
Print Assumptions C24_refused_values_kept.

Example C24_refused_case :
  set_property V1 vs0 (L "hostname") (Some (L "switch-11")) None None None None = (vs0, Err EValueUnsupported) /\
  set_property V1 vs0 (L "hostname") (Some (L "r")) None None None None = (vs0, Err EValueUnsupported) /\
  set_property V1 vs0 (L "login") (Some (L "maybe")) None None None None = (vs0, Err EValueUnsupported).
Proof. do 2 (split; [vm_compute; reflexivity|]). vm_compute. reflexivity. Qed.

(** If all values obey their declarations, they all do after a successful call. *)
Theorem C24_invariant : forall v vs key value uc ty label desc vs' w,
  set_property v vs key value uc ty label desc = (vs', Ok w) ->
  (forall p, In p (properties v vs) -> prop_conforms v p) ->
  forall p, In p (properties v vs') -> prop_conforms v p.
Proof. exact invariant. Qed.
Print Assumptions C24_invariant.

Example C24_invariant_case : forall p, In p (properties V1 vs0) -> prop_conforms V1 p.
Proof.
  assert (G : forall p, In p (properties V1 vs0) -> forall w, value_of V1 p = Some w -> validate_value V1 p w = Ok w).
  { intros p Hp w Hw. vm_compute in Hp. destruct Hp as [<-|[<-|[]]]; vm_compute in Hw; injection Hw as <-;
      vm_compute; reflexivity. }
  intros p Hp w Hw. apply (validate_spec V1 p w w). now apply G.
Qed.

(** A failed call need not leave the document as it was: the new type stays, so that a
    value may then contradict its declaration. *)
Theorem C24_failure_changes_nothing_refuted :
  exists v vs key ty vs', (forall p, In p (properties v vs) -> prop_conforms v p) /\
    set_property v vs key None None (Some ty) None None = (vs', Err EValueUnsupported) /\
    vs' <> vs /\ exists p, In p (properties v vs') /\ ~ prop_conforms v p.
Proof.
  exists V1, vs0, (L "hostname"), (L "boolean").
  eexists. split; [exact C24_invariant_case|]. split; [vm_compute; reflexivity|].
  split; [intros F; apply (f_equal (fun e => map (fun c => map (fun p => get_attr p (PROP_TYPE V1)) (echildren c)) (echildren e))) in F;
          vm_compute in F; discriminate|].
  exists (prop (L "hostname") (L "boolean") (L "MinLen(2) MaxLen(8)") (L "router")).
  split; [vm_compute; now left|]. intros F.
  destruct (F (L "router") eq_refl) as [Hb _ _]. destruct (Hb eq_refl) as [E|E]; discriminate.
Qed.
Print Assumptions C24_failure_changes_nothing_refuted.

(** ** C25 *)

(** Every text has lines, and they determine which of them count. *)
Theorem C25_lines : forall text, exists ls ms, cut text ls /\ meaningful ls ms /\
  forall ms', meaningful ls ms' -> ms' = ms.
Proof.
  intros text. destruct (cut_exists text) as [ls Hl]. exists ls, (kept ls). split; [exact Hl|].
  split; [apply kept_meaningful|]. exact (meaningful_kept ls).
Qed.
Print Assumptions C25_lines.

(** After a successful import the i-th line that counts is the value of the i-th
    numbered property (canonical, if a property of that key was there with type
    boolean). *)
Theorem C25_values : forall v vs literal uc text vs' ls ms,
  config_file_to_properties v vs (Some literal) uc text = (vs', Ok tt) -> cut text ls -> meaningful ls ms ->
  forall i m, nth_error ms i = Some m -> exists key y, numbered_key literal (S i) key /\
    get_property_value v vs' key = Ok (Some y) /\ stored_as (declared_type v vs key) m y.
Proof. exact config_values. Qed.
Print Assumptions C25_values.

(** Reading any property with another key gives what it gave before. *)
Theorem C25_others : forall v vs literal uc text vs' ls ms,
  config_file_to_properties v vs (Some literal) uc text = (vs', Ok tt) -> cut text ls -> meaningful ls ms ->
  forall k, (forall i, 1 <= i <= length ms -> ~ numbered_key literal i k) ->
  get_property_value v vs' k = get_property_value v vs k.
Proof. exact config_others. Qed.
Print Assumptions C25_others.

(** If no property has one of these keys yet, the import succeeds and appends one
    property of type string per line that counts, in the order of the lines. *)
Theorem C25_import : forall v vs literal uc text ls ms, v <> V0 ->
  (forall A x M y B, echildren vs = A ++ x :: M ++ y :: B ->
     answers (PRODUCT_SECTION v) (PRODUCT_SECTION_ATTRIB v) x ->
     ~ answers (PRODUCT_SECTION v) (PRODUCT_SECTION_ATTRIB v) y) ->
  cut text ls -> meaningful ls ms ->
  (forall p i k, In p (properties v vs) -> 1 <= i <= length ms -> numbered_key literal i k -> key_of v p <> Some k) ->
  exists vs' ps, config_file_to_properties v vs (Some literal) uc text = (vs', Ok tt) /\
    properties v vs' = properties v vs ++ ps /\ length ps = length ms /\
    forall i m p, nth_error ms i = Some m -> nth_error ps i = Some p ->
      (exists key, numbered_key literal (S i) key /\ key_of v p = Some key) /\ value_of v p = Some m /\
      get_attr p (PROP_TYPE v) = Some (L "string") /\
      get_attr p (PROP_USER_CONFIGABLE v) =
        match uc with Some true => Some (L "true") | Some false => Some (L "false") | None => None end.
Proof. exact config_fresh. Qed.
Print Assumptions C25_import.

Definition CRLF : str := [ascii_of_nat 13; ascii_of_nat 10].
Example C25_import_case :
  map (fun p => (key_of V1 p, value_of V1 p))
    (properties V1 (fst (config_file_to_properties V1 (system []) (literal_cli_string CSR1000V) (Some true)
       (L "hostname r1" ++ CRLF ++ L "!" ++ CRLF ++ CRLF ++ L "interface Gi1" ++ CRLF ++ L "  ip address dhcp  " ++ CRLF ++ L " ! end")))) =
  [(Some (L "ios-config-0001"), Some (L "hostname r1")); (Some (L "ios-config-0002"), Some (L "interface Gi1"));
   (Some (L "ios-config-0003"), Some (L "ip address dhcp"))].
Proof. vm_compute. reflexivity. Qed.

(** Each number has one key of its own, and the natural order of the keys is that of
    the numbers, also beyond 9999. *)
Theorem C25_keys : forall literal i j ki kj, numbered_key literal i ki -> numbered_key literal j kj ->
  (ki = kj -> i = j) /\ (no_digits literal -> i < j -> natural_lt ki kj).
Proof.
  intros literal i j ki kj Hi Hj. split.
  - intros ->. exact (numbered_inj literal i j kj Hi Hj).
  - intros Hl. exact (keys_ordered literal i j ki kj Hl Hi Hj).
Qed.
Print Assumptions C25_keys.

Example C25_keys_case :
  numbered_key (L "config") 9999 (L "config-9999") /\ numbered_key (L "config") 10000 (L "config-10000") /\
  natural_lt (L "config-9999") (L "config-10000") /\
  forall p l, literal_cli_string p = Some l -> no_digits l.
Proof.
  assert (A : numbered_key (L "config") 9999 (L "config-9999")).
  { generalize (key_numbered (L "config") 9999).
    replace (config_key (L "config") (N.of_nat 9999)) with (L "config-9999") by (vm_compute; reflexivity). now intros H. }
  assert (B : numbered_key (L "config") 10000 (L "config-10000")).
  { generalize (key_numbered (L "config") 10000).
    replace (config_key (L "config") (N.of_nat 10000)) with (L "config-10000") by (vm_compute; reflexivity). now intros H. }
  split; [exact A|]. split; [exact B|]. split.
  - apply (C25_keys _ _ _ _ _ A B).
    + intros c Hc. cbn in Hc. repeat destruct Hc as [<-|Hc]; try reflexivity. contradiction.
    + apply Nat.ltb_lt. vm_compute. reflexivity.
  - intros p l H. destruct p; try discriminate; injection H as <-; intros c Hc; cbn in Hc;
      repeat destruct Hc as [<-|Hc]; try reflexivity; contradiction.
Qed.

(** Lines of an earlier, longer file stay: the numbered properties are not always
    exactly the lines of the file imported last. *)
Theorem C25_stale_lines_refuted :
  exists v vs literal text1 text2 vs1 vs2 key,
    config_file_to_properties v vs (Some literal) None text1 = (vs1, Ok tt) /\
    config_file_to_properties v vs1 (Some literal) None text2 = (vs2, Ok tt) /\
    cut text2 [text2] /\ meaningful [text2] [text2] /\ numbered_key literal 2 key /\
    get_property_value v vs2 key = Ok (Some (L "b")).
Proof.
  exists V1, (system []), (L "config"), (L "a" ++ CRLF ++ L "b"), (L "c").
  eexists. eexists. exists (L "config-0002"). do 2 (split; [vm_compute; reflexivity|]).
  split; [apply cut_last; intros c [<-|[]]; split; discriminate|]. split.
  - apply mf_line; [|discriminate|constructor]. exists [], []. split; [reflexivity|].
    do 2 (split; [intros c []|]). split.
    + intros c r E. now injection E as <- _.
    + intros c [|x r] E; [now injection E as <-|]. destruct r; discriminate.
  - split; [|vm_compute; reflexivity]. exact (key_numbered (L "config") 2).
Qed.
Print Assumptions C25_stale_lines_refuted.

(** On a platform without support, and in OVF 0.9 if any line counts, nothing changes. *)
Theorem C25_unsupported : forall v vs uc text,
  config_file_to_properties v vs None uc text = (vs, Err ENotImplemented) /\
  forall literal ls ms, cut text ls -> meaningful ls ms -> ms <> [] ->
    config_file_to_properties V0 vs (Some literal) uc text = (vs, Err ENotImplemented).
Proof.
  intros v vs uc text. split; [reflexivity|]. intros literal ls ms Hc Hm Hn. cbn [config_file_to_properties].
  rewrite import_as_kept, (cut_kept text ls Hc), <- (meaningful_kept ls ms Hm). now destruct ms.
Qed.
Print Assumptions C25_unsupported.
