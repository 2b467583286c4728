(** C49: the command edit-properties. *)
From Coq Require Import Lia.
From Verif Require Import PyBase PyBaseProofs PyDict XmlModel XmlSpec NamesModel ProfileSpec PropArgModel ChooseModel ChooseSpec
  EnvPropModel EnvPropSpec EnvPropProps EditPropModel EditPropSpec EditPropProofs DialogueProofs EditRunProofs.
Local Open Scope nat_scope.

(** For the examples: two properties and a hardware section; a command that changes one,
    creates one and sets a transport. *)
Definition hw0 : elem := Elem (VIRTUAL_HW_SECTION V1) [] None None [].
Definition vs1 : elem :=
  system [product [prop (L "hostname") (L "string") (L "MinLen(2) MaxLen(8)") (L "router");
                   prop (L "login") (L "boolean") [] (L "true")]; hw0].
Definition cmd1 : edit_args :=
  mkArgs (mkep [(L "login", Some (L "No"), None); (L "domain", Some (L "example.com"), None)]
            [L "iso"; L "com.vmware.guestInfo"] [L "Login?"; L "Domain"] []) None (Some true).
Example cmd1_runs : o_result (run false true V1 None vs1 [L "maybe"; L " y "] cmd1) = Ok tt /\
  o_asked (run false true V1 None vs1 [L "maybe"; L " y "] cmd1) = [L "domain"] /\
  shown V1 (o_doc (run false true V1 None vs1 [L "maybe"; L " y "] cmd1)) =
    [(Some (L "hostname"), Some (L "router")); (Some (L "login"), Some (L "false"));
     (Some (L "domain"), Some (L "example.com"))].
Proof. split; [vm_compute; reflexivity|]. split; vm_compute; reflexivity. Qed.

(** ** Settings given on the command line *)

(** A property named once, and not numbered like the lines of the configuration file, is
    set as asked: the one the package had, or else a new one, gets the value (in canonical
    form and obeying type and qualifiers), type, mark, label and description given at the
    same place in the options; nothing else of it changes. *)
Theorem C49_once : forall force ready v literal vs typed a i key value ty,
  let vs' := o_doc (run force ready v literal vs typed a) in
  o_result (run force ready v literal vs typed a) = Ok tt ->
  nth_error (ep_properties (a_edit a)) i = Some (key, value, ty) ->
  (forall j x t, nth_error (ep_properties (a_edit a)) j = Some (key, x, t) -> j = i) ->
  ~ config_sets literal a key ->
  exists nw p p' w, with_key v vs' key = [p'] /\ with_key v vs key = (if nw : bool then [] else [p]) /\
    (nw = true -> p = new_property v key) /\
    property_set v (a_user a) (type_set nw ty) (nth_error (ep_labels (a_edit a)) i)
      (nth_error (ep_descriptions (a_edit a)) i) w p p' /\
    let T := get_attr_or p' (PROP_TYPE v) [] in
    let Q := get_attr_or p' (PROP_QUAL v) [] in
    match value_checked v nw ty value p with
    | None => w = None
    | Some x => exists y, w = Some y /\ stored_as T x y /\ conforms T Q y
    end.
Proof. exact run_once. Qed.
Print Assumptions C49_once.

(** A property named several times has in the end what the last time asked for. *)
Theorem C49_last : forall force ready v literal vs typed a i key value ty,
  let vs' := o_doc (run force ready v literal vs typed a) in
  o_result (run force ready v literal vs typed a) = Ok tt ->
  nth_error (ep_properties (a_edit a)) i = Some (key, value, ty) ->
  (forall j x t, nth_error (ep_properties (a_edit a)) j = Some (key, x, t) -> j <= i) ->
  exists p', with_key v vs' key = [p'] /\
    (forall x, value = Some x -> exists y, value_of v p' = Some y /\
       stored_as (get_attr_or p' (PROP_TYPE v) []) x y /\
       conforms (get_attr_or p' (PROP_TYPE v) []) (get_attr_or p' (PROP_QUAL v) []) y) /\
    (forall t, ty = Some t -> get_attr p' (PROP_TYPE v) = Some t) /\
    (forall b, a_user a = Some b -> get_attr p' (PROP_USER_CONFIGABLE v) = Some (if b then L "true" else L "false")) /\
    (forall n, nth_error (ep_labels (a_edit a)) i = Some n ->
       exists e, with_tag (PROPERTY_LABEL v) p' = [e] /\ etext e = Some n) /\
    (forall n, nth_error (ep_descriptions (a_edit a)) i = Some n ->
       exists e, with_tag (PROPERTY_DESC v) p' = [e] /\ etext e = Some n).
Proof. exact run_last. Qed.
Print Assumptions C49_last.

(** If there are labels (descriptions), each property given has its own; otherwise the
    command is refused before anything is done. *)
Theorem C49_labels : forall force ready v literal vs typed a,
  let e := a_edit a in
  (ep_labels e = [] \/ length (ep_labels e) = length (ep_properties e)) /\
  (ep_descriptions e = [] \/ length (ep_descriptions e) = length (ep_properties e)) \/
  run force ready v literal vs typed a = mkOut vs [] typed (Err EInvalidInput).
Proof.
  intros force ready v literal vs typed a. cbn zeta. unfold run, ready_to_run.
  destruct (ep_labels (a_edit a)) as [|l ls], (ep_descriptions (a_edit a)) as [|d ds], (ep_properties (a_edit a)) as [|p ps];
    cbn [nonempty andb negb]; try (right; reflexivity); try (left; split; left; reflexivity);
    repeat match goal with |- context [Nat.eqb ?m ?n] => destruct (Nat.eqb_spec m n) end; cbn [negb];
    try (right; reflexivity); left; auto.
Qed.
Print Assumptions C49_labels.

(** All other properties, and everything outside the properties, stay; apart from the
    transport attribute, if transports are given. *)
Theorem C49_others : forall force ready v literal vs typed a, something_given a ->
  let vs' := o_doc (run force ready v literal vs typed a) in
  o_result (run force ready v literal vs typed a) = Ok tt ->
  (forall key, (forall j x t, nth_error (ep_properties (a_edit a)) j <> Some (key, x, t)) ->
     ~ config_sets literal a key -> with_key v vs' key = with_key v vs key) /\
  exists vs2, same_but_children vs vs2 /\ outside_product v vs2 = outside_product v vs /\
    (other_product_content v vs2 = other_product_content v vs \/
     ((forall x, In x (echildren vs) -> ~ answers (PRODUCT_SECTION v) (PRODUCT_SECTION_ATTRIB v) x) /\
      other_product_content v vs2 = [Elem (INFO v) [] (Some (L "Product Information")) None []])) /\
    (forall k, with_key v vs' k = with_key v vs2 k) /\
    match ep_transports (a_edit a) with
    | [] => vs' = vs2
    | ts => transport_set v (join (L " ") ts) vs2 vs'
    end.
Proof.
  intros force ready v literal vs typed a G vs' H. split.
  - intros key Hn Hc. now apply run_others.
  - now apply run_rest.
Qed.
Print Assumptions C49_others.

Example C49_case : something_given cmd1 /\ ready_to_run true (a_edit cmd1) = true /\
  o_result (run false true V1 None vs1 [L "maybe"; L " y "] cmd1) = Ok tt /\
  (exists i value ty, nth_error (ep_properties (a_edit cmd1)) i = Some (L "domain", value, ty) /\
     forall j x t, nth_error (ep_properties (a_edit cmd1)) j = Some (L "domain", x, t) -> j = i) /\
  ~ config_sets None cmd1 (L "domain") /\
  (forall j x t, nth_error (ep_properties (a_edit cmd1)) j <> Some (L "hostname", x, t)).
Proof.
  split; [right; left; discriminate|]. split; [reflexivity|]. split; [vm_compute; reflexivity|]. split.
  - exists 1, (Some (L "example.com")), None. split; [reflexivity|].
    intros [|[|[|j]]] x t H; try discriminate; reflexivity.
  - split; [intros [F _]; now apply F|]. intros [|[|[|j]]] x t H; discriminate.
Qed.

(** ** Questions *)

(** The user is asked only about properties named that have no value yet, and with success
    about all that are new apart from those of the configuration file; and has agreed
    every time. *)
Theorem C49_questions : forall force ready v literal vs typed a, something_given a ->
  let o := run force ready v literal vs typed a in
  o_result o = Ok tt ->
  agreed force typed (o_asked o) (o_left o) /\
  (forall k, In k (o_asked o) -> exists j x t, nth_error (ep_properties (a_edit a)) j = Some (k, x, t)) /\
  (forall k p, In k (o_asked o) -> ~ config_sets literal a k -> with_key v vs k = [p] -> value_of v p = None) /\
  (forall j k x t, nth_error (ep_properties (a_edit a)) j = Some (k, x, t) -> ~ config_sets literal a k ->
     with_key v vs k = [] -> In k (o_asked o)).
Proof. exact run_questions. Qed.
Print Assumptions C49_questions.

(** The user declined: the command ends there; the document has only what was agreed to
    before. *)
Theorem C49_declined : forall force ready v literal vs typed a,
  let o := run force ready v literal vs typed a in
  o_result o = Err ESystemExit ->
  exists ks k before t, o_asked o = ks ++ [k] /\ force = false /\
    agreed force typed ks (before ++ t :: o_left o) /\ (forall t', In t' before -> ~ means (yes ++ no) t') /\ means no t /\
    (~ In k ks -> with_key v vs k = [] -> ~ config_sets literal a k -> with_key v (o_doc o) k = []).
Proof. exact run_declined. Qed.
Print Assumptions C49_declined.

Example C49_declined_case : o_result (run false true V1 None vs1 [L "?"; L "n"] cmd1) = Err ESystemExit /\
  with_key V1 vs1 (L "domain") = [] /\ o_asked (run false true V1 None vs1 [L "?"; L "n"] cmd1) = [L "domain"].
Proof. split; [vm_compute; reflexivity|]. split; vm_compute; reflexivity. Qed.

(** The user may be asked whether to create a property that exists. *)
Theorem C49_asked_if_missing_refuted : exists a vs p,
  with_key V1 vs (L "banner") = [p] /\ o_asked (run false true V1 None vs [[]] a) = [L "banner"] /\
  o_result (run false true V1 None vs [[]] a) = Ok tt.
Proof.
  exists (mkArgs (mkep [(L "banner", Some (L "hi"), None)] [] [] []) None None),
    (system [product [Elem (PROPERTY V1) [(PROP_KEY V1, L "banner"); (PROP_TYPE V1, L "string")] None None []]; hw0]),
    (Elem (PROPERTY V1) [(PROP_KEY V1, L "banner"); (PROP_TYPE V1, L "string")] None None []).
  split; [vm_compute; reflexivity|]. split; vm_compute; reflexivity.
Qed.
Print Assumptions C49_asked_if_missing_refuted.

(** ** Transports *)

(** The transports given replace those the package had, and reading gives them back if
    none has a blank (and there is not just an empty one). *)
Theorem C49_transports : forall force ready v literal vs typed a,
  let vs' := o_doc (run force ready v literal vs typed a) in
  let ts := ep_transports (a_edit a) in
  o_result (run force ready v literal vs typed a) = Ok tt -> ts <> [] -> ts <> [[]] ->
  (forall t, In t ts -> ~ In " "%char t) ->
  environment_transports v vs' = Ok (Some ts).
Proof. exact run_transports. Qed.
Print Assumptions C49_transports.

(** Without that condition it may read otherwise. *)
Theorem C49_transports_read_back_refuted : exists ts,
  let vs' := o_doc (run false true V1 None vs1 [] (mkArgs (mkep [] ts [] []) None None)) in
  o_result (run false true V1 None vs1 [] (mkArgs (mkep [] ts [] []) None None)) = Ok tt /\
  environment_transports V1 vs' = Ok (Some [L "my"; L "transport"]) /\ length ts = 1.
Proof. exists [L "my transport"]. split; [vm_compute; reflexivity|]. split; vm_compute; reflexivity. Qed.
Print Assumptions C49_transports_read_back_refuted.

Example C49_transports_case :
  environment_transports V1 (o_doc (run false true V1 None vs1 [L "y"] cmd1)) = Ok (Some [L "iso"; L "com.vmware.guestInfo"]).
Proof. vm_compute. reflexivity. Qed.

(** ** Interactive mode *)

(** With nothing given there is a dialogue instead, and nothing else. *)
Theorem C49_interactive : forall force ready v literal vs typed a, ~ something_given a ->
  ready_to_run ready (a_edit a) = true ->
  o_doc (run force ready v literal vs typed a) = fst (edit_properties_interactive force v (a_user a) vs typed) /\
  o_result (run force ready v literal vs typed a) = snd (edit_properties_interactive force v (a_user a) vs typed) /\
  o_asked (run force ready v literal vs typed a) = [].
Proof. exact interactive_run. Qed.
Print Assumptions C49_interactive.

(** With --force it changes nothing. *)
Theorem C49_interactive_force : forall v uc vs typed, presentable v vs ->
  edit_properties_interactive true v uc vs typed = (vs, Ok tt).
Proof. exact interactive_force. Qed.
Print Assumptions C49_interactive_force.

(** Whatever is typed, and even if the input ends early: no property appears, disappears or
    changes its place, key, type, qualifiers, label or description; everything outside
    stays; values that obeyed their declarations still do.  It fails only if the input
    ends or two properties have the same key. *)
Theorem C49_interactive_safe : forall force v uc vs typed, presentable v vs ->
  let vs' := fst (edit_properties_interactive force v uc vs typed) in
  Forall2 (fun p p' => etag p' = etag p /\ etext p' = etext p /\ etail p' = etail p /\
             (forall k, k <> PROP_VALUE v -> k <> PROP_USER_CONFIGABLE v -> get_attr p' k = get_attr p k) /\
             forall t, with_tag t p' = with_tag t p) (properties v vs) (properties v vs') /\
  same_but_children vs vs' /\ outside_product v vs' = outside_product v vs /\
  other_product_content v vs' = other_product_content v vs /\
  ((forall p, In p (properties v vs) -> prop_conforms v p) -> forall p, In p (properties v vs') -> prop_conforms v p) /\
  forall e, snd (edit_properties_interactive force v uc vs typed) = Err e ->
    e = EEOFError \/ (e = ELookupError /\ exists k, In k (keys_of v vs) /\ 1 < length (with_key v vs k)).
Proof.
  intros force v uc vs typed Hp. destruct (interactive_gentle force v uc vs typed Hp) as [[G1 G2 G3 G4 G5 G6] He].
  cbn zeta. auto 10.
Qed.
Print Assumptions C49_interactive_safe.

(** What each line does.  Leaving: *)
Theorem C49_interactive_quit : forall v uc vs rest t, presentable v vs ->
  t = [] \/ t = L "q" \/ (t = L "Q" /\ In (L "Q") (keys_of v vs)) ->
  edit_properties_interactive false v uc vs (t :: rest) = (vs, Ok tt).
Proof. exact quits. Qed.
Print Assumptions C49_interactive_quit.
(** a line that selects nothing: *)
Theorem C49_interactive_again : forall v uc vs rest t, presentable v vs -> t <> [] ->
  (forall r, ~ selects (keys_of v vs) (L "q") t r) ->
  edit_properties_interactive false v uc vs (t :: rest) = edit_properties_interactive false v uc vs rest.
Proof. exact not_understood. Qed.
Print Assumptions C49_interactive_again.
(** a property is selected and its value kept: *)
Theorem C49_interactive_keep : forall v uc vs rest t x k p l, presentable v vs -> t <> [] -> k <> L "q" -> k <> L "Q" ->
  selects (keys_of v vs) (L "q") t k -> with_key v vs k = p :: l -> x = [] \/ value_of v p = Some x ->
  edit_properties_interactive false v uc vs (t :: x :: rest) = edit_properties_interactive false v uc vs rest.
Proof. exact unchanged. Qed.
Print Assumptions C49_interactive_keep.
(** or another value is entered, which is set; if it is refused, the next line is another
    try. *)
Theorem C49_interactive_edit : forall v uc vs rest t x k p l, presentable v vs -> t <> [] -> k <> L "q" -> k <> L "Q" ->
  selects (keys_of v vs) (L "q") t k -> with_key v vs k = p :: l -> x <> [] -> value_of v p <> Some x ->
  edit_properties_interactive false v uc vs (t :: x :: rest) =
    match set_property v vs k (Some x) uc None None None with
    | (vs', Ok _) => edit_properties_interactive false v uc vs' rest
    | (vs', Err EValueUnsupported) => edit_properties_interactive false v uc vs' (t :: rest)
    | (vs', Err e) => (vs', Err e)
    end.
Proof. exact edits. Qed.
Print Assumptions C49_interactive_edit.
(** Two empty lines end it at any point. *)
Theorem C49_interactive_ends : forall v uc vs typed, presentable v vs ->
  snd (edit_properties_interactive false v uc vs (typed ++ [[]; []])) <> Err EEOFError.
Proof. exact interactive_ends. Qed.
Print Assumptions C49_interactive_ends.

Example C49_interactive_case : presentable V1 vs1 /\
  let r := edit_properties_interactive false V1 None vs1
             [L "x"; L "2"; L "perhaps"; L "f"; L "host"; []; L "hostname"; L "r1"; L "q"] in
  snd r = Ok tt /\ shown V1 (fst r) = [(Some (L "hostname"), Some (L "r1")); (Some (L "login"), Some (L "false"))].
Proof.
  split.
  - split; [discriminate|]. split.
    + intros p Hp. vm_compute in Hp. destruct Hp as [<-|[<-|[]]]; vm_compute; discriminate.
    + apply sections_presentable. vm_compute. lia.
  - split; vm_compute; reflexivity.
Qed.

(** Not every property can be edited: one with key "q" cannot be selected, and an empty
    value cannot be entered; and "Q" does not quit in general, though "q" and "Q" are both
    meant to. *)
Theorem C49_interactive_every_property_refuted : exists vs, presentable V1 vs /\ In (L "q") (keys_of V1 vs) /\
  forall uc t rest, t = L "q" \/ t = L "1" ->
    edit_properties_interactive false V1 uc vs (t :: rest) = (vs, Ok tt).
Proof.
  exists (system [product [prop (L "q") (L "string") [] (L "router")]; hw0]). split; [|split].
  - split; [discriminate|]. split.
    + intros p Hp. vm_compute in Hp. destruct Hp as [<-|[]]; vm_compute; discriminate.
    + apply sections_presentable. vm_compute. lia.
  - vm_compute. now left.
  - intros uc t rest [->| ->]; vm_compute; reflexivity.
Qed.
Print Assumptions C49_interactive_every_property_refuted.
Theorem C49_interactive_Q_quits_refuted : exists vs, presentable V1 vs /\
  edit_properties_interactive false V1 None vs [L "Q"; L "q"] = (vs, Err EEOFError) /\
  edit_properties_interactive false V1 None vs1 [L "Q"] = (vs1, Err EEOFError).
Proof.
  exists (system [product [prop (L "Quota") (L "string") (L "MinLen(2)") (L "10")]; hw0]). split.
  - split; [discriminate|]. split.
    + intros p Hp. vm_compute in Hp. destruct Hp as [<-|[]]; vm_compute; discriminate.
    + apply sections_presentable. vm_compute. lia.
  - split; vm_compute; reflexivity.
Qed.
Print Assumptions C49_interactive_Q_quits_refuted.
