(** Property theorems C33: the arguments of edit-properties. *)
From Verif Require Import PyBase PyBaseProofs PropArgModel PropArgSpec PropArgProofs.

(** An argument of one line is split into key, value and type exactly as
    "key[=value][+type]" says; anything that can be read as a type is a type. *)
Theorem C33_parse : forall prop key value type, ~ In NLc prop ->
  (parse_property prop = Ok (key, value, type) <-> means prop key value type).
Proof. exact parse_spec. Qed.
Print Assumptions C33_parse.

(** There is never a second reading. *)
Theorem C33_unambiguous : forall prop k1 v1 t1 k2 v2 t2, ~ In NLc prop ->
  means prop k1 v1 t1 -> means prop k2 v2 t2 -> (k1, v1, t1) = (k2, v2, t2).
Proof. exact means_unique. Qed.
Print Assumptions C33_unambiguous.

(** An argument with no reading is refused as invalid input. *)
Theorem C33_invalid : forall prop, ~ In NLc prop ->
  (parse_property prop = Err EInvalidInput <-> forall k v t, ~ means prop k v t).
Proof. exact parse_invalid. Qed.
Print Assumptions C33_invalid.

(** Whatever the argument, lines or not: the only error is invalid input, and an
    accepted argument is the text of what was understood (apart from one final
    newline), the key and type being words and the value one line. *)
Theorem C33_total : forall prop,
  (exists p, parse_property prop = Ok p) \/ parse_property prop = Err EInvalidInput.
Proof. exact parse_total. Qed.
Print Assumptions C33_total.
Theorem C33_nothing_lost : forall prop key value type, parse_property prop = Ok (key, value, type) ->
  word key /\ (forall t, type = Some t -> word t) /\ (forall v, value = Some v -> ~ In NLc v) /\
  (prop = prop_text key value type \/ prop = prop_text key value type ++ [NLc]).
Proof. exact parse_sound. Qed.
Print Assumptions C33_nothing_lost.

(** A list of arguments is read in order; one bad argument and nothing changes. *)
Theorem C33_list : forall value e, (forall p, In p value -> ~ In NLc p) ->
  (forall p, In p value -> exists k v t, means p k v t) ->
  exists l, set_properties value e = (mkep l (ep_transports e) (ep_labels e) (ep_descriptions e), Ok tt) /\
    Forall2 (fun p q => means p (fst (fst q)) (snd (fst q)) (snd q)) value l.
Proof. exact set_properties_ok. Qed.
Print Assumptions C33_list.
Theorem C33_list_atomic : forall value e p, In p value -> ~ In NLc p ->
  (forall k v t, ~ means p k v t) -> set_properties value e = (e, Err EInvalidInput).
Proof. exact set_properties_bad. Qed.
Print Assumptions C33_list_atomic.

(** Labels and descriptions, when given, are as many as the properties. *)
Theorem C33_labels : forall e s, ready_to_run s e = true <->
  s = true /\ (ep_labels e = [] \/ length (ep_labels e) = length (ep_properties e)) /\
  (ep_descriptions e = [] \/ length (ep_descriptions e) = length (ep_properties e)).
Proof. exact ready_spec. Qed.
Print Assumptions C33_labels.

(** Not every value can be given: no argument for the key "k" means the value "a+b"
    without a type, although the same value followed by a type can be given. *)
Theorem C33_every_value_refuted : exists key v, word key /\ ~ In NLc v /\
  (forall prop, parse_property prop <> Ok (key, Some v, None)) /\
  parse_property (prop_text key (Some v) None) = Ok (key, Some (L "a"), Some (L "b")).
Proof.
  exists (L "k"), (L "a+b"). split; [|split; [|split]].
  - split; [discriminate|]. cbn. split; intuition discriminate.
  - cbn. intuition discriminate.
  - intros prop H. assert (H0 := H). apply parse_sound in H as (_ & _ & _ & [->| ->]);
      vm_compute in H0; discriminate.
  - vm_compute. reflexivity.
Qed.
Print Assumptions C33_every_value_refuted.

(** A value of several lines is refused, and a final newline is dropped. *)
Theorem C33_lines_refuted :
  parse_property (L "k=a" ++ [NLc] ++ L "b") = Err EInvalidInput /\
  parse_property (L "k=a" ++ [NLc]) = Ok (L "k", Some (L "a"), None).
Proof. split; vm_compute; reflexivity. Qed.
Print Assumptions C33_lines_refuted.

(** Non-vacuity: the examples of the documentation. *)
Example C33_parse_case :
  map parse_property [L "no_value"; L "key=value"; L "string_type+string"; L "full-type=yes+boolean";
    L "ssh=autopubkey=ssh-rsa AA...q+t0...Tuw== root@MASTER"; L "tricky=+foo"; L "tricky_value=++foo==++";
    L "trickiest=bar+foo=hello+boolean"; L "=x"; L "a+b+c"]
  = [Ok (L "no_value", None, None); Ok (L "key", Some (L "value"), None); Ok (L "string_type", None, Some (L "string"));
     Ok (L "full-type", Some (L "yes"), Some (L "boolean"));
     Ok (L "ssh", Some (L "autopubkey=ssh-rsa AA...q+t0...Tuw== root@MASTER"), None);
     Ok (L "tricky", Some [], Some (L "foo")); Ok (L "tricky_value", Some (L "++foo==++"), None);
     Ok (L "trickiest", Some (L "bar+foo=hello"), Some (L "boolean")); Err EInvalidInput; Err EInvalidInput].
Proof. vm_compute. reflexivity. Qed.
Example C33_means_case : means (L "trickiest=bar+foo=hello+boolean") (L "trickiest") (Some (L "bar+foo=hello")) (Some (L "boolean")).
Proof.
  split; [reflexivity|]. split; (split; [discriminate|]; cbn; split; intuition discriminate).
Qed.

(** ** Transports *)
(** Three short names stand for transports; any other text is a transport by itself.  Setting the
    transports replaces all earlier ones and touches nothing else. *)
Theorem C33_transports : forall l e,
  Forall2 means_transport l (ep_transports (set_transports l e)) /\
  ep_properties (set_transports l e) = ep_properties e /\ ep_labels (set_transports l e) = ep_labels e /\
  ep_descriptions (set_transports l e) = ep_descriptions e.
Proof. exact PropArgProofs.transports. Qed.
Print Assumptions C33_transports.
Example C33_transports_example : ep_transports (set_transports [L "ibm"; L "x"; L "vmware"; L "iso"] (mkep [] [L "iso"] [] [])) =
  [L "http://www.ibm.com/xmlns/ovf/transport/filesystem/etc/ovf-transport"; L "x"; L "com.vmware.guestInfo"; L "iso"].
Proof. vm_compute. reflexivity. Qed.
