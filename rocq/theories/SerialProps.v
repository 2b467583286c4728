(** Property theorems C34: serial connections and network maps of "cot deploy". *)
From Verif Require Import PyBase PyBaseProofs ValidationSpec SerialModel SerialSpec SerialProofs.

(** An accepted string says exactly what is configured: kind, value and options. *)
Theorem C34_accepted : forall s c, from_cli_string s = Ok (Some c) -> denotes s c.
Proof. exact serial_sound. Qed.
Print Assumptions C34_accepted.

(** Every string that says something is accepted, with that meaning. *)
Theorem C34_complete : forall s c, denotes s c -> exists c',
  from_cli_string s = Ok (Some c') /\ c_kind c' = c_kind c /\ c_value c' = c_value c /\
  forall key w, In (key, w) (c_options c') <-> In (key, w) (c_options c).
Proof. exact serial_complete. Qed.
Print Assumptions C34_complete.

(** Blank strings mean no connection; all others that are not accepted are refused
    as unsupported or invalid; unsupported is said exactly when the kind is unknown. *)
Theorem C34_blank : forall s, from_cli_string s = Ok None <-> forall c, In c s -> is_space c = true.
Proof. exact serial_none. Qed.
Print Assumptions C34_blank.
Theorem C34_refused : forall s,
  (forall c, from_cli_string s <> Ok (Some c)) -> (exists c, In c s /\ is_space c = false) ->
  from_cli_string s = Err EValueUnsupported \/ from_cli_string s = Err EInvalidInput.
Proof. exact serial_refused. Qed.
Print Assumptions C34_refused.
Theorem C34_unsupported : forall s, from_cli_string s = Err EValueUnsupported <->
  exists t k v o, trimmed_of s t /\ reads t k v o /\ forall kind, ~ kind_means k kind.
Proof. exact serial_unsupported. Qed.
Print Assumptions C34_unsupported.

(** "kind:value,options" comes back as given, for each kind, each value of the form
    the kind requires and any options. *)
Theorem C34_roundtrip : forall kind v o es,
  In kind [L "device"; L "file"; L "pipe"; L "tcp"; L "telnet"] -> plain_value v -> value_means kind v v ->
  entries_of o es -> ~ In NLc o -> (forall c t, o = t ++ [c] -> is_space c = false) ->
  (kind = L "file" -> exists e w, In e es /\ entry_means e (L "datastore") w) ->
  exists opts, from_cli_string (kind ++ ":"%char :: v ++ ","%char :: o) = Ok (Some (mkconn kind v opts)) /\
    forall key w, In (key, w) opts <-> option_given o key w.
Proof. exact serial_roundtrip. Qed.
Print Assumptions C34_roundtrip.

(** A list of strings gives the connections of the strings that are not blank, in
    order.  When a string is refused, the connections of the strings before it stay
    and the earlier setting is lost. *)
Theorem C34_list : forall value,
  (exists l, Forall2 (fun s r => from_cli_string s = Ok r) value l /\
     set_connections value = (flat_map (fun r => match r with Some c => [c] | None => [] end) l, Ok tt)) \/
  (exists before s after l e, value = before ++ s :: after /\ Forall2 (fun s r => from_cli_string s = Ok r) before l /\
     from_cli_string s = Err e /\
     set_connections value = (flat_map (fun r => match r with Some c => [c] | None => [] end) l, Err e)).
Proof. intros value. exact (add_connections_spec value []). Qed.
Print Assumptions C34_list.

(** On ESXi more than four strings are refused and nothing changes; four or fewer
    are treated as above. *)
Theorem C34_esxi : forall value old,
  (length value <= 4 -> set_connections_esxi value old = set_connections value) /\
  (4 < length value -> set_connections_esxi value old = (old, Err EValueUnsupported)).
Proof.
  intros value old. unfold set_connections_esxi.
  destruct (Nat.ltb_spec 4 (length value)); split; intros; auto; exfalso;
    [apply (Nat.lt_irrefl 4)|apply (Nat.lt_irrefl 4)]; eapply Nat.lt_le_trans; eauto.
Qed.
Print Assumptions C34_esxi.

(** Network maps are stored as given if every entry has the form "network=target",
    else nothing changes. *)
Theorem C34_network_map : forall value old,
  ((forall s, In s value -> mapping s) -> set_network_map value old = (Some value, Ok tt)) /\
  (forall s, In s value -> ~ mapping s -> set_network_map value old = (old, Err EInvalidInput)).
Proof.
  intros value old. unfold set_network_map. split.
  - intros H. replace (forallb map_ok value) with true; [reflexivity|]. symmetry.
    apply forallb_forall. intros s Hs. now apply map_ok_spec, H.
  - intros s Hs H. destruct (forallb map_ok value) eqn:E; [|reflexivity]. exfalso.
    rewrite forallb_forall in E. now apply H, map_ok_spec, E.
Qed.
Print Assumptions C34_network_map.

(** A value given without a kind does not always mean a device: letters at its
    start are taken for a kind. *)
Theorem C34_device_name_refuted :
  from_cli_string (L "com1") = Err EValueUnsupported /\
  from_cli_string (L "COM1") = Ok (Some (mkconn (L "device") (L "COM1") [])) /\
  reads (L "file") (L "fil") (L "e") [] /\
  from_cli_string (L "pipes") = Ok (Some (mkconn (L "pipe") (L "s") [])).
Proof.
  split; [vm_compute; reflexivity|]. split; [vm_compute; reflexivity|]. split; [|vm_compute; reflexivity].
  exists (L "file"), []. split; [reflexivity|].
  split; [intros c Hc [X|[X|X]]; subst; cbn in Hc; intuition discriminate|].
  split; [constructor|]. split; [easy|]. apply (hm_letters (L "fil") "e"%char); apply lowercase_forallb; reflexivity.
Qed.
Print Assumptions C34_device_name_refuted.

(** Text after the port number is dropped without notice, and so is an option that
    begins with "=". *)
Theorem C34_all_used_refuted :
  from_cli_string (L "tcp:host:23abc,=server,telnetCLIENT=x") =
    Ok (Some (mkconn (L "tcp") (L "host:23") [(L "telnetCLIENT", OText (L "x"))])).
Proof. vm_compute. reflexivity. Qed.
Print Assumptions C34_all_used_refuted.

(** Non-vacuity. *)
Example C34_accepted_case :
  map from_cli_string [L "/dev/ttyS0"; L " tcp::22,server "; L "telnet://1.1.1.1:1111"; L "file:/tmp/a,datastore=ds1,x=";
                       L "file:/tmp/a"; L "tcp:host"; L "fake:x"; L ",a"; L "  "] =
  [Ok (Some (mkconn (L "device") (L "/dev/ttyS0") [])); Ok (Some (mkconn (L "tcp") (L ":22") [(L "server", OTrue)]));
   Ok (Some (mkconn (L "telnet") (L "1.1.1.1:1111") []));
   Ok (Some (mkconn (L "file") (L "/tmp/a") [(L "datastore", OText (L "ds1")); (L "x", OTrue)]));
   Err EInvalidInput; Err EInvalidInput; Err EValueUnsupported; Err EInvalidInput; Ok None].
Proof. vm_compute. reflexivity. Qed.
Example C34_denotes_case : denotes (L " tcp::22,server ") (mkconn (L "tcp") (L ":22") [(L "server", OTrue)]).
Proof. apply C34_accepted. vm_compute. reflexivity. Qed.
Example C34_roundtrip_case : value_means (L "telnet") (L "1.1.1.1:1111") (L "1.1.1.1:1111").
Proof.
  destruct (value_spec (L "telnet") (L "telnet") (L "1.1.1.1:1111")) as [(v & H & E)|[E _]];
    [right; split; [reflexivity|cbn; auto 10]| |vm_compute in E; discriminate].
  vm_compute in E. injection E as <-. exact H.
Qed.
Example C34_esxi_case : set_connections_esxi [L "a:"; L "b"; L "c"; L "d"; L "e"] [] = ([], Err EValueUnsupported).
Proof. reflexivity. Qed.
