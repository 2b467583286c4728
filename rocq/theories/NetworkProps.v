(** C23: only networks in use are written out. *)
From Verif Require Import PyBase PyDict XmlModel XmlSpec NamesModel ProfileSpec NetworkModel NetworkSpec
  NetworkProofs.

(** A document for the examples: two networks, one of them in use. *)
Definition nic (v : version) (conns : list str) : elem :=
  Elem (ETHERNET_PORT_ITEM v) [] None None
    (map (fun c => Elem (EPASD v ++ CONNECTION) [] (Some c) None []) conns).
Definition hardware (v : version) (nics : list elem) : elem := Elem (OVF_NS v ++ L "VirtualHardwareSection") [] None None nics.
Definition net (v : version) (name desc : str) : elem :=
  Elem (NETWORK v) [(NETWORK_NAME v, name)] None None [Elem (NWK_DESC v) [] (Some desc) None []].
Definition envelope (v : version) (nets : list elem) : elem :=
  Elem (OVF_NS v ++ L "Envelope") [] None None
    [Elem (OVF_NS v ++ L "References") [] None None [];
     Elem (NETWORK_SECTION v) (NETWORK_SECTION_ATTRIB v) None None
       (Elem (INFO v) [] (Some (L "Logical networks")) None [] :: nets);
     Elem (OVF_NS v ++ L "VirtualSystem") [] None None []].
Definition two_nets (v : version) : netdoc :=
  mkNet (envelope v [net v (L "VM Network") (L "the one"); net v (L "Spare") (L "unused")]) true.

Lemma two_nets_reachable : forall v, net_reachable v (two_nets v).
Proof. intros v. apply N_open with (envelope v [net v (L "VM Network") (L "the one"); net v (L "Spare") (L "unused")]). destruct v; vm_compute; reflexivity. Qed.

(** After the clean-up that precedes writing, a network is listed exactly if it was
    listed before and some NIC is connected to it: no NIC loses its network and no
    unused network is written. *)
Theorem C23_only_used : forall v hw d name, net_reachable v d ->
  (In name (networks v (refresh_networks v hw d)) <-> In name (networks v d) /\ in_use v hw name).
Proof. exact refresh_names. Qed.
Print Assumptions C23_only_used.

Example C23_only_used_case : forall v,
  networks v (two_nets v) = [Some (L "VM Network"); Some (L "Spare")] /\
  networks v (refresh_networks v (hardware v [nic v [L "VM Network"]]) (two_nets v)) = [Some (L "VM Network")].
Proof. intros v; destruct v; split; vm_compute; reflexivity. Qed.

(** The networks kept are those elements themselves, in their order and with
    everything in them; the rest of the section and of the document is unchanged; the
    section goes exactly when none of its networks is in use. *)
Theorem C23_rest_unchanged : forall v hw d, net_reachable v d ->
  let d' := refresh_networks v hw d in
  thinned v hw (declared_networks v d) (declared_networks v d') /\
  networks v d' = map (fun n => get_attr n (NETWORK_NAME v)) (declared_networks v d') /\
  same_but_children (n_env d) (n_env d') /\
  ((forall x, In x (echildren (n_env d)) -> ~ is_network_section v x) /\ d' = d \/
   exists A sec B, echildren (n_env d) = A ++ sec :: B /\ is_network_section v sec /\
     ((declared_networks v d' = [] /\ echildren (n_env d') = A ++ B) \/
      (declared_networks v d' <> [] /\ exists sec', echildren (n_env d') = A ++ sec' :: B /\
         same_but_children sec sec' /\ thinned v hw (echildren sec) (echildren sec')))).
Proof. exact refresh_spec. Qed.
Print Assumptions C23_rest_unchanged.

Example C23_rest_unchanged_case : forall v,
  n_env (refresh_networks v (hardware v [nic v [L "VM Network"]]) (two_nets v)) =
    envelope v [net v (L "VM Network") (L "the one")] /\
  echildren (n_env (refresh_networks v (hardware v []) (two_nets v))) =
    [Elem (OVF_NS v ++ L "References") [] None None [];
     Elem (OVF_NS v ++ L "VirtualSystem") [] None None []].
Proof. intros v; destruct v; split; vm_compute; reflexivity. Qed.

(** What stays is determined: [thinned] relates a list to one list only. *)
Theorem C23_determined : forall v hw l l1 l2, thinned v hw l l1 -> thinned v hw l l2 -> l1 = l2.
Proof. intros v hw l l1 l2 H1 H2. exact (thinned_fun v hw l l1 H1 l2 H2). Qed.
Print Assumptions C23_determined.

(** Writing again without a change of the hardware changes nothing. *)
Theorem C23_again : forall v hw d, net_reachable v d ->
  refresh_networks v hw (refresh_networks v hw d) = refresh_networks v hw d.
Proof. exact refresh_again. Qed.
Print Assumptions C23_again.

Example C23_again_case : forall v,
  refresh_networks v (hardware v [nic v [L "VM Network"]])
    (refresh_networks v (hardware v [nic v [L "VM Network"]]) (two_nets v)) =
  mkNet (envelope v [net v (L "VM Network") (L "the one")]) true.
Proof. intros v; destruct v; vm_compute; reflexivity. Qed.

(** Defining a network: it is then listed exactly once, with the description given;
    one that existed is updated in place, a new one comes last; all other networks and
    the rest of the document stay as they were. *)
Theorem C23_define : forall v d label desc d', net_reachable v d -> create_network v d label desc = Ok d' ->
  exists pre n' post, declared_networks v d' = pre ++ n' :: post /\
    networks v d' = map (fun n => get_attr n (NETWORK_NAME v)) (declared_networks v d') /\
    get_attr n' (NETWORK_NAME v) = Some label /\
    (forall x, In x (pre ++ post) -> get_attr x (NETWORK_NAME v) <> Some label) /\
    (forall t, desc = Some t -> findtext (NWK_DESC v) n' = t) /\
    ((exists n, declared_networks v d = pre ++ n :: post /\ network_made v desc n n') \/
     (post = [] /\ declared_networks v d = pre /\
      network_made v desc (Elem (NETWORK v) [(NETWORK_NAME v, label)] None None []) n')) /\
    same_but_children (n_env d) (n_env d') /\
    outside_networks v (n_env d') = outside_networks v (n_env d).
Proof. exact create_spec. Qed.
Print Assumptions C23_define.

Example C23_define_case : forall v,
  create_network v (two_nets v) (L "Spare") (Some (L "in reserve")) =
    Ok (mkNet (envelope v [net v (L "VM Network") (L "the one"); net v (L "Spare") (L "in reserve")]) true) /\
  create_network v (two_nets v) (L "DMZ") (Some (L "outside")) =
    Ok (mkNet (envelope v [net v (L "VM Network") (L "the one"); net v (L "Spare") (L "unused");
                           net v (L "DMZ") (L "outside")]) true).
Proof. intros v; destruct v; split; vm_compute; reflexivity. Qed.

(** A network that is defined and then named by a NIC is written. *)
Theorem C23_defined_is_written : forall v hw d label desc d', net_reachable v d ->
  create_network v d label desc = Ok d' -> in_use v hw (Some label) ->
  In (Some label) (networks v (refresh_networks v hw d')).
Proof.
  intros v hw d label desc d' Hr Hc Hu.
  apply (C23_only_used v hw d' (Some label) (N_create v d label desc d' Hr Hc)). split; [|exact Hu].
  destruct (C23_define v d label desc d' Hr Hc) as (pre & n' & post & Hd & Hn & Hl & _).
  rewrite Hn, Hd. apply in_map_iff. exists n'. split; [exact Hl|]. apply in_elt.
Qed.
Print Assumptions C23_defined_is_written.

Example C23_defined_is_written_case : forall v,
  exists d', create_network v (two_nets v) (L "DMZ") (Some (L "outside")) = Ok d' /\
    in_use v (hardware v [nic v [L "DMZ"]]) (Some (L "DMZ")).
Proof.
  intros v. destruct (C23_define_case v) as [_ H]. eexists. split; [exact H|].
  exists (nic v [L "DMZ"]), (Elem (EPASD v ++ CONNECTION) [] (Some (L "DMZ")) None []), [].
  split; [destruct v; vm_compute; now left|]. split; destruct v; vm_compute; reflexivity.
Qed.

(** Not every network that some hardware names survives.  Only the first Connection of
    a NIC counts, and in an OVF 2.x file a NIC that is written as a plain Item does not
    count at all. *)
Theorem C23_every_connection_counts_refuted :
  (exists v item c d, net_reachable v d /\ In c (echildren item) /\ etag c = EPASD v ++ CONNECTION /\
     etag item = ETHERNET_PORT_ITEM v /\ In (etext c) (networks v d) /\
     ~ In (etext c) (networks v (refresh_networks v (hardware v [item]) d))) /\
  (exists item c d, net_reachable V2 d /\ In c (echildren item) /\ etag c = RASD V2 ++ CONNECTION /\
     etag item = ITEM V2 /\ In (etext c) (networks V2 d) /\
     ~ In (etext c) (networks V2 (refresh_networks V2 (hardware V2 [item]) d))).
Proof.
  split.
  - exists V1, (nic V1 [L "VM Network"; L "Spare"]),
      (Elem (EPASD V1 ++ CONNECTION) [] (Some (L "Spare")) None []), (two_nets V1).
    split; [apply two_nets_reachable|]. split; [right; now left|]. split; [reflexivity|].
    split; [reflexivity|]. split; [vm_compute; auto|].
    vm_compute. intros [H|[]]. discriminate.
  - exists (Elem (ITEM V2) [] None None [Elem (RASD V2 ++ CONNECTION) [] (Some (L "Spare")) None []]),
      (Elem (RASD V2 ++ CONNECTION) [] (Some (L "Spare")) None []), (two_nets V2).
    split; [apply two_nets_reachable|]. split; [now left|]. split; [reflexivity|].
    split; [reflexivity|]. split; [vm_compute; auto|]. vm_compute. intros [].
Qed.
Print Assumptions C23_every_connection_counts_refuted.
