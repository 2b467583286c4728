(** What users rely on for the networks of an OVF. *)
From Verif Require Import PyBase PyDict XmlModel XmlSpec NamesModel ProfileSpec NetworkModel.

(** A NIC of the hardware section names this network.  Only the first Connection of
    a NIC counts.  In OVF 0.9 and 1.x a NIC is one of the Items, in 2.x it is an
    EthernetPortItem. *)
Definition in_use (v : version) (hw : elem) (name : option str) : Prop :=
  exists nic conn rest, In nic (with_tag (ETHERNET_PORT_ITEM v) hw) /\
    with_tag (EPASD v ++ CONNECTION) nic = conn :: rest /\ etext conn = name.

(** The list [l'] is [l] without the Networks that are not in use. *)
Inductive thinned (v : version) (hw : elem) : list elem -> list elem -> Prop :=
| T_nil : thinned v hw [] []
| T_other : forall c l l', etag c <> NETWORK v -> thinned v hw l l' -> thinned v hw (c :: l) (c :: l')
| T_used : forall c l l', etag c = NETWORK v -> in_use v hw (get_attr c (NETWORK_NAME v)) ->
    thinned v hw l l' -> thinned v hw (c :: l) (c :: l')
| T_unused : forall c l l', etag c = NETWORK v -> ~ in_use v hw (get_attr c (NETWORK_NAME v)) ->
    thinned v hw l l' -> thinned v hw (c :: l) l'.

(** The element is a section of networks. *)
Definition is_network_section (v : version) (e : elem) : Prop :=
  answers (NETWORK_SECTION v) (NETWORK_SECTION_ATTRIB v) e.

(** A document through any sequence of definitions of networks and of clean-ups,
    whatever the hardware is meanwhile. *)
Inductive net_reachable (v : version) : netdoc -> Prop :=
| N_open : forall envelope d, open_networks v envelope = Ok d -> net_reachable v d
| N_create : forall d label desc d', net_reachable v d ->
    create_network v d label desc = Ok d' -> net_reachable v d'
| N_refresh : forall d hw, net_reachable v d -> net_reachable v (refresh_networks v hw d).

(** The elements declaring a network in the document. *)
Definition declared_networks (v : version) (d : netdoc) : list elem :=
  flat_map (with_tag (NETWORK v))
    (filter (child_match (NETWORK_SECTION v) (NETWORK_SECTION_ATTRIB v)) (echildren (n_env d))).

(** A network element with this description, if one is given; all else as before. *)
Record network_made (v : version) (desc : option str) (n n' : elem) : Prop := {
  nm_same : same_but_children n n';
  nm_desc : exists e, with_tag (NWK_DESC v) n' = [e] /\ (forall t, desc = Some t -> etext e = Some t);
  nm_rest : forall t, t <> NWK_DESC v -> with_tag t n' = with_tag t n }.

(** The document outside its network section. *)
Definition outside_networks (v : version) (envelope : elem) : list elem :=
  filter (fun c => negb (child_match (NETWORK_SECTION v) (NETWORK_SECTION_ATTRIB v) c)) (echildren envelope).
