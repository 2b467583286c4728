(** Model of the networks of an OVF: COT/vm_description/ovf/ovf.py:220-223, 610-628,
    912-937 and 1674-1689.

    The envelope is a tree; [n_attached] says whether [self.network_section] is not
    None, in which case it is the child of the envelope found by [find_child] (there
    is only one such child, else reading fails).  The hardware section is a separate
    argument: it lies below another child of the envelope, the VirtualSystem. *)
From Verif Require Import PyBase PyDict XmlModel NamesModel ProfileModel.

(** name_helper.py:131-140, 189-196, 377, 455, 503-506 *)
Definition XSI_TYPE : str := braced (L "http://www.w3.org/2001/XMLSchema-instance") ++ L "type".
Definition NETWORK_SECTION (v : version) : str :=
  OVF_NS v ++ match v with V0 => L "Section" | _ => L "NetworkSection" end.
Definition NETWORK_SECTION_ATTRIB (v : version) : list (str * str) :=
  match v with V0 => [(XSI_TYPE, L "ovf:NetworkSection_Type")] | _ => [] end.
Definition NETWORK (v : version) : str := OVF_NS v ++ L "Network".
Definition NETWORK_NAME (v : version) : str := OVF_NS v ++ L "name".
Definition NWK_DESC (v : version) : str := OVF_NS v ++ L "Description".

Record netdoc : Type := mkNet { n_env : elem; n_attached : bool }.

Definition is_netsec (v : version) (e : elem) : bool :=
  child_match (NETWORK_SECTION v) (NETWORK_SECTION_ATTRIB v) e.

(** [self.network_section] *)
Definition network_section (v : version) (d : netdoc) : option elem :=
  if n_attached d then find (is_netsec v) (echildren (n_env d)) else None.

(** ovf.py:220-223 *)
Definition open_networks (v : version) (envelope : elem) : result netdoc :=
  do o <- find_child envelope (NETWORK_SECTION v) (NETWORK_SECTION_ATTRIB v) false;
  Ok (mkNet envelope (match o with Some _ => true | None => false end)).

(** [findall(tag)] *)
Definition findall (tag : str) (e : elem) : list elem :=
  filter (fun c => str_eqb (etag c) tag) (echildren e).

(** [networks], ovf.py:610-616; a Network without a name counts as None *)
Definition networks (v : version) (d : netdoc) : list (option str) :=
  match network_section v d with
  | None => []
  | Some sec => map (fun n => get_attr n (NETWORK_NAME v)) (findall (NETWORK v) sec)
  end.

(** [network_descriptions], ovf.py:618-628: [findtext] of an empty element is "" *)
Definition findtext (tag : str) (e : elem) : str :=
  match findall tag e with
  | [] => []
  | c :: _ => match etext c with Some t => t | None => [] end
  end.
Definition network_descriptions (v : version) (d : netdoc) : list str :=
  match network_section v d with
  | None => []
  | Some sec => map (findtext (NWK_DESC v)) (findall (NETWORK v) sec)
  end.

(** The loop over the NICs, ovf.py:922-927: the texts of their (first) Connection *)
Definition connected_networks (v : version) (hw : elem) : list (option str) :=
  flat_map (fun item => match findall (EPASD v ++ CONNECTION) item with
                        | [] => []
                        | conn :: _ => [etext conn]
                        end)
           (findall (ETHERNET_PORT_ITEM v) hw).

Definition opt_eqb (a b : option str) : bool :=
  match a, b with
  | Some x, Some y => str_eqb x y
  | None, None => true
  | _, _ => false
  end.
Definition mem_opt (x : option str) (l : list (option str)) : bool := existsb (opt_eqb x) l.

(** [_refresh_networks], ovf.py:912-937 *)
Definition refresh_networks (v : version) (hw : elem) (d : netdoc) : netdoc :=
  match network_section v d with
  | None => d
  | Some sec =>
      let used := connected_networks v hw in
      let unused c := str_eqb (etag c) (NETWORK v)
                      && negb (mem_opt (get_attr c (NETWORK_NAME v)) used) in
      let sec' := set_children (filter (fun c => negb (unused c)) (echildren sec)) sec in
      match findall (NETWORK v) sec' with
      | [] => mkNet (set_children (remove_first (is_netsec v) (echildren (n_env d))) (n_env d)) false
      | _ => mkNet (set_children (update_first (is_netsec v) (fun _ => sec') (echildren (n_env d)))
                      (n_env d)) true
      end
  end.

(** [create_network], ovf.py:1674-1689; [description] is None or a text.  When it raises
    (LookupError, because two elements answer) a section or network it has just made
    stays in the document; the model gives only the error *)
Definition create_network (v : version) (d : netdoc) (label : str) (description : option str)
    : result netdoc :=
  do r <- ensure_section v (n_env d) (NETWORK_SECTION v) (L "Logical networks")
            (NETWORK_SECTION_ATTRIB v);
  let '(env, sec) := (r : elem * elem) in
  do o <- find_child sec (NETWORK v) [(NETWORK_NAME v, label)] false;
  let net := match o with
             | Some n => n
             | None => Elem (NETWORK v) [(NETWORK_NAME v, label)] None None []
             end in
  do r1 <- set_or_make_child net (NWK_DESC v) description [] [];
  let net' := fst (r1 : elem * elem) in
  let sec' := match o with
              | Some _ => set_children (update_first (child_match (NETWORK v) [(NETWORK_NAME v, label)])
                                          (fun _ => net') (echildren sec)) sec
              | None => set_children (echildren sec ++ [net']) sec
              end in
  Ok (mkNet (set_children (update_first (is_netsec v) (fun _ => sec') (echildren env)) env) true).
