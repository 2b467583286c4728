(** C62: the other parts of what [cot info] prints. *)
From Coq Require Import List Ascii ZArith Bool Lia.
Import ListNotations.
From Verif Require Import PyBase PyBaseProofs PyDict NamesModel XmlModel XmlSpec ItemModel ItemSpec HardwareModel HardwareSpec FindSpec
  NetworkModel DriveModel EnvPropModel EditPropModel EditHwModel ProductModel PlatformModel WrapModel WrapSpec
  InfoModel InfoSpec InfoMoreSpec InfoMoreProofs InfoMoreProofs2 InfoRunModel InfoRunSpec InfoRunProofs.
From Verif Require EnvPropSpec InfoProfileProofs HardwareProps ItemProps CountProps NetworkProps.
Local Open Scope nat_scope.

(** ** The whole text *)

(** The parts in order, the empty ones left out, with an empty line between two. *)
Theorem C62_whole : forall E pretty wrap_hyphens m width verb text,
  info_string E pretty wrap_hyphens m width verb = Ok text <->
  exists h s1 s2 s3 s4 s5 s6 s7 s8 s9 s10,
    info_header E m width = Ok h /\ info_product E m verb width = Ok s1 /\ info_annotation E m width = Ok s2
    /\ info_eula E m verb width = Ok s3 /\ info_files_disks E pretty m width verb = Ok s4 /\ info_hardware E m width = Ok s5
    /\ profile_info_string E wrap_hyphens m width verb = Ok s6 /\ info_networks E m verb width = Ok s7
    /\ info_nics E m verb width = Ok s8 /\ info_environment E m width = Ok s9 /\ info_properties E m verb width = Ok s10
    /\ exists parts, text = h ++ NL :: join [NL; NL] parts
       /\ map Some parts = filter (fun o => match o with Some (_ :: _) => true | _ => false end) [s1; s2; Some s3; s4; s5; Some s6; s7; s8; s9; s10].
Proof.
  assert (P : forall l, map Some (present_sections l) = filter (fun o => match o with Some (_ :: _) => true | _ => false end) l).
  { induction l as [ | [[ | c s] | ] l IH]; cbn [present_sections flat_map filter app]; [reflexivity | exact IH | | exact IH].
    cbn [map]. f_equal. exact IH. }
  intros E pretty wrap_hyphens m width verb text. unfold info_string. split.
  - intros H. do 11 (apply InfoProfileProofs.rbind_ok in H; destruct H as (?x & ? & H)). apply InfoProfileProofs.ok_inj in H.
    do 11 eexists. do 11 (split; [eassumption | ]). eexists. split; [symmetry; exact H | apply P].
  - intros (h & s1 & s2 & s3 & s4 & s5 & s6 & s7 & s8 & s9 & s10 & -> & -> & -> & -> & -> & -> & -> & -> & -> & -> & -> & parts & -> & Hp). cbn [rbind].
    rewrite <- P in Hp. assert (parts = present_sections [s1; s2; Some s3; s4; s5; Some s6; s7; s8; s9; s10]) as ->; [ | reflexivity].
    revert Hp. generalize (present_sections [s1; s2; Some s3; s4; s5; Some s6; s7; s8; s9; s10]). induction parts as [ | a l IH]; intros [ | b r] H; try discriminate; [reflexivity | ].
    cbn [map] in H. injection H as -> H. f_equal. now apply IH.
Qed.
Print Assumptions C62_whole.

(** ** The parts *)

(** Lines of dashes around the name of the file and the kind of platform. *)
Theorem C62_header : forall E m width out, info_header E m width = Ok out -> let v := e_ver E in
  exists sec, only_child (PRODUCT_SECTION v) (PRODUCT_SECTION_ATTRIB v) (iv_vs m) sec /\
  let line := repeat "-"%char (Z.to_nat width) in
  let class := match sec with Some s => get_attr s (PRODUCT_CLASS v) | None => None end in
  exists kind, platform_line class kind /\ out = join [NL] ([line; iv_file m] ++ kind ++ [line]).
Proof. exact header_spec. Qed.
Print Assumptions C62_header.

(** The product: nothing if none of the texts to be shown is there; otherwise a row for each,
    with all the words of the text. *)
Theorem C62_product : forall E m verb width out, info_product E m verb width = Ok out -> let v := e_ver E in
  exists sec, only_child (PRODUCT_SECTION v) (PRODUCT_SECTION_ATTRIB v) (iv_vs m) sec /\
  let rows := product_table v (is_brief verb) in
  match out with
  | None => forall r, In r rows -> ~ says_something (first_text (snd (fst r)) sec)
  | Some text => (exists r, In r rows /\ says_something (first_text (snd (fst r)) sec)) /\
      exists blocks, text = join [NL] (concat blocks) /\ Forall2 (product_row_shown width sec) rows blocks
  end.
Proof. exact product_spec. Qed.
Print Assumptions C62_product.

(** The annotation: every line of it, the first one with a label. *)
Theorem C62_annotation : forall E m width out, info_annotation E m width = Ok out -> let v := e_ver E in
  exists sec, only_child (ANNOTATION_SECTION v) (ANNOTATION_SECTION_ATTRIB v) (iv_vs m) sec /\
  match out with
  | None => ~ says_something (first_text (ANNOTATION v) sec)
  | Some text => exists t lines blocks, first_text (ANNOTATION v) sec = Some t /\ t <> [] /\ lines_of t lines
      /\ text = join [NL] (concat blocks)
      /\ match lines, blocks with
         | l :: ls, b :: bs => wrapped_line width (L "Annotation: ") (spaces 12) l b /\ Forall2 (wrapped_line width (spaces 12) (spaces 12)) ls bs
         | _, _ => False
         end
  end.
Proof. exact annotation_spec. Qed.
Print Assumptions C62_annotation.

(** The licenses: the texts only if everything is to be shown. *)
Theorem C62_eula : forall E m verb width out, info_eula E m verb width = Ok out -> let v := e_ver E in
  exists eulas blocks,
    (forall e, In e eulas <-> In e (echildren (iv_vs m)) /\ answers (EULA_SECTION v) (EULA_SECTION_ATTRIB v) e)
    /\ Forall2 (eula_shown v width (is_verbose verb)) eulas blocks
    /\ ((forall e, In e eulas -> ~ says_something (first_text (EULA_LICENSE v) (Some e))) -> out = [])
    /\ ((exists e, In e eulas /\ says_something (first_text (EULA_LICENSE v) (Some e))) ->
        out = join [NL] (L "End User License Agreement(s):" :: concat blocks)).
Proof.
  intros E m verb width out H v. destruct (eula_spec E m verb width out H) as (eulas & blocks & -> & F & A & B).
  exists (filter (child_match (EULA_SECTION (e_ver E)) (EULA_SECTION_ATTRIB (e_ver E))) (echildren (iv_vs m))), blocks.
  split; [ | exact (conj F (conj A B))]. intros e. rewrite filter_In, XmlProofs.child_match_spec. reflexivity.
Qed.
Print Assumptions C62_eula.

(** With a width these three are always printed, unless a section is there twice. *)
Theorem C62_printed : forall E m verb width sec sec', (0 < width)%Z -> let v := e_ver E in
  only_child (PRODUCT_SECTION v) (PRODUCT_SECTION_ATTRIB v) (iv_vs m) sec ->
  only_child (ANNOTATION_SECTION v) (ANNOTATION_SECTION_ATTRIB v) (iv_vs m) sec' ->
  (exists s, info_product E m verb width = Ok s) /\ (exists s, info_annotation E m width = Ok s) /\ (exists s, info_eula E m verb width = Ok s).
Proof.
  intros E m verb width sec sec' P v A B. split; [exact (product_ok E m verb width sec P A) | ].
  split; [exact (annotation_ok E m width sec' P B) | exact (eula_ok E m verb width P)].
Qed.
Print Assumptions C62_printed.

(** The types of devices that are there in any profile. *)
Theorem C62_hardware : forall E m, hw_reachable (e_ver E) (m_hw (iv_vmd m)) ->
  forall width out, info_hardware E m width = Ok out -> let v := e_ver E in let h := m_hw (iv_vmd m) in
  exists sec scsi ide eth, only_child (VIRTUAL_HW_SECTION v) (VIRTUAL_HW_SECTION_ATTRIB v) (iv_vs m) (Some sec)
  /\ (forall t, In t scsi <-> subtype_of E h (L "scsi") t) /\ (forall t, In t ide <-> subtype_of E h (L "ide") t)
  /\ (forall t, In t eth <-> subtype_of E h (L "ethernet") t)
  /\ let types := first_text (VIRTUAL_SYSTEM_TYPE E) (match below (SYSTEM v) sec with s :: _ => Some s | [] => None end) in
  match out with
  | None => ~ says_something types /\ scsi = [] /\ ide = [] /\ eth = []
  | Some text => (says_something types \/ scsi <> [] \/ ide <> [] \/ eth <> []) /\
      exists a b c d, text = join [NL] (L "Hardware Variants:" :: a ++ b ++ c ++ d)
      /\ (~ says_something types -> a = [])
      /\ (forall t, types = Some t -> t <> [] -> wrapped width (L "  System types:             ") (spaces 28) t a)
      /\ words_row width (L "  SCSI device types:        ") scsi b
      /\ words_row width (L "  IDE device types:         ") ide c
      /\ words_row width (L "  Ethernet device types:    ") eth d
  end.
Proof. exact hardware_spec. Qed.
Print Assumptions C62_hardware.

(** The networks: one row for each, descriptions cut to the width unless everything is to be
    shown. *)
Theorem C62_networks : forall E m verb width out, info_networks E m verb width = Ok out -> let v := e_ver E in
  match out with
  | None => network_section v (iv_nets m) = None
  | Some text => exists sec names n d blocks, network_section v (iv_nets m) = Some sec /\
      let nets := below (NETWORK v) sec in
      let desc x := first_text (NWK_DESC v) (Some x) in
      let room := if is_verbose verb then None
                  else if (width <=? Z.of_nat (n + d + 6))%Z then Some (width - 6 - Z.of_nat n)%Z else None in
      nets <> [] /\ map (fun x => get_attr x (NETWORK_NAME v)) nets = map Some names
      /\ is_longest names n /\ is_longest (map (fun x => name_or_none (desc x)) nets) d
      /\ text = join [NL] (L "Networks:" :: concat blocks)
      /\ Forall2 (fun x block => network_shown width n room (fst x) (desc (snd x)) block) (combine names nets) blocks
  end.
Proof. exact networks_spec. Qed.
Print Assumptions C62_networks.
(** A description that is cut fills the line exactly, if there is room for three dots. *)
Theorem C62_network_fits : forall width n name t block, (Z.of_nat n + 9 <= width)%Z -> length name <= n ->
  network_shown width n (Some (width - 6 - Z.of_nat n)%Z) name (Some t) block -> (width - 6 - Z.of_nat n < Z.of_nat (length t))%Z ->
  exists row, block = [row] /\ Z.of_nat (length row) = width.
Proof.
  intros width n name t block W N H T. inversion H as [d P | r t' cut R Nt C [rest X] Lc | t' b Nt Room W']; subst.
  - exfalso. apply P. exists t. split; [reflexivity | ]. intros ->. cbn [length] in T. lia.
  - injection R as <-. eexists. split; [reflexivity | ]. specialize (Lc ltac:(lia)). unfold in_quotes, to_left. rewrite !app_length, repeat_length.
    change (length (L "  ")) with 2. change (length (L """")) with 1. change (length (L "...")) with 3. lia.
  - specialize (Room _ eq_refl). lia.
Qed.
Print Assumptions C62_network_fits.

(** The NICs: one row for each, lowest InstanceID first, with name and network. *)
Theorem C62_nics : forall E m, hw_reachable (e_ver E) (m_hw (iv_vmd m)) ->
  forall verb width out, info_nics E m verb width = Ok out -> let v := e_ver E in let h := m_hw (iv_vmd m) in
  match out with
  | None => is_brief verb = true \/ forall k i, In (k, i) h -> ~ wanted E (Some (L "ethernet")) [] [] i
  | Some text => is_brief verb = false /\ exists ks w blocks, are_wanted E h (Some (L "ethernet")) [] [] ks /\ ks <> []
      /\ 13 <= w
      /\ (forall k i x, In k ks -> In (k, i) h -> reports E i (ELEMENT_NAME v) (Some x) -> length (vtext E x) <= w)
      /\ (w = 13 \/ exists k i x, In k ks /\ In (k, i) h /\ reports E i (ELEMENT_NAME v) (Some x) /\ length (vtext E x) = w)
      /\ text = join [NL] (L "NICs and Associated Networks:" :: concat blocks)
      /\ Forall2 (fun k block => exists i, In (k, i) h /\ nic_shown E width (is_verbose verb) w i block) ks blocks
  end.
Proof. exact nics_spec. Qed.
Print Assumptions C62_nics.

(** The ways in which the properties reach the guest. *)
Theorem C62_environment : forall E m width out, info_environment E m width = Ok out -> let v := e_ver E in
  match out with
  | None => v = V0 \/ exists sec, only_child (VIRTUAL_HW_SECTION v) (VIRTUAL_HW_SECTION_ATTRIB v) (iv_vs m) (Some sec)
                        /\ ~ says_something (get_attr sec (ENVIRONMENT_TRANSPORT v))
  | Some text => exists sec t lines, only_child (VIRTUAL_HW_SECTION v) (VIRTUAL_HW_SECTION_ATTRIB v) (iv_vs m) (Some sec)
      /\ get_attr sec (ENVIRONMENT_TRANSPORT v) = Some t /\ t <> []
      /\ text = join [NL] (L "Environment:" :: lines) /\ wrapped width (L "  ") (L "    ") (L "Transport types: " ++ t) lines
  end.
Proof. exact environment_spec. Qed.
Print Assumptions C62_environment.

(** The properties: one row for each, in order, with the key where it fits or where there is
    no label, and with the value. *)
Theorem C62_properties : forall E m verb width out, info_properties E m verb width = Ok out -> let v := e_ver E in
  let ps := map (info_of v) (EnvPropSpec.properties v (iv_vs m)) in
  match out with
  | None => v = V0 \/ ps = []
  | Some text => v <> V0 /\ ps <> [] /\ exists kw lw vw w blocks,
      is_longest (map key_cell ps) kw /\ is_longest (map pi_label ps) lw
      /\ is_longest (map (fun p => name_or_none (pi_value p)) ps) vw
      /\ ((forall p, In p ps -> pi_label p <> []) -> w = lw)
      /\ ((exists p, In p ps /\ pi_label p = []) -> w = Nat.max kw lw)
      /\ text = join [NL] (L "Properties:" :: concat blocks)
      /\ Forall2 (fun p block => exists row desc, block = row :: desc
           /\ (0 < lw /\ (Z.of_nat (kw + lw + vw) + 8 < width)%Z -> row = row_with_key kw lw p)
           /\ (lw = 0 \/ (width <= Z.of_nat (kw + lw + vw) + 8)%Z -> row = row_without_key w p)
           /\ (is_verbose verb = false -> desc = [])
           /\ (is_verbose verb = true -> exists lines bs, lines_of (pi_desc p) lines /\ desc = concat bs
                 /\ Forall2 (wrapped_line width (spaces 6) (spaces 6)) lines bs)) ps blocks
  end.
Proof. exact properties_spec. Qed.
Print Assumptions C62_properties.
(** A row with the key is shorter than the width, and its columns line up. *)
Theorem C62_property_fits : forall ps kw lw vw width p, is_longest (map key_cell ps) kw -> is_longest (map pi_label ps) lw ->
  is_longest (map (fun p => name_or_none (pi_value p)) ps) vw -> In p ps -> (Z.of_nat (kw + lw + vw) + 8 < width)%Z ->
  (Z.of_nat (length (row_with_key kw lw p)) < width)%Z /\
  exists a b, row_with_key kw lw p = a ++ b ++ value_cell p /\ length a = 4 + kw /\ length b = 2 + lw.
Proof.
  intros ps kw lw vw width p [K _] [Lb _] [V _] Hp W. unfold row_with_key.
  assert (Hk : length (key_cell p) <= kw) by (apply K; apply in_map_iff; now exists p).
  assert (Hl : length (pi_label p) <= lw) by (apply Lb; apply in_map_iff; now exists p).
  assert (Hv : length (name_or_none (pi_value p)) <= vw) by (apply V; apply in_map_iff; now exists p).
  assert (Hc : length (value_cell p) <= vw + 2).
  { unfold value_cell, in_quotes. destruct (pi_value p) as [t | ]; cbn [name_or_none] in Hv.
    - rewrite !app_length. change (length (L """")) with 1. lia.
    - change (length (L "None")) with 4 in Hv. change (length (L "--")) with 2. lia. }
  assert (A : length (L "  " ++ to_left kw (key_cell p) ++ L "  ") = 4 + kw).
  { unfold to_left. rewrite !app_length, repeat_length. change (length (L "  ")) with 2. lia. }
  assert (B : length (to_left lw (pi_label p) ++ L "  ") = 2 + lw).
  { unfold to_left. rewrite !app_length, repeat_length. change (length (L "  ")) with 2. lia. }
  assert (Q : L "  " ++ to_left kw (key_cell p) ++ L "  " ++ to_left lw (pi_label p) ++ L "  " ++ value_cell p =
      (L "  " ++ to_left kw (key_cell p) ++ L "  ") ++ (to_left lw (pi_label p) ++ L "  ") ++ value_cell p) by (rewrite <- !app_assoc; reflexivity).
  split; [ | eexists _, _; split; [exact Q | now split]]. rewrite Q. rewrite !app_length in *. unfold str in *. lia.
Qed.
Print Assumptions C62_property_fits.

(** ** The command *)

(** Every package is described or complained about, in order; an error of another kind ends
    the command at once, and what was printed before stays. *)
Theorem C62_run : forall open_package pretty wrap_hyphens terminal c out r,
  run_info open_package pretty wrap_hyphens terminal c = (out, r) ->
  let l := match ic_packages c with Some l => l | None => [] end in
  let rep := reported open_package pretty wrap_hyphens (terminal - 1) (ic_verbosity c) in
  (l = [] /\ out = [] /\ r = Err EInvalidInput)
  \/ (l <> [] /\ r = Ok tt /\ exists os, Forall2 rep l os /\ out = apart os)
  \/ exists A p B e os, l = A ++ p :: B /\ Forall2 rep A os
       /\ (open_package p = Err e \/ exists E m, open_package p = Ok (E, m) /\ info_string E pretty wrap_hyphens m (terminal - 1) (ic_verbosity c) = Err e)
       /\ e <> EVMInitError /\ r = Err e /\ (A = [] -> out = []) /\ (A <> [] -> out = apart os ++ [Printed []]).
Proof. exact run_spec. Qed.
Print Assumptions C62_run.

(** The options: only existing packages, only the three degrees of detail; a refused value
    changes nothing. *)
Theorem C62_options : forall path_exists c,
  (forall l, (exists p, In p l /\ path_exists p = false) -> set_package_list path_exists c l = Err EInvalidInput)
  /\ (forall l, (forall p, In p l -> path_exists p = true) -> set_package_list path_exists c l = Ok (mkInfoCmd (Some l) (ic_verbosity c)))
  /\ (forall o, o <> None -> o <> Some (L "brief") -> o <> Some (L "verbose") -> set_verbosity c o = Err EInvalidInput)
  /\ set_verbosity c None = Ok (mkInfoCmd (ic_packages c) Normal)
  /\ set_verbosity c (Some (L "brief")) = Ok (mkInfoCmd (ic_packages c) Brief)
  /\ set_verbosity c (Some (L "verbose")) = Ok (mkInfoCmd (ic_packages c) Verbose).
Proof.
  intros path_exists c. split; [ | split; [ | split; [ | now split]]].
  - intros l (p & Hp & X). unfold set_package_list. destruct (forallb path_exists l) eqn:F; [ | reflexivity].
    pose proof (proj1 (forallb_forall _ _) F p Hp). congruence.
  - intros l H. unfold set_package_list. now rewrite (proj2 (forallb_forall path_exists l) H).
  - intros [s | ] N B V; [ | now destruct N]. unfold set_verbosity.
    destruct (str_eqb s (L "brief")) eqn:X; [apply str_eqb_eq in X; subst; now destruct B | ].
    destruct (str_eqb s (L "verbose")) eqn:Y; [apply str_eqb_eq in Y; subst; now destruct V | ]. reflexivity.
Qed.
Print Assumptions C62_options.

(** The width is at least one column, unless a smaller one was asked for. *)
Theorem C62_terminal : forall size w, terminal_width None size = Ok w ->
  (0 < w)%Z /\ ((exists n, size = Ok n /\ (0 < n)%Z /\ w = n) \/ w = 80%Z) /\ terminal_width (Some w) size = Ok w.
Proof.
  intros size w H. cbn [terminal_width] in H. destruct size as [n | e].
  - apply InfoProfileProofs.ok_inj in H. subst w. destruct (Z.leb_spec n 0); [split; [lia | ]; split; [now right | reflexivity] | ].
    split; [assumption | ]. split; [left; now exists n | reflexivity].
  - destruct (is_value_error e); [ | discriminate]. apply InfoProfileProofs.ok_inj in H. subst w. split; [lia | ]. split; [now right | reflexivity].
Qed.
Print Assumptions C62_terminal.

(** ** A package *)
Import HardwareProps ItemProps.
Definition text_el (tag : str) (t : string) : elem := Elem tag [] (Some (L t)) None [].
Definition lines_text (l : list string) : str := join [NL] (map L l).
Definition prop1 (key label value desc : string) : elem :=
  Elem (PROPERTY V1) [(PROP_KEY V1, L key); (PROP_VALUE V1, L value)] None None
    ((if str_eqb (L label) [] then [] else [text_el (PROPERTY_LABEL V1) label]) ++ [text_el (PROPERTY_DESC V1) desc]).
Definition product1 : elem :=
  Elem (PRODUCT_SECTION V1) [(PRODUCT_CLASS V1, L "com.cisco.iosv")] None None
    [text_el (PRODUCT V1) "Router"; text_el (VENDOR V1) "Some vendor"; text_el (VERSION V1) "1.0";
     prop1 "hostname" "Name of the router" "r1" "what it is called"; prop1 "login" "" "x" ""].
Definition notes1 (l : list string) : elem :=
  Elem (ANNOTATION_SECTION V1) [] None None [Elem (ANNOTATION V1) [] (Some (lines_text l)) None []].
Definition eula1 : elem := Elem (EULA_SECTION V1) [] None None [text_el (INFO V1) "About it"; text_el (EULA_LICENSE V1) "Do what you like"].
Definition items1 : list elem :=
  [an_item [] [rasd "ElementName" "CPUs"; rasd "InstanceID" "1"; rasd "ResourceType" "3"; rasd "VirtualQuantity" "2"];
   an_item [] [rasd "Connection" "VM Network"; rasd "ElementName" "GigabitEthernet0/0"; rasd "InstanceID" "2"; rasd "ResourceSubType" "VMXNET3 E1000"; rasd "ResourceType" "10"]].
Definition hw1 : elem := Elem (VIRTUAL_HW_SECTION V1) [(ENVIRONMENT_TRANSPORT V1, L "iso")] None None items1.
Definition vm1 (notes : list string) (nets : netdoc) : info_vm :=
  mkInfoVm (L "router.ovf") (Elem (OVF_NS V1 ++ L "VirtualSystem") [] None None [product1; notes1 notes; eula1; hw1]) nets None
    (mkVmd (Elem (OVF_NS V1 ++ L "References") [] None None []) None (CountProps.hw_of items1) []).
Lemma vm1_reachable : forall notes nets, hw_reachable V1 (m_hw (iv_vmd (vm1 notes nets))).
Proof. intros notes nets. apply (CountProps.hw_of_reachable items1). eexists. vm_compute. reflexivity. Qed.
Definition no_size (s : str) : result str := Ok s.
Definition no_wrap (width : Z) (a b s : str) : result (list str) := Ok [a ++ s].
Definition shown1 (notes : list string) (nets : netdoc) : result str := info_string env0 no_size no_wrap (vm1 notes nets) 79 Normal.
Example C62_example : shown1 ["A router for the lab"; ""; "Handle with care"]%string (NetworkProps.two_nets V1) = Ok (join [NL]
  [L "-------------------------------------------------------------------------------";
   L "router.ovf";
   L "COT detected platform type: Cisco IOSv";
   L "-------------------------------------------------------------------------------";
   L "Product:  Router";
   L "          (No product URL)";
   L "Vendor:   Some vendor";
   L "          (No vendor URL)";
   L "Version:  1.0";
   L "          (No detailed version string)";
   L "";
   L "Annotation: A router for the lab";
   L "";
   L "            Handle with care";
   L "";
   L "End User License Agreement(s):";
   L "  About it";
   L "    (not displayed, use 'cot info --verbose' if desired)";
   L "";
   L "Hardware Variants:";
   L "  Ethernet device types:    VMXNET3 E1000";
   L "";
   L "Configuration Profiles:  CPUs    Memory NICs Serials Disks/Capacity";
   L "                         ---- --------- ---- ------- --------------";
   L "  None (default)            2       0 B    1       0  0 /       0 B";
   L "";
   L "Networks:";
   L "  VM Network  ""the one""";
   L "  Spare       ""unused""";
   L "";
   L "NICs and Associated Networks:";
   L "  GigabitEthernet0/0 : VM Network";
   L "";
   L "Environment:";
   L "  Transport types: iso";
   L "";
   L "Properties:";
   L "  <hostname>  Name of the router  ""r1""";
   L "  <login>                         ""x"""]).
Proof. vm_compute. reflexivity. Qed.
Example C62_example_reachable : hw_reachable V1 (m_hw (iv_vmd (vm1 ["A router for the lab"; ""; "Handle with care"]%string (NetworkProps.two_nets V1)))).
Proof. apply vm1_reachable. Qed.

(** Expected: an annotation is labelled.  Not one that begins with a line break. *)
Theorem C62_label_refuted : exists m text, hw_reachable V1 (m_hw (iv_vmd m)) /\ info_annotation env0 m 79 = Ok (Some text) /\
  text = NL :: L "            Handle with care".
Proof. exists (vm1 [""; "Handle with care"]%string (NetworkProps.two_nets V1)). eexists. split; [apply vm1_reachable | ]. split; vm_compute; reflexivity. Qed.
Print Assumptions C62_label_refuted.

(** Expected: what there is of a package can be shown.  A network section without networks
    is a ValueError, and nothing is shown. *)
Theorem C62_no_networks_refuted : exists m, hw_reachable V1 (m_hw (iv_vmd m)) /\ network_section V1 (iv_nets m) <> None /\
  info_string env0 no_size no_wrap m 79 Normal = Err EValueError.
Proof.
  exists (vm1 ["text"]%string (mkNet (NetworkProps.envelope V1 []) true)). split; [apply vm1_reachable | ].
  split; [ | vm_compute; reflexivity]. intros X. vm_compute in X. discriminate X.
Qed.
Print Assumptions C62_no_networks_refuted.

(** Expected: descriptions of networks are cut to the width.  If there is no room for three
    dots, the end of the text is counted from the right, and the line is longer. *)
Theorem C62_narrow_refuted : exists m text row, hw_reachable V1 (m_hw (iv_vmd m)) /\ info_networks env0 m Normal 16 = Ok (Some text) /\
  text = join [NL] [L "Networks:"; row] /\ row = L "  VM Network  ""a network for every...""" /\ (16 < Z.of_nat (length row))%Z.
Proof.
  exists (vm1 ["text"]%string (mkNet (NetworkProps.envelope V1 [NetworkProps.net V1 (L "VM Network") (L "a network for everyone")]) true)).
  eexists _, _. split; [apply vm1_reachable | ]. split; [vm_compute; reflexivity | ]. split; [vm_compute; reflexivity | ]. split; [reflexivity | ]. vm_compute. reflexivity.
Qed.
Print Assumptions C62_narrow_refuted.

(** Expected: failing to read a package is a failure of the command.  It succeeds, even if no
    package could be read. *)
Theorem C62_success_refuted : exists open_package c, run_info open_package no_size no_wrap 80 c = ([Complained (L "a.ovf")], Ok tt)
  /\ ic_packages c = Some [L "a.ovf"] /\ open_package (L "a.ovf") = Err EVMInitError.
Proof. exists (fun _ => Err EVMInitError), (mkInfoCmd (Some [L "a.ovf"]) Normal). split; [reflexivity | ]. split; reflexivity. Qed.
Print Assumptions C62_success_refuted.

(** Three packages: one is shown, one cannot be read, the third has no network. *)
Definition some_packages (bad : bool) (p : str) : result (env * info_vm) :=
  if str_eqb p (L "b.ovf") then Err EVMInitError
  else if str_eqb p (L "c.ovf") && bad then Ok (env0, vm1 ["text"]%string (mkNet (NetworkProps.envelope V1 []) true))
  else Ok (env0, vm1 ["text"]%string (NetworkProps.two_nets V1)).
Definition the_text : str := match shown1 ["text"]%string (NetworkProps.two_nets V1) with Ok s => s | Err _ => [] end.
Definition three : info_cmd := mkInfoCmd (Some [L "a.ovf"; L "b.ovf"; L "c.ovf"]) Normal.
Example C62_run_example :
  run_info (some_packages false) no_size no_wrap 80 three =
    ([Printed the_text; Printed []; Complained (L "b.ovf"); Printed []; Printed the_text], Ok tt)
  /\ run_info (some_packages true) no_size no_wrap 80 three =
    ([Printed the_text; Printed []; Complained (L "b.ovf"); Printed []], Err EValueError)
  /\ the_text <> [].
Proof. split; [vm_compute; reflexivity | ]. split; [vm_compute; reflexivity | ]. intros X. vm_compute in X. discriminate X. Qed.
