(** C67: which packages are opened, what is read from them, and what is raised for the others. *)
From Coq Require Import List Ascii Bool ZArith Lia.
Import ListNotations.
From Verif Require Import PyBase PyDict XmlModel XmlSpec NamesModel ItemModel ItemProps HardwareModel HardwareProps ProfileModel NetworkModel
  DriveModel EnvPropModel EditPropModel ProductModel PlatformModel InfoModel SelectModel RawModel PathModel PathSpec ManifestModel TarModel TarSpec OvfWriteModel
  OpenModel OpenSpec OpenNameProofs OpenHwProofs OpenFileProofs OpenProofs.
Local Open Scope nat_scope.

(** The kind of a package is told from its name. *)
Theorem C67_names : forall path k, detect_type path = Ok k <-> kind_of path k.
Proof.
  intros path k. split; [|apply kind_unique]. intros H. pose proof (detect_spec path) as S. rewrite H in S. exact S.
Qed.
Print Assumptions C67_names.
Example C67_names_example :
  detect_type (L "/home/a.b/vm.ova") = Ok (L ".ova") /\ detect_type (L "csr.ovf.sample.txt") = Ok (L ".ovf") /\
  detect_type (L "vm.ovfx") = Err EValueUnsupported /\ detect_type (L "vm.ova.ovfx") = Ok (L ".ova") /\
  detect_type (L "VM.OVA") = Err EValueUnsupported /\ detect_type (L "/vm.ova/x") = Err EValueUnsupported.
Proof. repeat split; vm_compute; reflexivity. Qed.

(** A package that was opened is what its descriptor says; if it is not opened, there is a
    reason, and what is raised tells which.  Any files, working directory, names, parser of
    XML (with tags on one line), digest function. *)
Theorem C67_opens : forall E digest parse w d u input output o,
  (forall c, In c (d ++ [u]) -> proper c) -> (forall t r, parse t = Some r -> ~ In NL (etag r)) ->
  factory E digest parse w (path_of (d ++ [u])) input output = Ok o ->
  (output = [] \/ exists k, kind_of output k) /\
  exists c p t w' root, descriptor_is w d u input c p t w' /\ parse t = Some root /\ described E digest w' c p root o.
Proof.
  intros E digest parse w d u input output o Hd Hp H. pose proof (factory_spec E digest parse w d u input output Hd Hp) as S.
  rewrite H in S. exact S.
Qed.
Print Assumptions C67_opens.
Theorem C67_refused : forall E digest parse w d u input output e,
  (forall c, In c (d ++ [u]) -> proper c) -> (forall t r, parse t = Some r -> ~ In NL (etag r)) ->
  factory E digest parse w (path_of (d ++ [u])) input output = Err e -> refused E parse w d u input output e.
Proof.
  intros E digest parse w d u input output e Hd Hp H. pose proof (factory_spec E digest parse w d u input output Hd Hp) as S.
  rewrite H in S. exact S.
Qed.
Print Assumptions C67_refused.
(** Exactly the well-formed packages are opened: what can be described is, and nothing is
    opened in which anything is wrong. *)
Theorem C67_opens_iff : forall E digest parse w d u input output,
  (forall c, In c (d ++ [u]) -> proper c) -> (forall t r, parse t = Some r -> ~ In NL (etag r)) ->
  ((exists o, factory E digest parse w (path_of (d ++ [u])) input output = Ok o) <->
   (output = [] \/ exists k, kind_of output k) /\
   exists c p t w' root o, descriptor_is w d u input c p t w' /\ parse t = Some root /\ described E digest w' c p root o).
Proof. exact opens_iff. Qed.
Print Assumptions C67_opens_iff.
Theorem C67_refused_iff : forall E digest parse w d u input output,
  (forall c, In c (d ++ [u]) -> proper c) -> (forall t r, parse t = Some r -> ~ In NL (etag r)) ->
  ((exists e, factory E digest parse w (path_of (d ++ [u])) input output = Err e) <->
   exists e, refused E parse w d u input output e).
Proof. intros E digest parse w d u input output Hd Hp. exact (refused_iff E digest parse w d u input output Hd Hp). Qed.
Print Assumptions C67_refused_iff.

(** ** A package *)
Definition op_file (h size : string) : elem := Elem (FILE V1) [(FILE_HREF V1, L h); (FILE_SIZE V1, L size)] None None [].
Definition op_refs (l : list elem) : elem := Elem (REFERENCES V1) [] None None l.
Definition op_disks : elem := Elem (DISK_SECTION V1) [] None None [].
Definition op_deploy : elem :=
  Elem (DEPLOY_OPT_SECTION V1) [] None None [Elem (CONFIG V1) [(CONFIG_ID V1, L "big")] None None []].
Definition op_system (hws : list elem) : elem := Elem (VIRTUAL_SYSTEM V1) [] None None hws.
Definition op_root (l : list elem) : elem := Elem (envelope_tag V1) [] None None l.
Definition op_root0 : elem := op_root [op_refs [op_file "d.vmdk" "4"; op_file "gone.iso" "9"]; op_disks; op_deploy; op_system [section0]].
Definition op_parse (root : elem) (t : str) : option elem := if str_eqb t (L "the descriptor") then Some root else None.
Definition op_digest (algo data : str) : str := if str_eqb data (L "the descriptor") then L "0a" else L "0b".
(** the files in /home; the manifest names the descriptor and the disk, with a wrong checksum *)
Definition op_world : world :=
  mkWorld (fun q => if strs_eqb q [L "home"; L "a.ovf"] then Some (L "the descriptor")
                    else if strs_eqb q [L "home"; L "d.vmdk"] then Some (L "data")
                    else if strs_eqb q [L "home"; L "a.mf"] then Some (L "SHA1(a.ovf)= 0a" ++ [NL] ++ L "SHA1(d.vmdk)= 0c" ++ [NL])
                    else None)
    (fun p => if str_eqb p (L "/home/a.ova") then Some [mkMember (L "a.ovf") None (L "the descriptor"); mkMember (L "d.vmdk") None (L "too long")]
              else if str_eqb p (L "/home/sub.ova") then Some [mkMember (L "x/a.ovf") None (L "the descriptor")]
              else None).
Definition op_open (root : elem) (input output : string) : result ovf :=
  factory env0 op_digest (op_parse root) op_world (L "/tmp/cot") (L input) (L output).
(** what there is to see of it *)
Definition op_seen (r : result ovf) : result (version * list str * list str * list (str * ref) * list complaint) :=
  match r with
  | Ok o => Ok (o_version o, o_profiles o, map fst (o_hardware o), o_files o, o_complaints o)
  | Err e => Err e
  end.
Example C67_example :
  (forall t r, op_parse op_root0 t = Some r -> ~ In NL (etag r)) /\
  (forall c, In c ([L "tmp"] ++ [L "cot"]) -> proper c) /\
  op_seen (op_open op_root0 "/home/a.ovf" "/home/b.ova") =
    Ok (V1, [L "big"], [L "1"; L "3"], [(L "d.vmdk", OnDisk (L "/home") (L "d.vmdk"))], [NotInManifest (L "gone.iso"); BadChecksum (L "d.vmdk"); NoSuchFile (L "gone.iso")]) /\
  op_seen (op_open op_root0 "/home/a.ova" "") =
    Ok (V1, [L "big"], [L "1"; L "3"], [(L "d.vmdk", InTar (L "/home/a.ova") (L "d.vmdk"))], [BadSize (L "d.vmdk"); NoSuchFile (L "gone.iso")]) /\
  op_open op_root0 "/home/b.ovf" "" = Err EEnvironment /\
  op_open op_root0 "/home/a.vmx" "" = Err EVMInitError /\
  op_open op_root0 "/home/a.ovf" "/home/b.vmx" = Err EVMInitError /\
  op_open (Elem (L "{http://schemas.dmtf.org/ovf/envelope/3}Envelope") [] None None []) "/home/a.ovf" "" = Err EVMInitError.
Proof.
  split; [|split].
  - intros t r H. unfold op_parse in H. destruct (str_eqb t (L "the descriptor")); [|discriminate]. injection H as <-. vm_compute. intuition discriminate.
  - intros c [<-|[<-|[]]]; vm_compute; repeat split; intuition discriminate.
  - repeat split; vm_compute; reflexivity.
Qed.
Print Assumptions C67_example.

(** One might expect that any malformed package is reported as such, with VMInitError; these
    are not: no References; two DiskSections; an Item without InstanceID; an Item that
    contradicts itself; a File without a name; a size that is no number; a descriptor that is
    not at the top of the archive. *)
Theorem C67_reported_refuted :
  op_open (op_root [op_system [section0]]) "/home/a.ovf" "" = Err EKeyError /\
  op_open (op_root [op_refs []; op_disks; op_disks; op_deploy; op_system [section0]]) "/home/a.ovf" "" = Err ELookupError /\
  op_open (op_root [op_refs []; op_system [Elem (VIRTUAL_HW_SECTION V1) [] None None [an_item [] [rasd "ElementName" "CPUs"]]]]) "/home/a.ovf" "" = Err EAttributeError /\
  op_open (op_root [op_refs []; op_system [Elem (VIRTUAL_HW_SECTION V1) [] None None
    [an_item [] [rasd "ElementName" "CPUs"; rasd "ElementName" "RAM"; rasd "InstanceID" "1"]]]]) "/home/a.ovf" "" = Err EOVFItemData /\
  op_open (op_root [op_refs [Elem (FILE V1) [] None None []]; op_deploy; op_system [section0]]) "/home/a.ovf" "" = Err ETypeError /\
  op_open (op_root [op_refs [op_file "d.vmdk" "4 GB"]; op_deploy; op_system [section0]]) "/home/a.ovf" "" = Err EValueError /\
  op_open op_root0 "/home/sub.ova" "" = Err EEnvironment.
Proof. repeat split; vm_compute; reflexivity. Qed.
Print Assumptions C67_reported_refuted.
