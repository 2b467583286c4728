(** C59: the table of profiles that [cot info] prints. *)
From Coq Require Import List Ascii ZArith QArith Bool.
Import ListNotations.
From Verif Require Import PyBase PyDict ValidationModel NamesModel XmlModel ItemModel ItemSpec ItemProps HardwareModel HardwareSpec CountSpec FindSpec
  ValidateHwModel ValidateHwSpec UnitsModel PrettyModel NetworkModel ProfileModel DriveModel EnvPropModel ProductModel WrapModel InfoModel InfoSpec InfoProfileProofs.
From Verif Require Import ValidateHwProofs HardwareIdProofs.
From Verif Require HardwareProps CountProps ProfileProps ValidateHwProps.
Local Open Scope nat_scope.

(** Every profile has one row, in the order default profiles, then document order, with its
    own CPUs, memory and numbers of NICs, serial ports and drives; only the default one is
    marked.  The first column is as wide as the longest name.  In brief form there is nothing
    else; otherwise each row is followed by the label and the description of the profile. *)
Theorem C59_table : forall E m wrap_hyphens, hw_reachable (e_ver E) (m_hw (iv_vmd m)) ->
  forall width verbose header lines, profile_info_list E wrap_hyphens m width verbose = Ok (header, lines) ->
  let v := e_ver E in
  let table := table_of v (iv_deploy m) in
  let default p := opt_str_eqb p (first_of table) in
  exists w blocks, lines = concat blocks
  /\ (forall p, In p table -> length (profile_cell (default p) p) <= w)
  /\ (w = 24 \/ exists p, In p table /\ length (profile_cell (default p) p) = w)
  /\ header = row_of [to_left w (L "Configuration Profiles:"); L "CPUs"; L "   Memory"; L "NICs"; L "Serials"; L "Disks/Capacity"]
       ++ NL :: row_of [to_left w []; L "----"; L "---------"; L "----"; L "-------"; L "--------------"]
  /\ Forall2 (fun p block => exists row rest, block = row :: rest
      /\ profile_shown E (m_hw (iv_vmd m)) (m_disks (iv_vmd m)) w (default p) p row
      /\ (verbose = false \/ p = None \/ iv_deploy m = None -> rest = [])
      /\ (forall id sec, verbose = true -> p = Some id -> iv_deploy m = Some sec ->
          exists c a b, find_child sec (CONFIG v) [(CONFIG_ID v, id)] false = Ok (Some c)
          /\ wrap_hyphens width (repeat " "%char 4) (repeat " "%char 21) (described_as "Label:" (findtext_opt (CFG_LABEL v) c)) = Ok a
          /\ wrap_hyphens width (repeat " "%char 4) (repeat " "%char 21) (described_as "Description:" (findtext_opt (CFG_DESC v) c)) = Ok b
          /\ rest = a ++ b)) table blocks.
Proof.
  intros E m wh R width verbose header lines H. cbv zeta. rewrite <- ids_listed. exact (table_spec E m R wh width verbose header lines H).
Qed.
Print Assumptions C59_table.

(** It can be printed whenever the CPU, memory and capacity numbers can be read. *)
Theorem C59_printed : forall E m wrap_hyphens, hw_reachable (e_ver E) (m_hw (iv_vmd m)) -> forall keys total,
  natural_sort (map fst (m_hw (iv_vmd m))) = Ok keys ->
  (forall d, m_disks (iv_vmd m) = Some d -> forall x, In x (below (DISK (e_ver E)) d) -> exists c, capacity (e_ver E) x c) ->
  total_capacity (e_ver E) (m_disks (iv_vmd m)) total -> (0 <= total < 2 ^ 53)%Z ->
  (forall p, In p (table_of (e_ver E) (iv_deploy m)) ->
     readable E (m_hw (iv_vmd m)) p /\ forall b, memory_bytes E (m_hw (iv_vmd m)) p b -> (0 <= b)%Z) ->
  forall width, exists header lines, profile_info_list E wrap_hyphens m width false = Ok (header, lines).
Proof.
  intros E m wh R keys total K C T Tb Rd width. rewrite <- ids_listed in Rd. exists (profile_header E m).
  exact (rows_ok E m R wh keys total K C T Tb Rd width).
Qed.
Print Assumptions C59_printed.

(** In the text of [cot info] the labels and descriptions are shown unless --brief is given. *)
Theorem C59_text : forall E m wrap_hyphens width verb text, profile_info_string E wrap_hyphens m width verb = Ok text ->
  exists verbose header lines, (verbose = false <-> verb = Brief) /\ profile_info_list E wrap_hyphens m width verbose = Ok (header, lines) /\ text = join [NL] (header :: lines).
Proof.
  intros E m wrap_hyphens width verb text H. unfold profile_info_string in H. destruct (profile_info_list E wrap_hyphens m width (negb (is_brief verb))) as [[header lines]|e] eqn:P; [|discriminate].
  injection H as <-. exists (negb (is_brief verb)), header, lines. split; [|split; [exact P|reflexivity]]. destruct verb; split; intros F; solve [reflexivity|discriminate F].
Qed.
Print Assumptions C59_text.

Definition no_wrap (width : Z) (a b s : str) : result (list str) := Ok [a ++ s].
Definition disk0 (id f c u : string) : elem :=
  Elem (DISK V1) [(DISK_ID V1, L id); (DISK_FILE_REF V1, L f); (DISK_CAPACITY V1, L c); (DISK_CAP_UNITS V1, L u)] None None [].
Definition refs0 : elem := Elem (OVF_NS V1 ++ L "References") [] None None [].
Definition vs0 : elem := Elem (VIRTUAL_SYSTEM V1) [] None None [].
Definition info0 (h : hw) (disks : option elem) (deploy : option elem) : info_vm :=
  mkInfoVm (L "vm.ovf") vs0 (mkNet vs0 false) deploy (mkVmd refs0 disks h []).
Definition disks0 : elem := Elem (L "Disks") [] None None [disk0 "d1" "f1" "4" "byte * 2^30"; disk0 "d2" "f2" "1048576" "byte"].
Definition vm0 : info_vm := info0 ValidateHwProps.machine (Some disks0) (Some ProfileProps.deploy0).

Example C59_example : profile_info_list env0 no_wrap vm0 79 true =
  Ok (profile_header env0 vm0,
      [L "  big (default)             4   512 MiB    2       0  0 / 4.001 GiB";
       L "    Label:          ""Big""";
       L "    Description:    ""?""";
       L "  small                     1   512 MiB    1       0  0 / 4.001 GiB";
       L "    Label:          ""Small""";
       L "    Description:    ""?"""]).
Proof. vm_compute. reflexivity. Qed.
Lemma vm0_reachable : hw_reachable (e_ver env0) (m_hw (iv_vmd vm0)).
Proof. exact ValidateHwProps.machine_reachable. Qed.
(** The hypotheses of C59_printed hold of it. *)
Example C59_printed_example : exists keys total,
  natural_sort (map fst (m_hw (iv_vmd vm0))) = Ok keys /\
  (forall d, m_disks (iv_vmd vm0) = Some d -> forall x, In x (below (DISK (e_ver env0)) d) -> exists c, capacity (e_ver env0) x c) /\
  total_capacity (e_ver env0) (m_disks (iv_vmd vm0)) total /\ (0 <= total < 2 ^ 53)%Z /\
  (forall p, In p (table_of (e_ver env0) (iv_deploy vm0)) ->
     readable env0 (m_hw (iv_vmd vm0)) p /\ forall b, memory_bytes env0 (m_hw (iv_vmd vm0)) p b -> (0 <= b)%Z).
Proof.
  assert (C1 : capacity V1 (disk0 "d1" "f1" "4" "byte * 2^30") 4294967296).
  { exists (L "4"), 4%Z. split; [vm_compute; reflexivity | ]. split; vm_compute; reflexivity. }
  assert (C2 : capacity V1 (disk0 "d2" "f2" "1048576" "byte") 1048576).
  { exists (L "1048576"), 1048576%Z. split; [vm_compute; reflexivity | ]. split; vm_compute; reflexivity. }
  eexists. exists 4296015872%Z. split; [exact ValidateHwProps.machine_sorted | ]. split; [ | split; [ | split; [split; [discriminate | reflexivity] | ]]].
  - intros d D x Hx. injection D as <-. change (In x [disk0 "d1" "f1" "4" "byte * 2^30"; disk0 "d2" "f2" "1048576" "byte"]) in Hx.
    destruct Hx as [<- | [<- | []]]; eexists; eassumption.
  - exists [4294967296; 1048576]%Z. split; [ | reflexivity]. change (below (DISK (e_ver env0)) disks0) with [disk0 "d1" "f1" "4" "byte * 2^30"; disk0 "d2" "f2" "1048576" "byte"].
    constructor; [exact C1 | ]. constructor; [exact C2 | constructor].
  - intros p Hp. change (In p [Some (L "big"); Some (L "small")]) in Hp.
    assert (Pr : readable env0 ValidateHwProps.machine p).
    { apply ValidateHwProps.machine_readable. destruct Hp as [<- | [<- | []]]; cbn [profile_of e_profiles env0]; [right; now left | now left]. }
    split; [exact Pr | ]. intros b Hb.
    assert (B2 : exists b0, profile_memory env0 vm0 p = Ok b0 /\ (0 <= b0)%Z).
    { destruct Hp as [<- | [<- | []]]; eexists; (split; [vm_compute; reflexivity | discriminate]). }
    destruct B2 as (b0 & B0 & Pos). apply (memory_spec env0 vm0 vm0_reachable) in B0.
    rewrite (memory_unique env0 _ p b b0 vm0_reachable Hb B0). exact Pos.
Qed.

(** The capacity is that of all disks of the package, whatever the profile uses: here no
    profile has a drive. *)
Theorem C59_capacity_refuted : exists E m row, hw_reachable (e_ver E) (m_hw (iv_vmd m)) /\
  profile_info_list E no_wrap m 79 false = Ok (profile_header E m, [row]) /\
  (forall k i p, ~ device E (m_hw (iv_vmd m)) "harddisk" p k i) /\ exists start, row = start ++ L " 0 / 4.001 GiB".
Proof.
  exists (mkEnv V1 [] (fun _ _ s => Ok s) (fun _ => L "()") (fun _ => []) (fun _ => Err EValueError)), (info0 [] (Some disks0) None).
  eexists. split; [exact (H_read V1 env0 vs0 [] eq_refl eq_refl) | ]. split; [vm_compute; reflexivity | ]. split; [intros k i p [[] _] | ].
  exists (L "  None (default)            0       0 B    0       0 "). vm_compute. reflexivity.
Qed.
Print Assumptions C59_capacity_refuted.

(** A CPU without quantity cannot be shown, nor can anything else of the package. *)
Definition no_quantity : hw := CountProps.hw_of [HardwareProps.an_item []
  [HardwareProps.rasd "ElementName" "CPUs"; HardwareProps.rasd "InstanceID" "1"; HardwareProps.rasd "ResourceType" "3"]].
Lemma no_quantity_reachable : hw_reachable V1 no_quantity.
Proof.
  unfold no_quantity. match goal with |- hw_reachable _ (CountProps.hw_of ?l) => apply (CountProps.hw_of_reachable l) end.
  eexists. vm_compute. reflexivity.
Qed.
Lemma no_quantity_one : map fst no_quantity = [L "1"].
Proof. vm_compute. reflexivity. Qed.
Lemma only_one : forall E h rt p k, map fst h = [k] -> at_most_one E h rt p.
Proof.
  intros E h rt p k0 H k i k' i' [D _] [D' _]. apply (in_map fst) in D, D'. cbn [fst] in D, D'. rewrite H in D, D'.
  destruct D as [<- | []], D' as [<- | []]. reflexivity.
Qed.
Theorem C59_always_refuted : exists E m, hw_reachable (e_ver E) (m_hw (iv_vmd m)) /\
  (forall p, at_most_one E (m_hw (iv_vmd m)) "cpu" p) /\
  profile_info_list E no_wrap m 79 false = Err ETypeError.
Proof.
  exists env0, (info0 no_quantity None None). split; [exact no_quantity_reachable | ]. split; [ | vm_compute; reflexivity].
  intros p. exact (only_one env0 no_quantity "cpu" p (L "1") no_quantity_one).
Qed.
Print Assumptions C59_always_refuted.
