(** Property C52: what is read from the outputs of the disk programs. *)
From Coq Require Import Lia.
From Verif Require Import PyBase PyRegex ImageModel ListingSpec ListingProofs.

(** The capacity is the number before the first " bytes" in the output of "qemu-img info", and
    without one there is an error. *)
Theorem C52_capacity : forall out n, capacity_in out = Ok n <-> byte_count out n.
Proof. exact capacity_spec. Qed.
Print Assumptions C52_capacity.
Theorem C52_capacity_none : forall out, (forall n, ~ byte_count out n) -> capacity_in out = Err ERuntimeError.
Proof. exact capacity_none. Qed.
Print Assumptions C52_capacity_none.

(** The sub-format of a VMDK is the one that its header declares. *)
Theorem C52_subformat : forall content sub, declares (filter (fun c => (N_of_ascii c <? 128)%N) (firstn 1000 content)) sub -> header_subformat content = Ok sub.
Proof. exact header_found. Qed.
Print Assumptions C52_subformat.
Theorem C52_subformat_none : forall content, (forall a t, filter (fun c => (N_of_ascii c <? 128)%N) (firstn 1000 content) <> a ++ L "createType=""" ++ t) ->
  header_subformat content = Err ERuntimeError.
Proof. exact header_none. Qed.
Print Assumptions C52_subformat_none.

(** The files of a raw image are those that fatdisk lists, in order. *)
Theorem C52_raw_files : forall names lines, listing fat_entry fat_remark names lines -> raw_files (text_of lines) = names.
Proof. exact raw_listing. Qed.
Print Assumptions C52_raw_files.
(** The files of an ISO image are those that isoinfo lists, in order; in lower case if there
    are no Rock Ridge names. *)
Theorem C52_iso_files : forall names lines, listing iso_entry iso_remark names lines -> iso_files true (text_of lines) = names.
Proof. exact iso_listing_rock. Qed.
Print Assumptions C52_iso_files.
Theorem C52_iso_files_plain : forall names lines, listing iso_plain iso_remark names lines -> iso_files false (text_of lines) = names.
Proof. exact iso_listing_plain. Qed.
Print Assumptions C52_iso_files_plain.
Theorem C52_rock_ridge : forall out, has_rock_ridge out = true <-> exists a b c, out = a ++ L "Rock Ridge" ++ b ++ L "found" ++ c /\ one_line b.
Proof. exact rock_ridge_spec. Qed.
Print Assumptions C52_rock_ridge.

(** ** Examples and deviations *)

Definition nl : str := ["010"%char].
Definition info : str := L "image: a.vmdk" ++ nl ++ L "file format: vmdk" ++ nl ++ L "virtual size: 1.0G (1073741824 bytes)" ++ nl ++ L "disk size: 12K".
Example C52_capacity_nonvacuous : capacity_in info = Ok (L "1073741824") /\ byte_count info (L "1073741824") /\ capacity_in (L "nothing") = Err ERuntimeError.
Proof. split; [vm_compute; reflexivity|]. split; [apply C52_capacity; vm_compute; reflexivity|vm_compute; reflexivity]. Qed.
Definition header : str := L "KDMV" ++ ["200"%char; "001"%char] ++ L "# Disk DescriptorFile" ++ nl ++ L "createType=""streamOptimized""" ++ nl ++ L "RDONLY 2048 SPARSE ""a.vmdk""".
Example C52_subformat_nonvacuous : header_subformat header = Ok (L "streamOptimized") /\
  declares (filter (fun c => (N_of_ascii c <? 128)%N) (firstn 1000 header)) (L "streamOptimized") /\ header_subformat (L "KDMV") = Err ERuntimeError.
Proof.
  split; [vm_compute; reflexivity|]. split; [|vm_compute; reflexivity].
  exists (L "KDMV" ++ ["001"%char] ++ L "# Disk DescriptorFile" ++ nl), [], (nl ++ L "RDONLY 2048 SPARSE ""a.vmdk""").
  split; [vm_compute; reflexivity|]. split; [vm_compute; intuition discriminate|]. split; [intros []|]. split; [intros []|]. split; [right; eexists; reflexivity|].
  intros a' t E. change (filter (fun c => (N_of_ascii c <? 128)%N) (firstn 1000 header)) with
    (L "KDMV" ++ ["001"%char] ++ L "# Disk DescriptorFile" ++ nl ++ L "createType=""streamOptimized""" ++ nl ++ L "RDONLY 2048 SPARSE ""a.vmdk""") in E.
  cbn [L app list_ascii_of_string] in E.
  do 27 (destruct a' as [|? a']; [discriminate E|]; injection E as _ E). vm_compute. lia.
Qed.
Definition fat_out : list str := [L "-----aD        13706       2016 Aug 04 input.ovf"; L "-----aD  12 2016 Aug 04 b.txt"; L "Listed 2 entries"; []].
Example C52_raw_files_nonvacuous : raw_files (text_of fat_out) = [L "input.ovf"; L "b.txt"].
Proof. vm_compute. reflexivity. Qed.
Example C52_raw_entry_nonvacuous : fat_entry (L "b.txt") (L "-----aD  12 2016 Aug 04 b.txt") /\ fat_remark (L "Listed 2 entries").
Proof.
  assert (W : forall w, forallb (fun c => negb (is_space c)) w = true -> w <> [] -> is_word w).
  { intros w H N. split; [exact N|]. intros c C. rewrite forallb_forall in H. specialize (H c C). now destruct (is_space c). }
  assert (B : forall s, forallb is_space s = true -> blank s) by (intros s H c C; rewrite forallb_forall in H; now apply H).
  split; [|split; [vm_compute; intuition discriminate|left; exists (L " 2 entries"); reflexivity]].
  split; [vm_compute; intuition discriminate|]. split; [intros t F; discriminate F|]. exists (L "-----aD"), (L "12"), (L "2016"), (L "Aug"), (L "04").
  apply (spread_more [] (L "-----aD") (L "  ") _ (L "12 2016 Aug 04 b.txt")); [now apply B|now apply W|now apply B|discriminate|].
  apply (spread_more [] (L "12") (L " ") _ (L "2016 Aug 04 b.txt")); [now apply B|now apply W|now apply B|discriminate|].
  apply (spread_more [] (L "2016") (L " ") _ (L "Aug 04 b.txt")); [now apply B|now apply W|now apply B|discriminate|].
  apply (spread_more [] (L "Aug") (L " ") _ (L "04 b.txt")); [now apply B|now apply W|now apply B|discriminate|].
  apply (spread_more [] (L "04") (L " ") _ (L "b.txt")); [now apply B|now apply W|now apply B|discriminate|].
  apply (spread_last [] (L "b.txt") []); [now apply B|now apply W|now apply B].
Qed.
Example C52_iso_files_nonvacuous : iso_files true (text_of [L "/iosxr_config.txt"; L "/b;1"; []]) = [L "iosxr_config.txt"; L "b;1"] /\
  iso_files false (text_of [L "Setting input-charset"; L "/IOSXR_CONFIG.TXT;1"; []]) = [L "iosxr_config.txt"] /\
  iso_plain (L "iosxr_config.txt") (L "/IOSXR_CONFIG.TXT;1") /\ iso_remark (L "Setting input-charset") /\
  has_rock_ridge (L "Joliet with UCS level 3 found" ++ nl ++ L "Rock Ridge signatures version 1 found") = true /\ has_rock_ridge (L "NO Rock Ridge present" ++ nl ++ L "Joliet found") = false.
Proof.
  split; [vm_compute; reflexivity|]. split; [vm_compute; reflexivity|].
  split; [exists (L "IOSXR_CONFIG.TXT"); split; [vm_compute; intuition discriminate|]; split; reflexivity|].
  split; [split; [vm_compute; intuition discriminate|intros t F; discriminate F]|]. split; vm_compute; reflexivity.
Qed.

(** "The capacity is that of the disk": the name of the image, which comes first in the
    output, may contain a number of bytes itself. *)
Theorem C52_capacity_refuted : exists name, capacity_in (L "image: " ++ name ++ nl ++ L "virtual size: 1.0G (1073741824 bytes)") = Ok (L "5").
Proof. exists (L "5 bytes.vmdk"). vm_compute. reflexivity. Qed.
Print Assumptions C52_capacity_refuted.
(** "Every name comes back": one with a blank is cut off at it. *)
Theorem C52_raw_files_refuted : exists name, raw_files (text_of [L "-----aD        13706       2016 Aug 04 " ++ name; L "Listed 1 entry"; []]) = [L "my"] /\ name = L "my config.txt".
Proof. exists (L "my config.txt"). split; [vm_compute; reflexivity|reflexivity]. Qed.
Print Assumptions C52_raw_files_refuted.
(** "The version is cut off": two characters are, also if it is ";10" or if ";1" is elsewhere. *)
Theorem C52_iso_files_refuted : iso_files false (L "/A.TXT;10") = [L "a.txt;"] /\ iso_files false (L "/A;1B.TXT;2") = [L "a;1b.txt"] /\
  iso_files false (L "/A;1B.TXT") = [L "a;1b.t"].
Proof. split; [vm_compute; reflexivity|]. split; vm_compute; reflexivity. Qed.
Print Assumptions C52_iso_files_refuted.
(** "The sub-format ends at the next quote": it ends at the last one on the line. *)
Theorem C52_subformat_refuted : header_subformat (L "createType=""streamOptimized"" # ""x""") = Ok (L "streamOptimized"" # ""x").
Proof. vm_compute. reflexivity. Qed.
Print Assumptions C52_subformat_refuted.
