(** C50: injecting a configuration. *)
From Coq Require Import Lia ZArith.
From Verif Require Import PyBase PyBaseProofs PyDict ValidationModel ValidationSpec XmlModel NamesModel ItemModel ItemSpec PsetProofs
  HardwareModel HardwareSpec HardwareProofs HardwareIdProofs CountSpec FindSpec FindProofs NetworkModel PlatformModel RawModel PathModel DriveModel DriveSpec
  LinkProofs SlotProofs DeviceProofs AddressProofs OrderlyProofs ItemProps HardwareProps CountProps FindProps DriveProps
  InjectModel InjectSpec InjectProofs.
Local Open Scope nat_scope.

(** A configuration that was injected: the image has exactly the given files on it, the
    configurations under the names of the platform.  It is a File of the package, new or
    in the place of the configuration disk that was there, and of the size of the image; it
    is in the drive of the configuration disk that was there, if the user agreed to
    overwrite it, or else in the first empty drive.  The drive keeps its controller, its
    address and all else but its type, content and description; no device is added or
    removed, no other is changed, and the package stays in order. *)
Theorem C50_inject : forall agree overwrite make E fuel p wd h s m m' k,
  orderly E m -> plain_places (m_hw m) -> drives_everywhere E (m_hw m) ->
  (config_drive p = L "harddisk" -> disk_ids_apart (e_ver E) m (mkImage wd (config_disk p) 0 0) None) -> outside p wd s ->
  inject_run agree overwrite make E fuel p wd h s m = Ok (m', k) ->
  orderly E m' /\
  (exists f i i' sz cap l s',
    disk_content p h s l /\ make (config_format p) l = Ok (sz, cap) /\
    replaced (files (e_ver E) m) (files (e_ver E) m') f /\
    get_attr f (FILE_HREF (e_ver E)) = Some (config_disk p) /\ get_attr f (FILE_SIZE (e_ver E)) = Some (zdec sz) /\
    dget str_eqb (config_disk p) (m_sources m') = Some wd /\ same_sources (e_ver E) m m' (config_disk p) /\
    In (k, i) (m_hw m) /\ In (k, i') (m_hw m') /\ present E i' None /\ is_a (config_drive p) i' /\
    only_value (i_props i') HOST_RESOURCE (VStr s') /\ file_of (e_ver E) m' s' f /\
    (forall n q w, n <> RESOURCE_TYPE -> n <> HOST_RESOURCE -> n <> ITEM_DESCRIPTION ->
       (own (i_props i') n q w <-> own (i_props i) n q w)) /\
    ((config_drive p = L "harddisk" /\ exists d, replaced (disks (e_ver E) m) (disks (e_ver E) m') d /\ disk_of (e_ver E) m' s' d) \/
     (config_drive p = L "cdrom" /\ removed (disks (e_ver E) m) (disks (e_ver E) m'))) /\
    (((forall g, In g (files (e_ver E) m) -> get_attr g (FILE_HREF (e_ver E)) <> Some (config_disk p)) /\ first_empty E p m k i) \/
     (exists g, In g (files (e_ver E) m) /\ get_attr g (FILE_HREF (e_ver E)) = Some (config_disk p) /\ holds (e_ver E) m i g /\
        overwrite (get_attr g (FILE_ID (e_ver E))) = true))) /\
  map fst (m_hw m') = map fst (m_hw m) /\
  (forall k' j, k' <> k -> (In (k', j) (m_hw m') <-> In (k', j) (m_hw m))).
Proof. exact inject_spec. Qed.
Print Assumptions C50_inject.

(** A second configuration replaces the first: it is put into the same drive, there is no
    further File, and the user was asked. *)
Theorem C50_again : forall agree overwrite make E fuel p wd h s m m' k agree2 overwrite2 make2 fuel2 wd2 h2 s2 m'' k2,
  orderly E m -> plain_places (m_hw m) -> drives_everywhere E (m_hw m) ->
  (config_drive p = L "harddisk" -> disk_ids_apart (e_ver E) m (mkImage wd (config_disk p) 0 0) None) -> outside p wd s ->
  inject_run agree overwrite make E fuel p wd h s m = Ok (m', k) ->
  plain_places (m_hw m') -> drives_everywhere E (m_hw m') ->
  (config_drive p = L "harddisk" -> disk_ids_apart (e_ver E) m' (mkImage wd2 (config_disk p) 0 0) None) -> outside p wd2 s2 ->
  inject_run agree2 overwrite2 make2 E fuel2 p wd2 h2 s2 m' = Ok (m'', k2) ->
  k2 = k /\ length (files (e_ver E) m'') = length (files (e_ver E) m') /\
  exists f, In f (files (e_ver E) m') /\ get_attr f (FILE_HREF (e_ver E)) = Some (config_disk p) /\ overwrite2 (get_attr f (FILE_ID (e_ver E))) = true.
Proof. exact inject_again. Qed.
Print Assumptions C50_again.

(** A configuration disk that is there is never replaced against the answer of the user. *)
Theorem C50_declined : forall agree overwrite make E fuel p wd h s m f,
  In f (files (e_ver E) m) -> get_attr f (FILE_HREF (e_ver E)) = Some (config_disk p) -> (forall id, overwrite id = false) ->
  exists e, inject_run agree overwrite make E fuel p wd h s m = Err e.
Proof. exact inject_declined. Qed.
Print Assumptions C50_declined.

(** Nothing is done if no file is given. *)
Theorem C50_nothing : forall agree overwrite make E fuel p wd h s m,
  given (s_config s) = None -> given (s_secondary s) = None -> s_extra s = [] ->
  inject_run agree overwrite make E fuel p wd h s m = Err EInvalidInput.
Proof. exact inject_nothing. Qed.
Print Assumptions C50_nothing.
(** Any one file is enough for the command to be ready. *)
Theorem C50_ready : forall s,
  inject_ready s = true <-> given (s_config s) <> None \/ given (s_secondary s) <> None \/ s_extra s <> [].
Proof. exact ready_iff. Qed.
Print Assumptions C50_ready.

(** The files that are accepted: those that exist, and configurations only where the
    platform takes one. *)
Theorem C50_accepted : forall ex p config secondary extra s,
  inject_args ex p config secondary extra = Ok s <->
  s = mkSettings config secondary extra /\
  (forall x, config = Some x -> ex x = true /\ config_text_file p <> None) /\
  (forall x, secondary = Some x -> ex x = true /\ secondary_config_text_file p <> None) /\
  (forall x, In x extra -> ex x = true).
Proof. exact inject_args_spec. Qed.
Print Assumptions C50_accepted.

(** If no empty drive is found, there is no empty CD-ROM drive; or the first Disk without a
    File has no drive. *)
Theorem C50_no_drive : forall E m p, orderly E m -> drives_everywhere E (m_hw m) ->
  find_empty_drive E m (bootstrap_disk_type p) = Ok None ->
  (config_drive p = L "cdrom" -> forall k i, In (k, i) (m_hw m) -> ~ empty_cd i) /\
  (config_drive p = L "harddisk" -> forall A d B, disks (e_ver E) m = A ++ d :: B -> (forall a, In a A -> ~ placeholder (e_ver E) m a) ->
     placeholder (e_ver E) m d -> forall k i, In (k, i) (m_hw m) -> ~ drive_of (e_ver E) m i d).
Proof. exact no_empty_drive. Qed.
Print Assumptions C50_no_drive.

(** ** Examples *)
Definition cd_item (attrs : list (str * str)) (id parent a : string) : elem :=
  an_item attrs [rasd "AddressOnParent" a; rasd "ElementName" "CD"; rasd "InstanceID" id; rasd "Parent" parent; rasd "ResourceType" "15"].
Definition cd_hw : hw := hw_of [cpu_item; ctrl_item "2" "5" "0"; cd_item [] "9" "2" "0"; cd_item [] "10" "2" "1"].
Definition cd0 : vmd := mkVmd (m_refs base) None cd_hw [].
Lemma cd_reachable : hw_reachable V1 cd_hw.
Proof. unfold cd_hw. match goal with |- hw_reachable _ (hw_of ?l) => apply (hw_of_reachable l) end. eexists. vm_compute. reflexivity. Qed.
Lemma cd0_orderly : orderly env0 cd0.
Proof. apply (empty_orderly cd_hw); [exact cd_reachable|vm_compute; reflexivity|vm_compute; reflexivity]. Qed.

Definition texts_ok (n : str) (h : hw) : bool :=
  forallb (fun ki => forallb (fun nd => negb (str_eqb (fst nd) n) ||
    forallb (fun vs => match fst vs with VStr s => forallb (fun c => negb (Ascii.eqb c ":")) s | _ => false end) (snd nd)) (i_props (snd ki))) h.
Lemma plain_places_ok : forall h, texts_ok ADDRESS h = true -> texts_ok ADDRESS_ON_PARENT h = true -> plain_places h.
Proof.
  assert (G : forall n h, texts_ok n h = true -> forall k i q w, In (k, i) h -> own (i_props i) n q w -> exists s, w = VStr s /\ ~ In ":"%char s).
  { intros n h H k i q w Hi (d & s & H1 & H2 & H3). unfold texts_ok in H. rewrite forallb_forall in H. specialize (H _ Hi). cbn [snd] in H.
    rewrite forallb_forall in H. specialize (H _ H1). cbn [fst snd] in H. rewrite str_eqb_refl in H. cbn [negb orb] in H.
    rewrite forallb_forall in H. specialize (H _ H2). cbn [fst] in H. destruct w as [t|]; [|discriminate]. exists t. split; [reflexivity|].
    intros Hc. rewrite forallb_forall in H. specialize (H _ Hc). discriminate H. }
  intros h H1 H2. split; intros k i q w; [now apply (G ADDRESS)|now apply (G ADDRESS_ON_PARENT)].
Qed.
Lemma everywhere_ok : forall h, kept V1 h -> forallb (fun ki => existsb (fun p => match p with None => true | Some _ => false end) (recs (snd ki) (INSTANCE_ID V1))) h = true ->
  drives_everywhere env0 h.
Proof.
  intros h K H k i Hi _. rewrite forallb_forall in H. specialize (H _ Hi). cbn [snd] in H. apply existsb_exists in H as (q & Hq & Eq).
  destruct q; [discriminate|]. apply recs_In in Hq as [v Hv]. left. change (e_ver env0) with V1. now exists v.
Qed.

(** The directory for temporary files, two files of the user, and programs for making an
    image, for which the size is 1000 bytes for each file. *)
Definition tmp : str := L "/tmp/cot1".
Definition the_host : host := [(L "/home/u/router.txt", L "hostname r1"); (L "day0.txt", L "hello")].
Definition mkimage (fmt : str) (l : list (str * str)) : result (Z * Z) := Ok ((1000 * Z.of_nat (length l))%Z, 1048576%Z).
Definition ask_yes (id : option str) : bool := true.
Definition ask_no (id : option str) : bool := false.
Definition both : settings := mkSettings (Some (L "/home/u/router.txt")) None [L "day0.txt"].
Definition only_config : settings := mkSettings (Some (L "day0.txt")) None [].
Notation inject p s m := (inject_run yes ask_yes mkimage env0 100 p tmp the_host s m) (only parsing).
Definition cd1 : vmd := model (inject CSR1000V both cd0).
Definition cd2 : vmd := model (inject CSR1000V only_config cd1).
Lemma inject1 : inject CSR1000V both cd0 = Ok (cd1, L "9"). Proof. vm_compute. reflexivity. Qed.
Lemma inject2 : inject CSR1000V only_config cd1 = Ok (cd2, L "9"). Proof. vm_compute. reflexivity. Qed.
Lemma outside_ok : forall s, match s with mkSettings c d x => forallb (fun y => negb (starts_with tmp y)) ((match c with Some y => [y] | None => [] end) ++ (match d with Some y => [y] | None => [] end) ++ x) end = true ->
  forall p, outside p tmp s.
Proof.
  intros [c d x] H p y n Hy Hn E. cbn [s_config s_secondary s_extra] in Hy. rewrite forallb_forall in H.
  assert (Hin : In y ((match c with Some y => [y] | None => [] end) ++ (match d with Some y => [y] | None => [] end) ++ x)).
  { apply in_or_app. destruct Hy as [-> |[-> |Hy]]; [left; now left|right; apply in_or_app; left; now left|right; apply in_or_app; now right]. }
  apply H in Hin. rewrite E in Hin. destruct p; cbn in Hn; destruct Hn as [Hn|Hn]; try discriminate; injection Hn as <-; vm_compute in Hin; discriminate.
Qed.
Lemma cd1_orderly : orderly env0 cd1.
Proof.
  refine (proj1 (C50_inject _ _ _ _ _ _ _ _ _ _ _ _ _ _ _ _ _ inject1)).
  - exact cd0_orderly.
  - apply plain_places_ok; vm_compute; reflexivity.
  - apply everywhere_ok; [exact (o_ids _ _ cd0_orderly)|vm_compute; reflexivity].
  - discriminate.
  - apply outside_ok. vm_compute. reflexivity.
Qed.

(** The second drive has the lower number (9 before 10).  The configurations have the name
    of the platform on the disk. *)
Example C50_inject_example :
  orderly env0 cd0 /\ plain_places (m_hw cd0) /\ drives_everywhere env0 (m_hw cd0) /\ outside CSR1000V tmp both /\
  inject CSR1000V both cd0 = Ok (cd1, L "9") /\
  disk_content CSR1000V the_host both [(L "iosxe_config.txt", L "hostname r1"); (L "day0.txt", L "hello")] /\
  summary cd1 = ([(Some (L "config.iso"), Some (L "config.iso"))], [],
    [row "1" ["3"; ""; ""; ""; ""]; row "2" ["5"; "0"; ""; ""; ""]; row "9" ["15"; ""; "ovf:/file/config.iso"; "2"; "0"];
     row "10" ["15"; ""; ""; "2"; "1"]])%string.
Proof.
  split; [exact cd0_orderly|]. split; [apply plain_places_ok; vm_compute; reflexivity|].
  split; [apply everywhere_ok; [exact (o_ids _ _ cd0_orderly)|vm_compute; reflexivity]|].
  split; [apply outside_ok; vm_compute; reflexivity|]. split; [exact inject1|]. split; [|vm_compute; reflexivity].
  exists [(L "iosxe_config.txt", L "hostname r1")], [], [(L "day0.txt", L "hello")]. split; [reflexivity|].
  split; [exists (L "iosxe_config.txt"), (L "hostname r1"); repeat split|]. split; [reflexivity|]. repeat constructor.
Qed.
(** The second configuration goes to the same drive. *)
Example C50_again_example :
  orderly env0 cd1 /\ plain_places (m_hw cd1) /\ drives_everywhere env0 (m_hw cd1) /\ outside CSR1000V tmp only_config /\
  inject CSR1000V only_config cd1 = Ok (cd2, L "9") /\ fst (summary cd2) = fst (summary cd1) /\
  map (fun f => get_attr f (FILE_SIZE V1)) (files V1 cd1) = [Some (L "2000")] /\
  map (fun f => get_attr f (FILE_SIZE V1)) (files V1 cd2) = [Some (L "1000")] /\
  inject_run yes ask_no mkimage env0 100 CSR1000V tmp the_host only_config cd1 = Err ESystemExit.
Proof.
  split; [exact cd1_orderly|]. split; [apply plain_places_ok; vm_compute; reflexivity|].
  split; [apply everywhere_ok; [exact (o_ids _ _ cd1_orderly)|vm_compute; reflexivity]|].
  split; [apply outside_ok; vm_compute; reflexivity|]. split; [exact inject2|].
  do 3 (split; [vm_compute; reflexivity|]). vm_compute. reflexivity.
Qed.
Example C50_accepted_example :
  inject_args (fun x => str_eqb x (L "a")) CSR1000V (Some (L "a")) None [L "a"] = Ok (mkSettings (Some (L "a")) None [L "a"]) /\
  inject_args (fun x => str_eqb x (L "a")) CSR1000V (Some (L "b")) None [] = Err EInvalidInput /\
  inject_args (fun x => str_eqb x (L "a")) CSR1000V None (Some (L "a")) [] = Err EInvalidInput /\
  inject_args (fun x => str_eqb x (L "a")) IOSXRvLC (Some (L "a")) None [] = Err EInvalidInput.
Proof. repeat split. Qed.

(** A hard disk: a Disk without a File, and its drive. *)
Definition flash : elem := attrs_elem (DISK V1) [(DISK_ID V1, "flash"%string)].
Definition spare : elem := attrs_elem (DISK V1) [(DISK_ID V1, "spare"%string)].
Definition hd_hw : hw := hw_of [cpu_item; ctrl_item "2" "5" "0"; drive_item [] "8" "ovf:/disk/flash" "2" "1"].
Definition hd_with (l : list elem) : vmd := mkVmd (m_refs base) (Some (Elem (DISK_SECTION V1) [] None None l)) hd_hw [].
Definition hd0 : vmd := hd_with [flash].
Definition hosts_are (s : string) (h : hw) : bool :=
  forallb (fun ki => forallb (fun nd => negb (str_eqb (fst nd) HOST_RESOURCE) ||
    forallb (fun vs => value_eqb (fst vs) (VStr (L s))) (snd nd)) (i_props (snd ki))) h.
Lemma hd_reachable : hw_reachable V1 hd_hw.
Proof. unfold hd_hw. match goal with |- hw_reachable _ (hw_of ?l) => apply (hw_of_reachable l) end. eexists. vm_compute. reflexivity. Qed.
Lemma hosts_are_ok : forall s h, hosts_are s h = true -> forall k i p v, In (k, i) h -> own (i_props i) HOST_RESOURCE p v -> v = VStr (L s).
Proof.
  intros s0 h B k i p v Hi (d & s & H1 & H2 & H3). unfold hosts_are in B.
  rewrite forallb_forall in B. specialize (B _ Hi). cbn [snd] in B. rewrite forallb_forall in B. specialize (B _ H1). cbn [fst snd] in B.
  rewrite str_eqb_refl in B. cbn [negb orb] in B. rewrite forallb_forall in B. specialize (B _ H2). now apply value_eqb_eq in B.
Qed.
Lemma disk_orderly : forall h l, hw_reachable V1 h -> hosts_are "ovf:/disk/flash" h = true ->
  forallb (fun ki => existsb (fun p => match p with None => true | Some _ => false end) (recs (snd ki) (INSTANCE_ID V1))) h = true ->
  forallb (fun ki => str_eqb (fst ki) (L "8") || match recs (snd ki) HOST_RESOURCE with [] => true | _ => false end) h = true ->
  l = [flash] \/ l = [spare; flash] -> orderly env0 (mkVmd (m_refs base) (Some (Elem (DISK_SECTION V1) [] None None l)) h []).
Proof.
  intros h l HRe HB B1 B2 Hl. assert (K : kept V1 h) by exact (reachable_ids V1 _ HRe).
  pose proof (hosts_are_ok "ovf:/disk/flash" h HB) as V.
  assert (Ev : forall k i, In (k, i) h -> present env0 i None).
  { intros k i Hi. rewrite forallb_forall in B1. pose proof (B1 _ Hi) as B. cbn [snd] in B. apply existsb_exists in B as (q & Hq & Eq).
    destruct q; [discriminate|]. apply recs_In in Hq as [v Hv]. left. change (e_ver env0) with V1. now exists v. }
  assert (HK : forall k i p v, In (k, i) h -> own (i_props i) HOST_RESOURCE p v -> k = L "8").
  { intros k i p v Hi Ho. rewrite forallb_forall in B2. pose proof (B2 _ Hi) as B. cbn [fst snd] in B. apply orb_prop in B as [B|B]; [now apply str_eqb_eq in B|].
    exfalso. assert (Hr : In p (recs i HOST_RESOURCE)) by (apply recs_In; now exists v). destruct (recs i HOST_RESOURCE); [exact Hr|discriminate]. }
  assert (Dl : disks V1 (mkVmd (m_refs base) (Some (Elem (DISK_SECTION V1) [] None None l)) h []) = l) by (destruct Hl as [-> | ->]; vm_compute; reflexivity).
  assert (Nf : forall d, In d l -> get_attr d (DISK_FILE_REF V1) = None).
  { intros d Hd. destruct Hl as [-> | ->]; [destruct Hd as [<-|[]]|destruct Hd as [<-|[<-|[]]]]; vm_compute; reflexivity. }
  constructor; change (e_ver env0) with V1.
  - exact K.
  - apply identified_ok; [exact K|]. apply forallb_forall. intros ki Hki. rewrite forallb_forall in B1. specialize (B1 ki Hki). cbn beta in B1. now destruct (recs (snd ki) (INSTANCE_ID V1)).
  - split; rewrite ?Dl.
    + split; [intros e []|constructor].
    + split; [intros e []|constructor].
    + split; [intros d Hd; destruct Hl as [-> | ->]; [destruct Hd as [<-|[]]|destruct Hd as [<-|[<-|[]]]]; eexists; vm_compute; reflexivity|].
      destruct Hl as [-> | ->]; vm_compute; repeat constructor; cbn; intuition discriminate.
    + intros d r Hd Hr. rewrite (Nf d Hd) in Hr. discriminate.
    + intros k i p s id Hi Ho R. apply (V k i p _ Hi) in Ho. injection Ho as ->. exists flash. split; [destruct Hl as [-> | ->]; cbn; tauto|].
      destruct R as [R|R]; [|vm_compute in R; discriminate R]. apply (app_inv_head (DISK_REF V1) (L "flash") id) in R as <-. vm_compute. reflexivity.
    + intros k i p s id Hi Ho [R|R]; apply (V k i p _ Hi) in Ho; injection Ho as ->; vm_compute in R; discriminate R.
  - intros k i Hi. split; [intros p q v w Ho Ho'; apply (V k i p _ Hi) in Ho; apply (V k i q _ Hi) in Ho'; congruence|]. intros p v _. now apply (Ev k).
  - split; rewrite ?Dl; [intros f id []|]. intros d id Hd Hi.
    destruct Hl as [-> | ->]; [destruct Hd as [<-|[]]|destruct Hd as [<-|[<-|[]]]]; vm_compute in Hi; injection Hi as <-; vm_compute; intuition discriminate.
  - intros d d' r Hd Hd' Hr. rewrite Dl in Hd. rewrite (Nf d Hd) in Hr. discriminate.
  - intros k i p s k' i' p' s' Hi Ho Hi' Ho' _. rewrite (HK k i p _ Hi Ho). symmetry. now apply (HK k' i' p' (VStr s')).
  - split; [constructor|]. intros x. split; [intros [d F]; discriminate F|intros (f & [] & _)].
Qed.
Lemma hd_orderly : forall l, l = [flash] \/ l = [spare; flash] -> orderly env0 (hd_with l).
Proof. intros l. apply (disk_orderly hd_hw l hd_reachable); vm_compute; reflexivity. Qed.
Definition hd1 : vmd := model (inject IOSv both hd0).
Lemma inject_hd : inject IOSv both hd0 = Ok (hd1, L "8"). Proof. vm_compute. reflexivity. Qed.
Example C50_harddisk_example :
  orderly env0 hd0 /\ plain_places (m_hw hd0) /\ drives_everywhere env0 (m_hw hd0) /\ outside IOSv tmp both /\
  disk_ids_apart V1 hd0 (mkImage tmp (config_disk IOSv) 0 0) None /\
  inject IOSv both hd0 = Ok (hd1, L "8") /\
  summary hd1 = ([(Some (L "config.vmdk"), Some (L "config.vmdk"))], [(Some (L "flash"), Some (L "config.vmdk"))],
    [row "1" ["3"; ""; ""; ""; ""]; row "2" ["5"; "0"; ""; ""; ""]; row "8" ["17"; ""; "ovf:/disk/flash"; "2"; "1"]])%string.
Proof.
  split; [apply hd_orderly; now left|]. split; [apply plain_places_ok; vm_compute; reflexivity|].
  split; [apply everywhere_ok; [exact (o_ids _ _ (hd_orderly _ (or_introl eq_refl)))|vm_compute; reflexivity]|].
  split; [apply outside_ok; vm_compute; reflexivity|]. split; [|split; [exact inject_hd|vm_compute; reflexivity]].
  intros x Hx d [<-|[]] Hd. vm_compute in Hd. injection Hd as <-. destruct Hx as [F|[F|(f & [] & _)]]; vm_compute in F; discriminate.
Qed.

(** ** What does not hold *)

(** The first Disk without a File has no drive: none is found, although the second has
    one. *)
Lemma host_there : forall s h k i, hosts_are s h = true ->
  forallb (fun ki => negb (str_eqb (fst ki) k) || match recs (snd ki) HOST_RESOURCE with [] => false | _ => true end) h = true ->
  In (k, i) h -> exists p, own (i_props i) HOST_RESOURCE p (VStr (L s)).
Proof.
  intros s h k i A B Ei. rewrite forallb_forall in B. specialize (B _ Ei). cbn [fst snd] in B. rewrite str_eqb_refl in B. cbn [negb orb] in B.
  destruct (recs i HOST_RESOURCE) as [|p l] eqn:Er; [discriminate|]. exists p.
  assert (Hp : In p (recs i HOST_RESOURCE)) by (rewrite Er; now left). apply recs_In in Hp as [v Hv].
  now rewrite (hosts_are_ok s h A k i p v Ei Hv) in Hv.
Qed.
Lemma taken_there : forall (h : hw) k, existsb (str_eqb k) (map fst h) = true -> exists i, In (k, i) h.
Proof.
  intros h k H. apply existsb_exists in H as (x & Hx & Ex). apply str_eqb_eq in Ex as <-. apply in_map_iff in Hx as ([a i] & Ea & Hi). cbn in Ea. subst a. now exists i.
Qed.
Lemma flash_there : In flash (disks V1 (hd_with [spare; flash])).
Proof. right. now left. Qed.
Lemma flash_placeholder : placeholder V1 (hd_with [spare; flash]) flash.
Proof. split; [exact flash_there|vm_compute; reflexivity]. Qed.
Lemma flash_drive : exists i, In (L "8", i) hd_hw /\ drive_of V1 (hd_with [spare; flash]) i flash.
Proof.
  destruct (taken_there hd_hw (L "8") ltac:(vm_compute; reflexivity)) as [i Hi]. exists i. split; [exact Hi|].
  destruct (host_there "ovf:/disk/flash" hd_hw (L "8") i ltac:(vm_compute; reflexivity) ltac:(vm_compute; reflexivity) Hi) as [p Hp].
  exists p, (L "ovf:/disk/flash"). split; [exact Hp|]. clear Hi Hp. split; [exact flash_there|]. exists (L "flash"). split; [vm_compute; reflexivity|]. left. reflexivity.
Qed.
Lemma flash_fails : inject IOSv both (hd_with [spare; flash]) = Err ELookupError. Proof. vm_compute. reflexivity. Qed.
Theorem C50_spare_disk_refuted : exists k i, orderly env0 (hd_with [spare; flash]) /\
  In (k, i) (m_hw (hd_with [spare; flash])) /\ drive_of V1 (hd_with [spare; flash]) i flash /\ placeholder V1 (hd_with [spare; flash]) flash /\
  inject IOSv both (hd_with [spare; flash]) = Err ELookupError.
Proof.
  destruct flash_drive as (i & Hi & Hd). exists (L "8"), i. split; [apply hd_orderly; right; reflexivity|]. split; [exact Hi|]. split; [exact Hd|].
  split; [exact flash_placeholder|exact flash_fails].
Qed.

(** A File of the name of the configuration disk that is in no drive: the user is asked to
    overwrite it, and agrees; there is an empty drive, but the command fails. *)
Definition loose : vmd := match add_file_run yes env0 cd0 (mkImage (L "/in") (L "config.iso") 5 5) None with Ok m => m | Err _ => base end.
Theorem C50_loose_file_refuted : orderly env0 loose /\ find_empty_drive env0 loose (L "cdrom") = Ok (Some (L "9")) /\
  inject CSR1000V both loose = Err ELookupError.
Proof.
  split; [|split; vm_compute; reflexivity].
  refine (proj1 (C30_add_file yes env0 cd0 (mkImage (L "/in") (L "config.iso") 5 5) None loose cd0_orderly _ _ _)).
  - apply no_slash_ok. vm_compute. reflexivity.
  - apply agree_ok. vm_compute. reflexivity.
  - vm_compute. reflexivity.
Qed.

(** A CD-ROM drive that exists in a named profile only is found empty, but not found again by
    its address: another drive is added at the same place. *)
Definition named_hw : hw := hw_of [cpu_item; ctrl_item "2" "5" "0"; cd_item [(ITEM_CONFIG V1, L "big")] "9" "2" "0"].
Definition named0 : vmd := mkVmd (m_refs base) None named_hw [].
Lemma named_reachable : hw_reachable V1 named_hw.
Proof. unfold named_hw. match goal with |- hw_reachable _ (hw_of ?l) => apply (hw_of_reachable l) end. eexists. vm_compute. reflexivity. Qed.
Definition place (m : vmd) (k : string) (p : profile) : list (option (result (option value))) :=
  map (fun n => shown (m_hw m) (L k) n p) [PARENT; ADDRESS_ON_PARENT; HOST_RESOURCE].
Theorem C50_named_drive_refuted : exists m', orderly env0 named0 /\ plain_places (m_hw named0) /\
  find_empty_drive env0 named0 (L "cdrom") = Ok (Some (L "9")) /\
  inject CSR1000V both named0 = Ok (m', L "3") /\ map fst (m_hw m') = map L ["1"; "2"; "9"; "3"]%string /\
  place m' "9" (Some (L "big")) = map (fun x => Some (Ok x)) [Some (VStr (L "2")); Some (VStr (L "0")); None] /\
  place m' "3" None = map (fun x => Some (Ok x)) [Some (VStr (L "2")); Some (VStr (L "0")); Some (VStr (L "ovf:/file/config.iso"))].
Proof.
  eexists. split; [apply (empty_orderly named_hw); [exact named_reachable|vm_compute; reflexivity|vm_compute; reflexivity]|].
  split; [apply plain_places_ok; vm_compute; reflexivity|]. split; [vm_compute; reflexivity|]. split; [vm_compute; reflexivity|].
  split; [vm_compute; reflexivity|]. split; vm_compute; reflexivity.
Qed.
